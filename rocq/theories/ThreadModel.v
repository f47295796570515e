(** * Writing from several threads

    Model of MT::LCWriter, src/cpp/include/MT/LCWriter.h and src/cpp/src/MT/LCWriter.cc, used by several
    threads at the same time.  A step of a thread makes one access to what is shared: an atomic
    variable, the mutex, or, with the mutex, the stream or the random access manager.  Run headers
    and events are not shared between threads, and are given as values. *)

From Verif Require Import Bytes StrMap SioModel Ieee ObjModel EventModel IndexModel FileModel.

(** a call, LCWriter.cc:84, 90, 146 and 202 *)
Inductive top : Type := TWrite (i : witem) | TLevel (z : Z) | TClose.
(** the outcome of a call, LCWriter.cc:84-208 *)
Inductive tans : Type := TDone | TThrew (e : exn).

(** the members of LCWriter, LCWriter.h:105-113; [sh_file] is what the closed file contains *)
Record shared := mkSh {
  sh_out : option ofs; sh_mgr : option ramgr; sh_max : Z; sh_level : Z; sh_lock : option nat; sh_file : bytes }.

(** Where a thread is in a call.  [raws] are the records in their buffers, [key] the entry of the index,
    [size] the size of the last buffer, [recs] the bytes of the records. LCWriter.cc:84-208. *)
Inductive pc : Type :=
| PStart                                                          (* LCWriter.cc:90-93, 146-148, 84, 202 *)
| PBuf (i : witem) (buflen : Z)                                     (* 94-97, 149-157 *)
| PTest (i : witem) (key : runevt) (raws : list (record_info * buffer))    (* 99, 160 *)
| PComp (i : witem) (key : runevt) (raws : list (record_info * buffer))    (* 101-106, 162-167 *)
| PLock (key : runevt) (recs : list bytes) (size : Z)                    (* 109, 124, 169, 185 *)
| PCheck (key : runevt) (recs : list bytes) (size : Z)                  (* 110, 125, 170, 186 *)
| PPut (key : runevt) (start : option Z) (recs : list bytes) (size : Z)   (* 113, 128, 174-175, 189-190 *)
| PAdd (key : runevt) (start : Z) (size : Z)                           (* 115, 130, 177, 192 *)
| PMax (size : Z)                                                  (* 117-119, 132-134, 179-181, 194-196 *)
| PUnlock (a : tans)                                               (* 120, 135, 182, 197, 208 *)
| PClose | PReset | PShut.                                          (* 204-205, 206, 207 *)

(** a thread: where it is, the calls it has not finished, and those it has, with their outcomes,
    no code of its own: std::thread calling LCWriter.cc:84-208 *)
Record thread := mkTh { th_pc : pc; th_todo : list top; th_done : list (top * tans) }.

Section Threads.
Context (comp : Z -> bytes -> bytes).

(** sio::buffer::buffer, sio/src/buffer.cc:159-164 *)
Definition new_buffer (n : Z) : Res buffer :=
  if n =? 0 then Throw EInvalidArgument else Ok (mkBuffer (repeat Init.Byte.x00 (Z.to_nat n)) true).

(** the records of an item in new buffers, LCWriter.cc:94-97 and 149-157 *)
Definition raw_item (buflen : Z) (i : witem) : Res (list (record_info * buffer) * runevt) :=
  match i with
  | WRun r =>
      do b1 <- new_buffer buflen;
      do '(ri, b) <- write_run_record b1 r;
      Ok ([(ri, b)], (rh_run r, -1))
  | WEvt h e only =>
      do b1 <- new_buffer buflen;
      do b2 <- new_buffer buflen;
      do '(rh, bh) <- write_header_record b1 only e;
      do '(_, re, be) <- write_event_record b2 only h e;
      Ok ([(rh, bh); (re, be)], (ev_run e, ev_num e))
  end.
(** what is written to the stream without compression, LCWriter.cc:128, 189-190, and with it,
    LCWriter.cc:106, 113, 166-167, 174-175 *)
Definition plain_text (rb : record_info * buffer) : bytes := stream_record (b_bytes (snd rb)).
Definition comp_text (z : Z) (rb : record_info * buffer) : Res bytes :=
  do '(ri, b, cdata) <- compress_record (comp z) (fst rb) (snd rb);
  do hdr <- span (b_bytes b) 0 (ri_hlen ri);
  Ok (stream_record2 hdr cdata).
Fixpoint comp_texts (z : Z) (raws : list (record_info * buffer)) : Res (list bytes) :=
  match raws with
  | [] => Ok []
  | rb :: raws' => do x <- comp_text z rb; do l <- comp_texts z raws'; Ok (x :: l)
  end.
(** rawBuffer.size() or evtRawBuffer.size() *)
Definition last_size (raws : list (record_info * buffer)) : Z := fold_left (fun _ rb => Zlen (b_bytes (snd rb))) raws 0.

(** assignments to the members, LCWriter.h:105-113 *)
Definition set_out (sh : shared) (o : option ofs) : shared := mkSh o (sh_mgr sh) (sh_max sh) (sh_level sh) (sh_lock sh) (sh_file sh).
Definition set_mgr (sh : shared) (g : option ramgr) : shared := mkSh (sh_out sh) g (sh_max sh) (sh_level sh) (sh_lock sh) (sh_file sh).
Definition set_max (sh : shared) (n : Z) : shared := mkSh (sh_out sh) (sh_mgr sh) n (sh_level sh) (sh_lock sh) (sh_file sh).
Definition set_lev (sh : shared) (z : Z) : shared := mkSh (sh_out sh) (sh_mgr sh) (sh_max sh) z (sh_lock sh) (sh_file sh).
Definition set_lock (sh : shared) (l : option nat) : shared := mkSh (sh_out sh) (sh_mgr sh) (sh_max sh) (sh_level sh) l (sh_file sh).

(** the call ends, LCWriter.cc:86, 136, 199 and 208 *)
Definition finish (th : thread) (a : tans) : thread :=
  match th_todo th with
  | [] => th
  | o :: l => mkTh PStart l (th_done th ++ [(o, a)])
  end.
Definition goto (th : thread) (p : pc) : thread := mkTh p (th_todo th) (th_done th).
(** an exception or undefined behaviour outside the locked scopes, LCWriter.cc:90-106 and 146-167 *)
Definition catch {A} (r : Res A) (sh : shared) (th : thread) (k : A -> Res (shared * thread)) : Res (shared * thread) :=
  match r with
  | Ok x => k x
  | Throw e => Ok (sh, finish th (TThrew e))
  | UB u => UB u
  end.
(** taking the mutex: nothing happens while it is held, LCWriter.cc:109, 124, 169, 185 and 203 *)
Definition take (t : nat) (sh : shared) (th : thread) (p : pc) : Res (shared * thread) :=
  match sh_lock sh with
  | None => Ok (set_lock sh (Some t), goto th p)
  | Some _ => Ok (sh, th)
  end.

(** a step of thread [t]: LCWriter.cc:84-208 *)
Definition tstep (t : nat) (sh : shared) (th : thread) : Res (shared * thread) :=
  match th_pc th with
  | PStart =>
      match th_todo th with
      | [] => Ok (sh, th)
      | TWrite i :: _ => Ok (sh, goto th (PBuf i (sh_max sh)))
      | TLevel z :: _ => Ok (set_lev sh z, finish th TDone)
      | TClose :: _ => take t sh th PClose
      end
  | PBuf i buflen => catch (raw_item buflen i) sh th (fun '(raws, key) => Ok (sh, goto th (PTest i key raws)))
  | PTest i key raws =>
      if negb (sh_level sh =? 0) then Ok (sh, goto th (PComp i key raws))
      else Ok (sh, goto th (PLock key (map plain_text raws) (last_size raws)))
  | PComp i key raws =>
      catch (comp_texts (sh_level sh) raws) sh th (fun recs => Ok (sh, goto th (PLock key recs (last_size raws))))
  | PLock key recs size => take t sh th (PCheck key recs size)
  | PCheck key recs size =>
      match sh_out sh with
      | None => Ok (sh, goto th (PUnlock (TThrew LIOException)))
      | Some _ => Ok (sh, goto th (PPut key None recs size))
      end
  | PPut key start recs size =>
      match sh_out sh, recs with
      | Some o, x :: recs' =>
          let start' := match start with None => Some (o_pos o) | Some p => Some p end in
          Ok (set_out sh (Some (o_write o x)), goto th (PPut key start' recs' size))
      | Some o, [] => Ok (sh, goto th (PAdd key (match start with None => o_pos o | Some p => p end) size))
      | None, _ => Throw EBadState
      end
  | PAdd key start size =>
      match sh_mgr sh with
      | None => UB UBNullDeref
      | Some g => Ok (set_mgr sh (Some (mg_add g key start)), goto th (PMax size))
      end
  | PMax size => Ok (if sh_max sh <? size then set_max sh (u32 size) else sh, goto th (PUnlock TDone))
  | PUnlock a => Ok (set_lock sh None, finish th a)
  | PClose =>
      match sh_mgr sh with
      | None => UB UBNullDeref
      | Some g =>
          match sh_out sh with
          | Some o =>
              match write_access g o with
              | Ok (g', o') => Ok (set_out (set_mgr sh (Some (mg_clear g'))) (Some o'), goto th PReset)
              | Throw e => Ok (sh, goto th (PUnlock (TThrew e)))
              | UB u => UB u
              end
          | None =>
              match rm_map (mg_map g) with
              | [] => Ok (set_mgr sh (Some (mg_clear g)), goto th PReset)
              | _ => Ok (sh, goto th (PUnlock (TThrew LIOException)))
              end
          end
      end
  | PReset => Ok (set_mgr sh None, goto th PShut)
  | PShut =>
      match sh_out sh with
      | Some o => Ok (mkSh None (sh_mgr sh) (sh_max sh) (sh_level sh) (sh_lock sh) (o_data o), goto th (PUnlock TDone))
      | None => Ok (sh, goto th (PUnlock TDone))
      end
  end.

(** all threads, no code of its own: the scheduler of the threads that call LCWriter.cc:84-208 *)
Fixpoint update {A} (l : list A) (k : nat) (x : A) : list A :=
  match l, k with
  | [], _ => []
  | _ :: l', O => x :: l'
  | y :: l', S k' => y :: update l' k' x
  end.
Definition all_step (t : nat) (st : shared * list thread) : Res (shared * list thread) :=
  match nth_error (snd st) t with
  | None => Ok st
  | Some th => do '(sh, th') <- tstep t (fst st) th; Ok (sh, update (snd st) t th')
  end.
(** a schedule says which thread makes the next step, no code of its own, see LCWriter.cc:84-208 *)
Fixpoint run_threads (sched : list nat) (st : shared * list thread) : Res (shared * list thread) :=
  match sched with
  | [] => Ok st
  | t :: sched' => do st' <- all_step t st; run_threads sched' st'
  end.

(** The writer [w] has opened a file, LCWriter.cc:37-80.  [max] is 2465792 in a new writer, LCWriter.h:107;
    it is kept when another file is opened. *)
Definition begin_threads (w : writer) (max : Z) (progs : list (list top)) : shared * list thread :=
  (mkSh (Some (wr_o w)) (Some (wr_mgr w)) max (wr_level w) None [], map (fun p => mkTh PStart p []) progs).

End Threads.

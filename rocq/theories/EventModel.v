(** * Run headers, event headers and event records

    Model of src/cpp/src/SIO/SIORunHeaderHandler.cc, SIOEventHandler.cc, LCIORecords.cc and of
    the treatment of an event after reading, src/cpp/src/MT/LCReader.cc (postProcessEvent) and
    src/cpp/src/SIO/SIOParticleHandler.cc (restoreParentDaughterRelations).

    An event owns its collections by name; the same collection object under two names is not
    modelled. *)

From Verif Require Import Bytes StrMap SioModel Ieee ObjModel ObjSpec.

(** src/cpp/include/SIO/LCSIO.h:25-34 *)
Definition run_record : bytes := str "LCRunHeader".
Definition run_block : bytes := str "RunHeader".
Definition event_record : bytes := str "LCEvent".
Definition header_record : bytes := str "LCEventHeader".
Definition header_block : bytes := str "EventHeader".

(** LCSIO::checkVersion, src/cpp/src/SIO/LCSIO.cc:10-13: major < 1 and minor < 8 *)
Definition check_version (vers : Z) : RD unit :=
  if (Z.shiftr vers 16 <? 1) && (Z.land vers 65535 <? 8) then rthrow EInvalidArgument else rret tt.

(** ** Run headers *)

(** src/cpp/include/IMPL/LCRunHeaderImpl.h (members), 80-85 *)
Record runhdr := mkRun { rh_run : Z; rh_det : bytes; rh_desc : bytes; rh_subs : list bytes; rh_par : params }.
(** src/cpp/src/IMPL/LCRunHeaderImpl.cc:8-10 *)
Definition new_runhdr : runhdr := mkRun 0 [] [] [] no_params.

(** SIORunHeaderHandler::write, src/cpp/src/SIO/SIORunHeaderHandler.cc:58-69 *)
Definition write_runhdr (r : runhdr) : list dcall :=
  w_i32 (rh_run r) ++ w_string (rh_det r) ++ w_string (rh_desc r)
  ++ w_i32 (cnt (rh_subs r)) ++ flat_map w_string (rh_subs r) ++ w_params (rh_par r).
(** SIORunHeaderHandler::read, SIORunHeaderHandler.cc:27-54, into a new run header *)
Definition read_runhdr (vers : Z) : RD runhdr :=
  let* _ := check_version vers in
  let* run := r_i32 in
  let* det := r_string in
  let* desc := r_string in
  let* n := r_i32 in
  let* subs := r_loop n r_string in
  let* p := r_when (vgt vers 1 1) (r_params no_params) no_params in
  rret (mkRun run det desc subs p).

(** ** Event headers *)

(** src/cpp/include/IMPL/LCEventImpl.h (members); the collections in the order of their names, 174-183 *)
Record event := mkEvt {
  ev_run : Z; ev_num : Z; ev_time : Z; ev_det : bytes; ev_par : params; ev_cols : list (bytes * coll) }.
(** src/cpp/src/IMPL/LCEventImpl.cc:16-21 *)
Definition new_event : event := mkEvt 0 0 0 (str "unknown") no_params [].

(** SIOEventHandler::SubsetPostfix, src/cpp/include/SIO/SIOEventHandler.h:43 *)
Definition subset_postfix : bytes := str "_References".

(** is [p] at the beginning of [s]?  Part of [std::string::rfind], used at src/cpp/src/SIO/SIOEventHandler.cc:55 *)
Fixpoint starts_with (p s : bytes) : bool :=
  match p, s with
  | [], _ => true
  | a :: p', b :: s' => Byte.eqb a b && starts_with p' s'
  | _, [] => false
  end.
(** [s.substr( 0, s.rfind( p ) )] if there is an occurrence:
    src/cpp/src/SIO/SIOEventHandler.cc:54-57 *)
Fixpoint before_last (p s : bytes) : option bytes :=
  match s with
  | [] => if starts_with p [] then Some [] else None
  | b :: s' => match before_last p s' with
               | Some pre => Some (b :: pre)
               | None => if starts_with p s then Some [] else None
               end
  end.

(** [_colSubSet.empty() || _colSubSet.find( name ) != _colSubSet.end()]: SIOEventHandler.cc:59,
    75, 93, LCIORecords.cc:58 *)
Definition selected (names : list bytes) (n : bytes) : bool :=
  match names with [] => true | _ => existsb (bytes_eqb n) names end.
(** the collections that are written: neither transient nor deselected *)
Definition to_write (only : list bytes) (nc : bytes * coll) : bool :=
  negb (bit_set (c_flag (snd nc)) BITTransient) && selected only (fst nc).

(** the type name in the header: SIOEventHandler.cc:96-99 *)
Definition header_type (c : coll) : bytes :=
  if bit_set (c_flag c) BITSubset then c_type c ++ subset_postfix else c_type c.
(** SIOEventHandler::write, SIOEventHandler.cc:71-104 *)
Definition write_evhdr (only : list bytes) (e : event) : list dcall :=
  let cols := filter (to_write only) (ev_cols e) in
  w_i32 (ev_run e) ++ w_i32 (ev_num e) ++ w_i64 (ev_time e) ++ w_string (ev_det e)
  ++ w_u32 (Zlen cols)
  ++ flat_map (fun nc => w_string (fst nc) ++ w_string (header_type (snd nc))) cols
  ++ w_params (ev_par e).

(** LCEventImpl::addCollection, src/cpp/src/IMPL/LCEventImpl.cc:107-130, of a collection that
    exists; [validate] is the test of validateCollectionName (195-210), identical to the one of
    sio *)
Definition add_coll (cols : list (bytes * coll)) (name : bytes) (c : coll) : Res (list (bytes * coll)) :=
  if negb (validate name) then Throw LEventException else
  match sm_get name cols with
  | Some _ => Throw LEventException
  | None => Ok (sm_set name c cols)
  end.

(** one turn of the loop SIOEventHandler.cc:50-62; a new collection has flag 0, no parameters
    and no elements (src/cpp/src/IMPL/LCCollectionVec.cc:13-15) *)
Definition read_col (names : list bytes) (cols : list (bytes * coll)) : RD (list (bytes * coll)) :=
  let* name := r_string in
  let* ty := r_string in
  let ty' := match before_last subset_postfix ty with Some t => t | None => ty end in
  if selected names name
  then fun d => match add_coll cols name (mkColl ty' 0 no_params []) with
                | Ok cs => Ok (cs, d) | Throw e => Throw e | UB u => UB u end
  else rret cols.
Fixpoint read_cols (n : nat) (names : list bytes) (cols : list (bytes * coll)) : RD (list (bytes * coll)) :=
  match n with
  | O => rret cols
  | S n' => let* cols := read_col names cols in read_cols n' names cols
  end.
(** SIOEventHandler::read, SIOEventHandler.cc:36-67, into a new event *)
Definition read_evhdr (names : list bytes) (vers : Z) : RD event :=
  let* _ := check_version vers in
  let* run := r_i32 in
  let* num := r_i32 in
  let* time := r_i64 in
  let* det := r_string in
  let* n := r_i32 in
  let* cols := read_cols (Z.to_nat n) names [] in
  let* p := r_when (vgt vers 1 1) (r_params no_params) no_params in
  rret (mkEvt run num time det p cols).

(** ** Records *)

(** the block list of SIOEventRecord::setupBlocks, src/cpp/src/SIO/LCIORecords.cc:50-66, and
    the calls of [write] of its blocks in turn.  Writing modifies collections: the event after
    it is returned.  A collection of unknown type has a null handler. *)
Fixpoint event_blocks (only : list bytes) (h : heap) (cols : list (bytes * coll))
  : Res (list wblock * list (bytes * coll)) :=
  match cols with
  | [] => Ok ([], [])
  | (n, c) :: cols' =>
      if to_write only (n, c) then
        match get_handler (c_type c) with
        | None => UB UBNullDeref
        | Some ty =>
            do '(c', cs) <- write_coll ty h c;
            do '(bs, rest) <- event_blocks only h cols';
            Ok (mkWB n cur_vers cs :: bs, (n, c') :: rest)
        end
      else
        do '(bs, rest) <- event_blocks only h cols';
        Ok (bs, (n, c) :: rest)
  end.

(** SIORunHeaderRecord::writeRecord, LCIORecords.cc:105-111 *)
Definition write_run_record (buf : buffer) (r : runhdr) : Res (record_info * buffer) :=
  write_record run_record buf [mkWB run_block cur_vers (write_runhdr r)] 0.
(** SIOEventHeaderRecord::writeRecord, LCIORecords.cc:28-45 *)
Definition write_header_record (buf : buffer) (only : list bytes) (e : event) : Res (record_info * buffer) :=
  write_record header_record buf [mkWB header_block cur_vers (write_evhdr only e)] 0.
(** SIOEventRecord::writeRecord, LCIORecords.cc:78-90 *)
Definition write_event_record (buf : buffer) (only : list bytes) (h : heap) (e : event)
  : Res (event * record_info * buffer) :=
  do '(bs, cols) <- event_blocks only h (ev_cols e);
  do '(ri, buf') <- write_record event_record buf bs 0;
  Ok (mkEvt (ev_run e) (ev_num e) (ev_time e) (ev_det e) (ev_par e) cols, ri, buf').

(** SIORunHeaderRecord::readBlocks, LCIORecords.cc:95-101.  (Of several blocks with the same
    name in one record, which are never written, the last one counts in the model.) *)
Definition read_run_record (data : bytes) : Res runhdr :=
  do '(out, _, _) <- read_blocks data [mkRB run_block read_runhdr] 1;
  Ok (last (map snd out) new_runhdr).
(** SIOEventHeaderRecord::readBlocks, LCIORecords.cc:17-24 *)
Definition read_header_record (names : list bytes) (data : bytes) : Res event :=
  do '(out, _, _) <- read_blocks data [mkRB header_block (read_evhdr names)] 1;
  Ok (last (map snd out) new_event).

Section Reading.
(** the sort of the particle ids, see ObjModel *)
Context (srt : forall A : Type, (A -> Z) -> list A -> list A).

(** setupBlocks for reading, LCIORecords.cc:50-66; also LCEventLazyImpl::setupBlocks,
    src/cpp/src/IOIMPL/LCEventLazyImpl.cc:106-114.  A null handler is dereferenced when a block
    with the name of the collection is found. *)
Definition coll_handlers (cols : list (bytes * coll)) : list (rblock rcoll) :=
  map (fun nc => mkRB (fst nc) (fun vers =>
         match get_handler (c_type (snd nc)) with
         | Some ty => read_coll srt ty vers
         | None => rub UBNullDeref
         end)) cols.

(** the read relocation applied to a collection just read (sio/src/api.cc:20-39): every pointer
    registered with SIO_PNTR.  Pointer members that are not registered are null, for which
    [reloc_ptr] is the identity. *)
Definition reloc_rcoll (at_ : list (Z * addr)) (rc : rcoll) : rcoll :=
  mkRC (rc_flag rc) (rc_par rc)
       (if bit_set (rc_flag rc) BITSubset then map (reloc_ptr at_) (rc_elems rc) else rc_elems rc)
       (map (fun ao => (fst ao, map_refs (reloc_ptr at_) (snd ao))) (rc_objs rc)).

(** the last value stored under a name, when the same block is read twice, sio/src/api.cc:283-308 *)
Definition last_of {A} (n : bytes) (l : list (bytes * A)) : option A :=
  last (map (fun x => Some (snd x)) (filter (fun x => bytes_eqb (fst x) n) l)) None.

(** the collections of the event and the objects in memory after reading the blocks,
    SIOCollectionHandler.cc:41-69 fills the collections that SIOEventHandler.cc:50-61 has put into the event *)
Definition filled (cols : list (bytes * coll)) (out : list (bytes * rcoll)) : list (bytes * coll) :=
  map (fun nc => (fst nc, match last_of (fst nc) out with
                          | Some rc => mkColl (c_type (snd nc)) (rc_flag rc) (rc_par rc) (rc_elems rc)
                          | None => snd nc
                          end)) cols.
Definition heap_of (l : list (addr * obj)) : heap := fun a => assoc a l.

(** SIOEventRecord::readBlocks, LCIORecords.cc:70-74.  A record with two blocks for the same collection,
    never written, is outside the model: the second block moves the elements of the collection
    (SIOCollectionHandler.cc:46), and if it is a subset the pointers that were registered with the first
    block dangle when they are relocated *)
Fixpoint repeats (l : list bytes) : bool :=
  match l with [] => false | n :: l' => existsb (bytes_eqb n) l' || repeats l' end.
Definition read_event_record (data : bytes) (e : event) (next : addr) : Res (event * heap * addr) :=
  do '(out, at_, next') <- read_blocks data (coll_handlers (ev_cols e)) next;
  if repeats (map fst out) then UB UBPrecondition else
  let out := map (fun x => (fst x, reloc_rcoll at_ (snd x))) out in
  Ok (mkEvt (ev_run e) (ev_num e) (ev_time e) (ev_det e) (ev_par e) (filled (ev_cols e) out),
      heap_of (flat_map (fun x => rc_objs (snd x)) out), next').

(** ** Post processing *)

(** a member function that changes the object at an address, as src/cpp/src/SIO/SIOParticleHandler.cc:120 and 127 *)
Definition hupd (h : heap) (a : addr) (o : obj) : heap := fun b => if b =? a then Some o else h b.

(** the MCParticle at an address; a null pointer or another class is dereferenced,
    src/cpp/src/SIO/SIOParticleHandler.cc:108, 113 and 118 *)
Definition mcp_at (h : heap) (a : addr) : Res mcp :=
  if a =? 0 then UB UBNullDeref else match h a with Some (OMC o) => Ok o | _ => UB UBNullDeref end.

(** totals of daughters and parents: src/cpp/src/SIO/SIOParticleHandler.cc:106-112 (the [int]
    counters are not wrapped) *)
Fixpoint count_links (h : heap) (l : list addr) : Res (Z * Z) :=
  match l with
  | [] => Ok (0, 0)
  | a :: l' => do o <- mcp_at h a;
               do '(nd, np) <- count_links h l';
               Ok (Zlen (mc_daughters o) + nd, Zlen (mc_parents o) + np)
  end.

(** SIOParticleHandler.cc:127 and 120: push_back *)
Definition add_daughter (d : addr) (o : mcp) : mcp :=
  mkMC (mc_parents o) (mc_pdg o) (mc_gen o) (mc_sim o) (mc_vertex o) (mc_time o) (mc_p o) (mc_mass o)
       (mc_charge o) (mc_endpoint o) (mc_pend o) (mc_spin o) (mc_color o) (mc_daughters o ++ [d]).
Definition add_parent (p : addr) (o : mcp) : mcp :=
  mkMC (mc_parents o ++ [p]) (mc_pdg o) (mc_gen o) (mc_sim o) (mc_vertex o) (mc_time o) (mc_p o) (mc_mass o)
       (mc_charge o) (mc_endpoint o) (mc_pend o) (mc_spin o) (mc_color o) (mc_daughters o).
(** the inner loops SIOParticleHandler.cc:117-121 and 124-128 *)
Fixpoint push_each (f : mcp -> mcp) (h : heap) (l : list addr) : Res heap :=
  match l with
  | [] => Ok h
  | a :: l' => do o <- mcp_at h a; push_each f (hupd h a (OMC (f o))) l'
  end.
(** the loop over the particles, SIOParticleHandler.cc:113-130 *)
Fixpoint restore_elems (nd np : Z) (h : heap) (l : list addr) : Res heap :=
  match l with
  | [] => Ok h
  | a :: l' =>
      do o <- mcp_at h a;
      do h' <- (if (np =? 0) && (0 <? nd) then push_each (add_parent a) h (mc_daughters o)
                else if (0 <? np) && (nd =? 0) then push_each (add_daughter a) h (mc_parents o)
                else Ok h);
      restore_elems nd np h' l'
  end.
(** SIOParticleHandler::restoreParentDaughterRelations, SIOParticleHandler.cc:100-133 *)
Fixpoint restore (h : heap) (cols : list (bytes * coll)) : Res heap :=
  match cols with
  | [] => Ok h
  | (_, c) :: cols' =>
      if bytes_eqb (c_type c) (str "MCParticle") && negb (bit_set (c_flag c) BITSubset) then
        do '(nd, np) <- count_links h (c_elems c);
        do h' <- restore_elems nd np h (c_elems c);
        restore h' cols'
      else restore h cols'
  end.

(** LCReader::postProcessEvent, src/cpp/src/MT/LCReader.cc:563-587 (and
    LCEventLazyImpl::postProcessEvent, LCEventLazyImpl.cc:80-102); [ignore_null]: the environment
    variable LCIO_IGNORE_NULL_IN_SUBSET_COLLECTIONS is set *)
Definition null_in_subset (cols : list (bytes * coll)) : bool :=
  existsb (fun nc => bit_set (c_flag (snd nc)) BITSubset && existsb (fun a => a =? 0) (c_elems (snd nc))) cols.
Definition post_process (ignore_null : bool) (h : heap) (e : event) : Res heap :=
  do h' <- restore h (ev_cols e);
  if negb ignore_null && null_in_subset (ev_cols e) then Throw LException else Ok h'.

(** reading an event from the data of its two records, LCReader.cc:141-186 and 203-207 (without
    lazy unpacking) *)
Definition read_event (ignore_null : bool) (names : list bytes) (hdata edata : bytes) (next : addr)
  : Res (event * heap * addr) :=
  do e0 <- read_header_record names hdata;
  do '(e, h, next') <- read_event_record edata e0 next;
  do h' <- post_process ignore_null h e;
  Ok (e, h', next').

End Reading.

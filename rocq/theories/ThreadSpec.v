(** * Writing from several threads: specification *)

From Coq Require Import Permutation.
From Verif Require Import Bytes StrMap SioModel SioSpec Ieee ObjModel ObjSpec EventModel EventSpec EventFacts IndexModel IndexSpec FileModel FileSpec ThreadModel.

(** ** Levels

    A record may be compressed at any level, level 0 included, when the level changes between the test
    and its use; without compression it has the label 0, at level [z] the label [lab z]. *)
Definition lab (z : Z) : Z := if z <? 0 then z else z + 1.
Definition unlab (n : Z) : Z := if n <? 0 then n else n - 1.
Definition labelled_comp (comp : Z -> bytes -> bytes) (n : Z) : bytes -> bytes := comp (unlab n).
(** the codec is invertible at all levels *)
Definition codec_all (comp : Z -> bytes -> bytes) (uncomp : bytes -> option bytes) : Prop :=
  forall z d, uncomp (comp z d) = Some d /\ (Zlen d < 2 ^ 31 -> Zlen (comp z d) + 100 < two32).

(** ** Programs *)

Definition writes (p : list top) : list witem := flat_map (fun o => match o with TWrite i => [i] | _ => [] end) p.
Definition is_close (o : top) : bool := match o with TClose => true | _ => false end.
Definition closes (p : list top) : nat := length (filter is_close p).
(** the levels in use: the first one, and those that are set *)
Definition levels (z : Z) (progs : list (list top)) : list Z :=
  z :: flat_map (flat_map (fun o => match o with TLevel y => [y] | _ => [] end)) progs.
(** the items can be written with and without compression, and the file is closed at most once *)
Definition programs_ok (progs : list (list top)) : Prop :=
  Forall (fun i => item_ok (1, i)) (flat_map writes progs) /\ runs_close (map item_key (flat_map writes progs)) /\
  Zlen (flat_map writes progs) < 2 ^ 27 /\ (closes (concat progs) <= 1)%nat.

(** the items that a thread has written without exception *)
Definition written_by (th : thread) : list witem :=
  flat_map (fun oa => match oa with (TWrite i, TDone) => [i] | _ => [] end) (th_done th).
(** a thread that has come to its end *)
Definition ended (th : thread) : Prop := th_todo th = [].

(** ** Outcomes

    [log] lists the items in the order of the file, each with its thread and its label. *)
Definition entry : Type := nat * (Z * witem).
Definition of_thread (t : nat) (log : list entry) : list witem := map (fun x => snd (snd x)) (filter (fun x => Nat.eqb (fst x) t) log).
Definition label_ok (zs : list Z) (n : Z) : Prop := (n = 0 /\ In 0 zs) \/ exists z, In z zs /\ n = lab z.

(** each thread has done a part of its program, and its items are in the file in its order; calls succeed, but
    writing throws when the file is closed *)
Definition threads_ok (progs : list (list top)) (log : list entry) (open : bool) (ths : list thread) : Prop :=
  length ths = length progs /\ Forall (fun x => (fst x < length progs)%nat) log /\
  forall t p th, nth_error progs t = Some p -> nth_error ths t = Some th ->
    map fst (th_done th) ++ th_todo th = p /\ of_thread t log = written_by th /\
    forall o a, In (o, a) (th_done th) -> a = TDone \/ (open = false /\ a = TThrew LIOException /\ exists i, o = TWrite i).

Section Outcome.
Context (comp : Z -> bytes -> bytes) (b1 b2 raw : buffer).

(** The file: while it is open, the items one behind the other, and an index with their positions; when
    it is closed, what one thread would have made of the items. *)
Definition file_ok (sh : shared) (items : list (Z * witem)) : Prop :=
  match sh_out sh with
  | Some o => o = mkO (flat_map (item_text comp b1 b2) items) (Zlen (flat_map (item_text comp b1 b2) items)) /\
      exists g, sh_mgr sh = Some g /\ mg_map g = index_of (placed comp b1 b2 0 items)
  | None => sh_mgr sh = None /\ forall d n, new_session comp d n (mkSess 0 raw b1 b2 items) = Ok (save d (sio_filename n) (sh_file sh))
  end.
End Outcome.

(** every thread occurs in [l] *)
Definition round (n : nat) (l : list nat) : Prop := forall t, (t < n)%nat -> In t l.

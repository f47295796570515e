(** * C73: the Fortran functions for one object do what their names say *)
From Coq Require Import ZArith List Bool Lia.
From Verif Require Import Bytes SioModel ObjModel ImplModel AttrModel AttrSpec AttrProofs AttrRuns TypeModel Ieee F77Model WrapModel WrapSpec WrapProofs.
Import ListNotations.
Open Scope Z_scope.

(** A function that sets or adds something and succeeds has the effect its name says, and changes nothing else. *)
Theorem C73_call fadd srt m ro o s o' : int_args s -> from_1 s -> set_do fadd srt m ro o s = (o', Ok tt) ->
  (forall a, ~ In a (touched s) -> obj_get o' a = obj_get o a) /\
  (forall a f, In (a, f) (sets (kind m) s) -> meets fadd srt (obj_get o) (obj_get o') a f) /\
  type_of o = set_class s /\ type_of o' = type_of o.
Proof. exact (set_step fadd srt m ro o s o'). Qed.
Print Assumptions C73_call.
Definition ex_mem : wmem := fun a =>
  if a =? 1 then Some (false, new_obj TRP) else if a =? 2 then Some (false, new_obj TCL) else if a =? 3 then Some (true, new_obj TTRK) else
  if a =? 4 then Some (false, new_obj TGO) else None.
Example C73_call_case fadd srt : exists o',
  set_do fadd srt ex_mem false (new_obj TRP) (Lcrcpaddcluster 2) = (o', Ok tt) /\ obj_get o' AClusters = Some (VList [2]) /\
  sets (kind ex_mem) (Lcrcpaddcluster 2) = [(AClusters, EAppend [2])] /\ obj_get o' ATracks = Some (VList []).
Proof. eexists. split; [reflexivity|]. repeat split; reflexivity. Qed.

(** A function that returns an attribute returns what the C++ getter returns: the number, the characters, the first elements,
    the i-th element counted from 1; on an object of its class and in no other case. *)
Theorem C73_get ro o g r : name_of_gob g = false -> get_args g -> short_lists o -> (ro = true -> is_hitnumbers g = false) ->
  type_of o = fst (returns g) ->
  get_do ro o g = Ok r <-> exists v, obj_get o (shape_attr (snd (returns g))) = Some v /\ shows (snd (returns g)) v r.
Proof. exact (get_iff ro o g r). Qed.
Print Assumptions C73_get.
Example C73_get_case : get_do true (OTPC (mkTPC 1 2 3 4 [5; 6])) (Lctphgetrawdataword 2) = Ok (WNum 6) /\
  get_do true (OTPC (mkTPC 1 2 3 4 [5; 6])) (Lctphgetrawdataword 3) = Throw LDataNotAvailable /\
  short_lists (OTPC (mkTPC 1 2 3 4 [5; 6])) /\ get_args (Lctphgetrawdataword 2).
Proof.
  split; [reflexivity|]. split; [reflexivity|]. split; [|cbn [get_args]; unfold two31; lia].
  intros a l H. destruct a; try discriminate H. injection H as <-. reflexivity.
Qed.

(** On an object of another class, or on none, nothing is set or returned. *)
Theorem C73_wrong_object fadd srt m ro o :
  (forall s, type_of o <> set_class s -> set_do fadd srt m ro o s = (o, UB UBNullDeref)) /\
  (forall g, type_of o <> fst (returns g) -> forall r, get_do ro o g <> Ok r).
Proof.
  split.
  - intros s N. unfold set_do. destruct (otype_eq_dec _ _); [contradiction|reflexivity].
  - intros g N r. destruct g; cbn [returns fst] in N; cbn [get_do];
      unfold get_num, get_bool, get_text, get_list, get_array, n_of, element, dangling, raw_word, hit_numbers, attr_of;
      try (destruct (otype_eq_dec _ _); [contradiction|]; try discriminate;
           destruct (minus1 _); discriminate);
      try (destruct (otype_eq_dec _ _); [contradiction|discriminate]);
      try (destruct (minus1 _); cbn [bind]; [destruct (otype_eq_dec _ _); [contradiction|discriminate]|discriminate|discriminate]);
      destruct o; try discriminate; contradiction N; reflexivity.
Qed.
Print Assumptions C73_wrong_object.
Example C73_wrong_object_case : type_of (new_obj TCL) <> set_class (Lcrcpsetenergy 5) /\ type_of (new_obj TCL) <> fst (returns Lcrcpgetenergy).
Proof. split; discriminate. Qed.

(** A function that fails changes nothing. *)
Theorem C73_failed_call fadd srt m ro o s : snd (set_do fadd srt m ro o s) <> Ok tt -> fst (set_do fadd srt m ro o s) = o.
Proof. exact (set_kept fadd srt m ro o s). Qed.
Print Assumptions C73_failed_call.
Example C73_failed_call_case fadd srt : snd (set_do fadd srt ex_mem true (new_obj TTRK) (Lctrksetchi2 7)) = Throw LReadOnly.
Proof. reflexivity. Qed.

(** In any program: what a function returns is what was set last, however many other objects were made and changed in between. *)
Theorem C73_last_set fadd srt m cs1 a s cs2 g x v :
  let m1 := w_run fadd srt m cs1 in let m2 := w_run fadd srt m (cs1 ++ Set_ a s :: cs2) in
  int_args s -> from_1 s -> fst (w_step fadd srt m1 (Set_ a s)) = Ok (WStatus st_success) ->
  In (x, ESet v) (sets (kind m1) s) -> (forall c, In c cs2 -> leaves a x c) ->
  name_of_gob g = false -> is_hitnumbers g = false -> get_args g -> (forall ro o, m2 a = Some (ro, o) -> short_lists o) ->
  fst (returns g) = set_class s -> shape_attr (snd (returns g)) = x ->
  forall r, fst (w_step fadd srt m2 (Get_ a g)) = Ok r <-> shows (snd (returns g)) v r.
Proof. exact (last_set_wrap fadd srt m cs1 a s cs2 g x v). Qed.
Print Assumptions C73_last_set.
(** a new particle: the momentum set before the energy and a track *)
Definition ex_prog1 := [Create TTRK 8; Create TRP 7].
Definition ex_prog2 := [Set_ 7 (Lcrcpsetenergy 9); Create TCL 9; Set_ 7 (Lcrcpaddtrack 8); Set_ 9 (Lcclusetposition [1; 1; 1]); Set_ 9 (Lcrcpsetmomentum [1; 1; 1])].
Example C73_last_set_case fadd srt :
  fst (w_step fadd srt (w_run fadd srt ex_mem ex_prog1) (Set_ 7 (Lcrcpsetmomentum [4; 5; 6]))) = Ok (WStatus st_success) /\
  (forall c, In c ex_prog2 -> leaves 7 AMomentum c) /\
  fst (w_step fadd srt (w_run fadd srt ex_mem (ex_prog1 ++ Set_ 7 (Lcrcpsetmomentum [4; 5; 6]) :: ex_prog2)) (Get_ 7 Lcrcpgetmomentum)) = Ok (WArr [4; 5; 6]).
Proof.
  split; [reflexivity|]. split; [|reflexivity].
  intros c H. repeat destruct H as [<-|H]; try destruct H; cbn [leaves]; try discriminate;
    (split; [exact Logic.I|]); try (intros E; discriminate E); intros _ [H|[]]; discriminate H.
Qed.

(** The attributes of a new object are those of the C++ constructor. *)
Theorem C73_new fadd srt m t a g r : fst (returns g) = t -> name_of_gob g = false -> get_args g ->
  fst (w_step fadd srt (snd (w_step fadd srt m (Create t a))) (Get_ a g)) = Ok r <->
  exists v, In (shape_attr (snd (returns g)), v) (initial t) /\ shows (snd (returns g)) v r.
Proof.
  intros T NG GA. cbn [w_step snd]. rewrite wput_at. cbn [fst].
  assert (SL : short_lists (new_obj t)).
  { intros b l H. apply initial_iff in H. destruct t; cbn [initial In] in H;
      repeat (destruct H as [H|H]; [try discriminate H; injection H as <- <-; reflexivity|]); destruct H. }
  rewrite (get_iff false (new_obj t) g r NG GA SL) by (try discriminate; subst t; destruct g; reflexivity).
  split; intros (v & H & X); exists v; (split; [|exact X]); apply initial_iff; exact H.
Qed.
Print Assumptions C73_new.
Example C73_new_case fadd srt : fst (w_step fadd srt (snd (w_step fadd srt ex_mem (Create TVX 9))) (Get_ 9 Lcvtxgetalgorithmtype)) = Ok (WText (str "Unknown")).
Proof. reflexivity. Qed.

(** The two functions that create an object from arguments: a relation has the objects and the weight given, a generic object of fixed
    size as many values of each kind as asked for, all of them 0. *)
Theorem C73_new_with_arguments fadd srt m a :
  (forall f t w, let m1 := snd (w_step fadd srt m (CreateRel f t w a)) in
     fst (w_step fadd srt m (CreateRel f t w a)) = Ok (WNum a) /\
     fst (w_step fadd srt m1 (Get_ a Lcrelgetfrom)) = Ok (WNum f) /\ fst (w_step fadd srt m1 (Get_ a Lcrelgetto)) = Ok (WNum t) /\
     fst (w_step fadd srt m1 (Get_ a Lcrelgetweight)) = Ok (WNum w) /\ forall b, b <> a -> m1 b = m b) /\
  (forall ni nf nd, 0 <= ni < two31 -> 0 <= nf < two31 -> 0 <= nd < two31 -> let m1 := snd (w_step fadd srt m (CreateFixed ni nf nd a)) in
     fst (w_step fadd srt m (CreateFixed ni nf nd a)) = Ok (WNum a) /\
     fst (w_step fadd srt m1 (Get_ a Lcgobgetnint)) = Ok (WNum ni) /\ fst (w_step fadd srt m1 (Get_ a Lcgobgetnfloat)) = Ok (WNum nf) /\
     fst (w_step fadd srt m1 (Get_ a Lcgobgetndouble)) = Ok (WNum nd) /\
     (forall i, 1 <= i <= ni -> fst (w_step fadd srt m1 (Get_ a (Lcgobgetintval i))) = Ok (WNum 0)) /\
     (forall i, 1 <= i <= nf -> fst (w_step fadd srt m1 (Get_ a (Lcgobgetfloatval i))) = Ok (WNum 0)) /\
     (forall i, 1 <= i <= nd -> fst (w_step fadd srt m1 (Get_ a (Lcgobgetdoubleval i))) = Ok (WNum 0)) /\ forall b, b <> a -> m1 b = m b).
Proof. exact (new_with_arguments fadd srt m a). Qed.
Print Assumptions C73_new_with_arguments.
Example C73_new_with_arguments_case fadd srt :
  fst (w_step fadd srt (snd (w_step fadd srt ex_mem (CreateFixed 0 2 1 9))) (Get_ 9 (Lcgobgetfloatval 2))) = Ok (WNum 0) /\
  fst (w_step fadd srt (snd (w_step fadd srt ex_mem (CreateFixed 0 2 1 9))) (Get_ 9 Lcgobgetnint)) = Ok (WNum 0) /\
  fst (w_step fadd srt (snd (w_step fadd srt ex_mem (CreateRel 4 5 6 9))) (Get_ 9 Lcrelgetto)) = Ok (WNum 5).
Proof. repeat split. Qed.

(** The numbers of hits of a track: as many as fit into the array, and their number. *)
Theorem C73_hit_numbers o n l : obj_get o AHitNumbers = Some (VList l) -> type_of o = TTRK -> Zlen l < two31 -> 0 <= n ->
  get_do false o (Lctrkgetsubdetectorhitnumbers n) = Ok (WArrN (firstn (Z.to_nat n) l) (Z.min n (Zlen l))).
Proof.
  intros H T L N. destruct o; try discriminate T. injection H as <-. cbn [get_do hit_numbers].
  rewrite n_vals_small by exact L. assert (P := Zlen_pos (tr_hitnums o)). destruct (Z.ltb_spec n (Zlen (tr_hitnums o))) as [X|X].
  - rewrite Z.min_l by lia. unfold arr. destruct (Nat.leb_spec (Z.to_nat n) (length (tr_hitnums o))); [reflexivity|unfold Zlen in *; lia].
  - rewrite Z.min_r by lia. unfold arr, Zlen. rewrite Nat2Z.id, Nat.leb_refl. cbn [bind]. rewrite firstn_all.
    rewrite (firstn_all2 (n := Z.to_nat n)) by (unfold Zlen in *; lia). reflexivity.
Qed.
Print Assumptions C73_hit_numbers.
Example C73_hit_numbers_case : get_do false (OTRK (mkTRK 0 [] 0 0 0 0 0 [7; 8; 9] [] [])) (Lctrkgetsubdetectorhitnumbers 2) = Ok (WArrN [7; 8] 2).
Proof. reflexivity. Qed.

(** Not so for a track that is read only, as those of an event read from a file: the function that returns the numbers of hits throws. *)
Theorem C73_read_only_refuted : exists x, forall n,
  obj_get (OTRK x) AHitNumbers = Some (VList [7; 8; 9]) /\ get_do true (OTRK x) (Lctrkgetsubdetectorhitnumbers n) = Throw LReadOnly.
Proof. exists (mkTRK 0 [] 0 0 0 0 0 [7; 8; 9] [] []). intros n. split; reflexivity. Qed.
Print Assumptions C73_read_only_refuted.

(** The functions that modify are declared to return LCIO::SUCCESS or LCIO::ERROR, but LCIO::ERROR is never returned: with a read only
    object they throw an exception into the Fortran program. *)
Theorem C73_status_refuted : exists m a s, int_args s /\ forall fadd srt,
  (forall m' c, fst (w_step fadd srt m' c) <> Ok (WStatus st_error)) /\
  fst (w_step fadd srt m (Set_ a s)) = Throw LReadOnly.
Proof.
  exists ex_mem, 3, (Lctrksetchi2 7). split; [exact Logic.I|]. intros fadd srt. split; [|reflexivity].
  intros m' c. destruct c; cbn [w_step]; try discriminate.
  - destruct (do i <- new_vec ni; _); discriminate.
  - destruct (m' a) as [[ro o]|]; [|discriminate]. destruct (set_do fadd srt m' ro o s) as [o' [| |]]; discriminate.
  - destruct (m' a) as [[ro o]|]; [|discriminate]. cbn [fst]. intros H. destruct g; cbn [get_do] in H;
      unfold get_num, get_bool, get_text, get_list, get_array, n_of, element, dangling, raw_word, hit_numbers, attr_of, arr, vat, word, minus1, bind in H;
      cbv zeta in H;
      repeat match type of H with
      | context [match ?x with _ => _ end] => destruct x
      end; discriminate H.
Qed.
Print Assumptions C73_status_refuted.

(** An object of another class is added as a null pointer, with LCIO::SUCCESS. *)
Theorem C73_added_refuted : exists m a p, m p <> None /\ forall fadd srt,
  fst (w_step fadd srt m (Set_ a (Lcrcpaddtrack p))) = Ok (WStatus st_success) /\
  fst (w_step fadd srt (snd (w_step fadd srt m (Set_ a (Lcrcpaddtrack p)))) (Get_ a Lcrcpgettracks)) = Ok (WArr [0]).
Proof. exists ex_mem, 1, 2. split; [discriminate|]. intros fadd srt. split; reflexivity. Qed.
Print Assumptions C73_added_refuted.

(** The names of a generic object cannot be read: the pointer returned is one to a string that is gone. *)
Theorem C73_names_refuted : exists o, obj_get o ATypeName = Some (VText (str "LCGenericObject")) /\ forall ro r,
  get_do ro o Lcgobgettypename <> Ok r /\ get_do ro o Lcgobgetdatadescription <> Ok r.
Proof. exists (new_obj TGO). split; [reflexivity|]. intros ro r. split; discriminate. Qed.
Print Assumptions C73_names_refuted.

(** Index 0 of a generic object is not rejected: the values are dropped and memory outside of them is written. *)
Theorem C73_index_refuted : exists m a v, forall fadd srt, from_1 (Lcgobsetintval 1 v) /\ ~ from_1 (Lcgobsetintval 0 v) /\
  fst (w_step fadd srt m (Set_ a (Lcgobsetintval 1 v))) = Ok (WStatus st_success) /\
  fst (w_step fadd srt m (Set_ a (Lcgobsetintval 0 v))) = UB UBOutOfBounds.
Proof.
  exists ex_mem, 4, 7. intros fadd srt. split; [cbn; lia|]. split; [cbn; lia|]. split; [reflexivity|]. vm_compute. reflexivity.
Qed.
Print Assumptions C73_index_refuted.

(** The components of the momentum of a simulated tracker hit are counted from 0, other than all other elements. *)
Theorem C73_component_refuted : exists o i, obj_get o AMomentum = Some (VList [4; 5; 6]) /\ forall ro,
  get_do ro o (Lcsthgetmomentum i) <> Ok (WNum (nth (Z.to_nat (i - 1)) [4; 5; 6] 0)) /\ 1 <= i <= 3 /\
  get_do ro o (Lcsthgetmomentum 3) = UB UBOutOfBounds.
Proof.
  exists (OSTH (mkSTH 0 0 [1; 2; 3] 0 0 0 [4; 5; 6] 0 0)), 1. split; [reflexivity|]. intros ro. split; [discriminate|]. split; [lia|reflexivity].
Qed.
Print Assumptions C73_component_refuted.

(** lcclusetshape does not set the shape: a second call continues the first one. *)
Theorem C73_shape_refuted : exists m a u v, forall fadd srt,
  fst (w_step fadd srt (w_run fadd srt m [Set_ a (Lcclusetshape u); Set_ a (Lcclusetshape v)]) (Get_ a Lcclugetshape)) = Ok (WArr (u ++ v)) /\ u ++ v <> v.
Proof. exists ex_mem, 2, [5], [6]. intros fadd srt. split; [reflexivity|discriminate]. Qed.
Print Assumptions C73_shape_refuted.

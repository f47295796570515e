(** * C77: events, run headers and relation navigators from Fortran *)
From Verif Require Import Bytes StrMap SioModel ObjModel EventModel ImplModel ImplSpec EvAttrModel EvAttrSpec NavModel NavSpec FortModel FevtModel FevtSpec FevtProofs.

(** C77: every program leaves a memory of the kind that the other theorems start from *)
Theorem C77_usable : forall fadd cs h s', run77 fadd empty_memory cs = (h, s') -> all_returned h -> usable_memory s'.
Proof. exact programs_usable. Qed.
Print Assumptions C77_usable.

(** C77: an event made by [lcevtcreate] gives, after any program that does not delete it, the values set last; the
    collection added last under a name and not removed since, and 0 for all other names; and the names of these
    collections, each once *)
Theorem C77_event : forall fadd s cs h s', usable_memory s -> run77 fadd s (Lcevtcreate :: cs) = (h, s') -> ~ In (Lcevtdelete (fm_next s)) cs -> all_returned h ->
  let a := fm_next s in
  returns77 fadd s' (Lcevtgetrunnumber a) (ONum (or_else (last_of (run_given a) h) 0)) /\
  returns77 fadd s' (Lcevtgeteventnumber a) (ONum (or_else (last_of (num_given a) h) 0)) /\
  returns77 fadd s' (Lcevtgettimestamp a) (ONum (or_else (last_of (time_given a) h) 0)) /\
  returns77 fadd s' (Lcevtgetdetectorname a) (OText (or_else (last_of (det_given a) h) (str "unknown"))) /\
  (forall n, returns77 fadd s' (Lcevtgetcollection a n) (OAddr (or_else (held77 a h (c_str n)) 0))) /\
  exists l, returns77 fadd s' (Lcevtgetcollectionnames a) (OTexts l) /\ NoDup l /\ forall n, In n l <-> held77 a h n <> None.
Proof. exact event_getters. Qed.
Print Assumptions C77_event.

(** C77: the functions that change such an event return 1; only [lcevtaddcollection] returns 0, exactly when the name is
    no identifier of C or is taken, or the collection is null *)
Theorem C77_event_status : forall fadd s cs h s', usable_memory s -> run77 fadd s (Lcevtcreate :: cs) = (h, s') -> ~ In (Lcevtdelete (fm_next s)) cs -> all_returned h ->
  let a := fm_next s in
  (forall v, returns77 fadd s' (Lcevtsetrunnumber a v) (OStatus 1)) /\ (forall v, returns77 fadd s' (Lcevtseteventnumber a v) (OStatus 1)) /\
  (forall v, returns77 fadd s' (Lcevtsetdetectorname a v) (OStatus 1)) /\ (forall v, returns77 fadd s' (Lcevtsettimestamp a v) (OStatus 1)) /\
  (forall n, returns77 fadd s' (Lcevtremovecollection a n) (OStatus 1)) /\
  forall b n,
    (returns77 fadd s' (Lcevtaddcollection a b n) (OStatus 1) /\ identifier (c_str n) /\ held77 a h (c_str n) = None /\ b <> 0) \/
    (returns77 fadd s' (Lcevtaddcollection a b n) (OStatus 0) /\ (~ identifier (c_str n) \/ held77 a h (c_str n) <> None \/ b = 0)).
Proof. exact event_setters_return. Qed.
Print Assumptions C77_event_status.

(** a program with two events: the objects are at 1 (event), 2 (collection), 3 (event), 4 (collection) *)
Definition two_events : list fcall77 :=
  [Lccolcreate (str "MCParticle"); Lcevtcreate; Lcevtsetrunnumber 1 11; Lcevtsetrunnumber 3 33; Lcevtsetdetectorname 1 (str "ILD" ++ x00 :: str "junk");
   Lcevtaddcollection 1 2 (str "MC"); Lcevtaddcollection 1 2 (str "MC"); Lcevtaddcollection 1 2 (str "no name"); Lcevtsetrunnumber 1 12;
   Lccolcreate (str "LCRelation"); Lcevtaddcollection 1 4 (str "Rel"); Lcevtremovecollection 1 (str "Rel"); Lcevtgetcollection 1 (str "MC"); Lcevtaddcollection 3 4 (str "Rel")].
Example C77_event_case : exists h s', run77 Z.add empty_memory (Lcevtcreate :: two_events) = (h, s') /\ ~ In (Lcevtdelete 1) two_events /\ all_returned h /\
  map snd h = [Ok (OAddr 1); Ok (OAddr 2); Ok (OAddr 3); Ok (OStatus 1); Ok (OStatus 1); Ok (OStatus 1); Ok (OStatus 1); Ok (OStatus 0); Ok (OStatus 0); Ok (OStatus 1);
               Ok (OAddr 4); Ok (OStatus 1); Ok (OStatus 1); Ok (OAddr 2); Ok (OStatus 1)] /\
  last_of (run_given 1) h = Some 12 /\ last_of (det_given 1) h = Some (str "ILD") /\ held77 1 h (str "MC") = Some 2 /\ held77 1 h (str "Rel") = None /\ held77 3 h (str "Rel") = Some 4 /\
  fst (step77 Z.add s' (Lcevtgetcollectionnames 1)) = Ok (OTexts [str "MC"]).
Proof.
  exists (fst (run77 Z.add empty_memory (Lcevtcreate :: two_events))), (snd (run77 Z.add empty_memory (Lcevtcreate :: two_events))).
  split; [apply surjective_pairing|]. split; [cbn; intuition discriminate|].
  split; [vm_compute; repeat (apply Forall_cons; [eexists; reflexivity|]); apply Forall_nil|]. vm_compute. auto 10.
Qed.

(** C77: deleting the event deletes the collections that it holds, and nothing else *)
Theorem C77_event_deleted : forall fadd s cs h s', usable_memory s -> run77 fadd s (Lcevtcreate :: cs) = (h, s') -> ~ In (Lcevtdelete (fm_next s)) cs -> all_returned h ->
  let a := fm_next s in
  (forall n m b, held77 a h n = Some b -> held77 a h m = Some b -> n = m) -> (forall n b, held77 a h n = Some b -> fm_cols s' b <> None) ->
  exists s2, step77 fadd s' (Lcevtdelete a) = (Ok (OStatus 1), s2) /\ fm_evs s2 a = None /\
    (forall x, x <> a -> fm_evs s2 x = fm_evs s' x) /\
    (forall b, (exists n, held77 a h n = Some b) -> fm_cols s2 b = None) /\
    (forall b, (forall n, held77 a h n <> Some b) -> fm_cols s2 b = fm_cols s' b).
Proof. exact event_deleted. Qed.
Print Assumptions C77_event_deleted.

Example C77_event_deleted_case : let s' := snd (run77 Z.add empty_memory (Lcevtcreate :: two_events)) in let s2 := snd (step77 Z.add s' (Lcevtdelete 1)) in
  fst (step77 Z.add s' (Lcevtdelete 1)) = Ok (OStatus 1) /\ fst (step77 Z.add s2 (Lcevtgetrunnumber 1)) = UB UBNullDeref /\
  fst (step77 Z.add s2 (Lcevtgetcollection 3 (str "Rel"))) = Ok (OAddr 4) /\ fm_cols s' 2 <> None /\ fm_cols s2 2 = None /\ fm_cols s2 4 <> None.
Proof. vm_compute. repeat split; discriminate. Qed.

(** C77: deleting an event that holds a collection twice, or one that was deleted, is undefined *)
Theorem C77_event_delete_undefined : forall fadd s cs h s', usable_memory s -> run77 fadd s (Lcevtcreate :: cs) = (h, s') -> ~ In (Lcevtdelete (fm_next s)) cs -> all_returned h ->
  let a := fm_next s in
  (exists n m b, n <> m /\ held77 a h n = Some b /\ held77 a h m = Some b) \/ (exists n b, held77 a h n = Some b /\ fm_cols s' b = None) ->
  fst (step77 fadd s' (Lcevtdelete a)) = UB UBPrecondition.
Proof. exact event_delete_undefined. Qed.
Print Assumptions C77_event_delete_undefined.

(** C77: "an event can be deleted when every call before returned 1" is false: [lcevtaddcollection] accepts the same collection under two
    names, or a collection that another event holds *)
Theorem C77_deletable_refuted : exists cs1 cs2 h1 s1 h2 s2,
  run77 Z.add empty_memory cs1 = (h1, s1) /\ map snd h1 = [Ok (OAddr 1); Ok (OAddr 2); Ok (OStatus 1); Ok (OStatus 1)] /\
  fst (step77 Z.add s1 (Lcevtdelete 1)) = UB UBPrecondition /\
  run77 Z.add empty_memory cs2 = (h2, s2) /\ map snd h2 = [Ok (OAddr 1); Ok (OAddr 2); Ok (OAddr 3); Ok (OStatus 1); Ok (OStatus 1); Ok (OStatus 1)] /\
  fst (step77 Z.add s2 (Lcevtdelete 3)) = UB UBPrecondition.
Proof.
  pose (cs1 := [Lcevtcreate; Lccolcreate (str "MCParticle"); Lcevtaddcollection 1 2 (str "A"); Lcevtaddcollection 1 2 (str "B")]).
  pose (cs2 := [Lcevtcreate; Lccolcreate (str "MCParticle"); Lcevtcreate; Lcevtaddcollection 1 2 (str "A"); Lcevtaddcollection 3 2 (str "A"); Lcevtdelete 1]).
  exists cs1, cs2, (fst (run77 Z.add empty_memory cs1)), (snd (run77 Z.add empty_memory cs1)), (fst (run77 Z.add empty_memory cs2)), (snd (run77 Z.add empty_memory cs2)).
  split; [apply surjective_pairing|]. split; [vm_compute; reflexivity|]. split; [vm_compute; reflexivity|].
  split; [apply surjective_pairing|]. split; vm_compute; reflexivity.
Qed.
Print Assumptions C77_deletable_refuted.

(** C77: on an event that is read only (one that was read from a file) the setters let the exception escape to Fortran, while
    [lcevtremovecollection] returns 0 *)
Theorem C77_read_only : forall fadd s a e, fm_evs s a = Some e -> es_ro e = true ->
  (forall v, fst (step77 fadd s (Lcevtsetrunnumber a v)) = Throw LReadOnly) /\ (forall v, fst (step77 fadd s (Lcevtseteventnumber a v)) = Throw LReadOnly) /\
  (forall v, fst (step77 fadd s (Lcevtsetdetectorname a v)) = Throw LReadOnly) /\ (forall v, fst (step77 fadd s (Lcevtsettimestamp a v)) = Throw LReadOnly) /\
  (forall n, returns77 fadd s (Lcevtremovecollection a n) (OStatus 0)).
Proof. exact event_read_only. Qed.
Print Assumptions C77_read_only.

Example C77_read_only_case : let e := mkES true 4 5 6 (str "ILD") no_params [(str "MC", 2)] [] in
  let s := mkFM 3 (put (fun _ => None) 1 e) (fun _ => None) (fun _ => None) (put (fun _ => None) 2 (mkRelColl (str "MCParticle") no_params 0 [])) in
  fm_evs s 1 = Some e /\ es_ro e = true /\ fst (step77 Z.add s (Lcevtgetcollection 1 (str "MC"))) = Ok (OAddr 2) /\
  map snd (fst (run77 Z.add s [Lcevtremovecollection 1 (str "MC"); Lcevtgetcollection 1 (str "MC"); Lcevtsetrunnumber 1 9; Lcevtgetrunnumber 1])) =
    [Ok (OStatus 0); Ok (OAddr 2); Throw LReadOnly].
Proof. vm_compute. auto. Qed.

(** C77: a run header made by [lcrhdcreate] gives the values set last and all subdetectors added, in order; its setters return 1 *)
Theorem C77_run_header : forall fadd s cs h s', usable_memory s -> run77 fadd s (Lcrhdcreate :: cs) = (h, s') -> ~ In (Lcrhddelete (fm_next s)) cs -> all_returned h ->
  let a := fm_next s in
  returns77 fadd s' (Lcrhdgetrunnumber a) (ONum (or_else (last_of (hrun_given a) h) 0)) /\
  returns77 fadd s' (Lcrhdgetdetectorname a) (OText (or_else (last_of (hdet_given a) h) [])) /\
  returns77 fadd s' (Lcrhdgetdescription a) (OText (or_else (last_of (hdesc_given a) h) [])) /\
  returns77 fadd s' (Lcrhdgetactivesubdetectors a) (OTexts (subs_given a h)) /\
  (forall v, returns77 fadd s' (Lcrhdsetrunnumber a v) (OStatus 1)) /\ (forall v, returns77 fadd s' (Lcrhdsetdetectorname a v) (OStatus 1)) /\
  (forall v, returns77 fadd s' (Lcrhdsetdescription a v) (OStatus 1)) /\ (forall v, returns77 fadd s' (Lcrhdaddactivesubdetector a v) (OStatus 1)).
Proof. exact run_header_functions. Qed.
Print Assumptions C77_run_header.

Definition two_headers : list fcall77 :=
  [Lcrhdcreate; Lcrhdsetrunnumber 1 7; Lcrhdaddactivesubdetector 1 (str "TPC"); Lcrhdsetdescription 2 (str "other"); Lcrhdaddactivesubdetector 1 (str "VXD");
   Lcrhdsetdetectorname 1 (str "ILD"); Lcrhdsetrunnumber 1 8; Lcrhddelete 2].
Example C77_run_header_case : exists h s', run77 Z.add empty_memory (Lcrhdcreate :: two_headers) = (h, s') /\ ~ In (Lcrhddelete 1) two_headers /\ all_returned h /\
  last_of (hrun_given 1) h = Some 8 /\ last_of (hdet_given 1) h = Some (str "ILD") /\ last_of (hdesc_given 1) h = None /\ subs_given 1 h = [str "TPC"; str "VXD"] /\
  fst (step77 Z.add s' (Lcrhdgetrunnumber 2)) = UB UBNullDeref.
Proof.
  exists (fst (run77 Z.add empty_memory (Lcrhdcreate :: two_headers))), (snd (run77 Z.add empty_memory (Lcrhdcreate :: two_headers))).
  split; [apply surjective_pairing|]. split; [cbn; intuition discriminate|].
  split; [vm_compute; repeat (apply Forall_cons; [eexists; reflexivity|]); apply Forall_nil|]. vm_compute. auto 10.
Qed.

(** C77: a navigator made by [lcrnvcreate] answers with exactly the objects that are related by the calls made on it, with the sum of
    the weights given, in both directions *)
Theorem C77_navigator : forall fadd s f t cs h s', usable_memory s -> run77 fadd s (Lcrnvcreate f t :: cs) = (h, s') -> ~ In (Lcrnvdelete (fm_next s)) cs -> all_returned h ->
  let a := fm_next s in
  returns77 fadd s' (Lcrnvgetfromtype a) (OText (c_str f)) /\ returns77 fadd s' (Lcrnvgettotype a) (OText (c_str t)) /\
  (forall x y w, returns77 fadd s' (Lcrnvgaddrelation a x y w) (OStatus 1)) /\ (forall x y, returns77 fadd s' (Lcrnvgremoverelation a x y) (OStatus 1)) /\
  navigator_answers fadd s' a (weight_after fadd (relations_given a h)).
Proof. exact navigator_functions. Qed.
Print Assumptions C77_navigator.

(** C77: the navigator made by [lcrnvcreatefromcollection] from the collection that [lcrnvcreatecollection] makes of a navigator answers
    the same, and the first one is unchanged *)
Theorem C77_navigator_collection : forall fadd s f t cs h s', usable_memory s -> run77 fadd s (Lcrnvcreate f t :: cs) = (h, s') -> ~ In (Lcrnvdelete (fm_next s)) cs -> all_returned h ->
  let a := fm_next s in let b := fm_next s' in
  exists s1 s2, step77 fadd s' (Lcrnvcreatecollection a) = (Ok (OAddr b), s1) /\ step77 fadd s1 (Lcrnvcreatefromcollection b) = (Ok (OAddr (b + 1)), s2) /\
    returns77 fadd s2 (Lcrnvgetfromtype (b + 1)) (OText (c_str f)) /\ returns77 fadd s2 (Lcrnvgettotype (b + 1)) (OText (c_str t)) /\
    navigator_answers fadd s2 (b + 1) (weight_after fadd (relations_given a h)) /\
    navigator_answers fadd s2 a (weight_after fadd (relations_given a h)).
Proof. exact navigator_round_trip. Qed.
Print Assumptions C77_navigator_collection.

Definition some_relations : list fcall77 :=
  [Lcrnvgaddrelation 1 10 20 3; Lcrnvcreate (str "A") (str "B"); Lcrnvgaddrelation 2 10 21 4; Lcrnvgaddrelation 1 11 20 5; Lcrnvgaddrelation 1 10 20 2;
   Lcrnvgetrelatedtoobjects 1 10; Lcrnvgaddrelation 1 10 22 1; Lcrnvgremoverelation 1 10 22; Lcrnvgetrelatedfromweights 1 20].
Example C77_navigator_case : exists h s', run77 Z.add empty_memory (Lcrnvcreate (str "MC") (str "Hit") :: some_relations) = (h, s') /\ ~ In (Lcrnvdelete 1) some_relations /\
  all_returned h /\ nth 6 (map snd h) (Ok (ONum 0)) = Ok (ONums [20]) /\ nth 9 (map snd h) (Ok (ONum 0)) = Ok (ONums [5; 5]) /\
  weight_after Z.add (relations_given 1 h) 10 20 = Some 5 /\ weight_after Z.add (relations_given 1 h) 10 22 = None /\ weight_after Z.add (relations_given 2 h) 10 21 = Some 4.
Proof.
  exists (fst (run77 Z.add empty_memory (Lcrnvcreate (str "MC") (str "Hit") :: some_relations))), (snd (run77 Z.add empty_memory (Lcrnvcreate (str "MC") (str "Hit") :: some_relations))).
  split; [apply surjective_pairing|]. split; [cbn; intuition discriminate|].
  split; [vm_compute; repeat (apply Forall_cons; [eexists; reflexivity|]); apply Forall_nil|]. vm_compute. auto 10.
Qed.

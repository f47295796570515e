(** * Names of classes and the summary of an event: C67, C68 *)

From Verif Require Import Bytes StrMap SioModel ObjModel EventSpec EventFacts ImplModel ViewModel ViewSpec ViewFixed TypeModel TypeSpec TypeProofs.

(** ** C67: the type name of a class is the one under which its objects are stored *)

(** For every class but TPCHit, [lctypename<T>()] is the name for which there is the handler of that class, and
    for no other class. *)
Theorem C67_class_names : forall t, t <> TTPC -> exists n, static_name t = Ok n /\ forall t', get_handler n = Some t' <-> t' = t.
Proof.
  intros t H. destruct t; try (exfalso; apply H; reflexivity);
    (eexists; split; [reflexivity|]; intros t'; split; [intros E; vm_compute in E; injection E as <-; reflexivity|intros ->; reflexivity]).
Qed.
Print Assumptions C67_class_names.

(** For an object, given by a pointer to LCObject, of any class but the two derived from TrackerHit and TPCHit, it
    is the name of its class; for the null pointer it is UNKNOWN.  Missing: these three classes, for which it is
    false, see below. *)
Theorem C67_object_partial : forall o,
  match o with OTHP _ | OTHZ _ | OTPC _ => True | _ => dynamic_name (Some o) = Ok (class_name o) /\ pointer_name (type_of o) (Some o) = Ok (class_name o) end.
Proof. intros o. destruct o; try exact Logic.I; split; reflexivity. Qed.
Print Assumptions C67_object_partial.
Theorem C67_null : dynamic_name None = Ok (str "UNKNOWN") /\ get_handler (str "UNKNOWN") = None.
Proof. split; reflexivity. Qed.
Print Assumptions C67_null.

Example C67_case : dynamic_name (Some (OINT [1; 2])) = Ok (str "LCIntVec") /\ dynamic_name (Some (OREL (mkREL 1 2 3))) = Ok (str "LCRelation") /\
  static_name TTHP = Ok (str "TrackerHitPlane") /\ get_handler (str "TrackerHitPlane") = Some TTHP.
Proof. repeat split; reflexivity. Qed.

(** "The name of an object is the name of its class" is false for hits on planes and cylinders: for none of them;
    a collection made with this name would be written by the handler of another class. *)
Theorem C67_derived_refuted : exists a b, class_name a = str "TrackerHitPlane" /\ class_name b = str "TrackerHitZCylinder" /\
  (forall p, class_name p = class_name a \/ class_name p = class_name b ->
    dynamic_name (Some p) = Ok (str "TrackerHit") /\ get_handler (str "TrackerHit") <> Some (type_of p) /\ pointer_name (type_of p) (Some p) = Ok (class_name p)).
Proof.
  exists (OTHP (mkTHP 0 0 0 [] [] [] 0 0 0 0 0 0 [])), (OTHZ (mkTHZ 0 0 0 [] [] 0 0 0 0 0 0 [])). split; [reflexivity|]. split; [reflexivity|].
  intros p [H|H]; destruct p; cbn [class_name] in H; try (vm_compute in H; discriminate H); (split; [reflexivity|]; split; [intros E; vm_compute in E; discriminate E|reflexivity]).
Qed.
Print Assumptions C67_derived_refuted.
(** "There is a name for every class" is false: for a TPCHit the name is UNKNOWN, which has no handler, and asking
    for the name of the class does not end. *)
Theorem C67_tpc_refuted : exists o, class_name o = str "TPCHit" /\ dynamic_name (Some o) = Ok (str "UNKNOWN") /\ get_handler (str "UNKNOWN") = None /\
  get_handler (class_name o) = Some (type_of o) /\ pointer_name (type_of o) (Some o) = UB UBDiverge.
Proof. exists (OTPC (mkTPC 1 2 3 4 [])). repeat split; reflexivity. Qed.
Print Assumptions C67_tpc_refuted.

(** ** C68: an event summary holds the values that were set, under the names of its description *)

(** For every sequence of calls on a new summary: every call succeeds; a getter returns the value that was last
    set for the same entry, or 0; and the data are 13 integers, 15 floats and 15 doubles afterwards. *)
Theorem C68_values : forall cs, let '(rs, o) := es_run es_new cs in
  length rs = length cs /\
  (forall j c, nth_error cs j = Some c -> nth_error rs j = Some (Ok (es_expected (firstn j cs) c))) /\
  length (go_int o) = 13%nat /\ length (go_flt o) = 15%nat /\ length (go_dbl o) = 15%nat /\
  (forall e n, nth_error (entries "i"%byte es_desc) n = Some (esi_name e) -> nth_error (go_int o) n = Some (last_set (rev cs) (EI e))) /\
  (forall e n, nth_error (entries "f"%byte es_desc) n = Some (esf_name e) -> nth_error (go_flt o) n = Some (last_set (rev cs) (EF e))).
Proof.
  intros cs. destruct (es_run_ok cs [] es_new es_inv_new) as (o & E & (F & L & V) & LN & N). rewrite E. split; [exact LN|]. split; [exact N|].
  pose proof (L KInt) as LI. pose proof (L KFloat) as LF. pose proof (L KDouble) as LD. cbn [vals size_of es_sizes] in LI, LF, LD. unfold Zlen in LI, LF, LD.
  split; [lia|]. split; [lia|]. split; [lia|]. rewrite app_nil_r in V. destruct nodup_entries as (NI & NF). split.
  - intros e n H. assert (P : nth_error (entries "i"%byte es_desc) (Z.to_nat (esi_pos e)) = Some (esi_name e)) by (destruct e; vm_compute; reflexivity).
    assert (n = Z.to_nat (esi_pos e)).
    { apply (proj1 (NoDup_nth_error _) NI); [apply nth_error_Some; congruence|congruence]. }
    subst n. pose proof (V (EI e)) as VE. cbn [key_at fst snd vals] in VE. rewrite <- VE. apply nth_error_nth'. pose proof (esi_bound e). lia.
  - intros e n H. assert (P : nth_error (entries "f"%byte es_desc) (Z.to_nat (esf_pos e)) = Some (esf_name e)) by (destruct e; vm_compute; reflexivity).
    assert (n = Z.to_nat (esf_pos e)).
    { apply (proj1 (NoDup_nth_error _) NF); [apply nth_error_Some; congruence|congruence]. }
    subst n. pose proof (V (EF e)) as VE. cbn [key_at fst snd vals] in VE. rewrite <- VE. apply nth_error_nth'. pose proof (esf_bound e). lia.
Qed.
Print Assumptions C68_values.

(** Every entry is named in the description, once. *)
Theorem C68_description :
  (forall e, exists n, nth_error (entries "i"%byte es_desc) n = Some (esi_name e)) /\ (forall e, exists n, nth_error (entries "f"%byte es_desc) n = Some (esf_name e)) /\
  NoDup (entries "i"%byte es_desc) /\ NoDup (entries "f"%byte es_desc) /\
  length (entries "i"%byte es_desc) = 13%nat /\ length (entries "f"%byte es_desc) = 15%nat /\ length (fields [] es_desc) = 28%nat.
Proof.
  split; [|split].
  - intros e. exists (Z.to_nat (esi_pos e)). destruct e; vm_compute; reflexivity.
  - intros e. exists (Z.to_nat (esf_pos e)). destruct e; vm_compute; reflexivity.
  - destruct nodup_entries as (NI & NF). repeat split; try assumption; vm_compute; reflexivity.
Qed.
Print Assumptions C68_description.

Example C68_case : es_run es_new [GetI mcproc; SetI mcproc 7; SetF thrust 9; GetI mcproc; SetI mcproc 8; GetI mcproc; GetI runnum; GetF thrust] =
  ([Ok 0; Ok 0; Ok 0; Ok 7; Ok 0; Ok 8; Ok 0; Ok 9],
   mkGO [0; 0; 0; 0; 0; 0; 0; 0; 0; 0; 0; 0; 8] [0; 0; 9; 0; 0; 0; 0; 0; 0; 0; 0; 0; 0; 0; 0] [0; 0; 0; 0; 0; 0; 0; 0; 0; 0; 0; 0; 0; 0; 0] true (str "LCGenericObject") []) /\
  nth_error (entries "i"%byte es_desc) 12 = Some (esi_name mcproc).
Proof. split; vm_compute; reflexivity. Qed.

(** "The description names all values of the object" is false: there are 15 doubles which it does not name, because
    ESD is a name of EventSummaryFloatValues and not of the empty EventSummaryDoubleValues. *)
Theorem C68_doubles_refuted : exists cs, length (go_dbl (snd (es_run es_new cs))) = 15%nat /\ entries "d"%byte es_desc = [] /\
  go_dbl (snd (es_run es_new cs)) = [0; 0; 5; 0; 0; 0; 0; 0; 0; 0; 0; 0; 0; 0; 0].
Proof. exists [SetD thrust 5]. repeat split; vm_compute; reflexivity. Qed.
Print Assumptions C68_doubles_refuted.

(** * Proofs about readcalibration *)

From Verif Require Import Bytes BitModel StrMap SioModel SioProofs SioSpec Ieee ObjModel ObjSpec CollSpec EventModel EventSpec EventProofs EventFacts
  IndexModel IndexSpec IndexProofs FileModel IndexFile IndexFacts FileSpec FileWrite FileSessions FileRead FileSeq FileDeliver FileFacts FileUse FileDirect FileMore FileCount
  ImplModel ViewModel ShowModel AnaModel AnaSpec AnaProofs CopyEvent CalModel CalSpec.

(** ** Names of types *)

Lemma handler_generic n : get_handler n = Some TGO -> n = str "LCGenericObject".
Proof.
  unfold get_handler. destruct (find (fun e => bytes_eqb n (fst e)) registry) as [e|] eqn:F; [|discriminate]. intros H. injection H as H.
  apply find_some in F. destruct F as [F E]. apply bytes_eqb_eq in E. subst n. unfold registry in F. cbn [In] in F.
  repeat (destruct F as [<-|F]; [cbn [snd] in H; first [discriminate H|reflexivity]|]). destruct F.
Qed.
Lemma type_stored ty h c : sm_ok (p_str (c_par c)) -> get_handler (c_type c) = Some ty -> sm_get (str "TypeName") (p_str (c_par c)) <> Some [] ->
  get_string_val (stored_params ty h c) (str "TypeName") = Ok (type_name h c).
Proof.
  intros Hs Ht Hn. unfold type_name. destruct (bytes_eqb (c_type c) (str "LCGenericObject")) eqn:E.
  - apply bytes_eqb_eq in E. rewrite E in Ht. assert (T : ty = TGO) by (vm_compute in Ht; injection Ht as <-; reflexivity). subst ty. clear Ht E.
    unfold stored_params. change (str "TypeName") with typename_key in *.
    assert (G0 : get_string_val (c_par c) typename_key = Ok (match sm_get typename_key (p_str (c_par c)) with Some ((b :: n) :: _) => b :: n | _ => [] end)).
    { unfold get_string_val. destruct (sm_get typename_key (p_str (c_par c))) as [[|[|b n] l]|]; [contradiction|reflexivity..]. }
    destruct (c_elems c) as [|a l]; [rewrite G0; destruct (sm_get typename_key (p_str (c_par c))) as [[|[|b n] l]|]; reflexivity|].
    destruct (h a) as [x|]; [|rewrite G0; destruct (sm_get typename_key (p_str (c_par c))) as [[|[|b n] l']|]; reflexivity].
    destruct x; try (rewrite G0; destruct (sm_get typename_key (p_str (c_par c))) as [[|[|b n] l']|]; reflexivity).
    match goal with |- context [default_value (c_par c) typename_key (go_type ?y)] => rename y into o end.
    assert (G1 : get_string_val (default_value (c_par c) typename_key (go_type o)) typename_key =
                 Ok (match sm_get typename_key (p_str (c_par c)) with Some ((b :: n) :: _) => b :: n | _ => go_type o end)).
    { unfold default_value, has_value. destruct (sm_get typename_key (p_str (c_par c))) as [[|[|b n] l']|] eqn:G; try (unfold get_string_val; cbn [p_str]; rewrite sm_get_set by exact Hs; rewrite bytes_eqb_refl; reflexivity).
      unfold get_string_val. rewrite G. reflexivity. }
    assert (Hp : sm_ok (p_str (default_value (c_par c) typename_key (go_type o)))) by (unfold default_value; destruct (has_value (c_par c) typename_key); [exact Hs|cbn [p_str]; apply sm_set_ok; exact Hs]).
    destruct (stores_fixed TGO h c); [|exact G1]. rewrite <- G1. unfold get_string_val. rewrite default_value_other by (try exact Hp; vm_compute; discriminate). reflexivity.
  - assert (P : sm_get (str "TypeName") (p_str (stored_params ty h c)) = sm_get (str "TypeName") (p_str (c_par c))).
    { destruct ty; try reflexivity.
      - unfold stored_params. cbn [p_str]. rewrite sm_get_set by exact Hs. reflexivity.
      - apply handler_generic in Ht. rewrite Ht, bytes_eqb_refl in E. discriminate E. }
    unfold get_string_val. rewrite P. destruct (sm_get (str "TypeName") (p_str (c_par c))) as [[|[|b n] l]|]; [contradiction|reflexivity..].
Qed.

(** ** One event *)

Lemma numbers_pos f l n a : numbers f l n -> 0 < n -> In a l -> 0 < f a.
Proof. intros H Hn Ha. apply In_nth_error in Ha. destruct Ha as [i Hi]. rewrite (H i a Hi). lia. Qed.
Lemma cal_one srt new tgt h c ds f a v o : (get_handler (c_type c) = Some TGO) -> h a = Some o -> is_constant o v -> 0 < new a ->
  f (new a) = option_map (more ds) (copy_in srt new tgt h c o) -> cal_element f (new a) = Ok v.
Proof.
  intros Ht Ha Hv Hn Hf. destruct v as [[i x] y]. destruct Hv as (fx & t & d & ->). unfold copy_in in Hf. rewrite Ht in Hf. cbn in Hf.
  unfold cal_element. destruct (Z.eqb_spec (new a) 0) as [E|_]; [lia|]. rewrite Hf. reflexivity.
Qed.
Lemma cal_some (f h : heap) (new : addr -> addr) : forall l, Forall (fun a => exists o v, h a = Some o /\ is_constant o v) l ->
  (forall a o v, In a l -> h a = Some o -> is_constant o v -> cal_element f (new a) = Ok v) ->
  exists vs, cal_elements f (map new l) = Ok vs /\ Forall2 (fun a v => exists o, h a = Some o /\ is_constant o v) l vs.
Proof.
  induction l as [|a l IH]; intros HF HE; [exists []; split; [reflexivity|constructor]|]. inversion HF as [|? ? (o & v & Ho & Hv) HF']; subst.
  destruct (IH HF' (fun b o' v' Hb => HE b o' v' (or_intror Hb))) as (vs & E & F). exists (v :: vs). cbn [map cal_elements]. rewrite (HE a o v (or_introl eq_refl) Ho Hv). cbn [bind]. rewrite E. split; [reflexivity|].
  constructor; [exists o; split; assumption|exact F].
Qed.
Lemma read_back_all only e : read_back only [] e = stored_cols only e.
Proof. unfold read_back, wanted. induction (stored_cols only e) as [|x l IH]; [reflexivity|]. cbn [filter]. rewrite IH. reflexivity. Qed.
(** the new address of an element, in its own collection or in a subset *)
Lemma placed new h only e ty next a : Forall (fun nc => exists ty, get_handler (c_type (snd nc)) = Some ty /\ coll_ok ty h (snd nc)) (stored_cols only e) ->
  numbers new (flat_map (fun nc => coll_objs h (snd nc)) (stored_cols only e)) next -> 0 < next -> written_in ty (stored_cols only e) a ->
  (forall o f, h a = Some o -> pointable f o = true) ->
  0 < new a /\ target new (event_tags only [] h e) a = new a.
Proof.
  intros HO HN Hn (nc & Hin & _ & Hsub & Ha) Hpt. rewrite Forall_forall in HO. destruct (HO nc Hin) as (t & _ & (_ & _ & _ & _ & HT & _)). destruct (HT Hsub) as [T _]. destruct (T a Ha) as (H0 & o & Ho & _).
  split.
  - apply (numbers_pos new _ next a HN Hn). apply in_flat_map. exists nc. split; [exact Hin|]. unfold coll_objs, own_objs. rewrite Hsub. apply in_flat_map. exists a. split; [exact Ha|left; reflexivity].
  - unfold target. destruct (Z.eqb_spec a 0) as [|_]; [contradiction|]. destruct (in_dec Z.eq_dec a (event_tags only [] h e)) as [_|N]; [reflexivity|]. destruct N.
    unfold event_tags. rewrite read_back_all. apply in_flat_map. exists nc. split; [exact Hin|]. unfold coll_tags. rewrite Hsub. apply in_flat_map. exists a. split; [exact Ha|]. rewrite Ho.
    rewrite (Hpt o _ Ho). apply in_or_app. right. left. reflexivity.
Qed.
Lemma cal_copied srt next h e only le : 0 < next -> event_ok only h e -> Forall (fun nc => calibrated h (stored_cols only e) (snd nc)) (stored_cols only e) -> event_copy srt [] next h e only le ->
  exists vs, cal_event (le_heap le) (ev_cols (le_evt le)) = Ok vs /\
    Forall2 (fun a v => exists o, h a = Some o /\ is_constant o v) (flat_map (fun nc => if is_calibration h (snd nc) then c_elems (snd nc) else []) (stored_cols only e)) vs.
Proof.
  intros Hn (_ & _ & _ & _ & _ & _ & _ & HO & _) HC (_ & _ & new & HN & HF & HH). unfold event_objs in HN. rewrite read_back_all in *. cbv zeta in *.
  assert (HO' : Forall (fun nc => exists ty, get_handler (c_type (snd nc)) = Some ty /\ coll_ok ty h (snd nc)) (stored_cols only e)) by (revert HO; apply Forall_impl; intros nc (_ & _ & H); exact H).
  pose proof (fun ty a => placed new h only e ty next a HO' HN Hn) as PL.
  set (tgt := target new (event_tags only [] h e)) in *. clearbody tgt.
  assert (A : forall cols cols', Forall2 (coll_as h (fun sub => if sub then tgt else new)) cols cols' -> incl cols (stored_cols only e) ->
    exists vs, cal_event (le_heap le) cols' = Ok vs /\ Forall2 (fun a v => exists o, h a = Some o /\ is_constant o v) (flat_map (fun nc => if is_calibration h (snd nc) then c_elems (snd nc) else []) cols) vs).
  { clear HF. intros cols cols' HF. induction HF as [|nc nc' cols cols' (_ & _ & ty & Ht & _ & Hp & He) _ IH]; intros HI; [exists []; split; [reflexivity|constructor]|].
    destruct (IH (fun x Hx => HI x (or_intror Hx))) as (vs & E & F). assert (Hin : In nc (stored_cols only e)) by (apply HI; left; reflexivity).
    rewrite Forall_forall in HO, HC. destruct (HO nc Hin) as (_ & _ & ty' & Ht' & _ & (_ & _ & (Hs & _)) & _). destruct (HC nc Hin) as [Hne Hcal].
    cbn [cal_event flat_map]. unfold cal_collection. rewrite Hp. rewrite (type_stored ty h (snd nc) Hs Ht Hne). cbn [bind]. unfold is_calibration in *.
    destruct (bytes_eqb (type_name h (snd nc)) (str "CalibrationConstant")); [|cbn [bind]; rewrite E; exists vs; split; [reflexivity|exact F]].
    destruct (Hcal eq_refl) as (Hg & Hall & Hsub). rewrite He.
    assert (HW : forall a, In a (c_elems (snd nc)) -> written_in (str "LCGenericObject") (stored_cols only e) a).
    { intros a Ha. destruct (is_subset (snd nc)) eqn:Es; [|exists nc; repeat (split; [assumption|]); exact Ha]. specialize (Hsub eq_refl). rewrite Forall_forall in Hsub. exact (Hsub a Ha). }
    assert (HP : forall a, In a (c_elems (snd nc)) -> 0 < new a /\ tgt a = new a).
    { intros a Ha. apply (PL _ a (HW a Ha)). intros o fl Ho. rewrite Forall_forall in Hall. destruct (Hall a Ha) as (o' & [[i x] y] & Ho' & (f & t & dd & Eo)). rewrite Ho' in Ho. injection Ho as <-. subst o'. reflexivity. }
    rewrite (map_ext_in _ new) by (intros a Ha; destruct (is_subset (snd nc)); [exact (proj2 (HP a Ha))|reflexivity]).
    destruct (cal_some (le_heap le) h new (c_elems (snd nc)) Hall) as (v1 & E1 & F1).
    - intros a o v Ha Ho Hv. destruct (HW a Ha) as (nw & Hiw & Htw & Hsw & Haw). apply (cal_one srt new tgt h (snd nw) (map new (daughters_of h (stored_cols only e) a)) (le_heap le) a v o); [rewrite Htw; reflexivity|exact Ho|exact Hv|exact (proj1 (HP a Ha))|].
      exact (HH nw a o Hiw Hsw Haw Ho).
    - rewrite E1. cbn [bind]. rewrite E. exists (v1 ++ vs). split; [reflexivity|]. apply Forall2_app; assumption. }
  exact (A _ _ HF (fun x Hx => Hx)).
Qed.

(** ** The program *)

Section Cal.
Context (comp : Z -> bytes -> bytes) (uncomp : bytes -> option bytes) (srt : forall A : Type, (A -> Z) -> list A -> list A) (ignore_null : bool).

Lemma loop_of d : forall fuel r l, ana_events uncomp srt ignore_null fuel d r = Ok l -> forall vs, Forall2 (fun le v => cal_event (le_heap le) (ev_cols (le_evt le)) = Ok v) l vs ->
  cal_loop uncomp srt ignore_null fuel d r = Ok (concat vs, Zlen l).
Proof.
  induction fuel as [|fuel IH]; intros r l H vs HF; [discriminate H|]. cbn [ana_events cal_loop] in H |- *.
  destruct (read_next_event uncomp srt ignore_null d r) as [[[le|]|e|k] r1]; try discriminate H.
  - destruct (ana_events uncomp srt ignore_null fuel d r1) as [ls|e|k] eqn:E; cbn [bind] in H; [|discriminate H..]. injection H as H; subst l.
    inversion HF as [|? v ? vs' Hv HF']; subst. rewrite Hv. cbn [bind]. rewrite (IH r1 ls E vs' HF'). cbn [bind concat]. f_equal. f_equal. unfold Zlen. cbn [length]. lia.
  - injection H as H; subst l. inversion HF; subst. reflexivity.
Qed.
Lemma copies_cal : forall next W l, copies srt [] next W l -> 0 < next -> Forall (fun w => match snd w with WRun _ => True | WEvt h e only => event_ok only h e end) W ->
  Forall (fun w => calibrated_item (snd w)) W ->
  exists vs, Forall2 (fun le v => cal_event (le_heap le) (ev_cols (le_evt le)) = Ok v) l vs /\ constants (map snd W) (concat vs) /\ Zlen l = evts (map snd W).
Proof.
  intros next W l H. induction H as [next|next n h W l _ IH|next n h e only W le l Hc _ IH]; intros Hn HO HC.
  - exists []. split; [constructor|]. split; [constructor|reflexivity].
  - inversion HO; inversion HC; subst. destruct IH as (vs & F & C & Z); try assumption. exists vs. split; [exact F|]. split; [cbn [map snd]; constructor; exact C|]. rewrite Z. unfold evts. cbn. reflexivity.
  - inversion HO as [|? ? O1 HO']; inversion HC as [|? ? C1 HC']; subst. cbn [snd] in O1, C1. destruct IH as (vs & F & C & Z); [pose proof (Zlen_nonneg (event_objs only [] h e)); lia|assumption..|].
    destruct (cal_copied srt next h e only le Hn O1 C1 Hc) as (v & Ev & Fv). exists (v :: vs). split; [constructor; assumption|]. split; [cbn [map snd concat]; constructor; assumption|].
    cbn [map snd]. unfold evts, Zlen in *. cbn. lia.
Qed.
Lemma items_good l : Forall sess_ok l -> Forall (fun i => match i with WRun _ => True | WEvt h e only => event_ok only h e end) (items_of l).
Proof.
  induction 1 as [|s l (_ & _ & _ & H & _) _ IH]; [constructor|]. unfold items_of in *. cbn [flat_map]. apply Forall_app. split; [|exact IH]. apply Forall_map.
  revert H. apply Forall_impl. intros [z [r|h e only]] Hi; [exact Logic.I|exact (proj1 Hi)].
Qed.
Theorem cal_done d f fuel raw cbuf mraw next : codec_ok comp uncomp -> wf_ok comp uncomp d f -> Forall (readable ignore_null []) (items_of (wf_sess f)) ->
  Forall calibrated_item (items_of (wf_sess f)) -> 0 < next -> (length (items_of (wf_sess f)) < fuel)%nat ->
  exists vs, readcalibration uncomp srt ignore_null fuel d [wf_name f] (new_reader false false [] raw cbuf mraw next) = Ok (Some (vs, evts (items_of (wf_sess f)))) /\
    constants (items_of (wf_sess f)) vs.
Proof.
  intros HC HW HR HK Hn Hfu. set (r0 := new_reader false false [] raw cbuf mraw next).
  assert (I0 : idle [] next r0) by (repeat (split; [reflexivity|]); exists mraw; reflexivity).
  assert (MS : map snd (wf_items f) = items_of (wf_sess f)) by (unfold wf_items; rewrite map_map; cbn [snd]; apply map_id).
  destruct (idle_open comp uncomp d [f] [] next r0 HC ltac:(discriminate) (Forall_cons _ HW (Forall_nil _)) I0) as (L & r1 & O & S1 & N1 & X1 & _ & F1).
  cbn [flat_map] in F1. rewrite app_nil_r in F1.
  destruct (events_all comp uncomp srt ignore_null d fuel _ L r1 S1 F1) as (l & E & C).
  { rewrite N1. unfold wf_items. apply Forall_map. exact HR. } { lia. } { unfold wf_items. rewrite map_length. exact Hfu. }
  rewrite N1, X1 in C.
  destruct (copies_cal next (wf_items f) l C Hn) as (vs & FV & CV & ZV); [unfold wf_items; apply Forall_map; apply items_good; exact (proj1 (proj1 HW))|unfold wf_items; apply Forall_map; exact HK|].
  rewrite MS in CV, ZV. exists (concat vs). split; [|exact CV].
  assert (OF : open_file uncomp d (wf_name f) r0 = (Ok tt, r1)).
  { unfold ana_open, open_files in O. cbn [map existsb] in O. destruct (d (wf_name f)) as [data|] eqn:Hd; cbn [orb] in O; [|discriminate O].
    unfold open_file in O |- *. rewrite Hd in O |- *. cbn in O |- *. injection O as <-. reflexivity. }
  unfold readcalibration. rewrite OF, (loop_of d fuel r1 l E vs FV). cbn [bind]. rewrite ZV. reflexivity.
Qed.
End Cal.

(** * What sequential reading delivers *)

From Verif Require Import Bytes StrMap SioModel SioProofs SioRecord SioRead SioFrame SioSpec Ieee ObjModel ObjSpec ObjProofs ObjCalls CollSpec
  CollProofs ListFacts EventModel EventSpec EventProofs PostProofs EventFacts IndexModel IndexSpec IndexProofs FileModel FileFrame IndexFile IndexFacts FileSpec FileWrite FileSessions FileRead FileSeq.

Section Codec.
Context (comp : Z -> bytes -> bytes) (uncomp : bytes -> option bytes) (srt : forall A : Type, (A -> Z) -> list A -> list A) (ignore_null : bool).

(** ** One item *)

(** [s] is what was stored for the item [i] *)
Definition stored_as (i : witem) (s : sitem) : Prop :=
  exists b1 b2 z, usable b1 /\ usable b2 /\ item_ok (z, i) /\ encoded b1 b2 i s.

Lemma item_fits z h e only : item_ok (z, WEvt h e only) -> event_ok only h e /\ event_fits only h e.
Proof.
  intros (H1 & [H2 _] & H3). split; [exact H1|]. split; [lia|]. intros bs cols E. destruct (H3 bs cols E) as [H _]. lia.
Qed.

Lemma objs_nodup only names h e : event_ok only h e -> NoDup (event_objs only names h e).
Proof. intros (_ & _ & _ & _ & _ & _ & _ & _ & Hnd). unfold event_objs, read_back. apply NoDup_flat_map_filter. exact Hnd. Qed.
Lemma stored_event names h e only s next : stored_as (WEvt h e only) s -> readable ignore_null names (WEvt h e only) -> 0 < next ->
  exists hd ed e0 l, s = SEvt hd ed /\ read_header_record names hd = Ok e0 /\
    evt_result srt ignore_null next ed e0 = (Ok (Some l), next + Zlen (event_objs only names h e)) /\ event_copy srt names next h e only l.
Proof.
  intros (b1 & b2 & z & U1 & U2 & Hok & Henc) [Hmc Hsub] Hp. destruct (item_fits _ _ _ _ Hok) as [He Hf].
  destruct s as [r|hd ed]; [destruct Henc|]. destruct Henc as (rh & bh & e1 & re & be & E1 & E2 & -> & ->).
  destruct (numbering_exists (event_objs only names h e) next (objs_nodup only names h e He)) as (new & Hnew).
  destruct (store_read_spec srt ignore_null only names h e b1 b2 new next He Hf U1 U2 Hp Hnew Hmc Hsub) as (e' & h' & E & Hh & Fc & Ho).
  unfold store_read in E. rewrite E1 in E. cbn [bind] in E. rewrite E2 in E. cbn [bind] in E. unfold read_event in E.
  set (hd := rec_data rh (b_bytes bh)) in *. set (ed := rec_data re (b_bytes be)) in *.
  destruct (read_header_record names hd) as [e0|x|k] eqn:Eh; cbn [bind] in E; try discriminate E.
  destruct (read_event_record srt ed e0 next) as [[[e2 h2] n2]|x|k] eqn:Ee; cbn [bind] in E; try discriminate E.
  destruct (post_process ignore_null h2 e2) as [h3|x|k] eqn:Ep; cbn [bind] in E; try discriminate E.
  apply Ok_pair in E. destruct E as [E ->]. injection E as -> ->.
  exists hd, ed, e0, (mkLE e' h' None). split; [reflexivity|]. split; [exact Eh|]. unfold evt_result. rewrite Ee, Ep. cbn [bind].
  split; [reflexivity|]. split; [reflexivity|]. split; [exact Hh|]. exists new. split; [exact Hnew|]. split; [exact Fc|exact Ho].
Qed.
Lemma stored_good names i s : stored_as i s -> readable ignore_null names i -> good_item srt ignore_null names s.
Proof.
  destruct i as [r|h e only].
  - intros (b1 & b2 & z & _ & _ & _ & Henc) _. destruct s; [exact I|destruct Henc].
  - intros Hs Hr. destruct (stored_event names h e only s 1 Hs Hr ltac:(lia)) as (hd & ed & e0 & l & -> & Eh & _). exists e0. split; [exact Eh|].
    intros next Hp. destruct (stored_event names h e only _ next Hs Hr Hp) as (hd' & ed' & e0' & l' & Q & Eh' & Er & _). injection Q as <- <-.
    rewrite Eh in Eh'. apply Ok_inj in Eh'. subst e0'. exists l'. eexists. split; [exact Er|]. pose proof (Zlen_nonneg (event_objs only names h e)). lia.
Qed.

(** ** Any calls *)

Definition stored_in (w : bytes * witem) (x : bytes * sitem) : Prop := fst w = fst x /\ stored_as (snd w) (snd x).
Lemma stored_kind w x : stored_in w x -> is_wrun w = is_srun (snd x).
Proof. destruct w as [n [r|h e only]], x as [m [h'|hd ed]]; intros [_ (b1 & b2 & z & _ & _ & _ & E)]; cbn in *; try reflexivity; destruct E. Qed.
Lemma kinds W L : Forall2 stored_in W L -> forallb is_wrun W = forallb (fun x => is_srun (snd x)) L /\ existsb is_wrun W = existsb (fun x => is_srun (snd x)) L.
Proof. induction 1 as [|w x W L H _ [IH1 IH2]]; [split; reflexivity|]. cbn [forallb existsb]. rewrite (stored_kind _ _ H), IH1, IH2. split; reflexivity. Qed.

Theorem play_trace fin c names ops : fin_ok c fin -> forall next W L, 0 < next -> Forall2 stored_in W L -> Forall (fun w => readable ignore_null names (snd w)) W ->
  trace srt names (if c then at_null else null_or_exn) next W ops (play srt ignore_null fin names next L ops).
Proof.
  intros Hfin. assert (Hfin' : forall b, (if c then at_null else null_or_exn) b (fin b)).
  { intros b. destruct c; [rewrite Hfin; reflexivity|apply Hfin]. }
  induction ops as [|[|] ops IH]; intros next W L Hp HF HR; [constructor| |]; cbn [play].
  - destruct (find_evt L) as [[[hd ed] L']|] eqn:EL.
    + destruct (find_evt_in _ _ _ _ EL) as (pre & n & -> & Hpre). apply Forall2_app_inv_r in HF. destruct HF as (W1 & W2 & F1 & F2 & ->).
      inversion F2 as [|[m i] ? W' ? Hs F3]; subst. apply Forall_app in HR. destruct HR as [_ HR]. inversion HR as [|? ? Hr HR']; subst.
      rewrite <- (proj1 (kinds _ _ F1)) in Hpre. destruct Hs as [Hm Hs]. cbn [fst snd] in Hm, Hs, Hr.
      destruct i as [r|h e only]; [destruct Hs as (? & ? & ? & _ & _ & _ & [])|].
      destruct (stored_event names h e only _ next Hs Hr Hp) as (hd' & ed' & e0 & l & Q & Eh & Er & Hc). injection Q as <- <-. rewrite Eh, Er.
      apply T_evt; [assumption|assumption|]. apply IH; [pose proof (Zlen_nonneg (event_objs only names h e)); lia|assumption|assumption].
    + apply T_evt_end; [|apply Hfin']. rewrite (proj1 (kinds _ _ HF)). apply find_evt_none. exact EL.
  - destruct (find_run L) as [[[n h] L']|] eqn:EL.
    + destruct (find_run_in _ _ _ _ EL) as (pre & -> & Hpre). apply Forall2_app_inv_r in HF. destruct HF as (W1 & W2 & F1 & F2 & ->).
      inversion F2 as [|[m i] ? W' ? Hs F3]; subst. apply Forall_app in HR. destruct HR as [_ HR]. inversion HR as [|? ? Hr HR']; subst.
      rewrite <- (proj2 (kinds _ _ F1)) in Hpre. destruct Hs as [Hm Hs]. cbn [fst snd] in Hm, Hs. subst m.
      destruct i as [r|h0 e only]; [|destruct Hs as (? & ? & ? & _ & _ & _ & [])]. destruct Hs as (? & ? & ? & _ & _ & _ & Q). cbn in Q. subst h.
      apply T_run; [assumption|]. apply IH; assumption.
    + apply T_run_end; [|apply Hfin']. rewrite (proj2 (kinds _ _ HF)). apply find_run_none. exact EL.
Qed.

(** ** Files *)

Lemma made_inv d n s l : codec_ok comp uncomp -> sessions_ok comp (s :: l) -> made_by comp uncomp d n s l ->
  exists data body E Es S, d n = Some data /\ file_inv comp uncomp (s :: l) data body E Es S.
Proof.
  intros Hc (Hok & Hne & Hcount & Hvol) (d0 & d1 & name & -> & Hs & Hd).
  destruct (sessions_inv comp uncomp d0 name s l Hc Hok Hne Hcount Hvol) as (d' & data & body & E & Es & S & E1 & E2 & _ & Hi).
  rewrite E1 in Hs. apply Ok_inj in Hs. subst d1. exists data, body, E, Es, S. split; [congruence|exact Hi].
Qed.
Lemma inv_content l data body E Es S d n : file_inv comp uncomp l data body E Es S -> d n = Some data -> content uncomp d n S.
Proof.
  intros (lb & fra & f & xa & a & I1 & I2 & I3 & I4 & I5 & _) Hd. exists data, (lb ++ [fra]). split; [exact Hd|].
  assert (Hf : Forall f_ok (lb ++ [fra])) by (apply Forall_app; split; [exact I3|constructor; [exact (proj2 (access_name _ _ I4))|constructor]]).
  split.
  - pose proof (view_records (lb ++ [fra]) [] Hf) as V. rewrite ftext_app in V. cbn [app ftext flat_map] in V. rewrite app_nil_r in V.
    rewrite I2, I1. exact V.
  - rewrite <- (app_nil_r S). eapply layout_stores; [exact I5|]. apply S_other; [exact (proj1 (access_name _ _ I4))|constructor].
Qed.
Lemma inv_stored l data body E Es S : file_inv comp uncomp l data body E Es S -> Forall sess_ok l -> Forall2 stored_as (items_of l) S.
Proof.
  intros (lb & fra & f & xa & a & _ & _ & _ & _ & _ & _ & _ & _ & _ & _ & _ & _ & _ & _ & _ & _ & _ & _ & HF & _) Hok.
  assert (Ei : items_of l = map snd (all_items l)).
  { unfold items_of, all_items. clear. induction l as [|s l IH]; [reflexivity|]. cbn [flat_map]. rewrite map_app, IH. f_equal. rewrite map_map. reflexivity. }
  assert (Hi : Forall (fun x => usable (fst (fst x)) /\ usable (snd (fst x)) /\ exists z, item_ok (z, snd x)) (all_items l)).
  { rewrite Forall_forall. intros x Hx. unfold all_items in Hx. apply in_flat_map in Hx. destruct Hx as (s & Hs & Hx). apply in_map_iff in Hx. destruct Hx as ([z i] & <- & Hz).
    rewrite Forall_forall in Hok. destruct (Hok s Hs) as (_ & U1 & U2 & F & _). cbn [fst snd]. split; [exact U1|]. split; [exact U2|]. exists z. rewrite Forall_forall in F. exact (F _ Hz). }
  rewrite Ei. clear Ei Hok. induction HF as [|x sx X S' H HF IH]; [constructor|]. inversion Hi as [|? ? (U1 & U2 & z & Hz) Hi']; subst.
  cbn [map]. constructor; [|apply IH; exact Hi']. exists (fst (fst x)), (snd (fst x)), z. split; [exact U1|]. split; [exact U2|]. split; [exact Hz|exact H].
Qed.
Lemma inv_closed l data body E Es S : file_inv comp uncomp l data body E Es S -> Forall (sess_covers comp) l ->
  exists f, closed data body f (map (fun l => rm_map (index_of l)) (rev Es)).
Proof.
  intros (lb & fra & f & xa & a & I1 & I2 & I3 & I4 & I5 & I6 & I7 & I8 & I9 & I10 & I11 & I12 & I13 & I14 & I15 & I16 & I17 & I18 & I19 & I20 & I21) Hc.
  exists f, fra. split; [exact I2|]. split; [exact I4|]. split; [exact (I21 Hc)|]. intros H. apply map_eq_nil in H.
  apply I17. rewrite <- (rev_involutive Es), H. reflexivity.
Qed.

(** a list of files *)
Lemma open_sim d n S rest direct names raw cbuf mraw next : content uncomp d n S -> Forall (fun nS => content uncomp d (fst nS) (snd nS)) rest ->
  (direct = true -> exists data body f c, d n = Some data /\ closed data body f c) ->
  exists r, open_files uncomp d (n :: map fst rest) (new_reader direct false names raw cbuf mraw next) = (Ok tt, r) /\
    sim uncomp d r (tagged (n, S) ++ flat_map tagged rest) true /\ rd_names r = names /\ rd_next r = next.
Proof.
  intros (data & lb & Hd & Hv & Hs) Hrest Hdir. unfold open_files.
  assert (Hex : existsb (fun m => match d m with None => true | Some _ => false end) (n :: map fst rest) = false).
  { cbn [existsb]. rewrite Hd. cbn [orb]. clear -Hrest. induction Hrest as [|[m Sm] rest (dm & lm & Hm & _) _ IH]; [reflexivity|]. cbn [map existsb fst] in *. rewrite Hm. exact IH. }
  rewrite Hex. unfold open_file. rewrite Hd. cbn [with_s with_files new_reader rd_direct].
  destruct direct.
  - destruct (Hdir eq_refl) as (data' & body & f & c & Hd' & Hc). rewrite Hd in Hd'. injection Hd' as <-.
    unfold get_map. cbn [with_s with_files new_reader rd_s rd_mgr rd_direct].
    destruct (create_closed uncomp data body f c (open_ifs data) (new_mgr mraw) Hc (conj eq_refl eq_refl) eq_refl) as (g' & Eg & _). rewrite Eg. cbn [bind].
    eexists. split; [reflexivity|]. split; [|split; reflexivity]. exists [], n, S, rest. split; [reflexivity|]. split; [reflexivity|]. split; [reflexivity|].
    split; [|split; [left; reflexivity|split; [exact Hrest|reflexivity]]]. exists data, 0, lb. split; [reflexivity|]. split; assumption.
  - eexists. split; [reflexivity|]. split; [|split; reflexivity]. exists [], n, S, rest. split; [reflexivity|]. split; [reflexivity|]. split; [reflexivity|].
    split; [|split; [left; reflexivity|split; [exact Hrest|reflexivity]]]. exists data, 0, lb. split; [reflexivity|]. split; assumption.
Qed.
End Codec.

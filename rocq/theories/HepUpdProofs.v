(** * The older StdHep reader and updateNextEvent: proofs *)

From Verif Require Import Bytes StrMap SioModel Ieee ObjModel EventModel ImplModel HepModel HepSpec HepProofs HepFormat HepFile HepUpdModel HepUpdSpec.

(** ** The older reader *)

Lemma link_all_split e l : link_all e l = do l1 <- link_all_old e l; each (link_mothers e) (length l) 0 l1.
Proof.
  unfold link_all, link_all_old. cbn zeta. destruct (each (link_daughters e) (length l) 0 l) as [la| |]; [|reflexivity..]. cbn [bind]. reflexivity.
Qed.
Lemma link_all_old_spec e l l' : unlinked l -> link_all_old e l = Ok l' ->
  mirrored l' /\ length l' = length l /\ (forall i o, at_ l' i o -> exists o0, at_ l i o0 /\ alone o = alone o0) /\
  (forall p d, 0 <= p < Zlen l -> declared e p d -> linked l' p d) /\
  (forall p d, linked l' p d -> 0 <= p < Zlen l /\ 0 <= d < Zlen l /\
     (declared e p d \/
      exists op od, at_ l p op /\ at_ l d od /\ mc_pdg od = 94 /\ mc_gen op = 2 /\ Z.rem (entry (he_mo e) 2 d 0) 10000 - 1 <= p < d /\ forall x, ~ declared e p x)).
Proof.
  intros U. destruct (unlinked_mirrored l U) as [M N]. unfold link_all_old. cbn zeta.
  destruct (each (link_daughters e) (length l) 0 l) as [l1| |] eqn:E1; [|discriminate..]. cbn [bind]. intros E2.
  pose proof (each_extends (link_daughters e) (fun i p d => p = i /\ declared e i d) (length l)
    ltac:(intros i la lb _ Hi H; exact (link_daughters_extends e i la lb (proj1 Hi) H)) 0 l l1 M ltac:(lia) ltac:(unfold Zlen; lia) E1) as X1.
  pose proof (proj1 (proj2 X1) M) as M1. pose proof (extends_len _ _ _ X1) as L1.
  pose proof (repair_all_extended e (length l) 0 0 l1 l' M1 ltac:(lia) E2) as X2. destruct (extended_mirrored _ _ _ M1 X2) as [M2 L2]. destruct X2 as (R2 & HR2 & X2).
  destruct X1 as (A1 & _ & A3 & A4). destruct X2 as (B1 & _ & B3 & B4).
  split; [exact M2|]. split; [congruence|]. split; [|split].
  - intros i o Ho. destruct (B4 i o Ho) as (o1 & H1 & Q1). destruct (A4 i o1 H1) as (o0 & H0 & Q0). exists o0. split; [exact H0|congruence].
  - intros p d Hp Hd. apply B3. left. apply A3. right. exists p. split; [unfold Zlen in Hp; lia|]. split; [reflexivity|exact Hd].
  - intros p d K. assert (0 <= p < Zlen l /\ 0 <= d < Zlen l) as [Hp Hd].
    { destruct K as (o & Ho & K). pose proof (at_range _ _ _ Ho). pose proof (proj2 M2 d o p Ho (or_introl K)). unfold Zlen in *. lia. }
    split; [exact Hp|]. split; [exact Hd|]. apply B3 in K. destruct K as [K|K].
    + apply A3 in K. destruct K as [K|(j & _ & -> & K)]; [destruct (N p d K)|left; exact K].
    + right. apply HR2 in K. destruct K as (od & op & Hod & Hop & K1 & K2 & K3 & K4).
      destruct (A4 d od Hod) as (od0 & Hod0 & Qd). destruct (A4 p op Hop) as (op0 & Hop0 & Qp). exists op0, od0. split; [exact Hop0|]. split; [exact Hod0|].
      split; [apply (f_equal mc_pdg) in Qd; cbn in Qd; congruence|]. split; [apply (f_equal mc_gen) in Qp; cbn in Qp; congruence|]. split; [exact K4|].
      intros x Kx. apply (proj1 (no_daughters l1 p op M1 Hop) K3 x). apply A3. right. exists p. split; [unfold Zlen in Hp; lia|]. split; [reflexivity|exact Kx].
Qed.

(** a mother that is linked already is not linked again *)
Lemma link_mother_there d p l : mirrored l -> linked l p d -> link_mother d p l = Ok l.
Proof.
  intros [M1 M2] (od & Hd & K). pose proof (M2 d od p Hd (or_introl K)) as Hp. destruct (at_exists l p Hp) as (op & Hop). unfold link_mother.
  rewrite (proj2 (part_at _ _ _) Hop). cbn [bind]. replace (existsb (Z.eqb d) (mc_daughters op)) with true; [reflexivity|]. symmetry. apply existsb_in.
  apply times_in. rewrite <- (proj1 (M1 d p od op Hd Hop)). apply times_in. exact K.
Qed.
Lemma link_mothers_from_there d last f : forall p l, mirrored l -> last - p < Z.of_nat f -> (forall x, p <= x <= last -> linked l x d) -> link_mothers_from f d p last l = Ok l.
Proof.
  induction f as [|f IH]; intros p l M Hf H; cbn [link_mothers_from]; destruct (last <? p) eqn:B; try reflexivity; [exfalso; lia|].
  rewrite (link_mother_there d p l M (H p ltac:(lia))). cbn [bind]. apply IH; [exact M|lia|]. intros x Hx. apply H. lia.
Qed.
Lemma link_mothers_there e i l : has (he_mo e) (2 * he_n e) -> 0 <= i < he_n e -> Zlen l = he_n e -> mirrored l -> (forall p, mother e i p -> linked l p i) -> link_mothers e i l = Ok l.
Proof.
  intros Hmo Hi Hn M H. unfold link_mothers. rewrite (has_elem0 _ _ _ _ Hmo), (has_elem _ _ _ _ _ Hmo) by lia. cbn [bind]. fold (first_mother e i) (last_mother e i).
  unfold mother in H. cbv zeta in H. set (f := first_mother e i) in *. set (k := last_mother e i) in *.
  destruct ((0 <? f) && (k =? -1)) eqn:B1; [|destruct ((-1 <? f) && (-1 <? k)) eqn:B2]; [| |reflexivity].
  - apply link_mother_there; [exact M|]. apply H. left. lia.
  - destruct (Z_le_gt_dec f k) as [Hfk|Hfk].
    + assert (0 <= k < Zlen l). { destruct (H k ltac:(lia)) as (o & Ho & K). exact (proj2 M i o k Ho (or_introl K)). }
      apply link_mothers_from_there; [exact M|unfold Zlen in *; lia|]. intros x Hx. apply H. right. lia.
    + apply link_mothers_from_there; [exact M|lia|]. intros x Hx. lia.
Qed.
Lemma each_there f n : forall i l, (forall j, i <= j < i + Z.of_nat n -> f j l = Ok l) -> each f n i l = Ok l.
Proof. induction n as [|n IH]; intros i l H; cbn [each]; [reflexivity|]. rewrite (H i ltac:(lia)). cbn [bind]. apply IH. intros j Hj. apply H. lia. Qed.

Section Old.
Context (third in_time : Z -> Z).

Lemma particles_split e : particles third in_time e = do l <- particles_old third in_time e; each (link_mothers e) (length l) 0 l.
Proof.
  unfold particles, particles_old. destruct (he_n e <? 0) eqn:B; [reflexivity|]. destruct (make_particles third in_time e (Z.to_nat (he_n e)) 0) as [l0| |] eqn:E; [|reflexivity..]. cbn [bind].
  rewrite link_all_split. destruct (link_all_old e l0) as [l1| |] eqn:E1; [|reflexivity..]. cbn [bind]. f_equal.
  destruct (make_particles_spec third in_time e _ 0 l0 ltac:(lia) E) as [L K].
  assert (U : unlinked l0). { intros i o [Hi Ho]. exact (proj2 (K _ _ Ho)). }
  symmetry. exact (proj1 (proj2 (link_all_old_spec e l0 l1 U E1))).
Qed.
Lemma particles_old_spec e l : particles_old third in_time e = Ok l ->
  Zlen l = he_n e /\ mirrored l /\
  (forall i o, at_ l i o -> attributes_of third in_time e i o) /\
  (forall p d, 0 <= p < he_n e -> declared e p d -> linked l p d) /\
  (forall p d, linked l p d -> 0 <= p < he_n e /\ 0 <= d < he_n e /\ (declared e p d \/ repairs e p d)).
Proof.
  unfold particles_old. destruct (he_n e <? 0) eqn:B; [discriminate|]. destruct (make_particles third in_time e (Z.to_nat (he_n e)) 0) as [l0| |] eqn:E; [|discriminate..]. cbn [bind]. intros H.
  destruct (make_particles_spec third in_time e _ 0 l0 ltac:(lia) E) as [L K].
  assert (A : forall i o, at_ l0 i o -> attributes_of third in_time e i o /\ mc_parents o = [] /\ mc_daughters o = []).
  { intros i o [Hi Ho]. specialize (K _ _ Ho). replace (0 + Z.of_nat (Z.to_nat i)) with i in K by lia. exact K. }
  assert (U : unlinked l0) by (intros i o Ho; exact (proj2 (A i o Ho))).
  destruct (link_all_old_spec e l0 l U H) as (M & L' & P1 & P2 & P4). assert (EL : Zlen l0 = he_n e) by (unfold Zlen; lia). rewrite EL in *.
  split; [unfold Zlen in *; lia|]. split; [exact M|]. split; [|split; [exact P2|]].
  - intros i o Ho. destruct (P1 i o Ho) as (o0 & H0 & Q). exact (attributes_alone third in_time e i o o0 Q (proj1 (A i o0 H0))).
  - intros p d Hl. destruct (P4 p d Hl) as (Hp & Hd & Hc). split; [exact Hp|]. split; [exact Hd|]. destruct Hc as [Hc|(op & od & K1 & K2 & K3 & K4 & K5 & K6)]; [auto|]. right.
    split; [rewrite <- (proj1 (proj1 (A d od K2))); exact K3|]. split; [rewrite <- (proj1 (proj2 (proj1 (A p op K1)))); exact K4|]. split; [exact K5|]. intros x _. apply K6.
Qed.
(** what the newer reader accepts, the older one accepts, with fewer links *)
Lemma particles_old_new e l : particles third in_time e = Ok l -> exists l1, particles_old third in_time e = Ok l1 /\
  (forall p d, linked l1 p d -> linked l p d) /\ (forall p d, linked l p d -> linked l1 p d \/ mother e d p).
Proof.
  rewrite particles_split. destruct (particles_old third in_time e) as [l1| |] eqn:E; [|discriminate..]. cbn [bind]. intros H. exists l1. split; [reflexivity|].
  destruct (particles_old_spec e l1 E) as (N & M & _).
  pose proof (each_extends (link_mothers e) (fun i p d => d = i /\ mother e i p) (length l1)
    ltac:(intros i la lb Ma Hi K; exact (link_mothers_extends e i la lb Ma Hi K)) 0 l1 l M ltac:(lia) ltac:(unfold Zlen; lia) H) as (_ & _ & X & _).
  split; intros p d K; [apply X; left; exact K|]. apply X in K. destruct K as [K|(j & _ & -> & K)]; auto.
Qed.
Lemma particles_agree e : has (he_mo e) (2 * he_n e) -> mothers_agree e -> particles_old third in_time e = particles third in_time e.
Proof.
  intros Hmo HA. rewrite particles_split. destruct (particles_old third in_time e) as [l| |] eqn:E; [|reflexivity..]. cbn [bind]. symmetry.
  destruct (particles_old_spec e l E) as (N & M & _ & D & _). apply each_there. intros i Hi. apply link_mothers_there; [exact Hmo|unfold Zlen in N; lia|exact N|exact M|].
  intros p Hp. destruct (HA i p ltac:(unfold Zlen in N; lia) Hp) as [Hr Hd]. exact (D p i Hr Hd).
Qed.
Lemma particles_old_ok e : tables_ok e -> exists l, particles_old third in_time e = Ok l.
Proof. intros H. destruct (particles_ok third in_time e H) as (l & E). destruct (particles_old_new e l E) as (l1 & E1 & _). exists l1. exact E1. Qed.

(** *** readEvent *)
Lemma hep_event_old_particles h c h' : hep_event_old third in_time h = (Ok (Some c), Some h') ->
  particles_old third in_time (h_evt h') = Ok (cc_parts c) /\ cc_weight c = d2f (he_wgt (h_evt h')) /\ cc_idrup c = (if he_idrup (h_evt h') =? 0 then None else Some (s32 (he_idrup (h_evt h')))).
Proof.
  unfold hep_event_old. destruct (hep_read h) as [[k h1]| |]; [|discriminate..]. destruct (k =? 0); [|destruct (k =? ENDOFFILE); discriminate].
  destruct (particles_old third in_time (h_evt h1)) as [l| |] eqn:E; cbn [bind]; [|discriminate..]. intros H. injection H as <- <-. rewrite E. cbn [cc_parts cc_weight cc_idrup]. auto.
Qed.
Lemma hep_event_old_spec h c h' : hep_event_old third in_time h = (Ok (Some c), Some h') ->
  Zlen (cc_parts c) = he_n (h_evt h') /\ mirrored (cc_parts c) /\
  (forall i o, at_ (cc_parts c) i o -> attributes_of third in_time (h_evt h') i o) /\
  (forall p d, 0 <= p < he_n (h_evt h') -> declared (h_evt h') p d -> linked (cc_parts c) p d) /\
  (forall p d, linked (cc_parts c) p d -> declared (h_evt h') p d \/ repairs (h_evt h') p d) /\
  cc_weight c = d2f (he_wgt (h_evt h')) /\ cc_idrup c = (if he_idrup (h_evt h') =? 0 then None else Some (s32 (he_idrup (h_evt h')))).
Proof.
  intros H. destruct (hep_event_old_particles h c h' H) as (E & W & U). destruct (particles_old_spec _ _ E) as (N & M & A & D & L). split; [exact N|]. split; [exact M|]. split; [exact A|]. split; [exact D|].
  split; [|auto]. intros p d K. exact (proj2 (proj2 (L p d K))).
Qed.
Lemma hep_event_old_new h c h' : hep_event third in_time h = (Ok (Some c), Some h') -> exists c1, hep_event_old third in_time h = (Ok (Some c1), Some h') /\
  cc_weight c1 = cc_weight c /\ cc_idrup c1 = cc_idrup c /\ length (cc_parts c1) = length (cc_parts c) /\
  (forall p d, linked (cc_parts c1) p d -> linked (cc_parts c) p d) /\
  (forall p d, linked (cc_parts c) p d -> linked (cc_parts c1) p d \/ mother (h_evt h') d p).
Proof.
  intros H. destruct (hep_event_particles _ _ _ _ _ H) as (E & W & U). destruct (particles_old_new _ _ E) as (l1 & E1 & K1 & K2).
  destruct (particles_spec _ _ _ _ E) as (N & _). destruct (particles_old_spec _ _ E1) as (N1 & _).
  exists (mkMCC (cc_idrup c) (cc_weight c) l1). cbn [cc_parts cc_weight cc_idrup]. split; [|repeat (split; [reflexivity|])].
  2: { split; [unfold Zlen in *; lia|]. split; assumption. }
  revert H. unfold hep_event, hep_event_old. destruct (hep_read h) as [[k h1]| |]; [|discriminate..]. destruct (k =? 0); [|destruct (k =? ENDOFFILE); discriminate].
  intros H. assert (h1 = h') as -> by (injection H as _ H; exact H). rewrite E1. rewrite E in H. cbn [bind] in *. injection H as <-. reflexivity.
Qed.
(** the end of the file and the errors come at the same place *)
Lemma hep_event_ends h : (forall c, fst (hep_event third in_time h) <> Ok (Some c)) -> snd (hep_event third in_time h) = snd (hep_event_old third in_time h) /\
  (fst (hep_event third in_time h) = Ok None <-> fst (hep_event_old third in_time h) = Ok None).
Proof.
  unfold hep_event, hep_event_old. destruct (hep_read h) as [[k h1]| |]; [|intros _; split; [reflexivity|cbn; split; discriminate]..]. destruct (k =? 0); cbn [fst snd].
  - intros H. split; [reflexivity|]. destruct (particles _ _ _); destruct (particles_old _ _ _); cbn [bind]; split; discriminate.
  - intros _. destruct (k =? ENDOFFILE); cbn [fst snd]; split; reflexivity.
Qed.
Lemma hep_event_agree h : (forall k h', hep_read h = Ok (k, h') -> has (he_mo (h_evt h')) (2 * he_n (h_evt h')) /\ mothers_agree (h_evt h')) -> hep_event_old third in_time h = hep_event third in_time h.
Proof.
  intros H. unfold hep_event, hep_event_old. destruct (hep_read h) as [[k h1]| |]; [|reflexivity..]. destruct (H k h1 eq_refl) as [A B]. rewrite (particles_agree _ A B). reflexivity.
Qed.
End Old.

(** ** The events of a file *)

Section File.
Context (third in_time : Z -> Z).

Definition agrees (e : hev) : Prop := has (he_mo e) (2 * he_n e) /\ mothers_agree e.
Lemma hep_events_agree f n : forall h l, pending f h l -> Forall agrees (events_of (he_wgt (h_evt h)) (he_idrup (h_evt h)) l) -> hep_events_old third in_time n h = hep_events third in_time n h.
Proof.
  induction n as [|n IH]; intros h l P HA; [reflexivity|]. destruct (hep_read_lies f h l P) as (h' & E & A). cbn [hep_events hep_events_old]. unfold hep_event, hep_event_old. rewrite E.
  destruct (next_event l) as [[g l']|] eqn:N.
  - destruct A as [A1 A2]. rewrite (next_event_some l _ _ g l' N), <- A1 in HA. inversion HA as [|x y [X1 X2] X3]; subst x y. change (0 =? 0) with true. cbv iota.
    rewrite (particles_agree third in_time _ X1 X2). f_equal. apply (IH h' l' A2 X3).
  - change (ENDOFFILE =? 0) with false. change (ENDOFFILE =? ENDOFFILE) with true. cbv iota. f_equal. apply (IH h' [] A). apply Forall_nil.
Qed.
Lemma stdhep_agree f hd t more : stdhep_file f hd t more -> Forall agrees (events_of 0 0 (et_recs t ++ flat_map et_recs more)) ->
  exists h, hep_open (Some f) = Ok h /\ forall n, hep_events_old third in_time n h = hep_events third in_time n h.
Proof.
  intros H HA. destruct (read_header_lies f hd t more H) as (q & E). eexists. split; [exact E|]. intros n. apply (hep_events_agree f n _ (et_recs t ++ flat_map et_recs more)); [|exact HA].
  exists t, more, 0%nat, (Zlen (et_ptrs t) <=? 0). cbn [h_x x_file h_tab x_err skipn]. split; [reflexivity|]. split; [reflexivity|]. split; [exact (proj1 (proj2 (proj2 H)))|].
  split; [exact (proj2 (proj2 (proj2 H)))|]. split; [lia|]. split; [reflexivity|left; reflexivity].
Qed.
End File.

(** ** updateNextEvent *)

Lemma update_event_updated c number a base name w : es_ro (w_ev w) = false -> maps_ok (w_ev w) -> validate name = true -> sm_get name (es_cols (w_ev w)) = None ->
  free w a base (length (cc_parts c)) -> exists w', update_event true (Ok (Some c)) number a base name w = (w', Ok tt) /\ updated c number a base name w w'.
Proof.
  intros Hro (S1 & S2 & S3) Hv Hn (F1 & F2 & F3). unfold update_event. cbn [negb].

  assert (P1 : par_val 0 (p_int (mccoll_params c)) idrup_name = Ok (match cc_idrup c with Some i => i | None => 0 end)).
  { unfold par_val, mccoll_params. cbn [p_int]. destruct (cc_idrup c); reflexivity. }
  assert (P2 : par_val 0 (p_flt (mccoll_params c)) evtwgt_name = Ok (cc_weight c)) by reflexivity.
  rewrite P1, P2. destruct w as [[ro run num time det [pi pf ps] cols no] wc wo]. cbn [w_ev es_ro es_cols es_par p_int p_flt p_str w_col w_obj es_num] in *. subst ro.
  cbn [app calls ev_do par_do guarded unguarded made w_ev w_col w_obj fst snd es_ro es_run es_num es_time es_det es_par es_cols es_notowned p_int p_flt p_str].
  unfold ev_add. rewrite Hv. cbn [negb es_cols]. rewrite Hn. replace (a =? 0) with false by lia.
  cbn [fst snd with_cols es_ro es_run es_num es_time es_det es_par es_cols es_notowned w_ev w_col w_obj]. set (elems := map _ (seq 0 _)).
  assert (U : forall e', es_cols e' = sm_set name a cols -> es_par e' = mkP (sm_set idrup_name [match cc_idrup c with Some i => i | None => 0 end] pi) (sm_set evt_wgt [cc_weight c] pf) ps ->
    es_num e' = match number with Some n => s32 n | None => num end -> es_run e' = run -> es_time e' = time -> es_det e' = det -> es_ro e' = false -> es_notowned e' = no ->
    updated c number a base name (mkW (mkES false run num time det (mkP pi pf ps) cols no) wc wo)
      (mkW e' (put wc a (false, mkColl (str "MCParticle") 0 (mccoll_params c) elems)) (fun x => if (base <=? x) && (x <? base + Zlen (cc_parts c))
                then option_map (fun o => (false, at_address base o)) (nth_error (cc_parts c) (Z.to_nat (x - base))) else wo x))).
  { intros e' E1 E2 E3 E4 E5 E6 E7 E8. unfold updated. cbn [w_ev w_col w_obj es_par es_cols es_num es_run es_time es_det es_ro es_notowned p_int p_flt p_str]. rewrite E1, E2, E3, E4, E5, E6, E7, E8. cbn [p_int p_flt p_str].
    rewrite !sm_get_set by assumption. rewrite bytes_eqb_refl. split; [reflexivity|]. split.
    { eexists. split; [unfold put; rewrite Z.eqb_refl; reflexivity|]. cbn [c_type c_flag c_elems]. split; [reflexivity|]. split; [reflexivity|].
      split; [unfold elems, Zlen; rewrite map_length, seq_length; reflexivity|]. intros i o [Hi Ho]. pose proof (proj1 (nth_error_Some (cc_parts c) (Z.to_nat i)) ltac:(congruence)) as Hl.
      exists (at_address base o). split; [|split].
      - unfold elems. rewrite (map_nth_error (fun i => base + Z.of_nat i) (Z.to_nat i) (seq 0 (length (cc_parts c))) (d := Z.to_nat i)); [f_equal; lia|].
        rewrite (nth_error_nth' _ 0%nat) by (rewrite seq_length; lia). rewrite seq_nth by lia. reflexivity.
      - replace (_ && _) with true by (unfold Zlen; lia). replace (base + i - base) with i by lia. rewrite Ho. reflexivity.
      - eexists. split; [reflexivity|]. cbn. repeat (split; [reflexivity|]). reflexivity. }
    split; [reflexivity|]. split; [reflexivity|]. split; [reflexivity|].
    assert (NE : forall V k k' (v : V) m, sm_ok m -> k <> k' -> sm_get k (sm_set k' v m) = sm_get k m).
    { intros V k k' v m Hm Hk. rewrite sm_get_set by exact Hm. destruct (bytes_eqb k k') eqn:B; [apply bytes_eqb_eq in B; contradiction|reflexivity]. }
    split; [intros k Hk; exact (NE _ _ _ _ _ S1 Hk)|]. split; [intros k Hk; exact (NE _ _ _ _ _ S3 Hk)|]. split; [intros k Hk; exact (NE _ _ _ _ _ S2 Hk)|].
    repeat (split; [reflexivity|]). split.
    - intros x col Hx. unfold put. destruct (x =? a) eqn:B; [|exact Hx]. replace x with a in Hx by lia. congruence.
    - intros x o Hx. destruct (_ && _) eqn:B; [|exact Hx]. exfalso. specialize (F3 (x - base) ltac:(unfold Zlen in B; lia)). replace (base + (x - base)) with x in F3 by lia. congruence. }
  destruct number as [n|].
  - cbn [app calls ev_do par_do guarded unguarded w_ev w_col w_obj fst snd es_ro es_run es_num es_time es_det es_par es_cols es_notowned]. eexists. split; [reflexivity|]. apply U; reflexivity.
  - cbn [app calls]. eexists. split; [reflexivity|]. apply U; reflexivity.
Qed.
(** at the end of the file, or after an error *)
Lemma update_event_end evt r number a base name w : (forall c, r <> Ok (Some c)) -> fst (update_event evt r number a base name w) = w /\
  (evt = true -> r = Ok None -> snd (update_event evt r number a base name w) = Throw LEndOfData) /\
  (evt = true -> forall x, r = Throw x -> snd (update_event evt r number a base name w) = Throw x) /\
  (evt = false -> snd (update_event evt r number a base name w) = Throw LException).
Proof.
  intros H. unfold update_event. destruct evt; cbn [negb]; [|split; [reflexivity|]; split; [discriminate|split; [discriminate|reflexivity]]].
  destruct r as [[c|]|x|u]; [destruct (H c eq_refl)|..]; (split; [reflexivity|]); (split; [|split]); try discriminate; try reflexivity. intros _ y E. injection E as ->. reflexivity.
Qed.
(** a name that cannot be used, or an event that must not be changed *)
Lemma update_event_refused c number a base name w : es_ro (w_ev w) = true \/ validate name = false \/ sm_get name (es_cols (w_ev w)) <> None ->
  let (w', r) := update_event true (Ok (Some c)) number a base name w in
  r = (if es_ro (w_ev w) then Throw LReadOnly else Throw LEventException) /\ es_cols (w_ev w') = es_cols (w_ev w) /\ es_num (w_ev w') = es_num (w_ev w).
Proof.
  intros H. unfold update_event. cbn [negb].
  assert (P1 : par_val 0 (p_int (mccoll_params c)) idrup_name = Ok (match cc_idrup c with Some i => i | None => 0 end)).
  { unfold par_val, mccoll_params. cbn [p_int]. destruct (cc_idrup c); reflexivity. }
  assert (P2 : par_val 0 (p_flt (mccoll_params c)) evtwgt_name = Ok (cc_weight c)) by reflexivity.
  rewrite P1, P2. destruct w as [[ro run num time det [pi pf ps] cols no] wc wo]. cbn [w_ev es_ro es_cols es_par p_int p_flt p_str w_col w_obj es_num] in *.
  cbn [app calls ev_do par_do guarded unguarded made w_ev w_col w_obj fst snd es_ro es_run es_num es_time es_det es_par es_cols es_notowned p_int p_flt p_str].
  destruct ro; [repeat (split; [reflexivity|]); reflexivity|]. cbn [guarded unguarded fst snd]. destruct H as [H|H]; [discriminate|]. unfold ev_add. cbn [es_cols].
  destruct (validate name); cbn [negb]; [|repeat (split; [reflexivity|]); reflexivity]. destruct H as [H|H]; [discriminate|]. destruct (sm_get name cols); [|contradiction]. repeat (split; [reflexivity|]); reflexivity.
Qed.
(** the weight that the event reports *)
Lemma updated_weight c number a base name w w' : updated c number a base name w w' -> ev_weight (w_ev w') = Ok (if (cc_weight c =? 0) || (cc_weight c =? two31) then 1065353216 else cc_weight c).
Proof. intros (_ & _ & H & _). unfold ev_weight, par_val, evt_wgt. rewrite H. reflexivity. Qed.

Section Next.
Context (third in_time : Z -> Z).
Lemma update_next_new_updated number h c h' a base name w : hep_event third in_time h = (Ok (Some c), Some h') ->
  es_ro (w_ev w) = false -> maps_ok (w_ev w) -> validate name = true -> sm_get name (es_cols (w_ev w)) = None -> free w a base (length (cc_parts c)) ->
  exists w', update_next_new third in_time true number h a base name w = (w', Ok tt, Some h') /\
    updated c (if number then Some (he_num (h_evt h')) else None) a base name w w'.
Proof.
  intros E H1 H2 H3 H4 H5. unfold update_next_new. cbn [negb]. rewrite E.
  destruct (update_event_updated c (if number then Some (he_num (h_evt h')) else None) a base name w H1 H2 H3 H4 H5) as (w' & Ew & U). exists w'. split; [|exact U]. destruct number; rewrite Ew; reflexivity.
Qed.
Lemma update_next_old_updated h c h' a base name w : hep_event_old third in_time h = (Ok (Some c), Some h') ->
  es_ro (w_ev w) = false -> maps_ok (w_ev w) -> validate name = true -> sm_get name (es_cols (w_ev w)) = None -> free w a base (length (cc_parts c)) ->
  exists w', update_next_old third in_time true h a base name w = (w', Ok tt, Some h') /\ updated c None a base name w w'.
Proof.
  intros E H1 H2 H3 H4 H5. unfold update_next_old. cbn [negb]. rewrite E.
  destruct (update_event_updated c None a base name w H1 H2 H3 H4 H5) as (w' & Ew & U). exists w'. split; [|exact U]. rewrite Ew. reflexivity.
Qed.
Lemma update_next_end number h h' a base name w : hep_event third in_time h = (Ok None, h') ->
  update_next_new third in_time true number h a base name w = (w, Throw LEndOfData, h') /\ update_next_old third in_time true h a base name w = (w, Throw LEndOfData, h').
Proof.
  intros E. assert (E' : hep_event_old third in_time h = (Ok None, h')).
  { pose proof (hep_event_ends third in_time h ltac:(rewrite E; discriminate)) as [A B]. rewrite E in A, B. cbn [fst snd] in A, B. destruct (hep_event_old third in_time h) as [r s]. cbn [fst snd] in *.
    rewrite (proj1 B eq_refl), A. reflexivity. }
  unfold update_next_new, update_next_old. cbn [negb]. rewrite E, E'. split; reflexivity.
Qed.
End Next.

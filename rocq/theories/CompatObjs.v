(** * Files of earlier versions: the objects *)

From Verif Require Import Bytes StrMap SioModel SioProofs SioRecord SioRead SioFrame SioSpec Ieee ObjModel ObjSpec
  ObjProofs ObjCalls CollSpec CollProofs ListFacts EventModel EventSpec EventProofs EventFacts LayoutSpec LayoutProofs CompatSpec CompatProofs.

(** ** Fields with numbers *)

Definition ids_state (r : rho) (new : addr -> addr) (l : list addr) (m : list (Z * addr)) : list (Z * addr) :=
  fold_left (fun m a => if tagw r a =? 4294967295 then m else map_insert (tagw r a) (new a) m) l m.
Lemma ids_state_app r new a b m : ids_state r new (a ++ b) m = ids_state r new b (ids_state r new a m).
Proof. apply fold_left_app. Qed.
Lemma ids_app a b : ids (a ++ b) = ids a ++ ids b.
Proof. apply flat_map_app. Qed.
Lemma ids_flat {A} (f : A -> list field) l : (forall x, In x l -> ids (f x) = []) -> ids (flat_map f l) = [].
Proof.
  induction l as [|x l IH]; intros H; [reflexivity|]. cbn [flat_map]. rewrite ids_app, H by (left; reflexivity).
  apply IH. intros y Hy. apply H. right. exact Hy.
Qed.
Lemma ids_words l : ids (map Word l) = []. Proof. apply ids_map. reflexivity. Qed.
Lemma ids_singles l : ids (map Single l) = []. Proof. apply ids_map. reflexivity. Qed.
Lemma ids_longs l : ids (map Long l) = []. Proof. apply ids_map. reflexivity. Qed.
Lemma ids_refs l : ids (map Ref l) = []. Proof. apply ids_map. reflexivity. Qed.
Lemma ids_if b fs : ids (only_if b fs) = if b then ids fs else [].
Proof. destruct b; reflexivity. Qed.
Lemma ids_word z fs : ids (Word z :: fs) = ids fs. Proof. reflexivity. Qed.
Lemma ids_long z fs : ids (Long z :: fs) = ids fs. Proof. reflexivity. Qed.
Lemma ids_single z fs : ids (Single z :: fs) = ids fs. Proof. reflexivity. Qed.
Lemma ids_ref z fs : ids (Ref z :: fs) = ids fs. Proof. reflexivity. Qed.
Lemma ids_id z fs : ids (Id z :: fs) = z :: ids fs. Proof. reflexivity. Qed.
Lemma ids_nil : ids [] = []. Proof. reflexivity. Qed.
Lemma ids_text z fs : ids (Text z :: fs) = ids fs. Proof. reflexivity. Qed.
Lemma if_nil {A} (b : bool) : (if b then @nil A else []) = []. Proof. destruct b; reflexivity. Qed.

Ltac idt := repeat first
  [ rewrite ids_app | rewrite ids_if | rewrite ids_words | rewrite ids_singles | rewrite ids_longs | rewrite ids_refs
  | rewrite ids_word | rewrite ids_long | rewrite ids_single | rewrite ids_ref | rewrite ids_id | rewrite ids_text | rewrite ids_nil
  | rewrite if_nil | rewrite app_nil_r | progress cbn [app]
  | match goal with |- context [ids (flat_map ?f ?l)] => rewrite (ids_flat f l) by (intros ? _; solve [idt]) end ];
  try reflexivity.

Section Objects.
Context (r : rho) (all : list dcall) (Hro : rho_ok all r) (v : Z * Z) (Hv : version_ok v).

(** ** Tracks *)

Lemma old_reads_tstate t st : tstate_ok t ->
  reads (read_tstate (version_word v)) (rlay r (old_tstate v t)) st st (seen_tstate v t).
Proof.
  intros (H1 & H2 & H3 & H4 & H5 & H6 & H7 & H8). unfold read_tstate, old_tstate. vers Hv. cbn [app]. frd.
  apply fret; reflexivity.
Qed.
Lemma old_reads_tstates l acc st : Forall tstate_ok l -> NoDup (named_locs (acc ++ map (seen_tstate v) l)) ->
  reads (read_tstates (version_word v) (length l) acc) (rlay r (flat_map (old_tstate v) l)) st st (acc ++ map (seen_tstate v) l).
Proof.
  revert acc. induction l as [|t l IH]; intros acc H Hn.
  - cbn [map]. rewrite app_nil_r. apply reads_ret.
  - inversion H as [|? ? Ht Hl]; subst. cbn [length read_tstates flat_map map] in *.
    eapply frb; [apply old_reads_tstate; exact Ht|]. cbv beta.
    assert (E : acc ++ seen_tstate v t :: map (seen_tstate v) l = (acc ++ [seen_tstate v t]) ++ map (seen_tstate v) l) by (rewrite <- app_assoc; reflexivity).
    rewrite E in *. rewrite add_fresh_state; [apply IH; assumption|].
    rewrite named_locs_app in Hn. revert Hn. generalize (named_locs (map (seen_tstate v) l)). intros k Hn.
    induction k as [|x k IHk] using rev_ind; [rewrite app_nil_r in Hn; exact Hn|].
    apply IHk. rewrite app_assoc in Hn. apply NoDup_remove_1 in Hn. rewrite app_nil_r in Hn. exact Hn.
Qed.

Lemma old_reads_track flag a na o st : track_ok o -> (newer v 1 65535 = false -> Zlen (tr_states o) = 1) ->
  reads (read_track (version_word v) flag na) (rlay r (old_track v flag a o)) st (tag_state r a na st)
    (map_refs_track (ptrw r) (seen_track v flag o)).
Proof.
  intros (H1 & H2 & H3 & H4 & H5 & H6 & H7 & H8 & H9 & H10 & H11 & H12 & H13) Hf.
  unfold read_track, old_track, many. vers Hv. cbn [app]. frd.
  eapply frb.
  { replace (Z.to_nat (kept (newer v 1 65535) (Zlen (tr_states o)) 1)) with (length (tr_states o)).
    2:{ destruct (newer v 1 65535); cbn [kept]; [unfold Zlen; rewrite Nat2Z.id; reflexivity|].
        specialize (Hf eq_refl). unfold Zlen in Hf. lia. }
    apply (old_reads_tstates _ []); [exact H3|]. cbn [app].
    destruct (newer v 1 65535) eqn:En.
    - assert (Em : map ts_loc (map (seen_tstate v) (tr_states o)) = map ts_loc (tr_states o)).
      { rewrite map_map. apply map_ext. intros t. unfold seen_tstate. rewrite En. reflexivity. }
      unfold named_locs. rewrite Em. exact H4.
    - assert (Em : named_locs (map (seen_tstate v) (tr_states o)) = []).
      { unfold named_locs. rewrite map_map. generalize (tr_states o) as l. clear - En.
        induction l as [|t l IH]; [reflexivity|]. cbn [map filter]. unfold seen_tstate at 1. rewrite En. exact IH. }
      rewrite Em. apply NoDup_nil. }
  cbv beta. frd.
  eapply frb; [apply f_when; frd; fprim|cbv beta]. frd. apply fret; [|reflexivity].
  unfold map_refs_track, seen_track. cbn [tr_hits tr_type tr_states tr_chi2 tr_ndf tr_dedx tr_dedxerr tr_radius tr_hitnums tr_tracks app].
  change (Z.testbit flag 31) with (bit_set flag TRBIT_HITS). destruct (bit_set flag TRBIT_HITS); reflexivity.
Qed.

(** ** Clusters *)

Lemma f_pid p st : pid_ok p -> reads read_pid (rlay r (pid_layout p)) st st p.
Proof.
  intros (H1 & H2 & H3 & H4 & H5 & H6). unfold read_pid, pid_layout, many. cbn [app]. frd.
  apply fret; [destruct p|]; reflexivity.
Qed.
Lemma f_weighted {A} (k : Z * Z -> A) l ws st : Forall word32 ws ->
  reads (r_sized (Zlen (combine l ws)) (let* h := r_pointer_to in let* w := r_f32 in rret (h, w)))
    (rlay r (flat_map (fun hw => [Ref (fst hw); Word (snd hw)]) (combine l ws))) st st
    (map (fun hw => (ptrw r (fst hw), snd hw)) (combine l ws)).
Proof.
  intros H. apply (f_sized r _ _ (fun hw => (ptrw r (fst hw), snd hw))). intros [x y] Hxy. cbn [fst snd].
  fst1. eapply frb_last; [apply f_f32|cbv beta; apply fret; reflexivity].
  apply in_combine_r in Hxy. rewrite Forall_forall in H. auto.
Qed.

Lemma old_reads_cluster srt x flag a na o st : cluster_ok o -> cluster_fits flag o -> floats 3 (x_three x) ->
  (newer v 1 2 = false -> Zlen (cl_shape o) = 6) ->
  reads (read_cluster srt (version_word v) flag na) (rlay r (old_cluster v x flag a o)) st (tag_state r a na st)
    (map_refs_cluster (ptrw r)
       (let s := seen_cluster v flag o in
        mkCL (cl_type s) (cl_energy s) (cl_energyerr s) (cl_pos s) (cl_errpos s) (cl_theta s) (cl_phi s)
             (cl_errdir s) (cl_shape s) (add_pids srt pi_like (cl_pids s)) (cl_clusters s) (cl_hits s)
             (cl_weights s) (cl_energies s))).
Proof.
  intros (H1 & H2 & H3 & H4 & H5 & H6 & H7 & H8 & H9 & H10 & H11 & H12 & H13 & H14 & H15 & H16 & H17) Hf Hx Hs.
  unfold read_cluster, old_cluster. vers Hv. cbn [app]. frd.
  replace (kept (newer v 1 2) (Zlen (cl_shape o)) 6) with (Zlen (cl_shape o))
    by (destruct (newer v 1 2); [reflexivity|cbn [kept]; auto]).
  eapply frb; [unfold r_sized_arr; replace (Zlen (cl_shape o) <? 0) with false by (pose proof (Zlen_nonneg (cl_shape o)); lia);
    apply f_words; [split; [reflexivity|exact H10]|exact H9]|cbv beta].
  eapply frb with (st1 := st) (x := kept (newer v 1 2) (cl_pids o) []).
  { destruct (newer v 1 2).
    - unfold many. fst1. apply f_loop_id. intros p Hp. apply f_pid. rewrite Forall_forall in H12. auto.
    - eapply frb_last; [apply f_words; [exact Hx|lia]|cbv beta; apply fret; reflexivity]. }
  cbv beta. unfold many at 1. cbn [app]. frd.
  eapply frb with (st1 := st) (x := map (fun hw => (ptrw r (fst hw), snd hw))
       (kept (Z.testbit flag 31) (combine (cl_hits o) (cl_weights o)) [])).
  - unfold cluster_fits in Hf. change (Z.testbit flag 31) with (bit_set flag CLBIT_HITS) in *.
    destruct (bit_set flag CLBIT_HITS) eqn:Eb; cbn [r_when kept only_if]; [|apply reads_ret].
    unfold many. eapply frb_cons; [apply f_cnt|cbv beta; apply (f_weighted (fun x => x)); exact H15].
    unfold vec_len, Zlen in *. rewrite combine_length. lia.
  - cbv beta. unfold many. cbn [app]. frd. apply fret; [|reflexivity].
    unfold map_refs_cluster, seen_cluster. cbv zeta. cbn [cl_type cl_energy cl_energyerr cl_pos cl_errpos cl_theta cl_phi cl_errdir cl_shape cl_pids cl_clusters cl_hits cl_weights cl_energies].
    unfold cluster_fits in Hf. destruct (Z.testbit flag 31); cbn [kept]; [|reflexivity].
    specialize (Hf eq_refl). rewrite !map_map. cbn [fst snd].
    f_equal.
    + rewrite <- map_map. f_equal. clear - Hf. revert Hf. unfold Zlen. generalize (cl_weights o).
      induction (cl_hits o) as [|h t IH]; intros [|w ws] Hf; cbn in *; try lia; try reflexivity.
      f_equal. apply IH. lia.
    + clear - Hf. revert Hf. unfold Zlen. generalize (cl_hits o).
      induction (cl_weights o) as [|h t IH]; intros [|w ws] Hf; cbn in *; try lia; try reflexivity.
      f_equal. apply IH. lia.
Qed.

(** ** Particles *)

Lemma f_rpids new l : forall st, Forall (fun ap => pid_ok (snd ap)) l ->
  (forall i b, nth_error (map fst l) i = Some b -> new b = snd st + Z.of_nat i) ->
  reads (r_repeat (length l) read_rpid) (rlay r (flat_map (fun ap => pid_layout (snd ap) ++ [Id (fst ap)]) l)) st
    (ids_state r new (map fst l) (fst st), snd st + Zlen l)
    (map (fun ap => (new (fst ap), snd ap)) l).
Proof.
  induction l as [|[b p] l IH]; intros st Hok Hn.
  - cbn [length r_repeat flat_map map]. unfold ids_state. cbn [fold_left].
    replace (snd st + Zlen []) with (snd st) by (unfold Zlen; cbn; lia).
    destruct st. apply reads_ret.
  - inversion Hok as [|? ? Hp Hl]; subst. cbn [snd] in Hp.
    cbn [length r_repeat flat_map map].
    pose proof (Hn O b eq_refl) as Hb. rewrite Z.add_0_r in Hb.
    eapply frb with (x := (new b, p)) (st1 := (ids_state r new [b] (fst st), snd st + 1)).
    + unfold read_rpid. cbn [fst snd].
      eapply frb_none; [apply reads_new|]. cbv beta. rewrite <- Hb.
      eapply frb; [apply f_pid; exact Hp|cbv beta].
      eapply frb_last; [eapply f_tag; exact Hro|cbv beta]. apply fret; reflexivity.
    + cbv beta. cbn [fst snd]. apply (reads_map _ (fun xs => (new b, p) :: xs)).
      replace (snd st + Zlen ((b, p) :: l)) with (snd st + 1 + Zlen l) by (rewrite Zlen_cons; lia).
      apply (IH (ids_state r new [b] (fst st), snd st + 1)); [exact Hl|].
      intros i c Hc. cbn [snd]. specialize (Hn (S i) c Hc). lia.
Qed.
(** the particle ids of the old format *)
Definition old_pid (p : pid) : pid := mkPID (pi_like p) (pi_type p) 0 (pi_alg p) (pi_par p).
Definition pid_fields (ap : addr * pid) : list field :=
  [Word (pi_like (snd ap)); Word (pi_type (snd ap)); Word (pi_alg (snd ap))] ++ many (one Word) (pi_par (snd ap)).
Lemma f_old_pids new l : forall st, Forall (fun ap => pid_ok (snd ap)) l ->
  (forall i b, nth_error (map fst l) i = Some b -> new b = snd st + Z.of_nat i) ->
  reads (r_repeat (length l) read_old_pid) (rlay r (flat_map pid_fields l)) st (fst st, snd st + Zlen l)
    (map (fun ap => (new (fst ap), old_pid (snd ap))) l).
Proof.
  induction l as [|[b p] l IH]; intros st Hok Hn.
  - cbn [length r_repeat flat_map map].
    replace (snd st + Zlen []) with (snd st) by (unfold Zlen; cbn; lia).
    destruct st. apply reads_ret.
  - inversion Hok as [|? ? Hp Hl]; subst. cbn [snd] in Hp. destruct Hp as (P1 & P2 & P3 & P4 & P5 & P6).
    cbn [length r_repeat flat_map map].
    pose proof (Hn O b eq_refl) as Hb. rewrite Z.add_0_r in Hb.
    eapply frb with (x := (new b, old_pid p)) (st1 := (fst st, snd st + 1)).
    + unfold read_old_pid, pid_fields, many. cbn [fst snd app].
      eapply frb_none; [apply reads_new|]. cbv beta. rewrite <- Hb. frd. apply fret; reflexivity.
    + cbv beta. cbn [fst snd]. apply (reads_map _ (fun xs => (new b, old_pid p) :: xs)).
      replace (snd st + Zlen ((b, p) :: l)) with (snd st + 1 + Zlen l) by (rewrite Zlen_cons; lia).
      apply (IH (fst st, snd st + 1)); [exact Hl|].
      intros i c Hc. cbn [snd]. specialize (Hn (S i) c Hc). lia.
Qed.
Lemma f_old_ptrs l ws st : Zlen ws = Zlen l -> vec_len l -> words ws ->
  reads read_old_ptrs (rlay r (weighted l ws)) st st (map (ptrw r) l).
Proof.
  intros H1 H2 H3. unfold read_old_ptrs, weighted, many.
  assert (Ec : map fst (combine l ws) = l).
  { clear - H1. revert ws H1. unfold Zlen. induction l as [|x l IH]; intros [|w ws] H; cbn in *; try lia; try reflexivity.
    f_equal. apply IH. lia. }
  eapply frb_cons; [apply f_cnt; unfold vec_len, Zlen in *; rewrite combine_length; lia|cbv beta].
  rewrite <- Ec at 3. rewrite map_map. apply (f_loop r _ _ (fun hw => ptrw r (fst hw))). intros [x y] Hxy. cbn [fst snd].
  fst1. eapply frb_last; [apply f_f32|cbv beta; apply fret; reflexivity].
  apply in_combine_r in Hxy. unfold words in H3. rewrite Forall_forall in H3. auto.
Qed.
Lemma f_dummy l st : Zlen l <= 1 -> reads (r_dummy (Zlen l)) (rlay r (map Word l)) st st tt.
Proof.
  intros H. destruct l as [|z [|y l]].
  - unfold r_dummy. change (Zlen []) with 0. change (u64 (4 * 0)) with 0.
    eapply frb_last with (x := []); [|cbv beta; apply fret; reflexivity].
    pose proof (reads_data [] st) as R. apply R. unfold small, Zlen, two32. cbn. lia.
  - unfold r_dummy. change (Zlen [z]) with 1. change (u64 (4 * 1)) with 4. cbn [map].
    eapply frb_last with (x := be 4 z); [|cbv beta; apply fret; reflexivity].
    eapply fr_of; [exact (g_word z)|]. cbn [renderR flat_map renderR_call]. rewrite app_nil_r.
    apply (reads_be 4 z st). lia.
  - exfalso. rewrite !Zlen_cons in H. pose proof (Zlen_nonneg l). lia.
Qed.

Lemma old_reads_recp srt x new a na o st : recp_ok o -> extra_ok x -> old_fits v x (ORP o) -> new a = na ->
  (forall i b, nth_error (map fst (rp_pids o)) i = Some b -> new b = snd st + Z.of_nat i) ->
  reads (read_recp srt (version_word v) na) (rlay r (old_recp v x a o)) st
    (ids_state r new (if newer v 1 2 then map fst (rp_pids o) ++ [a] else [a]) (fst st), snd st + Zlen (rp_pids o))
    (map_refs_recp (ptrw r)
      (let s := seen_recp v o in
       mkRP (rp_type s) (rp_p s) (rp_energy s) (rp_cov s) (rp_mass s) (rp_charge s) (rp_ref s)
        (add_pids srt (fun ap : addr * pid => pi_like (snd ap)) (map (fun ap => (new (fst ap), snd ap)) (rp_pids s)))
        (rp_used s) (rp_good s) (rp_parts s) (rp_tracks s) (rp_clusters s) (rp_sv s))).
Proof.
  intros (H1 & [H2 H2'] & H3 & H4 & H5 & H6 & H7 & H8 & H9 & H10 & H11 & H12 & H13) (X1 & X2 & X3 & X4) Hf Ha Hn.
  cbn [old_fits] in Hf. unfold read_recp, old_recp, seen_recp. vers Hv. destruct (newer v 1 2); cbv iota zeta.
  - unfold many. cbn [app]. frd.
    eapply frb; [unfold r_loop, Zlen; rewrite Nat2Z.id; apply (f_rpids new); assumption|cbv beta].
    frd. apply fret.
    + unfold map_refs_recp. cbn [rp_type rp_p rp_energy rp_cov rp_mass rp_charge rp_ref rp_pids rp_used rp_good rp_parts rp_tracks rp_clusters rp_sv].
      unfold as_float. rewrite <- (map_map d2f f2d). f_equal. destruct (newer v 1 7); cbn [kept]; [|rewrite (ro_null _ _ Hro)]; reflexivity.
    + rewrite <- Ha, ids_state_app. reflexivity.
  - destruct (Hf eq_refl) as (F1 & F2 & F3 & F4 & F5). unfold read_old_recp, many. cbn [app]. frd.
    eapply frb; [unfold r_loop, Zlen; rewrite Nat2Z.id; apply (f_old_pids new); assumption|cbv beta].
    eapply frb; [apply f_old_ptrs; assumption|cbv beta].
    eapply frb; [apply f_old_ptrs; assumption|cbv beta].
    eapply frb; [apply f_old_ptrs; assumption|cbv beta].
    eapply frb_cons; [apply f_cnt; unfold vec_len; lia|cbv beta].
    eapply frb; [apply f_dummy; exact F5|cbv beta].
    eapply frb; [rewrite F4 in *; apply f_dummy; exact F5|cbv beta].
    frd. apply fret.
    + unfold map_refs_recp. cbn [rp_type rp_p rp_energy rp_cov rp_mass rp_charge rp_ref rp_pids rp_used rp_good rp_parts rp_tracks rp_clusters rp_sv].
      rewrite map_map, (ro_null _ _ Hro). f_equal. change 65535 with (Z.ones 16). rewrite Z.land_comm, Z.land_ones by lia. reflexivity.
    + rewrite <- Ha. reflexivity.
Qed.

(** ** Vectors *)

Lemma old_reads_lcvec {V} (f : V -> list field) (rv : RD V) (P : V -> Prop) a na l st :
  (forall x s, P x -> reads rv (rlay r (f x)) s s x) -> vec_len l -> Forall P l ->
  reads (read_lcvec rv (version_word v) na) (rlay r (many f l ++ only_if (newer v 1 2) [Id a])) st
    (if newer v 1 2 then tag_state r a na st else st) l.
Proof.
  intros H H1 H2. unfold read_lcvec, many. vers Hv. cbn [app]. frd.
  eapply frb; [apply f_sized_id; intros x Hx; apply H; rewrite Forall_forall in H2; auto|cbv beta].
  frd. apply fret; reflexivity.
Qed.

End Objects.

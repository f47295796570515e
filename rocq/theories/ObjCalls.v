(** * The object handlers: tags, pointers and sizes of what is written; whole objects *)

From Coq Require Import Permutation Sorted.
From Verif Require Import Bytes StrMap SioModel SioProofs SioRecord SioRead SioFrame SioSpec Ieee ObjModel ObjSpec ObjProofs.

(** ** Call lists without tags and pointers *)

Definition is_data (c : dcall) : Prop := match c with DData bs => small bs | _ => False end.
Definition all_data (cs : list dcall) : Prop := Forall is_data cs.

Lemma data_tags cs : all_data cs -> tags cs = [].
Proof. induction 1 as [|[bs|a|a] cs H Hc IH]; [reflexivity|exact IH|destruct H|destruct H]. Qed.
Lemma data_ptrs cs : all_data cs -> ptrs cs = [].
Proof. induction 1 as [|[bs|a|a] cs H Hc IH]; [reflexivity|exact IH|destruct H|destruct H]. Qed.
Lemma data_ok cs : all_data cs -> calls_ok cs.
Proof. intros H. eapply Forall_impl; [|exact H]. intros [bs|a|a] Hc; [exact Hc|exact I|exact I]. Qed.

Lemma small_be n z : (n <= 8)%nat -> small (be n z).
Proof. intros H. unfold small. rewrite Zlen_be. unfold two32. lia. Qed.
Lemma data_one bs : small bs -> all_data [DData bs].
Proof. intros H. apply Forall_cons; [exact H|apply Forall_nil]. Qed.
Lemma data_i32 z : all_data (w_i32 z). Proof. apply data_one, small_be. lia. Qed.
Lemma data_u32 z : all_data (w_u32 z). Proof. apply data_one, small_be. lia. Qed.
Lemma data_f32 z : all_data (w_f32 z). Proof. apply data_one, small_be. lia. Qed.
Lemma data_f64 z : all_data (w_f64 z). Proof. apply data_one, small_be. lia. Qed.
Lemma data_i8 z : all_data (w_i8 z). Proof. apply data_one, small_be. lia. Qed.
Lemma data_string s : vec_len s -> all_data (w_string s).
Proof.
  intros H. apply Forall_cons; [apply small_be; lia|]. apply data_one. unfold vec_len in H. unfold small, two32. lia.
Qed.
Lemma data_arr n l : (n <= 8)%nat -> vec_len l -> all_data (w_arr n l).
Proof. intros H1 H2. apply data_one, vec_small; assumption. Qed.
Lemma data_vec n l : (n <= 8)%nat -> vec_len l -> all_data (w_vec n l).
Proof. intros H1 H2. apply Forall_cons; [apply small_be; lia|].
  destruct (Zlen l =? 0); [apply Forall_nil|apply data_one, vec_small; assumption].
Qed.
Lemma data_app a b : all_data a -> all_data b -> all_data (a ++ b).
Proof. intros. apply Forall_app. split; assumption. Qed.
Lemma data_fm {A} (w : A -> list dcall) l : (forall x, In x l -> all_data (w x)) -> all_data (flat_map w l).
Proof.
  induction l as [|x l IH]; intros H; [apply Forall_nil|]. cbn [flat_map]. apply data_app.
  - apply H. left. reflexivity.
  - apply IH. intros y Hy. apply H. right. exact Hy.
Qed.
Lemma data_when b w : all_data w -> all_data (w_when b w).
Proof. intros H. destruct b; [exact H|apply Forall_nil]. Qed.
Lemma data_nil : all_data []. Proof. apply Forall_nil. Qed.
Lemma in_upto {A} (x : A) l : In x (upto l) -> In x l.
Proof. unfold upto. intros H. rewrite <- (firstn_skipn (Z.to_nat (cnt l)) l). apply in_or_app. left. exact H. Qed.

(** ** Shapes: what a call list contributes *)

Record shape (cs : list dcall) (ts ps : list addr) : Prop := mkShape {
  sh_tags : tags cs = ts; sh_ptrs : ptrs cs = ps; sh_ok : calls_ok cs }.

Lemma shape_data cs : all_data cs -> shape cs [] [].
Proof. intros H. constructor; [apply data_tags|apply data_ptrs|apply data_ok]; exact H. Qed.
Lemma shape_app a b t1 p1 t2 p2 : shape a t1 p1 -> shape b t2 p2 -> shape (a ++ b) (t1 ++ t2) (p1 ++ p2).
Proof.
  intros [H1 H2 H3] [H4 H5 H6]. constructor; [rewrite tags_app; congruence|rewrite ptrs_app; congruence|].
  apply Forall_app. split; assumption.
Qed.
Lemma shape_data_app a b t p : all_data a -> shape b t p -> shape (a ++ b) t p.
Proof. intros H1 H2. apply (shape_app a b [] [] t p); [apply shape_data; exact H1|exact H2]. Qed.
Lemma shape_tag a : shape [DTag a] [a] [].
Proof. constructor; [reflexivity|reflexivity|]. apply Forall_cons; [exact I|apply Forall_nil]. Qed.
Lemma shape_ptr a : shape [DPtr a] [] [a].
Proof. constructor; [reflexivity|reflexivity|]. apply Forall_cons; [exact I|apply Forall_nil]. Qed.
Lemma shape_ptr_app a b t p : shape b t p -> shape ([DPtr a] ++ b) t (a :: p).
Proof. intros H. apply (shape_app [DPtr a] b [] [a] t p); [apply shape_ptr|exact H]. Qed.
Lemma shape_ptrs l : shape (w_ptrs l) [] l.
Proof.
  induction l as [|a l [H1 H2 H3]]; [apply shape_data, data_nil|].
  change (w_ptrs (a :: l)) with ([DPtr a] ++ w_ptrs l). apply shape_ptr_app. constructor; assumption.
Qed.
Lemma shape_ptrs_app l b t p : shape b t p -> shape (w_ptrs l ++ b) t (l ++ p).
Proof. intros H. apply (shape_app (w_ptrs l) b [] l t p); [apply shape_ptrs|exact H]. Qed.
Lemma shape_when (b : bool) w t p : shape w t p -> shape (w_when b w) (if b then t else []) (if b then p else []).
Proof. intros H. destruct b; [exact H|apply shape_data, data_nil]. Qed.
Lemma shape_eq cs t p t' p' : shape cs t p -> t = t' -> p = p' -> shape cs t' p'.
Proof. intros H -> ->. exact H. Qed.
Lemma shape_tag_when (b : bool) a : shape (w_when b [DTag a]) (if b then [a] else []) [].
Proof. destruct b; [apply shape_tag|apply shape_data, data_nil]. Qed.
Lemma shape_fm {A} (w : A -> list dcall) (ft fp : A -> list addr) l :
  (forall x, In x l -> shape (w x) (ft x) (fp x)) -> shape (flat_map w l) (flat_map ft l) (flat_map fp l).
Proof.
  induction l as [|x l IH]; intros H; [apply shape_data, data_nil|]. cbn [flat_map]. apply shape_app.
  - apply H. left. reflexivity.
  - apply IH. intros y Hy. apply H. right. exact Hy.
Qed.

Ltac dat := repeat
  lazymatch goal with
  | |- all_data (_ ++ _) => apply data_app
  | |- all_data (w_when _ _) => apply data_when
  | |- all_data (w_i32 _) => apply data_i32
  | |- all_data (w_u32 _) => apply data_u32
  | |- all_data (w_f32 _) => apply data_f32
  | |- all_data (w_f64 _) => apply data_f64
  | |- all_data (w_i8 _) => apply data_i8
  | |- all_data [] => apply data_nil
  | |- all_data (w_arr _ _) => apply data_arr; [lia|first [assumption | unfold vec_len; lia]]
  | |- all_data (w_vec _ _) => apply data_vec; [lia|assumption]
  | |- all_data (flat_map _ _) => apply data_fm; intros
  end.
Ltac shp := repeat
  lazymatch goal with
  | |- shape [DTag _] _ _ => apply shape_tag
  | |- shape (w_when _ [DTag _]) _ _ => apply shape_tag_when
  | |- shape ([DPtr _] ++ _) _ _ => apply shape_ptr_app
  | |- shape (w_ptrs _ ++ _) _ _ => apply shape_ptrs_app
  | |- shape (_ ++ _) _ _ => apply shape_data_app; [solve [dat]|]
  end.

(** ** One lemma per handler *)

Lemma shape_mcp a o : mcp_ok o -> shape (write_mcp a o) [a] (mc_parents o).
Proof.
  intros (H1 & H2 & H3 & H4 & [H5 H5'] & H6 & [H7 H7'] & H8 & H9 & [H10 _] & [H11 H11'] & [H12 H12'] & H13).
  unfold write_mcp. rewrite upto_id by exact H1.
  apply (shape_app [DTag a] _ [a] [] [] (mc_parents o)); [apply shape_tag|].
  apply shape_data_app; [dat|]. rewrite <- (app_nil_r (mc_parents o)) at 2. apply shape_ptrs_app. apply shape_data. dat.
Qed.

Lemma shape_simcalhit flag a o : simcalhit_ok o -> shape (write_simcalhit flag a o) [a] (map co_part (sc_cont o)).
Proof.
  intros (H1 & H2 & H3 & [H4 _] & H5 & H6). unfold write_simcalhit. rewrite upto_id by exact H5.
  shp. rewrite <- (app_nil_r (map _ _)). apply (shape_app _ [DTag a] [] _ [a] []); [|apply shape_tag].
  eapply shape_eq; [apply (shape_fm _ (fun _ => []) (fun c => [co_part c]))| |].
  - intros c Hc. rewrite Forall_forall in H6. destruct (H6 c Hc) as (A1 & A2 & A3 & A4 & [A5 _]).
    unfold write_cont. apply shape_ptr_app. apply shape_data. dat.
  - clear. induction (sc_cont o); [reflexivity|assumption].
  - clear. induction (sc_cont o) as [|x l IH]; [reflexivity|]. cbn. rewrite IH. reflexivity.
Qed.

Lemma shape_rawcalhit flag a o : rawcalhit_ok o ->
  shape (write_rawcalhit flag a o) (if negb (Z.testbit flag 28) then [a] else []) [].
Proof. intros (H1 & H2 & H3 & H4). unfold write_rawcalhit. shp. Qed.

Lemma shape_calhit flag a o : calhit_ok o ->
  shape (write_calhit flag a o) (if negb (Z.testbit flag 28) then [a] else []) [ch_raw o].
Proof. intros (H1 & H2 & H3 & H4 & H5 & [H6 _] & H7). unfold write_calhit. shp. Qed.

Lemma shape_simtrkhit flag a o : simtrkhit_ok o -> shape (write_simtrkhit flag a o) [a] [st_part o].
Proof.
  intros (H1 & H2 & [H3 _] & H4 & H5 & [H6 _] & H7 & H8). unfold write_simtrkhit. shp.
Qed.

Lemma shape_tpchit flag a o : tpchit_ok o ->
  shape (write_tpchit flag a o) (if negb (Z.testbit flag 30) then [a] else []) [].
Proof. intros (H1 & H2 & H3 & H4 & H5 & H6). unfold write_tpchit. shp. Qed.

Lemma shape_trkraw flag a o : trkraw_ok o -> shape (write_trkraw flag a o) [a] [].
Proof. intros (H1 & H2 & H3 & H4 & H5). unfold write_trkraw. shp. Qed.
Lemma shape_trkdata flag a o : trkdata_ok o -> shape (write_trkdata flag a o) [a] [].
Proof. intros (H1 & H2 & H3 & H4 & H5). unfold write_trkdata. shp. Qed.
Lemma shape_trkpulse flag a o : trkpulse_ok o -> shape (write_trkpulse flag a o) [a] [pu_corr o].
Proof. intros (H1 & H2 & H3 & H4 & [H5 _] & H6). unfold write_trkpulse. shp. Qed.
Lemma shape_trkhit flag a o : trkhit_ok o -> shape (write_trkhit flag a o) [a] (th_raw o).
Proof.
  intros (H1 & H2 & H3 & [H4 _] & [H5 _] & H6 & H7 & H8 & H9 & H10). unfold write_trkhit.
  rewrite <- (app_nil_r (th_raw o)) at 3. shp.
Qed.
Lemma shape_trkhitp flag a o : trkhitp_ok o -> shape (write_trkhitp flag a o) [a] (hp_raw o).
Proof.
  intros (H1 & H2 & H3 & [H4 _] & [H5 _] & [H6 _] & H7 & H8 & H9 & H10 & H11 & H12 & H13). unfold write_trkhitp.
  rewrite <- (app_nil_r (hp_raw o)) at 3. shp.
Qed.
Lemma shape_trkhitz flag a o : trkhitz_ok o -> shape (write_trkhitz flag a o) [a] (hz_raw o).
Proof.
  intros (H1 & H2 & H3 & [H4 _] & [H5 _] & H6 & H7 & H8 & H9 & H10 & H11 & H12). unfold write_trkhitz.
  rewrite <- (app_nil_r (hz_raw o)) at 3. shp.
Qed.

Lemma shape_track flag a o : track_ok o ->
  shape (write_track flag a o) [a] (tr_tracks o ++ kept (Z.testbit flag 31) (tr_hits o) []).
Proof.
  intros (H1 & H2 & H3 & H4 & H5 & H6 & H7 & H8 & H9 & H10 & H11 & H12 & H13). unfold write_track.
  rewrite (upto_id (tr_tracks o)), (upto_id (tr_hits o)) by assumption.
  apply shape_data_app; [dat|]. apply shape_data_app; [dat|].
  apply shape_data_app.
  { apply data_fm. intros t Ht. rewrite Forall_forall in H3. destruct (H3 t Ht) as (A1 & A2 & A3 & A4 & A5 & A6 & A7 & [A8 _]).
    unfold write_tstate. dat. }
  shp. rewrite <- (app_nil_r (kept _ _ _)).
  apply (shape_app _ [DTag a] [] _ [a] []); [|apply shape_tag].
  eapply shape_eq; [apply shape_when; apply shape_data_app; [dat|apply shape_ptrs]| |].
  - destruct (bit_set flag TRBIT_HITS); reflexivity.
  - reflexivity.
Qed.

Lemma data_pid p : all_data (write_pid p).
Proof. unfold write_pid. dat. Qed.

Lemma shape_cluster flag a o w : cluster_ok o -> cluster_fits flag o -> write_cluster flag a o = Ok w ->
  shape w [a] (cl_clusters o ++ kept (Z.testbit flag 31) (cl_hits o) []).
Proof.
  intros (H1 & H2 & H3 & [H4 _] & H5 & H6 & H7 & H8 & H9 & H10 & H11 & H12 & H13 & H14 & H15 & H16 & H17) Hf Hw.
  unfold write_cluster in Hw. unfold bind in Hw.
  destruct (if bit_set flag CLBIT_HITS then write_hits o else Ok []) as [hits| |] eqn:Eh; try discriminate.
  apply Ok_inj in Hw. subst w. rewrite (upto_id (cl_clusters o)) by assumption.
  do 10 (apply shape_data_app; [solve [dat]|]).
  apply shape_data_app; [solve [dat]|].
  apply shape_data_app; [apply data_fm; intros; apply data_pid|].
  shp. rewrite <- (app_nil_r (kept _ _ _)).
  apply (shape_app _ _ [] _ [a] []); [|shp].
  unfold cluster_fits in Hf. change (Z.testbit flag 31) with (bit_set flag CLBIT_HITS) in *.
  destruct (bit_set flag CLBIT_HITS); cbn [kept].
  - specialize (Hf eq_refl). unfold write_hits in Eh.
    rewrite cnt_len in Eh by exact H14. unfold Zlen in Eh, Hf. rewrite Nat2Z.id in Eh.
    replace (length (cl_weights o)) with (length (cl_hits o)) in Eh by lia.
    rewrite Nat.ltb_irrefl in Eh. apply Ok_inj in Eh. subst hits.
    rewrite (firstn_all (cl_hits o)).
    replace (length (cl_hits o)) with (length (cl_weights o)) by lia. rewrite firstn_all.
    apply shape_data_app; [dat|].
    eapply shape_eq; [apply (shape_fm _ (fun _ => []) (fun hw => [fst hw]))| |].
    + intros [x y] _. cbn [fst snd]. apply shape_ptr_app, shape_data. dat.
    + induction (combine _ _); [reflexivity|assumption].
    + clear - Hf. revert Hf. generalize (cl_weights o). induction (cl_hits o) as [|h t IH]; intros [|w ws] Hf; cbn in *; try lia; try reflexivity.
      f_equal. apply IH. lia.
  - apply Ok_inj in Eh. subst hits. apply shape_data, data_nil.
Qed.

Lemma shape_recp a o : recp_ok o ->
  shape (write_recp a o) (map fst (rp_pids o) ++ [a])
    ([rp_used o] ++ rp_parts o ++ rp_tracks o ++ rp_clusters o ++ [rp_sv o]).
Proof.
  intros (H1 & [H2 H2'] & H3 & H4 & H5 & H6 & [H7 _] & H8 & H9 & H10 & H11 & H12 & H13).
  unfold write_recp. rewrite !upto_id by assumption. shp.
  apply (shape_app _ _ (map fst (rp_pids o)) [] [a] _).
  - eapply shape_eq; [apply (shape_fm _ (fun ap => [fst ap]) (fun _ => []))| |].
    + intros ap _. unfold write_rpid. apply shape_data_app; [apply data_pid|apply shape_tag].
    + clear. induction (rp_pids o) as [|x l IH]; [reflexivity|]. cbn. rewrite IH. reflexivity.
    + clear. induction (rp_pids o); [reflexivity|assumption].
  - shp.
Qed.

Lemma shape_lcrel flag o : shape (write_lcrel flag o) [] [re_from o; re_to o].
Proof. unfold write_lcrel. apply shape_ptr_app, shape_ptr_app, shape_data. dat. Qed.

Lemma shape_vertex algs a o : vertex_ok o -> shape (write_vertex algs a o) [a] [vx_part o].
Proof. intros (H1 & H2 & H3 & [H4 _] & H5 & H6 & H7). unfold write_vertex. shp. Qed.

Lemma shape_lcvec {V} (wv : V -> list dcall) a l : (forall x, In x l -> all_data (wv x)) -> shape (write_lcvec wv a l) [a] [].
Proof.
  intros H. unfold write_lcvec. shp. apply shape_data_app; [|apply shape_tag].
  apply data_fm. intros x Hx. apply H. apply in_upto. exact Hx.
Qed.

Lemma shape_genobj sizes a o w : write_genobj sizes a o = Ok w -> shape w [a] [].
Proof.
  intros Hw. unfold write_genobj in Hw. cbv zeta in Hw.
  destruct (match sizes with Some s => s | None => go_sizes o end) as [[ni nf] nd].
  unfold go_vals in Hw. destruct (Nat.ltb (length (go_int o)) _); [discriminate|].
  cbn [bind] in Hw. destruct (Nat.ltb (length (go_flt o)) _); [discriminate|].
  cbn [bind] in Hw. destruct (Nat.ltb (length (go_dbl o)) _); [discriminate|].
  cbn [bind] in Hw. apply Ok_inj in Hw. subst w.
  apply shape_data_app; [destruct sizes; unfold w_sizes; dat|]. shp.
Qed.

(** ** Any object *)

Definition is_fixed (hs : hstate) : bool := match h_sizes hs with Some _ => true | None => false end.
Definition hs_ok (hs : hstate) : Prop := vec_len (h_algs hs).
Definition obj_fits (hs : hstate) (o : obj) : Prop := obj_ok (h_flag hs) (h_algs hs) (h_sizes hs) o.

Lemma shape_obj ty hs a o w : write_obj ty hs a o = Ok w -> obj_fits hs o ->
  shape w (owned o ++ (if pointable (h_flag hs) o then [a] else [])) (refs (stored (h_flag hs) (is_fixed hs) o)).
Proof.
  intros Hw Ho. unfold obj_fits in Ho.
  destruct o; destruct ty; try discriminate; cbn [write_obj] in Hw; cbn [obj_ok] in Ho;
    cbn [owned pointable app refs stored]; try (apply Ok_inj in Hw; subst w).
  - unfold stored_mcp. cbn [mc_parents mc_daughters]. rewrite app_nil_r. apply shape_mcp; exact Ho.
  - eapply shape_eq; [apply shape_simcalhit; exact Ho|reflexivity|].
    unfold stored_simcalhit. cbn [sc_cont]. rewrite map_map. reflexivity.
  - eapply shape_eq; [apply shape_rawcalhit; exact Ho|reflexivity|reflexivity].
  - eapply shape_eq; [apply shape_calhit; exact Ho|reflexivity|reflexivity].
  - eapply shape_eq; [apply shape_simtrkhit; exact Ho|reflexivity|reflexivity].
  - eapply shape_eq; [apply shape_tpchit; exact Ho|reflexivity|reflexivity].
  - eapply shape_eq; [apply shape_trkraw; exact Ho|reflexivity|reflexivity].
  - eapply shape_eq; [apply shape_trkdata; exact Ho|reflexivity|reflexivity].
  - eapply shape_eq; [apply shape_trkpulse; exact Ho|reflexivity|reflexivity].
  - eapply shape_eq; [apply shape_trkhit; exact Ho|reflexivity|reflexivity].
  - eapply shape_eq; [apply shape_trkhitp; exact Ho|reflexivity|reflexivity].
  - eapply shape_eq; [apply shape_trkhitz; exact Ho|reflexivity|reflexivity].
  - eapply shape_eq; [apply shape_track; exact Ho|reflexivity|reflexivity].
  - destruct Ho as [Ho Hf]. eapply shape_eq; [eapply shape_cluster; eassumption|reflexivity|reflexivity].
  - eapply shape_eq; [apply shape_recp; exact Ho|reflexivity|reflexivity].
  - eapply shape_eq; [apply shape_lcrel|reflexivity|reflexivity].
  - destruct Ho as [Ho _]. eapply shape_eq; [apply shape_vertex; exact Ho|reflexivity|reflexivity].
  - destruct Ho as [_ Ho]. apply shape_lcvec. intros x Hx. apply data_string. rewrite Forall_forall in Ho. auto.
  - apply shape_lcvec. intros. apply data_f32.
  - apply shape_lcvec. intros. apply data_i32.
  - eapply shape_genobj; exact Hw.
Qed.

Lemma tag_state_tags r new cs a st : tags cs = [a] -> tag_state r a (new a) st = (tags_state r new cs (fst st), snd st).
Proof. intros H. unfold tags_state. rewrite H. reflexivity. Qed.
Lemma no_tags_state r new cs (st : rst) : tags cs = [] -> st = (tags_state r new cs (fst st), snd st).
Proof. intros H. unfold tags_state. rewrite H. destruct st; reflexivity. Qed.

Lemma reads_obj srt ty hs a o w r all new st :
  rho_ok all r -> write_obj ty hs a o = Ok w -> obj_fits hs o -> hs_ok hs ->
  (forall i b, nth_error (owned o) i = Some b -> new b = snd st + Z.of_nat i) ->
  reads (read_obj srt ty cur_vers hs (new a)) (renderR r w) st
    (tags_state r new w (fst st), snd st + Zlen (owned o))
    (map_refs (ptrw r) (resort srt (map_owned new (stored (h_flag hs) (is_fixed hs) o)))).
Proof.
  intros Hro Hw Ho Hh Hn. destruct (shape_obj _ _ _ _ _ Hw Ho) as [Ht Hp _].
  assert (E0 : forall T : Type, snd st + Zlen (@nil T) = snd st) by (intros; unfold Zlen; cbn; lia).
  unfold obj_fits in Ho.
  destruct o as [o|o|o|o|o|o|o|o|o|o|o|o|o|o|o|o|o|o|o|o|o]; destruct ty; try discriminate; cbn [write_obj] in Hw; cbn [obj_ok] in Ho;
    cbn [owned pointable app] in *; try (apply Ok_inj in Hw; subst w);
    rewrite ?E0; cbn [read_obj stored map_owned resort map_refs];
    try (rewrite <- (tag_state_tags r new _ a st Ht)).
  - apply (reads_map _ OMC). apply (reads_mcp r all); assumption.
  - apply (reads_map _ OSCH). apply (reads_simcalhit r all); assumption.
  - apply (reads_map _ ORCH).
    replace (tags_state r new (write_rawcalhit (h_flag hs) a o) (fst st), snd st)
      with (if negb (Z.testbit (h_flag hs) 28) then tag_state r a (new a) st else st).
    + apply (reads_rawcalhit r all); assumption.
    + destruct (negb _); [apply tag_state_tags|apply no_tags_state]; exact Ht.
  - apply (reads_map _ OCH).
    replace (tags_state r new (write_calhit (h_flag hs) a o) (fst st), snd st)
      with (if negb (Z.testbit (h_flag hs) 28) then tag_state r a (new a) st else st).
    + apply (reads_calhit r all); assumption.
    + destruct (negb _); [apply tag_state_tags|apply no_tags_state]; exact Ht.
  - apply (reads_map _ OSTH). apply (reads_simtrkhit r all); assumption.
  - apply (reads_map _ OTPC).
    replace (tags_state r new (write_tpchit (h_flag hs) a o) (fst st), snd st)
      with (if negb (Z.testbit (h_flag hs) 30) then tag_state r a (new a) st else st).
    + apply (reads_tpchit r all); assumption.
    + destruct (negb _); [apply tag_state_tags|apply no_tags_state]; exact Ht.
  - apply (reads_map _ OTRD). apply (reads_trkraw r all); assumption.
  - apply (reads_map _ OTD). apply (reads_trkdata r all); assumption.
  - apply (reads_map _ OTPu). apply (reads_trkpulse r all); assumption.
  - apply (reads_map _ OTH). apply (reads_trkhit r all); assumption.
  - apply (reads_map _ OTHP). apply (reads_trkhitp r all); assumption.
  - apply (reads_map _ OTHZ). apply (reads_trkhitz r all); assumption.
  - apply (reads_map _ OTRK). apply (reads_track r all); assumption.
  - destruct Ho as [Ho Hf]. apply (reads_map _ OCL). apply (reads_cluster r all); assumption.
  - apply (reads_map _ ORP).
    replace (tags_state r new (write_recp a o) (fst st))
      with (tags_state r new (flat_map write_rpid (rp_pids o) ++ [DTag a]) (fst st)).
    + replace (Zlen (map fst (rp_pids o))) with (Zlen (rp_pids o)) by (unfold Zlen; rewrite map_length; reflexivity).
      apply (reads_recp r all); try assumption. reflexivity.
    + unfold tags_state. rewrite Ht. rewrite tags_app. f_equal. f_equal.
      induction (rp_pids o) as [|x l IH] in |- *; [reflexivity|]. cbn [flat_map map]. rewrite tags_app.
      unfold write_rpid at 1. rewrite tags_app, (data_tags (write_pid (snd x))) by apply data_pid.
      cbn [app]. rewrite IH. reflexivity.
  - rewrite <- (no_tags_state r new _ st Ht). apply (reads_map _ OREL). apply (reads_lcrel r all); assumption.
  - destruct Ho as [Ho Hi]. apply (reads_map _ OVX). apply (reads_vertex r all); assumption.
  - destruct Ho as [Ho1 Ho2]. apply (reads_map _ OSTR). apply (reads_lcvec r all Hro _ _ (@vec_len byte)); try assumption.
    intros x s Hx. apply rstr. exact Hx.
  - destruct Ho as [Ho1 Ho2]. apply (reads_map _ OFLT). apply (reads_lcvec r all Hro _ _ word32); try assumption.
    intros x s Hx. apply rf32. exact Hx.
  - destruct Ho as [Ho1 Ho2]. apply (reads_map _ OINT). apply (reads_lcvec r all Hro _ _ int32); try assumption.
    intros x s Hx. apply ri32. exact Hx.
  - destruct Ho as [Ho1 Ho2]. apply (reads_map _ OGO). apply (reads_genobj r all); assumption.
Qed.

(** * Files of earlier versions: proofs *)

From Verif Require Import Bytes StrMap SioModel SioProofs SioRecord SioRead SioFrame SioSpec Ieee ObjModel ObjSpec
  ObjProofs ObjCalls CollSpec CollProofs ListFacts EventModel EventSpec EventProofs EventFacts LayoutSpec LayoutProofs CompatSpec.

(** ** Versions *)

Section Versions.
Context (v : Z * Z) (Hv : version_ok v).
Lemma vgt_newer maj min : 0 <= min < 65536 -> vgt (version_word v) maj min = newer v maj min.
Proof.
  intros Hm. unfold vgt, ver, version_word, newer. destruct Hv as [H1 H2].
  destruct (maj * 65536 + min <? fst v * 65536 + snd v) eqn:E1; destruct (maj <? fst v) eqn:E2;
    destruct (maj =? fst v) eqn:E3; destruct (min <? snd v) eqn:E4; cbn [orb andb]; try reflexivity; lia.
Qed.
Lemma v08 : v00_08 (version_word v) = is_version v 0 8.
Proof.
  unfold v00_08, ver_major, ver_minor, version_word, is_version. destruct Hv as [H1 H2].
  rewrite Z.div_add_l, Z.div_small, Z.add_0_r by lia. rewrite Z.add_comm, Z.mod_add, Z.mod_small by lia.
  rewrite (Z.eqb_sym 0), (Z.eqb_sym 8). reflexivity.
Qed.
Lemma eq08 : (version_word v =? ver 0 8) = is_version v 0 8.
Proof.
  unfold ver, version_word, is_version. destruct Hv as [H1 H2].
  destruct (fst v * 65536 + snd v =? 0 * 65536 + 8) eqn:E1; destruct (0 =? fst v) eqn:E2; destruct (8 =? snd v) eqn:E3;
    cbn [andb]; try reflexivity; lia.
Qed.
Lemma ge20 : negb (version_word v <? ver 2 0) = newer v 1 65535.
Proof.
  unfold ver, version_word, newer. destruct Hv as [H1 H2].
  destruct (fst v * 65536 + snd v <? 2 * 65536 + 0) eqn:E1; destruct (1 <? fst v) eqn:E2; destruct (1 =? fst v) eqn:E3;
    destruct (65535 <? snd v) eqn:E4; cbn [andb orb negb]; try reflexivity; lia.
Qed.
End Versions.

(** ** Reading fields *)

Section Reads.
Context (r : rho) (all : list dcall) (Hro : rho_ok all r).

Lemma fr_of {A} (m : RD A) cs fs st st' x : gives cs fs -> reads m (renderR r cs) st st' x -> reads m (rlay r fs) st st' x.
Proof. intros [G _ _] H. rewrite <- G. exact H. Qed.
Lemma rlay_app a b : rlay r (a ++ b) = rlay r a ++ rlay r b.
Proof. apply flat_map_app. Qed.

Lemma frb {A B} (m : RD A) (k : A -> RD B) a b st st1 st' x y :
  reads m (rlay r a) st st1 x -> reads (k x) (rlay r b) st1 st' y -> reads (rbind m k) (rlay r (a ++ b)) st st' y.
Proof. intros H1 H2. rewrite rlay_app. eapply reads_bind; eassumption. Qed.
Lemma frb_cons {A B} (m : RD A) (k : A -> RD B) f b st st1 st' x y :
  reads m (rlay r [f]) st st1 x -> reads (k x) (rlay r b) st1 st' y -> reads (rbind m k) (rlay r (f :: b)) st st' y.
Proof. apply (frb m k [f] b). Qed.
Lemma frb_last {A B} (m : RD A) (k : A -> RD B) a st st1 st' x y :
  reads m (rlay r a) st st1 x -> reads (k x) (rlay r []) st1 st' y -> reads (rbind m k) (rlay r a) st st' y.
Proof. intros H1 H2. rewrite <- (app_nil_r a). eapply frb; eassumption. Qed.
Lemma frb_none {A B} (m : RD A) (k : A -> RD B) a st st1 st' x y :
  reads m (rlay r []) st st1 x -> reads (k x) (rlay r a) st1 st' y -> reads (rbind m k) (rlay r a) st st' y.
Proof. intros H1 H2. change a with ([] ++ a). eapply frb; eassumption. Qed.
Lemma fret {A} (x y : A) st st' : x = y -> st = st' -> reads (rret x) (rlay r []) st st' y.
Proof. intros -> ->. apply reads_ret. Qed.

Lemma f_i32 z st : int32 z -> reads r_i32 (rlay r [Word z]) st st z.
Proof. intros H. eapply fr_of; [exact (g_word z)|]. apply ri32. exact H. Qed.
Lemma f_cnt {A} (l : list A) st : vec_len l -> reads r_i32 (rlay r [Word (Zlen l)]) st st (Zlen l).
Proof. intros H. apply f_i32. unfold vec_len, int32 in *. pose proof (Zlen_nonneg l). lia. Qed.
Lemma f_f32 z st : word32 z -> reads r_f32 (rlay r [Word z]) st st z.
Proof. intros H. eapply fr_of; [exact (g_word z)|]. apply rf32. exact H. Qed.
Lemma f_u32 z st : word32 z -> reads r_u32 (rlay r [Word z]) st st z.
Proof. intros H. eapply fr_of; [exact (g_word z)|]. apply ru32. exact H. Qed.
Lemma f_single d st : word64 d -> reads r_f32 (rlay r [Single d]) st st (d2f d).
Proof. intros H. apply f_f32. apply d2f_word. exact H. Qed.
Lemma f_f64 z st : word64 z -> reads r_f64 (rlay r [Long z]) st st z.
Proof.
  intros H. eapply fr_of; [exact (g_long z)|]. cbn [renderR flat_map renderR_call]. rewrite app_nil_r, padz_be8.
  apply reads_f64. exact H.
Qed.
Lemma f_ptr a st : reads r_pointer_to (rlay r [Ref a]) st st (ptrw r a).
Proof. eapply fr_of; [exact (g_ptr a)|]. eapply rptr. exact Hro. Qed.
Lemma f_tag a na st : reads (r_pointed_at na) (rlay r [Id a]) st (tag_state r a na st) tt.
Proof. eapply fr_of; [exact (g_tag a)|]. eapply rtag. exact Hro. Qed.
Lemma f_txt s st : vec_len s -> reads r_string (rlay r (txt s)) st st s.
Proof. intros H. eapply fr_of; [exact (g_txt s H)|]. apply rstr. exact H. Qed.

Lemma f_words n l st : floats n l -> n < 2 ^ 28 -> reads (r_arr 4 n) (rlay r (map Word l)) st st l.
Proof. intros H1 H2. eapply fr_of; [apply g_floats|]. apply rarrf; assumption. Qed.
Lemma f_singles n l st : Zlen l = n -> Forall word64 l -> n < 2 ^ 28 -> reads (r_arr 4 n) (rlay r (map Single l)) st st (map d2f l).
Proof.
  intros H1 H2 H3. replace (map Single l) with (map Word (map d2f l)) by (rewrite map_map; reflexivity).
  apply f_words; [|exact H3]. split; [unfold Zlen in *; rewrite map_length; exact H1|].
  rewrite Forall_map. eapply Forall_impl; [|exact H2]. intros d. apply d2f_word.
Qed.
Lemma f_longs n l st : doubles n l -> n < 2 ^ 28 -> reads (r_arr 8 n) (rlay r (map Long l)) st st l.
Proof. intros H1 H2. eapply fr_of; [apply g_arr8; destruct H1 as [H1 _]; unfold vec_len; lia|]. apply rarr8; assumption. Qed.
Lemma f_iarr l st : vec_len l -> Forall int32 l -> reads (r_iarr (Zlen l)) (rlay r (map Word l)) st st l.
Proof.
  intros H1 H2. eapply fr_of; [|apply rarri; assumption]. rewrite <- flat_one. apply g_flat. intros x _. apply g_i32.
Qed.

(** loops *)
Lemma f_repeat {A B} (m : RD B) (f : A -> list field) (g : A -> B) l st :
  (forall x, In x l -> reads m (rlay r (f x)) st st (g x)) ->
  reads (r_repeat (length l) m) (rlay r (flat_map f l)) st st (map g l).
Proof.
  induction l as [|x l IH]; intros H; [apply reads_ret|].
  cbn [length r_repeat flat_map map]. eapply frb; [apply H; left; reflexivity|]. cbv beta.
  apply (reads_map _ (fun xs => g x :: xs)). apply IH. intros y Hy. apply H. right. exact Hy.
Qed.
Lemma f_loop {A B} (m : RD B) (f : A -> list field) (g : A -> B) l st :
  (forall x, In x l -> reads m (rlay r (f x)) st st (g x)) ->
  reads (r_loop (Zlen l) m) (rlay r (flat_map f l)) st st (map g l).
Proof. intros H. unfold r_loop, Zlen. rewrite Nat2Z.id. apply f_repeat. exact H. Qed.
Lemma f_loop_id {A} (m : RD A) (f : A -> list field) l st :
  (forall x, In x l -> reads m (rlay r (f x)) st st x) ->
  reads (r_loop (Zlen l) m) (rlay r (flat_map f l)) st st l.
Proof. intros H. rewrite <- (map_id l) at 3. apply f_loop. exact H. Qed.
Lemma f_sized {A B} (m : RD B) (f : A -> list field) (g : A -> B) l st :
  (forall x, In x l -> reads m (rlay r (f x)) st st (g x)) ->
  reads (r_sized (Zlen l) m) (rlay r (flat_map f l)) st st (map g l).
Proof.
  intros H. unfold r_sized. replace (Zlen l <? 0) with false by (pose proof (Zlen_nonneg l); lia).
  apply f_loop. exact H.
Qed.
Lemma f_sized_id {A} (m : RD A) (f : A -> list field) l st :
  (forall x, In x l -> reads m (rlay r (f x)) st st x) ->
  reads (r_sized (Zlen l) m) (rlay r (flat_map f l)) st st l.
Proof. intros H. rewrite <- (map_id l) at 3. apply f_sized. exact H. Qed.
Lemma f_refs l st : reads (r_sized (Zlen l) r_pointer_to) (rlay r (flat_map (fun a => [Ref a]) l)) st st (map (ptrw r) l).
Proof. apply f_sized. intros x _. apply f_ptr. Qed.
Lemma f_floats l st : Forall word32 l -> reads (r_sized (Zlen l) r_f32) (rlay r (flat_map (one Word) l)) st st l.
Proof. intros H. apply f_sized_id. intros x Hx. apply f_f32. rewrite Forall_forall in H. auto. Qed.
Lemma f_floats_loop l st : Forall word32 l -> reads (r_loop (Zlen l) r_f32) (rlay r (flat_map (one Word) l)) st st l.
Proof. intros H. apply f_loop_id. intros x Hx. apply f_f32. rewrite Forall_forall in H. auto. Qed.
Lemma f_ints l st : Forall int32 l -> reads (r_sized (Zlen l) r_i32) (rlay r (flat_map (one Word) l)) st st l.
Proof. intros H. apply f_sized_id. intros x Hx. apply f_i32. rewrite Forall_forall in H. auto. Qed.

(** fields that are there in some cases *)
Lemma f_when {A} (b : bool) (m : RD A) d fs st a :
  reads m (rlay r fs) st st a -> reads (r_when b m d) (rlay r (only_if b fs)) st st (kept b a d).
Proof. intros H. destruct b; [exact H|apply reads_ret]. Qed.
Lemma f_when2 {A B} (b : bool) (m : RD (A * B)) d1 d2 fs st a1 a2 :
  reads m (rlay r fs) st st (a1, a2) -> reads (r_when b m (d1, d2)) (rlay r (only_if b fs)) st st (kept b a1 d1, kept b a2 d2).
Proof. intros H. destruct b; [exact H|apply reads_ret]. Qed.
Lemma f_when_tag (b : bool) a na st :
  reads (r_when b (r_pointed_at na) tt) (rlay r (only_if b [Id a])) st (if b then tag_state r a na st else st) tt.
Proof. destruct b; [apply f_tag|apply reads_ret]. Qed.

End Reads.

Ltac fside := solve [eassumption | lia | split; assumption | apply Forall_nil ].
Ltac fprim :=
  lazymatch goal with
  | |- reads (r_when _ (r_pointed_at _) _) _ _ _ _ => eapply f_when_tag; eassumption
  | |- reads (r_when _ (rbind _ _) _) _ _ _ _ => fail
  | |- reads (r_when _ _ _) (rlay _ (only_if _ _)) _ _ _ => apply f_when; fprim
  | |- reads r_i32 (rlay _ [Word (Zlen _)]) _ _ _ => apply f_cnt; fside
  | |- reads r_i32 _ _ _ _ => apply f_i32; fside
  | |- reads r_f32 (rlay _ [Single _]) _ _ _ => apply f_single; fside
  | |- reads r_f32 _ _ _ _ => apply f_f32; fside
  | |- reads r_u32 _ _ _ _ => apply f_u32; fside
  | |- reads r_f64 _ _ _ _ => apply f_f64; fside
  | |- reads r_pointer_to _ _ _ _ => eapply f_ptr; eassumption
  | |- reads (r_pointed_at _) _ _ _ _ => eapply f_tag; eassumption
  | |- reads (r_arr 4 _) (rlay _ (map Word _)) _ _ _ => apply f_words; fside
  | |- reads (r_arr 4 _) (rlay _ (map Single _)) _ _ _ => apply f_singles; fside
  | |- reads (r_arr 8 _) (rlay _ (map Long _)) _ _ _ => apply f_longs; fside
  | |- reads (r_sized _ r_pointer_to) (rlay _ (flat_map _ _)) _ _ _ => eapply f_refs; eassumption
  | |- reads (r_sized _ r_i32) (rlay _ (flat_map _ _)) _ _ _ => apply f_ints; fside
  | |- reads (r_sized _ r_f32) (rlay _ (flat_map _ _)) _ _ _ => apply f_floats; fside
  | |- reads (r_loop _ r_f32) (rlay _ (flat_map _ _)) _ _ _ => apply f_floats_loop; fside
  end.
Ltac fst1 := lazymatch goal with
  | |- reads (rbind _ _) (rlay _ (_ :: _)) _ _ _ => eapply frb_cons; [fprim|cbv beta]
  | |- reads (rbind _ _) (rlay _ (_ ++ _)) _ _ _ => eapply frb; [fprim|cbv beta]
  | |- reads (rbind _ _) (rlay _ _) _ _ _ => eapply frb_last; [fprim|cbv beta]
  end.
Ltac frd := repeat fst1.
Ltac vers Hv := rewrite ?(v08 _ Hv), ?(eq08 _ Hv), ?(ge20 _ Hv); rewrite ?(vgt_newer _ Hv) by lia.

(** ** One lemma per handler *)

Section Handlers.
Context (r : rho) (all : list dcall) (Hro : rho_ok all r) (v : Z * Z) (Hv : version_ok v).

Lemma old_reads_mcp a na o st : mcp_ok o ->
  reads (read_mcp (version_word v) na) (rlay r (old_mcp v a o)) st (tag_state r a na st)
    (map_refs_mcp (ptrw r) (seen_mcp v o)).
Proof.
  intros H. unfold mcp_ok in H. destruct H as (H1 & H2 & H3 & H4 & H5 & H6 & [H7 H7'] & H8 & H9 & H10 & [H11 H11'] & [H12 H12'] & [H13 H13']).
  unfold read_mcp, old_mcp, many. vers Hv. cbn [app].
  frd.
  eapply frb.
  { apply f_when2. eapply frb; [fprim|cbv beta].
    eapply frb_last; [apply f_when; apply (reads_map _ (map f2d)); apply f_singles; fside|cbv beta].
    apply fret; reflexivity. }
  cbv beta iota. eapply frb_last.
  { apply f_when2. eapply frb; [fprim|cbv beta].
    eapply frb_last; [change 2 with (Zlen [0;0]) at 1; replace (Zlen [0;0]) with (Zlen (mc_color o)) by exact H13; apply f_iarr; [unfold vec_len; lia|exact H13']|cbv beta].
    apply fret; reflexivity. }
  cbv beta iota. apply fret; [|reflexivity].
  unfold map_refs_mcp, seen_mcp. cbn [mc_parents mc_pdg mc_gen mc_sim mc_vertex mc_time mc_p mc_mass mc_charge mc_endpoint mc_pend mc_spin mc_color mc_daughters map fst snd].
  unfold as_float. rewrite !map_map. reflexivity.
Qed.

Lemma old_reads_cont flag c st : cont_ok c ->
  reads (read_cont (version_word v) flag) (rlay r (old_cont v flag c)) st st (map_refs_cont (ptrw r) (seen_cont v flag c)).
Proof.
  intros (H1 & H2 & H3 & H4 & [H5 H5']). unfold read_cont, old_cont. vers Hv. cbn [app]. frd.
  eapply frb_last.
  { apply (f_when2 r _ _ (0, 0) zeros3). eapply frb; [fprim|cbv beta]. fst1. eapply frb_last; [apply f_when|cbv beta].
    { replace 3%nat with (length (co_pos c)) by (unfold Zlen in H5; lia).
      rewrite <- flat_one. pose proof (f_repeat r r_f32 (one Word) (fun x => x) (co_pos c) st) as F. rewrite map_id in F. apply F. intros x Hx. apply f_f32.
      rewrite Forall_forall in H5'. auto. }
    apply fret; reflexivity. }
  cbv beta. apply fret; [|reflexivity]. unfold map_refs_cont, seen_cont.
  change (bit_set flag CHBIT_STEP) with (Z.testbit flag 28). destruct (Z.testbit flag 28); reflexivity.
Qed.

Lemma old_reads_simcalhit flag a na o st : simcalhit_ok o ->
  reads (read_simcalhit (version_word v) flag na) (rlay r (old_simcalhit v flag a o)) st
    (if newer v 1 0 then tag_state r a na st else st)
    (map_refs_simcalhit (ptrw r) (seen_simcalhit v flag o)).
Proof.
  intros (H1 & H2 & H3 & H4 & H5 & H6). unfold read_simcalhit, old_simcalhit, many. vers Hv. cbn [app]. frd.
  eapply frb; [|cbv beta].
  { apply f_sized. intros c Hc. apply old_reads_cont. rewrite Forall_forall in H6. auto. }
  frd. apply fret; [|reflexivity].
  unfold map_refs_simcalhit, seen_simcalhit. cbn [sc_id0 sc_id1 sc_energy sc_pos sc_cont].
  rewrite map_map. reflexivity.
Qed.

Lemma old_reads_rawcalhit flag a na o st : rawcalhit_ok o ->
  reads (read_rawcalhit (version_word v) flag na) (rlay r (old_rawcalhit v flag a o)) st
    (if negb (Z.testbit flag 28) then tag_state r a na st else st) (seen_rawcalhit v flag o).
Proof.
  intros (H1 & H2 & H3 & H4). unfold read_rawcalhit, old_rawcalhit. vers Hv. cbn [app]. frd. apply fret; reflexivity.
Qed.

Lemma old_reads_calhit flag a na o st : calhit_ok o ->
  reads (read_calhit (version_word v) flag na) (rlay r (old_calhit v flag a o)) st
    (if (if newer v 1 2 then negb (Z.testbit flag 28) else Z.testbit flag 28) then tag_state r a na st else st)
    (map_refs_calhit (ptrw r) (seen_calhit v flag o)).
Proof.
  intros (H1 & H2 & H3 & H4 & H5 & H6 & H7). unfold read_calhit, old_calhit. vers Hv. cbn [app]. frd.
  apply fret; [|reflexivity]. unfold map_refs_calhit, seen_calhit. cbn.
  destruct (newer v 1 2); cbn [kept]; [|rewrite (ro_null _ _ Hro)]; reflexivity.
Qed.

Lemma old_reads_simtrkhit flag a na o st : simtrkhit_ok o ->
  reads (read_simtrkhit (version_word v) flag na) (rlay r (old_simtrkhit v flag a o)) st
    (if newer v 1 0 then tag_state r a na st else st)
    (map_refs_simtrkhit (ptrw r) (seen_simtrkhit v flag o)).
Proof.
  intros (H1 & H2 & H3 & H4 & H5 & H6 & H7 & H8). unfold read_simtrkhit, old_simtrkhit. vers Hv. cbn [app]. frd.
  eapply frb; [apply f_when2; frd; apply fret; reflexivity|cbv beta]. frd. apply fret; reflexivity.
Qed.

Lemma old_reads_tpchit flag a na o st : tpchit_ok o ->
  reads (read_tpchit (version_word v) flag na) (rlay r (old_tpchit v flag a o)) st
    (if (if newer v 1 2 then negb (Z.testbit flag 30) else Z.testbit flag 30) then tag_state r a na st else st)
    (stored_tpchit flag o).
Proof.
  intros (H1 & H2 & H3 & H4 & H5 & H6). unfold read_tpchit, old_tpchit, many. vers Hv. cbn [app]. frd.
  eapply frb; [apply f_when|cbv beta].
  { fst1. replace (Zlen (tp_raw o) <? 0) with false by (pose proof (Zlen_nonneg (tp_raw o)); lia).
    rewrite flat_one. apply f_iarr; assumption. }
  frd. apply fret; reflexivity.
Qed.

Lemma old_reads_trkpulse flag a na o st : trkpulse_ok o ->
  reads (read_trkpulse (version_word v) flag na) (rlay r (old_trkpulse v flag a o)) st (tag_state r a na st)
    (map_refs_trkpulse (ptrw r) (seen_trkpulse v flag o)).
Proof.
  intros (H1 & H2 & H3 & H4 & H5 & H6). unfold read_trkpulse, old_trkpulse. vers Hv. cbn [app]. frd.
  apply fret; reflexivity.
Qed.

Lemma old_reads_trkhit flag a na o st : trkhit_ok o -> (newer v 1 2 = false -> Zlen (th_raw o) = 1) ->
  reads (read_trkhit (version_word v) flag na) (rlay r (old_trkhit v flag a o)) st (tag_state r a na st)
    (map_refs_trkhit (ptrw r) (seen_trkhit v flag o)).
Proof.
  intros (H1 & H2 & H3 & H4 & H5 & H6 & H7 & H8 & H9 & H10) Hf. unfold read_trkhit, old_trkhit. vers Hv. cbn [app]. frd.
  replace (kept (newer v 1 2) (Zlen (th_raw o)) 1) with (Zlen (th_raw o))
    by (destruct (newer v 1 2); [reflexivity|cbn [kept]; auto]).
  replace (map Ref (th_raw o)) with (flat_map (fun a => [Ref a]) (th_raw o)).
  2:{ generalize (th_raw o). intros l. induction l as [|x l IH]; [reflexivity|]. cbn. rewrite IH. reflexivity. }
  frd. apply fret; reflexivity.
Qed.
Lemma old_reads_trkhitp flag a na o st : trkhitp_ok o ->
  reads (read_trkhitp (version_word v) flag na) (rlay r (old_trkhitp v flag a o)) st (tag_state r a na st)
    (map_refs_trkhitp (ptrw r) (seen_trkhitp v flag o)).
Proof.
  intros (H1 & H2 & H3 & H4 & H5 & H6 & H7 & H8 & H9 & H10 & H11 & H12 & H13).
  unfold read_trkhitp, old_trkhitp, many. vers Hv. cbn [app]. frd. apply fret; reflexivity.
Qed.
Lemma old_reads_trkhitz flag a na o st : trkhitz_ok o ->
  reads (read_trkhitz (version_word v) flag na) (rlay r (old_trkhitz v flag a o)) st (tag_state r a na st)
    (map_refs_trkhitz (ptrw r) (seen_trkhitz v flag o)).
Proof.
  intros (H1 & H2 & H3 & H4 & H5 & H6 & H7 & H8 & H9 & H10 & H11 & H12).
  unfold read_trkhitz, old_trkhitz, many. vers Hv. cbn [app]. frd. apply fret; reflexivity.
Qed.
End Handlers.

(** * Files of earlier versions: objects and collections *)

From Verif Require Import Bytes StrMap SioModel SioProofs SioRecord SioRead SioFrame SioSpec Ieee ObjModel ObjSpec
  ObjProofs ObjCalls CollSpec CollProofs ListFacts EventModel EventSpec EventProofs EventFacts LayoutSpec LayoutProofs CompatSpec CompatProofs CompatObjs.

Section Objects.
Context (r : rho) (all : list dcall) (Hro : rho_ok all r) (v : Z * Z) (Hv : version_ok v).

Lemma ids_rpids l : ids (flat_map (fun ap : addr * pid => pid_layout (snd ap) ++ [Id (fst ap)]) l) = map fst l.
Proof.
  induction l as [|[a p] l IH]; [reflexivity|]. cbn [flat_map map fst snd]. rewrite !ids_app, IH.
  unfold pid_layout, many. rewrite flat_one. idt.
Qed.
Lemma state0 (st : rst) {A} : (fst st, snd st + Zlen (@nil A)) = st.
Proof. destruct st. unfold Zlen. cbn. rewrite Z.add_0_r. reflexivity. Qed.
Lemma ids_one new a na st : new a = na -> (ids_state r new [a] (fst st), snd st) = tag_state r a na st.
Proof. intros <-. unfold ids_state, tag_state. cbn [fold_left]. reflexivity. Qed.

(** the objects whose format has not changed *)
Lemma unchanged srt ty x hs a o new st :
  obj_fits hs o -> hs_ok hs -> type_of o = ty ->
  (forall i b, nth_error (owned o) i = Some b -> new b = snd st + Z.of_nat i) ->
  read_obj srt ty (version_word v) hs (new a) = read_obj srt ty cur_vers hs (new a) ->
  old_layout v x (h_flag hs) (h_algs hs) (is_fixed hs) a o = obj_layout (h_flag hs) (h_algs hs) (is_fixed hs) a o ->
  seen v (h_flag hs) (is_fixed hs) o = ObjSpec.stored (h_flag hs) (is_fixed hs) o ->
  reads (read_obj srt ty (version_word v) hs (new a))
    (rlay r (old_layout v x (h_flag hs) (h_algs hs) (is_fixed hs) a o)) st
    (ids_state r new (ids (old_layout v x (h_flag hs) (h_algs hs) (is_fixed hs) a o)) (fst st), snd st + Zlen (owned o))
    (map_refs (ptrw r) (resort srt (map_owned new (seen v (h_flag hs) (is_fixed hs) o)))).
Proof.
  intros Hf Hh Hty Hn E1 E2 E3. rewrite E1, E2, E3.
  destruct (write_obj_ok ty hs a o Hty Hf) as (w & Hw).
  pose proof (g_obj _ _ _ _ _ Hf Hw) as G. eapply fr_of; [exact G|].
  rewrite <- (g_tags _ _ G). exact (reads_obj srt ty hs a o w r all new st Hro Hw Hf Hh Hn).
Qed.

Ltac ids_of := unfold many, txt; rewrite ?flat_one; idt; repeat (rewrite ?if_nil; cbn [app]);
  repeat match goal with |- context [if ?b then _ else _] => destruct b end; reflexivity.

Lemma i_mcp a o : ids (old_mcp v a o) = [a].
Proof. unfold old_mcp. ids_of. Qed.
Lemma i_simcalhit flag a o : ids (old_simcalhit v flag a o) = if newer v 1 0 then [a] else [].
Proof.
  unfold old_simcalhit, many.
  assert (E : forall l, ids (flat_map (old_cont v flag) l) = []) by (intros l; apply ids_flat; intros c _; unfold old_cont; ids_of).
  idt. rewrite E. ids_of.
Qed.
Lemma i_rawcalhit flag a o : ids (old_rawcalhit v flag a o) = if negb (Z.testbit flag 28) then [a] else [].
Proof. unfold old_rawcalhit. ids_of. Qed.
Lemma i_calhit flag a o : ids (old_calhit v flag a o) = if (if newer v 1 2 then negb (Z.testbit flag 28) else Z.testbit flag 28) then [a] else [].
Proof. unfold old_calhit. ids_of. Qed.
Lemma i_simtrkhit flag a o : ids (old_simtrkhit v flag a o) = if newer v 1 0 then [a] else [].
Proof. unfold old_simtrkhit. ids_of. Qed.
Lemma i_tpchit flag a o : ids (old_tpchit v flag a o) = if (if newer v 1 2 then negb (Z.testbit flag 30) else Z.testbit flag 30) then [a] else [].
Proof. unfold old_tpchit. ids_of. Qed.
Lemma i_trkpulse flag a o : ids (old_trkpulse v flag a o) = [a].
Proof. unfold old_trkpulse. ids_of. Qed.
Lemma i_trkhit flag a o : ids (old_trkhit v flag a o) = [a].
Proof. unfold old_trkhit. ids_of. Qed.
Lemma i_trkhitp flag a o : ids (old_trkhitp v flag a o) = [a].
Proof. unfold old_trkhitp. ids_of. Qed.
Lemma i_trkhitz flag a o : ids (old_trkhitz v flag a o) = [a].
Proof. unfold old_trkhitz. ids_of. Qed.
Lemma i_track flag a o : ids (old_track v flag a o) = [a].
Proof.
  unfold old_track. assert (E : forall l, ids (flat_map (old_tstate v) l) = []) by (intros l; apply ids_flat; intros c _; unfold old_tstate; ids_of).
  idt. rewrite E. ids_of.
Qed.
Lemma i_cluster x flag a o : ids (old_cluster v x flag a o) = [a].
Proof.
  unfold old_cluster. assert (E : forall l, ids (flat_map pid_layout l) = []) by (intros l; apply ids_flat; intros c _; unfold pid_layout; ids_of).
  destruct (newer v 1 2); unfold many; idt; rewrite ?E; ids_of.
Qed.
Lemma i_recp x a o : ids (old_recp v x a o) = if newer v 1 2 then map fst (rp_pids o) ++ [a] else [a].
Proof.
  unfold old_recp. destruct (newer v 1 2).
  - unfold many. rewrite !ids_app, !ids_word, ids_rpids. idt.
  - unfold weighted. assert (E : forall l, ids (flat_map (fun ap : addr * pid => [Word (pi_like (snd ap)); Word (pi_type (snd ap)); Word (pi_alg (snd ap))]
                       ++ many (one Word) (pi_par (snd ap))) l) = []) by (intros l; apply ids_flat; intros c _; ids_of).
    unfold many at 1. rewrite !ids_app, !ids_word, E. ids_of.
Qed.

(** an object of any class *)
Lemma old_reads_obj srt ty x hs a o new st :
  obj_fits hs o -> hs_ok hs -> type_of o = ty -> extra_ok (x a) -> old_fits v (x a) o ->
  (forall i b, nth_error (owned o) i = Some b -> new b = snd st + Z.of_nat i) ->
  reads (read_obj srt ty (version_word v) hs (new a))
    (rlay r (old_layout v x (h_flag hs) (h_algs hs) (is_fixed hs) a o)) st
    (ids_state r new (ids (old_layout v x (h_flag hs) (h_algs hs) (is_fixed hs) a o)) (fst st), snd st + Zlen (owned o))
    (map_refs (ptrw r) (resort srt (map_owned new (seen v (h_flag hs) (is_fixed hs) o)))).
Proof.
  intros Hf Hh Hty Hx Ho Hn.
  assert (E0 : forall (b : bool), (ids_state r new (if b then [a] else []) (fst st), snd st + Zlen (@nil addr))
                = if b then tag_state r a (new a) st else st).
  { intros b. destruct st as [m n]. unfold Zlen. cbn [fst snd length Z.of_nat]. rewrite Z.add_0_r. destruct b; reflexivity. }
  pose proof (E0 true) as E1. cbv iota in E1.
  assert (U := unchanged srt ty x hs a o new st Hf Hh Hty Hn).
  unfold obj_fits in Hf. destruct o; cbn [type_of] in Hty; subst ty; try (apply U; reflexivity); clear U;
    cbn [owned old_layout seen read_obj map_owned resort map_refs]; cbn [obj_ok] in Hf; cbn [old_fits] in Ho.
  - rewrite i_mcp, E1. apply (reads_map _ OMC). exact (old_reads_mcp r all Hro v Hv a (new a) o st Hf).
  - rewrite i_simcalhit, E0. apply (reads_map _ OSCH). exact (old_reads_simcalhit r all Hro v Hv _ a (new a) o st Hf).
  - rewrite i_rawcalhit, E0. apply (reads_map _ ORCH). exact (old_reads_rawcalhit r all Hro v Hv _ a (new a) o st Hf).
  - rewrite i_calhit, E0. apply (reads_map _ OCH). exact (old_reads_calhit r all Hro v Hv _ a (new a) o st Hf).
  - rewrite i_simtrkhit, E0. apply (reads_map _ OSTH). exact (old_reads_simtrkhit r all Hro v Hv _ a (new a) o st Hf).
  - rewrite i_tpchit, E0. apply (reads_map _ OTPC). exact (old_reads_tpchit r all Hro v Hv _ a (new a) o st Hf).
  - rewrite i_trkpulse, E1. apply (reads_map _ OTPu). exact (old_reads_trkpulse r all Hro v Hv _ a (new a) o st Hf).
  - rewrite i_trkhit, E1. apply (reads_map _ OTH). exact (old_reads_trkhit r all Hro v Hv _ a (new a) o st Hf Ho).
  - rewrite i_trkhitp, E1. apply (reads_map _ OTHP). exact (old_reads_trkhitp r all Hro v Hv _ a (new a) o st Hf).
  - rewrite i_trkhitz, E1. apply (reads_map _ OTHZ). exact (old_reads_trkhitz r all Hro v Hv _ a (new a) o st Hf).
  - rewrite i_track, E1. apply (reads_map _ OTRK). exact (old_reads_track r all Hro v Hv _ a (new a) o st Hf Ho).
  - rewrite i_cluster, E1. apply (reads_map _ OCL). destruct Hf as [Hf1 Hf2].
    exact (old_reads_cluster r all Hro v Hv srt (x a) _ a (new a) o st Hf1 Hf2 (proj1 Hx) Ho).
  - rewrite i_recp. apply (reads_map _ ORP). cbn [owned] in Hn.
    replace (Zlen (map fst (rp_pids o))) with (Zlen (rp_pids o)) by (unfold Zlen; rewrite map_length; reflexivity).
    exact (old_reads_recp r all Hro v Hv srt (x a) new a (new a) o st Hf Hx Ho eq_refl Hn).
  - assert (E : ids (many txt l ++ only_if (newer v 1 2) [Id a]) = if newer v 1 2 then [a] else []) by ids_of.
    rewrite E, E0. apply (reads_map _ OSTR). destruct Hf as [Hf1 Hf2].
    apply (old_reads_lcvec r all Hro v Hv txt r_string (@vec_len byte) a (new a) l st); [|assumption|assumption].
    intros y s Hy. apply f_txt. exact Hy.
  - assert (E : ids (many (one Word) l ++ only_if (newer v 1 2) [Id a]) = if newer v 1 2 then [a] else []) by ids_of.
    rewrite E, E0. apply (reads_map _ OFLT). destruct Hf as [Hf1 Hf2].
    apply (old_reads_lcvec r all Hro v Hv (one Word) r_f32 word32 a (new a) l st); [|assumption|assumption].
    intros y s Hy. apply f_f32. exact Hy.
  - assert (E : ids (many (one Word) l ++ only_if (newer v 1 2) [Id a]) = if newer v 1 2 then [a] else []) by ids_of.
    rewrite E, E0. apply (reads_map _ OINT). destruct Hf as [Hf1 Hf2].
    apply (old_reads_lcvec r all Hro v Hv (one Word) r_i32 int32 a (new a) l st); [|assumption|assumption].
    intros y s Hy. apply f_i32. exact Hy.
Qed.

(** ** Collections *)

Definition fixed_counts (ty : otype) (h : heap) (c : coll) : list field :=
  if stores_fixed ty h c then match c_elems c with
                    | a :: _ => match h a with Some (OGO o) => counts_layout o | _ => [] end
                    | [] => [Word 0; Word 0; Word 0]
                    end else [].

Lemma g_init ty h c p' hs w : coll_ok ty h c ->
  init_writing ty h c = Ok (mkColl (c_type c) (stored_flag ty h c) p' (c_elems c), hs, w) ->
  hs_for ty h c hs -> params_ok p' -> p' = stored_params ty h c ->
  gives w ([Word (stored_flag ty h c)] ++ params_layout (stored_params ty h c) ++ fixed_counts ty h c) /\
  (ty <> TVX \/ h_algs hs = vertex_types h (c_elems c)).
Proof.
  intros (Hf & Hpar & Hroom & Hl & Hel & Hvx & Hgo) Ei [F1 F2 F3 F4] Hp Hsame.
  pose proof (init_calls ty h c _ _ _ Ei) as (C1 & C2 & C3). split.
  - rewrite C1. unfold init_writing0, fixed_counts. cbn [c_flag c_par]. rewrite Hsame, <- !app_assoc. cbn [app].
    apply h_u32. apply g_app; [apply g_params; rewrite <- Hsame; exact Hp|].
    rewrite <- F2. unfold is_fixed. destruct C3 as [C3|[C3 C4]]; [rewrite C3; exact g_nil|].
    rewrite C4. subst ty. destruct (Hgo eq_refl) as (Ht & He & _). destruct (c_elems c) as [|a l] eqn:El.
    + unfold w_sizes. exact (g_app _ _ _ _ (g_word 0) (g_app _ _ _ _ (g_word 0) (g_word 0))).
    + destruct (Ht a (or_introl eq_refl)) as (_ & o & Ho & Hty). rewrite Ho. destruct o; try discriminate.
      rewrite go_sizes_ok by (apply (He a (OGO o) (or_introl eq_refl) Ho)). apply g_sizes.
  - destruct (otype_eq_vx ty) as [->|N]; [right|left; exact N].
    specialize (C2 eq_refl). rewrite vertex_algs_eq in C2 by (apply Hvx; reflexivity). injection C2 as <-. reflexivity.
Qed.

Lemma old_init ty h c : coll_ok ty h c -> (ty = TVX \/ ty = TGO -> newer v 1 1 = true) ->
  exists hs, hs_for ty h c hs /\ (ty <> TVX \/ h_algs hs = vertex_types h (c_elems c)) /\
    forall st, reads (init_reading ty (version_word v))
      (rlay r ([Word (stored_flag ty h c)] ++ only_if (newer v 1 1) (params_layout (stored_params ty h c)) ++ fixed_counts ty h c)) st st
      (kept (newer v 1 1) (stored_params ty h c) no_params, hs).
Proof.
  intros Hc Hty. destruct (init_spec ty h c Hc) as (p' & hs & w & Ei & Hh & Hp & Hsame & _ & Hr).
  destruct (g_init ty h c p' hs w Hc Ei Hh Hp Hsame) as [G Ha]. exists hs. split; [exact Hh|]. split; [exact Ha|].
  intros st. destruct (newer v 1 1) eqn:Ev; cbn [only_if kept].
  - assert (E : init_reading ty (version_word v) = init_reading ty cur_vers).
    { unfold init_reading. rewrite (vgt_newer _ Hv) by lia. rewrite Ev. reflexivity. }
    rewrite E, <- Hsame. eapply fr_of; [rewrite Hsame; exact G|]. apply Hr.
  - assert (N1 : ty <> TVX) by (intros ->; discriminate (Hty (or_introl eq_refl))).
    assert (N2 : ty <> TGO) by (intros ->; discriminate (Hty (or_intror eq_refl))).
    assert (Es : stores_fixed ty h c = false) by (destruct ty; try reflexivity; contradiction).
    assert (Eh : hs = mkH (c_flag c) [] None).
    { destruct ty; try contradiction; cbn [init_writing] in Ei; injection Ei as _ <- _; reflexivity. }
    assert (Er : init_reading ty (version_word v) = let* flag := r_u32 in let* p := r_when (vgt (version_word v) 1 1) (r_params no_params) no_params in rret (p, mkH flag [] None)).
    { destruct ty; try contradiction; reflexivity. }
    rewrite Er, Eh. unfold fixed_counts, stored_flag. rewrite Es. rewrite (vgt_newer _ Hv) by lia. rewrite Ev. cbn [app].
    destruct Hc as (Hf & _).
    eapply frb_last; [apply f_u32; exact Hf|cbv beta]. unfold r_when.
    eapply frb_none; [apply reads_ret|cbv beta]. apply fret; reflexivity.
Qed.

Definition old_copies srt (new ptr : addr -> addr) (flag : Z) (fixed : bool) (h : heap) (l : list addr) : list (addr * obj) :=
  flat_map (fun a => match h a with Some o => [(new a, old_copy srt v new ptr flag fixed o)] | None => [] end) l.
Definition old_elems x hs h l : list field :=
  flat_map (fun a => match h a with Some o => old_layout v x (h_flag hs) (h_algs hs) (is_fixed hs) a o | None => [] end) l.

Lemma old_reads_elems srt ty x hs h new l : typed ty h l ->
  (forall a o, In a l -> h a = Some o -> obj_fits hs o /\ extra_ok (x a) /\ old_fits v (x a) o) -> hs_ok hs ->
  forall st, numbers new (own_objs h l) (snd st) ->
  reads (r_repeat (length l) (let* na := r_new in let* o := r_try (read_obj srt ty (version_word v) hs na) in rret (na, o)))
    (rlay r (old_elems x hs h l)) st
    (ids_state r new (ids (old_elems x hs h l)) (fst st), snd st + Zlen (own_objs h l))
    (old_copies srt new (ptrw r) (h_flag hs) (is_fixed hs) h l).
Proof.
  induction l as [|a l IH]; intros Ht Hf Hh st Hn.
  - cbn [old_elems flat_map length r_repeat own_objs]. replace (ids_state r new (ids []) (fst st), snd st + Zlen []) with st; [apply reads_ret|].
    destruct st. unfold Zlen. cbn. rewrite Z.add_0_r. reflexivity.
  - destruct (Ht a (or_introl eq_refl)) as (H0 & o & Ho & Hty).
    destruct (Hf a o (or_introl eq_refl) Ho) as (Hfit & Hx & Hof).
    unfold own_objs, old_elems in *. cbn [flat_map] in Hn. cbn [flat_map length r_repeat old_copies]. rewrite Ho in *.
    change (((a :: owned o) ++ flat_map (fun a => a :: match h a with Some o => owned o | None => [] end) l))
      with ([a] ++ (owned o ++ flat_map (fun a => a :: match h a with Some o => owned o | None => [] end) l)) in *.
    destruct (numbers_app _ _ _ _ Hn) as [N1 N2]. destruct (numbers_app _ _ _ _ N2) as [N3 N4].
    change (Zlen [a]) with 1 in *.
    assert (Ena : new a = snd st) by (rewrite (N1 0%nat a eq_refl); lia).
    eapply frb.
    + eapply frb_none; [apply reads_new|cbv beta]. rewrite <- Ena.
      eapply frb_last; [apply reads_try; eapply (old_reads_obj srt ty x hs a o new); try eassumption|cbv beta; apply fret; reflexivity].
      cbn [snd]. rewrite Ena. exact N3.
    + cbv beta. cbn [fst snd].
      apply (reads_map _ (fun xs => _ :: xs)).
      rewrite ids_app, ids_state_app.
      set (m1 := ids_state r new (ids (old_layout v x (h_flag hs) (h_algs hs) (is_fixed hs) a o)) (fst st)).
      replace (snd st + Zlen ([a] ++ owned o ++ flat_map (fun a => a :: match h a with Some o => owned o | None => [] end) l))
        with (snd (m1, new a + 1 + Zlen (owned o)) + Zlen (own_objs h l)).
      * apply (IH (fun b Hb => Ht b (or_intror Hb)) (fun b y Hb => Hf b y (or_intror Hb)) Hh (m1, new a + 1 + Zlen (owned o))).
        cbn [snd]. rewrite Ena. exact N4.
      * cbn [snd]. rewrite !Zlen_app. change (Zlen [a]) with 1. rewrite Ena. unfold own_objs. lia.
Qed.

Lemma old_layout_flag x ty h c o algs fx a : type_of o = ty ->
  (ty <> TVX \/ algs = vertex_types h (c_elems c)) ->
  old_layout v x (stored_flag ty h c) algs fx a o = old_layout v x (c_flag c) (vertex_types h (c_elems c)) fx a o.
Proof.
  intros Hty Ha. unfold stored_flag, stores_fixed.
  destruct o; cbn [type_of] in Hty; subst ty; try reflexivity.
  destruct Ha as [Ha| ->]; [contradiction|reflexivity].
Qed.

Lemma old_reads_coll srt ty x h c new st : coll_ok ty h c -> old_coll_ok v x ty h c ->
  numbers new (coll_objs h c) (snd st) ->
  reads (read_coll srt ty (version_word v)) (rlay r (old_coll v x ty h c)) st
    (ids_state r new (ids (old_coll v x ty h c)) (fst st), snd st + Zlen (coll_objs h c))
    (mkRC (stored_flag ty h c) (kept (newer v 1 1) (stored_params ty h c) no_params)
      (if is_subset c then map (ptrw r) (c_elems c) else map new (c_elems c))
      (if is_subset c then [] else old_copies srt new (ptrw r) (stored_flag ty h c) (stores_fixed ty h c) h (c_elems c))).
Proof.
  intros Hc [Hty Hold] Hn. destruct (old_init ty h c Hc Hty) as (hs & [F1 F2 F3 F4] & Ha & Hr).
  pose proof Hc as (Hf & Hpar & Hroom & Hl & Hel & _).
  assert (Hsub : bit_set (h_flag hs) BITSubset = is_subset c) by (rewrite F1; apply stored_flag_subset).
  set (B := if is_subset c then many (fun a => [Ref a]) (c_elems c)
     else many (fun a => match h a with
                         | Some o => old_layout v x (c_flag c) (vertex_types h (c_elems c)) (stores_fixed ty h c) a o
                         | None => []
                         end) (c_elems c)).
  assert (Ec : old_coll v x ty h c = ([Word (stored_flag ty h c)] ++ only_if (newer v 1 1) (params_layout (stored_params ty h c)) ++ fixed_counts ty h c) ++ B).
  { unfold old_coll, B, fixed_counts. cbv zeta. rewrite <- !app_assoc. reflexivity. }
  assert (Ei : ids ([Word (stored_flag ty h c)] ++ only_if (newer v 1 1) (params_layout (stored_params ty h c)) ++ fixed_counts ty h c) = []).
  { rewrite !ids_app. assert (E1 : ids (only_if (newer v 1 1) (params_layout (stored_params ty h c))) = []).
    { rewrite ids_if. assert (E : ids (params_layout (stored_params ty h c)) = []); [|rewrite E; apply if_nil].
      unfold params_layout, map_layout, many. rewrite !ids_app, !ids_word.
      assert (E3 : forall V (f : V -> list field) m, (forall y, ids (f y) = []) ->
         ids (flat_map (fun kv : bytes * list V => txt (fst kv) ++ Word (Zlen (snd kv)) :: flat_map f (snd kv)) m) = []).
      { intros V f m Hy. apply ids_flat. intros [k l] _. rewrite ids_app, ids_word. rewrite ids_flat by (intros; apply Hy). reflexivity. }
      rewrite !E3; [reflexivity| | |]; intros y; reflexivity. }
    rewrite E1. unfold fixed_counts. destruct (stores_fixed ty h c); [|reflexivity].
    destruct (c_elems c) as [|b l]; [reflexivity|]. destruct (h b) as [o|]; [|reflexivity]. destruct o; reflexivity. }
  rewrite Ec, ids_app, Ei. change ([] ++ ids B) with (ids B). clear Ec Ei.
  unfold read_coll, coll_objs in *. subst B. destruct (is_subset c) eqn:Es; rewrite ?Es in *.
  - eapply frb; [apply Hr|cbv beta iota]. unfold many.
    eapply frb_cons; [apply f_cnt; exact Hl|cbv beta].
    replace (Zlen (c_elems c) <? 0) with false by (pose proof (Zlen_nonneg (c_elems c)); lia).
    rewrite Hsub. eapply frb_last.
    { apply (f_loop r r_pointer_to (fun a => [Ref a]) (ptrw r)). intros y _. apply (f_ptr r all); exact Hro. }
    cbv beta. apply fret; [rewrite F1; reflexivity|].
    assert (E : ids (Word (Zlen (c_elems c)) :: flat_map (fun a => [Ref a]) (c_elems c)) = []) by idt.
    rewrite E. destruct st. unfold Zlen. cbn. rewrite Z.add_0_r. reflexivity.
  - destruct (Hel eq_refl) as [Ht He]. specialize (Hold eq_refl).
    assert (Hfit : forall a o, In a (c_elems c) -> h a = Some o -> obj_fits hs o /\ extra_ok (x a) /\ old_fits v (x a) o).
    { intros a o Ha' Ho. split; [|apply (Hold a o Ha' Ho)]. apply (F4 a o Ha' Ho); [|eapply He; eassumption].
      destruct (Ht a Ha') as (_ & o' & Ho' & Hty'). congruence. }
    assert (Ee : flat_map (fun a => match h a with
                         | Some o => old_layout v x (c_flag c) (vertex_types h (c_elems c)) (stores_fixed ty h c) a o
                         | None => [] end) (c_elems c) = old_elems x hs h (c_elems c)).
    { unfold old_elems. apply flat_map_ext_in. intros a Ha'. destruct (Ht a Ha') as (_ & o & -> & Hto).
      rewrite F1, F2. symmetry. apply old_layout_flag; assumption. }
    unfold many. rewrite Ee.
    eapply frb; [apply Hr|cbv beta iota].
    eapply frb_cons; [apply f_cnt; exact Hl|cbv beta].
    replace (Zlen (c_elems c) <? 0) with false by (pose proof (Zlen_nonneg (c_elems c)); lia).
    rewrite Hsub. eapply frb_last.
    { unfold r_loop, Zlen. rewrite Nat2Z.id. apply (old_reads_elems srt ty x hs h new (c_elems c) Ht Hfit F3 st Hn). }
    cbv beta. apply fret; [|rewrite ids_word; reflexivity].
    rewrite F1, F2. f_equal. clear - Ht. revert Ht. generalize (c_elems c) as l.
    induction l as [|a l IH]; intros Ht; [reflexivity|]. cbn [old_copies flat_map map].
    destruct (Ht a (or_introl eq_refl)) as (_ & o & -> & _). rewrite map_app. cbn [map fst app]. f_equal.
    apply IH. intros b Hb. apply Ht. right. exact Hb.
Qed.

(** ** References *)

Lemma ref_in b l : In b l -> In (Ref b) (flat_map (fun a => [Ref a]) l).
Proof. intros H. apply in_flat_map. exists b. split; [exact H|left; reflexivity]. Qed.
Lemma ref_weighted b l ws : length ws = length l -> In b l ->
  In (Ref b) (flat_map (fun pw : Z * Z => [Ref (fst pw); Word (snd pw)]) (combine l ws)).
Proof.
  intros HL H. apply In_nth_error in H. destruct H as (i & Hi).
  assert (Hlt : (i < length l)%nat) by (apply nth_error_Some; congruence).
  destruct (nth_error ws i) as [w|] eqn:Ew; [|apply nth_error_None in Ew; lia].
  apply in_flat_map. exists (b, w). split; [|left; reflexivity].
  clear HL Hlt. revert l ws Hi Ew. induction i as [|i IH]; intros [|y l] [|z ws] Hi Ew; cbn [nth_error combine] in *; try discriminate.
  - injection Hi as ->. injection Ew as ->. left. reflexivity.
  - right. apply IH; assumption.
Qed.
Lemma in_only_if b f (q : bool) fs : In (Ref b) fs -> f = q -> q = true -> In (Ref b) (only_if f fs).
Proof. intros H -> ->. exact H. Qed.

Ltac seek := unfold weighted, many; repeat rewrite in_app_iff; cbn [In]; repeat rewrite in_app_iff; cbn [In]; tauto.

Lemma refs_seen ty x hs a o b : obj_fits hs o -> type_of o = ty -> old_fits v (x a) o ->
  In b (refs (seen v (h_flag hs) (is_fixed hs) o)) ->
  b = 0 \/ In (Ref b) (old_layout v x (h_flag hs) (h_algs hs) (is_fixed hs) a o).
Proof.
  intros Hf Hty Hold Hb.
  assert (U : seen v (h_flag hs) (is_fixed hs) o = ObjSpec.stored (h_flag hs) (is_fixed hs) o ->
              old_layout v x (h_flag hs) (h_algs hs) (is_fixed hs) a o = obj_layout (h_flag hs) (h_algs hs) (is_fixed hs) a o ->
              In (Ref b) (old_layout v x (h_flag hs) (h_algs hs) (is_fixed hs) a o)).
  { intros E1 E2. rewrite E2. rewrite E1 in Hb. destruct (write_obj_ok ty hs a o Hty Hf) as (w & Hw).
    pose proof (g_obj _ _ _ _ _ Hf Hw) as G. destruct (shape_obj _ _ _ _ _ Hw Hf) as [_ Hp _].
    apply in_targets. rewrite <- (g_ptrs _ _ G), Hp. exact Hb. }
  unfold obj_fits in Hf. destruct o; cbn [type_of] in Hty; subst ty; try (right; apply U; reflexivity); clear U;
    cbn [refs seen old_layout] in *; cbn [obj_ok] in Hf; cbn [old_fits] in Hold; try (destruct Hb; fail).
  - unfold seen_mcp in Hb. cbn [mc_parents mc_daughters] in Hb. rewrite app_nil_r in Hb. apply ref_in in Hb. right. unfold old_mcp. seek.
  - unfold seen_simcalhit in Hb. cbn [sc_cont] in Hb. rewrite map_map in Hb. cbn [seen_cont co_part] in Hb. right.
    assert (K : In (Ref b) (flat_map (old_cont v (h_flag hs)) (sc_cont o))).
    { apply in_map_iff in Hb. destruct Hb as (c & <- & Hc). apply in_flat_map. exists c. split; [exact Hc|]. unfold old_cont. left. reflexivity. }
    unfold old_simcalhit. seek.
  - unfold seen_calhit in Hb. cbn [ch_raw] in Hb. destruct Hb as [<-|[]]. unfold old_calhit.
    destruct (newer v 1 2); cbn [kept only_if]; [right|left; reflexivity]. seek.
  - unfold seen_simtrkhit in Hb. cbn [st_part] in Hb. destruct Hb as [<-|[]]. right. unfold old_simtrkhit. seek.
  - unfold seen_trkpulse in Hb. cbn [pu_corr] in Hb. destruct Hb as [<-|[]]. right. unfold old_trkpulse. seek.
  - unfold seen_trkhit in Hb. cbn [th_raw] in Hb. right. unfold old_trkhit.
    assert (K : In (Ref b) (map Ref (th_raw o))) by (apply in_map; exact Hb). seek.
  - unfold seen_trkhitp in Hb. cbn [hp_raw] in Hb. apply ref_in in Hb. right. unfold old_trkhitp. seek.
  - unfold seen_trkhitz in Hb. cbn [hz_raw] in Hb. apply ref_in in Hb. right. unfold old_trkhitz. seek.
  - unfold seen_track in Hb. cbn [tr_tracks tr_hits] in Hb. right. unfold old_track. apply in_app_iff in Hb. destruct Hb as [Hb|Hb].
    + apply ref_in in Hb. seek.
    + destruct (Z.testbit (h_flag hs) 31); cbn [kept only_if] in *; [|destruct Hb]. apply ref_in in Hb. seek.
  - unfold seen_cluster in Hb. cbn [cl_clusters cl_hits] in Hb. right. unfold old_cluster. apply in_app_iff in Hb. destruct Hb as [Hb|Hb].
    + apply ref_in in Hb. seek.
    + destruct Hf as [_ Hw]. unfold cluster_fits in Hw. destruct (Z.testbit (h_flag hs) 31); cbn [kept only_if] in *; [|destruct Hb].
      assert (K := ref_weighted b (cl_hits o) (cl_weights o) ltac:(try specialize (Hw eq_refl); unfold Zlen in Hw; lia) Hb). seek.
  - unfold seen_recp in Hb. unfold old_recp. destruct (newer v 1 2).
    + cbn [rp_used rp_parts rp_tracks rp_clusters rp_sv] in Hb. rewrite !in_app_iff in Hb. cbn [In] in Hb.
      destruct Hb as [[<-|[]]|[Hb|[Hb|[Hb|[Hb|[]]]]]]; try (right; apply ref_in in Hb; seek); [right; seek|].
      destruct (newer v 1 7); cbn [kept only_if] in *; [right; subst b; seek|left; symmetry; exact Hb].
    + destruct (Hold eq_refl) as (L1 & L2 & L3 & _). unfold Zlen in L1, L2, L3.
      cbn [rp_used rp_parts rp_tracks rp_clusters rp_sv] in Hb. rewrite !in_app_iff in Hb. cbn [In] in Hb.
      destruct Hb as [[<-|[]]|[Hb|[Hb|[Hb|[Hb|[]]]]]]; [left; reflexivity| | | |left; symmetry; exact Hb]; right.
      * assert (K := ref_weighted b (rp_parts o) (x_parts (x a)) ltac:(lia) Hb). seek.
      * assert (K := ref_weighted b (rp_tracks o) (x_tracks (x a)) ltac:(lia) Hb). seek.
      * assert (K := ref_weighted b (rp_clusters o) (x_clusters (x a)) ltac:(lia) Hb). seek.
Qed.

End Objects.

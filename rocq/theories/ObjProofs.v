(** * The object handlers: what is written is read back *)

From Coq Require Import Permutation Sorted.
From Verif Require Import Bytes StrMap SioModel SioProofs SioRecord SioRead SioFrame SioSpec Ieee ObjModel ObjSpec.

Lemma Ok_inj {A} (a b : A) : Ok a = Ok b -> a = b.
Proof. intros H. injection H. auto. Qed.

(** ** Composition over call lists *)

Lemma rb {A B} (m : RD A) (f : A -> RD B) r w1 w2 st st1 st2 a b :
  reads m (renderR r w1) st st1 a -> reads (f a) (renderR r w2) st1 st2 b ->
  reads (rbind m f) (renderR r (w1 ++ w2)) st st2 b.
Proof. intros H1 H2. rewrite renderR_app. eapply reads_bind; eassumption. Qed.

Lemma rb_last {A B} (m : RD A) (f : A -> RD B) r w st st1 st2 a b :
  reads m (renderR r w) st st1 a -> reads (f a) (renderR r []) st1 st2 b ->
  reads (rbind m f) (renderR r w) st st2 b.
Proof. intros H1 H2. rewrite <- (app_nil_r w). eapply rb; eassumption. Qed.

Lemma rb_none {A B} (m : RD A) (f : A -> RD B) r w st st1 st2 a b :
  reads m [] st st1 a -> reads (f a) (renderR r w) st1 st2 b ->
  reads (rbind m f) (renderR r w) st st2 b.
Proof. intros H1 H2. change (renderR r w) with ([] ++ renderR r w). eapply reads_bind; eassumption. Qed.

Lemma rret_nil {A} (a : A) r st : reads (rret a) (renderR r []) st st a.
Proof. apply reads_ret. Qed.

Lemma rret_eq {A} (a b : A) r st st' : a = b -> st = st' -> reads (rret a) (renderR r []) st st' b.
Proof. intros -> ->. apply reads_ret. Qed.

(** ** Ranges *)

Lemma word32_u32 z : word32 z <-> is_u32 z.
Proof. unfold word32, is_u32, two32. reflexivity. Qed.
Lemma word64_u64 z : word64 z <-> is_u64 z.
Proof. unfold word64, is_u64, two64. reflexivity. Qed.
Lemma int32_i32 z : int32 z <-> is_i32 z.
Proof. unfold int32, is_i32, two31. reflexivity. Qed.
Lemma words4 l : Forall word32 l -> words_ok 4 l.
Proof. intros H. exact H. Qed.
Lemma words8 l : Forall word64 l -> words_ok 8 l.
Proof. intros H. exact H. Qed.
Lemma vec31 {A} (l : list A) : vec_len l -> len31 l.
Proof. unfold vec_len, len31, two31. lia. Qed.
Lemma vec_small n (l : list Z) : (n <= 8)%nat -> vec_len l -> small (enc_elems n l).
Proof. unfold vec_len, small. rewrite enc_elems_length. pose proof (Zlen_nonneg l). unfold two32. nia. Qed.
Lemma cnt_len {A} (l : list A) : vec_len l -> cnt l = Zlen l.
Proof. intros H. apply (s32_len l). apply vec31. exact H. Qed.
Lemma upto_id {A} (l : list A) : vec_len l -> upto l = l.
Proof.
  intros H. unfold upto. rewrite cnt_len by exact H. unfold Zlen. rewrite Nat2Z.id. apply firstn_all.
Qed.
Lemma Zlen_of_length {A} (l : list A) n : Zlen l = Z.of_nat n -> length l = n.
Proof. unfold Zlen. lia. Qed.
Lemma d2f_word z : word64 z -> word32 (d2f z).
Proof. intros H. apply word32_u32, d2f_range, word64_u64, H. Qed.

Lemma len3 (l : list Z) : Zlen l = 3 -> l = [fst3 l; snd3 l; thd3 l].
Proof. intros H. unfold Zlen in H. destruct l as [|a [|b [|c [|d l]]]]; cbn in H; try lia. reflexivity. Qed.
Lemma len2 (l : list Z) : Zlen l = 2 -> l = [nth 0 l 0; nth 1 l 0].
Proof. intros H. unfold Zlen in H. destruct l as [|a [|b [|c l]]]; cbn in H; try lia. reflexivity. Qed.
Lemma all3 (P : Z -> Prop) l : Zlen l = 3 -> Forall P l -> P (fst3 l) /\ P (snd3 l) /\ P (thd3 l).
Proof.
  intros H HF. rewrite (len3 l H) in HF. inversion HF as [|? ? H1 HF1]; subst. inversion HF1 as [|? ? H2 HF2]; subst.
  inversion HF2 as [|? ? H3 HF3]; subst. auto.
Qed.
Lemma all2 (P : Z -> Prop) l : Zlen l = 2 -> Forall P l -> P (nth 0 l 0) /\ P (nth 1 l 0).
Proof.
  intros H HF. rewrite (len2 l H) in HF. inversion HF as [|? ? H1 HF1]; subst. inversion HF1 as [|? ? H2 HF2]; subst. auto.
Qed.

(** ** Primitives *)

Ltac prim4 := cbn [w_i32 w_u32 w_f32 renderR flat_map renderR_call]; rewrite ?app_nil_r, ?padz_be4.

Lemma ri32 z r st : int32 z -> reads r_i32 (renderR r (w_i32 z)) st st z.
Proof. intros H. prim4. apply reads_i32. exact H. Qed.
Lemma ru32 z r st : word32 z -> reads r_u32 (renderR r (w_u32 z)) st st z.
Proof. intros H. prim4. apply reads_u32. exact H. Qed.
Lemma rf32 z r st : word32 z -> reads r_f32 (renderR r (w_f32 z)) st st z.
Proof. intros H. prim4. apply reads_f32. exact H. Qed.
Lemma rcnt {A} (l : list A) r st : vec_len l -> reads r_i32 (renderR r (w_i32 (cnt l))) st st (Zlen l).
Proof.
  intros H. rewrite cnt_len by exact H. apply ri32. unfold int32, vec_len in *. pose proof (Zlen_nonneg l). lia.
Qed.
Lemma rstr s r st : vec_len s -> reads r_string (renderR r (w_string s)) st st s.
Proof. intros H. apply reads_string. apply vec31. exact H. Qed.

Lemma enc_flat n (f : Z -> list dcall) l r :
  (forall z, renderR r (f z) = be n z) -> renderR r (flat_map f l) = enc_elems n l.
Proof.
  intros H. rewrite renderR_flat_map. unfold enc_elems. apply flat_map_ext. exact H.
Qed.
Lemma render_f32 z r : renderR r (w_f32 z) = be 4 z.
Proof. prim4. reflexivity. Qed.
Lemma render_f64 z r : renderR r (w_f64 z) = be 8 z.
Proof. cbn [w_f64 renderR flat_map renderR_call]. rewrite app_nil_r. apply padz_be8. Qed.
Lemma render_i32 z r : renderR r (w_i32 z) = be 4 z.
Proof. prim4. reflexivity. Qed.

Lemma render_arr n l r : renderR r (w_arr n l) = padz (enc_elems n l).
Proof. cbn [w_arr renderR flat_map renderR_call]. apply app_nil_r. Qed.

Lemma rarr4 k l r st : floats k l -> k < 2 ^ 28 -> reads (r_arr 4 k) (renderR r (w_arr 4 l)) st st l.
Proof.
  intros [<- H] Hk. rewrite render_arr.
  apply reads_arr_id; [apply vec_small; [lia|exact Hk]|apply words4; exact H].
Qed.
Lemma rarr8 k l r st : doubles k l -> k < 2 ^ 28 -> reads (r_arr 8 k) (renderR r (w_arr 8 l)) st st l.
Proof.
  intros [<- H] Hk. rewrite render_arr.
  apply reads_arr_id; [apply vec_small; [lia|exact Hk]|apply words8; exact H].
Qed.
(** an array read at once that was written float by float *)
Lemma rarrf k l r st : floats k l -> k < 2 ^ 28 -> reads (r_arr 4 k) (renderR r (flat_map w_f32 l)) st st l.
Proof.
  intros [<- H] Hk. rewrite (enc_flat 4) by (intros; apply render_f32).
  rewrite <- (padz_enc 4) by first [reflexivity | apply vec_small; [lia|exact Hk]].
  apply reads_arr_id; [apply vec_small; [lia|exact Hk]|apply words4; exact H].
Qed.
Lemma rarrd l r st : vec_len l -> Forall word64 l -> reads (r_arr 8 (Zlen l)) (renderR r (flat_map w_f64 l)) st st l.
Proof.
  intros Hk H. rewrite (enc_flat 8) by (intros; apply render_f64).
  rewrite <- (padz_enc 8) by first [reflexivity | apply vec_small; [lia|exact Hk]].
  apply reads_arr_id; [apply vec_small; [lia|exact Hk]|apply words8; exact H].
Qed.
Lemma rarri l r st : vec_len l -> Forall int32 l -> reads (r_iarr (Zlen l)) (renderR r (flat_map w_i32 l)) st st l.
Proof.
  intros Hk H. unfold r_iarr. rewrite (enc_flat 4) by (intros; apply render_i32).
  replace l with (map s32 (map (fun z => z mod 256 ^ Z.of_nat 4) l)) at 3.
  - apply (reads_map _ (map s32)).
    rewrite <- (padz_enc 4) by first [reflexivity | apply vec_small; [lia|exact Hk]].
    apply reads_arr. apply vec_small; [lia|exact Hk].
  - rewrite map_map. apply (map_id_in _ int32); [|exact H].
    intros z Hz. change (256 ^ Z.of_nat 4) with two32. rewrite s32_mod. apply s32_id. exact Hz.
Qed.
Lemma rarri2 l r st : ints 2 l ->
  reads (r_iarr 2) (renderR r (w_i32 (nth 0 l 0) ++ w_i32 (nth 1 l 0))) st st l.
Proof.
  intros [Hl H]. pose proof (rarri l r st) as R. rewrite Hl in R.
  rewrite (len2 l Hl) in R at 3. cbn [flat_map] in R. rewrite app_nil_r in R.
  apply R; [unfold vec_len; lia|exact H].
Qed.
Lemma rarrf3 x y z r st : word32 x -> word32 y -> word32 z ->
  reads (r_arr 4 3) (renderR r (w_f32 x ++ w_f32 y ++ w_f32 z)) st st [x; y; z].
Proof.
  intros Hx Hy Hz. pose proof (rarrf 3 [x; y; z] r st) as R. cbn [flat_map] in R. rewrite app_nil_r in R.
  apply R; [split; [reflexivity|]|lia]. apply Forall_cons; [exact Hx|]. apply Forall_cons; [exact Hy|].
  apply Forall_cons; [exact Hz|apply Forall_nil].
Qed.

(** ** Loops *)

Lemma reads_repeat_map {A B} (m : RD B) (w : A -> list dcall) (g : A -> B) r l st :
  (forall x, In x l -> reads m (renderR r (w x)) st st (g x)) ->
  reads (r_repeat (length l) m) (renderR r (flat_map w l)) st st (map g l).
Proof.
  induction l as [|x l IH]; intros H; [apply reads_ret|].
  cbn [length r_repeat flat_map map]. eapply rb; [apply H; left; reflexivity|]. cbv beta.
  apply (reads_map _ (fun xs => g x :: xs)). apply IH. intros y Hy. apply H. right. exact Hy.
Qed.

Lemma rloop {A B} (m : RD B) (w : A -> list dcall) (g : A -> B) r l st :
  vec_len l -> (forall x, In x l -> reads m (renderR r (w x)) st st (g x)) ->
  reads (r_loop (Zlen l) m) (renderR r (flat_map w (upto l))) st st (map g l).
Proof.
  intros Hl H. rewrite upto_id by exact Hl. unfold r_loop, Zlen. rewrite Nat2Z.id.
  apply reads_repeat_map. exact H.
Qed.
Lemma rloop_id {A} (m : RD A) (w : A -> list dcall) (P : A -> Prop) r l st :
  vec_len l -> Forall P l -> (forall x, P x -> reads m (renderR r (w x)) st st x) ->
  reads (r_loop (Zlen l) m) (renderR r (flat_map w (upto l))) st st l.
Proof.
  intros Hl HP H. rewrite <- (map_id l) at 3. apply rloop; [exact Hl|].
  intros x Hx. apply H. rewrite Forall_forall in HP. apply HP. exact Hx.
Qed.
Lemma rsized {A B} (m : RD B) (w : A -> list dcall) (g : A -> B) r l st :
  vec_len l -> (forall x, In x l -> reads m (renderR r (w x)) st st (g x)) ->
  reads (r_sized (Zlen l) m) (renderR r (flat_map w (upto l))) st st (map g l).
Proof.
  intros Hl H. unfold r_sized. replace (Zlen l <? 0) with false by (pose proof (Zlen_nonneg l); lia).
  apply rloop; assumption.
Qed.
Lemma rsized_id {A} (m : RD A) (w : A -> list dcall) (P : A -> Prop) r l st :
  vec_len l -> Forall P l -> (forall x, P x -> reads m (renderR r (w x)) st st x) ->
  reads (r_sized (Zlen l) m) (renderR r (flat_map w (upto l))) st st l.
Proof.
  intros Hl HP H. unfold r_sized. replace (Zlen l <? 0) with false by (pose proof (Zlen_nonneg l); lia).
  apply (rloop_id m w P); assumption.
Qed.
(** the same for loops over all elements *)
Lemma rsized_full {A B} (m : RD B) (w : A -> list dcall) (g : A -> B) r l st :
  vec_len l -> (forall x, In x l -> reads m (renderR r (w x)) st st (g x)) ->
  reads (r_sized (Zlen l) m) (renderR r (flat_map w l)) st st (map g l).
Proof. intros Hl H. rewrite <- (upto_id l Hl) at 2. apply rsized; assumption. Qed.

Lemma rptr r all a st : rho_ok all r -> reads r_pointer_to (renderR r [DPtr a]) st st (ptrw r a).
Proof. apply reads_pointer. Qed.
Lemma rptrs r all l st : rho_ok all r -> vec_len l ->
  reads (r_sized (Zlen l) r_pointer_to) (renderR r (w_ptrs (upto l))) st st (map (ptrw r) l).
Proof. intros Hr Hl. apply rsized; [exact Hl|]. intros x _. apply (rptr r all). exact Hr. Qed.
Lemma rptrs_full r all l st : rho_ok all r -> vec_len l ->
  reads (r_sized (Zlen l) r_pointer_to) (renderR r (w_ptrs l)) st st (map (ptrw r) l).
Proof. intros Hr Hl. apply rsized_full; [exact Hl|]. intros x _. apply (rptr r all). exact Hr. Qed.

(** ** Conditional fields *)

Lemma rwhen {A} (b : bool) (m : RD A) d r w st a :
  reads m (renderR r w) st st a -> reads (r_when b m d) (renderR r (w_when b w)) st st (kept b a d).
Proof. intros H. destruct b; [exact H|apply reads_ret]. Qed.
Lemma rwhen_true {A} (m : RD A) d bs st st' a : reads m bs st st' a -> reads (r_when true m d) bs st st' a.
Proof. intros H. exact H. Qed.
Lemma rwhen_tag (b : bool) r all a na st : rho_ok all r ->
  reads (r_when b (r_pointed_at na) tt) (renderR r (w_when b [DTag a])) st (if b then tag_state r a na st else st) tt.
Proof. intros H. destruct b; [apply (reads_tag r all); exact H|apply reads_ret]. Qed.
Lemma rtag r all a na st : rho_ok all r ->
  reads (r_pointed_at na) (renderR r [DTag a]) st (tag_state r a na st) tt.
Proof. apply reads_tag. Qed.

Lemma rwhen2 {A B} (b : bool) (m : RD (A * B)) d1 d2 r w st a1 a2 :
  reads m (renderR r w) st st (a1, a2) ->
  reads (r_when b m (d1, d2)) (renderR r (w_when b w)) st st (kept b a1 d1, kept b a2 d2).
Proof. intros H. destruct b; [exact H|apply reads_ret]. Qed.

(** ** Tactics *)

Ltac cur :=
  repeat match goal with
         | |- context [vgt cur_vers ?a ?b] => change (vgt cur_vers a b) with true
         end;
  change (v00_08 cur_vers) with false; change (cur_vers =? ver 0 8) with false;
  change (negb (cur_vers <? ver 2 0)) with true;
  cbn [andb]; rewrite ?orb_false_r; cbv iota.

Ltac side := solve [assumption | lia | apply d2f_word; assumption | split; assumption ].

Ltac prim :=
  lazymatch goal with
  | |- reads (r_when true _ _) _ _ _ _ => apply rwhen_true; prim
  | |- reads r_i32 (renderR _ (w_i32 (cnt _))) _ _ _ => apply rcnt; side
  | |- reads r_i32 _ _ _ _ => apply ri32; side
  | |- reads r_f32 _ _ _ _ => apply rf32; side
  | |- reads r_u32 _ _ _ _ => apply ru32; side
  | |- reads r_string _ _ _ _ => apply rstr; side
  | |- reads r_pointer_to _ _ _ _ => eapply rptr; eassumption
  | |- reads (r_pointed_at _) _ _ _ _ => eapply rtag; eassumption
  | |- reads (r_arr 4 _) (renderR _ (w_arr 4 _)) _ _ _ => apply rarr4; side
  | |- reads (r_arr 8 _) (renderR _ (w_arr 8 _)) _ _ _ => apply rarr8; side
  | |- reads (r_arr 4 _) (renderR _ (flat_map w_f32 _)) _ _ _ => apply rarrf; side
  | |- reads (r_sized _ r_pointer_to) (renderR _ (w_ptrs (upto _))) _ _ _ => eapply rptrs; [eassumption|side]
  | |- reads (r_sized _ r_pointer_to) (renderR _ (w_ptrs _)) _ _ _ => eapply rptrs_full; [eassumption|side]
  | |- reads (r_when _ (r_pointed_at _) _) _ _ _ _ => eapply rwhen_tag; eassumption
  | |- reads (r_when _ (rbind _ _) _) _ _ _ _ => fail
  | |- reads (r_when _ _ _) (renderR _ (w_when _ _)) _ _ _ => apply rwhen; prim
  | |- reads (r_vec 4 []) _ _ _ _ => apply reads_vec; [apply vec31; side|apply vec_small; [lia|side]|apply words4; side|right; reflexivity]
  end.

Ltac st1 := lazymatch goal with
  | |- reads (rbind _ _) (renderR _ (_ ++ _)) _ _ _ => eapply rb; [prim|cbv beta]
  | |- reads (rbind _ _) (renderR _ _) _ _ _ => eapply rb_last; [prim|cbv beta]
  end.
Ltac rd := repeat st1.
Ltac oks H := unfold floats, doubles, ints in *; decompose [and] H; clear H.

(** ** One lemma per handler *)

Section Handlers.
Context (r : rho) (all : list dcall) (Hro : rho_ok all r).

Lemma reads_mcp a na o st : mcp_ok o ->
  reads (read_mcp cur_vers na) (renderR r (write_mcp a o)) st (tag_state r a na st)
    (map_refs_mcp (ptrw r) (stored_mcp o)).
Proof.
  intros H. unfold mcp_ok in H. destruct H as (H1 & H2 & H3 & H4 & H5 & H6 & [H7 H7'] & H8 & H9 & H10 & [H11 H11'] & [H12 H12'] & H13).
  unfold read_mcp, write_mcp. cur.
  destruct (all3 _ _ H7 H7') as (P1 & P2 & P3). destruct (all3 _ _ H11 H11') as (Q1 & Q2 & Q3).
  destruct (all3 _ _ H12 H12') as (S1 & S2 & S3).
  do 8 st1.
  set (rest := w_f32 (d2f (mc_mass o)) ++ _).
  replace (w_f32 (d2f (fst3 (mc_p o))) ++ w_f32 (d2f (snd3 (mc_p o))) ++ w_f32 (d2f (thd3 (mc_p o))) ++ rest)
    with ((w_f32 (d2f (fst3 (mc_p o))) ++ w_f32 (d2f (snd3 (mc_p o))) ++ w_f32 (d2f (thd3 (mc_p o)))) ++ rest)
    by (rewrite <- !app_assoc; reflexivity).
  eapply rb; [apply rarrf3; apply d2f_word; assumption|cbv beta; subst rest].
  do 2 st1. eapply rb.
  { apply rwhen2. eapply rb; [prim|cbv beta].
    eapply rb_last; [apply rwhen_true; apply (reads_map _ (map f2d)); apply rarrf3; apply d2f_word; assumption|].
    cbv beta. apply rret_nil. }
  cbv beta iota.
  eapply rb_last.
  { apply rwhen_true.
    set (rest := w_i32 _ ++ _).
    replace (w_f32 (fst3 (mc_spin o)) ++ w_f32 (snd3 (mc_spin o)) ++ w_f32 (thd3 (mc_spin o)) ++ rest)
      with ((w_f32 (fst3 (mc_spin o)) ++ w_f32 (snd3 (mc_spin o)) ++ w_f32 (thd3 (mc_spin o))) ++ rest)
      by (rewrite <- !app_assoc; reflexivity).
    eapply rb; [apply rarrf3; assumption|cbv beta; subst rest].
    eapply rb_last; [apply rarri2; exact H13|cbv beta]. apply rret_nil. }
  cbv beta iota. apply rret_eq; [|reflexivity].
  unfold map_refs_mcp, stored_mcp. cbn [mc_parents mc_pdg mc_gen mc_sim mc_vertex mc_time mc_p mc_mass mc_charge mc_endpoint mc_pend mc_spin mc_color mc_daughters map fst snd].
  unfold as_float. rewrite <- (len3 _ H12).
  rewrite (len3 _ H7) at 4. rewrite (len3 _ H11) at 4. reflexivity.
Qed.

Lemma rrep3 l st : floats 3 l -> reads (r_repeat 3 r_f32) (renderR r (w_arr 4 l)) st st l.
Proof.
  intros [Hl H]. rewrite render_arr. rewrite padz_enc by first [reflexivity | apply vec_small; [lia|unfold vec_len; lia]].
  rewrite <- (enc_flat 4 w_f32 l r) by (intros; apply render_f32).
  change 3%nat with (Z.to_nat 3). rewrite <- Hl. unfold Zlen. rewrite Nat2Z.id.
  rewrite <- (map_id l) at 3. apply reads_repeat_map. intros x Hx. apply rf32. rewrite Forall_forall in H. auto.
Qed.

Lemma reads_cont flag c st : cont_ok c ->
  reads (read_cont cur_vers flag) (renderR r (write_cont flag c)) st st (map_refs_cont (ptrw r) (stored_cont flag c)).
Proof.
  intros (H1 & H2 & H3 & H4 & H5). unfold read_cont, write_cont. cur. rd.
  destruct (bit_set flag CHBIT_STEP) eqn:E; cbn [w_when r_when].
  - eapply rb_last.
    { rd. eapply rb_last; [apply rrep3; exact H5|cbv beta; apply rret_nil]. }
    cbv beta. apply rret_eq; [|reflexivity]. unfold map_refs_cont, stored_cont.
    change (Z.testbit flag 28) with (bit_set flag CHBIT_STEP). rewrite E. reflexivity.
  - eapply rb_last; [apply rret_nil|]. cbv beta. apply rret_eq; [|reflexivity].
    unfold map_refs_cont, stored_cont.
    change (Z.testbit flag 28) with (bit_set flag CHBIT_STEP). rewrite E. reflexivity.
Qed.

Lemma reads_simcalhit flag a na o st : simcalhit_ok o ->
  reads (read_simcalhit cur_vers flag na) (renderR r (write_simcalhit flag a o)) st (tag_state r a na st)
    (map_refs_simcalhit (ptrw r) (stored_simcalhit flag o)).
Proof.
  intros (H1 & H2 & H3 & H4 & H5 & H6). unfold read_simcalhit, write_simcalhit. cur. rd.
  eapply rb; [|cbv beta].
  { apply rsized; [exact H5|]. intros c Hc. apply reads_cont. rewrite Forall_forall in H6. auto. }
  rd. apply rret_eq; [|reflexivity].
  unfold map_refs_simcalhit, stored_simcalhit. cbn [sc_id0 sc_id1 sc_energy sc_pos sc_cont].
  rewrite map_map. reflexivity.
Qed.

Lemma reads_rawcalhit flag a na o st : rawcalhit_ok o ->
  reads (read_rawcalhit cur_vers flag na) (renderR r (write_rawcalhit flag a o)) st
    (if negb (Z.testbit flag 28) then tag_state r a na st else st) (stored_rawcalhit flag o).
Proof.
  intros (H1 & H2 & H3 & H4). unfold read_rawcalhit, write_rawcalhit. cur. rd.
  apply rret_eq; reflexivity.
Qed.

Lemma reads_calhit flag a na o st : calhit_ok o ->
  reads (read_calhit cur_vers flag na) (renderR r (write_calhit flag a o)) st
    (if negb (Z.testbit flag 28) then tag_state r a na st else st)
    (map_refs_calhit (ptrw r) (stored_calhit flag o)).
Proof.
  intros (H1 & H2 & H3 & H4 & H5 & H6 & H7). unfold read_calhit, write_calhit. cur. rd.
  apply rret_eq; reflexivity.
Qed.

Lemma reads_simtrkhit flag a na o st : simtrkhit_ok o ->
  reads (read_simtrkhit cur_vers flag na) (renderR r (write_simtrkhit flag a o)) st (tag_state r a na st)
    (map_refs_simtrkhit (ptrw r) (stored_simtrkhit flag o)).
Proof.
  intros (H1 & H2 & H3 & H4 & H5 & H6 & H7 & H8). unfold read_simtrkhit, write_simtrkhit. cur. rd.
  eapply rb; [apply rwhen2; rd; apply rret_nil|cbv beta]. rd.
  apply rret_eq; reflexivity.
Qed.

Lemma reads_tpchit flag a na o st : tpchit_ok o ->
  reads (read_tpchit cur_vers flag na) (renderR r (write_tpchit flag a o)) st
    (if negb (Z.testbit flag 30) then tag_state r a na st else st) (stored_tpchit flag o).
Proof.
  intros (H1 & H2 & H3 & H4 & H5 & H6). unfold read_tpchit, write_tpchit. cur. rd.
  eapply rb; [apply rwhen|cbv beta].
  { eapply rb; [prim|cbv beta]. replace (Zlen (tp_raw o) <? 0) with false by (pose proof (Zlen_nonneg (tp_raw o)); lia).
    rewrite upto_id by exact H5. apply rarri; assumption. }
  rd. apply rret_eq; reflexivity.
Qed.

Lemma reads_trkraw flag a na o st : trkraw_ok o ->
  reads (read_trkraw flag na) (renderR r (write_trkraw flag a o)) st (tag_state r a na st) (stored_trkraw flag o).
Proof.
  intros (H1 & H2 & H3 & H4 & H5). unfold read_trkraw, write_trkraw. cur. rd.
  eapply rb; [apply reads_vec; [apply vec31; exact H4|apply vec_small; [lia|exact H4]|exact H5|right; reflexivity]|cbv beta].
  rd. apply rret_eq; reflexivity.
Qed.

Lemma reads_trkdata flag a na o st : trkdata_ok o ->
  reads (read_trkdata flag na) (renderR r (write_trkdata flag a o)) st (tag_state r a na st) (stored_trkdata flag o).
Proof.
  intros (H1 & H2 & H3 & H4 & H5). unfold read_trkdata, write_trkdata. cur. rd.
  apply rret_eq; reflexivity.
Qed.

Lemma reads_trkpulse flag a na o st : trkpulse_ok o ->
  reads (read_trkpulse cur_vers flag na) (renderR r (write_trkpulse flag a o)) st (tag_state r a na st)
    (map_refs_trkpulse (ptrw r) (stored_trkpulse flag o)).
Proof.
  intros (H1 & H2 & H3 & H4 & H5 & H6). unfold read_trkpulse, write_trkpulse. cur. rd.
  apply rret_eq; reflexivity.
Qed.

Lemma reads_trkhit flag a na o st : trkhit_ok o ->
  reads (read_trkhit cur_vers flag na) (renderR r (write_trkhit flag a o)) st (tag_state r a na st)
    (map_refs_trkhit (ptrw r) (stored_trkhit flag o)).
Proof.
  intros (H1 & H2 & H3 & H4 & H5 & H6 & H7 & H8 & H9 & H10). unfold read_trkhit, write_trkhit. cur. rd.
  apply rret_eq; reflexivity.
Qed.
Lemma reads_trkhitp flag a na o st : trkhitp_ok o ->
  reads (read_trkhitp cur_vers flag na) (renderR r (write_trkhitp flag a o)) st (tag_state r a na st)
    (map_refs_trkhitp (ptrw r) (stored_trkhitp flag o)).
Proof.
  intros (H1 & H2 & H3 & H4 & H5 & H6 & H7 & H8 & H9 & H10 & H11 & H12 & H13).
  unfold read_trkhitp, write_trkhitp. cur. rd. apply rret_eq; reflexivity.
Qed.
Lemma reads_trkhitz flag a na o st : trkhitz_ok o ->
  reads (read_trkhitz cur_vers flag na) (renderR r (write_trkhitz flag a o)) st (tag_state r a na st)
    (map_refs_trkhitz (ptrw r) (stored_trkhitz flag o)).
Proof.
  intros (H1 & H2 & H3 & H4 & H5 & H6 & H7 & H8 & H9 & H10 & H11 & H12).
  unfold read_trkhitz, write_trkhitz. cur. rd. apply rret_eq; reflexivity.
Qed.

Lemma reads_tstate t st : tstate_ok t -> reads (read_tstate cur_vers) (renderR r (write_tstate t)) st st t.
Proof.
  intros (H1 & H2 & H3 & H4 & H5 & H6 & H7 & H8). unfold read_tstate, write_tstate. cur. rd.
  apply rret_eq; [destruct t|]; reflexivity.
Qed.

Definition named_locs (l : list tstate) : list Z := filter (fun x => negb (x =? 0)) (map ts_loc l).
Lemma named_locs_app l1 l2 : named_locs (l1 ++ l2) = named_locs l1 ++ named_locs l2.
Proof. unfold named_locs. rewrite map_app, filter_app. reflexivity. Qed.

Lemma add_fresh_state l t : NoDup (named_locs (l ++ [t])) -> add_track_state l t = Ok (l ++ [t]).
Proof.
  intros H. unfold add_track_state. destruct (ts_loc t =? 0) eqn:E0; [reflexivity|].
  destruct (get_track_state l (ts_loc t)) as [t'|] eqn:Eg; [|reflexivity].
  exfalso. unfold get_track_state in Eg. apply find_some in Eg. destruct Eg as [Hin He].
  rewrite named_locs_app in H. unfold named_locs at 2 in H. cbn [map filter] in H. rewrite E0 in H. cbn [negb] in H.
  apply NoDup_remove_2 in H. apply H. rewrite app_nil_r. unfold named_locs. apply filter_In. split.
  - apply in_map_iff. exists t'. split; [lia|exact Hin].
  - rewrite E0. reflexivity.
Qed.

Lemma reads_tstates l acc st : Forall tstate_ok l -> NoDup (named_locs (acc ++ l)) ->
  reads (read_tstates cur_vers (length l) acc) (renderR r (flat_map write_tstate l)) st st (acc ++ l).
Proof.
  revert acc. induction l as [|t l IH]; intros acc H Hn.
  - rewrite app_nil_r. apply reads_ret.
  - inversion H as [|? ? Ht Hl]; subst. cbn [length read_tstates flat_map].
    eapply rb; [apply reads_tstate; exact Ht|]. cbv beta.
    assert (E : acc ++ t :: l = (acc ++ [t]) ++ l) by (rewrite <- app_assoc; reflexivity).
    rewrite E in *. rewrite add_fresh_state; [apply IH; assumption|].
    rewrite named_locs_app in Hn. revert Hn. generalize (named_locs l). intros k Hn.
    induction k as [|x k IHk] using rev_ind; [rewrite app_nil_r in Hn; exact Hn|].
    apply IHk. rewrite app_assoc in Hn. apply NoDup_remove_1 in Hn. rewrite app_nil_r in Hn. exact Hn.
Qed.

Lemma rints l st : vec_len l -> Forall int32 l ->
  reads (r_sized (Zlen l) r_i32) (renderR r (flat_map w_i32 (upto l))) st st l.
Proof. intros H1 H2. apply (rsized_id _ _ int32); [exact H1|exact H2|]. intros x. apply ri32. Qed.
Lemma rfloats l st : vec_len l -> Forall word32 l ->
  reads (r_sized (Zlen l) r_f32) (renderR r (flat_map w_f32 (upto l))) st st l.
Proof. intros H1 H2. apply (rsized_id _ _ word32); [exact H1|exact H2|]. intros x. apply rf32. Qed.
Lemma rfloats_loop l st : vec_len l -> Forall word32 l ->
  reads (r_loop (Zlen l) r_f32) (renderR r (flat_map w_f32 (upto l))) st st l.
Proof. intros H1 H2. apply (rloop_id _ _ word32); [exact H1|exact H2|]. intros x. apply rf32. Qed.

Lemma reads_track flag a na o st : track_ok o ->
  reads (read_track cur_vers flag na) (renderR r (write_track flag a o)) st (tag_state r a na st)
    (map_refs_track (ptrw r) (stored_track flag o)).
Proof.
  intros (H1 & H2 & H3 & H4 & H5 & H6 & H7 & H8 & H9 & H10 & H11 & H12 & H13).
  unfold read_track, write_track. cur. rd.
  eapply rb; [unfold Zlen; rewrite Nat2Z.id; apply (reads_tstates _ []); [exact H3|exact H4]|cbv beta].
  rd. eapply rb; [apply rints; assumption|cbv beta]. rd.
  eapply rb; [apply rwhen; rd; prim|cbv beta]. rd. apply rret_eq; [|reflexivity].
  unfold map_refs_track, stored_track. cbn [tr_hits tr_type tr_states tr_chi2 tr_ndf tr_dedx tr_dedxerr tr_radius tr_hitnums tr_tracks app].
  change (Z.testbit flag 31) with (bit_set flag TRBIT_HITS). destruct (bit_set flag TRBIT_HITS); reflexivity.
Qed.

Lemma reads_pid p st : pid_ok p -> reads read_pid (renderR r (write_pid p)) st st p.
Proof.
  intros (H1 & H2 & H3 & H4 & H5 & H6). unfold read_pid, write_pid. rd.
  eapply rb_last; [apply rfloats_loop; assumption|cbv beta]. apply rret_eq; [destruct p|]; reflexivity.
Qed.

Lemma reads_cluster srt flag a na o st w : cluster_ok o -> cluster_fits flag o -> write_cluster flag a o = Ok w ->
  reads (read_cluster srt cur_vers flag na) (renderR r w) st (tag_state r a na st)
    (map_refs_cluster (ptrw r)
       (let s := stored_cluster flag o in
        mkCL (cl_type s) (cl_energy s) (cl_energyerr s) (cl_pos s) (cl_errpos s) (cl_theta s) (cl_phi s)
             (cl_errdir s) (cl_shape s) (add_pids srt pi_like (cl_pids s)) (cl_clusters s) (cl_hits s)
             (cl_weights s) (cl_energies s))).
Proof.
  intros (H1 & H2 & H3 & H4 & H5 & H6 & H7 & H8 & H9 & H10 & H11 & H12 & H13 & H14 & H15 & H16 & H17) Hf Hw.
  unfold write_cluster in Hw.
  unfold bind in Hw. destruct (if bit_set flag CLBIT_HITS then write_hits o else Ok []) as [hits| |] eqn:Eh; try discriminate.
  apply Ok_inj in Hw. subst w.
  unfold read_cluster. cur. rd.
  eapply rb; [unfold r_sized_arr; replace (Zlen (cl_shape o) <? 0) with false by (pose proof (Zlen_nonneg (cl_shape o)); lia);
    apply rarrf; [split; [reflexivity|exact H10]|exact H9]|cbv beta].
  rewrite app_assoc. eapply rb; [eapply rb; [prim|cbv beta]; apply (rloop_id _ _ pid_ok); [exact H11|exact H12|intros x; apply reads_pid]|cbv beta].
  rd.
  eapply rb with (st1 := st) (a := map (fun hw => (ptrw r (fst hw), snd hw))
       (kept (Z.testbit flag 31) (combine (cl_hits o) (cl_weights o)) [])).
  - unfold cluster_fits in Hf. change (Z.testbit flag 31) with (bit_set flag CLBIT_HITS) in *.
    destruct (bit_set flag CLBIT_HITS) eqn:Eb; cbn [r_when kept].
    + specialize (Hf eq_refl). unfold write_hits in Eh.
      rewrite cnt_len in Eh by exact H14. unfold Zlen in Eh, Hf. rewrite Nat2Z.id in Eh.
      replace (length (cl_weights o)) with (length (cl_hits o)) in Eh by lia.
      rewrite Nat.ltb_irrefl in Eh. apply Ok_inj in Eh. subst hits.
      rewrite (firstn_all (cl_hits o)).
      replace (length (cl_hits o)) with (length (cl_weights o)) by lia. rewrite firstn_all.
      assert (Ec : Zlen (combine (cl_hits o) (cl_weights o)) = Zlen (cl_hits o)).
      { unfold Zlen. rewrite combine_length. lia. }
      replace (Z.of_nat (length (cl_weights o))) with (Zlen (cl_hits o)) by (unfold Zlen; lia).
      eapply rb; [apply ri32; unfold int32; unfold vec_len in H14; pose proof (Zlen_nonneg (cl_hits o)); lia|cbv beta].
      rewrite <- Ec. apply rsized_full; [unfold vec_len in *; lia|].
      intros [x y] Hxy. cbn [fst snd].
      eapply rb; [prim|cbv beta]. eapply rb_last; [apply rf32|cbv beta; apply rret_nil].
      apply in_combine_r in Hxy. rewrite Forall_forall in H15. auto.
    + apply Ok_inj in Eh. subst hits. apply rret_nil.
  - cbv beta. rd. eapply rb; [apply rfloats; assumption|cbv beta]. rd. apply rret_eq; [|reflexivity].
    unfold map_refs_cluster, stored_cluster. cbv zeta. cbn [cl_type cl_energy cl_energyerr cl_pos cl_errpos cl_theta cl_phi cl_errdir cl_shape cl_pids cl_clusters cl_hits cl_weights cl_energies].
    unfold cluster_fits in Hf. destruct (Z.testbit flag 31); cbn [kept]; [|reflexivity].
    specialize (Hf eq_refl). rewrite !map_map. cbn [fst snd].
    f_equal.
    + rewrite <- map_map. f_equal. clear - Hf. revert Hf. unfold Zlen. generalize (cl_weights o).
      induction (cl_hits o) as [|h t IH]; intros [|w ws] Hf; cbn in *; try lia; try reflexivity.
      f_equal. apply IH. lia.
    + clear - Hf. revert Hf. unfold Zlen. generalize (cl_hits o).
      induction (cl_weights o) as [|h t IH]; intros [|w ws] Hf; cbn in *; try lia; try reflexivity.
      f_equal. apply IH. lia.
Qed.

(** the particle ids of a ReconstructedParticle: created in turn *)
Lemma tag_one (new : addr -> addr) a st : tag_state r a (new a) st = (tags_state r new [DTag a] (fst st), snd st).
Proof. reflexivity. Qed.

Lemma reads_rpids new l : forall st, Forall (fun ap => pid_ok (snd ap)) l ->
  (forall i b, nth_error (map fst l) i = Some b -> new b = snd st + Z.of_nat i) ->
  reads (r_repeat (length l) read_rpid) (renderR r (flat_map write_rpid l)) st
    (tags_state r new (flat_map write_rpid l) (fst st), snd st + Zlen l)
    (map (fun ap => (new (fst ap), snd ap)) l).
Proof.
  induction l as [|[b p] l IH]; intros st Hok Hn.
  - cbn [length r_repeat flat_map map]. unfold tags_state. cbn [tags flat_map fold_left].
    replace (snd st + Zlen []) with (snd st) by (unfold Zlen; cbn; lia).
    destruct st. apply reads_ret.
  - inversion Hok as [|? ? Hp Hl]; subst. cbn [snd] in Hp.
    cbn [length r_repeat flat_map map]. rewrite tags_state_app.
    pose proof (Hn O b eq_refl) as Hb. rewrite Z.add_0_r in Hb.
    eapply rb with (a := (new b, p)) (st1 := (tags_state r new (write_rpid (b, p)) (fst st), snd st + 1)).
    + unfold read_rpid, write_rpid. cbn [fst snd].
      eapply rb_none; [apply reads_new|]. cbv beta. rewrite <- Hb.
      eapply rb; [apply reads_pid; exact Hp|cbv beta].
      eapply rb_last; [eapply rtag; exact Hro|cbv beta]. apply rret_eq; [reflexivity|].
      rewrite tag_one. cbn [fst snd]. rewrite tags_state_app. f_equal.
      f_equal. unfold tags_state, write_pid. rewrite !tags_app.
      replace (tags (flat_map w_f32 (upto (pi_par p)))) with (@nil addr); [reflexivity|].
      induction (upto (pi_par p)); [reflexivity|assumption].
    + cbv beta. cbn [fst snd]. apply (reads_map _ (fun xs => (new b, p) :: xs)).
      replace (snd st + Zlen ((b, p) :: l)) with (snd st + 1 + Zlen l) by (rewrite Zlen_cons; lia).
      apply (IH (tags_state r new (write_rpid (b, p)) (fst st), snd st + 1)); [exact Hl|].
      intros i c Hc. cbn [snd]. specialize (Hn (S i) c Hc). lia.
Qed.

Lemma reads_recp srt new a na o st : recp_ok o -> new a = na ->
  (forall i b, nth_error (map fst (rp_pids o)) i = Some b -> new b = snd st + Z.of_nat i) ->
  reads (read_recp srt cur_vers na) (renderR r (write_recp a o)) st
    (tags_state r new (flat_map write_rpid (rp_pids o) ++ [DTag a]) (fst st), snd st + Zlen (rp_pids o))
    (map_refs_recp (ptrw r)
      (mkRP (rp_type o) (map as_float (rp_p o)) (as_float (rp_energy o)) (rp_cov o) (as_float (rp_mass o))
        (rp_charge o) (rp_ref o)
        (add_pids srt (fun ap : addr * pid => pi_like (snd ap)) (map (fun ap => (new (fst ap), snd ap)) (rp_pids o)))
        (rp_used o) (rp_good o) (rp_parts o) (rp_tracks o) (rp_clusters o) (rp_sv o))).
Proof.
  intros (H1 & [H2 H2'] & H3 & H4 & H5 & H6 & H7 & H8 & H9 & H10 & H11 & H12 & H13) Ha Hn.
  destruct (all3 _ _ H2 H2') as (P1 & P2 & P3).
  unfold read_recp, write_recp. cur. st1.
  set (rest := w_f32 (d2f (rp_energy o)) ++ _).
  replace (w_f32 (d2f (fst3 (rp_p o))) ++ w_f32 (d2f (snd3 (rp_p o))) ++ w_f32 (d2f (thd3 (rp_p o))) ++ rest)
    with ((w_f32 (d2f (fst3 (rp_p o))) ++ w_f32 (d2f (snd3 (rp_p o))) ++ w_f32 (d2f (thd3 (rp_p o)))) ++ rest)
    by (rewrite <- !app_assoc; reflexivity).
  eapply rb; [apply rarrf3; apply d2f_word; assumption|cbv beta; subst rest].
  rd.
  eapply rb; [rewrite upto_id by exact H8; unfold r_loop, Zlen; rewrite Nat2Z.id; apply (reads_rpids new); assumption|cbv beta].
  rd. apply rret_eq.
  - unfold map_refs_recp. cbn [rp_type rp_p rp_energy rp_cov rp_mass rp_charge rp_ref rp_pids rp_used rp_good rp_parts rp_tracks rp_clusters rp_sv].
    rewrite (len3 _ H2) at 4. reflexivity.
  - rewrite <- Ha. rewrite tag_one. cbn [fst snd]. rewrite tags_state_app. reflexivity.
Qed.

Lemma reads_lcrel flag o st : word32 (re_weight o) ->
  reads (read_lcrel flag) (renderR r (write_lcrel flag o)) st st (map_refs_lcrel (ptrw r) (stored_lcrel flag o)).
Proof. intros H. unfold read_lcrel, write_lcrel. rd. apply rret_eq; reflexivity. Qed.

Lemma index_of_nth s l : In s l -> 0 <= index_of s l < Zlen l /\ nth (Z.to_nat (index_of s l)) l [] = s.
Proof.
  induction l as [|x l IH]; intros H; [destruct H|]. cbn [index_of]. rewrite Zlen_cons.
  pose proof (Zlen_nonneg l). destruct (bytes_eqb s x) eqn:E.
  - apply bytes_eqb_eq in E. subst. split; [lia|reflexivity].
  - destruct H as [->|H]; [rewrite bytes_eqb_refl in E; discriminate|]. destruct (IH H) as [H1 H2].
    split; [lia|]. rewrite Z2Nat.inj_add by lia. cbn. exact H2.
Qed.

Lemma reads_vertex algs a na o st : vertex_ok o -> In (vx_type o) algs -> vec_len algs ->
  reads (read_vertex algs na) (renderR r (write_vertex algs a o)) st (tag_state r a na st)
    (map_refs_vertex (ptrw r) (stored_vertex o)).
Proof.
  intros (H1 & H2 & H3 & H4 & H5 & H6 & H7) Hin Hal.
  destruct (index_of_nth _ _ Hin) as [Hi He].
  unfold read_vertex, write_vertex.
  eapply rb with (a := if vx_primary o =? 0 then 0 else 16777216).
  { replace (renderR r (w_i8 (if vx_primary o =? 0 then 0 else 1)))
      with (be 4 (if vx_primary o =? 0 then 0 else 16777216)) by (destruct (vx_primary o =? 0); reflexivity).
    apply reads_i32. destruct (vx_primary o =? 0); split; reflexivity || discriminate. }
  cbv beta.
  eapply rb; [apply ri32; unfold vec_len in Hal; unfold int32; lia|cbv beta].
  rd. eapply rb; [apply rfloats_loop; assumption|cbv beta]. rd. apply rret_eq; [|reflexivity].
  unfold imr_get. replace (index_of (vx_type o) algs <? 0) with false by lia. rewrite He. reflexivity.
Qed.

Lemma reads_lcvec {V} (wv : V -> list dcall) (rv : RD V) (P : V -> Prop) a na l st :
  (forall x s, P x -> reads rv (renderR r (wv x)) s s x) -> vec_len l -> Forall P l ->
  reads (read_lcvec rv cur_vers na) (renderR r (write_lcvec wv a l)) st (tag_state r a na st) l.
Proof.
  intros H H1 H2. unfold read_lcvec, write_lcvec. cur. rd.
  eapply rb; [apply (rsized_id _ _ P); [exact H1|exact H2|intros x; apply H]|cbv beta].
  rd. apply rret_eq; reflexivity.
Qed.

Lemma go_vals_all wv l : go_vals wv (Zlen l) l = Ok (flat_map wv l).
Proof.
  unfold go_vals, Zlen. rewrite Nat2Z.id, Nat.ltb_irrefl, firstn_all. reflexivity.
Qed.
Lemma go_sizes_ok o : genobj_ok o -> go_sizes o = genobj_sizes o.
Proof.
  intros (H1 & H2 & H3 & H4 & H5 & H6). unfold go_sizes, genobj_sizes. rewrite !cnt_len by assumption. reflexivity.
Qed.
Lemma rsizes o st : genobj_ok o -> reads r_sizes (renderR r (w_sizes (genobj_sizes o))) st st (genobj_sizes o).
Proof.
  intros (H1 & H2 & H3 & H4 & H5 & H6). unfold r_sizes, w_sizes, genobj_sizes.
  assert (R : forall A (l : list A), vec_len l -> int32 (Zlen l)).
  { intros A l Hl. unfold vec_len, int32 in *. pose proof (Zlen_nonneg l). lia. }
  eapply rb; [apply ri32; apply R; assumption|cbv beta].
  eapply rb; [apply ri32; apply R; assumption|cbv beta].
  eapply rb_last; [apply ri32; apply R; assumption|cbv beta]. apply rret_nil.
Qed.

Lemma reads_genobj sizes a na o st w : genobj_ok o ->
  match sizes with Some s => genobj_sizes o = s | None => True end ->
  write_genobj sizes a o = Ok w ->
  reads (read_genobj sizes na) (renderR r w) st (tag_state r a na st)
    (stored_genobj (match sizes with Some _ => true | None => false end) o).
Proof.
  intros Hok Hs Hw. destruct Hok as (H1 & H2 & H3 & H4 & H5 & H6).
  assert (Hok : genobj_ok o) by (repeat split; assumption).
  assert (E : match sizes with Some s => s | None => go_sizes o end = genobj_sizes o)
    by (destruct sizes; [symmetry; exact Hs|apply go_sizes_ok; exact Hok]).
  unfold write_genobj in Hw. rewrite E in Hw. cbv zeta in Hw. unfold genobj_sizes in Hw.
  rewrite !go_vals_all in Hw. cbn [bind] in Hw. apply Ok_inj in Hw. subst w.
  unfold read_genobj.
  eapply rb with (a := genobj_sizes o) (st1 := st).
  { destruct sizes as [s|]; [rewrite <- Hs; apply rret_nil|].
    change (Zlen (go_int o), Zlen (go_flt o), Zlen (go_dbl o)) with (genobj_sizes o). apply rsizes. exact Hok. }
  cbv beta. unfold genobj_sizes.
  replace ((Zlen (go_int o) <? 0) || (Zlen (go_flt o) <? 0) || (Zlen (go_dbl o) <? 0)) with false
    by (pose proof (Zlen_nonneg (go_int o)); pose proof (Zlen_nonneg (go_flt o)); pose proof (Zlen_nonneg (go_dbl o)); lia).
  eapply rb; [apply rarri; assumption|cbv beta].
  eapply rb; [apply rarrf; [split; [reflexivity|assumption]|assumption]|cbv beta].
  eapply rb; [apply rarrd; assumption|cbv beta].
  rd. apply rret_eq; reflexivity.
Qed.
End Handlers.

(** * Untrusted input: what can go wrong in the readers of sio *)

From Verif Require Import Bytes SioModel SioProofs InputSpec.

Lemma sub_split (b : bytes) (p n : Z) : 0 <= p -> 0 <= n -> p + n <= Zlen b ->
  exists pre post, b = pre ++ sub b p n ++ post /\ Zlen pre = p.
Proof.
  intros Hp Hn H. unfold Zlen in H.
  exists (firstn (Z.to_nat p) b), (skipn (Z.to_nat n) (skipn (Z.to_nat p) b)). split.
  - unfold sub. rewrite firstn_skipn. rewrite firstn_skipn. reflexivity.
  - unfold Zlen. rewrite firstn_length. lia.
Qed.

Lemma sub_len (b : bytes) (p n : Z) : 0 <= p -> 0 <= n -> p + n <= Zlen b -> length (sub b p n) = Z.to_nat n.
Proof.
  intros Hp Hn H. unfold Zlen in H. unfold sub. rewrite firstn_length, skipn_length. lia.
Qed.

Lemma sub_word (b : bytes) (p : Z) : 0 <= p -> p + 4 <= Zlen b -> word_in b p (unbe (sub b p 4)).
Proof.
  intros Hp H. destruct (sub_split b p 4) as (pre & post & E & L); try lia.
  exists pre, (sub b p 4), post. repeat split; auto. apply sub_len; lia.
Qed.

Lemma word_part (sp b : bytes) (pre post : bytes) p n :
  b = pre ++ sp ++ post -> word_in sp p n -> word_in b (Zlen pre + p) n.
Proof.
  intros E (a & w & c & E' & L & Lw & En). subst sp b.
  exists (pre ++ a), w, (c ++ post). rewrite <- !app_assoc. repeat split; auto.
  unfold Zlen in *. rewrite app_length. lia.
Qed.

Lemma overlong_part size sp b : part_of sp b -> overlong size sp -> overlong size b.
Proof.
  intros (pre & post & E) (p & n & W & H). exists (Zlen pre + p), n. split; auto.
  eapply word_part; eauto.
Qed.

Lemma padlen_small n : 0 <= n < 4294967293 -> n <= padlen n.
Proof.
  intros H. rewrite padlen_pad4 by (unfold two32; lia). apply pad4_ge.
Qed.

(** ** Computations on the read device *)

(** [sf C B m Q]: on a device with the contents [B] the computation [m] has undefined behaviour
    only if [C], and if it has a result, it fulfils [Q], the contents are still the same and only
    addresses not yet used were taken *)
Definition sf (C : Prop) (B : bytes) {A} (m : RD A) (Q : A -> Prop) : Prop :=
  forall d, r_buf d = B -> 0 <= r_cur d ->
  match m d with
  | Ok (a, d') => r_buf d' = B /\ 0 <= r_cur d' /\ r_next d <= r_next d' /\ Q a
  | Throw _ => True
  | UB _ => C
  end.

Section Safe.
Context (C : Prop) (B : bytes).

Lemma sf_weak {A} (m : RD A) (Q Q' : A -> Prop) : sf C B m Q -> (forall a, Q a -> Q' a) -> sf C B m Q'.
Proof.
  intros H I d E0 E1. specialize (H d E0 E1). destruct (m d) as [[a d']| |]; auto.
  destruct H as (H1 & H2 & HN & H3). auto.
Qed.

Lemma sf_ret {A} (a : A) (Q : A -> Prop) : Q a -> sf C B (rret a) Q.
Proof. intros H d E0 E1. cbn. repeat split; auto; lia. Qed.
Lemma sf_throw {A} e (Q : A -> Prop) : sf C B (rthrow e) Q.
Proof. intros d E0 E1. cbn. exact Logic.I. Qed.
Lemma sf_bind {A D} (m : RD A) (f : A -> RD D) Q R :
  sf C B m Q -> (forall a, Q a -> sf C B (f a) R) -> sf C B (rbind m f) R.
Proof.
  intros H I d E0 E1. unfold rbind. specialize (H d E0 E1).
  destruct (m d) as [[a d']| |]; auto. destruct H as (H1 & H2 & HN & H3). specialize (I a H3 d' H1 H2).
  destruct (f a d') as [[b d2]| |]; auto. destruct I as (I1 & I2 & IN & I3). repeat split; auto; lia.
Qed.
Lemma padlen_nonneg n : 0 <= padlen n.
Proof. unfold padlen. apply Z.land_nonneg. right. lia. Qed.

Lemma sf_data n : n < 4294967293 -> 0 <= n -> sf C B (r_data n) (fun bs => Zlen bs = n /\ part_of bs B).
Proof.
  intros H H0 d E0 E1. unfold r_data, api_read. rewrite E0.
  pose proof (padlen_small n) as P. pose proof (padlen_nonneg n) as PN.
  destruct (Z.ltb_spec (Zlen B) (r_cur d + padlen n)); auto.
  destruct (Z.ltb_spec (Zlen B) (r_cur d + n)); [lia|]. cbn.
  repeat split; try lia.
  - unfold Zlen. rewrite sub_len by lia. lia.
  - destruct (sub_split B (r_cur d) n) as (pre & post & E & _); try lia. exists pre, post. auto.
Qed.
Lemma sf_data_c n : (4294967293 <= n -> C) -> 0 <= n -> sf C B (r_data n) (fun _ => True).
Proof.
  intros H H0. destruct (Z_lt_le_dec n 4294967293) as [L|L].
  - eapply sf_weak; [apply sf_data; auto|auto].
  - intros d E0 E1. unfold r_data, api_read. rewrite E0. pose proof (padlen_nonneg n) as PN.
    destruct (Zlen B <? r_cur d + padlen n); auto.
    destruct (Zlen B <? r_cur d + n); auto. cbn. repeat split; lia.
Qed.
(** every word comes from the contents *)
Definition from (n : Z) : Prop := exists p, word_in B p n.
Lemma sf_word : sf C B (r_data 4) (fun bs => from (unbe bs) /\ length bs = 4%nat).
Proof.
  eapply sf_weak; [apply sf_data; lia|]. cbn. intros bs (L & pre & post & E).
  assert (length bs = 4%nat) by (unfold Zlen in L; lia). split; auto.
  exists (Zlen pre). exists pre, bs, post. auto.
Qed.
Lemma sf_u32 : sf C B r_u32 from.
Proof. eapply sf_bind; [apply sf_word|]. intros bs [H _]. apply sf_ret. exact H. Qed.
Lemma s32_pos n : 0 <= n < two32 -> 0 <= s32 n -> s32 n = n /\ n < 2147483648.
Proof.
  intros R P. pose proof (s32_range (s32 n)) as _. unfold s32 in *. rewrite Z.mod_small in * by exact R.
  cbv zeta in *. destruct (Z.ltb_spec n two31) as [L|L].
  - split; [reflexivity|exact L].
  - exfalso. lia.
Qed.
Lemma sf_i32 : sf C B r_i32 (fun n => 0 <= n -> n < 2147483648 /\ from n).
Proof.
  eapply sf_bind; [apply sf_word|]. intros bs [H L]. apply sf_ret. intros P.
  pose proof (unbe_range bs) as R. rewrite L in R. 
  destruct (s32_pos (unbe bs) R P) as [E Q]. rewrite E. split; [exact Q|exact H].
Qed.
Lemma sf_any {A} (m : RD A) Q : sf C B m Q -> sf C B m (fun _ => True).
Proof. intros H. eapply sf_weak; eauto. Qed.
Lemma sf_i32' : sf C B r_i32 (fun _ => True).
Proof. eapply sf_any, sf_i32. Qed.
Lemma sf_u32' : sf C B r_u32 (fun _ => True).
Proof. eapply sf_any, sf_u32. Qed.
Lemma sf_fixed n : 0 <= n < 4294967293 -> sf C B (r_data n) (fun _ => True).
Proof. intros H. eapply sf_any, sf_data; lia. Qed.
Lemma sf_f32 : sf C B r_f32 (fun _ => True).
Proof. eapply sf_bind; [apply sf_fixed; lia|]. intros. apply sf_ret. exact Logic.I. Qed.
Lemma sf_f64 : sf C B r_f64 (fun _ => True).
Proof. eapply sf_bind; [apply sf_fixed; lia|]. intros. apply sf_ret. exact Logic.I. Qed.
Lemma sf_i64 : sf C B r_i64 (fun _ => True).
Proof. eapply sf_bind; [apply sf_fixed; lia|]. intros. apply sf_ret. exact Logic.I. Qed.
Lemma sf_i16 : sf C B r_i16 (fun _ => True).
Proof. eapply sf_bind; [apply sf_fixed; lia|]. intros. apply sf_ret. exact Logic.I. Qed.
Lemma sf_u8 : sf C B r_u8 (fun _ => True).
Proof. eapply sf_bind; [apply sf_fixed; lia|]. intros. apply sf_ret. exact Logic.I. Qed.
Lemma sf_arr size n : 0 <= Z.of_nat size * n < 4294967293 -> sf C B (r_arr size n) (fun _ => True).
Proof. intros H. eapply sf_bind; [apply sf_fixed; lia|]. intros. apply sf_ret. exact Logic.I. Qed.
Lemma sf_arr_c size n : (4294967293 <= Z.of_nat size * n -> C) -> 0 <= n ->
  sf C B (r_arr size n) (fun _ => True).
Proof. intros H H0. eapply sf_bind; [apply sf_data_c; [auto|lia]|]. intros. apply sf_ret. exact Logic.I. Qed.
Lemma sf_string : sf C B r_string (fun _ => True).
Proof.
  eapply sf_bind; [apply sf_i32|]. cbn. intros n H.
  destruct (Z.ltb_spec n 0); [apply sf_throw|]. destruct H; [lia|]. apply sf_fixed. lia.
Qed.
Lemma sf_repeat {A} n (m : RD A) : sf C B m (fun _ => True) -> sf C B (r_repeat n m) (fun _ => True).
Proof.
  intros H. induction n as [|n IH]; cbn [r_repeat]; [apply sf_ret; exact Logic.I|].
  eapply sf_bind; [exact H|]. intros x _. eapply sf_bind; [exact IH|]. intros. apply sf_ret. exact Logic.I.
Qed.
Lemma sf_pointed_at a : sf C B (r_pointed_at a) (fun _ => True).
Proof.
  intros d E0 E1. unfold r_pointed_at. pose proof (sf_u32 d E0 E1) as H.
  destruct (r_u32 d) as [[m d']| |]; auto. destruct H as (H1 & H2 & HN & _).
  destruct (m =? 4294967295); cbn; auto.
Qed.
Lemma sf_new : sf C B r_new (fun _ => True).
Proof. intros d E0 E1. cbn. repeat split; auto; lia. Qed.
Lemma sf_when_ {A} (b : bool) (m m' : RD A) Q : sf C B m Q -> sf C B m' Q -> sf C B (if b then m else m') Q.
Proof. destruct b; auto. Qed.
End Safe.

(** ** Records *)

(** the number of bytes a stream returns *)
Lemma s_read_len s n bs s' : 0 <= s_pos s -> 0 <= n -> s_read s n = (bs, s') -> Zlen bs <= n.
Proof.
  intros Hp Hn. unfold s_read, s_avail. destruct (negb (s_good s)).
  { intros E. injection E as <- <-. cbn. lia. }
  destruct (Z.leb_spec n (Z.max 0 (Zlen (s_data s) - s_pos s))) as [L|L]; intros E; injection E as <- <-;
    unfold Zlen in *; unfold sub; rewrite firstn_length, skipn_length; lia.
Qed.

(** ** Blocks *)

Lemma step_u32 d : 0 <= r_cur d ->
  match r_u32 d with
  | Ok (w, d') => word_in (r_buf d) (r_cur d) w /\ d' = mkR (r_buf d) (r_cur d + 4) (r_at d) (r_next d)
  | Throw _ => True
  | UB _ => False
  end.
Proof.
  intros H. unfold r_u32, rbind, r_data, api_read.
  change (padlen 4) with 4. 
  destruct (Z.ltb_spec (Zlen (r_buf d)) (r_cur d + 4)); auto. cbn. split; [|reflexivity].
  apply sub_word; lia.
Qed.

Lemma extract_cause buf index : 0 <= index ->
  match extract_block buf index with
  | Ok (info, sp) => exists len nl, block_at buf index len (bi_version info) nl /\
                     bi_end info = index + len /\ 0 <= len /\ index + len <= Zlen buf /\
                     part_of sp buf /\ 0 <= bi_hlen info /\ block_named buf index (bi_name info)
  | Throw _ => True
  | UB k => k = UBOutOfBounds /\ long_name buf
  end.
Proof.
  intros Hi. unfold extract_block.
  destruct (Z.leb_spec (Zlen buf) index) as [L|L]; auto.
  set (b := sub buf index (Zlen buf - index)).
  destruct (sub_split buf index (Zlen buf - index)) as (pre & post & E & Lp); try lia. fold b in E.
  assert (Lb : Zlen b = Zlen buf - index).
  { unfold Zlen, b. rewrite sub_len by lia. rewrite Z2Nat.id by lia. reflexivity. }
  unfold rbind at 1. pose proof (step_u32 (mkR b 0 [] 1)) as S1. cbn [r_cur r_buf r_at r_next] in S1.
  specialize (S1 ltac:(lia)). destruct (r_u32 (mkR b 0 [] 1)) as [[len d1]| |]; auto; [|contradiction].
  destruct S1 as [W1 ->].
  unfold rbind at 1. pose proof (step_u32 (mkR b (0 + 4) [] 1)) as S2. cbn [r_cur r_buf r_at r_next] in S2.
  specialize (S2 ltac:(lia)). destruct (r_u32 (mkR b (0 + 4) [] 1)) as [[mk d2]| |]; auto; [|contradiction].
  destruct S2 as [W2 ->].
  destruct (Z.eqb_spec mk block_marker) as [Em|Em]; cbn [negb]; [|exact Logic.I].
  unfold rbind at 1. pose proof (step_u32 (mkR b (0 + 4 + 4) [] 1)) as S3. cbn [r_cur r_buf r_at r_next] in S3.
  specialize (S3 ltac:(lia)). destruct (r_u32 (mkR b (0 + 4 + 4) [] 1)) as [[vv d3]| |]; auto; [|contradiction].
  destruct S3 as [W3 ->].
  unfold rbind at 1. pose proof (step_u32 (mkR b (0 + 4 + 4 + 4) [] 1)) as S4. cbn [r_cur r_buf r_at r_next] in S4.
  specialize (S4 ltac:(lia)). destruct (r_u32 (mkR b (0 + 4 + 4 + 4) [] 1)) as [[nl d4]| |]; auto; [|contradiction].
  destruct S4 as [W4 ->].
  assert (BA : block_at buf index len vv nl).
  { pose proof (word_part _ _ _ _ _ _ E W1) as V1. pose proof (word_part _ _ _ _ _ _ E W2) as V2.
    pose proof (word_part _ _ _ _ _ _ E W3) as V3. pose proof (word_part _ _ _ _ _ _ E W4) as V4.
    rewrite Lp in *. rewrite Em in V2. constructor.
    - replace index with (index + 0) by lia. exact V1.
    - exact V2.
    - replace (index + 8) with (index + (0 + 4 + 4)) by lia. exact V3.
    - replace (index + 12) with (index + (0 + 4 + 4 + 4)) by lia. exact V4. }
  assert (Rn : 0 <= nl).
  { destruct W4 as (x & w & z & _ & _ & _ & En). subst nl. apply unbe_range. }
  assert (Rl : 0 <= len).
  { destruct W1 as (x & w & z & _ & _ & _ & En). subst len. apply unbe_range. }
  unfold rbind. pose proof (sf_data_c (long_name buf) b nl) as S5.
  assert (HC : 4294967293 <= nl -> long_name buf).
  { intros G. exists index, nl. destruct BA as [V1 V2 V3 V4]. auto. }
  specialize (S5 HC Rn (mkR b (0 + 4 + 4 + 4 + 4) [] 1) eq_refl). cbn [r_cur] in S5. specialize (S5 ltac:(lia)).
  unfold r_data, api_read in *. cbn [r_buf r_cur r_at r_next] in *.
  destruct (Zlen b <? 0 + 4 + 4 + 4 + 4 + padlen nl); [exact Logic.I|].
  destruct (Z.ltb_spec (Zlen b) (0 + 4 + 4 + 4 + 4 + nl)) as [Lnl|Lnl]; [split; [reflexivity|exact S5]|].
  unfold r_seek. cbn [r_buf r_cur r_at r_next].
  destruct (Z.ltb_spec (Zlen b) len) as [Ls|Ls]; [exact Logic.I|].
  cbn [bi_end]. unfold span.
  replace (index + (index + len - index)) with (index + len) by lia.
  destruct (Z.ltb_spec (Zlen buf) (index + len)) as [Lt|Lt]; [lia|]. cbn [bind bi_version bi_hlen bi_end bi_name].
  assert (Lnm : Zlen (sub b (0 + 4 + 4 + 4 + 4) nl) = nl) by (unfold Zlen; rewrite sub_len by lia; lia).
  exists len, nl. repeat split; auto; try lia; try apply BA.
  - destruct (sub_split buf index (index + len - index)) as (p1 & p2 & E2 & _); try lia. exists p1, p2. exact E2.
  - unfold u32. apply Z.mod_pos_bound. reflexivity.
  - rewrite Lnm. apply BA.
  - destruct (sub_split b (0 + 4 + 4 + 4 + 4) nl) as (p1 & p2 & E2 & L2); try lia.
    exists (pre ++ p1), (p2 ++ post). split.
    + rewrite E at 1. rewrite E2 at 1. rewrite <- !app_assoc. reflexivity.
    + unfold Zlen in *. rewrite app_length. lia.
Qed.

Definition handler_cause {A} (blocks : list (rblock A)) (buf : bytes) (k : ub) : Prop :=
  exists blk p len v nl d, In blk blocks /\ block_at buf p len v nl /\ part_of (r_buf d) buf /\ 0 <= r_cur d /\
    rb_read blk v d = UB k.

Lemma read_blocks_loop_cause {A} (blocks : list (rblock A)) buf k : forall fuel pos at_ next,
  0 <= pos <= Zlen buf -> Zlen buf - pos < Z.of_nat fuel \/ zero_block buf ->
  read_blocks_loop fuel buf blocks pos at_ next = UB k ->
  (k = UBDiverge /\ zero_block buf) \/ (k = UBOutOfBounds /\ long_name buf) \/ handler_cause blocks buf k.
Proof.
  induction fuel as [|fuel IH]; intros pos at_ next Hp Hf; cbn [read_blocks_loop].
  { intros E. injection E as <-. destruct Hf as [Hf|Hf]; [lia|]. auto. }
  destruct (Zlen buf <=? pos); [discriminate|].
  pose proof (extract_cause buf pos ltac:(lia)) as X.
  destruct (extract_block buf pos) as [[info sp]|e|u]; cbn [bind]; [|discriminate|].
  2:{ intros E. injection E as <-. right; left. exact X. }
  destruct X as (len & nl & BA & Ee & Rl & Ll & Ps & Rh & NM). rewrite Ee.
  assert (Hf' : Zlen buf - (pos + len) < Z.of_nat fuel \/ zero_block buf).
  { destruct Hf as [Hf|Hf]; [|auto]. destruct (Z.eq_dec len 0) as [Ez|Ez]; [|left; lia]. right.
    rewrite Ez in BA. eexists _, _, _. exact BA. }
  destruct (find_block (bi_name info) blocks) as [blk|] eqn:F.
  2:{ destruct (Z.eqb_spec (pos + len) pos) as [Ez|Ez]; [|apply IH; [lia|exact Hf']].
      intros E. injection E as <-. left. split; [reflexivity|]. replace len with 0 in BA by lia.
      eexists _, _, _. exact BA. }
  unfold r_seek. cbn [r_buf r_cur r_at r_next].
  destruct (Zlen sp <? bi_hlen info); cbn [bind]; [discriminate|].
  destruct (rb_read blk (bi_version info) (mkR sp (bi_hlen info) at_ next)) as [[a d']|e|u] eqn:R;
    cbn [rethrow bind].
  - destruct (read_blocks_loop fuel buf blocks (pos + len) (r_at d') (r_next d')) as [[[rest at2] n2]|e|u] eqn:Q;
      cbn [bind]; [discriminate|discriminate|].
    intros E. injection E as <-. eapply IH; [| |exact Q]; [lia|exact Hf'].
  - destruct (is_sio e); discriminate.
  - intros E. injection E as <-. right; right.
    exists blk, pos, len, (bi_version info), nl, (mkR sp (bi_hlen info) at_ next).
    split. { unfold find_block in F. apply find_some in F. apply F. }
    auto.
Qed.

Lemma read_blocks_cause {A} (blocks : list (rblock A)) buf next k :
  read_blocks buf blocks next = UB k ->
  (k = UBDiverge /\ zero_block buf) \/ (k = UBOutOfBounds /\ long_name buf) \/ handler_cause blocks buf k.
Proof.
  unfold read_blocks. intros E. eapply read_blocks_loop_cause; [| |exact E]; unfold Zlen; [lia|left; lia].
Qed.

Lemma read_block_infos_cause buf k : read_block_infos buf = UB k ->
  (k = UBDiverge /\ zero_block buf) \/ (k = UBOutOfBounds /\ long_name buf).
Proof.
  unfold read_block_infos.
  assert (G : forall fuel pos, 0 <= pos <= Zlen buf -> Zlen buf - pos < Z.of_nat fuel ->
    read_block_infos_loop fuel buf pos = UB k ->
    (k = UBDiverge /\ zero_block buf) \/ (k = UBOutOfBounds /\ long_name buf)).
  { induction fuel as [|fuel IH]; intros pos Hp Hf; cbn [read_block_infos_loop].
    { intros _. lia. }
    destruct (Zlen buf <=? pos); [discriminate|].
    pose proof (extract_cause buf pos ltac:(lia)) as X.
    destruct (extract_block buf pos) as [[info sp]|e|u]; cbn [bind]; [|discriminate|].
    2:{ intros E. injection E as <-. right. exact X. }
    destruct X as (len & nl & BA & Ee & Rl & Ll & Ps & Rh & NM). rewrite Ee.
    destruct (Z.eqb_spec (pos + len) pos) as [Ez|Ez].
    { intros E. injection E as <-. left. split; [reflexivity|]. replace len with 0 in BA by lia.
      eexists _, _, _. exact BA. }
    destruct (read_block_infos_loop fuel buf (pos + len)) as [r|e|u] eqn:Q; cbn [bind]; [discriminate|discriminate|].
    intros E. injection E as <-. eapply IH; [| |exact Q]; lia. }
  intros E. eapply G; [| |exact E]; unfold Zlen; lia.
Qed.

(** ** Records *)

Lemma sub_0 (b w c : bytes) n : b = w ++ c -> length w = Z.to_nat n -> sub b 0 n = w.
Proof.
  intros E L. subst b. unfold sub. change (Z.to_nat 0) with 0%nat. cbn [skipn].
  rewrite firstn_app, L, Nat.sub_diag. cbn [firstn]. rewrite app_nil_r. rewrite <- L. apply firstn_all.
Qed.

Lemma u32_nonneg z : 0 <= u32 z.
Proof. apply Z.mod_pos_bound. reflexivity. Qed.

(** a header that claims a length outside of 8..116 bytes *)
Lemma read_record_info_cause s outbuf k s' : 0 <= s_pos s ->
  read_record_info s outbuf = (UB k, s') ->
  k = UBOutOfBounds /\ exists hlen, word_in (s_data s) (s_pos s) hlen /\ word_in (s_data s) (s_pos s + 4) record_marker /\
    ~ (8 <= hlen <= 116).
Proof.
  intros Hp. unfold read_record_info.
  destruct (negb (s_open s)); [discriminate|].
  destruct (negb (s_good s)) eqn:G; [discriminate|].
  destruct (s_read s 8) as [bs1 s1] eqn:R1.
  destruct (s_eof s1) eqn:Ef; [discriminate|].
  destruct (negb (s_good s1)) eqn:G1; [discriminate|].
  assert (B1 : bs1 = sub (s_data s) (s_pos s) 8 /\ s_pos s + 8 <= Zlen (s_data s) /\ s_pos s1 = s_pos s + 8).
  { unfold s_read in R1. rewrite G in R1. unfold s_avail in R1.
    destruct (Z.leb_spec 8 (Z.max 0 (Zlen (s_data s) - s_pos s))); injection R1 as <- <-; [|discriminate].
    cbn. repeat split; lia. }
  destruct B1 as (-> & L1 & P1).
  set (buf := put (resize outbuf max_record_info_len) 0 (sub (s_data s) (s_pos s) 8)).
  destruct (sub_split (s_data s) (s_pos s) 8) as (pre & post & E & Lp); try lia.
  assert (Lw : length (sub (s_data s) (s_pos s) 8) = 8%nat) by (apply sub_len; lia).
  set (w := sub (s_data s) (s_pos s) 8) in *.
  assert (Eb : exists rest, buf = w ++ rest).
  { unfold buf, put. change (Z.to_nat 0) with 0%nat. cbn [firstn app]. eexists. reflexivity. }
  destruct Eb as [rest Eb].
  assert (H8 : exists a b, w = a ++ b /\ length a = 4%nat /\ length b = 4%nat).
  { exists (firstn 4 w), (skipn 4 w). rewrite firstn_skipn, firstn_length, skipn_length, Lw. auto. }
  destruct H8 as (a & b & Ew & La & Lb).
  assert (W0 : word_at buf 0 = unbe a).
  { unfold word_at. f_equal. eapply sub_0; [rewrite Eb, Ew, <- app_assoc; reflexivity|exact La]. }
  assert (W4 : word_at buf 4 = unbe b).
  { unfold word_at. f_equal. rewrite Eb, Ew, <- app_assoc. unfold sub. change (Z.to_nat 4) with 4%nat.
    rewrite skipn_app_exact by (symmetry; exact La). rewrite firstn_app_exact by (symmetry; exact Lb). reflexivity. }
  destruct (Z.eqb_spec (word_at buf 4) record_marker) as [Em|Em]; cbn [negb]; [|discriminate].
  destruct (s_read s1 (u32 (word_at buf 0 - 8))) as [bs2 s2] eqn:R2.
  pose proof (s_read_len s1 (u32 (word_at buf 0 - 8)) bs2 s2 ltac:(lia) (u32_nonneg _) R2) as Lr.
  destruct (Z.ltb_spec max_record_info_len (8 + Zlen bs2)) as [Lo|Lo].
  - intros X. injection X as <- <-. split; [reflexivity|].
    exists (unbe a). split; [|split].
    + exists pre, a, (b ++ post). rewrite E, Ew, <- app_assoc. auto.
    + exists (pre ++ a), b, post. rewrite E, Ew, <- !app_assoc.
      repeat split; auto; [unfold Zlen in *; rewrite app_length, La; lia|congruence].
    + intros [H1 H2]. unfold max_record_info_len in Lo. rewrite W0 in Lr.
      unfold u32 in Lr. rewrite Z.mod_small in Lr by (unfold two32; lia). lia.
  - destruct (max_record_name_len <? _); discriminate.
Qed.

Lemma read_record_data_safe s ri outbuf shift k s' : read_record_data s ri outbuf shift <> (UB k, s').
Proof.
  unfold read_record_data. destruct (negb (s_open s)); [discriminate|]. destruct (negb (s_good s)); [discriminate|].
  destruct (negb (s_good (s_seek s (ri_start ri + ri_hlen ri)))); [discriminate|].
  destruct (s_read (s_seek s (ri_start ri + ri_hlen ri)) (ri_dlen ri)) as [bs s2].
  destruct (negb (s_good s2)); [discriminate|].
  destruct (negb (s_good (s_seek s2 (ri_end ri)))); discriminate.
Qed.

Lemma read_record_cause s outbuf k s' : 0 <= s_pos s ->
  read_record s outbuf = (UB k, s') ->
  k = UBOutOfBounds /\ exists hlen, word_in (s_data s) (s_pos s) hlen /\ word_in (s_data s) (s_pos s + 4) record_marker /\
    ~ (8 <= hlen <= 116).
Proof.
  intros Hp. unfold read_record. destruct (read_record_info s outbuf) as [[[ri buf]|e|u] s1] eqn:R.
  - destruct (read_record_data s1 ri buf (ri_hlen ri)) as [[b2|e|u] s2] eqn:D; try discriminate.
    exfalso. eapply read_record_data_safe; eauto.
  - discriminate.
  - intros X. injection X as <- <-. eapply read_record_info_cause; eauto.
Qed.

(** * Untrusted input: the index for direct access *)

From Coq Require Import Relation_Operators.
From Verif Require Import Bytes StrMap SioModel SioProofs Ieee ObjModel EventModel IndexModel FileModel
  EventProofs InputSpec InputProofs InputObj InputEvent InputFile InputStream.

(** ** Entries *)

Lemma unbe8_range (w : bytes) : length w = 8%nat -> 0 <= unbe w < two64.
Proof. intros L. pose proof (unbe_range w) as H. rewrite L in H. exact H. Qed.
Lemma unbe4_range (w : bytes) : length w = 4%nat -> 0 <= unbe w < two32.
Proof. intros L. pose proof (unbe_range w) as H. rewrite L in H. exact H. Qed.

Definition ahead (d : rdev) (n : Z) : rdev := mkR (r_buf d) (r_cur d + n) (r_at d) (r_next d).

Lemma step_i32 d : 0 <= r_cur d ->
  match r_i32 d with
  | Ok (v, d') => int_in (r_buf d) (r_cur d) v /\ d' = ahead d 4
  | Throw _ => True
  | UB _ => False
  end.
Proof.
  intros H. unfold r_i32, rbind, r_data, api_read. change (padlen 4) with 4.
  destruct (Z.ltb_spec (Zlen (r_buf d)) (r_cur d + 4)); [exact Logic.I|]. cbn [rret]. split; [|reflexivity].
  exists (unbe (sub (r_buf d) (r_cur d) 4)). split; [apply sub_word; lia|].
  unfold s32. rewrite Z.mod_small by (apply unbe4_range, sub_len; lia). reflexivity.
Qed.
Lemma step_i64 d : 0 <= r_cur d ->
  match r_i64 d with
  | Ok (v, d') => long_in (r_buf d) (r_cur d) v /\ d' = ahead d 8
  | Throw _ => True
  | UB _ => False
  end.
Proof.
  intros H. unfold r_i64, rbind, r_data, api_read. change (padlen 8) with 8.
  destruct (Z.ltb_spec (Zlen (r_buf d)) (r_cur d + 8)); [exact Logic.I|]. cbn [rret]. split; [|reflexivity].
  destruct (sub_split (r_buf d) (r_cur d) 8) as (pre & post & E & L); try lia.
  assert (Lw : length (sub (r_buf d) (r_cur d) 8) = 8%nat) by (apply sub_len; lia).
  exists pre, (sub (r_buf d) (r_cur d) 8), post. repeat split; auto.
  unfold s64. rewrite Z.mod_small by (apply unbe8_range; exact Lw). reflexivity.
Qed.

Lemma int_of_cause z k : int_of z = UB k -> ~ (-2147483648 <= z < 2147483648).
Proof.
  unfold int_of. destruct ((- two31 <=? z) && (z <? two31)) eqn:E; [discriminate|]. intros _ H.
  rewrite andb_false_iff in E. unfold two31 in E. lia.
Qed.
Lemma long_of_cause z k : long_of z = UB k -> ~ (-9223372036854775808 <= z < 9223372036854775808).
Proof.
  unfold long_of. destruct ((- two63 <=? z) && (z <? two63)) eqn:E; [discriminate|]. intros _ H.
  rewrite andb_false_iff in E. unfold two63 in E. lia.
Qed.

(** an entry at [entry] that overflows *)
Definition bad_entry (b : bytes) (one long : bool) (run base entry : Z) : Prop :=
  let wrun := if one then 0 else 4 in
  (one = false /\ exists o, int_in b entry o /\ ~ (-2147483648 <= run + o < 2147483648))
  \/ exists off, (if long then long_in b (entry + wrun + 4) off else int_in b (entry + wrun + 4) off) /\
                 ~ (-9223372036854775808 <= off + base < 9223372036854775808).
Definition width (one long : bool) : Z := (if one then 0 else 4) + 4 + (if long then 8 else 4).

(** the counters of a map are those of its entries *)
Definition counted (m : remap) : Prop := 0 <= rm_nrun m /\ 0 <= rm_nevt m /\ Zlen (rm_map m) = rm_nrun m + rm_nevt m.
Lemma rm_insert_len k pos m : Zlen (fst (rm_insert k pos m)) = Zlen m + (if snd (rm_insert k pos m) then 1 else 0).
Proof.
  induction m as [|[k' p'] m IH]; cbn [rm_insert]; [reflexivity|].
  destruct (re_lt k k'); [cbn [fst snd]; rewrite Zlen_cons; lia|].
  destruct (re_lt k' k); [|cbn [fst snd]; rewrite !Zlen_cons; lia].
  destruct (rm_insert k pos m) as [r b]. cbn [fst snd] in *. rewrite !Zlen_cons. lia.
Qed.
Lemma counted_add m re pos : counted m -> counted (rm_add m re pos).
Proof.
  unfold counted, rm_add. intros (H1 & H2 & H3). pose proof (rm_insert_len (re_of64 (re_to64 re)) pos (rm_map m)) as H.
  destruct (rm_insert (re_of64 (re_to64 re)) pos (rm_map m)) as [r b]. cbn [fst snd] in H.
  destruct b; [destruct (-1 <? snd re)|]; cbn [rm_map rm_nrun rm_nevt]; lia.
Qed.

Lemma read_entries_cause one long run base : forall n m d, 0 <= r_cur d ->
  match read_entries n one long run base m d with
  | Ok (m', d') => counted m -> counted m'
  | Throw _ => True
  | UB _ => exists i, 0 <= i < Z.of_nat n /\ bad_entry (r_buf d) one long run base (r_cur d + i * width one long)
  end.
Proof.
  induction n as [|n IH]; intros m d Hc; cbn [read_entries]; [cbn [rret]; auto|].
  unfold rbind at 1.
  assert (R : match (if one then rret run else let* o := r_i32 in r_lift (int_of (run + o))) d with
              | Ok (_, d1) => d1 = ahead d (if one then 0 else 4)
              | Throw _ => True
              | UB _ => one = false /\ exists o, int_in (r_buf d) (r_cur d) o /\ ~ (-2147483648 <= run + o < 2147483648)
              end).
  { destruct one.
    - cbn [rret]. unfold ahead. destruct d as [b0 c0 a0 n0]. cbn. rewrite Z.add_0_r. reflexivity.
    - unfold rbind. pose proof (step_i32 d Hc) as S. destruct (r_i32 d) as [[o d1]|e|u]; [|exact Logic.I|destruct S].
      destruct S as [S ->]. unfold r_lift. destruct (int_of (run + o)) as [v|e|u] eqn:E; cbn [bind]; [reflexivity|exact Logic.I|].
      split; [reflexivity|]. exists o. split; [exact S|]. eapply int_of_cause; exact E. }
  destruct ((if one then rret run else let* o := r_i32 in r_lift (int_of (run + o))) d) as [[rn d1]|e|u]; [|exact Logic.I|].
  2:{ exists 0. split; [lia|]. rewrite Z.mul_0_l, Z.add_0_r. left. exact R. }
  subst d1. set (wr := if one then 0 else 4) in *. assert (Hw : 0 <= wr) by (unfold wr; destruct one; lia).
  unfold rbind at 1. pose proof (step_i32 (ahead d wr) ltac:(cbn; lia)) as S.
  destruct (r_i32 (ahead d wr)) as [[ev d2]|e|u]; [|exact Logic.I|destruct S]. destruct S as [_ ->].
  unfold rbind at 1.
  set (d2 := ahead (ahead d wr) 4).
  assert (O : match (if long then r_i64 else r_i32) d2 with
              | Ok (off, d3) => (if long then long_in (r_buf d) (r_cur d + wr + 4) off else int_in (r_buf d) (r_cur d + wr + 4) off) /\
                                d3 = ahead d2 (if long then 8 else 4)
              | Throw _ => True
              | UB _ => False
              end).
  { destruct long; [apply (step_i64 d2); cbn; lia|apply (step_i32 d2); cbn; lia]. }
  destruct ((if long then r_i64 else r_i32) d2) as [[off d3]|e|u]; [|exact Logic.I|destruct O].
  destruct O as [O ->]. unfold rbind at 1. unfold r_lift at 1.
  destruct (long_of (off + base)) as [pos|e|u] eqn:L; cbn [bind]; [|exact Logic.I|].
  2:{ exists 0. split; [lia|]. rewrite Z.mul_0_l, Z.add_0_r. right. exists off. split; [exact O|]. eapply long_of_cause; exact L. }
  set (d3 := ahead d2 (if long then 8 else 4)).
  assert (Cd : r_cur d3 = r_cur d + width one long) by (unfold d3, d2, ahead, width; cbn [r_cur]; fold wr; lia).
  assert (Hc3 : 0 <= r_cur d3) by (rewrite Cd; unfold width; destruct one, long; lia).
  specialize (IH (rm_add m (rn, ev) pos) d3 Hc3).
  destruct (read_entries n one long run base (rm_add m (rn, ev) pos) d3) as [[m' d']|e|u]; [|exact Logic.I|].
  - intros Hm. apply IH, counted_add, Hm.
  - destruct IH as (i & Hi & B). exists (i + 1). split; [lia|]. rewrite Cd in B.
    replace (r_cur d + (i + 1) * width one long) with (r_cur d + width one long + i * width one long) by lia. exact B.
Qed.

Lemma read_index_cause m vers d : 0 <= r_cur d ->
  match read_index m vers d with
  | Ok (m', d') => counted m -> counted m'
  | Throw _ => True
  | UB _ => index_overflow (r_buf d)
  end.
Proof.
  intros Hc. unfold read_index. unfold rbind at 1. unfold check_version.
  destruct ((Z.shiftr vers 16 <? 1) && (Z.land vers 65535 <? 8)); [exact Logic.I|]. cbn [rret].
  unfold rbind at 1. pose proof (step_i32 d Hc) as S1.
  destruct (r_i32 d) as [[control d1]|e|u]; [|exact Logic.I|destruct S1]. destruct S1 as [S1 ->].
  destruct (Z.testbit control 2); [exact Logic.I|].
  unfold rbind at 1. pose proof (step_i32 (ahead d 4) ltac:(cbn; lia)) as S2.
  destruct (r_i32 (ahead d 4)) as [[run d2]|e|u]; [|exact Logic.I|destruct S2]. destruct S2 as [S2 ->].
  unfold rbind at 1. pose proof (step_i64 (ahead (ahead d 4) 4) ltac:(cbn; lia)) as S3.
  destruct (r_i64 (ahead (ahead d 4) 4)) as [[base d3]|e|u]; [|exact Logic.I|destruct S3]. destruct S3 as [S3 ->].
  unfold rbind at 1. pose proof (step_i32 (ahead (ahead (ahead d 4) 4) 8) ltac:(cbn; lia)) as S4.
  destruct (r_i32 (ahead (ahead (ahead d 4) 4) 8)) as [[n d4]|e|u]; [|exact Logic.I|destruct S4]. destruct S4 as [S4 ->].
  unfold ahead in *. cbn [r_buf r_cur r_at r_next] in *.
  match goal with |- context [read_entries ?n ?a ?b ?c ?e ?m ?d] => pose proof (read_entries_cause a b c e n m d) as H end.
  cbn [r_cur r_buf] in H. specialize (H ltac:(lia)).
  destruct (read_entries _ _ _ _ _ _ _) as [[m' d']|e|u]; [exact H|exact Logic.I|].
  destruct H as (i & Hi & B).
  exists (r_cur d), control, run, base, n, i. split; [exact S1|]. split; [exact S2|].
  replace (r_cur d + 8) with (r_cur d + 4 + 4) by lia. split; [exact S3|].
  replace (r_cur d + 16) with (r_cur d + 4 + 4 + 8) by lia. split; [exact S4|]. split; [lia|].
  cbv zeta. replace (r_cur d + 20) with (r_cur d + 4 + 4 + 8 + 4) by lia. exact B.
Qed.

Lemma int_part (sp b pre post : bytes) p n : b = pre ++ sp ++ post -> int_in sp p n -> int_in b (Zlen pre + p) n.
Proof. intros E (w & W & H). exists w. split; [eapply word_part; eauto|exact H]. Qed.
Lemma long_part (sp b pre post : bytes) p n : b = pre ++ sp ++ post -> long_in sp p n -> long_in b (Zlen pre + p) n.
Proof.
  intros E (a & w & c & E' & L & Lw & En). subst sp b.
  exists (pre ++ a), w, (c ++ post). rewrite <- !app_assoc. repeat split; auto. rewrite Zlen_app. lia.
Qed.
Lemma overflow_part sp b : part_of sp b -> index_overflow sp -> index_overflow b.
Proof.
  intros (pre & post & E) (p & control & run & base & n & i & H1 & H2 & H3 & H4 & Hi & B).
  assert (PI : forall q v, int_in sp q v -> int_in b (Zlen pre + q) v) by (intros q v; eapply int_part; exact E).
  assert (PL : forall q v, long_in sp q v -> long_in b (Zlen pre + q) v) by (intros q v; eapply long_part; exact E).
  exists (Zlen pre + p), control, run, base, n, i.
  split; [apply PI, H1|]. split; [rewrite <- Z.add_assoc; apply PI, H2|]. split; [rewrite <- Z.add_assoc; apply PL, H3|].
  split; [rewrite <- Z.add_assoc; apply PI, H4|]. split; [exact Hi|]. cbv zeta in *.
  set (wrun := if Z.testbit control 0 then 0 else 4) in *.
  set (step := i * (wrun + 4 + (if Z.testbit control 1 then 8 else 4))) in *.
  destruct B as [(B1 & o & B2 & B3)|(off & B2 & B3)].
  - left. split; [exact B1|]. exists o. split; [|exact B3].
    replace (Zlen pre + p + 20 + step) with (Zlen pre + (p + 20 + step)) by lia. apply PI, B2.
  - right. exists off. split; [|exact B3].
    replace (Zlen pre + p + 20 + step + wrun + 4) with (Zlen pre + (p + 20 + step + wrun + 4)) by lia.
    destruct (Z.testbit control 1); [apply PL, B2|apply PI, B2].
Qed.

(** ** Blocks: what the handlers return *)

Lemma read_blocks_loop_all {A} (P : A -> Prop) (blocks : list (rblock A)) buf :
  (forall b v d a d', In b blocks -> 0 <= r_cur d -> rb_read b v d = Ok (a, d') -> P a) ->
  forall fuel pos at_ next out at2 n2, 0 <= pos -> read_blocks_loop fuel buf blocks pos at_ next = Ok (out, at2, n2) ->
  Forall (fun x => P (snd x)) out.
Proof.
  intros HB. induction fuel as [|fuel IH]; intros pos at_ next out at2 n2 Hp; cbn [read_blocks_loop]; [discriminate|].
  destruct (Zlen buf <=? pos). { intros E. injection E as <- _ _. constructor. }
  pose proof (extract_cause buf pos Hp) as X.
  destruct (extract_block buf pos) as [[info sp]|e|u]; cbn [bind]; try discriminate.
  destruct X as (len & nl & BA & Ee & Rl & Ll & Ps & Rh & NM). rewrite Ee.
  destruct (find_block (bi_name info) blocks) as [blk|] eqn:F.
  2:{ destruct (pos + len =? pos); [discriminate|]. apply IH. lia. }
  unfold r_seek. cbn [r_buf r_cur r_at r_next].
  destruct (Zlen sp <? bi_hlen info); cbn [bind]; [discriminate|].
  destruct (rb_read blk (bi_version info) (mkR sp (bi_hlen info) at_ next)) as [[a d']|e|u] eqn:R; cbn [rethrow bind];
    [|destruct (is_sio e); discriminate|discriminate].
  destruct (read_blocks_loop fuel buf blocks (pos + len) (r_at d') (r_next d')) as [[[rest at3] n3]|e|u] eqn:Q;
    cbn [bind]; try discriminate.
  intros E. injection E as <- <- <-. constructor.
  - cbn [snd]. eapply HB; [| |exact R]; [|cbn [r_cur]; exact Rh]. unfold find_block in F. apply find_some in F. apply F.
  - eapply IH; [|exact Q]. lia.
Qed.

(** ** Streams *)

Lemma read_info_stream s raw x s' : 0 <= s_pos s -> read_record_info s raw = (x, s') ->
  s_data s' = s_data s /\ 0 <= s_pos s'.
Proof.
  intros Hp. unfold read_record_info.
  destruct (negb (s_open s)); [intros E; injection E as _ <-; auto|].
  destruct (negb (s_good s)); [intros E; injection E as _ <-; auto|].
  destruct (s_read s 8) as [bs1 s1] eqn:R1. apply s_read_stream in R1; [|lia|exact Hp]. destruct R1 as (D1 & _ & P1).
  destruct (s_eof s1); [intros E; injection E as _ <-; split; [exact D1|lia]|].
  destruct (negb (s_good s1)); [intros E; injection E as _ <-; split; [exact D1|lia]|].
  destruct (negb _); [intros E; injection E as _ <-; cbn; split; [exact D1|lia]|].
  set (n := u32 _). destruct (s_read s1 n) as [bs2 s2] eqn:R2.
  apply s_read_stream in R2; [|apply u32_nonneg|lia]. destruct R2 as (D2 & _ & P2).
  destruct (_ <? _); [intros E; injection E as _ <-; split; [congruence|lia]|].
  destruct (_ <? _); intros E; injection E as _ <-; split; try congruence; lia.
Qed.
Lemma seek_stream_ok s p x s' : 0 <= s_pos s -> seek_stream s p = (x, s') ->
  s_data s' = s_data s /\ 0 <= s_pos s' /\
  (forall u, x <> UB u) /\ (x = Ok tt -> s_pos s' = if p <? 0 then p + Zlen (s_data s) else p).
Proof.
  intros Hp. assert (SD : forall s q, 0 <= s_pos s -> s_data (s_seek s q) = s_data s /\ 0 <= s_pos (s_seek s q) /\
      (s_good (s_seek s q) = true -> s_pos (s_seek s q) = q)).
  { intros t q Ht. unfold s_seek. destruct (s_fail t); [cbn; repeat split; auto; discriminate|]. destruct (Z.ltb_spec q 0); cbn; repeat split; auto; discriminate. }
  assert (SD' : forall s q, 0 <= s_pos s -> s_good (s_seek s q) = true -> s_pos (s_seek s q) = q).
  { intros t q Ht. apply SD, Ht. }
  unfold seek_stream. destruct (negb (s_open s)). { intros E. injection E as <- <-. repeat split; auto; discriminate. }
  destruct (Z.ltb_spec p 0) as [Ln|Ln].
  - set (s1 := s_seek s (Zlen (s_data s))). destruct (SD s (Zlen (s_data s)) Hp) as (D1 & P1 & _). fold s1 in D1, P1.
    destruct (Z.ltb_spec (s_tell_end s1) (- p)). { intros E. injection E as <- <-. repeat split; auto; discriminate. }
    assert (T : s_tell_end s1 = Zlen (s_data s)). { unfold s_tell_end in *. destruct (s_fail s1); [lia|]. congruence. }
    rewrite T. destruct (SD s1 (Zlen (s_data s) + p) P1) as (D2 & P2 & _).
    destruct (s_good (s_seek s1 (Zlen (s_data s) + p))) eqn:G; intros E; injection E as <- <-;
      (split; [congruence|]; split; [exact P2|]; split; [discriminate|]); [|discriminate].
    intros _. rewrite SD' by assumption. lia.
  - destruct (SD s p Hp) as (D1 & P1 & _).
    destruct (s_good (s_seek s p)) eqn:G; intros E; injection E as <- <-;
      (split; [exact D1|]; split; [exact P1|]; split; [discriminate|]); [|discriminate].
    intros _. apply SD'; assumption.
Qed.

Definition keeps (F : bytes) (s : ifs) : Prop := s_data s = F /\ 0 <= s_pos s.

Lemma word_bad s hlen : word_in (s_data s) (s_pos s) hlen -> word_in (s_data s) (s_pos s + 4) record_marker ->
  ~ (8 <= hlen <= 116) -> bad_header (s_data s).
Proof. intros W0 W4 N. exists (s_pos s), hlen. split; [exact W0|]. split; [exact W4|]. lia. Qed.

Lemma read_record_ok F s raw : keeps F s ->
  match read_record s raw with
  | (Ok (ri, buf), s') => keeps F s' /\ holds_part F ri buf /\ s_pos s < Zlen F /\ s_pos s' = ri_end ri /\
      (s_pos s < s_pos s' \/ bad_header F \/ huge_record F)
  | (Throw _, s') => keeps F s'
  | (UB _, _) => bad_header F
  end.
Proof.
  intros [HF Hp]. subst F. unfold read_record.
  destruct (read_record_info s raw) as [[[ri buf]|e|u] s1] eqn:RI.
  - pose proof (record_info_ok s raw ri buf s1 Hp RI) as (D1 & P1 & L1 & Le & Es & Hh & Hd & Lb & Fl & Pr).
    destruct (read_record_data s1 ri buf (ri_hlen ri)) as [[buf'|e|u] s2] eqn:RD.
    + assert (G1 : s_good s1 = true).
      { unfold read_record_data in RD. destruct (negb (s_open s1)); [discriminate|].
        destruct (s_good s1); [reflexivity|]. discriminate. }
      apply record_data_ok in RD; [|lia|exact Hh|exact Hd|lia]. destruct RD as (D2 & P2 & HH).
      specialize (P2 ltac:(lia)). rewrite D1 in *. split; [split; [exact D2|lia]|]. split; [exact HH|]. split; [exact L1|].
      split; [exact P2|]. rewrite P2. apply Pr, G1.
    + unfold read_record_data in RD.
      assert (SD : forall t q, 0 <= s_pos t -> s_data (s_seek t q) = s_data t /\ 0 <= s_pos (s_seek t q)).
      { intros t q Ht. unfold s_seek. destruct (s_fail t); [cbn; auto|]. destruct (Z.ltb_spec q 0); cbn; auto. }
      destruct (negb (s_open s1)). { injection RD as _ <-. split; assumption. }
      destruct (negb (s_good s1)). { injection RD as _ <-. split; assumption. }
      destruct (SD s1 (ri_start ri + ri_hlen ri) P1) as [D2 P2]. set (s3 := s_seek s1 (ri_start ri + ri_hlen ri)) in *.
      destruct (negb (s_good s3)). { injection RD as _ <-. split; congruence. }
      destruct (s_read s3 (ri_dlen ri)) as [bs s4] eqn:R. apply s_read_stream in R; [|exact Hd|exact P2]. destruct R as (D4 & _ & P4).
      destruct (negb (s_good s4)). { injection RD as _ <-. split; [congruence|lia]. }
      destruct (SD s4 (ri_end ri) ltac:(lia)) as [D5 P5].
      destruct (negb (s_good (s_seek s4 (ri_end ri)))); [|discriminate]. injection RD as _ <-. split; [congruence|exact P5].
    + exfalso. eapply read_record_data_safe; eauto.
  - apply read_info_stream in RI; [exact RI|exact Hp].
  - apply read_record_info_cause in RI; [|exact Hp]. destruct RI as (_ & hlen & W0 & W4 & N). eapply word_bad; eauto.
Qed.

(** ** The manager *)

Section Index.
Context (uncomp : bytes -> option bytes) (F : bytes).

Lemma try_record_ok s g : keeps F s ->
  match try_record s g with
  | (Ok (Some (ri, buf)), s1, g1) => keeps F s1 /\ holds_part F ri buf /\ s_pos s < Zlen F /\
      mg_map g1 = mg_map g /\ mg_list g1 = mg_list g /\ mg_file g1 = mg_file g
  | (Ok None, s1, g1) => keeps F s1 /\ g1 = g
  | (Throw _, s1, g1) => True
  | (UB _, _, _) => bad_header F
  end.
Proof.
  intros H. unfold try_record. pose proof (read_record_ok F s (b_bytes (mg_raw g)) H) as R.
  destruct (read_record s (b_bytes (mg_raw g))) as [[[ri buf]|e|u] s1]; [|destruct (is_sio e); [|exact Logic.I]|exact R].
  - destruct R as (R1 & R2 & R3 & _). cbn. auto 10.
  - destruct R as [D1 P1]. destruct (seek_stream (s_clear s1) 0) as [x s2] eqn:E.
    apply seek_stream_ok in E; [|exact P1]. destruct E as (D2 & P2 & NU & _).
    destruct x as [[]|e'|u]; [|exact Logic.I|destruct (NU u eq_refl)].
    split; [|reflexivity]. split; [cbn [s_clear s_data] in D2; congruence|exact P2].
Qed.

(** the data of records *)
Lemma unpacked_payload ri buf old : holds_part F ri buf ->
  match unpacked uncomp ri buf old with
  | Ok d => payload uncomp F d
  | Throw _ => True
  | UB _ => False
  end.
Proof.
  intros (x & Sx & Px). unfold unpacked. rewrite Sx. cbn [bind].
  destruct (is_compressed (ri_options ri)); [|left; exact Px].
  unfold uncompress. destruct (uncomp x) as [d|] eqn:U; [|exact Logic.I].
  destruct (ri_ulen ri <? Zlen d); [exact Logic.I|].
  right. exists x, d, (skipn (length d) (resize old (ri_ulen ri))). split; [exact Px|]. split; [exact U|]. reflexivity.
Qed.

(** blocks that go wrong in any record *)
Definition block_cause : Prop := exists d, payload uncomp F d /\ (zero_block d \/ long_name d).

Lemma racc_safe v d k : 0 <= r_cur d -> read_racc v d <> UB k.
Proof.
  intros Hc E.
  assert (S : sf False (r_buf d) (read_racc v) (fun _ => True)).
  { unfold read_racc. eapply sf_bind.
    { unfold check_version. instantiate (1 := fun _ => True).
      destruct ((Z.shiftr v 16 <? 1) && (Z.land v 65535 <? 8)); [apply sf_throw|apply sf_ret; exact Logic.I]. }
    intros _ _. repeat (eapply sf_bind; [first [apply sf_i32' | apply sf_i64]|]; intros ? _). apply sf_ret. exact Logic.I. }
  specialize (S d eq_refl Hc). rewrite E in S. exact S.
Qed.

Lemma read_access_ok s g : keeps F s ->
  match read_access s g with
  | (Ok true, s1, g1) => keeps F s1 /\ s_pos s < Zlen F /\ mg_map g1 = mg_map g /\ mg_file g1 = mg_file g /\
      exists a, mg_list g1 = mg_list g ++ [a]
  | (Ok false, s1, g1) => keeps F s1 /\ mg_map g1 = mg_map g /\ mg_file g1 = mg_file g /\ mg_list g1 = mg_list g
  | (Throw _, s1, g1) => True
  | (UB _, _, _) => bad_header F \/ block_cause
  end.
Proof.
  intros H. unfold read_access. pose proof (try_record_ok s g H) as T.
  destruct (try_record s g) as [[[[[ri buf]|]|e|u] s1] g1]; [|destruct T as [T ->]; auto|exact Logic.I|left; exact T].
  destruct T as (T1 & T2 & T3 & T4 & T5 & T6).
  destruct (negb (bytes_eqb (ri_name ri) access_record)); [auto|].
  destruct T2 as (x & Sx & Px). rewrite Sx. cbn [bind].
  destruct (read_blocks x [mkRB access_record read_racc] 1) as [[[out at_] nx]|e|u] eqn:E; [|exact Logic.I|].
  - cbn. rewrite T4, T5, T6. split; [exact T1|]. split; [exact T3|]. split; [reflexivity|]. split; [reflexivity|]. eauto.
  - right. exists x. split; [left; exact Px|]. apply read_blocks_cause in E.
    destruct E as [[_ E]|[[_ E]|(blk & p & len & v & nl & d & Hi & _ & _ & Hc & E)]]; [auto|auto|].
    destruct Hi as [<-|[]]. exfalso. cbn [rb_read] in E. eapply racc_safe; eauto.
Qed.

Lemma read_index_record_ok s g : keeps F s ->
  match read_index_record uncomp s g with
  | (Ok _, s1, g1) => keeps F s1 /\ mg_list g1 = mg_list g /\ mg_file g1 = mg_file g /\ (counted (mg_map g) -> counted (mg_map g1))
  | (Throw _, s1, g1) => True
  | (UB _, _, _) => bad_header F \/ block_cause \/ exists d, payload uncomp F d /\ index_overflow d
  end.
Proof.
  intros H. unfold read_index_record. pose proof (try_record_ok s g H) as T.
  destruct (try_record s g) as [[[[[ri buf]|]|e|u] s1] g1]; [|destruct T as [T ->]; auto|exact Logic.I|left; exact T].
  destruct T as (T1 & T2 & T3 & T4 & T5 & T6).
  destruct (negb (bytes_eqb (ri_name ri) index_record)); [rewrite T4; auto|].
  pose proof (unpacked_payload ri buf [] T2) as U. destruct (unpacked uncomp ri buf []) as [d|e|u]; cbn [bind]; [|exact Logic.I|destruct U].
  destruct (read_blocks d [mkRB index_record (read_index (mg_map g1))] 1) as [[[out at_] nx]|e|u] eqn:E; [|exact Logic.I|].
  - cbn [mg_list mg_file mg_map]. rewrite T5, T6. split; [exact T1|]. split; [reflexivity|]. split; [reflexivity|].
    intros Hm. rewrite <- T4 in Hm.
    assert (A : Forall (fun x => counted (snd x)) out).
    { eapply (read_blocks_loop_all (fun m => counted m)); [| |unfold read_blocks in E; exact E]; [|lia]. intros b v d0 a d' [<-|[]] Hc. cbn [rb_read].
      pose proof (read_index_cause (mg_map g1) v d0 Hc) as RI. intros X. rewrite X in RI. apply RI, Hm. }
    clear - A Hm. revert Hm. generalize (mg_map g1). induction A as [|x out Hx A IH]; intros m Hm; [exact Hm|].
    destruct out as [|y out]; [exact Hx|]. change (counted (last (map snd (y :: out)) m)). apply IH. exact Hm.
  - apply read_blocks_cause in E.
    destruct E as [[_ E]|[[_ E]|(blk & p & len & v & nl & d0 & Hi & _ & Pt & Hc & E)]].
    + right; left. exists d. auto.
    + right; left. exists d. auto.
    + right; right. exists d. split; [exact U|]. destruct Hi as [<-|[]]. cbn [rb_read] in E.
      pose proof (read_index_cause (mg_map g1) v d0 Hc) as RI. rewrite E in RI. eapply overflow_part; eauto.
Qed.

(** ** Rebuilding the index *)

Lemma skip_ok {St} (pred : St -> record_info -> bool * St) : forall fuel st s buf, keeps F s ->
  enough fuel s \/ bad_header F \/ huge_record F ->
  match skip_records fuel pred st s buf with
  | (Ok _, _, s') => keeps F s' /\ s_pos s < Zlen F /\ (s_pos s < s_pos s' \/ bad_header F \/ huge_record F)
  | (Throw _, _, s') => keeps F s'
  | (UB _, _, _) => bad_header F \/ huge_record F
  end.
Proof.
  induction fuel as [|fuel IH]; intros st s buf [HF Hp] E; cbn [skip_records].
  { destruct E as [[E _]|E]; [lia|exact E]. }
  destruct (read_record_info s buf) as [[[ri buf1]|e|u] s1] eqn:RI.
  - assert (Hg : s_good s = true).
    { unfold read_record_info in RI. destruct (negb (s_open s)); [discriminate|].
      destruct (s_good s); [reflexivity|]. discriminate. }
    pose proof (record_info_ok s buf ri buf1 s1 Hp RI) as (D1 & P1 & L1 & Le & Es & Hh & Hd & Lb & Fl & Pr). rewrite HF in *.
    destruct (s_good (s_seek s1 (ri_end ri))) eqn:G; cbn [negb].
    2:{ unfold s_seek. destruct (s_fail s1); [split; assumption|]. destruct (Z.ltb_spec (ri_end ri) 0); split; cbn; auto; lia. }
    destruct (seek_spec s1 (ri_end ri) ltac:(lia)) as [D2 S2]. rewrite D1 in D2.
    destruct S2 as [(_ & S2 & _)|(S2 & S3)]; [congruence|].
    assert (G1 : s_good s1 = true) by (destruct Fl as [Fl|Fl]; [exact Fl|congruence]).
    specialize (Pr G1).
    assert (K2 : keeps F (s_seek s1 (ri_end ri))) by (split; [exact D2|lia]).
    destruct (pred st ri) as [go st1]. destruct go.
    + assert (E2 : enough fuel (s_seek s1 (ri_end ri)) \/ bad_header F \/ huge_record F).
      { destruct E as [[_ E]|E]; [|right; exact E]. rewrite HF in E. specialize (E Hg L1).
        destruct Pr as [Pr|Pr]; [|right; exact Pr]. left. split; [lia|]. rewrite D2, S2. intros _ L. lia. }
      specialize (IH st1 (s_seek s1 (ri_end ri)) buf1 K2 E2).
      destruct (skip_records fuel pred st1 (s_seek s1 (ri_end ri)) buf1) as [[[x|x|u] st2] s']; [|exact IH|exact IH].
      destruct IH as (I1 & _ & I2). split; [exact I1|]. split; [exact L1|]. destruct I2 as [I2|I2]; [|right; exact I2]. left. lia.
    + split; [exact K2|]. split; [exact L1|]. rewrite S2. exact Pr.
  - apply read_info_stream in RI; [|exact Hp]. split; [destruct RI; congruence|apply RI].
  - apply read_record_info_cause in RI; [|exact Hp]. rewrite HF in RI. left.
    destruct RI as (_ & hlen & W0 & W4 & N). exists (s_pos s), hlen. split; [exact W0|]. split; [exact W4|]. lia.
Qed.

Lemma enough_fuel s : 0 <= s_pos s -> enough (stream_fuel s) s.
Proof. intros Hp. unfold stream_fuel, enough, Zlen. split; [lia|]. intros _ _. lia. Qed.

(** why building the index can go wrong *)
Definition rebuild_cause : Prop := bad_header F \/ huge_record F \/ block_cause.

Lemma recreate_step_ok s g : keeps F s ->
  match recreate_step uncomp s g with
  | (Ok _, s1, g1) => keeps F s1 /\ s_pos s < Zlen F /\ (s_pos s < s_pos s1 \/ bad_header F \/ huge_record F) /\
      (counted (mg_map g) -> counted (mg_map g1))
  | (Throw _, s1, g1) => keeps F s1 /\ (counted (mg_map g) -> counted (mg_map g1))
  | (UB _, _, _) => rebuild_cause
  end.
Proof.
  intros H. unfold recreate_step.
  match goal with |- context [skip_records ?f ?p ?t ?s ?b] => pose proof (skip_ok p f t s b H (or_introl (enough_fuel s (proj2 H)))) as SK;
    destruct (skip_records f p t s b) as [[[x|x|u] st] s1] end.
  - destruct SK as (K1 & L1 & PR). pose proof (read_record_ok F s1 (b_bytes (mg_raw g)) K1) as R.
    destruct (read_record s1 (b_bytes (mg_raw g))) as [[[ri buf]|e|u] s2]; [|auto|left; exact R].
    destruct R as (K2 & HH & L2 & P2 & PR2).
    pose proof (unpacked_payload ri buf [] HH) as U. destruct HH as (x0 & Sx & Px). rewrite Sx. cbn [bind].
    destruct (unpacked uncomp ri buf []) as [d|e|u]; cbn [bind]; [|cbn [mg_setraw mg_map]; auto|destruct U].
    set (g1 := mg_setraw g buf).
    assert (PR3 : s_pos s < s_pos s2 \/ bad_header F \/ huge_record F).
    { destruct PR as [PR|PR]; [|right; exact PR]. destruct PR2 as [PR2|PR2]; [left; lia|right; exact PR2]. }
    destruct (bytes_eqb (ri_name ri) header_record).
    { destruct (read_header_record [str "__dummy__"] d) as [h|e|u] eqn:E; cbn [bind].
      - split; [exact K2|]. split; [exact L1|]. split; [exact PR3|]. intros Hc. apply counted_add. exact Hc.
      - auto.
      - right; right. exists d. split; [exact U|]. apply read_header_cause in E. tauto. }
    destruct (bytes_eqb (ri_name ri) run_record).
    { destruct (read_run_record x0) as [h|e|u] eqn:E; cbn [bind].
      - split; [exact K2|]. split; [exact L1|]. split; [exact PR3|]. intros Hc. apply counted_add. exact Hc.
      - auto.
      - right; right. exists x0. split; [left; exact Px|]. apply read_run_cause in E. tauto. }
    auto.
  - auto.
  - destruct SK as [SK|SK]; [left; exact SK|right; left; exact SK].
Qed.

Lemma recreate_loop_ok : forall fuel s g, keeps F s ->
  (1 <= fuel)%nat /\ (s_pos s < Zlen F -> Zlen F - s_pos s < Z.of_nat fuel) \/ bad_header F \/ huge_record F ->
  match recreate_loop uncomp fuel s g with
  | (Ok _, s1, g1) => keeps F s1 /\ (counted (mg_map g) -> counted (mg_map g1))
  | (Throw _, s1, g1) => True
  | (UB _, _, _) => rebuild_cause
  end.
Proof.
  induction fuel as [|fuel IH]; intros s g K E; cbn [recreate_loop].
  { destruct E as [[E _]|[E|E]]; [lia|left; exact E|right; left; exact E]. }
  pose proof (recreate_step_ok s g K) as RS. destruct (recreate_step uncomp s g) as [[[x|x|u] s1] g1]; [| |exact RS].
  - destruct RS as (K1 & L1 & PR & C1). specialize (IH s1 g1 K1).
    assert (E1 : (1 <= fuel)%nat /\ (s_pos s1 < Zlen F -> Zlen F - s_pos s1 < Z.of_nat fuel) \/ bad_header F \/ huge_record F).
    { destruct E as [[E E']|E]; [|right; exact E]. destruct PR as [PR|PR]; [|right; exact PR]. left. destruct K as [_ K]. lia. }
    specialize (IH E1). destruct (recreate_loop uncomp fuel s1 g1) as [[[y|y|u] s2] g2]; auto.
    destruct IH as [I1 I2]. split; [exact I1|]. auto.
  - destruct RS as [K1 C1]. destruct x; try exact Logic.I. split; [|exact C1]. destruct K1 as [D1 P1]. split; [exact D1|exact P1].
Qed.

Lemma recreate_map_ok s g : keeps F s ->
  match recreate_map uncomp s g with
  | (Ok _, s1, g1) => keeps F s1 /\ (counted (mg_map g) -> counted (mg_map g1))
  | (Throw _, s1, g1) => True
  | (UB _, _, _) => rebuild_cause
  end.
Proof.
  intros K. unfold recreate_map. destruct (seek_stream s 0) as [x s1] eqn:E.
  apply seek_stream_ok in E; [|apply K]. destruct E as (D1 & P1 & NU & _).
  destruct x as [[]|e|u]; [|exact Logic.I|destruct (NU u eq_refl)].
  assert (K1 : keeps F s1) by (split; [destruct K; congruence|exact P1]).
  pose proof (recreate_loop_ok (stream_fuel s) s1 g K1) as RL.
  assert (EN : (1 <= stream_fuel s)%nat /\ (s_pos s1 < Zlen F -> Zlen F - s_pos s1 < Z.of_nat (stream_fuel s)) \/ bad_header F \/ huge_record F).
  { left. unfold stream_fuel. destruct K as [-> _]. unfold Zlen. lia. }
  specialize (RL EN). destruct (recreate_loop uncomp (stream_fuel s) s1 g) as [[[y|y|u] s2] g2]; auto.
  destruct RL as [K2 C2]. destruct (seek_stream s2 0) as [z s3] eqn:E2.
  apply seek_stream_ok in E2; [|apply K2]. destruct E2 as (D3 & P3 & NU3 & _).
  destruct z as [[]|e|u]; [|exact Logic.I|destruct (NU3 u eq_refl)].
  split; [|exact C2]. split; [destruct K2; congruence|exact P3].
Qed.

(** ** The chain of random access records *)

(** the reader finds the random access record [a] at position [p] of the file; or it finds none *)
Definition found (p : Z) (a : racc) : Prop :=
  exists s g s' g', s_data s = F /\ at_position p read_access s g = (Ok true, s', g') /\ mg_last g' = Some a.
Definition not_found (p : Z) : Prop :=
  exists s g s' g', s_data s = F /\ at_position p read_access s g = (Ok false, s', g').
(** the file record, at the end of the file, points to something else than a random access record *)
Definition dangling : Prop := exists f, found (-136) f /\ not_found (ra_next f).
(** a random access record points back to the one before *)
Definition link (p q : Z) : Prop := exists a, found p a /\ ra_prev a = q /\ q <> 0.
(** negative positions are relative to the end *)
Definition place (p : Z) : Z := if p <? 0 then p + Zlen F else p.
(** the chain leads back to where it was before *)
Definition cyclic : Prop := exists p q, clos_trans Z link p q /\ place p = place q.

Lemma at_access_ok p s g : keeps F s ->
  match at_position p read_access s g with
  | (Ok true, s1, g1) => keeps F s1 /\ 0 <= place p < Zlen F /\ mg_map g1 = mg_map g /\ mg_file g1 = mg_file g /\
      exists a, mg_list g1 = mg_list g ++ [a]
  | (Ok false, s1, g1) => keeps F s1 /\ mg_map g1 = mg_map g /\ mg_file g1 = mg_file g /\ mg_list g1 = mg_list g
  | (Throw _, s1, g1) => True
  | (UB _, _, _) => bad_header F \/ block_cause
  end.
Proof.
  intros K. unfold at_position. destruct (seek_stream s p) as [x s1] eqn:E.
  apply seek_stream_ok in E; [|apply K]. destruct E as (D1 & P1 & NU & PS).
  destruct x as [[]|e|u]; [|exact Logic.I|destruct (NU u eq_refl)].
  assert (K1 : keeps F s1) by (split; [destruct K; congruence|exact P1]).
  specialize (PS eq_refl). destruct K as [HF _]. rewrite HF in PS. fold (place p) in PS.
  pose proof (read_access_ok s1 g K1) as R. destruct (read_access s1 g) as [[[[|]|e|u] s2] g2]; auto.
  destruct R as (R1 & R2 & R3). split; [exact R1|]. split; [lia|exact R3].
Qed.
Lemma at_index_ok p s g : keeps F s ->
  match at_position p (read_index_record uncomp) s g with
  | (Ok _, s1, g1) => keeps F s1 /\ mg_list g1 = mg_list g /\ mg_file g1 = mg_file g /\ (counted (mg_map g) -> counted (mg_map g1))
  | (Throw _, s1, g1) => True
  | (UB _, _, _) => bad_header F \/ block_cause \/ exists d, payload uncomp F d /\ index_overflow d
  end.
Proof.
  intros K. unfold at_position. destruct (seek_stream s p) as [x s1] eqn:E.
  apply seek_stream_ok in E; [|apply K]. destruct E as (D1 & P1 & NU & PS).
  destruct x as [[]|e|u]; [|exact Logic.I|destruct (NU u eq_refl)].
  apply read_index_record_ok. split; [destruct K; congruence|exact P1].
Qed.

Lemma mg_last_app g l a : mg_list g = l ++ [a] -> mg_last g = Some a.
Proof. intros E. unfold mg_last. rewrite E, map_app. cbn [map]. apply last_last. Qed.

(** why the index cannot be read *)
Definition index_cause : Prop :=
  rebuild_cause \/ (exists d, payload uncomp F d /\ index_overflow d) \/ dangling \/ cyclic.

(** pigeons: positions that are visited *)
Lemma NoDup_places (l : list Z) : (forall p, In p l -> 0 <= place p < Zlen F) -> NoDup (map place l) -> (length l <= length F)%nat.
Proof.
  intros H N.
  assert (I : incl (map (fun p => Z.to_nat (place p)) l) (seq 0 (length F))).
  { intros x Hx. apply in_map_iff in Hx. destruct Hx as (p & <- & Hp). apply in_seq. specialize (H p Hp). unfold Zlen in H. lia. }
  assert (N' : NoDup (map (fun p => Z.to_nat (place p)) l)).
  { clear I. induction l as [|p l IH]; [constructor|]. cbn [map] in N |- *. inversion N as [|? ? Hn N']; subst.
    constructor; [|apply IH; [intros q Hq; apply H; right; exact Hq|exact N']].
    intros Hi. apply Hn. apply in_map_iff in Hi. destruct Hi as (q & Eq & Hq). apply in_map_iff. exists q. split; [|exact Hq].
    pose proof (H p (or_introl eq_refl)). pose proof (H q (or_intror Hq)). lia. }
  pose proof (NoDup_incl_length N' I) as L. rewrite map_length, seq_length in L. exact L.
Qed.

(** [l]: the positions visited before [p], the last one first; each leads to [p] *)
Lemma chain_loop_ok : forall fuel p s g l, keeps F s ->
  (forall q, In q l -> 0 <= place q < Zlen F /\ clos_trans Z link q p) ->
  (p <> 0 -> cyclic \/ NoDup (map place l)) ->
  (length F < length l + fuel)%nat ->
  match chain_loop uncomp fuel p s g with
  | (Ok _, s1, g1) => keeps F s1 /\ (counted (mg_map g) -> counted (mg_map g1))
  | (Throw _, s1, g1) => True
  | (UB _, _, _) => index_cause
  end.
Proof.
  induction fuel as [|fuel IH]; intros p s g l K HL HN Hf; cbn [chain_loop]; destruct (Z.eqb_spec p 0) as [Ep|Ep]; auto.
  { destruct (HN Ep) as [C|N]; [right; right; right; exact C|]. exfalso.
    apply NoDup_places in N; [lia|]. intros q Hq. apply HL, Hq. }
  pose proof (at_access_ok p s g K) as A. destruct (at_position p read_access s g) as [[[[|]|e|u] s1] g1] eqn:EA; auto.
  2:{ destruct A as [A|A]; left; [left; exact A|right; right; exact A]. }
  destruct A as (K1 & L1 & A1 & A2 & a & A3). pose proof (mg_last_app _ _ _ A3) as ML. rewrite ML.
  pose proof (at_index_ok (ra_index a) s1 g1 K1) as B.
  destruct (at_position (ra_index a) (read_index_record uncomp) s1 g1) as [[[b|e|u] s2] g2]; auto.
  2:{ destruct B as [B|[B|B]]; [left; left; exact B|left; right; right; exact B|right; left; exact B]. }
  destruct B as (K2 & _ & _ & C2).
  assert (FD : found p a) by (exists s, g, s1, g1; destruct K; auto).
  destruct (Z.eq_dec (ra_prev a) 0) as [Ez|Ez].
  { rewrite Ez. destruct fuel; cbn [chain_loop]; change (0 =? 0) with true; cbv iota; rewrite <- A1; auto. }
  assert (LK : link p (ra_prev a)) by (exists a; auto).
  specialize (IH (ra_prev a) s2 g2 (p :: l) K2).
  match type of IH with ?X -> ?Y -> ?Z -> _ => assert (H1 : X); [|assert (H2 : Y); [|assert (H3 : Z)]] end.
  { intros q [<-|Hq]; [split; [exact L1|apply t_step, LK]|]. destruct (HL q Hq) as [Q1 Q2]. split; [exact Q1|].
    eapply t_trans; [exact Q2|apply t_step, LK]. }
  { intros _. destruct (HN Ep) as [C|N]; [left; exact C|].
    destruct (in_dec Z.eq_dec (place p) (map place l)) as [Hi|Hi].
    - left. apply in_map_iff in Hi. destruct Hi as (q & Eq & Hq). exists q, p. split; [apply HL, Hq|exact Eq].
    - right. cbn [map]. constructor; assumption. }
  { cbn [length]. lia. }
  specialize (IH H1 H2 H3). destruct (chain_loop uncomp fuel (ra_prev a) s2 g2) as [[[y|y|u] s3] g3]; auto.
  destruct IH as [I1 I2]. split; [exact I1|]. rewrite <- A1. auto.
Qed.

Lemma create_map_ok s g : keeps F s ->
  match create_map uncomp s g with
  | (Ok _, s1, g1) => keeps F s1 /\ (counted (mg_map g) -> counted (mg_map g1))
  | (Throw _, s1, g1) => True
  | (UB _, _, _) => index_cause
  end.
Proof.
  intros K. unfold create_map. change (- access_size) with (-136).
  pose proof (at_access_ok (-136) s g K) as A. destruct (at_position (-136) read_access s g) as [[[[|]|e|u] s1] g1] eqn:EA; auto.
  3:{ destruct A as [A|A]; left; [left; exact A|right; right; exact A]. }
  2:{ destruct A as (K1 & A1 & _). pose proof (recreate_map_ok s1 g1 K1) as R. rewrite A1 in R.
      destruct (recreate_map uncomp s1 g1) as [[[x|x|u] s2] g2]; auto. left. exact R. }
  destruct A as (K1 & _ & A1 & _ & f & A3). pose proof (mg_last_app _ _ _ A3) as ML.
  assert (FD : found (-136) f) by (exists s, g, s1, g1; destruct K; auto).
  cbn [take_file mg_file]. rewrite ML. set (g2 := take_file g1).
  pose proof (at_access_ok (ra_next f) s1 g2 K1) as B.
  destruct (at_position (ra_next f) read_access s1 g2) as [[[b|e|u] s3] g3] eqn:EB; auto.
  2:{ destruct B as [B|B]; left; [left; exact B|right; right; exact B]. }
  assert (KK : keeps F s3 /\ mg_map g3 = mg_map g /\ ((exists a, mg_last g3 = Some a) \/ dangling)).
  { destruct b.
    - destruct B as (B1 & _ & B2 & _ & a & B4). split; [exact B1|]. split; [rewrite B2; exact A1|].
      left. exists a. eapply mg_last_app. exact B4.
    - destruct B as (B1 & B2 & _). split; [exact B1|]. split; [rewrite B2; exact A1|].
      right. exists f. split; [exact FD|]. exists s1, g2, s3, g3. destruct K1; auto. }
  destruct KK as (K3 & M3 & [(a & EL)|D]).
  2:{ destruct (mg_last g3) as [a|] eqn:EL; [|right; right; left; exact D].
      revert EL. generalize a. clear a. intros a EL. 
      (* the list was not empty: the record before is taken *)
      pose proof (at_index_ok (ra_index a) s3 g3 K3) as C.
      destruct (at_position (ra_index a) (read_index_record uncomp) s3 g3) as [[[c|e|u] s4] g4]; auto.
      2:{ destruct C as [C|[C|C]]; [left; left; exact C|left; right; right; exact C|right; left; exact C]. }
      destruct C as (K4 & _ & _ & C4). rewrite M3 in C4.
      pose proof (chain_loop_ok (stream_fuel s) (ra_prev a) s4 g4 [] K4) as CL.
      assert (H1 : forall q, In q [] -> 0 <= place q < Zlen F /\ clos_trans Z link q (ra_prev a)) by (intros q []).
      assert (H2 : ra_prev a <> 0 -> cyclic \/ NoDup (map place [])) by (intros _; right; constructor).
      assert (H3 : (length F < length (@nil Z) + stream_fuel s)%nat) by (unfold stream_fuel; destruct K as [-> _]; cbn [length]; lia).
      specialize (CL H1 H2 H3). destruct (chain_loop uncomp (stream_fuel s) (ra_prev a) s4 g4) as [[[y|y|u] s5] g5]; auto.
      destruct CL as [K5 C5]. destruct (seek_stream s5 0) as [z s6] eqn:E6.
      apply seek_stream_ok in E6; [|apply K5]. destruct E6 as (D6 & P6 & NU & _).
      destruct z as [[]|e|u]; [|exact Logic.I|destruct (NU u eq_refl)].
      split; [split; [destruct K5; congruence|exact P6]|auto]. }
  rewrite EL.
  pose proof (at_index_ok (ra_index a) s3 g3 K3) as C.
  destruct (at_position (ra_index a) (read_index_record uncomp) s3 g3) as [[[c|e|u] s4] g4]; auto.
  2:{ destruct C as [C|[C|C]]; [left; left; exact C|left; right; right; exact C|right; left; exact C]. }
  destruct C as (K4 & _ & _ & C4). rewrite M3 in C4.
  pose proof (chain_loop_ok (stream_fuel s) (ra_prev a) s4 g4 [] K4) as CL.
  assert (H1 : forall q, In q [] -> 0 <= place q < Zlen F /\ clos_trans Z link q (ra_prev a)) by (intros q []).
  assert (H2 : ra_prev a <> 0 -> cyclic \/ NoDup (map place [])) by (intros _; right; constructor).
  assert (H3 : (length F < length (@nil Z) + stream_fuel s)%nat) by (unfold stream_fuel; destruct K as [-> _]; cbn [length]; lia).
  specialize (CL H1 H2 H3). destruct (chain_loop uncomp (stream_fuel s) (ra_prev a) s4 g4) as [[[y|y|u] s5] g5]; auto.
  destruct CL as [K5 C5]. destruct (seek_stream s5 0) as [z s6] eqn:E6.
  apply seek_stream_ok in E6; [|apply K5]. destruct E6 as (D6 & P6 & NU & _).
  destruct z as [[]|e|u]; [|exact Logic.I|destruct (NU u eq_refl)].
  split; [split; [destruct K5; congruence|exact P6]|auto].
Qed.

Lemma init_append_ok s g : keeps F s ->
  match init_append uncomp s g with
  | (UB _, _, _) => rebuild_cause
  | _ => True
  end.
Proof.
  intros K. unfold init_append. change (- access_size) with (-136).
  pose proof (at_access_ok (-136) s g K) as A. destruct (at_position (-136) read_access s g) as [[[[|]|e|u] s1] g1] eqn:EA; auto.
  3:{ destruct A as [A|A]; [left; exact A|right; right; exact A]. }
  2:{ destruct A as (K1 & _). pose proof (recreate_map_ok s1 g1 K1) as R.
      destruct (recreate_map uncomp s1 g1) as [[[x|x|u] s2] g2]; auto. }
  destruct A as (K1 & _ & A1 & _ & f & A3). cbn [take_file mg_file]. rewrite (mg_last_app _ _ _ A3).
  pose proof (at_access_ok (ra_next f) s1 (take_file g1) K1) as B.
  destruct (at_position (ra_next f) read_access s1 (take_file g1)) as [[[b|e|u] s3] g3] eqn:EB; auto.
  destruct B as [B|B]; [left; exact B|right; right; exact B].
Qed.
End Index.

(** * Untrusted input: files *)

From Verif Require Import Bytes StrMap SioModel SioProofs Ieee ObjModel EventModel IndexModel FileModel
  EventProofs InputSpec InputProofs InputObj InputEvent.

(** ** The header of a record *)

Lemma word_at_mid a w c : length w = 4%nat -> word_at (a ++ w ++ c) (Zlen a) = unbe w.
Proof.
  intros L. unfold word_at, sub. f_equal. unfold Zlen. rewrite Nat2Z.id.
  rewrite skipn_app_exact by reflexivity. apply firstn_app_exact. symmetry. exact L.
Qed.

Lemma split4 (l : bytes) : (4 <= length l)%nat -> exists a b, l = a ++ b /\ length a = 4%nat.
Proof.
  intros H. exists (firstn 4 l), (skipn 4 l). rewrite firstn_skipn, firstn_length. split; [reflexivity|lia].
Qed.

Lemma s_read_good s n bs s' : 0 <= s_pos s -> 0 <= n -> s_read s n = (bs, s') -> s_good s' = true ->
  bs = sub (s_data s) (s_pos s) n /\ s_pos s + n <= Zlen (s_data s) \/ n = 0 /\ bs = [].
Proof.
  intros Hp Hn. unfold s_read, s_avail. destruct (negb (s_good s)).
  { intros E. injection E as <- <-. unfold s_good. cbn. rewrite andb_false_r. discriminate. }
  destruct (Z.leb_spec n (Z.max 0 (Zlen (s_data s) - s_pos s))) as [L|L]; intros E; injection E as <- <-; cbn.
  - intros _. destruct (Z.eq_dec n 0) as [->|Hz]; [right; split; reflexivity|]. left. split; [reflexivity|lia].
  - discriminate.
Qed.

Lemma s_read_stream s n bs s' : 0 <= n -> 0 <= s_pos s -> s_read s n = (bs, s') ->
  s_data s' = s_data s /\ s_open s' = s_open s /\ s_pos s <= s_pos s'.
Proof.
  intros Hn Hp. unfold s_read. destruct (negb (s_good s)); [intros E; injection E as <- <-; cbn; repeat split; lia|].
  destruct (n <=? s_avail s); intros E; injection E as <- <-; cbn; unfold s_avail; repeat split; lia.
Qed.

Lemma word_at_nonneg b p : 0 <= word_at b p.
Proof. unfold word_at. apply unbe_range. Qed.

Lemma land3 x : 0 <= Z.land x 3 <= 3.
Proof.
  replace (Z.land x 3) with (x mod 2 ^ 2) by (rewrite <- Z.land_ones by lia; reflexivity).
  pose proof (Z.mod_pos_bound x (2 ^ 2) ltac:(lia)). lia.
Qed.

(** what is known about a record header that was read *)
Lemma record_info_ok s outbuf ri buf s1 : 0 <= s_pos s ->
  read_record_info s outbuf = (Ok (ri, buf), s1) ->
  s_data s1 = s_data s /\ 0 <= s_pos s1 /\ s_pos s < Zlen (s_data s) /\ s_pos s <= ri_end ri /\
  ri_start ri = s_pos s /\ 0 <= ri_hlen ri /\ 0 <= ri_dlen ri /\ Zlen buf = ri_hlen ri /\
  (s_good s1 = true \/ s_fail s1 = true) /\
  (s_good s1 = true -> s_pos s < ri_end ri \/ bad_header (s_data s) \/ huge_record (s_data s)).
Proof.
  intros Hp. unfold read_record_info.
  destruct (negb (s_open s)); [discriminate|].
  destruct (negb (s_good s)) eqn:G; [discriminate|].
  destruct (s_read s 8) as [bs1 s0] eqn:R1.
  destruct (s_eof s0) eqn:Ef; [discriminate|].
  destruct (negb (s_good s0)) eqn:G1; [discriminate|].
  assert (B1 : bs1 = sub (s_data s) (s_pos s) 8 /\ s_pos s + 8 <= Zlen (s_data s) /\ s_pos s0 = s_pos s + 8 /\
               s_data s0 = s_data s).
  { unfold s_read in R1. rewrite G in R1. unfold s_avail in R1.
    destruct (Z.leb_spec 8 (Z.max 0 (Zlen (s_data s) - s_pos s))); injection R1 as <- <-; [|discriminate].
    cbn. repeat split; lia. }
  destruct B1 as (-> & L1 & P1 & D1).
  set (F := s_data s) in *. set (p := s_pos s) in *.
  set (w := sub F p 8).
  destruct (sub_split F p 8) as (pre & post & E & Lp); try lia. fold w in E.
  assert (Lw : length w = 8%nat) by (apply sub_len; lia).
  set (buf0 := put (resize outbuf max_record_info_len) 0 w).
  assert (Eb : exists rest, buf0 = w ++ rest).
  { unfold buf0, put. change (Z.to_nat 0) with 0%nat. cbn [firstn app]. eexists. reflexivity. }
  destruct Eb as [rest Eb].
  destruct (split4 w ltac:(lia)) as (a & b & Ew & La).
  assert (Lb : length b = 4%nat) by (rewrite Ew, app_length in Lw; lia).
  assert (W0 : word_at buf0 0 = unbe a).
  { rewrite Eb, Ew, <- app_assoc. apply (word_at_mid [] a). exact La. }
  assert (W4 : word_at buf0 4 = unbe b).
  { rewrite Eb, Ew, <- app_assoc. replace 4 with (Zlen a) by (unfold Zlen; lia). apply word_at_mid. exact Lb. }
  destruct (Z.eqb_spec (word_at buf0 4) record_marker) as [Em|Em]; cbn [negb]; [|discriminate].
  set (hlen := word_at buf0 0) in *.
  assert (Hh : 0 <= hlen) by apply word_at_nonneg.
  destruct (s_read s0 (u32 (hlen - 8))) as [bs2 s2] eqn:R2.
  destruct (max_record_info_len <? 8 + Zlen bs2); [discriminate|].
  set (buf2 := put buf0 8 bs2).
  destruct (max_record_name_len <? word_at buf2 20); [discriminate|].
  set (dlen := word_at buf2 12). set (opts := word_at buf2 8).
  cbv zeta.
  set (tot := if is_compressed opts then u32 (u32 (dlen + hlen) + Z.land (4 - Z.land dlen 3) 3) else u32 (dlen + hlen)).
  intros X. injection X as <- <- <-. cbn [ri_start ri_end ri_hlen ri_dlen].
  pose proof (s_read_stream s0 (u32 (hlen - 8)) bs2 s2 (u32_nonneg _) ltac:(lia) R2) as (D2 & _ & P2).
  rewrite D2, D1. fold F.
  assert (Ht : 0 <= tot) by (unfold tot; destruct (is_compressed opts); apply u32_nonneg).
  split; [reflexivity|]. split; [lia|]. split; [lia|]. split; [lia|]. split; [reflexivity|]. split; [exact Hh|].
  split; [apply word_at_nonneg|]. split; [apply resize_length; exact Hh|].
  split.
  { clear - R2. unfold s_read in R2. destruct (negb (s_good s0)); [injection R2 as <- <-; right; reflexivity|].
    destruct (_ <=? _); injection R2 as <- <-; [left|right]; reflexivity. }
  intros Hg.
  assert (V0 : word_in F p hlen).
  { exists pre, a, (b ++ post). rewrite E, Ew, <- app_assoc. auto. }
  assert (V4 : word_in F (p + 4) rmarker).
  { exists (pre ++ a), b, post. rewrite E, Ew, <- !app_assoc. repeat split; auto.
    - unfold Zlen in *. rewrite app_length, La. lia.
    - change rmarker with record_marker. congruence. }
  destruct (Z_le_dec 16 hlen) as [H16|H16]; [|right; left; exists p, hlen; split; [exact V0|split; [exact V4|lia]]].
  destruct (Z_le_dec hlen 116) as [H116|H116]; [|right; left; exists p, hlen; split; [exact V0|split; [exact V4|lia]]].
  assert (Eu : u32 (hlen - 8) = hlen - 8) by (unfold u32; apply Z.mod_small; unfold two32; lia).
  rewrite Eu in R2.
  destruct (s_read_good s0 (hlen - 8) bs2 s2 ltac:(lia) ltac:(lia) R2 Hg) as [[B2 L2]|[B2 _]]; [|lia].
  rewrite D1, P1 in *.
  destruct (sub_split F (p + 8) (hlen - 8)) as (pre2 & post2 & E2 & Lp2); try lia.
  assert (Lb2 : length bs2 = Z.to_nat (hlen - 8)) by (rewrite B2; apply sub_len; lia).
  rewrite <- B2 in E2.
  destruct (split4 bs2 ltac:(lia)) as (o & r1 & Eo & Lo).
  destruct (split4 r1) as (dl & r2 & Edl & Ldl). { rewrite Eo, app_length in Lb2. lia. }
  assert (Ebuf : exists rest2, buf2 = w ++ bs2 ++ rest2).
  { unfold buf2, put. rewrite Eb. change (Z.to_nat 8) with 8%nat. rewrite firstn_app_exact by (symmetry; exact Lw).
    eexists. reflexivity. }
  destruct Ebuf as [rest2 Ebuf].
  assert (Wd : dlen = unbe dl).
  { unfold dlen. rewrite Ebuf, Eo, Edl. replace 12 with (Zlen (w ++ o)) by (unfold Zlen; rewrite app_length; lia).
    replace (w ++ (o ++ dl ++ r2) ++ rest2) with ((w ++ o) ++ dl ++ (r2 ++ rest2)) by (rewrite <- !app_assoc; reflexivity).
    apply word_at_mid. exact Ldl. }
  assert (V12 : word_in F (p + 12) dlen).
  { exists (pre2 ++ o), dl, (r2 ++ post2). rewrite E2, Eo, Edl, <- !app_assoc. repeat split; auto.
    unfold Zlen in *. rewrite app_length. lia. }
  destruct (Z_le_dec 4294967296 (hlen + dlen + 3)) as [Hb|Hb].
  - right; right. exists p, hlen, dlen. auto.
  - left. assert (Hd : 0 <= dlen) by apply word_at_nonneg.
    assert (U1 : u32 (dlen + hlen) = dlen + hlen) by (unfold u32; apply Z.mod_small; unfold two32; lia).
    unfold tot. rewrite U1. destruct (is_compressed opts); [|lia].
    assert (Lm : 0 <= Z.land (4 - Z.land dlen 3) 3 <= 3).
    { apply land3. }
    assert (U2 : u32 (dlen + hlen + Z.land (4 - Z.land dlen 3) 3) = dlen + hlen + Z.land (4 - Z.land dlen 3) 3)
      by (unfold u32; apply Z.mod_small; unfold two32; lia).
    rewrite U2. lia.
Qed.

(** the data of a record in the buffer is a part of the file *)
Definition holds_part (F : bytes) (ri : record_info) (buf : bytes) : Prop :=
  exists x, span buf (ri_hlen ri) (ri_dlen ri) = Ok x /\ part_of x F.

Lemma record_data_ok s ri buf buf' s2 : 0 <= s_pos s -> 0 <= ri_hlen ri -> 0 <= ri_dlen ri -> 0 <= ri_start ri ->
  read_record_data s ri buf (ri_hlen ri) = (Ok buf', s2) ->
  s_data s2 = s_data s /\ (0 <= ri_end ri -> s_pos s2 = ri_end ri) /\ holds_part (s_data s) ri buf'.
Proof.
  intros Hp Hh Hd Hs. unfold read_record_data.
  destruct (negb (s_open s)); [discriminate|]. destruct (negb (s_good s)) eqn:Gs; [discriminate|].
  set (s1 := s_seek s (ri_start ri + ri_hlen ri)).
  destruct (negb (s_good s1)) eqn:G1; [discriminate|].
  destruct (s_read s1 (ri_dlen ri)) as [bs s3] eqn:R.
  destruct (negb (s_good s3)) eqn:G3; [discriminate|].
  destruct (negb (s_good (s_seek s3 (ri_end ri)))) eqn:G4; [discriminate|].
  intros X. injection X as <- <-.
  assert (D1 : s_data s1 = s_data s /\ s_pos s1 = ri_start ri + ri_hlen ri).
  { unfold s1, s_seek in *. destruct (s_fail s); [cbn in G1; unfold s_good in G1; cbn in G1; discriminate|].
    destruct (Z.ltb_spec (ri_start ri + ri_hlen ri) 0); [lia|]. auto. }
  destruct D1 as [D1 P1].
  pose proof (s_read_stream s1 (ri_dlen ri) bs s3 Hd ltac:(lia) R) as (D3 & _ & _).
  assert (D4 : s_data (s_seek s3 (ri_end ri)) = s_data s /\ (0 <= ri_end ri -> s_pos (s_seek s3 (ri_end ri)) = ri_end ri)).
  { unfold s_seek in *. destruct (s_fail s3) eqn:Fs.
    - unfold s_good in G3. rewrite Fs, andb_false_r in G3. discriminate.
    - destruct (Z.ltb_spec (ri_end ri) 0); cbn; rewrite D3, D1; split; auto; lia. }
  destruct D4 as [D4 P4]. split; [exact D4|]. split; [exact P4|].
  assert (G3' : s_good s3 = true) by (destruct (s_good s3); [reflexivity|discriminate]).
  set (b1 := resize buf (ri_hlen ri + ri_dlen ri)).
  assert (L1 : Zlen b1 = ri_hlen ri + ri_dlen ri) by (apply resize_length; lia).
  assert (Lbs : Zlen bs = ri_dlen ri /\ part_of bs (s_data s)).
  { destruct (s_read_good s1 (ri_dlen ri) bs s3 ltac:(lia) Hd R G3') as [[-> L]|[Ez ->]].
    - rewrite D1, P1 in *. split; [unfold Zlen; rewrite sub_len by lia; lia|].
      destruct (sub_split (s_data s) (ri_start ri + ri_hlen ri) (ri_dlen ri)) as (x & y & Exy & _); try lia.
      exists x, y. exact Exy.
    - rewrite Ez. split; [reflexivity|]. exists [], (s_data s). reflexivity. }
  destruct Lbs as [Lbs Pt]. exists bs. split; [|exact Pt].
  assert (L2 : Zlen (put b1 (ri_hlen ri) bs) = ri_hlen ri + ri_dlen ri).
  { unfold Zlen at 1. rewrite put_length by lia. exact L1. }
  unfold span. rewrite L2, Z.ltb_irrefl. f_equal.
  unfold put, sub. unfold Zlen in L1, Lbs.
  rewrite skipn_app_exact by (rewrite firstn_length; lia).
  rewrite firstn_app_exact by lia. reflexivity.
Qed.

(** ** Reading records *)

(** what does not change in a reader *)
Definition rd_inv (names : list bytes) (r : reader) : Prop := 0 < rd_next r /\ rd_names r = names.
(** the fuel suffices from this stream on *)
Definition enough (fuel : nat) (s : ifs) : Prop :=
  (1 <= fuel)%nat /\ (s_good s = true -> s_pos s < Zlen (s_data s) -> Zlen (s_data s) - s_pos s < Z.of_nat fuel).

Lemma seek_spec s p : 0 <= p -> s_data (s_seek s p) = s_data s /\
  (s_fail s = true /\ s_good (s_seek s p) = false /\ s_pos (s_seek s p) = s_pos s \/ s_pos (s_seek s p) = p /\ s_fail s = false).
Proof.
  intros Hp. unfold s_seek. destruct (s_fail s); [cbn; auto|]. destruct (Z.ltb_spec p 0); [lia|]. cbn. auto.
Qed.

Section Records.
Context {St : Type} (F : bytes) (names : list bytes) (C : Prop) (P : St -> Prop).
Context (valid : record_info -> bool) (func : St -> record_info -> bytes -> reader -> Res bool * St * reader).
Context (func_ok : forall st ri buf r, P st -> rd_inv names r -> holds_part F ri buf ->
  match func st ri buf r with
  | (Ok _, st1, r1) => P st1 /\ rd_inv names r1 /\ rd_s r1 = rd_s r
  | (Throw _, _, r1) => rd_inv names r1
  | (UB _, _, _) => C
  end).

Lemma records_cause : forall fuel st r, P st -> rd_inv names r -> s_data (rd_s r) = F -> 0 <= s_pos (rd_s r) ->
  enough fuel (rd_s r) \/ bad_header F \/ huge_record F ->
  match read_records fuel valid func st r with
  | (Ok _, st1, r1) => P st1 /\ rd_inv names r1
  | (Throw _, _, r1) => rd_inv names r1
  | (UB _, _, _) => bad_header F \/ huge_record F \/ C
  end.
Proof.
  induction fuel as [|fuel IH]; intros st r HP Hn HF Hp E; cbn [read_records].
  { destruct E as [[E _]|[E|E]]; [lia|auto|auto]. }
  destruct (read_record_info (rd_s r) (rd_raw r)) as [[[ri buf]|e|u] s1] eqn:RI.
  - assert (Hg : s_good (rd_s r) = true).
    { unfold read_record_info in RI. destruct (negb (s_open (rd_s r))); [discriminate|].
      destruct (s_good (rd_s r)); [reflexivity|]. discriminate. }
    apply record_info_ok in RI; [|exact Hp]. rewrite HF in *.
    destruct RI as (D1 & P1 & L1 & Le & Es & Hh & Hd & Lb & Fl & Pr).
    (* the next stream *)
    assert (NX : forall s2, s_data s2 = F -> s_good s1 = true -> s_pos s2 = ri_end ri -> enough fuel s2 \/ bad_header F \/ huge_record F).
    { intros s2 D2 G1 P2. destruct E as [[_ E2]|E]; [|right; exact E].
      rewrite HF in E2. specialize (E2 Hg L1). destruct (Pr G1) as [Pg|Pg]; [|right; exact Pg].
      left. split; [lia|]. rewrite D2, P2. intros _ L. lia. }
    destruct (valid ri).
    + destruct (read_record_data s1 ri buf (ri_hlen ri)) as [[buf'|e|u] s2] eqn:RD.
      * assert (G1 : s_good s1 = true).
        { unfold read_record_data in RD. destruct (negb (s_open s1)); [discriminate|].
          destruct (s_good s1); [reflexivity|]. discriminate. }
        apply record_data_ok in RD; [|lia|exact Hh|exact Hd|lia]. destruct RD as (D2 & P2 & HH).
        specialize (P2 ltac:(lia)). rewrite D1 in *.
        pose proof (func_ok st ri buf' (with_raw r s2 buf') HP Hn HH) as FO.
        destruct (func st ri buf' (with_raw r s2 buf')) as [[[[|]|e|u] st1] r1].
        -- destruct FO as (Q1 & Q2 & Q3). cbn [rd_s with_raw] in Q3.
           apply IH; [exact Q1|exact Q2|rewrite Q3; exact D2|rewrite Q3, P2; lia|rewrite Q3; auto].
        -- destruct FO as (Q1 & Q2 & _). auto.
        -- exact FO.
        -- auto.
      * exact Hn.
      * exfalso. eapply read_record_data_safe; eauto.
    + destruct (seek_spec s1 (ri_end ri) ltac:(lia)) as (D2 & S2).
      apply IH; [exact HP|exact Hn|cbn [rd_s with_raw]; congruence| |]; cbn [rd_s with_raw].
      * destruct S2 as [(_ & _ & S2)|(S2 & _)]; lia.
      * destruct S2 as [(S2 & S3 & _)|(S2 & S3)].
        -- destruct E as [[_ E2]|E]; [|right; exact E]. rewrite HF in E2. specialize (E2 Hg L1).
           left. split; [lia|]. rewrite S3. discriminate.
        -- apply NX; [congruence| |exact S2]. destruct Fl as [Fl|Fl]; [exact Fl|congruence].
  - exact Hn.
  - apply read_record_info_cause in RI; [|exact Hp]. rewrite HF in RI.
    left. destruct RI as (_ & hlen & V0 & V4 & N). exists (s_pos (rd_s r)), hlen. split; [exact V0|split; [exact V4|lia]].
Qed.
End Records.

Lemma enough_start r : 0 <= s_pos (rd_s r) -> enough (reader_fuel r) (rd_s r).
Proof.
  intros Hp. unfold reader_fuel, stream_fuel, enough, Zlen. split; [lia|]. intros _ _. lia.
Qed.

(** ** Runs and events *)

Section Causes.
Context (uncomp : bytes -> option bytes) (srt : forall A : Type, (A -> Z) -> list A -> list A) (names : list bytes).

(** why reading a run header of the file [F] can go wrong *)
Definition run_cause (F : bytes) : Prop :=
  exists d, payload uncomp F d /\ (zero_block d \/ long_name d).
(** why reading an event of the file [F] can go wrong *)
Definition event_cause (F : bytes) : Prop :=
  run_cause F
  \/ (exists ed, payload uncomp F ed /\ repeated_block ed)
  \/ (exists hd ed e0, payload uncomp F hd /\ payload uncomp F ed /\ read_header_record names hd = Ok e0 /\
        bad_collection (map (fun nc => c_type (snd nc)) (ev_cols e0)) ed)
  \/ (exists hd ed e0 next e h next', payload uncomp F hd /\ payload uncomp F ed /\ 0 < next /\
        read_header_record names hd = Ok e0 /\ read_event_record srt ed e0 next = Ok (e, h, next') /\ orphan h).

Lemma record_data_cause F ri buf r : holds_part F ri buf ->
  match record_data uncomp ri buf r with
  | (Ok d, r1) => payload uncomp F d /\ rd_next r1 = rd_next r /\ rd_names r1 = rd_names r /\ rd_s r1 = rd_s r
  | (Throw _, r1) => r1 = r
  | (UB _, _) => False
  end.
Proof.
  intros (x & Sx & Px). unfold record_data. rewrite Sx. cbn [bind].
  destruct (is_compressed (ri_options ri)).
  - unfold uncompress. destruct (uncomp x) as [d|] eqn:U; [|reflexivity].
    destruct (ri_ulen ri <? Zlen d); [reflexivity|]. split; [|auto].
    right. exists x, d, (skipn (length d) (resize (rd_comp r) (ri_ulen ri))).
    split; [exact Px|]. split; [exact U|]. unfold put. reflexivity.
  - split; [left; exact Px|auto].
Qed.

Lemma run_func_ok F st ri buf r : rd_inv names r -> holds_part F ri buf ->
  match run_func uncomp st ri buf r with
  | (Ok _, st1, r1) => True /\ rd_inv names r1 /\ rd_s r1 = rd_s r
  | (Throw _, _, r1) => rd_inv names r1
  | (UB _, _, _) => run_cause F
  end.
Proof.
  intros Hr HH. unfold run_func. pose proof (record_data_cause F ri buf r HH) as RD.
  destruct (record_data uncomp ri buf r) as [[d|e|u] r1].
  - destruct RD as (Pd & N1 & N2 & N3).
    assert (Hr1 : rd_inv names r1) by (unfold rd_inv in *; rewrite N1, N2; exact Hr).
    destruct (read_run_record d) as [h|e|u] eqn:R; auto.
    exists d. split; [exact Pd|]. apply read_run_cause in R. tauto.
  - subst r1. exact Hr.
  - destruct RD.
Qed.

(** an event that was read from records of the file *)
Definition from_header (F : bytes) (e : event) : Prop :=
  exists hd, payload uncomp F hd /\ read_header_record names hd = Ok e.
Definition from_record (F : bytes) (l : levent) : Prop :=
  le_rec l = None -> exists ed e0 next next', from_header F e0 /\ payload uncomp F ed /\ 0 < next /\
    read_event_record srt ed e0 next = Ok (le_evt l, le_heap l, next').
Definition st_inv (F : bytes) (st : evst) : Prop :=
  (forall e, es_evt st = Some e -> from_header F e) /\ (forall l, es_res st = Some l -> from_record F l).

Lemma header_step_ok F ri buf r : rd_inv names r -> holds_part F ri buf ->
  match header_step uncomp ri buf r with
  | (Ok e, r1) => from_header F e /\ rd_inv names r1 /\ rd_s r1 = rd_s r
  | (Throw _, r1) => rd_inv names r1
  | (UB _, _) => event_cause F
  end.
Proof.
  intros Hr HH. unfold header_step. pose proof (record_data_cause F ri buf r HH) as RD.
  destruct (record_data uncomp ri buf r) as [[d|e|u] r1].
  - destruct RD as (Pd & N1 & N2 & N3).
    assert (Hr1 : rd_inv names r1) by (unfold rd_inv in *; rewrite N1, N2; exact Hr).
    destruct Hr1 as [Hn Hm]. rewrite Hm.
    destruct (read_header_record names d) as [h|e|u] eqn:R; [|split; assumption|].
    + split; [exists d; auto|]. split; [split; assumption|exact N3].
    + left. exists d. split; [exact Pd|]. apply read_header_cause in R. tauto.
  - subst r1. exact Hr.
  - destruct RD.
Qed.

Lemma event_step_ok F e ri buf r : from_header F e -> rd_inv names r -> holds_part F ri buf ->
  match event_step uncomp srt e ri buf r with
  | (Ok l, r1) => from_record F l /\ rd_inv names r1 /\ rd_s r1 = rd_s r
  | (Throw _, r1) => rd_inv names r1
  | (UB _, _) => event_cause F
  end.
Proof.
  intros He Hr HH. unfold event_step. destruct (rd_lazy r).
  { split; [intros X; discriminate X|]. split; [exact Hr|reflexivity]. }
  pose proof (record_data_cause F ri buf r HH) as RD.
  destruct (record_data uncomp ri buf r) as [[d|x|u] r1].
  - destruct RD as (Pd & N1 & N2 & N3).
    assert (Hr1 : rd_inv names r1) by (unfold rd_inv in *; rewrite N1, N2; exact Hr).
    destruct (read_event_record srt d e (rd_next r1)) as [[[e' h] next]|x|u] eqn:R; [|exact Hr1|].
    + split; [|split; [|exact N3]].
      * intros _. exists d, e, (rd_next r1), next. split; [exact He|]. split; [exact Pd|]. split; [apply Hr1|exact R].
      * destruct Hr1 as [Hn Hm]. split; [|exact Hm]. cbn [rd_next with_next].
        unfold read_event_record in R.
        destruct (read_blocks d (coll_handlers srt (ev_cols e)) (rd_next r1)) as [[[out at_] n2]|x|u] eqn:E; cbn [bind] in R; try discriminate.
        destruct (repeats (map fst out)); [discriminate|]. injection R as _ _ <-. unfold read_blocks in E. apply blocks_fresh in E; [|lia]. lia.
    + destruct He as (hd & Ph & He). apply event_record_cause in R. destruct R as [R|[R|[R|R]]].
      * left. exists d. auto.
      * left. exists d. auto.
      * right; left. exists d. auto.
      * right; right; left. exists hd, d, e. auto.
  - subst r1. exact Hr.
  - destruct RD.
Qed.

Lemma evt_func_ok F st ri buf r : st_inv F st -> rd_inv names r -> holds_part F ri buf ->
  match evt_func uncomp srt st ri buf r with
  | (Ok _, st1, r1) => st_inv F st1 /\ rd_inv names r1 /\ rd_s r1 = rd_s r
  | (Throw _, _, r1) => rd_inv names r1
  | (UB _, _, _) => event_cause F
  end.
Proof.
  intros HS Hr HH. unfold evt_func. destruct (is_header ri).
  - pose proof (header_step_ok F ri buf r Hr HH) as H. destruct (header_step uncomp ri buf r) as [[e|x|u] r1]; auto.
    destruct H as (H1 & H2 & H3). split; [|split; assumption].
    split; cbn; [intros e' X; injection X as <-; exact H1|discriminate].
  - destruct (is_event ri); [|split; [exact HS|split; [exact Hr|reflexivity]]].
    destruct (es_evt st) as [e|] eqn:Ee.
    + pose proof (event_step_ok F e ri buf r (proj1 HS e Ee) Hr HH) as H.
      destruct (event_step uncomp srt e ri buf r) as [[l|x|u] r1]; auto.
      destruct H as (H1 & H2 & H3). split; [|split; assumption].
      split; cbn; [intros e' X; injection X as <-; exact (proj1 HS e Ee)|intros l' X; injection X as <-; exact H1].
    + destruct (rd_lazy r); [exact Hr|]. pose proof (record_data_cause F ri buf r HH) as RD.
      destruct (record_data uncomp ri buf r) as [[d|x|u] r1].
      * destruct RD as (_ & N1 & N2 & _). unfold rd_inv in *. rewrite N1, N2. exact Hr.
      * subst r1. exact Hr.
      * destruct RD.
Qed.

Lemma finish_cause F ign l k : from_record F l -> finish ign l = UB k -> event_cause F.
Proof.
  intros HF. unfold finish. destruct (le_rec l) eqn:El; [discriminate|].
  destruct (HF El) as (ed & e0 & next & next' & (hd & Ph & Hh) & Pe & Hn & R).
  destruct (post_process ign (le_heap l) (le_evt l)) as [h|x|u] eqn:PP; cbn [bind]; try discriminate. intros _.
  right; right; right. exists hd, ed, e0, next, (le_evt l), (le_heap l), next'.
  do 5 (split; [assumption|]).
  destruct (read_header_empty _ _ _ Hh) as [H1 H2].
  eapply post_cause; [exact Hn|exact H1| |exact R|exact PP]. apply str_sorted_nodup. exact H2.
Qed.

(** reading the next run header or event of one file *)
Definition file_cause (C : bytes -> Prop) (F : bytes) : Prop := bad_header F \/ huge_record F \/ C F.

Lemma run_step_cause r : rd_inv names r -> 0 <= s_pos (rd_s r) ->
  match run_step uncomp r with
  | (UB _, _) => file_cause run_cause (s_data (rd_s r))
  | (_, r1) => rd_inv names r1
  end.
Proof.
  intros Hr Hp. unfold run_step.
  pose proof (records_cause (s_data (rd_s r)) names (run_cause (s_data (rd_s r))) (fun _ => True) is_run (run_func uncomp)
    (fun st ri buf r0 _ Hr0 HH => run_func_ok (s_data (rd_s r)) st ri buf r0 Hr0 HH)
    (reader_fuel r) None r Logic.I Hr eq_refl Hp (or_introl (enough_start r Hp))) as H.
  destruct (read_records (reader_fuel r) is_run (run_func uncomp) None r) as [[[x|x|u] st] r1]; [apply H|exact H|exact H].
Qed.

Lemma event_step_all_cause ign r : rd_inv names r -> 0 <= s_pos (rd_s r) ->
  match event_step_all uncomp srt ign r with
  | (UB _, _) => file_cause event_cause (s_data (rd_s r))
  | (_, r1) => rd_inv names r1
  end.
Proof.
  intros Hr Hp. unfold event_step_all. set (F := s_data (rd_s r)).
  assert (S0 : st_inv F (mkES None None)) by (split; discriminate).
  pose proof (records_cause F names (event_cause F) (st_inv F) (fun ri => is_header ri || is_event ri) (evt_func uncomp srt)
    (evt_func_ok F) (reader_fuel r) (mkES None None) r S0 Hr eq_refl Hp (or_introl (enough_start r Hp))) as H.
  destruct (read_records (reader_fuel r) (fun ri => is_header ri || is_event ri) (evt_func uncomp srt) (mkES None None) r) as [[[x|x|u] st] r1];
    [|exact H|exact H].
  destruct H as [H1 H2]. destruct (es_res st) as [l|] eqn:El; [|exact H2].
  destruct (finish ign l) as [l'|x'|u] eqn:Ef; cbn [bind]; [exact H2|exact H2|].
  right; right. eapply finish_cause; [apply (proj2 H1); exact El|exact Ef].
Qed.

(** ** Several files *)

Lemma open_inv d n r : rd_inv names r -> rd_direct r = false ->
  match open_file uncomp d n r with
  | (UB _, _) => False
  | (Throw _, _) => True
  | (Ok _, r1) => rd_inv names r1 /\ s_pos (rd_s r1) = 0 /\ d n = Some (s_data (rd_s r1))
  end.
Proof.
  intros Hr Hd. unfold open_file. destruct (d n) as [data|]; [|exact Logic.I].
  cbn [rd_direct with_s]. rewrite Hd. destruct (rd_files (with_s r (open_ifs data))); auto.
Qed.

Lemma over_files_cause {A} (C : bytes -> Prop) d (step : reader -> Res (option A) * reader) :
  (forall r, rd_inv names r -> 0 <= s_pos (rd_s r) ->
     match step r with (UB _, _) => C (s_data (rd_s r)) | (_, r1) => rd_inv names r1 end) ->
  forall files r k r', rd_inv names r -> 0 <= s_pos (rd_s r) ->
  over_files uncomp files d step r = (UB k, r') ->
  C (s_data (rd_s r)) \/ exists n F, d n = Some F /\ C F.
Proof.
  intros HS. induction files as [|f IH]; intros r k r' Hr Hp; cbn [over_files];
    specialize (HS r Hr Hp) as Hs; destruct (step r) as [[x|[]|u] r1]; try discriminate;
    try (destruct (next_file r1); discriminate); try (intros _; left; exact Hs).
  destruct (next_file r1) as [n|]; [|discriminate].
  pose proof (open_inv d n (advance r1) Hs eq_refl) as HO.
  destruct (open_file uncomp d n (advance r1)) as [[x|e|u] r2]; [|discriminate|destruct HO].
  destruct HO as (O1 & O2 & O3).
  destruct (over_files uncomp f d step r2) as [[y|e|u] r3] eqn:OF.
  - intros X. discriminate X.
  - destruct e; intros X; discriminate X.
  - intros _. right. apply IH in OF; [|exact O1|lia].
    destruct OF as [OF|OF]; [exists n, (s_data (rd_s r2)); auto|exact OF].
Qed.

Lemma read_next_run_cause d r k r' : rd_inv names r -> 0 <= s_pos (rd_s r) ->
  read_next_run uncomp d r = (UB k, r') ->
  file_cause run_cause (s_data (rd_s r)) \/ exists n F, d n = Some F /\ file_cause run_cause F.
Proof.
  intros Hr Hp H. unfold read_next_run in H. eapply over_files_cause; [|exact Hr|exact Hp|exact H].
  intros r0 H0 H1. apply run_step_cause; assumption.
Qed.

Lemma read_next_event_cause ign d r k r' : rd_inv names r -> 0 <= s_pos (rd_s r) ->
  read_next_event uncomp srt ign d r = (UB k, r') ->
  file_cause event_cause (s_data (rd_s r)) \/ exists n F, d n = Some F /\ file_cause event_cause F.
Proof.
  intros Hr Hp H. unfold read_next_event in H. eapply over_files_cause; [|exact Hr|exact Hp|exact H].
  intros r0 H0 H1. apply event_step_all_cause; assumption.
Qed.
End Causes.

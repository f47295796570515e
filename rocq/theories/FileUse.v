(** * Using one file in any order *)

From Verif Require Import Bytes StrMap SioModel SioProofs SioRecord SioRead SioFrame SioSpec Ieee ObjModel ObjSpec ObjProofs ObjCalls CollSpec
  CollProofs ListFacts EventModel EventSpec EventProofs PostProofs EventFacts IndexModel IndexSpec IndexProofs FileModel FileFrame IndexFile IndexFacts FileSpec FileWrite FileSessions FileRead FileSeq FileDeliver FileFacts.

(** ** Skipping *)

Section Skip.
Context (uncomp : bytes -> option bytes).

Lemma skip_step {St} (pred : St -> record_info -> bool * St) f st file pos x l c buf : view file pos (x :: l) c ->
  skip_records (S f) pred st (at_pos file pos) buf =
    let '(go, st1) := pred st (f_info pos x) in
    if go then skip_records f pred st1 (at_pos file (pos + f_size x)) (f_hdr x) else (Ok tt, st1, at_pos file (pos + f_size x)).
Proof.
  intros V. cbn [skip_records]. rewrite (read_info_step _ _ _ _ _ _ V). cbn [f_info ri_end].
  pose proof (view_pos _ _ _ _ V). destruct (view_tail _ _ _ _ _ V) as [_ Hx]. pose proof (f_size_pos x Hx).
  rewrite s_seek_at by lia. reflexivity.
Qed.
Lemma skip_done {St} (pred : St -> record_info -> bool * St) f st file pos buf : view file pos [] true ->
  exists s', skip_records (S f) pred st (at_pos file pos) buf = (Throw EEof, st, s') /\ s_open s' = true /\ s_fail s' = true.
Proof.
  intros V. inversion V as [p Hl Hp| |]; subst. exists (mkIfs file pos true true true). split; [|split; reflexivity]. cbn [skip_records].
  unfold read_record_info. cbn [s_open at_pos negb]. unfold s_good at 1. cbn [s_eof s_fail negb andb]. cbv zeta. fold (at_pos file pos).
  rewrite s_read_short by lia. replace (Z.max 0 (Zlen file - pos)) with 0 by lia. cbn [s_eof]. rewrite Z.add_0_r. reflexivity.
Qed.

Definition count_pred (n : Z) (c : Z) (ri : record_info) : bool * Z := let c' := if is_header ri then c + 1 else c in (c' <? n, c').
Definition sevts (s : list sitem) : Z := Zlen (filter (fun i => negb (is_srun i)) s).
Lemma sevts_nonneg s : 0 <= sevts s. Proof. apply Zlen_nonneg. Qed.

Lemma skip_found n l s : stores uncomp l s -> forall s1 hd ed s2 f file pos c k buf,
  s = s1 ++ SEvt hd ed :: s2 -> k + sevts s1 = n - 1 -> view file pos l c ->
  exists y l' pos', skip_records (length l + f) (count_pred n) k (at_pos file pos) buf = (Ok tt, n, at_pos file pos') /\
    view file pos' (y :: l') c /\ stores uncomp l' s2.
Proof.
  induction 1 as [|x l s Hn H IH|x d h0 l s Hn Hd Hh H IH|x y hd0 ed0 l s Hn Hd Hg Hn2 Hd2 H IH|x hd0 Hn Hd Hg];
    intros s1 hd ed s2 f file pos c k buf Es Hk V; pose proof (sevts_nonneg s1) as Hs1.
  - destruct s1; discriminate.
  - destruct (view_tail _ _ _ _ _ V) as [V' _]. cbn [length Nat.add]. rewrite (skip_step _ _ _ _ _ _ _ _ _ V).
    unfold count_pred at 1. replace (is_header (f_info pos x)) with false.
    2:{ unfold is_header. cbn [f_info ri_name]. unfold plain_name in Hn. destruct (bytes_eqb (f_name x) header_record); [|reflexivity]. rewrite andb_false_r in Hn. discriminate Hn. }
    replace (k <? n) with true by lia. exact (IH s1 hd ed s2 f file (pos + f_size x) c k (f_hdr x) Es Hk V').
  - destruct s1 as [|i s1]; [discriminate|]. cbn [app] in Es. injection Es as <- Es.
    destruct (view_tail _ _ _ _ _ V) as [V' _]. cbn [length Nat.add]. rewrite (skip_step _ _ _ _ _ _ _ _ _ V).
    unfold count_pred at 1. replace (is_header (f_info pos x)) with false by (unfold is_header; cbn [f_info ri_name]; rewrite Hn; reflexivity).
    change (sevts (SRun h0 :: s1)) with (sevts s1) in Hk, Hs1. replace (k <? n) with true by lia. exact (IH s1 hd ed s2 f file (pos + f_size x) c k (f_hdr x) Es Hk V').
  - destruct (view_tail _ _ _ _ _ V) as [V' _]. destruct (view_tail _ _ _ _ _ V') as [V'' _]. cbn [length Nat.add].
    rewrite (skip_step _ _ _ _ _ _ _ _ _ V). unfold count_pred at 1. replace (is_header (f_info pos x)) with true by (unfold is_header; cbn [f_info ri_name]; rewrite Hn; reflexivity).
    destruct s1 as [|i s1].
    + cbn [app] in Es. injection Es as <- <- <-. change (sevts []) with 0 in Hk. replace (k + 1 <? n) with false by lia.
      exists y, l, (pos + f_size x). split; [f_equal; f_equal; lia|]. split; assumption.
    + cbn [app] in Es. injection Es as <- Es. assert (Eq : sevts (SEvt hd0 ed0 :: s1) = 1 + sevts s1) by (unfold sevts; cbn [filter negb is_srun]; unfold Zlen; cbn [length]; lia).
      pose proof (sevts_nonneg s1). replace (k + 1 <? n) with true by lia.
      rewrite (skip_step _ _ _ _ _ _ _ _ _ V'). unfold count_pred at 1. replace (is_header (f_info (pos + f_size x) y)) with false by (unfold is_header; cbn [f_info ri_name]; rewrite Hn2; reflexivity).
      replace (k + 1 <? n) with true by lia. apply (IH s1 hd ed s2 f file _ c (k + 1) _ Es); [lia|exact V''].
  - destruct s1; discriminate.
Qed.
(** fewer events are left *)
Lemma skip_far n l s : stores uncomp l s -> forall f file pos k buf, k + sevts s < n -> view file pos l true ->
  exists e k' s', skip_records (length l + 1 + f) (count_pred n) k (at_pos file pos) buf = (e, k', s') /\
    ((e = Throw EEof /\ s_open s' = true /\ s_fail s' = true) \/ (e = Ok tt /\ exists pos', s' = at_pos file pos' /\ view file pos' [] true)).
Proof.
  induction 1 as [|x l s Hn H IH|x d h0 l s Hn Hd Hh H IH|x y hd0 ed0 l s Hn Hd Hg Hn2 Hd2 H IH|x hd0 Hn Hd Hg];
    intros f file pos k buf Hk V; try pose proof (sevts_nonneg s) as Hs1.
  - destruct (skip_done (count_pred n) f k file pos buf V) as (s' & E & A & B). cbn [length Nat.add]. exists (Throw EEof), k, s'. split; [exact E|]. left. auto.
  - destruct (view_tail _ _ _ _ _ V) as [V' _]. cbn [length Nat.add]. rewrite (skip_step _ _ _ _ _ _ _ _ _ V).
    unfold count_pred at 1. replace (is_header (f_info pos x)) with false.
    2:{ unfold is_header. cbn [f_info ri_name]. unfold plain_name in Hn. destruct (bytes_eqb (f_name x) header_record); [|reflexivity]. rewrite andb_false_r in Hn. discriminate Hn. }
    replace (k <? n) with true by lia. exact (IH f file (pos + f_size x) k (f_hdr x) Hk V').
  - destruct (view_tail _ _ _ _ _ V) as [V' _]. cbn [length Nat.add]. rewrite (skip_step _ _ _ _ _ _ _ _ _ V).
    unfold count_pred at 1. replace (is_header (f_info pos x)) with false by (unfold is_header; cbn [f_info ri_name]; rewrite Hn; reflexivity).
    change (sevts (SRun h0 :: s)) with (sevts s) in Hk. replace (k <? n) with true by lia. exact (IH f file (pos + f_size x) k (f_hdr x) Hk V').
  - destruct (view_tail _ _ _ _ _ V) as [V' _]. destruct (view_tail _ _ _ _ _ V') as [V'' _]. cbn [length Nat.add].
    rewrite (skip_step _ _ _ _ _ _ _ _ _ V). unfold count_pred at 1. replace (is_header (f_info pos x)) with true by (unfold is_header; cbn [f_info ri_name]; rewrite Hn; reflexivity).
    assert (Eq : sevts (SEvt hd0 ed0 :: s) = 1 + sevts s) by (unfold sevts; cbn [filter negb is_srun]; unfold Zlen; cbn [length]; lia).
    replace (k + 1 <? n) with true by lia.
    rewrite (skip_step _ _ _ _ _ _ _ _ _ V'). unfold count_pred at 1. replace (is_header (f_info (pos + f_size x) y)) with false by (unfold is_header; cbn [f_info ri_name]; rewrite Hn2; reflexivity).
    replace (k + 1 <? n) with true by lia. apply IH; [lia|exact V''].
  - destruct (view_tail _ _ _ _ _ V) as [V' _]. cbn [length Nat.add].
    rewrite (skip_step _ _ _ _ _ _ _ _ _ V). unfold count_pred at 1. replace (is_header (f_info pos x)) with true by (unfold is_header; cbn [f_info ri_name]; rewrite Hn; reflexivity).
    destruct (k + 1 <? n).
    + destruct (skip_done (count_pred n) f (k + 1) file (pos + f_size x) (f_hdr x) V') as (s' & E & A & B). exists (Throw EEof), (k + 1), s'. split; [exact E|]. left. auto.
    + do 3 eexists. split; [reflexivity|]. right. split; [reflexivity|]. eexists. split; [reflexivity|exact V'].
Qed.

Lemma skip_one file pos x l c : view file pos (x :: l) c -> skip_n_records 1 (at_pos file pos) = (Ok tt, at_pos file (pos + f_size x)).
Proof.
  intros V. unfold skip_n_records, stream_fuel. change (Z.to_nat 1) with 1%nat. cbn [Nat.add]. rewrite (skip_step _ _ _ _ _ _ _ _ _ V). reflexivity.
Qed.
Lemma skip_one_end file pos : view file pos [] true -> exists s', skip_n_records 1 (at_pos file pos) = (Throw EEof, s') /\ s_open s' = true /\ s_fail s' = true.
Proof.
  intros V. unfold skip_n_records, stream_fuel. change (Z.to_nat 1) with 1%nat. cbn [Nat.add].
  destruct (skip_done (fun (c : Z) (_ : record_info) => (c + 1 <? 1, c + 1)) (length (s_data (at_pos file pos)) + 1) 0 file pos skip_buf V) as (s' & E & A).
  exists s'. rewrite E. auto.
Qed.

Theorem skip_events_found n file r s1 hd ed s2 c : at_file uncomp file r (s1 ++ SEvt hd ed :: s2) c -> sevts s1 = n - 1 ->
  exists r', skip_events n r = (Ok tt, r') /\ at_file uncomp file r' s2 c /\ same r r' /\ rd_next r' = rd_next r.
Proof.
  intros (pos & l & Hr & V & H) Hn. pose proof (sevts_nonneg s1). unfold skip_events. replace (n <? 1) with false by lia.
  destruct (fuel_enough uncomp _ _ _ _ V) as (f & Ef). rewrite (fuel_of r file pos Hr), Ef, Hr. fold (count_pred n).
  replace (length l + (if c then 1 else 2) + f + Z.to_nat n)%nat with (length l + ((if c then 1 else 2) + f + Z.to_nat n))%nat by lia.
  destruct (skip_found n l _ H s1 hd ed s2 ((if c then 1 else 2) + f + Z.to_nat n) file pos c 0 skip_buf eq_refl) as (y & l' & pos' & E & V' & H'); [lia|exact V|].
  unfold count_pred in E |- *. rewrite E, (skip_one _ _ _ _ _ V'). cbv iota beta. eexists. split; [reflexivity|]. split; [|split; [apply same_s|reflexivity]].
  exists (pos' + f_size y), l'. split; [reflexivity|]. split; [exact (proj1 (view_tail _ _ _ _ _ V'))|exact H'].
Qed.
Theorem skip_events_far n file r s : at_file uncomp file r s true -> sevts s < n ->
  exists r', skip_events n r = (Ok tt, r') /\ at_stop r' /\ same r r' /\ rd_next r' = rd_next r.
Proof.
  intros (pos & l & Hr & V & H) Hn. pose proof (sevts_nonneg s). unfold skip_events. replace (n <? 1) with false by lia.
  destruct (fuel_enough uncomp _ _ _ _ V) as (f & Ef). rewrite (fuel_of r file pos Hr), Ef, Hr. fold (count_pred n).
  rewrite <- !Nat.add_assoc, (Nat.add_assoc (length l)).
  destruct (skip_far n l _ H (f + Z.to_nat n) file pos 0 skip_buf) as (e & k' & s' & E & Q); [lia|exact V|].
  unfold count_pred in E |- *. rewrite E. destruct Q as [(-> & A & B)|(-> & pos' & -> & V')].
  - eexists. split; [reflexivity|]. split; [split; assumption|]. split; [apply same_s|reflexivity].
  - destruct (skip_one_end _ _ V') as (s'' & -> & A & B). eexists. split; [reflexivity|]. split; [split; assumption|]. split; [apply same_s|reflexivity].
Qed.
Theorem skip_events_late n r : at_stop r -> 1 <= n -> exists r', skip_events n r = (Throw EBadState, r') /\ at_stop r' /\ same r r' /\ rd_next r' = rd_next r.
Proof.
  intros [H1 H2] Hn. unfold skip_events. replace (n <? 1) with false by lia. unfold reader_fuel, stream_fuel. cbn [Nat.add skip_records]. rewrite info_failed by assumption.
  eexists. split; [reflexivity|]. split; [split; assumption|]. split; [apply same_s|reflexivity].
Qed.
End Skip.

(** ** Searching *)

Section Find.
Context (uncomp : bytes -> option bytes) (srt : forall A : Type, (A -> Z) -> list A -> list A) (ignore_null : bool).
Context (run num : Z).

Definition passed (names : list bytes) (i : sitem) : Prop :=
  match i with
  | SRun _ => True
  | SEvt hd _ => exists e0, read_header_record names hd = Ok e0 /\ (ev_num e0 =? num) && (ev_run e0 =? run) = false
  end.

(** the two records of an event that is not wanted *)
Lemma find_pass f st r file pos x y hd ed l c : view file pos (x :: y :: l) c -> rd_s r = at_pos file pos ->
  f_name x = header_record -> holds uncomp x hd -> f_name y = event_record -> holds uncomp y ed -> passed (rd_names r) (SEvt hd ed) -> rd_lazy r = false ->
  exists st' r', read_records (S (S f)) wanted_rec (find_func uncomp srt run num) st r = read_records f wanted_rec (find_func uncomp srt run num) st' r' /\
    rd_s r' = at_pos file (pos + f_size x + f_size y) /\ same r r' /\ rd_next r' = rd_next r.
Proof.
  intros V Hr Hn Hd Hn2 Hd2 (e0 & Hh0 & Hne) Hz. destruct (view_tail _ _ _ _ _ V) as [V' Hx]. destruct (view_tail _ _ _ _ _ V') as [V'' Hy].
  rewrite (records_take _ _ _ _ _ _ _ _ _ _ V Hr) by (unfold wanted_rec, is_header, is_event; cbn [f_info ri_name]; rewrite Hn; reflexivity).
  set (r1 := with_raw r (at_pos file (pos + f_size x)) (f_core x)).
  unfold find_func at 1. replace (is_header (f_info pos x)) with true by (unfold is_header; cbn [f_info ri_name]; rewrite Hn; reflexivity).
  unfold header_step. rewrite (record_data_spec uncomp x hd pos r1 Hx Hd).
  destruct (same_unpack x hd r1) as (S1 & S2 & S3). set (r2 := unpack_state x hd r1) in *.
  replace (rd_names r2) with (rd_names r) by (destruct S1 as (_ & _ & _ & _ & _ & ->); reflexivity). rewrite Hh0.
  rewrite (records_take _ _ _ _ _ file (pos + f_size x) y l c V') by (try exact S2; unfold wanted_rec, is_header, is_event; cbn [f_info ri_name]; rewrite Hn2; reflexivity).
  set (r3 := with_raw r2 (at_pos file (pos + f_size x + f_size y)) (f_core y)).
  unfold find_func at 1. replace (is_header (f_info (pos + f_size x) y)) with false by (unfold is_header; cbn [f_info ri_name]; rewrite Hn2; reflexivity).
  replace (is_event (f_info (pos + f_size x) y)) with true by (unfold is_event; cbn [f_info ri_name]; rewrite Hn2; reflexivity).
  cbn [es_evt]. rewrite Hne.
  assert (S3' : same r r3) by (eapply FileRead.same_trans; [apply (same_raw r (at_pos file (pos + f_size x)) (f_core x))|]; eapply FileRead.same_trans; [exact S1|apply same_raw]).
  replace (rd_lazy r3) with false by (destruct S3' as (_ & _ & _ & -> & _ & _); symmetry; exact Hz).
  rewrite (record_data_spec uncomp y ed (pos + f_size x) r3 Hy Hd2). destruct (same_unpack y ed r3) as (T1 & T2 & T3). set (r4 := unpack_state y ed r3) in *.
  exists (mkES (Some e0) None), r4. split; [reflexivity|]. split; [rewrite T2; reflexivity|]. split; [eapply FileRead.same_trans; eassumption|].
  rewrite T3. change (rd_next r3) with (rd_next r2). rewrite S3. reflexivity.
Qed.

Lemma find_found l s : stores uncomp l s -> forall s1 hd ed s2 st f r file pos c e0,
  s = s1 ++ SEvt hd ed :: s2 -> Forall (passed (rd_names r)) s1 -> rd_lazy r = false -> read_header_record (rd_names r) hd = Ok e0 ->
  (ev_num e0 =? num) && (ev_run e0 =? run) = true -> view file pos l c -> rd_s r = at_pos file pos ->
  exists r', evt_end ignore_null (read_records (length l + f) wanted_rec (find_func uncomp srt run num) st r) = (fst (evt_result srt ignore_null (rd_next r) ed e0), r') /\
    at_file uncomp file r' s2 c /\ same r r' /\ rd_next r' = snd (evt_result srt ignore_null (rd_next r) ed e0).
Proof.
  induction 1 as [|x l s Hn H IH|x d h0 l s Hn Hd Hh H IH|x y hd0 ed0 l s Hn Hd Hg Hn2 Hd2 H IH|x hd0 Hn Hd Hg];
    intros s1 hd ed s2 st f r file pos c e0 Es Hs Hz Hh0 Heq V Hr.
  - destruct s1; discriminate.
  - cbn [length Nat.add]. rewrite (records_skip _ _ _ _ _ _ _ _ _ _ V Hr).
    + destruct (view_tail _ _ _ _ _ V) as [V' _].
      destruct (IH s1 hd ed s2 st f (with_raw r (at_pos file (pos + f_size x)) (f_hdr x)) file (pos + f_size x) c e0 Es Hs Hz Hh0 Heq V' eq_refl) as (r' & E & A & S & N).
      exists r'. split; [exact E|]. split; [exact A|]. split; [eapply FileRead.same_trans; [apply same_raw|exact S]|exact N].
    + unfold wanted_rec, is_header, is_event. cbn [f_info ri_name]. unfold plain_name in Hn.
      destruct (bytes_eqb (f_name x) header_record), (bytes_eqb (f_name x) event_record); rewrite ?andb_false_r in Hn; try discriminate Hn; reflexivity.
  - destruct s1 as [|i s1]; [discriminate|]. cbn [app] in Es. injection Es as <- Es. inversion Hs as [|? ? _ Hs']; subst.
    cbn [length Nat.add]. destruct (view_tail _ _ _ _ _ V) as [V' _].
    rewrite (records_skip _ _ _ _ _ _ _ _ _ _ V Hr) by (unfold wanted_rec, is_header, is_event; cbn [f_info ri_name]; rewrite Hn; reflexivity).
    destruct (IH s1 hd ed s2 st f (with_raw r (at_pos file (pos + f_size x)) (f_hdr x)) file (pos + f_size x) c e0 eq_refl Hs' Hz Hh0 Heq V' eq_refl) as (r' & E & A & S & N).
    exists r'. split; [exact E|]. split; [exact A|]. split; [eapply FileRead.same_trans; [apply same_raw|exact S]|exact N].
  - destruct s1 as [|i s1].
    + cbn [app] in Es. injection Es as <- <- <-. cbn [length Nat.add]. destruct (view_tail _ _ _ _ _ V) as [V' Hx]. destruct (view_tail _ _ _ _ _ V') as [V'' Hy].
      rewrite (records_take _ _ _ _ _ _ _ _ _ _ V Hr) by (unfold wanted_rec, is_header, is_event; cbn [f_info ri_name]; rewrite Hn; reflexivity).
      set (r1 := with_raw r (at_pos file (pos + f_size x)) (f_core x)).
      unfold find_func at 1. replace (is_header (f_info pos x)) with true by (unfold is_header; cbn [f_info ri_name]; rewrite Hn; reflexivity).
      unfold header_step. rewrite (record_data_spec uncomp x hd0 pos r1 Hx Hd).
      destruct (same_unpack x hd0 r1) as (S1 & S2 & S3). set (r2 := unpack_state x hd0 r1) in *.
      replace (rd_names r2) with (rd_names r) by (destruct S1 as (_ & _ & _ & _ & _ & ->); reflexivity). rewrite Hh0.
      rewrite (records_take _ _ _ _ _ file (pos + f_size x) y l c V') by (try exact S2; unfold wanted_rec, is_header, is_event; cbn [f_info ri_name]; rewrite Hn2; reflexivity).
      set (r3 := with_raw r2 (at_pos file (pos + f_size x + f_size y)) (f_core y)).
      unfold find_func at 1. replace (is_header (f_info (pos + f_size x) y)) with false by (unfold is_header; cbn [f_info ri_name]; rewrite Hn2; reflexivity).
      replace (is_event (f_info (pos + f_size x) y)) with true by (unfold is_event; cbn [f_info ri_name]; rewrite Hn2; reflexivity).
      cbn [es_evt]. rewrite Heq. unfold event_step.
      assert (S3' : same r r3) by (eapply FileRead.same_trans; [apply (same_raw r (at_pos file (pos + f_size x)) (f_core x))|]; eapply FileRead.same_trans; [exact S1|apply same_raw]).
      replace (rd_lazy r3) with false by (destruct S3' as (_ & _ & _ & -> & _ & _); symmetry; exact Hz).
      rewrite (record_data_spec uncomp y ed0 (pos + f_size x) r3 Hy Hd2). destruct (same_unpack y ed0 r3) as (T1 & T2 & T3). set (r4 := unpack_state y ed0 r3) in *.
      replace (rd_next r4) with (rd_next r) by (rewrite T3; change (rd_next r3) with (rd_next r2); rewrite S3; reflexivity).
      assert (S4 : same r r4) by (eapply FileRead.same_trans; eassumption).
      assert (N4 : rd_next r4 = rd_next r) by (rewrite T3; change (rd_next r3) with (rd_next r2); rewrite S3; reflexivity).
      assert (A4 : forall r5, rd_s r5 = rd_s r4 -> at_file uncomp file r5 s c).
      { intros r5 E5. exists (pos + f_size x + f_size y), l. split; [rewrite E5, T2; reflexivity|]. split; assumption. }
      unfold evt_result. destruct (read_event_record srt ed0 e0 (rd_next r)) as [[[e' h'] n']|e|k]; cbn [evt_end es_res fst snd].
      * unfold finish. cbn [le_rec le_heap le_evt]. eexists. split; [f_equal; destruct (post_process ignore_null h' e'); reflexivity|].
        split; [apply A4; reflexivity|]. split; [|reflexivity]. eapply FileRead.same_trans; [exact S4|repeat split].
      * eexists. split; [reflexivity|]. split; [apply A4; reflexivity|]. split; assumption.
      * eexists. split; [reflexivity|]. split; [apply A4; reflexivity|]. split; assumption.
    + cbn [app] in Es. injection Es as <- Es. inversion Hs as [|? ? Hi Hs']; subst.
      destruct (view_tail _ _ _ _ _ V) as [V' Hx]. destruct (view_tail _ _ _ _ _ V') as [V'' Hy].
      cbn [length Nat.add]. destruct (find_pass (length l + f) st r file pos x y hd0 ed0 l c V Hr Hn Hd Hn2 Hd2 Hi Hz) as (st' & r' & E & Er & Hsm & Hnx). rewrite E.
      pose proof Hsm as (Q1 & Q2 & Q3 & Q4 & Q5 & Q6).
      destruct (IH s1 hd ed s2 st' f r' file (pos + f_size x + f_size y) c e0 eq_refl) as (r'' & E' & A & S & N); [rewrite Q6; exact Hs'|congruence|rewrite Q6; exact Hh0|exact Heq|exact V''|exact Er|].
      rewrite Hnx in E', N. exists r''. split; [exact E'|]. split; [exact A|]. split; [eapply FileRead.same_trans; eassumption|exact N].
  - destruct s1; discriminate.
Qed.

Lemma find_none l s : stores uncomp l s -> forall st f r file pos c,
  Forall (passed (rd_names r)) s -> rd_lazy r = false -> view file pos l c -> rd_s r = at_pos file pos ->
  exists e st' r', read_records (length l + (if c then 1 else 2) + f) wanted_rec (find_func uncomp srt run num) st r = (Throw e, st', r') /\ at_stop r' /\
    (c = true -> e = EEof) /\ same r r' /\ rd_next r' = rd_next r.
Proof.
  induction 1 as [|x l s Hn H IH|x d h0 l s Hn Hd Hh H IH|x y hd ed l s Hn Hd Hg Hn2 Hd2 H IH|x hd Hn Hd Hg];
    intros st f r file pos c Hs Hz V Hr.
  - destruct (at_end wanted_rec (find_func uncomp srt run num) f st r file pos c V Hr) as (e & r' & E & A).
    exists e, st, r'. cbn [length Nat.add]. rewrite E. split; [reflexivity|exact A].
  - cbn [length Nat.add]. rewrite (records_skip _ _ _ _ _ _ _ _ _ _ V Hr).
    + destruct (view_tail _ _ _ _ _ V) as [V' _].
      destruct (IH st f (with_raw r (at_pos file (pos + f_size x)) (f_hdr x)) file (pos + f_size x) c Hs Hz V' eq_refl) as (e & st' & r' & E & A & B & S & N).
      exists e, st', r'. split; [exact E|]. split; [exact A|]. split; [exact B|]. split; [eapply FileRead.same_trans; [apply same_raw|exact S]|exact N].
    + unfold wanted_rec, is_header, is_event. cbn [f_info ri_name]. unfold plain_name in Hn.
      destruct (bytes_eqb (f_name x) header_record), (bytes_eqb (f_name x) event_record); rewrite ?andb_false_r in Hn; try discriminate Hn; reflexivity.
  - inversion Hs as [|? ? _ Hs']; subst. cbn [length Nat.add]. destruct (view_tail _ _ _ _ _ V) as [V' _].
    rewrite (records_skip _ _ _ _ _ _ _ _ _ _ V Hr) by (unfold wanted_rec, is_header, is_event; cbn [f_info ri_name]; rewrite Hn; reflexivity).
    destruct (IH st f (with_raw r (at_pos file (pos + f_size x)) (f_hdr x)) file (pos + f_size x) c Hs' Hz V' eq_refl) as (e & st' & r' & E & A & B & S & N).
    exists e, st', r'. split; [exact E|]. split; [exact A|]. split; [exact B|]. split; [eapply FileRead.same_trans; [apply same_raw|exact S]|exact N].
  - inversion Hs as [|? ? Hi Hs']; subst. destruct (view_tail _ _ _ _ _ V) as [V' Hx]. destruct (view_tail _ _ _ _ _ V') as [V'' Hy].
    cbn [length Nat.add]. destruct (find_pass (length l + (if c then 1 else 2) + f) st r file pos x y hd ed l c V Hr Hn Hd Hn2 Hd2 Hi Hz) as (st' & r' & E & Er & Hsm & Hnx). rewrite E.
    pose proof Hsm as (Q1 & Q2 & Q3 & Q4 & Q5 & Q6).
    destruct (IH st' f r' file (pos + f_size x + f_size y) c) as (e & st'' & r'' & E' & A & B & S & N); [rewrite Q6; exact Hs'|congruence|exact V''|exact Er|].
    exists e, st'', r''. split; [exact E'|]. split; [exact A|]. split; [exact B|]. split; [eapply FileRead.same_trans; eassumption|congruence].
  - cbn [length Nat.add]. destruct (view_tail _ _ _ _ _ V) as [V' Hx].
    rewrite (records_take _ _ _ _ _ _ _ _ _ _ V Hr) by (unfold wanted_rec, is_header, is_event; cbn [f_info ri_name]; rewrite Hn; reflexivity).
    set (r1 := with_raw r (at_pos file (pos + f_size x)) (f_core x)).
    unfold find_func at 1. replace (is_header (f_info pos x)) with true by (unfold is_header; cbn [f_info ri_name]; rewrite Hn; reflexivity).
    unfold header_step. rewrite (record_data_spec uncomp x hd pos r1 Hx Hd).
    destruct (same_unpack x hd r1) as (S1 & S2 & S3). set (r2 := unpack_state x hd r1) in *.
    destruct (Hg (rd_names r2)) as (e0 & ->).
    destruct (at_end wanted_rec (find_func uncomp srt run num) f (mkES (Some e0) None) r2 file (pos + f_size x) c V' S2) as (e & r' & E & A & B & S & N).
    exists e, (mkES (Some e0) None), r'. rewrite E. split; [reflexivity|]. split; [exact A|]. split; [exact B|].
    split; [eapply FileRead.same_trans; [apply (same_raw r (at_pos file (pos + f_size x)) (f_core x))|]; eapply FileRead.same_trans; [exact S1|exact S]|].
    rewrite N, S3. reflexivity.
Qed.
End Find.

(** ** Any calls *)

Lemma evts_app a b : evts (a ++ b) = evts a + evts b.
Proof. unfold evts, Zlen. rewrite filter_app, app_length. lia. Qed.
Lemma split_at {A} (p : A -> bool) l : existsb p l = true -> exists l1 a l2, l = l1 ++ a :: l2 /\ existsb p l1 = false /\ p a = true.
Proof.
  induction l as [|a l IH]; [discriminate|]. cbn [existsb]. destruct (p a) eqn:E.
  - intros _. exists [], a, l. auto.
  - intros H. destruct (IH H) as (l1 & b & l2 & -> & H1 & H2). exists (a :: l1), b, l2. split; [reflexivity|]. split; [|exact H2]. cbn [existsb]. rewrite E. exact H1.
Qed.

Section Use.
Context (comp : Z -> bytes -> bytes) (uncomp : bytes -> option bytes) (srt : forall A : Type, (A -> Z) -> list A -> list A) (ignore_null : bool).
Context (d : disk) (n data : bytes) (names : list bytes) (direct : bool) (W : list witem).

(** the index leads to the items *)
Definition index_right (M : remap) : Prop :=
  (forall pre i l, W = pre ++ i :: l -> exists lb S, 0 <= rm_pos M (item_key i) /\ view data (rm_pos M (item_key i)) lb true /\ stores uncomp lb S /\ Forall2 stored_as (i :: l) S) /\
  (forall k, key_ok k -> -1 <= snd k -> ~ In k (map item_key W) -> rm_pos M k = -1).

Definition known (i : witem) : Prop := readable ignore_null names i /\ In i W.

Definition state_ok (r : reader) (cur : option (list witem)) : Prop :=
  rd_files r = [n] /\ rd_idx r = 0%nat /\ rd_direct r = direct /\ rd_lazy r = false /\ rd_names r = names /\
  (direct = true -> index_right (mg_map (rd_mgr r))) /\
  match cur with
  | Some l => Forall known l /\ exists S, at_file uncomp data r S true /\ Forall2 stored_as l S
  | None => at_stop r
  end.
Lemma state_same r r' cur cur' : state_ok r cur -> same r r' ->
  match cur' with
  | Some l => Forall known l /\ exists S, at_file uncomp data r' S true /\ Forall2 stored_as l S
  | None => at_stop r'
  end -> state_ok r' cur'.
Proof.
  intros (H1 & H2 & H3 & H4 & H5 & H6 & _) (Q1 & Q2 & Q3 & Q4 & Q5 & Q6) H. unfold state_ok. rewrite Q1, Q2, Q3, Q4, Q5, Q6. exact (conj H1 (conj H2 (conj H3 (conj H4 (conj H5 (conj H6 H)))))).
Qed.

Lemma over_single {A} (step : reader -> Res (option A) * reader) r r' x cur : state_ok r cur -> step r = (x, r') -> same r r' ->
  forall f, over_files uncomp f d step r = (match x with Throw EEof => Ok None | _ => x end, r').
Proof.
  intros (H1 & H2 & _) E (Q1 & Q2 & _) f. assert (Hn : next_file r' = None) by (unfold next_file; rewrite Q1, Q2, H1, H2; reflexivity).
  destruct f; cbn [over_files]; rewrite E, ?Hn; destruct x as [|[]|]; reflexivity.
Qed.

Lemma stored_srun i s : stored_as i s -> is_wevt i = negb (is_srun s).
Proof. destruct i, s; intros (b1 & b2 & z & _ & _ & _ & E); cbn in *; try reflexivity; destruct E. Qed.
Lemma stored_kinds l S : Forall2 stored_as l S ->
  existsb is_wevt l = negb (forallb is_srun S) /\ forallb is_wevt l = negb (existsb is_srun S) /\ evts l = sevts S.
Proof.
  induction 1 as [|i s l S H _ (IH1 & IH2 & IH3)]; [repeat split|]. cbn [existsb forallb]. rewrite (stored_srun i s H), IH1, IH2.
  split; [destruct (is_srun s); reflexivity|]. split; [destruct (is_srun s); reflexivity|].
  unfold evts, sevts in *. cbn [filter]. rewrite (stored_srun i s H). destruct (is_srun s); cbn [negb]; [exact IH3|]. unfold Zlen in *. cbn [length]. lia.
Qed.
Lemma readable_split P pre (i : witem) l : Forall P (pre ++ i :: l) -> Forall P pre /\ P i /\ Forall P l.
Proof. intros H. apply Forall_app in H. destruct H as [H1 H2]. inversion H2; subst. auto. Qed.

(** readNextEvent *)
Lemma next_event r pre h e only l : state_ok r (Some (pre ++ WEvt h e only :: l)) -> 0 < rd_next r -> existsb is_wevt pre = false ->
  exists le r', read_next_event uncomp srt ignore_null d r = (Ok (Some le), r') /\ event_copy srt names (rd_next r) h e only le /\
    state_ok r' (Some l) /\ rd_next r' = rd_next r + Zlen (event_objs only names h e).
Proof.
  intros Hst Hp Hpre. pose proof Hst as (H1 & H2 & H3 & H4 & H5 & H6 & HR & S & HA & HF).
  destruct (readable_split _ _ _ _ HR) as (_ & Hr & HRl). apply Forall2_app_inv_l in HF. destruct HF as (S1 & S2 & F1 & F2 & ->).
  inversion F2 as [|? s ? S2' Hs F3]; subst.
  destruct (stored_event comp srt ignore_null names h e only s (rd_next r) Hs (proj1 Hr) Hp) as (hd & ed & e0 & le & -> & Eh & Er & Hc).
  destruct (evt_step_in uncomp srt ignore_null data r S1 hd ed S2' true e0 HA) as (r' & E & HA' & Hsm & Hnx).
  { destruct (stored_kinds _ _ F1) as (K & _). rewrite Hpre in K. destruct (forallb is_srun S1); [reflexivity|discriminate K]. } { assumption. } { rewrite H5. exact Eh. }
  rewrite Er in E, Hnx. cbn [fst snd] in E, Hnx. exists le, r'. split; [unfold read_next_event; rewrite (over_single _ r r' _ _ Hst E Hsm); reflexivity|].
  split; [exact Hc|]. split; [|exact Hnx]. eapply state_same; [exact Hst|exact Hsm|]. split; [exact HRl|]. exists S2'. split; assumption.
Qed.
Lemma next_event_none r l : state_ok r (Some l) -> existsb is_wevt l = false ->
  exists r', read_next_event uncomp srt ignore_null d r = (Ok None, r') /\ state_ok r' None /\ rd_next r' = rd_next r.
Proof.
  intros Hst Hl. pose proof Hst as (H1 & H2 & H3 & H4 & H5 & H6 & HR & S & HA & HF).
  destruct (evt_step_none uncomp srt ignore_null r S true) as (e & r' & E & A & He & Hsm & Hnx); [exists data; exact HA| |].
  { destruct (stored_kinds _ _ HF) as (K & _). rewrite Hl in K. destruct (forallb is_srun S); [reflexivity|discriminate K]. }
  rewrite (He eq_refl) in E. exists r'. split; [unfold read_next_event; rewrite (over_single _ r r' _ _ Hst E Hsm); reflexivity|]. split; [eapply state_same; [exact Hst|exact Hsm|exact A]|exact Hnx].
Qed.
Lemma next_run r pre h l : state_ok r (Some (pre ++ WRun h :: l)) -> forallb is_wevt pre = true ->
  exists r', read_next_run uncomp d r = (Ok (Some (run_copy n h)), r') /\ state_ok r' (Some l) /\ rd_next r' = rd_next r.
Proof.
  intros Hst Hpre. pose proof Hst as (H1 & H2 & H3 & H4 & H5 & H6 & HR & S & HA & HF).
  destruct (readable_split _ _ _ _ HR) as (_ & _ & HRl). apply Forall2_app_inv_l in HF. destruct HF as (S1 & S2 & F1 & F2 & ->).
  inversion F2 as [|? s ? S2' Hs F3]; subst. destruct s as [h'|? ?]; [|destruct Hs as (? & ? & ? & _ & _ & _ & [])]. destruct Hs as (? & ? & ? & _ & _ & _ & Q). cbn in Q. subst h'.
  destruct (run_step_in uncomp data r S1 h S2' true HA) as (r' & E & HA' & Hsm & Hnx).
  { destruct (stored_kinds _ _ F1) as (_ & K & _). rewrite Hpre in K. destruct (existsb is_srun S1); [discriminate K|reflexivity]. }
  assert (Hc : with_filename r h = run_copy n h) by (unfold with_filename, run_copy; rewrite H1, H2; reflexivity). rewrite Hc in E.
  exists r'. split; [unfold read_next_run; rewrite (over_single _ r r' _ _ Hst E Hsm); reflexivity|]. split; [|exact Hnx].
  eapply state_same; [exact Hst|exact Hsm|]. split; [exact HRl|]. exists S2'. split; assumption.
Qed.
Lemma next_run_none r l : state_ok r (Some l) -> forallb is_wevt l = true ->
  exists r', read_next_run uncomp d r = (Ok None, r') /\ state_ok r' None /\ rd_next r' = rd_next r.
Proof.
  intros Hst Hl. pose proof Hst as (H1 & H2 & H3 & H4 & H5 & H6 & HR & S & HA & HF).
  destruct (run_step_none uncomp r S true) as (e & r' & E & A & He & Hsm & Hnx); [exists data; exact HA| |].
  { destruct (stored_kinds _ _ HF) as (_ & K & _). rewrite Hl in K. destruct (existsb is_srun S); [discriminate K|reflexivity]. }
  rewrite (He eq_refl) in E. exists r'. split; [unfold read_next_run; rewrite (over_single _ r r' _ _ Hst E Hsm); reflexivity|]. split; [eapply state_same; [exact Hst|exact Hsm|exact A]|exact Hnx].
Qed.

(** skipNEvents *)
Lemma nth_evt l : forall k, 1 <= k <= evts l -> exists pre h e only l', l = pre ++ WEvt h e only :: l' /\ evts pre = k - 1.
Proof.
  induction l as [|i l IH]; intros k Hk; [unfold evts in Hk; cbn in Hk; lia|]. destruct i as [h|h e only].
  - destruct (IH k Hk) as (pre & h' & e & only & l' & -> & Hp). exists (WRun h :: pre), h', e, only, l'. split; [reflexivity|exact Hp].
  - assert (Q : evts (WEvt h e only :: l) = 1 + evts l) by (unfold evts, Zlen; cbn [filter is_wevt length]; lia).
    destruct (Z.eq_dec k 1) as [->|Hk1]; [exists [], h, e, only, l; split; reflexivity|].
    destruct (IH (k - 1) ltac:(lia)) as (pre & h' & e' & only' & l' & -> & Hp). exists (WEvt h e only :: pre), h', e', only', l'. split; [reflexivity|].
    unfold evts, Zlen in *. cbn [filter is_wevt length]. lia.
Qed.
Lemma skip_ok k r pre h e only l : state_ok r (Some (pre ++ WEvt h e only :: l)) -> evts pre = k - 1 ->
  exists r', skip_events k r = (Ok tt, r') /\ state_ok r' (Some l) /\ rd_next r' = rd_next r.
Proof.
  intros Hst Hk. pose proof Hst as (H1 & H2 & H3 & H4 & H5 & H6 & HR & S & HA & HF).
  destruct (readable_split _ _ _ _ HR) as (_ & _ & HRl). apply Forall2_app_inv_l in HF. destruct HF as (S1 & S2 & F1 & F2 & ->).
  inversion F2 as [|? s ? S2' Hs F3]; subst. destruct s as [h'|hd ed]; [destruct Hs as (? & ? & ? & _ & _ & _ & [])|].
  destruct (skip_events_found uncomp k data r S1 hd ed S2' true HA) as (r' & E & HA' & Hsm & Hnx).
  { destruct (stored_kinds _ _ F1) as (_ & _ & K). lia. }
  exists r'. split; [exact E|]. split; [|exact Hnx]. eapply state_same; [exact Hst|exact Hsm|]. split; [exact HRl|]. exists S2'. split; assumption.
Qed.
Lemma skip_beyond k r l : state_ok r (Some l) -> evts l < k ->
  exists r', skip_events k r = (Ok tt, r') /\ state_ok r' None /\ rd_next r' = rd_next r.
Proof.
  intros Hst Hk. pose proof Hst as (H1 & H2 & H3 & H4 & H5 & H6 & HR & S & HA & HF).
  destruct (skip_events_far uncomp k data r S HA) as (r' & E & A & Hsm & Hnx).
  { destruct (stored_kinds _ _ HF) as (_ & _ & K). lia. }
  exists r'. split; [exact E|]. split; [eapply state_same; [exact Hst|exact Hsm|exact A]|exact Hnx].
Qed.

(** direct access *)
Lemma seek_ok r l p lb S W' : state_ok r (Some l) -> 0 <= p -> view data p lb true -> stores uncomp lb S -> Forall2 stored_as W' S ->
  Forall known W' -> s_good (s_seek (rd_s r) p) = true /\ state_ok (with_s r (s_seek (rd_s r) p)) (Some W').
Proof.
  intros Hst Hp V Hs HF HR. pose proof Hst as (_ & _ & _ & _ & _ & _ & _ & S0 & (pos & l0 & Hr & _) & _). rewrite Hr, s_seek_at by lia.
  split; [reflexivity|]. eapply state_same; [exact Hst|apply same_s|]. split; [exact HR|]. exists S. split; [|exact HF]. exists p, lb. split; [reflexivity|]. split; assumption.
Qed.
Lemma seek_late r p : state_ok r None -> s_good (s_seek (rd_s r) p) = false /\ state_ok (with_s r (s_seek (rd_s r) p)) None.
Proof.
  intros Hst. pose proof Hst as (_ & _ & _ & _ & _ & _ & Ho & Hf). unfold s_seek. rewrite Hf. split; [reflexivity|].
  eapply state_same; [exact Hst|apply same_s|]. split; [exact Ho|reflexivity].
Qed.

Lemma numbers_in run num : existsb (has_numbers run num) W = true -> exists pre h e only l, W = pre ++ WEvt h e only :: l /\ ev_run e = run /\ ev_num e = num.
Proof.
  intros H. destruct (split_at _ _ H) as (pre & i & l & -> & _ & Hi). destruct i as [h|h e only]; [discriminate|]. cbn in Hi.
  apply andb_true_iff in Hi. destruct Hi as [A B]. exists pre, h, e, only, l. split; [reflexivity|]. lia.
Qed.
Lemma run_in run : existsb (has_run run) W = true -> exists pre h l, W = pre ++ WRun h :: l /\ rh_run h = run.
Proof.
  intros H. destruct (split_at _ _ H) as (pre & i & l & -> & _ & Hi). destruct i as [h|h e only]; [|discriminate]. cbn in Hi. exists pre, h, l. split; [reflexivity|]. lia.
Qed.
Lemma numbers_out run num : existsb (has_numbers run num) W = false -> 0 <= num -> ~ In (run, num) (map item_key W).
Proof.
  intros H Hn Hi. apply in_map_iff in Hi. destruct Hi as ([h|h e only] & Hk & Hi); cbn in Hk; injection Hk as <- <-; [lia|].
  assert (X : existsb (has_numbers (ev_run e) (ev_num e)) W = true); [|congruence]. apply existsb_exists. exists (WEvt h e only). split; [exact Hi|]. cbn. lia.
Qed.
Lemma run_out run : existsb (has_run run) W = false -> Forall (fun i => match i with WRun _ => True | WEvt _ e _ => 0 <= ev_num e end) W -> ~ In (run, -1) (map item_key W).
Proof.
  intros H HW Hi. rewrite Forall_forall in HW. apply in_map_iff in Hi. destruct Hi as ([h|h e only] & Hk & Hi); cbn in Hk.
  - injection Hk as <-. assert (X : existsb (has_run (rh_run h)) W = true); [|congruence]. apply existsb_exists. exists (WRun h). split; [exact Hi|]. cbn. lia.
  - injection Hk as _ Hk. specialize (HW _ Hi). cbn in HW. lia.
Qed.

Lemma stored_passed run num i s : stored_as i s -> has_numbers run num i = false -> passed run num names s.
Proof.
  intros (b1 & b2 & z & U1 & U2 & Hok & Henc) Hn. destruct i as [h|h e only], s as [h'|hd ed]; cbn [encoded] in Henc; try exact I; try contradiction Henc.
  destruct Henc as (rh & bh & e1 & re & be & E1 & E2 & -> & ->).
  destruct (item_fits comp _ _ _ _ Hok) as [He Hf]. destruct U1 as [U1 U1']. destruct (header_roundtrip b1 only names h e U1 U1' He (proj1 Hf)) as (ri & buf' & E & _ & R).
  rewrite E1 in E. apply Ok_pair in E. destruct E as [<- <-]. exists (hdr_event only names e). split; [exact R|]. cbn in Hn |- *. rewrite andb_comm. exact Hn.
Qed.
Lemma all_passed run num l S : Forall2 stored_as l S -> existsb (has_numbers run num) l = false -> Forall (passed run num names) S.
Proof.
  induction 1 as [|i s l S H _ IH]; intros Hn; constructor; cbn [existsb] in Hn; apply orb_false_iff in Hn; [eapply stored_passed; [exact H|exact (proj1 Hn)]|exact (IH (proj2 Hn))].
Qed.
Lemma found_numbers h e only hd ed e0 : stored_as (WEvt h e only) (SEvt hd ed) -> read_header_record names hd = Ok e0 ->
  (ev_num e0 =? ev_num e) && (ev_run e0 =? ev_run e) = true.
Proof.
  intros (b1 & b2 & z & U1 & U2 & Hok & Henc) Hn. cbn [encoded] in Henc. destruct Henc as (rh & bh & e1 & re & be & E1 & E2 & -> & ->).
  destruct (item_fits comp _ _ _ _ Hok) as [He Hf]. destruct U1 as [U1 U1']. destruct (header_roundtrip b1 only names h e U1 U1' He (proj1 Hf)) as (ri & buf' & E & _ & R).
  rewrite E1 in E. apply Ok_pair in E. destruct E as [<- <-]. rewrite Hn in R. apply Ok_inj in R. subst e0. cbn. lia.
Qed.

Lemma known_tail pre l : Forall (readable ignore_null names) W -> W = pre ++ l -> Forall known l.
Proof.
  intros HR E. apply Forall_forall. intros i Hi. rewrite Forall_forall in HR. assert (H : In i W) by (rewrite E; apply in_or_app; right; exact Hi). split; [apply HR; exact H|exact H].
Qed.

(** one call *)
Definition steps_to (s : step) (r : reader) (cur : option (list witem)) : Prop :=
  exists x r' cur', one_step uncomp srt ignore_null d s r = (x, r') /\ (forall k, x <> RUB k) /\ state_ok r' cur' /\ 0 < rd_next r' /\
    forall st rs, answers srt names n direct W (rd_next r') cur' st rs -> answers srt names n direct W (rd_next r) cur (s :: st) (x :: rs).
Theorem step_answers st : step_ok st -> Forall (readable ignore_null names) W ->
  (direct = true -> Forall (fun i => match i with WRun _ => True | WEvt _ e _ => 0 <= ev_num e end) W) ->
  forall r cur, state_ok r cur -> 0 < rd_next r -> steps_to st r cur.
Proof.
  intros Hok HRW HW r cur Hst Hp.
  assert (Hobj : forall only h e, 0 < rd_next r + Zlen (event_objs only names h e)) by (intros only h e; pose proof (Zlen_nonneg (event_objs only names h e)); lia).
  unfold steps_to. destruct st as [evt|k|run num|run]; cbn [one_step].
  - destruct cur as [l|].
    + destruct evt; cbn [one_op].
      * destruct (existsb is_wevt l) eqn:El.
        -- destruct (split_at _ _ El) as (pre & i & l' & -> & Hpre & Hi). destruct i as [h|h e only]; [discriminate|].
           destruct (next_event r pre h e only l' Hst Hp Hpre) as (le & r' & E & Hc & Hst' & Hnx). rewrite E. do 3 eexists. split; [reflexivity|]. split; [discriminate|]. split; [exact Hst'|]. split; [rewrite Hnx; apply Hobj|]. intros stx rs H. rewrite Hnx in H. eapply A_evt; [exact Hpre|exact Hc|exact H].
        -- destruct (next_event_none r l Hst El) as (r' & E & Hst' & Hnx). rewrite E. do 3 eexists. split; [reflexivity|]. split; [discriminate|]. split; [exact Hst'|]. split; [lia|]. intros stx rs H. rewrite Hnx in H. eapply A_evt_end; [exact El|exact H].
      * destruct (existsb (fun i => negb (is_wevt i)) l) eqn:El.
        -- destruct (split_at _ _ El) as (pre & i & l' & -> & Hpre & Hi). destruct i as [h|h e only]; [|discriminate].
           assert (Hpre' : forallb is_wevt pre = true).
           { clear -Hpre. induction pre as [|i pre IH]; [reflexivity|]. cbn [existsb forallb] in *. destruct (is_wevt i); [exact (IH Hpre)|discriminate]. }
           destruct (next_run r pre h l' Hst Hpre') as (r' & E & Hst' & Hnx). rewrite E. do 3 eexists. split; [reflexivity|]. split; [discriminate|]. split; [exact Hst'|]. split; [lia|]. intros stx rs H. rewrite Hnx in H. eapply A_run; [exact Hpre'|exact H].
        -- assert (El' : forallb is_wevt l = true).
           { clear -El. induction l as [|i l IH]; [reflexivity|]. cbn [existsb forallb] in *. destruct (is_wevt i); [exact (IH El)|discriminate]. }
           destruct (next_run_none r l Hst El') as (r' & E & Hst' & Hnx). rewrite E. do 3 eexists. split; [reflexivity|]. split; [discriminate|]. split; [exact Hst'|]. split; [lia|]. intros stx rs H. rewrite Hnx in H. eapply A_run_end; [exact El'|exact H].
    + pose proof Hst as (H1 & H2 & H3 & H4 & H5 & H6 & HA). destruct evt; cbn [one_op].
      * destruct (stop_evt uncomp srt ignore_null r HA) as (r' & E & A & Hsm & Hnx). unfold read_next_event. rewrite (over_single _ r r' _ _ Hst E Hsm).
        do 3 eexists. split; [reflexivity|]. split; [discriminate|]. split; [apply (state_same _ _ _ None Hst Hsm A)|]. split; [lia|]. intros stx rs H. rewrite Hnx in H. eapply A_late; [exact H].
      * destruct (stop_run uncomp r HA) as (r' & E & A & Hsm & Hnx). unfold read_next_run. rewrite (over_single _ r r' _ _ Hst E Hsm).
        do 3 eexists. split; [reflexivity|]. split; [discriminate|]. split; [apply (state_same _ _ _ None Hst Hsm A)|]. split; [lia|]. intros stx rs H. rewrite Hnx in H. eapply A_late; [exact H].
  - destruct (Z_lt_le_dec k 1) as [Hk|Hk].
    + unfold skip_events. replace (k <? 1) with true by lia. do 3 eexists. split; [reflexivity|]. split; [discriminate|]. split; [exact Hst|]. split; [exact Hp|]. intros stx rs H. eapply A_skip_no; [exact Hk|exact H].
    + destruct cur as [l|].
      * destruct (Z_lt_le_dec (evts l) k) as [Hl|Hl].
        -- destruct (skip_beyond k r l Hst Hl) as (r' & E & Hst' & Hnx). rewrite E. do 3 eexists. split; [reflexivity|]. split; [discriminate|]. split; [exact Hst'|]. split; [lia|]. intros stx rs H. rewrite Hnx in H. eapply A_skip_end; [exact Hl|exact H].
        -- destruct (nth_evt l k (conj Hk Hl)) as (pre & h & e & only & l' & -> & Hpre).
           destruct (skip_ok k r pre h e only l' Hst Hpre) as (r' & E & Hst' & Hnx). rewrite E. do 3 eexists. split; [reflexivity|]. split; [discriminate|]. split; [exact Hst'|]. split; [lia|]. intros stx rs H. rewrite Hnx in H. eapply A_skip; [exact Hpre|exact H].
      * pose proof Hst as (H1 & H2 & H3 & H4 & H5 & H6 & HA). destruct (skip_events_late k r HA Hk) as (r' & E & A & Hsm & Hnx). rewrite E.
        do 3 eexists. split; [reflexivity|]. split; [discriminate|]. split; [apply (state_same _ _ _ None Hst Hsm A)|]. split; [lia|]. intros stx rs H. rewrite Hnx in H. eapply A_skip_late; [exact Hk|exact H].
  - unfold read_event_at. destruct Hok as [Hrun Hnum]. pose proof Hst as (H1 & H2 & H3 & H4 & H5 & H6 & Hcur). clear H1 H2.
    destruct (Bool.bool_dec direct true) as [Hdir|Hdir].
    + rewrite (eq_trans H3 Hdir). destruct (H6 Hdir) as [Hin Hout]. destruct (existsb (has_numbers run num) W) eqn:Eq.
      * destruct (numbers_in run num Eq) as (pre & h & e & only & l' & HeqW & <- & <-).
        destruct (Hin _ _ _ HeqW) as (lb & S & Hpos & V & Hs & HF). cbn [item_key] in Hpos, V.
        replace (rm_pos _ _ =? -1) with false by lia. destruct cur as [l0|].
        -- assert (HR' : Forall known (WEvt h e only :: l')) by (eapply known_tail; [exact HRW|exact HeqW]).
           destruct (seek_ok r l0 _ lb S _ Hst Hpos V Hs HF HR') as [Hg Hst']. rewrite Hg. cbn [negb].
           destruct (next_event _ [] h e only l' Hst' Hp eq_refl) as (le & r' & E & Hc & Hst'' & Hnx). cbn [with_s rd_next] in Hc, Hnx. rewrite E.
           do 3 eexists. split; [reflexivity|]. split; [discriminate|]. split; [exact Hst''|]. split; [rewrite Hnx; apply Hobj|]. intros stx rs H. rewrite Hnx in H. eapply A_get; [exact Hdir|exact HeqW|exact Hc|exact H].
        -- destruct (seek_late r (rm_pos (mg_map (rd_mgr r)) (ev_run e, ev_num e)) Hst) as [Hg Hst']. rewrite Hg. cbn [negb].
           do 3 eexists. split; [reflexivity|]. split; [discriminate|]. split; [exact Hst'|]. split; [exact Hp|]. intros stx rs H. eapply A_get_late; [exact Hdir|exact Eq|exact H].
      * rewrite (Hout (run, num)); [|split; [exact Hrun|unfold int32; cbn; lia]|cbn; lia|apply numbers_out; [exact Eq|lia]].
        cbn [Z.eqb]. do 3 eexists. split; [reflexivity|]. split; [discriminate|]. split; [exact Hst|]. split; [exact Hp|]. intros stx rs H. eapply A_get_none; [exact Hdir|exact Eq|exact H].
    + assert (Hd : direct = false) by (destruct direct; congruence). rewrite (eq_trans H3 Hd). fold wanted_rec. destruct cur as [l|].
      * destruct Hcur as (HR & S & (pos & lb & Hr & V & Hs) & HF). destruct (fuel_enough uncomp _ _ _ _ V) as (f & Ef). rewrite (fuel_of r data pos Hr), Ef.
        destruct (existsb (has_numbers run num) l) eqn:Eq.
        -- destruct (split_at _ _ Eq) as (pre & i & l' & -> & Hpre & Hi). destruct i as [h|h e only]; [discriminate|]. cbn in Hi. apply andb_true_iff in Hi.
           assert (Q : ev_run e = run /\ ev_num e = num) by lia. destruct Q as [<- <-]. clear Hi.
           destruct (readable_split _ _ _ _ HR) as (_ & Hrd & HRl). apply Forall2_app_inv_l in HF. destruct HF as (S1 & S2 & F1 & F2 & ->).
           inversion F2 as [|? s ? S2' Hss F3]; subst.
           destruct (stored_event comp srt ignore_null names h e only s (rd_next r) Hss (proj1 Hrd) Hp) as (hd & ed & e0 & le & -> & Eh & Er & Hc).
           rewrite <- !Nat.add_assoc.
           destruct (find_found uncomp srt ignore_null (ev_run e) (ev_num e) lb _ Hs S1 hd ed S2' (mkES None None) (1 + f)%nat r data pos true e0 eq_refl) as (r' & E & HA & Hsm & Hnx);
             [rewrite H5; eapply all_passed; eassumption|exact H4|rewrite H5; exact Eh|eapply found_numbers; eassumption|exact V|exact Hr|].
           rewrite Er in E, Hnx. cbn [fst snd] in E, Hnx.
           assert (Hst' : state_ok r' (Some l')).
           { eapply state_same; [exact Hst|exact Hsm|]. split; [exact HRl|]. exists S2'. split; assumption. }
           assert (Eend : forall x, evt_end ignore_null x = (Ok (Some le), r') ->
             match x with
             | (Ok _, st, r1) => match es_res st with Some l => ((do l' <- finish ignore_null l; Ok (Some l')), r1) | None => (Ok None, r1) end
             | (Throw EEof, _, r1) => (Ok None, r1) | (Throw e, _, r1) => (Throw e, r1) | (UB k, _, r1) => (UB k, r1) end = (Ok (Some le), r')).
           { intros [[[[]|[]|] es] r1] Hx; try discriminate Hx. unfold evt_end in Hx. destruct (es_res es); [exact Hx|discriminate Hx]. }
           rewrite (Eend _ E). do 3 eexists. split; [reflexivity|]. split; [discriminate|]. split; [exact Hst'|]. split; [rewrite Hnx; apply Hobj|]. intros stx rs H. rewrite Hnx in H. eapply A_find; [exact Hd|exact Hpre|exact Hc|exact H].
        -- destruct (find_none uncomp srt run num lb _ Hs (mkES None None) f r data pos true) as (e & st' & r' & E & A & He & Hsm & Hnx);
             [rewrite H5; eapply all_passed; eassumption|exact H4|exact V|exact Hr|].
           rewrite E, (He eq_refl). do 3 eexists. split; [reflexivity|]. split; [discriminate|]. split; [apply (state_same _ _ _ None Hst Hsm A)|]. split; [lia|]. intros stx rs H. rewrite Hnx in H. eapply A_find_end; [exact Hd|exact Eq|exact H].
      * destruct Hcur as [Ho Hf]. unfold reader_fuel, stream_fuel. rewrite records_failed by assumption.
        exists (RThrow EBadState), (with_s r (rd_s r)), None. split; [reflexivity|]. split; [discriminate|]. split; [eapply state_same; [exact Hst|apply same_s|]; split; assumption|]. split; [exact Hp|]. intros stx rs H. eapply A_find_late; [exact Hd|exact H].
  - unfold read_run. pose proof Hst as (H1 & H2 & H3 & H4 & H5 & H6 & Hcur). clear H1 H2. cbn in Hok.
    destruct (Bool.bool_dec direct true) as [Hdir|Hdir].
    + rewrite (eq_trans H3 Hdir). destruct (H6 Hdir) as [Hin Hout]. destruct (existsb (has_run run) W) eqn:Eq.
      * destruct (run_in run Eq) as (pre & h & l' & HeqW & <-).
        destruct (Hin _ _ _ HeqW) as (lb & S & Hpos & V & Hs & HF). cbn [item_key] in Hpos, V.
        replace (rm_pos _ _ =? -1) with false by lia. destruct cur as [l0|].
        -- assert (HR' : Forall known (WRun h :: l')) by (eapply known_tail; [exact HRW|exact HeqW]).
           destruct (seek_ok r l0 _ lb S _ Hst Hpos V Hs HF HR') as [Hg Hst']. rewrite Hg. cbn [negb].
           destruct (next_run _ [] h l' Hst' eq_refl) as (r' & E & Hst'' & Hnx). cbn [with_s rd_next] in Hnx. rewrite E.
           do 3 eexists. split; [reflexivity|]. split; [discriminate|]. split; [exact Hst''|]. split; [lia|]. intros stx rs H. rewrite Hnx in H. eapply A_getrun; [exact Hdir|exact HeqW|exact H].
        -- destruct (seek_late r (rm_pos (mg_map (rd_mgr r)) (rh_run h, -1)) Hst) as [Hg Hst']. rewrite Hg. cbn [negb].
           do 3 eexists. split; [reflexivity|]. split; [discriminate|]. split; [exact Hst'|]. split; [exact Hp|]. intros stx rs H. eapply A_getrun_late; [exact Hdir|exact Eq|exact H].
      * rewrite (Hout (run, -1)); [|split; [exact Hok|unfold int32; cbn; lia]|cbn; lia|apply run_out; [assumption|exact (HW Hdir)]].
        cbn [Z.eqb]. do 3 eexists. split; [reflexivity|]. split; [discriminate|]. split; [exact Hst|]. split; [exact Hp|]. intros stx rs H. eapply A_getrun_none; [exact Hdir|exact Eq|exact H].
    + assert (Hd : direct = false) by (destruct direct; congruence). rewrite (eq_trans H3 Hd). do 3 eexists. split; [reflexivity|]. split; [discriminate|]. split; [exact Hst|]. split; [exact Hp|]. intros stx rs H. eapply A_find_run; [exact Hd|exact H].
Qed.

Theorem use_answers steps : Forall step_ok steps -> Forall (readable ignore_null names) W ->
  (direct = true -> Forall (fun i => match i with WRun _ => True | WEvt _ e _ => 0 <= ev_num e end) W) ->
  forall r cur, state_ok r cur -> 0 < rd_next r ->
  answers srt names n direct W (rd_next r) cur steps (run_steps uncomp srt ignore_null d steps r).
Proof.
  intros Hsteps HRW HW. induction Hsteps as [|st steps Hok _ IH]; intros r cur Hst Hp; [constructor|]. cbn [run_steps].
  destruct (step_answers st Hok HRW HW r cur Hst Hp) as (x & r' & cur' & E & Hx & Hst' & Hp' & H). rewrite E.
  destruct x; try (apply H, IH; assumption). destruct (Hx k eq_refl).
Qed.

(** calls after other calls *)
Theorem use_more s0 : Forall step_ok s0 -> Forall (readable ignore_null names) W ->
  (direct = true -> Forall (fun i => match i with WRun _ => True | WEvt _ e _ => 0 <= ev_num e end) W) ->
  forall r cur, state_ok r cur -> 0 < rd_next r ->
  exists r' cur', state_ok r' cur' /\ 0 < rd_next r' /\
    (forall s1, run_steps uncomp srt ignore_null d (s0 ++ s1) r = run_steps uncomp srt ignore_null d s0 r ++ run_steps uncomp srt ignore_null d s1 r') /\
    (forall s1 rs, answers srt names n direct W (rd_next r') cur' s1 rs -> answers srt names n direct W (rd_next r) cur (s0 ++ s1) (run_steps uncomp srt ignore_null d s0 r ++ rs)).
Proof.
  intros Hsteps HRW HW. induction Hsteps as [|st steps Hok _ IH]; intros r cur Hst Hp; [exists r, cur; auto|].
  destruct (step_answers st Hok HRW HW r cur Hst Hp) as (x & r' & cur' & E & Hx & Hst' & Hp' & H).
  destruct (IH r' cur' Hst' Hp') as (r2 & cur2 & Hst2 & Hp2 & H2 & H3). exists r2, cur2. split; [exact Hst2|]. split; [exact Hp2|].
  cbn [app run_steps]. rewrite E. split; intros s1; [|intros rs Hs].
  - rewrite H2. destruct x; try reflexivity. destruct (Hx k eq_refl).
  - destruct x; try (cbn [app]; apply H, H3; assumption). destruct (Hx k eq_refl).
Qed.
End Use.

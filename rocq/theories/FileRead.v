(** * Reading the items of a file one after the other *)

From Verif Require Import Bytes StrMap SioModel SioProofs SioRecord SioRead SioFrame SioSpec Ieee ObjModel EventModel IndexModel
  FileModel FileFrame.

Section Files.
Context (uncomp : bytes -> option bytes) (srt : forall A : Type, (A -> Z) -> list A -> list A) (ignore_null : bool).

(** the record [x] contains the data [d], compressed or not *)
Definition holds (x : frec) (d : bytes) : Prop :=
  if is_compressed (f_opts x) then uncomp (f_data x) = Some d /\ f_ulen x = Zlen d else f_data x = d.

(** what sequential reading sees of a file: run headers, and events by the data of their records *)
Inductive sitem : Type := SRun (h : runhdr) | SEvt (hd ed : bytes).

Definition plain_name (n : bytes) : bool :=
  negb (bytes_eqb n run_record) && negb (bytes_eqb n header_record) && negb (bytes_eqb n event_record).
(** event headers can be read, whatever collections are selected *)
Definition hdr_good (hd : bytes) : Prop := forall names, exists e, read_header_record names hd = Ok e.

(** [stores l s]: the records [l] contain the items [s]; there may be other records in between, and
    a header without its event at the end *)
Inductive stores : list frec -> list sitem -> Prop :=
| S_nil : stores [] []
| S_other x l s : plain_name (f_name x) = true -> stores l s -> stores (x :: l) s
| S_run x d h l s : f_name x = run_record -> holds x d -> read_run_record d = Ok h -> stores l s -> stores (x :: l) (SRun h :: s)
| S_evt x y hd ed l s : f_name x = header_record -> holds x hd -> hdr_good hd -> f_name y = event_record -> holds y ed ->
    stores l s -> stores (x :: y :: l) (SEvt hd ed :: s)
| S_hdr x hd : f_name x = header_record -> holds x hd -> hdr_good hd -> stores [x] [].

(** the members of a reader that reading does not change *)
Definition same (r r' : reader) : Prop :=
  rd_files r' = rd_files r /\ rd_idx r' = rd_idx r /\ rd_direct r' = rd_direct r /\ rd_lazy r' = rd_lazy r /\
  rd_mgr r' = rd_mgr r /\ rd_names r' = rd_names r.
Lemma same_refl r : same r r. Proof. repeat split. Qed.
Lemma same_trans a b c : same a b -> same b c -> same a c.
Proof. intros (A1 & A2 & A3 & A4 & A5 & A6) (B1 & B2 & B3 & B4 & B5 & B6). repeat split; congruence. Qed.
Lemma same_raw r s raw : same r (with_raw r s raw). Proof. repeat split. Qed.
Lemma same_s r s : same r (with_s r s). Proof. repeat split. Qed.

Definition unpack_state (x : frec) (d : bytes) (r : reader) : reader := if is_compressed (f_opts x) then with_comp r d else r.
Lemma same_unpack x d r : same r (unpack_state x d r) /\ rd_s (unpack_state x d r) = rd_s r /\ rd_next (unpack_state x d r) = rd_next r.
Proof. unfold unpack_state. destruct (is_compressed (f_opts x)); repeat split. Qed.

Lemma put_all (l d : bytes) : length l = length d -> put l 0 d = d.
Proof.
  intros H. unfold put. change (Z.to_nat 0) with 0%nat. cbn [firstn app Nat.add]. rewrite skipn_all2 by lia. apply app_nil_r.
Qed.

Lemma record_data_spec x d pos r : f_ok x -> holds x d ->
  record_data uncomp (f_info pos x) (f_core x) r = (Ok d, unpack_state x d r).
Proof.
  intros Hx Hd. unfold record_data, unpack_state. cbn [f_info ri_hlen ri_dlen ri_options ri_ulen].
  assert (Hs : span (f_core x) (rec_hlen (f_name x)) (f_dlen x) = Ok (f_data x)).
  { pose proof (f_core_len x) as L. pose proof Hx as (_ & Hdl & _ & Hn & _). destruct (rec_hlen_range _ Hn) as [Hh _].
    unfold span. replace (_ <? _) with false by lia. f_equal. unfold f_core.
    pose proof (rec_hdr_len (f_opts x) (f_dlen x) (f_ulen x) (f_name x)) as Hl. fold (f_hdr x) in Hl. rewrite <- Hl.
    replace (f_hdr x ++ f_data x) with (f_hdr x ++ f_data x ++ []) by (rewrite app_nil_r; reflexivity). apply sub_mid. reflexivity. }
  rewrite Hs. cbn [bind]. unfold holds in Hd. destruct (is_compressed (f_opts x)).
  - destruct Hd as [Hu Hl]. unfold uncompress. rewrite Hu, Hl. replace (Zlen d <? Zlen d) with false by lia. cbn [bind].
    rewrite put_all; [reflexivity|]. pose proof (Zlen_nonneg d) as E0. pose proof (resize_length (rd_comp r) (Zlen d) E0) as E. unfold Zlen in *. lia.
  - rewrite Hd. reflexivity.
Qed.

(** ** Position in the file *)

(** the reader is at the beginning of the items [s] *)
Definition at_file (file : bytes) (r : reader) (s : list sitem) (c : bool) : Prop :=
  exists pos l, rd_s r = at_pos file pos /\ view file pos l c /\ stores l s.
Definition at_items (r : reader) (s : list sitem) (c : bool) : Prop :=
  exists file, at_file file r s c.
(** the end was reached: all further calls throw *)
Definition at_stop (r : reader) : Prop := s_open (rd_s r) = true /\ s_fail (rd_s r) = true.

Lemma fuel_enough file pos l c : view file pos l c ->
  exists f, S (length file) = (length l + (if c then 1 else 2) + f)%nat.
Proof.
  intros V. pose proof (view_length _ _ _ _ V) as H. pose proof (view_pos _ _ _ _ V) as Hp. unfold Zlen in H.
  destruct c; [exists (length file - length l)%nat; lia|].
  destruct l as [|x l].
  - inversion V as [|pre x k Hx Hk E|]; subst. exists (length (pre ++ firstn (Z.to_nat k) (f_core x)) - 1)%nat.
    rewrite app_length, firstn_length. unfold Zlen in Hk. cbn [length]. lia.
  - exists (length file - length (x :: l) - 1)%nat. cbn [length] in *. lia.
Qed.

(** the end of the file, in whatever state *)
Lemma at_end {St} valid (func : St -> record_info -> bytes -> reader -> Res bool * St * reader) f st r file pos c :
  view file pos [] c -> rd_s r = at_pos file pos ->
  exists e r', read_records ((if c then 1 else 2) + f) valid func st r = (Throw e, st, r') /\ at_stop r' /\ (c = true -> e = EEof) /\
    same r r' /\ rd_next r' = rd_next r.
Proof.
  intros V Hr. destruct c.
  - cbn [Nat.add]. rewrite (records_end valid func f st r file pos V Hr). do 2 eexists. split; [reflexivity|]. repeat split.
  - cbn [Nat.add]. destruct (records_cut valid func f st r file pos V Hr) as (e & s' & raw' & E & H1 & H2).
    eexists e, _. split; [exact E|]. split; [split; assumption|]. split; [discriminate|]. repeat split.
Qed.

(** ** The next run header *)

Definition is_srun (i : sitem) : bool := match i with SRun _ => true | _ => false end.

Lemma run_found l s : stores l s -> forall s1 h s2 st f r file pos c,
  s = s1 ++ SRun h :: s2 -> existsb is_srun s1 = false ->
  view file pos l c -> rd_s r = at_pos file pos ->
  exists r', read_records (length l + f) is_run (run_func uncomp) st r = (Ok tt, Some (with_filename r h), r') /\
    at_file file r' s2 c /\ same r r' /\ rd_next r' = rd_next r.
Proof.
  induction 1 as [|x l s Hn H IH|x d h0 l s Hn Hd Hh H IH|x y hd ed l s Hn Hd Hg Hn2 Hd2 H IH|x hd Hn Hd Hg];
    intros s1 h s2 st f r file pos c Es Hs V Hr.
  - destruct s1; discriminate.
  - cbn [length Nat.add]. rewrite (records_skip _ _ _ _ _ _ _ _ _ _ V Hr).
    + destruct (view_tail _ _ _ _ _ V) as [V' _].
      destruct (IH s1 h s2 st f (with_raw r (at_pos file (pos + f_size x)) (f_hdr x)) file (pos + f_size x) c Es Hs V' eq_refl) as (r' & E & A & S & N).
      exists r'. split; [exact E|]. split; [exact A|]. split; [eapply same_trans; [apply same_raw|exact S]|exact N].
    + unfold is_run. cbn [f_info ri_name]. unfold plain_name in Hn. destruct (bytes_eqb (f_name x) run_record); [discriminate Hn|reflexivity].
  - destruct s1 as [|i s1].
    + cbn [app] in Es. injection Es as <- <-. cbn [length Nat.add]. destruct (view_tail _ _ _ _ _ V) as [V' Hx].
      rewrite (records_take _ _ _ _ _ _ _ _ _ _ V Hr) by (unfold is_run; cbn [f_info ri_name]; rewrite Hn; apply bytes_eqb_refl).
      unfold run_func. rewrite (record_data_spec x d pos _ Hx Hd), Hh.
      destruct (same_unpack x d (with_raw r (at_pos file (pos + f_size x)) (f_core x))) as (S1 & S2 & S3).
      eexists. split; [f_equal; f_equal; f_equal; unfold with_filename; destruct S1 as (-> & -> & _); reflexivity|].
      split; [|split; [eapply same_trans; [apply same_raw|exact S1]|rewrite S3; reflexivity]].
      exists (pos + f_size x), l. split; [rewrite S2; reflexivity|]. split; assumption.
    + cbn [app] in Es. injection Es as <- _. discriminate Hs.
  - destruct s1 as [|i s1]; [discriminate|]. cbn [app] in Es. injection Es as <- Es. cbn [existsb is_srun orb] in Hs.
    cbn [length Nat.add]. destruct (view_tail _ _ _ _ _ V) as [V' _]. destruct (view_tail _ _ _ _ _ V') as [V'' _].
    rewrite (records_skip _ _ _ _ _ _ _ _ _ _ V Hr) by (unfold is_run; cbn [f_info ri_name]; rewrite Hn; reflexivity).
    rewrite (records_skip _ _ _ _ _ file (pos + f_size x) y l c V') by (try reflexivity; unfold is_run; cbn [f_info ri_name]; rewrite Hn2; reflexivity).
    destruct (IH s1 h s2 st f (with_raw (with_raw r (at_pos file (pos + f_size x)) (f_hdr x)) (at_pos file (pos + f_size x + f_size y)) (f_hdr y))
                file (pos + f_size x + f_size y) c Es Hs V'' eq_refl) as (r' & E & A & S & N).
    exists r'. split; [exact E|]. split; [exact A|]. split; [eapply same_trans; [|exact S]; repeat split|exact N].
  - destruct s1; discriminate.
Qed.

Lemma run_none l s : stores l s -> forall st f r file pos c,
  existsb is_srun s = false -> view file pos l c -> rd_s r = at_pos file pos ->
  exists e r', read_records (length l + (if c then 1 else 2) + f) is_run (run_func uncomp) st r = (Throw e, st, r') /\ at_stop r' /\
    (c = true -> e = EEof) /\ same r r' /\ rd_next r' = rd_next r.
Proof.
  induction 1 as [|x l s Hn H IH|x d h0 l s Hn Hd Hh H IH|x y hd ed l s Hn Hd Hg Hn2 Hd2 H IH|x hd Hn Hd Hg];
    intros st f r file pos c Hs V Hr.
  - exact (at_end _ _ f st r file pos c V Hr).
  - cbn [length Nat.add]. rewrite (records_skip _ _ _ _ _ _ _ _ _ _ V Hr).
    + destruct (view_tail _ _ _ _ _ V) as [V' _].
      destruct (IH st f (with_raw r (at_pos file (pos + f_size x)) (f_hdr x)) file (pos + f_size x) c Hs V' eq_refl) as (e & r' & E & A & B & S & N).
      exists e, r'. split; [exact E|]. split; [exact A|]. split; [exact B|]. split; [eapply same_trans; [apply same_raw|exact S]|exact N].
    + unfold is_run. cbn [f_info ri_name]. unfold plain_name in Hn. destruct (bytes_eqb (f_name x) run_record); [discriminate Hn|reflexivity].
  - discriminate Hs.
  - cbn [length Nat.add]. destruct (view_tail _ _ _ _ _ V) as [V' _]. destruct (view_tail _ _ _ _ _ V') as [V'' _].
    rewrite (records_skip _ _ _ _ _ _ _ _ _ _ V Hr) by (unfold is_run; cbn [f_info ri_name]; rewrite Hn; reflexivity).
    rewrite (records_skip _ _ _ _ _ file (pos + f_size x) y l c V') by (try reflexivity; unfold is_run; cbn [f_info ri_name]; rewrite Hn2; reflexivity).
    destruct (IH st f (with_raw (with_raw r (at_pos file (pos + f_size x)) (f_hdr x)) (at_pos file (pos + f_size x + f_size y)) (f_hdr y))
                file (pos + f_size x + f_size y) c Hs V'' eq_refl) as (e & r' & E & A & B & S & N).
    exists e, r'. split; [exact E|]. split; [exact A|]. split; [exact B|]. split; [eapply same_trans; [|exact S]; repeat split|exact N].
  - cbn [length Nat.add]. destruct (view_tail _ _ _ _ _ V) as [V' _].
    rewrite (records_skip _ _ _ _ _ _ _ _ _ _ V Hr) by (unfold is_run; cbn [f_info ri_name]; rewrite Hn; reflexivity).
    destruct (at_end is_run (run_func uncomp) f st (with_raw r (at_pos file (pos + f_size x)) (f_hdr x)) file (pos + f_size x) c V' eq_refl)
      as (e & r' & E & A & B & S & N).
    exists e, r'. split; [exact E|]. split; [exact A|]. split; [exact B|]. split; [eapply same_trans; [|exact S]; repeat split|exact N].
Qed.

(** ** The next event *)

(** what reading the event record gives, when the header gave [e0] *)
Definition evt_result (next : addr) (ed : bytes) (e0 : event) : Res (option levent) * addr :=
  match read_event_record srt ed e0 next with
  | Ok (e, h, next') => ((do h' <- post_process ignore_null h e; Ok (Some (mkLE e h' None))), next')
  | Throw x => (Throw x, next)
  | UB k => (UB k, next)
  end.
Definition wanted_rec (ri : record_info) : bool := is_header ri || is_event ri.
Definition evt_read := @read_records evst.

(** the outcome of readNextEvent in one file, from what the records gave *)
Definition evt_end (x : Res unit * evst * reader) : Res (option levent) * reader :=
  match x with
  | (Ok _, st, r1) =>
      match es_res st with
      | Some l => ((do l' <- finish ignore_null l; Ok (Some l')), r1)
      | None => (Ok None, r1)
      end
  | (Throw e, _, r1) => (Throw e, r1)
  | (UB k, _, r1) => (UB k, r1)
  end.

Lemma evt_found l s : stores l s -> forall s1 hd ed s2 st f r file pos c e0,
  s = s1 ++ SEvt hd ed :: s2 -> forallb is_srun s1 = true -> rd_lazy r = false -> read_header_record (rd_names r) hd = Ok e0 ->
  view file pos l c -> rd_s r = at_pos file pos ->
  exists r', evt_end (read_records (length l + f) wanted_rec (evt_func uncomp srt) st r) = (fst (evt_result (rd_next r) ed e0), r') /\
    at_file file r' s2 c /\ same r r' /\ rd_next r' = snd (evt_result (rd_next r) ed e0).
Proof.
  induction 1 as [|x l s Hn H IH|x d h0 l s Hn Hd Hh H IH|x y hd0 ed0 l s Hn Hd Hg Hn2 Hd2 H IH|x hd0 Hn Hd Hg];
    intros s1 hd ed s2 st f r file pos c e0 Es Hs Hz Hh0 V Hr.
  - destruct s1; discriminate.
  - cbn [length Nat.add]. rewrite (records_skip _ _ _ _ _ _ _ _ _ _ V Hr).
    + destruct (view_tail _ _ _ _ _ V) as [V' _].
      destruct (IH s1 hd ed s2 st f (with_raw r (at_pos file (pos + f_size x)) (f_hdr x)) file (pos + f_size x) c e0 Es Hs Hz Hh0 V' eq_refl) as (r' & E & A & S & N).
      exists r'. split; [exact E|]. split; [exact A|]. split; [eapply same_trans; [apply same_raw|exact S]|exact N].
    + unfold wanted_rec, is_header, is_event. cbn [f_info ri_name]. unfold plain_name in Hn.
      destruct (bytes_eqb (f_name x) header_record), (bytes_eqb (f_name x) event_record); rewrite ?andb_false_r in Hn; try discriminate Hn; reflexivity.
  - destruct s1 as [|i s1]; [discriminate|]. cbn [app] in Es. injection Es as <- Es. cbn [forallb is_srun andb] in Hs.
    cbn [length Nat.add]. destruct (view_tail _ _ _ _ _ V) as [V' _].
    rewrite (records_skip _ _ _ _ _ _ _ _ _ _ V Hr) by (unfold wanted_rec, is_header, is_event; cbn [f_info ri_name]; rewrite Hn; reflexivity).
    destruct (IH s1 hd ed s2 st f (with_raw r (at_pos file (pos + f_size x)) (f_hdr x)) file (pos + f_size x) c e0 Es Hs Hz Hh0 V' eq_refl) as (r' & E & A & S & N).
    exists r'. split; [exact E|]. split; [exact A|]. split; [eapply same_trans; [apply same_raw|exact S]|exact N].
  - destruct s1 as [|i s1]; [|cbn [app] in Es; injection Es as <- _; discriminate Hs].
    cbn [app] in Es. injection Es as <- <- <-. cbn [length Nat.add]. destruct (view_tail _ _ _ _ _ V) as [V' Hx]. destruct (view_tail _ _ _ _ _ V') as [V'' Hy].
    rewrite (records_take _ _ _ _ _ _ _ _ _ _ V Hr) by (unfold wanted_rec, is_header, is_event; cbn [f_info ri_name]; rewrite Hn; reflexivity).
    set (r1 := with_raw r (at_pos file (pos + f_size x)) (f_core x)).
    unfold evt_func at 1. replace (is_header (f_info pos x)) with true by (unfold is_header; cbn [f_info ri_name]; rewrite Hn; reflexivity).
    unfold header_step. rewrite (record_data_spec x hd0 pos r1 Hx Hd).
    destruct (same_unpack x hd0 r1) as (S1 & S2 & S3). set (r2 := unpack_state x hd0 r1) in *.
    replace (rd_names r2) with (rd_names r) by (destruct S1 as (_ & _ & _ & _ & _ & ->); reflexivity). rewrite Hh0.
    rewrite (records_take _ _ _ _ _ file (pos + f_size x) y l c V') by (try exact S2; unfold wanted_rec, is_header, is_event; cbn [f_info ri_name]; rewrite Hn2; reflexivity).
    set (r3 := with_raw r2 (at_pos file (pos + f_size x + f_size y)) (f_core y)).
    unfold evt_func at 1. replace (is_header (f_info (pos + f_size x) y)) with false by (unfold is_header; cbn [f_info ri_name]; rewrite Hn2; reflexivity).
    replace (is_event (f_info (pos + f_size x) y)) with true by (unfold is_event; cbn [f_info ri_name]; rewrite Hn2; reflexivity).
    cbn [es_evt]. unfold event_step.
    assert (S3' : same r r3) by (eapply same_trans; [apply (same_raw r (at_pos file (pos + f_size x)) (f_core x))|]; eapply same_trans; [exact S1|apply same_raw]).
    replace (rd_lazy r3) with false by (destruct S3' as (_ & _ & _ & -> & _ & _); symmetry; exact Hz).
    rewrite (record_data_spec y ed0 (pos + f_size x) r3 Hy Hd2). destruct (same_unpack y ed0 r3) as (T1 & T2 & T3). set (r4 := unpack_state y ed0 r3) in *.
    replace (rd_next r4) with (rd_next r) by (rewrite T3; change (rd_next r3) with (rd_next r2); rewrite S3; reflexivity).
    assert (S4 : same r r4) by (eapply same_trans; eassumption).
    assert (N4 : rd_next r4 = rd_next r) by (rewrite T3; change (rd_next r3) with (rd_next r2); rewrite S3; reflexivity).
    assert (A4 : forall r5, rd_s r5 = rd_s r4 -> at_file file r5 s c).
    { intros r5 E5. exists (pos + f_size x + f_size y), l. split; [rewrite E5, T2; reflexivity|]. split; assumption. }
    unfold evt_result. destruct (read_event_record srt ed0 e0 (rd_next r)) as [[[e' h'] n']|e|k]; cbn [evt_end es_res fst snd].
    + unfold finish. cbn [le_rec le_heap le_evt]. eexists. split; [f_equal; destruct (post_process ignore_null h' e'); reflexivity|].
      split; [apply A4; reflexivity|]. split; [|reflexivity]. eapply same_trans; [exact S4|repeat split].
    + eexists. split; [reflexivity|]. split; [apply A4; reflexivity|]. split; assumption.
    + eexists. split; [reflexivity|]. split; [apply A4; reflexivity|]. split; assumption.
  - destruct s1; discriminate.
Qed.

Lemma evt_none l s : stores l s -> forall st f r file pos c,
  forallb is_srun s = true -> view file pos l c -> rd_s r = at_pos file pos ->
  exists e r', evt_end (read_records (length l + (if c then 1 else 2) + f) wanted_rec (evt_func uncomp srt) st r) = (Throw e, r') /\ at_stop r' /\
    (c = true -> e = EEof) /\ same r r' /\ rd_next r' = rd_next r.
Proof.
  induction 1 as [|x l s Hn H IH|x d h0 l s Hn Hd Hh H IH|x y hd ed l s Hn Hd Hg Hn2 Hd2 H IH|x hd Hn Hd Hg];
    intros st f r file pos c Hs V Hr.
  - destruct (at_end wanted_rec (evt_func uncomp srt) f st r file pos c V Hr) as (e & r' & E & A).
    exists e, r'. cbn [length Nat.add]. rewrite E. split; [reflexivity|exact A].
  - cbn [length Nat.add]. rewrite (records_skip _ _ _ _ _ _ _ _ _ _ V Hr).
    + destruct (view_tail _ _ _ _ _ V) as [V' _].
      destruct (IH st f (with_raw r (at_pos file (pos + f_size x)) (f_hdr x)) file (pos + f_size x) c Hs V' eq_refl) as (e & r' & E & A & B & S & N).
      exists e, r'. split; [exact E|]. split; [exact A|]. split; [exact B|]. split; [eapply same_trans; [apply same_raw|exact S]|exact N].
    + unfold wanted_rec, is_header, is_event. cbn [f_info ri_name]. unfold plain_name in Hn.
      destruct (bytes_eqb (f_name x) header_record), (bytes_eqb (f_name x) event_record); rewrite ?andb_false_r in Hn; try discriminate Hn; reflexivity.
  - cbn [forallb is_srun andb] in Hs. cbn [length Nat.add]. destruct (view_tail _ _ _ _ _ V) as [V' _].
    rewrite (records_skip _ _ _ _ _ _ _ _ _ _ V Hr) by (unfold wanted_rec, is_header, is_event; cbn [f_info ri_name]; rewrite Hn; reflexivity).
    destruct (IH st f (with_raw r (at_pos file (pos + f_size x)) (f_hdr x)) file (pos + f_size x) c Hs V' eq_refl) as (e & r' & E & A & B & S & N).
    exists e, r'. split; [exact E|]. split; [exact A|]. split; [exact B|]. split; [eapply same_trans; [apply same_raw|exact S]|exact N].
  - discriminate Hs.
  - cbn [length Nat.add]. destruct (view_tail _ _ _ _ _ V) as [V' Hx].
    rewrite (records_take _ _ _ _ _ _ _ _ _ _ V Hr) by (unfold wanted_rec, is_header, is_event; cbn [f_info ri_name]; rewrite Hn; reflexivity).
    set (r1 := with_raw r (at_pos file (pos + f_size x)) (f_core x)).
    unfold evt_func at 1. replace (is_header (f_info pos x)) with true by (unfold is_header; cbn [f_info ri_name]; rewrite Hn; reflexivity).
    unfold header_step. rewrite (record_data_spec x hd pos r1 Hx Hd).
    destruct (same_unpack x hd r1) as (S1 & S2 & S3). set (r2 := unpack_state x hd r1) in *.
    destruct (Hg (rd_names r2)) as (e0 & ->).
    destruct (at_end wanted_rec (evt_func uncomp srt) f (mkES (Some e0) None) r2 file (pos + f_size x) c V' S2) as (e & r' & E & A & B & S & N).
    exists e, r'. rewrite E. split; [reflexivity|]. split; [exact A|]. split; [exact B|].
    split; [eapply same_trans; [apply (same_raw r (at_pos file (pos + f_size x)) (f_core x))|]; eapply same_trans; [exact S1|exact S]|].
    rewrite N, S3. reflexivity.
Qed.

(** ** The same for the functions of the reader, in one file *)

Lemma fuel_of r file pos : rd_s r = at_pos file pos -> reader_fuel r = S (length file).
Proof. intros H. unfold reader_fuel, stream_fuel. rewrite H. reflexivity. Qed.

Theorem run_step_in file r s1 h s2 c : at_file file r (s1 ++ SRun h :: s2) c -> existsb is_srun s1 = false ->
  exists r', run_step uncomp r = (Ok (Some (with_filename r h)), r') /\ at_file file r' s2 c /\ same r r' /\ rd_next r' = rd_next r.
Proof.
  intros (pos & l & Hr & V & H) Hs. destruct (fuel_enough _ _ _ _ V) as (f & Ef).
  unfold run_step. rewrite (fuel_of r file pos Hr), Ef, <- Nat.add_assoc.
  destruct (run_found l _ H s1 h s2 None ((if c then 1 else 2) + f)%nat r file pos c eq_refl Hs V Hr) as (r' & E & A & S & N).
  exists r'. rewrite E. auto.
Qed.
Theorem run_step_found r s1 h s2 c : at_items r (s1 ++ SRun h :: s2) c -> existsb is_srun s1 = false ->
  exists r', run_step uncomp r = (Ok (Some (with_filename r h)), r') /\ at_items r' s2 c /\ same r r' /\ rd_next r' = rd_next r.
Proof.
  intros (file & H) Hs. destruct (run_step_in file r s1 h s2 c H Hs) as (r' & E & A & S). exists r'. split; [exact E|]. split; [exists file; exact A|exact S].
Qed.
Theorem run_step_none r s c : at_items r s c -> existsb is_srun s = false ->
  exists e r', run_step uncomp r = (Throw e, r') /\ at_stop r' /\ (c = true -> e = EEof) /\ same r r' /\ rd_next r' = rd_next r.
Proof.
  intros (file & pos & l & Hr & V & H) Hs. destruct (fuel_enough _ _ _ _ V) as (f & Ef).
  unfold run_step. rewrite (fuel_of r file pos Hr), Ef.
  destruct (run_none l _ H None f r file pos c Hs V Hr) as (e & r' & E & A). exists e, r'. rewrite E. auto.
Qed.
Theorem evt_step_in file r s1 hd ed s2 c e0 : at_file file r (s1 ++ SEvt hd ed :: s2) c -> forallb is_srun s1 = true ->
  rd_lazy r = false -> read_header_record (rd_names r) hd = Ok e0 ->
  exists r', event_step_all uncomp srt ignore_null r = (fst (evt_result (rd_next r) ed e0), r') /\ at_file file r' s2 c /\ same r r' /\
    rd_next r' = snd (evt_result (rd_next r) ed e0).
Proof.
  intros (pos & l & Hr & V & H) Hs Hz Hh. destruct (fuel_enough _ _ _ _ V) as (f & Ef).
  unfold event_step_all. fold wanted_rec. rewrite (fuel_of r file pos Hr), Ef, <- Nat.add_assoc.
  exact (evt_found l _ H s1 hd ed s2 (mkES None None) ((if c then 1 else 2) + f)%nat r file pos c e0 eq_refl Hs Hz Hh V Hr).
Qed.
Theorem evt_step_found r s1 hd ed s2 c e0 : at_items r (s1 ++ SEvt hd ed :: s2) c -> forallb is_srun s1 = true ->
  rd_lazy r = false -> read_header_record (rd_names r) hd = Ok e0 ->
  exists r', event_step_all uncomp srt ignore_null r = (fst (evt_result (rd_next r) ed e0), r') /\ at_items r' s2 c /\ same r r' /\
    rd_next r' = snd (evt_result (rd_next r) ed e0).
Proof.
  intros (file & H) Hs Hz Hh. destruct (evt_step_in file r s1 hd ed s2 c e0 H Hs Hz Hh) as (r' & E & A & S). exists r'. split; [exact E|]. split; [exists file; exact A|exact S].
Qed.
Theorem evt_step_none r s c : at_items r s c -> forallb is_srun s = true ->
  exists e r', event_step_all uncomp srt ignore_null r = (Throw e, r') /\ at_stop r' /\ (c = true -> e = EEof) /\ same r r' /\ rd_next r' = rd_next r.
Proof.
  intros (file & pos & l & Hr & V & H) Hs. destruct (fuel_enough _ _ _ _ V) as (f & Ef).
  unfold event_step_all. fold wanted_rec. rewrite (fuel_of r file pos Hr), Ef.
  exact (evt_none l _ H (mkES None None) f r file pos c Hs V Hr).
Qed.
Theorem stop_run r : at_stop r -> exists r', run_step uncomp r = (Throw EBadState, r') /\ at_stop r' /\ same r r' /\ rd_next r' = rd_next r.
Proof.
  intros [H1 H2]. unfold run_step, reader_fuel, stream_fuel. rewrite records_failed by assumption.
  eexists. split; [reflexivity|]. split; [split; assumption|]. repeat split.
Qed.
Theorem stop_evt r : at_stop r -> exists r', event_step_all uncomp srt ignore_null r = (Throw EBadState, r') /\ at_stop r' /\ same r r' /\ rd_next r' = rd_next r.
Proof.
  intros [H1 H2]. unfold event_step_all, reader_fuel, stream_fuel. rewrite records_failed by assumption.
  eexists. split; [reflexivity|]. split; [split; assumption|]. repeat split.
Qed.

End Files.

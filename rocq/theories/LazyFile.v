(** * Files that are read with lazy unpacking *)

From Verif Require Import Bytes StrMap SioModel SioProofs SioRecord SioRead SioFrame SioSpec Ieee ObjModel ObjSpec ObjProofs ObjCalls CollSpec
  CollProofs ListFacts EventModel EventSpec EventProofs PostProofs EventFacts IndexModel IndexSpec IndexProofs FileModel FileFrame IndexFile IndexFacts FileSpec FileWrite FileSessions FileRead FileSeq FileDeliver FileFacts
  LazyModel LazySpec LazyProofs.

Section Codec.
Context (comp : Z -> bytes -> bytes) (uncomp : bytes -> option bytes) (srt : forall A : Type, (A -> Z) -> list A -> list A) (ignore_null : bool).

(** the reader without lazy unpacking *)
Definition eagerly (r : reader) : reader :=
  mkRd (rd_s r) (rd_raw r) (rd_comp r) (rd_files r) (rd_idx r) (rd_direct r) false (rd_mgr r) (rd_names r) (rd_max r) (rd_next r).

(** ** One event *)

(** the event of the header [e0], with a record that contains [ed] *)
Definition kept_with (e0 : event) (ed : bytes) (z : levent) : Prop :=
  exists ri buf, z = kept e0 ri buf /\ complete ri buf /\
    if is_compressed (ri_options ri) then uncomp (sub buf (ri_hlen ri) (ri_dlen ri)) = Some ed /\ ri_ulen ri = Zlen ed
    else sub buf (ri_hlen ri) (ri_dlen ri) = ed.

Lemma core_sub x pos : f_ok x -> sub (f_core x) (ri_hlen (f_info pos x)) (ri_dlen (f_info pos x)) = f_data x /\ complete (f_info pos x) (f_core x).
Proof.
  intros Hx. cbn [f_info ri_hlen ri_dlen]. pose proof (f_core_len x) as L. pose proof Hx as (_ & Hdl & _ & Hn & _). destruct (rec_hlen_range _ Hn) as [Hh _]. split.
  - unfold f_core. pose proof (rec_hdr_len (f_opts x) (f_dlen x) (f_ulen x) (f_name x)) as Hl. fold (f_hdr x) in Hl. rewrite <- Hl.
    replace (f_hdr x ++ f_data x) with (f_hdr x ++ f_data x ++ []) by (rewrite app_nil_r; reflexivity). apply sub_mid. reflexivity.
  - split; [cbn [f_info ri_hlen]; lia|]. split; [cbn [f_info ri_dlen]; unfold f_dlen; apply Zlen_nonneg|]. cbn [f_info ri_hlen ri_dlen]. lia.
Qed.
Lemma kept_core e0 ed y pos : f_ok y -> holds uncomp y ed -> kept_with e0 ed (kept e0 (f_info pos y) (f_core y)).
Proof.
  intros Hy Hd. destruct (core_sub y pos Hy) as [E C]. exists (f_info pos y), (f_core y). split; [reflexivity|]. split; [exact C|].
  rewrite E. cbn [f_info ri_options ri_ulen]. unfold holds in Hd. destruct (is_compressed (f_opts y)); exact Hd.
Qed.

Lemma lz_found l s : stores uncomp l s -> forall s1 hd ed s2 st f r file pos c e0,
  s = s1 ++ SEvt hd ed :: s2 -> forallb is_srun s1 = true -> rd_lazy r = true -> read_header_record (rd_names r) hd = Ok e0 ->
  view file pos l c -> rd_s r = at_pos file pos ->
  exists z r', evt_end ignore_null (read_records (length l + f) wanted_rec (evt_func uncomp srt) st r) = (Ok (Some z), r') /\ kept_with e0 ed z /\
    at_file uncomp file r' s2 c /\ same r r'.
Proof.
  induction 1 as [|x l s Hn H IH|x d h0 l s Hn Hd Hh H IH|x y hd0 ed0 l s Hn Hd Hg Hn2 Hd2 H IH|x hd0 Hn Hd Hg];
    intros s1 hd ed s2 st f r file pos c e0 Es Hs Hz Hh0 V Hr.
  - destruct s1; discriminate.
  - cbn [length Nat.add]. rewrite (records_skip _ _ _ _ _ _ _ _ _ _ V Hr).
    + destruct (view_tail _ _ _ _ _ V) as [V' _].
      destruct (IH s1 hd ed s2 st f (with_raw r (at_pos file (pos + f_size x)) (f_hdr x)) file (pos + f_size x) c e0 Es Hs Hz Hh0 V' eq_refl) as (z & r' & E & K & A & S).
      exists z, r'. split; [exact E|]. split; [exact K|]. split; [exact A|]. eapply same_trans; [apply same_raw|exact S].
    + unfold wanted_rec, is_header, is_event. cbn [f_info ri_name]. unfold plain_name in Hn.
      destruct (bytes_eqb (f_name x) header_record), (bytes_eqb (f_name x) event_record); rewrite ?andb_false_r in Hn; try discriminate Hn; reflexivity.
  - destruct s1 as [|i s1]; [discriminate|]. cbn [app] in Es. injection Es as <- Es. cbn [forallb is_srun andb] in Hs.
    cbn [length Nat.add]. destruct (view_tail _ _ _ _ _ V) as [V' _].
    rewrite (records_skip _ _ _ _ _ _ _ _ _ _ V Hr) by (unfold wanted_rec, is_header, is_event; cbn [f_info ri_name]; rewrite Hn; reflexivity).
    destruct (IH s1 hd ed s2 st f (with_raw r (at_pos file (pos + f_size x)) (f_hdr x)) file (pos + f_size x) c e0 Es Hs Hz Hh0 V' eq_refl) as (z & r' & E & K & A & S).
    exists z, r'. split; [exact E|]. split; [exact K|]. split; [exact A|]. eapply same_trans; [apply same_raw|exact S].
  - destruct s1 as [|i s1]; [|cbn [app] in Es; injection Es as <- _; discriminate Hs].
    cbn [app] in Es. injection Es as <- <- <-. cbn [length Nat.add]. destruct (view_tail _ _ _ _ _ V) as [V' Hx]. destruct (view_tail _ _ _ _ _ V') as [V'' Hy].
    rewrite (records_take _ _ _ _ _ _ _ _ _ _ V Hr) by (unfold wanted_rec, is_header, is_event; cbn [f_info ri_name]; rewrite Hn; reflexivity).
    set (r1 := with_raw r (at_pos file (pos + f_size x)) (f_core x)).
    unfold evt_func at 1. replace (is_header (f_info pos x)) with true by (unfold is_header; cbn [f_info ri_name]; rewrite Hn; reflexivity).
    unfold header_step. rewrite (record_data_spec uncomp x hd0 pos r1 Hx Hd).
    destruct (same_unpack x hd0 r1) as (S1 & S2 & S3). set (r2 := unpack_state x hd0 r1) in *.
    replace (rd_names r2) with (rd_names r) by (destruct S1 as (_ & _ & _ & _ & _ & ->); reflexivity). rewrite Hh0.
    rewrite (records_take _ _ _ _ _ file (pos + f_size x) y l c V') by (try exact S2; unfold wanted_rec, is_header, is_event; cbn [f_info ri_name]; rewrite Hn2; reflexivity).
    set (r3 := with_raw r2 (at_pos file (pos + f_size x + f_size y)) (f_core y)).
    unfold evt_func at 1. replace (is_header (f_info (pos + f_size x) y)) with false by (unfold is_header; cbn [f_info ri_name]; rewrite Hn2; reflexivity).
    replace (is_event (f_info (pos + f_size x) y)) with true by (unfold is_event; cbn [f_info ri_name]; rewrite Hn2; reflexivity).
    cbn [es_evt]. unfold event_step.
    assert (S3' : same r r3) by (eapply same_trans; [apply (same_raw r (at_pos file (pos + f_size x)) (f_core x))|]; eapply same_trans; [exact S1|apply same_raw]).
    replace (rd_lazy r3) with true by (destruct S3' as (_ & _ & _ & -> & _ & _); symmetry; exact Hz).
    cbn [evt_end es_res finish le_rec bind]. do 2 eexists. split; [reflexivity|]. split; [exact (kept_core e0 ed0 y (pos + f_size x) Hy Hd2)|]. split.
    + exists (pos + f_size x + f_size y), l. split; [reflexivity|]. split; assumption.
    + eapply same_trans; [exact S3'|]. destruct S3' as (_ & _ & _ & E & _ & _). split; [reflexivity|]. split; [reflexivity|]. split; [reflexivity|]. split; [cbn [rd_lazy]; congruence|split; reflexivity].
  - destruct s1; discriminate.
Qed.
Lemma lz_step_found r s1 hd ed s2 c e0 : at_items uncomp r (s1 ++ SEvt hd ed :: s2) c -> forallb is_srun s1 = true ->
  rd_lazy r = true -> read_header_record (rd_names r) hd = Ok e0 ->
  exists z r', event_step_all uncomp srt ignore_null r = (Ok (Some z), r') /\ kept_with e0 ed z /\ at_items uncomp r' s2 c /\ same r r'.
Proof.
  intros (file & pos & l & Hr & V & H) Hs Hz Hh. destruct (fuel_enough uncomp file pos l c V) as (f & Ef).
  unfold event_step_all. fold wanted_rec. rewrite (fuel_of r file pos Hr), Ef, <- Nat.add_assoc.
  destruct (lz_found l (s1 ++ SEvt hd ed :: s2) H s1 hd ed s2 (mkES None None) ((if c then 1 else 2) + f)%nat r file pos c e0 eq_refl Hs Hz Hh V Hr) as (z & r' & E & K & A & S).
  exists z, r'. split; [exact E|]. split; [exact K|]. split; [exists file; exact A|exact S].
Qed.

(** ** Several files *)

Definition lsim (d : disk) (r : reader) (L : list (bytes * sitem)) (c : bool) : Prop := rd_lazy r = true /\ sim uncomp d (eagerly r) L c.

Lemma lz_over d c rest : forall f r before n S, (length rest <= f)%nat ->
  rd_files r = before ++ n :: map fst rest -> rd_idx r = length before -> rd_lazy r = true ->
  at_items uncomp r S c -> (c = true \/ rest = []) -> Forall (fun nS => content uncomp d (fst nS) (snd nS)) rest ->
  match find_evt (tagged (n, S) ++ flat_map tagged rest) with
  | Some (hd, ed, L') => forall e0, read_header_record (rd_names r) hd = Ok e0 ->
      exists z r', over_files uncomp f d (event_step_all uncomp srt ignore_null) r = (Ok (Some z), r') /\ kept_with e0 ed z /\
        lsim d r' L' c /\ rd_names r' = rd_names r
  | None => exists x r', over_files uncomp f d (event_step_all uncomp srt ignore_null) r = (x, r') /\ ends c x /\ at_stop r'
  end.
Proof.
  induction rest as [|[x Sx] rest IH]; intros f r before n S Hf Hfiles Hidx Hz HA Hcr Hrest.
  - cbn [flat_map]. destruct (split_evt S) as [[H1 H2]|(s1 & hd & ed & s2 & -> & H1 & H2)].
    + rewrite app_nil_r. rewrite (proj1 (H2 n)).
      destruct (evt_step_none uncomp srt ignore_null r S c HA H1) as (e & r' & E & Hst & He & Hsm & _).
      assert (Hn : next_file r' = None). { unfold next_file. destruct Hsm as (-> & -> & _). rewrite Hfiles, Hidx. apply nth_error_None. rewrite app_length. cbn. lia. }
      assert (Hend : over_files uncomp f d (event_step_all uncomp srt ignore_null) r = (match e with EEof => Ok None | _ => Throw e end, r')).
      { destruct f; cbn [over_files]; rewrite E, ?Hn; destruct e; reflexivity. }
      do 2 eexists. split; [exact Hend|]. split; [|exact Hst]. destruct c; [rewrite (He eq_refl); left; reflexivity|]. destruct e; (left; reflexivity) || (right; split; [reflexivity|eexists; reflexivity]).
    + rewrite H2. intros e0 He0. destruct (lz_step_found r s1 hd ed s2 c e0 HA H1 Hz He0) as (z & r' & E & K & HA' & Hsm).
      exists z, r'. split; [destruct f; cbn [over_files]; rewrite E; reflexivity|]. split; [exact K|].
      destruct Hsm as (Q1 & Q2 & Q3 & Q4 & Q5 & Q6). split; [|exact Q6]. split; [congruence|]. exists before, n, s2, []. cbn [eagerly rd_files rd_idx rd_lazy]. rewrite Q1, Q2. repeat split; assumption.
  - destruct Hcr as [->|Hcr]; [|discriminate Hcr].
    destruct f as [|f]; [cbn in Hf; lia|]. cbn [map fst] in Hfiles. inversion Hrest as [|? ? Hx Hrest']; subst. cbn [fst snd] in Hx.
    destruct (split_evt S) as [[H1 H2]|(s1 & hd & ed & s2 & -> & H1 & H2)].
    + rewrite (proj2 (H2 n)). destruct (evt_step_none uncomp srt ignore_null r S true HA H1) as (e & r1 & E & _ & He & Hsm & Hnx). rewrite (He eq_refl) in E.
      destruct Hsm as (Q1 & Q2 & Q3 & Q4 & Q5 & Q6).
      destruct (next_open uncomp d (eagerly r1) before n x Sx rest ltac:(cbn [eagerly rd_files]; congruence) ltac:(cbn [eagerly rd_idx]; congruence) eq_refl Hx Hrest') as (r2 & N & O & Hs2 & P1 & P2 & P3 & P4 & P5 & P6).
      destruct (lazily_open uncomp d x (advance (eagerly r1))) as (O' & _ & _). rewrite O in O'. cbn [fst snd] in O'.
      assert (Er : lazily (advance (eagerly r1)) = advance r1).
      { unfold lazily, advance, eagerly, with_files, close_reader, with_mgr. cbn. rewrite Q4, Hz. reflexivity. }
      rewrite Er in O'.
      specialize (IH f (lazily r2) (before ++ [n]) x Sx ltac:(cbn in Hf; lia)). cbn [lazily rd_files rd_idx rd_lazy rd_names] in IH.
      rewrite P3 in IH. cbn [eagerly rd_files] in IH. rewrite Q1, Hfiles, <- app_assoc in IH. specialize (IH eq_refl P4 eq_refl P5 (or_introl eq_refl) Hrest').
      cbn [flat_map]. cbn [over_files]. change (next_file (eagerly r1)) with (next_file r1) in N. rewrite E, N, O'. rewrite P1 in IH. cbn [eagerly rd_names] in IH. rewrite Q6 in IH.
      destruct (find_evt (tagged (x, Sx) ++ flat_map tagged rest)) as [[[hd ed] L']|].
      * intros e0 He0. destruct (IH e0 He0) as (z & r' & E' & K & S' & N1). exists z, r'. fold (lazily r2) in E'. rewrite E'. split; [reflexivity|]. split; [exact K|]. split; [exact S'|exact N1].
      * destruct IH as (y & r' & E' & [->|[Hc _]] & Hst); [|discriminate Hc]. fold (lazily r2) in E'. do 2 eexists. rewrite E'. split; [reflexivity|]. split; [left; reflexivity|exact Hst].
    + rewrite H2. intros e0 He0. destruct (lz_step_found r s1 hd ed s2 true e0 HA H1 Hz He0) as (z & r' & E & K & HA' & Hsm).
      exists z, r'. split; [cbn [over_files]; rewrite E; reflexivity|]. split; [exact K|].
      destruct Hsm as (Q1 & Q2 & Q3 & Q4 & Q5 & Q6). split; [|exact Q6]. split; [congruence|]. exists before, n, s2, ((x, Sx) :: rest). cbn [eagerly rd_files rd_idx rd_lazy]. rewrite Q1, Q2. repeat split; try assumption. left; reflexivity.
Qed.
Lemma lsim_evt d r L c : lsim d r L c ->
  match find_evt L with
  | Some (hd, ed, L') => forall e0, read_header_record (rd_names r) hd = Ok e0 ->
      exists z r', read_next_event uncomp srt ignore_null d r = (Ok (Some z), r') /\ kept_with e0 ed z /\ lsim d r' L' c /\ rd_names r' = rd_names r
  | None => exists x r', read_next_event uncomp srt ignore_null d r = (x, r') /\ ends c x /\ at_stop r'
  end.
Proof.
  intros (Hz & before & n & S & rest & Hf & Hi & _ & HA & Hcr & Hr & ->). cbn [eagerly rd_files rd_idx] in Hf, Hi.
  exact (lz_over d c rest (length (rd_files r)) r before n S ltac:(rewrite Hf, app_length; cbn [length]; rewrite map_length; lia) Hf Hi Hz HA Hcr Hr).
Qed.

(** run headers are read in the same way *)
Lemma lazily_run_records f : forall st r, read_records f is_run (run_func uncomp) st (lazily r) =
  let '(x, st', r') := read_records f is_run (run_func uncomp) st r in (x, st', lazily r').
Proof.
  induction f as [|f IH]; intros st r; cbn [read_records]; [reflexivity|]. cbn [lazily rd_s rd_raw].
  destruct (read_record_info (rd_s r) (rd_raw r)) as [[[ri buf]|x|k] s1]; [|reflexivity..]. destruct (is_run ri).
  - destruct (read_record_data s1 ri buf (ri_hlen ri)) as [[buf'|x|k] s2]; [|reflexivity..]. change (with_raw (lazily r) s2 buf') with (lazily (with_raw r s2 buf')).
    unfold run_func at 1 3. rewrite lazily_data. destruct (record_data uncomp ri buf' (with_raw r s2 buf')) as [[data|x|k] r1]; cbn [fst snd]; [|reflexivity..].
    destruct (read_run_record data); reflexivity.
  - change (with_raw (lazily r) (s_seek s1 (ri_end ri)) buf) with (lazily (with_raw r (s_seek s1 (ri_end ri)) buf)). apply IH.
Qed.
Lemma lazily_over_run d : forall f r, over_files uncomp f d (run_step uncomp) (lazily r) =
  let '(x, r') := over_files uncomp f d (run_step uncomp) r in (x, lazily r').
Proof.
  assert (Hs : forall r, run_step uncomp (lazily r) = let '(x, r') := run_step uncomp r in (x, lazily r')).
  { intros r. unfold run_step. change (reader_fuel (lazily r)) with (reader_fuel r). rewrite lazily_run_records. destruct (read_records _ _ _ _ r) as [[[u|x|k] st] r']; reflexivity. }
  induction f as [|f IH]; intros r; cbn [over_files]; rewrite Hs; destruct (run_step uncomp r) as [[o|x|k] r1]; try reflexivity; destruct x; try reflexivity;
    change (next_file (lazily r1)) with (next_file r1); destruct (next_file r1) as [n|]; try reflexivity.
  change (advance (lazily r1)) with (lazily (advance r1)). destruct (lazily_open uncomp d n (advance r1)) as (-> & _ & _).
  destruct (open_file uncomp d n (advance r1)) as [[u|x|k] r2]; cbn [fst snd]; try reflexivity. rewrite IH.
  destruct (over_files uncomp f d (run_step uncomp) r2) as [[o|x|k] r3]; try reflexivity. destruct x; reflexivity.
Qed.
Lemma lazily_eagerly r : rd_lazy r = true -> lazily (eagerly r) = r.
Proof. destruct r. cbn. intros ->. reflexivity. Qed.
Lemma eagerly_lazily r : rd_lazy r = false -> eagerly (lazily r) = r.
Proof. destruct r. cbn. intros ->. reflexivity. Qed.
Lemma sim_lazy d r L c : sim uncomp d r L c -> rd_lazy r = false.
Proof. intros (before & n & S & rest & _ & _ & H & _). exact H. Qed.
Lemma lsim_run d r L c : lsim d r L c ->
  match find_run L with
  | Some (m, h, L') => exists r', read_next_run uncomp d r = (Ok (Some (run_copy m h)), r') /\ lsim d r' L' c /\ rd_names r' = rd_names r
  | None => exists x r', read_next_run uncomp d r = (x, r') /\ ends c x /\ at_stop r'
  end.
Proof.
  intros [Hz HS]. pose proof (sim_run uncomp d (eagerly r) L c HS) as H. unfold read_next_run in *. change (rd_files (eagerly r)) with (rd_files r) in H.
  assert (E : over_files uncomp (length (rd_files r)) d (run_step uncomp) r = let '(x, r') := over_files uncomp (length (rd_files r)) d (run_step uncomp) (eagerly r) in (x, lazily r')) by (rewrite <- lazily_over_run, lazily_eagerly by exact Hz; reflexivity).
  rewrite E. clear E. change (rd_names (eagerly r)) with (rd_names r) in H.
  destruct (find_run L) as [[[m h] L']|].
  - destruct H as (r' & -> & S' & N1 & N2). eexists. split; [reflexivity|]. split; [|exact N1]. split; [reflexivity|]. rewrite eagerly_lazily; [exact S'|eapply sim_lazy; exact S'].
  - destruct H as (x & r' & -> & Hx & Hst). do 2 eexists. split; [reflexivity|]. split; [exact Hx|exact Hst].
Qed.

(** ** Any sequence of calls *)

Lemma kept_answers next readonly e0 ed z l next' : kept_with e0 ed z -> evt_result srt ignore_null next ed e0 = (Ok (Some l), next') ->
  exists ri buf, le_rec z = Some (ri, buf) /\ (is_compressed (ri_options ri) = true -> ri_ulen ri = Zlen ed) /\
    ((is_compressed (ri_options ri) = true -> ri_ulen ri <> 0) -> intact uncomp ri buf) /\ answers_like uncomp srt ignore_null next readonly l z.
Proof.
  intros (ri & buf & -> & Hc & Hd) He. exists ri, buf. split; [reflexivity|].
  split; [intros Ec; rewrite Ec in Hd; exact (proj2 Hd)|]. split.
  { intros Hne Ec. specialize (Hne Ec). rewrite Ec in Hd. destruct Hd as [D1 D2]. pose proof (Zlen_nonneg ed). split; [lia|]. exists ed. split; [exact D1|symmetry; exact D2]. }
  intros ri' buf' Hr Hi. cbn [kept le_rec] in Hr. injection Hr as <- <-. eexists. split; [apply lazy_event_fresh|]. intros accs Ha.
  set (r0 := new_reader false false [] [] [] (mkBuffer [] true) next).
  assert (Hdata : exists r1, record_data uncomp ri buf r0 = (Ok ed, r1) /\ rd_next r1 = next).
  { pose proof (data_same uncomp ri buf r0 Hc Hi) as E. pose proof (data_next uncomp ri buf r0) as [E2 _]. destruct (record_data uncomp ri buf r0) as [y r1]. cbn [fst snd] in *.
    exists r1. split; [|exact E2]. f_equal. rewrite E. destruct (span_whole ri buf Hc) as (_ & S2 & S3). unfold lz_data. rewrite S2. cbn [bind].
    destruct (is_compressed (ri_options ri)) eqn:Ec.
    - destruct (Hi Ec) as (Hu & d & Hd1 & Hd2). destruct Hd as [D1 D2]. rewrite D1 in Hd1. injection Hd1 as <-. replace (_ =? 0) with false by lia. unfold uncompress. rewrite <- S3, D1.
      replace (_ <? _) with false by lia. f_equal. apply (put_all uncomp). pose proof (resize_length (zeros (Z.to_nat (ri_ulen ri))) (ri_ulen ri) ltac:(lia)) as R. unfold Zlen in *. lia.
    - rewrite <- S3, Hd. reflexivity. }
  destruct Hdata as (r1 & Ed & En). unfold evt_result in He. destruct (read_event_record srt ed e0 next) as [[[e h] n]|x|k] eqn:Er; try discriminate He.
  destruct (post_process ignore_null h e) as [h'|x|k] eqn:Ep; cbn [bind] in He; try discriminate He. injection He as <- <-.
  apply (run_alike uncomp srt ignore_null next readonly e0 ri buf r0 (mkLE e h None) (with_next r1 n) (mkLE e h' None) Hc Hi eq_refl eq_refl).
  - unfold event_step. change (rd_lazy r0) with false. cbn iota. rewrite Ed, En, Er. reflexivity.
  - unfold finish. cbn [le_rec le_heap le_evt]. rewrite Ep. reflexivity.
  - exact Ha.
Qed.

Lemma run_ops_lazily d ops readonly : forall r rz L, sim uncomp d r L true -> lsim d rz L true -> 0 < rd_next r -> rd_names rz = rd_names r ->
  Forall (fun x => good_item srt ignore_null (rd_names r) (snd x)) L ->
  Forall2 (same_result uncomp srt ignore_null readonly) (run_ops uncomp srt ignore_null d ops r) (run_ops uncomp srt ignore_null d ops rz).
Proof.
  assert (Hend : forall r rz ops', at_stop r -> at_stop rz ->
    Forall2 (same_result uncomp srt ignore_null readonly) (run_ops uncomp srt ignore_null d ops' r) (run_ops uncomp srt ignore_null d ops' rz)).
  { intros r rz ops' H1 H2. rewrite (run_stop uncomp srt ignore_null d ops' r H1), (run_stop uncomp srt ignore_null d ops' rz H2). unfold too_late. induction ops' as [|o ops' IH]; constructor; [reflexivity|exact IH]. }
  induction ops as [|[|] ops IH]; intros r rz L HS HZ Hp Hn HG; [constructor| |]; cbn [run_ops one_op].
  - pose proof (sim_evt uncomp srt ignore_null d r L true HS) as H. pose proof (lsim_evt d rz L true HZ) as Hl. destruct (find_evt L) as [[[hd ed] L']|] eqn:EL.
    + destruct (find_evt_in _ _ _ _ EL) as (pre & n & -> & _). apply Forall_app in HG. destruct HG as [_ HG]. inversion HG as [|? ? Hg HG']; subst. destruct Hg as (e0 & He0 & Hok).
      destruct (Hok (rd_next r) Hp) as (l & next' & El & Hp').
      destruct (H e0 He0) as (r' & E & S' & N1 & N2); [rewrite El; discriminate|]. rewrite El in E, N2. cbn [fst snd] in E, N2.
      destruct (Hl e0 ltac:(rewrite Hn; exact He0)) as (z & rz' & Ez & K & Sz & Nz). rewrite E, Ez. constructor.
      * destruct (kept_answers (rd_next r) readonly e0 ed z l next' K El) as (ri & buf & Er & _ & Hi & Ha). exists (rd_next r), ri, buf. split; [exact Er|].
        intros Hne. exact (Ha ri buf Er (Hi Hne)).
      * apply (IH r' rz' L'); [exact S'|exact Sz|lia|congruence|rewrite N1; exact HG'].
    + destruct H as (x & r' & E & [->|[Hx _]] & Hst); [|discriminate Hx]. destruct Hl as (y & rz' & Ez & [->|[Hy _]] & Hsz); [|discriminate Hy]. rewrite E, Ez.
      constructor; [reflexivity|apply Hend; assumption].
  - pose proof (sim_run uncomp d r L true HS) as H. pose proof (lsim_run d rz L true HZ) as Hl. destruct (find_run L) as [[[n h] L']|] eqn:EL.
    + destruct (find_run_in _ _ _ _ EL) as (pre & -> & _). apply Forall_app in HG. destruct HG as [_ HG]. inversion HG as [|? ? _ HG']; subst.
      destruct H as (r' & E & S' & N1 & N2). destruct Hl as (rz' & Ez & Sz & Nz). rewrite E, Ez.
      constructor; [reflexivity|]. apply (IH r' rz' L'); [exact S'|exact Sz|lia|congruence|rewrite N1; exact HG'].
    + destruct H as (x & r' & E & [->|[Hx _]] & Hst); [|discriminate Hx]. destruct Hl as (y & rz' & Ez & [->|[Hy _]] & Hsz); [|discriminate Hy]. rewrite E, Ez.
      constructor; [reflexivity|apply Hend; assumption].
Qed.

Theorem read_lazily d files ops readonly direct names raw cbuf mraw next direct' raw' cbuf' mraw' next' :
  codec_ok comp uncomp -> files <> [] -> Forall (wf_ok comp uncomp d) files ->
  (direct = true \/ direct' = true -> match files with f :: _ => Forall (sess_covers comp) (wf_sess f) | [] => True end) ->
  Forall (fun w => readable ignore_null names (snd w)) (flat_map wf_items files) -> 0 < next ->
  Forall2 (same_result uncomp srt ignore_null readonly)
    (read_all uncomp srt ignore_null d (map wf_name files) ops (new_reader direct false names raw cbuf mraw next))
    (read_all uncomp srt ignore_null d (map wf_name files) ops (new_reader direct' true names raw' cbuf' mraw' next')).
Proof.
  intros Hc Hne Hok Hdir HR Hp. destruct files as [|f files]; [contradiction|]. inversion Hok as [|? ? Hf Hfs]; subst.
  destruct (file_content comp uncomp d f Hc Hf) as (S & A & B & C). destruct (files_content comp uncomp d files Hc Hfs) as (L & E & F & G).
  destruct (open_sim uncomp d (wf_name f) S L direct names raw cbuf mraw next A F) as (r & O & HS & N1 & N2); [intros Hd; exact (C (Hdir (or_introl Hd)))|].
  destruct (open_sim uncomp d (wf_name f) S L direct' names raw' cbuf' mraw' next' A F) as (rz & Oz & HZ & Nz & _); [intros Hd; exact (C (Hdir (or_intror Hd)))|].
  cbn [map]. rewrite <- E. unfold read_all. rewrite O.
  assert (Oz' : open_files uncomp d (wf_name f :: map fst L) (new_reader direct' true names raw' cbuf' mraw' next') = (Ok tt, lazily rz)).
  { unfold open_files in *. destruct (existsb _ _); [discriminate Oz|].
    change (with_files (new_reader direct' true names raw' cbuf' mraw' next') (wf_name f :: map fst L) 0) with
      (lazily (with_files (new_reader direct' false names raw' cbuf' mraw' next') (wf_name f :: map fst L) 0)).
    destruct (lazily_open uncomp d (wf_name f) (with_files (new_reader direct' false names raw' cbuf' mraw' next') (wf_name f :: map fst L) 0)) as (-> & _ & _). rewrite Oz. reflexivity. }
  rewrite Oz'. apply (run_ops_lazily d ops readonly r (lazily rz) (tagged (wf_name f, S) ++ flat_map tagged L)).
  - exact HS.
  - split; [reflexivity|]. rewrite eagerly_lazily; [exact HZ|eapply sim_lazy; exact HZ].
  - lia.
  - cbn [lazily rd_names]. congruence.
  - rewrite N1. eapply (all_good comp uncomp); [|exact HR]. cbn [flat_map]. apply Forall2_app; assumption.
Qed.
End Codec.

(** * Reading files one item after the other *)

From Verif Require Import Bytes StrMap SioModel SioProofs SioRecord SioRead SioFrame SioSpec Ieee ObjModel ObjSpec ObjProofs ObjCalls CollSpec
  CollProofs ListFacts EventModel EventSpec EventProofs EventFacts IndexModel IndexSpec IndexProofs FileModel FileFrame IndexFile IndexFacts FileSpec FileWrite FileSessions FileRead.

(** ** The contents of files *)

Section Codec.
Context (uncomp : bytes -> option bytes).

Definition content (d : disk) (n : bytes) (S : list sitem) : Prop :=
  exists data lb, d n = Some data /\ view data 0 lb true /\ stores uncomp lb S.
Definition tagged (nS : bytes * list sitem) : list (bytes * sitem) := map (pair (fst nS)) (snd nS).

(** the reader has the items [L] in front of it, in this file and in the following ones; [c] is
    false if this file, which is the last one then, is cut off *)
Definition sim (d : disk) (r : reader) (L : list (bytes * sitem)) (c : bool) : Prop :=
  exists before n S rest, rd_files r = before ++ n :: map fst rest /\ rd_idx r = length before /\ rd_lazy r = false /\
    at_items uncomp r S c /\ (c = true \/ rest = []) /\ Forall (fun nS => content d (fst nS) (snd nS)) rest /\ L = tagged (n, S) ++ flat_map tagged rest.

Fixpoint find_evt (L : list (bytes * sitem)) : option (bytes * bytes * list (bytes * sitem)) :=
  match L with
  | [] => None
  | (_, SRun _) :: L' => find_evt L'
  | (_, SEvt hd ed) :: L' => Some (hd, ed, L')
  end.
Fixpoint find_run (L : list (bytes * sitem)) : option (bytes * runhdr * list (bytes * sitem)) :=
  match L with
  | [] => None
  | (n, SRun h) :: L' => Some (n, h, L')
  | (_, SEvt _ _) :: L' => find_run L'
  end.

(** in one file *)
Lemma split_evt S : (forallb is_srun S = true /\ forall n, find_evt (tagged (n, S)) = None /\ forall L, find_evt (tagged (n, S) ++ L) = find_evt L) \/
  exists s1 hd ed s2, S = s1 ++ SEvt hd ed :: s2 /\ forallb is_srun s1 = true /\ forall n L, find_evt (tagged (n, S) ++ L) = Some (hd, ed, tagged (n, s2) ++ L).
Proof.
  induction S as [|[h|hd ed] S IH].
  - left. split; [reflexivity|]. intros n. split; reflexivity.
  - destruct IH as [[H1 H2]|(s1 & hd & ed & s2 & E & H1 & H2)].
    + left. split; [exact H1|]. exact H2.
    + right. exists (SRun h :: s1), hd, ed, s2. rewrite E. split; [reflexivity|]. split; [exact H1|]. intros n L. rewrite E in H2. exact (H2 n L).
  - right. exists [], hd, ed, S. split; [reflexivity|]. split; [reflexivity|]. intros n L. reflexivity.
Qed.
Lemma split_run S : (existsb is_srun S = false /\ forall n L, find_run (tagged (n, S) ++ L) = find_run L) \/
  exists s1 h s2, S = s1 ++ SRun h :: s2 /\ existsb is_srun s1 = false /\ forall n L, find_run (tagged (n, S) ++ L) = Some (n, h, tagged (n, s2) ++ L).
Proof.
  induction S as [|[h|hd ed] S IH].
  - left. split; [reflexivity|]. intros n L. reflexivity.
  - right. exists [], h, S. split; [reflexivity|]. split; [reflexivity|]. intros n L. reflexivity.
  - destruct IH as [[H1 H2]|(s1 & h & s2 & E & H1 & H2)].
    + left. split; [exact H1|]. exact H2.
    + right. exists (SEvt hd ed :: s1), h, s2. rewrite E. split; [reflexivity|]. split; [exact H1|]. intros n L. rewrite E in H2. exact (H2 n L).
Qed.

(** going to the next file *)
Lemma next_open d r before n x S rest : rd_files r = before ++ n :: x :: map fst rest -> rd_idx r = length before -> rd_lazy r = false ->
  content d x S -> Forall (fun nS => content d (fst nS) (snd nS)) rest ->
  exists r', next_file r = Some x /\ open_file uncomp d x (advance r) = (Ok tt, r') /\ sim d r' (tagged (x, S) ++ flat_map tagged rest) true /\
    rd_names r' = rd_names r /\ rd_next r' = rd_next r /\ rd_files r' = rd_files r /\ rd_idx r' = length (before ++ [n]) /\
    at_items uncomp r' S true /\ rd_lazy r' = false.
Proof.
  intros Hf Hi Hz (data & lb & Hd & Hv & Hs) Hrest.
  assert (Hn : next_file r = Some x).
  { unfold next_file. rewrite Hf, Hi. replace (Datatypes.S (length before)) with (length (before ++ [n])) by (rewrite app_length; cbn; lia).
    change (before ++ n :: x :: map fst rest) with (before ++ [n] ++ x :: map fst rest). rewrite app_assoc, nth_error_app2 by lia. rewrite Nat.sub_diag. reflexivity. }
  unfold open_file. rewrite Hd. cbn [with_s advance close_reader with_mgr with_files rd_direct rd_files].
  destruct (rd_files r) as [|y ys] eqn:Ey; [destruct before; discriminate|].
  eexists. split; [exact Hn|]. split; [reflexivity|].
  match goal with |- sim d ?R _ _ /\ _ => assert (HA : at_items uncomp R S true) by (exists data, 0, lb; split; [reflexivity|split; assumption]) end.
  assert (Hl : Datatypes.S (rd_idx r) = length (before ++ [n])) by (rewrite Hi, app_length; cbn; lia).
  split. { exists (before ++ [n]), x, S, rest. cbn [with_s advance close_reader with_mgr with_files rd_files rd_idx rd_lazy]. rewrite Ey. split; [rewrite <- app_assoc; exact Hf|].
    split; [exact Hl|]. split; [exact Hz|]. split; [exact HA|]. split; [left; reflexivity|]. split; [exact Hrest|reflexivity]. }
  cbn [with_s advance close_reader with_mgr with_files rd_names rd_next rd_files rd_idx rd_lazy]. repeat split; assumption.
Qed.

Section Events.
Context (srt : forall A : Type, (A -> Z) -> list A -> list A) (ignore_null : bool).

(** what is left of the file does not matter at its end *)
Definition ends {A} (c : bool) (x : Res (option A)) : Prop := x = Ok None \/ (c = false /\ exists e, x = Throw e).

Lemma over_evt d c rest : forall f r before n S, (length rest <= f)%nat ->
  rd_files r = before ++ n :: map fst rest -> rd_idx r = length before -> rd_lazy r = false ->
  at_items uncomp r S c -> (c = true \/ rest = []) -> Forall (fun nS => content d (fst nS) (snd nS)) rest ->
  match find_evt (tagged (n, S) ++ flat_map tagged rest) with
  | Some (hd, ed, L') => forall e0, read_header_record (rd_names r) hd = Ok e0 -> fst (evt_result srt ignore_null (rd_next r) ed e0) <> Throw EEof ->
      exists r', over_files uncomp f d (event_step_all uncomp srt ignore_null) r = (fst (evt_result srt ignore_null (rd_next r) ed e0), r') /\
        sim d r' L' c /\ rd_names r' = rd_names r /\ rd_next r' = snd (evt_result srt ignore_null (rd_next r) ed e0)
  | None => exists x r', over_files uncomp f d (event_step_all uncomp srt ignore_null) r = (x, r') /\ ends c x /\ at_stop r'
  end.
Proof.
  induction rest as [|[x Sx] rest IH]; intros f r before n S Hf Hfiles Hidx Hz HA Hcr Hrest.
  - cbn [flat_map]. destruct (split_evt S) as [[H1 H2]|(s1 & hd & ed & s2 & -> & H1 & H2)].
    + rewrite app_nil_r. rewrite (proj1 (H2 n)).
      destruct (evt_step_none uncomp srt ignore_null r S c HA H1) as (e & r' & E & Hst & He & Hsm & _).
      assert (Hn : next_file r' = None). { unfold next_file. destruct Hsm as (-> & -> & _). rewrite Hfiles, Hidx. apply nth_error_None. rewrite app_length. cbn. lia. }
      assert (Hend : over_files uncomp f d (event_step_all uncomp srt ignore_null) r = (match e with EEof => Ok None | _ => Throw e end, r')).
      { destruct f; cbn [over_files]; rewrite E, ?Hn; destruct e; reflexivity. }
      do 2 eexists. split; [exact Hend|]. split; [|exact Hst]. destruct c; [rewrite (He eq_refl); left; reflexivity|]. destruct e; (left; reflexivity) || (right; split; [reflexivity|eexists; reflexivity]).
    + rewrite H2. intros e0 He0 Hne. destruct (evt_step_found uncomp srt ignore_null r s1 hd ed s2 c e0 HA H1 Hz He0) as (r' & E & HA' & Hsm & Hnx).
      exists r'. split.
      { destruct f; cbn [over_files]; rewrite E; destruct (fst (evt_result srt ignore_null (rd_next r) ed e0)) as [|[]|]; try reflexivity; congruence. }
      destruct Hsm as (Q1 & Q2 & Q3 & Q4 & Q5 & Q6). split; [|split; assumption]. exists before, n, s2, []. rewrite Q1, Q2, Q4. repeat split; assumption.
  - destruct Hcr as [->|Hcr]; [|discriminate Hcr].
    destruct f as [|f]; [cbn in Hf; lia|]. cbn [map fst] in Hfiles. inversion Hrest as [|? ? Hx Hrest']; subst. cbn [fst snd] in Hx.
    destruct (split_evt S) as [[H1 H2]|(s1 & hd & ed & s2 & -> & H1 & H2)].
    + rewrite (proj2 (H2 n)). destruct (evt_step_none uncomp srt ignore_null r S true HA H1) as (e & r1 & E & _ & He & Hsm & Hnx). rewrite (He eq_refl) in E.
      destruct Hsm as (Q1 & Q2 & Q3 & Q4 & Q5 & Q6).
      destruct (next_open d r1 before n x Sx rest ltac:(congruence) ltac:(congruence) ltac:(congruence) Hx Hrest') as (r2 & N & O & Hs2 & P1 & P2 & P3 & P4 & P5 & P6).
      specialize (IH f r2 (before ++ [n]) x Sx ltac:(cbn in Hf; lia)). rewrite P3, Q1, Hfiles, <- app_assoc in IH. specialize (IH eq_refl P4 P6 P5 (or_introl eq_refl) Hrest').
      cbn [flat_map]. cbn [over_files]. rewrite E, N, O. rewrite P1, P2, Q6, Hnx in IH.
      destruct (find_evt (tagged (x, Sx) ++ flat_map tagged rest)) as [[[hd ed] L']|].
      * intros e0 He0 Hne. destruct (IH e0 He0 Hne) as (r' & E' & S' & N1 & N2). exists r'. rewrite E'. split; [|split; [exact S'|split; [exact N1|exact N2]]].
        destruct (fst (evt_result srt ignore_null (rd_next r) ed e0)) as [|[]|]; try reflexivity; congruence.
      * destruct IH as (y & r' & E' & [->|[Hc _]] & Hst); [|discriminate Hc]. do 2 eexists. rewrite E'. split; [reflexivity|]. split; [left; reflexivity|exact Hst].
    + rewrite H2. intros e0 He0 Hne. destruct (evt_step_found uncomp srt ignore_null r s1 hd ed s2 true e0 HA H1 Hz He0) as (r' & E & HA' & Hsm & Hnx).
      exists r'. split.
      { cbn [over_files]; rewrite E; destruct (fst (evt_result srt ignore_null (rd_next r) ed e0)) as [|[]|]; try reflexivity; congruence. }
      destruct Hsm as (Q1 & Q2 & Q3 & Q4 & Q5 & Q6). split; [|split; assumption]. exists before, n, s2, ((x, Sx) :: rest). rewrite Q1, Q2, Q4. repeat split; try assumption. left; reflexivity.
Qed.
Lemma over_run d c rest : forall f r before n S, (length rest <= f)%nat ->
  rd_files r = before ++ n :: map fst rest -> rd_idx r = length before -> rd_lazy r = false ->
  at_items uncomp r S c -> (c = true \/ rest = []) -> Forall (fun nS => content d (fst nS) (snd nS)) rest ->
  match find_run (tagged (n, S) ++ flat_map tagged rest) with
  | Some (m, h, L') => exists r', over_files uncomp f d (run_step uncomp) r = (Ok (Some (run_copy m h)), r') /\
        sim d r' L' c /\ rd_names r' = rd_names r /\ rd_next r' = rd_next r
  | None => exists x r', over_files uncomp f d (run_step uncomp) r = (x, r') /\ ends c x /\ at_stop r'
  end.
Proof.
  induction rest as [|[x Sx] rest IH]; intros f r before n S Hf Hfiles Hidx Hz HA Hcr Hrest.
  - cbn [flat_map]. destruct (split_run S) as [[H1 H2]|(s1 & h & s2 & -> & H1 & H2)].
    + rewrite H2. cbn [find_run].
      destruct (run_step_none uncomp r S c HA H1) as (e & r' & E & Hst & He & Hsm & _).
      assert (Hn : next_file r' = None). { unfold next_file. destruct Hsm as (-> & -> & _). rewrite Hfiles, Hidx. apply nth_error_None. rewrite app_length. cbn. lia. }
      assert (Hend : over_files uncomp f d (run_step uncomp) r = (match e with EEof => Ok None | _ => Throw e end, r')).
      { destruct f; cbn [over_files]; rewrite E, ?Hn; destruct e; reflexivity. }
      do 2 eexists. split; [exact Hend|]. split; [|exact Hst]. destruct c; [rewrite (He eq_refl); left; reflexivity|]. destruct e; (left; reflexivity) || (right; split; [reflexivity|eexists; reflexivity]).
    + rewrite H2. destruct (run_step_found uncomp r s1 h s2 c HA H1) as (r' & E & HA' & Hsm & Hnx).
      exists r'. assert (Hc : with_filename r h = run_copy n h).
      { unfold with_filename, run_copy. rewrite Hfiles, Hidx, app_nth2 by lia. rewrite Nat.sub_diag. reflexivity. }
      split. { destruct f; cbn [over_files]; rewrite E, Hc; reflexivity. }
      destruct Hsm as (Q1 & Q2 & Q3 & Q4 & Q5 & Q6). split; [|split; assumption]. exists before, n, s2, []. rewrite Q1, Q2, Q4. repeat split; assumption.
  - destruct Hcr as [->|Hcr]; [|discriminate Hcr].
    destruct f as [|f]; [cbn in Hf; lia|]. cbn [map fst] in Hfiles. inversion Hrest as [|? ? Hx Hrest']; subst. cbn [fst snd] in Hx.
    destruct (split_run S) as [[H1 H2]|(s1 & h & s2 & -> & H1 & H2)].
    + rewrite H2. destruct (run_step_none uncomp r S true HA H1) as (e & r1 & E & _ & He & Hsm & Hnx). rewrite (He eq_refl) in E.
      destruct Hsm as (Q1 & Q2 & Q3 & Q4 & Q5 & Q6).
      destruct (next_open d r1 before n x Sx rest ltac:(congruence) ltac:(congruence) ltac:(congruence) Hx Hrest') as (r2 & N & O & Hs2 & P1 & P2 & P3 & P4 & P5 & P6).
      specialize (IH f r2 (before ++ [n]) x Sx ltac:(cbn in Hf; lia)). rewrite P3, Q1, Hfiles, <- app_assoc in IH. specialize (IH eq_refl P4 P6 P5 (or_introl eq_refl) Hrest').
      cbn [flat_map]. cbn [over_files]. rewrite E, N, O. rewrite P1, P2, Q6, Hnx in IH.
      destruct (find_run (tagged (x, Sx) ++ flat_map tagged rest)) as [[[m h] L']|].
      * destruct IH as (r' & E' & IH). exists r'. rewrite E'. split; [reflexivity|exact IH].
      * destruct IH as (y & r' & E' & [->|[Hc _]] & Hst); [|discriminate Hc]. do 2 eexists. rewrite E'. split; [reflexivity|]. split; [left; reflexivity|exact Hst].
    + rewrite H2. destruct (run_step_found uncomp r s1 h s2 true HA H1) as (r' & E & HA' & Hsm & Hnx).
      exists r'. assert (Hc : with_filename r h = run_copy n h).
      { unfold with_filename, run_copy. rewrite Hfiles, Hidx, app_nth2 by lia. rewrite Nat.sub_diag. reflexivity. }
      split. { cbn [over_files]; rewrite E, Hc; reflexivity. }
      destruct Hsm as (Q1 & Q2 & Q3 & Q4 & Q5 & Q6). split; [|split; assumption]. exists before, n, s2, ((x, Sx) :: rest). rewrite Q1, Q2, Q4. repeat split; try assumption. left; reflexivity.
Qed.

Lemma sim_evt d r L c : sim d r L c ->
  match find_evt L with
  | Some (hd, ed, L') => forall e0, read_header_record (rd_names r) hd = Ok e0 -> fst (evt_result srt ignore_null (rd_next r) ed e0) <> Throw EEof ->
      exists r', read_next_event uncomp srt ignore_null d r = (fst (evt_result srt ignore_null (rd_next r) ed e0), r') /\
        sim d r' L' c /\ rd_names r' = rd_names r /\ rd_next r' = snd (evt_result srt ignore_null (rd_next r) ed e0)
  | None => exists x r', read_next_event uncomp srt ignore_null d r = (x, r') /\ ends c x /\ at_stop r'
  end.
Proof.
  intros (before & n & S & rest & Hf & Hi & Hz & HA & Hcr & Hr & ->).
  exact (over_evt d c rest (length (rd_files r)) r before n S ltac:(rewrite Hf, app_length; cbn [length]; rewrite map_length; lia) Hf Hi Hz HA Hcr Hr).
Qed.
Lemma sim_run d r L c : sim d r L c ->
  match find_run L with
  | Some (m, h, L') => exists r', read_next_run uncomp d r = (Ok (Some (run_copy m h)), r') /\ sim d r' L' c /\ rd_names r' = rd_names r /\ rd_next r' = rd_next r
  | None => exists x r', read_next_run uncomp d r = (x, r') /\ ends c x /\ at_stop r'
  end.
Proof.
  intros (before & n & S & rest & Hf & Hi & Hz & HA & Hcr & Hr & ->).
  exact (over_run d c rest (length (rd_files r)) r before n S ltac:(rewrite Hf, app_length; cbn [length]; rewrite map_length; lia) Hf Hi Hz HA Hcr Hr).
Qed.

(** ** Any sequence of calls *)

(** [fin]: the result at the end *)
Fixpoint play (fin : bool -> result) (names : list bytes) (next : addr) (L : list (bytes * sitem)) (ops : list bool) : list result :=
  match ops with
  | [] => []
  | true :: ops' =>
      match find_evt L with
      | None => fin true :: too_late ops'
      | Some (hd, ed, L') =>
          match read_header_record names hd with
          | Ok e0 =>
              match evt_result srt ignore_null next ed e0 with
              | (Ok (Some l), next') => REvt (Some l) :: play fin names next' L' ops'
              | (Ok None, _) => [REvt None]
              | (Throw e, _) => [RThrow e]
              | (UB k, _) => [RUB k]
              end
          | Throw e => [RThrow e]
          | UB k => [RUB k]
          end
      end
  | false :: ops' =>
      match find_run L with
      | None => fin false :: too_late ops'
      | Some (n, h, L') => RRun (Some (run_copy n h)) :: play fin names next L' ops'
      end
  end.
Definition nulls (evt : bool) : result := if evt then REvt None else RRun None.
Definition fin_ok (c : bool) (fin : bool -> result) : Prop :=
  if c then fin = nulls else forall b, null_or_exn b (fin b).
(** the events can be read *)
Definition good_item (names : list bytes) (i : sitem) : Prop :=
  match i with
  | SRun _ => True
  | SEvt hd ed => exists e0, read_header_record names hd = Ok e0 /\ forall next, 0 < next -> exists l next', evt_result srt ignore_null next ed e0 = (Ok (Some l), next') /\ 0 < next'
  end.

Lemma find_evt_in L hd ed L' : find_evt L = Some (hd, ed, L') -> exists pre n, L = pre ++ (n, SEvt hd ed) :: L' /\ forallb (fun x => is_srun (snd x)) pre = true.
Proof.
  induction L as [|[n [h|hd0 ed0]] L IH]; cbn [find_evt]; [discriminate| |].
  - intros H. destruct (IH H) as (pre & m & -> & Hp). exists ((n, SRun h) :: pre), m. split; [reflexivity|exact Hp].
  - intros H. injection H as <- <- <-. exists [], n. split; reflexivity.
Qed.
Lemma find_run_in L n h L' : find_run L = Some (n, h, L') -> exists pre, L = pre ++ (n, SRun h) :: L' /\ existsb (fun x => is_srun (snd x)) pre = false.
Proof.
  induction L as [|[m [h0|hd0 ed0]] L IH]; cbn [find_run]; [discriminate| |].
  - intros H. injection H as <- <- <-. exists []. split; reflexivity.
  - intros H. destruct (IH H) as (pre & -> & Hp). exists ((m, SEvt hd0 ed0) :: pre). split; [reflexivity|exact Hp].
Qed.
Lemma find_evt_none L : find_evt L = None -> forallb (fun x => is_srun (snd x)) L = true.
Proof. induction L as [|[m [h0|hd0 ed0]] L IH]; cbn [find_evt forallb]; [reflexivity|exact IH|discriminate]. Qed.
Lemma find_run_none L : find_run L = None -> existsb (fun x => is_srun (snd x)) L = false.
Proof. induction L as [|[m [h0|hd0 ed0]] L IH]; cbn [find_run existsb]; [reflexivity|discriminate|exact IH]. Qed.

Lemma fin_default c : fin_ok c nulls.
Proof. destruct c; [reflexivity|]. intros b. left. reflexivity. Qed.

(** nothing more comes after the end *)
Lemma run_stop d ops : forall r, at_stop r -> run_ops uncomp srt ignore_null d ops r = too_late ops.
Proof.
  induction ops as [|[|] ops IH]; intros r Hs; [reflexivity| |]; cbn [run_ops one_op too_late map].
  - destruct (stop_evt uncomp srt ignore_null r Hs) as (r' & E & Hs' & _).
    assert (E' : read_next_event uncomp srt ignore_null d r = (Throw EBadState, r')).
    { unfold read_next_event. destruct (length (rd_files r)); cbn [over_files]; rewrite E; reflexivity. }
    rewrite E', (IH r' Hs'). reflexivity.
  - destruct (stop_run uncomp r Hs) as (r' & E & Hs' & _).
    assert (E' : read_next_run uncomp d r = (Throw EBadState, r')).
    { unfold read_next_run. destruct (length (rd_files r)); cbn [over_files]; rewrite E; reflexivity. }
    rewrite E', (IH r' Hs'). reflexivity.
Qed.

Theorem run_ops_play d c ops : forall r L, sim d r L c -> 0 < rd_next r -> Forall (fun x => good_item (rd_names r) (snd x)) L ->
  exists fin, fin_ok c fin /\ run_ops uncomp srt ignore_null d ops r = play fin (rd_names r) (rd_next r) L ops.
Proof.
  induction ops as [|[|] ops IH]; intros r L HS Hp HG; [exists nulls; split; [apply fin_default|reflexivity]| |]; cbn [run_ops one_op play].
  - pose proof (sim_evt d r L c HS) as H. destruct (find_evt L) as [[[hd ed] L']|] eqn:EL.
    + destruct (find_evt_in _ _ _ _ EL) as (pre & n & -> & _). apply Forall_app in HG. destruct HG as [_ HG]. inversion HG as [|? ? Hg HG']; subst. destruct Hg as (e0 & He0 & Hok).
      destruct (Hok (rd_next r) Hp) as (l & next' & El & Hp').
      destruct (H e0 He0) as (r' & E & S' & N1 & N2); [rewrite El; discriminate|]. rewrite El in E, N2. cbn [fst snd] in E, N2.
      destruct (IH r' L' S') as (fin & Hf & Ef); [lia|rewrite N1; exact HG'|]. exists fin. split; [exact Hf|].
      rewrite E, He0, El, Ef, N1, N2. reflexivity.
    + destruct H as (x & r' & E & Hx & Hst). rewrite E. destruct Hx as [->|[-> (e & ->)]].
      * exists nulls. split; [apply fin_default|]. rewrite (run_stop d ops r' Hst). reflexivity.
      * exists (fun _ => RThrow e). split; [intros b; right; eexists; reflexivity|]. rewrite (run_stop d ops r' Hst). reflexivity.
  - pose proof (sim_run d r L c HS) as H. destruct (find_run L) as [[[n h] L']|] eqn:EL.
    + destruct (find_run_in _ _ _ _ EL) as (pre & -> & _). apply Forall_app in HG. destruct HG as [_ HG]. inversion HG as [|? ? _ HG']; subst.
      destruct H as (r' & E & S' & N1 & N2). destruct (IH r' L' S') as (fin & Hf & Ef); [lia|rewrite N1; exact HG'|]. exists fin. split; [exact Hf|].
      rewrite E, Ef, N1, N2. reflexivity.
    + destruct H as (x & r' & E & Hx & Hst). rewrite E. destruct Hx as [->|[-> (e & ->)]].
      * exists nulls. split; [apply fin_default|]. rewrite (run_stop d ops r' Hst). reflexivity.
      * exists (fun _ => RThrow e). split; [intros b; right; eexists; reflexivity|]. rewrite (run_stop d ops r' Hst). reflexivity.
Qed.
End Events.
End Codec.

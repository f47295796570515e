(** * Proofs about lcio_parallel_read *)

From Verif Require Import Bytes BitModel StrMap SioModel SioProofs SioSpec Ieee ObjModel ObjSpec CollSpec EventModel EventSpec EventProofs EventFacts
  IndexModel IndexSpec IndexProofs FileModel IndexFile IndexFacts FileSpec FileWrite FileSessions FileRead FileSeq FileDeliver FileFacts FileUse FileDirect FileMore
  AnaSpec AnaProofs ParModel ParSpec.

(** ** Counting copies *)

(** where new objects are put after the items [W] *)
Fixpoint after (names : list bytes) (next : addr) (W : list (bytes * witem)) : addr :=
  match W with
  | [] => next
  | (_, WRun _) :: W' => after names next W'
  | (_, WEvt h e only) :: W' => after names (next + Zlen (event_objs only names h e)) W'
  end.
Lemma copies_app srt names : forall W1 next W2 l1 l2, copies srt names next W1 l1 -> copies srt names (after names next W1) W2 l2 -> copies srt names next (W1 ++ W2) (l1 ++ l2).
Proof.
  intros W1 next W2 l1 l2 C. induction C as [next|next n h W l C IH|next n h e only W le l H C IH]; intros C2; [exact C2| |].
  - cbn [app]. apply copies_run. apply IH. exact C2.
  - cbn [app]. apply copies_evt; [exact H|]. apply IH. exact C2.
Qed.
Lemma copies_runs srt names W : forallb is_wrun W = true -> forall next, copies srt names next W [] /\ after names next W = next.
Proof.
  induction W as [|[n [h|h e only]] W IH]; intros H next; [split; [constructor|reflexivity]| |discriminate H]. destruct (IH H next) as [C A].
  split; [apply copies_run; exact C|exact A].
Qed.
Lemma after_app names : forall W1 W2 next, after names next (W1 ++ W2) = after names (after names next W1) W2.
Proof. induction W1 as [|[n [h|h e only]] W1 IH]; intros W2 next; [reflexivity|apply IH|apply IH]. Qed.
Lemma after_pos names : forall W next, next <= after names next W.
Proof.
  induction W as [|[n [h|h e only]] W IH]; intros next; cbn [after]; [lia|apply IH|]. specialize (IH (next + Zlen (event_objs only names h e))).
  pose proof (Zlen_nonneg (event_objs only names h e)). lia.
Qed.
Lemma evts_app a b : evts (a ++ b) = evts a + evts b.
Proof. unfold evts. rewrite filter_app, Zlen_app. reflexivity. Qed.
Lemma evts_nonneg a : 0 <= evts a.
Proof. apply Zlen_nonneg. Qed.
Lemma copies_count srt names next W l : copies srt names next W l -> Zlen l = evts (map snd W).
Proof.
  induction 1 as [next|next n h W l C IH|next n h e only W le l H C IH]; [reflexivity| |].
  - exact IH.
  - rewrite Zlen_cons, IH. unfold evts. cbn [map snd filter is_wevt]. rewrite Zlen_cons. lia.
Qed.

Lemma nth_jobs new names i n : nth_error names i = Some n -> nth_error (par_jobs new names) i = Some (n, new i).
Proof.
  unfold par_jobs. replace (new i) with (new (0 + i)%nat) by reflexivity. generalize 0%nat. revert i.
  induction names as [|m names IH]; intros [|i] a H; cbn in H |- *; try discriminate H.
  - injection H as <-. rewrite Nat.add_0_r. reflexivity.
  - rewrite (IH i (S a) H). do 3 f_equal. lia.
Qed.
Lemma length_jobs new names : length (par_jobs new names) = length names.
Proof. unfold par_jobs. rewrite combine_length, map_length, seq_length. lia. Qed.

(** ** The sum *)

Lemma Forall2_seq {A B} (P : A -> B -> Prop) (st : nat -> A) : forall (l : list B) a, (forall i x, nth_error l i = Some x -> P (st (a + i)%nat) x) ->
  Forall2 P (map st (seq a (length l))) l.
Proof.
  induction l as [|x l IH]; intros a H; [constructor|]. cbn [length seq map]. constructor; [rewrite <- (Nat.add_0_r a); apply H; reflexivity|].
  apply IH. intros i y Hy. replace (S a + i)%nat with (a + S i)%nat by lia. apply H. exact Hy.
Qed.
Definition fine (t : thr) (f : wfile) : Prop :=
  match t with TDone n => n = evts (items_of (wf_sess f)) | TThrow _ | TUB _ => False | _ => True end.
Lemma events_nonneg files : 0 <= all_events files.
Proof. induction files as [|f files IH]; cbn [all_events fold_right]; [lia|]. fold (all_events files). pose proof (evts_nonneg (items_of (wf_sess f))). lia. Qed.
Lemma total_done l files : Forall2 (fun t f => t = TDone (evts (items_of (wf_sess f)))) l files -> forall acc tail, 0 <= acc -> acc + all_events files < 2 ^ 31 ->
  par_total acc (l ++ tail) = par_total (acc + all_events files) tail.
Proof.
  induction 1 as [|t f l files -> _ IH]; intros acc tail Ha Hs; [cbn [app all_events fold_right]; rewrite Z.add_0_r; reflexivity|].
  cbn [all_events fold_right] in *. fold (all_events files) in *. pose proof (events_nonneg files). pose proof (evts_nonneg (items_of (wf_sess f))).
  cbn [app par_total]. destruct (Z.ltb_spec (acc + evts (items_of (wf_sess f))) (2 ^ 31)); [|lia]. rewrite IH by lia. f_equal. lia.
Qed.
Lemma total_fine l files : Forall2 fine l files -> forall acc, 0 <= acc -> acc + all_events files < 2 ^ 31 ->
  par_total acc l = PWait \/ par_total acc l = PTotal (acc + all_events files).
Proof.
  induction 1 as [|t f l files H _ IH]; intros acc Ha Hs; [right; cbn; rewrite Z.add_0_r; reflexivity|].
  cbn [all_events fold_right] in *. fold (all_events files) in *. pose proof (events_nonneg files). pose proof (evts_nonneg (items_of (wf_sess f))).
  destruct t as [| | |n| |]; cbn [fine] in H; [left; reflexivity|left; reflexivity|left; reflexivity| |destruct H|destruct H]. subst n.
  cbn [par_total]. destruct (Z.ltb_spec (acc + evts (items_of (wf_sess f))) (2 ^ 31)); [|lia].
  destruct (IH (acc + evts (items_of (wf_sess f)))) as [E|E]; [lia|lia|left; exact E|right; rewrite E; f_equal; lia].
Qed.
Lemma fine_ub l files : Forall2 fine l files -> forall tail, par_ub (l ++ tail) = par_ub tail.
Proof. induction 1 as [|t f l files H _ IH]; intros tail; [reflexivity|]. destruct t; cbn [fine] in H; [exact (IH tail)|exact (IH tail)|exact (IH tail)|exact (IH tail)|destruct H|destruct H]. Qed.

Section Par.
Context (comp : Z -> bytes -> bytes) (uncomp : bytes -> option bytes) (srt : forall A : Type, (A -> Z) -> list A -> list A) (ignore_null : bool).

(** ** One thread *)

(** [k] steps of a thread *)
Fixpoint steps (d : disk) (name : bytes) (r0 : reader) (k : nat) : thr * list levent :=
  match k with
  | O => (TNew, [])
  | S k' => let '(t, l) := steps d name r0 k' in let '(t', o) := thr_step uncomp srt ignore_null d name r0 t in
      (t', match o with Some x => l ++ [x] | None => l end)
  end.

(** where a thread is after [k] steps *)
Definition where_ (d : disk) (names : list bytes) (next : addr) (W : list (bytes * witem)) (k : nat) (t : thr) (l : list levent) : Prop :=
  match t with
  | TNew => k = O /\ l = []
  | TRead r n => exists W1 W2 L, W = W1 ++ W2 /\ sim uncomp d r L true /\ Forall2 stored_in W2 L /\ copies srt names next W1 l /\
      rd_names r = names /\ rd_next r = after names next W1 /\ n = Zlen l /\ Z.of_nat k = 2 * Zlen l + 1
  | TPrint r n x => exists W1 W2 L, W = W1 ++ W2 /\ sim uncomp d r L true /\ Forall2 stored_in W2 L /\ copies srt names next W1 (l ++ [x]) /\
      rd_names r = names /\ rd_next r = after names next W1 /\ n = Zlen l /\ Z.of_nat k = 2 * Zlen l + 2
  | TDone n => copies srt names next W l /\ n = Zlen l
  | TThrow _ | TUB _ => False
  end.

Lemma open_one d f names raw cbuf mraw next : codec_ok comp uncomp -> wf_ok comp uncomp d f ->
  exists L r, open_file uncomp d (wf_name f) (new_reader false false names raw cbuf mraw next) = (Ok tt, r) /\ sim uncomp d r L true /\ rd_names r = names /\ rd_next r = next /\
    Forall2 stored_in (wf_items f) L.
Proof.
  intros HC HW. destruct (file_content comp uncomp d f HC HW) as (S & (data & lb & Hd & Hv & Hs) & B & _). exists (tagged (wf_name f, S)).
  unfold open_file. rewrite Hd. cbn [new_reader with_s with_files rd_direct rd_files rd_idx]. eexists. split; [reflexivity|]. split; [|split; [reflexivity|split; [reflexivity|exact B]]].
  exists [], (wf_name f), S, []. cbn. split; [reflexivity|]. split; [reflexivity|]. split; [reflexivity|]. split; [|split; [left; reflexivity|split; [constructor|rewrite app_nil_r; reflexivity]]].
  exists data, 0, lb. split; [reflexivity|]. split; assumption.
Qed.

Lemma step_where d f names raw cbuf mraw next k t l : codec_ok comp uncomp -> wf_ok comp uncomp d f ->
  Forall (fun w => readable ignore_null names (snd w)) (wf_items f) -> 0 < next -> evts (map snd (wf_items f)) < 2 ^ 31 ->
  where_ d names next (wf_items f) k t l ->
  let '(t', o) := thr_step uncomp srt ignore_null d (wf_name f) (new_reader false false names raw cbuf mraw next) t in
  where_ d names next (wf_items f) (S k) t' (match o with Some x => l ++ [x] | None => l end).
Proof.
  intros HC HW HR Hp HE H. destruct t as [|r n|r n x|n|e|u]; cbn [thr_step where_] in *; [| | | |destruct H..].
  - destruct H as [-> ->]. destruct (open_one d f names raw cbuf mraw next HC HW) as (L & r & O & HS & N1 & N2 & F). rewrite O. cbn [where_].
    exists [], (wf_items f), L. repeat (split; [first [reflexivity|assumption|constructor]|]). reflexivity.
  - destruct H as (W1 & W2 & L & EW & HS & F & C & N1 & N2 & En & Ek). pose proof (sim_evt uncomp srt ignore_null d r L true HS) as HX.
    destruct (find_evt L) as [[[hd ed] L']|] eqn:EL.
    + destruct (find_evt_in _ _ _ _ EL) as (pre & m & -> & Hpre). apply Forall2_app_inv_r in F. destruct F as (V1 & V2 & F1 & F2 & ->).
      inversion F2 as [|[m' i] ? W' ? Hs F3]; subst V2. rewrite EW in HR. apply Forall_app in HR. destruct HR as [_ HR]. apply Forall_app in HR. destruct HR as [_ HR]. inversion HR as [|? ? Hr HR']; subst.
      rewrite <- (proj1 (kinds _ _ F1)) in Hpre. destruct Hs as [Hmn Hs]. cbn [fst snd] in Hmn, Hs, Hr.
      destruct i as [r0|h e only]; [destruct Hs as (? & ? & ? & _ & _ & _ & [])|].
      assert (Hp' : 0 < rd_next r) by (rewrite N2; pose proof (after_pos (rd_names r) W1 next); lia).
      destruct (stored_event comp srt ignore_null (rd_names r) h e only _ (rd_next r) Hs Hr Hp') as (hd' & ed' & e0 & le & Q & Eh & Er & Hc). injection Q as <- <-.
      destruct (HX e0 Eh) as (r' & E & HS' & M1 & M2); [rewrite Er; discriminate|]. rewrite Er in E, M2. cbn [fst snd] in E, M2. rewrite E. cbn [where_].
      destruct (copies_runs srt (rd_names r) V1 Hpre (after (rd_names r) next W1)) as [CV AV].
      exists (W1 ++ V1 ++ [(m', WEvt h e only)]), W', L'. split; [rewrite EW, <- !app_assoc; reflexivity|]. split; [exact HS'|]. split; [exact F3|]. split; [|split; [exact M1|split; [|split; [reflexivity|]]]].
      * apply copies_app; [exact C|]. apply (copies_app srt (rd_names r) V1 _ _ [] [le]); [exact CV|]. rewrite AV, <- N2. apply copies_evt; [exact Hc|constructor].
      * rewrite !after_app, AV, M2, N2. reflexivity.
      * lia.
    + destruct HX as (y & r' & E & Hy & _). rewrite E. destruct Hy as [->|[Hc _]]; [|discriminate Hc]. cbn [where_]. split; [|exact En].
      apply find_evt_none in EL. rewrite <- (proj1 (kinds _ _ F)) in EL. destruct (copies_runs srt names W2 EL (after names next W1)) as [CV _].
      rewrite EW, <- (app_nil_r l). apply copies_app; assumption.
  - destruct H as (W1 & W2 & L & EW & HS & F & C & N1 & N2 & En & Ek). pose proof (copies_count _ _ _ _ _ C) as Q. rewrite Zlen_app in Q. change (Zlen [x]) with 1 in Q.
    rewrite EW, map_app, evts_app in HE. pose proof (evts_nonneg (map snd W2)). destruct (Z.ltb_spec (n + 1) (2 ^ 31)); [|lia]. cbn [where_].
    exists W1, W2, L. repeat (split; [assumption|]). rewrite Zlen_app. change (Zlen [x]) with 1. split; lia.
  - exact H.
Qed.

Lemma steps_where d f names raw cbuf mraw next : codec_ok comp uncomp -> wf_ok comp uncomp d f ->
  Forall (fun w => readable ignore_null names (snd w)) (wf_items f) -> 0 < next -> evts (map snd (wf_items f)) < 2 ^ 31 -> forall k,
  where_ d names next (wf_items f) k (fst (steps d (wf_name f) (new_reader false false names raw cbuf mraw next) k)) (snd (steps d (wf_name f) (new_reader false false names raw cbuf mraw next) k)).
Proof.
  intros HC HW HR Hp HE. induction k as [|k IH]; [split; reflexivity|]. cbn [steps]. destruct (steps d (wf_name f) (new_reader false false names raw cbuf mraw next) k) as [t l]. cbn [fst snd] in IH.
  pose proof (step_where d f names raw cbuf mraw next k t l HC HW HR Hp HE IH) as H.
  destruct (thr_step uncomp srt ignore_null d (wf_name f) (new_reader false false names raw cbuf mraw next) t) as [t' o]. exact H.
Qed.

(** ** All threads *)

Lemma printed_app {A} i (a b : list (nat * A)) : printed_by i (a ++ b) = printed_by i a ++ printed_by i b.
Proof. unfold printed_by. rewrite filter_app, map_app. reflexivity. Qed.
Lemma run_steps d jobs sched i name r0 : nth_error jobs i = Some (name, r0) ->
  let s := par_run uncomp srt ignore_null d jobs sched in
  (par_thr s i, printed_by i (par_out s)) = steps d name r0 (count_occ Nat.eq_dec sched i).
Proof.
  intros Hj. unfold par_run. rewrite <- (rev_involutive sched). induction (rev sched) as [|j sc IH]; [reflexivity|]. cbn [rev]. rewrite fold_left_app, count_occ_app. cbn [fold_left].
  set (s := fold_left (par_step uncomp srt ignore_null d jobs) (rev sc) par_start) in *. cbv zeta in *. unfold par_step at 1 2. cbn [count_occ].
  destruct (Nat.eq_dec j i) as [->|Hne].
  - rewrite Hj, Nat.add_1_r. cbn [steps]. rewrite <- IH. destruct (thr_step uncomp srt ignore_null d name r0 (par_thr s i)) as [t o]. cbn [par_thr par_out]. rewrite Nat.eqb_refl.
    destruct o as [x|]; [|reflexivity]. rewrite printed_app. unfold printed_by at 2. cbn [filter fst]. rewrite Nat.eqb_refl. reflexivity.
  - rewrite Nat.add_0_r. destruct (nth_error jobs j) as [[m q]|]; [|exact IH]. destruct (thr_step uncomp srt ignore_null d m q (par_thr s j)) as [t o]. cbn [par_thr par_out].
    destruct (Nat.eqb_spec i j); [congruence|]. destruct o as [x|]; [|exact IH]. rewrite printed_app. unfold printed_by at 2. cbn [filter fst].
    destruct (Nat.eqb_spec j i); [congruence|]. cbn [map]. rewrite app_nil_r. exact IH.
Qed.
Lemma run_known d jobs sched : Forall (fun x => (fst x < length jobs)%nat) (par_out (par_run uncomp srt ignore_null d jobs sched)).
Proof.
  unfold par_run. rewrite <- (rev_involutive sched). induction (rev sched) as [|j sc IH]; [constructor|]. cbn [rev]. rewrite fold_left_app. cbn [fold_left].
  set (s := fold_left (par_step uncomp srt ignore_null d jobs) (rev sc) par_start) in *. unfold par_step at 1. destruct (nth_error jobs j) as [[m q]|] eqn:E; [|exact IH].
  destruct (thr_step uncomp srt ignore_null d m q (par_thr s j)) as [t [x|]]; cbn [par_out]; [|exact IH]. apply Forall_app. split; [exact IH|]. constructor; [|constructor].
  cbn [fst]. apply nth_error_Some. rewrite E. discriminate.
Qed.

(** ** The program *)

Lemma items_snd f : map snd (wf_items f) = items_of (wf_sess f).
Proof. unfold wf_items. rewrite map_map. cbn [snd]. apply map_id. Qed.

Definition good (d : disk) (f : wfile) : Prop := wf_ok comp uncomp d f /\ Forall (readable ignore_null []) (items_of (wf_sess f)) /\ evts (items_of (wf_sess f)) < 2 ^ 31.
Lemma good_where d names sched raw cbuf mraw next i f : codec_ok comp uncomp -> nth_error names i = Some (wf_name f) -> good d f -> 0 < next i ->
  let s := par_run uncomp srt ignore_null d (par_jobs (fun i => new_reader false false [] raw cbuf mraw (next i)) names) sched in
  where_ d [] (next i) (wf_items f) (count_occ Nat.eq_dec sched i) (par_thr s i) (printed_by i (par_out s)).
Proof.
  intros HC Hn (HW & HR & HE) Hp s. pose proof (run_steps d _ sched i _ _ (nth_jobs (fun i => new_reader false false [] raw cbuf mraw (next i)) names i _ Hn)) as E. cbv zeta in E. fold s in E.
  assert (HR' : Forall (fun w => readable ignore_null [] (snd w)) (wf_items f)).
  { apply Forall_forall. intros w Hw. rewrite Forall_forall in HR. apply HR. rewrite <- items_snd. apply in_map. exact Hw. }
  rewrite <- items_snd in HE. pose proof (steps_where d f [] raw cbuf mraw (next i) HC HW HR' Hp HE (count_occ Nat.eq_dec sched i)) as H. rewrite <- E in H. exact H.
Qed.
Lemma where_fine d next f k t l : where_ d [] next (wf_items f) k t l -> fine t f.
Proof.
  destruct t as [| | |n| |]; cbn [where_ fine]; [intros; exact I|intros; exact I|intros; exact I| |intros []|intros []]. intros [C ->]. rewrite (copies_count _ _ _ _ _ C), items_snd. reflexivity.
Qed.
Lemma where_prefix d next f k t l : where_ d [] next (wf_items f) k t l -> exists W1 W2, wf_items f = W1 ++ W2 /\ copies srt [] next W1 l.
Proof.
  destruct t as [|r n|r n x|n| |]; cbn [where_].
  - intros [_ ->]. exists [], (wf_items f). split; [reflexivity|constructor].
  - intros (W1 & W2 & L & E & _ & _ & C & _). exists W1, W2. split; assumption.
  - intros (W1 & W2 & L & E & _ & _ & C & _). assert (Q : exists V1 V2, W1 = V1 ++ V2 /\ copies srt [] next V1 l).
    { clear -C. remember (l ++ [x]) as m eqn:Em. revert l Em. induction C as [next|next n h W l' C IH|next n h e only W le l' H C IH]; intros l Em.
      - destruct l; discriminate Em.
      - destruct (IH l Em) as (V1 & V2 & -> & C1). exists ((n, WRun h) :: V1), V2. split; [reflexivity|constructor; exact C1].
      - destruct l as [|y l]; [exists [], ((n, WEvt h e only) :: W); split; [reflexivity|constructor]|]. injection Em as <- Em.
        destruct (IH l Em) as (V1 & V2 & -> & C1). exists ((n, WEvt h e only) :: V1), V2. split; [reflexivity|apply copies_evt; assumption]. }
    destruct Q as (V1 & V2 & -> & C1). exists V1, (V2 ++ W2). split; [rewrite E, <- app_assoc; reflexivity|exact C1].
  - intros [C _]. exists (wf_items f), []. split; [rewrite app_nil_r; reflexivity|exact C].
  - intros [].
  - intros [].
Qed.
Lemma where_done d next f k t l : where_ d [] next (wf_items f) k t l -> 2 * evts (items_of (wf_sess f)) + 2 <= Z.of_nat k ->
  t = TDone (evts (items_of (wf_sess f))) /\ copies srt [] next (wf_items f) l.
Proof.
  pose proof (evts_nonneg (items_of (wf_sess f))) as N. intros H Hk. destruct t as [|r n|r n x|n| |]; cbn [where_] in H; [| | | |destruct H..].
  - destruct H as [-> _]. lia.
  - destruct H as (W1 & W2 & L & E & _ & _ & C & _ & _ & _ & Ek). pose proof (copies_count _ _ _ _ _ C) as Q. rewrite <- items_snd, E, map_app, evts_app in Hk. pose proof (evts_nonneg (map snd W2)). lia.
  - destruct H as (W1 & W2 & L & E & _ & _ & C & _ & _ & _ & Ek). pose proof (copies_count _ _ _ _ _ C) as Q. rewrite Zlen_app in Q. change (Zlen [x]) with 1 in Q.
    rewrite <- items_snd, E, map_app, evts_app in Hk. pose proof (evts_nonneg (map snd W2)). lia.
  - destruct H as [C ->]. split; [|exact C]. rewrite (copies_count _ _ _ _ _ C), items_snd. reflexivity.
Qed.

Lemma sum_bound files : all_events files < 2 ^ 31 -> forall f, In f files -> evts (items_of (wf_sess f)) < 2 ^ 31.
Proof.
  induction files as [|g files IH]; intros H f Hf; [destruct Hf|]. cbn [all_events fold_right] in H. fold (all_events files) in H.
  pose proof (events_nonneg files). pose proof (evts_nonneg (items_of (wf_sess g))). destruct Hf as [->|Hf]; [lia|]. apply IH; [lia|exact Hf].
Qed.

Theorem par_any d files sched raw cbuf mraw next : codec_ok comp uncomp -> files <> [] -> Forall (wf_ok comp uncomp d) files ->
  Forall (fun f => Forall (readable ignore_null []) (items_of (wf_sess f))) files -> (forall i, 0 < next i) -> all_events files < 2 ^ 31 ->
  let jobs := par_jobs (fun i => new_reader false false [] raw cbuf mraw (next i)) (map wf_name files) in
  let out := par_out (par_run uncomp srt ignore_null d jobs sched) in
  let res := par_main uncomp srt ignore_null d jobs sched in
  Forall (fun x => (fst x < length files)%nat) out /\
  (forall i f, nth_error files i = Some f -> exists W1 W2, wf_items f = W1 ++ W2 /\ copies srt [] (next i) W1 (printed_by i out)) /\
  (res = PWait \/ res = PTotal (all_events files)) /\
  (long_enough sched files -> res = PTotal (all_events files) /\ forall i f, nth_error files i = Some f -> copies srt [] (next i) (wf_items f) (printed_by i out)).
Proof.
  intros HC HN HW HR Hp Hs jobs out res.
  assert (HG : forall i f, nth_error files i = Some f -> good d f).
  { intros i f Hi. apply nth_error_In in Hi. rewrite Forall_forall in HW, HR. split; [exact (HW f Hi)|]. split; [exact (HR f Hi)|exact (sum_bound files Hs f Hi)]. }
  assert (HP : forall i f, nth_error files i = Some f -> where_ d [] (next i) (wf_items f) (count_occ Nat.eq_dec sched i) (par_thr (par_run uncomp srt ignore_null d jobs sched) i) (printed_by i out)).
  { intros i f Hi. apply (good_where d (map wf_name files) sched raw cbuf mraw next i f HC); [|exact (HG i f Hi)|apply Hp]. rewrite nth_error_map, Hi. reflexivity. }
  assert (HL : length jobs = length files) by (unfold jobs; rewrite length_jobs, map_length; reflexivity).
  assert (ER : res = let l := map (par_thr (par_run uncomp srt ignore_null d jobs sched)) (seq 0 (length files)) in match par_ub l with Some k => PUB k | None => par_total 0 l end).
  { unfold res, par_main. rewrite HL. destruct jobs; [destruct files; [contradiction|discriminate HL]|reflexivity]. }
  pose proof (run_known d jobs sched) as HK. fold out in HK. rewrite HL in HK. clearbody jobs. clearbody res.
  assert (HF : Forall2 fine (map (par_thr (par_run uncomp srt ignore_null d jobs sched)) (seq 0 (length files))) files).
  { apply Forall2_seq. intros i f Hi. exact (where_fine _ _ _ _ _ _ (HP i f Hi)). }
  pose proof (fine_ub _ _ HF []) as HU. rewrite app_nil_r in HU. cbv zeta in ER. rewrite HU in ER. cbn [par_ub] in ER.
  split; [exact HK|]. split; [intros i f Hi; exact (where_prefix _ _ _ _ _ _ (HP i f Hi))|]. split.
  - rewrite ER. apply (total_fine _ _ HF 0); lia.
  - intros HE. split; [|intros i f Hi; exact (proj2 (where_done _ _ _ _ _ _ (HP i f Hi) (HE i f Hi)))].
    assert (HD : Forall2 (fun t f => t = TDone (evts (items_of (wf_sess f)))) (map (par_thr (par_run uncomp srt ignore_null d jobs sched)) (seq 0 (length files))) files).
    { apply Forall2_seq. intros i f Hi. exact (proj1 (where_done _ _ _ _ _ _ (HP i f Hi) (HE i f Hi))). }
    rewrite ER, <- (app_nil_r (map _ _)), (total_done _ _ HD) by lia. reflexivity.
Qed.

Lemma missing_steps d name r0 k : d name = None -> steps d name r0 (S k) = (TThrow ENotOpen, []).
Proof.
  intros H. induction k as [|k IH]; [cbn [steps thr_step]; unfold open_file; rewrite H; reflexivity|]. cbn [steps] in *. rewrite IH. reflexivity.
Qed.
Theorem par_missing d files name more sched raw cbuf mraw next : codec_ok comp uncomp -> Forall (wf_ok comp uncomp d) (files ++ more) -> d name = None ->
  Forall (fun f => Forall (readable ignore_null []) (items_of (wf_sess f))) (files ++ more) -> (forall i, 0 < next i) -> all_events (files ++ more) < 2 ^ 31 ->
  long_enough sched files -> In (length files) sched ->
  par_main uncomp srt ignore_null d (par_jobs (fun i => new_reader false false [] raw cbuf mraw (next i)) (map wf_name files ++ name :: map wf_name more)) sched = PTerminate ENotOpen.
Proof.
  intros HC HW HD HR Hp Hs HE HI. set (names := map wf_name files ++ name :: map wf_name more). set (jobs := par_jobs _ names).
  assert (HG : forall f, In f (files ++ more) -> good d f).
  { intros f Hi. rewrite Forall_forall in HW, HR. split; [exact (HW f Hi)|]. split; [exact (HR f Hi)|exact (sum_bound _ Hs f Hi)]. }
  assert (HN1 : forall i f, nth_error files i = Some f -> nth_error names i = Some (wf_name f)).
  { intros i f Hi. unfold names. rewrite nth_error_app1; [rewrite nth_error_map, Hi; reflexivity|]. rewrite map_length. apply nth_error_Some. rewrite Hi. discriminate. }
  assert (HN2 : forall i f, nth_error more i = Some f -> nth_error names (S (length files) + i) = Some (wf_name f)).
  { intros i f Hi. unfold names. rewrite nth_error_app2; rewrite map_length; [|lia]. replace (S (length files) + i - length files)%nat with (S i) by lia. cbn [nth_error]. rewrite nth_error_map, Hi. reflexivity. }
  assert (HNm : nth_error names (length files) = Some name).
  { unfold names. rewrite nth_error_app2; rewrite map_length; [|lia]. rewrite Nat.sub_diag. reflexivity. }
  assert (HL : length jobs = (length files + S (length more))%nat) by (unfold jobs; rewrite length_jobs; unfold names; rewrite app_length; cbn [length]; rewrite !map_length; reflexivity).
  pose proof (run_steps d jobs sched (length files) _ _ (nth_jobs (fun i => new_reader false false [] raw cbuf mraw (next i)) names _ _ HNm)) as EM. cbv zeta in EM.
  apply (count_occ_In Nat.eq_dec) in HI. destruct (count_occ Nat.eq_dec sched (length files)) as [|k]; [lia|]. rewrite (missing_steps d name _ k HD) in EM. injection EM as EM _.
  set (st := par_thr (par_run uncomp srt ignore_null d jobs sched)) in *.
  assert (HF2 : Forall2 fine (map st (seq (S (length files)) (length more))) more).
  { apply Forall2_seq. intros i f Hi. refine (where_fine d (next (S (length files) + i)%nat) f _ _ _ _). apply (good_where d names sched raw cbuf mraw next _ f HC (HN2 i f Hi)); [|apply Hp].
    apply HG. apply in_or_app. right. exact (nth_error_In _ _ Hi). }
  assert (HD1 : Forall2 (fun t f => t = TDone (evts (items_of (wf_sess f)))) (map st (seq 0 (length files))) files).
  { apply Forall2_seq. intros i f Hi. refine (proj1 (where_done d (next i) f _ _ _ _ (HE i f Hi))). apply (good_where d names sched raw cbuf mraw next _ f HC (HN1 i f Hi)); [|apply Hp].
    apply HG. apply in_or_app. left. exact (nth_error_In _ _ Hi). }
  assert (HF1 : Forall2 fine (map st (seq 0 (length files))) files).
  { clear -HD1. induction HD1 as [|t f l l' -> _ IH]; constructor; [reflexivity|exact IH]. }
  assert (HS : all_events files < 2 ^ 31).
  { clear -Hs. revert Hs. induction files as [|f files IH]; cbn [app all_events fold_right]; [lia|]. fold (all_events (files ++ more)). fold (all_events files).
    intros H. assert (all_events files <= all_events (files ++ more)); [|lia]. clear. induction files as [|g files IH]; cbn [app all_events fold_right]; [apply events_nonneg|].
    fold (all_events (files ++ more)). fold (all_events files). lia. }
  assert (EL : map st (seq 0 (length jobs)) = map st (seq 0 (length files)) ++ TThrow ENotOpen :: map st (seq (S (length files)) (length more))).
  { rewrite HL, seq_app, map_app. cbn [seq map Nat.add]. rewrite EM. reflexivity. }
  unfold par_main. fold st. destruct jobs as [|j js] eqn:EJ; [cbn [length] in HL; lia|]. rewrite <- EJ in *. cbv zeta. rewrite EL, (fine_ub _ _ HF1). cbn [par_ub].
  pose proof (fine_ub _ _ HF2 []) as HU. rewrite app_nil_r in HU. rewrite HU. cbn [par_ub]. rewrite (total_done _ _ HD1) by lia. reflexivity.
Qed.
End Par.

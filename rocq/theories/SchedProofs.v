(** * Processing events in parallel: proofs *)

From Verif Require Import Bytes StrMap SioModel ObjModel EventModel EventSpec IndexModel FileModel FileSpec StreamSpec SchedModel SchedSpec.

(** ** What happened *)

Lemma handled_app : forall a b, handled (a ++ b) = handled a ++ handled b.
Proof. induction a as [|[]]; intros b; cbn [app handled]; rewrite ?IHa; reflexivity. Qed.
Lemma starts_app : forall a b, starts (a ++ b) = (starts a + starts b)%nat.
Proof. induction a as [|[]]; intros b; cbn [app starts]; rewrite ?IHa; reflexivity. Qed.
Lemma ends_app : forall a b, ends (a ++ b) = (ends a + ends b)%nat.
Proof. induction a as [|[]]; intros b; cbn [app ends]; rewrite ?IHa; reflexivity. Qed.

Lemma orderly_nil : forall max, orderly max [].
Proof. intros max before e after E. destruct before; discriminate E. Qed.
Lemma orderly_snoc : forall max l e, orderly max l -> may max l e -> orderly max (l ++ [e]).
Proof.
  intros max l e H M before x after E. destruct after as [|y after] using rev_ind.
  - apply app_inj_tail in E. destruct E as (<- & <-). exact M.
  - rewrite app_comm_cons, app_assoc in E. apply app_inj_tail in E. destruct E as (E & _). exact (H before x after E).
Qed.

(** ** The tasks *)

(** the tasks that have not returned *)
Definition active (t : tstat) : bool := match t with TReturned => false | _ => true end.
Fixpoint running (l : list tstat) : nat := match l with [] => O | t :: l' => ((if active t then 1 else 0) + running l')%nat end.
Lemma running_app : forall a b, running (a ++ b) = (running a + running b)%nat.
Proof. induction a as [|t a IH]; intros b; cbn [app running]; rewrite ?IH; lia. Qed.

Lemma running_count : forall l, running l = length (filter (fun k => match nth_error l k with Some t => active t | None => false end) (seq 0 (length l))).
Proof.
  induction l as [|t l IH] using rev_ind; [reflexivity|]. rewrite running_app, app_length, seq_app, filter_app, app_length. f_equal.
  - rewrite IH. f_equal. apply filter_ext_in. intros k Hk. apply in_seq in Hk. rewrite nth_error_app1 by lia. reflexivity.
  - cbn [Nat.add length seq filter running]. rewrite nth_error_app2, Nat.sub_diag by lia. cbn [nth_error]. destruct (active t); reflexivity.
Qed.
Lemma running_le : forall l fut, (forall k t, nth_error l k = Some t -> active t = true -> In k fut) -> (running l <= length fut)%nat.
Proof.
  intros l fut H. rewrite running_count. apply NoDup_incl_length; [apply NoDup_filter, seq_NoDup|]. intros k Hk. apply filter_In in Hk. destruct Hk as (_ & Hk).
  destruct (nth_error l k) as [t|] eqn:E; [|discriminate Hk]. exact (H k t E Hk).
Qed.
Lemma running_zero : forall l, running l = O -> forall k t, nth_error l k = Some t -> t = TReturned.
Proof.
  induction l as [|x l IH]; intros H k t E; [destruct k; discriminate E|]. cbn [running] in H. destruct k as [|k].
  - injection E as ->. destruct t; cbn [active] in H; try lia. reflexivity.
  - apply (IH ltac:(lia) k t E).
Qed.

Lemma upd_nth : forall (l : list tstat) k t x, nth_error l k = Some x -> forall j,
  nth_error (firstn k l ++ t :: skipn (S k) l) j = if Nat.eqb j k then Some t else nth_error l j.
Proof.
  intros l k t x E j. assert (K : (k < length l)%nat) by (apply nth_error_Some; congruence).
  assert (F : length (firstn k l) = k) by (apply firstn_length_le; lia).
  destruct (Nat.eqb_spec j k) as [->|N].
  - rewrite nth_error_app2 by lia. rewrite F, Nat.sub_diag. reflexivity.
  - destruct (lt_dec j k) as [Hj|Hj].
    + rewrite nth_error_app1 by lia. rewrite <- (firstn_skipn k l) at 2. rewrite nth_error_app1 by lia. reflexivity.
    + rewrite nth_error_app2 by lia. rewrite F. destruct (j - k)%nat as [|m] eqn:M; [lia|]. cbn [nth_error].
      rewrite <- (firstn_skipn (S k) l) at 2. rewrite nth_error_app2 by (rewrite firstn_length_le; lia). rewrite firstn_length_le by lia. f_equal. lia.
Qed.
Lemma upd_running : forall (l : list tstat) k t x, nth_error l k = Some x ->
  (running (firstn k l ++ t :: skipn (S k) l) + (if active x then 1 else 0) = running l + (if active t then 1 else 0))%nat.
Proof.
  induction l as [|y l IH]; intros k t x E; [destruct k; discriminate E|]. destruct k as [|k].
  - injection E as ->. cbn [firstn app skipn running]. lia.
  - cbn [firstn app running]. specialize (IH k t x E). cbn [skipn] in *. lia.
Qed.
Lemma upd_length : forall (l : list tstat) k t x, nth_error l k = Some x -> length (firstn k l ++ t :: skipn (S k) l) = length l.
Proof.
  intros l k t x E. assert (K : (k < length l)%nat) by (apply nth_error_Some; congruence).
  rewrite app_length, firstn_length_le by lia. cbn [length]. rewrite skipn_length. lia.
Qed.

Lemma removed_in : forall (l : list nat) n k x, nth_error l n = Some k -> In x l -> x <> k -> In x (firstn n l ++ skipn (S n) l).
Proof.
  induction l as [|y l IH]; intros n k x E I N; [destruct n; discriminate E|]. destruct n as [|n].
  - injection E as ->. cbn [firstn app skipn]. destruct I as [->|I]; [contradiction|exact I].
  - cbn [firstn app]. destruct I as [->|I]; [left; reflexivity|right; cbn [skipn]; exact (IH n k x E I N)].
Qed.
Lemma removed_sub : forall (l : list nat) n x, In x (firstn n l ++ skipn (S n) l) -> In x l.
Proof.
  induction l as [|y l IH]; intros n x I; [destruct n; exact I|]. destruct n as [|n]; cbn [firstn app skipn] in I; [right; exact I|].
  destruct I as [->|I]; [left; reflexivity|right; exact (IH n x I)].
Qed.

Section Proofs.
Context (uncomp : bytes -> option bytes) (srt : forall A : Type, (A -> Z) -> list A -> list A) (ignore_null : bool) (d : disk).
Context (max : Z).
Notation step := (sched_step uncomp srt ignore_null d max).
Notation run := (sched_run uncomp srt ignore_null d max).
Notation main := (main_step uncomp srt ignore_null d max).

(** ** What the reader has to offer *)
Inductive supply : reader -> list call -> Prop :=
| Sup_end r r' : read_stream uncomp srt ignore_null d 1 1 r = (Throw LEndOfData, [], r') -> supply r []
| Sup_next r c r' l : read_stream uncomp srt ignore_null d 1 1 r = (Ok tt, [(0%nat, c)], r') -> supply r' l -> supply r (c :: l).

Definition goes_on (x : Res unit) (r : reader) (rest : list call) : Prop := (x = Ok tt /\ supply r rest) \/ (x = Throw LEndOfData /\ rest = []).
(** what is still to be handled *)
Definition pending (p : mpc) (r : reader) (rem : list call) : Prop :=
  match p with
  | MRead => supply r rem
  | MCalls cs x => exists rest, rem = cs ++ rest /\ goes_on x r rest
  | MTest l cs x | MSweep _ l cs x => exists rest, rem = CEvt l :: cs ++ rest /\ goes_on x r rest
  | MWait _ (WRun h cs x) => exists rest, rem = CRun h :: cs ++ rest /\ goes_on x r rest
  | MWait _ WEnd | MDone => rem = []
  | MFail _ | MUndef _ => False
  end.

Record inv (items : list call) (s : sched) (rem : list call) : Prop := mkInv {
  i_items : items = handled (sd_log s) ++ rem;
  i_pend : pending (sd_pc s) (sd_reader s) rem;
  i_len : length (sd_tasks s) = starts (sd_log s);
  i_run : starts (sd_log s) = (ends (sd_log s) + running (sd_tasks s))%nat;
  i_start : forall k l, In (EStart k l) (sd_log s) -> (k < length (sd_tasks s))%nat;
  i_task : forall k, match nth_error (sd_tasks s) k with
    | Some (TReady l) => In (EStart k l) (sd_log s) /\ (forall r n, ~ In (EProc k r n) (sd_log s)) /\ ~ In (EEnd k) (sd_log s)
    | Some TPrinted => (exists r n, In (EProc k r n) (sd_log s)) /\ ~ In (EEnd k) (sd_log s)
    | Some TReturned => In (EEnd k) (sd_log s)
    | None => (forall r n, ~ In (EProc k r n) (sd_log s)) /\ ~ In (EEnd k) (sd_log s)
    end;
  i_fut : forall k t, nth_error (sd_tasks s) k = Some t -> active t = true -> In k (sd_fut s);
  i_known : forall k, In k (sd_fut s) -> (k < length (sd_tasks s))%nat;
  i_wait : match sd_pc s with MWait n _ => forall j k, (j < n)%nat -> nth_error (sd_fut s) j = Some k -> ready s k = true | MDone => running (sd_tasks s) = O | _ => True end;
  i_order : orderly max (sd_log s) }.

Lemma ready_ret : forall s k, ready s k = true <-> nth_error (sd_tasks s) k = Some TReturned.
Proof. intros s k. unfold ready. destruct (nth_error (sd_tasks s) k) as [[]|]; split; intros H; congruence || reflexivity. Qed.

(** all futures are ready: all tasks have returned *)
Lemma all_ready : forall items s rem, inv items s rem -> (forall k, In k (sd_fut s) -> ready s k = true) -> running (sd_tasks s) = O.
Proof.
  intros items s rem I H. pose proof (running_le (sd_tasks s) []) as L. cbn [length] in L.
  enough (running (sd_tasks s) <= 0)%nat by lia. apply L. intros k t E A. pose proof (H k (i_fut _ _ _ I k t E A)) as R. apply ready_ret in R.
  assert (t = TReturned) by congruence. subst t. discriminate A.
Qed.

Lemma task_ok : forall items s rem k s', inv items s rem -> task_step k s = Some s' -> inv items s' rem.
Proof.
  intros items s rem k s' I E. unfold task_step in E.
  assert (A : exists t0 t1 e, nth_error (sd_tasks s) k = Some t0 /\ active t0 = true /\ s' = with_task s k t1 e /\
     ((exists l, t0 = TReady l /\ t1 = TPrinted /\ e = EProc k (ev_run (le_evt l)) (ev_num (le_evt l))) \/ (t0 = TPrinted /\ t1 = TReturned /\ e = EEnd k))).
  { destruct (nth_error (sd_tasks s) k) as [[l| |]|]; destruct (sd_pc s); try discriminate E; injection E as <-;
    do 3 eexists; (split; [reflexivity|]; split; [reflexivity|]; split; [reflexivity|]); [left; eexists; repeat split|left; eexists; repeat split|left; eexists; repeat split|left; eexists; repeat split|left; eexists; repeat split|right; repeat split..]. }
  clear E. destruct A as (t0 & t1 & e & T & A & -> & C). pose proof (upd_nth (sd_tasks s) k t1 t0 T) as U. pose proof (upd_running (sd_tasks s) k t1 t0 T) as R.
  pose proof (upd_length (sd_tasks s) k t1 t0 T) as L.
  destruct I as [I1 I2 I3 I4 I5 I6 I7 I8 I9 I10]. pose proof (I6 k) as K. rewrite T in K.
  assert (H0 : handled [e] = []) by (destruct C as [(l & _ & _ & ->)|(_ & _ & ->)]; reflexivity).
  assert (S0 : starts [e] = O) by (destruct C as [(l & _ & _ & ->)|(_ & _ & ->)]; reflexivity).
  assert (Es : forall j l, In (EStart j l) (sd_log s ++ [e]) -> In (EStart j l) (sd_log s)).
  { intros j l Hi. apply in_app_or in Hi. destruct Hi as [Hi|[Hi|[]]]; [exact Hi|]. destruct C as [(l' & _ & _ & ->)|(_ & _ & ->)]; discriminate Hi. }
  constructor; unfold with_task; cbn [sd_pc sd_reader sd_fut sd_tasks sd_log].
  - rewrite handled_app, H0, app_nil_r. exact I1.
  - exact I2.
  - rewrite L, I3, starts_app, S0. lia.
  - rewrite starts_app, ends_app, S0. rewrite A in R. destruct C as [(l & _ & -> & ->)|(_ & -> & ->)]; cbn [active ends] in *; lia.
  - intros j l Hi. rewrite L. exact (I5 j l (Es j l Hi)).
  - intros j. rewrite U. destruct (Nat.eqb_spec j k) as [->|N].
    + destruct C as [(l & -> & -> & ->)|(-> & -> & ->)].
      * destruct K as (_ & _ & K). split; [do 2 eexists; apply in_or_app; right; left; reflexivity|]. intros Hi. apply in_app_or in Hi. destruct Hi as [Hi|[Hi|[]]]; [exact (K Hi)|discriminate Hi].
      * apply in_or_app. right. left. reflexivity.
    + specialize (I6 j).
      assert (Np : forall r n, In (EProc j r n) (sd_log s ++ [e]) -> In (EProc j r n) (sd_log s)).
      { intros r n Hi. apply in_app_or in Hi. destruct Hi as [Hi|[Hi|[]]]; [exact Hi|]. destruct C as [(l' & _ & _ & ->)|(_ & _ & ->)]; inversion Hi; congruence. }
      assert (Ne : In (EEnd j) (sd_log s ++ [e]) -> In (EEnd j) (sd_log s)).
      { intros Hi. apply in_app_or in Hi. destruct Hi as [Hi|[Hi|[]]]; [exact Hi|]. destruct C as [(l' & _ & _ & ->)|(_ & _ & ->)]; inversion Hi; congruence. }
      destruct (nth_error (sd_tasks s) j) as [[l| |]|].
      * destruct I6 as (Q1 & Q2 & Q3). split; [apply in_or_app; left; exact Q1|]. split; [intros r n Hi; exact (Q2 r n (Np r n Hi))|tauto].
      * destruct I6 as ((r & n & Q1) & Q2). split; [exists r, n; apply in_or_app; left; exact Q1|tauto].
      * apply in_or_app. left. exact I6.
      * destruct I6 as (Q1 & Q2). split; [intros r n Hi; exact (Q1 r n (Np r n Hi))|tauto].
  - intros j t E Ht. rewrite U in E. destruct (Nat.eqb_spec j k) as [->|N]; [exact (I7 k t0 T A)|exact (I7 j t E Ht)].
  - intros j Hj. rewrite L. exact (I8 j Hj).
  - assert (Rd : forall j, ready s j = true -> ready (mkSc (sd_pc s) (sd_reader s) (sd_fut s) (firstn k (sd_tasks s) ++ t1 :: skipn (S k) (sd_tasks s)) (sd_log s ++ [e])) j = true).
    { intros j Hj. apply ready_ret in Hj. apply ready_ret. cbn [sd_tasks]. rewrite U. destruct (Nat.eqb_spec j k) as [->|N]; [|exact Hj].
      rewrite T in Hj. injection Hj as ->. discriminate A. }
    destruct (sd_pc s); try exact I; [intros j q Hj Hq; apply Rd; exact (I9 j q Hj Hq)|].
    exfalso. rewrite (running_zero _ I9 k t0 T) in A. discriminate A.
  - apply orderly_snoc; [exact I10|]. destruct C as [(l & -> & _ & ->)|(-> & _ & ->)]; cbn [may].
    + destruct K as (K1 & K2 & _). split; [exists l; split; [exact K1|split; reflexivity]|exact K2].
    + exact K.
Qed.

Lemma main_ok : forall items s rem s', inv items s rem -> main s = Some s' -> exists rem', inv items s' rem' /\ (length rem' <= length rem)%nat.
Proof.
  intros items s rem s' I E. pose proof I as I0. destruct I as [I1 I2 I3 I4 I5 I6 I7 I8 I9 I10]. unfold main_step in E.
  destruct (sd_pc s) as [|cs x|l cs x|n l cs x|n w| |e|k] eqn:P; cbn [pending] in I2; try contradiction.
  - (* read *)
    destruct I2 as [r r' R|r c r' rest R Hs]; rewrite R in E; injection E as <-; cbn [map snd].
    + exists []. split; [|lia]. constructor; cbn [sd_pc sd_reader sd_fut sd_tasks sd_log]; try assumption; try exact I.
      exists []. split; [reflexivity|]. right. split; reflexivity.
    + exists (c :: rest). split; [|lia]. constructor; cbn [sd_pc sd_reader sd_fut sd_tasks sd_log]; try assumption; try exact I.
      exists rest. split; [reflexivity|]. left. split; [reflexivity|exact Hs].
  - (* calls *)
    destruct I2 as (rest & R & G). destruct cs as [|c cs].
    + injection E as <-. exists rem. split; [|lia]. cbn [app] in R. subst rem. destruct G as [(-> & Hs)|(-> & ->)].
      * constructor; unfold at_pc; cbn [sd_pc sd_reader sd_fut sd_tasks sd_log]; try assumption; try exact I.
      * constructor; unfold at_pc; cbn [sd_pc sd_reader sd_fut sd_tasks sd_log]; try assumption; [reflexivity|]. intros j k Hj. lia.
    + destruct c as [h|l]; injection E as <-; exists rem; (split; [|lia]); subst rem;
        constructor; unfold at_pc; cbn [sd_pc sd_reader sd_fut sd_tasks sd_log]; try assumption;
        try exact I; try (intros j k Hj; lia); exists rest; (split; [reflexivity|exact G]).
  - (* test *)
    destruct I2 as (rest & R & G). destruct (Z.ltb_spec (Z.of_nat (length (sd_fut s))) max) as [Lt|Ge]; injection E as <-.
    + exists (cs ++ rest). split; [|subst rem; cbn [length]; lia]. pose proof (running_le _ _ I7) as RL.
      constructor; cbn [sd_pc sd_reader sd_fut sd_tasks sd_log].
      * rewrite handled_app. cbn [handled]. rewrite <- app_assoc. cbn [app]. subst rem. exact I1.
      * exists rest. split; [reflexivity|exact G].
      * rewrite app_length, starts_app. cbn [length starts]. lia.
      * rewrite starts_app, ends_app, running_app. cbn [starts ends running active]. lia.
      * intros k l' Hi. rewrite app_length. cbn [length]. apply in_app_or in Hi. destruct Hi as [Hi|[Hi|[]]]; [pose proof (I5 _ _ Hi); lia|]. injection Hi as <- _. lia.
      * intros k. specialize (I6 k).
        assert (Np : forall r n, In (EProc k r n) (sd_log s ++ [EStart (length (sd_tasks s)) l]) -> In (EProc k r n) (sd_log s)).
        { intros r n Hi. apply in_app_or in Hi. destruct Hi as [Hi|[Hi|[]]]; [exact Hi|discriminate Hi]. }
        assert (Ne : In (EEnd k) (sd_log s ++ [EStart (length (sd_tasks s)) l]) -> In (EEnd k) (sd_log s)).
        { intros Hi. apply in_app_or in Hi. destruct Hi as [Hi|[Hi|[]]]; [exact Hi|discriminate Hi]. }
        destruct (lt_eq_lt_dec k (length (sd_tasks s))) as [[Hk|Hk]|Hk].
        -- rewrite nth_error_app1 by exact Hk. destruct (nth_error (sd_tasks s) k) as [[l'| |]|].
           ++ destruct I6 as (Q1 & Q2 & Q3). split; [apply in_or_app; left; exact Q1|]. split; [intros r n Hi; exact (Q2 r n (Np r n Hi))|tauto].
           ++ destruct I6 as ((r & n & Q1) & Q2). split; [exists r, n; apply in_or_app; left; exact Q1|tauto].
           ++ apply in_or_app. left. exact I6.
           ++ destruct I6 as (Q1 & Q2). split; [intros r n Hi; exact (Q1 r n (Np r n Hi))|tauto].
        -- subst k. rewrite (proj2 (nth_error_None (sd_tasks s) (length (sd_tasks s)))) in I6 by lia. rewrite nth_error_app2, Nat.sub_diag by lia. cbn [nth_error].
           split; [apply in_or_app; right; left; reflexivity|]. split; [intros r n Hi; exact (proj1 I6 r n (Np r n Hi))|tauto].
        -- rewrite (proj2 (nth_error_None _ _)) in I6 by lia. rewrite (proj2 (nth_error_None _ _)) by (rewrite app_length; cbn [length]; lia).
           split; [intros r n Hi; exact (proj1 I6 r n (Np r n Hi))|tauto].
      * intros k t Et At. apply in_or_app. destruct (lt_dec k (length (sd_tasks s))) as [Hk|Hk].
        -- left. rewrite nth_error_app1 in Et by exact Hk. exact (I7 k t Et At).
        -- right. left. assert ((k < length (sd_tasks s ++ [TReady l]))%nat) as B by (apply nth_error_Some; congruence). rewrite app_length in B. cbn [length] in B. lia.
      * intros k Hi. rewrite app_length. cbn [length]. apply in_app_or in Hi. destruct Hi as [Hi|[<-|[]]]; [pose proof (I8 k Hi)|]; lia.
      * exact I.
      * apply orderly_snoc; [exact I10|]. cbn [may]. split; [exact I3|]. lia.
    + exists rem. split; [|lia]. constructor; unfold at_pc; cbn [sd_pc sd_reader sd_fut sd_tasks sd_log]; try assumption; try exact I. exists rest. split; [exact R|exact G].
  - (* sweep *)
    destruct (nth_error (sd_fut s) n) as [k|] eqn:N.
    + destruct (ready s k) eqn:Rk; injection E as <-; exists rem; (split; [|lia]); constructor; unfold at_pc; cbn [sd_pc sd_reader sd_fut sd_tasks sd_log]; try assumption; try exact I.
      * intros j t Et At. pose proof (I7 j t Et At) as Hj. apply (removed_in _ n k j N Hj). intros ->. apply ready_ret in Rk. assert (t = TReturned) by congruence. subst t. discriminate At.
      * intros j Hj. exact (I8 j (removed_sub _ _ _ Hj)).
    + injection E as <-. exists rem. split; [|lia]. constructor; unfold at_pc; cbn [sd_pc sd_reader sd_fut sd_tasks sd_log]; try assumption; try exact I.
  - (* wait *)
    destruct (nth_error (sd_fut s) n) as [k|] eqn:N.
    + destruct (ready s k) eqn:Rk; [|discriminate E]. injection E as <-. exists rem. split; [|lia]. constructor; unfold at_pc; cbn [sd_pc sd_reader sd_fut sd_tasks sd_log]; try assumption.
      intros j q Hj Hq. change (ready s q = true). destruct (Nat.eq_dec j n) as [->|Hn]; [congruence|]. apply (I9 j q); [lia|exact Hq].
    + assert (Z : running (sd_tasks s) = O).
      { apply (all_ready items s rem I0). intros k Hk. apply In_nth_error in Hk. destruct Hk as (j & Hj). apply (I9 j k); [|exact Hj].
        apply nth_error_None in N. assert ((j < length (sd_fut s))%nat) by (apply nth_error_Some; congruence). lia. }
      destruct w as [h cs x|].
      * destruct I2 as (rest & R & G). injection E as <-. exists (cs ++ rest). split; [|subst rem; cbn [length]; lia].
        constructor; cbn [sd_pc sd_reader sd_fut sd_tasks sd_log].
        -- rewrite handled_app. cbn [handled]. rewrite <- app_assoc. cbn [app]. subst rem. exact I1.
        -- exists rest. split; [reflexivity|exact G].
        -- rewrite starts_app. cbn [starts]. lia.
        -- rewrite starts_app, ends_app. cbn [starts ends]. lia.
        -- intros k l Hi. apply in_app_or in Hi. destruct Hi as [Hi|[Hi|[]]]; [exact (I5 k l Hi)|discriminate Hi].
        -- intros k. specialize (I6 k).
           assert (Np : forall r n, In (EProc k r n) (sd_log s ++ [ERun h]) -> In (EProc k r n) (sd_log s)).
           { intros r n' Hi. apply in_app_or in Hi. destruct Hi as [Hi|[Hi|[]]]; [exact Hi|discriminate Hi]. }
           assert (Ne : In (EEnd k) (sd_log s ++ [ERun h]) -> In (EEnd k) (sd_log s)).
           { intros Hi. apply in_app_or in Hi. destruct Hi as [Hi|[Hi|[]]]; [exact Hi|discriminate Hi]. }
           destruct (nth_error (sd_tasks s) k) as [[l'| |]|].
           ++ destruct I6 as (Q1 & Q2 & Q3). split; [apply in_or_app; left; exact Q1|]. split; [intros r n' Hi; exact (Q2 r n' (Np r n' Hi))|tauto].
           ++ destruct I6 as ((r & n' & Q1) & Q2). split; [exists r, n'; apply in_or_app; left; exact Q1|tauto].
           ++ apply in_or_app. left. exact I6.
           ++ destruct I6 as (Q1 & Q2). split; [intros r n' Hi; exact (Q1 r n' (Np r n' Hi))|tauto].
        -- intros k t Et At. pose proof (running_zero _ Z k t Et). subst t. discriminate At.
        -- intros k [].
        -- exact I.
        -- apply orderly_snoc; [exact I10|]. cbn [may]. intros k l Hi. pose proof (I5 k l Hi) as Hk. specialize (I6 k).
           destruct (nth_error (sd_tasks s) k) as [t|] eqn:Et; [|apply nth_error_None in Et; lia]. pose proof (running_zero _ Z k t Et). subst t. exact I6.
      * injection E as <-. exists rem. split; [|lia]. constructor; cbn [sd_pc sd_reader sd_fut sd_tasks sd_log]; try assumption.
        -- intros k t Et At. pose proof (running_zero _ Z k t Et). subst t. discriminate At.
        -- intros k [].
  - discriminate E.
Qed.

Lemma run_ok : forall ws items s rem, inv items s rem -> exists rem', inv items (run ws s) rem'.
Proof.
  induction ws as [|w ws IH]; intros items s rem I; cbn [sched_run]; [exists rem; exact I|].
  destruct (step w s) as [s'|] eqn:E; [|exact (IH items s rem I)]. destruct w as [|k]; cbn [sched_step] in E.
  - destruct (main_ok items s rem s' I E) as (rem' & I' & _). exact (IH items s' rem' I').
  - exact (IH items s' rem (task_ok items s rem k s' I E)).
Qed.

(** ** It always can come to its end *)

Lemma run_app : forall a b s, run (a ++ b) s = run b (run a s).
Proof. induction a as [|w a IH]; intros b s; cbn [app sched_run]; [reflexivity|apply IH]. Qed.

(** all tasks return, the main thread does not move *)
Fixpoint weight (l : list tstat) : nat := match l with [] => O | TReady _ :: l' => (2 + weight l')%nat | TPrinted :: l' => (1 + weight l')%nat | TReturned :: l' => weight l' end.
Lemma weight_pos : forall l, (0 < running l)%nat -> exists k t, nth_error l k = Some t /\ active t = true.
Proof.
  induction l as [|t l IH]; intros H; cbn [running] in H; [lia|]. destruct (active t) eqn:A; [exists O, t; split; [reflexivity|exact A]|].
  destruct (IH ltac:(lia)) as (k & t' & E & A'). exists (S k), t'. split; assumption.
Qed.
Lemma weight_upd : forall l k t x, nth_error l k = Some x -> (weight (firstn k l ++ t :: skipn (S k) l) + weight [x] = weight l + weight [t])%nat.
Proof.
  induction l as [|y l IH]; intros k t x E; [destruct k; discriminate E|]. destruct k as [|k].
  - injection E as ->. cbn [firstn app skipn]. destruct t, x; cbn [weight]; lia.
  - specialize (IH k t x E). change (firstn (S k) (y :: l) ++ t :: skipn (S (S k)) (y :: l)) with (y :: (firstn k l ++ t :: skipn (S k) l)).
    destruct y; cbn [weight] in *; lia.
Qed.
Definition live (p : mpc) : Prop := match p with MDone | MFail _ | MUndef _ => False | _ => True end.
Lemma finish : forall n s, (weight (sd_tasks s) <= n)%nat -> live (sd_pc s) ->
  exists ws, let s' := run ws s in sd_pc s' = sd_pc s /\ sd_fut s' = sd_fut s /\ sd_reader s' = sd_reader s /\ running (sd_tasks s') = O.
Proof.
  induction n as [|n IH]; intros s W L.
  - exists []. cbn [sched_run]. repeat (split; [reflexivity|]). destruct (Nat.eq_dec (running (sd_tasks s)) 0) as [Z|Z]; [exact Z|].
    destruct (weight_pos (sd_tasks s) ltac:(lia)) as (k & t & E & A). pose proof (weight_upd (sd_tasks s) k TReturned t E) as U. destruct t; cbn [weight] in U; try discriminate A; lia.
  - destruct (Nat.eq_dec (running (sd_tasks s)) 0) as [Z|Z]; [exists []; cbn [sched_run]; repeat (split; [reflexivity|]); exact Z|].
    destruct (weight_pos (sd_tasks s) ltac:(lia)) as (k & t & E & A).
    assert (St : exists t1 e, step (Task k) s = Some (with_task s k t1 e) /\ (weight [t1] < weight [t])%nat).
    { cbn [sched_step]. unfold task_step. rewrite E. destruct (sd_pc s); try contradiction L; destruct t as [l0| |]; try discriminate A; (do 2 eexists; split; [reflexivity|cbn [weight]; lia]). }
    destruct St as (t1 & e & St & Wt). pose proof (weight_upd (sd_tasks s) k t1 t E) as U.
    destruct (IH (with_task s k t1 e)) as (ws & H1 & H2 & H3 & H4); [cbn [with_task sd_tasks]; lia|exact L|].
    exists (Task k :: ws). cbn [sched_run]. rewrite St. repeat (split; [assumption|]). exact H4.
Qed.

(** the main thread alone, when all tasks have returned *)
Definition idle (s : sched) : Prop := running (sd_tasks s) = O /\ forall k, In k (sd_fut s) -> (k < length (sd_tasks s))%nat.
Lemma idle_ready : forall s n k, idle s -> nth_error (sd_fut s) n = Some k -> ready s k = true.
Proof.
  intros s n k (Z & K) E. apply ready_ret. specialize (K k (nth_error_In _ _ E)). destruct (nth_error (sd_tasks s) k) as [t|] eqn:T; [|apply nth_error_None in T; lia].
  rewrite (running_zero _ Z k t T). reflexivity.
Qed.
Lemma sweep_end : forall m s n l cs x, idle s -> sd_pc s = MSweep n l cs x -> (length (sd_fut s) - n <= m)%nat ->
  exists ws, let s' := run ws s in sd_pc s' = MTest l cs x /\ (sd_fut s' = firstn n (sd_fut s) /\ sd_log s' = sd_log s) /\ idle s'.
Proof.
  induction m as [|m IH]; intros s n l cs x Q P L.
  - exists [Main]. cbn [sched_run sched_step]. unfold main_step. rewrite P. rewrite (proj2 (nth_error_None (sd_fut s) n)) by lia.
    cbn [at_pc sd_pc sd_fut]. split; [reflexivity|]. split; [split; [symmetry; apply firstn_all2; lia|reflexivity]|exact Q].
  - destruct (nth_error (sd_fut s) n) as [k|] eqn:N.
    + pose proof (idle_ready s n k Q N) as R. assert (B : (n < length (sd_fut s))%nat) by (apply nth_error_Some; congruence).
      set (s1 := mkSc (MSweep n l cs x) (sd_reader s) (firstn n (sd_fut s) ++ skipn (S n) (sd_fut s)) (sd_tasks s) (sd_log s)).
      destruct (IH s1 n l cs x) as (ws & H1 & (H2 & Hl) & H3); [|reflexivity| |].
      * destruct Q as (Z & K). split; [exact Z|]. intros j Hj. exact (K j (removed_sub _ _ _ Hj)).
      * cbn [s1 sd_fut]. rewrite app_length, firstn_length_le, skipn_length by lia. lia.
      * exists (Main :: ws). cbn [sched_run sched_step]. unfold main_step. rewrite P, N, R. fold s1. split; [exact H1|]. split; [|exact H3]. split; [|exact Hl].
        rewrite H2. cbn [s1 sd_fut]. rewrite firstn_app, firstn_length_le, Nat.sub_diag by lia. cbn [firstn]. rewrite app_nil_r, firstn_firstn, Nat.min_id. reflexivity.
    + exists [Main]. cbn [sched_run sched_step]. unfold main_step. rewrite P, N. cbn [at_pc sd_pc sd_fut]. split; [reflexivity|]. apply nth_error_None in N. split; [split; [symmetry; apply firstn_all2; lia|reflexivity]|exact Q].
Qed.
Lemma test_end : forall s l cs x, 0 < max -> idle s -> sd_pc s = MTest l cs x -> exists ws, sd_pc (run ws s) = MCalls cs x /\ (length (handled (sd_log s)) < length (handled (sd_log (run ws s))))%nat.
Proof.
  intros s l cs x M Q P. destruct (Z.of_nat (length (sd_fut s)) <? max) eqn:T.
  - exists [Main]. cbn [sched_run sched_step]. unfold main_step. rewrite P, T. cbn [sd_pc sd_log]. split; [reflexivity|]. rewrite handled_app, app_length. cbn [handled length]. lia.
  - set (s1 := at_pc s (MSweep 0 l cs x)). destruct (sweep_end (length (sd_fut s1)) s1 0 l cs x Q eq_refl ltac:(lia)) as (ws & H1 & (H2 & Hl) & H3).
    exists ((Main :: ws) ++ [Main]). rewrite run_app.
    assert (A : run (Main :: ws) s = run ws s1) by (cbn [sched_run sched_step]; unfold main_step; rewrite P, T; reflexivity). rewrite A. set (s2 := run ws s1) in *.
    cbn [sched_run sched_step]. unfold main_step. rewrite H1, H2. cbn [firstn length Z.of_nat]. rewrite (proj2 (Z.ltb_lt 0 max) M). cbn [sd_pc sd_log].
    split; [reflexivity|]. rewrite Hl, handled_app, app_length. cbn [handled length s1 at_pc sd_log]. lia.
Qed.
Lemma wait_end : forall m s n w, idle s -> sd_pc s = MWait n w -> (length (sd_fut s) - n <= m)%nat ->
  exists ws, match w with WRun _ cs x => sd_pc (run ws s) = MCalls cs x /\ (length (handled (sd_log s)) < length (handled (sd_log (run ws s))))%nat | WEnd => sd_pc (run ws s) = MDone end.
Proof.
  induction m as [|m IH]; intros s n w Q P L.
  - exists [Main]. cbn [sched_run sched_step]. unfold main_step. rewrite P. rewrite (proj2 (nth_error_None (sd_fut s) n)) by lia. destruct w; cbn [sd_pc sd_log]; [split; [reflexivity|]; rewrite handled_app, app_length; cbn [handled length]; lia|reflexivity].
  - destruct (nth_error (sd_fut s) n) as [k|] eqn:N.
    + destruct (IH (at_pc s (MWait (S n) w)) (S n) w Q eq_refl) as (ws & H); [cbn [at_pc sd_fut]; lia|].
      exists (Main :: ws). cbn [sched_run sched_step]. unfold main_step. rewrite P, N, (idle_ready s n k Q N). exact H.
    + exists [Main]. cbn [sched_run sched_step]. unfold main_step. rewrite P, N. destruct w; cbn [sd_pc sd_log]; [split; [reflexivity|]; rewrite handled_app, app_length; cbn [handled length]; lia|reflexivity].
Qed.

Lemma idle_of : forall items s rem, inv items s rem -> live (sd_pc s) -> exists ws, sd_pc (run ws s) = sd_pc s /\ idle (run ws s) /\ inv items (run ws s) rem.
Proof.
  intros items s rem I L. destruct (finish (weight (sd_tasks s)) s ltac:(lia) L) as (ws & H1 & H2 & H3 & H4). cbv zeta in *.
  destruct (run_ok ws items s rem I) as (rem' & I'). exists ws. split; [exact H1|]. split; [split; [exact H4|exact (i_known _ _ _ I')]|].
  (* what is left is determined by the program counter *)
  assert (E : rem' = rem).
  { pose proof (i_pend _ _ _ I') as P'. pose proof (i_pend _ _ _ I) as P. rewrite H1, H3 in P'.
    assert (Sup : forall r a, supply r a -> forall b, supply r b -> a = b).
    { clear. induction 1 as [r r' R|r c r' l R S IH]; intros b Hb; inversion Hb as [? ? R2|? ? ? ? R2 S2]; subst; rewrite R in R2; try discriminate R2; [reflexivity|].
      injection R2 as <- <-. f_equal. exact (IH _ S2). }
    assert (G : forall x r a b, goes_on x r a -> goes_on x r b -> a = b).
    { intros x r a b [(-> & A)|(-> & ->)] [(B1 & B)|(B1 & B)]; try discriminate B1; [exact (Sup _ _ A _ B)|congruence]. }
    destruct (sd_pc s) as [|cs x|l cs x|n l cs x|n [h cs x|]| |e|k]; cbn [pending] in P, P'; try contradiction;
      try congruence; try (destruct P as (a & -> & A), P' as (b & -> & B); rewrite (G _ _ _ _ A B); reflexivity). exact (Sup _ _ P' _ P). }
  subst rem'. exact I'.
Qed.


(** the log only grows *)
Lemma step_log : forall w s s', step w s = Some s' -> exists l, sd_log s' = sd_log s ++ l.
Proof.
  intros [|k] s s' E; cbn [sched_step] in E.
  - unfold main_step in E. destruct (sd_pc s) as [|cs x|l cs x|n l cs x|n w| |e|k].
    + destruct (read_stream uncomp srt ignore_null d 1 1 (sd_reader s)) as [[x cs] r]. injection E as <-. exists []. symmetry. apply app_nil_r.
    + destruct cs as [|[h|l] cs]; injection E as <-; exists []; symmetry; apply app_nil_r.
    + destruct (Z.of_nat (length (sd_fut s)) <? max); injection E as <-; [eexists; reflexivity|exists []; symmetry; apply app_nil_r].
    + destruct (nth_error (sd_fut s) n) as [k|]; [destruct (ready s k)|]; injection E as <-; exists []; symmetry; apply app_nil_r.
    + destruct (nth_error (sd_fut s) n) as [k|]; [destruct (ready s k); [|discriminate E]|destruct w]; injection E as <-; [exists []; symmetry; apply app_nil_r|eexists; reflexivity|exists []; symmetry; apply app_nil_r].
    + discriminate E.
    + discriminate E.
    + discriminate E.
  - unfold task_step in E. destruct (sd_pc s), (nth_error (sd_tasks s) k) as [[]|]; try discriminate E; injection E as <-; eexists; reflexivity.
Qed.
Lemma run_log : forall ws s, exists l, sd_log (run ws s) = sd_log s ++ l.
Proof.
  induction ws as [|w ws IH]; intros s; cbn [sched_run]; [exists []; symmetry; apply app_nil_r|]. destruct (step w s) as [s'|] eqn:E; [|apply IH].
  destruct (step_log w s s' E) as (a & A). destruct (IH s') as (b & B). exists (a ++ b). rewrite B, A, app_assoc. reflexivity.
Qed.

Lemma can_end : forall n items s rem, 0 < max -> inv items s rem -> (length rem <= n)%nat -> exists ws, sd_pc (run ws s) = MDone.
Proof.
  induction n as [n IH] using (well_founded_induction lt_wf). intros items s rem M I Ln.
  assert (Then : forall ws, (exists ws', sd_pc (run ws' (run ws s)) = MDone) -> exists ws, sd_pc (run ws s) = MDone).
  { intros ws (ws' & E). exists (ws ++ ws'). rewrite run_app. exact E. }
  (* once one more call is handled, the induction hypothesis applies *)
  assert (More : forall ws, (length (handled (sd_log s)) < length (handled (sd_log (run ws s))))%nat -> exists ws, sd_pc (run ws s) = MDone).
  { intros ws Lt. apply (Then ws). destruct (run_ok ws items s rem I) as (rem' & I'). apply (IH (length rem')) with (items := items) (rem := rem'); try assumption; [|lia].
    pose proof (i_items _ _ _ I) as A. pose proof (i_items _ _ _ I') as B. rewrite A in B. apply (f_equal (@length call)) in B. rewrite !app_length in B. lia. }
  (* the waiting states *)
  assert (W : forall ws, (exists l cs x, sd_pc (run ws s) = MTest l cs x) \/ (exists m l cs x, sd_pc (run ws s) = MSweep m l cs x) \/ (exists m w, sd_pc (run ws s) = MWait m w) \/ sd_pc (run ws s) = MDone ->
     exists ws, sd_pc (run ws s) = MDone).
  { intros ws C. destruct (run_ok ws items s rem I) as (rem1 & I1). set (s1 := run ws s) in *.
    assert (More1 : forall ws1, (length (handled (sd_log s1)) < length (handled (sd_log (run ws1 s1))))%nat -> exists ws, sd_pc (run ws s) = MDone).
    { intros ws1 Lt. apply (More (ws ++ ws1)). rewrite run_app. fold s1. destruct (run_log ws s) as (a & A). fold s1 in A. rewrite A, handled_app, app_length in Lt. lia. }
    destruct C as [(l & cs & x & P)|[(m & l & cs & x & P)|[(m & w & P)|P]]]; [| | |exists ws; exact P].
    - destruct (idle_of items s1 rem1 I1) as (w1 & H1 & H2 & _); [rewrite P; exact Logic.I|]. destruct (test_end (run w1 s1) l cs x M H2 ltac:(congruence)) as (w2 & _ & E).
      apply (More1 (w1 ++ w2)). rewrite run_app. destruct (run_log w1 s1) as (a & A). rewrite A, handled_app, app_length in E. lia.
    - destruct (idle_of items s1 rem1 I1) as (w1 & H1 & H2 & _); [rewrite P; exact Logic.I|]. destruct (sweep_end _ (run w1 s1) m l cs x H2 ltac:(congruence) (le_n _)) as (w2 & P2 & _ & H3).
      destruct (test_end (run w2 (run w1 s1)) l cs x M H3 P2) as (w3 & _ & E).
      apply (More1 (w1 ++ w2 ++ w3)). rewrite !run_app. destruct (run_log w1 s1) as (a & A). destruct (run_log w2 (run w1 s1)) as (b & B). rewrite B, A, !handled_app, !app_length in E. lia.
    - destruct (idle_of items s1 rem1 I1) as (w1 & H1 & H2 & _); [rewrite P; exact Logic.I|]. destruct (wait_end _ (run w1 s1) m w H2 ltac:(congruence) (le_n _)) as (w2 & E).
      destruct w as [h cs x|].
      + destruct E as (_ & E). apply (More1 (w1 ++ w2)). rewrite run_app. destruct (run_log w1 s1) as (a & A). rewrite A, handled_app, app_length in E. lia.
      + exists (ws ++ w1 ++ w2). rewrite !run_app. exact E. }
  (* [MCalls]: a call is taken, or the reader is asked *)
  assert (Cl : forall ws c cs x, sd_pc (run ws s) = MCalls (c :: cs) x -> exists ws, sd_pc (run ws s) = MDone).
  { intros ws c cs x P. apply (W (ws ++ [Main])). rewrite run_app. cbn [sched_run sched_step]. unfold main_step. rewrite P. destruct c as [h|l]; cbn [at_pc sd_pc]; [right; right; left|left]; eauto. }
  assert (Ce : forall ws, sd_pc (run ws s) = MCalls [] (Throw LEndOfData) -> exists ws, sd_pc (run ws s) = MDone).
  { intros ws P. apply (W (ws ++ [Main])). rewrite run_app. cbn [sched_run sched_step]. unfold main_step. rewrite P. cbn [at_pc sd_pc]. right; right; left. eauto. }
  assert (Rd : forall ws, sd_pc (run ws s) = MRead -> exists ws, sd_pc (run ws s) = MDone).
  { intros ws P. destruct (run_ok ws items s rem I) as (rem1 & I1). pose proof (i_pend _ _ _ I1) as Pd. rewrite P in Pd. cbn [pending] in Pd. inversion Pd as [r r' R E1 E2|r c r' rest R Hs E1 E2].
    - apply (Ce (ws ++ [Main])). rewrite run_app. cbn [sched_run sched_step]. unfold main_step. rewrite P, R. reflexivity.
    - apply (Cl (ws ++ [Main]) c [] (Ok tt)). rewrite run_app. cbn [sched_run sched_step]. unfold main_step. rewrite P, R. reflexivity. }
  pose proof (i_pend _ _ _ I) as Pd. destruct (sd_pc s) as [|cs x|l cs x|m l cs x|m w| |e|k] eqn:P; cbn [pending] in Pd; try contradiction.
  - exact (Rd [] P).
  - destruct cs as [|c cs]; [|exact (Cl [] c cs x P)]. destruct Pd as (rest & _ & [(-> & _)|(-> & _)]); [|exact (Ce [] P)].
    apply (Rd [Main]). cbn [sched_run sched_step]. unfold main_step. rewrite P. reflexivity.
  - apply (W []). left. eauto.
  - apply (W []). right. left. eauto.
  - apply (W []). right. right. left. eauto.
  - exists []. exact P.
Qed.


(** ** Files that can be read supply the calls of one listener *)
Lemma run_supply : forall names n W next r, length W = n ->
  streams srt names next (Some W) (repeat (1%nat, 1) (S n)) (run_streams uncomp srt ignore_null d (repeat (1%nat, 1) (S n)) r) ->
  exists cs next', streamed srt names 1 next W next' (map (pair 0%nat) cs) /\ supply r cs.
Proof.
  intros names. induction n as [|n IH]; intros W next r L H.
  - destruct W; [|discriminate L]. cbn [repeat run_streams] in H. destruct (read_stream uncomp srt ignore_null d 1 1 r) as [[x cs] r'] eqn:R.
    inversion H as [|? W1 W2 ? ? ? ? ? ? Hm Z St _|? ? ? ? ? ? ? ? Hm Z St _|? ? ? ? ? ? ? St _ E1 |]; subst.
    + destruct W1; [cbv in Z; discriminate Z|discriminate].
    + inversion St; subst. exists [], next'. split; [constructor|]. apply (Sup_end r r' R).
  - destruct W as [|w W]; [discriminate L|]. injection L as L. cbn [repeat run_streams] in H. destruct (read_stream uncomp srt ignore_null d 1 1 r) as [[x cs] r'] eqn:R.
    inversion H as [|? W1 W2 ? ? ? ? ? ? Hm Z St Hr|? ? ? ? ? ? ? ? Hm Z St _|? ? ? ? ? ? ? St _ E1 |]; subst.
    + match goal with Q : _ ++ _ = w :: W |- _ => rename Q into E0 end. destruct W1 as [|w1 [|w2 W1]]; [cbv in Z; discriminate Z| |exfalso; cbn [length] in Z; unfold Zlen in Z; cbn [length] in Z; lia].
      injection E0 as -> ->.
      destruct (IH W next' r' eq_refl Hr) as (cs' & next'' & S' & Sp).
      inversion St as [|? f h l ? cs0 St'|? f h e only l le ? cs0 Hc St']; subst; inversion St'; subst; cbn [to_all seq map app] in *.
      * exists (CRun (run_copy f h) :: cs'), next''. split; [exact (St_run _ _ 1 _ f h W next'' _ S')|]. apply (Sup_next r _ r' cs' R Sp).
      * exists (CEvt le :: cs'), next''. split; [exact (St_evt _ _ 1 _ f h e only W le next'' _ Hc S')|]. apply (Sup_next r _ r' cs' R Sp).
    + exfalso. unfold Zlen in Z. cbn [length] in Z. lia.
Qed.

Lemma start_inv : forall r cs, supply r cs -> inv cs (mkSc MRead r [] [] []) cs.
Proof.
  intros r cs H. constructor; cbn [sd_pc sd_reader sd_fut sd_tasks sd_log handled app pending length starts ends running]; try reflexivity; try exact H; try exact I.
  - intros k l [].
  - intros k. destruct k; split; [intros r0 n []|intros []|intros r0 n []|intros []].
  - intros k t E. destruct k; discriminate E.
  - intros k [].
  - apply orderly_nil.
Qed.

End Proofs.

(** a task that has returned has printed the numbers of its event *)
Lemma start_once : forall max l k e1 e2, orderly max l -> In (EStart k e1) l -> In (EStart k e2) l -> e1 = e2.
Proof.
  intros max l k e1 e2 O H1 H2. apply in_split in H1. destruct H1 as (a1 & b1 & E1). apply in_split in H2. destruct H2 as (a2 & b2 & E2).
  destruct (O _ _ _ E1) as (S1 & _). destruct (O _ _ _ E2) as (S2 & _). rewrite E1 in E2.
  revert a2 E2 S2. clear - S1. revert k S1. intros k S1 a2 E2 S2.
  assert (G : forall a b c d (x y : entry), a ++ x :: b = c ++ y :: d -> (a = c /\ x = y) \/ (exists m, c = a ++ x :: m) \/ (exists m, a = c ++ y :: m)).
  { clear. induction a as [|z a IH]; intros b c d x y E; destruct c as [|w c]; cbn [app] in E.
    - injection E as -> _. left. split; reflexivity.
    - injection E as -> _. right. left. exists c. reflexivity.
    - injection E as -> _. right. right. exists a. reflexivity.
    - injection E as -> E. destruct (IH b c d x y E) as [(-> & ->)|[(m & ->)|(m & ->)]]; [left; split; reflexivity|right; left; exists m; reflexivity|right; right; exists m; reflexivity]. }
  destruct (G _ _ _ _ _ _ E2) as [(_ & E)|[(m & E)|(m & E)]].
  - congruence.
  - rewrite E, starts_app in S2. cbn [starts] in S2. lia.
  - rewrite E, starts_app in S1. cbn [starts] in S1. lia.
Qed.
Lemma end_printed : forall max l k e, orderly max l -> In (EStart k e) l -> In (EEnd k) l -> In (EProc k (ev_run (le_evt e)) (ev_num (le_evt e))) l.
Proof.
  intros max l k e O Hs He. apply in_split in He. destruct He as (a & b & E). destruct (O _ _ _ E) as ((r & n & P) & _).
  assert (Pl : In (EProc k r n) l) by (rewrite E; apply in_or_app; left; exact P).
  pose proof Pl as Q. apply in_split in Q. destruct Q as (a' & b' & E'). destruct (O _ _ _ E') as ((e' & S' & -> & ->) & _).
  rewrite (start_once max l k e e' O Hs); [exact Pl|]. rewrite E'. apply in_or_app. left. exact S'.
Qed.

(** * SIOReader: proofs *)

From Verif Require Import Bytes StrMap SioModel ObjModel EventModel IndexModel FileModel FileSpec StreamSpec ReaderModel ReaderSpec.
From Coq Require Import Sorting.Sorted.

(** ** Sets of listeners *)

Lemma insert_in x y l : In y (set_insert x l) <-> y = x \/ In y l.
Proof.
  induction l as [|z l IH]; cbn [set_insert]; [cbn [In]; intuition|].
  destruct (x <? z) eqn:E; [cbn [In]; intuition|]. destruct (x =? z) eqn:E2; [apply Z.eqb_eq in E2; subst; cbn [In]; intuition|].
  cbn [In]. rewrite IH. intuition.
Qed.
Lemma insert_sorted x l : StronglySorted Z.lt l -> StronglySorted Z.lt (set_insert x l).
Proof.
  induction 1 as [|z l S IH F]; cbn [set_insert]; [repeat constructor|].
  destruct (x <? z) eqn:E.
  - apply Z.ltb_lt in E. constructor; [constructor; assumption|]. constructor; [exact E|]. eapply Forall_impl; [|exact F]. intros; lia.
  - destruct (x =? z) eqn:E2; [constructor; assumption|]. constructor; [exact IH|]. apply Forall_forall. intros y Hy. apply insert_in in Hy.
    destruct Hy as [->|Hy]; [lia|]. exact (proj1 (Forall_forall _ _) F y Hy).
Qed.
Lemma filter_sorted p l : StronglySorted Z.lt l -> StronglySorted Z.lt (filter p l).
Proof.
  induction 1 as [|z l S IH F]; cbn [filter]; [constructor|]. destruct (p z); [|exact IH]. constructor; [exact IH|].
  apply Forall_forall. intros y Hy. apply filter_In in Hy. exact (proj1 (Forall_forall _ _) F y (proj1 Hy)).
Qed.
Lemma erase_in x y l : In y (filter (fun z => negb (x =? z)) l) <-> y <> x /\ In y l.
Proof. rewrite filter_In, Bool.negb_true_iff, Z.eqb_neq. intuition. Qed.

Lemma last_evt h o l : evt_registered (h ++ [o]) l <-> o = OAddEvt l \/ (o <> ODropEvt l /\ evt_registered h l).
Proof.
  split.
  - intros (h1 & h2 & E & N).
    destruct (exists_last (l := OAddEvt l :: h2)) as (h2' & x & E2); [discriminate|]. rewrite E2, app_assoc in E. apply app_inj_tail in E. destruct E as [E ->].
    destruct h2' as [|y h2']; [injection E2 as -> _; left; reflexivity|]. injection E2 as <- E2. right. split.
    + intros ->. apply N. rewrite E2. apply in_or_app. right. left. reflexivity.
    + exists h1, h2'. split; [exact E|]. intros H. apply N. rewrite E2. apply in_or_app. left. exact H.
  - intros [->|[Ho (h1 & h2 & -> & N)]].
    + exists h, []. split; [reflexivity|intros []].
    + exists h1, (h2 ++ [o]). split; [rewrite <- app_assoc; reflexivity|]. intros H. apply in_app_or in H. destruct H as [H|[H|[]]]; [exact (N H)|exact (Ho H)].
Qed.
Lemma last_run h o l : run_registered (h ++ [o]) l <-> o = OAddRun l \/ (o <> ODropRun l /\ run_registered h l).
Proof.
  split.
  - intros (h1 & h2 & E & N).
    destruct (exists_last (l := OAddRun l :: h2)) as (h2' & x & E2); [discriminate|]. rewrite E2, app_assoc in E. apply app_inj_tail in E. destruct E as [E ->].
    destruct h2' as [|y h2']; [injection E2 as -> _; left; reflexivity|]. injection E2 as <- E2. right. split.
    + intros ->. apply N. rewrite E2. apply in_or_app. right. left. reflexivity.
    + exists h1, h2'. split; [exact E|]. intros H. apply N. rewrite E2. apply in_or_app. left. exact H.
  - intros [->|[Ho (h1 & h2 & -> & N)]].
    + exists h, []. split; [reflexivity|intros []].
    + exists h1, (h2 ++ [o]). split; [rewrite <- app_assoc; reflexivity|]. intros H. apply in_app_or in H. destruct H as [H|[H|[]]]; [exact (N H)|exact (Ho H)].
Qed.

Section Reader.
Context (uncomp : bytes -> option bytes) (srt : forall A : Type, (A -> Z) -> list A -> list A) (ignore_null : bool).
Context (change_evt : Z -> levent -> levent) (change_run : Z -> runhdr -> runhdr).

(** ** Calls of the listeners *)

Lemma notify_evt_told who ls e : StronglySorted Z.lt ls -> (forall l, In l ls <-> who l) -> told CEvt change_evt who e (notify_evt change_evt ls e).
Proof.
  intros S H. exists ls. split; [exact S|]. split; [exact H|]. clear S H. revert e. induction ls as [|l ls IH]; intros e.
  - split; [reflexivity|]. intros i l Hi. destruct i; discriminate Hi.
  - cbn [notify_evt length]. destruct (IH (change_evt l e)) as [L N]. split; [lia|]. intros [|i] x Hi; cbn [nth_error] in Hi.
    + injection Hi as ->. cbn [firstn fold_left Nat.mul Nat.add nth_error]. split; reflexivity.
    + destruct (N i x Hi) as [N1 N2]. cbv zeta. replace (2 * S i)%nat with (S (S (2 * i))) by lia. cbn [nth_error Nat.add firstn fold_left]. split; assumption.
Qed.
Lemma notify_run_told who ls h : StronglySorted Z.lt ls -> (forall l, In l ls <-> who l) -> told CRun change_run who h (notify_run change_run ls h).
Proof.
  intros S H. exists ls. split; [exact S|]. split; [exact H|]. clear S H. revert h. induction ls as [|l ls IH]; intros h.
  - split; [reflexivity|]. intros i l Hi. destruct i; discriminate Hi.
  - cbn [notify_run length]. destruct (IH (change_run l h)) as [L N]. split; [lia|]. intros [|i] x Hi; cbn [nth_error] in Hi.
    + injection Hi as ->. cbn [firstn fold_left Nat.mul Nat.add nth_error]. split; reflexivity.
    + destruct (N i x Hi) as [N1 N2]. cbv zeta. replace (2 * S i)%nat with (S (S (2 * i))) by lia. cbn [nth_error Nat.add firstn fold_left]. split; assumption.
Qed.

Lemma proper_step h o ops : proper (h ++ o :: ops) -> proper ((h ++ [o]) ++ ops).
Proof. rewrite <- app_assoc. exact (fun H => H). Qed.

Lemma listed_other h o s s' : listed h s -> ~ is_change o -> sr_evts s' = sr_evts s -> sr_runs s' = sr_runs s -> listed (h ++ [o]) s'.
Proof.
  intros (A & B & C & D) Ho E1 E2. unfold listed. rewrite E1, E2. split; [exact A|]. split; [exact B|]. split; intros l.
  - rewrite C, last_evt. split; [intros H; right; split; [intros ->; apply Ho; exact I|exact H]|intros [->|[_ H]]; [destruct (Ho I)|exact H]].
  - rewrite D, last_run. split; [intros H; right; split; [intros ->; apply Ho; exact I|exact H]|intros [->|[_ H]]; [destruct (Ho I)|exact H]].
Qed.
Lemma change_step d h o s : listed h s -> is_change o -> (forall l, o = ODropEvt l -> evt_registered h l) -> (forall l, o = ODropRun l -> run_registered h l) ->
  exists s', sio_step uncomp srt ignore_null change_evt change_run d o s = (PDone, s') /\ sr_reader s' = sr_reader s /\ listed (h ++ [o]) s'.
Proof.
  intros (A & B & C & D) Ho H1 H2. destruct o as [l|l|l|l| | | | | |]; try destruct Ho; cbn [sio_step].
  - eexists. split; [reflexivity|]. split; [reflexivity|]. unfold listed. cbn [sr_evts sr_runs]. split; [apply insert_sorted; exact A|]. split; [exact B|]. split; intros x.
    + rewrite insert_in, last_evt, C. split; [intros [->|H]; [left; reflexivity|right; split; [discriminate|exact H]]|intros [H|[_ H]]; [injection H as ->; left; reflexivity|right; exact H]].
    + rewrite D, last_run. split; [intros H; right; split; [discriminate|exact H]|intros [H|[_ H]]; [discriminate H|exact H]].
  - unfold set_erase. replace (existsb (Z.eqb l) (sr_evts s)) with true.
    2:{ symmetry. apply existsb_exists. exists l. split; [apply C; apply H1; reflexivity|apply Z.eqb_refl]. }
    eexists. split; [reflexivity|]. split; [reflexivity|]. unfold listed. cbn [sr_evts sr_runs]. split; [apply filter_sorted; exact A|]. split; [exact B|]. split; intros x.
    + rewrite erase_in, last_evt, C. split; [intros [N H]; right; split; [intros E; injection E as ->; destruct (N eq_refl)|exact H]|].
      intros [H|[N H]]; [discriminate H|]. split; [intros ->; destruct (N eq_refl)|exact H].
    + rewrite D, last_run. split; [intros H; right; split; [discriminate|exact H]|intros [H|[_ H]]; [discriminate H|exact H]].
  - eexists. split; [reflexivity|]. split; [reflexivity|]. unfold listed. cbn [sr_evts sr_runs]. split; [exact A|]. split; [apply insert_sorted; exact B|]. split; intros x.
    + rewrite C, last_evt. split; [intros H; right; split; [discriminate|exact H]|intros [H|[_ H]]; [discriminate H|exact H]].
    + rewrite insert_in, last_run, D. split; [intros [->|H]; [left; reflexivity|right; split; [discriminate|exact H]]|intros [H|[_ H]]; [injection H as ->; left; reflexivity|right; exact H]].
  - unfold set_erase. replace (existsb (Z.eqb l) (sr_runs s)) with true.
    2:{ symmetry. apply existsb_exists. exists l. split; [apply D; apply H2; reflexivity|apply Z.eqb_refl]. }
    eexists. split; [reflexivity|]. split; [reflexivity|]. unfold listed. cbn [sr_evts sr_runs]. split; [exact A|]. split; [apply filter_sorted; exact B|]. split; intros x.
    + rewrite C, last_evt. split; [intros H; right; split; [discriminate|exact H]|intros [H|[_ H]]; [discriminate H|exact H]].
    + rewrite erase_in, last_run, D. split; [intros [N H]; right; split; [intros E; injection E as ->; destruct (N eq_refl)|exact H]|].
      intros [H|[N H]]; [discriminate H|]. split; [intros ->; destruct (N eq_refl)|exact H].
Qed.

(** a program that streams, for any files *)
Lemma notified_run d ops : forall h s, Forall streaming ops -> proper (h ++ ops) -> listed h s ->
  (forall x cs, In (x, cs) (run_streams uncomp srt ignore_null d (limits ops) (sr_reader s)) -> forall k, x <> UB k) ->
  notified change_evt change_run h ops (run_streams uncomp srt ignore_null d (limits ops) (sr_reader s))
    (sio_run uncomp srt ignore_null change_evt change_run d ops s).
Proof.
  induction ops as [|o ops IH]; intros h s F Hp L HU; [constructor|]. inversion F as [|? ? Ho F']; subst. destruct Ho as [Ho|[m ->]].
  - destruct (change_step d h o s L Ho) as (s' & E & Er & L').
    { intros l ->. exact (proj1 (Hp h ops l) eq_refl). } { intros l ->. exact (proj2 (Hp h ops l) eq_refl). }
    assert (El : limits (o :: ops) = limits ops) by (destruct o; try destruct Ho; reflexivity). cbn [sio_run]. rewrite E. rewrite El in HU |- *. rewrite <- Er in HU |- *.
    apply No_change; [exact Ho|]. apply IH; [exact F'|apply proper_step; exact Hp|exact L'|exact HU].
  - change (limits (OStream m :: ops)) with ((1%nat, m) :: limits ops) in HU |- *. cbn [run_streams sio_run sio_step] in HU |- *.
    destruct (read_stream uncomp srt ignore_null d 1 m (sr_reader s)) as [[x cs] r'].
    assert (HX : forall k, x <> UB k) by (apply (HU x cs); left; reflexivity).
    set (s' := mkSR r' (sr_evts s) (sr_runs s) (sr_evt s) (sr_run s)).
    assert (N : notified change_evt change_run (h ++ [OStream m]) ops (run_streams uncomp srt ignore_null d (limits ops) (sr_reader s')) (sio_run uncomp srt ignore_null change_evt change_run d ops s')).
    { apply IH; [exact F'|apply proper_step; exact Hp|eapply listed_other; [exact L|intros []|reflexivity|reflexivity]|].
      intros y cy Hy. apply (HU y cy). right. destruct x; [exact Hy|exact Hy|destruct (HX k eq_refl)]. }
    assert (T : Forall2 (told_call change_evt change_run h) (map snd cs) (map (fun kc => notify change_evt change_run s (snd kc)) cs)).
    { destruct L as (A & B & C & D). clear -A B C D. induction cs as [|[k c] cs IHc]; [constructor|]. cbn [map snd]. constructor; [|exact IHc].
      destruct c; cbn [told_call notify]; [apply notify_run_told|apply notify_evt_told]; assumption. }
    rewrite flat_map_concat_map. destruct x as [u|e|k]; [| |destruct (HX k eq_refl)]; (apply No_stream; [exact T|exact N]).
Qed.

(** ** Records *)

Definition freed_by (last : list result) {A} (c : held A) : Prop :=
  (c = HDeleted <-> spoiled last) /\
  (forall a, c = HRecord a -> exists h x, last = h ++ [x] /\ ((exists l, x = REvt (Some l)) \/ (exists r, x = RRun (Some r)))) /\
  (c = HNull -> forall h x, last = h ++ [x] -> ~ ((exists l, x = REvt (Some l)) \/ (exists r, x = RRun (Some r)))).

Lemma spoiled_last h x : spoiled (h ++ [x]) <-> (exists e, x = RThrow e) /\ exists h' y, h = h' ++ [y] /\ ((exists l, y = REvt (Some l)) \/ (exists r, y = RRun (Some r))).
Proof.
  split.
  - intros (h' & y & e & E & Hy). change [y; RThrow e] with ([y] ++ [RThrow e]) in E. rewrite app_assoc in E. apply app_inj_tail in E. destruct E as [-> ->].
    split; [exists e; reflexivity|]. exists h', y. split; [reflexivity|exact Hy].
  - intros ([e ->] & h' & y & -> & Hy). exists h', y, e. split; [rewrite <- app_assoc; reflexivity|exact Hy].
Qed.

Definition is_record (x : result) : Prop := (exists l, x = REvt (Some l)) \/ (exists r, x = RRun (Some r)).
(** the pointer after a call whose result is [x] *)
Lemma freed_next {A} last (c c' : held A) x : freed_by last c -> ~ spoiled last ->
  (is_record x /\ (exists a, c' = HRecord a)) \/ (~ is_record x /\ (forall e, x <> RThrow e) /\ c' = HNull) \/
  ((exists e, x = RThrow e) /\ c' = match c with HNull => HNull | _ => HDeleted end) -> freed_by (last ++ [x]) c'.
Proof.
  intros (F1 & F2 & F3) NS [[Hr [a ->]]|[[Hr [Hx ->]]|[[e ->] ->]]].
  - split; [|split].
    + split; [discriminate|]. rewrite spoiled_last. intros [[e ->] _]. destruct Hr as [[l Hr]|[r Hr]]; discriminate Hr.
    + intros b _. exists last, x. split; [reflexivity|exact Hr].
    + discriminate.
  - split; [|split].
    + split; [discriminate|]. rewrite spoiled_last. intros [[e ->] _]. destruct (Hx e eq_refl).
    + discriminate.
    + intros _ h y E. apply app_inj_tail in E. destruct E as [_ <-]. exact Hr.
  - assert (NR : forall h y, last ++ [RThrow e] = h ++ [y] -> ~ is_record y).
    { intros h y E. apply app_inj_tail in E. destruct E as [_ <-]. intros [[l H]|[r H]]; discriminate H. }
    destruct c as [|a|].
    + split; [|split; [discriminate|intros _; exact NR]]. split; [discriminate|]. rewrite spoiled_last. intros [_ (h' & y & E & Hy)]. destruct (F3 eq_refl h' y E Hy).
    + split; [|split; discriminate]. split; [|reflexivity]. intros _. rewrite spoiled_last. split; [exists e; reflexivity|]. exact (F2 a eq_refl).
    + destruct NS. apply F1. reflexivity.
Qed.

Definition evt_result (res : Res (option levent) * reader) : result := match fst res with Ok l => REvt l | Throw e => RThrow e | UB k => RUB k end.
Definition run_result (res : Res (option runhdr) * reader) : result := match fst res with Ok h => RRun h | Throw e => RThrow e | UB k => RUB k end.

Lemma own_evt_ok s res he : freed_by he (sr_evt s) ->
  (spoiled he /\ fst (own_evt s res) = PUB UBPrecondition) \/
  (~ spoiled he /\ exists s', own_evt s res = (reply_of (evt_result res), s') /\ sr_reader s' = snd res /\ sr_run s' = sr_run s /\ sr_evts s' = sr_evts s /\ sr_runs s' = sr_runs s /\
     ((forall k, evt_result res <> RUB k) -> freed_by (he ++ [evt_result res]) (sr_evt s'))).
Proof.
  intros F. unfold own_evt. destruct (sr_evt s) as [|a|] eqn:Ec.
  3:{ left. split; [apply F; reflexivity|reflexivity]. }
  all: right; assert (NS : ~ spoiled he) by (intros H; apply F in H; discriminate H); split; [exact NS|];
    destruct res as [[e|x|k] r]; unfold evt_result; cbn [fst snd reply_of]; eexists; (split; [reflexivity|]); cbn [sr_reader sr_run sr_evts sr_runs sr_evt];
    (split; [reflexivity|]; split; [reflexivity|]; split; [reflexivity|]; split; [reflexivity|]); intros HU; try (destruct (HU k eq_refl); fail);
    (eapply freed_next; [exact F|exact NS|]); try (right; right; split; [exists x; reflexivity|reflexivity]);
    (destruct e as [l|]; [left; split; [left; exists l; reflexivity|exists l; reflexivity]|right; left; split; [intros [[l H]|[r' H]]; discriminate H|split; [discriminate|reflexivity]]]).
Qed.
Lemma own_run_ok s res hr : freed_by hr (sr_run s) ->
  (spoiled hr /\ fst (own_run s res) = PUB UBPrecondition) \/
  (~ spoiled hr /\ exists s', own_run s res = (reply_of (run_result res), s') /\ sr_reader s' = snd res /\ sr_evt s' = sr_evt s /\ sr_evts s' = sr_evts s /\ sr_runs s' = sr_runs s /\
     ((forall k, run_result res <> RUB k) -> freed_by (hr ++ [run_result res]) (sr_run s'))).
Proof.
  intros F. unfold own_run. destruct (sr_run s) as [|a|] eqn:Ec.
  3:{ left. split; [apply F; reflexivity|reflexivity]. }
  all: right; assert (NS : ~ spoiled hr) by (intros H; apply F in H; discriminate H); split; [exact NS|];
    destruct res as [[e|x|k] r]; unfold run_result; cbn [fst snd reply_of]; eexists; (split; [reflexivity|]); cbn [sr_reader sr_run sr_evts sr_runs sr_evt];
    (split; [reflexivity|]; split; [reflexivity|]; split; [reflexivity|]; split; [reflexivity|]); intros HU; try (destruct (HU k eq_refl); fail);
    (eapply freed_next; [exact F|exact NS|]); try (right; right; split; [exists x; reflexivity|reflexivity]);
    (destruct e as [l|]; [left; split; [right; exists l; reflexivity|exists l; reflexivity]|right; left; split; [intros [[l H]|[r' H]]; discriminate H|split; [discriminate|reflexivity]]]).
Qed.

Lemma step_evt d s r res : (s = Next true /\ res = read_next_event uncomp srt ignore_null d r) \/
    (exists run num, s = GetEvt run num /\ res = read_event_at uncomp srt ignore_null d run num r) ->
  one_step uncomp srt ignore_null d s r = (evt_result res, snd res).
Proof.
  intros [[-> ->]|(run & num & -> & ->)]; cbn [one_step one_op]; unfold evt_result;
    match goal with |- context [match ?x with _ => _ end = (match fst ?x with _ => _ end, _)] => destruct x as [[?|?|?] ?] end; reflexivity.
Qed.
Lemma step_run d s r res : (s = Next false /\ res = read_next_run uncomp d r) \/ (exists run, s = GetRun run /\ res = read_run uncomp d run r) ->
  one_step uncomp srt ignore_null d s r = (run_result res, snd res).
Proof.
  intros [[-> ->]|(run & -> & ->)]; cbn [one_step one_op]; unfold run_result;
    match goal with |- context [match ?x with _ => _ end = (match fst ?x with _ => _ end, _)] => destruct x as [[?|?|?] ?] end; reflexivity.
Qed.

Lemma wrapped_run d st : forall he hr s, freed_by he (sr_evt s) -> freed_by hr (sr_run s) ->
  wrapped he hr st (run_steps uncomp srt ignore_null d st (sr_reader s)) (sio_run uncomp srt ignore_null change_evt change_run d (map op_of st) s).
Proof.
  induction st as [|x st IH]; intros he hr s Fe Fr; [constructor|]. cbn [map run_steps sio_run].
  assert (EV : forall res, reads_evt x = true -> reads_run x = false -> one_step uncomp srt ignore_null d x (sr_reader s) = (evt_result res, snd res) ->
    sio_step uncomp srt ignore_null change_evt change_run d (op_of x) s = own_evt s res ->
    wrapped he hr (x :: st) (let '(p, r') := one_step uncomp srt ignore_null d x (sr_reader s) in p :: match p with RUB _ => [] | _ => run_steps uncomp srt ignore_null d st r' end)
      (let '(q, s') := sio_step uncomp srt ignore_null change_evt change_run d (op_of x) s in q :: match q with PUB _ => [] | _ => sio_run uncomp srt ignore_null change_evt change_run d (map op_of st) s' end)).
  { intros res R1 R2 E1 E2. rewrite E1, E2. destruct (own_evt_ok s res he Fe) as [[S E]|(S & s' & E & Er & E3 & _ & _ & F)].
    - destruct (own_evt s res) as [q s']. cbn [fst] in E. subst q. apply Wr_twice. left. split; assumption.
    - rewrite E, <- Er. assert (G : forall p, p = evt_result res -> wrapped he hr (x :: st) (p :: match p with RUB _ => [] | _ => run_steps uncomp srt ignore_null d st (sr_reader s') end)
        (reply_of p :: match reply_of p with PUB _ => [] | _ => sio_run uncomp srt ignore_null change_evt change_run d (map op_of st) s' end)).
      { intros p Hp. rewrite <- Hp in F. destruct p as [l|h| |e|k]; cbn [reply_of].
        all: try (refine (Wr_step he hr x st _ _ _ _ _ _ _); [intros [_ H]; exact (S H)|rewrite R2; intros [H _]; discriminate H|intros k' H; discriminate H|];
          rewrite R1, R2; cbn [add]; apply IH; [apply F; intros k' H; discriminate H|rewrite E3; exact Fr]).
        apply Wr_undefined; [intros [_ H]; exact (S H)|rewrite R2; intros [H _]; discriminate H]. }
      apply G. reflexivity. }
  assert (RN : forall res, reads_evt x = false -> reads_run x = true -> one_step uncomp srt ignore_null d x (sr_reader s) = (run_result res, snd res) ->
    sio_step uncomp srt ignore_null change_evt change_run d (op_of x) s = own_run s res ->
    wrapped he hr (x :: st) (let '(p, r') := one_step uncomp srt ignore_null d x (sr_reader s) in p :: match p with RUB _ => [] | _ => run_steps uncomp srt ignore_null d st r' end)
      (let '(q, s') := sio_step uncomp srt ignore_null change_evt change_run d (op_of x) s in q :: match q with PUB _ => [] | _ => sio_run uncomp srt ignore_null change_evt change_run d (map op_of st) s' end)).
  { intros res R1 R2 E1 E2. rewrite E1, E2. destruct (own_run_ok s res hr Fr) as [[S E]|(S & s' & E & Er & E3 & _ & _ & F)].
    - destruct (own_run s res) as [q s']. cbn [fst] in E. subst q. apply Wr_twice. right. split; assumption.
    - rewrite E, <- Er. assert (G : forall p, p = run_result res -> wrapped he hr (x :: st) (p :: match p with RUB _ => [] | _ => run_steps uncomp srt ignore_null d st (sr_reader s') end)
        (reply_of p :: match reply_of p with PUB _ => [] | _ => sio_run uncomp srt ignore_null change_evt change_run d (map op_of st) s' end)).
      { intros p Hp. rewrite <- Hp in F. destruct p as [l|h| |e|k]; cbn [reply_of].
        all: try (refine (Wr_step he hr x st _ _ _ _ _ _ _); [rewrite R1; intros [H _]; discriminate H|intros [_ H]; exact (S H)|intros k' H; discriminate H|];
          rewrite R1, R2; cbn [add]; apply IH; [rewrite E3; exact Fe|apply F; intros k' H; discriminate H]).
        apply Wr_undefined; [rewrite R1; intros [H _]; discriminate H|intros [_ H]; exact (S H)]. }
      apply G. reflexivity. }
  destruct x as [[|]|n|run num|run].
  - eapply EV; [reflexivity|reflexivity|apply step_evt; left; split; reflexivity|reflexivity].
  - eapply RN; [reflexivity|reflexivity|apply step_run; left; split; reflexivity|reflexivity].
  - clear EV RN. cbn [one_step op_of sio_step]. destruct (skip_events n (sr_reader s)) as [[u|e|k] r']; cbn [fst snd].
    + refine (Wr_step he hr (Skip n) st RDone _ _ _ _ _ _); [intros [H _]; discriminate H|intros [H _]; discriminate H|intros k' H; discriminate H|]. cbn [reads_evt reads_run add]. exact (IH he hr (mkSR r' (sr_evts s) (sr_runs s) (sr_evt s) (sr_run s)) Fe Fr).
    + refine (Wr_step he hr (Skip n) st (RThrow e) _ _ _ _ _ _); [intros [H _]; discriminate H|intros [H _]; discriminate H|intros k' H; discriminate H|]. cbn [reads_evt reads_run add]. exact (IH he hr (mkSR r' (sr_evts s) (sr_runs s) (sr_evt s) (sr_run s)) Fe Fr).
    + apply Wr_undefined; intros [H _]; discriminate H.
  - eapply EV; [reflexivity|reflexivity|apply step_evt; right; exists run, num; split; reflexivity|reflexivity].
  - eapply RN; [reflexivity|reflexivity|apply step_run; right; exists run; split; reflexivity|reflexivity].
Qed.

Theorem sio_reads d st r : wrapped [] [] st (run_steps uncomp srt ignore_null d st r) (sio_run uncomp srt ignore_null change_evt change_run d (map op_of st) (new_sio r)).
Proof.
  assert (F : forall A, freed_by [] (@HNull A)).
  { intros A. split; [|split]; [split; [discriminate|]|discriminate|].
    - intros (h' & x & e & E & _). destruct h'; discriminate E.
    - intros _ h x E. destruct h; discriminate E. }
  exact (wrapped_run d st [] [] (new_sio r) (F _) (F _)).
Qed.
(** as long as nothing is thrown *)
Lemma wrapped_same he hr st ps rs : wrapped he hr st ps rs -> ~ spoiled he -> ~ spoiled hr -> (forall e, ~ In (RThrow e) ps) -> rs = map reply_of ps.
Proof.
  intros W. induction W as [he hr|he hr s st p ps [[_ H]|[_ H]]|he hr s st k H1 H2|he hr s st p ps rs H1 H2 H3 W IH]; intros Ne Nr NT; try contradiction; try reflexivity.
  cbn [map]. f_equal. assert (Np : forall e, p <> RThrow e) by (intros e ->; apply (NT e); left; reflexivity).
  apply IH; [| |intros e He; apply (NT e); right; exact He].
  - destruct (reads_evt s); cbn [add]; [|exact Ne]. rewrite spoiled_last. intros [[e E] _]. exact (Np e E).
  - destruct (reads_run s); cbn [add]; [|exact Nr]. rewrite spoiled_last. intros [[e E] _]. exact (Np e E).
Qed.
Theorem sio_reads_same d st r : (forall e, ~ In (RThrow e) (run_steps uncomp srt ignore_null d st r)) ->
  sio_run uncomp srt ignore_null change_evt change_run d (map op_of st) (new_sio r) = map reply_of (run_steps uncomp srt ignore_null d st r).
Proof.
  intros H. apply (wrapped_same [] [] st); [apply sio_reads| | |exact H]; intros (h' & x & e & E & _); destruct h'; discriminate E.
Qed.
End Reader.

(** ** The record stays until the next one is read *)

Section Keep.
Context (uncomp : bytes -> option bytes) (srt : forall A : Type, (A -> Z) -> list A -> list A) (ignore_null : bool).
Context (change_evt : Z -> levent -> levent) (change_run : Z -> runhdr -> runhdr) (d : disk).

Lemma keep_evt l : forall s, Forall (fun o => ~ op_reads_evt o) l -> sr_evt (sio_end uncomp srt ignore_null change_evt change_run d l s) = sr_evt s.
Proof.
  induction l as [|o l IH]; intros s F; [reflexivity|]. inversion F as [|? ? Ho F']; subst. cbn [sio_end]. rewrite IH by exact F'.
  destruct o; cbn [sio_step]; try reflexivity; try (destruct Ho; exact I).
  - destruct (set_erase l0 (sr_evts s)); reflexivity.
  - destruct (set_erase l0 (sr_runs s)); reflexivity.
  - destruct (read_stream uncomp srt ignore_null d 1 max (sr_reader s)) as [[x cs] r]. reflexivity.
  - unfold own_run. destruct (sr_run s); [| |reflexivity]; destruct (read_next_run uncomp d (sr_reader s)) as [[?|?|?] ?]; reflexivity.
  - destruct (skip_events n (sr_reader s)) as [[?|?|?] ?]; reflexivity.
  - unfold own_run. destruct (sr_run s); [| |reflexivity]; destruct (read_run uncomp d run (sr_reader s)) as [[?|?|?] ?]; reflexivity.
Qed.
Lemma keep_run l : forall s, Forall (fun o => ~ op_reads_run o) l -> sr_run (sio_end uncomp srt ignore_null change_evt change_run d l s) = sr_run s.
Proof.
  induction l as [|o l IH]; intros s F; [reflexivity|]. inversion F as [|? ? Ho F']; subst. cbn [sio_end]. rewrite IH by exact F'.
  destruct o; cbn [sio_step]; try reflexivity; try (destruct Ho; exact I).
  - destruct (set_erase l0 (sr_evts s)); reflexivity.
  - destruct (set_erase l0 (sr_runs s)); reflexivity.
  - destruct (read_stream uncomp srt ignore_null d 1 max (sr_reader s)) as [[x cs] r]. reflexivity.
  - unfold own_evt. destruct (sr_evt s); [| |reflexivity]; destruct (read_next_event uncomp srt ignore_null d (sr_reader s)) as [[?|?|?] ?]; reflexivity.
  - destruct (skip_events n (sr_reader s)) as [[?|?|?] ?]; reflexivity.
  - unfold own_evt. destruct (sr_evt s); [| |reflexivity]; destruct (read_event_at uncomp srt ignore_null d run num (sr_reader s)) as [[?|?|?] ?]; reflexivity.
Qed.
Theorem record_stays o l s s' : 
  (forall e, sio_step uncomp srt ignore_null change_evt change_run d o s = (PEvt (Some e), s') -> Forall (fun o => ~ op_reads_evt o) l ->
     sr_evt (sio_end uncomp srt ignore_null change_evt change_run d l s') = HRecord e) /\
  (forall h, sio_step uncomp srt ignore_null change_evt change_run d o s = (PRun (Some h), s') -> Forall (fun o => ~ op_reads_run o) l ->
     sr_run (sio_end uncomp srt ignore_null change_evt change_run d l s') = HRecord h).
Proof.
  split.
  - intros e E F. rewrite keep_evt by exact F. destruct o; cbn [sio_step] in E; try discriminate E.
    + destruct (set_erase l0 (sr_evts s)); discriminate E.
    + destruct (set_erase l0 (sr_runs s)); discriminate E.
    + destruct (read_stream uncomp srt ignore_null d 1 max (sr_reader s)) as [[[?|?|?] cs] r]; discriminate E.
    + unfold own_evt in E. destruct (sr_evt s); [| |discriminate E]; destruct (read_next_event uncomp srt ignore_null d (sr_reader s)) as [[?|?|?] ?]; try discriminate E; injection E as -> <-; reflexivity.
    + unfold own_run in E. destruct (sr_run s); [| |discriminate E]; destruct (read_next_run uncomp d (sr_reader s)) as [[?|?|?] ?]; discriminate E.
    + destruct (skip_events n (sr_reader s)) as [[?|?|?] ?]; discriminate E.
    + unfold own_evt in E. destruct (sr_evt s); [| |discriminate E]; destruct (read_event_at uncomp srt ignore_null d run num (sr_reader s)) as [[?|?|?] ?]; try discriminate E; injection E as -> <-; reflexivity.
    + unfold own_run in E. destruct (sr_run s); [| |discriminate E]; destruct (read_run uncomp d run (sr_reader s)) as [[?|?|?] ?]; discriminate E.
  - intros h E F. rewrite keep_run by exact F. destruct o; cbn [sio_step] in E; try discriminate E.
    + destruct (set_erase l0 (sr_evts s)); discriminate E.
    + destruct (set_erase l0 (sr_runs s)); discriminate E.
    + destruct (read_stream uncomp srt ignore_null d 1 max (sr_reader s)) as [[[?|?|?] cs] r]; discriminate E.
    + unfold own_evt in E. destruct (sr_evt s); [| |discriminate E]; destruct (read_next_event uncomp srt ignore_null d (sr_reader s)) as [[?|?|?] ?]; discriminate E.
    + unfold own_run in E. destruct (sr_run s); [| |discriminate E]; destruct (read_next_run uncomp d (sr_reader s)) as [[?|?|?] ?]; try discriminate E; injection E as -> <-; reflexivity.
    + destruct (skip_events n (sr_reader s)) as [[?|?|?] ?]; discriminate E.
    + unfold own_evt in E. destruct (sr_evt s); [| |discriminate E]; destruct (read_event_at uncomp srt ignore_null d run num (sr_reader s)) as [[?|?|?] ?]; discriminate E.
    + unfold own_run in E. destruct (sr_run s); [| |discriminate E]; destruct (read_run uncomp d run (sr_reader s)) as [[?|?|?] ?]; try discriminate E; injection E as -> <-; reflexivity.
Qed.
End Keep.

(** ** Written files *)

From Verif Require Import FileStream.

Lemma streams_defined srt names : forall next W ops rs, streams srt names next W ops rs -> forall x cs, In (x, cs) rs -> forall k, x <> UB k.
Proof.
  induction 1; intros y cy Hy k; [destruct Hy| | | |]; (destruct Hy as [Hy|Hy]; [injection Hy as <- _; discriminate|eapply IHstreams; eassumption]).
Qed.
Lemma limits_forall (P : nat * Z -> Prop) ops : Forall (fun o => forall m, o = OStream m -> P (1%nat, m)) ops -> Forall P (limits ops).
Proof.
  induction 1 as [|o ops H F IH]; [constructor|]. unfold limits. cbn [flat_map]. apply Forall_app. split; [|exact IH]. destruct o; try constructor; [|constructor].
  apply H. reflexivity.
Qed.

Section Written.
Context (comp : Z -> bytes -> bytes) (uncomp : bytes -> option bytes) (srt : forall A : Type, (A -> Z) -> list A -> list A) (ignore_null : bool).
Context (change_evt : Z -> levent -> levent) (change_run : Z -> runhdr -> runhdr).

Theorem sio_listeners d files ops direct names raw cbuf mraw next :
  codec_ok comp uncomp -> files <> [] -> Forall (wf_ok comp uncomp d) files ->
  (direct = true -> match files with f :: _ => Forall (sess_covers comp) (wf_sess f) | [] => True end) ->
  Forall (fun w => readable ignore_null names (snd w)) (flat_map wf_items files) -> 0 < next ->
  Forall streaming ops -> proper ops -> Forall (fun o => forall m, o = OStream m -> 0 < m <= max_int) ops ->
  exists plain, streams srt names next (Some (flat_map wf_items files)) (limits ops) plain /\
    notified change_evt change_run [] ops plain
      (sio_program uncomp srt ignore_null change_evt change_run d (map wf_name files) ops (new_reader direct false names raw cbuf mraw next)).
Proof.
  intros Hc Hne Hok Hdir HR Hn Hst Hp Hm.
  pose proof (stream_files_spec comp uncomp srt ignore_null d files (limits ops) direct names raw cbuf mraw next Hc Hne Hok Hdir HR) as S.
  assert (H1 : Forall (fun w => Forall (fun nm => shareable names (fst nm) (snd w)) (limits ops)) (flat_map wf_items files)).
  { apply Forall_forall. intros w _. apply limits_forall. apply Forall_forall. intros o _ m _. unfold shareable. cbn [fst]. destruct (snd w); [exact I|left; lia]. }
  assert (H2 : Forall (fun nm : nat * Z => 0 < snd nm <= max_int) (limits ops)) by (apply limits_forall; exact Hm).
  specialize (S H1 H2 Hn). unfold stream_files in S. unfold sio_program, sio_open. cbn [new_sio sr_reader sr_evts sr_runs sr_evt sr_run].
  destruct (files_laid comp uncomp d files direct names raw cbuf mraw next Hc Hne Hok Hdir) as (r & O & _). rewrite O in S |- *.
  eexists. split; [exact S|]. change (run_streams uncomp srt ignore_null d (limits ops) r) with
    (run_streams uncomp srt ignore_null d (limits ops) (sr_reader (mkSR r [] [] HNull HNull))).
  apply notified_run; [exact Hst|exact Hp| |exact (streams_defined _ _ _ _ _ _ S)].
  split; [constructor|]. split; [constructor|]. split; intros l; (split; [intros []|intros (h1 & h2 & E & _); destruct h1; discriminate E]).
Qed.
End Written.

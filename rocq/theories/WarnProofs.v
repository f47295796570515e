(** * Warnings: proofs *)

From Verif Require Import Bytes StrMap EventFacts WarnModel WarnSpec.
From Coq Require Import Sorted.

(** what the map holds for a name after some calls *)
Inductive entry (calls : list wcall) (id : bytes) : option wcfg -> Prop :=
| e_none : ~ In id (map id_of calls) -> entry calls id None
| e_blank : In id (map id_of calls) -> (forall txt max, ~ declared calls id txt max) -> entry calls id (Some blank)
| e_cfg txt max : declared calls id txt max -> entry calls id (Some (mkWC txt max (if max <=? 0 then max else Z.max 0 (max - asked calls id)))).
Definition inv (calls : list wcall) (w : warnings) : Prop := sm_ok w /\ forall id, entry calls id (sm_get id w).

Lemma declared_In calls id txt max : declared calls id txt max -> In id (map id_of calls).
Proof. intros (a & b & -> & _). rewrite map_app. apply in_or_app. right. left. reflexivity. Qed.
Lemma first_unique id a : forall a' t m t' m' b b', a ++ WRegister id t m :: b = a' ++ WRegister id t' m' :: b' -> ~ In id (map id_of a) -> ~ In id (map id_of a') -> t = t' /\ m = m'.
Proof.
  induction a as [|x a IH]; intros [|y a'] t m t' m' b b' E H H'; cbn [app] in E.
  - injection E as -> -> _. auto.
  - injection E as E _. exfalso. apply H'. left. rewrite <- E. reflexivity.
  - injection E as E _. exfalso. apply H. left. rewrite E. reflexivity.
  - injection E as _ E. apply (IH _ _ _ _ _ _ _ E); intros G; [apply H|apply H']; right; exact G.
Qed.
Lemma declared_unique calls id t m t' m' : declared calls id t m -> declared calls id t' m' -> t = t' /\ m = m'.
Proof. intros (a & b & E & H) (a' & b' & E' & H'). rewrite E in E'. exact (first_unique _ _ _ _ _ _ _ _ _ E' H H'). Qed.
Lemma declared_snoc calls c id txt max : In id (map id_of calls) -> (declared (calls ++ [c]) id txt max <-> declared calls id txt max).
Proof.
  intros HI. split.
  - intros (a & b & E & H). destruct (exists_last (l := WRegister id txt max :: b)) as (b' & x & EB); [discriminate|]. rewrite EB in E. rewrite app_assoc in E.
    apply app_inj_tail in E as (E & ->). destruct b' as [|y b']; cbn [app] in EB.
    + exfalso. rewrite app_nil_r in E. subst. exact (H HI).
    + injection EB as <- EB. exists a, b'. split; [exact E|exact H].
  - intros (a & b & -> & H). exists a, (b ++ [c]). split; [rewrite <- app_assoc; reflexivity|exact H].
Qed.
Lemma declared_new calls c id txt max : ~ In id (map id_of calls) -> (declared (calls ++ [c]) id txt max <-> c = WRegister id txt max).
Proof.
  intros HN. split.
  - intros (a & b & E & H). destruct (exists_last (l := WRegister id txt max :: b)) as (b' & x & EB); [discriminate|]. rewrite EB in E. rewrite app_assoc in E.
    apply app_inj_tail in E as (E & ->). destruct b' as [|y b']; cbn [app] in EB; [injection EB as <- _; reflexivity|].
    injection EB as <- EB. exfalso. apply HN. rewrite E, map_app. apply in_or_app. right. left. reflexivity.
  - intros ->. exists calls, []. auto.
Qed.
Lemma asked_snoc calls c id : asked (calls ++ [c]) id = asked calls id + match c with WPrint i => if bytes_eqb i id then 1 else 0 | _ => 0 end.
Proof.
  unfold asked, Zlen. rewrite filter_app, app_length. cbn [filter]. destruct c as [i t m|i]; cbn [length]; [lia|]. destruct (bytes_eqb i id); cbn [length]; lia.
Qed.
Lemma asked_nonneg calls id : 0 <= asked calls id.
Proof. unfold asked, Zlen. lia. Qed.
Lemma asked_none calls id : ~ In id (map id_of calls) -> asked calls id = 0.
Proof.
  intros H. unfold asked. replace (filter _ calls) with (@nil wcall); [reflexivity|]. symmetry. induction calls as [|c l IH]; [reflexivity|]. cbn [filter].
  destruct c as [i t m|i]; [apply IH; intros G; apply H; right; exact G|]. destruct (bytes_eqb i id) eqn:E.
  - exfalso. apply H. left. apply bytes_eqb_eq. exact E.
  - apply IH. intros G. apply H. right. exact G.
Qed.
Lemma in_snoc calls c id : In id (map id_of (calls ++ [c])) <-> In id (map id_of calls) \/ id_of c = id.
Proof. rewrite map_app, in_app_iff. cbn [map]. split; intros [H|H]; auto; [destruct H as [H|[]]; auto|right; left; exact H]. Qed.

(** a call with another name *)
Lemma entry_other calls c id o : id_of c <> id -> entry calls id o -> entry (calls ++ [c]) id o.
Proof.
  intros N H. assert (A : asked (calls ++ [c]) id = asked calls id).
  { rewrite asked_snoc. destruct c as [i t m|i]; [lia|]. destruct (bytes_eqb i id) eqn:E; [apply bytes_eqb_eq in E; exfalso; exact (N E)|lia]. }
  destruct H as [H|H1 H2|txt max H].
  - apply e_none. rewrite in_snoc. intros [G|G]; [exact (H G)|exact (N G)].
  - apply e_blank; [rewrite in_snoc; left; exact H1|]. intros txt max G. apply (H2 txt max). apply (declared_snoc calls c) in G; assumption.
  - rewrite <- A. apply e_cfg. apply declared_snoc; [exact (declared_In _ _ _ _ H)|exact H].
Qed.

Lemma step_ok calls w c : inv calls w -> inv (calls ++ [c]) (fst (wstep w c)) /\ shows calls c (snd (wstep w c)).
Proof.
  intros (Hw & Hi). destruct c as [id txt max|id].
  - cbn [wstep]. unfold register. destruct (sm_get id w) as [x|] eqn:E.
    + assert (HI : In id (map id_of calls)). { specialize (Hi id). rewrite E in Hi. inversion Hi; subst; [assumption|eapply declared_In; eassumption]. }
      cbn [fst snd]. split; [|apply again_register; exact HI]. split; [exact Hw|]. intros id'. specialize (Hi id'). destruct (bytes_dec id id') as [<-|N]; [|apply entry_other; assumption].
      assert (A : asked (calls ++ [WRegister id txt max]) id = asked calls id) by (rewrite asked_snoc; lia).
      destruct Hi as [H|H1 H2|t m H]; [exfalso; exact (H HI)| |].
      * apply e_blank; [rewrite in_snoc; left; exact H1|]. intros t m G. apply (H2 t m). apply (declared_snoc calls (WRegister id txt max)) in G; [exact G|exact H1].
      * rewrite <- A. apply e_cfg. apply declared_snoc; assumption.
    + assert (HN : ~ In id (map id_of calls)). { specialize (Hi id). rewrite E in Hi. inversion Hi; subst; assumption. }
      cbn [fst snd]. split; [|apply first_register; exact HN]. split; [apply sm_set_ok; exact Hw|]. intros id'. rewrite sm_get_set by exact Hw. destruct (bytes_eqb id' id) eqn:B.
      * apply bytes_eqb_eq in B. subst id'. assert (A : asked (calls ++ [WRegister id txt max]) id = 0) by (rewrite asked_snoc, asked_none by exact HN; lia).
        replace (mkWC txt max max) with (mkWC txt max (if max <=? 0 then max else Z.max 0 (max - asked (calls ++ [WRegister id txt max]) id))).
        -- apply e_cfg. apply declared_new; [exact HN|reflexivity].
        -- rewrite A. f_equal. destruct (max <=? 0) eqn:M; lia.
      * apply bytes_eqb_neq in B. apply entry_other; [cbn [id_of]; congruence|apply Hi].
  - cbn [wstep]. unfold print. cbv zeta.
    assert (A : asked (calls ++ [WPrint id]) id = asked calls id + 1) by (rewrite asked_snoc, bytes_eqb_refl; reflexivity).
    pose proof (asked_nonneg calls id) as A0.
    assert (REST : forall x, inv (calls ++ [WPrint id]) (sm_set id x w) <-> entry (calls ++ [WPrint id]) id (Some x)).
    { intros x. split.
      - intros (_ & G). specialize (G id). rewrite sm_get_set, bytes_eqb_refl in G by exact Hw. exact G.
      - intros G. split; [apply sm_set_ok; exact Hw|]. intros id'. rewrite sm_get_set by exact Hw. destruct (bytes_eqb id' id) eqn:B.
        + apply bytes_eqb_eq in B. subst id'. exact G.
        + apply bytes_eqb_neq in B. apply entry_other; [cbn [id_of]; congruence|apply Hi]. }
    pose proof (Hi id) as H0. inversion H0 as [HN E|HI HD E|txt max HD E]; clear H0.
    + change (wc_left blank) with 0. change (0 <=? 0) with true. cbv iota. cbn [fst snd]. split.
      * apply REST. apply e_blank; [rewrite in_snoc; right; reflexivity|]. intros t m G. pose proof (proj1 (declared_new calls _ id t m HN) G) as Q. discriminate Q.
      * apply unknown_print. intros t m G. apply HN. exact (declared_In _ _ _ _ G).
    + change (wc_left blank) with 0. change (0 <=? 0) with true. cbv iota. cbn [fst snd]. split.
      * apply REST. apply e_blank; [rewrite in_snoc; left; exact HI|]. intros t m G. exact (HD t m (proj1 (declared_snoc calls _ id t m HI) G)).
      * apply unknown_print. exact HD.
    + cbn [wc_left wc_txt wc_max]. assert (HD' : declared (calls ++ [WPrint id]) id txt max) by (apply declared_snoc; [exact (declared_In _ _ _ _ HD)|exact HD]).
      pose proof (e_cfg _ _ _ _ HD') as EN. rewrite A in EN. set (left := if max <=? 0 then max else Z.max 0 (max - asked calls id)) in *.
      destruct (left <=? 0) eqn:L; cbn [fst snd].
      * split; [|apply (over_print _ _ txt max HD); unfold left in L; destruct (max <=? 0) eqn:M; lia].
        apply REST. replace left with (if max <=? 0 then max else Z.max 0 (max - (asked calls id + 1))); [exact EN|]. unfold left in *. destruct (max <=? 0); lia.
      * assert (M : 0 < max /\ left = max - asked calls id) by (unfold left in *; destruct (max <=? 0) eqn:M; lia). destruct M as (M & EL). split.
        -- apply REST. replace (left - 1) with (if max <=? 0 then max else Z.max 0 (max - (asked calls id + 1))); [exact EN|]. destruct (max <=? 0) eqn:M'; lia.
        -- destruct (1 <? left) eqn:L1; [|apply (last_print _ _ txt max HD); lia].
           replace (left - 1) with (max - 1 - asked calls id) by lia. apply more_print; [exact HD|lia].
Qed.

Lemma run_ok l : forall calls w w' outs, inv calls w -> wrun w l = (w', outs) -> inv (calls ++ l) w' /\ all_show calls l outs.
Proof.
  induction l as [|c l IH]; intros calls w w' outs H E; cbn [wrun] in E.
  - injection E as <- <-. rewrite app_nil_r. split; [exact H|exact I].
  - destruct (step_ok calls w c H) as (H1 & S1). destruct (wstep w c) as [w1 o]. destruct (wrun w1 l) as [w2 os] eqn:E2. injection E as <- <-. cbn [fst snd] in *.
    destruct (IH _ _ _ _ H1 E2) as (H2 & S2). rewrite <- app_assoc in H2. split; [exact H2|]. split; [exact S1|exact S2].
Qed.
Lemma inv_start : inv [] [].
Proof. split; [apply sm_ok_nil|]. intros id. apply e_none. exact (fun G => G). Qed.

(** the texts at the end *)
Definition due (w : warnings) : list (bytes * bytes) :=
  map (fun x => (fst x, wc_txt (snd x))) (filter (fun x => negb (wc_max (snd x) =? wc_left (snd x))) w).
Lemma wclose_due w : forall first, wclose w first = match due w with [] => [] | l => (if first then [WHeading] else []) ++ map (fun x => WEnd (snd x)) l end.
Proof.
  unfold due. induction w as [|(k, c) w IH]; intros first; cbn [wclose filter]; [reflexivity|]. cbn [snd]. destruct (wc_max c =? wc_left c); cbn [negb].
  - apply IH.
  - cbn [map fst snd]. rewrite IH. f_equal. f_equal. destruct (map _ _); reflexivity.
Qed.
Lemma due_sorted w : sm_ok w -> StronglySorted str_lt (map fst (due w)).
Proof.
  unfold due, sm_ok, sm_keys. induction w as [|(k, c) w IH]; cbn [filter map fst]; intros H; [constructor|]. inversion H as [|? ? H1 H2]; subst. specialize (IH H1).
  destruct (negb _); [|exact IH]. cbn [map fst]. constructor; [exact IH|]. rewrite Forall_forall in *. intros x Hx. apply H2.
  apply in_map_iff in Hx as (y & <- & Hy). apply in_map_iff in Hy as (z & <- & Hz). apply filter_In in Hz as (Hz & _). cbn [fst]. apply in_map. exact Hz.
Qed.
Lemma due_In calls w id txt : inv calls w -> (In (id, txt) (due w) <-> was_shown calls id txt).
Proof.
  intros (Hw & Hi). unfold due. rewrite in_map_iff. split.
  - intros ((k, c) & E & H). cbn [fst snd] in E. injection E as -> <-. apply filter_In in H as (H & N). cbn [snd] in N. apply sm_get_In in H; [|exact Hw].
    specialize (Hi id). rewrite H in Hi. inversion Hi as [|HI HD EB|t m HD EC]; subst; [discriminate N|]. cbn [wc_max wc_left wc_txt] in *.
    exists m. split; [exact HD|]. pose proof (asked_nonneg calls id). destruct (m <=? 0) eqn:M; lia.
  - intros (max & HD & HM & HA). specialize (Hi id). inversion Hi as [HN E|HI HD' E|t m HD' E].
    + exfalso. apply HN. exact (declared_In _ _ _ _ HD).
    + exfalso. exact (HD' _ _ HD).
    + destruct (declared_unique _ _ _ _ _ _ HD HD') as (<- & <-). symmetry in E. eexists. split; [|apply filter_In; split; [apply sm_get_In; [exact Hw|exact E]|]]; [reflexivity|].
      cbn [snd wc_max wc_left]. destruct (max <=? 0) eqn:M; lia.
Qed.

Lemma warned calls w outs : wrun [] calls = (w, outs) -> all_show [] calls outs /\
  exists l, (wclose w true = match l with [] => [] | _ => WHeading :: map (fun x => WEnd (snd x)) l end) /\ StronglySorted str_lt (map fst l) /\
    forall id txt, In (id, txt) l <-> was_shown calls id txt.
Proof.
  intros E. destruct (run_ok calls [] [] w outs inv_start E) as (H & S). cbn [app] in H. split; [exact S|]. exists (due w). split; [rewrite wclose_due; destruct (due w); reflexivity|].
  split; [apply due_sorted; apply H|]. intros id txt. apply due_In. exact H.
Qed.

(** how often a warning is shown *)
Definition times (id : bytes) (l : list wcall) (outs : list (Res (list wshow))) : Z :=
  Zlen (filter (fun x => match x with (WPrint i, Ok (_ :: _)) => bytes_eqb i id | _ => false end) (combine l outs)).
Lemma times_ok id txt max : forall l before outs, all_show before l outs -> declared before id txt max ->
  times id l outs = Z.min (asked l id) (Z.max 0 (max - asked before id)).
Proof.
  induction l as [|c l IH]; intros before [|o outs] H HD; cbn [all_show] in H; try contradiction.
  - change (times id [] []) with 0. change (asked [] id) with 0. lia.
  - destruct H as (S & H). assert (HD' : declared (before ++ [c]) id txt max) by (apply declared_snoc; [exact (declared_In _ _ _ _ HD)|exact HD]).
    specialize (IH _ _ H HD'). rewrite asked_snoc in IH. pose proof (asked_nonneg l id) as N1. pose proof (asked_nonneg before id) as N2.
    assert (AC : asked (c :: l) id = asked l id + match c with WPrint i => if bytes_eqb i id then 1 else 0 | _ => 0 end).
    { unfold asked. cbn [filter]. destruct c as [i t m|i]; [lia|]. destruct (bytes_eqb i id); [|lia]. unfold Zlen. cbn [length]. lia. }
    assert (TC : times id (c :: l) (o :: outs) = times id l outs + match c, o with WPrint i, Ok (_ :: _) => if bytes_eqb i id then 1 else 0 | _, _ => 0 end).
    { unfold times. cbn [combine filter]. destruct c as [i t m|i]; [lia|]. destruct o as [[|x o]| |]; try lia. destruct (bytes_eqb i id); [|lia]. unfold Zlen. cbn [length]. lia. }
    rewrite TC, AC, IH. destruct c as [i t m|i]; [lia|]. destruct (bytes_eqb i id) eqn:B.
    + apply bytes_eqb_eq in B. subst i. inversion S as [| |i HU E1 E2|i t m D L E1 E2|i t m D L E1 E2|i t m D L E1 E2].
      * exfalso. exact (HU _ _ HD).
      * destruct (declared_unique _ _ _ _ _ _ HD D) as (_ & EM). lia.
      * destruct (declared_unique _ _ _ _ _ _ HD D) as (_ & EM). lia.
      * destruct (declared_unique _ _ _ _ _ _ HD D) as (_ & EM). lia.
    + destruct o as [[|x o]| |]; lia.
Qed.

(** * The process of an event: proofs *)

From Verif Require Import Bytes SioModel ObjModel FlagModel FlagSpec FlagProofs ProcModel ProcSpec.

(** ** Looking up particles *)

Lemma mc_at_found h a o : mc_at h a = Ok o <-> found h a o.
Proof.
  induction h as [|[b x] h IH]; cbn [mc_at].
  - split; [discriminate|]. intros (l1 & l2 & E & _). destruct l1; discriminate E.
  - destruct (b =? a) eqn:B.
    + replace b with a by lia. split.
      * intros H. injection H as ->. exists [], h. split; [reflexivity|]. intros y [].
      * intros ([|y l1] & l2 & E & N); [injection E as ->; reflexivity|]. injection E as <- ->. destruct (N (a, x) (or_introl eq_refl)). reflexivity.
    + rewrite IH. split.
      * intros (l1 & l2 & -> & N). exists ((b, x) :: l1), l2. split; [reflexivity|]. intros y [<-|Hy]; [cbn; lia|exact (N y Hy)].
      * intros ([|y l1] & l2 & E & N); [injection E as -> _ _; lia|]. injection E as <- ->. exists l1, l2. split; [reflexivity|]. intros z Hz. apply N. right. exact Hz.
Qed.
Lemma mc_at_cases h a : (exists o, mc_at h a = Ok o) \/ mc_at h a = UB UBNullDeref.
Proof. induction h as [|[b x] h IH]; cbn [mc_at]; [auto|]. destruct (b =? a); [left; eexists; reflexivity|exact IH]. Qed.
Lemma found_fun h a o o' : found h a o -> found h a o' -> o = o'.
Proof. rewrite <- !mc_at_found. congruence. Qed.
Lemma found_key h a o : found h a o -> In a (map fst h).
Proof. intros (l1 & l2 & -> & _). rewrite map_app. apply in_app_iff. right. left. reflexivity. Qed.
Lemma int_abs_ok x v : int_abs x = Ok v -> v = Z.abs x.
Proof. unfold int_abs. destruct (x =? - two31); [discriminate|]. congruence. Qed.

(** ** The hard final state *)

Lemma scan_spec h l : forall n r k, scan h l n = Ok (r, k) ->
  match r with
  | Some ds => exists l1 a l2 os o, l = l1 ++ a :: l2 /\ those h l1 os /\ Forall (fun o => mc_gen o <> 3) os /\ found h a o /\ mc_gen o = 3 /\ ds = mc_daughters o
  | None => exists os, those h l os /\ Forall (fun o => mc_gen o <> 3) os /\ k = n + Z.of_nat (orphans os)
  end.
Proof.
  induction l as [|a l IH]; intros n r k; cbn [scan].
  - intros H. injection H as <- <-. exists []. split; [constructor|]. split; [constructor|]. cbn. lia.
  - destruct (mc_at h a) as [o| |] eqn:E; [|discriminate..]. cbn [bind]. apply mc_at_found in E. destruct (mc_gen o =? 3) eqn:B.
    + intros H. injection H as <- <-. exists [], a, l, [], o. split; [reflexivity|]. split; [constructor|]. split; [constructor|]. split; [exact E|]. split; [lia|reflexivity].
    + intros H. specialize (IH _ _ _ H). destruct r as [ds|].
      * destruct IH as (l1 & b & l2 & os & ob & -> & T & G & F & G3 & D). exists (a :: l1), b, l2, (o :: os), ob. split; [reflexivity|]. split; [constructor; assumption|]. split; [constructor; [lia|exact G]|]. auto.
      * destruct IH as (os & T & G & ->). exists (o :: os). split; [constructor; assumption|]. split; [constructor; [lia|exact G]|].
        unfold orphans. cbn [filter]. unfold orphan at 2. destruct (mc_parents o); cbn [length]; lia.
Qed.
Lemma find_wide_spec h l : forall r, find_wide h l = Ok r ->
  match r with
  | Some ds => exists l1 d l2 os od, l = l1 ++ d :: l2 /\ those h l1 os /\ Forall (fun o => Zlen (mc_daughters o) <= 1) os /\ found h d od /\ 1 < Zlen (mc_daughters od) /\ ds = mc_daughters od
  | None => exists os, those h l os /\ Forall (fun o => Zlen (mc_daughters o) <= 1) os
  end.
Proof.
  induction l as [|a l IH]; intros r; cbn [find_wide].
  - intros H. injection H as <-. exists []. split; constructor.
  - destruct (mc_at h a) as [o| |] eqn:E; [|discriminate..]. cbn [bind]. apply mc_at_found in E. destruct (1 <? Zlen (mc_daughters o)) eqn:B.
    + intros H. injection H as <-. exists [], a, l, [], o. split; [reflexivity|]. split; [constructor|]. split; [constructor|]. split; [exact E|]. split; [lia|reflexivity].
    + intros H. specialize (IH _ H). destruct r as [ds|].
      * destruct IH as (l1 & b & l2 & os & ob & -> & T & G & F & G3 & D). exists (a :: l1), b, l2, (o :: os), ob. split; [reflexivity|]. split; [constructor; assumption|]. split; [constructor; [lia|exact G]|]. auto.
      * destruct IH as (os & T & G). exists (o :: os). split; [constructor; assumption|constructor; [lia|exact G]].
Qed.
Lemma np_firstn (elems : list addr) max : firstn (Z.to_nat (if Zlen elems <? max then Zlen elems else max)) elems = firstn (Z.to_nat max) elems.
Proof. destruct (Zlen elems <? max) eqn:B; [|reflexivity]. rewrite !firstn_all2; [reflexivity| |]; unfold Zlen in *; lia. Qed.
Lemma hard_state_hard h elems max icase hf : hard_state h elems max = Ok (icase, hf) -> hard h elems max icase hf.
Proof.
  unfold hard_state. rewrite np_firstn. destruct (scan h (firstn (Z.to_nat max) elems) 0) as [[r n]| |] eqn:E; [|discriminate..]. cbn [bind]. apply scan_spec in E. destruct r as [ds|].
  - intros H. injection H as <- <-. destruct E as (l1 & a & l2 & os & o & E & T & G & F & G3 & ->). econstructor; eauto.
  - destruct E as (os & T & G & En). cbn in En. destruct (2 <? n) eqn:B2.
    + intros H. injection H as <- <-. replace (Z.to_nat n) with (orphans os) by lia. apply hard_no_beam; [exact T|exact G|lia].
    + destruct (n =? 2) eqn:B1; [|intros H; injection H as <- <-; apply (hard_none h elems max os); [exact T|exact G|lia]].
      destruct elems as [|a elems']; [discriminate|]. destruct (mc_at h a) as [o| |] eqn:Ea; [|discriminate..]. cbn [bind]. apply mc_at_found in Ea.
      destruct (find_wide h (mc_daughters o)) as [w| |] eqn:Ew; [|discriminate..]. cbn [bind]. apply find_wide_spec in Ew. destruct w as [ds|]; intros H; injection H as <- <-.
      * destruct Ew as (l1 & d & l2 & ds' & od & Ed & T' & G' & F' & W & ->). eapply hard_beam; eauto. lia.
      * destruct Ew as (ds' & T' & G'). eapply hard_beam_none; eauto. lia.
Qed.
(** the particles without parents, if they come first *)
Lemma orphans_first h elems os : those h elems os -> forall k, Forall (fun o => orphan o = true) (firstn k os) -> Forall (fun o => orphan o = false) (skipn k os) ->
  firstn (orphans os) elems = map fst (filter (fun x => orphan (snd x)) (combine elems os)).
Proof.
  intros T. induction T as [|a o elems os F T IH]; intros k H1 H2; [reflexivity|]. destruct k as [|k].
  - cbn [firstn skipn] in *. assert (N : filter orphan (o :: os) = []).
    { clear -H2. induction (o :: os) as [|x l IH]; [reflexivity|]. inversion H2; subst. cbn [filter]. rewrite H1. apply IH. exact H3. }
    unfold orphans. rewrite N. cbn [length firstn]. symmetry. assert (forall (e : list addr) l, filter orphan l = [] -> filter (fun x : addr * mcp => orphan (snd x)) (combine e l) = []) as K.
    { induction e as [|y e IHe]; intros [|z l] Hl; cbn [combine filter]; try reflexivity. cbn [filter snd] in *. destruct (orphan z); [discriminate|]. apply IHe. exact Hl. }
    rewrite (K (a :: elems) (o :: os) N). reflexivity.
  - cbn [firstn skipn] in *. inversion H1 as [|x y Ho Hk]; subst. unfold orphans in *. cbn [filter combine snd]. rewrite Ho. cbn [length firstn map fst]. f_equal. exact (IH k Hk H2).
Qed.

(** ** Chains of Higgs bosons *)

Lemma next_higgs_fun h o o1 o2 : next_higgs h o o1 -> next_higgs h o o2 -> o1 = o2.
Proof. intros (d & E & F & _) (d' & E' & F' & _). rewrite E in E'. injection E' as <-. exact (found_fun _ _ _ _ F F'). Qed.
Lemma chase_ok h f : forall o o', chase f h o = Ok o' -> exists n, steps h n o o' /\ forall o2, ~ next_higgs h o' o2.
Proof.
  induction f as [|f IH]; intros o o'; cbn [chase].
  - destruct (mc_daughters o) as [|d [|d2 l]] eqn:Ed.
    1, 3: intros H; injection H as <-; exists 0%nat; (split; [reflexivity|]); intros o2 (x & E & _); rewrite Ed in E; discriminate E.
    destruct (mc_at h d) as [od| |] eqn:E; [|discriminate..]. cbn [bind]. destruct (int_abs (mc_pdg od)) as [p| |] eqn:Ep; [|discriminate..]. cbn [bind]. apply mc_at_found in E. apply int_abs_ok in Ep.
    destruct (p =? 25) eqn:B; [discriminate|]. intros H. injection H as <-. exists 0%nat. split; [reflexivity|]. intros o2 (x & Ex & Fx & Px). rewrite Ed in Ex. injection Ex as <-. rewrite (found_fun _ _ _ _ Fx E) in Px. lia.
  - destruct (mc_daughters o) as [|d [|d2 l]] eqn:Ed.
    1, 3: intros H; injection H as <-; exists 0%nat; (split; [reflexivity|]); intros o2 (x & E & _); rewrite Ed in E; discriminate E.
    destruct (mc_at h d) as [od| |] eqn:E; [|discriminate..]. cbn [bind]. destruct (int_abs (mc_pdg od)) as [p| |] eqn:Ep; [|discriminate..]. cbn [bind]. apply mc_at_found in E. apply int_abs_ok in Ep.
    destruct (p =? 25) eqn:B.
    + intros H. destruct (IH _ _ H) as (n & HS & N). exists (S n). split; [|exact N]. exists od. split; [|exact HS]. exists d. split; [exact Ed|]. split; [exact E|lia].
    + intros H. injection H as <-. exists 0%nat. split; [reflexivity|]. intros o2 (x & Ex & Fx & Px). rewrite Ed in Ex. injection Ex as <-. rewrite (found_fun _ _ _ _ Fx E) in Px. lia.
Qed.
(** a run of the chase that does not end within [f] steps *)
Fixpoint trail (h : list (addr * mcp)) (o : mcp) (l : list addr) : Prop :=
  match l with
  | [] => True
  | d :: l' => mc_daughters o = [d] /\ exists o', found h d o' /\ Z.abs (mc_pdg o') = 25 /\ trail h o' l'
  end.
Lemma chase_diverges h f : forall o, chase f h o = UB UBDiverge -> exists l, length l = S f /\ trail h o l.
Proof.
  induction f as [|f IH]; intros o; cbn [chase]; (destruct (mc_daughters o) as [|d [|d2 l]] eqn:Ed; [discriminate| |discriminate]);
    (destruct (mc_at_cases h d) as [(od & E)|E]; rewrite E; [|discriminate]); cbn [bind]; unfold int_abs; (destruct (mc_pdg od =? - two31); [discriminate|]); cbn [bind];
    (destruct (Z.abs (mc_pdg od) =? 25) eqn:B; [|discriminate]); apply mc_at_found in E.
  - intros _. exists [d]. split; [reflexivity|]. split; [exact Ed|]. exists od. split; [exact E|]. split; [lia|exact Logic.I].
  - intros H. destruct (IH _ H) as (l & L & T). exists (d :: l). split; [cbn; lia|]. split; [exact Ed|]. exists od. split; [exact E|]. split; [lia|exact T].
Qed.
Lemma trail_steps h l : forall o, trail h o l -> exists o', steps h (length l) o o'.
Proof.
  induction l as [|d l IH]; intros o; cbn [trail length steps]; [intros _; exists o; reflexivity|]. intros (Ed & o1 & F & P & T). destruct (IH _ T) as (o' & HS). exists o', o1. split; [|exact HS]. exists d. auto.
Qed.
Lemma trail_app h l1 : forall o d l2, trail h o (l1 ++ d :: l2) -> exists o', found h d o' /\ Z.abs (mc_pdg o') = 25 /\ steps h (S (length l1)) o o' /\ trail h o' l2.
Proof.
  induction l1 as [|x l1 IH]; intros o d l2; cbn [app trail].
  - intros (Ed & o1 & F & P & T). exists o1. split; [exact F|]. split; [exact P|]. split; [|exact T]. exists o1. split; [exists d; auto|reflexivity].
  - intros (Ed & o1 & F & P & T). destruct (IH _ _ _ T) as (o' & F' & P' & HS & T'). exists o'. split; [exact F'|]. split; [exact P'|]. split; [|exact T']. cbn [length]. exists o1. split; [exists x; auto|exact HS].
Qed.
Lemma trail_keys h l : forall o, trail h o l -> incl l (map fst h).
Proof. induction l as [|d l IH]; intros o; [intros _ x []|]. intros (Ed & o1 & F & P & T) x [<-|Hx]; [exact (found_key _ _ _ F)|exact (IH _ T x Hx)]. Qed.
Lemma steps_trans h n : forall m o o1 o2, steps h n o o1 -> steps h m o1 o2 -> steps h (n + m) o o2.
Proof. induction n as [|n IH]; intros m o o1 o2; cbn [steps plus]; [intros ->; auto|]. intros (x & N & HS) S2. exists x. split; [exact N|]. exact (IH _ _ _ _ HS S2). Qed.
Lemma steps_prefix h n : forall m o o', (n <= m)%nat -> steps h m o o' -> exists o1, steps h n o o1.
Proof.
  induction n as [|n IH]; intros m o o' Hm HS; [exists o; reflexivity|]. destruct m as [|m]; [lia|]. destruct HS as (x & N & HS). destruct (IH m x o' ltac:(lia) HS) as (o1 & S1). exists o1, x. auto.
Qed.
Lemma loop_forever h k o : (0 < k)%nat -> steps h k o o -> forall n, exists o', steps h n o o'.
Proof.
  intros Hk HS n. assert (forall m, steps h (m * k) o o) as L. { induction m as [|m IH]; [reflexivity|]. cbn [Nat.mul]. eapply steps_trans; [exact HS|exact IH]. }
  eapply steps_prefix; [|exact (L n)]. nia.
Qed.
Lemma repeated (l : list Z) : ~ NoDup l -> exists a l1 l2 l3, l = l1 ++ a :: l2 ++ a :: l3.
Proof.
  induction l as [|x l IH]; intros H; [destruct H; constructor|]. destruct (in_dec Z.eq_dec x l) as [Hx|Hx].
  - apply in_split in Hx. destruct Hx as (l2 & l3 & ->). exists x, [], l2, l3. reflexivity.
  - destruct IH as (a & l1 & l2 & l3 & ->); [intros N; apply H; constructor; assumption|]. exists a, (x :: l1), l2, l3. reflexivity.
Qed.
(** if the loop makes more steps than there are particles, it never ends *)
Theorem chase_forever h o : chase (length h) h o = UB UBDiverge <-> (forall n, exists o', steps h n o o').
Proof.
  split.
  - intros H. destruct (chase_diverges _ _ _ H) as (l & L & T).
    assert (~ NoDup l) as ND. { intros N. pose proof (NoDup_incl_length N (trail_keys _ _ _ T)) as K. rewrite map_length in K. lia. }
    apply repeated in ND. destruct ND as (d & l1 & l2 & l3 & ->).
    destruct (trail_app h l1 o d (l2 ++ d :: l3) T) as (o1 & F1 & P1 & S1 & T1). destruct (trail_app h l2 o1 d l3 T1) as (o2 & F2 & P2 & S2 & T2). rewrite (found_fun _ _ _ _ F2 F1) in S2.
    intros n. destruct (loop_forever h (S (length l2)) o1 ltac:(lia) S2 n) as (o' & S'). eapply steps_prefix; [|exact (steps_trans _ _ _ _ _ _ S1 S')]. lia.
  - generalize (length h). intros f. revert o. induction f as [|f IH]; intros o H; cbn [chase].
    + destruct (H 1%nat) as (o' & o1 & (d & -> & F & P) & _). rewrite (proj2 (mc_at_found _ _ _) F). cbn [bind]. unfold int_abs. replace (mc_pdg o1 =? - two31) with false by (unfold two31; lia). cbn [bind].
      replace (Z.abs (mc_pdg o1) =? 25) with true by lia. reflexivity.
    + destruct (H 1%nat) as (o' & o1 & (d & Ed & F & P) & _). assert (H1 : forall n, exists o', steps h n o1 o').
      { intros n. destruct (H (S n)) as (o2 & o3 & N & HS). exists o2. rewrite (next_higgs_fun h o o1 o3 ltac:(exists d; auto) N). exact HS. }
      rewrite Ed, (proj2 (mc_at_found _ _ _) F). cbn [bind]. unfold int_abs. replace (mc_pdg o1 =? - two31) with false by (unfold two31; lia). cbn [bind].
      replace (Z.abs (mc_pdg o1) =? 25) with true by lia. exact (IH _ H1).
Qed.

(** ** Counting *)

Fixpoint value (c : Z) (m : list (Z * Z)) : Z := match m with [] => 0 | (p, n) :: m' => if p =? c then n else value c m' end.
Lemma value_bump c p n m : value c (bump p n m) = value c m + (if p =? c then n else 0).
Proof.
  induction m as [|[q k] m IH]; cbn [bump value]; [destruct (p =? c); lia|]. destruct (q =? p) eqn:B; cbn [value].
  - replace q with p by lia. destruct (p =? c); lia.
  - rewrite IH. destruct (q =? c) eqn:C; [|lia]. replace (p =? c) with false by lia. lia.
Qed.
Lemma bump_keys p n m x : In x (map fst (bump p n m)) <-> In x (map fst m) \/ x = p.
Proof.
  induction m as [|[q k] m IH]; cbn [bump map fst In]; [intuition congruence|]. destruct (q =? p) eqn:B; cbn [map fst In]; [|rewrite IH; tauto]. replace q with p by lia. intuition congruence.
Qed.
Lemma bump_nodup p n m : NoDup (map fst m) -> NoDup (map fst (bump p n m)).
Proof.
  induction m as [|[q k] m IH]; cbn [bump map fst]; intros H; [constructor; [intros []|constructor]|]. inversion H; subst. destruct (q =? p) eqn:B; cbn [map fst]; constructor; auto.
  intros K. apply bump_keys in K. destruct K as [K|K]; [contradiction|lia].
Qed.
Lemma value_in m : NoDup (map fst m) -> forall p n, In (p, n) m -> value p m = n.
Proof.
  induction m as [|[q k] m IH]; intros H p n; [intros []|]. inversion H; subst. cbn [value]. intros [K|K].
  - injection K as -> ->. rewrite Z.eqb_refl. reflexivity.
  - destruct (q =? p) eqn:B; [|exact (IH H3 p n K)]. exfalso. apply H2. replace q with p by lia. apply (in_map fst) in K. exact K.
Qed.
Lemma value_positive m c : 0 < value c m -> In (c, value c m) m.
Proof. induction m as [|[q k] m IH]; cbn [value]; [lia|]. destruct (q =? c) eqn:B; intros H; [left; f_equal; lia|right; exact (IH H)]. Qed.

(** the decay that counts, as computed *)
Fixpoint last_pair (ds : list (Z * option Z)) (x : Z * Z) : Z * Z :=
  match ds with [] => x | (a, b) :: ds' => last_pair ds' (a, match b with Some b => b | None => snd x end) end.
Lemma last_pair_app ds d x : last_pair (ds ++ [d]) x = (fst d, match snd d with Some b => b | None => snd (last_pair ds x) end).
Proof. revert x. induction ds as [|[a b] ds IH]; intros x; cbn [app last_pair]; [destruct d; reflexivity|]. apply IH. Qed.
Lemma last_pair_decay ds : ds <> [] -> last_decay ds (fst (last_pair ds (0, 0))) (snd (last_pair ds (0, 0))).
Proof.
  induction ds as [|d ds IH] using rev_ind; [contradiction|]. intros _. rewrite last_pair_app. cbn [fst snd]. split; [exists ds, (snd d); destruct d; reflexivity|]. destruct d as [a [b|]]; cbn [snd].
  - right. exists ds, a, []. split; [reflexivity|constructor].
  - destruct ds as [|d0 ds0] eqn:Eds; [left; split; [reflexivity|repeat constructor]|]. rewrite <- Eds in *. destruct (IH ltac:(rewrite Eds; discriminate)) as (_ & [[E F]|(l1 & x & l2 & E & F)]).
    + left. split; [exact E|]. apply Forall_app. split; [exact F|repeat constructor].
    + right. exists l1, x, (l2 ++ [(a, None)]). split; [rewrite E at 1; rewrite <- app_assoc; reflexivity|]. apply Forall_app. split; [exact F|repeat constructor].
Qed.
Lemma last_decay_fun ds d0 d1 e0 e1 : last_decay ds d0 d1 -> last_decay ds e0 e1 -> d0 = e0 /\ d1 = e1.
Proof.
  intros ((l & y & E) & A) ((l' & y' & E') & B). split; [rewrite E in E'; apply app_inj_tail in E'; destruct E' as [_ E']; congruence|]. clear l y E l' y' E'.
  assert (SPLIT : forall l1 x (d : Z) l2, ds = l1 ++ (x, Some d) :: l2 -> Forall (fun d => snd d = None) ds -> False).
  { intros l1 x d l2 -> F. apply Forall_app in F. destruct F as [_ F]. inversion F; subst. discriminate. }
  destruct A as [[-> A]|(l1 & x & l2 & E & A)]; destruct B as [[-> B]|(l1' & x' & l2' & E' & B)]; [reflexivity|destruct (SPLIT _ _ _ _ E' A)|destruct (SPLIT _ _ _ _ E B)|].
  rewrite E in E'. clear E SPLIT. revert l1' E'. induction l1 as [|z l1 IH]; intros [|z' l1'] E'; cbn [app] in E'.
  - congruence.
  - injection E' as <- E'. exfalso. rewrite E' in A. apply Forall_app in A. destruct A as [_ A]. inversion A; subst. discriminate.
  - injection E' as -> E'. exfalso. rewrite <- E' in B. apply Forall_app in B. destruct B as [_ B]. inversion B; subst. discriminate.
  - injection E' as -> E'. exact (IH _ E').
Qed.

Lemma count_one_spec h a s s' : count_one h a s = Ok s' -> exists o, found h a o /\ ps_count s' = bump (Z.abs (mc_pdg o)) 1 (ps_count s) /\
  ((Z.abs (mc_pdg o) <> 25 /\ ps_higgs s' = ps_higgs s /\ ps_d0 s' = ps_d0 s /\ ps_d1 s' = ps_d1 s) \/
   (Z.abs (mc_pdg o) = 25 /\ exists d, decays h o d /\ ps_higgs s' = true /\ ps_d0 s' = fst d /\ ps_d1 s' = match snd d with Some x => x | None => ps_d1 s end)).
Proof.
  unfold count_one. destruct (mc_at h a) as [o| |] eqn:Ea; [|discriminate..]. cbn [bind]. destruct (int_abs (mc_pdg o)) as [p| |] eqn:Ep; [|discriminate..]. cbn [bind]. cbv zeta.
  apply mc_at_found in Ea. apply int_abs_ok in Ep. subst p. destruct (Z.abs (mc_pdg o) =? 25) eqn:B.
  - destruct (chase (length h) h o) as [o'| |] eqn:Ec; [|discriminate..]. cbn [bind]. destruct (chase_ok _ _ _ _ Ec) as (n & HS & N). destruct (mc_daughters o') as [|d0 l] eqn:Ed; [discriminate|].
    destruct (mc_at h d0) as [o0| |] eqn:E0; [|discriminate..]. cbn [bind]. apply mc_at_found in E0. destruct l as [|d1 l].
    + intros H. injection H as <-. exists o. split; [exact Ea|]. split; [reflexivity|]. right. split; [lia|]. exists (mc_pdg o0, None). split; [|cbn; auto]. exists n, o'. split; [exact HS|]. split; [exact N|].
      exists d0, [], o0. split; [exact Ed|]. split; [exact E0|]. split; reflexivity.
    + destruct (mc_at h d1) as [o1| |] eqn:E1; [|discriminate..]. cbn [bind]. apply mc_at_found in E1. intros H. injection H as <-. exists o. split; [exact Ea|]. split; [reflexivity|]. right. split; [lia|].
      exists (mc_pdg o0, Some (mc_pdg o1)). split; [|cbn; auto]. exists n, o'. split; [exact HS|]. split; [exact N|]. exists d0, (d1 :: l), o0. split; [exact Ed|]. split; [exact E0|]. split; [reflexivity|]. exists d1, l, o1. auto.
  - intros H. injection H as <-. exists o. split; [exact Ea|]. split; [reflexivity|]. left. split; [lia|auto].
Qed.
Lemma count_all_spec h l : forall s s', count_all h l s = Ok s' -> exists os ds, those h l os /\ all_decays h os ds /\
  (forall c, value c (ps_count s') = value c (ps_count s) + occurs c (map (fun o => Z.abs (mc_pdg o)) os)) /\
  (NoDup (map fst (ps_count s)) -> NoDup (map fst (ps_count s'))) /\
  ps_higgs s' = ps_higgs s || match ds with [] => false | _ => true end /\ (ps_d0 s', ps_d1 s') = last_pair ds (ps_d0 s, ps_d1 s).
Proof.
  induction l as [|a l IH]; intros s s'; cbn [count_all].
  - intros H. injection H as <-. exists [], []. split; [constructor|]. split; [constructor|]. split; [intros c; cbn; lia|]. split; [auto|]. split; [rewrite orb_false_r; reflexivity|reflexivity].
  - destruct (count_one h a s) as [s1| |] eqn:E; [|discriminate..]. cbn [bind]. intros H. destruct (count_one_spec _ _ _ _ E) as (o & F & C & K). destruct (IH _ _ H) as (os & ds & T & A & V & N & Hh & Hd).
    assert (V' : forall c, value c (ps_count s') = value c (ps_count s) + occurs c (map (fun o => Z.abs (mc_pdg o)) (o :: os))).
    { intros c. rewrite V, C, value_bump. unfold occurs. cbn [map count_occ]. destruct (Z.eq_dec (Z.abs (mc_pdg o)) c) as [->|Hn]; [rewrite Z.eqb_refl; lia|]. replace (Z.abs (mc_pdg o) =? c) with false by lia. lia. }
    assert (N' : NoDup (map fst (ps_count s)) -> NoDup (map fst (ps_count s'))) by (intros X; apply N; rewrite C; apply bump_nodup; exact X).
    destruct K as [(P & K1 & K2 & K3)|(P & d & D & K1 & K2 & K3)].
    + exists (o :: os), ds. split; [constructor; assumption|]. split; [apply ad_other; assumption|]. split; [exact V'|]. split; [exact N'|]. split; [congruence|congruence].
    + exists (o :: os), (d :: ds). split; [constructor; assumption|]. split; [apply ad_higgs; assumption|]. split; [exact V'|]. split; [exact N'|].
      split; [rewrite Hh, K1; destruct ds; rewrite ?orb_true_r; reflexivity|]. rewrite Hd, K2, K3. destruct d as [x y]. reflexivity.
Qed.

(** ** The bits of the flag *)

Definition on (w : Z) (b : pf) : Prop := Z.testbit w (pf_index b) = true.
Lemma pf_add_on w p : is_i32 w -> exists w', pf_add w p = Ok w' /\ is_i32 w' /\ forall b, on w' b <-> on w b \/ b = p.
Proof.
  intros H. destruct (pf_add_ok w p H) as (w' & E & H' & B). exists w'. split; [exact E|]. split; [exact H'|]. intros b. unfold on. rewrite B by (pose proof (pf_index_range b); lia).
  destruct (pf_index p =? pf_index b) eqn:Q; [|split; [auto|intros [K| ->]; [exact K|lia]]]. split; [intros _; right; apply pf_index_inj; lia|reflexivity].
Qed.
Lemma pf_found_on w o : is_i32 w -> exists r w', pf_add_found o w = Ok (r, w') /\ is_i32 w' /\ forall b, on w' b <-> on w b \/ o = Some b.
Proof.
  intros H. destruct o as [p|]; cbn [pf_add_found].
  - destruct (pf_add_on w p H) as (w' & E & H' & B). rewrite E. cbn [bind]. exists true, w'. split; [reflexivity|]. split; [exact H'|]. intros b. rewrite B. intuition congruence.
  - exists false, w. split; [reflexivity|]. split; [exact H|]. intros b. intuition congruence.
Qed.
Lemma flag_counts_on m : forall w, is_i32 w -> exists w', flag_counts m w = Ok w' /\ is_i32 w' /\
  forall b, on w' b <-> on w b \/ exists p n, In (p, n) m /\ ((0 < n /\ pf_fs p = Some b) \/ (1000000 < n /\ b = PFexotic)).
Proof.
  induction m as [|[p n] m IH]; intros w H; cbn [flag_counts].
  - exists w. split; [reflexivity|]. split; [exact H|]. intros b. split; [auto|intros [K|(p & n & [] & _)]; exact K].
  - assert (exists w1, (if 0 <? n then do '(_, f) <- pf_add_fs w p; Ok f else Ok w) = Ok w1 /\ is_i32 w1 /\ forall b, on w1 b <-> on w b \/ (0 < n /\ pf_fs p = Some b)) as (w1 & E1 & H1 & B1).
    { destruct (0 <? n) eqn:Bn; [|exists w; split; [reflexivity|]; split; [exact H|]; intros b; split; [auto|intros [K|[K _]]; [exact K|lia]]].
      unfold pf_add_fs. destruct (pf_found_on w (pf_fs p) H) as (r & w1 & E & H1 & B1). rewrite E. cbn [bind]. exists w1. split; [reflexivity|]. split; [exact H1|]. intros b. rewrite B1. split; intros [K|K]; auto; [right; split; [lia|exact K]|right; tauto]. }
    rewrite E1. cbn [bind].
    assert (exists w2, (if 1000000 <? n then pf_add w1 PFexotic else Ok w1) = Ok w2 /\ is_i32 w2 /\ forall b, on w2 b <-> on w1 b \/ (1000000 < n /\ b = PFexotic)) as (w2 & E2 & H2 & B2).
    { destruct (1000000 <? n) eqn:Bn; [|exists w1; split; [reflexivity|]; split; [exact H1|]; intros b; split; [auto|intros [K|[K _]]; [exact K|lia]]].
      destruct (pf_add_on w1 PFexotic H1) as (w2 & E & H2 & B2). exists w2. split; [exact E|]. split; [exact H2|]. intros b. rewrite B2. split; intros [K|K]; auto; [right; split; [lia|exact K]|right; tauto]. }
    rewrite E2. cbn [bind]. destruct (IH w2 H2) as (w' & E' & H' & B'). exists w'. split; [exact E'|]. split; [exact H'|]. intros b. rewrite B', B2, B1. split.
    + intros [[[K|K]|K]|(q & k & K & R)]; [auto|right; exists p, n; split; [left; reflexivity|auto]|right; exists p, n; split; [left; reflexivity|auto]|right; exists q, k; split; [right; exact K|exact R]].
    + intros [K|(q & k & [K|K] & R)]; [auto|injection K as -> ->; tauto|right; exists q, k; auto].
Qed.
Lemma flag_higgs_on d0 d1 w w' : is_i32 w -> flag_higgs d0 d1 w = Ok w' -> is_i32 w' /\
  forall b, on w' b <-> on w b \/ (Z.abs d0 = Z.abs d1 /\ pf_h (Z.abs d0) = Some b) \/ (((d0 = 22 /\ d1 = 23) \/ (d0 = 23 /\ d1 = 22)) /\ b = PFhiggsgaZ) \/
    ((1000000 < Z.abs d0 \/ 1000000 < Z.abs d1) /\ b = PFexotic).
Proof.
  intros H. unfold flag_higgs. destruct (int_abs d0) as [a0| |] eqn:E0; [|discriminate..]. destruct (int_abs d1) as [a1| |] eqn:E1; [|discriminate..]. cbn [bind]. apply int_abs_ok in E0. apply int_abs_ok in E1. subst a0 a1.
  assert (IFADD : forall (c : bool) (P : Prop) v p, is_i32 v -> (c = true <-> P) -> exists v', (if c then pf_add v p else Ok v) = Ok v' /\ is_i32 v' /\ forall b, on v' b <-> on v b \/ (P /\ b = p)).
  { intros c P v p Hv HP. destruct c.
    - destruct (pf_add_on v p Hv) as (v' & E & Hv' & B). exists v'. split; [exact E|]. split; [exact Hv'|]. intros b. rewrite B. tauto.
    - exists v. split; [reflexivity|]. split; [exact Hv|]. intros b. split; [auto|]. intros [K|[K _]]; [exact K|]. apply HP in K. discriminate. }
  assert (exists w1, (if Z.abs d0 =? Z.abs d1 then do '(_, f) <- pf_add_higgs w (Z.abs d0); Ok f else Ok w) = Ok w1 /\ is_i32 w1 /\ forall b, on w1 b <-> on w b \/ (Z.abs d0 = Z.abs d1 /\ pf_h (Z.abs d0) = Some b)) as (w1 & F1 & H1 & B1).
  { destruct (Z.abs d0 =? Z.abs d1) eqn:Bn; [|exists w; split; [reflexivity|]; split; [exact H|]; intros b; split; [auto|intros [K|[K _]]; [exact K|lia]]].
    unfold pf_add_higgs. destruct (pf_found_on w (pf_h (Z.abs d0)) H) as (r & w1 & E & H1 & B1). rewrite E. cbn [bind]. exists w1. split; [reflexivity|]. split; [exact H1|]. intros b. rewrite B1. split; intros [K|K]; auto; [right; split; [lia|exact K]|right; tauto]. }
  rewrite F1. cbn [bind].
  destruct (IFADD ((d0 =? 22) && (d1 =? 23)) (d0 = 22 /\ d1 = 23) w1 PFhiggsgaZ H1 ltac:(lia)) as (w2 & F2 & H2 & B2). rewrite F2. cbn [bind].
  destruct (IFADD ((d0 =? 23) && (d1 =? 22)) (d0 = 23 /\ d1 = 22) w2 PFhiggsgaZ H2 ltac:(lia)) as (w3 & F3 & H3 & B3). rewrite F3. cbn [bind].
  destruct (IFADD ((1000000 <? Z.abs d0) || (1000000 <? Z.abs d1)) (1000000 < Z.abs d0 \/ 1000000 < Z.abs d1) w3 PFexotic H3 ltac:(lia)) as (w4 & F4 & H4 & B4). rewrite F4.
  intros K. injection K as <-. split; [exact H4|]. intros b. rewrite B4, B3, B2, B1. tauto.
Qed.

(** ** The flag of an event *)

Lemma zero_off b : ~ on 0 b.
Proof. unfold on. rewrite Z.bits_0. discriminate. Qed.
Lemma present_value icase ps (m : list (Z * Z)) : (forall c, value c m = occurs c ps) -> forall c,
  0 < value c (if icase =? 2 then bump 22 (-2) m else m) <-> present icase ps c.
Proof.
  intros V c. unfold present. assert (IN : 0 < occurs c ps <-> In c ps) by (unfold occurs; rewrite (count_occ_In Z.eq_dec); lia).
  destruct (icase =? 2); cbn [andb]; [|rewrite V; exact IN]. rewrite value_bump, V. destruct (c =? 22) eqn:B.
  - replace c with 22 by lia. cbn. lia.
  - replace (22 =? c) with false by lia. rewrite <- IN. lia.
Qed.
Lemma fs_flagged (P : Z -> Prop) b : (exists c, P c /\ pf_fs c = Some b) <->
  match b with
  | PFelectrons => P 11 | PFmuons => P 13 | PFtaus => P 15 | PFneutrinos => P 12 \/ P 14 \/ P 16 | PFphotons => P 22
  | PFdquarks => P 1 | PFuquarks => P 2 | PFsquarks => P 3 | PFcquarks => P 4 | PFbquarks => P 5 | _ => False
  end.
Proof.
  split.
  - intros (c & H & E). unfold pf_fs in E.
    repeat match type of E with (if ?x then _ else _) = _ => destruct x eqn:?; [injection E as <-|] end; try discriminate E;
    try (match goal with K : (c =? ?k) = true |- _ => apply Z.eqb_eq in K; subst c; exact H end).
    assert (c = 12 \/ c = 14 \/ c = 16) as [->|[->| ->]] by lia; auto.
  - destruct b; try contradiction; intros H; try (eexists; split; [exact H|reflexivity]).
    destruct H as [H|[H|H]]; eexists; (split; [exact H|reflexivity]).
Qed.
Lemma h_flagged (P : Z -> Prop) b : (exists c, P c /\ pf_h c = Some b) <->
  match b with
  | PFhiggsbb => P 5 | PFhiggscc => P 4 | PFhiggsdu => P 1 \/ P 2 | PFhiggsss => P 3 | PFhiggstautau => P 15 | PFhiggsmumu => P 13
  | PFhiggsWW => P 24 | PFhiggsZZ => P 23 | PFhiggsgaga => P 22 | PFhiggsinv => P 12 \/ P 14 \/ P 16 \/ P 1000022 | _ => False
  end.
Proof.
  split.
  - intros (c & H & E). unfold pf_h in E.
    repeat match type of E with (if ?x then _ else _) = _ => destruct x eqn:?; [injection E as <-|] end; try discriminate E;
    try (match goal with K : (c =? ?k) = true |- _ => apply Z.eqb_eq in K; subst c; exact H end).
    + assert (c = 1 \/ c = 2) as [->| ->] by lia; auto.
    + assert (c = 12 \/ c = 14 \/ c = 16 \/ c = 1000022) as [->|[->|[->| ->]]] by lia; auto.
  - destruct b; try contradiction; intros H; try (eexists; split; [exact H|reflexivity]).
    + destruct H as [H|H]; eexists; (split; [exact H|reflexivity]).
    + destruct H as [H|[H|[H|H]]]; eexists; (split; [exact H|reflexivity]).
Qed.
(** the bits from the numbers of particles *)
Definition from_counts (icase : Z) (ps : list Z) (b : pf) : Prop :=
  (exists c, present icase ps c /\ pf_fs c = Some b) \/ (b = PFexotic /\ exists c, 1000000 < occurs c ps - (if (icase =? 2) && (c =? 22) then 2 else 0)).
(** the bits from the decay *)
Definition from_decay (ds : list (Z * option Z)) (b : pf) : Prop :=
  (exists c, both ds c /\ pf_h c = Some b) \/ (b = PFhiggsgaZ /\ (last_decay ds 22 23 \/ last_decay ds 23 22)) \/
  (b = PFexotic /\ exists d0 d1, last_decay ds d0 d1 /\ (1000000 < Z.abs d0 \/ 1000000 < Z.abs d1)).
Lemma flagged_split icase ps ds b : flagged icase ps ds b <-> from_counts icase ps b \/ from_decay ds b.
Proof.
  unfold from_counts, from_decay. rewrite (fs_flagged (present icase ps) b), (h_flagged (both ds) b). destruct b; cbn [flagged]; split; intros H; try tauto;
    repeat match goal with K : _ \/ _ |- _ => destruct K as [K|K] | K : _ = _ /\ _ |- _ => destruct K as [K ?]; try discriminate K end; tauto.
Qed.
Lemma decode_sound h elems max f : decode_process h elems max = Ok f -> exists icase hf, hard h elems max icase hf /\ is_i32 f /\
  ((icase = 0 \/ hf = []) /\ (forall b, on f b <-> b = PFunknown) \/
   icase <> 0 /\ hf <> [] /\ exists os ds, those h hf os /\ all_decays h os ds /\ forall b, on f b <-> flagged icase (map (fun o => Z.abs (mc_pdg o)) os) ds b).
Proof.
  unfold decode_process. destruct (hard_state h elems max) as [[icase hf]| |] eqn:E; [|discriminate..]. cbn [bind]. apply hard_state_hard in E. intros H. exists icase, hf. split; [exact E|].
  assert (Z0 : is_i32 0) by (unfold is_i32, two31; lia).
  destruct ((icase =? 0) || match hf with [] => true | _ => false end) eqn:B.
  - destruct (pf_add_on 0 PFunknown Z0) as (w & Ew & Hw & Bw). rewrite Ew in H. injection H as <-. split; [exact Hw|]. left. split; [destruct hf; [auto|left; lia]|]. intros b. rewrite Bw. pose proof (zero_off b). tauto.
  - destruct (count_all h hf (mkPS [] false 0 0)) as [s| |] eqn:C; [|discriminate..]. cbn [bind] in H. cbv zeta in H. destruct (count_all_spec _ _ _ _ C) as (os & ds & T & A & V & N & Hh & Hd). cbn [ps_count ps_higgs ps_d0 ps_d1 value] in *.
    set (ps := map (fun o => Z.abs (mc_pdg o)) os) in *. assert (V' : forall c, value c (ps_count s) = occurs c ps) by (intros c; rewrite V; lia). clear V.
    set (m := if icase =? 2 then bump 22 (-2) (ps_count s) else ps_count s) in *.
    assert (ND : NoDup (map fst m)) by (unfold m; destruct (icase =? 2); [apply bump_nodup|]; apply N; constructor).
    assert (PV : forall c, 0 < value c m <-> present icase ps c) by (intros c; apply present_value; exact V').
    assert (XV : forall c, value c m = occurs c ps - (if (icase =? 2) && (c =? 22) then 2 else 0)).
    { intros c. unfold m. destruct (icase =? 2); cbn [andb]; [|rewrite V'; lia]. rewrite value_bump, V', (Z.eqb_sym c 22). destruct (22 =? c); lia. }
    destruct (flag_counts_on m 0 Z0) as (w & Ew & Hw & Bw). rewrite Ew in H. cbn [bind] in H.
    assert (BW : forall b, on w b <-> from_counts icase ps b).
    { intros b. rewrite Bw. unfold from_counts. split.
      - intros [K|(p & n & K & R)]; [destruct (zero_off _ K)|]. pose proof (value_in m ND p n K) as Vn. destruct R as [[R1 R2]|[R1 ->]].
        + left. exists p. split; [apply PV; lia|exact R2].
        + right. split; [reflexivity|]. exists p. rewrite <- XV. lia.
      - intros [(c & K & R)|(-> & c & K)]; right.
        + apply PV in K. exists c, (value c m). split; [apply value_positive; exact K|auto].
        + rewrite <- XV in K. exists c, (value c m). split; [apply value_positive; lia|auto]. }
    assert (W : is_i32 f /\ forall b, on f b <-> from_counts icase ps b \/ from_decay ds b).
    { rewrite Hh in H. cbn [orb] in H. destruct ds as [|d ds'] eqn:Eds.
      - injection H as <-. split; [exact Hw|]. intros b. rewrite BW. split; [auto|]. intros [K|K]; [exact K|]. exfalso.
        assert (L : forall d0 d1, ~ last_decay [] d0 d1) by (intros d0 d1 ((l & y & K') & _); destruct l; discriminate K').
        unfold from_decay, both in K. destruct K as [(c & (d0 & d1 & K & _) & _)|[(_ & [K|K])|(_ & d0 & d1 & K & _)]]; exact (L _ _ K).
      - rewrite <- Eds in *. pose proof (last_pair_decay ds ltac:(rewrite Eds; discriminate)) as LD. rewrite <- Hd in LD. cbn [fst snd] in LD.
        destruct (flag_higgs_on _ _ _ _ Hw H) as (Hf & Bf). split; [exact Hf|]. intros b. rewrite Bf, BW. apply or_iff_compat_l. unfold from_decay, both. split.
        + intros [(K & R)|[(K & ->)|(K & ->)]].
          * left. exists (Z.abs (ps_d0 s)). split; [|exact R]. exists (ps_d0 s), (ps_d1 s). auto.
          * right. left. split; [reflexivity|]. destruct K as [(K1 & K2)|(K1 & K2)]; rewrite K1, K2 in LD; auto.
          * right. right. split; [reflexivity|]. exists (ps_d0 s), (ps_d1 s). auto.
        + intros [(c & (d0 & d1 & K & K0 & K1) & R)|[(-> & K)|(-> & d0 & d1 & K & R)]].
          * destruct (last_decay_fun _ _ _ _ _ K LD) as [-> ->]. left. split; [congruence|]. rewrite K0. exact R.
          * right. left. split; [|reflexivity]. destruct K as [K|K]; destruct (last_decay_fun _ _ _ _ _ K LD) as [<- <-]; auto.
          * destruct (last_decay_fun _ _ _ _ _ K LD) as [-> ->]. right. right. auto. }
    destruct W as (Hf & Bf). split; [exact Hf|]. right. split; [lia|]. split; [intros ->; cbn in B; rewrite orb_true_r in B; discriminate|]. exists os, ds. split; [exact T|]. split; [exact A|]. intros b. rewrite flagged_split. apply Bf.
Qed.

(** ** It is always defined for sound collections *)

Section total.
Context (h : list (addr * mcp)) (elems : list addr) (HSnd : sound h elems).
Lemma mc_at_total a o : found h a o -> mc_at h a = Ok o.
Proof. apply mc_at_found. Qed.
Lemma int_abs_total a o : found h a o -> int_abs (mc_pdg o) = Ok (Z.abs (mc_pdg o)).
Proof. destruct HSnd as (_ & _ & C & _). intros F. specialize (C a o F). unfold int_abs. replace (mc_pdg o =? - two31) with false by lia. reflexivity. Qed.
Lemma scan_total l : (forall a, In a l -> exists o, found h a o) -> forall n, exists r, scan h l n = Ok r.
Proof.
  induction l as [|a l IH]; intros H n; cbn [scan]; [eexists; reflexivity|]. destruct (H a (or_introl eq_refl)) as (o & F). rewrite (mc_at_total _ _ F). cbn [bind]. destruct (mc_gen o =? 3); [eexists; reflexivity|].
  apply IH. intros b Hb. apply H. right. exact Hb.
Qed.
Lemma find_wide_total l : (forall a, In a l -> exists o, found h a o) -> exists r, find_wide h l = Ok r.
Proof.
  induction l as [|a l IH]; intros H; cbn [find_wide]; [eexists; reflexivity|]. destruct (H a (or_introl eq_refl)) as (o & F). rewrite (mc_at_total _ _ F). cbn [bind]. destruct (1 <? Zlen (mc_daughters o)); [eexists; reflexivity|].
  apply IH. intros b Hb. apply H. right. exact Hb.
Qed.
Lemma firstn_found n : forall a, In a (firstn n elems) -> exists o, found h a o.
Proof. intros a Ha. apply HSnd. rewrite <- (firstn_skipn n elems). apply in_app_iff. auto. Qed.
Lemma hard_state_total max : exists icase hf, hard_state h elems max = Ok (icase, hf).
Proof.
  unfold hard_state. destruct (scan_total _ (firstn_found (Z.to_nat (if Zlen elems <? max then Zlen elems else max))) 0) as ((r & n) & E). rewrite E. cbn [bind]. destruct r as [ds|]; [repeat eexists|]. destruct (2 <? n); [repeat eexists|].
  destruct (n =? 2) eqn:B; [|repeat eexists]. apply scan_spec in E. destruct E as (os & T & _ & En). destruct elems as [|a l] eqn:Eel.
  - exfalso. rewrite firstn_nil in T. inversion T; subst. cbn in B. discriminate.
  - rewrite <- Eel in *. destruct HSnd as (V & D & _). destruct (V a) as (o & F); [rewrite Eel; left; reflexivity|]. rewrite (mc_at_total _ _ F). cbn [bind].
    destruct (find_wide_total (mc_daughters o)) as (w & Ew); [intros d Hd; exact (D _ _ _ F Hd)|]. rewrite Ew. cbn [bind]. destruct w; repeat eexists.
Qed.
Lemma hard_found max icase hf : hard h elems max icase hf -> forall a, In a hf -> exists o, found h a o.
Proof.
  pose proof HSnd as (V & D & _). intros H a Ha. destruct H as [l1 b l2 os o E T G F G3|os T G K|os b e' o l1 d l2 ds od T G K E F Ed T' G' F' W|? ? ? ? ? ? ? ? ? ? ? ?|? ? ? ?]; [exact (D _ _ _ F Ha)|exact (firstn_found _ _ Ha)|exact (D _ _ _ F' Ha)|destruct Ha|destruct Ha].
Qed.
Lemma steps_rank rank (R : forall a o d, found h a o -> In d (mc_daughters o) -> (rank d < rank a)%nat) n : forall a o o', found h a o -> steps h n o o' -> (n <= rank a)%nat.
Proof.
  induction n as [|n IH]; intros a o o' F HS; [lia|]. destruct HS as (o1 & (d & Ed & Fd & _) & HS). specialize (IH _ _ _ Fd HS). pose proof (R a o d F ltac:(rewrite Ed; left; reflexivity)). lia.
Qed.
Lemma chase_total a o : found h a o -> exists o', chase (length h) h o = Ok o'.
Proof.
  intros F. pose proof HSnd as (V & D & C & G & rank & R).
  assert (ND : chase (length h) h o <> UB UBDiverge).
  { intros K. rewrite chase_forever in K. destruct (K (S (rank a))) as (o2 & HS). pose proof (steps_rank rank R _ _ _ _ F HS). lia. }
  revert ND. generalize (length h). intros f. revert a o F. induction f as [|f IH]; intros a o F; cbn [chase]; (destruct (mc_daughters o) as [|d [|d2 l]] eqn:Ed; [intros _; eexists; reflexivity| |intros _; eexists; reflexivity]);
    (destruct (D a o d F ltac:(rewrite Ed; left; reflexivity)) as (od & Fd)); rewrite (mc_at_total _ _ Fd); cbn [bind]; rewrite (int_abs_total _ _ Fd); cbn [bind]; (destruct (Z.abs (mc_pdg od) =? 25); [|intros _; eexists; reflexivity]).
  - intros K. destruct K. reflexivity.
  - exact (IH d od Fd).
Qed.
Lemma steps_found n : forall a o o', found h a o -> Z.abs (mc_pdg o) = 25 -> steps h n o o' -> exists a', found h a' o' /\ Z.abs (mc_pdg o') = 25.
Proof. induction n as [|n IH]; intros a o o' F P HS; [cbn in HS; subst; exists a; auto|]. destruct HS as (o1 & (d & _ & Fd & Pd) & HS). exact (IH _ _ _ Fd Pd HS). Qed.
Lemma count_one_total a s : (exists o, found h a o) -> exists s', count_one h a s = Ok s'.
Proof.
  intros (o & F). pose proof HSnd as (V & D & C & G & _). unfold count_one. rewrite (mc_at_total _ _ F). cbn [bind]. rewrite (int_abs_total _ _ F). cbn [bind]. cbv zeta. destruct (Z.abs (mc_pdg o) =? 25) eqn:B; [|eexists; reflexivity].
  destruct (chase_total _ _ F) as (o' & E). rewrite E. cbn [bind]. destruct (chase_ok _ _ _ _ E) as (n & HS & _). destruct (steps_found _ _ _ _ F ltac:(lia) HS) as (a' & F' & P').
  destruct (mc_daughters o') as [|d0 l] eqn:Ed; [destruct (G _ _ F' P' Ed)|]. destruct (D _ _ d0 F' ltac:(rewrite Ed; left; reflexivity)) as (o0 & F0). rewrite (mc_at_total _ _ F0). cbn [bind].
  destruct l as [|d1 l]; [eexists; reflexivity|]. destruct (D _ _ d1 F' ltac:(rewrite Ed; right; left; reflexivity)) as (o1 & F1). rewrite (mc_at_total _ _ F1). cbn [bind]. eexists; reflexivity.
Qed.
Lemma count_all_total l : (forall a, In a l -> exists o, found h a o) -> forall s, exists s', count_all h l s = Ok s'.
Proof.
  induction l as [|a l IH]; intros H s; cbn [count_all]; [eexists; reflexivity|]. destruct (count_one_total a s (H a (or_introl eq_refl))) as (s1 & E). rewrite E. cbn [bind]. apply IH. intros b Hb. apply H. right. exact Hb.
Qed.
Lemma flag_higgs_total d0 d1 w : is_i32 w -> - two31 < d0 -> - two31 < d1 -> exists w', flag_higgs d0 d1 w = Ok w'.
Proof.
  intros H H0 H1. unfold flag_higgs, int_abs. replace (d0 =? - two31) with false by lia. replace (d1 =? - two31) with false by lia. cbn [bind].
  assert (IFADD : forall (c : bool) v p, is_i32 v -> exists v', (if c then pf_add v p else Ok v) = Ok v' /\ is_i32 v').
  { intros c v p Hv. destruct c; [destruct (pf_add_on v p Hv) as (v' & E & Hv' & _); eauto|eauto]. }
  assert (exists w1, (if Z.abs d0 =? Z.abs d1 then do '(_, f) <- pf_add_higgs w (Z.abs d0); Ok f else Ok w) = Ok w1 /\ is_i32 w1) as (w1 & F1 & H2).
  { destruct (Z.abs d0 =? Z.abs d1); [|eauto]. unfold pf_add_higgs. destruct (pf_found_on w (pf_h (Z.abs d0)) H) as (r & w1 & E & K & _). rewrite E. cbn [bind]. eauto. }
  rewrite F1. cbn [bind]. destruct (IFADD ((d0 =? 22) && (d1 =? 23)) w1 PFhiggsgaZ H2) as (w2 & F2 & H3). rewrite F2. cbn [bind].
  destruct (IFADD ((d0 =? 23) && (d1 =? 22)) w2 PFhiggsgaZ H3) as (w3 & F3 & H4). rewrite F3. cbn [bind].
  destruct (IFADD ((1000000 <? Z.abs d0) || (1000000 <? Z.abs d1)) w3 PFexotic H4) as (w4 & F4 & _). eauto.
Qed.
Lemma count_codes l : forall s s', (forall a, In a l -> exists o, found h a o) -> count_all h l s = Ok s' -> - two31 < ps_d0 s -> - two31 < ps_d1 s -> - two31 < ps_d0 s' /\ - two31 < ps_d1 s'.
Proof.
  pose proof HSnd as (V & D & C & G & _). induction l as [|a l IH]; intros s s' H; cbn [count_all]; [intros K; injection K as <-; auto|].
  destruct (count_one h a s) as [s1| |] eqn:E; [|discriminate..]. cbn [bind]. intros K H0 H1. apply (IH s1 s' (fun b Hb => H b (or_intror Hb)) K); destruct (count_one_spec _ _ _ _ E) as (o & F & _ & [(_ & _ & K0 & K1)|(_ & d & (n & o' & HS & _ & x & l' & ox & Ed & Fx & Dx & R) & _ & K0 & K1)]).
  - congruence.
  - rewrite K0, Dx. apply C in Fx. lia.
  - congruence.
  - rewrite K1. destruct (snd d) as [c|]; [|exact H1]. destruct R as (y & l2 & oy & _ & Fy & ->). apply C in Fy. lia.
Qed.
Lemma decode_total max : exists f, decode_process h elems max = Ok f.
Proof.
  unfold decode_process. destruct (hard_state_total max) as (icase & hf & E). rewrite E. cbn [bind]. apply hard_state_hard in E. pose proof (hard_found _ _ _ E) as HF.
  assert (Z0 : is_i32 0) by (unfold is_i32, two31; lia).
  destruct ((icase =? 0) || match hf with [] => true | _ => false end); [destruct (pf_add_on 0 PFunknown Z0) as (w & Ew & _); eauto|].
  destruct (count_all_total hf HF (mkPS [] false 0 0)) as (s & Es). rewrite Es. cbn [bind]. cbv zeta.
  destruct (flag_counts_on (if icase =? 2 then bump 22 (-2) (ps_count s) else ps_count s) 0 Z0) as (w & Ew & Hw & _). rewrite Ew. cbn [bind]. destruct (ps_higgs s); [|eauto].
  destruct (count_codes _ _ _ HF Es) as [K0 K1]; [cbn; unfold two31; lia|cbn; unfold two31; lia|]. exact (flag_higgs_total _ _ _ Hw K0 K1).
Qed.
End total.

(** ** The choice of the hard final state is what is said *)

Lemma scan_none h l os : those h l os -> Forall (fun o => mc_gen o <> 3) os -> forall n, scan h l n = Ok (None, n + Z.of_nat (orphans os)).
Proof.
  intros T. induction T as [|a o l os F T IH]; intros G n; cbn [scan]; [unfold orphans; cbn; rewrite Z.add_0_r; reflexivity|]. inversion G as [|? ? G1 G2]; subst. rewrite (proj2 (mc_at_found _ _ _) F). cbn [bind]. replace (mc_gen o =? 3) with false by lia.
  rewrite IH by exact G2. unfold orphans. cbn [filter]. unfold orphan at 2. destruct (mc_parents o); cbn [length]; (do 2 f_equal; lia).
Qed.
Lemma scan_some h l1 os a o l2 : those h l1 os -> Forall (fun o => mc_gen o <> 3) os -> found h a o -> mc_gen o = 3 -> forall n, exists k, scan h (l1 ++ a :: l2) n = Ok (Some (mc_daughters o), k).
Proof.
  intros T G F G3. induction T as [|b x l os Fb T IH]; intros n; cbn [app scan].
  - rewrite (proj2 (mc_at_found _ _ _) F). cbn [bind]. rewrite G3. cbn. eexists; reflexivity.
  - inversion G as [|? ? G1 G2]; subst. rewrite (proj2 (mc_at_found _ _ _) Fb). cbn [bind]. replace (mc_gen x =? 3) with false by lia. apply IH. exact G2.
Qed.
Lemma find_wide_none h l os : those h l os -> Forall (fun o => Zlen (mc_daughters o) <= 1) os -> find_wide h l = Ok None.
Proof.
  intros T. induction T as [|a o l os F T IH]; intros G; cbn [find_wide]; [reflexivity|]. inversion G as [|? ? G1 G2]; subst. rewrite (proj2 (mc_at_found _ _ _) F). cbn [bind]. replace (1 <? Zlen (mc_daughters o)) with false by lia. exact (IH G2).
Qed.
Lemma find_wide_some h l1 os a o l2 : those h l1 os -> Forall (fun o => Zlen (mc_daughters o) <= 1) os -> found h a o -> 1 < Zlen (mc_daughters o) -> find_wide h (l1 ++ a :: l2) = Ok (Some (mc_daughters o)).
Proof.
  intros T G F W. induction T as [|b x l os Fb T IH]; cbn [app find_wide].
  - rewrite (proj2 (mc_at_found _ _ _) F). cbn [bind]. replace (1 <? Zlen (mc_daughters o)) with true by lia. reflexivity.
  - inversion G as [|? ? G1 G2]; subst. rewrite (proj2 (mc_at_found _ _ _) Fb). cbn [bind]. replace (1 <? Zlen (mc_daughters x)) with false by lia. exact (IH G2).
Qed.
Lemma hard_hard_state h elems max icase hf : hard h elems max icase hf -> hard_state h elems max = Ok (icase, hf).
Proof.
  intros H. unfold hard_state. rewrite np_firstn. destruct H as [l1 a l2 os o E T G F G3|os T G K|os a e' o l1 d l2 ds od T G K E F Ed T' G' F' W|os a e' o ds T G K E F T' G'|os T G K].
  - rewrite E. destruct (scan_some h l1 os a o l2 T G F G3 0) as (k & ->). reflexivity.
  - rewrite (scan_none _ _ _ T G). cbn [bind]. replace (2 <? 0 + Z.of_nat (orphans os)) with true by lia. do 3 f_equal. lia.
  - rewrite (scan_none _ _ _ T G). cbn [bind]. rewrite K, E. cbn - [mc_at]. rewrite (proj2 (mc_at_found _ _ _) F). cbn [bind]. rewrite Ed, (find_wide_some _ _ _ _ _ _ T' G' F' W). reflexivity.
  - rewrite (scan_none _ _ _ T G). cbn [bind]. rewrite K, E. cbn - [mc_at]. rewrite (proj2 (mc_at_found _ _ _) F). cbn [bind]. rewrite (find_wide_none _ _ _ T' G'). reflexivity.
  - rewrite (scan_none _ _ _ T G). cbn [bind]. replace (2 <? 0 + Z.of_nat (orphans os)) with false by lia. replace (0 + Z.of_nat (orphans os) =? 2) with false by lia. reflexivity.
Qed.
Lemma hard_fun h elems max i1 f1 i2 f2 : hard h elems max i1 f1 -> hard h elems max i2 f2 -> i1 = i2 /\ f1 = f2.
Proof. intros H1 H2. apply hard_hard_state in H1. apply hard_hard_state in H2. rewrite H1 in H2. injection H2 as -> ->. auto. Qed.
Lemma those_fun h l : forall os os', those h l os -> those h l os' -> os = os'.
Proof. intros os os' T. revert os'. induction T as [|a o l os F T IH]; intros os' T'; inversion T'; subst; [reflexivity|]. f_equal; [eapply found_fun; eauto|auto]. Qed.
Lemma steps_fun h n o o1 o2 : steps h n o o1 -> steps h n o o2 -> o1 = o2.
Proof. revert o. induction n as [|n IH]; intros o; cbn [steps]; [congruence|]. intros (x & N & HS) (y & N' & HS'). rewrite (next_higgs_fun _ _ _ _ N' N) in HS'. exact (IH _ HS HS'). Qed.
Lemma decays_fun h o d d' : decays h o d -> decays h o d' -> d = d'.
Proof.
  intros (n & o1 & HS & N & x & l & ox & Ed & F & D0 & D1) (n' & o1' & HS' & N' & x' & l' & ox' & Ed' & F' & D0' & D1').
  assert (n = n') as <-.
  { destruct (Nat.lt_trichotomy n n') as [K|[K|K]]; [exfalso|exact K|exfalso].
    - destruct (steps_prefix h (S n) n' o o1' ltac:(lia) HS') as (o2 & S2). replace (S n) with (n + 1)%nat in S2 by lia.
      assert (SPL : forall a b u v, steps h (a + b) u v -> exists w, steps h a u w /\ steps h b w v).
      { induction a as [|a IHa]; intros b u v S0; [exists u; split; [reflexivity|exact S0]|]. destruct S0 as (w1 & Nw & S0). destruct (IHa _ _ _ S0) as (w & Wa & Wb). exists w. split; [exists w1; auto|exact Wb]. }
      destruct (SPL _ _ _ _ S2) as (w & Wa & (w1 & Nw & _)). rewrite <- (steps_fun _ _ _ _ _ HS Wa) in Nw. exact (N _ Nw).
    - destruct (steps_prefix h (S n') n o o1 ltac:(lia) HS) as (o2 & S2). replace (S n') with (n' + 1)%nat in S2 by lia.
      assert (SPL : forall a b u v, steps h (a + b) u v -> exists w, steps h a u w /\ steps h b w v).
      { induction a as [|a IHa]; intros b u v S0; [exists u; split; [reflexivity|exact S0]|]. destruct S0 as (w1 & Nw & S0). destruct (IHa _ _ _ S0) as (w & Wa & Wb). exists w. split; [exists w1; auto|exact Wb]. }
      destruct (SPL _ _ _ _ S2) as (w & Wa & (w1 & Nw & _)). rewrite <- (steps_fun _ _ _ _ _ HS' Wa) in Nw. exact (N' _ Nw). }
  rewrite <- (steps_fun _ _ _ _ _ HS HS') in *. rewrite Ed in Ed'. injection Ed' as <- <-. rewrite (found_fun _ _ _ _ F F') in *. destruct d as [c0 c1], d' as [c0' c1']. cbn [fst snd] in *. f_equal; [congruence|].
  destruct c1 as [c1|], c1' as [c1'|]; [|destruct D1 as (? & ? & ? & -> & _); discriminate|destruct D1' as (? & ? & ? & -> & _); discriminate|reflexivity].
  destruct D1 as (y & m & oy & -> & Fy & ->). destruct D1' as (y' & m' & oy' & Em & Fy' & ->). injection Em as <- <-. rewrite (found_fun _ _ _ _ Fy Fy'). reflexivity.
Qed.
Lemma all_decays_fun h os : forall ds ds', all_decays h os ds -> all_decays h os ds' -> ds = ds'.
Proof. intros ds ds' A. revert ds'. induction A as [|o os d ds P D A IH|o os ds P A IH]; intros ds' B; inversion B; subst; try contradiction; [reflexivity| |auto]. f_equal; [eapply decays_fun; eauto|auto]. Qed.

Lemma on_has f b : is_i32 f -> (on f b <-> pf_has f b = Ok true).
Proof. intros H. rewrite (pf_has_ok f b H). unfold on. destruct (Z.testbit f (pf_index b)); split; congruence. Qed.
(** the flag, for the one hard final state there is *)
Theorem decode_flags h elems max f : decode_process h elems max = Ok f -> exists icase hf, hard h elems max icase hf.
Proof. intros H. destruct (decode_sound _ _ _ _ H) as (icase & hf & K & _). eauto. Qed.
Lemma decode_unknown h elems max f icase hf : decode_process h elems max = Ok f -> hard h elems max icase hf -> icase = 0 \/ hf = [] -> forall b, pf_has f b = Ok true <-> b = PFunknown.
Proof.
  intros H K C b. destruct (decode_sound _ _ _ _ H) as (i & g & K' & I & R). destruct (hard_fun _ _ _ _ _ _ _ K K') as [<- <-]. rewrite <- (on_has _ _ I). destruct R as [(_ & R)|(N1 & N2 & _)]; [apply R|tauto].
Qed.
Lemma decode_known h elems max f icase hf os ds : decode_process h elems max = Ok f -> hard h elems max icase hf -> icase <> 0 -> hf <> [] -> those h hf os -> all_decays h os ds ->
  forall b, pf_has f b = Ok true <-> flagged icase (map (fun o => Z.abs (mc_pdg o)) os) ds b.
Proof.
  intros H K C1 C2 T A b. destruct (decode_sound _ _ _ _ H) as (i & g & K' & I & R). destruct (hard_fun _ _ _ _ _ _ _ K K') as [<- <-]. rewrite <- (on_has _ _ I). destruct R as [([R|R] & _)|(_ & _ & os' & ds' & T' & A' & R)]; [contradiction..|].
  rewrite (those_fun _ _ _ _ T T') in *. rewrite (all_decays_fun _ _ _ _ A A'). apply R.
Qed.
Lemma decode_decays h elems max f icase hf : decode_process h elems max = Ok f -> hard h elems max icase hf -> icase <> 0 -> hf <> [] -> exists os ds, those h hf os /\ all_decays h os ds.
Proof.
  intros H K C1 C2. destruct (decode_sound _ _ _ _ H) as (i & g & K' & I & R). destruct (hard_fun _ _ _ _ _ _ _ K K') as [<- <-]. destruct R as [([R|R] & _)|(_ & _ & os' & ds' & T' & A' & R)]; [contradiction..|]. eauto.
Qed.
Lemma decode_never h elems max f b : decode_process h elems max = Ok f -> b = PFhiggsgg \/ b = PFhiggsother -> pf_has f b = Ok false.
Proof.
  intros H Hb. destruct (decode_sound _ _ _ _ H) as (i & g & K & I & R). assert (~ on f b) as N. { intros O. destruct R as [(_ & R)|(_ & _ & os & ds & _ & _ & R)]; apply R in O; destruct Hb as [-> | ->]; [discriminate O|discriminate O|exact O|exact O]. }
  rewrite (pf_has_ok f b I). unfold on in N. destruct (Z.testbit f (pf_index b)); [destruct N; reflexivity|reflexivity].
Qed.

(** ** When it does not come back *)

Lemma mc_at_not h a e : mc_at h a = UB e -> e = UBNullDeref.
Proof. destruct (mc_at_cases h a) as [(o & E)|E]; rewrite E; congruence. Qed.
Lemma hard_not h elems max : hard_state h elems max <> UB UBDiverge.
Proof.
  assert (SC : forall l n, scan h l n <> UB UBDiverge).
  { induction l as [|a l IH]; intros n; cbn [scan]; [discriminate|]. destruct (mc_at_cases h a) as [(o & E)|E]; rewrite E; cbn [bind]; [|discriminate]. destruct (mc_gen o =? 3); [discriminate|apply IH]. }
  assert (FW : forall l, find_wide h l <> UB UBDiverge).
  { induction l as [|a l IH]; cbn [find_wide]; [discriminate|]. destruct (mc_at_cases h a) as [(o & E)|E]; rewrite E; cbn [bind]; [|discriminate]. destruct (1 <? Zlen (mc_daughters o)); [discriminate|apply IH]. }
  unfold hard_state. rewrite np_firstn. specialize (SC (firstn (Z.to_nat max) elems) 0). destruct (scan h (firstn (Z.to_nat max) elems) 0) as [[r n]|x|x]; cbn [bind]; [|discriminate|congruence].
  destruct r; [discriminate|]. destruct (2 <? n); [discriminate|]. destruct (n =? 2); [|discriminate]. destruct elems as [|a l]; [discriminate|]. destruct (mc_at_cases h a) as [(o & E)|E]; rewrite E; cbn [bind]; [|discriminate].
  specialize (FW (mc_daughters o)). destruct (find_wide h (mc_daughters o)) as [w|x|x]; cbn [bind]; [destruct w; discriminate|discriminate|congruence].
Qed.
Lemma count_not h l : forall s, count_all h l s = UB UBDiverge -> exists a o, In a l /\ found h a o /\ Z.abs (mc_pdg o) = 25 /\ forall n, exists o', steps h n o o'.
Proof.
  induction l as [|a l IH]; intros s; cbn [count_all]; [discriminate|]. destruct (count_one h a s) as [s1|x|x] eqn:E; cbn [bind]; [|discriminate|].
  - intros H. destruct (IH _ H) as (b & o & Hb & R). exists b, o. split; [right; exact Hb|exact R].
  - intros H. injection H as ->. unfold count_one in E. destruct (mc_at_cases h a) as [(o & Eo)|Eo]; rewrite Eo in E; cbn [bind] in E; [|discriminate]. unfold int_abs in E. destruct (mc_pdg o =? - two31); [discriminate|]. cbn [bind] in E. cbv zeta in E.
    destruct (Z.abs (mc_pdg o) =? 25) eqn:B; [|discriminate]. exists a, o. split; [left; reflexivity|]. split; [apply mc_at_found; exact Eo|]. split; [lia|]. apply chase_forever.
    destruct (chase (length h) h o) as [o'|x|x]; cbn [bind] in E; [|discriminate|congruence]. destruct (mc_daughters o') as [|d0 m]; [discriminate|]. destruct (mc_at_cases h d0) as [(q & Eq)|Eq]; rewrite Eq in E; cbn [bind] in E; [|discriminate].
    destruct m as [|d1 m]; [discriminate|]. destruct (mc_at_cases h d1) as [(q' & Eq')|Eq']; rewrite Eq' in E; cbn [bind] in E; discriminate.
Qed.
Lemma decode_not h elems max : decode_process h elems max = UB UBDiverge -> exists icase hf a o, hard h elems max icase hf /\ In a hf /\ found h a o /\ Z.abs (mc_pdg o) = 25 /\ forall n, exists o', steps h n o o'.
Proof.
  unfold decode_process. pose proof (hard_not h elems max) as HN. destruct (hard_state h elems max) as [[icase hf]|x|x] eqn:E; cbn [bind]; [|discriminate|congruence]. apply hard_state_hard in E.
  assert (Z0 : is_i32 0) by (unfold is_i32, two31; lia).
  destruct ((icase =? 0) || match hf with [] => true | _ => false end); [destruct (pf_add_on 0 PFunknown Z0) as (w & -> & _); discriminate|].
  destruct (count_all h hf (mkPS [] false 0 0)) as [s|x|x] eqn:C; cbn [bind]; [|discriminate|].
  - cbv zeta. destruct (flag_counts_on (if icase =? 2 then bump 22 (-2) (ps_count s) else ps_count s) 0 Z0) as (w & -> & Hw & _). cbn [bind]. destruct (ps_higgs s); [|discriminate]. intros H. exfalso. revert H.
    destruct (Z.eq_dec (ps_d0 s) (- two31)) as [->|N0]; [unfold flag_higgs, int_abs; rewrite Z.eqb_refl; cbn [bind]; discriminate|].
    destruct (Z.eq_dec (ps_d1 s) (- two31)) as [->|N1]; [unfold flag_higgs, int_abs; rewrite Z.eqb_refl; destruct (ps_d0 s =? - two31); cbn [bind]; discriminate|].
    unfold flag_higgs, int_abs. replace (ps_d0 s =? - two31) with false by lia. replace (ps_d1 s =? - two31) with false by lia. cbn [bind].
    assert (IFADD : forall (c : bool) v p, is_i32 v -> exists v', (if c then pf_add v p else Ok v) = Ok v' /\ is_i32 v').
    { intros c v p Hv. destruct c; [destruct (pf_add_on v p Hv) as (v' & E' & Hv' & _); eauto|eauto]. }
    assert (exists w1, (if Z.abs (ps_d0 s) =? Z.abs (ps_d1 s) then do '(_, f) <- pf_add_higgs w (Z.abs (ps_d0 s)); Ok f else Ok w) = Ok w1 /\ is_i32 w1) as (w1 & F1 & H2).
    { destruct (Z.abs (ps_d0 s) =? Z.abs (ps_d1 s)); [|eauto]. unfold pf_add_higgs. destruct (pf_found_on w (pf_h (Z.abs (ps_d0 s))) Hw) as (r & w1 & E' & K & _). rewrite E'. cbn [bind]. eauto. }
    rewrite F1. cbn [bind]. destruct (IFADD ((ps_d0 s =? 22) && (ps_d1 s =? 23)) w1 PFhiggsgaZ H2) as (w2 & F2 & H3). rewrite F2. cbn [bind].
    destruct (IFADD ((ps_d0 s =? 23) && (ps_d1 s =? 22)) w2 PFhiggsgaZ H3) as (w3 & F3 & H4). rewrite F3. cbn [bind].
    destruct (IFADD ((1000000 <? Z.abs (ps_d0 s)) || (1000000 <? Z.abs (ps_d1 s))) w3 PFexotic H4) as (w4 & F4 & _). rewrite F4. discriminate.
  - intros H. injection H as ->. destruct (count_not _ _ _ C) as (a & o & R). exists icase, hf, a, o. split; [exact E|exact R].
Qed.

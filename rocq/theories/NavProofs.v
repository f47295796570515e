(** * Proofs about relations *)
From Coq Require Import ZArith List Bool Lia Permutation.
From Verif Require Import Bytes StrMap ZMap SioModel ObjModel ObjSpec FlagModel ImplModel NavModel NavSpec.
Import ListNotations.
Open Scope Z_scope.

(** ** One map of the navigator *)

Fixpoint look (b : addr) (os : list addr) (ws : list Z) : option Z :=
  match os, ws with x :: os', w :: ws' => if x =? b then Some w else look b os' ws' | _, _ => None end.

Lemma look_none b os ws : ~ In b os -> look b os ws = None.
Proof.
  revert ws. induction os as [|x os IH]; intros [|w ws] H; try reflexivity. cbn [look]. cbn [In] in H.
  destruct (Z.eqb_spec x b); [tauto|]. apply IH. tauto.
Qed.

Lemma look_in b os ws : length os = length ws -> (look b os ws <> None <-> In b os).
Proof.
  revert ws. induction os as [|x os IH]; intros [|w ws] H; try discriminate; cbn [look In]; [split; [congruence|tauto]|].
  destruct (Z.eqb_spec x b) as [->|N]; [split; [auto|discriminate]|]. rewrite IH by (cbn in H; lia). tauto.
Qed.

Lemma related_look os ws b w : NoDup os -> length os = length ws -> (related os ws b w <-> look b os ws = Some w).
Proof.
  unfold related. revert ws. induction os as [|x os IH]; intros [|v ws] N L; try discriminate; cbn [look].
  - split; [intros ([|i] & H & _); discriminate|discriminate].
  - inversion N as [|? ? Nx Nos]; subst. specialize (IH ws Nos ltac:(cbn in L; lia)). destruct (Z.eqb_spec x b) as [->|E].
    + split.
      * intros ([|i] & H1 & H2); [cbn in H2; exact H2|]. cbn in H1. apply nth_error_In in H1. contradiction.
      * intros [= ->]. exists 0%nat. split; reflexivity.
    + rewrite <- IH. split; [intros ([|i] & H1 & H2); [cbn in H1; congruence|exists i; split; assumption]|].
      intros (i & H1 & H2). exists (S i). split; assumption.
Qed.

Lemma upd_ok fadd to w : forall os ws, length os = length ws -> NoDup os ->
  exists os' ws', rel_upd fadd os ws to w = Ok (os', ws') /\ length os' = length ws' /\ NoDup os' /\
    (forall x, In x os' <-> x = to \/ In x os) /\
    forall b, look b os' ws' = if to =? b then Some (match look to os ws with None => w | Some v => fadd v w end) else look b os ws.
Proof.
  induction os as [|x os IH]; intros [|v ws] L N; try discriminate; cbn [rel_upd].
  - exists [to], [w]. split; [reflexivity|]. split; [reflexivity|]. split; [repeat constructor; auto|].
    split; [cbn [In]; intuition|]. intros b. cbn [look]. destruct (to =? b); reflexivity.
  - inversion N as [|? ? Nx Nos]; subst. destruct (Z.eqb_spec x to) as [->|E].
    + exists (to :: os), (fadd v w :: ws). split; [reflexivity|]. split; [exact L|]. split; [exact N|].
      split; [cbn [In]; intuition|]. intros b. cbn [look]. destruct (Z.eqb_spec to b); [rewrite Z.eqb_refl|]; reflexivity.
    + destruct (IH ws ltac:(cbn in L; lia) Nos) as (os' & ws' & H1 & H2 & H3 & H4 & H5). rewrite H1. cbn [bind fst snd].
      exists (x :: os'), (v :: ws'). split; [reflexivity|]. split; [cbn; lia|].
      split; [constructor; [|exact H3]; intros Hx; apply H4 in Hx; destruct Hx; congruence|].
      split; [cbn [In]; intros y; rewrite H4; intuition|]. intros b. cbn [look]. destruct (Z.eqb_spec x to) as [|_]; [congruence|].
      destruct (Z.eqb_spec x b) as [->|Nb]; [destruct (Z.eqb_spec to b); [congruence|reflexivity]|apply H5].
Qed.

Lemma index_some to os i : index_of to os = Some i -> (i < length os)%nat /\ nth_error os i = Some to.
Proof.
  revert i. induction os as [|x os IH]; intros i; cbn [index_of]; [discriminate|].
  destruct (Z.eqb_spec x to) as [->|N]; [intros [= <-]; split; [cbn; lia|reflexivity]|].
  destruct (index_of to os) as [j|]; [|discriminate]. intros [= <-]. destruct (IH j eq_refl). split; [cbn; lia|assumption].
Qed.

Lemma index_none to os : index_of to os = None -> ~ In to os.
Proof.
  induction os as [|x os IH]; cbn [index_of In]; [tauto|]. destruct (Z.eqb_spec x to); [discriminate|].
  destruct (index_of to os); [discriminate|]. intros _ [H|H]; [contradiction|]. apply IH; auto.
Qed.

Lemma erase_look to : forall i os ws, index_of to os = Some i -> length os = length ws -> NoDup os ->
  exists os' ws', erase_at i os = Ok os' /\ erase_at i ws = Ok ws' /\ length os' = length ws' /\ NoDup os' /\
    (forall x, In x os' -> In x os) /\ forall b, look b os' ws' = if to =? b then None else look b os ws.
Proof.
  induction i as [|i IH]; intros os ws E L N.
  - destruct os as [|x os]; [discriminate|]. destruct ws as [|v ws]; [discriminate|]. cbn [index_of] in E.
    destruct (Z.eqb_spec x to) as [->|Nx]; [|destruct (index_of to os); discriminate]. inversion N as [|? ? Nx Nos]; subst.
    exists os, ws. split; [reflexivity|]. split; [reflexivity|]. split; [cbn in L; lia|]. split; [exact Nos|].
    split; [intros x Hx; right; exact Hx|]. intros b. cbn [look]. destruct (Z.eqb_spec to b) as [<-|]; [apply look_none; exact Nx|reflexivity].
  - destruct os as [|x os]; [discriminate|]. destruct ws as [|v ws]; [discriminate|]. cbn [index_of] in E.
    destruct (Z.eqb_spec x to) as [->|Nx]; [discriminate|]. destruct (index_of to os) as [j|] eqn:Ej; [|discriminate]. injection E as ->.
    inversion N as [|? ? Nxo Nos]; subst. destruct (IH os ws Ej ltac:(cbn in L; lia) Nos) as (os' & ws' & H1 & H2 & H3 & H4 & H5 & H6).
    assert (A : forall (A : Type) (y : A) l l', erase_at i l = Ok l' -> erase_at (S i) (y :: l) = Ok (y :: l')).
    { intros A y l l'. unfold erase_at. cbn [length firstn app].
      change (Nat.ltb (S i) (S (length l))) with (Nat.ltb i (length l)). destruct (Nat.ltb i (length l)); [|discriminate]. intros [= <-]. reflexivity. }
    exists (x :: os'), (v :: ws'). split; [apply A; exact H1|]. split; [apply A; exact H2|]. split; [cbn; lia|].
    split; [constructor; [intros Hx; apply H5 in Hx; contradiction|exact H4]|]. split; [cbn [In]; intuition|].
    intros b. cbn [look]. destruct (Z.eqb_spec x b) as [->|Nb]; [destruct (Z.eqb_spec to b); [congruence|reflexivity]|apply H6].
Qed.

(** the entry of each key is as expected *)
Definition rm_inv (m : relmap) (W : addr -> addr -> option Z) : Prop :=
  zm_ok m /\ forall k, length (fst (rm_at m k)) = length (snd (rm_at m k)) /\ NoDup (fst (rm_at m k)) /\
                       forall b, look b (fst (rm_at m k)) (snd (rm_at m k)) = W k b.

Lemma at_set m k p k' : zm_ok m -> rm_at (zm_set k p m) k' = if k' =? k then p else rm_at m k'.
Proof. intros H. unfold rm_at. rewrite zm_get_set by exact H. destruct (k' =? k); reflexivity. Qed.

Lemma add_ok fadd m W f t w : rm_inv m W -> exists m', rm_add fadd m f t w = Ok m' /\
  rm_inv m' (fun f' t' => if (f =? f') && (t =? t') then Some (match W f' t' with None => w | Some v => fadd v w end) else W f' t').
Proof.
  intros [Hm Hk]. destruct (Hk f) as (L & N & E). unfold rm_add. destruct (rm_at m f) as [os ws] eqn:A. cbn [fst snd] in *.
  destruct (upd_ok fadd t w os ws L N) as (os' & ws' & H1 & H2 & H3 & _ & H5). rewrite H1. cbn [bind]. exists (zm_set f (os', ws') m).
  split; [reflexivity|]. split; [apply zm_set_ok; exact Hm|]. intros k. rewrite at_set by exact Hm.
  destruct (Z.eqb_spec k f) as [->|Nk]; cbn [fst snd].
  - split; [exact H2|]. split; [exact H3|]. intros b. rewrite H5, Z.eqb_refl. cbn [andb]. rewrite E.
    destruct (Z.eqb_spec t b) as [->|]; [reflexivity|apply E].
  - destruct (Z.eqb_spec f k); [congruence|]. cbn [andb]. apply Hk.
Qed.

Lemma remove_ok m W f t : rm_inv m W -> exists m', rm_remove m f t = Ok m' /\
  rm_inv m' (fun f' t' => if (f =? f') && (t =? t') then None else W f' t').
Proof.
  intros [Hm Hk]. unfold rm_remove. destruct (zm_get f m) as [[os ws]|] eqn:G.
  - destruct (Hk f) as (L & N & E). unfold rm_at in L, N, E. rewrite G in L, N, E. cbn [fst snd] in *.
    destruct (index_of t os) as [i|] eqn:I.
    + destruct (erase_look t i os ws I L N) as (os' & ws' & H1 & H2 & H3 & H4 & _ & H6). rewrite H1, H2. cbn [bind].
      assert (S : exists m', match os' with [] => Ok (zm_del f m) | _ => Ok (zm_set f (os', ws') m) end = Ok m' /\ zm_ok m' /\
                 (forall k, rm_at m' k = if k =? f then (os', ws') else rm_at m k)).
      { destruct os' as [|o os'].
        - exists (zm_del f m). split; [reflexivity|]. split; [apply zm_del_ok; exact Hm|]. intros k. unfold rm_at. rewrite zm_get_del by exact Hm.
          destruct ws'; [|discriminate]. destruct (k =? f); reflexivity.
        - exists (zm_set f (o :: os', ws') m). split; [reflexivity|]. split; [apply zm_set_ok; exact Hm|]. intros k. apply at_set. exact Hm. }
      destruct S as (m' & S1 & S2 & S3). exists m'. split; [exact S1|]. split; [exact S2|]. intros k. rewrite S3.
      destruct (Z.eqb_spec k f) as [->|Nk]; cbn [fst snd].
      * split; [exact H3|]. split; [exact H4|]. intros b. rewrite H6, Z.eqb_refl. cbn [andb]. destruct (t =? b); [reflexivity|apply E].
      * destruct (Z.eqb_spec f k); [congruence|]. cbn [andb]. apply Hk.
    + exists m. split; [reflexivity|]. split; [exact Hm|]. intros k. destruct (Hk k) as (L2 & N2 & E2). split; [exact L2|]. split; [exact N2|].
      intros b. destruct (Z.eqb_spec f k) as [<-|]; [|apply E2]. destruct (Z.eqb_spec t b) as [<-|]; [|apply E2]. cbn [andb].
      unfold rm_at. rewrite G. apply look_none. exact (index_none _ _ I).
  - exists m. split; [reflexivity|]. split; [exact Hm|]. intros k. destruct (Hk k) as (L2 & N2 & E2). split; [exact L2|]. split; [exact N2|].
    intros b. destruct (Z.eqb_spec f k) as [<-|]; [|apply E2]. destruct (Z.eqb_spec t b) as [<-|]; [|apply E2]. cbn [andb].
    unfold rm_at. rewrite G. reflexivity.
Qed.

Lemma touch_ok m W a : rm_inv m W -> rm_inv (rm_touch m a) W.
Proof.
  intros [Hm Hk]. split; [apply zm_set_ok; exact Hm|]. intros k. unfold rm_touch. rewrite at_set by exact Hm.
  destruct (Z.eqb_spec k a) as [->|]; apply Hk.
Qed.

Lemma inv_ext m W W' : (forall f t, W f t = W' f t) -> rm_inv m W -> rm_inv m W'.
Proof.
  intros E [Hm Hk]. split; [exact Hm|]. intros k. destruct (Hk k) as (L & N & H). split; [exact L|]. split; [exact N|]. intros b. rewrite <- E. apply H.
Qed.

(** ** The navigator *)
Definition nav_inv (n : nav) (W : addr -> addr -> option Z) : Prop := rm_inv (n_map n) W /\ rm_inv (n_rmap n) (fun t f => W f t).

Definition wstep (fadd : Z -> Z -> Z) (W : addr -> addr -> option Z) (c : nav_call) : addr -> addr -> option Z :=
  fun f t => match c with
    | NAdd f' t' w => if (f' =? f) && (t' =? t) then Some (match W f t with None => w | Some v => fadd v w end) else W f t
    | NRemove f' t' => if (f' =? f) && (t' =? t) then None else W f t
    | _ => W f t
    end.

Lemma nav_do_ok fadd n W c : nav_inv n W -> exists n', nav_do fadd n c = Ok n' /\ nav_inv n' (wstep fadd W c) /\ n_from n' = n_from n /\ n_to n' = n_to n.
Proof.
  intros [H1 H2]. destruct c as [f t w|f t|a|a|a|a]; cbn [nav_do].
  - unfold nav_add. destruct (add_ok fadd (n_map n) _ f t w H1) as (m & E & I). rewrite E. cbn [bind].
    destruct (add_ok fadd (n_rmap n) _ t f w H2) as (r & E2 & I2). rewrite E2. cbn [bind]. eexists. split; [reflexivity|].
    split; [|split; reflexivity]. split; cbn [n_map n_rmap]; [exact I|]. revert I2. apply inv_ext. intros t' f'. cbn [wstep].
    rewrite (andb_comm (t =? t') (f =? f')). reflexivity.
  - unfold nav_remove. destruct (remove_ok (n_map n) _ f t H1) as (m & E & I). rewrite E. cbn [bind].
    destruct (remove_ok (n_rmap n) _ t f H2) as (r & E2 & I2). rewrite E2. cbn [bind]. eexists. split; [reflexivity|].
    split; [|split; reflexivity]. split; cbn [n_map n_rmap]; [exact I|]. revert I2. apply inv_ext. intros t' f'. cbn [wstep].
    rewrite (andb_comm (t =? t') (f =? f')). reflexivity.
  - eexists. split; [reflexivity|]. split; [|split; reflexivity]. split; cbn; [apply touch_ok; exact H1|exact H2].
  - eexists. split; [reflexivity|]. split; [|split; reflexivity]. split; cbn; [exact H1|apply touch_ok; exact H2].
  - eexists. split; [reflexivity|]. split; [|split; reflexivity]. split; cbn; [apply touch_ok; exact H1|exact H2].
  - eexists. split; [reflexivity|]. split; [|split; reflexivity]. split; cbn; [exact H1|apply touch_ok; exact H2].
Qed.

Lemma nav_run_ok fadd : forall cs n W, nav_inv n W -> exists n', nav_run fadd n cs = Ok n' /\
  nav_inv n' (fold_left (wstep fadd) cs W) /\ n_from n' = n_from n /\ n_to n' = n_to n.
Proof.
  induction cs as [|c cs IH]; intros n W H; cbn [nav_run fold_left].
  - exists n. split; [reflexivity|]. split; [exact H|]. split; reflexivity.
  - destruct (nav_do_ok fadd n W c H) as (n1 & E & I & F1 & T1). rewrite E. cbn [bind].
    destruct (IH n1 _ I) as (n2 & E2 & I2 & F2 & T2). exists n2. split; [exact E2|]. split; [exact I2|]. split; congruence.
Qed.

Lemma wsteps fadd cs : forall W f t, fold_left (wstep fadd) cs W f t =
  fold_left (fun o c =>
    match c with
    | NAdd f' t' w => if (f' =? f) && (t' =? t) then Some (match o with None => w | Some v => fadd v w end) else o
    | NRemove f' t' => if (f' =? f) && (t' =? t) then None else o
    | _ => o
    end) cs (W f t).
Proof. induction cs as [|c cs IH]; intros W f t; [reflexivity|]. cbn [fold_left]. rewrite IH. reflexivity. Qed.

Lemma empty_inv f t : nav_inv (mkNav [] [] f t) (fun _ _ => None).
Proof. split; (split; [constructor|]); intros k; cbn; (split; [reflexivity|]; split; [constructor|reflexivity]). Qed.

Lemma after_inv fadd f t cs : exists n, nav_run fadd (mkNav [] [] f t) cs = Ok n /\ nav_inv n (weight_after fadd cs) /\ n_from n = f /\ n_to n = t.
Proof.
  destruct (nav_run_ok fadd cs _ _ (empty_inv f t)) as (n & E & [I1 I2] & F & T). exists n. split; [exact E|]. split; [|split; assumption].
  split; [revert I1|revert I2]; apply inv_ext; intros x y; apply wsteps.
Qed.

Definition answers_ok (os : list addr) (ws : list Z) (W : addr -> option Z) : Prop :=
  length os = length ws /\ NoDup os /\ forall b w, related os ws b w <-> W b = Some w.

Lemma inv_answers m W k : rm_inv m W -> answers_ok (fst (rm_at m k)) (snd (rm_at m k)) (W k).
Proof.
  intros [_ H]. destruct (H k) as (L & N & E). split; [exact L|]. split; [exact N|]. intros b w. rewrite related_look by assumption. rewrite E. reflexivity.
Qed.

Lemma nav_answers fadd f t cs : exists n, nav_run fadd (mkNav [] [] f t) cs = Ok n /\ n_from n = f /\ n_to n = t /\
  forall a, answers_ok (to_objects n a) (to_weights n a) (fun b => weight_after fadd cs a b) /\
            answers_ok (from_objects n a) (from_weights n a) (fun b => weight_after fadd cs b a).
Proof.
  destruct (after_inv fadd f t cs) as (n & E & [I1 I2] & F & T). exists n. split; [exact E|]. split; [exact F|]. split; [exact T|].
  intros a. split; [exact (inv_answers _ _ a I1)|exact (inv_answers _ _ a I2)].
Qed.

Lemma nav_symmetric fadd f t cs n : nav_run fadd (mkNav [] [] f t) cs = Ok n -> forall a b w,
  related (to_objects n a) (to_weights n a) b w <-> related (from_objects n b) (from_weights n b) a w.
Proof.
  intros E a b w. destruct (nav_answers fadd f t cs) as (n' & E' & _ & _ & H). rewrite E in E'. injection E' as <-.
  destruct (H a) as [(_ & _ & H1) _]. destruct (H b) as [_ (_ & _ & H2)]. rewrite H1, H2. reflexivity.
Qed.

(** ** The collection of a navigator *)

Lemma upd_app fadd to w : forall os ws, length os = length ws -> ~ In to os -> rel_upd fadd os ws to w = Ok (os ++ [to], ws ++ [w]).
Proof.
  induction os as [|x os IH]; intros [|v ws] L H; try discriminate; [reflexivity|]. cbn [rel_upd In] in *.
  destruct (Z.eqb_spec x to); [tauto|]. rewrite IH by (cbn in L; try lia; tauto). reflexivity.
Qed.

Definition fill_adds (l : list lcrel) : list nav_call := map (fun r => NAdd (re_from r) (re_to r) (re_weight r)) l.

Lemma fill_run fadd l : forall n, nav_fill fadd n (map Some l) = nav_run fadd n (fill_adds l).
Proof. induction l as [|r l IH]; intros n; [reflexivity|]. cbn [map nav_fill fill_adds nav_run nav_do]. destruct (nav_add fadd n _ _ _); cbn [bind]; [apply IH|reflexivity|reflexivity]. Qed.

(** the forward map after one more entry *)
Lemma fill_entry fadd k : forall os ws n W p q, nav_inv n W -> rm_at (n_map n) k = (p, q) -> length os = length ws -> NoDup (p ++ os) ->
  exists n' W', nav_run fadd n (fill_adds (map (fun x => mkREL k (fst x) (snd x)) (combine os ws))) = Ok n' /\ nav_inv n' W' /\
    n_from n' = n_from n /\ n_to n' = n_to n /\
    rm_at (n_map n') k = (p ++ os, q ++ ws) /\ forall k', k' <> k -> rm_at (n_map n') k' = rm_at (n_map n) k'.
Proof.
  induction os as [|x os IH]; intros [|v ws] n W p q I A L N; try discriminate.
  - exists n, W. cbn. rewrite !app_nil_r. split; [reflexivity|]. split; [exact I|]. split; [reflexivity|]. split; [reflexivity|]. split; [exact A|auto].
  - cbn [combine map fill_adds nav_run fst snd re_from re_to re_weight].
    destruct (nav_do_ok fadd n W (NAdd k x v) I) as (n1 & E & I1 & F1 & T1). rewrite E. cbn [bind].
    assert (M : n_map n1 = zm_set k (p ++ [x], q ++ [v]) (n_map n)).
    { cbn [nav_do] in E. unfold nav_add, rm_add in E. rewrite A in E.
      assert (Lpq : length p = length q) by (destruct I as [[_ Ik] _]; destruct (Ik k) as (Lk & _); rewrite A in Lk; exact Lk).
      rewrite upd_app in E; [|exact Lpq|intros Hin; apply NoDup_remove_2 in N; apply N, in_or_app; left; exact Hin].
      cbn [bind] in E. destruct (rm_at (n_rmap n) x) as [vr wr]. destruct (rel_upd fadd vr wr k v); cbn [bind] in E; try discriminate.
      injection E as <-. reflexivity. }
    assert (Hok : zm_ok (n_map n)) by (destruct I as [[Ho _] _]; exact Ho).
    assert (A1 : rm_at (n_map n1) k = (p ++ [x], q ++ [v])) by (rewrite M, at_set by exact Hok; rewrite Z.eqb_refl; reflexivity).
    destruct (IH ws n1 _ (p ++ [x]) (q ++ [v]) I1 A1 ltac:(cbn in L; lia)) as (n2 & W2 & E2 & I2 & F2 & T2 & A2 & O2).
    { rewrite <- app_assoc. exact N. }
    exists n2, W2. split; [exact E2|]. split; [exact I2|]. split; [congruence|]. split; [congruence|].
    split; [rewrite A2, <- !app_assoc; reflexivity|]. intros k' Nk. rewrite O2 by exact Nk. rewrite M, at_set by exact Hok.
    destruct (Z.eqb_spec k' k); [contradiction|reflexivity].
Qed.

Lemma run_app fadd cs cs' : forall n, nav_run fadd n (cs ++ cs') = do n' <- nav_run fadd n cs; nav_run fadd n' cs'.
Proof. induction cs as [|c cs IH]; intros n; [reflexivity|]. cbn [app nav_run]. destruct (nav_do fadd n c); cbn [bind]; [apply IH|reflexivity|reflexivity]. Qed.

Lemma fill_map fadd : forall m l n W, map_rels m = Ok l -> zm_ok m ->
  (forall k os ws, In (k, (os, ws)) m -> length os = length ws /\ NoDup os) ->
  nav_inv n W -> (forall k, In k (map fst m) -> rm_at (n_map n) k = ([], [])) ->
  exists n' W', nav_run fadd n (fill_adds l) = Ok n' /\ nav_inv n' W' /\ n_from n' = n_from n /\ n_to n' = n_to n /\
    forall k, rm_at (n_map n') k = match zm_get k m with Some p => p | None => rm_at (n_map n) k end.
Proof.
  induction m as [|[k [os ws]] m IH]; intros l n W E Hm Hl I H0; cbn [map_rels] in E.
  - injection E as <-. exists n, W. split; [reflexivity|]. split; [exact I|]. split; [reflexivity|]. split; [reflexivity|]. reflexivity.
  - destruct (Hl k os ws (or_introl eq_refl)) as [L N]. unfold entry_rels in E. cbn [fst snd] in E.
    destruct (Nat.ltb_spec (length ws) (length os)); [lia|]. cbn [bind] in E. destruct (map_rels m) as [l'|e|u] eqn:E'; try discriminate. injection E as <-.
    unfold fill_adds. rewrite map_app. rewrite run_app. fold (fill_adds l').
    destruct (fill_entry fadd k os ws n W [] [] I) as (n1 & W1 & E1 & I1 & F1 & T1 & A1 & O1); [apply H0; left; reflexivity|exact L|exact N|].
    unfold fill_adds in E1. rewrite E1. cbn [bind]. apply zm_ok_inv in Hm. destruct Hm as [Hm Hk].
    destruct (IH l' n1 W1 eq_refl Hm) as (n2 & W2 & E2 & I2 & F2 & T2 & A2); [intros; apply (Hl k0); right; assumption|exact I1| |].
    { intros k' Hk'. rewrite O1; [apply H0; right; exact Hk'|]. specialize (Hk k' Hk'). lia. }
    exists n2, W2. split; [exact E2|]. split; [exact I2|]. split; [congruence|]. split; [congruence|]. intros k'. rewrite A2. cbn [zm_get].
    destruct (Z.compare_spec k' k) as [Ek|Lk|Gk].
    + subst. rewrite zm_get_lt by exact Hk. exact A1.
    + rewrite zm_get_lt by (intros x Hx; specialize (Hk x Hx); lia). apply O1. lia.
    + destruct (zm_get k' m); [reflexivity|]. apply O1. lia.
Qed.

Lemma map_rels_ok m : (forall k os ws, In (k, (os, ws)) m -> length os = length ws) -> exists l, map_rels m = Ok l.
Proof.
  induction m as [|[k [os ws]] m IH]; intros H; [exists []; reflexivity|]. destruct IH as [l E]; [intros; apply (H k0); right; assumption|].
  cbn [map_rels]. unfold entry_rels. cbn [fst snd]. specialize (H k os ws (or_introl eq_refl)). destruct (Nat.ltb_spec (length ws) (length os)); [lia|].
  cbn [bind]. rewrite E. cbn [bind]. eexists. reflexivity.
Qed.

Lemma weighted_flag : flag_set_bit 0 LCREL_WEIGHTED = Ok (- 2 ^ 31).
Proof. vm_compute. reflexivity. Qed.

Lemma types_kept f t : let p := fst (par_do false (fst (par_do false no_params (P_setString k_fromtype f))) (P_setString k_totype t)) in
  par_val [] (p_str p) k_fromtype = Ok f /\ par_val [] (p_str p) k_totype = Ok t.
Proof. vm_compute. split; reflexivity. Qed.

Lemma related_combine os ws b w : related os ws b w <-> In (b, w) (combine os ws).
Proof.
  unfold related. revert ws. induction os as [|x os IH]; intros [|v ws]; cbn [combine In].
  - split; [intros ([|i] & H & _); discriminate|tauto].
  - split; [intros ([|i] & H & _); discriminate|tauto].
  - split; [intros ([|i] & _ & H); discriminate|tauto].
  - rewrite <- IH. split.
    + intros ([|i] & H1 & H2); [cbn in *; left; congruence|right; exists i; split; assumption].
    + intros [[= -> ->]|(i & H1 & H2)]; [exists 0%nat; split; reflexivity|exists (S i); split; assumption].
Qed.

Lemma combine_nodup (os : list addr) (ws : list Z) : NoDup os -> NoDup (combine os ws).
Proof.
  revert ws. induction os as [|x os IH]; intros [|v ws] H; try constructor.
  - inversion H as [|? ? Hn _]; subst. intros Hin. apply in_combine_l in Hin. contradiction.
  - inversion H; subst. apply IH. assumption.
Qed.

Lemma answers_perm os ws os' ws' W : answers_ok os ws W -> answers_ok os' ws' W -> Permutation (combine os ws) (combine os' ws').
Proof.
  intros (L & N & H) (L' & N' & H'). apply NoDup_Permutation; [apply combine_nodup; exact N|apply combine_nodup; exact N'|].
  intros [b w]. rewrite <- !related_combine, H, H'. reflexivity.
Qed.

Lemma collection_ok fadd f t cs n : nav_run fadd (mkNav [] [] f t) cs = Ok n ->
  exists c n', nav_collection n = Ok c /\ k_type c = str "LCRelation" /\
    nav_of_collection fadd (k_type c) (k_par c) (map Some (k_rels c)) = Ok n' /\
    n_from n' = f /\ n_to n' = t /\
    forall a, to_objects n' a = to_objects n a /\ to_weights n' a = to_weights n a /\
              length (from_objects n' a) = length (from_weights n' a) /\
              Permutation (combine (from_objects n' a) (from_weights n' a)) (combine (from_objects n a) (from_weights n a)).
Proof.
  intros E. destruct (after_inv fadd f t cs) as (n0 & E0 & I & F & T). rewrite E in E0. injection E0 as <-.
  assert (Hl : forall k os ws, In (k, (os, ws)) (n_map n) -> length os = length ws /\ NoDup os).
  { intros k os ws Hin. destruct I as [[Ho Hk] _]. apply zm_get_In in Hin; [|exact Ho]. destruct (Hk k) as (L & N & _). unfold rm_at in L, N.
    rewrite Hin in L, N. split; assumption. }
  destruct (map_rels_ok (n_map n)) as [l El]; [intros k os ws H; exact (proj1 (Hl _ _ _ H))|].
  unfold nav_collection. rewrite El. cbn [bind].
  assert (Hf : exists fl, (if existsb (fun r => negb (re_weight r =? f32_one)) l then flag_set_bit 0 LCREL_WEIGHTED else Ok 0) = Ok fl).
  { destruct (existsb _ l); [rewrite weighted_flag|]; eexists; reflexivity. }
  destruct Hf as [fl Hf]. rewrite Hf. cbn [bind]. eexists. 
  destruct (fill_map fadd (n_map n) l (mkNav [] [] f t) (fun _ _ => None) El) as (n' & W' & E' & I' & F' & T' & A'); [destruct I as [[Ho _] _]; exact Ho|exact Hl|apply empty_inv|reflexivity|].
  exists n'. split; [reflexivity|]. split; [reflexivity|]. cbn [k_type k_par k_rels].
  split. { unfold nav_of_collection. rewrite F, T. destruct (types_kept f t) as [K1 K2]. rewrite K1. cbn [bind]. rewrite K2. cbn [bind].
    change (bytes_eqb t_relation t_relation) with true. cbv iota. rewrite fill_run. exact E'. }
  split; [exact F'|]. split; [exact T'|].
  assert (A2 : forall k, rm_at (n_map n') k = rm_at (n_map n) k).
  { intros k. rewrite A'. unfold rm_at. destruct (zm_get k (n_map n)); reflexivity. }
  intros a. split; [exact (f_equal fst (A2 a))|]. split; [exact (f_equal snd (A2 a))|].
  pose proof (inv_answers _ _ a (proj2 I')) as B1. pose proof (inv_answers _ _ a (proj2 I)) as B2. cbn beta in B1, B2.
  split; [exact (proj1 B1)|]. apply (answers_perm _ _ _ _ (fun b => W' b a)); [exact B1|].
  destruct B2 as (L2 & N2 & R2). split; [exact L2|]. split; [exact N2|]. intros b w.
  rewrite R2. pose proof (inv_answers _ _ b (proj1 I')) as (_ & _ & R1). pose proof (inv_answers _ _ b (proj1 I)) as (_ & _ & R3).
  rewrite <- (R1 a w), A2, (R3 a w). reflexivity.
Qed.

(** the weights survive storing: the bit of the flag is set when a weight is not 1 *)
Lemma weights_stored n c : nav_collection n = Ok c -> map (stored_lcrel (k_flag c)) (k_rels c) = k_rels c.
Proof.
  unfold nav_collection. destruct (map_rels (n_map n)) as [l|e|u]; cbn [bind]; try discriminate.
  destruct (existsb (fun r => negb (re_weight r =? f32_one)) l) eqn:E.
  - rewrite weighted_flag. cbn [bind]. intros [= <-]. cbn [k_flag k_rels]. rewrite <- (map_id l) at 2. apply map_ext. intros [a b w]. reflexivity.
  - cbn [bind]. intros [= <-]. cbn [k_flag k_rels]. rewrite <- (map_id l) at 2. apply map_ext_in. intros [a b w] Hin.
    assert (w = f32_one).
    { destruct (Z.eqb_spec w f32_one) as [|N]; [assumption|]. exfalso. assert (existsb (fun r => negb (re_weight r =? f32_one)) l = true); [|congruence].
      apply existsb_exists. exists (mkREL a b w). split; [exact Hin|]. cbn. destruct (Z.eqb_spec w f32_one); [contradiction|reflexivity]. }
    subst. reflexivity.
Qed.

(** ** 1-to-1 relations *)
Definition matched (s : rt1) (l : list (addr * addr)) : Prop :=
  (forall f t, In (f, t) l -> f <> 0 /\ t <> 0) /\
  (forall f, f <> 0 -> forall t, t <> 0 -> (r1_to s f = t <-> In (f, t) l)) /\
  (forall t, t <> 0 -> forall f, f <> 0 -> (r1_from s t = f <-> In (f, t) l)) .

Lemma unset_ok s l f : matched s l -> matched (unset_relation s f) (filter (fun p => negb (fst p =? f)) l).
Proof.
  intros (Z0 & T & F). unfold unset_relation.
  assert (Fi : forall f' t', In (f', t') (filter (fun p => negb (fst p =? f)) l) <-> In (f', t') l /\ f' <> f).
  { intros f' t'. rewrite filter_In. cbn [fst]. destruct (Z.eqb_spec f' f); cbn [negb]; intuition congruence. }
  destruct (Z.eqb_spec f 0) as [->|Nf].
  - split; [intros f' t' H; apply Fi in H; apply Z0; tauto|]. split; intros x Hx y Hy.
    + rewrite Fi, T by assumption. tauto.
    + rewrite Fi, F by assumption. tauto.
  - split; [intros f' t' H; apply Fi in H; apply Z0; tauto|]. cbv zeta. cbn [r1_to r1_from]. split; intros x Hx y Hy.
    + rewrite Fi. unfold set_at. destruct (Z.eqb_spec x f) as [->|Nx]; [split; [intros <-; contradiction|tauto]|]. rewrite T by assumption. tauto.
    + rewrite Fi. destruct (Z.eqb_spec (r1_to s f) 0) as [E|N].
      * rewrite F by assumption. split; [|tauto]. intros H. split; [exact H|]. intros ->. apply T in H; [|exact Hy|exact Hx]. congruence.
      * unfold set_at. destruct (Z.eqb_spec x (r1_to s f)) as [->|Nx].
        -- split; [intros <-; contradiction|]. intros [H1 H2]. exfalso.
           assert (H3 : r1_from s (r1_to s f) = y) by (apply F; assumption).
           assert (H4 : r1_from s (r1_to s f) = f) by (apply F; [assumption..|]; apply T; auto). congruence.
        -- rewrite F by assumption. split; [|tauto]. intros H. split; [exact H|]. intros ->. apply T in H; [|exact Hy|exact Hx]. congruence.
Qed.

Lemma set_ok s l f t : matched s l -> f <> 0 -> t <> 0 -> exists s', set_relation s f t = Ok s' /\
  matched s' ((f, t) :: filter (fun p => negb (fst p =? f) && negb (snd p =? t)) l).
Proof.
  intros M Nf Nt. unfold set_relation. destruct (Z.eqb_spec t 0); [contradiction|]. destruct (Z.eqb_spec f 0); [contradiction|]. cbn [orb].
  eexists. split; [reflexivity|]. pose proof (unset_ok s l f M) as M1. set (s1 := unset_relation s f) in *.
  set (l1 := filter (fun p => negb (fst p =? f)) l) in *.
  pose proof (unset_ok s1 l1 (r1_from s1 t) M1) as M2. set (s2 := unset_relation s1 (r1_from s1 t)) in *.
  set (l2 := filter _ l1) in M2.
  assert (I2 : forall f' t', In (f', t') l2 <-> In (f', t') l /\ f' <> f /\ t' <> t).
  { intros f' t'. unfold l2, l1. rewrite !filter_In. cbn [fst].
    destruct (Z.eqb_spec f' f) as [->|N1]; cbn [negb]; [intuition congruence|].
    destruct M1 as (Z1 & T1 & F1). destruct (Z.eqb_spec f' (r1_from s1 t)) as [E|N2]; cbn [negb].
    - split; [intros [_ H]; discriminate|]. intros (H & _ & N3). exfalso. destruct (proj1 M _ _ H) as [Y1 Y2].
      assert (P1 : In (f', t') l1) by (unfold l1; rewrite filter_In; cbn [fst]; destruct (Z.eqb_spec f' f); [contradiction|auto]).
      assert (P2 : In (f', t) l1) by (apply F1; auto).
      apply T1 in P1; [|assumption..]. apply T1 in P2; [|assumption..]. congruence.
    - split; [|intros (H & _ & _); auto]. intros [[H _] _]. split; [exact H|]. split; [exact N1|]. intros ->. apply N2. symmetry.
      destruct (proj1 M _ _ H) as [Y1 Y2]. apply F1; [assumption..|]. unfold l1. rewrite filter_In. cbn [fst]. destruct (Z.eqb_spec f' f); [contradiction|auto]. }
  assert (I3 : forall f' t', In (f', t') (filter (fun p => negb (fst p =? f) && negb (snd p =? t)) l) <-> In (f', t') l2).
  { intros f' t'. rewrite I2, filter_In. cbn [fst snd]. destruct (Z.eqb_spec f' f); destruct (Z.eqb_spec t' t); cbn [negb andb]; intuition congruence. }
  destruct M2 as (Z2 & T2 & F2). split; [|split].
  - intros f' t' [H|H]; [injection H as <- <-; auto|]. apply I3 in H. apply Z2. exact H.
  - intros x Hx y Hy. cbn [r1_to In]. rewrite I3. unfold set_at. destruct (Z.eqb_spec x f) as [->|Nx].
    + split; [intros <-; left; reflexivity|]. intros [H|H]; [congruence|]. apply I2 in H. tauto.
    + rewrite T2 by assumption. split; [auto|]. intros [H|H]; [congruence|exact H].
  - intros x Hx y Hy. cbn [r1_from In]. rewrite I3. unfold set_at. destruct (Z.eqb_spec x t) as [->|Nx].
    + split; [intros <-; left; reflexivity|]. intros [H|H]; [congruence|]. apply I2 in H. tauto.
    + rewrite F2 by assumption. split; [auto|]. intros [H|H]; [congruence|exact H].
Qed.

Lemma run1_ok cs : forall s l, matched s l -> no_null1 cs -> exists s', run1 s cs = Ok s' /\
  matched s' (fold_left (fun l c =>
    match c with
    | Set1 f t => (f, t) :: filter (fun p => negb (fst p =? f) && negb (snd p =? t)) l
    | Unset1 f => filter (fun p => negb (fst p =? f)) l
    end) cs l).
Proof.
  induction cs as [|c cs IH]; intros s l M N; cbn [run1 fold_left]; [exists s; auto|]. inversion N as [|? ? Nc Ncs]; subst.
  destruct c as [f t|f]; cbn [do1].
  - destruct Nc as [Nf Nt]. destruct (set_ok s l f t M Nf Nt) as (s1 & E & M1). rewrite E. cbn [bind]. exact (IH s1 _ M1 Ncs).
  - cbn [bind]. exact (IH _ _ (unset_ok s l f M) Ncs).
Qed.

Lemma empty_matched : matched empty1 [].
Proof. split; [intros f t []|]. split; intros x Hx y Hy; cbn; split; [congruence|tauto|congruence|tauto]. Qed.

Lemma one_to_one_ok cs : no_null1 cs -> exists s, run1 empty1 cs = Ok s /\
  (forall f t, f <> 0 -> t <> 0 -> (r1_to s f = t <-> In (f, t) (pairs_after cs)) /\ (r1_from s t = f <-> In (f, t) (pairs_after cs))) /\
  (forall f t, f <> 0 -> t <> 0 -> (r1_to s f = t <-> r1_from s t = f)).
Proof.
  intros N. destruct (run1_ok cs empty1 [] empty_matched N) as (s & E & Z0 & T & F). exists s. split; [exact E|]. split.
  - intros f t Hf Ht. split; [apply T|apply F]; assumption.
  - intros f t Hf Ht. rewrite T, F by assumption. reflexivity.
Qed.

(** ** N-to-N relations *)
Lemma copies_app x l l' : copies x (l ++ l') = (copies x l + copies x l')%nat.
Proof. unfold copies. apply count_occ_app. Qed.

Lemma copies_one x y : copies x [y] = if y =? x then 1%nat else 0%nat.
Proof. unfold copies. cbn. destruct (Z.eq_dec y x) as [->|N]; [rewrite Z.eqb_refl|destruct (Z.eqb_spec y x); [contradiction|]]; reflexivity. Qed.

Lemma copies_remove x y l : copies x (list_remove y l) = if y =? x then 0%nat else copies x l.
Proof.
  unfold copies, list_remove. induction l as [|z l IH]; cbn [filter count_occ]; [destruct (y =? x); reflexivity|].
  destruct (Z.eqb_spec z y) as [E|N]; cbn [negb].
  - rewrite IH. destruct (Z.eq_dec z x); destruct (Z.eqb_spec y x); congruence.
  - cbn [count_occ]. rewrite IH. destruct (Z.eq_dec z x); destruct (Z.eqb_spec y x); congruence.
Qed.

Definition counted (s : rtn) (C : addr -> addr -> nat) : Prop :=
  forall f t, copies t (rn_to s f) = C f t /\ copies f (rn_from s t) = C f t.

Definition cstep (C : addr -> addr -> nat) (c : calln) : addr -> addr -> nat :=
  fun f t => match c with
    | AddN f' t' => if (f' =? f) && (t' =? t) then S (C f t) else C f t
    | RemoveN f' t' => if (f' =? f) && (t' =? t) then 0%nat else C f t
    | RemoveAllN f' => if f' =? f then 0%nat else C f t
    | MergeN _ _ => C f t
    end.

Lemma fold_remove f l : forall g t x, copies x (fold_left (fun g t => set_at g t (list_remove f (g t))) l g t) =
  if existsb (Z.eqb t) l && (f =? x) then 0%nat else copies x (g t).
Proof.
  induction l as [|y l IH]; intros g t x; cbn [fold_left existsb]; [reflexivity|]. rewrite IH. unfold set_at.
  destruct (Z.eqb_spec t y) as [->|N]; cbn [orb]; [|destruct (existsb (Z.eqb t) l && (f =? x)); reflexivity].
  rewrite copies_remove. destruct (f =? x); rewrite ?andb_true_r, ?andb_false_r; [destruct (existsb (Z.eqb y) l); reflexivity|reflexivity].
Qed.

Lemma existsb_copies t l : existsb (Z.eqb t) l = true <-> copies t l <> 0%nat.
Proof.
  unfold copies. rewrite existsb_exists. split.
  - intros (x & Hx & E). apply Z.eqb_eq in E. subst. apply (count_occ_In Z.eq_dec) in Hx. lia.
  - intros H. exists t. split; [apply (count_occ_In Z.eq_dec); lia|apply Z.eqb_refl].
Qed.

Lemma don_ok s C c : counted s C -> match c with AddN f t | RemoveN f t => f <> 0 /\ t <> 0 | RemoveAllN f => f <> 0 | MergeN _ _ => False end ->
  exists s', don s c = Ok s' /\ counted s' (cstep C c).
Proof.
  intros H Hc. destruct c as [f t|f t|f|f1 f2]; cbn [don]; [| | |destruct Hc].
  - destruct Hc as [Nf Nt]. unfold add_relation. destruct (Z.eqb_spec f 0); [contradiction|]. destruct (Z.eqb_spec t 0); [contradiction|]. cbn [orb].
    eexists. split; [reflexivity|]. intros f' t'. destruct (H f' t') as [H1 H2]. cbn [rn_to rn_from cstep]. unfold set_at. split.
    + rewrite (Z.eqb_sym f' f). destruct (Z.eqb_spec f f') as [<-|]; cbn [andb]; [|exact H1]. rewrite copies_app, copies_one, H1. destruct (t =? t'); lia.
    + rewrite (Z.eqb_sym t' t). rewrite andb_comm. destruct (Z.eqb_spec t t') as [<-|]; cbn [andb]; [|exact H2]. rewrite copies_app, copies_one, H2. destruct (f =? f'); lia.
  - destruct Hc as [Nf Nt]. unfold remove_relation. destruct (Z.eqb_spec f 0); [contradiction|]. destruct (Z.eqb_spec t 0); [contradiction|]. cbn [orb].
    eexists. split; [reflexivity|]. intros f' t'. destruct (H f' t') as [H1 H2]. cbn [rn_to rn_from cstep]. unfold set_at. split.
    + rewrite (Z.eqb_sym f' f). destruct (Z.eqb_spec f f') as [<-|]; cbn [andb]; [|exact H1]. rewrite copies_remove, H1. reflexivity.
    + rewrite (Z.eqb_sym t' t). rewrite andb_comm. destruct (Z.eqb_spec t t') as [<-|]; cbn [andb]; [|exact H2]. rewrite copies_remove, H2. reflexivity.
  - unfold remove_relations. destruct (Z.eqb_spec f 0); [contradiction|]. eexists. split; [reflexivity|]. intros f' t'. destruct (H f' t') as [H1 H2].
    cbn [rn_to rn_from cstep]. split.
    + unfold set_at. rewrite (Z.eqb_sym f' f). destruct (f =? f'); [reflexivity|exact H1].
    + rewrite fold_remove. destruct (Z.eqb_spec f f') as [<-|]; [|rewrite andb_false_r; exact H2]. rewrite andb_true_r.
      destruct (existsb (Z.eqb t') (rn_to s f)) eqn:E; [reflexivity|]. rewrite H2, <- H1.
      destruct (copies t' (rn_to s f)) eqn:K; [reflexivity|]. exfalso. assert (existsb (Z.eqb t') (rn_to s f) = true) by (apply existsb_copies; lia). congruence.
Qed.

Lemma runn_ok cs : forall s C, counted s C -> plain_n cs -> exists s', runn s cs = Ok s' /\ counted s' (fold_left cstep cs C).
Proof.
  induction cs as [|c cs IH]; intros s C H N; cbn [runn fold_left]; [exists s; auto|]. inversion N as [|? ? Nc Ncs]; subst.
  destruct (don_ok s C c H Nc) as (s1 & E & H1). rewrite E. cbn [bind]. exact (IH s1 _ H1 Ncs).
Qed.

Lemma csteps cs : forall C f t, fold_left cstep cs C f t =
  fold_left (fun n c =>
    match c with
    | AddN f' t' => if (f' =? f) && (t' =? t) then S n else n
    | RemoveN f' t' => if (f' =? f) && (t' =? t) then 0%nat else n
    | RemoveAllN f' => if f' =? f then 0%nat else n
    | MergeN _ _ => n
    end) cs (C f t).
Proof. induction cs as [|c cs IH]; intros C f t; [reflexivity|]. cbn [fold_left]. rewrite IH. reflexivity. Qed.

Lemma n_to_n_ok cs : plain_n cs -> exists s, runn emptyn cs = Ok s /\
  forall f t, copies t (rn_to s f) = copies_after cs f t /\ copies f (rn_from s t) = copies_after cs f t.
Proof.
  intros N. destruct (runn_ok cs emptyn (fun _ _ => 0%nat)) as (s & E & H); [intros f t; split; reflexivity|exact N|].
  exists s. split; [exact E|]. intros f t. destruct (H f t) as [H1 H2]. rewrite csteps in H1, H2. split; assumption.
Qed.

(** merging two sorted lists of links *)
Lemma merge_copies x : forall l1 l2, copies x (list_merge l1 l2) = (copies x l1 + copies x l2)%nat.
Proof.
  induction l1 as [|a l1 IH]; [reflexivity|]. induction l2 as [|b l2 IH2]; [cbn; lia|]. cbn [list_merge].
  destruct (b <? a).
  - change ((fix inner (l2 : list addr) : list addr := match l2 with [] => a :: l1 | y :: l2' => if y <? a then y :: inner l2' else a :: list_merge l1 l2 end) l2)
      with (list_merge (a :: l1) l2). unfold copies in *. cbn [count_occ] in *. rewrite IH2. destruct (Z.eq_dec b x); destruct (Z.eq_dec a x); lia.
  - unfold copies in *. cbn [count_occ]. rewrite IH. cbn [count_occ]. destruct (Z.eq_dec b x); destruct (Z.eq_dec a x); lia.
Qed.

Lemma fold_merge f1 f2 : f1 <> f2 -> forall l g t x,
  copies x (fold_left (fun g t => let g1 := set_at g t (list_remove f2 (g t)) in set_at g1 t (g1 t ++ [f1])) l g t) =
  if x =? f1 then (copies x (g t) + copies t l)%nat
  else if (x =? f2) && existsb (Z.eqb t) l then 0%nat else copies x (g t).
Proof.
  intros N. induction l as [|y l IH]; intros g t x; cbn [fold_left existsb].
  - unfold copies. cbn [count_occ]. rewrite andb_false_r. destruct (x =? f1); [lia|reflexivity].
  - cbv zeta. rewrite IH. cbv zeta. unfold set_at at 1 2 3. destruct (Z.eqb_spec t y) as [->|Ny]; cbn [orb].
    + unfold set_at. rewrite Z.eqb_refl. rewrite copies_app, copies_one, copies_remove. rewrite (Z.eqb_sym f1 x), (Z.eqb_sym f2 x).
      unfold copies. cbn [count_occ]. destruct (Z.eq_dec y y); [|congruence]. destruct (Z.eqb_spec x f1) as [->|N1].
      * destruct (Z.eqb_spec f1 f2); [contradiction|]. lia.
      * rewrite andb_true_r. destruct (x =? f2); [destruct (existsb (Z.eqb y) l); reflexivity|]. cbn [andb]. lia.
    + unfold set_at. destruct (Z.eqb_spec t y); [contradiction|]. unfold copies. cbn [count_occ].
      destruct (Z.eq_dec y t); [congruence|]. reflexivity.
Qed.

Lemma merge_ok s C f1 f2 : counted s C -> f1 <> 0 -> f2 <> 0 -> f1 <> f2 -> sortedb (rn_to s f1) = true -> sortedb (rn_to s f2) = true ->
  exists s', merge_relations s f1 f2 = Ok s' /\
    counted s' (fun f t => if f =? f1 then (C f1 t + C f2 t)%nat else if f =? f2 then 0%nat else C f t).
Proof.
  intros H N1 N2 N S1 S2. unfold merge_relations. destruct (Z.eqb_spec f1 0); [contradiction|]. destruct (Z.eqb_spec f2 0); [contradiction|].
  destruct (Z.eqb_spec f1 f2); [contradiction|]. cbn [orb]. rewrite S1, S2. cbn [andb negb]. eexists. split; [reflexivity|].
  intros f t. cbn [rn_to rn_from]. split.
  - unfold set_at. destruct (Z.eqb_spec f f2) as [->|]; [destruct (Z.eqb_spec f2 f1); [congruence|reflexivity]|].
    destruct (Z.eqb_spec f f1) as [->|]; [|apply H]. rewrite merge_copies. rewrite (proj1 (H f1 t)), (proj1 (H f2 t)). reflexivity.
  - rewrite (fold_merge f1 f2 N). destruct (Z.eqb_spec f f1) as [->|]; [rewrite (proj2 (H f1 t)), (proj1 (H f2 t)); reflexivity|].
    destruct (Z.eqb_spec f f2) as [->|]; cbn [andb]; [|apply H]. destruct (existsb (Z.eqb t) (rn_to s f2)) eqn:E; [reflexivity|].
    rewrite (proj2 (H f2 t)), <- (proj1 (H f2 t)). destruct (copies t (rn_to s f2)) eqn:K; [reflexivity|]. exfalso.
    assert (existsb (Z.eqb t) (rn_to s f2) = true) by (apply existsb_copies; lia). congruence.
Qed.

(** ** 1-to-N relations *)
Definition owned (s : rt1n) (o : addr -> addr) : Prop :=
  (forall t, ro_from s t = o t) /\ forall f t, f <> 0 -> (In t (ro_to s f) <-> (o t = f /\ t <> 0)).

Lemma In_remove x y l : In x (list_remove y l) <-> In x l /\ x <> y.
Proof. unfold list_remove. rewrite filter_In. destruct (Z.eqb_spec x y); cbn [negb]; intuition congruence. Qed.

Lemma fold_zero l : forall g t, fold_left (fun g t => set_at g t 0) l g t = if existsb (Z.eqb t) l then 0 else g t.
Proof.
  induction l as [|y l IH]; intros g t; cbn [fold_left existsb]; [reflexivity|]. rewrite IH. unfold set_at.
  destruct (Z.eqb_spec t y) as [->|]; cbn [orb]; [destruct (existsb (Z.eqb y) l); reflexivity|reflexivity].
Qed.

Lemma careful_ok cs : forall s o, owned s o -> o 0 = 0 -> careful o cs -> exists s', run1n s cs = Ok s' /\
  owned s' (fold_left (fun o c =>
    match c with
    | AddN f t => fun x => if x =? t then f else o x
    | RemoveN f t => fun x => if x =? t then 0 else o x
    | RemoveAllN f => fun x => if o x =? f then 0 else o x
    | MergeN _ _ => o
    end) cs o).
Proof.
  induction cs as [|c cs IH]; intros s o [HF HT] O0 Hc; cbn [run1n fold_left]; [exists s; split; [reflexivity|split; assumption]|].
  destruct c as [f t|f t|f|f1 f2]; cbn [careful] in Hc; [| | |destruct Hc].
  - destruct Hc as (Nf & Nt & Ot & Hc). cbn [do1n]. unfold add_relation_1n. destruct (Z.eqb_spec f 0); [contradiction|]. destruct (Z.eqb_spec t 0); [contradiction|]. cbn [orb bind].
    apply IH; [|destruct (Z.eqb_spec 0 t); [congruence|exact O0]|exact Hc]. split; cbn [ro_from ro_to].
    + intros x. unfold set_at. destruct (x =? t); [reflexivity|apply HF].
    + intros f' x Nf'. unfold set_at. destruct (Z.eqb_spec f' f) as [->|N]; [rewrite in_app_iff; cbn [In]|]; rewrite HT by assumption.
      * destruct (Z.eqb_spec x t) as [->|Nx]; [tauto|]. intuition congruence.
      * destruct (Z.eqb_spec x t) as [->|Nx]; [intuition congruence|tauto].
  - destruct Hc as (Nf & Nt & Ot & Hc). cbn [do1n]. unfold remove_relation_1n. destruct (Z.eqb_spec f 0); [contradiction|]. destruct (Z.eqb_spec t 0); [contradiction|]. cbn [orb bind].
    apply IH; [|destruct (0 =? t); [reflexivity|exact O0]|exact Hc]. split; cbn [ro_from ro_to].
    + intros x. unfold set_at. destruct (x =? t); [reflexivity|apply HF].
    + intros f' x Nf'. unfold set_at. destruct (Z.eqb_spec f' f) as [->|N]; [rewrite In_remove|]; rewrite HT by assumption.
      * destruct (Z.eqb_spec x t) as [->|Nx]; intuition congruence.
      * destruct (Z.eqb_spec x t) as [->|Nx]; intuition congruence.
  - destruct Hc as [Nf Hc]. cbn [do1n]. unfold remove_relations_1n. destruct (Z.eqb_spec f 0); [contradiction|]. cbn [bind].
    apply IH; [|rewrite O0; destruct (0 =? f); reflexivity|exact Hc]. split; cbn [ro_from ro_to].
    + intros x. rewrite fold_zero. destruct (existsb (Z.eqb x) (ro_to s f)) eqn:E.
      * apply existsb_exists in E. destruct E as (y & Hy & E). apply Z.eqb_eq in E. subst y. apply HT in Hy; [|exact Nf]. destruct Hy as [Hy _].
        rewrite Hy, Z.eqb_refl. reflexivity.
      * rewrite HF. destruct (Z.eqb_spec (o x) f) as [E2|]; [|reflexivity]. exfalso.
        assert (existsb (Z.eqb x) (ro_to s f) = true); [|congruence]. apply existsb_exists. exists x. split; [|apply Z.eqb_refl]. apply HT; [exact Nf|].
        split; [exact E2|]. intros ->. congruence.
    + intros f' x Nf'. unfold set_at. destruct (Z.eqb_spec f' f) as [->|N]; cbn [In].
      * split; [tauto|]. intros [H _]. destruct (Z.eqb_spec (o x) f); congruence.
      * rewrite HT by assumption. destruct (Z.eqb_spec (o x) f) as [E|]; intuition congruence.
Qed.

Lemma one_to_n_ok cs : careful (fun _ => 0) cs -> exists s, run1n empty1n cs = Ok s /\
  (forall t, ro_from s t = owner_after cs t) /\ forall f t, f <> 0 -> t <> 0 -> (In t (ro_to s f) <-> ro_from s t = f).
Proof.
  intros Hc. destruct (careful_ok cs empty1n (fun _ => 0)) as (s & E & HF & HT); [|reflexivity|exact Hc|].
  - split; [reflexivity|]. intros f t Nf. cbn. split; [tauto|]. intros [H _]. congruence.
  - exists s. split; [exact E|]. split; [exact HF|]. intros f t Nf Nt. rewrite HT by exact Nf. rewrite HF. tauto.
Qed.

(** any program without undefined behaviour *)
Lemma don_counted s c s' C : counted s C -> don s c = Ok s' -> match c with MergeN f1 f2 => f1 <> f2 | _ => True end -> exists C', counted s' C'.
Proof.
  intros H E Hc. destruct c as [f t|f t|f|f1 f2].
  - destruct (Z.eqb_spec f 0) as [->|Nf]; [discriminate E|]. destruct (Z.eqb_spec t 0) as [->|Nt].
    { cbn [don] in E. unfold add_relation in E. rewrite Z.eqb_refl, orb_true_r in E. discriminate. }
    destruct (don_ok s C (AddN f t) H (conj Nf Nt)) as (s1 & E1 & H1). rewrite E in E1. injection E1 as <-. eauto.
  - destruct (Z.eqb_spec f 0) as [->|Nf]; [discriminate E|]. destruct (Z.eqb_spec t 0) as [->|Nt].
    { cbn [don] in E. unfold remove_relation in E. rewrite Z.eqb_refl, orb_true_r in E. discriminate. }
    destruct (don_ok s C (RemoveN f t) H (conj Nf Nt)) as (s1 & E1 & H1). rewrite E in E1. injection E1 as <-. eauto.
  - destruct (Z.eqb_spec f 0) as [->|Nf]; [discriminate E|].
    destruct (don_ok s C (RemoveAllN f) H Nf) as (s1 & E1 & H1). rewrite E in E1. injection E1 as <-. eauto.
  - cbn [don] in E. destruct (Z.eqb_spec f1 0) as [->|N1]; [discriminate E|]. destruct (Z.eqb_spec f2 0) as [->|N2].
    { unfold merge_relations in E. rewrite Z.eqb_refl, orb_true_r in E. discriminate. }
    destruct (sortedb (rn_to s f1)) eqn:S1; [destruct (sortedb (rn_to s f2)) eqn:S2|].
    + destruct (merge_ok s C f1 f2 H N1 N2 Hc S1 S2) as (s1 & E1 & H1). rewrite E in E1. injection E1 as <-. eauto.
    + exfalso. unfold merge_relations in E. destruct (Z.eqb_spec f1 0); [contradiction|]. destruct (Z.eqb_spec f2 0); [contradiction|].
      destruct (Z.eqb_spec f1 f2); [contradiction|]. cbn [orb] in E. rewrite S1, S2 in E. discriminate.
    + exfalso. unfold merge_relations in E. destruct (Z.eqb_spec f1 0); [contradiction|]. destruct (Z.eqb_spec f2 0); [contradiction|].
      destruct (Z.eqb_spec f1 f2); [contradiction|]. cbn [orb] in E. rewrite S1 in E. discriminate.
Qed.

Lemma runn_symmetric cs s : no_self_merge cs -> runn emptyn cs = Ok s -> forall f t, copies t (rn_to s f) = copies f (rn_from s t).
Proof.
  intros N E. assert (G : forall cs s0 C s, counted s0 C -> no_self_merge cs -> runn s0 cs = Ok s -> exists C', counted s C').
  { clear. induction cs as [|c cs IH]; intros s0 C s H N E; cbn [runn] in E; [injection E as <-; eauto|]. inversion N as [|? ? Nc Ncs]; subst.
    destruct (don s0 c) as [s1|e|u] eqn:Ed; cbn [bind] in E; try discriminate.
    destruct (don_counted s0 c s1 C H Ed) as [C1 H1]; [destruct c; exact Nc|]. exact (IH s1 C1 s H1 Ncs E). }
  destruct (G cs emptyn (fun _ _ => 0%nat) s) as [C H]; [intros f t; split; reflexivity|exact N|exact E|].
  intros f t. destruct (H f t) as [H1 H2]. congruence.
Qed.

(** * The run/event index: proofs *)

From Coq Require Import Sorted.
From Verif Require Import Bytes StrMap SioModel SioProofs SioRecord SioRead SioFrame SioSpec Ieee ObjModel ObjSpec ObjProofs
  ObjCalls CollSpec CollProofs ListFacts EventModel EventSpec EventProofs IndexModel IndexSpec.

(** ** The order *)

Lemma re_norm k : key_ok k -> re_of64 (re_to64 k) = k.
Proof.
  destruct k as [r e]. intros [Hr He]. unfold re_of64, re_to64, int32 in *. cbn [fst snd] in *.
  rewrite Z.div_add_l by (unfold two32; lia). rewrite Z.div_small by (unfold two32; lia). rewrite Z.add_0_r.
  rewrite (s32_id r) by (unfold is_i32, two31; lia). f_equal.
  unfold s32 at 1. rewrite Z.add_comm, Z.mod_add by (unfold two32; lia). rewrite Zmod_mod. change (s32 e = e).
  apply s32_id. unfold is_i32, two31. lia.
Qed.

Lemma re_lt_spec a b : re_lt a b = true <->
  (snd a < 0 /\ 0 <= snd b) \/ (snd a < 0 /\ snd b < 0 /\ fst a < fst b) \/
  (0 <= snd a /\ 0 <= snd b /\ (fst a < fst b \/ (fst a = fst b /\ snd a < snd b))).
Proof.
  unfold re_lt. destruct (Z.ltb_spec (snd a) 0), (Z.ltb_spec (snd b) 0).
  - rewrite Z.ltb_lt. lia.
  - split; [intros _; lia|reflexivity].
  - split; [discriminate|lia].
  - destruct (Z.eqb_spec (fst a) (fst b)); rewrite Z.ltb_lt; lia.
Qed.
Lemma re_lt_irrefl a : re_lt a a = false.
Proof. destruct (re_lt a a) eqn:E; [|reflexivity]. apply re_lt_spec in E. lia. Qed.
Lemma re_lt_trans a b c : re_lt a b = true -> re_lt b c = true -> re_lt a c = true.
Proof. rewrite !re_lt_spec. lia. Qed.
Lemma re_same a b : same_key a b <-> re_lt a b = false /\ re_lt b a = false.
Proof.
  split.
  - intros H. split; apply not_true_is_false; intros E; apply re_lt_spec in E; destruct H as [->|H]; lia.
  - intros [E1 E2].
    assert (N1 : ~ re_lt a b = true) by (rewrite E1; discriminate). assert (N2 : ~ re_lt b a = true) by (rewrite E2; discriminate).
    rewrite re_lt_spec in N1, N2. destruct a as [ra ea], b as [rb eb]; unfold same_key; cbn [fst snd] in *.
    destruct (Z_lt_le_dec ea 0), (Z_lt_le_dec eb 0); try lia. left. f_equal; lia.
Qed.
Lemma same_keyb_iff a b : same_keyb a b = true <-> same_key a b.
Proof.
  unfold same_keyb, same_key. destruct a as [ra ea], b as [rb eb]; cbn [fst snd].
  rewrite andb_true_iff, orb_true_iff, andb_true_iff, !Z.eqb_eq, !Z.ltb_lt. split.
  - intros [-> [->|H]]; [left; reflexivity|right; lia].
  - intros [H|H]; [injection H as -> ->; lia|lia].
Qed.
Lemma same_refl a : same_key a a. Proof. left. reflexivity. Qed.
Lemma same_sym a b : same_key a b -> same_key b a.
Proof. rewrite !re_same. tauto. Qed.
Lemma same_trans a b c : same_key a b -> same_key b c -> same_key a c.
Proof. unfold same_key. intros [->|H] [<-|H']; try tauto; try (left; reflexivity); right; lia. Qed.
Lemma re_lt_same_l a b c : same_key a b -> re_lt a c = re_lt b c.
Proof.
  intros H. destruct (re_lt a c) eqn:E1, (re_lt b c) eqn:E2; try reflexivity; exfalso.
  - apply re_lt_spec in E1. assert (N : ~ re_lt b c = true) by (rewrite E2; discriminate). rewrite re_lt_spec in N.
    destruct H as [->|H]; lia.
  - apply re_lt_spec in E2. assert (N : ~ re_lt a c = true) by (rewrite E1; discriminate). rewrite re_lt_spec in N.
    destruct H as [->|H]; lia.
Qed.
Lemma re_lt_same_r a b c : same_key a b -> re_lt c a = re_lt c b.
Proof.
  intros H. destruct (re_lt c a) eqn:E1, (re_lt c b) eqn:E2; try reflexivity; exfalso.
  - apply re_lt_spec in E1. assert (N : ~ re_lt c b = true) by (rewrite E2; discriminate). rewrite re_lt_spec in N.
    destruct H as [->|H]; lia.
  - apply re_lt_spec in E2. assert (N : ~ re_lt c a = true) by (rewrite E1; discriminate). rewrite re_lt_spec in N.
    destruct H as [->|H]; lia.
Qed.
Lemma re_lt_total a b : re_lt a b = false -> ~ same_key a b -> re_lt b a = true.
Proof. intros E N. destruct (re_lt b a) eqn:E2; [reflexivity|]. exfalso. apply N. apply re_same. auto. Qed.

(** ** The map *)

Definition sorted (m : list (runevt * Z)) : Prop := StronglySorted (fun a b => re_lt (fst a) (fst b) = true) m.

Lemma rm_find_head k m : sorted m -> Forall (fun e => re_lt k (fst e) = true) m -> rm_find k m = None.
Proof. intros _ F. destruct m as [|[k' p] m]; [reflexivity|]. inversion F as [|? ? H]; subst. cbn [rm_find fst] in *. rewrite H. reflexivity. Qed.

(** what [std::map::insert] does with a sorted list *)
Lemma rm_insert_spec k pos m : sorted m ->
  exists b m', rm_insert k pos m = (m', b) /\ sorted m' /\
    (forall k', rm_find k' m' = if same_keyb k k' then Some pos else rm_find k' m) /\
    (if b then (forall e, In e m -> ~ same_key k (fst e)) /\ exists m1 m2, m = m1 ++ m2 /\ m' = m1 ++ (k, pos) :: m2
     else exists m1 k0 p0 m2, m = m1 ++ (k0, p0) :: m2 /\ m' = m1 ++ (k0, pos) :: m2 /\ same_key k k0).
Proof.
  intros H. induction H as [|[k0 p0] m Hs IH Hf].
  - exists true, [(k, pos)]. split; [reflexivity|]. split; [repeat constructor|]. split.
    + intros k'. cbn [rm_find]. destruct (same_keyb k k') eqn:E.
      * apply same_keyb_iff in E. apply same_sym, re_same in E. destruct E as [-> ->]. reflexivity.
      * destruct (re_lt k' k) eqn:E2; [reflexivity|]. rewrite (re_lt_total _ _ E2); [reflexivity|].
        intros N. apply same_sym, same_keyb_iff in N. congruence.
    + split; [intros e []|]. exists [], []. auto.
  - cbn [rm_insert]. destruct (re_lt k k0) eqn:E1.
    + exists true, ((k, pos) :: (k0, p0) :: m). split; [reflexivity|].
      assert (Hall : Forall (fun e => re_lt k (fst e) = true) ((k0, p0) :: m)).
      { constructor; [exact E1|]. eapply Forall_impl; [|exact Hf]. intros e He. eapply re_lt_trans; eassumption. }
      split; [constructor; [constructor; assumption|exact Hall]|]. split.
      * intros k'. cbn [rm_find]. destruct (same_keyb k k') eqn:E.
        -- apply same_keyb_iff in E. apply same_sym, re_same in E. destruct E as [-> ->]. reflexivity.
        -- destruct (re_lt k' k) eqn:E2.
           ++ replace (re_lt k' k0) with true by (symmetry; eapply re_lt_trans; eassumption). reflexivity.
           ++ rewrite (re_lt_total _ _ E2); [reflexivity|]. intros N. apply same_sym, same_keyb_iff in N. congruence.
      * split; [|exists [], ((k0, p0) :: m); auto].
        intros e He N. rewrite Forall_forall in Hall. apply Hall in He. apply re_same in N. destruct N as [N _]. congruence.
    + destruct (re_lt k0 k) eqn:E2.
      * destruct IH as (b & m' & Ei & Hs' & Hfind & Hb). rewrite Ei. exists b, ((k0, p0) :: m'). split; [reflexivity|].
        split.
        { constructor; [exact Hs'|]. destruct b.
          - destruct Hb as [_ (m1 & m2 & -> & ->)]. apply Forall_app in Hf. apply Forall_app. split; [apply Hf|]. constructor; [exact E2|apply Hf].
          - destruct Hb as (m1 & k1 & p1 & m2 & -> & -> & Hk). apply Forall_app in Hf. destruct Hf as [F1 F2]. inversion F2; subst.
            apply Forall_app. split; [assumption|]. constructor; assumption. }
        split.
        { intros k'. cbn [rm_find]. rewrite Hfind. destruct (same_keyb k k') eqn:E; [|reflexivity].
          apply same_keyb_iff in E. rewrite <- (re_lt_same_l k k' k0 E), <- (re_lt_same_r k k' k0 E), E1, E2. reflexivity. }
        destruct b.
        { destruct Hb as [Hn (m1 & m2 & -> & ->)]. split.
          - intros e [<-|He]; [|apply Hn; exact He]. intros N. apply re_same in N. cbn [fst] in N. destruct N. congruence.
          - exists ((k0, p0) :: m1), m2. auto. }
        { destruct Hb as (m1 & k1 & p1 & m2 & -> & -> & Hk). exists ((k0, p0) :: m1), k1, p1, m2. auto. }
      * assert (Hk : same_key k k0) by (apply re_same; auto).
        exists false, ((k0, pos) :: m). split; [reflexivity|]. split; [constructor; assumption|]. split.
        { intros k'. cbn [rm_find]. destruct (same_keyb k k') eqn:E.
          - apply same_keyb_iff in E. assert (N : same_key k' k0) by (eapply same_trans; [apply same_sym|]; eassumption).
            apply re_same in N. destruct N as [-> ->]. reflexivity.
          - assert (N : ~ same_key k' k0).
            { intros N. assert (same_key k k') by (eapply same_trans; [exact Hk|apply same_sym; exact N]).
              apply same_keyb_iff in H. congruence. }
            destruct (re_lt k' k0) eqn:E3; [reflexivity|]. rewrite (re_lt_total _ _ E3 N). reflexivity. }
        { exists [], k0, p0, m. auto. }
Qed.

Definition negs (m : list (runevt * Z)) := filter (fun e : runevt * Z => snd (fst e) <? 0) m.
Definition nons (m : list (runevt * Z)) := filter (fun e : runevt * Z => negb (snd (fst e) <? 0)) m.

(** what holds of every index *)
Record remap_ok (m : remap) : Prop := mkROK {
  ro_sorted : sorted (rm_map m);
  ro_keys : Forall entry_ok (rm_map m);
  ro_nrun : rm_nrun m = Zlen (negs (rm_map m));
  ro_nevt : rm_nevt m = Zlen (nons (rm_map m)) }.

Lemma no_remap_ok : remap_ok no_remap.
Proof. constructor; try reflexivity; constructor. Qed.

Lemma same_neg a b : same_key a b -> (snd a <? 0) = (snd b <? 0).
Proof. intros [->|H]; [reflexivity|lia]. Qed.

Lemma rm_add_spec m e : remap_ok m -> entry_ok e ->
  remap_ok (rm_add m (fst e) (snd e)) /\
  (forall k, rm_find k (rm_map (rm_add m (fst e) (snd e))) = if same_keyb (fst e) k then Some (snd e) else rm_find k (rm_map m)) /\
  (forall k, (exists e', In e' (rm_map (rm_add m (fst e) (snd e))) /\ same_key (fst e') k) <->
             same_key (fst e) k \/ exists e', In e' (rm_map m) /\ same_key (fst e') k).
Proof.
  intros [H1 H2 H3 H4] He. unfold rm_add. rewrite re_norm by apply He. destruct e as [k pos]. cbn [fst snd] in *.
  destruct (rm_insert_spec k pos (rm_map m) H1) as (b & m' & Ei & Hs & Hf & Hb). rewrite Ei. destruct b.
  - destruct Hb as [Hn (m1 & m2 & Em & ->)].
    assert (Hin : forall x, In x (m1 ++ (k, pos) :: m2) <-> (k, pos) = x \/ In x (rm_map m)).
    { intros x. rewrite Em, !in_app_iff. cbn [In]. tauto. }
    assert (Hk : Forall entry_ok (m1 ++ (k, pos) :: m2)).
    { apply Forall_forall. intros x Hx. apply Hin in Hx. destruct Hx as [<-|Hx]; [exact He|]. rewrite Forall_forall in H2. apply H2, Hx. }
    assert (Hn1 : Zlen (negs (m1 ++ (k, pos) :: m2)) = Zlen (negs (rm_map m)) + (if snd k <? 0 then 1 else 0)).
    { rewrite Em. unfold negs. rewrite !filter_app, !Zlen_app. cbn [filter fst]. destruct (snd k <? 0); rewrite ?Zlen_cons; lia. }
    assert (Hn2 : Zlen (nons (m1 ++ (k, pos) :: m2)) = Zlen (nons (rm_map m)) + (if snd k <? 0 then 0 else 1)).
    { rewrite Em. unfold nons. rewrite !filter_app, !Zlen_app. cbn [filter fst]. destruct (snd k <? 0); cbn [negb]; rewrite ?Zlen_cons; lia. }
    assert (Hex : forall q, (exists e', In e' (m1 ++ (k, pos) :: m2) /\ same_key (fst e') q) <->
              same_key k q \/ exists e', In e' (rm_map m) /\ same_key (fst e') q).
    { intros q. split.
      - intros (x & Hx & Hq). apply Hin in Hx. destruct Hx as [<-|Hx]; [left; exact Hq|right; exists x; auto].
      - intros [Hq|(x & Hx & Hq)]; [exists (k, pos)|exists x]; (split; [apply Hin; tauto|exact Hq]). }
    destruct (-1 <? snd k) eqn:E; cbn [rm_map rm_nrun rm_nevt].
    + replace (snd k <? 0) with false in * by lia.
      split; [constructor; cbn [rm_map rm_nrun rm_nevt]; try assumption; lia|]. split; [exact Hf|exact Hex].
    + replace (snd k <? 0) with true in * by lia.
      split; [constructor; cbn [rm_map rm_nrun rm_nevt]; try assumption; lia|]. split; [exact Hf|exact Hex].
  - destruct Hb as (m1 & k0 & p0 & m2 & Em & -> & Hk). cbn [rm_map rm_nrun rm_nevt].
    assert (Hok : Forall entry_ok (m1 ++ (k0, pos) :: m2)).
    { rewrite Em in H2. apply Forall_app in H2. destruct H2 as [F1 F2]. inversion F2 as [|? ? G1 G2]; subst. apply Forall_app.
      split; [exact F1|]. constructor; [|exact G2]. split; [apply G1|apply He]. }
    split.
    + constructor; cbn [rm_map rm_nrun rm_nevt]; try assumption.
      * rewrite H3, Em. unfold negs. rewrite !filter_app, !Zlen_app. cbn [filter fst]. destruct (snd k0 <? 0); rewrite ?Zlen_cons; lia.
      * rewrite H4, Em. unfold nons. rewrite !filter_app, !Zlen_app. cbn [filter fst]. destruct (snd k0 <? 0); cbn [negb]; rewrite ?Zlen_cons; lia.
    + split; [exact Hf|]. intros q. rewrite Em. split.
      * intros (x & Hx & Hq). apply in_app_iff in Hx. cbn [In] in Hx. right. destruct Hx as [Hx|[<-|Hx]].
        -- exists x. split; [apply in_app_iff; tauto|exact Hq].
        -- exists (k0, p0). split; [apply in_app_iff; right; left; reflexivity|exact Hq].
        -- exists x. split; [apply in_app_iff; right; right; exact Hx|exact Hq].
      * intros [Hq|(x & Hx & Hq)].
        -- exists (k0, pos). split; [apply in_app_iff; right; left; reflexivity|]. eapply same_trans; [apply same_sym; exact Hk|exact Hq].
        -- apply in_app_iff in Hx. cbn [In] in Hx. destruct Hx as [Hx|[<-|Hx]].
           ++ exists x. split; [apply in_app_iff; tauto|exact Hq].
           ++ exists (k0, pos). split; [apply in_app_iff; right; left; reflexivity|exact Hq].
           ++ exists x. split; [apply in_app_iff; right; right; exact Hx|exact Hq].
Qed.

Lemma fold_add_spec l : forall m, remap_ok m -> Forall entry_ok l ->
  let m' := fold_left (fun m e => rm_add m (fst e) (snd e)) l m in
  remap_ok m' /\
  (forall k, rm_find k (rm_map m') = fold_left (fun r e => if same_keyb (fst e) k then Some (snd e) else r) l (rm_find k (rm_map m))) /\
  (forall k, (exists e', In e' (rm_map m') /\ same_key (fst e') k) <->
             (exists e, In e l /\ same_key (fst e) k) \/ exists e', In e' (rm_map m) /\ same_key (fst e') k).
Proof.
  induction l as [|e l IH]; intros m Hm F; cbn [fold_left].
  - split; [exact Hm|]. split; [reflexivity|]. intros k. split; [tauto|]. intros [(e & [] & _)|H]; exact H.
  - inversion F as [|? ? He Fl]; subst. destruct (rm_add_spec m e Hm He) as (Hm' & Hf & Hx).
    destruct (IH _ Hm' Fl) as (Ho & Hfl & Hxl). cbv zeta in *. split; [exact Ho|]. split.
    + intros k. rewrite Hfl, Hf. reflexivity.
    + intros k. rewrite Hxl, Hx. split.
      * intros [(e' & Hi & Hk)|[Hk|H]]; [left; exists e'; split; [right; exact Hi|exact Hk]|left; exists e; split; [left; reflexivity|exact Hk]|right; exact H].
      * intros [(e' & [<-|Hi] & Hk)|H]; [right; left; exact Hk|left; exists e'; auto|right; right; exact H].
Qed.

Lemma index_of_ok l : Forall entry_ok l -> remap_ok (index_of l).
Proof. intros F. apply (fold_add_spec l no_remap no_remap_ok F). Qed.
Lemma index_of_find l k : Forall entry_ok l -> rm_find k (rm_map (index_of l)) = last_position k l.
Proof. intros F. apply (fold_add_spec l no_remap no_remap_ok F). Qed.
Lemma index_of_mem l k : Forall entry_ok l ->
  (exists e', In e' (rm_map (index_of l)) /\ same_key (fst e') k) <-> (exists e, In e l /\ same_key (fst e) k).
Proof.
  intros F. destruct (fold_add_spec l no_remap no_remap_ok F) as (_ & _ & H). cbv zeta in H. fold (index_of l) in H.
  rewrite H. split; [intros [G|(e' & [] & _)]; exact G|tauto].
Qed.

(** ** Runs and events in order *)

Lemma sorted_split m : sorted m -> m = negs m ++ nons m.
Proof.
  intros H. induction H as [|e m Hs IH Hf]; [reflexivity|]. unfold negs, nons in *. cbn [filter]. destruct (snd (fst e) <? 0) eqn:E; cbn [negb].
  - cbn [app]. f_equal. exact IH.
  - assert (Hn : filter (fun e : runevt * Z => snd (fst e) <? 0) m = []).
    { clear -Hf E. induction Hf as [|x m Hx F IH]; [reflexivity|]. cbn [filter]. apply re_lt_spec in Hx.
      replace (snd (fst x) <? 0) with false by lia. exact IH. }
    rewrite Hn in IH |- *. cbn [app] in *. rewrite <- IH. reflexivity.
Qed.

Lemma sorted_filter f m : sorted m -> sorted (filter f m).
Proof.
  intros H. induction H as [|e m Hs IH Hf]; cbn [filter]; [constructor|]. destruct (f e); [|exact IH]. constructor; [exact IH|].
  apply Forall_forall. intros x Hx. apply filter_In in Hx. rewrite Forall_forall in Hf. apply Hf, Hx.
Qed.

Lemma SS_map {A B} (R : A -> A -> Prop) (S : B -> B -> Prop) (f : A -> B) l :
  (forall a b, In a l -> In b l -> R a b -> S (f a) (f b)) -> StronglySorted R l -> StronglySorted S (map f l).
Proof.
  intros H HS. induction HS as [|a l Hs IH Hf]; cbn [map]; [constructor|]. constructor.
  - apply IH. intros x y Hx Hy. apply H; right; assumption.
  - apply Forall_forall. intros y Hy. apply in_map_iff in Hy. destruct Hy as (x & <- & Hx). rewrite Forall_forall in Hf.
    apply H; [left; reflexivity|right; exact Hx|apply Hf, Hx].
Qed.

Lemma remap_run_list m : remap_ok m -> firstn (Z.to_nat (rm_nrun m)) (rm_map m) = negs (rm_map m).
Proof.
  intros [H1 _ H3 _]. rewrite H3. unfold Zlen. rewrite Nat2Z.id. rewrite (sorted_split (rm_map m) H1) at 2.
  apply firstn_app_exact. reflexivity.
Qed.
Lemma remap_evt_list m : remap_ok m ->
  firstn (Z.to_nat (rm_nevt m)) (skipn (Z.to_nat (rm_nrun m)) (rm_map m)) = nons (rm_map m).
Proof.
  intros [H1 _ H3 H4]. rewrite H3, H4. unfold Zlen. rewrite !Nat2Z.id. rewrite (sorted_split (rm_map m) H1) at 3.
  rewrite skipn_app_exact by reflexivity. apply firstn_all.
Qed.
Lemma remap_len m : remap_ok m -> Zlen (rm_map m) = rm_nrun m + rm_nevt m.
Proof. intros [H1 _ H3 H4]. rewrite H3, H4. rewrite (sorted_split (rm_map m) H1) at 1. rewrite Zlen_app. reflexivity. Qed.

(** ** The index record *)

Lemma ri64' z r st : int64 z -> reads r_i64 (renderR r (w_i64 z)) st st z.
Proof. apply ri64. Qed.
Lemma rlift {A} (x : Res A) a st : x = Ok a -> reads (r_lift x) [] st st a.
Proof. intros ->. exact (reads_ret a st). Qed.

Definition entries_fit (oneRun longOffset : bool) (runMin base : Z) (l : list (runevt * Z)) : Prop :=
  Forall (fun e => (if oneRun then fst (fst e) = runMin else int32 (fst (fst e) - runMin)) /\
                   (if longOffset then True else int32 (snd e - base)) /\ int64 (snd e - base)) l.

Lemma int_of_ok z : int32 z -> int_of z = Ok z.
Proof. unfold int32, int_of, two31. intros H. replace (_ && _) with true by lia. reflexivity. Qed.
Lemma long_of_ok z : int64 z -> long_of z = Ok z.
Proof. unfold int64, long_of, two63. intros H. replace (_ && _) with true by lia. reflexivity. Qed.

Lemma write_entries_spec oneRun longOffset runMin base l :
  entries_fit oneRun longOffset runMin base l -> Forall entry_ok l ->
  exists w, write_entries oneRun longOffset runMin base l = Ok w /\ all_data w /\
    forall r st m, reads (read_entries (length l) oneRun longOffset runMin base m) (renderR r w) st st
                     (fold_left (fun m e => rm_add m (fst e) (snd e)) l m).
Proof.
  intros F Fo. induction F as [|[[run evt] pos] l (H1 & H2 & H3) F IH].
  - exists []. split; [reflexivity|]. split; [apply data_nil|]. intros r st m. exact (reads_ret m st).
  - inversion Fo as [|? ? He Fl]; subst. destruct (IH Fl) as (w & Ew & Hd & Hr). cbn [fst snd] in *.
    assert (Ero : exists wr, (if oneRun then Ok [] else do o <- int_of (run - runMin); Ok (w_i32 o)) = Ok wr /\ all_data wr /\
              forall r st, reads (if oneRun then rret runMin else let* o := r_i32 in r_lift (int_of (runMin + o))) (renderR r wr) st st run).
    { destruct oneRun.
      - exists []. split; [reflexivity|]. split; [apply data_nil|]. intros r st. rewrite H1. exact (reads_ret _ st).
      - exists (w_i32 (run - runMin)). rewrite (int_of_ok _ H1). split; [reflexivity|]. split; [apply data_i32|].
        intros r st. eapply rb_last; [apply ri32; exact H1|]. apply (rlift _ run). replace (runMin + (run - runMin)) with run by lia.
        apply int_of_ok. apply (proj1 He). }
    destruct Ero as (wr & Ewr & Hdr & Hrr).
    exists ((wr ++ w_i32 evt ++ (if longOffset then w_i64 (pos - base) else w_i32 (s32 (pos - base)))) ++ w).
    cbn [write_entries]. unfold write_entry. cbn [fst snd]. rewrite Ewr, (long_of_ok _ H3), Ew. cbn [bind].
    split; [reflexivity|]. split.
    + apply data_app; [|exact Hd]. apply data_app; [exact Hdr|]. apply data_app; [apply data_i32|].
      destruct longOffset; [|apply data_i32]. apply data_one, small_be. lia.
    + intros r st m. cbn [length read_entries fold_left]. rewrite <- !app_assoc.
      eapply rb; [apply Hrr|]. eapply rb; [apply ri32; apply (proj1 He)|]. eapply (rb _ _ r _ _ st st st (pos - base)).
      * destruct longOffset; [apply ri64; exact H3|]. rewrite s32_id by (unfold int32 in H2; unfold is_i32, two31; lia). apply ri32. exact H2.
      * eapply rb_none; [apply rlift; replace (pos - base + base) with pos by lia; apply long_of_ok; apply He|]. apply Hr.
Qed.

(** adding the entries of an index in their order gives the index again *)
Lemma rm_insert_end k pos m : Forall (fun e => re_lt (fst e) k = true) m -> rm_insert k pos m = (m ++ [(k, pos)], true).
Proof.
  induction 1 as [|[k0 p0] m H F IH]; [reflexivity|]. cbn [rm_insert fst app] in *. rewrite IH, H.
  replace (re_lt k k0) with false; [reflexivity|]. symmetry. apply not_true_is_false. intros E.
  pose proof (re_lt_trans _ _ _ E H) as N. rewrite re_lt_irrefl in N. discriminate.
Qed.
Lemma rebuild_gen l : forall m, sorted (rm_map m ++ l) -> Forall entry_ok l ->
  fold_left (fun m e => rm_add m (fst e) (snd e)) l m
  = mkREM (rm_map m ++ l) (rm_nrun m + Zlen (negs l)) (rm_nevt m + Zlen (nons l)).
Proof.
  induction l as [|[k pos] l IH]; intros m Hs F.
  - destruct m as [m a b]. cbn [fold_left rm_map negs nons filter rm_nrun rm_nevt]. rewrite app_nil_r, Zlen_nil, !Z.add_0_r. reflexivity.
  - inversion F as [|? ? He Fl]; subst. cbn [fold_left fst snd].
    assert (Hlt : Forall (fun e => re_lt (fst e) k = true) (rm_map m)).
    { clear -Hs. induction (rm_map m) as [|e l0 IH]; [constructor|]. inversion Hs as [|? ? Hs' Hf]; subst. constructor; [|apply IH; exact Hs'].
      apply Forall_app in Hf. destruct Hf as [_ Hf]. inversion Hf; subst. assumption. }
    assert (Hadd : rm_add m k pos = mkREM (rm_map m ++ [(k, pos)]) (rm_nrun m + Zlen (negs [(k, pos)])) (rm_nevt m + Zlen (nons [(k, pos)]))).
    { unfold rm_add. rewrite re_norm by apply He. rewrite rm_insert_end by exact Hlt. unfold negs, nons. cbn [filter fst].
      destruct (Z.ltb_spec (-1) (snd k)), (Z.ltb_spec (snd k) 0); try lia; cbn [negb]; rewrite ?Zlen_cons, ?Zlen_nil, ?Z.add_0_r; reflexivity. }
    rewrite Hadd, IH; [|cbn [rm_map]; rewrite <- app_assoc; exact Hs|exact Fl]. cbn [rm_map rm_nrun rm_nevt].
    rewrite <- app_assoc. cbn [app]. f_equal.
    + rewrite <- Z.add_assoc, <- Zlen_app. unfold negs. rewrite <- filter_app. reflexivity.
    + rewrite <- Z.add_assoc, <- Zlen_app. unfold nons. rewrite <- filter_app. reflexivity.
Qed.
Lemma rebuild m : remap_ok m -> fold_left (fun m e => rm_add m (fst e) (snd e)) (rm_map m) no_remap = m.
Proof.
  intros [H1 H2 H3 H4]. rewrite rebuild_gen by assumption. cbn [no_remap rm_map rm_nrun rm_nevt app]. rewrite !Z.add_0_l, <- H3, <- H4.
  destruct m; reflexivity.
Qed.

Lemma find_in_sorted e m : sorted m -> In e m -> rm_find (fst e) m = Some (snd e).
Proof.
  intros H. induction H as [|[k p] m Hs IH Hf]; [intros []|]. intros [<-|Hi]; cbn [rm_find fst snd].
  - rewrite re_lt_irrefl. reflexivity.
  - rewrite Forall_forall in Hf. pose proof (Hf _ Hi) as E. cbn [fst] in E. rewrite E.
    replace (re_lt (fst e) k) with false; [apply IH; exact Hi|]. symmetry. apply not_true_is_false. intros N.
    pose proof (re_lt_trans _ _ _ E N) as X. rewrite re_lt_irrefl in X. discriminate.
Qed.
Lemma rm_pos_in e m : remap_ok m -> In e (rm_map m) -> rm_pos m (fst e) = snd e.
Proof.
  intros [H1 H2 _ _] Hi. unfold rm_pos. rewrite Forall_forall in H2. rewrite re_norm by apply (H2 _ Hi).
  rewrite (find_in_sorted e _ H1 Hi). reflexivity.
Qed.
Lemma last_in {A} (l : list A) d : l <> [] -> In (last l d) l.
Proof.
  induction l as [|a l IH]; [contradiction|]. intros _. destruct l as [|b l]; [left; reflexivity|]. right. apply IH. discriminate.
Qed.
Lemma last_default {A} (l : list A) d d' : l <> [] -> last l d = last l d'.
Proof. induction l as [|a [|b l] IH]; [contradiction|reflexivity|]. intros _. apply IH. discriminate. Qed.

Theorem index_roundtrip m : remap_ok m -> vec_len (rm_map m) -> covers (rm_map m) ->
  exists w, write_index m = Ok w /\ all_data w /\
    forall r st m0, reads (read_index m0 cur_vers) (renderR r w) st st
                   (fold_left (fun m e => rm_add m (fst e) (snd e)) (rm_map m) m0).
Proof.
  intros Hm Hlen Hc.
  assert (Hpre : exists runMin base, fst (rm_min m) = runMin /\ rm_pos m (rm_min m) = base /\ int32 runMin /\ int64 base /\
            int64 (rm_pos m (rm_max m) - base) /\
            entries_fit (runMin =? fst (rm_max m)) (two31 - 1 <? rm_pos m (rm_max m) - base) runMin base (rm_map m)).
  { destruct (rm_map m) as [|f l] eqn:El.
    - exists (-1), (-1). unfold rm_min, rm_max, rm_pos. rewrite El. cbn. repeat split; try (unfold int32, int64; lia). constructor.
    - assert (Emin : rm_min m = fst f) by (unfold rm_min; rewrite El; reflexivity).
      set (z := last (rm_map m) f).
      assert (Emax : rm_max m = fst z) by (unfold rm_max, z; rewrite El; rewrite (last_default (f :: l) _ f) by discriminate; reflexivity).
      assert (Hf : In f (rm_map m)) by (rewrite El; left; reflexivity).
      assert (Hz : In z (rm_map m)) by (apply last_in; rewrite El; discriminate).
      rewrite Emin, Emax. rewrite (rm_pos_in f m Hm Hf), (rm_pos_in z m Hm Hz).
      pose proof (ro_keys m Hm) as Hk. rewrite Forall_forall in Hk.
      destruct Hc as (C1 & C2 & C3 & C4). rewrite <- El in C1, C2, C3, C4. fold z in C1, C2, C3.
      exists (fst (fst f)), (snd f). split; [reflexivity|]. split; [reflexivity|]. split; [apply (Hk f Hf)|]. split; [apply (Hk f Hf)|].
      split; [apply C4; exact Hz|].
      rewrite <- El. unfold entries_fit. apply Forall_forall. intros e He. split; [|split; [|apply C4; exact He]].
      + destruct (Z.eqb_spec (fst (fst f)) (fst (fst z))) as [E|E]; [apply C1; assumption|apply C2; assumption].
      + destruct (Z.ltb_spec (two31 - 1) (snd z - snd f)) as [E|E]; [exact I|]. apply C3; [unfold two31 in E; lia|exact He]. }
  destruct Hpre as (runMin & base & Er & Eb & Hr & Hb & Hd & Hfit).
  unfold write_index. rewrite Er, Eb, (long_of_ok _ Hd). cbn [bind].
  set (oneRun := runMin =? fst (rm_max m)) in *. set (longOff := two31 - 1 <? rm_pos m (rm_max m) - base) in *.
  destruct (write_entries_spec oneRun longOff runMin base (rm_map m) Hfit (ro_keys m Hm)) as (w & Ew & Hdw & Hrw).
  rewrite Ew. cbn [bind]. eexists. split; [reflexivity|]. split.
  - apply data_app; [apply data_u32|]. apply data_app; [apply data_i32|]. apply data_app; [apply data_one, small_be; lia|].
    apply data_app; [apply data_i32|exact Hdw].
  - intros r st m0. unfold read_index. eapply rb_none; [exact (reads_version r st)|].
    set (control := (if oneRun then 1 else 0) + (if longOff then 2 else 0)).
    assert (Hcs : int32 control) by (unfold control, int32; destruct oneRun, longOff; lia).
    change (w_u32 control) with (w_i32 control).
    eapply rb; [apply ri32; exact Hcs|].
    replace (Z.testbit control 2) with false by (unfold control; destruct oneRun, longOff; reflexivity).
    eapply rb; [apply ri32; exact Hr|]. eapply rb; [apply ri64; exact Hb|].
    rewrite s32_id by (unfold vec_len in Hlen; pose proof (Zlen_nonneg (rm_map m)); unfold is_i32, two31; lia).
    eapply rb; [apply ri32; unfold vec_len in Hlen; pose proof (Zlen_nonneg (rm_map m)); unfold int32; lia|].
    replace (Z.testbit control 0) with oneRun by (unfold control; destruct oneRun, longOff; reflexivity).
    replace (Z.testbit control 1) with longOff by (unfold control; destruct oneRun, longOff; reflexivity).
    unfold Zlen. rewrite Nat2Z.id. apply Hrw.
Qed.

(** ** Random access records *)

Lemma racc_data a : all_data (write_racc a).
Proof.
  unfold write_racc. repeat (apply data_app; [first [apply data_i32 | apply data_one, small_be; lia]|]). apply data_i32.
Qed.
Lemma racc_reads r st a : racc_ok a -> reads (read_racc cur_vers) (renderR r (write_racc a)) st st a.
Proof.
  intros ((H1 & H2) & (H3 & H4) & H5 & H6 & H7 & H8 & H9 & H10 & H11). unfold read_racc, write_racc.
  eapply rb_none; [exact (reads_version r st)|].
  do 7 (eapply rb; [apply ri32; assumption|]). do 4 (eapply rb; [apply ri64; assumption|]).
  eapply rb_last; [apply ri32; vm_compute; split; congruence|].
  apply rret_eq; [|reflexivity]. destruct a as [[? ?] [? ?] ? ? ? ? ? ? ?]; reflexivity.
Qed.

Definition access_block (a : racc) : wblock := mkWB access_record cur_vers (write_racc a).

Lemma render_w z n r : (n = 4 \/ n = 8)%nat -> Zlen (renderR r [DData (be n z)]) = Z.of_nat n.
Proof. intros [-> | ->]; reflexivity. Qed.

Lemma access_block_len r a : Zlen (blocks_bytes r [access_block a]) = 96.
Proof.
  unfold blocks_bytes. cbn [flat_map]. rewrite app_nil_r, block_bytes_len.
  unfold block_len. cbn [access_block wb_name wb_calls]. reflexivity.
Qed.

(** the record of any contents can be written, and occupies 136 bytes *)
Lemma access_written raw a : b_valid raw = true -> b_bytes raw <> [] -> racc_ok a ->
  exists r, write_record access_record raw [access_block a] 0
    = Ok (mkRI 0 0 (rec_hlen access_record) 0 96 96 access_record,
          mkBuffer (rec_bytes r 0 access_record [access_block a]) true) /\
    Zlen (rec_bytes r 0 access_record [access_block a]) = access_size /\
    forall next, read_blocks (blocks_bytes r [access_block a]) [mkRB access_record read_racc] next
      = Ok ([(access_record, a)], [], next).
Proof.
  intros Hv Hb Ha.
  destruct (single_block access_record read_racc access_record raw (write_racc a) a 0) as (r & E & R); try assumption; try reflexivity.
  - apply racc_data.
  - intros r st. apply racc_reads. exact Ha.
  - exists r. fold (access_block a) in E, R. rewrite access_block_len in E. split; [exact E|]. split; [|exact R].
    unfold rec_bytes. rewrite Zlen_app, rec_hdr_len, access_block_len. reflexivity.
Qed.

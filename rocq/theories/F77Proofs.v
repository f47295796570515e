(** * The Fortran interface: proofs *)

From Verif Require Import Bytes SioModel ObjModel F77Model F77Spec.

Section P.
Context (fadd : Z -> Z -> Z).

(** what the memory says about one address *)
Definition good (h : hist) (a : addr) (o : option fob) : Prop :=
  match o with
  | None => made h a = None
  | Some (FCol l) => made h a = Some KCol /\ l = elements h a
  | Some (FMcp ps ds) => made h a = Some KMcp /\ ps = parents h a /\ ds = daughters h a
  | Some (FSth id pos e t m) => made h a = Some KSth /\ hit_made h a = Some (id, pos, e, t, m) /\ Zlen pos = 3
  | Some (FSch i0 i1 e pos cs) =>
      made h a = Some KSch /\ cal_made h a = Some (i0, i1, pos) /\ e = cal_energy fadd h a /\ cs = cal_conts h a
  | Some (FObv l) => made h a = Some KObv /\ l = obv_made h a /\ Zlen l < two31
  | Some (FPar _ l) => made h a = Some KPar /\ l = params h a
  | Some (FClu hs ws) => made h a = Some KClu /\ ws = contributions h a /\ length hs = length ws
  end.
(** nothing is known of an address that was not given out *)
Definition blank (h : hist) (a : addr) : Prop :=
  elements h a = [] /\ parents h a = [] /\ daughters h a = [] /\ cal_conts h a = [] /\ params h a = [] /\ contributions h a = [].
Record finv (h : hist) (s : fmem) : Prop := {
  fi_pos : 0 < fm_next s;
  fi_good : forall a, good h a (fm_at s a);
  fi_free : forall a, fm_next s <= a \/ a <= 0 -> fm_at s a = None;
  fi_blank : forall a, made h a = None -> blank h a
}.

Lemma finv_init : finv [] fm_init.
Proof. split; [cbn; lia|cbn; reflexivity|cbn; reflexivity|intros a _; repeat split]. Qed.

Lemma Ztest : forall x y : Z, (x =? y) = true -> x = y.
Proof. intros x y H; apply Z.eqb_eq; exact H. Qed.

Lemma at_obj h s a k : finv h s -> made h a = Some k -> exists o, fm_at s a = Some o /\ obj_at s a = Ok o /\ 0 < a < fm_next s.
Proof.
  intros I M. pose proof (fi_good h s I a) as G.
  destruct (fm_at s a) as [o|] eqn:E; [|cbn in G; congruence].
  assert (0 < a < fm_next s) as HA.
  { destruct (Z_le_gt_dec (fm_next s) a) as [L|L]; [rewrite (fi_free h s I a (or_introl L)) in E; discriminate|].
    destruct (Z_le_gt_dec a 0) as [L'|L']; [rewrite (fi_free h s I a (or_intror L')) in E; discriminate|lia]. }
  exists o. unfold obj_at. destruct (Z.eqb_spec a 0); [lia|]. rewrite E. auto.
Qed.

Lemma made_col h s a : finv h s -> made h a = Some KCol -> fm_at s a = Some (FCol (elements h a)) /\ obj_at s a = Ok (FCol (elements h a)) /\ 0 < a < fm_next s.
Proof. intros I M. destruct (at_obj h s a _ I M) as (o & E & O & B). pose proof (fi_good h s I a) as G. rewrite E in G.
  destruct o; cbn in G; destruct G as (G1 & G); rewrite M in G1; try discriminate G1. subst. auto. Qed.
Lemma made_mcp h s a : finv h s -> made h a = Some KMcp -> fm_at s a = Some (FMcp (parents h a) (daughters h a)) /\ obj_at s a = Ok (FMcp (parents h a) (daughters h a)) /\ 0 < a < fm_next s.
Proof. intros I M. destruct (at_obj h s a _ I M) as (o & E & O & B). pose proof (fi_good h s I a) as G. rewrite E in G.
  destruct o; cbn in G; destruct G as (G1 & G); rewrite M in G1; try discriminate G1. destruct G; subst. auto. Qed.
Lemma made_sth h s a : finv h s -> made h a = Some KSth -> exists id pos e t m, fm_at s a = Some (FSth id pos e t m) /\ obj_at s a = Ok (FSth id pos e t m) /\ hit_made h a = Some (id, pos, e, t, m) /\ Zlen pos = 3.
Proof. intros I M. destruct (at_obj h s a _ I M) as (o & E & O & B). pose proof (fi_good h s I a) as G. rewrite E in G.
  destruct o as [| |id pos e t m| | | |]; cbn in G; destruct G as (G1 & G); rewrite M in G1; try discriminate G1. destruct G. exists id, pos, e, t, m. auto. Qed.
Lemma made_sch h s a : finv h s -> made h a = Some KSch -> exists i0 i1 pos, fm_at s a = Some (FSch i0 i1 (cal_energy fadd h a) pos (cal_conts h a)) /\ obj_at s a = Ok (FSch i0 i1 (cal_energy fadd h a) pos (cal_conts h a)) /\ cal_made h a = Some (i0, i1, pos) /\ 0 < a < fm_next s.
Proof. intros I M. destruct (at_obj h s a _ I M) as (o & E & O & B). pose proof (fi_good h s I a) as G. rewrite E in G.
  destruct o as [| | |i0 i1 e pos cs| | |]; cbn in G; destruct G as (G1 & G); rewrite M in G1; try discriminate G1. destruct G as (G2 & -> & ->). exists i0, i1, pos. auto. Qed.
Lemma made_obv h s a : finv h s -> made h a = Some KObv -> obj_at s a = Ok (FObv (obv_made h a)) /\ Zlen (obv_made h a) < two31.
Proof. intros I M. destruct (at_obj h s a _ I M) as (o & E & O & B). pose proof (fi_good h s I a) as G. rewrite E in G.
  destruct o; cbn in G; destruct G as (G1 & G); rewrite M in G1; try discriminate G1. destruct G as (-> & G2). auto. Qed.
Lemma made_par h s a : finv h s -> made h a = Some KPar -> exists v, fm_at s a = Some (FPar v (params h a)) /\ obj_at s a = Ok (FPar v (params h a)) /\ 0 < a < fm_next s.
Proof. intros I M. destruct (at_obj h s a _ I M) as (o & E & O & B). pose proof (fi_good h s I a) as G. rewrite E in G.
  destruct o as [| | | | |v l|]; cbn in G; destruct G as (G1 & G); rewrite M in G1; try discriminate G1. subst. exists v. auto. Qed.
Lemma made_clu h s a : finv h s -> made h a = Some KClu -> exists hs, fm_at s a = Some (FClu hs (contributions h a)) /\ obj_at s a = Ok (FClu hs (contributions h a)) /\ length hs = length (contributions h a) /\ 0 < a < fm_next s.
Proof. intros I M. destruct (at_obj h s a _ I M) as (o & E & O & B). pose proof (fi_good h s I a) as G. rewrite E in G.
  destruct o as [| | | | | |hs ws]; cbn in G; destruct G as (G1 & G); rewrite M in G1; try discriminate G1. destruct G as (-> & G2). exists hs. auto. Qed.

Lemma next_free h s : finv h s -> unused h (fm_next s).
Proof.
  intros I. pose proof (fi_pos h s I). split; [lia|].
  pose proof (fi_good h s I (fm_next s)) as G. rewrite (fi_free h s I (fm_next s)) in G by lia. exact G.
Qed.

Lemma as_mcp_ok h s m : finv h s -> mcp_or_null h m -> as_mcp s m = Ok m.
Proof.
  intros I [->|M]; [reflexivity|]. destruct (made_mcp h s m I M) as (E & _ & B). unfold as_mcp.
  destruct (Z.eqb_spec m 0) as [->|]; [reflexivity|]. rewrite E. reflexivity.
Qed.

Lemma nth1_range {A} (l : list A) k : 1 <= k <= Zlen l -> exists x, nth1 l k = Some x /\ nth_error l (Z.to_nat (k - 1)) = Some x.
Proof.
  intros R. unfold nth1. destruct (Z.ltb_spec k 1); [lia|].
  destruct (nth_error l (Z.to_nat (k - 1))) as [x|] eqn:E; [eauto|].
  apply nth_error_None in E. unfold Zlen in R. lia.
Qed.
Lemma elem_at_nth1 {A} (l : list A) i x : nth1 l (i + 1) = Some x -> elem_at l i = Ok x.
Proof.
  unfold nth1, elem_at. destruct (Z.ltb_spec (i + 1) 1); [discriminate|].
  replace (i + 1 - 1) with i by lia. intros ->. destruct (Z.ltb_spec i 0); [lia|reflexivity].
Qed.
Lemma minus1_ok i : - two31 < i -> minus1 i = Ok (i - 1).
Proof. intros L. unfold minus1. destruct (Z.eqb_spec i (- two31)); [lia|reflexivity]. Qed.
Lemma nth1_pos {A} (l : list A) i x : nth1 l i = Some x -> 1 <= i.
Proof. unfold nth1. destruct (Z.ltb_spec i 1); [discriminate|lia]. Qed.
Lemma s32_small n : 0 <= n < two31 -> s32 n = n.
Proof. intros R. unfold s32. cbv zeta. assert (two32 = 2 * two31) as T by reflexivity. rewrite Z.mod_small by lia.
  destruct (Z.ltb_spec n two31); [reflexivity|lia]. Qed.
Lemma Zlen_nn {A} (l : list A) : 0 <= Zlen l.
Proof. unfold Zlen; lia. Qed.

Lemma copy_out_spec ntot : forall l k arr,
  0 <= k -> 0 <= ntot < two31 -> ntot < Zlen arr -> k <= ntot + 1 ->
  copy_out l k arr ntot =
    Ok (if k + Zlen l <=? ntot + 1 then (true, firstn (Z.to_nat k) arr ++ l ++ skipn (Z.to_nat k + length l) arr)
        else (false, firstn (Z.to_nat k) arr ++ firstn (Z.to_nat (ntot + 1 - k)) l ++ skipn (Z.to_nat (ntot + 1)) arr)).
Proof.
  induction l as [|x l IH]; intros k arr K N A KN; cbn [copy_out].
  - unfold Zlen; cbn [length]. destruct (Z.leb_spec (k + Z.of_nat 0) (ntot + 1)); [|lia].
    rewrite Nat.add_0_r. cbn [app]. rewrite firstn_skipn. reflexivity.
  - assert (u32 ntot = ntot) as ->. { unfold u32. apply Z.mod_small. assert (two32 = 2 * two31) by reflexivity. lia. }
    unfold Zlen in *. cbn [length]. destruct (Z.ltb_spec ntot k) as [L|L].
    + assert (k = ntot + 1) by lia. subst k. destruct (Z.leb_spec (ntot + 1 + Z.of_nat (S (length l))) (ntot + 1)); [lia|].
      replace (ntot + 1 - (ntot + 1)) with 0 by lia. cbn [Z.to_nat firstn app]. rewrite firstn_skipn. reflexivity.
    + destruct (Z.ltb_spec k (Z.of_nat (length arr))) as [L2|L2]; [|lia].
      set (arr' := firstn (Z.to_nat k) arr ++ x :: skipn (S (Z.to_nat k)) arr).
      assert (length arr' = length arr) as LL.
      { unfold arr'. rewrite app_length. cbn [length]. rewrite firstn_length, skipn_length. lia. }
      rewrite IH by lia.
      assert (firstn (Z.to_nat (k + 1)) arr' = firstn (Z.to_nat k) arr ++ [x]) as F1.
      { unfold arr'. rewrite firstn_app, firstn_length. replace (Init.Nat.min (Z.to_nat k) (length arr)) with (Z.to_nat k) by lia.
        rewrite firstn_all2 by (rewrite firstn_length; lia). replace (Z.to_nat (k + 1) - Z.to_nat k)%nat with 1%nat by lia. reflexivity. }
      assert (forall m, (Z.to_nat k < m)%nat -> skipn m arr' = skipn m arr) as F2.
      { intros m Hm. unfold arr'. rewrite skipn_app, firstn_length. replace (Init.Nat.min (Z.to_nat k) (length arr)) with (Z.to_nat k) by lia.
        rewrite skipn_all2 by (rewrite firstn_length; lia). cbn [app].
        replace (m - Z.to_nat k)%nat with (S (m - S (Z.to_nat k))) by lia. rewrite skipn_cons.
        assert (forall (p q : nat) (v : list Z), skipn p (skipn q v) = skipn (q + p) v) as SS.
        { intros p q. induction q as [|q IHq]; intros v; [reflexivity|]. destruct v; cbn [skipn Nat.add]; [destruct p; reflexivity|apply IHq]. }
        rewrite SS. f_equal. lia. }
      rewrite F1. unfold Zlen.
      replace (k + Z.of_nat (S (length l))) with (k + 1 + Z.of_nat (length l)) by lia.
      destruct (Z.leb_spec (k + 1 + Z.of_nat (length l)) (ntot + 1)) as [Q|Q].
      * rewrite F2 by lia. rewrite <- !app_assoc. cbn [app]. do 5 f_equal. f_equal. lia.
      * rewrite F2 by lia. replace (Z.to_nat (ntot + 1 - k)) with (S (Z.to_nat (ntot + 1 - (k + 1)))) by lia.
        cbn [firstn]. rewrite <- !app_assoc. cbn [app]. reflexivity.
Qed.

Lemma get_values_spec l arr n : Zlen l < two31 - 1 -> 1 <= n <= Zlen arr -> n < two31 ->
  exists r, get_values l arr n = Ok r /\ copied_to l arr n r.
Proof.
  intros L N N2. unfold get_values. rewrite minus1_ok by (unfold two31; lia). cbn [bind].
  rewrite copy_out_spec by lia. replace (n - 1 + 1) with n by lia. rewrite Z.add_0_l. unfold copied_to.
  destruct (Zlen l <=? n) eqn:E; cbn [bind Z.to_nat firstn app Nat.add]; eexists; split; try reflexivity.
  - assert (s32 (u64 (Zlen l + 1)) = Zlen l + 1) as ->; [|reflexivity].
    pose proof (Zlen_nn l). unfold u64. assert (two64 = 2 * two31 * two32) by reflexivity. assert (two32 = 2 * two31) by reflexivity. assert (0 < two31) by reflexivity.
    rewrite Z.mod_small by nia. apply s32_small. lia.
  - rewrite Z.sub_0_r. reflexivity.
Qed.

(** ** One call *)

Ltac hist_cbn := cbn [made creates elements parents daughters hit_made cal_made cal_energy cal_conts obv_made params contributions] in *.

(** a call that changes nothing and makes nothing *)
Lemma finv_same h s c r : finv h s ->
  (forall a, made ((c, r) :: h) a = made h a /\ elements ((c, r) :: h) a = elements h a /\ parents ((c, r) :: h) a = parents h a
     /\ daughters ((c, r) :: h) a = daughters h a /\ hit_made ((c, r) :: h) a = hit_made h a /\ cal_made ((c, r) :: h) a = cal_made h a
     /\ cal_energy fadd ((c, r) :: h) a = cal_energy fadd h a /\ cal_conts ((c, r) :: h) a = cal_conts h a
     /\ obv_made ((c, r) :: h) a = obv_made h a /\ params ((c, r) :: h) a = params h a /\ contributions ((c, r) :: h) a = contributions h a) ->
  finv ((c, r) :: h) s.
Proof.
  intros [P G F B] E. split; [exact P| |exact F|].
  - intros a. specialize (G a). destruct (E a) as (E1 & E2 & E3 & E4 & E5 & E6 & E7 & E8 & E9 & E10 & E11).
    destruct (fm_at s a) as [[]|]; cbn [good] in *; rewrite ?E1, ?E2, ?E3, ?E4, ?E5, ?E6, ?E7, ?E8, ?E9, ?E10, ?E11; exact G.
  - intros a M. destruct (E a) as (E1 & E2 & E3 & E4 & E5 & E6 & E7 & E8 & E9 & E10 & E11). rewrite E1 in M.
    unfold blank. rewrite E2, E3, E4, E8, E10, E11. exact (B a M).
Qed.

(** a call that makes one object *)
Lemma finv_new h s c r k o : finv h s -> creates (c, r) = Some (fm_next s, k) ->
  (forall a, elements ((c, r) :: h) a = elements h a /\ parents ((c, r) :: h) a = parents h a
     /\ daughters ((c, r) :: h) a = daughters h a /\ cal_conts ((c, r) :: h) a = cal_conts h a
     /\ params ((c, r) :: h) a = params h a /\ contributions ((c, r) :: h) a = contributions h a) ->
  (forall a, a <> fm_next s -> hit_made ((c, r) :: h) a = hit_made h a /\ cal_made ((c, r) :: h) a = cal_made h a
     /\ cal_energy fadd ((c, r) :: h) a = cal_energy fadd h a /\ obv_made ((c, r) :: h) a = obv_made h a) ->
  (blank h (fm_next s) -> good ((c, r) :: h) (fm_next s) (Some o)) ->
  finv ((c, r) :: h) (fst (fm_new s o)).
Proof.
  intros I C E1 E2 G. pose proof (fi_pos h s I) as P. pose proof (next_free h s I) as (_ & U).
  unfold fm_new. cbn [fst]. split; cbn [fm_next fm_at].
  - lia.
  - intros a. destruct (Z.eqb_spec a (fm_next s)) as [->|N].
    + apply G. exact (fi_blank h s I _ U).
    + pose proof (fi_good h s I a) as GA. destruct (E1 a) as (F1 & F2 & F3 & F4 & F5 & F6). destruct (E2 a N) as (F7 & F8 & F9 & F10).
      assert (made ((c, r) :: h) a = made h a) as M. { cbn [made]. rewrite C. destruct (Z.eqb_spec (fm_next s) a); [congruence|reflexivity]. }
      destruct (fm_at s a) as [[]|]; cbn [good] in *; rewrite ?M, ?F1, ?F2, ?F3, ?F4, ?F5, ?F6, ?F7, ?F8, ?F9, ?F10; exact GA.
  - intros a Ha. destruct (Z.eqb_spec a (fm_next s)) as [->|N]; [lia|]. apply (fi_free h s I). lia.
  - intros a M. cbn [made] in M. rewrite C in M. destruct (fm_next s =? a); [discriminate|].
    destruct (E1 a) as (F1 & F2 & F3 & F4 & F5 & F6). unfold blank. rewrite F1, F2, F3, F4, F5, F6. exact (fi_blank h s I a M).
Qed.

(** a call that changes one object *)
Lemma finv_set h s c r b o : finv h s -> made h b <> None -> creates (c, r) = None ->
  0 < b < fm_next s ->
  (forall a, a <> b -> elements ((c, r) :: h) a = elements h a /\ parents ((c, r) :: h) a = parents h a
     /\ daughters ((c, r) :: h) a = daughters h a /\ hit_made ((c, r) :: h) a = hit_made h a /\ cal_made ((c, r) :: h) a = cal_made h a
     /\ cal_energy fadd ((c, r) :: h) a = cal_energy fadd h a /\ cal_conts ((c, r) :: h) a = cal_conts h a
     /\ obv_made ((c, r) :: h) a = obv_made h a /\ params ((c, r) :: h) a = params h a /\ contributions ((c, r) :: h) a = contributions h a) ->
  good ((c, r) :: h) b (Some o) ->
  finv ((c, r) :: h) (fm_set s b o).
Proof.
  intros I NB C B E G. unfold fm_set. split; cbn [fm_next fm_at].
  - exact (fi_pos h s I).
  - intros a. destruct (Z.eqb_spec a b) as [->|N]; [exact G|].
    pose proof (fi_good h s I a) as GA. destruct (E a N) as (E2 & E3 & E4 & E5 & E6 & E7 & E8 & E9 & E10 & E11).
    assert (made ((c, r) :: h) a = made h a) as M by (cbn [made]; rewrite C; reflexivity).
    destruct (fm_at s a) as [[]|]; cbn [good] in *; rewrite ?M, ?E2, ?E3, ?E4, ?E5, ?E6, ?E7, ?E8, ?E9, ?E10, ?E11; exact GA.
  - intros a Ha. destruct (Z.eqb_spec a b) as [->|N]; [lia|]. exact (fi_free h s I a Ha).
  - intros a M. cbn [made] in M. rewrite C in M. assert (a <> b) as N by congruence.
    destruct (E a N) as (E2 & E3 & E4 & E5 & E6 & E7 & E8 & E9 & E10 & E11). unfold blank.
    rewrite E2, E3, E4, E8, E10, E11. exact (fi_blank h s I a M).
Qed.

Ltac same := apply finv_same; [assumption|intros ?a; repeat split; reflexivity].
Ltac neq := intros ?a ?N; hist_cbn;
  repeat match goal with |- context [?x =? ?y] => destruct (Z.eqb_spec x y); [congruence|] end; repeat split; reflexivity.

(** a call that makes a hit and adds it to a collection *)
Lemma finv_hit h s c r b k o : finv h s -> made h b = Some KCol -> creates (c, r) = Some (fm_next s, k) ->
  (forall a, elements ((c, r) :: h) a = (if b =? a then elements h a ++ [fm_next s] else elements h a) /\ parents ((c, r) :: h) a = parents h a
     /\ daughters ((c, r) :: h) a = daughters h a /\ cal_conts ((c, r) :: h) a = cal_conts h a
     /\ params ((c, r) :: h) a = params h a /\ contributions ((c, r) :: h) a = contributions h a /\ obv_made ((c, r) :: h) a = obv_made h a) ->
  (forall a, a <> fm_next s -> hit_made ((c, r) :: h) a = hit_made h a /\ cal_made ((c, r) :: h) a = cal_made h a
     /\ cal_energy fadd ((c, r) :: h) a = cal_energy fadd h a) ->
  (blank h (fm_next s) -> good ((c, r) :: h) (fm_next s) (Some o)) ->
  finv ((c, r) :: h) (fm_set (fst (fm_new s o)) b (FCol (elements h b ++ [fm_next s]))).
Proof.
  intros I MB C E1 E2 G. pose proof (fi_pos h s I) as P. pose proof (next_free h s I) as (_ & U).
  destruct (made_col h s b I MB) as (EB & _ & BB).
  unfold fm_new, fm_set. cbn [fst fm_next fm_at]. split; cbn [fm_next fm_at].
  - lia.
  - intros a. destruct (E1 a) as (F1 & F2 & F3 & F4 & F5 & F6 & F10). destruct (Z.eqb_spec a b) as [->|Nb].
    + cbn [good]. split; [cbn [made]; rewrite C; destruct (Z.eqb_spec (fm_next s) b); [lia|exact MB]|].
      rewrite F1, Z.eqb_refl. reflexivity.
    + destruct (Z.eqb_spec a (fm_next s)) as [->|N].
      * apply G. exact (fi_blank h s I _ U).
      * pose proof (fi_good h s I a) as GA. destruct (E2 a N) as (F7 & F8 & F9).
        destruct (Z.eqb_spec b a) as [|_]; [congruence|].
        assert (made ((c, r) :: h) a = made h a) as M. { cbn [made]. rewrite C. destruct (Z.eqb_spec (fm_next s) a); [congruence|reflexivity]. }
        destruct (fm_at s a) as [[]|]; cbn [good] in *; rewrite ?M, ?F1, ?F2, ?F3, ?F4, ?F5, ?F6, ?F7, ?F8, ?F9, ?F10; exact GA.
  - intros a Ha. destruct (Z.eqb_spec a b) as [->|Nb]; [lia|]. destruct (Z.eqb_spec a (fm_next s)) as [->|N]; [lia|]. apply (fi_free h s I). lia.
  - intros a M. cbn [made] in M. rewrite C in M. destruct (fm_next s =? a); [discriminate|].
    assert (b <> a) as Nb by congruence.
    destruct (E1 a) as (F1 & F2 & F3 & F4 & F5 & F6 & F10). destruct (Z.eqb_spec b a) as [|_]; [congruence|]. unfold blank. rewrite F1, F2, F3, F4, F5, F6. exact (fi_blank h s I a M).
Qed.

Lemma existsb_in m l : existsb (Z.eqb m) l = true -> In m l.
Proof. intros H. apply existsb_exists in H. destruct H as (x & Hx & E). apply Z.eqb_eq in E. subst. exact Hx. Qed.

Lemma f_step_ok h s c : finv h s -> allowed h c ->
  exists r s1, f_step fadd s c = (Ok r, s1) /\ expected fadd h c r /\ finv ((c, r) :: h) s1.
Proof.
  intros I A. pose proof (next_free h s I) as U. destruct c; cbn [allowed] in A; cbn [f_step expected].
  - (* ColCreate *) unfold fm_new. do 2 eexists. split; [reflexivity|]. split; [eexists; split; [reflexivity|exact U]|].
    apply (finv_new h s ColCreate _ KCol (FCol [])); [exact I|reflexivity|intros; repeat split|intros; repeat split|].
    intros (B & _). cbn [good made creates elements]. rewrite Z.eqb_refl. auto.
  - (* ColAdd *) destruct (made_col h s _ I A) as (E & O & B). rewrite O. do 2 eexists. split; [reflexivity|]. split; [reflexivity|].
    apply finv_set; [exact I|congruence|reflexivity|exact B|neq|].
    cbn [good made creates elements]. rewrite Z.eqb_refl. auto.
  - (* ColRemove *) destruct A as (A & R). destruct (made_col h s _ I A) as (E & O & B). rewrite O.
    destruct (Z.leb_spec 0 i); [|lia]. destruct (Z.ltb_spec i (Zlen (elements h c))); [|lia]. cbn [andb].
    do 2 eexists. split; [reflexivity|]. split; [reflexivity|].
    apply finv_set; [exact I|congruence|reflexivity|exact B|neq|].
    cbn [good made creates elements]. rewrite Z.eqb_refl. split; [exact A|]. unfold without.
    replace (i + 1 - 1) with i by lia. replace (Z.to_nat (i + 1)) with (S (Z.to_nat i)) by lia. reflexivity.
  - (* ColNumber *) destruct A as (A & R). destruct (made_col h s _ I A) as (E & O & B). rewrite O. cbn [bind].
    do 2 eexists. split; [reflexivity|]. split; [rewrite s32_small by (pose proof (Zlen_nn (elements h c)); lia); reflexivity|same].
  - (* ColAt *) destruct A as (A & R). destruct (made_col h s _ I A) as (E & O & B). rewrite O. cbn [bind].
    rewrite minus1_ok by (unfold two31; lia). cbn [bind]. destruct (nth1_range _ i R) as (x & X & _).
    rewrite (elem_at_nth1 _ (i - 1) x) by (replace (i - 1 + 1) with i by lia; exact X). cbn [bind].
    do 2 eexists. split; [reflexivity|]. split; [eauto|same].
  - (* McpCreate *) unfold fm_new. do 2 eexists. split; [reflexivity|]. split; [eexists; split; [reflexivity|exact U]|].
    apply (finv_new h s McpCreate _ KMcp (FMcp [] [])); [exact I|reflexivity|intros; repeat split|intros; repeat split|].
    intros (_ & B & B2 & _). cbn [good made creates parents daughters]. rewrite Z.eqb_refl. auto.
  - (* McpAddParent *) destruct A as (A & A2). destruct (made_mcp h s _ I A) as (E & O & B). destruct (made_mcp h s _ I A2) as (E2 & _ & B2). rewrite O.
    rewrite (as_mcp_ok h s m I (or_intror A2)).
    destruct (existsb (Z.eqb m) (parents h p)) eqn:X.
    + do 2 eexists. split; [reflexivity|]. split; [reflexivity|]. apply finv_same; [exact I|]. intros a. hist_cbn.
      repeat split; try reflexivity.
      * destruct (Z.eqb_spec p a) as [<-|]; [rewrite X; reflexivity|reflexivity].
      * destruct (Z.eqb_spec m a) as [<-|]; [rewrite X; reflexivity|reflexivity].
    + cbv zeta. set (s1 := fm_set s p (FMcp (parents h p ++ [m]) (daughters h p))).
      assert (exists ps ds, fm_at s1 m = Some (FMcp ps ds) /\ ps = parents ((McpAddParent p m, RStatus st_success) :: h) m /\ ds = daughters h m) as (ps & ds & -> & -> & ->).
      { unfold s1, fm_set. cbn [fm_at parents]. destruct (Z.eqb_spec m p) as [->|N].
        - do 2 eexists. split; [reflexivity|]. rewrite Z.eqb_refl, X. cbn. auto.
        - rewrite E2. do 2 eexists. split; [reflexivity|]. destruct (Z.eqb_spec p m); [congruence|]. cbn. auto. }
      do 2 eexists. split; [reflexivity|]. split; [reflexivity|]. unfold s1, fm_set. cbn [fm_next fm_at].
      set (h1 := (McpAddParent p m, RStatus st_success) :: h).
      assert (forall a, parents h1 a = if p =? a then parents h a ++ [m] else parents h a) as HP.
      { intros a. unfold h1. cbn [parents]. destruct (Z.eqb_spec p a) as [<-|]; [rewrite X|]; reflexivity. }
      assert (forall a, daughters h1 a = if m =? a then daughters h a ++ [p] else daughters h a) as HD.
      { intros a. unfold h1. cbn [daughters]. destruct (Z.eqb_spec m a) as [<-|]; [rewrite X|]; reflexivity. }
      assert (forall a, made h1 a = made h a) as HM by reflexivity.
      split; cbn [fm_next fm_at].
      * exact (fi_pos h s I).
      * intros a. destruct (Z.eqb_spec a m) as [->|Nm].
        { cbn [good]. rewrite HM, HD, Z.eqb_refl. auto. }
        destruct (Z.eqb_spec a p) as [->|Np].
        { cbn [good]. rewrite HM, HP, HD, Z.eqb_refl. destruct (Z.eqb_spec m p); [congruence|]. auto. }
        pose proof (fi_good h s I a) as GA. destruct (fm_at s a) as [[]|]; cbn [good] in *; rewrite ?HM, ?HP, ?HD; try exact GA.
        destruct (Z.eqb_spec p a); [congruence|]. destruct (Z.eqb_spec m a); [congruence|]. exact GA.
      * intros a Ha. destruct (Z.eqb_spec a m) as [->|Nm]; [lia|]. destruct (Z.eqb_spec a p) as [->|Np]; [lia|]. exact (fi_free h s I a Ha).
      * intros a M. rewrite HM in M. assert (p <> a) by congruence. assert (m <> a) by congruence. unfold blank. rewrite HP, HD.
        destruct (Z.eqb_spec p a); [congruence|]. destruct (Z.eqb_spec m a); [congruence|]. exact (fi_blank h s I a M).
  - (* McpParents *) destruct A as (A & R). destruct (made_mcp h s _ I A) as (E & O & B). rewrite O. cbn [bind].
    do 2 eexists. split; [reflexivity|]. split; [rewrite s32_small by (pose proof (Zlen_nn (parents h p)); lia); reflexivity|same].
  - (* McpParent *) destruct A as (A & R). destruct (made_mcp h s _ I A) as (E & O & B). rewrite O. cbn [bind].
    destruct (nth1_range (parents h p) (i + 1)) as (x & X & _); [lia|].
    rewrite (elem_at_nth1 _ i x X). cbn [bind]. do 2 eexists. split; [reflexivity|]. split; [eauto|same].
  - (* McpDaughters *) destruct A as (A & R). destruct (made_mcp h s _ I A) as (E & O & B). rewrite O. cbn [bind].
    do 2 eexists. split; [reflexivity|]. split; [rewrite s32_small by (pose proof (Zlen_nn (daughters h p)); lia); reflexivity|same].
  - (* McpDaughter *) destruct A as (A & R). destruct (made_mcp h s _ I A) as (E & O & B). rewrite O. cbn [bind].
    rewrite minus1_ok by (unfold two31; lia). cbn [bind]. destruct (nth1_range _ i R) as (x & X & _).
    rewrite (elem_at_nth1 _ (i - 1) x) by (replace (i - 1 + 1) with i by lia; exact X). cbn [bind].
    do 2 eexists. split; [reflexivity|]. split; [eauto|same].
  - (* SthAdd *) destruct A as (A & L & M). destruct (made_col h s _ I A) as (E & O & B). rewrite O, (as_mcp_ok h s mcp I M), L, Z.eqb_refl.
    unfold fm_new. do 2 eexists. split; [reflexivity|]. split; [eexists; split; [reflexivity|exact U]|].
    apply (finv_hit h s _ _ c KSth (FSth id pos edep time mcp)); [exact I|exact A|reflexivity|intros; repeat split| |].
    + intros a N. hist_cbn. destruct (Z.eqb_spec (fm_next s) a); [congruence|]. repeat split.
    + intros _. cbn [good made creates hit_made]. rewrite Z.eqb_refl. auto.
  - (* SthAt *) destruct A as (A & x & X & MX). destruct (made_col h s _ I A) as (E & O & B). rewrite O. cbn [bind].
    pose proof (nth1_pos _ _ _ X). rewrite minus1_ok by (unfold two31; lia). cbn [bind].
    rewrite (elem_at_nth1 _ (i - 1) x) by (replace (i - 1 + 1) with i by lia; exact X). cbn [bind].
    destruct (made_sth h s x I MX) as (id & pos & e & t & m & _ & OX & HX & _). rewrite OX. cbn [bind].
    do 2 eexists. split; [reflexivity|]. split; [exists x, id, pos, e, t, m; auto|same].
  - (* SthPosition *) destruct A as (A & R). destruct (made_sth h s _ I A) as (id & pos & e & t & m & _ & OX & HX & L). rewrite OX. cbn [bind].
    destruct (nth1_range pos (i + 1)) as (v & V & _); [lia|]. rewrite (elem_at_nth1 _ i v V). cbn [bind].
    do 2 eexists. split; [reflexivity|]. split; [exists id, pos, e, t, m, v; auto|same].
  - (* SchAdd *) destruct A as (A & L). destruct (made_col h s _ I A) as (E & O & B). rewrite O, L, Z.eqb_refl.
    unfold fm_new. do 2 eexists. split; [reflexivity|]. split; [eexists; split; [reflexivity|exact U]|].
    apply (finv_hit h s _ _ c KSch (FSch id0 id1 energy pos [])); [exact I|exact A|reflexivity|intros; repeat split| |].
    + intros a N. hist_cbn. destruct (Z.eqb_spec (fm_next s) a); [congruence|]. repeat split.
    + intros (_ & _ & _ & BC & _). cbn [good made creates cal_made cal_energy cal_conts]. rewrite Z.eqb_refl, BC. auto.
  - (* SchAt *) destruct A as (A & x & X & MX). destruct (made_col h s _ I A) as (E & O & B). rewrite O. cbn [bind].
    pose proof (nth1_pos _ _ _ X). destruct (Z.ltb_spec i 0); [lia|]. cbn [andb].
    rewrite minus1_ok by (unfold two31; lia). cbn [bind].
    rewrite (elem_at_nth1 _ (i - 1) x) by (replace (i - 1 + 1) with i by lia; exact X). cbn [bind].
    destruct (made_sch h s x I MX) as (i0 & i1 & pos & _ & OX & HX & _). rewrite OX. cbn [bind].
    do 2 eexists. split; [reflexivity|]. split; [exists x, i0, i1, pos; auto|same].
  - (* SchCont *) destruct A as (A & M). destruct (made_sch h s _ I A) as (i0 & i1 & pos & EX & OX & HX & B).
    match goal with |- context [obj_at s ?a] => set (b := a) in * end.
    rewrite OX, (as_mcp_ok h s mcp I M). do 2 eexists. split; [reflexivity|]. split; [reflexivity|].
    apply finv_set; [exact I|congruence|reflexivity|exact B|neq|].
    cbn [good made creates cal_made cal_energy cal_conts]. rewrite Z.eqb_refl. auto.
  - (* SchConts *) destruct A as (A & R). destruct (made_sch h s _ I A) as (i0 & i1 & pos & EX & OX & HX & B). rewrite OX. cbn [bind].
    do 2 eexists. split; [reflexivity|]. split; [rewrite s32_small by (split; [apply Zlen_nn|exact R]); reflexivity|same].
  - (* SchContAt *) destruct A as (A & R & R2). destruct (made_sch h s _ I A) as (i0 & i1 & pos & EX & OX & HX & B). rewrite OX. cbn [bind].
    rewrite s32_small by (split; [apply Zlen_nn|exact R2]).
    match goal with |- context [cal_conts h ?a] => set (b := a) in *; pose proof (Zlen_nn (cal_conts h b)) end.
    destruct (Z.ltb_spec i 0); cbn [andb].
    + destruct (Z.ltb_spec (Zlen (cal_conts h b) - 1) i); [lia|]. rewrite minus1_ok by lia. cbn [bind].
      destruct (Z.ltb_spec (i - 1) 0); [|lia]. do 2 eexists. split; [reflexivity|]. split; [|same].
      unfold nth1. destruct (Z.ltb_spec i 1); [reflexivity|lia].
    + rewrite minus1_ok by lia. cbn [bind]. unfold nth1. destruct (Z.ltb_spec (i - 1) 0); destruct (Z.ltb_spec i 1); try lia.
      * do 2 eexists. split; [reflexivity|]. split; [reflexivity|same].
      * destruct (nth_error (cal_conts h b) (Z.to_nat (i - 1))); do 2 eexists; (split; [reflexivity|]); (split; [reflexivity|same]).
  - (* ObvCreate *) unfold fm_new. do 2 eexists. split; [reflexivity|]. split; [eexists; split; [reflexivity|exact U]|].
    apply (finv_new h s (ObvCreate l) _ KObv (FObv l)); [exact I|reflexivity|intros; repeat split| |].
    + intros a N. hist_cbn. destruct (Z.eqb_spec (fm_next s) a); [congruence|]. repeat split.
    + intros _. cbn [good made creates obv_made]. rewrite Z.eqb_refl. auto.
  - (* ObvLength *) destruct (made_obv h s _ I A) as (O & L). rewrite O. cbn [bind].
    do 2 eexists. split; [reflexivity|]. split; [rewrite s32_small by (split; [apply Zlen_nn|exact L]); reflexivity|same].
  - (* ObvAt *) destruct (made_obv h s _ I A) as (O & L). rewrite O. cbn [bind]. rewrite s32_small by (split; [apply Zlen_nn|exact L]).
    unfold nth1. destruct (Z.ltb_spec i 1) as [L1|L1]; cbn [orb].
    + do 2 eexists. split; [reflexivity|]. split; [reflexivity|same].
    + destruct (Z.ltb_spec (Zlen (obv_made h v)) i) as [L2|L2].
      * do 2 eexists. split; [reflexivity|]. split; [|same].
        rewrite (proj2 (nth_error_None (obv_made h v) (Z.to_nat (i - 1)))); [reflexivity|]. unfold Zlen in L2. lia.
      * destruct (nth1_range (obv_made h v) i) as (x & X & XN); [lia|]. rewrite (elem_at_nth1 _ (i - 1) x) by (replace (i - 1 + 1) with i by lia; exact X).
        cbn [bind]. rewrite XN. do 2 eexists. split; [reflexivity|]. split; [reflexivity|same].
  - (* ParCreate *) unfold fm_new. do 2 eexists. split; [reflexivity|]. split; [eexists; split; [reflexivity|exact U]|].
    apply (finv_new h s (ParCreate vertex) _ KPar (FPar vertex [])); [exact I|reflexivity|intros; repeat split|intros; repeat split|].
    intros (_ & _ & _ & _ & B & _). cbn [good made creates params]. rewrite Z.eqb_refl. auto.
  - (* ParAdd *) destruct (made_par h s _ I A) as (v & E & O & B). rewrite O. do 2 eexists. split; [reflexivity|]. split; [reflexivity|].
    apply finv_set; [exact I|congruence|reflexivity|exact B|neq|].
    cbn [good made creates params]. rewrite Z.eqb_refl. auto.
  - (* ParGet *) destruct A as (A & L & N & N2). destruct (made_par h s _ I A) as (v & E & O & B). rewrite O. cbn [bind].
    destruct (get_values_spec (params h p) arr n L N N2) as (r & -> & C). do 2 eexists. split; [reflexivity|]. split; [exact C|same].
  - (* CluCreate *) unfold fm_new. do 2 eexists. split; [reflexivity|]. split; [eexists; split; [reflexivity|exact U]|].
    apply (finv_new h s CluCreate _ KClu (FClu [] [])); [exact I|reflexivity|intros; repeat split|intros; repeat split|].
    intros (_ & _ & _ & _ & _ & B). cbn [good made creates contributions]. rewrite Z.eqb_refl. auto.
  - (* CluAddHit *) destruct (made_clu h s _ I A) as (hs & E & O & LH & B). rewrite O. do 2 eexists. split; [reflexivity|]. split; [reflexivity|].
    apply finv_set; [exact I|congruence|reflexivity|exact B|neq|].
    cbn [good made creates contributions]. rewrite Z.eqb_refl. rewrite !app_length, LH. auto.
  - (* CluWeights *) destruct A as (A & L & N & N2). destruct (made_clu h s _ I A) as (hs & E & O & LH & B). rewrite O. cbn [bind].
    unfold Zlen at 1 2. rewrite LH. rewrite Z.ltb_irrefl, firstn_all.
    destruct (get_values_spec (contributions h c) arr n L N N2) as (r & -> & C). do 2 eexists. split; [reflexivity|]. split; [exact C|same].
Qed.

Lemma f_run_ok : forall cs h s, finv h s -> all_allowed h cs (fst (f_run fadd s cs)) -> as_expected fadd h cs (fst (f_run fadd s cs)).
Proof.
  induction cs as [|c cs IH]; intros h s I A; [exact Logic.I|]. cbn [f_run] in *.
  assert (allowed h c) as AC.
  { destruct (f_step fadd s c) as ([r| |] & s1); [|exact A|exact A]. destruct (f_run fadd s1 cs). exact (proj1 A). }
  destruct (f_step_ok h s c I AC) as (r & s1 & E & X & I1). rewrite E in A |- *.
  specialize (IH ((c, r) :: h) s1 I1). destruct (f_run fadd s1 cs) as (rs & s2). cbn [fst] in *. cbn [all_allowed as_expected] in *. split; [exact X|].
  exact (IH (proj2 A)).
Qed.

Theorem lists_ok cs : all_allowed [] cs (fst (f_run fadd fm_init cs)) -> as_expected fadd [] cs (fst (f_run fadd fm_init cs)).
Proof. apply f_run_ok, finv_init. Qed.
End P.

(** * Proofs about the sio model *)

From Verif Require Import Bytes SioModel.

(** ** Lists *)

Lemma zeros_length n : length (zeros n) = n.
Proof. apply repeat_length. Qed.
Lemma Zlen_zeros n : Zlen (zeros n) = Z.of_nat n.
Proof. unfold Zlen. rewrite zeros_length. reflexivity. Qed.
Lemma Zlen_be n z : Zlen (be n z) = Z.of_nat n.
Proof. unfold Zlen. rewrite be_length. reflexivity. Qed.

Lemma firstn_app_exact {A} (a b : list A) n : n = length a -> firstn n (a ++ b) = a.
Proof. intros ->. rewrite firstn_app, Nat.sub_diag, firstn_all. cbn. apply app_nil_r. Qed.
Lemma skipn_app_exact {A} (a b : list A) n : n = length a -> skipn n (a ++ b) = b.
Proof. intros ->. rewrite skipn_app, Nat.sub_diag, skipn_all. reflexivity. Qed.

Lemma put_mid a x b data :
  length x = length data -> put (a ++ x ++ b) (Zlen a) data = a ++ data ++ b.
Proof.
  intros H. unfold put, Zlen. rewrite Nat2Z.id.
  rewrite firstn_app_exact by reflexivity. f_equal. f_equal.
  rewrite app_assoc, skipn_app_exact; [reflexivity|]. rewrite app_length. lia.
Qed.

Lemma put_length l pos data : 0 <= pos -> pos + Zlen data <= Zlen l ->
  length (put l pos data) = length l.
Proof.
  unfold put, Zlen. intros H0 H. rewrite !app_length, firstn_length, skipn_length. lia.
Qed.

Lemma sub_mid a x b n : n = Zlen x -> sub (a ++ x ++ b) (Zlen a) n = x.
Proof.
  intros ->. unfold sub, Zlen. rewrite !Nat2Z.id.
  rewrite skipn_app_exact by reflexivity. apply firstn_app_exact. reflexivity.
Qed.

Lemma sub_length l pos n : 0 <= pos -> 0 <= n -> pos + n <= Zlen l -> Zlen (sub l pos n) = n.
Proof. unfold sub, Zlen. intros. rewrite firstn_length, skipn_length. lia. Qed.

Lemma resize_length l n : 0 <= n -> Zlen (resize l n) = n.
Proof. unfold resize, Zlen. intros H. rewrite app_length, firstn_length, zeros_length. lia. Qed.

Lemma resize_grow l n : Zlen l <= n -> resize l n = l ++ zeros (Z.to_nat n - length l).
Proof. unfold resize, Zlen. intros H. rewrite firstn_all2 by lia. reflexivity. Qed.

Lemma resize_shrink l n : 0 <= n <= Zlen l -> resize l n = firstn (Z.to_nat n) l.
Proof.
  unfold resize, Zlen. intros H. replace (Z.to_nat n - length l)%nat with 0%nat by lia.
  cbn. apply app_nil_r.
Qed.

(** ** Padding *)

Lemma land_pad x : 0 <= x -> Z.land x 4294967292 = (x mod two32) / 4 * 4.
Proof.
  intros Hx.
  change 4294967292 with (Z.ldiff (Z.ones 32) (Z.ones 2)).
  transitivity (Z.ldiff (Z.land x (Z.ones 32)) (Z.ones 2)).
  { apply Z.bits_inj'. intros n Hn. rewrite Z.ldiff_spec, !Z.land_spec, Z.ldiff_spec.
    destruct (Z.testbit x n), (Z.testbit (Z.ones 32) n), (Z.testbit (Z.ones 2) n); reflexivity. }
  rewrite Z.land_ones by lia. change (2 ^ 32) with two32.
  rewrite Z.ldiff_ones_r by lia. rewrite Z.shiftr_div_pow2, Z.shiftl_mul_pow2 by lia.
  reflexivity.
Qed.

(** The size of an element rounded up to a multiple of four. *)
Definition pad4 (n : Z) : Z := (n + 3) / 4 * 4.

Lemma padlen_pad4 n : 0 <= n < two32 - 3 -> padlen n = pad4 n.
Proof.
  unfold two32. intros H. unfold padlen. rewrite u64_id by (unfold is_u64, two64; lia).
  rewrite land_pad by lia. rewrite Z.mod_small by (unfold two32; lia). reflexivity.
Qed.

Lemma pad4_ge n : n <= pad4 n < n + 4.
Proof. unfold pad4. lia. Qed.
Lemma pad4_mod n : pad4 n mod 4 = 0.
Proof. unfold pad4. apply Z.mod_mul. lia. Qed.
Lemma pad4_id n : n mod 4 = 0 -> pad4 n = n.
Proof. unfold pad4. lia. Qed.

Definition small (bs : bytes) : Prop := Zlen bs < two32 - 3.

Lemma Zlen_padz bs : small bs -> Zlen (padz bs) = pad4 (Zlen bs).
Proof.
  intros H. unfold padz. rewrite Zlen_app, Zlen_zeros.
  rewrite padlen_pad4 by (pose proof (Zlen_nonneg bs); unfold small in H; lia).
  pose proof (pad4_ge (Zlen bs)). lia.
Qed.

Lemma padlen_Zlen bs : small bs -> padlen (Zlen bs) = Zlen (padz bs).
Proof.
  intros H. rewrite Zlen_padz by exact H. apply padlen_pad4.
  pose proof (Zlen_nonneg bs); unfold small in H; lia.
Qed.

Lemma padz_be n z : Z.of_nat n mod 4 = 0 -> (n < 1000)%nat -> padz (be n z) = be n z.
Proof.
  intros H Hn. unfold padz. rewrite padlen_pad4 by (rewrite Zlen_be; unfold two32; lia).
  rewrite pad4_id by (rewrite Zlen_be; exact H). rewrite Z.sub_diag. apply app_nil_r.
Qed.

Lemma padz_be4 z : padz (be 4 z) = be 4 z.
Proof. apply padz_be; [reflexivity|lia]. Qed.
Lemma padz_be8 z : padz (be 8 z) = be 8 z.
Proof. apply padz_be; [reflexivity|lia]. Qed.

Lemma small_be n z : (n < 1000)%nat -> small (be n z).
Proof. unfold small. rewrite Zlen_be. unfold two32. lia. Qed.

(** ** The write device refines appending

    [wrep d c]: the bytes written so far are [c]. *)
Definition wrep (d : wdev) (c : bytes) : Prop :=
  b_valid (w_buf d) = true /\
  exists t, b_bytes (w_buf d) = c ++ t /\ w_cur d = Zlen c /\ t <> [].

Lemma wrep_size d c : wrep d c -> Zlen c < b_size (w_buf d).
Proof.
  intros (Hv & t & Hb & Hc & Ht). unfold b_size. rewrite Hb, Zlen_app.
  destruct t; [congruence|]. rewrite Zlen_cons. pose proof (Zlen_nonneg t). lia.
Qed.

Lemma app_cut {A} (t : list A) (n : nat) : (n <= length t)%nat ->
  exists x t', t = x ++ t' /\ length x = n.
Proof.
  intros H. exists (firstn n t), (skipn n t). split.
  - symmetry. apply firstn_skipn.
  - apply firstn_length_le. exact H.
Qed.

Lemma api_write_app c t bs :
  small bs -> t <> [] ->
  exists t', t' <> [] /\
    api_write (mkBuffer (c ++ t) true) (Zlen c) bs
    = Ok (mkBuffer ((c ++ padz bs) ++ t') true, Zlen (padz bs)).
Proof.
  intros Hs Ht. unfold api_write. cbn [b_valid negb b_bytes].
  rewrite padlen_Zlen by exact Hs.
  set (pl := Zlen (padz bs)). cbv zeta. unfold b_size. cbn [b_bytes].
  pose proof (Zlen_nonneg c) as Hc. pose proof (Zlen_nonneg (padz bs)) as Hp. fold pl in Hp.
  assert (Hb : Zlen bs <= pl).
  { unfold pl. rewrite Zlen_padz by exact Hs. pose proof (pad4_ge (Zlen bs)). lia. }
  assert (Htl : 0 < Zlen t).
  { destruct t; [congruence|]. rewrite Zlen_cons. pose proof (Zlen_nonneg t). lia. }
  (* in both cases the buffer is c ++ t1 with room *)
  assert (Hroom : exists t1, Zlen t1 > pl /\
     (if Zlen c + pl >=? Zlen (c ++ t)
      then b_expand (mkBuffer (c ++ t) true) (Z.max (Zlen (c ++ t)) pl)
      else mkBuffer (c ++ t) true) = mkBuffer (c ++ t1) true).
  { rewrite ?Zlen_app.
    destruct (Zlen c + pl >=? Zlen c + Zlen t) eqn:E.
    - unfold b_expand, b_size. cbn [b_bytes b_valid].
      rewrite resize_grow by (rewrite Zlen_app; lia).
      eexists (t ++ zeros _). split; [|rewrite app_assoc; reflexivity].
      rewrite Zlen_app, Zlen_zeros, Zlen_app, app_length. unfold Zlen in *. lia.
    - exists t. split; [lia|reflexivity]. }
  destruct Hroom as (t1 & Ht1 & ->). cbn [b_bytes].
  rewrite Zlen_app.
  destruct (Zlen c + Zlen t1 <=? Zlen c) eqn:E1; [lia|].
  destruct (Zlen c + Zlen t1 <? Zlen c + Zlen bs) eqn:E2; [lia|].
  destruct (app_cut t1 (length (padz bs))) as (x & t2 & -> & Hx).
  { unfold pl, Zlen in *. lia. }
  exists t2. split.
  - intros ->. rewrite app_nil_r in Ht1. unfold pl, Zlen in Ht1. rewrite Hx in Ht1. lia.
  - rewrite put_mid by exact Hx. rewrite <- app_assoc. reflexivity.
Qed.

Lemma w_data_rep d c bs :
  wrep d c -> small bs ->
  exists d', w_data d bs = Ok d' /\ wrep d' (c ++ padz bs) /\ w_at d' = w_at d /\ w_to d' = w_to d.
Proof.
  intros (Hv & t & Hb & Hc & Ht) Hs. unfold w_data.
  destruct d as [[b v] cur at_ to_]. cbn [w_buf b_valid b_bytes w_cur w_at w_to] in *. subst b v cur.
  destruct (api_write_app c t bs Hs Ht) as (t' & Ht' & ->). cbn [bind].
  eexists. split; [reflexivity|]. cbn [w_at w_to]. split; [|split; reflexivity].
  split; [reflexivity|]. exists t'. cbn [w_buf b_bytes w_cur].
  split; [reflexivity|]. split; [|exact Ht']. rewrite Zlen_app. reflexivity.
Qed.

(** Going back to fill in a word. *)
Lemma api_write_over c1 x t w :
  small w -> length x = length (padz w) -> t <> [] ->
  api_write (mkBuffer (c1 ++ x ++ t) true) (Zlen c1) w
  = Ok (mkBuffer (c1 ++ padz w ++ t) true, Zlen (padz w)).
Proof.
  intros Hs Hx Ht. unfold api_write. cbn [b_valid negb b_bytes].
  rewrite padlen_Zlen by exact Hs. cbv zeta. unfold b_size. cbn [b_bytes].
  assert (Htl : 0 < Zlen t).
  { destruct t; [congruence|]. rewrite Zlen_cons. pose proof (Zlen_nonneg t). lia. }
  assert (Hb : Zlen w <= Zlen (padz w)).
  { rewrite Zlen_padz by exact Hs. pose proof (pad4_ge (Zlen w)). lia. }
  assert (Hxl : Zlen x = Zlen (padz w)) by (unfold Zlen; lia).
  pose proof (Zlen_nonneg c1). pose proof (Zlen_nonneg x). rewrite !Zlen_app.
  destruct (Zlen c1 + Zlen (padz w) >=? Zlen c1 + (Zlen x + Zlen t)) eqn:E; [lia|].
  cbn [b_bytes]. rewrite !Zlen_app.
  destruct (Zlen c1 + (Zlen x + Zlen t) <=? Zlen c1) eqn:E1; [lia|].
  destruct (Zlen c1 + (Zlen x + Zlen t) <? Zlen c1 + Zlen w) eqn:E2; [lia|].
  rewrite put_mid by exact Hx. reflexivity.
Qed.

Lemma w_seek_ok d pos : pos <= b_size (w_buf d) ->
  w_seek d pos = Ok (mkW (w_buf d) pos (w_at d) (w_to d)).
Proof. intros H. unfold w_seek. destruct (b_size (w_buf d) <? pos) eqn:E; [lia|reflexivity]. Qed.

Lemma w_patch d c1 x c2 w :
  wrep d (c1 ++ x ++ c2) -> length x = 4%nat -> length w = 4%nat -> padz w = w ->
  exists d', (do d1 <- w_seek d (Zlen c1); do d2 <- w_data d1 w; w_seek d2 (Zlen (c1 ++ x ++ c2)))
             = Ok d'
    /\ wrep d' (c1 ++ w ++ c2) /\ w_at d' = w_at d /\ w_to d' = w_to d.
Proof.
  intros Hr Hx Hw Hp. pose proof (wrep_size _ _ Hr) as Hsz.
  destruct Hr as (Hv & t & Hb & Hc & Ht).
  pose proof (Zlen_nonneg c1). pose proof (Zlen_nonneg c2). pose proof (Zlen_nonneg x).
  rewrite !Zlen_app in Hsz.
  rewrite w_seek_ok by lia. cbn [bind].
  destruct d as [[b v] cur at_ to_]. cbn [w_buf b_valid b_bytes w_cur w_at w_to] in *. subst b v cur.
  unfold w_data. cbn [w_buf w_cur w_at w_to].
  replace ((c1 ++ x ++ c2) ++ t) with (c1 ++ x ++ (c2 ++ t)) by (rewrite <- !app_assoc; reflexivity).
  rewrite api_write_over; [|unfold small, Zlen, two32; lia|rewrite Hp; lia|destruct c2; cbn; congruence].
  cbn [bind]. rewrite Hp.
  assert (Hl : Zlen x = Zlen w) by (unfold Zlen; lia).
  rewrite w_seek_ok.
  2:{ cbn [w_buf]. unfold b_size. cbn [b_bytes]. rewrite !Zlen_app. pose proof (Zlen_nonneg t). lia. }
  cbn [w_buf w_at w_to].
  eexists. split; [reflexivity|]. split; [|split; reflexivity].
  split; [reflexivity|]. exists t. cbn [w_buf b_bytes w_cur]. rewrite !Zlen_app, <- !app_assoc.
  split; [reflexivity|]. split; [lia|exact Ht].
Qed.

(** ** Lists of device calls *)

(** Bytes of the calls before relocation. *)
Definition render0_call (c : dcall) : bytes :=
  match c with
  | DData bs => padz bs
  | DTag _ => be 4 4294967295
  | DPtr _ => be 4 0
  end.
Definition render0 (cs : list dcall) : bytes := flat_map render0_call cs.

Definition call_ok (c : dcall) : Prop := match c with DData bs => small bs | _ => True end.
Definition calls_ok (cs : list dcall) : Prop := Forall call_ok cs.

(** The two tables of the device after the calls, starting at offset [off]. *)
Fixpoint ats (off : Z) (cs : list dcall) (m : list (addr * Z)) : list (addr * Z) :=
  match cs with
  | [] => m
  | c :: cs' =>
      ats (off + Zlen (render0_call c)) cs'
          (match c with DTag a => map_insert a off m | _ => m end)
  end.
Fixpoint tos (off : Z) (cs : list dcall) (m : list (addr * Z)) : list (addr * Z) :=
  match cs with
  | [] => m
  | c :: cs' =>
      tos (off + Zlen (render0_call c)) cs'
          (match c with DPtr a => if a =? 0 then m else mmap_insert a off m | _ => m end)
  end.

Lemma dev_call_rep d c cl :
  wrep d c -> call_ok cl ->
  exists d', dev_call d cl = Ok d' /\ wrep d' (c ++ render0_call cl) /\
    w_at d' = (match cl with DTag a => map_insert a (Zlen c) (w_at d) | _ => w_at d end) /\
    w_to d' = (match cl with DPtr a => if a =? 0 then w_to d else mmap_insert a (Zlen c) (w_to d)
                        | _ => w_to d end).
Proof.
  intros Hr Hok. pose proof (wrep_size d c Hr) as Hsz.
  destruct cl as [bs|a|a]; cbn [dev_call render0_call call_ok] in *.
  - destruct (w_data_rep d c bs Hr Hok) as (d' & H1 & H2 & H3 & H4). eauto.
  - unfold w_pointed_at. destruct Hr as (Hv & t & Hb & Hc & Ht). rewrite Hc.
    destruct (b_size (w_buf d) <=? Zlen c) eqn:E; [lia|].
    destruct (w_data_rep (mkW (w_buf d) (Zlen c) (map_insert a (Zlen c) (w_at d)) (w_to d)) c
                (be 4 4294967295)) as (d' & H1 & H2 & H3 & H4).
    { split; [exact Hv|]. exists t. cbn [w_buf w_cur]. auto. }
    { apply small_be; lia. }
    rewrite padz_be4 in H2. exists d'. cbn [w_at w_to] in *. auto.
  - unfold w_pointer_to. destruct Hr as (Hv & t & Hb & Hc & Ht). rewrite Hc.
    destruct (b_size (w_buf d) <=? Zlen c) eqn:E; [lia|]. cbv zeta.
    destruct (w_data_rep (mkW (w_buf d) (Zlen c) (w_at d)
                 (if a =? 0 then w_to d else mmap_insert a (Zlen c) (w_to d))) c
                (be 4 0)) as (d' & H1 & H2 & H3 & H4).
    { split; [exact Hv|]. exists t. cbn [w_buf w_cur]. auto. }
    { apply small_be; lia. }
    rewrite padz_be4 in H2. exists d'. cbn [w_at w_to] in *. auto.
Qed.

Lemma dev_calls_rep cs : forall d c,
  wrep d c -> calls_ok cs ->
  exists d', dev_calls d cs = Ok d' /\ wrep d' (c ++ render0 cs) /\
    w_at d' = ats (Zlen c) cs (w_at d) /\ w_to d' = tos (Zlen c) cs (w_to d).
Proof.
  induction cs as [|cl cs IH]; intros d c Hr Hok.
  - exists d. cbn [dev_calls render0 flat_map ats tos]. rewrite app_nil_r. auto.
  - inversion Hok as [|? ? Hcl Hcs]; subst.
    destruct (dev_call_rep d c cl Hr Hcl) as (d1 & H1 & H2 & H3 & H4).
    destruct (IH d1 _ H2 Hcs) as (d' & H5 & H6 & H7 & H8).
    exists d'. cbn [dev_calls]. rewrite H1. cbn [bind]. rewrite H5.
    split; [reflexivity|]. cbn [render0 flat_map]. fold (render0 cs).
    rewrite app_assoc. split; [exact H6|].
    cbn [ats tos]. rewrite H7, H8, H3, H4, Zlen_app. auto.
Qed.

(** ** Sorted association lists *)

Definition keys {V} (m : list (Z * V)) : list Z := map fst m.

Fixpoint sorted_lt (l : list Z) : Prop :=
  match l with
  | [] => True
  | x :: l' => Forall (fun y => x < y) l' /\ sorted_lt l'
  end.
Fixpoint sorted_le (l : list Z) : Prop :=
  match l with
  | [] => True
  | x :: l' => Forall (fun y => x <= y) l' /\ sorted_le l'
  end.

Lemma map_insert_keys {V} k (v : V) m x :
  In x (keys (map_insert k v m)) <-> x = k \/ In x (keys m).
Proof.
  induction m as [|[k' v'] m IH]; cbn [map_insert keys map fst In].
  - intuition.
  - destruct (k <? k') eqn:E1; cbn [keys map fst In]; [intuition|].
    destruct (k =? k') eqn:E2; cbn [keys map fst In].
    + assert (k = k') by lia. subst. intuition.
    + fold (keys (map_insert k v m)). fold (keys m). rewrite IH. intuition.
Qed.

Lemma map_insert_sorted {V} k (v : V) m :
  sorted_lt (keys m) -> sorted_lt (keys (map_insert k v m)).
Proof.
  induction m as [|[k' v'] m IH]; cbn [map_insert keys map fst sorted_lt].
  - intros _. split; constructor.
  - intros [H1 H2]. destruct (k <? k') eqn:E1; cbn [keys map fst sorted_lt].
    + split; [|split; assumption]. constructor; [lia|].
      apply Forall_forall. intros y Hy. rewrite Forall_forall in H1. specialize (H1 y Hy). lia.
    + destruct (k =? k') eqn:E2; cbn [keys map fst sorted_lt]; [split; assumption|].
      split; [|apply IH; exact H2]. apply Forall_forall. intros y Hy.
      apply map_insert_keys in Hy. rewrite Forall_forall in H1. destruct Hy as [->|Hy]; [lia|].
      apply H1; exact Hy.
Qed.

Lemma assoc_not_in {V} k (m : list (Z * V)) : ~ In k (keys m) -> assoc k m = None.
Proof.
  induction m as [|[k' v'] m IH]; cbn [keys map fst In assoc]; [reflexivity|].
  intros H. destruct (k =? k') eqn:E; [exfalso; apply H; left; lia|]. apply IH. intuition.
Qed.

Lemma assoc_in {V} k (m : list (Z * V)) v : assoc k m = Some v -> In (k, v) m.
Proof.
  induction m as [|[k' v'] m IH]; cbn [assoc]; [discriminate|].
  destruct (k =? k') eqn:E; intros H.
  - injection H as <-. left. f_equal. lia.
  - right. apply IH. exact H.
Qed.

Lemma assoc_in_keys {V} k (m : list (Z * V)) : In k (keys m) -> exists v, assoc k m = Some v.
Proof.
  induction m as [|[k' v'] m IH]; cbn [keys map fst In assoc]; [intros []|].
  intros H. destruct (k =? k') eqn:E; [eauto|]. apply IH. destruct H; [lia|exact H].
Qed.

Lemma assoc_map_insert {V} k (v : V) m k0 :
  sorted_lt (keys m) ->
  assoc k0 (map_insert k v m) =
  if k0 =? k then match assoc k m with Some x => Some x | None => Some v end else assoc k0 m.
Proof.
  induction m as [|[k' v'] m IH]; cbn [map_insert keys map fst sorted_lt assoc].
  - intros _. destruct (k0 =? k); reflexivity.
  - intros [H1 H2]. destruct (k <? k') eqn:E1; cbn [assoc].
    + destruct (k0 =? k) eqn:E0; [|reflexivity].
      destruct (k =? k') eqn:E2; [lia|]. rewrite assoc_not_in; [reflexivity|].
      intros Hin. rewrite Forall_forall in H1. specialize (H1 _ Hin). lia.
    + destruct (k =? k') eqn:E2; cbn [assoc].
      * destruct (k0 =? k) eqn:E0; [|reflexivity]. replace (k0 =? k') with true by lia. reflexivity.
      * rewrite (IH H2). destruct (k0 =? k') eqn:E3; [|reflexivity].
        replace (k0 =? k) with false by lia. reflexivity.
Qed.

Lemma in_mmap_insert {V} k (v : V) m x : In x (mmap_insert k v m) <-> x = (k, v) \/ In x m.
Proof.
  induction m as [|[k' v'] m IH]; cbn [mmap_insert In].
  - intuition.
  - destruct (k <? k'); cbn [In]; [intuition|]. rewrite IH. intuition.
Qed.

Lemma mmap_insert_sorted {V} k (v : V) m :
  sorted_le (keys m) -> sorted_le (keys (mmap_insert k v m)).
Proof.
  induction m as [|[k' v'] m IH]; cbn [mmap_insert keys map fst sorted_le].
  - intros _. split; constructor.
  - intros [H1 H2]. destruct (k <? k') eqn:E1; cbn [keys map fst sorted_le].
    + split; [|split; assumption]. constructor; [lia|].
      apply Forall_forall. intros y Hy. rewrite Forall_forall in H1. specialize (H1 y Hy). lia.
    + split; [|apply IH; exact H2]. apply Forall_forall. intros y Hy.
      unfold keys in Hy. apply in_map_iff in Hy. destruct Hy as [[y1 y2] [<- Hy]].
      apply in_mmap_insert in Hy. destruct Hy as [Hy|Hy].
      * injection Hy as -> ->. cbn. lia.
      * rewrite Forall_forall in H1. apply H1. apply in_map. exact Hy.
Qed.

(** ** Slots: the words of a call list that the relocation may rewrite *)

Fixpoint slots (off : Z) (cs : list dcall) : list (Z * dcall) :=
  match cs with
  | [] => []
  | c :: cs' =>
      let r := slots (off + Zlen (render0_call c)) cs' in
      match c with DData _ => r | _ => (off, c) :: r end
  end.

Lemma slots_bounds cs : forall off o c, In (o, c) (slots off cs) ->
  off <= o /\ o + 4 <= off + Zlen (render0 cs).
Proof.
  induction cs as [|c cs IH]; intros off o c' H; [destruct H|].
  cbn [slots] in H. cbn [render0 flat_map]. fold (render0 cs). rewrite Zlen_app.
  assert (Hr : In (o, c') (slots (off + Zlen (render0_call c)) cs) ->
     off <= o /\ o + 4 <= off + (Zlen (render0_call c) + Zlen (render0 cs))).
  { intros Hin. apply IH in Hin. pose proof (Zlen_nonneg (render0_call c)). lia. }
  destruct c as [bs|a|a]; [apply Hr; exact H| |];
    (destruct H as [H|H]; [|apply Hr; exact H]);
    injection H as <- <-; cbn [render0_call]; rewrite Zlen_be; pose proof (Zlen_nonneg (render0 cs)); lia.
Qed.

Lemma slots_fun cs : forall off o c1 c2,
  In (o, c1) (slots off cs) -> In (o, c2) (slots off cs) -> c1 = c2.
Proof.
  induction cs as [|c cs IH]; intros off o c1 c2 H1 H2; [destruct H1|].
  cbn [slots] in *.
  destruct c as [bs|a|a]; [eapply IH; eassumption| |];
   (destruct H1 as [H1|H1], H2 as [H2|H2];
    [congruence
    |injection H1 as <- <-; apply slots_bounds in H2; cbn [render0_call] in H2; rewrite Zlen_be in H2; lia
    |injection H2 as <- <-; apply slots_bounds in H1; cbn [render0_call] in H1; rewrite Zlen_be in H1; lia
    |eapply IH; eassumption]).
Qed.

Definition tag_of (c : dcall) : list addr := match c with DTag a => [a] | _ => [] end.
Definition ptr_of (c : dcall) : list addr := match c with DPtr a => [a] | _ => [] end.
Definition tags (cs : list dcall) : list addr := flat_map tag_of cs.
Definition ptrs (cs : list dcall) : list addr := flat_map ptr_of cs.

Lemma in_tags_slot cs a : forall off, In a (tags cs) <-> exists o, In (o, DTag a) (slots off cs).
Proof.
  induction cs as [|c cs IH]; intros off; cbn [tags flat_map slots].
  - split; [intros []|intros [o []]].
  - rewrite in_app_iff. fold (tags cs). rewrite (IH (off + Zlen (render0_call c))).
    destruct c as [bs|b|b]; cbn [tag_of In].
    + intuition.
    + split.
      * intros [[->|[]]|[o Ho]]; [exists off; left; reflexivity|exists o; right; exact Ho].
      * intros [o [Ho|Ho]]; [left; left; congruence|right; exists o; exact Ho].
    + split.
      * intros [[]|[o Ho]]. exists o; right; exact Ho.
      * intros [o [Ho|Ho]]; [discriminate|right; exists o; exact Ho].
Qed.

Lemma in_ptrs_slot cs a : forall off, In a (ptrs cs) <-> exists o, In (o, DPtr a) (slots off cs).
Proof.
  induction cs as [|c cs IH]; intros off; cbn [ptrs flat_map slots].
  - split; [intros []|intros [o []]].
  - rewrite in_app_iff. fold (ptrs cs). rewrite (IH (off + Zlen (render0_call c))).
    destruct c as [bs|b|b]; cbn [ptr_of In].
    + intuition.
    + split.
      * intros [[]|[o Ho]]. exists o; right; exact Ho.
      * intros [o [Ho|Ho]]; [discriminate|right; exists o; exact Ho].
    + split.
      * intros [[->|[]]|[o Ho]]; [exists off; left; reflexivity|exists o; right; exact Ho].
      * intros [o [Ho|Ho]]; [left; left; congruence|right; exists o; exact Ho].
Qed.

Lemma slot_tag_unique cs : forall off a o1 o2, NoDup (tags cs) ->
  In (o1, DTag a) (slots off cs) -> In (o2, DTag a) (slots off cs) -> o1 = o2.
Proof.
  induction cs as [|c cs IH]; intros off a o1 o2 Hnd H1 H2; [destruct H1|].
  cbn [tags flat_map slots] in *. fold (tags cs) in Hnd.
  destruct c as [bs|b|b]; cbn [tag_of app] in Hnd.
  - eapply IH; eassumption.
  - inversion Hnd as [|? ? Hni Hnd']; subst.
    destruct H1 as [H1|H1], H2 as [H2|H2].
    + congruence.
    + injection H1 as -> ->. exfalso. apply Hni. eapply in_tags_slot; eauto.
    + injection H2 as -> ->. exfalso. apply Hni. eapply in_tags_slot; eauto.
    + eapply IH; eassumption.
  - destruct H1 as [H1|H1]; [discriminate|]. destruct H2 as [H2|H2]; [discriminate|].
    eapply IH; eassumption.
Qed.

(** The tables of the device in terms of the slots. *)
Lemma tos_spec cs : forall off m,
  sorted_le (keys m) ->
  sorted_le (keys (tos off cs m)) /\
  forall a o, In (a, o) (tos off cs m) <->
    In (a, o) m \/ (a <> 0 /\ In (o, DPtr a) (slots off cs)).
Proof.
  induction cs as [|c cs IH]; intros off m Hm.
  - cbn [tos slots]. split; [exact Hm|]. intros a o; cbn; intuition.
  - cbn [tos slots].
    destruct c as [bs|b|b].
    + apply IH; exact Hm.
    + destruct (IH (off + Zlen (render0_call (DTag b))) m Hm) as [H1 H2]. split; [exact H1|].
      intros a o. rewrite H2. cbn [In]. intuition; discriminate.
    + destruct (b =? 0) eqn:Eb.
      * destruct (IH (off + Zlen (render0_call (DPtr b))) m Hm) as [H1 H2]. split; [exact H1|].
        intros a o. rewrite H2. cbn [In]. split; [intuition|].
        intros [H|[H [H'|H']]]; [intuition|injection H' as -> ->; lia|intuition].
      * destruct (IH (off + Zlen (render0_call (DPtr b))) (mmap_insert b off m)
           (mmap_insert_sorted b off m Hm)) as [H1 H2]. split; [exact H1|].
        intros a o. rewrite H2. rewrite in_mmap_insert. cbn [In]. split.
        -- intros [[H|H]|H]; [injection H as -> ->; right; split; [lia|left; reflexivity]
                             |left; exact H|right; intuition].
        -- intros [H|[H [H'|H']]]; [intuition|injection H' as -> ->; intuition|intuition].
Qed.

Lemma ats_spec cs : forall off m,
  sorted_lt (keys m) -> NoDup (tags cs) -> (forall a, In a (tags cs) -> ~ In a (keys m)) ->
  sorted_lt (keys (ats off cs m)) /\
  forall a o, assoc a (ats off cs m) = Some o <->
    assoc a m = Some o \/ In (o, DTag a) (slots off cs).
Proof.
  induction cs as [|c cs IH]; intros off m Hm Hnd Hdis.
  - cbn [ats slots]. split; [exact Hm|]. intros a o; cbn; intuition.
  - cbn [ats slots]. cbn [tags flat_map] in Hnd, Hdis. fold (tags cs) in Hnd, Hdis.
    destruct c as [bs|b|b]; cbn [tag_of app] in Hnd, Hdis.
    + apply IH; assumption.
    + inversion Hnd as [|? ? Hni Hnd']; subst.
      destruct (IH (off + Zlen (render0_call (DTag b))) (map_insert b off m)
         (map_insert_sorted b off m Hm) Hnd') as [H1 H2].
      { intros a Ha Hk. apply map_insert_keys in Hk. destruct Hk as [->|Hk]; [contradiction|].
        apply (Hdis a); [right; exact Ha|exact Hk]. }
      split; [exact H1|]. intros a o. rewrite H2. rewrite assoc_map_insert by exact Hm.
      cbn [In]. assert (Hb : assoc b m = None).
      { apply assoc_not_in. apply Hdis. left. reflexivity. }
      destruct (a =? b) eqn:E.
      * assert (a = b) by lia. subst a. rewrite Hb. split.
        -- intros [H|H]; [injection H as ->; right; left; reflexivity|right; right; exact H].
        -- intros [H|[H|H]]; [discriminate|injection H as ->; left; reflexivity|right; exact H].
      * split; [intuition|]. intros [H|[H|H]]; [intuition|injection H as -> ->; lia|intuition].
    + destruct (IH (off + Zlen (render0_call (DPtr b))) m Hm Hnd Hdis) as [H1 H2].
      split; [exact H1|]. intros a o. rewrite H2. cbn [In]. intuition; discriminate.
Qed.

(** ** Rendering with given words in the slots *)

Fixpoint renderW (W : Z -> Z) (off : Z) (cs : list dcall) : bytes :=
  match cs with
  | [] => []
  | c :: cs' =>
      (match c with DData bs => padz bs | _ => be 4 (W off) end)
      ++ renderW W (off + Zlen (render0_call c)) cs'
  end.

Definition upd (W : Z -> Z) (o v : Z) : Z -> Z := fun x => if x =? o then v else W x.

Lemma renderW_ext W1 W2 cs : forall off,
  (forall o c, In (o, c) (slots off cs) -> W1 o = W2 o) ->
  renderW W1 off cs = renderW W2 off cs.
Proof.
  induction cs as [|c cs IH]; intros off H; [reflexivity|].
  cbn [renderW slots] in *.
  destruct c as [bs|a|a].
  - f_equal. apply IH. exact H.
  - f_equal; [f_equal; apply (H off (DTag a)); left; reflexivity|].
    apply IH. intros o c Hin. apply (H o c). right. exact Hin.
  - f_equal; [f_equal; apply (H off (DPtr a)); left; reflexivity|].
    apply IH. intros o c Hin. apply (H o c). right. exact Hin.
Qed.

Lemma renderW_length W cs : forall off, Zlen (renderW W off cs) = Zlen (render0 cs).
Proof.
  induction cs as [|c cs IH]; intros off; [reflexivity|].
  cbn [renderW render0 flat_map]. rewrite !Zlen_app. fold (render0 cs). rewrite IH.
  destruct c as [bs|a|a]; cbn [render0_call]; rewrite ?Zlen_be; reflexivity.
Qed.

Lemma be4_u32 m : be 4 (u32 m) = be 4 m.
Proof. unfold u32, two32. exact (be_mod 4 m). Qed.

Lemma put_word_render W m o cs : forall pre post c,
  In (o, c) (slots (Zlen pre) cs) ->
  put_word (pre ++ renderW W (Zlen pre) cs ++ post) o m
  = Ok (pre ++ renderW (upd W o m) (Zlen pre) cs ++ post).
Proof.
  induction cs as [|c cs IH]; intros pre post c0 Hin; [destruct Hin|].
  cbn [slots renderW] in *.
  assert (Hslot : forall a, c = DTag a \/ c = DPtr a ->
    In (o, c0) ((Zlen pre, c) :: slots (Zlen pre + Zlen (render0_call c)) cs) ->
    put_word (pre ++ (be 4 (W (Zlen pre)) ++ renderW W (Zlen pre + Zlen (render0_call c)) cs) ++ post) o m
    = Ok (pre ++ (be 4 (upd W o m (Zlen pre)) ++
          renderW (upd W o m) (Zlen pre + Zlen (render0_call c)) cs) ++ post)).
  { intros a Hc Hin'.
    assert (Hlen : Zlen (render0_call c) = 4).
    { destruct Hc as [-> | ->]; cbn [render0_call]; apply Zlen_be. }
    rewrite Hlen in *.
    destruct Hin' as [Heq|Hin'].
    - injection Heq as <- <-. unfold put_word.
      rewrite <- app_assoc.
      assert (E : Zlen (pre ++ be 4 (W (Zlen pre)) ++ renderW W (Zlen pre + 4) cs ++ post)
                  <? Zlen pre + 4 = false).
      { rewrite !Zlen_app, Zlen_be. pose proof (Zlen_nonneg (renderW W (Zlen pre + 4) cs)).
        pose proof (Zlen_nonneg post). lia. }
      rewrite E. rewrite put_mid by (rewrite !be_length; reflexivity).
      rewrite be4_u32. f_equal. f_equal. rewrite <- app_assoc. f_equal.
      + unfold upd. rewrite Z.eqb_refl. reflexivity.
      + f_equal. apply renderW_ext. intros o' c' Ho'. apply slots_bounds in Ho'.
        unfold upd. replace (o' =? Zlen pre) with false by lia. reflexivity.
    - pose proof (slots_bounds _ _ _ _ Hin') as Hb.
      specialize (IH (pre ++ be 4 (W (Zlen pre))) post c0).
      rewrite Zlen_app, Zlen_be in IH. cbn [Z.of_nat Pos.of_succ_nat Pos.succ] in IH.
      specialize (IH Hin'). rewrite <- !app_assoc in IH. rewrite <- !app_assoc. rewrite IH.
      f_equal. f_equal. f_equal. unfold upd. replace (Zlen pre =? o) with false by lia. reflexivity. }
  destruct c as [bs|a|a]; [|apply (Hslot a); [left; reflexivity|exact Hin]
                           |apply (Hslot a); [right; reflexivity|exact Hin]].
  cbn [render0_call] in *.
  specialize (IH (pre ++ padz bs) post c0). rewrite Zlen_app in IH. specialize (IH Hin).
  rewrite <- !app_assoc in IH. rewrite <- !app_assoc. exact IH.
Qed.

(** ** The relocation pass *)

(** The entries of the pointer table with the match number used for them. *)
Fixpoint ann (to_ : list (addr * Z)) (last : option addr) (m : Z) : list (addr * Z * Z) :=
  match to_ with
  | [] => []
  | (k, off) :: rest =>
      let m' := if same_group last k then m else m + 1 in
      (k, off, m') :: ann rest (Some k) m'
  end.

Definition akey (e : addr * Z * Z) : addr := fst (fst e).
Definition aoff (e : addr * Z * Z) : Z := snd (fst e).
Definition amatch (e : addr * Z * Z) : Z := snd e.

Lemma ann_in to_ : forall last m e, In e (ann to_ last m) -> In (akey e, aoff e) to_.
Proof.
  induction to_ as [|[k off] r IH]; intros last m e H; [destruct H|].
  cbn [ann] in H. destruct H as [<-|H]; [left; reflexivity|]. right. eapply IH; exact H.
Qed.

Lemma in_ann to_ : forall last m k off, In (k, off) to_ -> exists x, In (k, off, x) (ann to_ last m).
Proof.
  induction to_ as [|[k0 off0] r IH]; intros last m k off H; [destruct H|].
  cbn [ann]. destruct H as [H|H].
  - injection H as -> ->. eexists. left. reflexivity.
  - destruct (IH (Some k0) (if same_group last k0 then m else m + 1)
       k off H) as [x Hx]. exists x. right. exact Hx.
Qed.

Lemma ann_bounds to_ : forall last m,
  sorted_le (keys to_) ->
  (forall l k, last = Some l -> In k (keys to_) -> l <= k) ->
  forall e, In e (ann to_ last m) ->
    (last = Some (akey e) -> amatch e = m) /\ (last <> Some (akey e) -> m < amatch e) /\
    amatch e <= m + Zlen to_.
Proof.
  induction to_ as [|[k off] r IH]; intros last m Hs Hl e He; [destruct He|].
  cbn [ann] in He. cbn [keys map fst sorted_le] in Hs. destruct Hs as [Hs1 Hs2].
  rewrite Zlen_cons. pose proof (Zlen_nonneg r) as Hr.
  set (same := same_group last k) in *.
  assert (Hsame : same = true <-> last = Some k).
  { unfold same, same_group. destruct last as [l|]; [|split; discriminate].
    rewrite Z.eqb_eq. split; [intros ->; reflexivity|intros H; injection H as ->; reflexivity]. }
  destruct He as [<-|He].
  - unfold akey, amatch; cbn [fst snd]. destruct same eqn:Es.
    + assert (last = Some k) by (apply Hsame; reflexivity). split; [auto|]. split; [intros; contradiction|lia].
    + split; [intros H; apply Hsame in H; discriminate|]. split; [intros _; lia|lia].
  - specialize (IH (Some k) (if same then m else m + 1) Hs2).
    assert (Hk : forall l k0, Some k = Some l -> In k0 (keys r) -> l <= k0).
    { intros l k0 H Hin. injection H as <-. rewrite Forall_forall in Hs1. apply Hs1. exact Hin. }
    specialize (IH Hk e He). destruct IH as [I1 [I2 I3]].
    pose proof (ann_in _ _ _ _ He) as Hin.
    assert (Hke : k <= akey e).
    { rewrite Forall_forall in Hs1. apply Hs1. apply (in_map fst) in Hin. exact Hin. }
    destruct (Z.eq_dec k (akey e)) as [Heq|Hne].
    + specialize (I1 (f_equal Some Heq)). destruct same eqn:Es.
      * assert (last = Some k) by (apply Hsame; reflexivity).
        split; [intros _; exact I1|]. split; [intros H'; exfalso; apply H'; rewrite <- Heq; assumption|lia].
      * split; [intros H'; rewrite <- Heq in H'; apply Hsame in H'; discriminate|]. split; [intros _; lia|lia].
    + specialize (I2 (fun H => Hne (f_equal (fun o => match o with Some x => x | None => 0 end) H))). split.
      * intros H'. exfalso. specialize (Hl (akey e) k H' (or_introl eq_refl)). lia.
      * destruct same; split; intros; lia.
Qed.

Lemma ann_inj to_ : forall last m,
  sorted_le (keys to_) ->
  forall e1 e2, In e1 (ann to_ last m) -> In e2 (ann to_ last m) ->
    (akey e1 = akey e2 <-> amatch e1 = amatch e2).
Proof.
  induction to_ as [|[k off] r IH]; intros last m Hs e1 e2 H1 H2; [destruct H1|].
  cbn [ann] in H1, H2. cbn [keys map fst sorted_le] in Hs. destruct Hs as [Hs1 Hs2].
  set (m' := if same_group last k then m else m + 1) in *.
  assert (Hk : forall l k0, Some k = Some l -> In k0 (keys r) -> l <= k0).
  { intros l k0 H Hin. injection H as <-. rewrite Forall_forall in Hs1. apply Hs1. exact Hin. }
  assert (Hhd : forall e, In e (ann r (Some k) m') -> (k = akey e <-> m' = amatch e)).
  { intros e He. destruct (ann_bounds r (Some k) m' Hs2 Hk e He) as [I1 [I2 _]].
    split; [intros ->; symmetry; apply I1; reflexivity|].
    intros Hm. destruct (Z.eq_dec k (akey e)) as [|Hne]; [assumption|].
    specialize (I2 (fun H => Hne (f_equal (fun o => match o with Some x => x | None => 0 end) H))). lia. }
  destruct H1 as [<-|H1], H2 as [<-|H2].
  - tauto.
  - apply (Hhd _ H2).
  - unfold akey at 2, amatch at 2; cbn [fst snd]. specialize (Hhd _ H1). split; intros; symmetry; apply Hhd; auto.
  - eapply IH; eassumption.
Qed.

(** The words written by the relocation pass. *)
Definition writes_of (at_ : list (addr * Z)) (e : addr * Z * Z) : list (Z * Z) :=
  match assoc (akey e) at_ with
  | None => []
  | Some toff => [(toff, amatch e); (aoff e, amatch e)]
  end.
Definition upds (W : Z -> Z) (ws : list (Z * Z)) : Z -> Z :=
  fold_left (fun W w => upd W (fst w) (snd w)) ws W.

Lemma upds_ext ws : forall W1 W2, (forall o, W1 o = W2 o) -> forall o, upds W1 ws o = upds W2 ws o.
Proof.
  induction ws as [|[o v] ws IH]; intros W1 W2 H x; [apply H|].
  cbn [upds fold_left]. fold (upds (upd W1 o v) ws). fold (upds (upd W2 o v) ws).
  apply IH. intros y. unfold upd. destruct (y =? _); [reflexivity|apply H].
Qed.

Lemma upds_other ws : forall W o, ~ In o (keys ws) -> upds W ws o = W o.
Proof.
  induction ws as [|[o' v] ws IH]; intros W o H; [reflexivity|].
  cbn [upds fold_left keys map fst snd In] in *. fold (upds (upd W o' v) ws). rewrite IH by tauto.
  unfold upd. destruct (o =? o') eqn:E; [exfalso; apply H; left; lia|reflexivity].
Qed.

Lemma upds_const ws : forall W o v, In o (keys ws) ->
  (forall v', In (o, v') ws -> v' = v) -> upds W ws o = v.
Proof.
  induction ws as [|[o' v'] ws IH]; intros W o v Hin Hc; [destruct Hin|].
  cbn [upds fold_left fst snd]. fold (upds (upd W o' v') ws).
  destruct (in_dec Z.eq_dec o (keys ws)) as [Hi|Hi].
  - apply IH; [exact Hi|]. intros v'' H''. apply Hc. right. exact H''.
  - rewrite upds_other by exact Hi. cbn [keys map fst In] in Hin. destruct Hin as [->|Hin]; [|contradiction].
    unfold upd. rewrite Z.eqb_refl. apply Hc. left. reflexivity.
Qed.

Definition slot_off (cs : list dcall) (o : Z) : Prop := exists c, In (o, c) (slots 0 cs).

Lemma write_reloc_render cs post at_ to_ : forall last m W,
  (forall k o, assoc k at_ = Some o -> slot_off cs o) ->
  (forall k o, In (k, o) to_ -> slot_off cs o) ->
  (forall k o k' o', assoc k at_ = Some o -> In (k', o') to_ -> o <> o') ->
  (forall k k' o, assoc k at_ = Some o -> assoc k' at_ = Some o -> k = k') ->
  (forall k o, last = Some k -> assoc k at_ = Some o -> W o = m) ->
  write_reloc at_ to_ last m (renderW W 0 cs ++ post)
  = Ok (renderW (upds W (flat_map (writes_of at_) (ann to_ last m))) 0 cs ++ post).
Proof.
  induction to_ as [|[k off] r IH]; intros last m W Hat Hto Hdis Hinj HW; [reflexivity|].
  cbn [write_reloc ann flat_map].
  set (same := same_group last k) in *.
  set (m' := if same then m else m + 1).
  assert (Hat' : forall k o, assoc k at_ = Some o -> slot_off cs o) by exact Hat.
  assert (Hto' : forall k o, In (k, o) r -> slot_off cs o) by (intros; eapply Hto; right; eassumption).
  assert (Hdis' : forall k o k' o', assoc k at_ = Some o -> In (k', o') r -> o <> o')
    by (intros; eapply Hdis; [eassumption|right; eassumption]).
  unfold writes_of at 1; cbn [akey aoff amatch fst snd].
  destruct (assoc k at_) as [toff|] eqn:Ea.
  - assert (Hfirst : exists W1, (if same then Ok (renderW W 0 cs ++ post)
                  else put_word (renderW W 0 cs ++ post) toff m') = Ok (renderW W1 0 cs ++ post)
               /\ forall o, W1 o = upd W toff m' o).
    { destruct same eqn:Es.
      - exists W. split; [reflexivity|]. intros o. unfold upd. destruct (o =? toff) eqn:E; [|reflexivity].
        assert (o = toff) by lia. subst o. unfold m'. apply (HW k).
        + unfold same, same_group in Es. destruct last as [l|]; [|discriminate]. f_equal. lia.
        + exact Ea.
      - destruct (Hat _ _ Ea) as [c Hc].
        exists (upd W toff m'). split; [|reflexivity].
        exact (put_word_render W m' toff cs [] post c Hc). }
    destruct Hfirst as [W1 [HE HW1]]. rewrite HE. cbn [bind].
    destruct (Hto k off (or_introl eq_refl)) as [c Hc].
    pose proof (put_word_render W1 m' off cs [] post c Hc) as Hp. cbn [app] in Hp.
    change (Zlen []) with 0 in Hp. rewrite Hp. cbn [bind].
    rewrite IH; try assumption.
    + f_equal. f_equal. apply renderW_ext. intros o c' Ho. cbn [app upds fold_left fst snd].
      fold (upds (upd (upd W toff m') off m') (flat_map (writes_of at_) (ann r (Some k) m'))).
      apply upds_ext. intros x. unfold upd at 1. unfold upd at 1. rewrite HW1. reflexivity.
    + intros k0 o Hk0 Hao. injection Hk0 as <-. rewrite Ea in Hao. injection Hao as <-.
      unfold upd. destruct (toff =? off); [reflexivity|]. rewrite HW1. unfold upd. rewrite Z.eqb_refl. reflexivity.
  - cbn [app]. apply IH; try assumption. intros k0 o Hk0 Hao. injection Hk0 as <-. congruence.
Qed.

(** ** The bytes of a call list after relocation *)

Record rho := mkRho { tagw : addr -> Z; ptrw : addr -> Z }.

Definition renderR_call (r : rho) (c : dcall) : bytes :=
  match c with
  | DData bs => padz bs
  | DTag a => be 4 (tagw r a)
  | DPtr a => be 4 (ptrw r a)
  end.
Definition renderR (r : rho) (cs : list dcall) : bytes := flat_map (renderR_call r) cs.

Record rho_ok (cs : list dcall) (r : rho) : Prop := mkRhoOk {
  ro_null : ptrw r 0 = 0;
  ro_link : forall a, a <> 0 -> In a (ptrs cs) -> In a (tags cs) ->
     ptrw r a = tagw r a /\ 1 <= tagw r a < 2 ^ 30;
  ro_missing : forall a, ~ In a (tags cs) -> ptrw r a = 0;
  ro_unref : forall a, a = 0 \/ ~ In a (ptrs cs) -> tagw r a = 4294967295;
  ro_inj : forall a b, a <> 0 -> b <> 0 -> In a (ptrs cs) -> In a (tags cs) ->
     In b (ptrs cs) -> In b (tags cs) -> tagw r a = tagw r b -> a = b;
  ro_range : forall a, 0 <= tagw r a < two32 /\ 0 <= ptrw r a < two32;
}.

Definition rank (l : list (addr * Z * Z)) (a : addr) : option Z :=
  match find (fun e => akey e =? a) l with Some e => Some (amatch e) | None => None end.

Definition rho_of (cs : list dcall) : rho :=
  let l := ann (tos 0 cs []) None 0 in
  mkRho (fun a => match assoc a (ats 0 cs []), rank l a with
                  | _, None => 4294967295 | Some _, Some m => m | None, Some _ => 4294967295 end)
        (fun a => match assoc a (ats 0 cs []), rank l a with Some _, Some m => m | _, _ => 0 end).

Lemma renderR_app r a b : renderR r (a ++ b) = renderR r a ++ renderR r b.
Proof. apply flat_map_app. Qed.

Lemma slots_count cs : forall off, 4 * Zlen (slots off cs) <= Zlen (render0 cs).
Proof.
  induction cs as [|c cs IH]; intros off; [cbn; lia|].
  cbn [slots render0 flat_map]. fold (render0 cs). rewrite Zlen_app.
  specialize (IH (off + Zlen (render0_call c))).
  pose proof (Zlen_nonneg (render0_call c)).
  destruct c as [bs|a|a]; [lia| |]; rewrite Zlen_cons; cbn [render0_call] in *; rewrite Zlen_be in *; lia.
Qed.

Lemma mmap_insert_length {V} k (v : V) m : Zlen (mmap_insert k v m) = 1 + Zlen m.
Proof.
  induction m as [|[k' v'] m IH]; cbn [mmap_insert]; [reflexivity|].
  destruct (k <? k'); rewrite !Zlen_cons; [reflexivity|]. f_equal. exact IH.
Qed.

Lemma tos_length cs : forall off m, Zlen (tos off cs m) <= Zlen m + Zlen (slots off cs).
Proof.
  induction cs as [|c cs IH]; intros off m; cbn [tos slots].
  - change (Zlen (@nil (Z * dcall))) with 0. lia.
  - destruct c as [bs|b|b].
    + apply IH.
    + rewrite Zlen_cons.
      pose proof (IH (off + Zlen (render0_call (DTag b))) m). lia.
    + rewrite Zlen_cons. destruct (b =? 0).
      * pose proof (IH (off + Zlen (render0_call (DPtr b))) m). lia.
      * pose proof (IH (off + Zlen (render0_call (DPtr b))) (mmap_insert b off m)) as H.
        rewrite mmap_insert_length in H. lia.
Qed.

Definition W0 (cs : list dcall) (o : Z) : Z :=
  match assoc o (slots 0 cs) with Some (DTag _) => 4294967295 | _ => 0 end.

Lemma slots_assoc cs off o c : In (o, c) (slots off cs) -> assoc o (slots off cs) = Some c.
Proof.
  intros H. destruct (assoc_in_keys o (slots off cs)) as [c' Hc'].
  - apply (in_map fst) in H. exact H.
  - rewrite Hc'. f_equal. apply assoc_in in Hc'. eapply slots_fun; eassumption.
Qed.

Lemma renderW_render0 W cs : forall off,
  (forall o c, In (o, c) (slots off cs) -> W o = match c with DTag _ => 4294967295 | _ => 0 end) ->
  renderW W off cs = render0 cs.
Proof.
  induction cs as [|c cs IH]; intros off H; [reflexivity|].
  cbn [renderW render0 flat_map slots] in *.
  destruct c as [bs|a|a].
  - f_equal. apply IH. exact H.
  - rewrite (H off (DTag a)) by (left; reflexivity). f_equal. apply IH. intros; apply H; right; assumption.
  - rewrite (H off (DPtr a)) by (left; reflexivity). f_equal. apply IH. intros; apply H; right; assumption.
Qed.

Lemma renderW_renderR W r cs : forall off,
  (forall o c, In (o, c) (slots off cs) ->
     W o = match c with DTag a => tagw r a | DPtr a => ptrw r a | DData _ => 0 end) ->
  renderW W off cs = renderR r cs.
Proof.
  induction cs as [|c cs IH]; intros off H; [reflexivity|].
  cbn [renderW renderR flat_map slots] in *.
  destruct c as [bs|a|a].
  - f_equal. apply IH. exact H.
  - rewrite (H off (DTag a)) by (left; reflexivity). f_equal. apply IH. intros; apply H; right; assumption.
  - rewrite (H off (DPtr a)) by (left; reflexivity). f_equal. apply IH. intros; apply H; right; assumption.
Qed.

Lemma rank_some to_ a : sorted_le (keys to_) ->
  forall e, In e (ann to_ None 0) -> akey e = a -> rank (ann to_ None 0) a = Some (amatch e).
Proof.
  intros Hs e He Hk. unfold rank.
  destruct (find (fun e => akey e =? a) (ann to_ None 0)) as [e'|] eqn:Ef.
  - apply find_some in Ef. destruct Ef as [Hin Heq]. apply Z.eqb_eq in Heq.
    f_equal. eapply ann_inj; [exact Hs|eassumption|eassumption|congruence].
  - exfalso. eapply find_none in Ef; [|exact He]. cbv beta in Ef. rewrite Hk, Z.eqb_refl in Ef. discriminate.
Qed.

Lemma rank_in l a m : rank l a = Some m -> exists e, In e l /\ akey e = a /\ amatch e = m.
Proof.
  unfold rank. destruct (find _ l) as [e|] eqn:Ef; [|discriminate].
  intros H. injection H as <-. apply find_some in Ef. destruct Ef as [H1 H2].
  apply Z.eqb_eq in H2. eauto.
Qed.

Section Reloc.
  Variable cs : list dcall.
  Hypothesis Hnd : NoDup (tags cs).
  Hypothesis Hsize : Zlen (render0 cs) < two32.

  Local Notation at_ := (ats 0 cs []).
  Local Notation to_ := (tos 0 cs []).
  Local Notation l := (ann to_ None 0).

  Local Lemma Hto_sorted : sorted_le (keys to_).
  Proof. apply (tos_spec cs 0 []). exact I. Qed.
  Local Lemma Hto a o : In (a, o) to_ <-> a <> 0 /\ In (o, DPtr a) (slots 0 cs).
  Proof. rewrite (proj2 (tos_spec cs 0 [] I)). cbn [In]. tauto. Qed.
  Local Lemma Hat a o : assoc a at_ = Some o <-> In (o, DTag a) (slots 0 cs).
  Proof.
    rewrite (proj2 (ats_spec cs 0 [] I Hnd (fun a _ H => H))). cbn [assoc]. split; [|auto].
    intros [H|H]; [discriminate|exact H].
  Qed.
  Local Lemma Hat_none a : assoc a at_ = None <-> ~ In a (tags cs).
  Proof.
    rewrite (in_tags_slot cs a 0). split.
    - intros H [o Ho]. apply Hat in Ho. congruence.
    - intros H. destruct (assoc a at_) as [o|] eqn:E; [|reflexivity].
      exfalso. apply H. exists o. apply Hat. exact E.
  Qed.
  Local Lemma Hrank_none a : a = 0 \/ ~ In a (ptrs cs) -> rank l a = None.
  Proof.
    intros H. destruct (rank l a) as [m|] eqn:E; [|reflexivity].
    apply rank_in in E. destruct E as (e & He & Hk & _). apply ann_in in He. rewrite Hk in He.
    apply Hto in He. destruct He as [H0 He].
    destruct H as [->|H]; [congruence|]. exfalso. apply H. apply (in_ptrs_slot cs a 0). eauto.
  Qed.
  Local Lemma Hrank_some a : a <> 0 -> In a (ptrs cs) -> exists m, rank l a = Some m.
  Proof.
    intros H0 H. apply (in_ptrs_slot cs a 0) in H. destruct H as [o Ho].
    assert (Hin : In (a, o) to_) by (apply Hto; auto).
    destruct (in_ann to_ None 0 a o Hin) as [x Hx].
    exists x. apply (rank_some to_ a Hto_sorted (a, o, x) Hx). reflexivity.
  Qed.
  Local Lemma Hrank_range a m : rank l a = Some m -> 1 <= m < 2 ^ 30.
  Proof.
    intros H. apply rank_in in H. destruct H as (e & He & Hk & <-).
    destruct (ann_bounds to_ None 0 Hto_sorted) with (e := e) as (_ & H2 & H3); [discriminate|exact He|].
    specialize (H2 ltac:(discriminate)).
    pose proof (tos_length cs 0 []) as Hl. change (Zlen (@nil (addr * Z))) with 0 in Hl.
    pose proof (slots_count cs 0). unfold two32 in Hsize. change (2 ^ 30) with 1073741824. lia.
  Qed.
  Local Lemma Hrank_inj a b m : rank l a = Some m -> rank l b = Some m -> a = b.
  Proof.
    intros Ha Hb. apply rank_in in Ha, Hb.
    destruct Ha as (e1 & H1 & <- & K1). destruct Hb as (e2 & H2 & <- & K2).
    apply (ann_inj to_ None 0 Hto_sorted); [assumption|assumption|congruence].
  Qed.

  Lemma rho_of_ok : rho_ok cs (rho_of cs).
  Proof.
    split.
    - unfold rho_of; cbn [ptrw]. rewrite (Hrank_none 0) by auto. destruct (assoc 0 at_); reflexivity.
    - intros a H0 Hp Ht. unfold rho_of; cbn [ptrw tagw].
      destruct (Hrank_some a H0 Hp) as [m Hm]. rewrite Hm.
      apply (in_tags_slot cs a 0) in Ht. destruct Ht as [o Ho]. apply Hat in Ho. rewrite Ho.
      split; [reflexivity|]. eapply Hrank_range; exact Hm.
    - intros a Ha. apply Hat_none in Ha. unfold rho_of; cbn [ptrw]. rewrite Ha. reflexivity.
    - intros a Ha. unfold rho_of; cbn [tagw]. rewrite Hrank_none by exact Ha.
      destruct (assoc a at_); reflexivity.
    - intros a b Ha Hb Hpa Hta Hpb Htb. unfold rho_of; cbn [tagw].
      apply (in_tags_slot cs a 0) in Hta. destruct Hta as [oa Hoa]. apply Hat in Hoa. rewrite Hoa.
      apply (in_tags_slot cs b 0) in Htb. destruct Htb as [ob Hob]. apply Hat in Hob. rewrite Hob.
      destruct (Hrank_some a Ha Hpa) as [ma Hma]. destruct (Hrank_some b Hb Hpb) as [mb Hmb].
      rewrite Hma, Hmb. intros ->. eapply Hrank_inj; eassumption.
    - intros a. unfold rho_of; cbn [tagw ptrw]. unfold two32.
      destruct (rank l a) as [m|] eqn:Em.
      + pose proof (Hrank_range a m Em). change (2 ^ 30) with 1073741824 in *.
        destruct (assoc a at_); lia.
      + destruct (assoc a at_); lia.
  Qed.

  Lemma reloc_bytes post :
    write_reloc at_ to_ None 0 (render0 cs ++ post) = Ok (renderR (rho_of cs) cs ++ post).
  Proof.
    assert (HW0 : renderW (W0 cs) 0 cs = render0 cs).
    { apply renderW_render0. intros o c H. unfold W0. rewrite (slots_assoc _ _ _ _ H). reflexivity. }
    rewrite <- HW0. rewrite write_reloc_render.
    - f_equal. f_equal. apply renderW_renderR. intros o c Hin.
      set (ws := flat_map (writes_of at_) l).
      assert (Hws : forall o v, In (o, v) ws <->
        exists e toff, In e l /\ assoc (akey e) at_ = Some toff /\ v = amatch e /\ (o = toff \/ o = aoff e)).
      { intros o' v. unfold ws. rewrite in_flat_map. split.
        - intros (e & He & Hw). unfold writes_of in Hw.
          destruct (assoc (akey e) at_) as [toff|] eqn:Ea; [|destruct Hw].
          exists e, toff. destruct Hw as [Hw|[Hw|[]]]; injection Hw as <- <-; auto.
        - intros (e & toff & He & Ea & -> & Ho). exists e. split; [exact He|].
          unfold writes_of. rewrite Ea. cbn [In]. destruct Ho as [->| ->]; auto. }
      destruct c as [bs|a|a].
      + exfalso. clear - Hin. revert Hin. generalize 0. induction cs as [|c cs' IH]; intros z Hin; [destruct Hin|].
        cbn [slots] in Hin. destruct c; [apply IH in Hin; exact Hin| |];
          (destruct Hin as [Hin|Hin]; [discriminate|apply IH in Hin; exact Hin]).
      + (* a tag *)
        assert (Ha : assoc a at_ = Some o) by (apply Hat; exact Hin).
        assert (Honly : forall v, In (o, v) ws -> exists e, In e l /\ akey e = a /\ v = amatch e).
        { intros v Hv. apply Hws in Hv. destruct Hv as (e & toff & He & Ea & -> & Ho).
          exists e. split; [exact He|]. split; [|reflexivity].
          destruct Ho as [Ho|Ho].
          - rewrite <- Ho in Ea. apply Hat in Ea. pose proof (slots_fun _ _ _ _ _ Ea Hin) as Hf. congruence.
          - exfalso. apply ann_in in He. apply Hto in He. destruct He as [_ He]. rewrite <- Ho in He.
            pose proof (slots_fun _ _ _ _ _ He Hin). discriminate. }
        unfold rho_of; cbn [tagw]. rewrite Ha.
        destruct (rank l a) as [m|] eqn:Em.
        * apply upds_const.
          -- apply rank_in in Em. destruct Em as (e & He & Hk & Hm).
             unfold keys. apply in_map_iff. exists (o, m). split; [reflexivity|].
             apply Hws. exists e, o. rewrite Hk. repeat split; auto.
          -- intros v' Hv'. destruct (Honly v' Hv') as (e & He & Hk & ->).
             pose proof (rank_some to_ a Hto_sorted e He Hk) as Hr. congruence.
        * rewrite upds_other.
          -- unfold W0. rewrite (slots_assoc _ _ _ _ Hin). reflexivity.
          -- intros Hk. unfold keys in Hk. apply in_map_iff in Hk. destruct Hk as ([o' v] & Ho' & Hw).
             cbn [fst] in Ho'. subst o'. destruct (Honly v Hw) as (e & He & Hka & _).
             pose proof (rank_some to_ a Hto_sorted e He Hka). congruence.
      + (* a pointer *)
        assert (Honly : forall v, In (o, v) ws ->
           exists e toff, In e l /\ akey e = a /\ v = amatch e /\ assoc a at_ = Some toff).
        { intros v Hv. apply Hws in Hv. destruct Hv as (e & toff & He & Ea & -> & Ho).
          exists e, toff. split; [exact He|].
          assert (Hk : akey e = a).
          { destruct Ho as [Ho|Ho].
            - exfalso. rewrite <- Ho in Ea. apply Hat in Ea. pose proof (slots_fun _ _ _ _ _ Ea Hin). discriminate.
            - apply ann_in in He. apply Hto in He. destruct He as [_ He]. rewrite <- Ho in He.
              pose proof (slots_fun _ _ _ _ _ He Hin) as Hf. congruence. }
          split; [exact Hk|]. split; [reflexivity|]. rewrite <- Hk. exact Ea. }
        unfold rho_of; cbn [ptrw].
        destruct (assoc a at_) as [toff|] eqn:Ea; [destruct (rank l a) as [m|] eqn:Em|].
        * assert (H0 : a <> 0).
          { intros ->. rewrite (Hrank_none 0) in Em by auto. discriminate. }
          apply upds_const.
          -- assert (Hin' : In (a, o) to_) by (apply Hto; auto).
             destruct (in_ann to_ None 0 a o Hin') as [x Hx].
             unfold keys. apply in_map_iff. exists (o, x). split; [reflexivity|].
             apply Hws. exists (a, o, x), toff. cbn [akey aoff amatch fst snd]. repeat split; auto.
          -- intros v' Hv'. destruct (Honly v' Hv') as (e & toff' & He & Hk & -> & _).
             pose proof (rank_some to_ a Hto_sorted e He Hk) as Hr. congruence.
        * rewrite upds_other.
          -- unfold W0. rewrite (slots_assoc _ _ _ _ Hin). reflexivity.
          -- intros Hk. unfold keys in Hk. apply in_map_iff in Hk. destruct Hk as ([o' v] & Ho' & Hw).
             cbn [fst] in Ho'. subst o'. destruct (Honly v Hw) as (e & toff' & He & Hka & _ & _).
             pose proof (rank_some to_ a Hto_sorted e He Hka). congruence.
        * rewrite upds_other.
          -- unfold W0. rewrite (slots_assoc _ _ _ _ Hin). reflexivity.
          -- intros Hk. unfold keys in Hk. apply in_map_iff in Hk. destruct Hk as ([o' v] & Ho' & Hw).
             cbn [fst] in Ho'. subst o'. destruct (Honly v Hw) as (e & toff' & He & Hka & _ & Ha). congruence.
    - intros k o H. apply Hat in H. eexists; exact H.
    - intros k o H. apply Hto in H. eexists; apply H.
    - intros k o k' o' H1 H2 ->. apply Hat in H1. apply Hto in H2. destruct H2 as [_ H2].
      pose proof (slots_fun _ _ _ _ _ H1 H2). discriminate.
    - intros k k' o H1 H2. apply Hat in H1, H2. pose proof (slots_fun _ _ _ _ _ H1 H2). congruence.
    - discriminate.
  Qed.
End Reloc.

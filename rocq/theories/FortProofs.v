(** * The Fortran interface: proofs *)

From Verif Require Import Bytes StrMap SioModel ObjModel EventModel ImplModel FortModel FortSpec.

(** ** Lists *)
Lemma skipn_app_len {A} (a b : list A) n : n = length a -> skipn n (a ++ b) = b.
Proof. intros ->. rewrite skipn_app, skipn_all, Nat.sub_diag. reflexivity. Qed.
Lemma firstn_app_len {A} (a b : list A) n : n = length a -> firstn n (a ++ b) = a.
Proof. intros ->. rewrite firstn_app, firstn_all, Nat.sub_diag. cbn [firstn]. apply app_nil_r. Qed.
Lemma skipn_plus {A} m : forall n (l : list A), skipn (m + n) l = skipn n (skipn m l).
Proof. induction m as [|m IH]; intros n l; [reflexivity|]. destruct l; cbn [skipn plus]; [rewrite skipn_nil; reflexivity|apply IH]. Qed.
Lemma firstn_keep {A} m n (a b : list A) : (m <= n)%nat -> firstn n a = firstn n b -> firstn m a = firstn m b.
Proof.
  intros H E. assert (G : forall l : list A, firstn m l = firstn m (firstn n l)) by (intros l; rewrite firstn_firstn, Nat.min_l by exact H; reflexivity).
  rewrite (G a), (G b), E. reflexivity.
Qed.
Lemma skipn_keep {A} m n (a b : list A) : (m <= n)%nat -> skipn m a = skipn m b -> skipn n a = skipn n b.
Proof. intros H E. replace n with (m + (n - m))%nat by lia. rewrite !skipn_plus, E. reflexivity. Qed.

Lemma nth_error_firstn' {A} : forall n j (l : list A), (j < n)%nat -> nth_error (firstn n l) j = nth_error l j.
Proof. induction n as [|n IH]; intros [|j] [|x l] Hj; cbn [firstn nth_error]; try lia; try reflexivity. apply IH. lia. Qed.

(** ** Strings *)
Lemma c_string_app s r : ~ In x00 s -> c_string (s ++ x00 :: r) = Ok s.
Proof.
  induction s as [|b s IH]; intros H; cbn [app c_string].
  - destruct (byte_dec x00 x00); [reflexivity|congruence].
  - destruct (byte_dec b x00) as [->|_]; [exfalso; apply H; left; reflexivity|]. rewrite IH; [reflexivity|]. intros G. apply H. right. exact G.
Qed.
Lemma c_str_id s : ~ In x00 s -> c_str s = s.
Proof.
  induction s as [|b s IH]; intros H; cbn [c_str]; [reflexivity|].
  destruct (byte_dec b x00) as [->|_]; [exfalso; apply H; left; reflexivity|]. rewrite IH; [reflexivity|]. intros G. apply H. right. exact G.
Qed.
Lemma c_string_no_nul l : forall s, c_string l = Ok s -> ~ In x00 s.
Proof.
  induction l as [|b l IH]; intros s H; cbn [c_string] in H; [discriminate|].
  destruct (byte_dec b x00) as [|N]; [injection H as <-; exact (fun G => G)|].
  apply bind_Ok_inv in H as (t & E & H). injection H as <-. intros [G|G]; [congruence|exact (IH _ E G)].
Qed.

Lemma row_shift mem nch j : 0 <= nch -> skipn (j * Z.to_nat (nch + 1)) mem = row mem nch j ++ skipn (S j * Z.to_nat (nch + 1)) mem.
Proof.
  intros H. unfold row. cbn [Nat.mul]. rewrite (Nat.add_comm (Z.to_nat (nch + 1))), skipn_plus.
  symmetry. apply firstn_skipn.
Qed.
Lemma read_rows_ok nch mem : 0 <= nch -> forall l j0,
  (forall j s, nth_error l j = Some s -> ~ In x00 s /\ exists rest, row mem nch (j0 + j) = s ++ x00 :: rest) ->
  read_rows (length l) mem (Z.of_nat j0 * (nch + 1)) (nch + 1) = Ok l.
Proof.
  intros Hn. induction l as [|s l IH]; intros j0 H; [reflexivity|]. cbn [length read_rows].
  destruct (H 0%nat s eq_refl) as (Hs & rest & E). rewrite Nat.add_0_r in E.
  assert (EQ : skipn (j0 * Z.to_nat (nch + 1)) mem = s ++ x00 :: (rest ++ skipn (S j0 * Z.to_nat (nch + 1)) mem))
    by (rewrite (row_shift _ _ _ Hn), E, <- app_assoc; reflexivity).
  assert (EP : Z.to_nat (Z.of_nat j0 * (nch + 1)) = (j0 * Z.to_nat (nch + 1))%nat) by nia.
  assert (L : (j0 * Z.to_nat (nch + 1) <= length mem)%nat).
  { apply (f_equal (@length _)) in EQ. rewrite skipn_length, app_length in EQ. cbn [length] in EQ. lia. }
  unfold string_at. rewrite EP, EQ, c_string_app by exact Hs.
  replace ((Z.of_nat j0 * (nch + 1) <? 0) || (Zlen mem <? Z.of_nat j0 * (nch + 1))) with false by (unfold Zlen; nia).
  cbn [bind]. replace (Z.of_nat j0 * (nch + 1) + (nch + 1)) with (Z.of_nat (S j0) * (nch + 1)) by nia.
  rewrite IH; [reflexivity|]. intros j t Hj. rewrite Nat.add_succ_l, <- Nat.add_succ_r. apply (H (S j) t Hj).
Qed.

Lemma strcpy_ok mem nch j s : 0 <= nch -> ~ In x00 s -> Zlen s <= nch -> (S j * Z.to_nat (nch + 1) <= length mem)%nat ->
  exists mem', strcpy mem (Z.of_nat j * (nch + 1)) s = Ok mem' /\ length mem' = length mem /\
    firstn (j * Z.to_nat (nch + 1)) mem' = firstn (j * Z.to_nat (nch + 1)) mem /\
    skipn (S j * Z.to_nat (nch + 1)) mem' = skipn (S j * Z.to_nat (nch + 1)) mem /\
    row mem' nch j = s ++ x00 :: skipn (S (length s)) (row mem nch j).
Proof.
  intros Hn Hs Hl HL. set (e := Z.to_nat (nch + 1)) in *. assert (He : (length s < e)%nat) by (unfold e, Zlen in *; lia).
  assert (EP : Z.to_nat (Z.of_nat j * (nch + 1)) = (j * e)%nat) by (unfold e; nia). cbn [Nat.mul] in HL.
  assert (Q : skipn (Z.to_nat (Z.of_nat j * (nch + 1) + Zlen (s ++ [x00]))) mem = skipn (j * e + S (length s)) mem).
  { f_equal. unfold Zlen. rewrite app_length. cbn [length]. unfold e. nia. }
  unfold strcpy. rewrite (c_str_id _ Hs). cbv zeta. rewrite EP, Q.
  replace ((Z.of_nat j * (nch + 1) <? 0) || (Zlen mem <? Z.of_nat j * (nch + 1) + Zlen (s ++ [x00]))) with false
    by (unfold Zlen; rewrite app_length; cbn [length]; unfold e in *; nia).
  eexists. split; [reflexivity|].
  assert (LF : length (firstn (j * e) mem) = (j * e)%nat) by (rewrite firstn_length; lia).
  split; [|split; [|split]].
  - rewrite !app_length, skipn_length, LF. cbn [length]. lia.
  - rewrite firstn_app_len by (symmetry; exact LF). reflexivity.
  - cbn [Nat.mul]. rewrite (Nat.add_comm e). rewrite skipn_plus, skipn_app_len by (symmetry; exact LF).
    rewrite <- app_assoc. cbn [app]. replace e with (length s + S (e - S (length s)))%nat at 1 by lia.
    rewrite skipn_plus, skipn_app_len by reflexivity. cbn [skipn]. rewrite <- skipn_plus. f_equal. lia.
  - unfold row. fold e. rewrite skipn_app_len by (symmetry; exact LF). rewrite <- app_assoc. cbn [app].
    rewrite firstn_app. rewrite (firstn_all2 s) by lia. f_equal. replace (e - length s)%nat with (S (e - S (length s))) by lia.
    cbn [firstn]. f_equal. rewrite skipn_plus. rewrite firstn_skipn_comm. f_equal. f_equal. lia.
Qed.

Lemma row_first mem mem' nch n j : (S j <= n)%nat -> firstn (n * Z.to_nat (nch + 1)) mem' = firstn (n * Z.to_nat (nch + 1)) mem -> row mem' nch j = row mem nch j.
Proof.
  intros H E. unfold row. set (e := Z.to_nat (nch + 1)) in *. rewrite !firstn_skipn_comm.
  f_equal. apply (firstn_keep _ (n * e)); [nia|exact E].
Qed.
Lemma row_skip mem mem' nch n j : (n <= j)%nat -> skipn (n * Z.to_nat (nch + 1)) mem' = skipn (n * Z.to_nat (nch + 1)) mem -> row mem' nch j = row mem nch j.
Proof. intros H E. unfold row. f_equal. apply (skipn_keep (n * Z.to_nat (nch + 1))); [nia|exact E]. Qed.

Lemma write_rows_ok nch : 0 <= nch -> forall l mem j0, Forall (fun s => ~ In x00 s) l -> Forall (fun s => Zlen s <= nch) l ->
  ((j0 + length l) * Z.to_nat (nch + 1) <= length mem)%nat ->
  exists mem', write_rows l mem (Z.of_nat j0 * (nch + 1)) (nch + 1) = Ok mem' /\ length mem' = length mem /\
    firstn (j0 * Z.to_nat (nch + 1)) mem' = firstn (j0 * Z.to_nat (nch + 1)) mem /\
    skipn ((j0 + length l) * Z.to_nat (nch + 1)) mem' = skipn ((j0 + length l) * Z.to_nat (nch + 1)) mem /\
    forall j s, nth_error l j = Some s -> row mem' nch (j0 + j) = s ++ x00 :: skipn (S (length s)) (row mem nch (j0 + j)).
Proof.
  intros Hn. induction l as [|s l IH]; intros mem j0 Hz Hl HL; cbn [write_rows].
  - exists mem. split; [reflexivity|]. split; [reflexivity|]. split; [reflexivity|]. split; [reflexivity|]. intros [|j] s E; discriminate E.
  - inversion Hz as [|? ? Hz1 Hz2]; subst. inversion Hl as [|? ? Hl1 Hl2]; subst. cbn [length] in HL.
    destruct (strcpy_ok mem nch j0 s Hn Hz1 Hl1) as (m1 & E1 & L1 & F1 & S1 & R1); [nia|]. rewrite E1. cbn [bind].
    destruct (IH m1 (S j0) Hz2 Hl2) as (m2 & E2 & L2 & F2 & S2 & R2); [rewrite L1; nia|].
    replace (Z.of_nat j0 * (nch + 1) + (nch + 1)) with (Z.of_nat (S j0) * (nch + 1)) by nia.
    exists m2. split; [exact E2|]. split; [congruence|]. split; [|split].
    + rewrite <- F1. apply (firstn_keep _ (S j0 * Z.to_nat (nch + 1))); [nia|exact F2].
    + cbn [length]. rewrite Nat.add_succ_r, <- Nat.add_succ_l. rewrite S2. apply (skipn_keep (S j0 * Z.to_nat (nch + 1))); [nia|exact S1].
    + intros [|j] t E.
      * injection E as <-. rewrite Nat.add_0_r. rewrite <- R1. apply (row_first m1 m2 nch (S j0)); [lia|exact F2].
      * rewrite Nat.add_succ_r, <- Nat.add_succ_l. rewrite (R2 j t E). rewrite (row_skip mem m1 nch (S j0)); [reflexivity|lia|exact S1].
Qed.

(** ** Vectors *)
Lemma elemlen_ok nch : 0 <= nch < 2 ^ 31 - 1 -> elemlen nch = Ok (nch + 1).
Proof. intros H. unfold elemlen. replace (nch + 1 <? two31) with true; [reflexivity|]. symmetry. apply Z.ltb_lt. unfold two31. lia. Qed.
Lemma read_array_ok l rest : read_array (l ++ rest) (Zlen l) = Ok l.
Proof.
  unfold read_array. replace (Zlen (l ++ rest) <? Zlen l) with false by (unfold Zlen; rewrite app_length; lia).
  unfold Zlen. rewrite Nat2Z.id, firstn_app_len by reflexivity. reflexivity.
Qed.
Lemma make_ok g v : stands_for g v -> make g = Ok v.
Proof.
  intros [l rest|l rest|l rest|l mem nch Hn M]; cbn [make].
  1-3: rewrite read_array_ok; reflexivity.
  rewrite (elemlen_ok _ Hn). cbn [bind]. unfold Zlen. rewrite Nat2Z.id. pose proof (read_rows_ok nch mem (proj1 Hn) l 0 M) as R.
  cbn [Z.of_nat] in R. change (0 * (nch + 1)) with 0 in R. rewrite R. reflexivity.
Qed.
Lemma stands_kind g v : stands_for g v -> args_kind g = kind_of v.
Proof. intros []; reflexivity. Qed.
Lemma stands_no_nul g v : stands_for g v -> no_nul v.
Proof.
  intros [l rest|l rest|l rest|l mem nch Hn M]; cbn [no_nul]; auto. apply Forall_forall. intros s H.
  apply In_nth_error in H as (j & E). exact (proj1 (M _ _ E)).
Qed.

Lemma copied_min size n : 0 <= size < 2 ^ 31 -> copied size n = Z.min n size.
Proof. intros H. unfold copied. rewrite s32_id by (unfold is_i32, two31; lia). destruct (n <? size) eqn:E; lia. Qed.
Lemma fill_ok l a m : 0 <= m <= Zlen l -> m <= Zlen a ->
  exists rest, fill l a m = Ok (firstn (Z.to_nat m) l ++ rest) /\ skipn (Z.to_nat m) (firstn (Z.to_nat m) l ++ rest) = skipn (Z.to_nat m) a /\
    length (firstn (Z.to_nat m) l ++ rest) = length a.
Proof.
  intros H G. unfold fill. replace (Zlen a <? m) with false by lia. eexists. split; [reflexivity|].
  assert (L : length (firstn (Z.to_nat m) l) = Z.to_nat m) by (rewrite firstn_length; unfold Zlen in *; lia).
  split; [apply skipn_app_len; symmetry; exact L|]. rewrite app_length, L, skipn_length. unfold Zlen in *. lia.
Qed.
Lemma Zlen_firstn {A} (l : list A) m : 0 <= m <= Zlen l -> Zlen (firstn (Z.to_nat m) l) = m.
Proof. intros H. unfold Zlen in *. rewrite firstn_length. lia. Qed.
Lemma Zlen_nonneg' {A} (l : list A) : 0 <= Zlen l.
Proof. unfold Zlen. lia. Qed.

Lemma fetch_ok v g n : target g v n -> no_nul v -> size_of v < 2 ^ 31 ->
  exists g', fetch v g = Ok g' /\ stands_for g' (take (Z.min n (size_of v)) v) /\ rest_kept g g' (Z.min n (size_of v)) v.
Proof.
  intros T NN HS. destruct g as [a n'|a n'|a n'|mem n' nch]; destruct v as [l|l|l|l]; cbn [target] in T; try contradiction.
  1-3: destruct T as (-> & T); cbn [size_of] in *; pose proof (Zlen_nonneg' l) as HN;
    destruct (fill_ok l a (Z.min n (Zlen l)) ltac:(lia) ltac:(lia)) as (rest & E & K & L);
    cbn [fetch]; rewrite copied_min by lia; cbv zeta; rewrite E; cbn [bind]; eexists; (split; [reflexivity|]); cbn [take rest_kept];
    (split; [|split; [exact K|exact L]]);
    match goal with |- stands_for (?C _ ?m) (?V ?x) => replace (C (x ++ rest) m) with (C (x ++ rest) (Zlen x)) by (rewrite Zlen_firstn by lia; reflexivity) end;
    constructor.
  destruct T as (-> & T0 & Hn & Hm & Hl). cbn [size_of no_nul] in *. pose proof (Zlen_nonneg' l) as HN.
  set (m := Z.min n (Zlen l)). cbn [fetch]. rewrite copied_min by lia. cbv zeta. fold m. rewrite (elemlen_ok _ Hn). cbn [bind].
  assert (LM : length (firstn (Z.to_nat m) l) = Z.to_nat m) by (rewrite firstn_length; unfold m, Zlen in *; lia).
  assert (FA : forall (P : bytes -> Prop), Forall P l -> Forall P (firstn (Z.to_nat m) l)).
  { intros P F. apply Forall_forall. intros x Hx. rewrite Forall_forall in F. apply F. rewrite <- (firstn_skipn (Z.to_nat m)). apply in_or_app. left. exact Hx. }
  destruct (write_rows_ok nch (proj1 Hn) (firstn (Z.to_nat m) l) mem 0 (FA _ NN) (FA _ Hl)) as (mem' & E & L & _ & K & R).
  { rewrite LM. cbn [plus]. unfold m, Zlen in *. nia. }
  cbn [Z.of_nat] in E. change (0 * (nch + 1)) with 0 in E. rewrite E. cbn [bind]. exists (AS mem' m nch). split; [reflexivity|]. split.
  - cbn [take]. replace (AS mem' m nch) with (AS mem' (Zlen (firstn (Z.to_nat m) l)) nch) by (rewrite Zlen_firstn by (unfold m; lia); reflexivity).
    constructor; [exact Hn|]. intros j s Hj. split.
    + pose proof (FA _ NN) as F. rewrite Forall_forall in F. apply F. apply nth_error_In in Hj. exact Hj.
    + eexists. exact (R j s Hj).
  - cbn [rest_kept]. split; [reflexivity|]. split; [exact L|]. split.
    + cbn [plus] in K. rewrite LM in K. replace (Z.to_nat (m * (nch + 1))) with (Z.to_nat m * Z.to_nat (nch + 1))%nat by (unfold m; nia). exact K.
    + intros j s Hj Ej. specialize (R j s). cbn [plus] in R. rewrite R.
      * replace (s ++ x00 :: skipn (S (length s)) (row mem nch j)) with ((s ++ [x00]) ++ skipn (S (length s)) (row mem nch j)) by (rewrite <- app_assoc; reflexivity).
        apply skipn_app_len. rewrite app_length. cbn [length]. lia.
      * rewrite <- Ej. apply nth_error_firstn'. exact Hj.
Qed.

(** ** Steps *)
Lemma kind_eqb_refl k : kind_eqb k k = true.
Proof. destruct k; reflexivity. Qed.
Lemma kind_eqb_eq a b : kind_eqb a b = true -> a = b.
Proof. destruct a, b; cbn; congruence. Qed.
Lemma as_class_ok h lc k p v : p <> 0 -> h p = Some (mkFV lc v) -> kind_of v = k -> as_class h lc k p = Ok v.
Proof.
  intros Hp H <-. unfold as_class. replace (p =? 0) with false by lia. rewrite H. cbn [fv_lc fv_val]. rewrite Bool.eqb_reflx, kind_eqb_refl. reflexivity.
Qed.
Lemma as_class_inv h lc k p v : as_class h lc k p = Ok v -> p <> 0 /\ h p = Some (mkFV lc v) /\ kind_of v = k.
Proof.
  unfold as_class. destruct (p =? 0) eqn:E; [discriminate|]. destruct (h p) as [[lc' v']|]; [|discriminate]. cbn [fv_lc fv_val].
  destruct (Bool.eqb lc' lc) eqn:B; [|discriminate]. destruct (kind_eqb _ k) eqn:K; [|discriminate]. cbn [andb]. intros Q. injection Q as ->.
  apply Bool.eqb_prop in B. apply kind_eqb_eq in K. subst. split; [lia|]. auto.
Qed.
Lemma as_lcobject_ok h k p v : p <> 0 -> h p = Some (mkFV true v) -> kind_of v = k -> as_lcobject h k p = Ok v.
Proof. intros Hp H <-. unfold as_lcobject. replace (p =? 0) with false by lia. rewrite H. cbn [fv_lc fv_val]. rewrite kind_eqb_refl. reflexivity. Qed.
Lemma as_lcobject_inv h k p v : as_lcobject h k p = Ok v -> p <> 0 /\ h p = Some (mkFV true v) /\ kind_of v = k.
Proof.
  unfold as_lcobject. destruct (p =? 0) eqn:E; [discriminate|]. destruct (h p) as [[lc' v']|]; [|discriminate]. cbn [fv_lc fv_val].
  destruct lc'; [|discriminate]. destruct (kind_eqb _ k) eqn:K; [|discriminate]. intros Q. injection Q as ->.
  apply kind_eqb_eq in K. subst. split; [lia|]. auto.
Qed.
Lemma put_same {A} (f : addr -> option A) a x : ImplModel.put f a x a = Some x.
Proof. unfold ImplModel.put. rewrite Z.eqb_refl. reflexivity. Qed.
Lemma put_other {A} (f : addr -> option A) a x b : b <> a -> ImplModel.put f a x b = f b.
Proof. intros H. unfold ImplModel.put. replace (b =? a) with false by lia. reflexivity. Qed.

Lemma create_ok s lc g a v : stands_for g v -> a <> 0 -> f_vec s a = None ->
  fstep s (F_create lc g a) = Ok (mkFS (ImplModel.put (f_vec s) a (mkFV lc v)) (f_par s), ONum a).
Proof. intros H Ha Hf. cbn [fstep]. replace (a =? 0) with false by lia. rewrite Hf, (make_ok _ _ H). reflexivity. Qed.
Lemma fetch_from_ok h lc k p v : p <> 0 -> h p = Some (mkFV lc v) -> kind_of v = k -> ~ (lc = true /\ k = KP) -> fetch_from h lc k p = Ok v.
Proof.
  intros Hp H K N. unfold fetch_from. destruct lc; [destruct k|]; try (apply as_lcobject_ok; assumption); try (apply as_class_ok; assumption).
  exfalso. apply N. auto.
Qed.
Lemma target_kind g v n : target g v n -> args_kind g = kind_of v.
Proof. destruct g, v; cbn [target args_kind kind_of]; intros T; try contradiction; reflexivity. Qed.

(** what is known of a vector in a state *)
Definition has_vec (s : fstate) (p : addr) (lc : bool) (v : vval) : Prop := p <> 0 /\ f_vec s p = Some (mkFV lc v).

Lemma element_ok s p lc v i e : has_vec s p lc v -> no_nul v -> 1 <= i -> has_element v i e -> fstep s (F_element lc (kind_of v) p i) = Ok (s, OElem e).
Proof.
  intros (Hp & Hv) NN Hi He. cbn [fstep]. rewrite (as_class_ok _ _ _ _ _ Hp Hv eq_refl). cbn [bind]. unfold vec_element.
  replace (i =? - two31) with false by (unfold two31; lia). replace (i <? 1) with false by lia.
  destruct v as [l|l|l|l], e as [z|t]; cbn [has_element] in He; try contradiction; rewrite He; try reflexivity.
  cbn [bind]. rewrite c_str_id; [reflexivity|]. cbn [no_nul] in NN. rewrite Forall_forall in NN. apply NN. apply nth_error_In in He. exact He.
Qed.
Lemma length_ok s p lc v : has_vec s p lc v -> size_of v < 2 ^ 31 -> fstep s (F_length lc (kind_of v) p) = Ok (s, ONum (size_of v)).
Proof.
  intros (Hp & Hv) HS. cbn [fstep]. rewrite (as_class_ok _ _ _ _ _ Hp Hv eq_refl). cbn [bind]. unfold vec_length.
  destruct v as [l|l|l|l]; cbn [size_of] in *; rewrite s32_id by (unfold is_i32, two31; pose proof (Zlen_nonneg' l); lia); reflexivity.
Qed.
Lemma fetched s p lc v g n : has_vec s p lc v -> ~ (lc = true /\ kind_of v = KP) -> no_nul v -> size_of v < 2 ^ 31 -> target g v n ->
  exists g', fstep s (F_fetch lc p g) = Ok (s, OArgs 1 g') /\ stands_for g' (take (Z.min n (size_of v)) v) /\ rest_kept g g' (Z.min n (size_of v)) v.
Proof.
  intros (Hp & Hv) N NN HS T. destruct (fetch_ok v g n T NN HS) as (g' & E & H). exists g'. split; [|exact H].
  cbn [fstep]. rewrite (fetch_from_ok _ _ _ _ v Hp Hv) by (rewrite (target_kind _ _ _ T); auto). cbn [bind]. rewrite E. reflexivity.
Qed.

Lemma vectors s lc g a v : stands_for g v -> size_of v < 2 ^ 31 -> a <> 0 -> f_vec s a = None -> ~ (lc = true /\ kind_of v = KP) ->
  exists s', fstep s (F_create lc g a) = Ok (s', ONum a) /\
    fstep s' (F_length lc (args_kind g) a) = Ok (s', ONum (size_of v)) /\
    (forall i e, 1 <= i -> has_element v i e -> fstep s' (F_element lc (args_kind g) a i) = Ok (s', OElem e)) /\
    (forall g2 n, target g2 v n -> exists g2', fstep s' (F_fetch lc a g2) = Ok (s', OArgs 1 g2') /\
       stands_for g2' (take (Z.min n (size_of v)) v) /\ rest_kept g2 g2' (Z.min n (size_of v)) v).
Proof.
  intros H HS Ha Hf N. eexists. split; [exact (create_ok _ _ _ _ _ H Ha Hf)|].
  assert (HV : has_vec (mkFS (ImplModel.put (f_vec s) a (mkFV lc v)) (f_par s)) a lc v) by (split; [exact Ha|apply put_same]).
  rewrite (stands_kind _ _ H). split; [|split].
  - apply length_ok; assumption.
  - intros i e Hi He. apply element_ok; try assumption. exact (stands_no_nul _ _ H).
  - intros g2 n T. apply fetched; try assumption. exact (stands_no_nul _ _ H).
Qed.

(** ** Parameters *)
(** the values of a key *)
Definition value_of (k : fkind) (p : params) (key : bytes) : option vval :=
  match k with
  | KI => option_map VI (sm_get key (p_int p)) | KF => option_map VF (sm_get key (p_flt p))
  | KS => option_map VS (sm_get key (p_str p)) | KP => None
  end.
Definition par_maps (p : params) : Prop := sm_ok (p_int p) /\ sm_ok (p_flt p) /\ sm_ok (p_str p).

Lemma set_method_inv h p method key vec p' r : set_method h p method key vec = Ok (p', r) ->
  (exists k nm v, methods k = Some nm /\ fst nm = method /\ h vec = Some (mkFV false v) /\ kind_of v = k /\ r = 1 /\
     (par_maps p -> par_maps p' /\ value_of k p' key = Some v /\ forall k' key', (k' <> k \/ key' <> key) -> value_of k' p' key' = value_of k' p key')) \/
  (p' = p /\ r = 0 /\ forall k nm, methods k = Some nm -> fst nm <> method).
Proof.
  unfold set_method. destruct (bytes_dec method (str "setIntValues")) as [->|N1];
    [|destruct (bytes_dec method (str "setFloatValues")) as [->|N2]; [|destruct (bytes_dec method (str "setStringValues")) as [->|N3]]].
  4: { intros E. injection E as <- <-. right. split; [reflexivity|]. split; [reflexivity|]. intros [] nm Hk; cbn [methods] in Hk; try discriminate; injection Hk as <-; cbn [fst]; congruence. }
  all: intros E; apply bind_Ok_inv in E as (v & EV & E); apply as_class_inv in EV as (_ & EV & K); destruct v as [l|l|l|l]; try discriminate K; cbn [par_do guarded unguarded fst] in E; injection E as <- <-; left;
    eexists _, _, _; (split; [|split; [|split; [exact EV|split; [exact K|split; [reflexivity|]]]]]); [cbn [kind_of methods]; reflexivity|reflexivity|];
    intros (M1 & M2 & M3); (split; [repeat split; cbn [p_int p_flt p_str]; try assumption; apply sm_set_ok; assumption|]); (split;
    [cbn [value_of kind_of p_int p_flt p_str]; rewrite sm_get_set by assumption; rewrite bytes_eqb_refl; reflexivity|]);
    intros k' key' D; destruct k'; cbn [value_of p_int p_flt p_str]; try reflexivity; rewrite sm_get_set by assumption;
    (destruct (bytes_eqb key' key) eqn:B; [apply bytes_eqb_eq in B; cbn [kind_of] in D; destruct D; congruence|reflexivity]).
Qed.

(** a call changes the parameters of an object only by lcsetparameters for that object *)
Lemma maps_step s c s' o : maps s -> fstep s c = Ok (s', o) -> maps s'.
Proof.
  intros M E. destruct c; cbn [fstep] in E.
  - destruct (if a =? 0 then None else Some (f_vec s a)) as [[|]|]; try discriminate. apply bind_Ok_inv in E as (v & _ & E). injection E as <- _. exact M.
  - destruct (p =? 0); [injection E as <- _; exact M|]. apply bind_Ok_inv in E as (v & _ & E). injection E as <- _. exact M.
  - apply bind_Ok_inv in E as (v & _ & E). apply bind_Ok_inv in E as (g' & _ & E). injection E as <- _. exact M.
  - apply bind_Ok_inv in E as (v & _ & E). injection E as <- _. exact M.
  - apply bind_Ok_inv in E as (v & _ & E). apply bind_Ok_inv in E as (e & _ & E). injection E as <- _. exact M.
  - destruct (class_of cls) as [c|]; [|injection E as <- _; exact M]. apply bind_Ok_inv in E as (pr & EP & E). apply bind_Ok_inv in E as ((p', r) & ES & E).
    injection E as <- _. unfold maps. cbn [f_par]. intros a c' q. unfold pars_of in EP. destruct (obj =? 0); [discriminate|].
    destruct (f_par s obj) as [[c0 p0]|] eqn:EO; [|discriminate]. destruct (fcls_eqb c c0); [|discriminate]. injection EP as ->.
    unfold ImplModel.put. destruct (a =? obj) eqn:EA; [|apply M]. intros Q. injection Q as <- <-. cbn [fst].
    apply set_method_inv in ES as [(k & nm & v & _ & _ & _ & _ & _ & H)|(-> & _)]; [|exact (M _ _ _ EO)]. apply (H (M _ _ _ EO)).
  - destruct (class_of cls) as [c|]; [|injection E as <- _; exact M]. apply bind_Ok_inv in E as (pr & EP & E). apply bind_Ok_inv in E as ((p', r) & ES & E).
    cbn [fst snd] in E. destruct p'; injection E as <- _; exact M.
Qed.
Lemma frun_app s a : forall b, frun s (a ++ b) = do r <- frun s a; do r' <- frun (fst r) b; Ok (fst r', snd r ++ snd r').
Proof.
  revert s. induction a as [|c a IH]; intros s b; cbn [app frun].
  - cbn [bind fst snd app]. destruct (frun s b) as [[s' o]| |]; reflexivity.
  - destruct (fstep s c) as [[s1 o1]| |]; cbn [bind fst snd]; try reflexivity. rewrite IH.
    destruct (frun s1 a) as [[s2 o2]| |]; cbn [bind fst snd]; try reflexivity. destruct (frun s2 b) as [[s3 o3]| |]; cbn [bind fst snd]; reflexivity.
Qed.
Lemma frun_inv s a b s' o : frun s (a ++ b) = Ok (s', o) -> exists s1 o1 o2, frun s a = Ok (s1, o1) /\ frun s1 b = Ok (s', o2) /\ o = o1 ++ o2.
Proof.
  rewrite frun_app. intros E. apply bind_Ok_inv in E as ((s1, o1) & E1 & E). apply bind_Ok_inv in E as ((s2, o2) & E2 & E). injection E as <- <-.
  exists s1, o1, o2. auto.
Qed.
Lemma frun_cons s c l s' o : frun s (c :: l) = Ok (s', o) -> exists s1 o1 o2, fstep s c = Ok (s1, o1) /\ frun s1 l = Ok (s', o2) /\ o = o1 :: o2.
Proof.
  cbn [frun]. intros E. apply bind_Ok_inv in E as ((s1, o1) & E1 & E). apply bind_Ok_inv in E as ((s2, o2) & E2 & E). injection E as <- <-.
  exists s1, o1, o2. auto.
Qed.
Lemma maps_run l : forall s s' o, maps s -> frun s l = Ok (s', o) -> maps s'.
Proof.
  induction l as [|c l IH]; intros s s' o M E; [cbn [frun] in E; injection E as <- _; exact M|].
  apply frun_cons in E as (s1 & o1 & o2 & E1 & E2 & _). apply (IH s1 s' o2); [exact (maps_step _ _ _ _ M E1)|exact E2].
Qed.

(** a vector that is not an LCObject only changes by being deleted *)
Lemma vec_step s c s' o p v : has_vec s p false v -> (forall k, c <> F_delete k p) -> fstep s c = Ok (s', o) -> has_vec s' p false v.
Proof.
  intros (Hp & Hv) D E. split; [exact Hp|]. destruct c; cbn [fstep] in E.
  - destruct (a =? 0); [discriminate|]. destruct (f_vec s a) as [|] eqn:EA; [discriminate|]. apply bind_Ok_inv in E as (w & _ & E). injection E as <- _.
    cbn [f_vec]. rewrite put_other; [exact Hv|]. intros ->. congruence.
  - destruct (p0 =? 0) eqn:E0; [injection E as <- _; exact Hv|]. apply bind_Ok_inv in E as (w & _ & E). injection E as <- _. cbn [f_vec]. unfold forget.
    destruct (p =? p0) eqn:EQ; [|exact Hv]. exfalso. apply (D k). f_equal. lia.
  - apply bind_Ok_inv in E as (w & _ & E). apply bind_Ok_inv in E as (g' & _ & E). injection E as <- _. exact Hv.
  - apply bind_Ok_inv in E as (w & _ & E). injection E as <- _. exact Hv.
  - apply bind_Ok_inv in E as (w & _ & E). apply bind_Ok_inv in E as (e & _ & E). injection E as <- _. exact Hv.
  - destruct (class_of cls) as [c|]; [|injection E as <- _; exact Hv]. apply bind_Ok_inv in E as (pr & EP & E). apply bind_Ok_inv in E as ((p', r) & ES & E).
    injection E as <- _. exact Hv.
  - destruct (class_of cls) as [c|]; [|injection E as <- _; exact Hv]. apply bind_Ok_inv in E as (pr & EP & E). apply bind_Ok_inv in E as ((p', r) & ES & E).
    cbn [fst snd] in E. destruct p' as [w|]; injection E as <- _; [|exact Hv]. cbn [f_vec]. destruct (Z.eq_dec p p0) as [->|N]; [|rewrite put_other by exact N; exact Hv].
    exfalso. assert (G : exists k' w', as_lcobject (f_vec s) k' p0 = Ok w').
    { unfold get_method in ES. cbv zeta in ES.
      repeat match type of ES with context[if ?x then _ else _] => destruct x end; try discriminate ES; apply bind_Ok_inv in ES as (w' & EL & _); eexists _, _; exact EL. }
    destruct G as (k' & w' & G). apply as_lcobject_inv in G as (_ & G & _). congruence.
Qed.
Lemma vec_run l : forall s s' o p v, has_vec s p false v -> Forall (fun c => forall k, c <> F_delete k p) l -> frun s l = Ok (s', o) -> has_vec s' p false v.
Proof.
  induction l as [|c l IH]; intros s s' o p v H F E; [cbn [frun] in E; injection E as <- _; exact H|].
  inversion F as [|? ? F1 F2]; subst. apply frun_cons in E as (s1 & o1 & o2 & E1 & E2 & _). apply (IH s1 s' o2); [exact (vec_step _ _ _ _ _ _ H F1 E1)|exact F2|exact E2].
Qed.

(** the parameter of an object *)
Definition has_par (s : fstate) (obj : addr) (c : fcls) (k : fkind) (key : bytes) (v : option vval) : Prop :=
  exists p, obj <> 0 /\ f_par s obj = Some (c, p) /\ value_of k p key = v.
Lemma fcls_eqb_eq a b : fcls_eqb a b = true -> a = b.
Proof. destruct a, b; cbn; congruence. Qed.
Lemma pars_of_inv s c obj p : pars_of s c obj = Ok p -> obj <> 0 /\ f_par s obj = Some (c, p).
Proof.
  unfold pars_of. destruct (obj =? 0) eqn:E; [discriminate|]. destruct (f_par s obj) as [[c' p']|]; [|discriminate]. destruct (fcls_eqb c c') eqn:B; [|discriminate].
  intros Q. injection Q as ->. apply fcls_eqb_eq in B. subst. split; [lia|reflexivity].
Qed.
Lemma pars_of_ok s c obj p : obj <> 0 -> f_par s obj = Some (c, p) -> pars_of s c obj = Ok p.
Proof. intros H E. unfold pars_of. replace (obj =? 0) with false by lia. rewrite E. destruct c; reflexivity. Qed.
Lemma par_step s c s' o obj cc k nm key v : maps s -> methods k = Some nm -> has_par s obj cc k key v -> (forall cls p, c <> F_set cls obj (fst nm) key p) ->
  fstep s c = Ok (s', o) -> has_par s' obj cc k key v.
Proof.
  intros M Hk (p0 & Hp & Ho & Hv) D E. destruct c; cbn [fstep] in E.
  - destruct (if a =? 0 then None else Some (f_vec s a)) as [[|]|]; try discriminate. apply bind_Ok_inv in E as (w & _ & E). injection E as <- _. exists p0; auto.
  - destruct (p =? 0); [injection E as <- _; exists p0; auto|]. apply bind_Ok_inv in E as (w & _ & E). injection E as <- _. exists p0; auto.
  - apply bind_Ok_inv in E as (w & _ & E). apply bind_Ok_inv in E as (g' & _ & E). injection E as <- _. exists p0; auto.
  - apply bind_Ok_inv in E as (w & _ & E). injection E as <- _. exists p0; auto.
  - apply bind_Ok_inv in E as (w & _ & E). apply bind_Ok_inv in E as (e & _ & E). injection E as <- _. exists p0; auto.
  - destruct (class_of cls) as [c|]; [|injection E as <- _; exists p0; auto]. apply bind_Ok_inv in E as (pr & EP & E). apply bind_Ok_inv in E as ((p', r) & ES & E).
    injection E as <- _. unfold has_par. cbn [f_par fst]. apply pars_of_inv in EP as (HO & EP). destruct (Z.eq_dec obj obj0) as [->|N];
      [|exists p0; rewrite put_other by exact N; auto]. rewrite Ho in EP. injection EP as <- <-. exists p'. rewrite put_same. split; [exact Hp|]. split; [reflexivity|].
    apply set_method_inv in ES as [(k' & nm' & w & Hk' & Hm & _ & _ & _ & H)|(-> & _)]; [|exact Hv].
    destruct (H (M _ _ _ Ho)) as (_ & _ & H'). rewrite H'; [exact Hv|]. destruct (bytes_dec key key0) as [->|NK]; [|right; exact NK]. left. intros ->.
    rewrite Hk in Hk'. injection Hk' as <-. apply (D cls p). subst method. reflexivity.
  - destruct (class_of cls) as [c|]; [|injection E as <- _; exists p0; auto]. apply bind_Ok_inv in E as (pr & EP & E). apply bind_Ok_inv in E as ((p', r) & ES & E).
    cbn [fst snd] in E. destruct p' as [w|]; injection E as <- _; exists p0; auto.
Qed.
Lemma par_run l : forall s s' o obj cc k nm key v, maps s -> methods k = Some nm -> has_par s obj cc k key v -> Forall (fun c => forall cls p, c <> F_set cls obj (fst nm) key p) l ->
  frun s l = Ok (s', o) -> has_par s' obj cc k key v.
Proof.
  induction l as [|c l IH]; intros s s' o obj cc k nm key v M Hk H F E; [cbn [frun] in E; injection E as <- _; exact H|].
  inversion F as [|? ? F1 F2]; subst. apply frun_cons in E as (s1 & o1 & o2 & E1 & E2 & _).
  apply (IH s1 s' o2 obj cc k nm key v); [exact (maps_step _ _ _ _ M E1)|exact Hk|exact (par_step _ _ _ _ _ _ _ _ _ _ M Hk H F1 E1)|exact F2|exact E2].
Qed.

Lemma class_of_names cls : In cls class_names -> exists c, class_of cls = Some c.
Proof. intros [<-|[<-|[<-|[]]]]; eexists; reflexivity. Qed.
Lemma class_of_none cls : ~ In cls class_names -> class_of cls = None.
Proof.
  intros H. unfold class_of. destruct (bytes_dec cls (str "LCRunHeader")) as [->|]; [exfalso; apply H; left; reflexivity|].
  destruct (bytes_dec cls (str "LCEvent")) as [->|]; [exfalso; apply H; right; left; reflexivity|].
  destruct (bytes_dec cls (str "LCCollection")) as [->|]; [exfalso; apply H; do 2 right; left; reflexivity|]. reflexivity.
Qed.

Lemma get_method_value h p k nm key q v w : methods k = Some nm -> q <> 0 -> h q = Some (mkFV true w) -> size_of w = 0 -> kind_of w = k -> value_of k p key = Some v ->
  get_method h p (snd nm) key q = Ok (Some v, 1).
Proof.
  intros Hk Hq Hh Hw Kw Hv. destruct k; cbn [methods] in Hk; try discriminate; injection Hk as <-; cbn [snd]; unfold get_method.
  - change (if bytes_dec (str "getIntValues") (str "getIntValues") then ?x else ?y) with x. rewrite (as_lcobject_ok _ _ _ _ Hq Hh Kw).
    destruct w as [[|x l]|l|l|l]; try discriminate Kw; [|unfold size_of, Zlen in Hw; cbn [length] in Hw; lia]. cbn [bind value_of] in *.
    unfold par_vals. destruct (sm_get key (p_int p)); [|discriminate]. injection Hv as <-. reflexivity.
  - change (if bytes_dec (str "getFloatValues") (str "getIntValues") then ?x else ?y) with y.
    change (if bytes_dec (str "getFloatValues") (str "getFloatValues") then ?x else ?y) with x. rewrite (as_lcobject_ok _ _ _ _ Hq Hh Kw).
    destruct w as [l|[|x l]|l|l]; try discriminate Kw; [|unfold size_of, Zlen in Hw; cbn [length] in Hw; lia]. cbn [bind value_of] in *.
    unfold par_vals. destruct (sm_get key (p_flt p)); [|discriminate]. injection Hv as <-. reflexivity.
  - cbv zeta. change (if bytes_dec (str "getStringValues") (str "getIntValues") then ?x else ?y) with y.
    change (if bytes_dec (str "getStringValues") (str "getFloatValues") then ?x else ?y) with y.
    change (if bytes_dec (str "getStringValues") (str "getStringValues") then ?x else ?y) with x. rewrite (as_lcobject_ok _ _ _ _ Hq Hh Kw).
    destruct w as [l|l|l|[|x l]]; try discriminate Kw; [|unfold size_of, Zlen in Hw; cbn [length] in Hw; lia]. cbn [bind value_of] in *.
    unfold par_vals. destruct (sm_get key (p_str p)); [|discriminate]. injection Hv as <-. reflexivity.
Qed.

Lemma set_then_get k nm s0 c1 c2 c3 g p v cls obj key s outs q g0 w g2 n :
  methods k = Some nm -> maps s0 -> stands_for g v -> kind_of v = k -> size_of v < 2 ^ 31 -> In cls class_names ->
  frun s0 (c1 ++ F_create false g p :: c2 ++ F_set cls obj (fst nm) key p :: c3) = Ok (s, outs) ->
  Forall (fun c => forall k', c <> F_delete k' p) c2 -> Forall (fun c => forall cls' p', c <> F_set cls' obj (fst nm) key p') c3 ->
  q <> 0 -> f_vec s q = None -> stands_for g0 w -> size_of w = 0 -> kind_of w = k -> target g2 v n ->
  exists s' g2', frun s [F_create true g0 q; F_get cls obj (snd nm) key q; F_fetch true q g2] = Ok (s', [ONum q; ONum 1; OArgs 1 g2']) /\
    stands_for g2' (take (Z.min n (size_of v)) v) /\ rest_kept g2 g2' (Z.min n (size_of v)) v.
Proof.
  intros Hk M0 Hg Hv HS Hc E F2 F3 Hq Hfree Hg0 Hw Kw T. apply frun_inv in E as (s1 & o1 & o2 & E1 & E & _). apply frun_cons in E as (s2 & o3 & o4 & E2 & E & _).
  apply frun_inv in E as (s3 & o5 & o6 & E3 & E & _). apply frun_cons in E as (s4 & o7 & o8 & E4 & E5 & _).
  assert (V2 : has_vec s2 p false v).
  { cbn [fstep] in E2. destruct (p =? 0) eqn:P0; [discriminate|]. destruct (f_vec s1 p); [discriminate|]. rewrite (make_ok _ _ Hg) in E2. cbn [bind] in E2.
    injection E2 as <- _. split; [lia|apply put_same]. }
  pose proof (maps_run _ _ _ _ M0 E1) as M1. pose proof (maps_step _ _ _ _ M1 E2) as M2. pose proof (maps_run _ _ _ _ M2 E3) as M3. pose proof (maps_step _ _ _ _ M3 E4) as M4.
  pose proof (vec_run _ _ _ _ _ _ V2 F2 E3) as V3. destruct (class_of_names _ Hc) as (cc & EC).
  assert (P4 : has_par s4 obj cc k key (Some v)).
  { cbn [fstep] in E4. rewrite EC in E4. apply bind_Ok_inv in E4 as (pr & EP & E4). apply bind_Ok_inv in E4 as ((p', r) & ES & E4). injection E4 as <- _.
    apply pars_of_inv in EP as (HO & EP). exists p'. cbn [f_par fst]. rewrite put_same. split; [exact HO|]. split; [reflexivity|].
    apply set_method_inv in ES as [(k' & nm' & v' & Hk' & Hm & Hh & Kv & _ & H)|(_ & _ & H)]; [|exfalso; exact (H _ _ Hk eq_refl)].
    rewrite (proj2 V3) in Hh. injection Hh as <-. rewrite Hv in Kv. subst k'. apply (H (M3 _ _ _ EP)). }
  pose proof (par_run _ _ _ _ _ _ _ _ _ _ M4 Hk P4 F3 E5) as (pf & HO & EO & EV).
  set (s5 := mkFS (ImplModel.put (f_vec s) q (mkFV true w)) (f_par s)). set (s6 := mkFS (ImplModel.put (f_vec s5) q (mkFV true v)) (f_par s)).
  assert (G1 : fstep s (F_create true g0 q) = Ok (s5, ONum q)) by (apply create_ok; assumption).
  assert (G2 : fstep s5 (F_get cls obj (snd nm) key q) = Ok (s6, ONum 1)).
  { cbn [fstep]. rewrite EC. rewrite (pars_of_ok s5 cc obj pf HO EO). cbn [bind].
    rewrite (get_method_value (f_vec s5) pf k nm key q v w Hk Hq (put_same (f_vec s) q (mkFV true w)) Hw Kw EV). reflexivity. }
  destruct (fetched s6 q true v g2 n) as (g2' & G3 & R); try assumption.
  { split; [exact Hq|apply put_same]. }
  { intros (_ & KP'). rewrite Hv in KP'. rewrite KP' in Hk. discriminate Hk. }
  { exact (stands_no_nul _ _ Hg). }
  exists s6, g2'. split; [|exact R]. cbn [frun]. rewrite G1. cbn [bind fst snd]. rewrite G2. cbn [bind fst snd]. rewrite G3. reflexivity.
Qed.

(** ** Unknown names *)
Lemma unknown_names s cls obj method key p c pr : (~ In cls class_names \/ class_of cls = Some c /\ pars_of s c obj = Ok pr /\
    (forall k nm, methods k = Some nm -> method <> fst nm /\ method <> snd nm) /\ ~ In method [str "getIntKeys"; str "getFloatKeys"; str "getStringtKeys"]) ->
  (exists s', fstep s (F_set cls obj method key p) = Ok (s', ONum 0) /\ f_vec s' = f_vec s /\ forall a, f_par s' a = f_par s a) /\
  fstep s (F_get cls obj method key p) = Ok (s, ONum 0).
Proof.
  intros [N|(EC & EP & H & G)].
  - cbn [fstep]. rewrite (class_of_none _ N). split; [exists s; auto|reflexivity].
  - cbn [fstep]. rewrite EC, EP. cbn [bind].
    destruct (H KI _ eq_refl) as (A1 & B1). destruct (H KF _ eq_refl) as (A2 & B2). destruct (H KS _ eq_refl) as (A3 & B3). cbn [fst snd] in *.
    split.
    + unfold set_method. destruct (bytes_dec method (str "setIntValues")); [contradiction|]. destruct (bytes_dec method (str "setFloatValues")); [contradiction|].
      destruct (bytes_dec method (str "setStringValues")); [contradiction|]. cbn [bind fst snd]. eexists. split; [reflexivity|]. split; [reflexivity|].
      intros a. cbn [f_par]. unfold ImplModel.put. destruct (a =? obj) eqn:EA; [|reflexivity]. apply pars_of_inv in EP as (_ & EP). replace a with obj by lia. symmetry. exact EP.
    + unfold get_method. destruct (bytes_dec method (str "getIntValues")); [contradiction|]. destruct (bytes_dec method (str "getFloatValues")); [contradiction|].
      destruct (bytes_dec method (str "getStringValues")); [contradiction|]. cbv zeta.
      destruct (bytes_dec method (str "getIntKeys")) as [->|]; [exfalso; apply G; left; reflexivity|].
      destruct (bytes_dec method (str "getFloatKeys")) as [->|]; [exfalso; apply G; right; left; reflexivity|].
      destruct (bytes_dec method (str "getStringtKeys")) as [->|]; [exfalso; apply G; do 2 right; left; reflexivity|]. reflexivity.
Qed.

(** ** Run headers *)
Lemma strcpy_all mem s : ~ In x00 s -> Zlen s < Zlen mem -> strcpy mem 0 s = Ok (s ++ x00 :: skipn (S (length s)) mem).
Proof.
  intros Hs HL. unfold strcpy. rewrite (c_str_id _ Hs). cbv zeta. unfold Zlen in *. rewrite app_length. cbn [length].
  replace ((0 <? 0) || (Z.of_nat (length mem) <? 0 + Z.of_nat (length s + 1))) with false by lia. change (Z.to_nat 0) with 0%nat. cbn [firstn app].
  rewrite <- app_assoc. cbn [app]. do 3 f_equal. f_equal. lia.
Qed.
Lemma run_header irun det desc mem nch l : 0 <= nch < 2 ^ 31 - 1 -> matrix mem nch l -> ~ In x00 det -> ~ In x00 desc ->
  exists h, f_write_run irun det desc mem (Zlen l) nch = Ok h /\
    forall det2 desc2 mem2 nch2, Zlen det < Zlen det2 -> Zlen desc < Zlen desc2 -> target (AS mem2 (Zlen l) nch2) (VS l) (Zlen l) -> Zlen l < 2 ^ 31 ->
    exists mem2', f_read_run (Some h) det2 desc2 mem2 nch2 =
      Ok (irun, det ++ x00 :: skipn (S (length det)) det2, desc ++ x00 :: skipn (S (length desc)) desc2, mem2', Zlen l) /\
      matrix mem2' nch2 l /\ rest_kept (AS mem2 (Zlen l) nch2) (AS mem2' (Zlen l) nch2) (Zlen l) (VS l).
Proof.
  intros Hn M Hd He. unfold f_write_run. rewrite (elemlen_ok _ Hn). cbn [bind]. pose proof (read_rows_ok nch mem (proj1 Hn) l 0 M) as R.
  cbn [Z.of_nat] in R. change (0 * (nch + 1)) with 0 in R. assert (LL : Z.to_nat (Zlen l) = length l) by (unfold Zlen; apply Nat2Z.id). rewrite LL, R. cbn [bind].
  eexists. split; [reflexivity|]. intros det2 desc2 mem2 nch2 L1 L2 T L3. unfold f_read_run. cbn [rh_det rh_desc rh_subs rh_run].
  rewrite (strcpy_all _ _ Hd L1), (strcpy_all _ _ He L2). cbn [bind].
  assert (NN : no_nul (VS l)) by exact (stands_no_nul (AS mem (Zlen l) nch) (VS l) (for_strings l mem nch Hn M)).
  destruct (fetch_ok (VS l) (AS mem2 (Zlen l) nch2) (Zlen l) T NN L3) as (g' & E & St & K). cbn [size_of] in *. rewrite Z.min_id in St, K.
  cbn [fetch] in E. pose proof (Zlen_nonneg' l) as HN. rewrite copied_min in E by lia. cbv zeta in E. rewrite Z.min_id, LL, firstn_all in E.
  apply bind_Ok_inv in E as (e & E1 & E). apply bind_Ok_inv in E as (m' & E2 & E). injection E as <-. rewrite E1. cbn [bind]. rewrite E2. cbn [bind].
  rewrite s32_id by (unfold is_i32, two31; lia). exists m'. split; [reflexivity|]. split; [|exact K].
  cbn [take] in St. rewrite LL, firstn_all in St. inversion St; subst. assumption.
Qed.

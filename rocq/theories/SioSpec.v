(** * Independent specifications for the sio properties, and their proofs *)

From Coq Require Import Permutation.
From Verif Require Import Bytes SioModel SioProofs SioRecord SioRead SioFrame.

(** ** C01: sequences of primitive values *)

Inductive pval :=
| PU8 (z : Z) | PI16 (z : Z) | PI32 (z : Z) | PU32 (z : Z) | PI64 (z : Z)
| PF32 (w : Z) | PF64 (w : Z)              (* raw IEEE words *)
| PStr (s : bytes)
| PArr (size : nat) (l : list Z)           (* C array of raw words of [size] bytes; the reader knows the count *)
| PVec (size : nat) (l : list Z)
| PStrs (l : list bytes).

Definition pval_ok (v : pval) : Prop :=
  match v with
  | PU8 z => 0 <= z < 2 ^ 8
  | PI16 z => - 2 ^ 15 <= z < 2 ^ 15
  | PI32 z => - 2 ^ 31 <= z < 2 ^ 31
  | PU32 z | PF32 z => 0 <= z < 2 ^ 32
  | PI64 z => - 2 ^ 63 <= z < 2 ^ 63
  | PF64 z => 0 <= z < 2 ^ 64
  | PStr s => Zlen s < 2 ^ 31
  | PArr n l | PVec n l =>
      In n [1; 2; 4; 8]%nat /\ Zlen l < 2 ^ 31 /\ Z.of_nat n * Zlen l < 2 ^ 32 - 3
      /\ Forall (fun z => 0 <= z < 2 ^ (8 * Z.of_nat n)) l
  | PStrs l => Zlen l < 2 ^ 31 /\ Forall (fun s => Zlen s < 2 ^ 31) l
  end.

(** The write calls (SIO_DATA / SIO_SDATA) and the matching read calls. *)
Definition put_val (v : pval) : list dcall :=
  match v with
  | PU8 z => w_i8 z | PI16 z => w_i16 z | PI32 z => w_i32 z | PU32 z => w_u32 z
  | PI64 z => w_i64 z | PF32 z => w_f32 z | PF64 z => w_f64 z
  | PStr s => w_string s | PArr n l => w_arr n l | PVec n l => w_vec n l | PStrs l => w_strings l
  end.
(** Reading a value of the same kind (into a fresh variable); only the kind and, for arrays,
    the count is taken from [v]. *)
Definition get_like (v : pval) : RD pval :=
  match v with
  | PU8 _ => let* z := r_u8 in rret (PU8 z)
  | PI16 _ => let* z := r_i16 in rret (PI16 z)
  | PI32 _ => let* z := r_i32 in rret (PI32 z)
  | PU32 _ => let* z := r_u32 in rret (PU32 z)
  | PI64 _ => let* z := r_i64 in rret (PI64 z)
  | PF32 _ => let* z := r_f32 in rret (PF32 z)
  | PF64 _ => let* z := r_f64 in rret (PF64 z)
  | PStr _ => let* s := r_string in rret (PStr s)
  | PArr n l => let* x := r_arr n (Zlen l) in rret (PArr n x)
  | PVec n _ => let* x := r_vec n [] in rret (PVec n x)
  | PStrs _ => let* x := r_strings [] in rret (PStrs x)
  end.
Fixpoint get_all (vs : list pval) : RD (list pval) :=
  match vs with
  | [] => rret []
  | v :: vs' => let* x := get_like v in let* xs := get_all vs' in rret (x :: xs)
  end.

Definition dummy_rho : rho := mkRho (fun _ => 0) (fun _ => 0).

Lemma w_string_ok s : Zlen s < two31 -> calls_ok (w_string s).
Proof.
  intros H. constructor; [apply small_be; lia|]. constructor; [|constructor].
  unfold call_ok, small, two31, two32 in *. lia.
Qed.

Lemma put_val_ok v : pval_ok v -> calls_ok (put_val v).
Proof.
  destruct v as [z|z|z|z|z|z|z|s|n l|n l|l]; cbn [pval_ok put_val]; intros H;
    try solve [constructor; [apply small_be; lia|constructor]].
  - apply w_string_ok. exact H.
  - constructor; [|constructor]. unfold call_ok, small. rewrite enc_elems_length. unfold two32. lia.
  - unfold w_vec. constructor; [apply small_be; lia|].
    destruct (Zlen l =? 0); [constructor|]. constructor; [|constructor]. unfold call_ok, small. rewrite enc_elems_length. unfold two32. lia.
  - unfold w_strings. constructor; [apply small_be; lia|]. destruct H as [_ H].
    induction H as [|s l Hs Hl IH]; [constructor|]. cbn [flat_map]. apply Forall_app. split; [|exact IH].
    apply w_string_ok. exact Hs.
Qed.

Lemma words_ok_pow n l : Forall (fun z => 0 <= z < 2 ^ (8 * Z.of_nat n)) l -> words_ok n l.
Proof.
  intros H. eapply Forall_impl; [|exact H]. intros z Hz. cbv beta in Hz.
  replace (256 ^ Z.of_nat n) with (2 ^ (8 * Z.of_nat n)); [exact Hz|].
  rewrite Z.pow_mul_r by lia. reflexivity.
Qed.

Lemma get_like_reads v st : pval_ok v -> reads (get_like v) (renderR dummy_rho (put_val v)) st st v.
Proof.
  destruct v as [z|z|z|z|z|z|z|s|n l|n l|l]; cbn [pval_ok put_val get_like]; intros H;
    cbn [w_i8 w_i16 w_i32 w_u32 w_i64 w_f32 w_f64 w_arr renderR flat_map renderR_call];
    rewrite ?app_nil_r, ?padz_be4, ?padz_be8.
  - apply reads_map, reads_u8. exact H.
  - apply reads_map, reads_i16. exact H.
  - apply reads_map, reads_i32. exact H.
  - apply reads_map, reads_u32. exact H.
  - apply reads_map, reads_i64. exact H.
  - apply reads_map, reads_f32. exact H.
  - apply reads_map, reads_f64. exact H.
  - apply reads_map. apply (reads_string s dummy_rho). exact H.
  - destruct H as (Hn & Hl & Hs & Hw). apply (reads_map _ (fun x => PArr n x)).
    apply reads_arr_id; [unfold small; rewrite enc_elems_length; exact Hs|apply words_ok_pow; exact Hw].
  - destruct H as (Hn & Hl & Hs & Hw). apply (reads_map _ (fun x => PVec n x)).
    apply (reads_vec n l [] dummy_rho); [exact Hl|unfold small; rewrite enc_elems_length; exact Hs
      |apply words_ok_pow; exact Hw|right; reflexivity].
  - destruct H as (Hl & Hs). apply (reads_map _ (fun x => PStrs x)).
    apply (reads_strings l [] dummy_rho); [exact Hl|exact Hs|right; reflexivity].
Qed.

Lemma get_all_reads vs st : Forall pval_ok vs ->
  reads (get_all vs) (renderR dummy_rho (flat_map put_val vs)) st st vs.
Proof.
  induction 1 as [|v vs Hv Hvs IH]; [apply reads_ret|].
  cbn [get_all flat_map]. rewrite renderR_app.
  eapply reads_bind; [apply get_like_reads; exact Hv|].
  apply (reads_map _ (fun xs => v :: xs)). exact IH.
Qed.

Definition data_only (cs : list dcall) : Prop := Forall (fun c => match c with DData _ => True | _ => False end) cs.

Lemma data_only_render r cs : data_only cs -> renderR r cs = render0 cs.
Proof.
  induction 1 as [|c cs Hc Hcs IH]; [reflexivity|]. destruct c; try contradiction.
  cbn [renderR render0 flat_map]. fold (renderR r cs). fold (render0 cs). rewrite IH. reflexivity.
Qed.

Lemma put_val_data v : data_only (put_val v).
Proof.
  destruct v as [z|z|z|z|z|z|z|s|n l|n l|l]; cbn [put_val]; try solve [repeat constructor].
  - unfold w_vec. constructor; [exact I|]. destruct (Zlen l =? 0); repeat constructor.
  - unfold w_strings. constructor; [exact I|].
    induction l as [|s l IH]; [constructor|]. cbn [flat_map]. apply Forall_app. split; [|exact IH]. repeat constructor.
Qed.
Lemma put_vals_data vs : data_only (flat_map put_val vs).
Proof. induction vs as [|v vs IH]; [constructor|]. cbn [flat_map]. apply Forall_app. split; [apply put_val_data|exact IH]. Qed.
Lemma put_vals_ok vs : Forall pval_ok vs -> calls_ok (flat_map put_val vs).
Proof. induction 1 as [|v vs Hv Hvs IH]; [constructor|]. cbn [flat_map]. apply Forall_app. split; [apply put_val_ok; exact Hv|exact IH]. Qed.

Lemma render0_mod4 cs : calls_ok cs -> Zlen (render0 cs) mod 4 = 0.
Proof.
  induction 1 as [|c cs Hc Hcs IH]; [reflexivity|].
  cbn [render0 flat_map]. fold (render0 cs). rewrite Zlen_app.
  assert (Zlen (render0_call c) mod 4 = 0).
  { destruct c as [bs|a|a]; cbn [render0_call]; [|rewrite Zlen_be; reflexivity|rewrite Zlen_be; reflexivity].
    rewrite Zlen_padz by exact Hc. apply pad4_mod. }
  lia.
Qed.

Lemma prim_roundtrip buf vs at_ next :
  b_valid buf = true -> b_bytes buf <> [] -> Forall pval_ok vs ->
  exists d', dev_calls (mkW buf 0 [] []) (flat_map put_val vs) = Ok d' /\
    forall span rest, span = firstn (Z.to_nat (w_cur d')) (b_bytes (w_buf d')) ++ rest ->
      get_all vs (mkR span 0 at_ next) = Ok (vs, mkR span (w_cur d') at_ next).
Proof.
  intros Hv Hne Hok.
  assert (Hd0 : crep (mkW buf 0 [] []) []).
  { split; [|split; reflexivity]. split; [exact Hv|]. exists (b_bytes buf).
    split; [reflexivity|]. split; [reflexivity|exact Hne]. }
  destruct (crep_calls _ _ _ Hd0 (put_vals_ok vs Hok)) as (d' & He & Hc). cbn [app] in Hc.
  exists d'. split; [exact He|]. intros span rest ->.
  destruct Hc as ((_ & t & Hb & Hcur & _) & _).
  assert (Hf : firstn (Z.to_nat (w_cur d')) (b_bytes (w_buf d')) = render0 (flat_map put_val vs)).
  { rewrite Hb. apply firstn_app_exact. rewrite Hcur. unfold Zlen. apply Nat2Z.id. }
  rewrite Hf. pose proof (get_all_reads vs (at_, next) Hok [] rest) as R.
  rewrite (data_only_render dummy_rho _ (put_vals_data vs)) in R. cbn [app fst snd] in R.
  change (Zlen []) with 0 in R. rewrite R. rewrite Hcur. reflexivity.
Qed.

Lemma prim_aligned buf vs d' :
  b_valid buf = true -> b_bytes buf <> [] -> Forall pval_ok vs ->
  dev_calls (mkW buf 0 [] []) (flat_map put_val vs) = Ok d' -> w_cur d' mod 4 = 0.
Proof.
  intros Hv Hne Hok He.
  assert (Hd0 : crep (mkW buf 0 [] []) []).
  { split; [|split; reflexivity]. split; [exact Hv|]. exists (b_bytes buf).
    split; [reflexivity|]. split; [reflexivity|exact Hne]. }
  destruct (crep_calls _ _ _ Hd0 (put_vals_ok vs Hok)) as (d2 & He2 & Hc).
  assert (d2 = d') by congruence. subst d2. cbn [app] in Hc. rewrite (crep_cur _ _ Hc).
  apply render0_mod4. apply put_vals_ok. exact Hok.
Qed.

(** ** C02: appending and patching *)

Inductive wop := OWrite (bs : bytes) | OPatch (pos : Z) (bs : bytes).

(** Padding to the next multiple of four, independent of the mask arithmetic of the code. *)
Definition pad_bytes (bs : bytes) : bytes := bs ++ repeat x00 (Z.to_nat ((4 - Zlen bs mod 4) mod 4)).

Definition spec_op (c : bytes) (o : wop) : bytes :=
  match o with
  | OWrite bs => c ++ pad_bytes bs
  | OPatch pos bs =>
      firstn (Z.to_nat pos) c ++ pad_bytes bs ++ skipn (Z.to_nat pos + length (pad_bytes bs)) c
  end.
Definition op_ok (c : bytes) (o : wop) : Prop :=
  match o with
  | OWrite bs => Zlen bs < 2 ^ 32 - 3
  | OPatch pos bs => Zlen bs < 2 ^ 32 - 3 /\ 0 <= pos /\ pos + Zlen (pad_bytes bs) <= Zlen c
  end.
Fixpoint ops_ok (c : bytes) (os : list wop) : Prop :=
  match os with [] => True | o :: os' => op_ok c o /\ ops_ok (spec_op c o) os' end.

(** The device calls of an operation: a patch is seek, data, seek back. *)
Definition dev_op (d : wdev) (o : wop) : Res wdev :=
  match o with
  | OWrite bs => w_data d bs
  | OPatch pos bs =>
      let cur := w_cur d in do d1 <- w_seek d pos; do d2 <- w_data d1 bs; w_seek d2 cur
  end.
Fixpoint dev_ops (d : wdev) (os : list wop) : Res wdev :=
  match os with [] => Ok d | o :: os' => do d1 <- dev_op d o; dev_ops d1 os' end.

Lemma padz_pad_bytes bs : small bs -> padz bs = pad_bytes bs.
Proof.
  intros H. unfold padz, pad_bytes, zeros. f_equal. f_equal. f_equal.
  rewrite padlen_Zlen, Zlen_padz by exact H. unfold pad4. lia.
Qed.

Lemma w_patch_gen d c pos w :
  wrep d c -> small w -> 0 <= pos -> pos + Zlen (padz w) <= Zlen c ->
  exists d', dev_op d (OPatch pos w) = Ok d' /\ wrep d' (spec_op c (OPatch pos w)).
Proof.
  intros Hr Hs H0 Hl. pose proof (wrep_size _ _ Hr) as Hsz.
  destruct Hr as (Hv & t & Hb & Hc & Ht).
  cbn [dev_op spec_op]. cbv zeta. rewrite <- (padz_pad_bytes w Hs).
  destruct (app_cut c (Z.to_nat pos)) as (c1 & c' & -> & Hc1). { unfold Zlen in Hl. lia. }
  assert (Hz : Zlen c1 = pos) by (unfold Zlen; lia).
  destruct (app_cut c' (length (padz w))) as (x & c2 & -> & Hx). { rewrite Zlen_app in Hl. unfold Zlen in *. lia. }
  rewrite firstn_app_exact by lia.
  replace (skipn (Z.to_nat pos + length (padz w)) (c1 ++ x ++ c2)) with c2.
  2:{ rewrite app_assoc. symmetry. apply skipn_app_exact. rewrite app_length. lia. }
  pose proof (Zlen_nonneg (padz w)).
  rewrite w_seek_ok by lia. cbn [bind].
  destruct d as [[b v] cur at_ to_]. cbn [w_buf b_valid b_bytes w_cur w_at w_to] in *. subst b v cur.
  unfold w_data. cbn [w_buf w_cur w_at w_to].
  replace ((c1 ++ x ++ c2) ++ t) with (c1 ++ x ++ (c2 ++ t)) by (rewrite <- !app_assoc; reflexivity).
  rewrite <- Hz. rewrite api_write_over; [|exact Hs|exact Hx|destruct c2; cbn; congruence].
  cbn [bind].
  assert (Hlx : Zlen x = Zlen (padz w)) by (unfold Zlen; lia).
  rewrite w_seek_ok.
  2:{ cbn [w_buf]. unfold b_size. cbn [b_bytes]. rewrite !Zlen_app. pose proof (Zlen_nonneg t). lia. }
  cbn [w_buf w_at w_to].
  eexists. split; [reflexivity|].
  split; [reflexivity|]. exists t. cbn [w_buf b_bytes w_cur]. rewrite !Zlen_app, <- !app_assoc.
  split; [reflexivity|]. split; [lia|exact Ht].
Qed.

Lemma dev_ops_spec os : forall d c, wrep d c -> ops_ok c os ->
  exists d', dev_ops d os = Ok d' /\ wrep d' (fold_left spec_op os c).
Proof.
  induction os as [|o os IH]; intros d c Hr Hok; [exists d; auto|].
  destruct Hok as [Ho Hos]. cbn [dev_ops fold_left].
  assert (Hstep : exists d1, dev_op d o = Ok d1 /\ wrep d1 (spec_op c o)).
  { destruct o as [bs|pos bs]; cbn [op_ok] in Ho.
    - assert (Hs : small bs) by exact Ho.
      destruct (w_data_rep d c bs Hr Hs) as (d1 & H1 & H2 & _ & _). exists d1. cbn [dev_op spec_op].
      rewrite <- (padz_pad_bytes bs Hs). auto.
    - destruct Ho as (Hs & H0 & Hl). assert (Hs' : small bs) by exact Hs.
      rewrite <- (padz_pad_bytes bs Hs') in Hl. apply w_patch_gen; assumption. }
  destruct Hstep as (d1 & -> & Hr1). cbn [bind]. apply IH; assumption.
Qed.

Lemma growth_spec cap os b0 :
  0 < cap -> new_buffer cap = Ok b0 -> ops_ok [] os ->
  exists d', dev_ops (mkW b0 0 [] []) os = Ok d' /\
    w_cur d' = Zlen (fold_left spec_op os []) /\
    firstn (Z.to_nat (w_cur d')) (b_bytes (w_buf d')) = fold_left spec_op os [].
Proof.
  intros Hcap Hb Hok. unfold new_buffer in Hb. destruct (cap =? 0) eqn:E; [lia|]. injection Hb as <-.
  destruct (dev_ops_spec os (mkW (mkBuffer (zeros (Z.to_nat cap)) true) 0 [] []) []) as (d' & He & Hr).
  - split; [reflexivity|]. exists (zeros (Z.to_nat cap)). split; [reflexivity|]. split; [reflexivity|].
    intros Hz. apply (f_equal (@length byte)) in Hz. rewrite zeros_length in Hz. cbn in Hz. lia.
  - exact Hok.
  - exists d'. split; [exact He|]. destruct Hr as (_ & t & Hb & Hc & _). split; [exact Hc|].
    rewrite Hb, Hc. apply firstn_app_exact. unfold Zlen. apply Nat2Z.id.
Qed.

(** ** C03: the pointers of a record *)

(** Reading the same shape: at every tag the object being read is [new a] for the written
    object [a]; the match words of the pointers are collected. *)
Fixpoint read_shape (new : addr -> addr) (cs : list dcall) : RD (list Z) :=
  match cs with
  | [] => rret []
  | DData bs :: cs' => let* _ := r_data (Zlen bs) in read_shape new cs'
  | DTag a :: cs' => let* _ := r_pointed_at (new a) in read_shape new cs'
  | DPtr _ :: cs' => let* m := r_pointer_to in let* ms := read_shape new cs' in rret (m :: ms)
  end.

(** Where the pointers must point afterwards. *)
Definition target (new : addr -> addr) (stored : list addr) (a : addr) : addr :=
  if a =? 0 then 0 else if in_dec Z.eq_dec a stored then new a else 0.

Definition tags_state (r : rho) (new : addr -> addr) (cs : list dcall) (m : list (Z * addr)) : list (Z * addr) :=
  fold_left (fun m a => if tagw r a =? 4294967295 then m else map_insert (tagw r a) (new a) m) (tags cs) m.

Lemma tags_state_app r new a b m : tags_state r new (a ++ b) m = tags_state r new b (tags_state r new a m).
Proof. unfold tags_state. rewrite tags_app, fold_left_app. reflexivity. Qed.

Lemma read_shape_reads r all new cs : forall at_ next, rho_ok all r -> calls_ok cs ->
  reads (read_shape new cs) (renderR r cs) (at_, next) (tags_state r new cs at_, next) (map (ptrw r) (ptrs cs)).
Proof.
  induction cs as [|c cs IH]; intros at_ next Hro Hok; [apply reads_ret|].
  inversion Hok as [|? ? Hc Hcs]; subst.
  change (c :: cs) with ([c] ++ cs) at 2. rewrite renderR_app.
  destruct c as [bs|a|a]; cbn [read_shape].
  - eapply reads_bind; [cbn [renderR flat_map renderR_call]; rewrite app_nil_r; apply reads_data; exact Hc|].
    apply IH; assumption.
  - eapply reads_bind; [apply (reads_tag r all); exact Hro|]. cbn [tag_state fst snd].
    unfold tag_state. cbn [fst snd]. cbn [ptrs flat_map ptr_of app].
    apply IH; assumption.
  - eapply reads_bind; [apply (reads_pointer r all); exact Hro|].
    cbn [ptrs flat_map ptr_of app map]. fold (ptrs cs).
    apply (reads_map _ (fun ms => ptrw r a :: ms)). apply IH; assumption.
Qed.

(** The table of tags after a whole record. *)
Lemma tags_state_lookup (r : rho) (new : addr -> addr) : forall (ts : list addr) (m : list (Z * addr)) (k : Z),
  sorted_lt (keys m) ->
  let m' := fold_left (fun m a => if tagw r a =? 4294967295 then m else map_insert (tagw r a) (new a) m) ts m in
  sorted_lt (keys m') /\
  assoc k m' = match assoc k m with
               | Some v => Some v
               | None => match find (fun a => tagw r a =? k) (filter (fun a => negb (tagw r a =? 4294967295)) ts) with
                         | Some a => Some (new a) | None => None end
               end.
Proof.
  induction ts as [|a ts IH]; intros m k Hs; cbn [fold_left filter find].
  - split; [exact Hs|]. destruct (assoc k m); reflexivity.
  - destruct (tagw r a =? 4294967295) eqn:Et; cbn [negb].
    + apply IH. exact Hs.
    + destruct (IH (map_insert (tagw r a) (new a) m) k (map_insert_sorted _ _ _ Hs)) as [I1 I2].
      split; [exact I1|]. cbv zeta in I2. rewrite I2. rewrite assoc_map_insert by exact Hs.
      cbn [find]. rewrite (Z.eqb_sym (tagw r a) k).
      destruct (k =? tagw r a) eqn:Ek.
      * assert (k = tagw r a) by lia. subst k. destruct (assoc (tagw r a) m); reflexivity.
      * reflexivity.
Qed.

Lemma find_in {A} f (l : list A) a : find f l = Some a -> In a l /\ f a = true.
Proof. apply find_some. Qed.

(** The central lemma: after the relocation every pointer goes to the copy of its target. *)
Lemma reloc_target all r new a :
  rho_ok all r -> NoDup (tags all) -> In a (ptrs all) ->
  reloc_ptr (tags_state r new all []) (ptrw r a) = target new (tags all) a.
Proof.
  intros Hro Hnd Hp. unfold target, reloc_ptr.
  destruct (a =? 0) eqn:E0.
  { assert (a = 0) by lia. subst. rewrite (ro_null all r Hro). reflexivity. }
  destruct (in_dec Z.eq_dec a (tags all)) as [Hin|Hni].
  - destruct (ro_link all r Hro a ltac:(lia) Hp Hin) as [Heq Hr]. rewrite Heq.
    destruct (tagw r a =? 0) eqn:Ez; [lia|].
    unfold tags_state. destruct (tags_state_lookup r new (tags all) [] (tagw r a) I) as [_ Hl].
    cbv zeta in Hl. rewrite Hl. cbn [assoc].
    assert (Hne : tagw r a =? 4294967295 = false) by (change (2 ^ 30) with 1073741824 in Hr; lia).
    destruct (find _ _) as [b|] eqn:Ef.
    + apply find_in in Ef. destruct Ef as [Hb Hbt]. apply filter_In in Hb. destruct Hb as [Hb Hbn].
      assert (Htb : tagw r b = tagw r a) by lia.
      f_equal. symmetry. destruct (Z.eq_dec a b) as [|Hab]; [assumption|].
      (* b is tagged with a real tag, so it is referenced *)
      assert (Hb0 : b <> 0 /\ In b (ptrs all)).
      { destruct (Z.eq_dec b 0) as [->|Hb0].
        - rewrite (ro_unref all r Hro 0) in Hbn by auto. discriminate.
        - split; [exact Hb0|]. destruct (in_dec Z.eq_dec b (ptrs all)) as [|Hnp]; [assumption|].
          rewrite (ro_unref all r Hro b) in Hbn by auto. discriminate. }
      destruct Hb0 as [Hb0 Hbp].
      apply (ro_inj all r Hro a b); try assumption; [lia|congruence].
    + exfalso. eapply find_none in Ef; [|apply filter_In; split; [exact Hin|rewrite Hne; reflexivity]].
      rewrite Z.eqb_refl in Ef. discriminate.
  - rewrite (ro_missing all r Hro a Hni). reflexivity.
Qed.

(** *** A whole record *)

Definition shape_handlers (new : addr -> addr) (blks : list wblock) : list (rblock (list Z)) :=
  map (fun b => mkRB (wb_name b) (fun _ => read_shape new (wb_calls b))) blks.

Lemma find_block_in {A} (hs : list (rblock A)) h :
  NoDup (map rb_name hs) -> In h hs -> find_block (rb_name h) hs = Some h.
Proof.
  unfold find_block. induction hs as [|x hs IH]; intros Hnd Hin; [destruct Hin|].
  cbn [map find] in *. inversion Hnd as [|? ? Hni Hnd']; subst.
  destruct Hin as [->|Hin].
  - rewrite bytes_eqb_refl. reflexivity.
  - destruct (bytes_eqb (rb_name x) (rb_name h)) eqn:E.
    + apply bytes_eqb_eq in E. exfalso. apply Hni. rewrite E. apply in_map. exact Hin.
    + apply IH; assumption.
Qed.

Lemma find_block_name {A} n (hs : list (rblock A)) h : find_block n hs = Some h -> In h hs /\ rb_name h = n.
Proof. unfold find_block. intros H. apply find_some in H. destruct H as [H1 H2]. apply bytes_eqb_eq in H2. auto. Qed.

Lemma find_block_none {A} n (hs : list (rblock A)) : find_block n hs = None <-> ~ In n (map rb_name hs).
Proof.
  split.
  - intros H Hin. apply in_map_iff in Hin. destruct Hin as (h & <- & Hh).
    unfold find_block in H. eapply find_none in H; [|exact Hh]. cbv beta in H. rewrite bytes_eqb_refl in H. discriminate.
  - intros H. destruct (find_block n hs) as [h|] eqn:E; [|reflexivity].
    apply find_block_name in E. destruct E as [E1 E2]. exfalso. apply H. rewrite <- E2. apply in_map. exact E1.
Qed.

Lemma shape_blocks_read r all new hs blks : forall at_ next,
  rho_ok all r -> Forall block_ok blks -> NoDup (map rb_name hs) ->
  (forall b, In b blks -> In (mkRB (wb_name b) (fun _ => read_shape new (wb_calls b))) hs) ->
  blocks_read hs r blks (at_, next) (tags_state r new (blocks_calls blks) at_, next)
    (map (fun b => (wb_name b, map (ptrw r) (ptrs (wb_calls b)))) blks).
Proof.
  induction blks as [|b blks IH]; intros at_ next Hro Hok Hnd Hin; [apply BR_nil|].
  inversion Hok as [|? ? Hb Hbs]; subst. cbn [map].
  eapply BR_read with (h := mkRB (wb_name b) (fun _ => read_shape new (wb_calls b))).
  - exact (find_block_in hs _ Hnd (Hin b (or_introl eq_refl))).
  - apply (read_shape_reads r all); [exact Hro|apply Hb].
  - replace (tags_state r new (blocks_calls (b :: blks)) at_)
      with (tags_state r new (blocks_calls blks) (tags_state r new (wb_calls b) at_)).
    + apply IH; try assumption. intros; apply Hin; right; assumption.
    + cbn [blocks_calls flat_map]. rewrite tags_state_app. reflexivity.
Qed.

Lemma render0_blocks_le b blks : In b blks -> block_len b <= Zlen (render0 (blocks_calls blks)).
Proof.
  induction blks as [|x blks IH]; intros H; [destruct H|].
  cbn [blocks_calls flat_map]. fold (blocks_calls blks). rewrite render0_app, Zlen_app.
  pose proof (renderR_length (rho_of []) (block_calls x)) as E. rewrite block_bytes_render, block_bytes_len in E.
  pose proof (Zlen_nonneg (render0 (blocks_calls blks))). pose proof (Zlen_nonneg (render0 (block_calls x))).
  destruct H as [->|H]; [lia|]. specialize (IH H). lia.
Qed.

Definition blocks_ok (blks : list wblock) : Prop :=
  Forall (fun b => calls_ok (wb_calls b) /\ Zlen (wb_name b) < 2 ^ 31 /\ 0 <= wb_version b < 2 ^ 32) blks.

Lemma blocks_ok_fits blks : blocks_ok blks -> Zlen (render0 (blocks_calls blks)) < two32 ->
  Forall block_fits blks.
Proof.
  intros Hok Hsz. apply Forall_forall. intros b Hb. unfold blocks_ok in Hok. rewrite Forall_forall in Hok.
  destruct (Hok b Hb) as (H1 & H2 & H3). split; [|split].
  - split; [unfold small, two32; lia|exact H1].
  - pose proof (render0_blocks_le b blks Hb). lia.
  - exact H3.
Qed.

Lemma blocks_fits_ok blks : Forall block_fits blks -> Forall block_ok blks.
Proof. apply Forall_impl. intros b (H & _). exact H. Qed.

Definition record_size (name : bytes) (blks : list wblock) : Z :=
  rec_hlen name + Zlen (render0 (blocks_calls blks)).

Lemma record_links name rec_buf blks opts new next :
  valid_record_name name = true -> b_valid rec_buf = true -> b_bytes rec_buf <> [] ->
  blocks_ok blks -> NoDup (map wb_name blks) -> NoDup (blocks_tags blks) ->
  record_size name blks < two32 ->
  exists ri buf out at_ next',
    write_record name rec_buf blks opts = Ok (ri, buf) /\
    read_blocks (skipn (Z.to_nat (ri_hlen ri)) (b_bytes buf)) (shape_handlers new blks) next
      = Ok (out, at_, next') /\
    map (fun nm => (fst nm, map (reloc_ptr at_) (snd nm))) out
      = map (fun b => (wb_name b, map (target new (blocks_tags blks)) (ptrs (wb_calls b)))) blks.
Proof.
  intros Hname Hv Hne Hok Hndn Hndt Hsz.
  pose proof (rec_hlen_range name (valid_name_small name Hname)) as [Hh _].
  assert (Hfits : Forall block_fits blks) by (apply blocks_ok_fits; [exact Hok|unfold record_size in Hsz; lia]).
  pose proof (blocks_fits_ok blks Hfits) as Hbok.
  destruct (write_record_bytes name rec_buf blks opts Hname Hv Hne Hbok Hndt Hsz) as [He Hro].
  set (cs := record_calls name (set_compression opts false) blks) in *.
  assert (Hnh : NoDup (map rb_name (shape_handlers new blks))).
  { unfold shape_handlers. rewrite map_map. cbn [rb_name]. exact Hndn. }
  pose proof (shape_blocks_read (rho_of cs) cs new (shape_handlers new blks) blks [] next Hro Hbok Hnh) as Hbr.
  assert (Hin : forall b, In b blks -> In (mkRB (wb_name b) (fun _ => read_shape new (wb_calls b))) (shape_handlers new blks)).
  { intros b Hb. unfold shape_handlers. apply (in_map (fun b => mkRB (wb_name b) (fun _ => read_shape new (wb_calls b)))). exact Hb. }
  specialize (Hbr Hin).
  do 5 eexists. split; [exact He|]. split.
  - cbn [b_bytes ri_hlen]. unfold cs at 2. rewrite record_render. unfold rec_bytes.
    rewrite skipn_app_exact.
    + exact (read_blocks_spec _ _ _ _ _ _ Hbr Hfits).
    + pose proof (rec_hdr_len (set_compression opts false) (Zlen (blocks_bytes (rho_of cs) blks))
        (Zlen (blocks_bytes (rho_of cs) blks)) name) as E. unfold Zlen at 1 in E. rewrite <- E. apply Nat2Z.id.
  - rewrite map_map. cbn [fst snd]. apply map_ext_in. intros b Hb. f_equal. rewrite map_map.
    apply map_ext_in. intros a Ha.
    assert (Ht : tags cs = blocks_tags blks) by apply tags_record.
    rewrite <- Ht.
    replace (tags_state (rho_of cs) new (blocks_calls blks) []) with (tags_state (rho_of cs) new cs []).
    + apply reloc_target; [exact Hro|rewrite Ht; exact Hndt|].
      unfold cs. rewrite ptrs_record. unfold blocks_ptrs. apply in_flat_map. exists b. auto.
    + unfold cs, record_calls. rewrite tags_state_app. reflexivity.
Qed.

(** ** C04: lists of records *)

Record wrec := mkRec { rc_name : bytes; rc_opts : Z; rc_blocks : list wblock }.

Definition rec_ok (r : wrec) : Prop :=
  valid_record_name (rc_name r) = true /\ blocks_ok (rc_blocks r) /\ 0 <= rc_opts r < 2 ^ 32 /\
  NoDup (blocks_tags (rc_blocks r)) /\ record_size (rc_name r) (rc_blocks r) + 3 < two32.

(** Writing the records one after the other with one record buffer: [write_record] into the
    buffer, then to the stream. *)
Fixpoint write_recs (buf : buffer) (rs : list wrec) : Res bytes :=
  match rs with
  | [] => Ok []
  | r :: rs' =>
      do '(_, buf') <- write_record (rc_name r) buf (rc_blocks r) (rc_opts r);
      do rest <- write_recs buf' rs';
      Ok (stream_record (b_bytes buf') ++ rest)
  end.

(** Reading records until an exception ends it. *)
Fixpoint read_recs (fuel : nat) (s : ifs) (outbuf : bytes) : list (record_info * bytes) * Res unit :=
  match fuel with
  | O => ([], UB UBDiverge)
  | S n => match read_record s outbuf with
           | (Ok (ri, buf), s') => let '(l, e) := read_recs n s' buf in ((ri, buf) :: l, e)
           | (Throw e, _) => ([], Throw e)
           | (UB k, _) => ([], UB k)
           end
  end.

(** What is found in a record: name, options, and (name, version, bytes) of its blocks. *)
Definition dump_record (x : record_info * bytes) : bytes * Z * Res (list (bytes * Z * bytes)) :=
  let '(ri, buf) := x in
  let data := skipn (Z.to_nat (ri_hlen ri)) buf in
  (ri_name ri, ri_options ri,
   match read_block_infos data with
   | Ok l => Ok (map (fun i => (bi_name i, bi_version i, sub data (bi_start i + bi_hlen i) (bi_dlen i))) l)
   | Throw e => Throw e
   | UB k => UB k
   end).

(** The expected contents: data elements padded, pointers and tags as link words given by
    some assignment [r] that is consistent for the record. *)
Definition view_block (r : rho) (b : wblock) : bytes * Z * bytes :=
  (wb_name b, wb_version b, renderR r (wb_calls b)).

Lemma block_infos_spec r blks : Forall block_fits blks ->
  forall fuel pre, (length (blocks_bytes r blks) < fuel)%nat ->
  exists infos, read_block_infos_loop fuel (pre ++ blocks_bytes r blks) (Zlen pre) = Ok infos /\
    map (fun i => (bi_name i, bi_version i,
           sub (pre ++ blocks_bytes r blks) (bi_start i + bi_hlen i) (bi_dlen i))) infos
    = map (view_block r) blks.
Proof.
  induction 1 as [|b blks Hb Hbs IH]; intros fuel pre Hfuel.
  - destruct fuel; [lia|]. exists []. cbn [read_block_infos_loop blocks_bytes flat_map].
    rewrite app_nil_r, Z.leb_refl. split; reflexivity.
  - destruct fuel; [lia|]. cbn [read_block_infos_loop blocks_bytes flat_map]. fold (blocks_bytes r blks).
    pose proof (block_bytes_len r b) as Hbl. pose proof (block_len_split b) as Hsp.
    pose proof (block_hdr_len b) as Hhl.
    pose proof (Zlen_nonneg (padz (wb_name b))). pose proof (Zlen_nonneg (render0 (wb_calls b))).
    pose proof (Zlen_nonneg (blocks_bytes r blks)).
    destruct (Zlen (pre ++ block_bytes r b ++ blocks_bytes r blks) <=? Zlen pre) eqn:E0.
    { rewrite !Zlen_app, Hbl in E0. lia. }
    rewrite extract_block_spec by exact Hb. cbn [bind bi_end].
    destruct (Zlen pre + block_len b =? Zlen pre) eqn:E1; [lia|].
    destruct (IH fuel (pre ++ block_bytes r b)) as (infos & Hi & Hm).
    { cbn [blocks_bytes flat_map] in Hfuel. fold (blocks_bytes r blks) in Hfuel. rewrite app_length in Hfuel.
      unfold Zlen in *. lia. }
    rewrite Zlen_app, Hbl, <- app_assoc in Hi. rewrite Hi. cbn [bind].
    eexists. split; [reflexivity|]. cbn [map]. rewrite <- app_assoc in Hm. rewrite Hm. f_equal.
    unfold view_block. cbn [bi_name bi_version bi_start bi_hlen bi_dlen]. f_equal.
    unfold block_bytes. rewrite <- Zlen_app. rewrite !app_assoc. rewrite <- (app_assoc (pre ++ block_hdr b)).
    apply sub_mid. rewrite renderR_length. lia.
Qed.

Lemma rec_padlen_zero n : n mod 4 = 0 -> rec_padlen n = 0.
Proof.
  intros H. unfold rec_padlen. change 3 with (Z.ones 2). rewrite !Z.land_ones by lia. change (2 ^ 2) with 4.
  rewrite H. reflexivity.
Qed.

Lemma set_compression_range o : 0 <= set_compression o false < 2 ^ 32.
Proof.
  unfold set_compression. cbv zeta.
  assert (Z.land o 4294967294 = Z.land (Z.land o 4294967294) (Z.ones 32)) as ->.
  { rewrite <- Z.land_assoc. reflexivity. }
  rewrite Z.land_ones by lia. apply Z.mod_pos_bound. lia.
Qed.

Lemma is_compressed_clear o : is_compressed (set_compression o false) = false.
Proof. unfold is_compressed, set_compression. cbv zeta. rewrite Z.land_spec. apply andb_false_r. Qed.

Lemma blocks_calls_ok blks : Forall block_ok blks -> calls_ok (blocks_calls blks).
Proof.
  induction 1 as [|b blks Hb Hbs IH]; [constructor|]. cbn [blocks_calls flat_map]. apply Forall_app.
  split; [|exact IH]. constructor; [apply small_be; lia|]. apply block_body_ok. exact Hb.
Qed.

Lemma write_recs_spec rs : forall buf,
  b_valid buf = true -> b_bytes buf <> [] -> Forall rec_ok rs ->
  exists rhos, length rhos = length rs /\
    Forall2 (fun r rh => rho_ok (blocks_calls (rc_blocks r)) rh) rs rhos /\
    write_recs buf rs =
      Ok (concat (map (fun p => rec_bytes (snd p) (set_compression (rc_opts (fst p)) false)
                                  (rc_name (fst p)) (rc_blocks (fst p))) (combine rs rhos))).
Proof.
  induction rs as [|r rs IH]; intros buf Hv Hne Hok.
  - exists []. split; [reflexivity|]. split; [constructor|reflexivity].
  - inversion Hok as [|? ? (Hname & Hbok & Hopt & Hnd & Hsz) Hrs]; subst.
    pose proof (rec_hlen_range _ (valid_name_small _ Hname)) as [Hh Hh4].
    assert (Hfits : Forall block_fits (rc_blocks r)) by (apply blocks_ok_fits; [exact Hbok|unfold record_size in Hsz; lia]).
    pose proof (blocks_fits_ok _ Hfits) as Hbk.
    destruct (write_record_bytes (rc_name r) buf (rc_blocks r) (rc_opts r) Hname Hv Hne Hbk Hnd
      ltac:(unfold record_size in Hsz; lia)) as [He Hro].
    set (cs := record_calls (rc_name r) (set_compression (rc_opts r) false) (rc_blocks r)) in *.
    assert (Hlen : Zlen (renderR (rho_of cs) cs) = record_size (rc_name r) (rc_blocks r)).
    { rewrite renderR_length. unfold cs, record_calls. rewrite render0_app, Zlen_app, hdr_len. reflexivity. }
    destruct (IH (mkBuffer (renderR (rho_of cs) cs) true)) as (rhos & Hl & HF & Hw).
    + reflexivity.
    + cbn [b_bytes]. intros Hn. rewrite Hn in Hlen. change (Zlen (@nil byte)) with 0 in Hlen.
      unfold record_size in Hlen. pose proof (Zlen_nonneg (render0 (blocks_calls (rc_blocks r)))). lia.
    + exact Hrs.
    + exists (rho_of cs :: rhos). cbn [length combine map concat fst snd]. split; [congruence|]. split.
      * constructor; [|exact HF].
        destruct Hro as [R1 R2 R3 R4 R5 R6]. unfold cs in R2, R3, R4, R5 at 1 2 3 4.
        rewrite tags_record, ptrs_record in *. rewrite <- tags_blocks, <- ptrs_blocks in *.
        constructor; assumption.
      * cbn [write_recs]. rewrite He. cbn [bind]. rewrite Hw. cbn [bind]. f_equal. f_equal.
        unfold stream_record. cbn [b_bytes]. unfold cs at 2. rewrite record_render.
        rewrite rec_padlen_zero.
        { cbn [Z.to_nat zeros repeat]. apply app_nil_r. }
        rewrite Hlen. unfold record_size.
        pose proof (render0_mod4 _ (blocks_calls_ok _ Hbk)). lia.
Qed.

Definition view_rec (p : wrec * rho) : bytes * Z * Res (list (bytes * Z * bytes)) :=
  (rc_name (fst p), set_compression (rc_opts (fst p)) false,
   Ok (map (view_block (snd p)) (rc_blocks (fst p)))).

Lemma dump_rec_bytes a e h o d u n r blks :
  Zlen (rec_hdr o d u n) = h -> Forall block_fits blks ->
  dump_record (mkRI a e h o d u n, rec_hdr o d u n ++ blocks_bytes r blks)
  = (n, o, Ok (map (view_block r) blks)).
Proof.
  intros Hh Hf. unfold dump_record. cbn [ri_hlen ri_name ri_options].
  rewrite skipn_app_exact by (rewrite <- Hh; unfold Zlen; apply Nat2Z.id). cbv zeta.
  destruct (block_infos_spec r blks Hf (S (length (blocks_bytes r blks))) [] (Nat.lt_succ_diag_r _))
    as (infos & Hi & Hm).
  cbn [app] in Hi, Hm. change (Zlen []) with 0 in Hi.
  unfold read_block_infos. rewrite Hi. rewrite Hm. reflexivity.
Qed.

Lemma read_recs_S n s outbuf : read_recs (S n) s outbuf =
  match read_record s outbuf with
  | (Ok (ri, buf), s') => let '(l, e) := read_recs n s' buf in ((ri, buf) :: l, e)
  | (Throw e, _) => ([], Throw e)
  | (UB k, _) => ([], UB k)
  end.
Proof. reflexivity. Qed.

Lemma read_recs_spec rs : forall rhos pre outbuf,
  Forall rec_ok rs -> length rhos = length rs -> Zlen pre mod 4 = 0 ->
  let file := concat (map (fun p => rec_bytes (snd p) (set_compression (rc_opts (fst p)) false)
                                  (rc_name (fst p)) (rc_blocks (fst p))) (combine rs rhos)) in
  exists l, read_recs (S (length rs)) (at_pos (pre ++ file) (Zlen pre)) outbuf = (l, Throw EEof) /\
    map dump_record l = map view_rec (combine rs rhos) /\
    Forall (fun x => ri_start (fst x) mod 4 = 0) l.
Proof.
  induction rs as [|r rs IH]; intros rhos pre outbuf Hok Hl Hp.
  - exists []. cbn [combine map concat length read_recs]. rewrite app_nil_r.
    rewrite read_record_at_end by (pose proof (Zlen_nonneg pre); lia).
    split; [reflexivity|]. split; [reflexivity|constructor].
  - destruct rhos as [|rh rhos]; [discriminate|].
    inversion Hok as [|? ? (Hname & Hbok & Hopt & Hnd & Hsz) Hrs]; subst.
    pose proof (rec_hlen_range _ (valid_name_small _ Hname)) as [Hh Hh4].
    assert (Hfits : Forall block_fits (rc_blocks r)) by (apply blocks_ok_fits; [exact Hbok|unfold record_size in Hsz; lia]).
    pose proof (blocks_fits_ok _ Hfits) as Hbk.
    cbn [combine map concat fst snd]. cbv zeta.
    set (file := concat _).
    set (o := set_compression (rc_opts r) false).
    unfold rec_bytes. set (d := Zlen (blocks_bytes rh (rc_blocks r))).
    assert (Hd : d = Zlen (render0 (blocks_calls (rc_blocks r)))) by apply blocks_bytes_len.
    assert (Hhf : hdr_fits o d d (rc_name r)).
    { unfold hdr_fits, is_u32, record_size in *. pose proof (Zlen_nonneg (render0 (blocks_calls (rc_blocks r)))).
      repeat split; try lia; try apply set_compression_range. apply valid_name_small. exact Hname. }
    cbn [length]. rewrite read_recs_S.
    rewrite (read_record_spec pre o d d (rc_name r) _ file outbuf Hhf eq_refl).
    assert (Hpad : rec_pad o d = 0) by (unfold rec_pad, o; rewrite is_compressed_clear; reflexivity).
    rewrite Hpad, Z.add_0_r.
    set (full := rec_hdr o d d (rc_name r) ++ blocks_bytes rh (rc_blocks r)).
    assert (Hfull : Zlen full = rec_hlen (rc_name r) + d).
    { unfold full. rewrite Zlen_app, rec_hdr_len. reflexivity. }
    destruct (IH rhos (pre ++ full) full Hrs) as (l & Hr & Hm & Hal).
    + injection Hl as Hl. exact Hl.
    + rewrite Zlen_app, Hfull. pose proof (render0_mod4 _ (blocks_calls_ok _ Hbk)). lia.
    + fold file in Hr. rewrite Zlen_app, Hfull, Z.add_assoc, <- app_assoc in Hr.
      rewrite Hr.
      eexists. split; [reflexivity|]. split.
      * cbn [map]. rewrite Hm. f_equal. unfold full.
        rewrite dump_rec_bytes by (try apply rec_hdr_len; exact Hfits). reflexivity.
      * constructor; [exact Hp|exact Hal].
Qed.

Lemma records_roundtrip buf rs outbuf :
  b_valid buf = true -> b_bytes buf <> [] -> Forall rec_ok rs ->
  exists file rhos l,
    write_recs buf rs = Ok file /\
    Forall2 (fun r rh => rho_ok (blocks_calls (rc_blocks r)) rh) rs rhos /\
    read_recs (S (length rs)) (open_ifs file) outbuf = (l, Throw EEof) /\
    map dump_record l = map view_rec (combine rs rhos) /\
    Forall (fun x => ri_start (fst x) mod 4 = 0) l.
Proof.
  intros Hv Hne Hok.
  destruct (write_recs_spec rs buf Hv Hne Hok) as (rhos & Hl & HF & Hw).
  destruct (read_recs_spec rs rhos [] outbuf Hok Hl eq_refl) as (l & Hr & Hm & Hal).
  do 3 eexists. split; [exact Hw|]. split; [exact HF|]. split; [exact Hr|]. auto.
Qed.

(** ** C05: dispatch of blocks *)

(** What a set of handlers with different names gets from stored blocks: block by block, a
    handler of that name reads the version and the bytes of the block, from the state left by
    the previous one; a block without handler changes nothing. *)
Inductive delivered {A} (handlers : list (rblock A)) :
  list (bytes * Z * bytes) -> rst -> rst -> list (bytes * A) -> Prop :=
| Del_nil : forall st, delivered handlers [] st st []
| Del_none : forall n v bs rest st st' out,
    (forall h, In h handlers -> rb_name h <> n) ->
    delivered handlers rest st st' out ->
    delivered handlers ((n, v, bs) :: rest) st st' out
| Del_some : forall n v bs rest h st at1 next1 st' a cur out,
    In h handlers -> rb_name h = n ->
    (* the handler is run on a device that holds exactly the bytes of the block behind some
       header *)
    (forall hdr, rb_read h v (mkR (hdr ++ bs) (Zlen hdr) (fst st) (snd st))
                 = Ok (a, mkR (hdr ++ bs) (Zlen hdr + cur) at1 next1)) ->
    delivered handlers rest (at1, next1) st' out ->
    delivered handlers ((n, v, bs) :: rest) st st' ((n, a) :: out).

Lemma read_blocks_delivered {A} (handlers : list (rblock A)) r blks st st' out :
  NoDup (map rb_name handlers) -> Forall block_fits blks ->
  delivered handlers (map (view_block r) blks) st st' out ->
  forall fuel pre, (length (blocks_bytes r blks) < fuel)%nat ->
  read_blocks_loop fuel (pre ++ blocks_bytes r blks) handlers (Zlen pre) (fst st) (snd st)
  = Ok (out, fst st', snd st').
Proof.
  intros Hnd Hfit. revert st out. induction blks as [|b bs IH]; intros st out Hdel fuel pre Hfuel.
  - inversion Hdel; subst. destruct fuel; [cbn in Hfuel; lia|]. cbn [read_blocks_loop blocks_bytes flat_map].
    rewrite app_nil_r, Z.leb_refl. reflexivity.
  - inversion Hfit as [|? ? Hb Hrest]; subst. specialize (IH Hrest).
    destruct fuel; [lia|]. cbn [read_blocks_loop blocks_bytes flat_map]. fold (blocks_bytes r bs).
    pose proof (block_bytes_len r b) as Hbl. pose proof (block_len_split b) as Hsp.
    pose proof (block_hdr_len b) as Hhl.
    pose proof (Zlen_nonneg (padz (wb_name b))). pose proof (Zlen_nonneg (render0 (wb_calls b))).
    pose proof (Zlen_nonneg (blocks_bytes r bs)).
    destruct (Zlen (pre ++ block_bytes r b ++ blocks_bytes r bs) <=? Zlen pre) eqn:E0.
    { rewrite !Zlen_app, Hbl in E0. lia. }
    rewrite extract_block_spec by exact Hb. cbn [bind bi_end bi_name bi_hlen bi_version].
    destruct (Zlen pre + block_len b =? Zlen pre) eqn:E1; [lia|].
    assert (Hfu : (length (blocks_bytes r bs) < fuel)%nat).
    { cbn [blocks_bytes flat_map] in Hfuel. fold (blocks_bytes r bs) in Hfuel. rewrite app_length in Hfuel.
      unfold Zlen in *. lia. }
    cbn [map view_block] in Hdel. unfold view_block at 1 in Hdel.
    inversion Hdel as [|? ? ? ? ? ? ? Hno Hd'|? ? ? ? h ? at1 next1 ? a cur out' Hin Hnm Hrun Hd']; subst.
    + replace (find_block (wb_name b) handlers) with (@None (rblock A)).
      * specialize (IH _ _ Hd' fuel (pre ++ block_bytes r b) Hfu).
        rewrite Zlen_app, Hbl, <- app_assoc in IH. exact IH.
      * symmetry. apply find_block_none. intros Hin. apply in_map_iff in Hin. destruct Hin as (h & Hh & Hi).
        exact (Hno h Hi Hh).
    + rewrite <- Hnm. rewrite (find_block_in handlers h Hnd Hin). rewrite Hnm.
      unfold r_seek. cbn [r_buf r_cur r_at r_next].
      destruct (Zlen (block_bytes r b) <? Zlen (block_hdr b)) eqn:E2; [lia|]. cbn [bind].
      specialize (Hrun (block_hdr b)). fold (block_bytes r b) in Hrun.
      rewrite Hrun. cbn [rethrow bind r_at r_next].
      specialize (IH _ _ Hd' fuel (pre ++ block_bytes r b) Hfu). cbn [fst snd] in IH.
      rewrite Zlen_app, Hbl, <- app_assoc in IH. rewrite IH. reflexivity.
Qed.

Lemma dispatch_spec {A} (handlers : list (rblock A)) r blks next st' out :
  NoDup (map rb_name handlers) -> blocks_ok blks -> Zlen (render0 (blocks_calls blks)) < two32 ->
  delivered handlers (map (view_block r) blks) ([], next) st' out ->
  read_blocks (blocks_bytes r blks) handlers next = Ok (out, fst st', snd st').
Proof.
  intros Hnd Hok Hsz Hdel. unfold read_blocks.
  exact (read_blocks_delivered handlers r blks _ _ _ Hnd (blocks_ok_fits _ Hok Hsz) Hdel _ [] (Nat.lt_succ_diag_r _)).
Qed.

Lemma find_block_perm {A} n (h1 h2 : list (rblock A)) :
  NoDup (map rb_name h1) -> Permutation h1 h2 -> find_block n h1 = find_block n h2.
Proof.
  intros Hnd Hp.
  assert (Hnd2 : NoDup (map rb_name h2)) by (eapply Permutation_NoDup; [apply Permutation_map; exact Hp|exact Hnd]).
  destruct (find_block n h1) as [h|] eqn:E1.
  - apply find_block_name in E1. destruct E1 as [Hin <-]. symmetry. apply find_block_in; [exact Hnd2|].
    eapply Permutation_in; eassumption.
  - symmetry. apply find_block_none. apply find_block_none in E1. intros H. apply E1.
    eapply Permutation_in; [apply Permutation_sym, Permutation_map; exact Hp|exact H].
Qed.

Lemma read_blocks_loop_perm {A} (h1 h2 : list (rblock A)) : NoDup (map rb_name h1) -> Permutation h1 h2 ->
  forall fuel buf pos at_ next,
  read_blocks_loop fuel buf h1 pos at_ next = read_blocks_loop fuel buf h2 pos at_ next.
Proof.
  intros Hnd Hp. induction fuel as [|n IH]; intros buf pos at_ next; [reflexivity|].
  cbn [read_blocks_loop]. destruct (Zlen buf <=? pos); [reflexivity|].
  destruct (extract_block buf pos) as [[info sp]| |]; cbn [bind]; [|reflexivity|reflexivity].
  rewrite <- (find_block_perm (bi_name info) h1 h2 Hnd Hp).
  destruct (find_block (bi_name info) h1) as [h|]; [|rewrite IH; reflexivity].
  destruct (r_seek (bi_hlen info) _) as [[u d]| |]; cbn [bind]; [|reflexivity|reflexivity].
  destruct (rethrow _ _) as [[a d']| |]; cbn [bind]; [|reflexivity|reflexivity].
  rewrite IH. reflexivity.
Qed.

(** For arbitrary bytes, not only for what the writer produced. *)
Lemma read_blocks_perm {A} (h1 h2 : list (rblock A)) buf next :
  NoDup (map rb_name h1) -> Permutation h1 h2 -> read_blocks buf h1 next = read_blocks buf h2 next.
Proof. intros Hnd Hp. apply read_blocks_loop_perm; assumption. Qed.

(** * Reading back what was written *)

From Verif Require Import Bytes SioModel SioProofs SioRecord.

(** State of the device besides the buffer: the table of tags and the address supply. *)
Definition rst : Type := (list (Z * addr) * addr)%type.

(** [reads m bs st st' a]: wherever the bytes [bs] stand in the span, [m] consumes exactly
    these bytes, returns [a] and changes the state from [st] to [st']. *)
Definition reads {A} (m : RD A) (bs : bytes) (st st' : rst) (a : A) : Prop :=
  forall pre post,
    m (mkR (pre ++ bs ++ post) (Zlen pre) (fst st) (snd st))
    = Ok (a, mkR (pre ++ bs ++ post) (Zlen pre + Zlen bs) (fst st') (snd st')).

Lemma reads_ret {A} (a : A) st : reads (rret a) [] st st a.
Proof. intros pre post. unfold rret. change (Zlen []) with 0. rewrite Z.add_0_r. reflexivity. Qed.

Lemma reads_bind {A B} (m : RD A) (f : A -> RD B) b1 b2 st st1 st2 a b :
  reads m b1 st st1 a -> reads (f a) b2 st1 st2 b -> reads (rbind m f) (b1 ++ b2) st st2 b.
Proof.
  intros H1 H2 pre post. unfold rbind.
  pose proof (H1 pre (b2 ++ post)) as E1. rewrite <- app_assoc. rewrite E1.
  pose proof (H2 (pre ++ b1) post) as E2. rewrite Zlen_app in E2. rewrite <- app_assoc in E2. rewrite E2.
  rewrite Zlen_app, Z.add_assoc. reflexivity.
Qed.

(** Variant with the remaining bytes equal up to a proof. *)
Lemma reads_bind_eq {A B} (m : RD A) (f : A -> RD B) b1 b2 bs st st1 st2 a b :
  bs = b1 ++ b2 -> reads m b1 st st1 a -> reads (f a) b2 st1 st2 b -> reads (rbind m f) bs st st2 b.
Proof. intros ->. apply reads_bind. Qed.

Lemma reads_map {A B} (m : RD A) (f : A -> B) bs st st' a :
  reads m bs st st' a -> reads (let* x := m in rret (f x)) bs st st' (f a).
Proof.
  intros H. rewrite <- (app_nil_r bs). eapply reads_bind; [exact H|]. apply reads_ret.
Qed.

Lemma reads_data bs st : small bs -> reads (r_data (Zlen bs)) (padz bs) st st bs.
Proof.
  intros Hs pre post. unfold r_data, api_read. cbn [r_buf r_cur r_at r_next].
  rewrite padlen_Zlen by exact Hs. rewrite !Zlen_app.
  pose proof (Zlen_nonneg post). pose proof (Zlen_nonneg pre).
  assert (Zlen bs <= Zlen (padz bs)).
  { rewrite Zlen_padz by exact Hs. pose proof (pad4_ge (Zlen bs)). lia. }
  destruct (_ <? _) eqn:E1; [lia|]. destruct (_ <? Zlen pre + Zlen bs) eqn:E2; [lia|].
  f_equal. f_equal. unfold padz. rewrite <- !app_assoc. apply sub_mid. reflexivity.
Qed.

Lemma reads_be n z st : (n < 1000)%nat ->
  reads (r_data (Z.of_nat n)) (padz (be n z)) st st (be n z).
Proof.
  intros H. pose proof (reads_data (be n z) st (small_be n z H)) as R. rewrite Zlen_be in R. exact R.
Qed.

Lemma reads_u32 z st : is_u32 z -> reads r_u32 (be 4 z) st st z.
Proof.
  intros Hz. unfold r_u32. rewrite <- (app_nil_r (be 4 z)).
  eapply reads_bind.
  - pose proof (reads_be 4 z st ltac:(lia)) as R. rewrite padz_be4 in R. exact R.
  - rewrite unbe_be. rewrite Z.mod_small by exact Hz. apply reads_ret.
Qed.
Lemma reads_f32 z st : is_u32 z -> reads r_f32 (be 4 z) st st z.
Proof. exact (reads_u32 z st). Qed.
Lemma reads_i32 z st : is_i32 z -> reads r_i32 (be 4 z) st st z.
Proof.
  intros Hz. unfold r_i32. rewrite <- (app_nil_r (be 4 z)).
  eapply reads_bind.
  - pose proof (reads_be 4 z st ltac:(lia)) as R. rewrite padz_be4 in R. exact R.
  - rewrite unbe_be. change (256 ^ Z.of_nat 4) with two32. rewrite s32_mod.
    rewrite s32_id by exact Hz. apply reads_ret.
Qed.
Lemma reads_i64 z st : is_i64 z -> reads r_i64 (be 8 z) st st z.
Proof.
  intros Hz. unfold r_i64. rewrite <- (app_nil_r (be 8 z)).
  eapply reads_bind.
  - pose proof (reads_be 8 z st ltac:(lia)) as R. rewrite padz_be8 in R. exact R.
  - rewrite unbe_be. change (256 ^ Z.of_nat 8) with two64. rewrite s64_mod.
    rewrite s64_id by exact Hz. apply reads_ret.
Qed.
Lemma reads_f64 z st : is_u64 z -> reads r_f64 (be 8 z) st st z.
Proof.
  intros Hz. unfold r_f64. rewrite <- (app_nil_r (be 8 z)).
  eapply reads_bind.
  - pose proof (reads_be 8 z st ltac:(lia)) as R. rewrite padz_be8 in R. exact R.
  - rewrite unbe_be. rewrite Z.mod_small by exact Hz. apply reads_ret.
Qed.
Lemma reads_i16 z st : is_i16 z -> reads r_i16 (padz (be 2 z)) st st z.
Proof.
  intros Hz. unfold r_i16. rewrite <- (app_nil_r (padz (be 2 z))).
  eapply reads_bind; [apply (reads_be 2 z st ltac:(lia))|].
  rewrite unbe_be. change (256 ^ Z.of_nat 2) with two16. rewrite s16_mod.
  rewrite s16_id by exact Hz. apply reads_ret.
Qed.
Lemma reads_u8 z st : is_u8 z -> reads r_u8 (padz (be 1 z)) st st z.
Proof.
  intros Hz. unfold r_u8. rewrite <- (app_nil_r (padz (be 1 z))).
  eapply reads_bind; [apply (reads_be 1 z st ltac:(lia))|].
  rewrite unbe_be. rewrite Z.mod_small by exact Hz. apply reads_ret.
Qed.

(** Arrays *)
Lemma enc_elems_length n l : Zlen (enc_elems n l) = Z.of_nat n * Zlen l.
Proof.
  induction l as [|z l IH]; cbn [enc_elems flat_map].
  - change (Zlen (@nil Z)) with 0. change (Zlen (@nil byte)) with 0. lia.
  - fold (enc_elems n l). rewrite Zlen_app, Zlen_be, IH, Zlen_cons. lia.
Qed.

Lemma dec_enc n l : dec_elems n (length l) (enc_elems n l) = map (fun z => z mod 256 ^ Z.of_nat n) l.
Proof.
  induction l as [|z l IH]; [reflexivity|].
  cbn [length dec_elems enc_elems flat_map map]. fold (enc_elems n l).
  rewrite firstn_app_exact by (rewrite be_length; reflexivity).
  rewrite skipn_app_exact by (rewrite be_length; reflexivity).
  rewrite unbe_be, IH. reflexivity.
Qed.

Lemma map_id_in {A} (f : A -> A) (P : A -> Prop) l :
  (forall x, P x -> f x = x) -> Forall P l -> map f l = l.
Proof. intros H HF. induction HF as [|x l Hx HF IH]; cbn; [reflexivity|]. rewrite H, IH; auto. Qed.

Lemma reads_arr n l st : small (enc_elems n l) ->
  reads (r_arr n (Zlen l)) (padz (enc_elems n l)) st st (map (fun z => z mod 256 ^ Z.of_nat n) l).
Proof.
  intros Hs. unfold r_arr. rewrite <- (enc_elems_length n l).
  rewrite <- (app_nil_r (padz (enc_elems n l))).
  eapply reads_bind; [apply reads_data; exact Hs|].
  unfold Zlen at 1. rewrite Nat2Z.id, dec_enc. apply reads_ret.
Qed.

Definition words_ok (n : nat) (l : list Z) : Prop := Forall (fun z => 0 <= z < 256 ^ Z.of_nat n) l.

Lemma map_mod_id n l : words_ok n l -> map (fun z => z mod 256 ^ Z.of_nat n) l = l.
Proof. apply map_id_in. intros x Hx. apply Z.mod_small. exact Hx. Qed.

Lemma reads_arr_id n l st : small (enc_elems n l) -> words_ok n l ->
  reads (r_arr n (Zlen l)) (padz (enc_elems n l)) st st l.
Proof. intros Hs Hw. rewrite <- (map_mod_id n l Hw) at 3. apply reads_arr. exact Hs. Qed.

Lemma padz_enc n l : Z.of_nat n mod 4 = 0 -> small (enc_elems n l) -> padz (enc_elems n l) = enc_elems n l.
Proof.
  intros Hn Hs. unfold padz. rewrite padlen_Zlen by exact Hs. rewrite Zlen_padz by exact Hs.
  rewrite pad4_id; [rewrite Z.sub_diag; apply app_nil_r|].
  rewrite enc_elems_length. rewrite <- Zmult_mod_idemp_l, Hn. reflexivity.
Qed.

(** Strings and vectors *)
Definition len31 {A} (l : list A) : Prop := Zlen l < two31.

Lemma s32_len {A} (l : list A) : len31 l -> s32 (Zlen l) = Zlen l /\ is_i32 (Zlen l).
Proof.
  intros H. pose proof (Zlen_nonneg l). unfold len31 in H.
  assert (is_i32 (Zlen l)) by (unfold is_i32; lia). split; [apply s32_id|]; assumption.
Qed.

Lemma len31_small (s : bytes) : len31 s -> small s.
Proof. unfold len31, small, two31, two32. lia. Qed.

Lemma reads_string s r st : len31 s -> reads r_string (renderR r (w_string s)) st st s.
Proof.
  intros H. destruct (s32_len s H) as [E R]. unfold r_string, w_string.
  cbn [renderR flat_map renderR_call]. rewrite padz_be4, E.
  eapply reads_bind; [apply reads_i32; exact R|].
  destruct (Zlen s <? 0) eqn:El; [pose proof (Zlen_nonneg s); lia|].
  rewrite app_nil_r. apply reads_data. apply len31_small. exact H.
Qed.

Lemma reads_vec n l old r st : len31 l -> small (enc_elems n l) -> words_ok n l -> l <> [] \/ old = [] ->
  reads (r_vec n old) (renderR r (w_vec n l)) st st l.
Proof.
  intros Hl Hs Hw Ho. destruct (s32_len l Hl) as [E R]. unfold r_vec, w_vec.
  cbn [renderR flat_map renderR_call]. rewrite padz_be4, E.
  eapply reads_bind; [apply reads_i32; exact R|].
  destruct l as [|z l].
  - destruct Ho as [Ho|Ho]; [congruence|]. subst old. apply reads_ret.
  - rewrite Zlen_cons. pose proof (Zlen_nonneg l).
    destruct (0 <? 1 + Zlen l) eqn:E1; [|lia]. destruct (1 + Zlen l =? 0) eqn:E2; [lia|].
    cbn [flat_map renderR_call]. rewrite app_nil_r. rewrite <- (Zlen_cons z l).
    apply reads_arr_id; assumption.
Qed.

Lemma reads_repeat {A} (m : RD A) (enc : A -> bytes) l st :
  (forall x, In x l -> reads m (enc x) st st x) ->
  reads (r_repeat (length l) m) (flat_map enc l) st st l.
Proof.
  induction l as [|x l IH]; intros H; [apply reads_ret|].
  cbn [length r_repeat flat_map].
  eapply reads_bind; [apply H; left; reflexivity|].
  rewrite <- (app_nil_r (flat_map enc l)).
  eapply reads_bind; [apply IH; intros; apply H; right; assumption|]. apply reads_ret.
Qed.

Lemma renderR_flat_map {A} r (f : A -> list dcall) l :
  renderR r (flat_map f l) = flat_map (fun x => renderR r (f x)) l.
Proof. induction l as [|x l IH]; [reflexivity|]. cbn [flat_map]. rewrite renderR_app, IH. reflexivity. Qed.

Lemma reads_strings l old r st : len31 l -> Forall len31 l -> l <> [] \/ old = [] ->
  reads (r_strings old) (renderR r (w_strings l)) st st l.
Proof.
  intros Hl Hs Ho. destruct (s32_len l Hl) as [E R]. unfold r_strings, w_strings.
  change (DData (be 4 (s32 (Zlen l))) :: flat_map w_string l)
    with ([DData (be 4 (s32 (Zlen l)))] ++ flat_map w_string l).
  rewrite renderR_app. cbn [renderR flat_map renderR_call]. rewrite padz_be4, E, app_nil_r.
  eapply reads_bind; [apply reads_i32; exact R|].
  destruct l as [|z l].
  - destruct Ho as [Ho|Ho]; [congruence|]. subst old. apply reads_ret.
  - destruct (0 <? Zlen (z :: l)) eqn:E1; [|rewrite Zlen_cons in E1; pose proof (Zlen_nonneg l); lia].
    unfold Zlen. rewrite Nat2Z.id. fold (renderR r (flat_map w_string (z :: l))). rewrite renderR_flat_map.
    apply reads_repeat. intros x Hx. apply reads_string.
    rewrite Forall_forall in Hs. apply Hs. exact Hx.
Qed.

(** Pointers and tags *)
Lemma reads_pointer r cs a st : rho_ok cs r -> reads r_pointer_to (renderR r [DPtr a]) st st (ptrw r a).
Proof.
  intros H. cbn [renderR flat_map renderR_call]. rewrite app_nil_r.
  apply reads_u32. apply (ro_range cs r H a).
Qed.

Definition tag_state (r : rho) (a na : addr) (st : rst) : rst :=
  (if tagw r a =? 4294967295 then fst st else map_insert (tagw r a) na (fst st), snd st).

Lemma reads_tag r cs a na st : rho_ok cs r ->
  reads (r_pointed_at na) (renderR r [DTag a]) st (tag_state r a na st) tt.
Proof.
  intros H. cbn [renderR flat_map renderR_call]. rewrite app_nil_r. intros pre post.
  unfold r_pointed_at. rewrite (reads_u32 (tagw r a) st (proj1 (ro_range cs r H a)) pre post).
  unfold tag_state. destruct (tagw r a =? 4294967295); reflexivity.
Qed.

Lemma reads_new st : reads r_new [] st (fst st, snd st + 1) (snd st).
Proof. intros pre post. unfold r_new. change (Zlen []) with 0. rewrite Z.add_0_r. reflexivity. Qed.

(** * The layout of the records: proofs *)

From Verif Require Import Bytes StrMap SioModel SioProofs SioRecord SioRead SioFrame SioSpec Ieee ObjModel ObjSpec
  ObjProofs ObjCalls CollSpec CollProofs ListFacts EventModel EventSpec EventProofs EventFacts LayoutSpec.

(** ** Numbers *)

Lemma big_be n z : big n z = be n z.
Proof.
  unfold big. induction n as [|n IH]; [reflexivity|].
  cbn [seq map be]. f_equal.
  - f_equal. rewrite Z.shiftr_div_pow2 by lia. f_equal.
    replace (Z.of_nat (S n) - 1 - Z.of_nat 0) with (Z.of_nat n) by lia.
    rewrite Z.pow_mul_r by lia. reflexivity.
  - rewrite <- IH. rewrite <- seq_shift, map_map. apply map_ext. intros i.
    f_equal. f_equal. f_equal. lia.
Qed.

Lemma filled4_pad bs : small bs -> padz bs = filled4 bs.
Proof.
  intros H. rewrite padz_pad_bytes by exact H. unfold pad_bytes, filled4. f_equal. f_equal. f_equal.
  pose proof (Zlen_nonneg bs). Z.div_mod_to_equations. lia.
Qed.

(** ** Fields under the words of a device *)

Definition rfield (r : rho) (f : field) : bytes :=
  match f with
  | Id a => big 4 (tagw r a)
  | Ref a => big 4 (ptrw r a)
  | _ => field_bytes (fun _ => None) f
  end.
Definition rlay (r : rho) (fs : list field) : bytes := flat_map (rfield r) fs.
Definition ids (fs : list field) : list addr := flat_map (fun f => match f with Id a => [a] | _ => [] end) fs.
Definition targets (fs : list field) : list addr := flat_map (fun f => match f with Ref a => [a] | _ => [] end) fs.

Record gives (cs : list dcall) (fs : list field) : Prop := mkGives {
  g_bytes : forall r, renderR r cs = rlay r fs;
  g_tags : tags cs = ids fs;
  g_ptrs : ptrs cs = targets fs }.

Lemma g_nil : gives [] []. Proof. constructor; reflexivity. Qed.
Lemma g_app a b c d : gives a c -> gives b d -> gives (a ++ b) (c ++ d).
Proof.
  intros [A1 A2 A3] [B1 B2 B3]. constructor.
  - intros r. unfold rlay. rewrite renderR_app, flat_map_app, A1, B1. reflexivity.
  - unfold ids. rewrite tags_app, flat_map_app, A2, B2. reflexivity.
  - unfold targets. rewrite ptrs_app, flat_map_app, A3, B3. reflexivity.
Qed.
Lemma g_end cs fs : gives (cs ++ []) (fs ++ []) -> gives cs fs.
Proof. rewrite !app_nil_r. exact (fun H => H). Qed.

Lemma g_data bs fs : ids fs = [] -> targets fs = [] -> (forall r, rlay r fs = padz bs) -> gives [DData bs] fs.
Proof.
  intros H1 H2 H3. constructor; [|symmetry; exact H1|symmetry; exact H2].
  intros r. rewrite H3. cbn [renderR flat_map renderR_call]. apply app_nil_r.
Qed.
Lemma g_word z : gives [DData (be 4 z)] [Word z].
Proof.
  apply g_data; [reflexivity|reflexivity|]. intros r. rewrite padz_be4.
  unfold rlay. cbn [flat_map rfield field_bytes]. rewrite app_nil_r. apply big_be.
Qed.
Lemma g_i32 z : gives (w_i32 z) (one Word z). Proof. exact (g_word z). Qed.
Lemma g_f32 z : gives (w_f32 z) (one Word z). Proof. exact (g_word z). Qed.
Lemma padz_be8 z : padz (be 8 z) = be 8 z.
Proof. rewrite filled4_pad by (apply small_be; lia). unfold filled4. rewrite Zlen_be. cbn. reflexivity. Qed.
Lemma g_long z : gives [DData (be 8 z)] [Long z].
Proof.
  apply g_data; [reflexivity|reflexivity|]. intros r. rewrite padz_be8.
  unfold rlay. cbn [flat_map rfield field_bytes]. rewrite app_nil_r. apply big_be.
Qed.
Lemma g_f64 z : gives (w_f64 z) (one Long z). Proof. exact (g_long z). Qed.
Lemma g_octet z : gives [DData (be 1 z)] [Octet z].
Proof.
  apply g_data; [reflexivity|reflexivity|]. intros r. rewrite filled4_pad by (apply small_be; lia).
  unfold rlay. cbn [flat_map rfield field_bytes]. rewrite app_nil_r, big_be. reflexivity.
Qed.
Lemma g_tag a : gives [DTag a] [Id a].
Proof. constructor; try reflexivity. intros r. unfold rlay. cbn [renderR renderR_call flat_map rfield]. rewrite big_be. reflexivity. Qed.
Lemma g_ptr a : gives [DPtr a] [Ref a].
Proof. constructor; try reflexivity. intros r. unfold rlay. cbn [renderR renderR_call flat_map rfield]. rewrite big_be. reflexivity. Qed.
Lemma g_chars s : small s -> gives [DData s] [Text s].
Proof.
  intros H. apply g_data; [reflexivity|reflexivity|]. intros r. rewrite filled4_pad by exact H.
  unfold rlay. cbn [flat_map rfield field_bytes]. apply app_nil_r.
Qed.

Lemma ids_map (f : Z -> field) l : (forall x, ids [f x] = []) -> ids (map f l) = [].
Proof.
  intros H. induction l as [|x l IH]; [reflexivity|]. cbn [map]. change (f x :: map f l) with ([f x] ++ map f l).
  unfold ids in *. rewrite flat_map_app, IH, app_nil_r. apply H.
Qed.
Lemma targets_map (f : Z -> field) l : (forall x, targets [f x] = []) -> targets (map f l) = [].
Proof.
  intros H. induction l as [|x l IH]; [reflexivity|]. cbn [map]. change (f x :: map f l) with ([f x] ++ map f l).
  unfold targets in *. rewrite flat_map_app, IH, app_nil_r. apply H.
Qed.

Lemma enc_len n l : Zlen (enc_elems n l) = Z.of_nat n * Zlen l.
Proof.
  induction l as [|x l IH]; [unfold enc_elems, Zlen; cbn; lia|].
  cbn [enc_elems flat_map]. fold (enc_elems n l). rewrite Zlen_app, IH, Zlen_be, Zlen_cons. lia.
Qed.
Lemma padz_mult bs : small bs -> Zlen bs mod 4 = 0 -> padz bs = bs.
Proof.
  intros H1 H2. rewrite filled4_pad by exact H1. unfold filled4.
  replace ((- Zlen bs) mod 4) with 0; [apply app_nil_r|]. Z.div_mod_to_equations. lia.
Qed.
Lemma vec_small' n (l : list Z) : (n <= 8)%nat -> vec_len l -> small (enc_elems n l).
Proof. intros H1 H2. apply vec_small; assumption. Qed.

Lemma g_arr4 l : vec_len l -> gives (w_arr 4 l) (map Word l).
Proof.
  intros H. apply g_data; [apply ids_map; reflexivity|apply targets_map; reflexivity|]. intros r.
  rewrite padz_mult; [|apply vec_small'; [lia|exact H]|].
  2:{ rewrite enc_len. change (Z.of_nat 4) with 4. rewrite Z.mul_comm. apply Z.mod_mul. lia. }
  unfold rlay, enc_elems. induction l as [|x l IH]; [reflexivity|].
  cbn [map flat_map rfield field_bytes]. rewrite big_be. f_equal. apply IH.
  unfold vec_len in *. rewrite Zlen_cons in H. lia.
Qed.
Lemma g_arr8 l : vec_len l -> gives (w_arr 8 l) (map Long l).
Proof.
  intros H. apply g_data; [apply ids_map; reflexivity|apply targets_map; reflexivity|]. intros r.
  rewrite padz_mult; [|apply vec_small'; [lia|exact H]|].
  2:{ rewrite enc_len. change (Z.of_nat 8) with 8. Z.div_mod_to_equations. lia. }
  unfold rlay, enc_elems. induction l as [|x l IH]; [reflexivity|].
  cbn [map flat_map rfield field_bytes]. rewrite big_be. f_equal. apply IH.
  unfold vec_len in *. rewrite Zlen_cons in H. lia.
Qed.

Lemma g_flat {A} (w : A -> list dcall) (f : A -> list field) l :
  (forall x, In x l -> gives (w x) (f x)) -> gives (flat_map w l) (flat_map f l).
Proof.
  induction l as [|x l IH]; intros H; [apply g_nil|]. cbn [flat_map]. apply g_app; [apply H; left; reflexivity|].
  apply IH. intros y Hy. apply H. right. exact Hy.
Qed.
Lemma flat_one f (l : list Z) : flat_map (one f) l = map f l.
Proof. induction l as [|x l IH]; [reflexivity|]. cbn [flat_map map one app]. rewrite IH. reflexivity. Qed.
Lemma g_floats l : gives (flat_map w_f32 l) (map Word l).
Proof. rewrite <- flat_one. apply g_flat. intros x _. apply g_f32. Qed.
Lemma g_doubles l : gives (flat_map w_f64 l) (map Long l).
Proof. rewrite <- flat_one. apply g_flat. intros x _. apply g_f64. Qed.

(** counts *)
Lemma g_cnt {A} (l : list A) : vec_len l -> gives (w_i32 (cnt l)) [Word (Zlen l)].
Proof. intros H. rewrite cnt_len by exact H. exact (g_word (Zlen l)). Qed.
Lemma g_many {A} (w : A -> list dcall) (f : A -> list field) l : vec_len l ->
  (forall x, In x l -> gives (w x) (f x)) -> gives (w_i32 (cnt l) ++ flat_map w l) (many f l).
Proof. intros H1 H2. apply (g_app _ _ [Word (Zlen l)]); [apply g_cnt; exact H1|apply g_flat; exact H2]. Qed.
Lemma g_upto {A} (w : A -> list dcall) (f : A -> list field) l : vec_len l ->
  (forall x, In x l -> gives (w x) (f x)) -> gives (w_i32 (cnt l) ++ flat_map w (upto l)) (many f l).
Proof. intros H1 H2. rewrite upto_id by exact H1. apply g_many; assumption. Qed.
Lemma g_refs l : vec_len l -> gives (w_i32 (cnt l) ++ w_ptrs l) (many (fun a => [Ref a]) l).
Proof. intros H. apply g_many; [exact H|]. intros x _. apply g_ptr. Qed.
Lemma g_refs_upto l : vec_len l -> gives (w_i32 (cnt l) ++ w_ptrs (upto l)) (many (fun a => [Ref a]) l).
Proof. intros H. rewrite upto_id by exact H. apply g_refs. exact H. Qed.
Lemma vec_small_txt (s : bytes) : vec_len s -> small s.
Proof. unfold vec_len, small, two32. lia. Qed.
Lemma g_txt s : vec_len s -> gives (w_string s) (txt s).
Proof.
  intros H. unfold w_string, txt. change (s32 (Zlen s)) with (cnt s). rewrite cnt_len by exact H.
  apply (g_app [DData _] [DData s] [Word _] [Text s]); [apply g_word|apply g_chars, vec_small_txt; exact H].
Qed.
Lemma g_when b w fs : gives w fs -> gives (w_when b w) (if b then fs else []).
Proof. intros H. destruct b; [exact H|apply g_nil]. Qed.
Lemma g_unless b w fs : gives w fs -> gives (w_when (negb b) w) (if b then [] else fs).
Proof. intros H. destruct b; [apply g_nil|exact H]. Qed.

(** the same, in front of the rest *)
Lemma h_i32 z cs fs : gives cs fs -> gives (w_i32 z ++ cs) (Word z :: fs).
Proof. intros H. exact (g_app _ _ _ _ (g_word z) H). Qed.
Lemma h_f32 z cs fs : gives cs fs -> gives (w_f32 z ++ cs) (Word z :: fs).
Proof. intros H. exact (g_app _ _ _ _ (g_word z) H). Qed.
Lemma h_u32 z cs fs : gives cs fs -> gives (w_u32 z ++ cs) (Word z :: fs).
Proof. intros H. exact (g_app _ _ _ _ (g_word z) H). Qed.
Lemma h_i64 z cs fs : gives cs fs -> gives (w_i64 z ++ cs) (Long z :: fs).
Proof. intros H. exact (g_app _ _ _ _ (g_long z) H). Qed.
Lemma h_i8 z cs fs : gives cs fs -> gives (w_i8 z ++ cs) (Octet z :: fs).
Proof. intros H. exact (g_app _ _ _ _ (g_octet z) H). Qed.
Lemma h_single z cs fs : gives cs fs -> gives (w_f32 (d2f z) ++ cs) (Single z :: fs).
Proof. apply h_f32. Qed.
Lemma h_tag a cs fs : gives cs fs -> gives (DTag a :: cs) (Id a :: fs).
Proof. intros H. apply (g_app [DTag a] cs [Id a] fs); [apply g_tag|exact H]. Qed.
Lemma h_ptr a cs fs : gives cs fs -> gives (DPtr a :: cs) (Ref a :: fs).
Proof. intros H. apply (g_app [DPtr a] cs [Ref a] fs); [apply g_ptr|exact H]. Qed.
Lemma h_many {A} (w : A -> list dcall) (f : A -> list field) l cs fs : vec_len l ->
  (forall x, In x l -> gives (w x) (f x)) -> gives cs fs ->
  gives (w_i32 (cnt l) ++ flat_map w l ++ cs) (many f l ++ fs).
Proof. intros H1 H2 H3. rewrite app_assoc. apply g_app; [apply g_many; assumption|exact H3]. Qed.
Lemma h_upto {A} (w : A -> list dcall) (f : A -> list field) l cs fs : vec_len l ->
  (forall x, In x l -> gives (w x) (f x)) -> gives cs fs ->
  gives (w_i32 (cnt l) ++ flat_map w (upto l) ++ cs) (many f l ++ fs).
Proof. intros H1 H2 H3. rewrite app_assoc. apply g_app; [apply g_upto; assumption|exact H3]. Qed.
Lemma h_refs l cs fs : vec_len l -> gives cs fs ->
  gives (w_i32 (cnt l) ++ w_ptrs l ++ cs) (many (fun a => [Ref a]) l ++ fs).
Proof. intros H1 H3. rewrite app_assoc. apply g_app; [apply g_refs; assumption|exact H3]. Qed.
Lemma h_refs_upto l cs fs : vec_len l -> gives cs fs ->
  gives (w_i32 (cnt l) ++ w_ptrs (upto l) ++ cs) (many (fun a => [Ref a]) l ++ fs).
Proof. intros H1 H3. rewrite app_assoc. apply g_app; [apply g_refs_upto; assumption|exact H3]. Qed.

(** arrays of known length *)
Lemma three l : Zlen l = 3 -> l = [fst3 l; snd3 l; thd3 l].
Proof.
  destruct l as [|a [|b [|c [|d l]]]]; intros H; try (unfold Zlen in H; cbn [length] in H; lia). reflexivity.
Qed.
Lemma two l : Zlen l = 2 -> l = [nth 0 l 0; nth 1 l 0].
Proof. destruct l as [|a [|b [|c l]]]; intros H; try (unfold Zlen in H; cbn [length] in H; lia). reflexivity. Qed.
Lemma h_three l cs fs : Zlen l = 3 -> gives cs fs ->
  gives (w_f32 (fst3 l) ++ w_f32 (snd3 l) ++ w_f32 (thd3 l) ++ cs) (map Word l ++ fs).
Proof. intros H1 H2. rewrite (three l H1) at 4. cbn [map app]. do 3 apply h_f32. exact H2. Qed.
Lemma h_singles l cs fs : Zlen l = 3 -> gives cs fs ->
  gives (w_f32 (d2f (fst3 l)) ++ w_f32 (d2f (snd3 l)) ++ w_f32 (d2f (thd3 l)) ++ cs) (map Single l ++ fs).
Proof. intros H1 H2. rewrite (three l H1) at 4. cbn [map app]. do 3 apply h_single. exact H2. Qed.
Lemma h_two l cs fs : Zlen l = 2 -> gives cs fs ->
  gives (w_i32 (nth 0 l 0) ++ w_i32 (nth 1 l 0) ++ cs) (map Word l ++ fs).
Proof. intros H1 H2. rewrite (two l H1) at 3. cbn [map app]. do 2 apply h_i32. exact H2. Qed.

Lemma short_vec {A} (l : list A) n : Zlen l = n -> n < 100 -> vec_len l.
Proof. intros H1 H2. unfold vec_len. rewrite H1. lia. Qed.

Ltac vlen := first [assumption | eapply short_vec; [eassumption|lia]].
Ltac gstep := lazymatch goal with
  | |- gives (w_f32 (d2f (fst3 ?l)) ++ _) (map Single ?l ++ _) => apply (h_singles l); [assumption|]
  | |- gives (w_f32 (fst3 ?l) ++ _) (map Word ?l ++ _) => apply (h_three l); [assumption|]
  | |- gives (w_i32 (nth 0 ?l 0) ++ _) (map Word ?l ++ _) => apply (h_two l); [assumption|]
  | |- gives (w_i32 (cnt ?l) ++ w_ptrs ?l ++ _) (many _ ?l ++ _) => apply (h_refs l); [assumption|]
  | |- gives (w_i32 (cnt ?l) ++ w_ptrs (upto ?l) ++ _) (many _ ?l ++ _) => apply (h_refs_upto l); [assumption|]
  | |- gives (w_i32 (cnt ?l) ++ flat_map ?w (upto ?l) ++ _) (many ?f ?l ++ _) =>
      apply (h_upto w f l); [assumption| |]; [intros; first [exact (g_i32 _)|exact (g_f32 _)|idtac]|]
  | |- gives (w_i32 (cnt ?l) ++ flat_map ?w ?l ++ _) (many ?f ?l ++ _) =>
      apply (h_many w f l); [assumption| |]; [intros; first [exact (g_i32 _)|exact (g_f32 _)|idtac]|]
  | |- gives (w_f32 (d2f ?z) ++ _) (Single ?z :: _) => apply (h_single z)
  | |- gives (DTag ?a :: _) (Id ?a :: _) => apply (h_tag a)
  | |- gives (DPtr ?a :: _) (Ref ?a :: _) => apply (h_ptr a)
  | |- gives (w_i32 ?z ++ _) (Word ?z :: _) => apply (h_i32 z)
  | |- gives (w_f32 ?z ++ _) (Word ?z :: _) => apply (h_f32 z)
  | |- gives (w_u32 ?z ++ _) (Word ?z :: _) => apply (h_u32 z)
  | |- gives (w_i64 ?z ++ _) (Long ?z :: _) => apply (h_i64 z)
  | |- gives (w_i8 ?z ++ _) (Octet ?z :: _) => apply (h_i8 z)
  | |- gives (w_arr 4 ?l ++ _) (map Word ?l ++ _) => apply (g_app _ _ (map Word l)); [apply g_arr4; vlen|]
  | |- gives (w_arr 8 ?l ++ _) (map Long ?l ++ _) => apply (g_app _ _ (map Long l)); [apply g_arr8; vlen|]
  | |- gives (flat_map w_f32 ?l ++ _) (map Word ?l ++ _) => apply (g_app _ _ (map Word l)); [apply g_floats|]
  | |- gives (flat_map w_f64 ?l ++ _) (map Long ?l ++ _) => apply (g_app _ _ (map Long l)); [apply g_doubles|]
  | |- gives (w_when (negb ?b) _ ++ _) ((if ?b then [] else ?fs) ++ _) =>
      apply (g_app _ _ (if b then [] else fs)); [apply g_unless|]
  | |- gives (w_when ?b _ ++ _) ((if ?b then ?fs else []) ++ _) =>
      apply (g_app _ _ (if b then fs else [])); [apply g_when|]
  | |- gives (w_string ?s ++ _) (txt ?s ++ _) => apply (g_app _ _ (txt s)); [apply g_txt; assumption|]
  | |- gives [] [] => exact g_nil
  end.
Ltac gsteps := repeat gstep.
Ltac gnorm := apply g_end; rewrite <- ?app_assoc; cbn [app].
Local Opaque w_i32 w_f32 w_u32 w_i64 w_i8 w_f64 w_arr w_ptrs w_when w_string many txt be cnt upto d2f.

Lemma g_params p : params_ok p -> gives (w_params p) (params_layout p).
Proof.
  assert (M : forall V (P : V -> Prop) (w : V -> list dcall) f (m : list (bytes * list V)), map_ok P m ->
            (forall x, P x -> gives (w x) (f x)) -> gives (w_map w m) (map_layout f m)).
  { intros V P w f m (_ & H1 & H2) Hw. apply g_upto; [exact H1|]. intros kv Hin.
    rewrite Forall_forall in H2. destruct (H2 kv Hin) as (K1 & K2 & K3).
    apply g_app; [apply g_txt; exact K1|]. apply g_upto; [exact K2|].
    intros x Hx. apply Hw. rewrite Forall_forall in K3. apply K3. exact Hx. }
  intros (H1 & H2 & H3). unfold w_params, params_layout. apply g_app; [|apply g_app].
  - apply (M _ int32); [exact H1|]. intros x _. apply g_i32.
  - apply (M _ word32); [exact H2|]. intros x _. apply g_f32.
  - apply (M _ (@vec_len byte)); [exact H3|]. intros x Hx. apply g_txt. exact Hx.
Qed.

(** ** Objects *)

Lemma g_mcp a o : mcp_ok o -> gives (write_mcp a o) (mcp_layout a o).
Proof.
  intros (H1 & _ & _ & _ & [V _] & _ & [P _] & _ & _ & [E _] & [Q _] & [S3 _] & [C _]).
  unfold write_mcp, mcp_layout, if_bit, bit_set, BITEndpoint. gnorm. gsteps.
  gnorm. gsteps.
Qed.
Lemma g_cont flag c : cont_ok c -> gives (write_cont flag c) (cont_layout flag c).
Proof.
  intros (_ & _ & _ & _ & [P _]). unfold write_cont, cont_layout, if_bit, bit_set, CHBIT_STEP. gnorm. gsteps. gnorm. gsteps.
Qed.
Ltac gall := gnorm; gsteps; try solve [gnorm; gsteps].
Lemma g_simcalhit flag a o : simcalhit_ok o -> gives (write_simcalhit flag a o) (simcalhit_layout flag a o).
Proof.
  intros (_ & _ & _ & [P _] & Hv & Hc). unfold write_simcalhit, simcalhit_layout, if_bit, bit_set, CHBIT_ID1, CHBIT_LONG.
  gall. apply g_cont. rewrite Forall_forall in Hc. apply Hc. assumption.
Qed.
Lemma g_rawcalhit flag a o : gives (write_rawcalhit flag a o) (rawcalhit_layout flag a o).
Proof. unfold write_rawcalhit, rawcalhit_layout, if_bit, unless_bit, bit_set, RCHBIT_ID1, RCHBIT_TIME, RCHBIT_NO_PTR. gall. Qed.
Lemma g_calhit flag a o : calhit_ok o -> gives (write_calhit flag a o) (calhit_layout flag a o).
Proof.
  intros (_ & _ & _ & _ & _ & [P _] & _).
  unfold write_calhit, calhit_layout, if_bit, unless_bit, bit_set, RCHBIT_ID1, RCHBIT_TIME, RCHBIT_NO_PTR,
    RCHBIT_ENERGY_ERROR, RCHBIT_LONG. gall.
Qed.
Lemma g_simtrkhit flag a o : simtrkhit_ok o -> gives (write_simtrkhit flag a o) (simtrkhit_layout flag a o).
Proof.
  intros (_ & _ & [P _] & _ & _ & [Q _] & _). unfold write_simtrkhit, simtrkhit_layout, if_bit, bit_set, THBIT_ID1, THBIT_MOMENTUM.
  gall.
Qed.
Lemma g_tpchit flag a o : tpchit_ok o -> gives (write_tpchit flag a o) (tpchit_layout flag a o).
Proof.
  intros (_ & _ & _ & _ & H & _). unfold write_tpchit, tpchit_layout, if_bit, unless_bit, bit_set, TPCBIT_RAW, TPCBIT_NO_PTR. gall.
Qed.

Lemma big2_len l : Zlen (flat_map (big 2) l) = 2 * Zlen l.
Proof.
  induction l as [|x l IH]; [reflexivity|]. cbn [flat_map]. rewrite Zlen_app, IH, Zlen_cons, big_be, Zlen_be. lia.
Qed.
Lemma enc_big n l : enc_elems n l = flat_map (big n) l.
Proof.
  unfold enc_elems. induction l as [|x l IH]; [reflexivity|]. cbn [flat_map]. rewrite IH, big_be. reflexivity.
Qed.
Lemma zlen_nil {A} (l : list A) : Zlen l = 0 -> l = [].
Proof. destruct l; [reflexivity|]. unfold Zlen. cbn [length]. lia. Qed.
Lemma g_shorts l : vec_len l -> gives (w_vec 2 l) [Word (Zlen l); Shorts l].
Proof.
  intros H. unfold w_vec. change (s32 (Zlen l)) with (cnt l). rewrite cnt_len by exact H.
  destruct (Zlen l =? 0) eqn:E.
  - apply Z.eqb_eq in E. apply zlen_nil in E. subst l. destruct (g_word (Zlen (@nil Z))) as [G1 G2 G3].
    constructor; [|exact G2|exact G3]. intros r. rewrite G1. unfold rlay. cbn [flat_map rfield field_bytes filled4].
    unfold filled4. cbn. reflexivity.
  - refine (g_app [DData _] [DData _] [Word _] [Shorts l] (g_word _) _).
    apply g_data; [reflexivity|reflexivity|]. intros r. rewrite filled4_pad by (apply vec_small'; [lia|exact H]).
    unfold rlay. cbn [flat_map rfield field_bytes]. rewrite app_nil_r, enc_big. reflexivity.
Qed.
Lemma g_wvec4 l : vec_len l -> gives (w_vec 4 l) (many (one Word) l).
Proof.
  intros H. unfold w_vec. change (s32 (Zlen l)) with (cnt l). rewrite cnt_len by exact H.
  Local Transparent many. unfold many. rewrite flat_one. destruct (Zlen l =? 0) eqn:E.
  - apply Z.eqb_eq in E. apply zlen_nil in E. subst l. exact (g_word 0).
  - exact (g_app [DData _] (w_arr 4 l) [Word _] (map Word l) (g_word _) (g_arr4 l H)).
Qed.
Local Opaque many.
Lemma g_trkraw flag a o : trkraw_ok o -> gives (write_trkraw flag a o) (trkraw_layout flag a o).
Proof.
  intros (_ & _ & _ & H & _). unfold write_trkraw, trkraw_layout, if_bit, bit_set, TRAWBIT_ID1. gall.
  apply (g_app (w_vec 2 _) _ [Word _; Shorts _]); [apply g_shorts; exact H|]. gsteps.
Qed.
Lemma g_trkdata flag a o : trkdata_ok o -> gives (write_trkdata flag a o) (trkdata_layout flag a o).
Proof.
  intros (_ & _ & _ & H & _). unfold write_trkdata, trkdata_layout, if_bit, bit_set, TRAWBIT_ID1. gall.
  apply g_app; [apply g_wvec4; exact H|]. gsteps.
Qed.
Lemma g_trkpulse flag a o : gives (write_trkpulse flag a o) (trkpulse_layout flag a o).
Proof. unfold write_trkpulse, trkpulse_layout, if_bit, bit_set, TRAWBIT_ID1, TRAWBIT_CM. gall. Qed.
Lemma g_trkhit flag a o : trkhit_ok o -> gives (write_trkhit flag a o) (trkhit_layout flag a o).
Proof.
  intros (_ & _ & _ & [P _] & _ & _ & _ & _ & _ & H). unfold write_trkhit, trkhit_layout, if_bit, bit_set, RTHBIT_ID1. gall.
Qed.
Lemma g_trkhitp flag a o : trkhitp_ok o -> gives (write_trkhitp flag a o) (trkhitp_layout flag a o).
Proof.
  intros (_ & _ & _ & [P _] & [U _] & [V _] & _ & _ & _ & _ & _ & _ & H).
  unfold write_trkhitp, trkhitp_layout, if_bit, bit_set, RTHPBIT_ID1. gall.
Qed.
Lemma g_trkhitz flag a o : trkhitz_ok o -> gives (write_trkhitz flag a o) (trkhitz_layout flag a o).
Proof.
  intros (_ & _ & _ & [P _] & [U _] & _ & _ & _ & _ & _ & _ & H).
  unfold write_trkhitz, trkhitz_layout, if_bit, bit_set, RTHZBIT_ID1. gall.
Qed.
Lemma g_tstate t : tstate_ok t -> gives (write_tstate t) (tstate_layout t).
Proof. intros (_ & _ & _ & _ & _ & _ & _ & [R _]). unfold write_tstate, tstate_layout. gall. Qed.
Lemma g_track flag a o : track_ok o -> gives (write_track flag a o) (track_layout flag a o).
Proof.
  intros (_ & H1 & H2 & _ & _ & _ & _ & _ & _ & H3 & _ & H4 & H5).
  unfold write_track, track_layout, if_bit, bit_set, TRBIT_HITS. gall.
  apply g_tstate. rewrite Forall_forall in H2. apply H2. assumption.
Qed.
Lemma g_pid p : pid_ok p -> gives (write_pid p) (pid_layout p).
Proof. intros (_ & _ & _ & _ & H & _). unfold write_pid, pid_layout. gall. Qed.
Lemma g_hits o w : vec_len (cl_hits o) -> Zlen (cl_weights o) = Zlen (cl_hits o) -> write_hits o = Ok w ->
  gives w (many (fun hw => [Ref (fst hw); Word (snd hw)]) (combine (cl_hits o) (cl_weights o))).
Proof.
  intros H1 H2. unfold write_hits. rewrite cnt_len by exact H1. unfold Zlen in H2 |- *. rewrite Nat2Z.id.
  replace (length (cl_weights o)) with (length (cl_hits o)) by lia. rewrite Nat.ltb_irrefl.
  intros E. injection E as <-. rewrite firstn_all. replace (length (cl_hits o)) with (length (cl_weights o)) at 2 by lia.
  rewrite firstn_all. Local Transparent many. unfold many. Local Opaque many.
  replace (Zlen (combine (cl_hits o) (cl_weights o))) with (Z.of_nat (length (cl_hits o)))
    by (unfold Zlen; rewrite combine_length; lia).
  apply h_i32. apply g_flat. intros [x y] _. cbn [fst snd].
  Local Transparent w_f32. exact (g_app _ _ _ _ (g_ptr x) (g_word y)). Local Opaque w_f32.
Qed.
Lemma g_cluster flag a o w : cluster_ok o -> cluster_fits flag o -> write_cluster flag a o = Ok w ->
  gives w (cluster_layout flag a o).
Proof.
  intros (_ & _ & _ & [P _] & _ & _ & _ & _ & H1 & _ & H2 & H3 & H4 & H5 & _ & H6 & _) Hf. unfold write_cluster, bit_set, CLBIT_HITS.
  assert (X : forall hits, gives hits (if_bit flag 31 (many (fun hw => [Ref (fst hw); Word (snd hw)]) (combine (cl_hits o) (cl_weights o)))) ->
     gives (w_i32 (cl_type o) ++ w_f32 (cl_energy o) ++ w_f32 (cl_energyerr o) ++ w_arr 4 (cl_pos o)
      ++ flat_map w_f32 (cl_errpos o) ++ w_f32 (cl_theta o) ++ w_f32 (cl_phi o)
      ++ flat_map w_f32 (cl_errdir o)
      ++ w_i32 (cnt (cl_shape o)) ++ flat_map w_f32 (cl_shape o)
      ++ w_i32 (cnt (cl_pids o)) ++ flat_map write_pid (upto (cl_pids o))
      ++ w_i32 (cnt (cl_clusters o)) ++ w_ptrs (upto (cl_clusters o))
      ++ hits
      ++ w_i32 (cnt (cl_energies o)) ++ flat_map w_f32 (upto (cl_energies o))
      ++ [DTag a]) (cluster_layout flag a o)).
  { intros hits Hh. unfold cluster_layout. gall; [apply g_pid; rewrite Forall_forall in H3; apply H3; assumption|].
    apply g_app; [exact Hh|]. gall. }
  unfold cluster_fits in Hf. unfold if_bit in X. destruct (Z.testbit flag 31) eqn:Eb.
  - destruct (write_hits o) as [hits| |] eqn:Eh; cbn [bind]; try discriminate. intros E. injection E as <-.
    apply X. apply g_hits; [exact H5|apply Hf; reflexivity|exact Eh].
  - cbn [bind]. intros E. injection E as <-. exact (X [] g_nil).
Qed.
Lemma g_recp a o : recp_ok o -> gives (write_recp a o) (recp_layout a o).
Proof.
  intros (_ & [P _] & _ & _ & _ & _ & [R _] & H1 & H2 & _ & H3 & H4 & H5).
  unfold write_recp, recp_layout. gall.
  unfold write_rpid. apply g_app; [apply g_pid|exact (g_tag _)]. rewrite Forall_forall in H2. apply H2. assumption.
Qed.
Lemma g_lcrel flag o : gives (write_lcrel flag o) (lcrel_layout flag o).
Proof. unfold write_lcrel, lcrel_layout, if_bit, bit_set, LCREL_WEIGHTED. gall. Qed.
Lemma index_place s l : index_of s l = place s l.
Proof.
  induction l as [|x l IH]; [reflexivity|]. cbn [index_of place]. rewrite IH.
  destruct (bytes_eqb s x) eqn:E.
  - apply bytes_eqb_eq in E. subst. rewrite bytes_eqb_refl. reflexivity.
  - destruct (bytes_eqb x s) eqn:E2; [|reflexivity]. apply bytes_eqb_eq in E2. subst. rewrite bytes_eqb_refl in E. discriminate.
Qed.
Lemma g_vertex algs a o : vertex_ok o -> gives (write_vertex algs a o) (vertex_layout algs a o).
Proof.
  intros (_ & _ & _ & [P _] & _ & H & _). unfold write_vertex, vertex_layout. rewrite index_place. gall.
Qed.
Lemma g_lcvec {V} (w : V -> list dcall) f a l : vec_len l -> (forall x, In x l -> gives (w x) (f x)) ->
  gives (write_lcvec w a l) (many f l ++ [Id a]).
Proof. intros H1 H2. unfold write_lcvec. rewrite app_assoc. apply g_app; [apply g_upto; assumption|exact (g_tag a)]. Qed.
Lemma g_ints l : gives (flat_map w_i32 l) (map Word l).
Proof. rewrite <- flat_one. apply g_flat. intros x _. apply g_i32. Qed.
Lemma g_sizes o : gives (w_sizes (genobj_sizes o)) (counts_layout o).
Proof. unfold w_sizes, genobj_sizes, counts_layout. gall. Qed.
Lemma g_genobj sizes a o w : genobj_ok o -> match sizes with Some s => genobj_sizes o = s | None => True end ->
  write_genobj sizes a o = Ok w ->
  gives w (genobj_layout (match sizes with Some _ => true | None => false end) a o).
Proof.
  intros Ho Hs. unfold write_genobj.
  assert (E : match sizes with Some s => s | None => go_sizes o end = genobj_sizes o)
    by (destruct sizes; [symmetry; exact Hs|apply go_sizes_ok; exact Ho]).
  rewrite E. unfold genobj_sizes. rewrite !go_vals_all. cbn [bind].
  intros H. injection H as <-. unfold genobj_layout.
  apply g_app. { destruct sizes; [exact g_nil|exact (g_sizes o)]. }
  apply g_app; [apply g_ints|]. apply g_app; [apply g_floats|]. apply g_app; [apply g_doubles|]. exact (g_tag a).
Qed.

Lemma g_obj ty hs a o w : obj_fits hs o -> write_obj ty hs a o = Ok w ->
  gives w (obj_layout (h_flag hs) (h_algs hs) (is_fixed hs) a o).
Proof.
  intros Ho Hw. unfold obj_fits in Ho.
  destruct o; destruct ty; try discriminate; cbn [write_obj] in Hw; cbn [obj_ok] in Ho; cbn [obj_layout];
    try (injection Hw as <-).
  - apply g_mcp, Ho.
  - apply g_simcalhit, Ho.
  - apply g_rawcalhit.
  - apply g_calhit, Ho.
  - apply g_simtrkhit, Ho.
  - apply g_tpchit, Ho.
  - apply g_trkraw, Ho.
  - apply g_trkdata, Ho.
  - apply g_trkpulse.
  - apply g_trkhit, Ho.
  - apply g_trkhitp, Ho.
  - apply g_trkhitz, Ho.
  - apply g_track, Ho.
  - apply g_cluster; [apply Ho|apply Ho|exact Hw].
  - apply g_recp, Ho.
  - apply g_lcrel.
  - apply g_vertex, Ho.
  - destruct Ho as [H1 H2]. apply g_lcvec; [exact H1|]. intros x Hx. apply g_txt. rewrite Forall_forall in H2. apply H2, Hx.
  - destruct Ho as [H1 H2]. apply g_lcvec; [exact H1|]. intros x Hx. apply g_f32.
  - destruct Ho as [H1 H2]. apply g_lcvec; [exact H1|]. intros x Hx. apply g_i32.
  - destruct Ho as [H1 H2]. unfold is_fixed. apply g_genobj; [exact H1|exact H2|exact Hw].
Qed.

(** ** Collections *)

Lemma init_calls ty h c c' hs w : init_writing ty h c = Ok (c', hs, w) ->
  w = init_writing0 c' ++ (match h_sizes hs with Some s => w_sizes s | None => [] end) /\
  (ty = TVX -> vertex_algs h (c_elems c) [] = Ok (h_algs hs)) /\
  (h_sizes hs = None \/
   ty = TGO /\ h_sizes hs = Some match c_elems c with
                           | [] => (0, 0, 0)
                           | a :: _ => match h a with Some (OGO o) => go_sizes o | _ => (0, 0, 0) end
                           end).
Proof.
  assert (D : Ok (c, mkH (c_flag c) [] None, init_writing0 c) = Ok (c', hs, w) -> ty <> TVX ->
    w = init_writing0 c' ++ (match h_sizes hs with Some s => w_sizes s | None => [] end) /\
    (ty = TVX -> vertex_algs h (c_elems c) [] = Ok (h_algs hs)) /\
    (h_sizes hs = None \/
     ty = TGO /\ h_sizes hs = Some match c_elems c with
                           | [] => (0, 0, 0)
                           | a :: _ => match h a with Some (OGO o) => go_sizes o | _ => (0, 0, 0) end
                           end)).
  { intros E N. injection E as <- <- <-. cbn [h_sizes]. rewrite app_nil_r. split; [reflexivity|].
    split; [intros E; contradiction|left; reflexivity]. }
  intros H. destruct ty; try (apply D; [exact H|discriminate]); clear D; cbn [init_writing] in H.
  - destruct (vertex_algs h (c_elems c) []) as [algs| |]; cbn [bind] in H; try discriminate.
    injection H as <- <- <-. cbn [h_sizes h_algs]. rewrite app_nil_r. auto.
  - destruct (all_fixed h (c_elems c)) as [fx| |]; cbn [bind] in H; try discriminate.
    destruct (get_string_val (c_par c) typename_key) as [tn| |]; cbn [bind] in H; try discriminate.
    match type of H with context [if fx then ?x else ?y] => destruct (if fx then x else y) as [p2| |] end;
      cbn [bind] in H; try discriminate.
    injection H as <- <- <-. cbn [h_sizes h_algs]. split; [destruct fx; reflexivity|]. split; [discriminate|].
    destruct fx; [right|left; reflexivity]. split; [reflexivity|]. f_equal.
    destruct (c_elems c) as [|a l]; [reflexivity|]. destruct (h a) as [[]|]; reflexivity.
Qed.

Lemma g_elems ty hs h : forall l ws, typed ty h l -> (forall a o, In a l -> h a = Some o -> obj_fits hs o) ->
  write_elems ty hs h l = Ok ws ->
  gives ws (flat_map (fun a => match h a with Some o => obj_layout (h_flag hs) (h_algs hs) (is_fixed hs) a o | None => [] end) l).
Proof.
  induction l as [|a l IH]; intros ws Ht Hf Hw.
  - injection Hw as <-. exact g_nil.
  - destruct (Ht a (or_introl eq_refl)) as (H0 & o & Ho & Hty). cbn [write_elems] in Hw. cbn [flat_map].
    replace (a =? 0) with false in Hw by lia. rewrite Ho in Hw. rewrite Ho.
    destruct (write_obj ty hs a o) as [w1| |] eqn:E1; cbn [bind] in Hw; try discriminate.
    destruct (write_elems ty hs h l) as [w2| |] eqn:E2; cbn [bind] in Hw; try discriminate.
    injection Hw as <-. apply g_app.
    + eapply g_obj; [apply (Hf a o (or_introl eq_refl) Ho)|exact E1].
    + apply IH; [intros b Hb; apply Ht; right; exact Hb|intros b x Hb; apply Hf; right; exact Hb|reflexivity].
Qed.

Lemma layout_flag ty h c o algs fx a : type_of o = ty ->
  (ty <> TVX \/ algs = vertex_types h (c_elems c)) ->
  obj_layout (stored_flag ty h c) algs fx a o = obj_layout (c_flag c) (vertex_types h (c_elems c)) fx a o.
Proof.
  intros Hty Ha. unfold stored_flag, stores_fixed.
  destruct o; cbn [type_of] in Hty; subst ty; try reflexivity.
  destruct Ha as [Ha| ->]; [contradiction|reflexivity].
Qed.

Lemma otype_eq_vx ty : ty = TVX \/ ty <> TVX.
Proof. destruct ty; first [left; reflexivity|right; discriminate]. Qed.

Lemma g_coll ty h c c' cs : coll_ok ty h c -> write_coll ty h c = Ok (c', cs) ->
  gives cs (coll_layout ty h c).
Proof.
  intros Hc Hw. destruct (init_spec ty h c Hc) as (p' & hs & w & Ei & [F1 F2 F3 F4] & Hp & Hsame & _ & _).
  pose proof (init_calls ty h c _ _ _ Ei) as (C1 & C2 & C3).
  destruct Hc as (Hf & Hpar & Hroom & Hl & Hel & Hvx & Hgo).
  unfold write_coll in Hw. rewrite Ei in Hw. cbn [bind] in Hw.
  assert (Hsub : bit_set (h_flag hs) BITSubset = is_subset c) by (rewrite F1; apply stored_flag_subset).
  rewrite Hsub, upto_id in Hw by exact Hl.
  assert (Hinit : gives w ([Word (stored_flag ty h c)] ++ params_layout (stored_params ty h c)
      ++ (if stores_fixed ty h c then match c_elems c with
                    | a :: _ => match h a with Some (OGO o) => counts_layout o | _ => [] end
                    | [] => [Word 0; Word 0; Word 0]
                    end else []))).
  { rewrite C1. unfold init_writing0. cbn [c_flag c_par]. rewrite Hsame, <- !app_assoc. cbn [app].
    apply h_u32. apply g_app; [apply g_params; rewrite <- Hsame; exact Hp|].
    rewrite <- F2. unfold is_fixed. destruct C3 as [C3|[C3 C4]]; [rewrite C3; exact g_nil|].
    rewrite C4. subst ty. destruct (Hgo eq_refl) as (Ht & He & _). destruct (c_elems c) as [|a l] eqn:El.
    - unfold w_sizes. gall.
    - destruct (Ht a (or_introl eq_refl)) as (_ & o & Ho & Hty). rewrite Ho. destruct o; try discriminate.
      rewrite go_sizes_ok by (apply (He a (OGO o) (or_introl eq_refl) Ho)). apply g_sizes. }
  assert (Halgs : ty <> TVX \/ h_algs hs = vertex_types h (c_elems c)).
  { destruct (otype_eq_vx ty) as [->|N]; [right|left; exact N].
    specialize (C2 eq_refl). rewrite vertex_algs_eq in C2 by (apply Hvx; reflexivity). injection C2 as <-. reflexivity. }
  unfold coll_layout. cbv zeta. rewrite !app_assoc. rewrite <- app_assoc with (l := [_]).
  destruct (is_subset c) eqn:Es.
  - injection Hw as _ <-. apply g_app; [exact Hinit|]. apply g_refs. exact Hl.
  - destruct (Hel eq_refl) as [Ht He].
    assert (Hfit : forall a o, In a (c_elems c) -> h a = Some o -> obj_fits hs o).
    { intros a o Ha Ho. apply (F4 a o Ha Ho); [|eapply He; eassumption].
      destruct (Ht a Ha) as (_ & o' & Ho' & Hty). congruence. }
    destruct (write_elems ty hs h (c_elems c)) as [ws| |] eqn:Ew; cbn [bind] in Hw; try discriminate.
    injection Hw as _ <-. apply g_app; [exact Hinit|].
    Local Transparent many. unfold many. Local Opaque many. rewrite cnt_len by exact Hl. apply h_i32.
    erewrite flat_map_ext_in; [eapply g_elems; eassumption|].
    intros a Ha. cbv beta. destruct (Ht a Ha) as (_ & o & -> & Hty). rewrite F1, F2. symmetry.
    apply layout_flag; assumption.
Qed.

(** ** Sizes *)

Lemma zlen_rep n : Zlen (repeat x00 n) = Z.of_nat n.
Proof. unfold Zlen. rewrite repeat_length. reflexivity. Qed.
Lemma filled4_len bs : Zlen (filled4 bs) = 4 * ((Zlen bs + 3) / 4).
Proof.
  unfold filled4. rewrite Zlen_app, zlen_rep. pose proof (Zlen_nonneg bs).
  assert (0 <= (- Zlen bs) mod 4 < 4) by (apply Z.mod_pos_bound; lia).
  rewrite Z2Nat.id by lia. Z.div_mod_to_equations. lia.
Qed.
Lemma zlen_big n z : Zlen (big n z) = Z.of_nat n.
Proof. rewrite big_be. apply Zlen_be. Qed.
Lemma field_len r f : Zlen (rfield r f) = field_size f.
Proof.
  destruct f; cbn [rfield field_bytes field_size]; rewrite ?zlen_big; try reflexivity.
  - rewrite filled4_len, big2_len. reflexivity.
  - apply filled4_len.
Qed.
Lemma rlay_len r fs : Zlen (rlay r fs) = size fs.
Proof.
  induction fs as [|f fs IH]; [reflexivity|]. unfold rlay, size in *. cbn [flat_map fold_right].
  rewrite Zlen_app, IH, field_len. reflexivity.
Qed.
Definition rho0 : rho := mkRho (fun _ => 0) (fun _ => 0).
Lemma g_size cs fs : gives cs fs -> Zlen (render0 cs) = size fs.
Proof. intros [G _ _]. rewrite <- (renderR_length rho0), G. apply rlay_len. Qed.
Lemma size_app a b : size (a ++ b) = size a + size b.
Proof. unfold size. induction a as [|f a IH]; [reflexivity|]. cbn [app fold_right]. rewrite IH. lia. Qed.

(** ** Blocks and records *)

Local Transparent txt.
Lemma g_name s : small s -> gives [DData (be 4 (Zlen s)); DData s] (txt s).
Proof. intros H. exact (g_app [DData _] [DData s] [Word _] [Text s] (g_word _) (g_chars s H)). Qed.

Lemma g_block name cs fs : small name -> gives cs fs -> gives (block_calls (mkWB name cur_vers cs)) (block_layout name fs).
Proof.
  intros Hn H. unfold block_calls, block_layout.
  assert (B : gives (block_body (mkWB name cur_vers cs)) ([Word 3735928559; Word 131087] ++ txt name ++ fs)).
  { unfold block_body. cbn [wb_version wb_name wb_calls].
    exact (g_app _ _ _ _ (g_word 3735928559) (g_app _ _ _ _ (g_word 131087) (g_app _ _ _ _ (g_name name Hn) H))). }
  cbv zeta. unfold block_len. rewrite (g_size _ _ B).
  exact (g_app _ _ _ _ (g_word _) B).
Qed.

Lemma g_record name blks fs : small name -> gives (blocks_calls blks) fs ->
  gives (record_calls name 0 blks) (record_layout name fs).
Proof.
  intros Hn H. unfold record_calls, record_layout. cbv zeta. rewrite (g_size _ _ H).
  assert (E : rec_hlen name = 24 + size [Text name]).
  { unfold rec_hlen. rewrite filled4_pad by exact Hn. rewrite filled4_len. unfold size. cbn [fold_right field_size]. lia. }
  rewrite E. unfold hdr_calls.
  exact (g_app _ _ _ _ (g_word _) (g_app _ _ _ _ (g_word 2880293630) (g_app _ _ _ _ (g_word 0)
    (g_app _ _ _ _ (g_word _) (g_app _ _ _ _ (g_word _) (g_app _ _ _ _ (g_name name Hn) H)))))).
Qed.

Lemma rec_size name blks fs : gives (record_calls name 0 blks) fs -> record_size name blks = size fs.
Proof.
  intros H. rewrite <- (g_size _ _ H). unfold record_size, record_calls. rewrite render0_app, Zlen_app, hdr_len. reflexivity.
Qed.

(** ** The numbers *)

Lemma in_ids a fs : In a (ids fs) <-> In (Id a) fs.
Proof.
  unfold ids. rewrite in_flat_map. split.
  - intros (f & Hf & Ha). destruct f; cbn [In] in Ha; try contradiction. destruct Ha as [->|[]]. exact Hf.
  - intros H. exists (Id a). split; [exact H|left; reflexivity].
Qed.
Lemma in_targets a fs : In a (targets fs) <-> In (Ref a) fs.
Proof.
  unfold targets. rewrite in_flat_map. split.
  - intros (f & Hf & Ha). destruct f; cbn [In] in Ha; try contradiction. destruct Ha as [->|[]]. exact Hf.
  - intros H. exists (Ref a). split; [exact H|left; reflexivity].
Qed.
Definition has (a : addr) (l : list addr) : bool := existsb (Z.eqb a) l.
Lemma has_in a l : has a l = true <-> In a l.
Proof.
  unfold has. rewrite existsb_exists. split.
  - intros (x & Hx & E). apply Z.eqb_eq in E. subst. exact Hx.
  - intros H. exists a. split; [exact H|apply Z.eqb_refl].
Qed.
Definition N_of (r : rho) (fs : list field) (a : addr) : option Z :=
  if negb (a =? 0) && has a (ids fs) && has a (targets fs) then Some (tagw r a) else None.

Lemma N_some r fs a : N_of r fs a <> None <-> a <> 0 /\ In a (ids fs) /\ In a (targets fs).
Proof.
  unfold N_of. rewrite <- !has_in. destruct (a =? 0) eqn:E0; cbn [negb andb].
  { apply Z.eqb_eq in E0. split; [congruence|intros (H & _); contradiction]. }
  apply Z.eqb_neq in E0. destruct (has a (ids fs)), (has a (targets fs)); cbn [andb];
    split; try congruence; try (intros (_ & H1 & H2); congruence); auto.
Qed.

Lemma numbered cs fs r : gives cs fs -> rho_ok cs r -> rlay r fs = layout (N_of r fs) fs /\ numbering (N_of r fs) fs.
Proof.
  intros [_ Ht Hp] [R1 R2 R3 R4 R5 R6]. rewrite Ht, Hp in *. split.
  - unfold rlay, layout. apply flat_map_ext_in. intros f Hf. destruct f as [z|z|z|l|s|a|a]; try reflexivity; cbn [rfield field_bytes].
    + f_equal. destruct (N_of r fs a) as [k|] eqn:E.
      * unfold N_of in E. destruct (_ && _); [congruence|discriminate].
      * apply R4. apply in_ids in Hf. destruct (Z.eq_dec a 0) as [->|N0]; [left; reflexivity|right].
        intros Hin. apply (proj2 (N_some r fs a) (conj N0 (conj Hf Hin))). exact E.
    + f_equal. apply in_targets in Hf. destruct (N_of r fs a) as [k|] eqn:E.
      * assert (X : N_of r fs a <> None) by congruence. apply N_some in X. destruct X as (X0 & X1 & X2).
        destruct (R2 a X0 X2 X1) as [-> _]. unfold N_of in E. destruct (_ && _); [congruence|discriminate].
      * destruct (Z.eq_dec a 0) as [->|N0]; [exact R1|]. apply R3. intros Hin.
        apply (proj2 (N_some r fs a) (conj N0 (conj Hin Hf))). exact E.
  - split; [|split].
    + intros a. rewrite N_some, in_ids, in_targets. reflexivity.
    + intros a k E. assert (X : N_of r fs a <> None) by congruence. apply N_some in X. destruct X as (X0 & X1 & X2).
      destruct (R2 a X0 X2 X1) as [_ H]. unfold N_of in E. destruct (_ && _); [|discriminate]. injection E as <-. exact H.
    + intros a b Ha E. assert (Hb : N_of r fs b <> None) by congruence.
      pose proof (proj1 (N_some _ _ _) Ha) as (A0 & A1 & A2). pose proof (proj1 (N_some _ _ _) Hb) as (B0 & B1 & B2).
      apply (R5 a b); auto. unfold N_of in E, Ha, Hb.
      destruct (negb (a =? 0) && has a (ids fs) && has a (targets fs)); [|contradiction].
      destruct (negb (b =? 0) && has b (ids fs) && has b (targets fs)); [|contradiction]. congruence.
Qed.

Lemma record_laid name buf blks fs : valid_record_name name = true -> usable buf ->
  blocks_ok blks -> NoDup (blocks_tags blks) -> gives (blocks_calls blks) fs -> size (record_layout name fs) < 2 ^ 32 ->
  exists ri buf', write_record name buf blks 0 = Ok (ri, buf') /\ laid_out (record_layout name fs) (b_bytes buf') /\
    ri_name ri = name /\ ri_hlen ri = 24 + size [Text name] /\ ri_dlen ri = size fs.
Proof.
  intros Hn [Hv Hb] Hok Hnd Hg Hs.
  assert (Hsm : small name) by (apply valid_name_small in Hn; unfold small, two32; lia).
  pose proof (g_record name blks fs Hsm Hg) as G.
  destruct (record_written name buf blks 0 Hn Hv Hb Hok Hnd) as (r & Hro & _ & E).
  { rewrite (rec_size _ _ _ G). exact Hs. }
  do 2 eexists. split; [exact E|]. change (set_compression 0 false) with 0. cbn [b_bytes ri_name ri_hlen ri_dlen].
  split; [|split; [reflexivity|split]].
  - assert (Hro' : rho_ok (record_calls name 0 blks) r).
    { eapply rho_ok_same; [| |exact Hro]; [rewrite tags_record, tags_blocks|rewrite ptrs_record, ptrs_blocks]; reflexivity. }
    destruct (numbered _ _ _ G Hro') as [L NN]. exists (N_of r (record_layout name fs)). split; [exact NN|].
    rewrite <- record_render, (g_bytes _ _ G). exact L.
  - unfold rec_hlen. rewrite filled4_pad by exact Hsm. rewrite filled4_len. unfold size. cbn [fold_right field_size]. lia.
  - rewrite blocks_bytes_len. apply g_size. exact Hg.
Qed.

Lemma g_single name cs fs : small name -> gives cs fs -> gives (blocks_calls [mkWB name cur_vers cs]) (block_layout name fs).
Proof. intros Hn H. unfold blocks_calls. cbn [flat_map]. rewrite app_nil_r. apply g_block; assumption. Qed.

Lemma single_laid rname buf name w fs : valid_record_name rname = true -> usable buf -> Zlen name < 2 ^ 31 ->
  all_data w -> gives w fs -> size (record_layout rname (block_layout name fs)) < 2 ^ 32 ->
  exists ri buf', write_record rname buf [mkWB name cur_vers w] 0 = Ok (ri, buf') /\
    laid_out (record_layout rname (block_layout name fs)) (b_bytes buf') /\
    ri_name ri = rname /\ ri_hlen ri = 24 + size [Text rname] /\ ri_dlen ri = size (block_layout name fs).
Proof.
  intros Hn Hb Hl Hd Hg Hs. apply record_laid; try assumption.
  - apply Forall_cons; [|apply Forall_nil]. split; [apply data_ok; exact Hd|split; [exact Hl|]]. vm_compute. split; congruence.
  - unfold blocks_tags. cbn [flat_map wb_calls]. rewrite app_nil_r, data_tags by exact Hd. constructor.
  - apply g_single; [unfold small, two32; lia|exact Hg].
Qed.

Lemma g_runhdr x : runhdr_ok x -> gives (write_runhdr x)
  ([Word (rh_run x)] ++ txt (rh_det x) ++ txt (rh_desc x) ++ many txt (rh_subs x) ++ params_layout (rh_par x)).
Proof.
  intros (_ & H1 & H2 & H3 & H4 & H5). unfold write_runhdr.
  refine (h_i32 _ _ _ (g_app _ _ _ _ (g_txt _ H1) (g_app _ _ _ _ (g_txt _ H2) (h_many _ _ _ _ _ H3 _ (g_params _ H5))))).
  intros s Hs. apply g_txt. rewrite Forall_forall in H4. apply H4, Hs.
Qed.

Theorem run_laid buf x : usable buf -> runhdr_ok x -> size (run_layout x) < 2 ^ 32 ->
  exists ri buf', write_run_record buf x = Ok (ri, buf') /\ laid_out (run_layout x) (b_bytes buf').
Proof.
  intros Hb Hx Hs.
  destruct (single_laid (str "LCRunHeader") buf (str "RunHeader") _ _ eq_refl Hb ltac:(reflexivity)
    (data_runhdr _ Hx) (g_runhdr x Hx) Hs) as (ri & buf' & E & L & _). exists ri, buf'. split; [exact E|exact L].
Qed.

Lemma postfix_type c : header_type c = c_type c ++ (if is_subset c then str "_References" else []).
Proof. unfold header_type, bit_set, BITSubset, is_subset. destruct (Z.testbit _ _); [reflexivity|rewrite app_nil_r; reflexivity]. Qed.

Lemma g_evhdr only h e : event_ok only h e -> gives (write_evhdr only e)
    ([Word (ev_run e); Word (ev_num e); Long (ev_time e)] ++ txt (ev_det e)
     ++ many (fun nc => txt (fst nc) ++
          txt (c_type (snd nc) ++ if is_subset (snd nc) then str "_References" else [])) (stored_cols only e)
     ++ params_layout (ev_par e)).
Proof.
  intros He. pose proof (stored_hdr_ok only h e He) as Hh. destruct He as (_ & _ & _ & H1 & H2 & H3 & H4 & H5 & _).
  unfold write_evhdr. cbv zeta. rewrite stored_cols_eq.
  refine (h_i32 _ _ _ (h_i32 _ _ _ (h_i64 _ _ _ (g_app _ _ _ _ (g_txt _ H1) _)))).
  Local Transparent many. unfold many. Local Opaque many. apply h_u32. apply g_app; [|apply g_params; exact H2].
  apply g_flat. intros nc Hnc. rewrite <- postfix_type. rewrite Forall_forall in Hh. destruct (Hh nc Hnc) as (Q1 & Q2 & ty & Q3).
  destruct (registered_type _ _ Q3) as (_ & Q4 & Q5).
  apply g_app; apply g_txt; [exact Q2|]. unfold header_type. destruct (bit_set _ _); assumption.
Qed.

Theorem header_laid buf only h e : usable buf -> event_ok only h e -> size (header_layout only e) < 2 ^ 32 ->
  exists ri buf', write_header_record buf only e = Ok (ri, buf') /\ laid_out (header_layout only e) (b_bytes buf').
Proof.
  intros Hb Hx Hs.
  destruct (single_laid (str "LCEventHeader") buf (str "EventHeader") _ _ eq_refl Hb ltac:(reflexivity)
    (data_evhdr _ _ _ Hx) (g_evhdr only h e Hx) Hs) as (ri & buf' & E & L & _). exists ri, buf'. split; [exact E|exact L].
Qed.

Definition cols_layout (h : heap) (cols : list (bytes * coll)) : list field :=
  flat_map (fun nc => match get_handler (c_type (snd nc)) with
                      | Some ty => block_layout (fst nc) (coll_layout ty h (snd nc))
                      | None => []
                      end) cols.

Lemma blocks_laid only h : forall cols bs cols',
  Forall (fun nc => vec_len (fst nc) /\ exists ty, get_handler (c_type (snd nc)) = Some ty /\ coll_ok ty h (snd nc))
    (filter (to_write only) cols) ->
  event_blocks only h cols = Ok (bs, cols') ->
  gives (blocks_calls bs) (cols_layout h (filter (to_write only) cols)).
Proof.
  induction cols as [|[n c] cols IH]; intros bs cols' H E.
  - injection E as <- <-. exact g_nil.
  - cbn [event_blocks filter] in *. destruct (to_write only (n, c)) eqn:Ew.
    + inversion H as [|? ? (Hl & ty & Hty & Hc) H']; subst. cbn [fst snd] in *.
      unfold cols_layout. cbn [flat_map fst snd]. fold (cols_layout h (filter (to_write only) cols)).
      rewrite Hty in *.
      destruct (write_coll ty h c) as [[c' cs]| |] eqn:Ec; cbn [bind] in E; try discriminate.
      destruct (event_blocks only h cols) as [[bs' rest]| |] eqn:Eb; cbn [bind] in E; try discriminate.
      injection E as <- _. unfold blocks_calls. cbn [flat_map]. fold (blocks_calls bs').
      apply g_app; [|eapply IH; [exact H'|reflexivity]].
      apply g_block; [apply vec_small_txt; exact Hl|]. eapply g_coll; eassumption.
    + destruct (event_blocks only h cols) as [[bs' rest]| |] eqn:Eb; cbn [bind] in E; try discriminate.
      injection E as <- _. eapply IH; [exact H|reflexivity].
Qed.

Definition no_sort (A : Type) (_ : A -> Z) (l : list A) : list A := l.

Theorem event_laid buf only h e : usable buf -> event_ok only h e -> size (event_layout only h e) < 2 ^ 32 ->
  exists e1 ri buf', write_event_record buf only h e = Ok (e1, ri, buf') /\ laid_out (event_layout only h e) (b_bytes buf').
Proof.
  intros Hb He Hs. pose proof He as (_ & _ & _ & _ & _ & H6 & _ & H8 & H9).
  assert (Hcols : Forall (fun nc => exists ty, get_handler (c_type (snd nc)) = Some ty /\ coll_ok ty h (snd nc)) (stored_cols only e)).
  { eapply Forall_impl; [|exact H8]. intros nc (_ & _ & H). exact H. }
  destruct (event_blocks_spec no_sort only h (ev_cols e) Hcols) as (bs & cols' & Ebs & F1 & _).
  rewrite stored_cols_eq in F1.
  assert (Hbok : blocks_ok bs).
  { apply Forall_forall. intros b Hbin. destruct (Forall2_in_r _ _ _ _ F1 Hbin) as (nc & Hnc & nc' & Hn & Hvv & _ & ty & p' & _ & _ & _ & Hsh & _).
    split; [apply Hsh|]. rewrite Hn, Hvv. rewrite Forall_forall in H8. destruct (H8 nc Hnc) as (_ & Hl & _).
    split; [unfold vec_len in Hl; lia|]. vm_compute. split; congruence. }
  assert (Htags : blocks_tags bs = flat_map (fun nc => coll_tags h (snd nc)) (stored_cols only e)).
  { clear -F1. induction F1 as [|nc b cols bs (nc' & _ & _ & _ & ty & p' & _ & _ & _ & Hsh & _) F IH]; [reflexivity|].
    unfold blocks_tags in *. cbn [flat_map]. rewrite IH, (sh_tags _ _ _ Hsh). reflexivity. }
  assert (Hptag : part (blocks_tags bs) (flat_map (fun nc => coll_objs h (snd nc)) (stored_cols only e))).
  { rewrite Htags. apply part_flat_map. intros nc _. apply part_tags. }
  pose proof (part_NoDup _ _ Hptag H9) as Hndt.
  assert (G : gives (blocks_calls bs) (cols_layout h (stored_cols only e))).
  { rewrite <- stored_cols_eq. eapply blocks_laid; [|exact Ebs]. rewrite stored_cols_eq.
    eapply Forall_impl; [|exact H8]. intros nc (_ & H1 & H2). split; assumption. }
  destruct (record_laid (str "LCEvent") buf bs _ eq_refl Hb Hbok Hndt G Hs) as (ri & buf' & E & L & _).
  unfold write_event_record. rewrite Ebs. cbn [bind]. unfold event_record. rewrite E. cbn [bind].
  do 3 eexists. split; [reflexivity|exact L].
Qed.

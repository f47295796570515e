(** * Parameters and collections: what is written is read back *)

From Coq Require Import Permutation Sorted.
From Verif Require Import Bytes StrMap SioModel SioProofs SioRecord SioRead SioFrame SioSpec Ieee ObjModel ObjSpec ObjProofs ObjCalls CollSpec.

(** ** LCParameters *)

Lemma reads_map_field {V} (P : V -> Prop) (wv : V -> list dcall) (rv : RD V) r st m :
  (forall x s, P x -> reads rv (renderR r (wv x)) s s x) -> map_ok P m ->
  reads (r_map rv []) (renderR r (w_map wv m)) st st m.
Proof.
  intros H (Hs & Hl & Hf). unfold r_map, w_map. rd.
  eapply rb_last.
  - apply (rloop_id _ _ (fun kv => vec_len (fst kv) /\ vec_len (snd kv) /\ Forall P (snd kv))); [exact Hl|exact Hf|].
    intros [k vs] (H1 & H2 & H3). cbn [fst snd] in *. rd.
    eapply rb_last; [apply (rsized_id _ _ P); [exact H2|exact H3|intros x; apply H]|cbv beta]. apply rret_nil.
  - cbv beta. apply rret_eq; [|reflexivity]. apply sm_rebuild. exact Hs.
Qed.

Lemma reads_params r st p : params_ok p -> reads (r_params no_params) (renderR r (w_params p)) st st p.
Proof.
  intros (H1 & H2 & H3). unfold r_params, w_params. cbn [no_params p_int p_flt p_str].
  eapply rb; [apply (reads_map_field int32); [intros; apply ri32; assumption|exact H1]|cbv beta].
  eapply rb; [apply (reads_map_field word32); [intros; apply rf32; assumption|exact H2]|cbv beta].
  eapply rb_last; [apply (reads_map_field (@vec_len byte)); [intros; apply rstr; assumption|exact H3]|cbv beta].
  apply rret_eq; [destruct p|]; reflexivity.
Qed.

Lemma data_map {V} (P : V -> Prop) (wv : V -> list dcall) m :
  (forall x, P x -> all_data (wv x)) -> map_ok P m -> all_data (w_map wv m).
Proof.
  intros H (Hs & Hl & Hf). unfold w_map. apply data_app; [apply data_i32|]. apply data_fm. intros kv Hkv.
  apply in_upto in Hkv. rewrite Forall_forall in Hf. destruct (Hf kv Hkv) as (H1 & H2 & H3).
  apply data_app; [apply data_string; exact H1|]. apply data_app; [apply data_i32|].
  apply data_fm. intros x Hx. apply H. rewrite Forall_forall in H3. apply H3. apply in_upto. exact Hx.
Qed.
Lemma data_params p : params_ok p -> all_data (w_params p).
Proof.
  intros (H1 & H2 & H3). unfold w_params. apply data_app; [|apply data_app].
  - apply (data_map int32); [intros; apply data_i32|exact H1].
  - apply (data_map word32); [intros; apply data_f32|exact H2].
  - apply (data_map (@vec_len byte)); [intros; apply data_string; assumption|exact H3].
Qed.

Lemma sm_set_len {V} k (v : V) m : Zlen (sm_set k v m) <= Zlen m + 1.
Proof.
  induction m as [|[k' v'] m IH]; [reflexivity|]. cbn [sm_set].
  destruct (str_cmp k k'); rewrite ?Zlen_cons; lia.
Qed.
Lemma sm_set_Forall {V} (P : bytes * V -> Prop) k v m : P (k, v) -> Forall P m -> Forall P (sm_set k v m).
Proof.
  intros H. induction m as [|[k' v'] m IH]; intros HF; cbn [sm_set]; [constructor; [exact H|constructor]|].
  inversion HF; subst. destruct (str_cmp k k'); constructor; auto.
Qed.
Lemma set_strings_ok p k v : params_ok p -> Zlen (p_str p) + 1 < 2 ^ 28 -> vec_len k -> vec_len v -> Forall vec_len v ->
  params_ok (set_strings p k v).
Proof.
  intros (H1 & H2 & (H3 & H4 & H5)) Hl Hk Hv Hf. split; [exact H1|]. split; [exact H2|]. unfold set_strings. cbn [p_str].
  split; [apply sm_set_ok; exact H3|]. split.
  - unfold vec_len. pose proof (sm_set_len k v (p_str p)). lia.
  - apply sm_set_Forall; [|exact H5]. cbn [fst snd]. auto.
Qed.
Lemma set_strings_same p k v ks : params_ok p -> In k ks -> same_params_but ks p (set_strings p k v).
Proof.
  intros (_ & _ & (H & _)) Hk. split; [reflexivity|]. split; [reflexivity|]. intros k' Hk'. unfold set_strings. cbn [p_str].
  rewrite sm_get_set by exact H. destruct (bytes_eqb k' k) eqn:E; [|reflexivity].
  apply bytes_eqb_eq in E. subst. contradiction.
Qed.
Lemma same_params_trans ks p q s : same_params_but ks p q -> same_params_but ks q s -> same_params_but ks p s.
Proof.
  intros (A1 & A2 & A3) (B1 & B2 & B3). split; [congruence|]. split; [congruence|].
  intros k Hk. rewrite B3, A3 by exact Hk. reflexivity.
Qed.
Lemma same_params_refl ks p : same_params_but ks p p.
Proof. repeat split; reflexivity. Qed.

(** what writing sets *)
Lemma default_value_same p k v ks : params_ok p -> In k ks -> same_params_but ks p (default_value p k v).
Proof.
  intros Hp Hk. unfold default_value. destruct (has_value p k); [apply same_params_refl|]. apply (set_strings_same p k [v] ks Hp Hk).
Qed.
Lemma default_value_sorted p k v : sm_ok (p_str p) -> sm_ok (p_str (default_value p k v)).
Proof. intros H. unfold default_value. destruct (has_value p k); [exact H|]. cbn [p_str]. apply sm_set_ok. exact H. Qed.
Lemma stored_params_same ty h c : params_ok (c_par c) -> same_params_but (own_keys ty) (c_par c) (stored_params ty h c).
Proof.
  intros Hp. destruct ty; try apply same_params_refl.
  - apply (set_strings_same (c_par c) alg_key _ [alg_key] Hp). left. reflexivity.
  - unfold stored_params. destruct (c_elems c) as [|a l]; [apply same_params_refl|].
    destruct (h a) as [x|]; [|apply same_params_refl]. destruct x; try apply same_params_refl. cbv zeta.
    pose proof (default_value_same (c_par c) typename_key (go_type o) (own_keys TGO) Hp (or_introl eq_refl)) as A.
    destruct (stores_fixed TGO h c); [|exact A]. eapply same_params_trans; [exact A|].
    destruct Hp as (_ & _ & (Hs & _)).
    pose proof (default_value_sorted _ typename_key (go_type o) Hs) as Hs1.
    set (p1 := default_value (c_par c) typename_key (go_type o)) in *. clearbody p1. unfold default_value.
    destruct (has_value p1 descr_key); [apply same_params_refl|]. split; [reflexivity|]. split; [reflexivity|].
    intros k Hk. cbn [p_str]. rewrite sm_get_set by exact Hs1. destruct (bytes_eqb k descr_key) eqn:E; [|reflexivity].
    apply bytes_eqb_eq in E. subst. elim Hk. right. left. reflexivity.
Qed.

(** ** initWriting and initReading *)

(** the vertex algorithms are a sorted set *)
Lemma ss_add_len k s : Zlen (ss_add k s) <= Zlen s + 1.
Proof.
  unfold ss_add. unfold Zlen. rewrite map_length. pose proof (sm_set_len k tt (map (fun x => (x, tt)) s)) as H.
  unfold Zlen in H. rewrite map_length in H. exact H.
Qed.
Lemma vertex_algs_eq h l : typed TVX h l -> forall s,
  vertex_algs h l s = Ok (fold_left (fun s a => match h a with Some (OVX v) => ss_add (vx_type v) s | _ => s end) l s).
Proof.
  induction l as [|a l IH]; intros Ht s; cbn [vertex_algs fold_left]; [reflexivity|].
  destruct (Ht a (or_introl eq_refl)) as (H0 & o & Ho & Hty). replace (a =? 0) with false by lia.
  rewrite Ho. destruct o; try discriminate. apply IH. intros b Hb. apply Ht. right. exact Hb.
Qed.
Lemma vertex_algs_spec h l : typed TVX h l -> forall s, StronglySorted str_lt s ->
  exists s', vertex_algs h l s = Ok s' /\ Zlen s' <= Zlen s + Zlen l /\
  (forall x, In x s' <-> In x s \/ exists a v, In a l /\ h a = Some (OVX v) /\ vx_type v = x).
Proof.
  induction l as [|a l IH]; intros Ht s Hs; cbn [vertex_algs].
  - exists s. split; [reflexivity|]. split; [unfold Zlen; cbn; lia|].
    intros x. split; [left; assumption|]. intros [H|(a & v & [] & _)]. exact H.
  - destruct (Ht a (or_introl eq_refl)) as (H0 & o & Ho & Hty). replace (a =? 0) with false by lia.
    rewrite Ho. destruct o; try discriminate.
    destruct (IH (fun b Hb => Ht b (or_intror Hb)) _ (ss_add_sorted (vx_type o) s Hs)) as (s' & H1 & H2 & H3).
    exists s'. split; [exact H1|]. split.
    { pose proof (ss_add_len (vx_type o) s). rewrite Zlen_cons. lia. }
    intros x. rewrite H3, ss_add_In by exact Hs. split.
    + intros [[->|Hx]|(b & v & Hb & Hv & Hx)]; [right|left; exact Hx|right].
      * exists a, o. split; [left; reflexivity|auto].
      * exists b, v. split; [right; exact Hb|auto].
    + intros [Hx|(b & v & [<-|Hb] & Hv & Hx)]; [left; right; exact Hx| |].
      * left. left. congruence.
      * right. exists b, v. auto.
Qed.

Lemma all_fixed_spec h l : typed TGO h l ->
  all_fixed h l = Ok (forallb (fun a => match h a with Some (OGO o) => go_fixed o | _ => false end) l).
Proof.
  induction l as [|a l IH]; intros Ht; [reflexivity|].
  destruct (Ht a (or_introl eq_refl)) as (H0 & o & Ho & Hty). cbn [all_fixed forallb].
  replace (a =? 0) with false by lia. rewrite Ho. destruct o; try discriminate.
  destruct (go_fixed o); [|reflexivity]. apply IH. intros b Hb. apply Ht. right. exact Hb.
Qed.

Lemma set_bit_word f n : word32 f -> 0 <= n < 32 -> word32 (set_bit f n).
Proof.
  intros Hf Hn. unfold word32, set_bit in *.
  assert (H0 : 0 <= Z.lor f (2 ^ n)) by (apply Z.lor_nonneg; split; [lia|apply Z.pow_nonneg; lia]).
  split; [exact H0|].
  destruct (Z.eq_dec (Z.lor f (2 ^ n)) 0) as [->|Hne]; [reflexivity|].
  apply Z.log2_lt_pow2; [lia|]. rewrite Z.log2_lor by (try apply Z.pow_nonneg; lia).
  apply Z.max_lub_lt.
  - destruct (Z.eq_dec f 0) as [->|Hf0]; [cbn; lia|]. apply Z.log2_lt_pow2; lia.
  - rewrite Z.log2_pow2 by lia. lia.
Qed.
Lemma set_bit_test f n m : 0 <= n -> Z.testbit (set_bit f n) m = Z.testbit f m || (n =? m).
Proof.
  intros Hn. unfold set_bit. rewrite Z.lor_spec. f_equal. apply Z.pow2_bits_eqb. exact Hn.
Qed.

(** the handler's state for the collection *)
Record hs_for (ty : otype) (h : heap) (c : coll) (hs : hstate) : Prop := {
  hf_flag : h_flag hs = stored_flag ty h c;
  hf_fixed : is_fixed hs = stores_fixed ty h c;
  hf_ok : hs_ok hs;
  hf_elems : forall a o, In a (c_elems c) -> h a = Some o -> type_of o = ty -> elem_ok (c_flag c) o -> obj_fits hs o
}.

Lemma obj_ok_flag31 flag algs sizes o : type_of o = TGO -> obj_ok (set_bit flag 31) algs sizes o = obj_ok flag algs sizes o.
Proof. destruct o; try discriminate. reflexivity. Qed.

Lemma get_string_some p k : sm_get k (p_str p) <> Some [] -> exists s, get_string_val p k = Ok s.
Proof.
  intros H. unfold get_string_val. destruct (sm_get k (p_str p)) as [[|s l]|]; [congruence|exists s|exists []]; reflexivity.
Qed.

Lemma get_string_has p k s : get_string_val p k = Ok s -> has_value p k = match s with [] => false | _ :: _ => true end.
Proof.
  unfold get_string_val, has_value. destruct (sm_get k (p_str p)) as [[|t l]|]; try discriminate; intros H; injection H as <-; reflexivity.
Qed.

Lemma key_ok k : In k [alg_key; typename_key; descr_key] -> vec_len k.
Proof. intros [<-|[<-|[<-|[]]]]; vm_compute; reflexivity. Qed.

Lemma reads_sizes r st s : int32 (fst (fst s)) -> int32 (snd (fst s)) -> int32 (snd s) ->
  reads r_sizes (renderR r (w_sizes s)) st st s.
Proof.
  destruct s as [[ni nf] nd]. cbn [fst snd]. intros H1 H2 H3. unfold r_sizes, w_sizes. rd. apply rret_nil.
Qed.
Lemma data_sizes s : all_data (w_sizes s).
Proof. destruct s as [[ni nf] nd]. unfold w_sizes. repeat apply data_app; apply data_i32. Qed.

Lemma init_spec ty h c : coll_ok ty h c ->
  exists p' hs w, init_writing ty h c = Ok (mkColl (c_type c) (stored_flag ty h c) p' (c_elems c), hs, w) /\
    hs_for ty h c hs /\ params_ok p' /\ p' = stored_params ty h c /\ all_data w /\
    forall r st, reads (init_reading ty cur_vers) (renderR r w) st st (p', hs).
Proof.
  intros (Hf & Hp & Hr & Hl & Hel & Hvx & Hgo).
  assert (G : forall cc, params_ok (c_par cc) -> all_data (init_writing0 cc)).
  { intros cc H2. unfold init_writing0. apply data_app; [apply data_u32|apply data_params; exact H2]. }
  assert (Dft : ty <> TVX -> ty <> TGO ->
    exists p' hs w, Ok (c, mkH (c_flag c) [] None, init_writing0 c) = Ok (mkColl (c_type c) (stored_flag ty h c) p' (c_elems c), hs, w) /\
    hs_for ty h c hs /\ params_ok p' /\ p' = stored_params ty h c /\ all_data w /\
    forall r st, reads (let* flag := r_u32 in let* p := r_when (vgt cur_vers 1 1) (r_params no_params) no_params in rret (p, mkH flag [] None)) (renderR r w) st st (p', hs)).
  { intros N1 N2. exists (c_par c), (mkH (c_flag c) [] None), (init_writing0 c).
    assert (E : stores_fixed ty h c = false) by (destruct ty; try reflexivity; contradiction).
    split. { unfold stored_flag. rewrite E. destruct c; reflexivity. }
    split. { split; [unfold stored_flag; rewrite E; reflexivity|rewrite E; reflexivity|vm_compute; reflexivity|].
             intros a o Ha Ho Hty He. unfold obj_fits. cbn [h_flag h_algs h_sizes].
             destruct o; cbn [type_of] in Hty; subst ty; try exact He; contradiction. }
    split; [exact Hp|]. split; [destruct ty; try reflexivity; contradiction|]. split; [apply G; exact Hp|].
    intros r st. unfold init_writing0. cur. rd.
    eapply rb_last; [apply rwhen_true, reads_params; exact Hp|cbv beta]. apply rret_nil. }
  destruct ty; try (apply Dft; discriminate).
  - (* Vertex *)
    clear Dft. destruct (Hvx eq_refl) as [Ht Hv]. cbn [init_writing].
    destruct (vertex_algs_spec h (c_elems c) Ht [] (SSorted_nil _)) as (algs & Ealgs & Hn & Hi). rewrite Ealgs. cbn [bind].
    assert (Eal : algs = vertex_types h (c_elems c)) by (rewrite vertex_algs_eq in Ealgs by exact Ht; injection Ealgs as <-; reflexivity).
    assert (Hva : vec_len algs) by (unfold vec_len in *; change (Zlen (@nil bytes)) with 0 in Hn; lia).
    assert (Hsf : Forall vec_len algs).
    { apply Forall_forall. intros x Hx. apply Hi in Hx. destruct Hx as [[]|(a & v & Ha & Hva' & <-)]. eapply Hv; eassumption. }
    set (p' := set_strings (c_par c) alg_key algs).
    assert (Hp' : params_ok p').
    { apply set_strings_ok; [exact Hp|lia|apply key_ok; cbn [In]; auto|exact Hva|exact Hsf]. }
    exists p'. eexists _, _. split; [reflexivity|]. split.
    { split; [reflexivity|reflexivity|exact Hva|]. intros a o Ha Ho Hty He. destruct o; try discriminate.
      unfold obj_fits. cbn [obj_ok h_algs]. split; [exact He|]. apply Hi. right. exists a, o. auto. }
    split; [exact Hp'|]. split; [unfold p'; rewrite Eal; reflexivity|]. split; [apply G; exact Hp'|].
    intros r st. unfold init_reading, init_writing0. cbn [c_flag c_par]. cur. rd.
    eapply rb_last; [apply rwhen_true, reads_params; exact Hp'|cbv beta]. apply rret_eq; [|reflexivity].
    unfold get_string_vals, p', set_strings. cbn [p_str].
    rewrite sm_get_set by (destruct Hp as (_ & _ & (Hs & _)); exact Hs).
    rewrite bytes_eqb_refl. reflexivity.
  - (* LCGenericObject *)
    clear Dft. destruct (Hgo eq_refl) as (Ht & He & (Hk & Hd & Hfx & Hsz)). cbn [init_writing].
    rewrite all_fixed_spec by exact Ht. cbn [bind].
    change (forallb _ (c_elems c)) with (stores_fixed TGO h c).
    set (first := match c_elems c with [] => None | a :: _ => match h a with Some (OGO o) => Some o | _ => None end end).
    assert (Hfirst : forall o, first = Some o -> exists a, In a (c_elems c) /\ h a = Some (OGO o)).
    { intros o Hfi. unfold first in Hfi. destruct (c_elems c) as [|a l]; [discriminate|]. exists a. split; [left; reflexivity|].
      destruct (h a) as [x|]; [|discriminate]. destruct x; try discriminate. congruence. }
    destruct (get_string_some (c_par c) typename_key) as [tn Etn]; [apply Hk; left; reflexivity|]. rewrite Etn. cbn [bind].
    set (p1 := match tn with [] => match first with Some o => set_strings (c_par c) typename_key [go_type o] | None => c_par c end | _ :: _ => c_par c end).
    assert (F1 : forall p o k s, first = Some o -> (s = go_type o \/ s = go_desc o) -> params_ok p -> Zlen (p_str p) + 1 < 2 ^ 28 ->
                 In k [typename_key; descr_key] -> params_ok (set_strings p k [s])).
    { intros p o k s Hfi Hs Hpp Hlen Hkk. destruct (Hfirst o Hfi) as (a & Ha & Hoa). destruct (Hd a o Ha Hoa) as [D1 D2].
      apply set_strings_ok; [exact Hpp|exact Hlen|apply key_ok; right; exact Hkk|reflexivity|].
      constructor; [destruct Hs; subst s; assumption|constructor]. }
    assert (Hp1 : params_ok p1 /\ Zlen (p_str p1) + 1 < 2 ^ 28 /\
                  p1 = match first with Some o => default_value (c_par c) typename_key (go_type o) | None => c_par c end /\
                  sm_get descr_key (p_str p1) = sm_get descr_key (p_str (c_par c))).
    { unfold p1. destruct tn as [|b tn].
      2:{ split; [exact Hp|]. split; [lia|]. split; [|reflexivity]. destruct first; [|reflexivity].
          unfold default_value. rewrite (get_string_has _ _ _ Etn). reflexivity. }
      destruct first as [o|] eqn:Efi; [|repeat split; try apply Hp; lia].
      split; [apply (F1 _ o); auto; [lia|left; reflexivity]|]. split.
      - unfold set_strings. cbn [p_str]. pose proof (sm_set_len typename_key [go_type o] (p_str (c_par c))). lia.
      - split; [unfold default_value; rewrite (get_string_has _ _ _ Etn); reflexivity|].
        unfold set_strings. cbn [p_str]. rewrite sm_get_set by (destruct Hp as (_ & _ & (Hs & _)); exact Hs). reflexivity. }
    clearbody p1. destruct Hp1 as (P1 & P2 & P3 & P4).
    assert (SPE : stored_params TGO h c = match first with
      | Some o => if stores_fixed TGO h c then default_value (default_value (c_par c) typename_key (go_type o)) descr_key (go_desc o)
                  else default_value (c_par c) typename_key (go_type o)
      | None => c_par c end).
    { unfold stored_params, first. destruct (c_elems c) as [|a l] eqn:El; [reflexivity|].
      destruct (Ht a (or_introl eq_refl)) as (_ & o & Ho & Hty). rewrite Ho. destruct o; try discriminate. reflexivity. }
    destruct (stores_fixed TGO h c) eqn:Efix.
    + destruct (get_string_some p1 descr_key) as [dd Edd]; [rewrite P4; apply Hk; right; left; reflexivity|].
      rewrite Edd. cbn [bind].
      set (p2 := match dd with [] => match first with Some o => set_strings p1 descr_key [go_desc o] | None => p1 end | _ :: _ => p1 end).
      assert (Hp2 : params_ok p2 /\ p2 = stored_params TGO h c).
      { rewrite SPE. unfold p2. destruct dd as [|b dd].
        2:{ split; [exact P1|]. destruct first as [o|]; [|exact P3].
            rewrite <- P3. unfold default_value. rewrite (get_string_has _ _ _ Edd). reflexivity. }
        destruct first as [o|] eqn:Efi; [|split; assumption]. split.
        - apply (F1 _ o); auto; try lia. right; left; reflexivity.
        - rewrite <- P3. unfold default_value at 1. rewrite (get_string_has _ _ _ Edd). reflexivity. }
      clearbody p2. destruct Hp2 as [Q1 Q2].
      destruct (Hsz eq_refl) as (s & S1 & S2 & S3 & S4).
      set (sizes := match first with Some o => go_sizes o | None => (0, 0, 0) end).
      assert (Hs0 : int32 (fst (fst sizes)) /\ int32 (snd (fst sizes)) /\ int32 (snd sizes) /\
                    (forall a o, In a (c_elems c) -> h a = Some (OGO o) -> genobj_sizes o = sizes)).
      { unfold sizes. destruct first as [o|] eqn:Efi.
        - destruct (Hfirst o eq_refl) as (a & Ha & Hoa). rewrite go_sizes_ok by (apply (He a (OGO o) Ha Hoa)).
          rewrite (S4 a o Ha Hoa). repeat split; try apply S1; try apply S2; try apply S3. exact S4.
        - assert (Hnil : c_elems c = []).
          { unfold first in Efi. destruct (c_elems c) as [|a l] eqn:El; [reflexivity|].
            destruct (Ht a (or_introl eq_refl)) as (_ & o & Ho & Hty). rewrite Ho in Efi. destruct o; discriminate. }
          rewrite Hnil. split; [cbn; unfold int32; lia|]. split; [cbn; unfold int32; lia|]. split; [cbn; unfold int32; lia|].
          intros a o []. }
      clearbody sizes. destruct Hs0 as (Z1 & Z2 & Z3 & Z4).
      exists p2. eexists _, _.
      split; [unfold stored_flag; rewrite Efix; reflexivity|]. split.
      { split; [unfold stored_flag; rewrite Efix; reflexivity|symmetry; exact Efix|vm_compute; reflexivity|].
        intros a o Ha Ho Hty Heo. destruct o; try discriminate. unfold obj_fits. cbn [obj_ok h_sizes].
        split; [exact Heo|]. eapply Z4; eassumption. }
      split; [exact Q1|]. split; [exact Q2|]. split; [apply data_app; [apply G; exact Q1|apply data_sizes]|].
      intros r st. unfold init_reading, init_writing0. cbn [c_flag c_par]. cur. rewrite <- app_assoc.
      assert (Hw : word32 (set_bit (c_flag c) GOBIT_FIXED)) by (apply set_bit_word; [exact Hf|unfold GOBIT_FIXED; lia]).
      rd. eapply rb; [apply rwhen_true, reads_params; exact Q1|cbv beta].
      replace (bit_set (set_bit (c_flag c) GOBIT_FIXED) GOBIT_FIXED) with true.
      2:{ unfold bit_set. rewrite set_bit_test by (unfold GOBIT_FIXED; lia). rewrite Z.eqb_refl, orb_true_r. reflexivity. }
      eapply rb_last; [eapply rb_last; [apply reads_sizes; assumption|cbv beta; apply rret_nil]|cbv beta]. apply rret_nil.
    + cbn [bind]. exists p1. eexists _, _.
      split; [unfold stored_flag; rewrite Efix; reflexivity|]. split.
      { split; [unfold stored_flag; rewrite Efix; reflexivity|symmetry; exact Efix|vm_compute; reflexivity|].
        intros a o Ha Ho Hty Heo. destruct o; try discriminate. unfold obj_fits. cbn [obj_ok h_sizes].
        split; [exact Heo|exact I]. }
      split; [exact P1|]. split; [rewrite SPE; exact P3|]. split; [apply data_app; [apply G; exact P1|apply data_nil]|].
      intros r st. unfold init_reading, init_writing0. cbn [c_flag c_par]. cur. rewrite app_nil_r.
      rd. eapply rb_last; [apply rwhen_true, reads_params; exact P1|cbv beta].
      replace (bit_set (c_flag c) GOBIT_FIXED) with false.
      2:{ unfold bit_set, GOBIT_FIXED. destruct (Z.testbit (c_flag c) 31); [|reflexivity]. apply Hfx. reflexivity. }
      eapply rb_none; [apply reads_ret|cbv beta]. apply rret_nil.
Qed.

(** ** The elements *)

Lemma write_obj_ok ty hs a o : type_of o = ty -> obj_fits hs o -> exists w, write_obj ty hs a o = Ok w.
Proof.
  intros Hty Ho. unfold obj_fits in Ho.
  destruct o; cbn [type_of] in Hty; subst ty; cbn [write_obj]; try (eexists; reflexivity).
  - cbn [obj_ok] in Ho. destruct Ho as [Ho Hf]. unfold write_cluster.
    destruct (bit_set (h_flag hs) CLBIT_HITS) eqn:Eb; [|eexists; reflexivity].
    unfold write_hits. specialize (Hf Eb).
    assert (H14 : vec_len (cl_hits o)) by (unfold cluster_ok in Ho; tauto).
    rewrite cnt_len by exact H14. unfold Zlen in *. rewrite Nat2Z.id.
    replace (length (cl_weights o)) with (length (cl_hits o)) by lia. rewrite Nat.ltb_irrefl. eexists. reflexivity.
  - cbn [obj_ok] in Ho. destruct Ho as [Ho Hs]. unfold write_genobj.
    assert (E : match h_sizes hs with Some s => s | None => go_sizes o end = genobj_sizes o)
      by (destruct (h_sizes hs); [symmetry; exact Hs|apply go_sizes_ok; exact Ho]).
    rewrite E. unfold genobj_sizes. rewrite !go_vals_all. eexists. reflexivity.
Qed.

Lemma reads_try {A} (m : RD A) bs st st' a : reads m bs st st' a -> reads (r_try m) bs st st' a.
Proof. intros H pre post. unfold r_try. rewrite H. reflexivity. Qed.

Lemma numbers_app f a b n : numbers f (a ++ b) n -> numbers f a n /\ numbers f b (n + Zlen a).
Proof.
  intros H. split; intros i x Hx.
  - apply H. rewrite nth_error_app1; [exact Hx|]. apply nth_error_Some. congruence.
  - rewrite (H (length a + i)%nat).
    + unfold Zlen. lia.
    + rewrite nth_error_app2 by lia. replace (length a + i - length a)%nat with i by lia. exact Hx.
Qed.

Lemma write_elems_ok ty hs h l : typed ty h l ->
  (forall a o, In a l -> h a = Some o -> obj_fits hs o) ->
  exists ws, write_elems ty hs h l = Ok ws /\
    shape ws (flat_map (fun a => match h a with Some o => owned o ++ (if pointable (h_flag hs) o then [a] else []) | None => [] end) l)
             (flat_map (fun a => match h a with Some o => refs (stored (h_flag hs) (is_fixed hs) o) | None => [] end) l).
Proof.
  induction l as [|a l IH]; intros Ht Hf.
  - exists []. split; [reflexivity|apply shape_data, data_nil].
  - destruct (Ht a (or_introl eq_refl)) as (H0 & o & Ho & Hty). cbn [write_elems flat_map].
    replace (a =? 0) with false by lia. rewrite Ho.
    pose proof (Hf a o (or_introl eq_refl) Ho) as Hfit.
    destruct (write_obj_ok ty hs a o Hty Hfit) as [w Hw]. rewrite Hw. cbn [bind].
    destruct IH as (ws & -> & Hsh); [intros b Hb; apply Ht; right; exact Hb|intros b x Hb; apply Hf; right; exact Hb|].
    exists (w ++ ws). split; [reflexivity|]. apply shape_app; [|exact Hsh]. eapply shape_obj; eassumption.
Qed.

Definition read_elem srt (ty : otype) (hs : hstate) : RD (addr * obj) :=
  let* na := r_new in let* o := r_try (read_obj srt ty cur_vers hs na) in rret (na, o).

(** the copies of the elements *)
Definition copies srt (new ptr : addr -> addr) (flag : Z) (fixed : bool) (h : heap) (l : list addr) : list (addr * obj) :=
  flat_map (fun a => match h a with Some o => [(new a, read_copy srt new ptr flag fixed o)] | None => [] end) l.

Lemma reads_elems srt ty hs h r all new l : rho_ok all r -> typed ty h l ->
  (forall a o, In a l -> h a = Some o -> obj_fits hs o) -> hs_ok hs ->
  forall ws st, write_elems ty hs h l = Ok ws -> numbers new (own_objs h l) (snd st) ->
  reads (r_repeat (length l) (read_elem srt ty hs)) (renderR r ws) st
    (tags_state r new ws (fst st), snd st + Zlen (own_objs h l))
    (copies srt new (ptrw r) (h_flag hs) (is_fixed hs) h l).
Proof.
  intros Hro. induction l as [|a l IH]; intros Ht Hf Hh ws st Hw Hn.
  - cbn [write_elems] in Hw. apply Ok_inj in Hw. subst ws. cbn [length r_repeat own_objs flat_map].
    replace (tags_state r new [] (fst st), snd st + Zlen []) with st; [apply reads_ret|].
    destruct st. unfold tags_state, Zlen. cbn. rewrite Z.add_0_r. reflexivity.
  - destruct (Ht a (or_introl eq_refl)) as (H0 & o & Ho & Hty). cbn [write_elems] in Hw.
    replace (a =? 0) with false in Hw by lia. rewrite Ho in Hw.
    pose proof (Hf a o (or_introl eq_refl) Ho) as Hfit.
    unfold bind in Hw. destruct (write_obj ty hs a o) as [w| |] eqn:Ew; try discriminate.
    destruct (write_elems ty hs h l) as [ws'| |] eqn:Ews; try discriminate.
    apply Ok_inj in Hw. subst ws.
    unfold own_objs in *. cbn [flat_map] in Hn. cbn [flat_map length r_repeat copies]. rewrite Ho in *.
    change (((a :: owned o) ++ flat_map (fun a => a :: match h a with Some o => owned o | None => [] end) l))
      with ([a] ++ (owned o ++ flat_map (fun a => a :: match h a with Some o => owned o | None => [] end) l)) in *.
    destruct (numbers_app _ _ _ _ Hn) as [N1 N2]. destruct (numbers_app _ _ _ _ N2) as [N3 N4].
    change (Zlen [a]) with 1 in *.
    assert (Ena : new a = snd st) by (rewrite (N1 0%nat a eq_refl); lia).
    eapply rb.
    + unfold read_elem. eapply rb_none; [apply reads_new|cbv beta]. rewrite <- Ena.
      eapply rb_last; [apply reads_try; eapply (reads_obj srt ty hs a o w r all new); try eassumption|cbv beta; apply rret_nil].
      cbn [snd]. rewrite Ena. exact N3.
    + cbv beta. cbn [fst snd]. 
      apply (reads_map _ (fun xs => _ :: xs)).
      replace (tags_state r new (w ++ ws') (fst st), _) with
        (tags_state r new ws' (fst (tags_state r new w (fst st), new a + 1 + Zlen (owned o))),
         snd (tags_state r new w (fst st), new a + 1 + Zlen (owned o)) + Zlen (own_objs h l)).
      * apply IH; [intros b Hb; apply Ht; right; exact Hb|intros b x Hb; apply Hf; right; exact Hb|exact Hh|reflexivity|].
        cbn [snd]. rewrite Ena. exact N4.
      * cbn [fst snd]. rewrite tags_state_app, !Zlen_app. change (Zlen [a]) with 1. f_equal. rewrite Ena. unfold own_objs. lia.
Qed.

(** ** Collections *)

Lemma stored_flag_subset ty h c : Z.testbit (stored_flag ty h c) 18 = is_subset c.
Proof.
  unfold stored_flag, is_subset. destruct (stores_fixed ty h c); [|reflexivity].
  change (Z.lor (c_flag c) (2 ^ 31)) with (set_bit (c_flag c) 31). rewrite set_bit_test by lia. apply orb_false_r.
Qed.
Lemma fixed_is_go ty h c : stores_fixed ty h c = true -> ty = TGO.
Proof. destruct ty; try discriminate. reflexivity. Qed.

Lemma go_stored_flag ty h c o fx : type_of o = ty ->
  pointable (stored_flag ty h c) o = pointable (c_flag c) o /\
  stored (stored_flag ty h c) fx o = stored (c_flag c) fx o.
Proof.
  intros Hty. unfold stored_flag. destruct (stores_fixed ty h c) eqn:E; [|split; reflexivity].
  apply fixed_is_go in E. rewrite E in Hty. destruct o; try discriminate. split; reflexivity.
Qed.

Lemma flat_map_ext_in {A B} (f g : A -> list B) l : (forall a, In a l -> f a = g a) -> flat_map f l = flat_map g l.
Proof.
  induction l as [|a l IH]; intros H; [reflexivity|]. cbn [flat_map].
  rewrite (H a) by (left; reflexivity). rewrite IH by (intros; apply H; right; assumption). reflexivity.
Qed.

Theorem coll_spec srt ty h c : coll_ok ty h c ->
  exists p' w, write_coll ty h c = Ok (mkColl (c_type c) (stored_flag ty h c) p' (c_elems c), w) /\
    params_ok p' /\ p' = stored_params ty h c /\
    shape w (coll_tags h c) (coll_refs ty h c) /\
    forall r all new st, rho_ok all r -> numbers new (coll_objs h c) (snd st) ->
      reads (read_coll srt ty cur_vers) (renderR r w) st
        (tags_state r new w (fst st), snd st + Zlen (coll_objs h c))
        (mkRC (stored_flag ty h c) p'
              (if is_subset c then map (ptrw r) (c_elems c) else map new (c_elems c))
              (if is_subset c then [] else copies srt new (ptrw r) (stored_flag ty h c) (stores_fixed ty h c) h (c_elems c))).
Proof.
  intros Hc. destruct (init_spec ty h c Hc) as (p' & hs & w & Hw & [F1 F2 F3 F4] & Hp & Hsame & Hd & Hr).
  destruct Hc as (Hf & Hpar & Hroom & Hl & Hel & _).
  exists p'. unfold write_coll. rewrite Hw. cbn [bind].
  assert (Hsub : bit_set (h_flag hs) BITSubset = is_subset c) by (rewrite F1; apply stored_flag_subset).
  rewrite Hsub. unfold coll_tags, coll_refs, coll_objs. destruct (is_subset c) eqn:Es.
  - eexists. split; [reflexivity|]. split; [exact Hp|]. split; [exact Hsame|]. split.
    + rewrite upto_id by exact Hl. apply shape_data_app; [exact Hd|]. apply shape_data_app; [apply data_i32|]. apply shape_ptrs.
    + intros r all new st Hro Hn. unfold read_coll.
      eapply rb; [apply Hr|cbv beta iota]. eapply rb; [apply rcnt; exact Hl|cbv beta].
      replace (Zlen (c_elems c) <? 0) with false by (pose proof (Zlen_nonneg (c_elems c)); lia).
      rewrite Hsub. eapply rb_last; [apply rloop; [exact Hl|intros x _; apply (rptr r all); exact Hro]|cbv beta].
      apply rret_eq; [rewrite F1; reflexivity|].
      assert (E : tags (w ++ w_i32 (cnt (c_elems c)) ++ w_ptrs (upto (c_elems c))) = []).
      { apply (sh_tags _ _ (upto (c_elems c))). apply shape_data_app; [exact Hd|].
        apply shape_data_app; [apply data_i32|]. apply shape_ptrs. }
      unfold tags_state. rewrite E. destruct st. unfold Zlen. cbn. rewrite Z.add_0_r. reflexivity.
  - destruct (Hel eq_refl) as [Ht He].
    assert (Hfit : forall a o, In a (c_elems c) -> h a = Some o -> obj_fits hs o).
    { intros a o Ha Ho. apply (F4 a o Ha Ho); [|eapply He; eassumption].
      destruct (Ht a Ha) as (_ & o' & Ho' & Hty). congruence. }
    destruct (write_elems_ok ty hs h (c_elems c) Ht Hfit) as (ws & Hws & Hsh).
    rewrite upto_id by exact Hl. rewrite Hws. cbn [bind].
    eexists. split; [reflexivity|]. split; [exact Hp|]. split; [exact Hsame|]. split.
    + apply shape_data_app; [exact Hd|]. apply shape_data_app; [apply data_i32|].
      eapply shape_eq; [exact Hsh| |].
      * apply flat_map_ext_in. intros a Ha. destruct (Ht a Ha) as (_ & o & -> & Hty).
        rewrite F1, (proj1 (go_stored_flag ty h c o true Hty)). reflexivity.
      * apply flat_map_ext_in. intros a Ha. destruct (Ht a Ha) as (_ & o & -> & Hty).
        rewrite F1, F2, (proj2 (go_stored_flag ty h c o (stores_fixed ty h c) Hty)). reflexivity.
    + intros r all new st Hro Hn. unfold read_coll.
      eapply rb; [apply Hr|cbv beta iota]. eapply rb; [apply rcnt; exact Hl|cbv beta].
      replace (Zlen (c_elems c) <? 0) with false by (pose proof (Zlen_nonneg (c_elems c)); lia).
      rewrite Hsub. eapply rb_last.
      { unfold r_loop, Zlen. rewrite Nat2Z.id. apply (reads_elems srt ty hs h r all new (c_elems c) Hro Ht Hfit F3 ws st Hws Hn). }
      cbv beta. apply rret_eq.
      * rewrite F1, F2. f_equal. clear - Ht. revert Ht. generalize (c_elems c) as l.
        induction l as [|a l IH]; intros Ht; [reflexivity|]. cbn [copies flat_map map].
        destruct (Ht a (or_introl eq_refl)) as (_ & o & -> & _). rewrite map_app. cbn [map fst app]. f_equal.
        apply IH. intros b Hb. apply Ht. right. exact Hb.
      * rewrite !tags_state_app. f_equal.
        f_equal. unfold tags_state. rewrite (data_tags _ Hd), (data_tags (w_i32 _) (data_i32 _)). reflexivity.
Qed.

(** ** The order of the particle ids *)

Section Sorting.
Context (srt : forall A : Type, (A -> Z) -> list A -> list A) (Hsrt : sort_ok srt).

Lemma strict_unique {A} (key : A -> Z) l l' : StronglySorted (fun x y => f_gt (key x) (key y) = true) l ->
  StronglySorted (fun x y => f_gt (key y) (key x) = false) l' -> Permutation l' l -> l' = l.
Proof.
  revert l'. induction l as [|a t IH]; intros l' H1 H2 Hp.
  - apply Permutation_sym, Permutation_nil in Hp. exact Hp.
  - destruct l' as [|b t']; [apply Permutation_nil in Hp; discriminate|].
    inversion H1 as [|? ? A1 A2]; subst. inversion H2 as [|? ? B1 B2]; subst.
    rewrite Forall_forall in A2, B2.
    assert (E : b = a).
    { assert (Hb : In b (a :: t)) by (eapply Permutation_in; [exact Hp|left; reflexivity]).
      assert (Ha : In a (b :: t')) by (eapply Permutation_in; [apply Permutation_sym, Hp|left; reflexivity]).
      destruct Hb as [Hb|Hb]; [auto|]. destruct Ha as [Ha|Ha]; [auto|].
      specialize (A2 b Hb). specialize (B2 a Ha). congruence. }
    subst b. f_equal. apply IH; [exact A1|exact B1|]. eapply Permutation_cons_inv. exact Hp.
Qed.

Lemma add_pids_perm {A} (key : A -> Z) l : Forall (fun x => f_nan (key x) = false) l ->
  Permutation (add_pids srt key l) l /\ StronglySorted (fun x y => f_gt (key y) (key x) = false) (add_pids srt key l).
Proof.
  induction l as [|p l IH] using rev_ind; intros H; [split; constructor|].
  apply Forall_app in H. destruct H as [H1 H2]. destruct (IH H1) as [I1 I2].
  unfold add_pids in *. rewrite fold_left_app. cbn [fold_left].
  set (acc := fold_left _ l []) in *.
  assert (Hn : Forall (fun x => f_nan (key x) = false) (acc ++ [p])).
  { apply Forall_app. split; [|exact H2]. eapply Permutation_Forall; [apply Permutation_sym, I1|exact H1]. }
  destruct (Hsrt A key _ Hn) as [S1 S2]. split; [|exact S2].
  eapply Permutation_trans; [exact S1|]. apply Permutation_app_tail. exact I1.
Qed.

Lemma add_pids_strict {A} (key : A -> Z) l : Forall (fun x => f_nan (key x) = false) l ->
  StronglySorted (fun x y => f_gt (key x) (key y) = true) l -> add_pids srt key l = l.
Proof.
  intros H1 H2. destruct (add_pids_perm key l H1) as [P1 P2]. eapply strict_unique; eassumption.
Qed.

Lemma sorted_map {A B} (f : A -> B) (R : B -> B -> Prop) l :
  StronglySorted R (map f l) -> StronglySorted (fun x y => R (f x) (f y)) l.
Proof.
  induction l as [|a l IH]; intros H; [constructor|]. cbn in H. inversion H as [|? ? H1 H2]; subst.
  constructor; [apply IH; exact H1|]. rewrite Forall_map in H2. exact H2.
Qed.

(** objects whose particle ids are in strictly descending order stay as they are *)
Lemma resort_id o : likes_desc o -> resort srt o = o.
Proof.
  intros [H1 H2]. destruct o; cbn [resort likes] in *; try reflexivity.
  - rewrite add_pids_strict; [destruct o; reflexivity|rewrite Forall_map in H1; exact H1|apply sorted_map in H2; exact H2].
  - rewrite add_pids_strict; [destruct o; reflexivity| |].
    + rewrite Forall_map in H1. exact H1.
    + apply (sorted_map (fun ap : addr * pid => pi_like (snd ap))) in H2. exact H2.
Qed.
End Sorting.

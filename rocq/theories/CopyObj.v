(** * Copies of copies: objects

    An object that was read back and is stored again comes back as the same object. *)

From Coq Require Import Permutation Sorted.
From Verif Require Import Bytes StrMap SioModel SioSpec Ieee ObjModel ObjSpec CollSpec EventSpec EventFacts CollProofs.

Ltac Zify.zify_post_hook ::= Z.div_mod_to_equations.

(** ** A double that went through a float once *)

Lemma lor_set a n : 0 <= n -> Z.testbit a n = true -> Z.lor a (2 ^ n) = a.
Proof.
  intros Hn H. apply Z.bits_inj'. intros i Hi. rewrite Z.lor_spec, Z.pow2_bits_eqb by exact Hn.
  destruct (n =? i) eqn:E; [|apply orb_false_r]. apply Z.eqb_eq in E. subst i. rewrite H. reflexivity.
Qed.

Lemma quiet_again w : is_u32 w -> f_exp w = 255 -> Z.testbit (f_frac w) 22 = true -> d2f (f2d w) = w.
Proof.
  unfold is_u32, two32. intros Hw He Hq.
  assert (Hs : 0 <= f_sign w <= 1) by (unfold f_sign; lia).
  assert (Hm : 0 <= f_frac w < 8388608) by (unfold f_frac; lia).
  assert (Hwe : w = f_sign w * 2147483648 + f_exp w * 8388608 + f_frac w) by (unfold f_sign, f_exp, f_frac; lia).
  unfold f2d. cbv zeta. rewrite He in *. set (s := f_sign w) in *. set (m := f_frac w) in *. clearbody s m.
  cbn [Z.eqb Pos.eqb]. assert (E : (m =? 0) = false).
  { apply Z.eqb_neq. intros ->. rewrite Z.bits_0 in Hq. discriminate. }
  rewrite E. rewrite lor_set; [|lia|].
  2:{ rewrite Z.mul_pow2_bits by lia. exact Hq. }
  destruct (d_fields s 2047 (m * 2 ^ 29) Hs ltac:(lia) ltac:(lia)) as (H1 & H2 & H3).
  unfold d2f. cbv zeta. rewrite H1, H2, H3. cbn [Z.eqb Pos.eqb].
  replace (m * 2 ^ 29 =? 0) with false by lia. rewrite Z.div_mul by lia. rewrite lor_set by (try exact Hq; lia). lia.
Qed.

Lemma d2f_quiet d : is_u64 d -> f_nan (d2f d) = true -> f_exp (d2f d) = 255 /\ Z.testbit (f_frac (d2f d)) 22 = true.
Proof.
  unfold is_u64, two64. intros Hd. unfold f_nan. intros Hn. apply andb_true_iff in Hn. destruct Hn as [He Hf].
  apply Z.eqb_eq in He. split; [exact He|]. apply negb_true_iff, Z.eqb_neq in Hf.
  unfold d2f, f_exp, f_frac in *. cbv zeta in *.
  assert (0 <= d / 2 ^ 63 <= 1) by (change (2 ^ 63) with 9223372036854775808; lia).
  set (s := d / 2 ^ 63) in *.
  assert (0 <= d mod 2 ^ 52 < 2 ^ 52) by (apply Z.mod_pos_bound; lia). set (m := d mod 2 ^ 52) in *.
  assert (0 <= (d / 2 ^ 52) mod 2048 < 2048) by (apply Z.mod_pos_bound; lia). set (e := (d / 2 ^ 52) mod 2048) in *.
  clearbody s m e. change (2 ^ 52) with 4503599627370496 in *.
  destruct (e =? 2047) eqn:E1.
  - destruct (m =? 0) eqn:E0; [lia|].
    pose proof (lor_range (m / 2 ^ 29) 22 ltac:(lia)) as R. change (2 ^ (22 + 1)) with 8388608 in R.
    assert (Q : Z.testbit (Z.lor (m / 2 ^ 29) (2 ^ 22)) 22 = true).
    { rewrite Z.lor_spec, Z.pow2_bits_eqb by lia. apply orb_true_r. }
    assert (R2 : 0 <= m / 2 ^ 29 < 8388608) by (change (2 ^ 29) with 536870912; lia). specialize (R R2).
    set (l := Z.lor (m / 2 ^ 29) (2 ^ 22)) in *. clearbody l.
    replace ((s * 2147483648 + 255 * 8388608 + l) mod 8388608) with l by lia. exact Q.
  - exfalso. destruct (e =? 0) eqn:E2; [lia|].
    match type of He with context [Z.min ?x _] => assert (Hx : 0 <= x) end.
    { destruct (897 <=? e) eqn:E3.
      - pose proof (rne_range (4503599627370496 + m) 29 ltac:(lia) ltac:(lia)) as R. change (2 ^ 29) with 536870912 in *. lia.
      - pose proof (rne_range (4503599627370496 + m) (29 + (897 - e)) ltac:(lia) ltac:(lia)) as R.
        assert (0 <= (4503599627370496 + m) / 2 ^ (29 + (897 - e))) by (apply Z.div_pos; [lia|apply Z.pow_pos_nonneg; lia]).
        lia. }
    revert He Hf Hx. match goal with |- context [Z.min ?x _] => generalize x end. intros x He Hf Hx. clear - H He Hf Hx. lia.
Qed.

Lemma as_float_idem d : word64 d -> as_float (as_float d) = as_float d.
Proof.
  intros Hd. unfold as_float. f_equal. assert (Hu : is_u64 d) by (unfold word64 in Hd; unfold is_u64, two64; lia).
  pose proof (d2f_range d Hu) as Hw. destruct (f_nan (d2f d)) eqn:En.
  - destruct (d2f_quiet d Hu En) as [A B]. apply quiet_again; assumption.
  - apply d2f_f2d; assumption.
Qed.
Lemma as_float_word d : word64 d -> word64 (as_float d).
Proof.
  intros Hd. assert (Hu : is_u64 d) by (unfold word64 in Hd; unfold is_u64, two64; lia).
  pose proof (f2d_range _ (d2f_range d Hu)) as R. unfold is_u64, two64 in R. unfold word64, as_float. lia.
Qed.

(** ** The copy of a copy *)

Lemma map_as_float_idem l : Forall word64 l -> map as_float (map as_float l) = map as_float l.
Proof. intros H. rewrite map_map. apply map_ext_in. intros x Hx. rewrite Forall_forall in H. apply as_float_idem. auto. Qed.

Section Again.
Context (n1 n2 t1 t2 : addr -> addr).

Lemma copy_again flag fixed ds o : elem_ok flag o ->
  map_refs t2 (map_owned n2 (stored flag fixed (more ds (map_refs t1 (map_owned n1 (stored flag fixed o))))))
  = map_refs (fun a => t2 (t1 a)) (map_owned (fun a => n2 (n1 a)) (stored flag fixed o)).
Proof.
  intros Ho.
  destruct o as [o|o|o|o|o|o|o|o|o|o|o|o|o|o|o|o|o|o|o|o|o]; cbn [elem_ok obj_ok] in Ho.
  - destruct Ho as (_ & _ & _ & _ & _ & _ & (_ & H7) & H8 & _ & _ & (_ & H11) & _). destruct o. cbn -[as_float Z.testbit] in *. unfold stored_mcp, map_refs_mcp. cbn -[as_float Z.testbit].
    rewrite map_as_float_idem by exact H7. rewrite as_float_idem by exact H8. rewrite !map_map.
    do 2 f_equal; destruct (Z.testbit mc_sim 31); cbn [kept]; try reflexivity. apply map_as_float_idem. exact H11.
  - destruct o. cbn -[Z.testbit]. unfold stored_simcalhit, map_refs_simcalhit. cbn -[Z.testbit]. rewrite !map_map. do 2 f_equal.
    1,2: unfold kept; destruct (Z.testbit flag _); reflexivity.
    apply map_ext. intros c. unfold stored_cont, map_refs_cont. cbn -[Z.testbit]. unfold kept. destruct (Z.testbit flag 28); reflexivity.
  - destruct o. cbn -[Z.testbit]. unfold stored_rawcalhit. cbn -[Z.testbit]. unfold kept. do 2 f_equal; destruct (Z.testbit flag _); reflexivity.
  - destruct o. cbn -[Z.testbit]. unfold stored_calhit, map_refs_calhit. cbn -[Z.testbit]. unfold kept. do 2 f_equal; destruct (Z.testbit flag _); reflexivity.
  - destruct o. cbn -[Z.testbit]. unfold stored_simtrkhit, map_refs_simtrkhit. cbn -[Z.testbit]. unfold kept. do 2 f_equal; destruct (Z.testbit flag _); reflexivity.
  - destruct o. cbn -[Z.testbit]. unfold stored_tpchit. cbn -[Z.testbit]. unfold kept. do 2 f_equal; destruct (Z.testbit flag _); reflexivity.
  - destruct o. cbn -[Z.testbit]. unfold stored_trkraw. cbn -[Z.testbit]. unfold kept. do 2 f_equal; destruct (Z.testbit flag _); reflexivity.
  - destruct o. cbn -[Z.testbit]. unfold stored_trkdata. cbn -[Z.testbit]. unfold kept. do 2 f_equal; destruct (Z.testbit flag _); reflexivity.
  - destruct o. cbn -[Z.testbit]. unfold stored_trkpulse, map_refs_trkpulse. cbn -[Z.testbit]. unfold kept. do 2 f_equal; destruct (Z.testbit flag _); reflexivity.
  - destruct o. cbn -[Z.testbit]. unfold stored_trkhit, map_refs_trkhit. cbn -[Z.testbit]. unfold kept. do 2 f_equal; try apply map_map; destruct (Z.testbit flag _); reflexivity.
  - destruct o. cbn -[Z.testbit]. unfold stored_trkhitp, map_refs_trkhitp. cbn -[Z.testbit]. unfold kept. do 2 f_equal; try apply map_map; destruct (Z.testbit flag _); reflexivity.
  - destruct o. cbn -[Z.testbit]. unfold stored_trkhitz, map_refs_trkhitz. cbn -[Z.testbit]. unfold kept. do 2 f_equal; try apply map_map; destruct (Z.testbit flag _); reflexivity.
  - destruct o. cbn -[Z.testbit]. unfold stored_track, map_refs_track. cbn -[Z.testbit]. unfold kept. do 2 f_equal; try apply map_map; destruct (Z.testbit flag _); try reflexivity; apply map_map.
  - destruct o. cbn -[Z.testbit]. unfold stored_cluster, map_refs_cluster. cbn -[Z.testbit]. unfold kept. do 2 f_equal; try apply map_map; destruct (Z.testbit flag _); try reflexivity; apply map_map.
  - destruct Ho as (_ & (_ & H2) & H3 & _ & H5 & _). destruct o. cbn -[as_float Z.testbit] in *. unfold stored_recp, map_refs_recp. cbn -[as_float Z.testbit].
    rewrite map_as_float_idem by exact H2. rewrite !as_float_idem by assumption. rewrite !map_map. reflexivity.
  - destruct o. cbn -[Z.testbit]. unfold stored_lcrel, map_refs_lcrel. cbn -[Z.testbit]. unfold kept. do 2 f_equal; destruct (Z.testbit flag _); reflexivity.
  - destruct o. cbn -[Z.testbit]. unfold stored_vertex, map_refs_vertex. cbn -[Z.testbit]. do 2 f_equal. destruct (vx_primary =? 0); reflexivity.
  - reflexivity.
  - reflexivity.
  - reflexivity.
  - reflexivity.
Qed.

End Again.

Section Copied.
Context (n1 t1 : addr -> addr) (flag : Z) (fixed : bool) (ds : list addr).
Definition copied (o : obj) : obj := more ds (map_refs t1 (map_owned n1 (stored flag fixed o))).

Lemma Zlen_map {A B} (f : A -> B) l : Zlen (map f l) = Zlen l.
Proof. unfold Zlen. rewrite map_length. reflexivity. Qed.
Lemma vec_map {A B} (f : A -> B) l : vec_len l -> vec_len (map f l).
Proof. unfold vec_len. rewrite Zlen_map. auto. Qed.
Lemma zeros_floats : floats 3 [0; 0; 0].
Proof. split; [reflexivity|]. repeat (apply Forall_cons; [unfold word32; lia|]). apply Forall_nil. Qed.
Lemma zeros_doubles : doubles 3 [0; 0; 0].
Proof. split; [reflexivity|]. repeat (apply Forall_cons; [unfold word64; lia|]). apply Forall_nil. Qed.
Lemma kept_of {A} (P : A -> Prop) b x d : P x -> P d -> P (kept b x d).
Proof. destruct b; auto. Qed.
Lemma as_floats n l : doubles n l -> doubles n (map as_float l).
Proof.
  intros [H1 H2]. split; [rewrite Zlen_map; exact H1|]. apply Forall_forall. intros x Hx. apply in_map_iff in Hx.
  destruct Hx as (y & <- & Hy). apply as_float_word. rewrite Forall_forall in H2. auto.
Qed.
Lemma i0 : int32 0. Proof. unfold int32. lia. Qed.
Lemma w0 : word32 0. Proof. unfold word32. lia. Qed.
Lemma vnil {A} : vec_len (@nil A). Proof. unfold vec_len. reflexivity. Qed.

Ltac conjs := repeat match goal with |- _ /\ _ => split end.
Ltac part := first [assumption | apply vec_map; assumption | apply as_floats; assumption | apply as_float_word; assumption
  | apply kept_of; part | apply zeros_floats | apply zeros_doubles | apply i0 | apply w0 | apply vnil | apply Forall_nil ].

Lemma elem_copied o : elem_ok flag o -> elem_ok flag (copied o).
Proof.
  intros Ho. unfold copied.
  destruct o as [o|o|o|o|o|o|o|o|o|o|o|o|o|o|o|o|o|o|o|o|o]; cbn [elem_ok obj_ok] in Ho;
    cbn -[as_float Z.testbit]; cbn [elem_ok obj_ok].
  - unfold mcp_ok in *. cbn -[as_float Z.testbit]. decompose [and] Ho. conjs; part.
  - unfold simcalhit_ok in *. cbn -[as_float Z.testbit]. decompose [and] Ho. conjs; try part.
    + apply vec_map, vec_map. assumption.
    + rewrite map_map. apply Forall_forall. intros x Hx. apply in_map_iff in Hx. destruct Hx as (c & <- & Hc).
      match goal with H : Forall cont_ok _ |- _ => rewrite Forall_forall in H; specialize (H c Hc); unfold cont_ok in H; decompose [and] H end.
      unfold cont_ok. cbn -[Z.testbit]. conjs; part.
  - unfold rawcalhit_ok in *. cbn -[as_float Z.testbit]. decompose [and] Ho. conjs; part.
  - unfold calhit_ok in *. cbn -[as_float Z.testbit]. decompose [and] Ho. conjs; part.
  - unfold simtrkhit_ok in *. cbn -[as_float Z.testbit]. decompose [and] Ho. conjs; part.
  - unfold tpchit_ok in *. cbn -[as_float Z.testbit]. decompose [and] Ho. conjs; part.
  - unfold trkraw_ok in *. cbn -[as_float Z.testbit]. decompose [and] Ho. conjs; part.
  - unfold trkdata_ok in *. cbn -[as_float Z.testbit]. decompose [and] Ho. conjs; part.
  - unfold trkpulse_ok in *. cbn -[as_float Z.testbit]. decompose [and] Ho. conjs; part.
  - unfold trkhit_ok in *. cbn -[as_float Z.testbit]. decompose [and] Ho. conjs; part.
  - unfold trkhitp_ok in *. cbn -[as_float Z.testbit]. decompose [and] Ho. conjs; part.
  - unfold trkhitz_ok in *. cbn -[as_float Z.testbit]. decompose [and] Ho. conjs; part.
  - unfold track_ok in *. cbn -[as_float Z.testbit]. decompose [and] Ho. conjs; part.
  - destruct Ho as [Ho Hf]. split.
    + unfold cluster_ok in *. cbn -[as_float Z.testbit]. decompose [and] Ho. conjs; part.
    + unfold cluster_fits in *. cbn -[Z.testbit]. intros E. rewrite E. cbn [kept]. rewrite Zlen_map. auto.
  - unfold recp_ok in *. cbn -[as_float Z.testbit]. decompose [and] Ho. conjs; try part.
    apply Forall_forall. intros x Hx. apply in_map_iff in Hx. destruct Hx as (y & <- & Hy). cbn [snd].
    match goal with H : Forall (fun ap => pid_ok _) _ |- _ => rewrite Forall_forall in H; exact (H y Hy) end.
  - apply kept_of; [exact Ho|]. unfold word32. lia.
  - exact Ho.
  - exact Ho.
  - exact Ho.
  - exact Ho.
  - exact Ho.
Qed.

Lemma type_copied o : type_of (copied o) = type_of o.
Proof. destruct o; reflexivity. Qed.
Lemma likes_copied o : likes (copied o) = likes o.
Proof. destruct o; cbn; try reflexivity. rewrite map_map. reflexivity. Qed.
Lemma owned_copied o : owned (copied o) = map n1 (owned o).
Proof. destruct o; cbn; try reflexivity. rewrite !map_map. reflexivity. Qed.
Lemma pointable_copied f o : pointable f (copied o) = pointable f o.
Proof. destruct o; reflexivity. Qed.
Lemma vec_refs o : elem_ok flag o -> forall f, refs (map_refs f (map_owned n1 o)) = map f (refs o).
Proof. intros _ f. destruct o; cbn; rewrite ?map_app, ?map_map; reflexivity. Qed.

End Copied.

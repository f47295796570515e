(** * Copies of copies: events *)

From Coq Require Import Permutation Sorted.
From Verif Require Import Bytes StrMap SioModel SioProofs SioRecord SioSpec Ieee ObjModel ObjSpec ObjProofs CollSpec CollProofs ListFacts
  EventModel EventSpec EventProofs PostProofs EventFacts CopySpec CopyObj CopySize IndexModel IndexSpec FileModel FileSpec.

(** ** Parameters *)

Lemma sm_set_same {V} k (v : V) m : sm_ok m -> sm_get k m = Some v -> sm_set k v m = m.
Proof.
  intros Hm H. apply sm_ext; [apply sm_set_ok; exact Hm|exact Hm|]. intros k'. rewrite sm_get_set by exact Hm.
  destruct (bytes_eqb k' k) eqn:E; [|reflexivity]. apply bytes_eqb_eq in E. subst. symmetry. exact H.
Qed.
Lemma default_value_get p k v : sm_ok (p_str p) -> sm_get k (p_str p) <> Some [] ->
  exists x l, sm_get k (p_str (default_value p k v)) = Some (x :: l) /\ (x <> [] \/ (x = v /\ l = [])).
Proof.
  intros Hs Hn. unfold default_value. destruct (has_value p k) eqn:E.
  - unfold has_value in E. destruct (sm_get k (p_str p)) as [[|[|b x] l]|] eqn:G; try discriminate. exists (b :: x), l. split; [reflexivity|]. left. discriminate.
  - cbn [p_str]. rewrite sm_get_set by exact Hs. rewrite bytes_eqb_refl. exists v, []. auto.
Qed.
Lemma default_value_other p k v k' : sm_ok (p_str p) -> k' <> k -> sm_get k' (p_str (default_value p k v)) = sm_get k' (p_str p).
Proof.
  intros Hs Hn. unfold default_value. destruct (has_value p k); [reflexivity|]. cbn [p_str]. rewrite sm_get_set by exact Hs.
  destruct (bytes_eqb k' k) eqn:E; [|reflexivity]. apply bytes_eqb_eq in E. contradiction.
Qed.
Lemma default_value_id p k v x l : sm_ok (p_str p) -> sm_get k (p_str p) = Some (x :: l) -> x <> [] \/ (x = v /\ l = []) -> default_value p k v = p.
Proof.
  intros Hs Hg Hx. unfold default_value. destruct (has_value p k) eqn:E; [reflexivity|]. unfold has_value in E. rewrite Hg in E.
  destruct x as [|b x]; [|discriminate]. destruct Hx as [Hx|[Hx ->]]; [contradiction|]. subst v.
  rewrite sm_set_same by assumption. destruct p; reflexivity.
Qed.
Lemma default_value_len p k v : Zlen (p_str (default_value p k v)) <= Zlen (p_str p) + 1.
Proof. unfold default_value. destruct (has_value p k); [lia|]. cbn [p_str]. apply sm_set_len. Qed.
Lemma stored_params_len ty h c : Zlen (p_str (stored_params ty h c)) <= Zlen (p_str (c_par c)) + 2.
Proof.
  destruct ty; cbn [stored_params]; try lia.
  - cbn [p_str]. pose proof (sm_set_len alg_key (vertex_types h (c_elems c)) (p_str (c_par c))). lia.
  - destruct (c_elems c) as [|a l]; [lia|]. destruct (h a) as [[]|]; try lia.
    pose proof (default_value_len (c_par c) typename_key (go_type o)) as A.
    destruct (stores_fixed _ _ _); [|lia].
    pose proof (default_value_len (default_value (c_par c) typename_key (go_type o)) descr_key (go_desc o)). lia.
Qed.
Lemma stored_params_ok ty h c : coll_ok ty h c -> params_ok (stored_params ty h c).
Proof. intros H. destruct (init_spec ty h c H) as (p & hs & w & _ & _ & Hp & -> & _). exact Hp. Qed.

Lemma flat_map_map_l {A B C} (f : B -> list C) (g : A -> B) l : flat_map f (map g l) = flat_map (fun a => f (g a)) l.
Proof. induction l as [|a l IH]; [reflexivity|]. cbn [map flat_map]. rewrite IH. reflexivity. Qed.
Lemma filter_all {A} (p : A -> bool) l : (forall a, In a l -> p a = true) -> filter p l = l.
Proof.
  induction l as [|a l IH]; intros H; [reflexivity|]. cbn [filter]. rewrite (H a) by (left; reflexivity). f_equal. apply IH. intros; apply H; right; assumption.
Qed.

(** ** What is written for a collection *)

Lemma ok_snd {A B} (a c : A) (b d : B) : Ok (a, b) = Ok (c, d) -> b = d.
Proof. intros H. injection H as _ H. exact H. Qed.

Lemma init_calls ty h c c' hs w : init_writing ty h c = Ok (c', hs, w) ->
  w = init_writing0 c' ++ match h_sizes hs with Some s => w_sizes s | None => [] end.
Proof.
  destruct ty; cbn [init_writing].
  all: try (intros E; apply Ok_inj in E; injection E as <- <- <-; cbn [h_sizes]; rewrite app_nil_r; reflexivity).
  - destruct (vertex_algs h (c_elems c) []) as [algs|x|x]; cbn [bind]; try discriminate.
    intros E. apply Ok_inj in E. injection E as <- <- <-. cbn [h_sizes]. rewrite app_nil_r. reflexivity.
  - destruct (all_fixed h (c_elems c)) as [fixed|x|x]; cbn [bind]; try discriminate.
    destruct (get_string_val (c_par c) typename_key) as [tn|x|x]; cbn [bind]; try discriminate.
    destruct fixed.
    + match goal with |- context [get_string_val ?p descr_key] => destruct (get_string_val p descr_key) as [dd|x|x] end; cbn [bind]; try discriminate.
      intros E. apply Ok_inj in E. injection E as <- <- <-. reflexivity.
    + cbn [bind]. intros E. apply Ok_inj in E. injection E as <- <- <-. reflexivity.
Qed.
Definition first_sizes (h : heap) (l : list addr) : Z * Z * Z :=
  match l with a :: _ => match h a with Some (OGO o) => go_sizes o | _ => (0, 0, 0) end | [] => (0, 0, 0) end.
Lemma init_sizes ty h c c' hs w : coll_ok ty h c -> init_writing ty h c = Ok (c', hs, w) ->
  h_sizes hs = if stores_fixed ty h c then Some (first_sizes h (c_elems c)) else None.
Proof.
  intros (_ & _ & _ & _ & _ & _ & Hgo). destruct ty; cbn [init_writing].
  all: try (intros E; apply Ok_inj in E; injection E as <- <- <-; reflexivity).
  - destruct (vertex_algs h (c_elems c) []) as [algs|x|x]; cbn [bind]; try discriminate.
    intros E. apply Ok_inj in E. injection E as <- <- <-. reflexivity.
  - destruct (Hgo eq_refl) as (T & _). rewrite all_fixed_spec by exact T. cbn [bind]. change (forallb _ (c_elems c)) with (stores_fixed TGO h c).
    destruct (get_string_val (c_par c) typename_key) as [tn|x|x]; cbn [bind]; try discriminate.
    destruct (stores_fixed TGO h c).
    + match goal with |- context [get_string_val ?p descr_key] => destruct (get_string_val p descr_key) as [dd|x|x] end; cbn [bind]; try discriminate.
      intros E. apply Ok_inj in E. injection E as <- <- <-. cbn [h_sizes]. f_equal. unfold first_sizes.
      destruct (c_elems c) as [|a l]; [reflexivity|]. destruct (h a) as [[]|]; reflexivity.
    + cbn [bind]. intros E. apply Ok_inj in E. injection E as <- <- <-. reflexivity.
Qed.

Lemma blocks_written only h cols : forall bs cs, event_blocks only h cols = Ok (bs, cs) ->
  Forall2 (fun nc b => wb_name b = fst nc /\ exists ty c', get_handler (c_type (snd nc)) = Some ty /\ write_coll ty h (snd nc) = Ok (c', wb_calls b))
    (filter (to_write only) cols) bs.
Proof.
  induction cols as [|[n c] cols IH]; intros bs cs E; cbn [event_blocks filter] in *.
  { apply Ok_inj in E. injection E as <- <-. constructor. }
  destruct (to_write only (n, c)).
  - destruct (get_handler (c_type c)) as [ty|] eqn:Ety; [|discriminate].
    destruct (write_coll ty h c) as [[c' w]|x|x] eqn:Ew; cbn [bind] in E; try discriminate.
    destruct (event_blocks only h cols) as [[bs' rest]|x|x]; cbn [bind] in E; try discriminate.
    apply Ok_inj in E. injection E as <- <-. constructor; [|eapply IH; reflexivity]. split; [reflexivity|]. exists ty, c'. split; [exact Ety|exact Ew].
  - destruct (event_blocks only h cols) as [[bs' rest]|x|x]; cbn [bind] in E; try discriminate.
    apply Ok_inj in E. injection E as <- <-. eapply IH. reflexivity.
Qed.
Lemma block_alike b b' : wb_name b' = wb_name b -> alike (wb_calls b) (wb_calls b') -> alike (block_calls b) (block_calls b').
Proof.
  intros En Ha. unfold block_calls. change (?x :: ?l) with ([x] ++ l). apply alike_app; [apply alike_be|].
  unfold block_body. rewrite En.
  repeat match goal with |- alike (?x :: ?l) (_ :: _) => change (x :: l) with ([x] ++ l) end.
  repeat first [exact Ha | apply Forall2_cons | apply alike_app]; cbn [alike1]; try reflexivity;
    match goal with |- length (be ?n ?x) = length (be ?m ?y) => pose proof (Zlen_be n x); pose proof (Zlen_be m y); unfold Zlen in *; lia end.
Qed.

(** ** The copy *)

Section Copy.
Context (srt : forall A : Type, (A -> Z) -> list A -> list A) (Hsrt : sort_ok srt).
Context (only : list bytes) (h : heap) (e : event) (next : addr) (new1 : addr -> addr) (e1 : event) (h1 : heap).
Notation cols := (read_back only [] e).
Notation tags1 := (event_tags only [] h e).
Notation tgt1 := (target new1 tags1).
Hypothesis (He : event_ok only h e) (Hc : copyable only h e) (Hnext : 0 < next).
Hypothesis (Hnum : numbers new1 (event_objs only [] h e) next).
Hypothesis (Hsame : same_header e e1).
Hypothesis (HF : Forall2 (coll_as h (fun sub => if sub then tgt1 else new1)) cols (ev_cols e1)).
Hypothesis (HH : forall nc a o, In nc cols -> is_subset (snd nc) = false -> In a (c_elems (snd nc)) -> h a = Some o ->
      h1 (new1 a) = option_map (more (map new1 (daughters_of h cols a))) (copy_in srt new1 tgt1 h (snd nc) o)).

Lemma cp_ok nc : In nc cols -> good_name (fst nc) /\ vec_len (fst nc) /\
  exists ty, get_handler (c_type (snd nc)) = Some ty /\ coll_ok ty h (snd nc).
Proof.
  intros H. destruct He as (_ & _ & _ & _ & _ & _ & _ & F & _). rewrite Forall_forall in F. apply F. eapply read_back_stored. exact H.
Qed.
Lemma cp_nodup : NoDup (event_objs only [] h e).
Proof. destruct He as (_ & _ & _ & _ & _ & _ & _ & _ & Hnd). unfold event_objs, read_back. apply NoDup_flat_map_filter. exact Hnd. Qed.

Lemma cp_elem nc a : In nc cols -> In a (c_elems (snd nc)) -> is_subset (snd nc) = false ->
  exists ty o, get_handler (c_type (snd nc)) = Some ty /\ h a = Some o /\ type_of o = ty /\ a <> 0 /\ elem_ok (c_flag (snd nc)) o /\
    In a (event_objs only [] h e).
Proof.
  intros Hnc Ha Hs. destruct (cp_ok nc Hnc) as (_ & _ & ty & Hty & Hco). pose proof Hco as (_ & _ & _ & _ & Hel & _). destruct (Hel Hs) as [T E].
  destruct (T a Ha) as (H0 & o & Ho & Hto). exists ty, o. split; [exact Hty|]. split; [exact Ho|]. split; [exact Hto|]. split; [exact H0|].
  split; [eapply E; eassumption|]. apply in_flat_map. exists nc. split; [exact Hnc|]. unfold coll_objs. rewrite Hs.
  apply in_flat_map. exists a. split; [exact Ha|left; reflexivity].
Qed.

(** the collection that owns an element *)
Lemma cp_owner nc a : In nc cols -> In a (c_elems (snd nc)) ->
  exists nc', In nc' cols /\ is_subset (snd nc') = false /\ In a (c_elems (snd nc')) /\ (is_subset (snd nc) = false -> nc' = nc) /\
    (is_subset (snd nc) = true -> tgt1 a = new1 a).
Proof.
  intros Hnc Ha. destruct (is_subset (snd nc)) eqn:Es.
  - destruct Hc as (_ & _ & Ho & _). destruct (Ho nc a Hnc Es Ha) as (nc' & o & H1 & H2 & H3 & H4 & H5).
    exists nc'. split; [exact H1|]. split; [exact H2|]. split; [exact H3|]. split; [discriminate|]. intros _.
    destruct (cp_elem nc' a H1 H3 H2) as (_ & _ & _ & _ & _ & H0 & _).
    unfold target. replace (a =? 0) with false by lia. destruct (in_dec Z.eq_dec a tags1) as [_|Hno]; [reflexivity|].
    exfalso. apply Hno. apply in_flat_map. exists nc'. split; [exact H1|]. unfold coll_tags. rewrite H2.
    apply in_flat_map. exists a. split; [exact H3|]. rewrite H4, H5. apply in_or_app. right. left. reflexivity.
  - exists nc. split; [exact Hnc|]. split; [exact Es|]. split; [exact Ha|]. split; [reflexivity|discriminate].
Qed.

(** the copy of an element *)
Lemma cp_heap nc ty a o : In nc cols -> is_subset (snd nc) = false -> get_handler (c_type (snd nc)) = Some ty ->
  In a (c_elems (snd nc)) -> h a = Some o ->
  h1 (new1 a) = Some (copied new1 tgt1 (stored_flag ty h (snd nc)) (stores_fixed ty h (snd nc)) (map new1 (daughters_of h cols a)) o).
Proof.
  intros Hnc Hs Hty Ha Ho. rewrite (HH nc a o Hnc Hs Ha Ho). unfold copy_in. rewrite Hty. cbn [option_map].
  unfold copied, read_copy. rewrite (resort_id srt Hsrt); [reflexivity|].
  destruct Hc as (_ & Hp & _). destruct (Hp nc a o Hnc Ha Ho) as [L1 L2]. split; rewrite likes_stored; assumption.
Qed.

(** a collection and its copy *)
Definition pair_of (nc nc1 : bytes * coll) : Prop :=
  In nc cols /\ coll_as h (fun sub => if sub then tgt1 else new1) nc nc1.

Lemma pair_elems nc nc1 : pair_of nc nc1 -> c_elems (snd nc1) = map new1 (c_elems (snd nc)).
Proof.
  intros (Hnc & _ & _ & ty & _ & _ & _ & ->). destruct (is_subset (snd nc)) eqn:Es; [|reflexivity].
  apply map_ext_in. intros a Ha. destruct (cp_owner nc a Hnc Ha) as (nc' & _ & _ & _ & _ & H). apply H. exact Es.
Qed.
Lemma pair_subset nc nc1 : pair_of nc nc1 -> is_subset (snd nc1) = is_subset (snd nc).
Proof. intros (_ & H). apply (coll_as_mc _ _ _ _ H). Qed.
Lemma pair_mc nc nc1 : pair_of nc nc1 -> is_mc (snd nc1) = is_mc (snd nc).
Proof. intros (_ & H). apply (coll_as_mc _ _ _ _ H). Qed.
Lemma pair_fst nc nc1 : pair_of nc nc1 -> fst nc1 = fst nc. Proof. intros (_ & H & _). exact H. Qed.
Lemma pair_type nc nc1 : pair_of nc nc1 -> c_type (snd nc1) = c_type (snd nc). Proof. intros (_ & _ & H & _). exact H. Qed.
Lemma pair_flag nc nc1 ty : pair_of nc nc1 -> get_handler (c_type (snd nc)) = Some ty -> c_flag (snd nc1) = stored_flag ty h (snd nc).
Proof. intros (_ & _ & _ & ty' & Hty & Hf & _) H. rewrite H in Hty. injection Hty as <-. exact Hf. Qed.
Lemma pair_par nc nc1 ty : pair_of nc nc1 -> get_handler (c_type (snd nc)) = Some ty -> c_par (snd nc1) = stored_params ty h (snd nc).
Proof. intros (_ & _ & _ & ty' & Hty & _ & Hf & _) H. rewrite H in Hty. injection Hty as <-. exact Hf. Qed.
Lemma pair_transient nc nc1 : pair_of nc nc1 -> is_transient (snd nc1) = false.
Proof.
  intros (Hnc & _ & _ & ty & _ & Hf & _). unfold is_transient. rewrite Hf.
  assert (E : Z.testbit (c_flag (snd nc)) 16 = false).
  { apply read_back_stored, filter_In in Hnc. destruct Hnc as [_ Hnc]. apply andb_true_iff in Hnc. destruct Hnc as [Hnc _].
    apply negb_true_iff in Hnc. exact Hnc. }
  unfold stored_flag. destruct (stores_fixed ty h (snd nc)); [|exact E]. rewrite Z.lor_spec, E. reflexivity.
Qed.

(** what an element of the copy is *)
Lemma pair_elem nc nc1 a1 : pair_of nc nc1 -> In a1 (c_elems (snd nc1)) ->
  exists a nc' ty' o, a1 = new1 a /\ In a (c_elems (snd nc)) /\ In nc' cols /\ is_subset (snd nc') = false /\ In a (c_elems (snd nc')) /\
    (is_subset (snd nc) = false -> nc' = nc) /\ get_handler (c_type (snd nc')) = Some ty' /\ h a = Some o /\ type_of o = ty' /\ a <> 0 /\ 0 < a1 /\
    elem_ok (c_flag (snd nc')) o /\
    h1 a1 = Some (copied new1 tgt1 (stored_flag ty' h (snd nc')) (stores_fixed ty' h (snd nc')) (map new1 (daughters_of h cols a)) o).
Proof.
  intros Hp Ha1. rewrite (pair_elems _ _ Hp) in Ha1. apply in_map_iff in Ha1. destruct Ha1 as (a & <- & Ha).
  destruct (cp_owner nc a (proj1 Hp) Ha) as (nc' & H1 & H2 & H3 & H4 & _).
  destruct (cp_elem nc' a H1 H3 H2) as (ty' & o & Hty & Ho & Hto & H0 & Hel & Hobj).
  exists a, nc', ty', o. split; [reflexivity|]. split; [exact Ha|]. split; [exact H1|]. split; [exact H2|]. split; [exact H3|]. split; [exact H4|].
  split; [exact Hty|]. split; [exact Ho|]. split; [exact Hto|]. split; [exact H0|]. split; [exact (numbers_pos _ _ _ _ Hnum Hnext Hobj)|].
  split; [exact Hel|]. apply (cp_heap nc'); assumption.
Qed.

Lemma elem_ok_flag ty c o : type_of o = ty -> elem_ok (c_flag c) o -> elem_ok (stored_flag ty h c) o.
Proof.
  intros Hty He'. unfold stored_flag. destruct (stores_fixed ty h c) eqn:E; [|exact He'].
  apply fixed_is_go in E. rewrite E in Hty. destruct o; try discriminate. exact He'.
Qed.

Lemma pair_fixed nc nc1 ty : pair_of nc nc1 -> get_handler (c_type (snd nc)) = Some ty ->
  stores_fixed ty h1 (snd nc1) = stores_fixed ty h (snd nc).
Proof.
  intros Hp Hty. destruct ty; try reflexivity. pose proof Hp as (Hnc & _).
  destruct (cp_ok nc Hnc) as (_ & _ & ty & Hty' & Hco). rewrite Hty in Hty'. injection Hty' as <-.
  destruct Hco as (_ & _ & _ & _ & _ & _ & Hgo). destruct (Hgo eq_refl) as (T & _).
  cbn [stores_fixed].
  assert (G : forall a, In a (c_elems (snd nc)) -> exists o nc', h a = Some (OGO o) /\ In nc' cols /\ is_subset (snd nc') = false /\
     In a (c_elems (snd nc')) /\ (is_subset (snd nc) = false -> nc' = nc) /\
     exists o1, h1 (new1 a) = Some (OGO o1) /\ go_fixed o1 = stores_fixed TGO h (snd nc')).
  { intros a Ha. destruct (pair_elem nc nc1 (new1 a) Hp) as (a' & nc' & ty' & o & E1 & _ & H1 & H2 & H3 & H4 & H5 & H6 & H7 & _ & _ & _ & H8).
    { rewrite (pair_elems _ _ Hp). apply in_map. exact Ha. }
    destruct (T a Ha) as (_ & x & Hx & Htx). destruct x as [x|x|x|x|x|x|x|x|x|x|x|x|x|x|x|x|x|x|x|x|x]; try discriminate Htx.
    assert (Ea : a' = a).
    { destruct (cp_owner nc a Hnc Ha) as (nc2 & B1 & B2 & B3 & _). destruct (cp_elem nc2 a B1 B3 B2) as (_ & _ & _ & _ & _ & _ & _ & Ia).
      destruct (cp_elem nc' a' H1 H3 H2) as (_ & _ & _ & _ & _ & _ & _ & Ia').
      symmetry. exact (numbers_inj _ _ _ Hnum _ _ Ia Ia' E1). }
    subst a'. rewrite Hx in H6. injection H6 as <-. cbn [type_of] in H7. subst ty'.
    exists x, nc'. split; [exact Hx|]. split; [exact H1|]. split; [exact H2|]. split; [exact H3|]. split; [exact H4|].
    eexists. split; [exact H8|]. reflexivity. }
  apply eq_true_iff_eq. split; intros X.
  - rewrite forallb_forall in X. apply forallb_forall. intros a Ha. destruct (G a Ha) as (o & nc' & Ho & H1 & H2 & H3 & _ & o1 & Ho1 & Ef).
    rewrite Ho. specialize (X (new1 a)). rewrite (pair_elems _ _ Hp) in X. specialize (X (in_map _ _ _ Ha)). rewrite Ho1, Ef in X.
    cbn [stores_fixed] in X. rewrite forallb_forall in X. specialize (X a H3). rewrite Ho in X. exact X.
  - apply forallb_forall. intros a1 Ha1. rewrite (pair_elems _ _ Hp) in Ha1. apply in_map_iff in Ha1. destruct Ha1 as (a & <- & Ha).
    destruct (G a Ha) as (o & nc' & Ho & H1 & H2 & H3 & H4 & o1 & Ho1 & Ef). rewrite Ho1, Ef.
    destruct (is_subset (snd nc)) eqn:Es.
    + destruct Hc as (_ & _ & _ & Hfx & _). exact (Hfx nc nc' a Hnc H1 Es H2 Ha H3 X).
    + rewrite (H4 eq_refl). exact X.
Qed.

Lemma pair_stored_flag nc nc1 ty : pair_of nc nc1 -> get_handler (c_type (snd nc)) = Some ty ->
  stored_flag ty h1 (snd nc1) = stored_flag ty h (snd nc).
Proof.
  intros Hp Hty. unfold stored_flag at 1. rewrite (pair_fixed _ _ _ Hp Hty), (pair_flag _ _ _ Hp Hty). unfold stored_flag.
  destruct (stores_fixed ty h (snd nc)); [|reflexivity]. rewrite <- Z.lor_assoc, Z.lor_diag. reflexivity.
Qed.

Lemma fold_left_map {A B C} (f : A -> B -> A) (g : C -> B) l : forall x, fold_left f (map g l) x = fold_left (fun x y => f x (g y)) l x.
Proof. induction l as [|y l IH]; intros x; [reflexivity|]. cbn [map fold_left]. apply IH. Qed.
Lemma fold_left_ext_in {A B} (f g : A -> B -> A) l : (forall x y, In y l -> f x y = g x y) -> forall x, fold_left f l x = fold_left g l x.
Proof.
  induction l as [|y l IH]; intros H x; [reflexivity|]. cbn [fold_left]. rewrite H by (left; reflexivity). apply IH. intros; apply H; right; assumption.
Qed.

Lemma pair_params nc nc1 ty : pair_of nc nc1 -> get_handler (c_type (snd nc)) = Some ty ->
  stored_params ty h1 (snd nc1) = c_par (snd nc1).
Proof.
  intros Hp Hty. pose proof Hp as (Hnc & _).
  destruct (cp_ok nc Hnc) as (_ & _ & ty' & Hty' & Hco). rewrite Hty in Hty'. injection Hty' as <-.
  pose proof (pair_par _ _ _ Hp Hty) as Epar. pose proof Hco as (_ & (_ & _ & (Hs & _)) & _).
  destruct ty; try reflexivity.
  - (* vertices *)
    destruct Hco as (_ & _ & _ & _ & _ & Hvx & _). destruct (Hvx eq_refl) as [T _].
    unfold stored_params. rewrite Epar. cbn [stored_params p_int p_flt p_str]. f_equal.
    assert (Ev : vertex_types h1 (c_elems (snd nc1)) = vertex_types h (c_elems (snd nc))).
    { unfold vertex_types. rewrite (pair_elems _ _ Hp), fold_left_map. apply fold_left_ext_in. intros x a Ha.
      destruct (pair_elem nc nc1 (new1 a) Hp) as (a' & nc' & ty' & o & E1 & _ & H1 & H2 & H3 & _ & H5 & H6 & H7 & _ & _ & _ & H8).
      { rewrite (pair_elems _ _ Hp). apply in_map. exact Ha. }
      assert (Ea : a' = a).
      { destruct (cp_owner nc a Hnc Ha) as (nc2 & B1 & B2 & B3 & _). destruct (cp_elem nc2 a B1 B3 B2) as (_ & _ & _ & _ & _ & _ & _ & Ia).
        destruct (cp_elem nc' a' H1 H3 H2) as (_ & _ & _ & _ & _ & _ & _ & Ia'). symmetry. exact (numbers_inj _ _ _ Hnum _ _ Ia Ia' E1). }
      subst a'. rewrite H8. destruct (T a Ha) as (_ & v & Hv & Htv). rewrite Hv in H6. injection H6 as <-. rewrite Hv.
      destruct v as [v|v|v|v|v|v|v|v|v|v|v|v|v|v|v|v|v|v|v|v|v]; try discriminate Htv. reflexivity. }
    rewrite Ev. apply sm_set_same; [apply sm_set_ok; exact Hs|]. rewrite sm_get_set by exact Hs. rewrite bytes_eqb_refl. reflexivity.
  - (* generic objects *)
    destruct Hco as (_ & _ & _ & _ & _ & _ & Hgo). destruct (Hgo eq_refl) as (T & _ & (Hk & _)).
    pose proof (pair_elems _ _ Hp) as Eel. pose proof (pair_fixed _ _ _ Hp Hty) as Efx.
    destruct (c_elems (snd nc)) as [|a l] eqn:El.
    + unfold stored_params. rewrite Eel. reflexivity.
    + assert (Ha : In a (c_elems (snd nc))) by (rewrite El; left; reflexivity).
      destruct (T a (or_introl eq_refl)) as (_ & x & Hx & Htx).
      destruct (pair_elem nc nc1 (new1 a) Hp) as (a' & nc' & ty' & o & E1 & _ & H1 & H2 & H3 & _ & H5 & H6 & H7 & _ & _ & _ & H8).
      { rewrite Eel. left. reflexivity. }
      assert (Ea : a' = a).
      { destruct (cp_owner nc a Hnc Ha) as (nc2 & B1 & B2 & B3 & _). destruct (cp_elem nc2 a B1 B3 B2) as (_ & _ & _ & _ & _ & _ & _ & Ia).
        destruct (cp_elem nc' a' H1 H3 H2) as (_ & _ & _ & _ & _ & _ & _ & Ia'). symmetry. exact (numbers_inj _ _ _ Hnum _ _ Ia Ia' E1). }
      subst a'. rewrite Hx in H6. injection H6 as <-.
      destruct x as [x|x|x|x|x|x|x|x|x|x|x|x|x|x|x|x|x|x|x|x|x]; try discriminate Htx.
      assert (Hne : go_type x <> []) by (destruct Hc as (_ & _ & _ & _ & Hn & _); exact (Hn nc a x Hnc Ha Hx)).
      unfold stored_params in Epar. rewrite El, Hx in Epar. cbv zeta in Epar.
      unfold stored_params. rewrite Eel. cbn [map]. rewrite H8. cbn [copied more map_refs map_owned stored]. cbv zeta.
      rewrite Efx. set (p0 := c_par (snd nc)) in *. set (fx := stores_fixed TGO h (snd nc)) in *. clearbody fx.
      assert (K1 : sm_get typename_key (p_str p0) <> Some []) by (apply Hk; left; reflexivity).
      assert (K2 : sm_get descr_key (p_str p0) <> Some []) by (apply Hk; right; left; reflexivity).
      assert (Kne : descr_key <> typename_key) by (vm_compute; discriminate).
      clearbody p0. set (p1 := default_value p0 typename_key (go_type x)) in *.
      destruct (default_value_get p0 typename_key (go_type x) Hs K1) as (t & tl & G1 & G2). fold p1 in G1.
      assert (Hs1 : sm_ok (p_str p1)) by (apply default_value_sorted; exact Hs).
      assert (Ht : t <> []) by (destruct G2 as [G2|[G2 _]]; [exact G2|rewrite G2; exact Hne]).
      assert (K2' : sm_get descr_key (p_str p1) <> Some []) by (unfold p1; rewrite default_value_other by assumption; exact K2).
      clearbody p1.
      destruct fx.
      * destruct (default_value_get p1 descr_key (go_desc x) Hs1 K2') as (d & dl & D1 & D2).
        set (p2 := default_value p1 descr_key (go_desc x)) in *.
        assert (Hs2 : sm_ok (p_str p2)) by (apply default_value_sorted; exact Hs1).
        assert (G1' : sm_get typename_key (p_str p2) = Some (t :: tl)).
        { unfold p2. rewrite default_value_other; [exact G1|exact Hs1|]. intros X. apply Kne. symmetry. exact X. }
        rewrite Epar. rewrite (default_value_id p2 typename_key _ t tl Hs2 G1') by (left; exact Ht).
        assert (Dd : default_value p2 descr_key [] = p2).
        { destruct d as [|b d].
          - unfold default_value. unfold has_value. rewrite D1. destruct D2 as [D2|[D2 ->]]; [contradiction|].
            rewrite sm_set_same by assumption. destruct p2; reflexivity.
          - apply (default_value_id p2 descr_key [] (b :: d) dl Hs2 D1). left. discriminate. }
        exact Dd.
      * rewrite Epar. apply (default_value_id p1 typename_key _ t tl Hs1 G1). left. exact Ht.
Qed.

(** ** The copy can be stored *)

Lemma pair_coll nc nc1 : pair_of nc nc1 ->
  exists ty, get_handler (c_type (snd nc1)) = Some ty /\ coll_ok ty h1 (snd nc1).
Proof.
  intros Hp. pose proof Hp as (Hnc & _). destruct (cp_ok nc Hnc) as (_ & _ & ty & Hty & Hco). exists ty.
  rewrite (pair_type _ _ Hp). split; [exact Hty|].
  pose proof (stored_params_ok ty h (snd nc) Hco) as Hpo. pose proof (stored_params_len ty h (snd nc)) as Hpl.
  pose proof Hco as (C1 & C2 & _ & C4 & C5 & C6 & C7).
  assert (Hlen : Zlen (p_str (c_par (snd nc))) + 4 < 2 ^ 28).
  { destruct Hc as (_ & _ & _ & _ & _ & Hl). rewrite Forall_forall in Hl. apply Hl. exact Hnc. }
  assert (Tfl : word32 (stored_flag ty h (snd nc))).
  { unfold stored_flag. destruct (stores_fixed ty h (snd nc)); [|exact C1]. apply (set_bit_word _ 31 C1). lia. }
  split; [rewrite (pair_flag _ _ _ Hp Hty); exact Tfl|].
  rewrite (pair_par _ _ _ Hp Hty). split; [exact Hpo|]. split; [lia|].
  split; [rewrite (pair_elems _ _ Hp); apply vec_map; exact C4|].
  rewrite (pair_subset _ _ Hp), (pair_flag _ _ _ Hp Hty).
  assert (Ty : typed ty h (c_elems (snd nc)) -> typed ty h1 (c_elems (snd nc1))).
  { intros T a1 Ha1. destruct (pair_elem nc nc1 a1 Hp Ha1) as (a & nc' & ty' & o & -> & Ha & H1 & H2 & H3 & _ & H5 & H6 & H7 & _ & Hpos & _ & H8).
    split; [lia|]. eexists. split; [exact H8|]. rewrite type_copied. destruct (T a Ha) as (_ & o' & Ho' & Hto). rewrite Ho' in H6. injection H6 as <-. exact Hto. }
  split; [|split].
  - intros Es. destruct (C5 Es) as [T E]. split; [apply Ty; exact T|]. intros a1 o1 Ha1 Ho1.
    destruct (pair_elem nc nc1 a1 Hp Ha1) as (a & nc' & ty' & o & -> & Ha & H1 & H2 & H3 & H4 & H5 & H6 & H7 & _ & _ & Hel & H8).
    rewrite (H4 Es) in *. rewrite Hty in H5. injection H5 as <-. rewrite H8 in Ho1. injection Ho1 as <-.
    apply elem_copied. apply elem_ok_flag; assumption.
  - intros ->. destruct (C6 eq_refl) as [T V]. split; [apply Ty; exact T|]. intros a1 o1 Ha1 Ho1.
    destruct (pair_elem nc nc1 a1 Hp Ha1) as (a & nc' & ty' & o & -> & Ha & H1 & H2 & H3 & H4 & H5 & H6 & H7 & _ & _ & Hel & H8).
    rewrite H8 in Ho1. destruct (T a Ha) as (_ & x & Hx & Htx). rewrite Hx in H6. injection H6 as <-.
    destruct x as [x|x|x|x|x|x|x|x|x|x|x|x|x|x|x|x|x|x|x|x|x]; try discriminate Htx. injection Ho1 as <-. cbn. exact (V a x Ha Hx).
  - intros ->. destruct (C7 eq_refl) as (T & E & (G1 & G2 & G3 & G4)). split; [apply Ty; exact T|].
    assert (Go : forall a1 o1, In a1 (c_elems (snd nc1)) -> h1 a1 = Some o1 -> exists a x fx, In a (c_elems (snd nc)) /\ h a = Some (OGO x) /\
        o1 = OGO (stored_genobj fx x)).
    { intros a1 o1 Ha1 Ho1.
      destruct (pair_elem nc nc1 a1 Hp Ha1) as (a & nc' & ty' & o & -> & Ha & H1 & H2 & H3 & H4 & H5 & H6 & H7 & _ & _ & Hel & H8).
      rewrite H8 in Ho1. destruct (T a Ha) as (_ & x & Hx & Htx). rewrite Hx in H6. injection H6 as <-.
      destruct x as [x|x|x|x|x|x|x|x|x|x|x|x|x|x|x|x|x|x|x|x|x]; try discriminate Htx. injection Ho1 as <-. eexists a, x, _. split; [exact Ha|].
      split; [exact Hx|reflexivity]. }
    split.
    { intros a1 o1 Ha1 Ho1. destruct (Go a1 o1 Ha1 Ho1) as (a & x & fx & Ha & Hx & ->). exact (E a _ Ha Hx). }
    split; [|split; [|split]].
    + assert (Hs : sm_ok (p_str (c_par (snd nc)))) by (destruct C2 as (_ & _ & (Hs & _)); exact Hs).
      assert (Dg : forall p k v k', sm_ok (p_str p) -> sm_get k' (p_str p) <> Some [] -> sm_get k' (p_str (default_value p k v)) <> Some []).
      { intros p k v k' Hs' Hk'. destruct (list_eq_dec Byte.byte_eq_dec k' k) as [->|Hne].
        - destruct (default_value_get p k v Hs' Hk') as (x & l & -> & _). discriminate.
        - rewrite default_value_other by assumption. exact Hk'. }
      intros k Hk. rewrite (pair_par _ _ _ Hp Hty). specialize (G1 k Hk). cbn [stored_params].
      destruct (c_elems (snd nc)) as [|a l]; [exact G1|]. destruct (h a) as [[]|]; try exact G1.
      destruct (stores_fixed _ _ _); [apply Dg; [apply default_value_sorted; exact Hs|]|]; apply Dg; assumption.
    + intros a1 o1 Ha1 Ho1. destruct (Go a1 _ Ha1 Ho1) as (a & x & fx & Ha & Hx & Eq). injection Eq as ->. split; vm_compute; reflexivity.
    + rewrite (pair_flag _ _ _ Hp Hty), (pair_fixed _ _ _ Hp Hty). unfold stored_flag. destruct (stores_fixed TGO h (snd nc)); [reflexivity|exact G3].
    + rewrite (pair_fixed _ _ _ Hp Hty). intros Ef. destruct (G4 Ef) as (s & S1 & S2 & S3 & S4). exists s. split; [exact S1|]. split; [exact S2|]. split; [exact S3|].
      intros a1 o1 Ha1 Ho1. destruct (Go a1 _ Ha1 Ho1) as (a & x & fx & Ha & Hx & Eq). injection Eq as ->. exact (S4 a x Ha Hx).
Qed.

Lemma pair_objs nc nc1 : pair_of nc nc1 -> coll_objs h1 (snd nc1) = map new1 (coll_objs h (snd nc)).
Proof.
  intros Hp. pose proof Hp as (Hnc & _). unfold coll_objs. rewrite (pair_subset _ _ Hp). destruct (is_subset (snd nc)) eqn:Es; [reflexivity|].
  unfold own_objs. rewrite (pair_elems _ _ Hp), map_flat_map, flat_map_map_l. apply flat_map_ext_in. intros a Ha.
  destruct (cp_elem nc a Hnc Ha Es) as (ty & o & Hty & Ho & _). rewrite (cp_heap nc ty a o Hnc Es Hty Ha Ho), Ho, owned_copied. reflexivity.
Qed.
Lemma pair_tags nc nc1 : pair_of nc nc1 -> coll_tags h1 (snd nc1) = map new1 (coll_tags h (snd nc)).
Proof.
  intros Hp. pose proof Hp as (Hnc & _). unfold coll_tags. rewrite (pair_subset _ _ Hp). destruct (is_subset (snd nc)) eqn:Es; [reflexivity|].
  rewrite (pair_elems _ _ Hp), map_flat_map, flat_map_map_l. apply flat_map_ext_in. intros a Ha.
  destruct (cp_elem nc a Hnc Ha Es) as (ty & o & Hty & Ho & Hto & _). rewrite (cp_heap nc ty a o Hnc Es Hty Ha Ho), Ho, owned_copied, pointable_copied.
  rewrite map_app. f_equal. rewrite (pair_flag _ _ _ Hp Hty).
  replace (pointable (stored_flag ty h (snd nc)) o) with (pointable (c_flag (snd nc)) o); [destruct (pointable _ o); reflexivity|].
  unfold stored_flag. destruct (stores_fixed ty h (snd nc)) eqn:Ef; [|reflexivity]. apply fixed_is_go in Ef. subst ty.
  destruct o; try discriminate; reflexivity.
Qed.

(** the collections of the copy *)
Lemma pairs : Forall2 pair_of cols (ev_cols e1).
Proof.
  apply (Forall2_impl_in (coll_as h (fun sub => if sub then tgt1 else new1)) pair_of); [|exact HF]. intros nc nc1 Hnc _ H. split; assumption.
Qed.
Lemma copy_stored : stored_cols [] e1 = ev_cols e1.
Proof.
  unfold stored_cols. apply filter_all. intros nc1 H. destruct (Forall2_in_r _ _ _ _ pairs H) as (nc & _ & Hp).
  rewrite (pair_transient _ _ Hp). reflexivity.
Qed.
Lemma copy_back names : read_back [] names e1 = filter (fun nc => wanted names (fst nc)) (ev_cols e1).
Proof. unfold read_back. rewrite copy_stored. reflexivity. Qed.
Lemma pairs_back names : Forall2 pair_of (read_back only names e) (read_back [] names e1).
Proof.
  rewrite copy_back, (read_back_names only names e). apply Forall2_filter; [exact pairs|]. intros nc nc1 Hp. rewrite (pair_fst _ _ Hp). reflexivity.
Qed.
Lemma flat_map_pairs {B} (f g : bytes * coll -> list B) l l' : Forall2 pair_of l l' -> (forall nc nc1, pair_of nc nc1 -> g nc1 = f nc) ->
  flat_map g l' = flat_map f l.
Proof. intros F H. induction F as [|x y l l' Hp F IH]; [reflexivity|]. cbn [flat_map]. rewrite (H x y Hp), IH. reflexivity. Qed.
Lemma copy_objs names : event_objs [] names h1 e1 = map new1 (event_objs only names h e).
Proof. unfold event_objs. rewrite map_flat_map. apply (flat_map_pairs (fun nc => map new1 (coll_objs h (snd nc))) _ _ _ (pairs_back names)). exact pair_objs. Qed.
Lemma copy_tags names : event_tags [] names h1 e1 = map new1 (event_tags only names h e).
Proof. unfold event_tags. rewrite map_flat_map. apply (flat_map_pairs (fun nc => map new1 (coll_tags h (snd nc))) _ _ _ (pairs_back names)). exact pair_tags. Qed.

Theorem copy_ok : event_ok [] h1 e1.
Proof.
  destruct He as (E1 & E2 & E3 & E4 & E5 & E6 & E7 & _ & _). destruct Hsame as (S1 & S2 & S3 & S4 & S5).
  rewrite <- S1 in E1. rewrite <- S2 in E2. rewrite <- S3 in E3. rewrite <- S4 in E4. rewrite <- S5 in E5.
  split; [exact E1|]. split; [exact E2|]. split; [exact E3|]. split; [exact E4|]. split; [exact E5|].
  assert (Hk : map fst (ev_cols e1) = map fst cols).
  { generalize pairs. generalize (ev_cols e1) cols. intros l1 l F. induction F as [|x y l l' Hp F IH]; [reflexivity|]. cbn [map].
    rewrite (pair_fst _ _ Hp), IH. reflexivity. }
  split. { apply (sm_ok_keys cols); [symmetry; exact Hk|]. unfold read_back, stored_cols. apply sm_ok_filter, sm_ok_filter. exact E6. }
  split.
  { unfold vec_len in *. rewrite <- (Zlen_map fst (ev_cols e1)), Hk, Zlen_map. unfold read_back, stored_cols.
    pose proof (filter_len (fun nc => wanted [] (fst nc)) (filter (fun nc : bytes * coll => negb (is_transient (snd nc)) && wanted only (fst nc)) (ev_cols e))).
    pose proof (filter_len (fun nc : bytes * coll => negb (is_transient (snd nc)) && wanted only (fst nc)) (ev_cols e)). lia. }
  rewrite copy_stored. split.
  - apply Forall_forall. intros nc1 H1. destruct (Forall2_in_r _ _ _ _ pairs H1) as (nc & _ & Hp). pose proof Hp as (Hnc & _).
    destruct (cp_ok nc Hnc) as (N1 & N2 & _). rewrite (pair_fst _ _ Hp). split; [exact N1|]. split; [exact N2|]. exact (pair_coll _ _ Hp).
  - pose proof (copy_objs []) as Eo. unfold event_objs at 1 in Eo. rewrite copy_back in Eo. cbn [wanted] in Eo. rewrite (filter_all (fun _ => true)) in Eo by reflexivity.
    rewrite Eo. apply NoDup_map_inj; [|exact cp_nodup]. intros a b Ha Hb. exact (numbers_inj _ _ _ Hnum a b Ha Hb).
Qed.

(** ** Links between MCParticles *)

Lemma back_in names nc : In nc (read_back only names e) -> In nc cols.
Proof. rewrite read_back_names. intros H. apply filter_In in H. exact (proj1 H). Qed.
Lemma cp_obj nc a : In nc cols -> In a (c_elems (snd nc)) -> In a (event_objs only [] h e).
Proof.
  intros Hnc Ha. destruct (cp_owner nc a Hnc Ha) as (nc' & H1 & H2 & H3 & _). destruct (cp_elem nc' a H1 H3 H2) as (_ & _ & _ & _ & _ & _ & _ & H). exact H.
Qed.
Lemma new1_inj a b : In a (event_objs only [] h e) -> In b (event_objs only [] h e) -> new1 a = new1 b -> a = b.
Proof. exact (numbers_inj _ _ _ Hnum a b). Qed.

Lemma mc_elem nc a : In nc cols -> is_mc (snd nc) = true -> In a (c_elems (snd nc)) -> exists m, h a = Some (OMC m) /\ In a tags1 /\ a <> 0.
Proof.
  intros Hnc Hm Ha. destruct (cp_ok nc Hnc) as (_ & _ & ty & Hty & _). destruct (is_mc_handler _ _ Hm Hty) as [-> Es].
  destruct (cp_elem nc a Hnc Ha Es) as (ty & o & Hty' & Ho & Hto & H0 & _). rewrite Hty in Hty'. injection Hty' as <-.
  destruct o as [o|o|o|o|o|o|o|o|o|o|o|o|o|o|o|o|o|o|o|o|o]; try discriminate Hto. exists o. split; [exact Ho|]. split; [|exact H0].
  apply in_flat_map. exists nc. split; [exact Hnc|]. unfold coll_tags. rewrite Es. apply in_flat_map. exists a. split; [exact Ha|].
  rewrite Ho. left. reflexivity.
Qed.
Lemma parent_in nc a p : In nc cols -> is_mc (snd nc) = true -> In a (c_elems (snd nc)) -> In p (parents h a) ->
  exists nc', In nc' cols /\ is_mc (snd nc') = true /\ In p (c_elems (snd nc')).
Proof.
  intros Hnc Hm Ha Hpar. destruct Hc as (Hl & _). destruct (in_split _ _ Hnc) as (pre & post & E).
  destruct (Hl pre nc post a p E Hm Ha Hpar) as (nc' & H1 & H2 & H3). exists nc'. split; [|split; assumption].
  rewrite E. apply in_app_or in H1. apply in_or_app. destruct H1 as [H1|[<-|[]]]; [left; exact H1|right; left; reflexivity].
Qed.
Lemma parents_copy nc a : In nc cols -> is_mc (snd nc) = true -> In a (c_elems (snd nc)) -> parents h1 (new1 a) = map new1 (parents h a).
Proof.
  intros Hnc Hm Ha. destruct (cp_ok nc Hnc) as (_ & _ & ty & Hty & _). destruct (is_mc_handler _ _ Hm Hty) as [-> Es].
  destruct (mc_elem nc a Hnc Hm Ha) as (m & Ho & _ & _). unfold parents at 1. rewrite (cp_heap nc TMC a _ Hnc Es Hty Ha Ho). cbn -[Z.testbit as_float].
  assert (Ep : parents h a = mc_parents m) by (unfold parents; rewrite Ho; reflexivity).
  rewrite <- Ep. apply map_ext_in. intros p Hpar. destruct (parent_in nc a p Hnc Hm Ha Hpar) as (nc' & H1 & H2 & H3).
  destruct (mc_elem nc' p H1 H2 H3) as (_ & _ & It & H0). unfold target. replace (p =? 0) with false by lia.
  destruct (in_dec Z.eq_dec p tags1) as [_|Hno]; [reflexivity|contradiction].
Qed.

Lemma copy_mc names : mc_links_ok h (read_back only names e) -> mc_links_ok h1 (read_back [] names e1).
Proof.
  intros Hl pre1 nc1 post1 a1 p1 E Hm Ha Hpar. pose proof (pairs_back names) as F. rewrite E in F.
  destruct (Forall2_app_cons_r _ _ _ _ _ F) as (pre & nc & post & E0 & Fp & Hp & _). pose proof Hp as (Hnc & _).
  rewrite (pair_mc _ _ Hp) in Hm. rewrite (pair_elems _ _ Hp) in Ha. apply in_map_iff in Ha. destruct Ha as (a & <- & Ha).
  rewrite (parents_copy nc a Hnc Hm Ha) in Hpar. apply in_map_iff in Hpar. destruct Hpar as (p & <- & Hpar).
  destruct (Hl pre nc post a p E0 Hm Ha Hpar) as (nc' & H1 & H2 & H3).
  assert (F2 : Forall2 pair_of (pre ++ [nc]) (pre1 ++ [nc1])) by (apply Forall2_app; [exact Fp|constructor; [exact Hp|constructor]]).
  destruct (Forall2_in_l _ _ _ _ F2 H1) as (nc1' & H4 & H5). exists nc1'. split; [exact H4|]. rewrite (pair_mc _ _ H5). split; [exact H2|].
  rewrite (pair_elems _ _ H5). apply in_map. exact H3.
Qed.

Lemma copy_daughters names a : In a (event_objs only [] h e) ->
  daughters_of h1 (read_back [] names e1) (new1 a) = map new1 (daughters_of h (read_back only names e) a).
Proof.
  intros Ho. unfold daughters_of. rewrite map_flat_map. apply (flat_map_pairs _ _ _ _ (pairs_back names)).
  intros nc nc1 Hp. pose proof Hp as (Hnc & _). cbv beta. rewrite (pair_mc _ _ Hp). destruct (is_mc (snd nc)) eqn:Em; [|reflexivity].
  rewrite (pair_elems _ _ Hp), map_flat_map, flat_map_map_l. apply flat_map_ext_in. intros x Hx.
  rewrite (parents_copy nc x Hnc Em Hx), map_repeat. f_equal. apply count_occ_map_inj. intros y Hy E.
  destruct (parent_in nc x y Hnc Em Hx Hy) as (nc' & H1 & _ & H3). apply new1_inj; [exact (cp_obj nc' y H1 H3)|exact Ho|exact E].
Qed.

Lemma copy_ordered : pids_ordered h1 (ev_cols e1).
Proof.
  intros nc1 a1 o1 Hnc1 Ha1 Ho1. destruct (Forall2_in_r _ _ _ _ pairs Hnc1) as (nc & Hnc & Hp).
  destruct (pair_elem nc nc1 a1 Hp Ha1) as (a & nc' & ty' & o & -> & Ha & _ & _ & _ & _ & _ & H6 & _ & _ & _ & _ & H8).
  rewrite H8 in Ho1. injection Ho1 as <-. destruct Hc as (_ & Hpo & _). destruct (Hpo nc a o Hnc Ha H6) as [L1 L2].
  split; rewrite likes_copied; assumption.
Qed.

Lemma copy_subsets names : subsets_ok h (event_tags only names h e) (read_back only names e) ->
  subsets_ok h1 (event_tags [] names h1 e1) (read_back [] names e1).
Proof.
  intros Hs nc1 a1 Hnc1 Es Ha1. destruct (Forall2_in_r _ _ _ _ (pairs_back names) Hnc1) as (nc & Hnc & Hp).
  rewrite (pair_subset _ _ Hp) in Es.
  destruct (pair_elem nc nc1 a1 Hp Ha1) as (a & nc' & ty' & o & -> & Ha & _ & _ & _ & _ & _ & _ & _ & _ & Hpos & _ & _).
  split; [lia|]. rewrite copy_tags. apply in_map. exact (proj2 (Hs nc a Hnc Es Ha)).
Qed.

Lemma copy_readable ignore_null names : readable ignore_null names (WEvt h e only) -> readable ignore_null names (WEvt h1 e1 []).
Proof.
  intros [Hl Hs]. split; [apply copy_mc; exact Hl|]. destruct Hs as [Hs|Hs]; [left; exact Hs|right; apply copy_subsets; exact Hs].
Qed.

(** ** The copy of the copy *)

Lemma tags_objs names : incl (event_tags only names h e) (event_objs only [] h e).
Proof.
  intros a Ha. unfold event_tags in Ha. apply in_flat_map in Ha. destruct Ha as (nc & Hnc & Ha). apply in_flat_map. exists nc.
  split; [exact (back_in _ _ Hnc)|]. exact (part_incl _ _ (part_tags h (snd nc)) a Ha).
Qed.
Lemma tags_more names : incl (event_tags only names h e) tags1.
Proof.
  intros a Ha. unfold event_tags in *. apply in_flat_map in Ha. destruct Ha as (nc & Hnc & Ha). apply in_flat_map. exists nc.
  split; [exact (back_in _ _ Hnc)|exact Ha].
Qed.
Lemma target_twice names new2 a : target new2 (event_tags [] names h1 e1) (tgt1 a) = target (fun a => new2 (new1 a)) (event_tags only names h e) a.
Proof.
  rewrite copy_tags. unfold target at 2. destruct (a =? 0) eqn:E0; [unfold target; rewrite E0; reflexivity|].
  destruct (in_dec Z.eq_dec a tags1) as [Hi|Hi].
  - unfold target. rewrite E0. pose proof (tags_objs [] a Hi) as Ho. pose proof (numbers_pos _ _ _ _ Hnum Hnext Ho) as Hpos.
    replace (new1 a =? 0) with false by lia.
    destruct (in_dec Z.eq_dec (new1 a) (map new1 (event_tags only names h e))) as [H1|H1];
      destruct (in_dec Z.eq_dec a (event_tags only names h e)) as [H2|H2]; try reflexivity.
    + exfalso. apply H2. apply in_map_iff in H1. destruct H1 as (b & Eb & Hb). rewrite <- (new1_inj b a (tags_objs names b Hb) Ho Eb). exact Hb.
    + exfalso. apply H1. apply in_map. exact H2.
  - unfold target. rewrite E0. cbn [Z.eqb]. destruct (in_dec Z.eq_dec a (event_tags only names h e)) as [H2|H2]; [|reflexivity].
    exfalso. apply Hi. exact (tags_more names a H2).
Qed.

Theorem copy_copy names next2 l2 : event_copy srt names next2 h1 e1 [] l2 -> event_copy srt names next2 h e only l2.
Proof.
  intros (Hr & Hs & new2 & Hn2 & F2 & HH2). split; [exact Hr|]. split.
  { destruct Hsame as (S1 & S2 & S3 & S4 & S5), Hs as (T1 & T2 & T3 & T4 & T5). unfold same_header.
    rewrite T1, T2, T3, T4, T5. repeat split; assumption. }
  exists (fun a => new2 (new1 a)). split.
  { intros i a Hi. apply Hn2. rewrite copy_objs. apply map_nth_error. exact Hi. }
  cbv zeta. split.
  - pose proof (pairs_back names) as Fp. revert F2 Fp. generalize (read_back [] names e1) (read_back only names e) (ev_cols (le_evt l2)).
    intros lb la lc F2 Fp. revert lc F2. induction Fp as [|nc nc1 la lb Hp Fp IH]; intros lc F2; inversion F2 as [|? nc2 ? lc' H12 F2']; subst; constructor; [|apply IH; exact F2'].
    destruct H12 as (A1 & A2 & ty & A3 & A4 & A5 & A6). rewrite (pair_type _ _ Hp) in A2, A3. rewrite (pair_fst _ _ Hp) in A1.
    split; [exact A1|]. split; [exact A2|]. exists ty. split; [exact A3|].
    split; [rewrite A4; apply pair_stored_flag; assumption|].
    split; [rewrite A5, (pair_params _ _ _ Hp A3); apply pair_par; assumption|].
    rewrite A6, (pair_elems _ _ Hp), (pair_subset _ _ Hp), map_map. apply map_ext_in. intros a Ha.
    destruct (is_subset (snd nc)) eqn:Es; [|reflexivity]. pose proof Hp as (Hnc & _).
    destruct (cp_owner nc a Hnc Ha) as (_ & _ & _ & _ & _ & Ht). rewrite <- (Ht Es). apply target_twice.
  - intros nc a o Hnc Es Ha Ho. destruct (Forall2_in_l _ _ _ _ (pairs_back names) Hnc) as (nc1 & Hnc1 & Hp).
    pose proof (back_in _ _ Hnc) as Hnc0. destruct (cp_elem nc a Hnc0 Ha Es) as (ty & o' & Hty & Ho' & Hto & H0 & Hel & Hobj).
    rewrite Ho in Ho'. injection Ho' as <-.
    pose proof (cp_heap nc ty a o Hnc0 Es Hty Ha Ho) as H1.
    assert (Ha1 : In (new1 a) (c_elems (snd nc1))) by (rewrite (pair_elems _ _ Hp); apply in_map; exact Ha).
    assert (Es1 : is_subset (snd nc1) = false) by (rewrite (pair_subset _ _ Hp); exact Es).
    rewrite (HH2 nc1 (new1 a) _ Hnc1 Es1 Ha1 H1). rewrite (copy_daughters names a Hobj), map_map. f_equal.
    unfold copy_in. rewrite (pair_type _ _ Hp), Hty. f_equal. rewrite (pair_stored_flag _ _ _ Hp Hty), (pair_fixed _ _ _ Hp Hty).
    assert (Hlk : likes_desc o) by (destruct Hc as (_ & Hpo & _); exact (Hpo nc a o Hnc0 Ha Ho)). destruct Hlk as [L1 L2].
    unfold read_copy. rewrite !(resort_id srt Hsrt).
    2,3: split; rewrite likes_stored, ?likes_copied; assumption.
    unfold copied. rewrite copy_again by (apply elem_ok_flag; assumption).
    apply map_refs_ext. intros x _. apply target_twice.
Qed.

(** ** The size of the records *)

Lemma elems_alike nc ty hs hs1 : In nc cols -> is_subset (snd nc) = false -> get_handler (c_type (snd nc)) = Some ty ->
  h_flag hs = stored_flag ty h (snd nc) -> h_flag hs1 = stored_flag ty h (snd nc) -> h_sizes hs1 = h_sizes hs ->
  forall l w w1, incl l (c_elems (snd nc)) -> write_elems ty hs h l = Ok w -> write_elems ty hs1 h1 (map new1 l) = Ok w1 -> alike w w1.
Proof.
  intros Hnc Es Hty F1 F2 F3. induction l as [|a l IH]; intros w w1 Hi E E1; cbn [write_elems map] in *.
  { apply Ok_inj in E, E1. subst. constructor. }
  assert (Ha : In a (c_elems (snd nc))) by (apply Hi; left; reflexivity).
  destruct (cp_elem nc a Hnc Ha Es) as (ty' & o & Hty' & Ho & Hto & H0 & Hel & Hobj). rewrite Hty in Hty'. injection Hty' as <-.
  pose proof (numbers_pos _ _ _ _ Hnum Hnext Hobj) as Hpos.
  replace (a =? 0) with false in E by lia. replace (new1 a =? 0) with false in E1 by lia. rewrite Ho in E.
  rewrite (cp_heap nc ty a o Hnc Es Hty Ha Ho) in E1.
  destruct (write_obj ty hs a o) as [x|x|x] eqn:X; cbn [bind] in E; try discriminate.
  destruct (write_elems ty hs h l) as [y|y|y] eqn:Y; cbn [bind] in E; try discriminate.
  match type of E1 with context [write_obj ty hs1 (new1 a) ?c] => destruct (write_obj ty hs1 (new1 a) c) as [x1|x1|x1] eqn:X1 end; cbn [bind] in E1; try discriminate.
  destruct (write_elems ty hs1 h1 (map new1 l)) as [y1|y1|y1] eqn:Y1; cbn [bind] in E1; try discriminate.
  apply Ok_inj in E, E1. subst w w1. apply alike_app.
  - refine (obj_alike new1 tgt1 (stored_flag ty h (snd nc)) (stores_fixed ty h (snd nc)) _ ty hs hs1 a (new1 a) o x x1 F1 F2 F3 Hto _ X X1).
    apply elem_ok_flag; assumption.
  - eapply IH; try reflexivity; try assumption. intros b Hb. apply Hi. right. exact Hb.
Qed.

Lemma pair_alike nc nc1 ty c' c1' w w1 : pair_of nc nc1 -> get_handler (c_type (snd nc)) = Some ty ->
  write_coll ty h (snd nc) = Ok (c', w) -> write_coll ty h1 (snd nc1) = Ok (c1', w1) -> alike w w1.
Proof.
  intros Hp Hty E E1. pose proof Hp as (Hnc & _). destruct (cp_ok nc Hnc) as (_ & _ & ty' & Hty' & Hco). rewrite Hty in Hty'. injection Hty' as <-.
  destruct (pair_coll nc nc1 Hp) as (ty' & Hty' & Hco1). rewrite (pair_type _ _ Hp), Hty in Hty'. injection Hty' as <-.
  destruct (init_spec ty h _ Hco) as (p & hs & wi & Ei & [F1 _ _ _] & _ & -> & _).
  destruct (init_spec ty h1 _ Hco1) as (p1 & hs1 & wi1 & Ei1 & [G1 _ _ _] & _ & -> & _).
  pose proof (init_calls _ _ _ _ _ _ Ei) as W. pose proof (init_calls _ _ _ _ _ _ Ei1) as W1.
  pose proof (init_sizes _ _ _ _ _ _ Hco Ei) as Z0. pose proof (init_sizes _ _ _ _ _ _ Hco1 Ei1) as Z1.
  assert (Esz : h_sizes hs1 = h_sizes hs).
  { rewrite Z0, Z1, (pair_fixed _ _ _ Hp Hty). destruct (stores_fixed ty h (snd nc)) eqn:Ef; [|reflexivity]. f_equal.
    apply fixed_is_go in Ef. subst ty. destruct Hco as (_ & _ & _ & _ & _ & _ & Hgo). destruct (Hgo eq_refl) as (T & _).
    unfold first_sizes. rewrite (pair_elems _ _ Hp). destruct (c_elems (snd nc)) as [|a l] eqn:El; [reflexivity|]. cbn [map].
    destruct (T a (or_introl eq_refl)) as (_ & x & Hx & Htx). destruct x as [x|x|x|x|x|x|x|x|x|x|x|x|x|x|x|x|x|x|x|x|x]; try discriminate Htx. rewrite Hx.
    assert (Ha : In a (c_elems (snd nc))) by (rewrite El; left; reflexivity).
    destruct (pair_elem nc nc1 (new1 a) Hp) as (a' & nc' & ty' & o & E2 & Ha' & H1 & H2 & H3 & _ & H5 & H6 & H7 & _ & _ & _ & H8).
    { rewrite (pair_elems _ _ Hp), El. left. reflexivity. }
    assert (Ea : a = a') by (apply new1_inj; [exact (cp_obj nc a Hnc Ha)|exact (cp_obj nc a' Hnc Ha')|exact E2]). subst a'.
    rewrite H8. rewrite Hx in H6. injection H6 as <-. reflexivity. }
  rewrite Esz in W1. cbn [init_writing0] in *. unfold init_writing0 in W, W1. cbn [c_flag c_par] in W, W1.
  rewrite (pair_stored_flag _ _ _ Hp Hty), (pair_params _ _ _ Hp Hty), (pair_par _ _ _ Hp Hty) in W1. rewrite <- W in W1. subst wi1.
  unfold write_coll in E, E1. rewrite Ei in E. rewrite Ei1 in E1. cbn [bind] in E, E1.
  rewrite F1 in E. rewrite G1, (pair_stored_flag _ _ _ Hp Hty) in E1.
  assert (Ebit : bit_set (stored_flag ty h (snd nc)) BITSubset = is_subset (snd nc)) by apply stored_flag_subset.
  rewrite Ebit in E, E1. rewrite (pair_elems _ _ Hp), cnt_map, upto_map in E1. destruct (is_subset (snd nc)) eqn:Es.
  - apply ok_snd in E, E1. subst w w1. apply alike_app; [apply alike_refl|]. apply alike_app; [apply alike_refl|apply alike_ptrs].
  - destruct (write_elems ty hs h (upto (c_elems (snd nc)))) as [y|y|y] eqn:Y; cbn [bind] in E; try discriminate.
    destruct (write_elems ty hs1 h1 (map new1 (upto (c_elems (snd nc))))) as [y1|y1|y1] eqn:Y1; cbn [bind] in E1; try discriminate.
    apply ok_snd in E, E1. subst w w1. apply alike_app; [apply alike_refl|]. apply alike_app; [apply alike_refl|].
    rewrite (pair_stored_flag _ _ _ Hp Hty) in G1.
    refine (elems_alike nc ty hs hs1 Hnc Es Hty F1 G1 Esz _ _ _ _ Y Y1). intros a Ha. unfold upto in Ha. rewrite <- (firstn_skipn (Z.to_nat (cnt (c_elems (snd nc))))).
    apply in_or_app. left. exact Ha.
Qed.

Lemma back_all : cols = stored_cols only e.
Proof. unfold read_back. apply filter_all. reflexivity. Qed.

Lemma copy_header : write_evhdr [] e1 = write_evhdr only e.
Proof.
  destruct Hsame as (S1 & S2 & S3 & S4 & S5). unfold write_evhdr. rewrite !stored_cols_eq, copy_stored, <- back_all, S1, S2, S3, S4, S5.
  assert (F : Forall2 (fun a b : bytes * coll => fst b = fst a /\ header_type (snd b) = header_type (snd a)) cols (ev_cols e1)).
  { apply (Forall2_impl_in pair_of); [|exact pairs]. intros nc nc1 _ _ Hp. split; [exact (pair_fst _ _ Hp)|]. unfold header_type.
    pose proof (pair_subset _ _ Hp) as Es. unfold is_subset in Es. unfold bit_set, BITSubset. rewrite Es, (pair_type _ _ Hp). reflexivity. }
  replace (Zlen (ev_cols e1)) with (Zlen cols).
  2:{ revert F. generalize (ev_cols e1) cols. intros l1 l F. induction F as [|x y l l' _ F IH]; [reflexivity|]. rewrite !Zlen_cons, IH. reflexivity. }
  do 5 f_equal. f_equal. revert F. generalize (ev_cols e1) cols. intros l1 l F. induction F as [|x y l l' [A B] F IH]; [reflexivity|].
  cbn [flat_map]. rewrite A, B, IH. reflexivity.
Qed.

Lemma copy_blocks bs cs bs1 cs1 : event_blocks only h (ev_cols e) = Ok (bs, cs) -> event_blocks [] h1 (ev_cols e1) = Ok (bs1, cs1) ->
  record_size event_record bs1 = record_size event_record bs.
Proof.
  intros E E1. apply blocks_written in E, E1. rewrite stored_cols_eq in E, E1. rewrite copy_stored in E1. rewrite <- back_all in E.
  unfold record_size. f_equal. apply alike_size. apply alike_fm.
  assert (G : Forall2 (fun b nc1 => exists nc, pair_of nc nc1 /\ wb_name b = fst nc /\
      exists ty c', get_handler (c_type (snd nc)) = Some ty /\ write_coll ty h (snd nc) = Ok (c', wb_calls b)) bs (ev_cols e1)).
  { refine (Forall2_join _ _ _ cols bs (ev_cols e1) _ E pairs). intros nc b nc1 [A B] Hp. exists nc. split; [exact Hp|]. split; assumption. }
  clear E. revert E1 bs G. generalize (ev_cols e1). intros L E1. induction E1 as [|nc1 b1 l1 bs1 (A & ty1 & c1 & B & C) F IH]; intros bs G.
  { inversion G. constructor. }
  inversion G as [|b ? bs' ? Hb G']; subst. constructor; [|apply IH; exact G'].
  destruct Hb as (nc & Hp & D & ty & c & K & L). rewrite (pair_type _ _ Hp), K in B. injection B as <-.
  apply block_alike; [rewrite A, D; exact (pair_fst _ _ Hp)|]. exact (pair_alike nc nc1 ty _ _ _ _ Hp K L C).
Qed.

Theorem copy_item z : item_ok (z, WEvt h e only) -> item_ok (z, WEvt h1 e1 []).
Proof.
  intros (_ & Hh & Hb). cbn [fst snd] in *. split; [exact copy_ok|]. cbn [fst]. rewrite copy_header. split; [exact Hh|].
  intros bs1 cs1 E1. destruct He as (_ & _ & _ & _ & _ & _ & _ & Hf & _).
  destruct (event_blocks_spec srt only h (ev_cols e)) as (bs & cs & E & _).
  { rewrite stored_cols_eq. eapply Forall_impl; [|exact Hf]. intros nc (_ & _ & H). exact H. }
  rewrite (copy_blocks bs cs bs1 cs1 E E1). exact (Hb bs cs E).
Qed.

End Copy.

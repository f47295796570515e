(** * Corollaries of the round trip of events, in the form of the property theorems *)

From Coq Require Import Permutation Sorted.
From Verif Require Import Bytes StrMap SioModel SioSpec Ieee ObjModel ObjSpec CollSpec CollProofs ListFacts EventModel EventSpec
  EventProofs PostProofs.

(** writing an event into two records and reading these *)
Definition store_read srt (ignore_null : bool) (only names : list bytes) (h : heap) (e : event) (buf1 buf2 : buffer)
    (next : addr) : Res (event * heap * addr) :=
  do '(rh, bh) <- write_header_record buf1 only e;
  do '(_, re, be) <- write_event_record buf2 only h e;
  read_event srt ignore_null names (rec_data rh (b_bytes bh)) (rec_data re (b_bytes be)) next.

Definition usable (b : buffer) : Prop := b_valid b = true /\ b_bytes b <> [].

(** the particle ids of all objects are ordered by likelihood *)
Definition pids_ordered (h : heap) (cols : list (bytes * coll)) : Prop :=
  forall nc a o, In nc cols -> In a (c_elems (snd nc)) -> h a = Some o -> likes_desc o.
(** the object [o] of collection [c] (of type [ty]) after reading *)
Definition copy_of (new tgt : addr -> addr) (h : heap) (ty : otype) (c : coll) (o : obj) : obj :=
  map_refs tgt (map_owned new (stored (stored_flag ty h c) (stores_fixed ty h c) o)).

Lemma likes_stored flag fixed new o : likes (map_owned new (stored flag fixed o)) = likes o.
Proof. destruct o; cbn; try reflexivity. rewrite map_map. reflexivity. Qed.

Lemma read_back_stored only names e nc : In nc (read_back only names e) -> In nc (stored_cols only e).
Proof. intros H. apply filter_In in H. apply H. Qed.

Lemma store_read_spec srt ignore_null only names h e buf1 buf2 new next :
  event_ok only h e -> event_fits only h e -> usable buf1 -> usable buf2 ->
  0 < next -> numbers new (event_objs only names h e) next -> mc_links_ok h (read_back only names e) ->
  ignore_null = true \/ subsets_ok h (event_tags only names h e) (read_back only names e) ->
  let cols := read_back only names e in
  let tgt := target new (event_tags only names h e) in
  exists e' h', store_read srt ignore_null only names h e buf1 buf2 next = Ok (e', h', next + Zlen (event_objs only names h e)) /\
    same_header e e' /\
    Forall2 (coll_as h (fun sub => if sub then tgt else new)) cols (ev_cols e') /\
    forall nc a o, In nc cols -> is_subset (snd nc) = false -> In a (c_elems (snd nc)) -> h a = Some o ->
         h' (new a) = option_map (more (map new (daughters_of h cols a))) (copy_in srt new tgt h (snd nc) o).
Proof.
  intros He Hf [Hv1 Hb1] [Hv2 Hb2] Hn Hnum Hl Hi. cbv zeta.
  destruct (event_roundtrip srt ignore_null only names h e buf1 buf2 new next) as (rh & bh & e1 & re & be & E1 & _ & E2 & _ & _ & _ & R & _);
    try assumption.
  destruct (R Hi) as (e' & h' & E & Hs & Fc & Hh). exists e', h'.
  unfold store_read. rewrite E1. cbn [bind]. rewrite E2. cbn [bind]. split; [exact E|]. split; [exact Hs|]. split; [exact Fc|exact Hh].
Qed.

Lemma store_read_ordered srt ignore_null only names h e buf1 buf2 new next :
  sort_ok srt -> pids_ordered h (read_back only names e) ->
  event_ok only h e -> event_fits only h e -> usable buf1 -> usable buf2 ->
  0 < next -> numbers new (event_objs only names h e) next -> mc_links_ok h (read_back only names e) ->
  ignore_null = true \/ subsets_ok h (event_tags only names h e) (read_back only names e) ->
  let cols := read_back only names e in
  let tgt := target new (event_tags only names h e) in
  exists e' h', store_read srt ignore_null only names h e buf1 buf2 next = Ok (e', h', next + Zlen (event_objs only names h e)) /\
    same_header e e' /\
    Forall2 (coll_as h (fun sub => if sub then tgt else new)) cols (ev_cols e') /\
    forall nc ty a o, In nc cols -> is_subset (snd nc) = false -> get_handler (c_type (snd nc)) = Some ty ->
      In a (c_elems (snd nc)) -> h a = Some o ->
      h' (new a) = Some (more (map new (daughters_of h cols a)) (copy_of new tgt h ty (snd nc) o)).
Proof.
  intros Hs Hp He Hf H1 H2 Hn Hnum Hl Hi. cbv zeta.
  destruct (store_read_spec srt ignore_null only names h e buf1 buf2 new next He Hf H1 H2 Hn Hnum Hl Hi) as (e' & h' & E & Hh & Fc & Ho).
  exists e', h'. split; [exact E|]. split; [exact Hh|]. split; [exact Fc|].
  intros nc ty a o Hnc Hsub Hty Ha Hoa. rewrite (Ho nc a o Hnc Hsub Ha Hoa). unfold copy_in. rewrite Hty. cbn [option_map].
  unfold copy_of, read_copy. rewrite (resort_id srt Hs); [reflexivity|].
  destruct (Hp nc a o Hnc Ha Hoa) as [L1 L2]. split; rewrite likes_stored; assumption.
Qed.

(** every stored element exists *)
Lemma elem_exists only h e nc a : event_ok only h e -> In nc (stored_cols only e) -> is_subset (snd nc) = false ->
  In a (c_elems (snd nc)) -> exists ty o, get_handler (c_type (snd nc)) = Some ty /\ h a = Some o /\ type_of o = ty.
Proof.
  intros (_ & _ & _ & _ & _ & _ & _ & F & _) Hnc Hs Ha. rewrite Forall_forall in F.
  destruct (F nc Hnc) as (_ & _ & ty & Hty & _ & _ & _ & _ & Ht & _). destruct (Ht Hs) as [T _].
  destruct (T a Ha) as (_ & o & Ho & Hto). exists ty, o. auto.
Qed.

(** ** The header alone *)
Lemma header_read buf only names h e : usable buf -> event_ok only h e ->
  record_size header_record [mkWB header_block cur_vers (write_evhdr only e)] < two32 ->
  exists ri buf' e', write_header_record buf only e = Ok (ri, buf') /\ ri_name ri = header_record /\
    read_header_record names (rec_data ri (b_bytes buf')) = Ok e' /\ same_header e e' /\
    map (fun nc => (fst nc, c_type (snd nc))) (ev_cols e') = map (fun nc => (fst nc, c_type (snd nc))) (read_back only names e).
Proof.
  intros [Hv Hb] He Hs. destruct (header_roundtrip buf only names h e Hv Hb He Hs) as (ri & buf' & E & En & Er).
  exists ri, buf', (hdr_event only names e). split; [exact E|]. split; [exact En|]. split; [exact Er|]. split; [repeat split|].
  cbn [hdr_event ev_cols]. rewrite map_map. reflexivity.
Qed.

(** ** Parameters *)
Lemma params_read srt ignore_null only names h e buf1 buf2 next :
  event_ok only h e -> event_fits only h e -> usable buf1 -> usable buf2 ->
  0 < next -> mc_links_ok h (read_back only names e) ->
  ignore_null = true \/ subsets_ok h (event_tags only names h e) (read_back only names e) ->
  exists e' h' next', store_read srt ignore_null only names h e buf1 buf2 next = Ok (e', h', next') /\
    ev_par e' = ev_par e /\
    Forall2 (fun nc nc' => exists ty, get_handler (c_type (snd nc)) = Some ty /\
               c_par (snd nc') = stored_params ty h (snd nc) /\
               same_params_but (own_keys ty) (c_par (snd nc)) (c_par (snd nc'))) (read_back only names e) (ev_cols e').
Proof.
  intros He Hf H1 H2 Hn Hl Hi.
  assert (Hnd : NoDup (event_objs only names h e)).
  { destruct He as (_ & _ & _ & _ & _ & _ & _ & _ & Hnd). unfold event_objs, read_back. apply NoDup_flat_map_filter. exact Hnd. }
  destruct (numbering_exists (event_objs only names h e) next Hnd) as (new & Hnew).
  destruct (store_read_spec srt ignore_null only names h e buf1 buf2 new next He Hf H1 H2 Hn Hnew Hl Hi) as (e' & h' & E & Hh & Fc & _).
  do 3 eexists. split; [exact E|]. split; [apply Hh|].
  eapply Forall2_impl_in; [|exact Fc]. intros nc nc' Hnc _ (_ & _ & ty & Hty & _ & Hp & _). exists ty.
  split; [exact Hty|]. split; [exact Hp|]. rewrite Hp. apply stored_params_same.
  destruct He as (_ & _ & _ & _ & _ & _ & _ & Hcols & _). apply filter_In in Hnc. rewrite Forall_forall in Hcols.
  destruct (Hcols nc (proj1 Hnc)) as (_ & _ & ty' & _ & Hc). apply Hc.
Qed.

(** ** Attributes *)

(** values that are stored exactly: doubles that are floats, and the attributes without place in
    the file at their defaults *)
Definition exactly_storable (fixed : bool) (o : obj) : Prop :=
  let single d := as_float d = d in
  match o with
  | OMC x => Forall single (mc_p x) /\ single (mc_mass x) /\ mc_daughters x = [] /\
             (if Z.testbit (mc_sim x) 31 then Forall single (mc_pend x)
              else mc_endpoint x = [0; 0; 0] /\ mc_pend x = [0; 0; 0])
  | ORP x => Forall single (rp_p x) /\ single (rp_energy x) /\ single (rp_mass x)
  | OVX x => vx_primary x = 0 \/ vx_primary x = 16777216
  | OGO x => go_fixed x = fixed /\ go_type x = str "LCGenericObject" /\ go_desc x = []
  | _ => True
  end.

Lemma map_id_on {A} (f : A -> A) l : Forall (fun x => f x = x) l -> map f l = l.
Proof. induction 1 as [|x l H F IH]; [reflexivity|]. cbn [map]. rewrite H, IH. reflexivity. Qed.

Lemma stored_complete flag fixed o : (forall n, 26 <= n <= 31 -> Z.testbit flag n = true) -> exactly_storable fixed o ->
  stored flag fixed o = o.
Proof.
  intros B H.
  assert (B26 := B 26 ltac:(lia)). assert (B27 := B 27 ltac:(lia)). assert (B28 := B 28 ltac:(lia)).
  assert (B29 := B 29 ltac:(lia)). assert (B30 := B 30 ltac:(lia)). assert (B31 := B 31 ltac:(lia)).
  destruct o as [o|o|o|o|o|o|o|o|o|o|o|o|o|o|o|o|o|o|o|o|o]; destruct o; cbn [stored]; f_equal; cbn [exactly_storable] in H; cbv zeta in H;
    lazymatch goal with |- ?f _ _ = _ => unfold f | |- ?f _ = _ => unfold f | _ => idtac end;
    try reflexivity.
  all: cbv zeta; cbn -[Z.testbit as_float] in H |- *; rewrite ?B26, ?B27, ?B28, ?B29, ?B30, ?B31; cbn [kept]; try reflexivity.
  - destruct H as (H1 & H2 & -> & H3). rewrite (map_id_on _ _ H1), H2. destruct (Z.testbit mc_sim 31).
    + cbn [kept]. rewrite (map_id_on _ _ H3). reflexivity.
    + destruct H3 as [-> ->]. reflexivity.
  - f_equal. apply map_id_on. apply Forall_forall. intros c _. unfold stored_cont. rewrite B28. destruct c; reflexivity.
  - destruct H as (H1 & H2 & H3). rewrite (map_id_on _ _ H1), H2, H3. reflexivity.
  - destruct H as [-> | ->]; reflexivity.
  - destruct H as (<- & -> & ->). reflexivity.
Qed.

(** ** The particle ids in general *)
Lemma add_pids_sorted srt {A} (key : A -> Z) l : sort_ok srt -> Forall (fun x => f_nan (key x) = false) l ->
  Permutation (add_pids srt key l) l /\ StronglySorted (fun x y => f_gt (key y) (key x) = false) (add_pids srt key l).
Proof.
  intros Hs. unfold add_pids.
  assert (G : forall l acc, Forall (fun x => f_nan (key x) = false) (acc ++ l) ->
    StronglySorted (fun x y => f_gt (key y) (key x) = false) acc ->
    Permutation (fold_left (fun l p => srt A key (l ++ [p])) l acc) (acc ++ l) /\
    StronglySorted (fun x y => f_gt (key y) (key x) = false) (fold_left (fun l p => srt A key (l ++ [p])) l acc)).
  { clear l. induction l as [|x l IH]; intros acc F S; cbn [fold_left].
    - rewrite app_nil_r. split; [apply Permutation_refl|exact S].
    - assert (F' : Forall (fun x => f_nan (key x) = false) (acc ++ [x])).
      { replace (acc ++ x :: l) with ((acc ++ [x]) ++ l) in F by (rewrite <- app_assoc; reflexivity). apply Forall_app in F. apply F. }
      destruct (Hs A key (acc ++ [x]) F') as [P S'].
      destruct (IH (srt A key (acc ++ [x]))) as [P2 S2]; [|exact S'|].
      + apply Forall_app. apply Forall_app in F. destruct F as [_ F]. inversion F; subst. split; [|assumption].
        eapply Permutation_Forall; [apply Permutation_sym; exact P|exact F'].
      + split; [|exact S2]. eapply Permutation_trans; [exact P2|]. eapply Permutation_trans; [apply Permutation_app_tail; exact P|].
        rewrite <- app_assoc. apply Permutation_refl. }
  intros F. destruct (G l [] F (SSorted_nil _)) as [P S]. split; assumption.
Qed.

(** an insertion sort is such a sort *)
Fixpoint insert_by (A : Type) (key : A -> Z) (x : A) (l : list A) : list A :=
  match l with
  | [] => [x]
  | y :: l' => if f_gt (key x) (key y) then x :: l else y :: insert_by A key x l'
  end.
Definition isort (A : Type) (key : A -> Z) (l : list A) : list A := fold_left (fun acc x => insert_by A key x acc) l [].

Lemma isort_ok : sort_ok isort.
Proof.
  intros A key l F. unfold isort.
  assert (I : forall x acc, f_nan (key x) = false -> Forall (fun x => f_nan (key x) = false) acc ->
     StronglySorted (fun x y => f_gt (key y) (key x) = false) acc ->
     Permutation (insert_by A key x acc) (x :: acc) /\ StronglySorted (fun x y => f_gt (key y) (key x) = false) (insert_by A key x acc)).
  { intros x acc Hx. induction acc as [|y acc IH]; intros Fa S; cbn [insert_by].
    - split; [apply Permutation_refl|constructor; [constructor|constructor]].
    - inversion Fa as [|? ? Hy Fa']; subst. inversion S as [|? ? S' G]; subst. destruct (f_gt (key x) (key y)) eqn:E.
      + split; [apply Permutation_refl|]. constructor; [exact S|]. constructor.
        * unfold f_gt in *. rewrite Hx, Hy in *. cbn in *. lia.
        * rewrite Forall_forall in *. intros z Hz. specialize (G z Hz). specialize (Fa' z Hz).
          unfold f_gt in *. rewrite Hx, Hy, Fa' in *. cbn in *. lia.
      + destruct (IH Fa' S') as [P S2]. split.
        * eapply Permutation_trans; [apply perm_skip; exact P|apply perm_swap].
        * constructor; [exact S2|]. eapply Permutation_Forall; [apply Permutation_sym; exact P|]. constructor; [exact E|exact G]. }
  assert (G : forall l acc, Forall (fun x => f_nan (key x) = false) (acc ++ l) -> StronglySorted (fun x y => f_gt (key y) (key x) = false) acc ->
     Permutation (fold_left (fun acc x => insert_by A key x acc) l acc) (acc ++ l) /\
     StronglySorted (fun x y => f_gt (key y) (key x) = false) (fold_left (fun acc x => insert_by A key x acc) l acc)).
  { clear l F. induction l as [|x l IH]; intros acc F S; cbn [fold_left].
    - rewrite app_nil_r. split; [apply Permutation_refl|exact S].
    - apply Forall_app in F. destruct F as [Fa F]. inversion F as [|? ? Hx Fl]; subst.
      destruct (I x acc Hx Fa S) as [P S2]. destruct (IH (insert_by A key x acc)) as [P3 S3]; [|exact S2|].
      + apply Forall_app. split; [|exact Fl]. eapply Permutation_Forall; [apply Permutation_sym; exact P|constructor; assumption].
      + split; [|exact S3]. eapply Permutation_trans; [exact P3|]. eapply Permutation_trans; [apply Permutation_app_tail; exact P|].
        cbn [app]. apply Permutation_middle. }
  destruct (G l [] F (SSorted_nil _)) as [P S]. split; assumption.
Qed.

(** ** Subset collections, daughters, generic objects *)

Lemma subset_read srt only names h e buf1 buf2 new next :
  event_ok only h e -> event_fits only h e -> usable buf1 -> usable buf2 ->
  0 < next -> numbers new (event_objs only names h e) next -> mc_links_ok h (read_back only names e) ->
  let cols := read_back only names e in
  let tags := event_tags only names h e in
  exists e' h' n', store_read srt true only names h e buf1 buf2 next = Ok (e', h', n') /\
    forall n c, In (n, c) cols -> is_subset c = true ->
      exists c', In (n, c') (ev_cols e') /\ Z.testbit (c_flag c') 18 = true /\ Zlen (c_elems c') = Zlen (c_elems c) /\
        forall i a, nth_error (c_elems c) i = Some a ->
          nth_error (c_elems c') i = Some (if existsb (Z.eqb a) tags && negb (a =? 0) then new a else 0).
Proof.
  intros He Hf H1 H2 Hn Hnum Hl. cbv zeta.
  destruct (store_read_spec srt true only names h e buf1 buf2 new next He Hf H1 H2 Hn Hnum Hl (or_introl eq_refl)) as (e' & h' & E & Hh & Fc & _).
  do 3 eexists. split; [exact E|]. intros n c Hin Hs.
  destruct (Forall2_in_l _ _ _ (n, c) Fc Hin) as ([n' c'] & Hin' & Hn' & _ & ty & Hty & Hfl & _ & Hel). cbn [fst snd] in *. subst n'.
  exists c'. split; [exact Hin'|]. split; [|split].
  - rewrite Hfl. unfold stored_flag. unfold is_subset in Hs. destruct (stores_fixed ty h c); [|exact Hs].
    rewrite Z.lor_spec, Hs. reflexivity.
  - rewrite Hel. unfold Zlen. rewrite map_length. reflexivity.
  - intros i a Hi. rewrite Hel, Hs. rewrite nth_error_map, Hi. cbn [option_map]. f_equal. unfold target.
    destruct (a =? 0) eqn:E0; [rewrite andb_false_r; reflexivity|]. rewrite andb_true_r.
    destruct (in_dec Z.eq_dec a (event_tags only names h e)) as [Hi2|Hi2].
    + replace (existsb (Z.eqb a) (event_tags only names h e)) with true; [reflexivity|].
      symmetry. apply existsb_exists. exists a. split; [exact Hi2|apply Z.eqb_refl].
    + replace (existsb (Z.eqb a) (event_tags only names h e)) with false; [reflexivity|].
      symmetry. apply Bool.not_true_is_false. intros X. apply existsb_exists in X. destruct X as (b & Hb & Eb).
      apply Z.eqb_eq in Eb. subst b. contradiction.
Qed.

Lemma subset_missing srt only names h e buf1 buf2 next n c a :
  event_ok only h e -> event_fits only h e -> usable buf1 -> usable buf2 ->
  0 < next -> mc_links_ok h (read_back only names e) ->
  In (n, c) (read_back only names e) -> is_subset c = true -> In a (c_elems c) -> ~ In a (event_tags only names h e) ->
  store_read srt false only names h e buf1 buf2 next = Throw LException.
Proof.
  intros He Hf [Hv1 Hb1] [Hv2 Hb2] Hn Hl Hin Hs Ha Hnot.
  assert (Hnd : NoDup (event_objs only names h e)).
  { destruct He as (_ & _ & _ & _ & _ & _ & _ & _ & Hnd). unfold event_objs, read_back. apply NoDup_flat_map_filter. exact Hnd. }
  destruct (numbering_exists (event_objs only names h e) next Hnd) as (new & Hnew).
  destruct (event_roundtrip srt false only names h e buf1 buf2 new next) as (rh & bh & e1 & re & be & E1 & _ & E2 & _ & _ & _ & _ & R);
    try assumption.
  unfold store_read. rewrite E1. cbn [bind]. rewrite E2. cbn [bind]. apply R; [reflexivity|]. exists (n, c), a. auto.
Qed.

Lemma count_repeat x y n : count_occ Z.eq_dec (repeat x n) y = if x =? y then n else O.
Proof.
  induction n as [|n IH]; cbn; [destruct (x =? y); reflexivity|]. destruct (Z.eq_dec x y) as [->|H]; rewrite IH.
  - rewrite Z.eqb_refl. reflexivity.
  - apply Z.eqb_neq in H. rewrite H. reflexivity.
Qed.

Lemma daughters_count h x d : forall l, NoDup l -> In d l ->
  count_occ Z.eq_dec (flat_map (fun a => repeat a (count_occ Z.eq_dec (parents h a) x)) l) d = count_occ Z.eq_dec (parents h d) x.
Proof.
  assert (Z0 : forall l, ~ In d l -> count_occ Z.eq_dec (flat_map (fun a => repeat a (count_occ Z.eq_dec (parents h a) x)) l) d = O).
  { induction l as [|a l IH]; intros H; [reflexivity|]. cbn [flat_map]. rewrite count_occ_app, count_repeat.
    assert (E : (a =? d) = false) by (apply Z.eqb_neq; intros ->; apply H; left; reflexivity). rewrite E, IH; [reflexivity|].
    intros X. apply H. right. exact X. }
  induction l as [|a l IH]; intros Hn Hd; [destruct Hd|]. inversion Hn as [|? ? Hna Hn']; subst. cbn [flat_map].
  rewrite count_occ_app, count_repeat. destruct Hd as [->|Hd].
  - rewrite Z.eqb_refl, (Z0 l Hna). lia.
  - assert (E : (a =? d) = false) by (apply Z.eqb_neq; intros ->; contradiction). rewrite E, (IH Hn' Hd). reflexivity.
Qed.

Definition mcs (cols : list (bytes * coll)) : list addr :=
  flat_map (fun nc => if is_mc (snd nc) then c_elems (snd nc) else []) cols.

Lemma daughters_of_mcs h cols x :
  daughters_of h cols x = flat_map (fun a => repeat a (count_occ Z.eq_dec (parents h a) x)) (mcs cols).
Proof.
  unfold daughters_of, mcs. rewrite flat_map_flat_map. apply flat_map_ext. intros nc. destruct (is_mc (snd nc)); reflexivity.
Qed.

Lemma part_elems h l : part l (own_objs h l).
Proof.
  induction l as [|a l IH]; [exists []; apply Permutation_refl|]. destruct IH as (r & IH). cbn [own_objs flat_map].
  fold (own_objs h l). set (ow := match h a with Some o => owned o | None => [] end). exists (ow ++ r). cbn [app].
  apply perm_skip. rewrite Permutation_app_swap_app. apply Permutation_app_head. exact IH.
Qed.
Lemma part_mcs h cols : part (mcs cols) (flat_map (fun nc => coll_objs h (snd nc)) cols).
Proof.
  apply part_flat_map. intros nc _. destruct (is_mc (snd nc)) eqn:E; [|exists (coll_objs h (snd nc)); apply Permutation_refl].
  unfold is_mc in E. apply andb_true_iff in E. destruct E as [_ E]. unfold coll_objs. apply negb_true_iff in E. rewrite E. apply part_elems.
Qed.

Lemma count_map_inj (f : addr -> addr) d : forall l, (forall a, In a l -> f a = f d -> a = d) ->
  count_occ Z.eq_dec (map f l) (f d) = count_occ Z.eq_dec l d.
Proof.
  induction l as [|a l IH]; intros H; [reflexivity|]. cbn [map count_occ]. rewrite IH by (intros b Hb; apply H; right; exact Hb).
  destruct (Z.eq_dec (f a) (f d)) as [E|E], (Z.eq_dec a d) as [E'|E']; try reflexivity.
  - exfalso. apply E'. apply H; [left; reflexivity|exact E].
  - exfalso. apply E. rewrite E'. reflexivity.
Qed.

Lemma daughters_read srt ignore_null only names h e buf1 buf2 new next :
  event_ok only h e -> event_fits only h e -> usable buf1 -> usable buf2 ->
  0 < next -> numbers new (event_objs only names h e) next -> mc_links_ok h (read_back only names e) ->
  ignore_null = true \/ subsets_ok h (event_tags only names h e) (read_back only names e) ->
  exists e' h' n', store_read srt ignore_null only names h e buf1 buf2 next = Ok (e', h', n') /\
    forall p, In p (mcs (read_back only names e)) ->
    exists m, h' (new p) = Some (OMC m) /\ mc_parents m = map new (parents h p) /\
      (forall d, In d (mcs (read_back only names e)) ->
         count_occ Z.eq_dec (mc_daughters m) (new d) = count_occ Z.eq_dec (parents h d) p) /\
      (forall x, In x (mc_daughters m) -> exists d, In d (mcs (read_back only names e)) /\ x = new d /\ In p (parents h d)).
Proof.
  intros He Hf H1 H2 Hn Hnum Hl Hi.
  assert (Hnd : NoDup (event_objs only names h e)).
  { destruct He as (_ & _ & _ & _ & _ & _ & _ & _ & Hnd). unfold event_objs, read_back. apply NoDup_flat_map_filter. exact Hnd. }
  pose proof (part_mcs h (read_back only names e)) as Pm.
  assert (Hmd : NoDup (mcs (read_back only names e))) by (eapply part_NoDup; [exact Pm|exact Hnd]).
  assert (Hmi : forall a, In a (mcs (read_back only names e)) -> In a (event_objs only names h e)) by (intros a; apply (part_incl _ _ Pm)).
  destruct (store_read_spec srt ignore_null only names h e buf1 buf2 new next He Hf H1 H2 Hn Hnum Hl Hi) as (e' & h' & E & Hh & Fc & Ho).
  do 3 eexists. split; [exact E|]. intros p Hp. apply in_flat_map in Hp. destruct Hp as (nc & Hnc & Hp).
  destruct (is_mc (snd nc)) eqn:Em; [|destruct Hp].
  assert (Hs : is_subset (snd nc) = false).
  { unfold is_mc in Em. apply andb_true_iff in Em. destruct Em as [_ Em]. apply negb_true_iff in Em. exact Em. }
  destruct (elem_exists only h e nc p He (read_back_stored _ _ _ _ Hnc) Hs Hp) as (ty & o & Hty & Hop & Hto).
  destruct (is_mc_handler _ _ Em Hty) as [-> _]. destruct o as [m|m|m|m|m|m|m|m|m|m|m|m|m|m|m|m|m|m|m|m|m]; try discriminate Hto.
  rewrite (Ho nc p (OMC m) Hnc Hs Hp Hop). unfold copy_in. rewrite Hty. cbn [option_map]. eexists. split; [reflexivity|].
  cbn [mc_parents mc_daughters stored_mcp map app]. split; [|split].
  - unfold parents. rewrite Hop. cbn [mc_parents map_refs_mcp stored_mcp]. apply map_ext_in. intros q Hq. unfold target.
    destruct (in_split nc _ Hnc) as (pre & post & Ec).
    destruct (Hl pre nc post p q Ec Em Hp) as (nc' & Hin' & Em' & Hq'). { unfold parents. rewrite Hop. exact Hq. }
    assert (Hrb : In nc' (read_back only names e)).
    { rewrite Ec. apply in_app_or in Hin'. apply in_or_app. destruct Hin' as [X|[<-|[]]]; [left; exact X|right; left; reflexivity]. }
    assert (Hs' : is_subset (snd nc') = false).
    { unfold is_mc in Em'. apply andb_true_iff in Em'. destruct Em' as [_ Em']. apply negb_true_iff in Em'. exact Em'. }
    destruct (elem_exists only h e nc' q He (read_back_stored _ _ _ _ Hrb) Hs' Hq') as (ty & o & Hty' & Hoq & Htoq).
    destruct (is_mc_handler _ _ Em' Hty') as [-> _].
    destruct o as [m'|m'|m'|m'|m'|m'|m'|m'|m'|m'|m'|m'|m'|m'|m'|m'|m'|m'|m'|m'|m']; try discriminate Htoq.
    assert (Hq0 : q <> 0).
    { destruct He as (_ & _ & _ & _ & _ & _ & _ & F & _). rewrite Forall_forall in F.
      destruct (F nc' (read_back_stored _ _ _ _ Hrb)) as (_ & _ & ty & _ & _ & _ & _ & _ & Ht & _). destruct (Ht Hs') as [T _]. apply (T q Hq'). }
    replace (q =? 0) with false by lia. destruct (in_dec Z.eq_dec q (event_tags only names h e)) as [_|Hno]; [reflexivity|].
    exfalso. apply Hno. unfold event_tags. apply in_flat_map. exists nc'. split; [exact Hrb|]. unfold coll_tags. rewrite Hs'.
    apply in_flat_map. exists q. split; [exact Hq'|]. rewrite Hoq. cbn. left. reflexivity.
  - intros d Hd. match goal with |- count_occ _ ?l _ = _ => change l with (map new (daughters_of h (read_back only names e) p)) end.
    rewrite daughters_of_mcs, count_map_inj.
    + apply daughters_count; assumption.
    + intros a Ha Ea. eapply numbers_inj; [exact Hnum| | |exact Ea]; [|apply Hmi; exact Hd]. apply Hmi.
      apply in_flat_map in Ha. destruct Ha as (b & Hb & Hr). apply repeat_spec in Hr. subst b. exact Hb.
  - intros x Hx. change (In x (map new (daughters_of h (read_back only names e) p))) in Hx.
    apply in_map_iff in Hx. destruct Hx as (d & <- & Hd). rewrite daughters_of_mcs in Hd.
    apply in_flat_map in Hd. destruct Hd as (b & Hb & Hr). pose proof (repeat_spec _ _ _ Hr) as Eb. subst b.
    exists d. split; [exact Hb|]. split; [reflexivity|]. apply (count_occ_In Z.eq_dec).
    destruct (count_occ Z.eq_dec (parents h d) p); [destruct Hr|lia].
Qed.

Lemma generic_read srt ignore_null only names h e buf1 buf2 new next n c :
  event_ok only h e -> event_fits only h e -> usable buf1 -> usable buf2 ->
  0 < next -> numbers new (event_objs only names h e) next -> mc_links_ok h (read_back only names e) ->
  ignore_null = true \/ subsets_ok h (event_tags only names h e) (read_back only names e) ->
  In (n, c) (read_back only names e) -> c_type c = str "LCGenericObject" -> is_subset c = false ->
  exists e' h' n' c', store_read srt ignore_null only names h e buf1 buf2 next = Ok (e', h', n') /\
    In (n, c') (ev_cols e') /\ Zlen (c_elems c') = Zlen (c_elems c) /\
    forall i a, nth_error (c_elems c) i = Some a -> exists o a' o', h a = Some (OGO o) /\
      nth_error (c_elems c') i = Some a' /\ h' a' = Some (OGO o') /\
      go_int o' = go_int o /\ go_flt o' = go_flt o /\ go_dbl o' = go_dbl o /\
      (go_fixed o' = true <-> forall b x, In b (c_elems c) -> h b = Some (OGO x) -> go_fixed x = true).
Proof.
  intros He Hf H1 H2 Hn Hnum Hl Hi Hin Hty Hs.
  destruct (store_read_spec srt ignore_null only names h e buf1 buf2 new next He Hf H1 H2 Hn Hnum Hl Hi) as (e' & h' & E & Hh & Fc & Ho).
  destruct (Forall2_in_l _ _ _ (n, c) Fc Hin) as ([n' c'] & Hin' & Hn' & _ & ty & Hty' & Hfl & _ & Hel). cbn [fst snd] in *. subst n'.
  rewrite Hty in Hty'. assert (ty = TGO) by (vm_compute in Hty'; congruence). subst ty.
  exists e', h', (next + Zlen (event_objs only names h e)), c'. split; [exact E|]. split; [exact Hin'|].
  split; [rewrite Hel; unfold Zlen; rewrite map_length; reflexivity|].
  intros i a Ha.
  assert (T : forall b, In b (c_elems c) -> exists o, h b = Some (OGO o)).
  { intros b Hb. destruct (elem_exists only h e (n, c) b He (read_back_stored _ _ _ _ Hin) Hs Hb) as (ty & o & Ht & Hob & Hto).
    cbn [snd] in Ht. rewrite Hty in Ht. assert (X : ty = TGO) by (vm_compute in Ht; congruence). rewrite X in Hto.
    destruct o as [m|m|m|m|m|m|m|m|m|m|m|m|m|m|m|m|m|m|m|m|m]; try discriminate Hto. exists m. exact Hob. }
  destruct (T a (nth_error_In _ _ Ha)) as (o & Hoa).
  exists o, (new a). eexists. split; [exact Hoa|]. split; [rewrite Hel, Hs, nth_error_map, Ha; reflexivity|].
  split.
  - rewrite (Ho (n, c) a (OGO o) Hin Hs (nth_error_In _ _ Ha) Hoa). unfold copy_in. cbn [snd]. rewrite Hty.
    change (get_handler (str "LCGenericObject")) with (Some TGO). reflexivity.
  - cbn [go_int go_flt go_dbl stored_genobj go_fixed]. split; [reflexivity|]. split; [reflexivity|]. split; [reflexivity|].
    unfold stores_fixed. rewrite forallb_forall. split.
    + intros X b x Hb Hx. specialize (X b Hb). rewrite Hx in X. exact X.
    + intros X b Hb. destruct (T b Hb) as (x & Hx). rewrite Hx. eapply X; [exact Hb|exact Hx].
Qed.

(** ** Selective reading *)

Lemma read_back_names only names e : read_back only names e = filter (fun nc => wanted names (fst nc)) (read_back only [] e).
Proof.
  unfold read_back. f_equal. symmetry. cbn [wanted]. induction (stored_cols only e) as [|x l IH]; [reflexivity|]. cbn. rewrite IH. reflexivity.
Qed.

Lemma Forall2_filter {A B} (R : A -> B -> Prop) (p : A -> bool) (q : B -> bool) l l' :
  Forall2 R l l' -> (forall a b, R a b -> p a = q b) -> Forall2 R (filter p l) (filter q l').
Proof.
  intros F H. induction F as [|a b l l' Hab F IH]; [constructor|]. cbn [filter]. rewrite (H a b Hab). destruct (q b); [constructor; assumption|exact IH].
Qed.

Lemma Forall2_join {A B C} (R : A -> B -> Prop) (S : A -> C -> Prop) (T : B -> C -> Prop) l lb lc :
  (forall a b c, R a b -> S a c -> T b c) -> Forall2 R l lb -> Forall2 S l lc -> Forall2 T lb lc.
Proof.
  intros H F. revert lc. induction F as [|a b l lb Hab F IH]; intros lc G; inversion G as [|? c ? lc' Hac G']; subst; constructor.
  - eapply H; eassumption.
  - apply IH. exact G'.
Qed.

Lemma selective_read srt only names h e buf1 buf2 new new' next :
  sort_ok srt -> pids_ordered h (read_back only [] e) -> event_ok only h e -> event_fits only h e -> usable buf1 -> usable buf2 ->
  0 < next -> mc_links_ok h (read_back only [] e) -> mc_links_ok h (read_back only names e) ->
  numbers new (event_objs only [] h e) next -> numbers new' (event_objs only names h e) next ->
  exists ea ha na eb hb nb,
    store_read srt true only [] h e buf1 buf2 next = Ok (ea, ha, na) /\
    store_read srt true only names h e buf1 buf2 next = Ok (eb, hb, nb) /\
    same_header ea eb /\
    Forall2 (fun ca cb => fst cb = fst ca /\ c_type (snd cb) = c_type (snd ca) /\ c_flag (snd cb) = c_flag (snd ca) /\
               c_par (snd cb) = c_par (snd ca) /\
               Zlen (c_elems (snd cb)) = Zlen (c_elems (snd ca)))
            (filter (fun nc => wanted names (fst nc)) (ev_cols ea)) (ev_cols eb) /\
    forall nc ty a o, In nc (read_back only names e) -> is_subset (snd nc) = false ->
      get_handler (c_type (snd nc)) = Some ty -> In a (c_elems (snd nc)) -> h a = Some o ->
      let s := stored (stored_flag ty h (snd nc)) (stores_fixed ty h (snd nc)) o in
      ha (new a) = Some (more (map new (daughters_of h (read_back only [] e) a))
                     (map_refs (target new (event_tags only [] h e)) (map_owned new s))) /\
      hb (new' a) = Some (more (map new' (daughters_of h (read_back only names e) a))
                     (map_refs (target new' (event_tags only names h e)) (map_owned new' s))).
Proof.
  intros Hs Hp He Hf H1 H2 Hn Hl Hl' Hnew Hnew'.
  assert (Hp' : pids_ordered h (read_back only names e)).
  { intros nc a o Hnc. apply Hp. rewrite read_back_names in Hnc. apply filter_In in Hnc. apply Hnc. }
  destruct (store_read_ordered srt true only [] h e buf1 buf2 new next Hs Hp He Hf H1 H2 Hn Hnew Hl (or_introl eq_refl)) as (ea & ha & Ea & Sa & Fa & Oa).
  destruct (store_read_ordered srt true only names h e buf1 buf2 new' next Hs Hp' He Hf H1 H2 Hn Hnew' Hl' (or_introl eq_refl)) as (eb & hb & Eb & Sb & Fb & Ob).
  exists ea, ha, (next + Zlen (event_objs only [] h e)), eb, hb, (next + Zlen (event_objs only names h e)).
  split; [exact Ea|]. split; [exact Eb|]. split.
  { destruct Sa as (A1 & A2 & A3 & A4 & A5), Sb as (B1 & B2 & B3 & B4 & B5). repeat split; congruence. }
  split.
  - eapply Forall2_join; [| |exact Fb].
    2: { rewrite read_back_names. eapply Forall2_filter; [exact Fa|]. intros a b (Hab & _). cbn beta. rewrite Hab. reflexivity. }
    cbn beta. intros nc ca cb (A1 & A2 & ty & A3 & A4 & A5 & A7) (B1 & B2 & ty' & B3 & B4 & B5 & B7).
    assert (ty' = ty) by congruence. subst ty'. unfold Zlen. rewrite A7, B7, !map_length. repeat split; congruence.
  - intros nc ty a o Hnc Hsub Hty Ha Ho. cbv zeta. split.
    + eapply (Oa nc ty a o); try eassumption. rewrite read_back_names in Hnc. apply filter_In in Hnc. apply Hnc.
    + eapply (Ob nc ty a o); eassumption.
Qed.

(** * The Fortran interface: proofs for the functions for one object *)
From Coq Require Import ZArith List Bool Lia.
From Verif Require Import Bytes SioModel ObjModel ImplModel AttrModel AttrSpec AttrProofs AttrRuns TypeModel Ieee F77Model WrapModel WrapSpec.
Import ListNotations.
Open Scope Z_scope.

Lemma c_string_eq s : c_string s = up_to_nul s.
Proof.
  unfold up_to_nul.
  set (f := fun p : bytes * bytes => match snd p with [] => true | b0 :: _ => Byte.eqb b0 x00 end).
  induction s as [|b s IH]; [reflexivity|].
  cbn [c_string length]. change (seq 0 (S (S (length s)))) with (0%nat :: seq 1 (S (length s))).
  rewrite <- seq_shift, map_cons, map_map.
  assert (F : f (firstn 0 (b :: s), skipn 0 (b :: s)) = Byte.eqb b x00) by reflexivity.
  change (filter f ((firstn 0 (b :: s), skipn 0 (b :: s)) :: ?l)) with
    (if f (firstn 0 (b :: s), skipn 0 (b :: s)) then (firstn 0 (b :: s), skipn 0 (b :: s)) :: filter f l else filter f l).
  rewrite F.
  destruct (Byte.eqb b x00) eqn:E; [reflexivity|]. rewrite IH. clear IH F.
  assert (G : forall l, map fst (filter f (map (fun n => (firstn (S n) (b :: s), skipn (S n) (b :: s))) l)) =
    map (cons b) (map fst (filter f (map (fun n => (firstn n s, skipn n s)) l)))).
  { induction l as [|n l IHl]; [reflexivity|]. cbn [firstn skipn] in IHl |- *. cbn [map filter].
    change (f (b :: firstn n s, skipn n s)) with (f (firstn n s, skipn n s)).
    destruct (f (firstn n s, skipn n s)); cbn [map fst]; rewrite IHl; reflexivity. }
  rewrite G.
  assert (N : map fst (filter f (map (fun n => (firstn n s, skipn n s)) (seq 0 (S (length s))))) <> []).
  { rewrite seq_S, map_app, filter_app, map_app. intros H. apply app_eq_nil in H. destruct H as [_ H].
    cbn [map plus] in H. rewrite firstn_all, skipn_all in H. discriminate H. }
  destruct (map fst (filter f (map (fun n => (firstn n s, skipn n s)) (seq 0 (S (length s)))))) as [|x l]; [congruence|]. reflexivity.
Qed.
Lemma cast_eq m ts p q : cast m ts p = Ok q -> q = of_class (kind m) ts p.
Proof.
  unfold cast, of_class, kind. destruct (p =? 0) eqn:E; [intros H; injection H as <-; reflexivity|].
  destruct (m p) as [[ro o]|]; [|discriminate].
  destruct (existsb _ ts) eqn:X; intros H; injection H as <-; destruct (in_dec _ (type_of o) ts) as [I|N]; try reflexivity.
  - exfalso. apply existsb_exists in X. destruct X as (t & I & Y). destruct (otype_eq_dec (type_of o) t) as [<-|]; [contradiction|discriminate].
  - exfalso. assert (existsb (fun t => if otype_eq_dec (type_of o) t then true else false) ts = true) as Y; [|congruence].
    apply existsb_exists. exists (type_of o). split; [exact I|]. destruct (otype_eq_dec _ _); [reflexivity|congruence].
Qed.
Lemma u32_pred i : is_i32 i -> 1 <= i -> u32 (i - 1) = i - 1.
Proof. intros [H1 H2] H. unfold u32. apply Z.mod_small. unfold two31, two32 in *. lia. Qed.
Lemma minus1_ok i j : minus1 i = Ok j -> j = i - 1.
Proof. unfold minus1. destruct (i =? - two31); [discriminate|]. intros H. injection H as <-. reflexivity. Qed.
Lemma minus1_1 i : is_i32 i -> i <> - two31 -> minus1 i = Ok (i - 1).
Proof. intros R N. unfold minus1. destruct (Z.eqb_spec i (- two31)); [contradiction|reflexivity]. Qed.

Definition is_rawhit (s : fset) : bool := match s with Lctrhaddrawhit _ => true | _ => false end.
Ltac solve_call H :=
  cbn [set_call] in H;
  repeat match type of H with
  | bind ?x _ = Ok _ => let E := fresh "E" in destruct x as [?q| |] eqn:E; cbn [bind] in H; [|discriminate H|discriminate H]
  end; injection H as <-.
Lemma sets_call m ro o s e : int_args s -> from_1 s -> is_rawhit s = false -> set_call m ro o s = Ok e -> effects e = sets (kind m) s.
Proof.
  intros HI H1 HR H. destruct s; try discriminate HR; solve_call H; cbn [effects sets];
    try reflexivity;
    try (apply cast_eq in E; subst; reflexivity);
    try (unfold resized, copied in E; destruct ro; [discriminate E|]; destruct (n <? 0); [discriminate E|]; apply arr_ok in E; destruct E as [-> _]; reflexivity);
    try (apply minus1_ok in E; subst; cbn [int_args from_1] in *; rewrite u32_pred by assumption; reflexivity).
  rewrite c_string_eq. reflexivity.
Qed.
Lemma concerned_call m ro o s e : set_call m ro o s = Ok e -> concerned e = touched s.
Proof. intros H. unfold concerned, touched. destruct s; solve_call H; reflexivity. Qed.
Lemma range_call m ro o s e : int_args s -> set_call m ro o s = Ok e -> in_range e.
Proof.
  intros HI H. destruct s; solve_call H; cbn [in_range int_args] in *; try exact Logic.I; try assumption; apply u32_range.
Qed.
Lemma class_call m ro o s e : set_call m ro o s = Ok e -> call_class e = set_class s.
Proof. intros H. destruct s; solve_call H; reflexivity. Qed.

Section W.
Context (fadd : Z -> Z -> Z) (srt : forall A : Type, (A -> Z) -> list A -> list A).
Lemma set_step m ro o s o' : int_args s -> from_1 s -> set_do fadd srt m ro o s = (o', Ok tt) ->
  (forall a, ~ In a (touched s) -> obj_get o' a = obj_get o a) /\
  (forall a f, In (a, f) (sets (kind m) s) -> meets fadd srt (obj_get o) (obj_get o') a f) /\
  type_of o = set_class s /\ type_of o' = type_of o.
Proof.
  intros HI H1 H. unfold set_do in H. destruct (otype_eq_dec (type_of o) (set_class s)) as [T|]; [|discriminate H].
  destruct (set_call m ro o s) as [e| |] eqn:C; [|discriminate H|discriminate H].
  assert (R := range_call _ _ _ _ _ HI C).
  destruct (obj_step fadd srt ro o e o' R H) as [[K1 K2] K3].
  split; [intros a N; apply K1; change (~ In a (concerned e)); rewrite (concerned_call _ _ _ _ _ C); exact N|].
  split; [|split; [exact T|exact (proj1 K3)]].
  intros a f I. destruct (is_rawhit s) eqn:E.
  - destruct s; try discriminate E. cbn [sets In] in I. destruct I as [I|[]]. injection I as <- <-. cbn [set_call] in C. injection C as <-.
    cbn [set_class] in T. destruct o; try discriminate T. cbn [meets]. exists (th_raw o). split; [reflexivity|].
    apply (K2 ARawHits (ESet (VList (th_raw o ++ [p])))). left. reflexivity.
  - apply K2. rewrite (sets_call _ _ _ _ _ HI H1 E C). exact I.
Qed.
Lemma set_kept m ro o s : snd (set_do fadd srt m ro o s) <> Ok tt -> fst (set_do fadd srt m ro o s) = o.
Proof.
  unfold set_do. destruct (otype_eq_dec _ _) as [T|T]; [|reflexivity]. destruct (set_call m ro o s) as [e| |]; [|reflexivity|reflexivity].
  apply obj_kept.
Qed.
Lemma set_untouched m ro o s a : int_args s -> ~ In a (touched s) ->
  obj_get (fst (set_do fadd srt m ro o s)) a = obj_get o a /\ type_of (fst (set_do fadd srt m ro o s)) = type_of o.
Proof.
  intros HI N. unfold set_do. destruct (otype_eq_dec _ _) as [T|T]; [|split; reflexivity].
  destruct (set_call m ro o s) as [e| |] eqn:C; [|split; reflexivity|split; reflexivity].
  assert (R := range_call _ _ _ _ _ HI C). rewrite <- (concerned_call _ _ _ _ _ C) in N.
  split; [apply (untouched_step fadd srt o (ro, e) a R N)|].
  assert (X := run_class fadd srt [(ro, e)] o). cbn in X. apply X. intros c [<-|[]]. exact R.
Qed.

End W.

(** ** Getters *)
Lemma arr_some n l r : (do x <- arr n l; Ok (WArr x)) = Ok r <-> (n <= length l)%nat /\ r = WArr (firstn n l).
Proof.
  unfold arr. destruct (Nat.leb_spec n (length l)) as [H|H]; cbn [bind]; split.
  - intros E. injection E as <-. auto.
  - intros [_ ->]. reflexivity.
  - discriminate.
  - lia.
Qed.
Lemma vat_some l i r : (do x <- vat l i; Ok (WNum x)) = Ok r <-> 1 <= i + 1 <= Zlen l /\ r = WNum (nth (Z.to_nat (i + 1 - 1)) l 0).
Proof.
  replace (i + 1 - 1) with i by lia. unfold vat. destruct (Z.ltb_spec i 0) as [H|H]; cbn [bind].
  - split; [discriminate|]. lia.
  - destruct (nth_error l (Z.to_nat i)) as [x|] eqn:E; cbn [bind].
    + assert (L : (Z.to_nat i < length l)%nat) by (apply nth_error_Some; congruence).
      rewrite (nth_error_nth _ _ 0 E). unfold Zlen. split.
      * intros X. injection X as <-. split; [lia|reflexivity].
      * intros [_ ->]. reflexivity.
    + split; [discriminate|]. apply nth_error_None in E. unfold Zlen. lia.
Qed.
Lemma n_vals_small l : Zlen l < two31 -> n_vals l = Zlen l.
Proof. intros H. apply s32_nat. split; [apply Zlen_pos|exact H]. Qed.
Lemma get_iff ro o g r : name_of_gob g = false -> get_args g -> short_lists o -> (ro = true -> is_hitnumbers g = false) ->
  type_of o = fst (returns g) ->
  get_do ro o g = Ok r <-> exists v, obj_get o (shape_attr (snd (returns g))) = Some v /\ shows (snd (returns g)) v r.
Proof.
  intros NG GA SL RO T.
  assert (W : forall v (P : aval -> Prop), (exists x, Some v = Some x /\ P x) <-> P v).
  { intros v P. split; [intros (x & E & Hx); injection E as ->; exact Hx|intros Hx; exists v; auto]. }
  assert (Q : forall x : wout, Ok x = Ok r <-> r = x) by (intros x; split; [intros X; injection X as <-; reflexivity|intros ->; reflexivity]).
  destruct g; try discriminate NG; cbn [returns fst snd shape_attr] in *;
    destruct o; try discriminate T; clear T;
    unfold get_do, get_num, get_bool, get_text, get_list, get_array, n_of, element, attr_of;
    cbn [type_of];
    try (destruct (otype_eq_dec _ _) as [_|X]; [|congruence]);
    cbn [obj_get ch_get sch_get sth_get tpc_get th_get trk_get cl_get vx_get rp_get mc_get rel_get go_get bind raw_word hit_numbers];
    rewrite ?W; cbn [shows];
    try apply Q; try apply arr_some; try apply vat_some;
    try (rewrite n_vals_small by (first [exact (SL AInts _ eq_refl)|exact (SL AFloats _ eq_refl)|exact (SL ADoubles _ eq_refl)|exact (SL AWords _ eq_refl)]); apply Q);
    try (rewrite c_string_eq; apply Q).
  - (* hit numbers *)
    destruct ro; [specialize (RO eq_refl); discriminate RO|].
    rewrite n_vals_small by (eapply (SL AHitNumbers); reflexivity). cbn [get_args] in GA.
    set (l := tr_hitnums o). assert (P := Zlen_pos l).
    destruct (Z.ltb_spec n (Zlen l)) as [H|H].
    + rewrite Z.min_l by lia. unfold arr. destruct (Nat.leb_spec (Z.to_nat n) (length l)) as [L|L]; [|unfold Zlen in *; lia]. cbn [bind].
      split; [intros X; injection X as <-; auto|intros [_ ->]; reflexivity].
    + rewrite Z.min_r by lia. unfold arr, Zlen. rewrite Nat2Z.id, Nat.leb_refl. cbn [bind]. rewrite firstn_all.
      rewrite (firstn_all2 (n := Z.to_nat n)) by (unfold Zlen in *; lia).
      split; [intros X; injection X as <-; auto|intros [_ ->]; reflexivity].
  - (* raw words *)
    cbn [get_args] in GA. rewrite minus1_1 by (unfold is_i32; lia). cbn [bind].
    assert (L := SL AWords _ eq_refl). cbn [obj_get tpc_get] in L.
    destruct (Z_le_gt_dec 0 (i - 1)) as [G1|G1]; [destruct (Z_lt_ge_dec (i - 1) (Zlen (tp_raw o))) as [G2|G2]|].
    + rewrite (word_in o (i - 1) L) by lia. cbn [bind]. rewrite Q. split; [intros ->; split; [lia|reflexivity]|intros [_ ->]; reflexivity].
    + rewrite (word_out o (i - 1) L) by lia. cbn [bind]. split; [discriminate|]. lia.
    + rewrite (word_out o (i - 1) L) by lia. cbn [bind]. split; [discriminate|]. lia.
  - cbn [get_args] in GA. rewrite minus1_1 by (unfold is_i32; lia). cbn [bind]. rewrite vat_some. replace (i - 1 + 1) with i by lia. reflexivity.
  - cbn [get_args] in GA. rewrite minus1_1 by (unfold is_i32; lia). cbn [bind]. rewrite vat_some. replace (i - 1 + 1) with i by lia. reflexivity.
  - cbn [get_args] in GA. rewrite minus1_1 by (unfold is_i32; lia). cbn [bind]. rewrite vat_some. replace (i - 1 + 1) with i by lia. reflexivity.
Qed.

Section W2.
Context (fadd : Z -> Z -> Z) (srt : forall A : Type, (A -> Z) -> list A -> list A).
(** ** Programs *)
Definition attr_at (m : wmem) (a : addr) (x : attr) : option aval := match m a with Some (_, o) => obj_get o x | None => None end.
Definition class_at (m : wmem) (a : addr) : option (bool * otype) := match m a with Some (ro, o) => Some (ro, type_of o) | None => None end.
Lemma wput_at m a x : wput m a x a = Some x.
Proof. unfold wput. rewrite Z.eqb_refl. reflexivity. Qed.
Lemma wput_other m a x b : b <> a -> wput m a x b = m b.
Proof. intros H. unfold wput. destruct (Z.eqb_spec b a); [contradiction|reflexivity]. Qed.
Lemma step_leaves m a x c : leaves a x c ->
  attr_at (snd (w_step fadd srt m c)) a x = attr_at m a x /\ class_at (snd (w_step fadd srt m c)) a = class_at m a.
Proof.
  unfold attr_at, class_at. destruct c; cbn [leaves w_step]; intros H.
  - cbn [snd]. rewrite wput_other by congruence. auto.
  - cbn [snd]. rewrite wput_other by congruence. auto.
  - destruct (do i <- new_vec ni; _); cbn [snd]; [rewrite wput_other by congruence|..]; auto.
  - destruct H as [HI N]. destruct (m a0) as [[ro o]|] eqn:E; [|auto].
    assert (U := fun y => set_untouched fadd srt m ro o s y HI).
    destruct (set_do fadd srt m ro o s) as [o' r]. cbn [fst] in U.
    assert (G : match wput m a0 (ro, o') a with Some (_, o1) => obj_get o1 x | None => None end =
                match m a with Some (_, o1) => obj_get o1 x | None => None end /\
                match wput m a0 (ro, o') a with Some (ro0, o1) => Some (ro0, type_of o1) | None => None end =
                match m a with Some (ro0, o1) => Some (ro0, type_of o1) | None => None end).
    { destruct (Z.eq_dec a a0) as [->|D].
      - rewrite wput_at, E. destruct (U x (N eq_refl)) as [-> ->]. auto.
      - rewrite wput_other by exact D. auto. }
    destruct r; cbn [snd]; exact G.
  - destruct (m a0) as [[ro o]|]; auto.
Qed.
Lemma run_leaves cs : forall m a x, (forall c, In c cs -> leaves a x c) ->
  attr_at (w_run fadd srt m cs) a x = attr_at m a x /\ class_at (w_run fadd srt m cs) a = class_at m a.
Proof.
  induction cs as [|c cs IH]; intros m a x H; [auto|].
  unfold w_run. cbn [fold_left]. fold (w_run fadd srt (snd (w_step fadd srt m c)) cs).
  destruct (IH (snd (w_step fadd srt m c)) a x) as [-> ->]; [intros d Hd; apply H; right; exact Hd|].
  apply step_leaves, H. left. reflexivity.
Qed.
Lemma set_at m a s x v : int_args s -> from_1 s -> fst (w_step fadd srt m (Set_ a s)) = Ok (WStatus st_success) ->
  In (x, ESet v) (sets (kind m) s) ->
  attr_at (snd (w_step fadd srt m (Set_ a s))) a x = Some v /\
  class_at (snd (w_step fadd srt m (Set_ a s))) a = class_at m a /\ (exists ro, class_at m a = Some (ro, set_class s)).
Proof.
  intros HI H1. cbn [w_step]. unfold attr_at, class_at. destruct (m a) as [[ro o]|] eqn:E; [|discriminate].
  destruct (set_do fadd srt m ro o s) as [o' r] eqn:D. destruct r as [[]| |]; cbn [fst snd]; intros H; try discriminate H.
  intros I. destruct (set_step fadd srt m ro o s o' HI H1 D) as (_ & K & T & T'). rewrite wput_at. split; [exact (K x (ESet v) I)|].
  split; [rewrite T'; reflexivity|]. exists ro. rewrite T. reflexivity.
Qed.
Theorem last_set_wrap m cs1 a s cs2 g x v :
  let m1 := w_run fadd srt m cs1 in let m2 := w_run fadd srt m (cs1 ++ Set_ a s :: cs2) in
  int_args s -> from_1 s -> fst (w_step fadd srt m1 (Set_ a s)) = Ok (WStatus st_success) ->
  In (x, ESet v) (sets (kind m1) s) -> (forall c, In c cs2 -> leaves a x c) ->
  name_of_gob g = false -> is_hitnumbers g = false -> get_args g -> (forall ro o, m2 a = Some (ro, o) -> short_lists o) ->
  fst (returns g) = set_class s -> shape_attr (snd (returns g)) = x ->
  forall r, fst (w_step fadd srt m2 (Get_ a g)) = Ok r <-> shows (snd (returns g)) v r.
Proof.
  intros m1 m2 HI H1 HS I HL NG NH GA SL CL AT r.
  destruct (set_at m1 a s x v HI H1 HS I) as (A1 & C1 & ro & C2).
  assert (M : m2 = w_run fadd srt (snd (w_step fadd srt m1 (Set_ a s))) cs2).
  { unfold m2, w_run. rewrite fold_left_app. reflexivity. }
  destruct (run_leaves cs2 (snd (w_step fadd srt m1 (Set_ a s))) a x HL) as [A3 C3].
  rewrite <- M in A3, C3. rewrite A1 in A3. rewrite C1, C2 in C3.
  unfold attr_at, class_at in A3, C3. cbn [w_step]. destruct (m2 a) as [[ro' o]|] eqn:E; [|discriminate C3].
  injection C3 as -> T. cbn [fst]. rewrite (get_iff ro o g r NG GA (SL ro o eq_refl) (fun _ => NH)) by congruence.
  rewrite AT. split; [intros (v' & E' & S'); congruence|intros S'; exists v; auto].
Qed.
End W2.

(** ** Objects created from arguments *)
Lemma new_vec_ok n : 0 <= n -> new_vec n = Ok (repeat 0 (Z.to_nat n)).
Proof. intros H. unfold new_vec. destruct (Z.ltb_spec n 0); [lia|reflexivity]. Qed.
Lemma zeros_len n : 0 <= n -> Zlen (repeat 0 (Z.to_nat n)) = n.
Proof. intros H. unfold Zlen. rewrite repeat_length. lia. Qed.
Lemma zeros_at n i : 1 <= i <= n -> n < two31 -> (do j <- minus1 i; do x <- vat (repeat 0 (Z.to_nat n)) j; Ok (WNum x)) = Ok (WNum 0).
Proof.
  intros H L. unfold minus1, vat. destruct (Z.eqb_spec i (- two31)); [unfold two31 in *; lia|]. cbn [bind]. destruct (Z.ltb_spec (i - 1) 0); [lia|].
  rewrite (nth_error_nth' _ 0) by (rewrite repeat_length; lia). rewrite nth_repeat. reflexivity.
Qed.
Lemma new_with_arguments fadd srt m a :
  (forall f t w, let m1 := snd (w_step fadd srt m (CreateRel f t w a)) in
     fst (w_step fadd srt m (CreateRel f t w a)) = Ok (WNum a) /\
     fst (w_step fadd srt m1 (Get_ a Lcrelgetfrom)) = Ok (WNum f) /\ fst (w_step fadd srt m1 (Get_ a Lcrelgetto)) = Ok (WNum t) /\
     fst (w_step fadd srt m1 (Get_ a Lcrelgetweight)) = Ok (WNum w) /\ forall b, b <> a -> m1 b = m b) /\
  (forall ni nf nd, 0 <= ni < two31 -> 0 <= nf < two31 -> 0 <= nd < two31 -> let m1 := snd (w_step fadd srt m (CreateFixed ni nf nd a)) in
     fst (w_step fadd srt m (CreateFixed ni nf nd a)) = Ok (WNum a) /\
     fst (w_step fadd srt m1 (Get_ a Lcgobgetnint)) = Ok (WNum ni) /\ fst (w_step fadd srt m1 (Get_ a Lcgobgetnfloat)) = Ok (WNum nf) /\
     fst (w_step fadd srt m1 (Get_ a Lcgobgetndouble)) = Ok (WNum nd) /\
     (forall i, 1 <= i <= ni -> fst (w_step fadd srt m1 (Get_ a (Lcgobgetintval i))) = Ok (WNum 0)) /\
     (forall i, 1 <= i <= nf -> fst (w_step fadd srt m1 (Get_ a (Lcgobgetfloatval i))) = Ok (WNum 0)) /\
     (forall i, 1 <= i <= nd -> fst (w_step fadd srt m1 (Get_ a (Lcgobgetdoubleval i))) = Ok (WNum 0)) /\ forall b, b <> a -> m1 b = m b).
Proof.
  split.
  - intros f t w. cbv zeta. cbn [w_step snd fst]. rewrite wput_at. cbn [fst]. repeat (split; [reflexivity|]). intros b Hb. apply wput_other. exact Hb.
  - intros ni nf nd Hi Hf Hd. cbv zeta. cbn [w_step]. rewrite !new_vec_ok by lia. cbn [bind fst snd]. rewrite wput_at. cbn [fst].
    cbn [get_do]. unfold n_of, attr_of, element. cbn [type_of].
    split; [reflexivity|].
    split; [cbn; rewrite n_vals_small; rewrite zeros_len by lia; [reflexivity|lia]|].
    split; [cbn; rewrite n_vals_small; rewrite zeros_len by lia; [reflexivity|lia]|].
    split; [cbn; rewrite n_vals_small; rewrite zeros_len by lia; [reflexivity|lia]|].
    split; [intros i H; exact (zeros_at ni i H (proj2 Hi))|]. split; [intros i H; exact (zeros_at nf i H (proj2 Hf))|]. split; [intros i H; exact (zeros_at nd i H (proj2 Hd))|].
    intros b Hb. apply wput_other. exact Hb.
Qed.

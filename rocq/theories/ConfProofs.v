(** * The cell id encoding of tracking detectors: proofs *)

From Verif Require Import Bytes StrMap SioModel BitSpec BitModel BitProofs BitParse BitFacts FlagModel FlagSpec ConfModel ConfSpec.

(** ** Searching *)

Lemma starts_spec p : forall s, starts p s = true <-> exists l, s = p ++ l.
Proof.
  induction p as [|a p IH]; intros s; cbn [starts app]; [split; [intros _; exists s; reflexivity|reflexivity]|]. destruct s as [|b s]; [split; [discriminate|intros (l & E); discriminate E]|].
  rewrite andb_true_iff, IH. split.
  - intros [E (l & ->)]. apply Byte.byte_dec_bl in E. subst b. exists l. reflexivity.
  - intros (l & E). injection E as -> ->. split; [apply Byte.byte_dec_lb; reflexivity|exists l; reflexivity].
Qed.
Lemma first_zero p s : first_at p (p ++ s) 0.
Proof. exists [], s. split; [reflexivity|]. split; [reflexivity|]. intros m1 m2 _. unfold Zlen. cbn. lia. Qed.
Lemma find_str_spec p : p <> [] -> forall s k, 0 <= k -> k + Zlen s < npos ->
  (exists n, first_at p s n /\ find_str p s k = k + n /\ 0 <= n < Zlen s) \/ ((forall l1 l2, s <> l1 ++ p ++ l2) /\ find_str p s k = npos).
Proof.
  intros Hp. induction s as [|x s IH]; intros k Hk Hn; cbn [find_str].
  - destruct p as [|a p]; [contradiction|]. right. cbn [starts]. split; [|reflexivity]. intros l1 l2 E. destruct l1; discriminate E.
  - destruct (starts p (x :: s)) eqn:B.
    + left. exists 0. apply starts_spec in B. destruct B as (l & E). split; [rewrite E; apply first_zero|]. split; [lia|]. unfold Zlen. cbn [length]. lia.
    + assert (NH : forall l, x :: s <> p ++ l) by (intros l E; assert (T : starts p (x :: s) = true) by (apply starts_spec; eauto); congruence).
      unfold Zlen in Hn. cbn [length] in Hn. destruct (IH (k + 1) ltac:(lia) ltac:(unfold Zlen; lia)) as [(n & (l1 & l2 & -> & L & M) & F & R)|[N F]].
      * left. exists (n + 1). split; [|split; [lia|unfold Zlen in *; cbn [length]; lia]]. exists (x :: l1), l2. split; [reflexivity|]. split; [unfold Zlen in *; cbn [length]; lia|].
        intros [|y m1] m2 E; [exfalso; exact (NH _ E)|]. injection E as -> E. specialize (M m1 m2 E). unfold Zlen in *. cbn [length]. lia.
      * right. split; [|exact F]. intros [|y l1] l2 E; [exact (NH _ E)|]. injection E as -> E. exact (N _ _ E).
Qed.
Lemma first_fun p s a b : first_at p s a -> first_at p s b -> a = b.
Proof. intros (l1 & l2 & E & L & M) (m1 & m2 & E' & L' & M'). specialize (M _ _ E'). specialize (M' _ _ E). lia. Qed.
Lemma find_first p s : p <> [] -> Zlen s < npos -> forall k, (find_str p s 0 = k /\ k <> npos) <-> first_at p s k.
Proof.
  intros Hp Hn k. destruct (find_str_spec p Hp s 0 ltac:(lia) ltac:(lia)) as [(n & F & -> & R)|[N ->]]; cbn [Z.add].
  - split; [intros [<- _]; exact F|]. intros F'. rewrite (first_fun _ _ _ _ F' F). unfold npos in *. split; [reflexivity|lia].
  - split; [intros [<- H]; destruct H; reflexivity|]. intros (l1 & l2 & E & _). destruct (N _ _ E).
Qed.
Lemma find_not p s : p <> [] -> Zlen s < npos -> find_str p s 0 = npos -> forall l1 l2, s <> l1 ++ p ++ l2.
Proof.
  intros Hp Hn E. destruct (find_str_spec p Hp s 0 ltac:(lia) ltac:(lia)) as [(n & F & E' & R)|[N _]]; [unfold npos in *; lia|exact N].
Qed.
Lemma find_range p s : p <> [] -> Zlen s < npos -> find_str p s 0 <= npos.
Proof. intros Hp Hn. destruct (find_str_spec p Hp s 0 ltac:(lia) ltac:(lia)) as [(n & F & E' & R)|[_ ->]]; unfold npos in *; lia. Qed.
Lemma valid_ordered s : Zlen s < npos -> (valid s = true <-> ordered s).
Proof.
  intros Hn. unfold valid, ordered.
  pose proof (find_first (str "subdet") s ltac:(discriminate) Hn) as F0. pose proof (find_first (str "system") s ltac:(discriminate) Hn) as F1.
  pose proof (find_first (str "side") s ltac:(discriminate) Hn) as F2. pose proof (find_first (str "layer") s ltac:(discriminate) Hn) as F3.
  pose proof (find_first (str "module") s ltac:(discriminate) Hn) as F4. pose proof (find_first (str "sensor") s ltac:(discriminate) Hn) as F5.
  pose proof (find_range (str "side") s ltac:(discriminate) Hn) as R2.
  revert F0 F1 F2 F3 F4 F5 R2. generalize (find_str (str "subdet") s 0) (find_str (str "system") s 0) (find_str (str "side") s 0) (find_str (str "layer") s 0) (find_str (str "module") s 0) (find_str (str "sensor") s 0).
  intros f0 f1 f2 f3 f4 f5 F0 F1 F2 F3 F4 F5 R2. cbv zeta. split.
  - intros H. assert (H2 : f2 <> npos /\ f3 <> npos /\ f4 <> npos /\ f5 <> npos /\ f2 < f3 /\ f3 < f4 /\ f4 < f5 /\ ((f0 < f2) \/ (f1 < f2))) by lia.
    destruct H2 as (N2 & N3 & N4 & N5 & L1 & L2 & L3 & [L0|L0]).
    + exists f0, f2, f3, f4, f5. rewrite <- F0, <- F2, <- F3, <- F4, <- F5. split; [left; lia|]. lia.
    + exists f1, f2, f3, f4, f5. rewrite <- F1, <- F2, <- F3, <- F4, <- F5. split; [right; lia|]. lia.
  - intros (a & b & c & d & e & Ha & Hb & Hc & Hd & He & L). rewrite <- F2 in Hb. rewrite <- F3 in Hc. rewrite <- F4 in Hd. rewrite <- F5 in He. rewrite <- F0, <- F1 in Ha. lia.
Qed.

(** ** Separators *)

(** [p] does not reach over characters it does not contain *)
Lemma occurs_sep (p w x s l1 l2 : bytes) : p <> [] -> x <> [] -> (forall c, In c x -> ~ In c p) -> w ++ x ++ s = l1 ++ p ++ l2 ->
  (exists m, w = l1 ++ p ++ m) \/ (exists m, l1 = w ++ x ++ m /\ s = m ++ p ++ l2).
Proof.
  intros Hp Hx Hs E. apply app_eq_app in E. destruct E as (l & [(Ew & E)|(El & E)]).
  - apply app_eq_app in E. destruct E as (m & [(Ep & E)|(Elp & E)]).
    + destruct m as [|c m]; [rewrite app_nil_r in Ep; left; exists []; rewrite app_nil_r; congruence|]. exfalso. destruct x as [|c' x]; [contradiction|]. injection E as -> _. apply (Hs c (or_introl eq_refl)). rewrite Ep. apply in_app_iff. right. left. reflexivity.
    + left. exists m. congruence.
  - apply app_eq_app in E. destruct E as (m & [(Ex & E)|(Elx & E)]).
    + destruct m as [|c m].
      * rewrite app_nil_r in Ex. right. exists []. split; [rewrite app_nil_r; congruence|symmetry; exact E].
      * exfalso. destruct p as [|c' p]; [contradiction|]. injection E as -> _. apply (Hs c); [rewrite Ex; apply in_app_iff; right; left; reflexivity|left; reflexivity].
    + right. exists m. split; [congruence|exact E].
Qed.
Lemma first_sep (p w x s : bytes) n : p <> [] -> x <> [] -> (forall c, In c x -> ~ In c p) -> (forall l1 l2, w <> l1 ++ p ++ l2) -> first_at p s n -> first_at p (w ++ x ++ s) (Zlen w + Zlen x + n).
Proof.
  intros Hp Hx Hs Hw (l1 & l2 & -> & L & M). exists (w ++ x ++ l1), l2. split; [rewrite <- !app_assoc; reflexivity|]. split; [unfold Zlen in *; rewrite !app_length; lia|].
  intros m1 m2 E. destruct (occurs_sep _ _ _ _ _ _ Hp Hx Hs E) as [(m & K)|(m & -> & K)]; [destruct (Hw _ _ K)|]. specialize (M _ _ K). unfold Zlen in *. rewrite !app_length. lia.
Qed.
(** digits, ':', ',' and '-' *)
Definition sepchar (c : byte) : bool := is_digit c || Byte.eqb c colon || Byte.eqb c comma || Byte.eqb c minus.
Lemma sep_not (x p : bytes) : Forall (fun c => sepchar c = true) x -> forallb (fun c => negb (sepchar c)) p = true -> forall c, In c x -> ~ In c p.
Proof. intros H1 H2 c Hc Hp. rewrite Forall_forall in H1. rewrite forallb_forall in H2. specialize (H1 _ Hc). specialize (H2 _ Hp). rewrite H1 in H2. discriminate. Qed.
Lemma numeral_sep t n : numeral t n -> Forall (fun c => sepchar c = true) t.
Proof. intros H. destruct (numeral_ok _ _ H) as (_ & D & _). eapply Forall_impl; [|exact D]. intros c Hc. unfold sepchar. rewrite Hc. reflexivity. Qed.
Lemma describes_split s d : describes s d -> exists y, s = d_name d ++ y /\ y <> [] /\ Forall (fun c => sepchar c = true) y.
Proof.
  intros (_ & _ & _ & width & W & E). cbv zeta in E. apply numeral_sep in W.
  assert (SW : Forall (fun c => sepchar c = true) ((if d_signed d then [Init.Byte.x2d] else []) ++ width)) by (apply Forall_app; split; [destruct (d_signed d); repeat constructor|exact W]).
  destruct (d_off d) as [o|].
  - destruct E as (_ & off & O & ->). apply numeral_sep in O. eexists. split; [reflexivity|]. split; [discriminate|]. constructor; [reflexivity|]. apply Forall_app. split; [exact O|]. constructor; [reflexivity|exact SW].
  - eexists. split; [exact E|]. split; [discriminate|]. constructor; [reflexivity|exact SW].
Qed.
Lemma encoding_cons s d d' ds : encoding s (d :: d' :: ds) -> exists x s', s = d_name d ++ x ++ s' /\ x <> [] /\ Forall (fun c => sepchar c = true) x /\ encoding s' (d' :: ds).
Proof.
  intros H. inversion H as [| |s1 d1 s2 ds1 D E N]; subst. destruct (describes_split _ _ D) as (y & -> & Y & F). exists (y ++ [Init.Byte.x2c]), s2. split; [rewrite <- !app_assoc; reflexivity|].
  split; [destruct y; discriminate|]. split; [|exact E]. apply Forall_app. split; [exact F|repeat constructor].
Qed.
Lemma encoding_head s d ds : encoding s (d :: ds) -> exists x, s = d_name d ++ x.
Proof.
  intros H. inversion H as [|s1 d1 D|s1 d1 s2 ds1 D E N]; subst; destruct (describes_split _ _ D) as (y & -> & _); [exists y; reflexivity|]. eexists. rewrite <- app_assoc. reflexivity.
Qed.
Lemma no_occurrence p w : p <> [] -> Zlen w < 10 -> find_str p w 0 = npos -> forall l1 l2, w <> l1 ++ p ++ l2.
Proof. intros Hp Hw. apply find_not; [exact Hp|unfold npos; lia]. Qed.
Lemma five_ordered first s d1 d2 d3 d4 d5 rest : first = str "subdet" \/ first = str "system" -> encoding s (d1 :: d2 :: d3 :: d4 :: d5 :: rest) -> map d_name [d1; d2; d3; d4; d5] = five first -> ordered s.
Proof.
  intros Hf E N. unfold five in N. cbn [map] in N. injection N as N1 N2 N3 N4 N5.
  destruct (encoding_cons _ _ _ _ E) as (x1 & s1 & -> & X1 & F1 & E1). destruct (encoding_cons _ _ _ _ E1) as (x2 & s2 & -> & X2 & F2 & E2).
  destruct (encoding_cons _ _ _ _ E2) as (x3 & s3 & -> & X3 & F3 & E3). destruct (encoding_cons _ _ _ _ E3) as (x4 & s4 & -> & X4 & F4 & E4).
  destruct (encoding_head _ _ _ E4) as (x5 & ->). rewrite N1, N2, N3, N4, N5.
  pose proof (fun p => sep_not x1 p F1) as G1. pose proof (fun p => sep_not x2 p F2) as G2. pose proof (fun p => sep_not x3 p F3) as G3. pose proof (fun p => sep_not x4 p F4) as G4.
  assert (NO : forall p w, p <> [] -> Zlen w < 10 -> find_str p w 0 = npos -> forall l1 l2, w <> l1 ++ p ++ l2) by exact no_occurrence.
  assert (L : forall x : bytes, x <> [] -> 0 < Zlen x) by (intros [|? ?] Hx; [contradiction|unfold Zlen; cbn [length]; lia]).
  pose proof (L _ X1). pose proof (L _ X2). pose proof (L _ X3). pose proof (L _ X4).
  assert (LF : Zlen first < 10) by (destruct Hf as [-> | ->]; reflexivity).
  do 5 eexists. split; [destruct Hf as [-> | ->]; [left|right]; apply first_zero|].
  assert (NF : forall p, p = str "side" \/ p = str "layer" \/ p = str "module" \/ p = str "sensor" -> forall l1 l2, first <> l1 ++ p ++ l2).
  { intros p Hp. apply NO; [destruct Hp as [->|[->|[->| ->]]]; discriminate|exact LF|]. destruct Hf as [-> | ->]; destruct Hp as [->|[->|[->| ->]]]; vm_compute; reflexivity. }
  split; [apply first_sep; [discriminate|exact X1|apply G1; reflexivity|apply NF; auto|apply first_zero]|].
  split; [apply first_sep; [discriminate|exact X1|apply G1; reflexivity|apply NF; auto|]; apply first_sep; [discriminate|exact X2|apply G2; reflexivity|apply NO; [discriminate|reflexivity|vm_compute; reflexivity]|apply first_zero]|].
  split; [apply first_sep; [discriminate|exact X1|apply G1; reflexivity|apply NF; auto|]; apply first_sep; [discriminate|exact X2|apply G2; reflexivity|apply NO; [discriminate|reflexivity|vm_compute; reflexivity]|];
    apply first_sep; [discriminate|exact X3|apply G3; reflexivity|apply NO; [discriminate|reflexivity|vm_compute; reflexivity]|apply first_zero]|].
  split; [apply first_sep; [discriminate|exact X1|apply G1; reflexivity|apply NF; auto|]; apply first_sep; [discriminate|exact X2|apply G2; reflexivity|apply NO; [discriminate|reflexivity|vm_compute; reflexivity]|];
    apply first_sep; [discriminate|exact X3|apply G3; reflexivity|apply NO; [discriminate|reflexivity|vm_compute; reflexivity]|]; apply first_sep; [discriminate|exact X4|apply G4; reflexivity|apply NO; [discriminate|reflexivity|vm_compute; reflexivity]|apply first_zero]|].
  assert (0 <= Zlen first) by (unfold Zlen; lia). change (Zlen (str "side")) with 4. change (Zlen (str "layer")) with 5. change (Zlen (str "module")) with 6. assert (0 < Zlen first) by (destruct Hf as [-> | ->]; reflexivity). lia.
Qed.

(** ** Numbers of the fields *)

Lemma place_names next ds : map fst (places next ds) = map d_name ds.
Proof. revert next. induction ds as [|d ds IH]; intros next; cbn [places map fst]; [reflexivity|]. f_equal. apply IH. Qed.
Lemma named_index b i n : good b -> nth_error (map fst (named_places b)) i = Some n -> ~ In n (skipn (S i) (map fst (named_places b))) -> index b n = Ok (Z.of_nat i).
Proof.
  intros G E N. unfold index. assert (LI : last_index (bf_fields b) n (Z.of_nat i)).
  { unfold named_places in E, N. rewrite map_map in E, N. cbn [fst] in E, N. rewrite nth_error_map in E. destruct (nth_error (bf_fields b) i) as [f|] eqn:Ef; [|discriminate]. injection E as En.
    assert (i < length (bf_fields b))%nat by (apply nth_error_Some; congruence). split; [unfold Zlen; lia|]. split; [exists f; rewrite Nat2Z.id; auto|].
    intros j g Eg Hg. destruct (Nat.le_gt_cases j i) as [K|K]; [lia|]. exfalso. apply N. rewrite <- Hg. rewrite skipn_map. apply in_map. apply (nth_error_In _ (j - S i)). rewrite <- Eg.
    clear -K. revert j K. generalize (bf_fields b). intros l. revert l. induction i as [|i IH]; intros l j K.
    - destruct l as [|x l]; [destruct j; [lia|destruct (S j - 1)%nat; reflexivity]|]. destruct j as [|j]; [lia|]. cbn [skipn nth_error]. f_equal. lia.
    - destruct l as [|x l]; [cbn [skipn]; destruct j; [lia|destruct (S j - S (S i))%nat; reflexivity]|]. destruct j as [|j]; [lia|]. cbn [skipn]. change (nth_error (x :: l) (S j)) with (nth_error l j). rewrite <- (IH l j ltac:(lia)). cbn [skipn]. f_equal. }
  apply (g_index b G) in LI. rewrite LI. reflexivity.
Qed.

(** ** Printing *)

Lemma print_number_written z : - 10 ^ 20 < z < 10 ^ 20 -> written (print_number z) z.
Proof.
  intros H. unfold print_number, written. destruct (z <? 0) eqn:B.
  - right. split; [lia|]. eexists. split; [reflexivity|]. apply decimal_numeral; [change (Z.of_nat 20) with 20; lia|lia].
  - left. split; [lia|]. apply decimal_numeral; [change (Z.of_nat 20) with 20; lia|lia].
Qed.
Lemma number_small v p : inside_64 p -> - 10 ^ 20 < number_in v p < 10 ^ 20.
Proof.
  intros (O & W & IN). unfold number_in. cbv zeta. pose proof (Z.mod_pos_bound (v / 2 ^ p_off p) (2 ^ p_width p) ltac:(apply Z.pow_pos_nonneg; lia)) as M.
  assert (P : 2 ^ p_width p <= 2 ^ 64) by (apply Z.pow_le_mono_r; lia). change (2 ^ 64) with 18446744073709551616 in P. change (10 ^ 20) with 100000000000000000000. destruct (p_signed p && (2 ^ (p_width p - 1) <=? (v / 2 ^ p_off p) mod 2 ^ p_width p)); lia.
Qed.
Lemma shows_string v fs : Forall ok_field fs -> shows v (map (fun f => (f_name f, place_of f)) fs) (join comma (map (fun f => f_name f ++ [colon] ++ print_number (value v f)) fs)).
Proof.
  induction fs as [|f fs IH]; intros H; [constructor|]. inversion H as [|? ? H1 H2]; subst.
  assert (W : written (print_number (value v f)) (number_in v (place_of f))).
  { rewrite (value_ok _ _ H1). apply print_number_written. apply number_small. unfold inside_64, place_of. cbn [p_off p_width]. destruct H1. lia. }
  specialize (IH H2). destruct fs as [|g fs]; [apply shows_one; exact W|].
  set (F := fun f => f_name f ++ [colon] ++ print_number (value v f)) in *. change (join comma (map F (f :: g :: fs))) with ((f_name f ++ [colon] ++ print_number (value v f)) ++ [comma] ++ join comma (map F (g :: fs))).
  revert IH. generalize (join comma (map F (g :: fs))). intros t IH. rewrite <- !app_assoc. apply (shows_more v (f_name f) (place_of f) (print_number (value v f))); [exact W|discriminate|exact IH].
Qed.
Lemma value_string_shows s b v : bit_field s = Ok b -> shows v (named_places b) (value_string (set_value b v)).
Proof. intros E. destruct (accepted s b E) as (G & _). unfold value_string, named_places. cbn [set_value bf_fields bf_value]. apply shows_string. exact (g_fields b G). Qed.

(** ** Histories *)

Lemma run_app ops1 : forall c ops2, conf_run c (ops1 ++ ops2) = let (c1, r1) := conf_run c ops1 in let (c2, r2) := conf_run c1 ops2 in (c2, r1 ++ r2).
Proof.
  induction ops1 as [|op ops1 IH]; intros c ops2; cbn [app conf_run]; [destruct (conf_run c ops2); reflexivity|]. destruct (conf_do c op) as [c1 r]. rewrite IH. destruct (conf_run c1 ops1) as [c2 r1]. destruct (conf_run c2 ops2). reflexivity.
Qed.
Definition short (op : confcall) : Prop := match op with CSet s => Zlen s < npos | _ => True end.
Lemma run_sets ops : Forall sets ops -> Forall short ops -> exists e, conf_run conf_new ops = (mkConf e false, map (fun op => match op with CSet s => if valid s then COut (Ok []) else CRuntimeError | _ => CLogicError end) ops) /\ last_set ops e.
Proof.
  induction ops as [|op ops IH] using rev_ind; intros H HS; [exists canonical; split; [reflexivity|left; split; [reflexivity|intros s []]]|].
  apply Forall_app in H. destruct H as [H1 H2]. apply Forall_app in HS. destruct HS as [S1 S2]. inversion H2 as [|? ? (s & ->) _]; subst. inversion S2 as [|? ? S3 _]; subst. cbn [short] in S3.
  destruct (IH H1 S1) as (e & E & L). rewrite run_app, E. cbn [conf_run conf_do cf_accessed cf_enc]. rewrite map_app. cbn [map]. pose proof (valid_ordered s S3) as V. destruct (valid s).
  - exists s. split; [reflexivity|]. right. exists ops, []. split; [reflexivity|]. split; [apply V; reflexivity|intros x []].
  - exists e. split; [reflexivity|]. assert (~ ordered s) as NO by (intros O; apply V in O; discriminate O). destruct L as [[-> L]|(l1 & l2 & -> & O & L)].
    + left. split; [reflexivity|]. intros x Hx. apply in_app_iff in Hx. destruct Hx as [Hx|[Hx|[]]]; [exact (L x Hx)|injection Hx as <-; exact NO].
    + right. exists l1, (l2 ++ [CSet s]). split; [rewrite <- app_assoc; reflexivity|]. split; [exact O|]. intros x Hx. apply in_app_iff in Hx. destruct Hx as [Hx|[Hx|[]]]; [exact (L x Hx)|injection Hx as <-; exact NO].
Qed.
Definition late (e : bytes) (op : confcall) : confout :=
  match op with CSet _ => CLogicError | CEncoding => COut (Ok e) | CSetAccessed => COut (Ok []) | CValueString v => COut (do b <- bit_field e; Ok (value_string (set_value b (u32 v)))) end.
Lemma run_late e ops : conf_run (mkConf e true) ops = (mkConf e true, map (late e) ops).
Proof. induction ops as [|op ops IH]; cbn [conf_run map]; [reflexivity|]. destruct op; cbn [conf_do cf_accessed cf_enc]; rewrite IH; reflexivity. Qed.
Lemma run_access e op ops : ~ sets op -> conf_run (mkConf e false) (op :: ops) = (mkConf e true, map (late e) (op :: ops)).
Proof. intros H. cbn [conf_run]. destruct op as [|v|s|]; [| |destruct H; eexists; reflexivity|]; cbn [conf_do cf_accessed cf_enc]; rewrite run_late; reflexivity. Qed.

(** ** The canonical encoding with more fields *)

Definition canonical_descr : list descr := [mkDescr (str "subdet") None 5 false; mkDescr (str "side") None 2 true; mkDescr (str "layer") None 9 false; mkDescr (str "module") None 8 false; mkDescr (str "sensor") None 8 false].
Lemma encoding_app s ds : encoding s ds -> ds <> [] -> forall s' ds', encoding s' ds' -> ds' <> [] -> encoding (s ++ [Init.Byte.x2c] ++ s') (ds ++ ds').
Proof.
  intros H. induction H as [|s d D|s d s2 ds D E IH N]; intros Hd s' ds' E' N'; [contradiction| |].
  - apply encoding_more; assumption.
  - rewrite <- !app_assoc. cbn [app]. apply (encoding_more s d (s2 ++ [Init.Byte.x2c] ++ s')); [exact D|exact (IH N _ _ E' N')|destruct ds; [contradiction|discriminate]].
Qed.
Lemma describes_one n (w : Z) (sg : bool) : good_name n -> 1 <= w <= 9 -> describes (n ++ [Init.Byte.x3a] ++ (if sg then [Init.Byte.x2d] else []) ++ [bZ (48 + w)]) (mkDescr n None w sg).
Proof.
  intros G W. split; [exact G|]. cbn [d_width d_signed d_off d_name]. split; [lia|]. split; [lia|]. exists [bZ (48 + w)]. split; [constructor; lia|]. reflexivity.
Qed.
Lemma letters n : n <> [] -> forallb (fun c => negb (Byte.eqb c Init.Byte.x2c) && negb (Byte.eqb c Init.Byte.x3a)) n = true -> good_name n.
Proof.
  intros N F. split; [exact N|]. rewrite forallb_forall in F. split; intros H; apply F in H; discriminate H.
Qed.
Lemma encoding_canonical : encoding canonical canonical_descr.
Proof.
  pose proof (fun n w sg H1 H2 => describes_one n w sg (letters n H1 H2)) as D.
  exact (encoding_more _ _ _ _ (D (str "subdet") 5 false ltac:(discriminate) eq_refl ltac:(lia))
    (encoding_more _ _ _ _ (D (str "side") 2 true ltac:(discriminate) eq_refl ltac:(lia))
      (encoding_more _ _ _ _ (D (str "layer") 9 false ltac:(discriminate) eq_refl ltac:(lia))
        (encoding_more _ _ _ _ (D (str "module") 8 false ltac:(discriminate) eq_refl ltac:(lia)) (encoding_one _ _ (D (str "sensor") 8 false ltac:(discriminate) eq_refl ltac:(lia)))
         ltac:(discriminate)) ltac:(discriminate)) ltac:(discriminate)) ltac:(discriminate)).
Qed.
Lemma five_index s d1 d2 d3 d4 d5 rest first b : encoding s (d1 :: d2 :: d3 :: d4 :: d5 :: rest) -> map d_name [d1; d2; d3; d4; d5] = five first -> first = str "subdet" \/ first = str "system" ->
  (forall d, In d rest -> ~ In (d_name d) (five first)) -> bit_field s = Ok b ->
  index b first = Ok subdetID /\ index b (str "side") = Ok sideID /\ index b (str "layer") = Ok layerID /\ index b (str "module") = Ok moduleID /\ index b (str "sensor") = Ok sensorID.
Proof.
  intros E N Hf R B. destruct (accepted s b B) as (G & _). pose proof (parsed _ _ E) as P. rewrite B in P. destruct P as (_ & P).
  assert (NM : map fst (named_places b) = five first ++ map d_name rest) by (rewrite P, place_names; cbn [map] in *; unfold five in *; injection N as -> -> -> -> ->; reflexivity).
  assert (NR : forall n, In n (five first) -> ~ In n (map d_name rest)) by (intros n Hn K; apply in_map_iff in K; destruct K as (d & <- & Hd); exact (R d Hd Hn)).
  pose proof (named_index b) as I. rewrite NM in I. unfold five in *.
  assert (NE : forall n, In n [str "side"; str "layer"; str "module"; str "sensor"] -> first <> n) by (intros n Hn K; subst n; destruct Hf as [-> | ->]; cbn in Hn; repeat (destruct Hn as [Hn|Hn]; [discriminate Hn|]); exact Hn).
  split; [|split; [|split; [|split]]].
  - apply (I 0%nat first G eq_refl). cbn [skipn app]. intros K. assert (K' : In first ([str "side"; str "layer"; str "module"; str "sensor"] ++ map d_name rest)) by exact K. apply in_app_iff in K'. destruct K' as [K'|K']; [exact (NE _ K' eq_refl)|]. exact (NR first ltac:(cbn; auto) K').
  - apply (I 1%nat (str "side") G eq_refl). cbn [skipn app]. intros K. cbn [In] in K. destruct K as [K|[K|[K|K]]]; [discriminate K..|]. exact (NR (str "side") ltac:(cbn [In]; auto) K).
  - apply (I 2%nat (str "layer") G eq_refl). cbn [skipn app]. intros K. cbn [In] in K. destruct K as [K|[K|K]]; [discriminate K..|]. exact (NR (str "layer") ltac:(cbn [In]; auto) K).
  - apply (I 3%nat (str "module") G eq_refl). cbn [skipn app]. intros K. cbn [In] in K. destruct K as [K|K]; [discriminate K..|]. exact (NR (str "module") ltac:(cbn [In]; auto) K).
  - apply (I 4%nat (str "sensor") G eq_refl). cbn [skipn app]. intros K. exact (NR (str "sensor") ltac:(cbn [In]; auto 7) K).
Qed.
Lemma canonical_more more ds : encoding more ds -> ds <> [] -> forall b, bit_field (canonical ++ [comma] ++ more) = Ok b -> named_places b = canonical_places ++ places 32 ds.
Proof.
  intros E N b B. pose proof (parsed _ _ (encoding_app _ _ encoding_canonical ltac:(discriminate) _ _ E N)) as P. unfold comma in B. rewrite B in P. destruct P as (_ & ->). reflexivity.
Qed.
Lemma low_word_number v n p : In (n, p) canonical_places -> number_in v p = number_in (v mod 2 ^ 32) p.
Proof.
  intros H. assert (B : 0 <= p_off p /\ 0 <= p_width p /\ p_off p + p_width p <= 32) by (unfold canonical_places in H; cbn [In] in H; repeat (destruct H as [H|H]; [injection H as _ <-; cbn; lia|]); destruct H).
  apply number_ext; [lia|lia|]. intros i Hi. unfold has_bit in Hi. rewrite Z.mod_pow2_bits_low by lia. reflexivity.
Qed.
Lemma ild_more_ok more ds id1 c b c' : encoding more ds -> ds <> [] -> ild_encoder_more more id1 c = (Ok b, c') ->
  named_places b = canonical_places ++ places 32 ds /\ cl_enc c' = Some (canonical ++ [comma] ++ more) /\ decoder c' = Ok b /\
  (forall i n p, nth_error canonical_places i = Some (n, p) -> exists f, field_at b (Z.of_nat i) = Ok f /\ forall v, value v f = number_in (v mod 2 ^ 32) p).
Proof.
  intros E N. unfold ild_encoder_more, encoder. destruct (bit_field (canonical ++ [comma] ++ more)) as [b0| |] eqn:B; cbn [bind]; [|discriminate..].
  destruct (if 31 <? highest_bit b0 then flag_set_bit (cl_flag c) id1 else flag_unset_bit (cl_flag c) id1) as [fl| |]; cbn [bind]; [|discriminate..]. destruct more as [|x more']; [discriminate|]. intros H. injection H as <- <-. cbn [cl_enc].
  pose proof (canonical_more _ _ E N _ B) as P. split; [exact P|]. split; [reflexivity|]. split; [unfold decoder; cbn [cl_enc]; exact B|]. intros i n p Hi.
  assert (Hn : nth_error (named_places b0) i = Some (n, p)) by (rewrite P, nth_error_app1; [exact Hi|apply nth_error_Some; congruence]).
  unfold named_places in Hn. rewrite nth_error_map in Hn. destruct (nth_error (bf_fields b0) i) as [f|] eqn:Ef; [|discriminate]. injection Hn as _ Hp. exists f. unfold field_at. rewrite Nat2Z.id, Ef. split; [reflexivity|]. intros v.
  destruct (accepted _ _ B) as (G & _). pose proof (g_fields b0 G) as GF. rewrite Forall_forall in GF. rewrite (value_ok v f (GF f (nth_error_In _ _ Ef))), Hp. apply (low_word_number v n). exact (nth_error_In _ _ Hi).
Qed.

(** * Splitting the output: proofs *)

From Verif Require Import Bytes ListFacts StrMap SioModel SioSpec Ieee ObjModel ObjSpec EventModel EventSpec EventFacts IndexModel IndexSpec IndexProofs IndexFile IndexFacts
  SioProofs SioFrame FileModel FileSpec FileFrame FileWrite FileSessions FileSeq FileFacts BitModel BitSpec BitParse SplitModel SplitSpec.

(** ** Names *)

Lemma numeral_zero s n : numeral s n -> numeral (Init.Byte.x30 :: s) n.
Proof.
  induction 1 as [d Hd|s n d H IH Hd].
  - exact (numeral_more [Init.Byte.x30] 0 d (numeral_one 0 ltac:(lia)) Hd).
  - exact (numeral_more (Init.Byte.x30 :: s) n d IH Hd).
Qed.
Lemma numeral_zeros k s n : numeral s n -> numeral (repeat Init.Byte.x30 k ++ s) n.
Proof. intros H. induction k as [|k IH]; [exact H|]. apply numeral_zero. exact IH. Qed.
Lemma numeral_fun s n m : numeral s n -> numeral s m -> n = m.
Proof. intros H1 H2. destruct (numeral_ok s n H1) as (_ & _ & E1 & _), (numeral_ok s m H2) as (_ & _ & E2 & _). lia. Qed.
Lemma decimal_lead fuel : forall n, 1 <= n < 10 ^ Z.of_nat fuel -> exists c ds, decimal fuel n = c :: ds /\ c <> Init.Byte.x30.
Proof.
  induction fuel as [|fuel IH]; intros n Hn; [cbn in Hn; lia|]. cbn [decimal]. destruct (Z.ltb_spec n 10) as [L|L].
  - exists (digit n), []. split; [reflexivity|]. intros E. apply (f_equal Zb) in E. unfold digit in E. rewrite Zb_bZ, Z.mod_small in E by lia.
    change (Zb Init.Byte.x30) with 48 in E. lia.
  - rewrite Nat2Z.inj_succ, Z.pow_succ_r in Hn by lia.
    destruct (IH (n / 10)) as (c & ds & E & Hc). { split; [apply Z.div_le_lower_bound; lia|apply Z.div_lt_upper_bound; lia]. }
    exists c, (ds ++ [digit (n mod 10)]). rewrite E. split; [reflexivity|exact Hc].
Qed.
Lemma counting_name k : 0 <= k < two32 -> exists c ds, counting k = c :: ds /\ numeral (c :: ds) k /\ (2 <= length ds)%nat /\ ((2 < length ds)%nat -> c <> Init.Byte.x30).
Proof.
  intros Hk. unfold two32 in Hk. assert (H10 : 10 ^ Z.of_nat 10 = 10000000000) by reflexivity. unfold counting. set (d := decimal 10 k).
  change (digit 0) with Init.Byte.x30. pose proof (numeral_zeros (3 - length d) d k (decimal_numeral 10 k ltac:(lia) ltac:(lia))) as Hn.
  assert (Hl : (3 <= length (repeat Init.Byte.x30 (3 - length d) ++ d))%nat) by (rewrite app_length, repeat_length; lia).
  destruct (repeat Init.Byte.x30 (3 - length d) ++ d) as [|c ds] eqn:E; [exfalso; cbn in Hl; lia|]. exists c, ds. split; [reflexivity|]. split; [exact Hn|].
  split; [cbn [length] in Hl; lia|]. intros L. assert (Hd : (3 - length d)%nat = 0%nat).
  { apply (f_equal (@length byte)) in E. rewrite app_length, repeat_length in E. cbn [length] in E. lia. }
  rewrite Hd in E. cbn [repeat app] in E. destruct (Z.eq_dec k 0) as [->|K0].
  - exfalso. unfold d in E. cbn in E. injection E as _ E. subst ds. cbn in L. lia.
  - destruct (decimal_lead 10 k ltac:(lia)) as (c' & ds' & E' & Hc). fold d in E'. rewrite E in E'. injection E' as -> _. exact Hc.
Qed.
Definition fname (base ext : bytes) (k : nat) : bytes := base ++ str "." ++ counting (Z.of_nat k) ++ ext.
Lemma fname_number base ext k : Z.of_nat k < two32 -> file_number base ext (Z.of_nat k) (fname base ext k).
Proof. intros H. destruct (counting_name (Z.of_nat k) ltac:(lia)) as (c & ds & E & A & B & C). exists c, ds. unfold fname. rewrite E. repeat split; assumption. Qed.
Lemma file_number_inj base ext j k n : file_number base ext j n -> file_number base ext k n -> j = k.
Proof.
  intros (c & ds & N & _ & _ & E) (c' & ds' & N' & _ & _ & E'). rewrite E in E'. apply app_inv_head in E'. apply app_inv_head in E'. apply app_inv_tail in E'.
  rewrite E' in N. exact (numeral_fun _ _ _ N N').
Qed.
Lemma fname_inj base ext j k : Z.of_nat j < two32 -> Z.of_nat k < two32 -> fname base ext j = fname base ext k -> j = k.
Proof.
  intros Hj Hk E. pose proof (fname_number base ext j Hj) as A. pose proof (fname_number base ext k Hk) as B. rewrite E in A.
  apply Nat2Z.inj. exact (file_number_inj _ _ _ _ _ A B).
Qed.
Lemma sio_filename_ext a : sio_filename (a ++ extension) = a ++ extension.
Proof. unfold sio_filename. rewrite app_length, Nat.add_sub, skipn_app_exact by reflexivity. rewrite bytes_eqb_refl. reflexivity. Qed.
Lemma sio_fname base k : sio_filename (fname base extension k) = fname base extension k.
Proof. unfold fname. rewrite !app_assoc. apply sio_filename_ext. Qed.

Lemma find_last_none c b : ~ In c b -> find_last c b = npos.
Proof.
  induction b as [|x b IH]; intros H; [reflexivity|]. cbn [find_last]. rewrite IH by (intros Hi; apply H; right; exact Hi). rewrite Z.eqb_refl.
  destruct (byte_dec x c) as [->|_]; [exfalso; apply H; left; reflexivity|reflexivity].
Qed.
Lemma find_last_here c a b : ~ In c b -> Zlen a < npos -> find_last c (a ++ c :: b) = Zlen a.
Proof.
  intros H. induction a as [|x a IH]; intros L; cbn [app find_last].
  - rewrite (find_last_none c b H), Z.eqb_refl. destruct (byte_dec c c); [reflexivity|congruence].
  - rewrite Zlen_cons in L. pose proof (Zlen_nonneg a). rewrite IH by lia. rewrite Zlen_cons. replace (Zlen a =? npos) with false by lia. lia.
Qed.
Lemma rfind_short p s : (length s < length p)%nat -> rfind p s = npos.
Proof.
  induction s as [|x s IH]; intros H.
  - cbn [rfind]. destruct p; [cbn in H; lia|reflexivity].
  - cbn [rfind]. rewrite IH by (cbn in H; lia). rewrite Z.eqb_refl. destruct (bytes_eqb _ p) eqn:E; [|reflexivity]. apply bytes_eqb_eq in E.
    apply (f_equal (@length byte)) in E. rewrite firstn_length in E. cbn [length] in *. lia.
Qed.
Lemma rfind_end p a : p <> [] -> Zlen a < npos -> rfind p (a ++ p) = Zlen a.
Proof.
  intros Hp. induction a as [|x a IH]; intros L.
  - cbn [app]. destruct p as [|c p]; [congruence|]. cbn [rfind]. rewrite rfind_short by (cbn; lia). rewrite Z.eqb_refl, firstn_all, bytes_eqb_refl. reflexivity.
  - rewrite Zlen_cons in *. pose proof (Zlen_nonneg a). cbn [app rfind]. rewrite IH by lia. replace (Zlen a =? npos) with false by lia. lia.
Qed.
(** the names that are accepted *)
Lemma base_filename_ok base c : base <> [] -> c <> Init.Byte.x2e -> Zlen base + 6 < two32 ->
  base_filename (base ++ Init.Byte.x2e :: c :: str "lcio") = Ok (base, Init.Byte.x2e :: c :: str "lcio").
Proof.
  intros Hb Hc Hl. unfold base_filename. set (ext := Init.Byte.x2e :: c :: str "lcio"). assert (Le : length ext = 6%nat) by reflexivity.
  pose proof (Zlen_nonneg base) as H0. assert (H1 : 0 < Zlen base) by (destruct base; [congruence|rewrite Zlen_cons; pose proof (Zlen_nonneg base); lia]).
  assert (Hn : two32 < npos) by reflexivity.
  assert (F : find_last (bZ 46) (base ++ ext) = Zlen base).
  { unfold ext. change (bZ 46) with Init.Byte.x2e. apply find_last_here; [|lia]. cbn. intros [E|[E|[E|[E|[E|[]]]]]]; congruence. }
  assert (R : rfind (str "lcio") (base ++ ext) = Zlen base + 2).
  { replace (base ++ ext) with ((base ++ [Init.Byte.x2e; c]) ++ str "lcio") by (rewrite <- app_assoc; reflexivity).
    rewrite rfind_end; [rewrite Zlen_app; reflexivity|discriminate|rewrite Zlen_app; change (Zlen [Init.Byte.x2e; c]) with 2; lia]. }
  rewrite F, R. replace (Zlen (base ++ ext)) with (Zlen base + 6) by (rewrite Zlen_app; reflexivity). rewrite !Z.mod_small by (unfold two32 in *; lia).
  replace (_ && _) with true by lia. rewrite app_length, Le, Nat.add_sub, firstn_app_exact, skipn_app_exact by reflexivity. reflexivity.
Qed.

(** ** Files that existed before *)

Section Keep.
Context (comp : Z -> bytes -> bytes) (b1 b2 : buffer) (n c : bytes).
Definition keeps (s : split) : Prop := sp_disk s n = Some c /\ forall o, sp_out s <> Some (n, o).
Lemma keep_flush s : keeps s -> keeps (sp_flush s).
Proof.
  intros [H1 H2]. unfold sp_flush. destruct (sp_out s) as [[m o]|] eqn:E; [|split; [exact H1|rewrite E; exact H2]].
  split; cbn [sp_disk sp_out]; [|exact H2]. unfold save. destruct (bytes_eqb n m) eqn:B; [|exact H1].
  apply bytes_eqb_eq in B. subst m. exfalso. exact (H2 o eq_refl).
Qed.
Lemma keep_open s a s' : keeps s -> sp_open_file s = Ok (a, s') -> keeps s'.
Proof.
  intros [H1 H2]. unfold sp_open_file. cbv zeta. destruct (sp_disk s (sio_filename _)) eqn:E; [intros G; injection G as _ <-; split; assumption|].
  destruct (sp_out s) eqn:E2; [discriminate|]. intros G; injection G as _ <-. split; cbn [sp_disk sp_out].
  - unfold save. destruct (bytes_eqb n _) eqn:B; [|exact H1]. apply bytes_eqb_eq in B. rewrite <- B in E. congruence.
  - intros o G. injection G as G _. rewrite G in E. congruence.
Qed.
Lemma keep_close s a s' : keeps s -> sp_close s = Ok (a, s') -> keeps s'.
Proof.
  intros [H1 H2]. unfold sp_close. destruct (sp_out s) as [[m o]|] eqn:E.
  - destruct (write_access _ _) as [[g o']|e|k]; cbn [bind]; [|discriminate|discriminate]. intros G. injection G as _ <-. split; cbn [sp_disk sp_out]; [|discriminate].
    unfold save. destruct (bytes_eqb n m) eqn:B; [|exact H1]. apply bytes_eqb_eq in B. subst m. exfalso. exact (H2 o eq_refl).
  - destruct (rm_map _); intros G; injection G as _ <-; split; cbn [sp_disk sp_out]; try assumption; try (rewrite E; assumption); discriminate.
Qed.
Lemma keep_put s i a s' : keeps s -> sp_put comp b1 b2 s i = Ok (a, s') -> keeps s'.
Proof.
  intros [H1 H2]. unfold sp_put. destruct (sp_out s) as [[m o]|] eqn:E.
  - destruct (write_item _ _ _ _ _); cbn [bind]; [|discriminate|discriminate]. intros G. injection G as _ <-. split; cbn [sp_disk sp_out]; [exact H1|].
    intros o' G. injection G as -> _. exact (H2 o eq_refl).
  - intros G. injection G as _ <-. split; [exact H1|rewrite E; exact H2].
Qed.
Lemma keep_step s o a s' : keeps s -> sp_step comp b1 b2 s o = Ok (a, s') -> keeps s'.
Proof.
  intros H. destruct o as [m|z|i| |]; cbn [sp_step].
  - unfold split_open. destruct (base_filename m) as [[base ext]|e|k]; [|intros G; injection G as _ <-; exact H|intros G; injection G as _ <-; exact H].
    apply keep_open. exact H.
  - intros G. injection G as _ <-. exact H.
  - unfold split_write. assert (K : keeps (get_filename (sp_flush s))) by exact (keep_flush s H). set (t := get_filename (sp_flush s)) in *.
    destruct (if sp_max t <? file_size t then next_file t else Ok (Done, t)) as [[a1 s1]|e|k] eqn:E; cbn [bind]; [|discriminate|discriminate].
    assert (K1 : keeps s1).
    { destruct (sp_max t <? file_size t); [|injection E as _ <-; exact K]. unfold next_file in E. destruct (sp_close t) as [[a2 s2]|e|k] eqn:E2; cbn [bind] in E; [|discriminate|discriminate].
      pose proof (keep_close _ _ _ K E2) as K2. destruct a2; [|injection E as _ <-; exact K2]. refine (keep_open _ _ _ _ E). exact K2. }
    destruct a1; [apply keep_put; exact K1|]. intros G. injection G as _ <-. exact K1.
  - intros G. injection G as _ <-. exact (keep_flush s H).
  - apply keep_close. exact H.
Qed.
Lemma keep_run l : forall s as' s', keeps s -> sp_run comp b1 b2 s l = Ok (as', s') -> keeps s'.
Proof.
  induction l as [|o l IH]; intros s as' s' H; cbn [sp_run]; [intros G; injection G as _ <-; exact H|].
  destruct (sp_step comp b1 b2 s o) as [[a s1]|e|k] eqn:E; cbn [bind]; [|discriminate|discriminate].
  destruct (sp_run comp b1 b2 s1 l) as [[l1 s2]|e|k] eqn:E2; cbn [bind]; [|discriminate|discriminate]. intros G. injection G as _ <-.
  exact (IH _ _ _ (keep_step _ _ _ _ H E) E2).
Qed.
End Keep.

(** ** A session *)

Section Session.
Context (comp : Z -> bytes -> bytes) (uncomp : bytes -> option bytes) (b1 b2 : buffer).
Context (HC : codec_ok comp uncomp) (U1 : usable b1) (U2 : usable b2).

Lemma write_items_snoc l z i : forall w, write_items comp w b1 b2 (l ++ [(z, i)]) = (do w' <- write_items comp w b1 b2 l; write_item comp (set_level w' z) b1 b2 i).
Proof.
  induction l as [|[z' i'] l IH]; intros w; cbn [app write_items].
  - cbn [bind]. destruct (write_item comp (set_level w z) b1 b2 i); reflexivity.
  - destruct (write_item comp (set_level w z') b1 b2 i') as [w'|e|k]; cbn [bind]; [apply IH|reflexivity|reflexivity].
Qed.

Notation group_ok := (group_ok comp b1 b2).
Lemma group_sub a g c : group_ok (a ++ g ++ c) -> group_ok g.
Proof.
  intros (A & B & C & D). apply Forall_app in A. destruct A as [_ A]. apply Forall_app in A. split; [exact (proj1 A)|].
  split; [intros x y Hx Hy; apply B; rewrite !map_app; apply in_or_app; right; apply in_or_app; left; assumption|].
  unfold size_of in *. rewrite !flat_map_app in D. rewrite !Zlen_app in *.
  pose proof (Zlen_nonneg a). pose proof (Zlen_nonneg c). pose proof (Zlen_nonneg (flat_map (item_text comp b1 b2) a)). pose proof (Zlen_nonneg (flat_map (item_text comp b1 b2) c)). lia.
Qed.
Definition start (raw : buffer) : writer := mkWr (mkO [] 0) (new_mgr raw) 0.

(** a file from its opening to its end *)
Lemma group_file raw g : usable raw -> group_ok g -> exists w m o,
  write_items comp (start raw) b1 b2 g = Ok w /\ write_access (wr_mgr w) (wr_o w) = Ok (m, o) /\ usable (mg_raw m) /\
  Zlen (o_data (wr_o w)) = size_of comp b1 b2 g /\
  forall d n, new_session comp d n (mkSess 0 raw b1 b2 g) = Ok (save d (sio_filename n) (o_data o)).
Proof.
  intros Ur (A & B & C & D). destruct g as [|x g].
  - exists (start raw), (new_mgr raw), (mkO [] 0). split; [reflexivity|]. split; [reflexivity|]. split; [exact Ur|]. split; reflexivity.
  - set (s := mkSess 0 raw b1 b2 (x :: g)).
    destruct (session_step comp uncomp (new_mgr raw) 0 [] [] s) as (lr & ss & ix & ra & fra & a & f & (w & m & o & E1 & E2 & E3) & _); try assumption.
    { split; [exact Ur|]. split; [exact U1|]. split; [exact U2|]. split; [exact A|exact B]. } { discriminate. } { reflexivity. }
    { split; [exact no_remap_ok|]. split; [exact Ur|]. destruct new_file_good as (G1 & G2 & G3). split; [exact G1|]. split; [cbn; lia|]. left. split; reflexivity. }
    { rewrite Zlen_nil. unfold access_size. lia. } { replace (mgr_count (new_mgr raw)) with 0 by reflexivity. cbn [s ss_items]. lia. } { rewrite Zlen_nil. unfold sess_text. cbn [s ss_items ss_b1 ss_b2]. fold (size_of comp b1 b2 (x :: g)). lia. }
    cbn [s ss_items ss_b1 ss_b2] in E1. exists w, m, o. split; [exact E1|]. split; [exact E2|]. split; [exact E3|].
    destruct (write_items_spec comp uncomp [] [] b1 b2 (x :: g) HC U1 U2 A (start raw) [] (o_state_start _ _)) as (w' & lr' & ss' & F1 & _ & _ & _ & F5 & F6 & _).
    change ([] ++ []) with (@nil byte) in E1. change (Zlen []) with 0 in E1. unfold start in F1. cbn [app] in E1. rewrite E1 in F1. injection F1 as <-.
    split.
    + rewrite app_nil_l in F6. destruct F6 as [F6 _]. rewrite F6. unfold size_of. rewrite (text_concat comp b1 b2 _ _ F5).
      rewrite skipn_nil, app_nil_r. reflexivity.
    + intros d n. unfold new_session, open_new, run_writer. cbn [bind ss_level ss_raw ss_b1 ss_b2 ss_items]. match goal with |- context [write_items comp ?a ?b ?c ?d] => replace (write_items comp a b c d) with (Ok w) by (symmetry; exact E1) end. cbn [bind].
      unfold close_writer. rewrite E2. reflexivity.
Qed.

Context (base : bytes) (max : Z) (d0 : disk).
Notation fn := (fname base extension).
Notation size := (size_of comp b1 b2).
Definition filled (gs : list (list (Z * witem))) : Prop :=
  forall k g, nth_error gs k = Some g -> max < size g /\ (forall g' x, g = g' ++ [x] -> g' <> [] -> size g' <= max) /\ ((0 < k)%nat -> g <> []).
Definition current (gs : list (list (Z * witem))) (g : list (Z * witem)) : Prop :=
  (forall g' x, g = g' ++ [x] -> g' <> [] -> size g' <= max) /\ (gs <> [] -> g <> []).

(** after writing the items of [gs] to closed files and those of [g] to the open one *)
Record session (s : split) (gs : list (list (Z * witem))) (g : list (Z * witem)) (raw : buffer) (w : writer) : Prop := mkSession {
  i_base : sp_base s = base; i_ext : sp_ext s = extension; i_max : sp_max s = max;
  i_count : sp_count s = Z.of_nat (length gs); i_last : sp_last s = Z.of_nat (length gs); i_file : sp_file s = fn (length gs);
  i_raw : usable raw; i_w : write_items comp (start raw) b1 b2 g = Ok w;
  i_out : sp_out s = Some (fn (length gs), wr_o w); i_mgr : sp_mgr s = wr_mgr w;
  i_closed : forall k g, nth_error gs k = Some g -> holds_items comp uncomp b1 b2 (sp_disk s) (fn k) g;
  i_others : forall n, (forall k, (k <= length gs)%nat -> n <> fn k) -> sp_disk s n = d0 n;
  i_filled : filled gs; i_current : current gs g;
  i_len : Z.of_nat (length gs) <= Zlen (concat gs ++ g) }.

Lemma holds_other d n c m g : m <> n -> holds_items comp uncomp b1 b2 d m g -> holds_items comp uncomp b1 b2 (save d n c) m g.
Proof.
  intros Hn (raw & Ur & d1 & d2 & name & E1 & E2 & E3). exists raw. split; [exact Ur|]. exists d1, d2, name. split; [exact E1|]. split; [exact E2|].
  unfold save. apply bytes_eqb_neq in Hn. rewrite Hn. exact E3.
Qed.
Lemma save_same d n c : save d n c n = Some c.
Proof. unfold save. rewrite bytes_eqb_refl. reflexivity. Qed.
Lemma save_other d n c m : m <> n -> save d n c m = d m.
Proof. intros H. unfold save. apply bytes_eqb_neq in H. rewrite H. reflexivity. Qed.
Lemma fn_neq j k : (j < k)%nat -> Z.of_nat k < two32 -> fn j <> fn k.
Proof. intros H Hk E. apply fname_inj in E; lia. Qed.
Lemma holds_saved raw g d n o : usable raw -> sio_filename n = n ->
  (forall d n, new_session comp d n (mkSess 0 raw b1 b2 g) = Ok (save d (sio_filename n) (o_data o))) ->
  d n = Some (o_data o) -> holds_items comp uncomp b1 b2 d n g.
Proof.
  intros Ur Hn H Hd. exists raw. split; [exact Ur|]. exists d, (save d n (o_data o)), n. split; [symmetry; exact Hn|]. split.
  - unfold sessions. rewrite H. cbn [bind append_sessions]. rewrite Hn. reflexivity.
  - rewrite save_same. exact Hd.
Qed.

Lemma session_flush s gs g raw w : session s gs g raw w -> Z.of_nat (length gs) < two32 ->
  session (sp_flush s) gs g raw w /\ sp_disk (sp_flush s) (fn (length gs)) = Some (o_data (wr_o w)) /\ sp_level (sp_flush s) = sp_level s.
Proof.
  intros [] L. unfold sp_flush. rewrite i_out0. split; [|split; [cbn [sp_disk]; apply save_same|reflexivity]].
  constructor; cbn [sp_disk sp_out sp_mgr sp_level sp_max sp_base sp_ext sp_file sp_count sp_last]; try assumption; try reflexivity.
  - intros k gk Hk. apply holds_other; [|apply i_closed0; exact Hk]. apply fn_neq; [|exact L]. apply nth_error_Some. congruence.
  - intros n Hn. rewrite save_other by (apply Hn; lia). apply i_others0. exact Hn.
Qed.

(** closing the current file *)
Lemma session_close s gs g raw w : session s gs g raw w -> Z.of_nat (length gs) < two32 -> group_ok g ->
  exists s', sp_close s = Ok (Done, s') /\ idle s' /\ sp_level s' = sp_level s /\ sp_base s' = base /\ sp_ext s' = extension /\ sp_max s' = max /\
    sp_count s' = Z.of_nat (length gs) /\ sp_last s' = Z.of_nat (length gs) /\ sp_file s' = fn (length gs) /\
    (forall k gk, nth_error (gs ++ [g]) k = Some gk -> holds_items comp uncomp b1 b2 (sp_disk s') (fn k) gk) /\
    (forall n, (forall k, (k <= length gs)%nat -> n <> fn k) -> sp_disk s' n = d0 n).
Proof.
  intros [] L Hg. destruct (group_file raw g i_raw0 Hg) as (w' & m & o & E1 & E2 & E3 & E4 & E5). rewrite i_w0 in E1. injection E1 as <-.
  unfold sp_close. rewrite i_out0, i_mgr0, E2. cbn [bind]. eexists. split; [reflexivity|]. cbn [sp_disk sp_out sp_mgr sp_level sp_max sp_base sp_ext sp_file sp_count sp_last].
  split; [split; [reflexivity|]; exists (mg_raw m); split; [exact E3|reflexivity]|]. do 7 (split; [assumption || reflexivity|]). split.
  - intros k gk Hk. destruct (Nat.lt_ge_cases k (length gs)) as [Lk|Lk].
    + rewrite nth_error_app1 in Hk by exact Lk. apply holds_other; [apply fn_neq; assumption|]. apply i_closed0. exact Hk.
    + rewrite nth_error_app2 in Hk by exact Lk. destruct (k - length gs)%nat as [|j] eqn:Ek; [|destruct j; discriminate Hk]. cbn in Hk. injection Hk as <-.
      replace k with (length gs) by lia. apply (holds_saved raw g _ _ o i_raw0 (sio_fname _ _) E5). apply save_same.
  - intros n Hn. rewrite save_other by (apply Hn; lia). apply i_others0. exact Hn.
Qed.

Lemma put_ok raw g w z i : usable raw -> write_items comp (start raw) b1 b2 g = Ok w -> group_ok (g ++ [(z, i)]) ->
  exists w', write_item comp (mkWr (wr_o w) (wr_mgr w) z) b1 b2 i = Ok w' /\ write_items comp (start raw) b1 b2 (g ++ [(z, i)]) = Ok w'.
Proof.
  intros Ur E Hg. destruct (group_file raw _ Ur Hg) as (w' & _ & _ & E1 & _). exists w'. split; [|exact E1].
  rewrite write_items_snoc, E in E1. cbn [bind] in E1. exact E1.
Qed.
Lemma snoc_inv {A} (a b : list A) x y : a ++ [x] = b ++ [y] -> a = b /\ x = y.
Proof. apply app_inj_tail. Qed.

Notation free := (free d0 base extension).

Lemma session_write s gs g raw w i rest : session s gs g raw w -> group_ok (concat gs ++ g ++ (sp_level s, i) :: rest) ->
  free (Zlen (concat gs ++ g ++ (sp_level s, i) :: rest)) ->
  exists s' gs' g' raw' w', split_write comp b1 b2 s i = Ok (Done, s') /\ session s' gs' g' raw' w' /\ sp_level s' = sp_level s /\
    concat gs' ++ g' = concat gs ++ g ++ [(sp_level s, i)].
Proof.
  intros HS Hall Hfree. assert (HN : Zlen (concat gs ++ g ++ (sp_level s, i) :: rest) < 2 ^ 27) by apply Hall.
  pose proof (i_len _ _ _ _ _ HS) as Hlen. assert (Hlen' : Z.of_nat (length gs) < 2 ^ 27 /\ Z.of_nat (length gs) + 1 <= Zlen (concat gs ++ g ++ (sp_level s, i) :: rest)).
  { rewrite !Zlen_app, Zlen_cons in *. pose proof (Zlen_nonneg rest). lia. }
  assert (Hg1 : group_ok (g ++ [(sp_level s, i)])).
  { apply (group_sub (concat gs) _ rest). rewrite <- app_assoc. exact Hall. }
  assert (Hg : group_ok g). { apply (group_sub [] g [(sp_level s, i)]). exact Hg1. }
  assert (Hx : group_ok [(sp_level s, i)]). { apply (group_sub g _ []). exact Hg1. }
  destruct (session_flush _ _ _ _ _ HS ltac:(unfold two32; lia)) as (HF & Hd & Hlv). unfold split_write.
  set (t0 := sp_flush s) in *. destruct HF as [J1 J2 J3 J4 J5 J6 J7 J8 J9 J10 J11 J12 J13 J14 J15].
  assert (Et : get_filename t0 = t0).
  { unfold get_filename. rewrite J4, J5, Z.eqb_refl, <- J4. rewrite J4, <- J5. destruct t0; cbn in *. congruence. }
  rewrite Et. unfold file_size. rewrite J6, Hd, J3.
  destruct (group_file raw g J7 Hg) as (w' & m & o & E1 & E2 & E3 & E4 & E5). rewrite J8 in E1. injection E1 as <-. rewrite E4.
  destruct (Z.ltb_spec max (size g)) as [Lm|Lm].
  - unfold next_file. assert (HF : session t0 gs g raw w) by (constructor; assumption).
    destruct (session_close _ _ _ _ _ HF ltac:(unfold two32; lia) Hg) as (s1 & F1 & (F2 & raw1 & F3 & F4) & F5 & F6 & F7 & F8 & F9 & F10 & F11 & F12 & F13).
    rewrite F1. cbn [bind]. unfold sp_open_file, get_filename. cbn [sp_disk sp_out sp_mgr sp_level sp_max sp_base sp_ext sp_file sp_count sp_last].
    rewrite F9, F10, F6, F7. assert (Eu : u32 (Z.of_nat (length gs) + 1) = Z.of_nat (S (length gs))) by (unfold u32, two32; rewrite Z.mod_small; lia).
    rewrite Eu. replace (Z.of_nat (S (length gs)) =? Z.of_nat (length gs)) with false by lia. fold (fn (S (length gs))). rewrite sio_fname.
    assert (Hno : sp_disk s1 (fn (S (length gs))) = None).
    { rewrite F13; [|intros k Hk E; apply fname_inj in E; [lia|unfold two32; lia|unfold two32; lia]].
      apply (Hfree (Z.of_nat (S (length gs)))); [lia|]. apply fname_number. unfold two32. lia. }
    rewrite Hno, F2. cbn [bind]. unfold sp_put. cbn [sp_disk sp_out sp_mgr sp_level sp_max sp_base sp_ext sp_file sp_count sp_last].
    rewrite F4, F5, Hlv. destruct (put_ok raw1 [] (start raw1) (sp_level s) i F3 eq_refl Hx) as (w1 & P1 & P2). cbn [start wr_o wr_mgr] in P1. rewrite P1. cbn [bind].
    eexists. exists (gs ++ [g]), [(sp_level s, i)], raw1, w1. split; [reflexivity|].
    split; [|cbn [sp_level]; split; [reflexivity|rewrite concat_app; cbn [concat]; rewrite app_nil_r, <- app_assoc; reflexivity]].
    assert (Hl : length (gs ++ [g]) = S (length gs)) by (rewrite app_length; cbn; lia).
    constructor; cbn [sp_disk sp_out sp_mgr sp_level sp_max sp_base sp_ext sp_file sp_count sp_last]; rewrite ?Hl; try assumption; try reflexivity.
    + intros k gk Hk. apply holds_other; [|apply F12; exact Hk]. apply fn_neq; [|unfold two32; lia]. rewrite <- Hl. apply nth_error_Some. congruence.
    + intros n Hn. rewrite save_other by (apply Hn; lia). apply F13. intros k Hk. apply Hn. lia.
    + intros k gk Hk. destruct (Nat.lt_ge_cases k (length gs)) as [Lk|Lk].
      * rewrite nth_error_app1 in Hk by exact Lk. exact (J13 k gk Hk).
      * rewrite nth_error_app2 in Hk by exact Lk. destruct (k - length gs)%nat as [|j] eqn:Ek; [|destruct j; discriminate Hk]. cbn in Hk. injection Hk as <-.
        split; [exact Lm|]. split; [exact (proj1 J14)|]. intros Hk. apply (proj2 J14). destruct gs; [cbn in *; lia|discriminate].
    + split; [|discriminate]. intros g' x E. change ([(sp_level s, i)]) with ([] ++ [(sp_level s, i)]) in E. apply snoc_inv in E. destruct E as [<- _]. congruence.
    + rewrite concat_app. cbn [concat]. rewrite app_nil_r, !Zlen_app in *. change (Zlen [(sp_level s, i)]) with 1. lia.
  - cbn [bind]. unfold sp_put. rewrite J9, J10, Hlv. destruct (put_ok raw g w (sp_level s) i J7 J8 Hg1) as (w1 & P1 & P2). rewrite P1. cbn [bind].
    eexists. exists gs, (g ++ [(sp_level s, i)]), raw, w1. split; [reflexivity|]. split; [|split; [reflexivity|reflexivity]].
    constructor; cbn [sp_disk sp_out sp_mgr sp_level sp_max sp_base sp_ext sp_file sp_count sp_last]; try assumption; try reflexivity.
    + split; [|intros _; destruct g; discriminate]. intros g' x E. apply snoc_inv in E. destruct E as [<- _]. intros _. exact Lm.
    + rewrite !Zlen_app in *. change (Zlen [(sp_level s, i)]) with 1. lia.
Qed.

Lemma session_run ops : forall s gs g raw w, Forall inner ops -> session s gs g raw w -> group_ok (concat gs ++ g ++ written (sp_level s) ops) ->
  free (Zlen (concat gs ++ g ++ written (sp_level s) ops)) ->
  exists s' gs' g' raw' w', sp_run comp b1 b2 s ops = Ok (repeat Done (length ops), s') /\ session s' gs' g' raw' w' /\
    concat gs' ++ g' = concat gs ++ g ++ written (sp_level s) ops.
Proof.
  induction ops as [|op ops IH]; intros s gs g raw w HI HS Hok Hfree.
  - exists s, gs, g, raw, w. split; [reflexivity|]. split; [exact HS|]. cbn [written]. rewrite app_nil_r. reflexivity.
  - inversion HI as [|? ? Hop HI']; subst. cbn [sp_run]. destruct op as [n|z|i| |]; try (destruct Hop; fail); cbn [written] in Hok, Hfree.
    + cbn [sp_step bind]. set (s1 := mkSp _ _ _ _ _ _ _ _ _ _).
      destruct (IH s1 gs g raw w HI') as (s' & gs' & g' & raw' & w' & E & HS' & Ec); [destruct HS; constructor; assumption|exact Hok|exact Hfree|].
      exists s', gs', g', raw', w'. rewrite E. cbn [bind]. split; [reflexivity|]. split; [exact HS'|exact Ec].
    + cbn [sp_step]. destruct (session_write s gs g raw w i _ HS Hok Hfree) as (s1 & gs1 & g1 & raw1 & w1 & E1 & HS1 & El & Ec1). rewrite E1. cbn [bind].
      destruct (IH s1 gs1 g1 raw1 w1 HI' HS1) as (s' & gs' & g' & raw' & w' & E & HS' & Ec).
      { rewrite app_assoc, Ec1, El, <- !app_assoc. exact Hok. } { rewrite app_assoc, Ec1, El, <- !app_assoc. exact Hfree. }
      exists s', gs', g', raw', w'. rewrite E. cbn [bind]. split; [reflexivity|]. split; [exact HS'|]. rewrite Ec, app_assoc, Ec1, El, <- !app_assoc. reflexivity.
    + cbn [sp_step bind]. assert (HN : Zlen (concat gs ++ g ++ written (sp_level s) ops) < 2 ^ 27) by apply Hok.
      pose proof (i_len _ _ _ _ _ HS) as Hlen. rewrite !Zlen_app in *. pose proof (Zlen_nonneg (written (sp_level s) ops)).
      destruct (session_flush _ _ _ _ _ HS ltac:(unfold two32; lia)) as (HF & _ & El).
      destruct (IH (sp_flush s) gs g raw w HI' HF) as (s' & gs' & g' & raw' & w' & E & HS' & Ec); [rewrite El; exact Hok|rewrite El, !Zlen_app; exact Hfree|].
      exists s', gs', g', raw', w'. rewrite E. cbn [bind]. split; [reflexivity|]. split; [exact HS'|]. rewrite Ec, El. reflexivity.
Qed.

Lemma sp_run_app l1 l2 : forall s, sp_run comp b1 b2 s (l1 ++ l2) =
  (do '(a1, s1) <- sp_run comp b1 b2 s l1; do '(a2, s2) <- sp_run comp b1 b2 s1 l2; Ok (a1 ++ a2, s2)).
Proof.
  induction l1 as [|o l1 IH]; intros s; cbn [app sp_run bind].
  - destruct (sp_run comp b1 b2 s l2) as [[]| |]; reflexivity.
  - destruct (sp_step comp b1 b2 s o) as [[a s1]|e|k]; cbn [bind]; [|reflexivity|reflexivity]. rewrite IH.
    destruct (sp_run comp b1 b2 s1 l1) as [[a1 s2]|e|k]; cbn [bind]; [|reflexivity|reflexivity].
    destruct (sp_run comp b1 b2 s2 l2) as [[a2 s3]|e|k]; reflexivity.
Qed.

Lemma nth_names m j n : nth_error (map fn (seq 0 m)) j = Some n -> n = fn j /\ (j < m)%nat.
Proof.
  intros H. assert (L : (j < m)%nat). { rewrite <- (seq_length m 0), <- (map_length fn). apply nth_error_Some. congruence. }
  split; [|exact L]. rewrite (map_nth_error fn j (seq 0 m) (d := j)) in H; [congruence|]. rewrite nth_error_nth' with (d := 0%nat) by (rewrite seq_length; exact L).
  rewrite seq_nth by exact L. reflexivity.
Qed.
Lemma Forall2_nth {A B} (P : A -> B -> Prop) : forall l l', length l = length l' ->
  (forall k a b, nth_error l k = Some a -> nth_error l' k = Some b -> P a b) -> Forall2 P l l'.
Proof.
  induction l as [|a l IH]; intros [|b l'] L H; try discriminate L; constructor.
  - exact (H 0%nat a b eq_refl eq_refl).
  - apply IH; [injection L as L; exact L|]. intros k x y Hx Hy. exact (H (S k) x y Hx Hy).
Qed.

Lemma split_session s ops : idle s -> sp_disk s = d0 -> sp_last s <> 0 -> sp_max s = max -> base <> [] -> Zlen base + 6 < two32 -> Forall inner ops ->
  group_ok (written (sp_level s) ops) -> free (Zlen (written (sp_level s) ops)) ->
  exists s' names groups, sp_run comp b1 b2 s (SOpen (base ++ extension) :: ops ++ [SClose]) = Ok (repeat Done (length ops + 2), s') /\
    splits comp uncomp b1 b2 base extension max (written (sp_level s) ops) d0 (sp_disk s') names groups /\
    idle s' /\ sp_max s' = max /\ sp_last s' = Zlen groups - 1.
Proof.
  intros (Ho & raw & Ur & Em) Hd Hlast Hmax Hb Hl HI Hok Hfree. cbn [sp_run sp_step]. unfold split_open.
  change extension with (Init.Byte.x2e :: Init.Byte.x73 :: str "lcio") at 1. rewrite base_filename_ok by (assumption || discriminate).
  change (Init.Byte.x2e :: Init.Byte.x73 :: str "lcio") with extension.
  unfold get_filename, sp_open_file. cbn [sp_disk sp_out sp_mgr sp_level sp_max sp_base sp_ext sp_file sp_count sp_last].
  replace (0 =? sp_last s) with false by lia. change (base ++ str "." ++ counting 0 ++ extension) with (fn 0%nat). rewrite sio_fname, Hd.
  assert (H0 : d0 (fn 0%nat) = None).
  { apply (Hfree 0); [pose proof (Zlen_nonneg (written (sp_level s) ops)); lia|]. apply (fname_number base extension 0). unfold two32. lia. }
  rewrite H0, Ho. cbn [bind]. set (s1 := mkSp _ _ _ _ _ _ _ _ _ _).
  assert (HS : session s1 [] [] raw (start raw)).
  { constructor; cbn [s1 sp_disk sp_out sp_mgr sp_level sp_max sp_base sp_ext sp_file sp_count sp_last length]; try reflexivity; try assumption.
    - intros [|k] g H; discriminate H.
    - intros n Hn. apply save_other. apply Hn. lia.
    - intros [|k] g H; discriminate H.
    - split; [intros [|? ?] x E; discriminate E|congruence]. }
  destruct (session_run ops s1 [] [] raw (start raw) HI HS) as (s2 & gs & g & raw' & w' & E2 & HS2 & Ec); [exact Hok|exact Hfree|].
  rewrite sp_run_app, E2. cbn [bind]. cbn [concat app] in Ec. change (sp_level s1) with (sp_level s) in Ec.
  assert (HN : Z.of_nat (length gs) < 2 ^ 27).
  { pose proof (i_len _ _ _ _ _ HS2) as H. rewrite Ec in H. destruct Hok as (_ & _ & H2 & _). lia. }
  assert (Hg : group_ok g). { apply (group_sub (concat gs) g []). rewrite app_nil_r, Ec. exact Hok. }
  destruct (session_close _ _ _ _ _ HS2 ltac:(unfold two32; lia) Hg) as (s3 & F1 & F2 & F3 & F4 & F5 & F6 & F7 & F8 & F9 & F10 & F11).
  cbn [sp_run sp_step]. rewrite F1. cbn [bind].
  exists s3, (map fn (seq 0 (length (gs ++ [g])))), (gs ++ [g]). split.
  { f_equal. f_equal. rewrite Nat.add_comm, <- repeat_cons. cbn [plus repeat]. reflexivity. }
  assert (Hlen : length (gs ++ [g]) = S (length gs)) by (rewrite app_length; cbn; lia).
  split; [|split; [exact F2|split; [exact F6|rewrite F8; unfold Zlen; rewrite Hlen; lia]]].
  split; [rewrite concat_app; cbn [concat]; rewrite app_nil_r; exact Ec|]. split; [destruct gs; discriminate|]. split.
  { intros k n Hk. apply nth_names in Hk. destruct Hk as [-> Hk]. apply fname_number. unfold two32. lia. }
  split.
  { apply NoDup_nth_error. intros i j Hi Hj. rewrite map_length, seq_length in Hi.
    destruct (nth_error (map fn (seq 0 (length (gs ++ [g])))) i) as [n|] eqn:Ei; [|apply nth_error_None in Ei; rewrite map_length, seq_length in Ei; lia].
    symmetry in Hj. apply nth_names in Ei, Hj. destruct Ei as [-> Li], Hj as [Ef Lj]. apply fname_inj in Ef; [exact Ef|unfold two32; lia|unfold two32; lia]. }
  split.
  { apply Forall2_nth; [rewrite map_length, seq_length; reflexivity|]. intros k n gk Hn Hk. apply nth_names in Hn. destruct Hn as [-> _]. apply F10. exact Hk. }
  split.
  { intros k gk Hk. destruct (Nat.lt_ge_cases k (length gs)) as [Lk|Lk].
    - rewrite nth_error_app1 in Hk by exact Lk. destruct (i_filled _ _ _ _ _ HS2 k gk Hk) as (A & B & C). split; [intros _; exact A|]. split; assumption.
    - rewrite nth_error_app2 in Hk by exact Lk. destruct (k - length gs)%nat as [|j] eqn:Ek; [|destruct j; discriminate Hk]. cbn in Hk. injection Hk as <-.
      destruct (i_current _ _ _ _ _ HS2) as [A B]. split; [rewrite Hlen; lia|]. split; [exact A|]. intros K. apply B. destruct gs; [cbn in *; lia|discriminate]. }
  intros n Hn. apply F11. intros k Hk E. apply Hn. rewrite E. apply in_map. apply in_seq. rewrite Hlen. lia.
Qed.

End Session.

(** ** Reading the files *)

Section Read.
Context (comp : Z -> bytes -> bytes) (uncomp : bytes -> option bytes) (b1 b2 : buffer).
Context (HC : codec_ok comp uncomp) (U1 : usable b1) (U2 : usable b2).

Lemma labelled_items names : forall groups, length names = length groups -> map snd (labelled names groups) = map snd (concat groups).
Proof.
  induction names as [|n names IH]; intros [|g groups] L; try discriminate L; [reflexivity|]. unfold labelled. cbn [combine flat_map fst snd concat]. rewrite !map_app. f_equal.
  - rewrite map_map. reflexivity.
  - apply IH. injection L as L. exact L.
Qed.
Lemma Forall2_len {A B} (P : A -> B -> Prop) l l' : Forall2 P l l' -> length l = length l'.
Proof. induction 1; cbn; congruence. Qed.
Lemma group_files d' names groups : Forall2 (holds_items comp uncomp b1 b2 d') names groups -> Forall (group_ok comp b1 b2) groups -> Forall (fun g => g <> []) groups ->
  exists files, Forall (wf_ok comp uncomp d') files /\ map wf_name files = names /\ flat_map wf_items files = labelled names groups /\ length files = length groups.
Proof.
  induction 1 as [|n g names groups (raw & Ur & Hm) F IH]; intros G N.
  - exists []. repeat split. constructor.
  - inversion G as [|? ? G1 G2]; subst. inversion N as [|? ? N1 N2]; subst. destruct (IH G2 N2) as (files & A & B & C & D).
    exists (mkWF n (mkSess 0 raw b1 b2 g) [] :: files). split; [constructor; [|exact A]|].
    + split; [|exact Hm]. destruct G1 as (K1 & K2 & K3 & K4). cbn [wf_sess wf_first wf_more]. split; [|split; [exact N1|]].
      * constructor; [|constructor]. split; [exact Ur|]. split; [exact U1|]. split; [exact U2|]. split; [exact K1|exact K2].
      * change (Zlen g + 0 < 2 ^ 27 /\ size_of comp b1 b2 g + 0 < 2 ^ 61). lia.
    + cbn [map wf_name]. split; [rewrite B; reflexivity|]. split; [|cbn; lia]. cbn [flat_map labelled combine fst snd]. unfold labelled. cbn [combine flat_map fst snd]. fold (labelled names groups).
      rewrite C. f_equal. unfold wf_items, items_of. cbn [wf_sess wf_first wf_more flat_map ss_items wf_name]. rewrite app_nil_r, map_map. reflexivity.
Qed.
Lemma groups_ok groups : group_ok comp b1 b2 (concat groups) -> Forall (group_ok comp b1 b2) groups.
Proof.
  intros H. apply Forall_forall. intros g Hg. apply in_split in Hg. destruct Hg as (l1 & l2 & ->). rewrite concat_app in H. cbn [concat] in H.
  exact (group_sub comp b1 b2 _ _ _ H).
Qed.

Lemma read_split srt ignore_null base max its d d' names groups ops tags raw cbuf mraw next :
  group_ok comp b1 b2 its -> its <> [] -> 0 <= max ->
  splits comp uncomp b1 b2 base extension max its d d' names groups ->
  Forall (fun zi => readable ignore_null tags (snd zi)) its -> 0 < next ->
  map snd (labelled names groups) = map snd its /\
  trace srt tags at_null next (labelled names groups) ops
    (read_all uncomp srt ignore_null d' names ops (new_reader false false tags raw cbuf mraw next)).
Proof.
  intros Hg Hne Hmax (S1 & S2 & S3 & S4 & S5 & S6 & S7) HR Hp. pose proof (Forall2_len _ _ _ S5) as L.
  assert (EL : map snd (labelled names groups) = map snd its) by (rewrite labelled_items by exact L; rewrite S1; reflexivity).
  split; [exact EL|].
  assert (HN : Forall (fun g => g <> []) groups).
  { apply Forall_forall. intros g Hi. apply In_nth_error in Hi. destruct Hi as [k Hk]. destruct (S6 k g Hk) as (A & _ & B). destruct k as [|k]; [|apply B; lia].
    destruct groups as [|g0 groups]; [discriminate Hk|]. cbn in Hk. injection Hk as ->. destruct groups as [|g1 groups].
    - cbn [concat] in S1. rewrite app_nil_r in S1. congruence.
    - intros ->. cbn in A. specialize (A ltac:(lia)). unfold size_of in A. cbn in A. lia. }
  destruct (group_files d' names groups S5) as (files & A & B & C & D); [apply groups_ok; rewrite S1; exact Hg|exact HN|].
  rewrite <- C, <- B. apply (read_sequential comp uncomp srt ignore_null); try assumption.
  - intros ->. destruct groups; [congruence|discriminate D].
  - intros H. discriminate H.
  - rewrite C. apply Forall_forall. intros x Hx. assert (Hx' : In (snd x) (map snd its)) by (rewrite <- EL; apply in_map; exact Hx).
    apply in_map_iff in Hx'. destruct Hx' as (zi & Ez & Hz). rewrite <- Ez. rewrite Forall_forall in HR. exact (HR zi Hz).
Qed.

(** ** Other extensions *)

Context (base : bytes) (c : byte).
Definition oext : bytes := Init.Byte.x2e :: c :: str "lcio".
Lemma sio_other a : c <> Init.Byte.x73 -> sio_filename (a ++ oext) = (a ++ oext) ++ extension.
Proof.
  intros Hc. unfold sio_filename. rewrite app_length. change (length oext) with (length extension). rewrite Nat.add_sub, skipn_app_exact by reflexivity.
  destruct (bytes_eqb oext extension) eqn:E; [|reflexivity]. apply bytes_eqb_eq in E. unfold oext, extension in E. cbn in E. injection E as E. congruence.
Qed.
Definition one_name : bytes := base ++ str "." ++ str "000" ++ oext.
Record single (d0 : disk) (s : split) (g : list (Z * witem)) (raw : buffer) (w : writer) : Prop := mkSingle {
  o_cnt : sp_count s = 0; o_last : sp_last s = 0; o_file : sp_file s = one_name; o_max : -1 <= sp_max s; o_raw : usable raw;
  o_w : write_items comp (start raw) b1 b2 g = Ok w; o_out : sp_out s = Some (one_name ++ extension, wr_o w); o_mgr : sp_mgr s = wr_mgr w;
  o_disk : forall n, n <> one_name ++ extension -> sp_disk s n = d0 n; o_none : d0 one_name = None }.
Lemma one_neq : one_name <> one_name ++ extension.
Proof. intros E. apply (f_equal (@length byte)) in E. rewrite app_length in E. change (length extension) with 6%nat in E. lia. Qed.
Lemma single_flush d0 s g raw w : single d0 s g raw w -> single d0 (sp_flush s) g raw w /\ sp_level (sp_flush s) = sp_level s.
Proof.
  intros []. unfold sp_flush. rewrite o_out0. split; [|reflexivity].
  constructor; cbn [sp_disk sp_out sp_mgr sp_level sp_max sp_base sp_ext sp_file sp_count sp_last]; try assumption; try reflexivity.
  intros n Hn. rewrite save_other by exact Hn. apply o_disk0. exact Hn.
Qed.
Lemma single_run d0 ops : forall s g raw w, Forall inner ops -> single d0 s g raw w -> group_ok comp b1 b2 (g ++ written (sp_level s) ops) ->
  exists s' w', sp_run comp b1 b2 s ops = Ok (repeat Done (length ops), s') /\ single d0 s' (g ++ written (sp_level s) ops) raw w'.
Proof.
  induction ops as [|op ops IH]; intros s g raw w HI HS Hok.
  - exists s, w. split; [reflexivity|]. cbn [written]. rewrite app_nil_r. exact HS.
  - inversion HI as [|? ? Hop HI']; subst. cbn [sp_run]. destruct op as [n|z|i| |]; try (destruct Hop; fail); cbn [written] in *.
    + cbn [sp_step bind]. set (s1 := mkSp _ _ _ _ _ _ _ _ _ _).
      destruct (IH s1 g raw w HI') as (s' & w' & E & HS'); [destruct HS; constructor; assumption|exact Hok|].
      exists s', w'. rewrite E. split; [reflexivity|exact HS'].
    + cbn [sp_step]. unfold split_write. destruct (single_flush _ _ _ _ _ HS) as [HF El]. set (t := sp_flush s) in *.
      assert (Et : get_filename t = t).
      { destruct HF. unfold get_filename. rewrite o_cnt0, o_last0. cbn [Z.eqb]. destruct t; cbn in *. congruence. }
      rewrite Et. destruct HF. unfold file_size. rewrite o_file0, o_disk0 by exact one_neq. rewrite o_none0. replace (sp_max t <? -1) with false by lia. cbn [bind].
      unfold sp_put. rewrite o_out0, o_mgr0, El.
      destruct (put_ok comp uncomp b1 b2 HC U1 U2 raw g w (sp_level s) i o_raw0 o_w0) as (w1 & P1 & P2).
      { apply (group_sub comp b1 b2 [] _ (written (sp_level s) ops)). rewrite <- app_assoc. exact Hok. }
      rewrite P1. cbn [bind]. set (s1 := mkSp _ _ _ _ _ _ _ _ _ _).
      destruct (IH s1 (g ++ [(sp_level s, i)]) raw w1 HI') as (s' & w' & E & HS').
      { constructor; cbn [s1 sp_disk sp_out sp_mgr sp_level sp_max sp_base sp_ext sp_file sp_count sp_last]; try assumption; reflexivity. }
      { rewrite <- app_assoc. exact Hok. }
      exists s', w'. rewrite E. split; [reflexivity|]. rewrite <- app_assoc in HS'. exact HS'.
    + cbn [sp_step bind]. destruct (single_flush _ _ _ _ _ HS) as [HF El].
      destruct (IH (sp_flush s) g raw w HI' HF) as (s' & w' & E & HS'); [rewrite El; exact Hok|].
      exists s', w'. rewrite E. rewrite El in HS'. split; [reflexivity|exact HS'].
Qed.
Lemma other_session s ops : c <> Init.Byte.x73 -> c <> Init.Byte.x2e -> idle s -> sp_last s <> 0 -> -1 <= sp_max s -> base <> [] -> Zlen base + 6 < two32 -> Forall inner ops ->
  group_ok comp b1 b2 (written (sp_level s) ops) -> sp_disk s one_name = None -> sp_disk s (one_name ++ extension) = None ->
  exists s', sp_run comp b1 b2 s (SOpen (base ++ oext) :: ops ++ [SClose]) = Ok (repeat Done (length ops + 2), s') /\
    holds_items comp uncomp b1 b2 (sp_disk s') (one_name ++ extension) (written (sp_level s) ops) /\
    forall n, n <> one_name ++ extension -> sp_disk s' n = sp_disk s n.
Proof.
  intros Hs Hdot (Ho & raw & Ur & Em) Hlast Hmax Hb Hl HI Hok N1 N2. cbn [sp_run sp_step]. unfold split_open.
  unfold oext at 1. rewrite base_filename_ok by assumption. fold oext.
  unfold get_filename, sp_open_file. cbn [sp_disk sp_out sp_mgr sp_level sp_max sp_base sp_ext sp_file sp_count sp_last].
  replace (0 =? sp_last s) with false by lia. change (base ++ str "." ++ counting 0 ++ oext) with one_name.
  assert (Es : sio_filename one_name = one_name ++ extension) by (unfold one_name; rewrite !app_assoc; apply sio_other; exact Hs).
  rewrite Es, N2, Ho. cbn [bind]. set (s1 := mkSp _ _ _ _ _ _ _ _ _ _).
  assert (HS : single (sp_disk s) s1 [] raw (start raw)).
  { constructor; cbn [s1 sp_disk sp_out sp_mgr sp_level sp_max sp_base sp_ext sp_file sp_count sp_last]; try reflexivity; try assumption.
    intros n Hn. apply save_other. exact Hn. }
  destruct (single_run _ ops s1 [] raw (start raw) HI HS Hok) as (s2 & w2 & E2 & []). cbn [app] in o_w0. change (sp_level s1) with (sp_level s) in o_w0.
  rewrite sp_run_app, E2. cbn [bind].
  destruct (group_file comp uncomp b1 b2 HC U1 U2 raw _ o_raw0 Hok) as (w' & m & o & E1 & E3 & E4 & E5 & E6). rewrite o_w0 in E1. injection E1 as <-.
  cbn [sp_run sp_step]. unfold sp_close. rewrite o_out0, o_mgr0, E3. cbn [bind]. eexists. split.
  { f_equal. f_equal. rewrite Nat.add_comm, <- repeat_cons. cbn [plus repeat]. reflexivity. }
  cbn [sp_disk]. split.
  - apply (holds_saved comp uncomp b1 b2 raw _ _ _ o o_raw0); [|exact E6|apply save_same]. apply sio_filename_ext.
  - intros n Hn. rewrite save_other by exact Hn. apply o_disk0. exact Hn.
Qed.

End Read.

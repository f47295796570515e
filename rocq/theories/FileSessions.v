(** * Files written in several sessions *)

From Coq Require Import Sorted.
From Verif Require Import Bytes StrMap SioModel SioProofs SioRecord SioRead SioFrame SioSpec Ieee ObjModel ObjSpec ObjProofs ObjCalls CollSpec
  CollProofs ListFacts EventModel EventSpec EventProofs EventFacts IndexModel IndexSpec IndexProofs FileModel FileFrame FileRead IndexFile IndexFacts FileSpec FileWrite.

(** ** The index *)

Lemma entries_writable oneRun lg rmin base l :
  (forall e, In e l -> int32 (fst (fst e) - rmin) /\ int64 (snd e - base)) -> exists w, write_entries oneRun lg rmin base l = Ok w.
Proof.
  induction l as [|e l IH]; intros H; [eexists; reflexivity|]. destruct IH as [w Ew]; [intros x Hx; apply H; right; exact Hx|].
  destruct (H e (or_introl eq_refl)) as [H1 H2]. destruct e as [[run evt] p]. cbn [write_entries]. unfold write_entry. cbn [fst snd] in *. rewrite (long_of_ok _ H2).
  destruct oneRun; cbn [bind]; [|rewrite (int_of_ok _ H1); cbn [bind]]; rewrite Ew; eexists; reflexivity.
Qed.
Lemma index_writable m : remap_ok m -> rm_map m <> [] ->
  (forall a b, In a (rm_map m) -> In b (rm_map m) -> int32 (fst (fst a) - fst (fst b))) -> (forall e, In e (rm_map m) -> 0 <= snd e < 2 ^ 62) ->
  exists w, write_index m = Ok w.
Proof.
  intros Hm Hne Hr Hp. unfold write_index.
  assert (Hmin : exists e, In e (rm_map m) /\ rm_min m = fst e).
  { unfold rm_min. destruct (rm_map m) as [|e l]; [contradiction|]. exists e. split; [left; reflexivity|reflexivity]. }
  assert (Hmax : exists e, In e (rm_map m) /\ rm_max m = fst e).
  { unfold rm_max. destruct (rm_map m) as [|e l]; [contradiction|]. exists (last (e :: l) (-1, -1, 0)). split; [apply last_in; discriminate|]. reflexivity. }
  destruct Hmin as (e1 & I1 & ->), Hmax as (e2 & I2 & ->). rewrite !(rm_pos_in _ _ Hm) by assumption.
  rewrite long_of_ok by (pose proof (Hp _ I1); pose proof (Hp _ I2); unfold int64; relia). cbn [bind].
  destruct (entries_writable (fst (fst e1) =? fst (fst e2)) (two31 - 1 <? snd e2 - snd e1) (fst (fst e1)) (snd e1) (rm_map m)) as [w Ew].
  { intros e He. split; [apply Hr; assumption|]. pose proof (Hp _ I1). pose proof (Hp _ He). unfold int64. relia. }
  rewrite Ew. eexists. reflexivity.
Qed.

(** every entry of the index comes from one that was added *)
Lemma insert_from k pos m e : In e (fst (rm_insert k pos m)) -> (fst e = k /\ snd e = pos) \/ In e m \/ (snd e = pos /\ exists x, In x m /\ fst x = fst e).
Proof.
  induction m as [|[k' p'] m IH]; cbn [rm_insert].
  - intros [<-|[]]. left. split; reflexivity.
  - destruct (re_lt k k'); [intros [<-|H]; [left; split; reflexivity|right; left; exact H]|]. destruct (re_lt k' k).
    + destruct (rm_insert k pos m) as [r b]. cbn [fst] in *. intros [<-|H]; [right; left; left; reflexivity|].
      destruct (IH H) as [?|[?|(? & x & ? & ?)]]; [left; assumption|right; left; right; assumption|].
      right. right. split; [assumption|]. exists x. split; [right; assumption|assumption].
    + cbn [fst]. intros [<-|H]; [|right; left; right; exact H]. right. right. split; [reflexivity|]. exists (k', p'). split; [left; reflexivity|reflexivity].
Qed.
Lemma insert_len k pos m : (length (fst (rm_insert k pos m)) <= S (length m))%nat.
Proof.
  induction m as [|[k' p'] m IH]; cbn [rm_insert]; [cbn; lia|]. destruct (re_lt k k'); [cbn; lia|]. destruct (re_lt k' k); [|cbn; lia].
  destruct (rm_insert k pos m). cbn [fst length] in *. lia.
Qed.
Lemma add_map m k p : rm_map (rm_add m k p) = fst (rm_insert (re_of64 (re_to64 k)) p (rm_map m)).
Proof. unfold rm_add. destruct (rm_insert _ p (rm_map m)) as [r [|]]; [destruct (_ <? _)|]; reflexivity. Qed.
Lemma fold_len l : forall m, (length (rm_map (fold_left (fun m e => rm_add m (fst e) (snd e)) l m)) <= length l + length (rm_map m))%nat.
Proof.
  induction l as [|e l IH]; intros m; cbn [fold_left length]; [lia|]. etransitivity; [apply IH|]. rewrite add_map.
  pose proof (insert_len (re_of64 (re_to64 (fst e))) (snd e) (rm_map m)). lia.
Qed.
Lemma index_len l : Zlen (rm_map (index_of l)) <= Zlen l.
Proof. pose proof (fold_len l no_remap) as H. cbn [no_remap rm_map length] in H. unfold index_of, Zlen. lia. Qed.
Lemma index_nonempty e l : Forall entry_ok (e :: l) -> rm_map (index_of (e :: l)) <> [].
Proof.
  intros F H. destruct (proj2 (index_of_mem (e :: l) (fst e) F)) as (x & Hx & _); [exists e; split; [left; reflexivity|left; reflexivity]|].
  rewrite H in Hx. exact Hx.
Qed.

Lemma index_run l e : Forall entry_ok l -> In e (rm_map (index_of l)) -> exists x, In x l /\ fst (fst x) = fst (fst e) /\ same_key (fst x) (fst e).
Proof.
  intros F He. destruct (proj1 (index_of_mem l (fst e) F)) as (x & Hx & Hs); [exists e; split; [exact He|left; reflexivity]|].
  exists x. split; [exact Hx|]. split; [|exact Hs]. destruct Hs as [->|(_ & _ & H)]; [reflexivity|exact H].
Qed.
Lemma index_positions l (P : Z -> Prop) : (forall e, In e l -> P (snd e)) -> forall e, In e (rm_map (index_of l)) -> P (snd e).
Proof.
  intros H. unfold index_of. assert (G : forall m, (forall e, In e (rm_map m) -> P (snd e)) -> forall e, In e (rm_map (fold_left (fun m e => rm_add m (fst e) (snd e)) l m)) -> P (snd e)).
  { induction l as [|x l IH]; intros m Hm; cbn [fold_left]; [exact Hm|]. apply IH; [intros e He; apply H; right; exact He|].
    intros e. rewrite add_map. intros He. destruct (insert_from _ _ _ _ He) as [[_ ->]|[Hi|[-> _]]].
    - apply H. left. reflexivity.
    - apply Hm. exact Hi.
    - apply H. left. reflexivity. }
  apply G. intros e [].
Qed.

(** ** The index does not depend on where the items start *)

Definition shift (z : Z) (l : list (runevt * Z)) : list (runevt * Z) := map (fun e : runevt * Z => (fst e, snd e + z)) l.

Lemma insert_shift z k pos m : rm_insert k (pos + z) (shift z m) = (shift z (fst (rm_insert k pos m)), snd (rm_insert k pos m)).
Proof.
  induction m as [|[k' p'] m IH]; [reflexivity|]. cbn [shift map rm_insert fst snd]. fold (shift z m).
  destruct (re_lt k k'); [reflexivity|]. destruct (re_lt k' k); [|reflexivity]. rewrite IH. destruct (rm_insert k pos m). reflexivity.
Qed.
Lemma fold_shift z l : forall m,
  rm_map (fold_left (fun m e => rm_add m (fst e) (snd e)) (shift z l) (mkREM (shift z (rm_map m)) (rm_nrun m) (rm_nevt m)))
  = shift z (rm_map (fold_left (fun m e => rm_add m (fst e) (snd e)) l m)).
Proof.
  induction l as [|e l IH]; intros m; [reflexivity|]. cbn [shift map fold_left fst snd]. fold (shift z l). rewrite <- IH. f_equal. f_equal.
  unfold rm_add. cbn [rm_map rm_nrun rm_nevt]. rewrite insert_shift. destruct (rm_insert _ (snd e) (rm_map m)) as [r [|]]; cbn [fst snd]; [destruct (_ <? _)|]; reflexivity.
Qed.
Lemma index_shift z l : rm_map (index_of (shift z l)) = shift z (rm_map (index_of l)).
Proof. exact (fold_shift z l no_remap). Qed.
Lemma shift_in z e l : In e (shift z l) -> In (fst e, snd e - z) l.
Proof. intros H. apply in_map_iff in H. destruct H as ([k p] & <- & Hi). cbn [fst snd]. replace (p + z - z) with p by lia. exact Hi. Qed.
Lemma covers_shift z l : covers l -> covers (shift z l).
Proof.
  destruct l as [|f l]; [exact (fun H => H)|]. unfold covers. cbn [shift map]. fold (shift z l).
  replace (last ((fst f, snd f + z) :: shift z l) (fst f, snd f + z)) with (fst (last (f :: l) f), snd (last (f :: l) f) + z).
  2:{ change ((fst f, snd f + z) :: shift z l) with (shift z (f :: l)). generalize (f :: l). intros l0. induction l0 as [|x l0 IH]; [reflexivity|].
      destruct l0; [reflexivity|exact IH]. }
  intros (H1 & H2 & H3 & H4). cbn [fst snd].
  assert (G : forall e, In e ((fst f, snd f + z) :: shift z l) -> In (fst e, snd e - z) (f :: l)) by (intros e He; apply (shift_in z e (f :: l)); exact He).
  split; [|split; [|split]].
  - intros Q e He. apply (H1 Q (fst e, snd e - z)). apply G. exact He.
  - intros Q e He. apply (H2 Q (fst e, snd e - z)). apply G. exact He.
  - intros Q e He. specialize (H3 ltac:(lia) (fst e, snd e - z) (G e He)). cbn [snd] in H3. replace (snd e - (snd f + z)) with (snd e - z - snd f) by lia. exact H3.
  - intros e He. specialize (H4 (fst e, snd e - z) (G e He)). cbn [snd] in H4. replace (snd e - (snd f + z)) with (snd e - z - snd f) by lia. exact H4.
Qed.

Section Codec.
Context (comp : Z -> bytes -> bytes) (uncomp : bytes -> option bytes).

Lemma placed_shift b1 b2 its : forall pos z, placed comp b1 b2 (pos + z) its = shift z (placed comp b1 b2 pos its).
Proof.
  induction its as [|zi its IH]; intros pos z; [reflexivity|]. cbn [placed shift map fst snd]. fold (shift z (placed comp b1 b2 (pos + Zlen (item_text comp b1 b2 zi)) its)).
  rewrite <- IH. f_equal. f_equal. lia.
Qed.
Lemma placed_keys b1 b2 its : forall pos, map fst (placed comp b1 b2 pos its) = map (fun zi => item_key (snd zi)) its.
Proof. induction its as [|zi its IH]; intros pos; cbn; [|f_equal]; auto. Qed.
Lemma placed_len b1 b2 its : forall pos, Zlen (placed comp b1 b2 pos its) = Zlen its.
Proof. induction its as [|zi its IH]; intros pos; cbn [placed]; [reflexivity|]. rewrite !Zlen_cons, IH. reflexivity. Qed.
Lemma placed_range b1 b2 its : forall pos e, In e (placed comp b1 b2 pos its) ->
  pos <= snd e <= pos + Zlen (flat_map (item_text comp b1 b2) its).
Proof.
  induction its as [|zi its IH]; intros pos e; [intros []|]. cbn [placed flat_map]. rewrite Zlen_app. intros [<-|H].
  - cbn [snd]. pose proof (Zlen_nonneg (item_text comp b1 b2 zi)). pose proof (Zlen_nonneg (flat_map (item_text comp b1 b2) its)). lia.
  - apply IH in H. pose proof (Zlen_nonneg (item_text comp b1 b2 zi)). lia.
Qed.
Lemma item_key_ok zi : item_ok zi -> key_ok (item_key (snd zi)).
Proof.
  destruct zi as [z [r|h e only]]; unfold item_ok, item_key; cbn [snd].
  - intros [(H & _) _]. split; [exact H|]. unfold int32. cbn. lia.
  - intros [(H1 & H2 & _) _]. split; assumption.
Qed.
Lemma placed_ok b1 b2 its pos : Forall item_ok its -> 0 <= pos -> pos + Zlen (flat_map (item_text comp b1 b2) its) < 2 ^ 63 -> Forall entry_ok (placed comp b1 b2 pos its).
Proof.
  intros F H1 H2. rewrite Forall_forall. intros e He. split.
  - assert (Hk : In (fst e) (map fst (placed comp b1 b2 pos its))) by (apply in_map; exact He).
    rewrite placed_keys in Hk. apply in_map_iff in Hk. destruct Hk as (zi & <- & Hi). rewrite Forall_forall in F. apply item_key_ok. apply F. exact Hi.
  - apply placed_range in He. unfold int64. lia.
Qed.

Lemma text_concat b1 b2 its lr : Forall2 (fun zi recs => item_text comp b1 b2 zi = ftext recs) its lr ->
  flat_map (item_text comp b1 b2) its = ftext (concat lr).
Proof. induction 1 as [|zi recs its lr H _ IH]; [reflexivity|]. cbn [flat_map concat]. rewrite ftext_app, H, IH. reflexivity. Qed.

(** ** One session *)

Lemma session_step g level base tail s :
  codec_ok comp uncomp -> sess_ok s -> ss_items s <> [] -> mg_map g = no_remap -> mgr_ready g (Zlen base) -> Zlen tail <= access_size ->
  Zlen (ss_items s) < 2 ^ 27 -> mgr_count g + Zlen (ss_items s) < 2 ^ 31 -> Zlen base + Zlen (sess_text comp s) < 2 ^ 62 ->
  let M := rm_map (index_of (placed comp (ss_b1 s) (ss_b2 s) (Zlen base) (ss_items s))) in
  let P := Zlen base + Zlen (sess_text comp s) in
  exists lr ss ix ra fra a f,
    (exists w' g' o', write_items comp (mkWr (mkO (base ++ tail) (Zlen base)) g level) (ss_b1 s) (ss_b2 s) (ss_items s) = Ok w' /\
      write_access (wr_mgr w') (wr_o w') = Ok (g', o') /\ usable_buf (mg_raw g')) /\
    run_writer comp (mkWr (mkO (base ++ tail) (Zlen base)) g level) s = Ok (base ++ sess_text comp s ++ f_bytes ix ++ f_bytes ra ++ f_bytes fra) /\
    sess_text comp s = ftext (concat lr) /\
    Forall2 (encoded (ss_b1 s) (ss_b2 s)) (map snd (ss_items s)) ss /\ Forall2 (item_recs uncomp) lr ss /\ Forall f_ok (concat lr) /\
    Forall2 (fun zi recs => item_text comp (ss_b1 s) (ss_b2 s) zi = ftext recs) (ss_items s) lr /\
    plain ix /\ f_name ix = index_record /\ f_size ix <= 200 + 16 * Zlen (ss_items s) /\ (sess_covers comp s -> is_index ix M) /\
    is_access ra a /\ is_access fra f /\
    ra_index a = P /\ ra_prev a = last_pos g /\ ra_first a = P + f_size ix /\ ra_next f = ra_first a /\
    ra_good a /\ ra_good f /\ ra_next a = 0 /\ 0 <= ra_count a <= Zlen (ss_items s) /\ ra_count f = mgr_count g + ra_count a.
Proof.
  intros Hc (Hraw & Hb1 & Hb2 & Hok & Hrc) Hne Hg0 Hready Htail Hn Hcnt Hsize M P.
  destruct (write_items_spec comp uncomp base tail (ss_b1 s) (ss_b2 s) (ss_items s) Hc Hb1 Hb2 Hok (mkWr (mkO (base ++ tail) (Zlen base)) g level) [] (o_state_start _ _))
    as (w' & lr & ss & Ew & Henc & Hrecs & Hfok & Htxt & Ho & Hmg).
  cbn [wr_o wr_mgr o_pos] in Hmg. rewrite Hg0 in Hmg. fold (index_of (placed comp (ss_b1 s) (ss_b2 s) (Zlen base) (ss_items s))) in Hmg.
  pose proof (text_concat _ _ _ _ Htxt) as Htc. fold (sess_text comp s) in Htc.
  assert (He : Forall entry_ok (placed comp (ss_b1 s) (ss_b2 s) (Zlen base) (ss_items s))).
  { apply placed_ok; [exact Hok|apply Zlen_nonneg|]. fold (sess_text comp s). lia. }
  set (m := index_of (placed comp (ss_b1 s) (ss_b2 s) (Zlen base) (ss_items s))) in *.
  assert (Hm : remap_ok m) by (apply index_of_ok; exact He).
  assert (Hmn : rm_map m <> []).
  { unfold m in *. destruct (ss_items s) as [|zi its]; [contradiction|]. apply index_nonempty. exact He. }
  assert (Hml : Zlen (rm_map m) <= Zlen (ss_items s)) by (unfold m; rewrite <- (placed_len (ss_b1 s) (ss_b2 s) (ss_items s) (Zlen base)); apply index_len).
  destruct (index_writable m Hm Hmn) as [w Ewi].
  { intros x y Hx Hy. destruct (index_run _ _ He Hx) as (x' & Ix & Ex & _), (index_run _ _ He Hy) as (y' & Iy & Ey & _). rewrite <- Ex, <- Ey.
    apply Hrc; unfold keys; rewrite <- (placed_keys (ss_b1 s) (ss_b2 s) (ss_items s) (Zlen base)); apply in_map; assumption. }
  { intros e Hin. refine (index_positions _ (fun p => 0 <= p < 2 ^ 62) _ e Hin). intros x Hx. apply placed_range in Hx. fold (sess_text comp s) in Hx. pose proof (Zlen_nonneg base). lia. }
  rewrite app_nil_l in Ho. assert (Hop : o_pos (wr_o w') = P) by (destruct Ho as [_ ->]; unfold P; rewrite Htc; reflexivity).
  destruct Hready as (R1 & R2 & R3 & R4 & R5).
  assert (HPb : Zlen base <= P) by (unfold P; pose proof (Zlen_nonneg (sess_text comp s)); lia).
  destruct (access_written_at (wr_mgr w') (wr_o w') base tail (ftext (concat lr)) w) as (ix & ra & fra & a & f & g' & o' & Ea & Ug & Ho' & A1 & A2 & A3 & A4 & A5 & A6 & A7 & A8 & A9 & A10 & A11 & A12 & A13 & A14 & A15).
  { exact Ho. }
  { rewrite Hmg, Hop. unfold mgr_ready, file_start. cbn [mg_map mg_raw mg_file mg_list]. fold (file_start g). split; [exact Hm|]. split; [exact R2|]. split; [exact R3|].
    split; [lia|]. destruct R5 as [?|(l & ? & ? & ? & ?)]; [left; assumption|]. right. exists l. repeat split; try assumption; try lia; apply H0. }
  { rewrite Hmg. exact Hmn. } { rewrite Hmg. exact Ewi. } { rewrite Hmg. cbn [mg_map]. lia. }
  { rewrite Hmg. unfold mgr_count in *. unfold file_start in *. cbn [mg_map mg_list mg_file]. rewrite Hg0 in Hcnt. change (Zlen (rm_map no_remap)) with 0 in Hcnt. lia. }
  { rewrite Hop. unfold P. lia. }
  rewrite Hmg in *. cbn [mg_map] in *. rewrite Hop in *.
  pose proof (Zlen_nonneg (rm_map m)) as Hm0.
  exists lr, ss, ix, ra, fra, a, f. split.
  { exists w', g', o'. split; [exact Ew|]. split; [rewrite Hmg; exact Ea|exact Ug]. }
  split.
  { unfold run_writer. rewrite Ew. cbn [bind]. unfold close_writer. rewrite Hmg, Ea. cbn [bind]. f_equal. rewrite Htc. apply (o_state_done _ _ _ _ Ho').
    rewrite !Zlen_app, !f_bytes_len. destruct A6 as (_ & _ & E6 & _). rewrite E6.
    pose proof (Zlen_nonneg (ftext (concat lr))). pose proof (f_size_pos ix (proj1 A1)). pose proof (f_size_pos ra (proj1 (proj1 A5))). lia. }
  do 5 (split; [assumption|]). split; [exact A1|]. split; [exact A2|]. split; [lia|].
  split; [intros Hcv; apply A4; unfold m; rewrite <- (Z.add_0_l (Zlen base)), placed_shift, index_shift; apply covers_shift; exact Hcv|].
  split; [exact A5|]. split; [exact A6|]. split; [exact A7|]. split; [exact A8|]. do 5 (split; [assumption|]).
  rewrite A14, A15. split; [lia|]. unfold mgr_count, file_start. cbn [mg_map mg_list mg_file]. rewrite Hg0. change (Zlen (rm_map no_remap)) with 0. lia.
Qed.

(** ** The records of a file *)

(** the records [l] from position [pos] on: items at the positions [E] with the bytes [T] and the
    contents [S], and records of other kinds *)
Inductive layout : Z -> list frec -> list (runevt * Z) -> list bytes -> list sitem -> Prop :=
| L_nil pos : layout pos [] [] [] []
| L_other pos x l E T S : plain_name (f_name x) = true -> layout (pos + f_size x) l E T S -> layout pos (x :: l) E T S
| L_item pos recs s k l E T S : item_recs uncomp recs s -> layout (pos + Zlen (ftext recs)) l E T S ->
    layout pos (recs ++ l) ((k, pos) :: E) (ftext recs :: T) (s :: S).

Lemma layout_app pos l1 E1 T1 S1 l2 E2 T2 S2 : layout pos l1 E1 T1 S1 -> layout (pos + Zlen (ftext l1)) l2 E2 T2 S2 -> layout pos (l1 ++ l2) (E1 ++ E2) (T1 ++ T2) (S1 ++ S2).
Proof.
  induction 1 as [pos|pos x l E T S H1 H2 IH|pos recs s k l E T S H1 H2 IH]; intros H.
  - change (ftext []) with (@nil byte) in H. rewrite Zlen_nil, Z.add_0_r in H. exact H.
  - cbn [app]. apply L_other; [exact H1|]. apply IH. change (ftext (x :: l)) with (f_bytes x ++ ftext l) in H.
    rewrite Zlen_app, f_bytes_len in H. replace (pos + f_size x + Zlen (ftext l)) with (pos + (f_size x + Zlen (ftext l))) by lia. exact H.
  - rewrite <- app_assoc. cbn [app]. apply L_item; [exact H1|]. apply IH. rewrite ftext_app, Zlen_app in H.
    replace (pos + Zlen (ftext recs) + Zlen (ftext l)) with (pos + (Zlen (ftext recs) + Zlen (ftext l))) by lia. exact H.
Qed.
Lemma layout_stores pos l E T S : layout pos l E T S -> forall tl s, stores uncomp tl s -> stores uncomp (l ++ tl) (S ++ s).
Proof.
  induction 1 as [pos|pos x l E T S H1 H2 IH|pos recs s k l E T S H1 H2 IH]; intros tl s' H; cbn [app]; [exact H| |].
  - apply S_other; [exact H1|]. apply IH. exact H.
  - rewrite <- app_assoc. apply item_stores; [exact H1|]. apply IH. exact H.
Qed.
Lemma layout_items b1 b2 its lr : Forall2 (fun zi recs => item_text comp b1 b2 zi = ftext recs) its lr ->
  forall ss pos, Forall2 (item_recs uncomp) lr ss -> layout pos (concat lr) (placed comp b1 b2 pos its) (map (item_text comp b1 b2) its) ss.
Proof.
  induction 1 as [|zi recs its lr H _ IH]; intros ss pos F; inversion F; subst; cbn [concat placed map]; [constructor|].
  rewrite H. apply L_item; [assumption|]. apply IH. assumption.
Qed.
(** the items from one position on *)
Lemma layout_at pos l E T S : layout pos l E T S -> forall E1 k p E2, E = E1 ++ (k, p) :: E2 ->
  exists l1 l2 T1 T2 S1 S2, l = l1 ++ l2 /\ p = pos + Zlen (ftext l1) /\ T = T1 ++ T2 /\ S = S1 ++ S2 /\ length S1 = length E1 /\ layout p l2 ((k, p) :: E2) T2 S2.
Proof.
  induction 1 as [pos|pos x l E T S H1 H2 IH|pos recs s k0 l E T S H1 H2 IH]; intros E1 k p E2 HE.
  - destruct E1; discriminate.
  - destruct (IH _ _ _ _ HE) as (l1 & l2 & T1 & T2 & S1 & S2 & A & B & C & D & F & G). exists (x :: l1), l2, T1, T2, S1, S2. subst l. split; [reflexivity|].
    change (ftext (x :: l1)) with (f_bytes x ++ ftext l1). rewrite Zlen_app, f_bytes_len. split; [lia|auto].
  - destruct E1 as [|e E1]; cbn [app] in HE.
    + injection HE as <- <- <-. exists [], (recs ++ l), [], (ftext recs :: T), [], (s :: S). split; [reflexivity|]. split; [change (ftext []) with (@nil byte); rewrite Zlen_nil; lia|].
      split; [reflexivity|]. split; [reflexivity|]. split; [reflexivity|]. apply L_item; assumption.
    + injection HE as <- HE. destruct (IH _ _ _ _ HE) as (l1 & l2 & T1 & T2 & S1 & S2 & A & B & C & D & F & G).
      exists (recs ++ l1), l2, (ftext recs :: T1), T2, (s :: S1), S2. subst l T S. split; [rewrite app_assoc; reflexivity|]. rewrite ftext_app, Zlen_app. split; [lia|].
      split; [reflexivity|]. split; [reflexivity|]. split; [cbn; lia|exact G].
Qed.
Lemma layout_nonneg pos l E T S : layout pos l E T S -> Forall f_ok l -> forall e, In e E -> pos <= snd e <= pos + Zlen (ftext l).
Proof.
  induction 1 as [pos|pos x l E T S H1 H2 IH|pos recs s k l E T S H1 H2 IH]; intros F e; [intros []| |].
  - inversion F; subst. intros He. specialize (IH H4 e He). change (ftext (x :: l)) with (f_bytes x ++ ftext l). rewrite Zlen_app, f_bytes_len.
    pose proof (f_size_pos x H3). lia.
  - apply Forall_app in F. destruct F as [F1 F2]. rewrite ftext_app, Zlen_app. pose proof (Zlen_nonneg (ftext recs)). pose proof (Zlen_nonneg (ftext l)).
    intros [<-|He]; [cbn [snd]; lia|]. specialize (IH F2 e He). lia.
Qed.

(** ** The state of a file between sessions *)

(** the items of several sessions, each with the buffers it is written with *)
Definition all_items (l : list sess) : list (buffer * buffer * witem) :=
  flat_map (fun s => map (fun zi => (ss_b1 s, ss_b2 s, snd zi)) (ss_items s)) l.
Definition encoded_in (x : buffer * buffer * witem) (s : sitem) : Prop := encoded (fst (fst x)) (snd (fst x)) (snd x) s.

Definition file_inv (done : list sess) (data body : bytes) (E : list (runevt * Z)) (Es : list (list (runevt * Z))) (S : list sitem) : Prop :=
  exists lb fra f xa a,
    body = ftext lb /\ data = body ++ f_bytes fra /\ Forall f_ok lb /\ is_access fra f /\ layout 0 lb E (texts comp done) S /\
    0 < ra_next f /\ rec_at body (ra_next f) xa /\ is_access xa a /\ ra_good f /\ ra_good a /\ ra_next a = 0 /\ ra_first a = ra_next f /\
    0 <= ra_count f /\ 0 <= ra_count a /\ ra_count f + ra_count a <= 2 * count done /\
    E = concat Es /\ Es <> [] /\ map fst E = flat_map keys done /\ Forall2 encoded_in (all_items done) S /\
    Zlen body <= volume comp done + 400 * count done /\
    (Forall (sess_covers comp) done -> chain body (ra_next f) (map (fun l => rm_map (index_of l)) (rev Es))).

Lemma encoded_all b1 b2 its ss : Forall2 (encoded b1 b2) (map snd its) ss -> Forall2 encoded_in (map (fun zi : Z * witem => (b1, b2, snd zi)) its) ss.
Proof. revert ss. induction its as [|zi its IH]; intros ss F; inversion F; subst; constructor; [assumption|]. apply IH. assumption. Qed.

(** the new records behind [body] *)
Lemma rec_at_here pre x rest : rec_at (pre ++ f_bytes x ++ rest) (Zlen pre) x.
Proof. exists pre, rest. split; reflexivity. Qed.
Lemma access_name x a : is_access x a -> plain_name (f_name x) = true /\ f_ok x.
Proof. intros (P & N & _). rewrite N. split; [reflexivity|exact (proj1 P)]. Qed.

Lemma new_inv d name s : codec_ok comp uncomp -> sess_ok s -> ss_items s <> [] -> Zlen (ss_items s) < 2 ^ 27 -> Zlen (sess_text comp s) < 2 ^ 61 ->
  exists data body E Es S, new_session comp d name s = Ok (save d (sio_filename name) data) /\ file_inv [s] data body E Es S.
Proof.
  intros Hc Hs Hne Hn Hv.
  destruct (session_step (new_mgr (ss_raw s)) (ss_level s) [] [] s Hc Hs Hne eq_refl) as (lr & ss & ix & ra & fra & a & f & _ & Er & Ht & Henc & Hrecs & Hfok & Htxt & A1 & A2 & A3 & A4 & A5 & A6 & A7 & A8 & A9 & A10 & A11 & A12 & A13 & A14 & A15).
  { split; [exact no_remap_ok|]. split; [exact (proj1 Hs)|]. destruct new_file_good as (G1 & G2 & G3). split; [exact G1|]. split; [cbn; lia|]. left. split; reflexivity. }
  { rewrite Zlen_nil. unfold access_size. lia. } { exact Hn. } { cbn. lia. } { rewrite Zlen_nil. lia. }
  cbn [app] in *. rewrite Zlen_nil, Z.add_0_l in *.
  exists (sess_text comp s ++ f_bytes ix ++ f_bytes ra ++ f_bytes fra), (ftext (concat lr ++ [ix; ra])), (placed comp (ss_b1 s) (ss_b2 s) 0 (ss_items s)),
    [placed comp (ss_b1 s) (ss_b2 s) 0 (ss_items s)], ss.
  split. { unfold new_session, open_new. cbn [bind]. rewrite Er. reflexivity. }
  assert (Eb : ftext (concat lr ++ [ix; ra]) = sess_text comp s ++ f_bytes ix ++ f_bytes ra).
  { rewrite ftext_app, <- Ht. cbn [ftext flat_map]. rewrite app_nil_r. reflexivity. }
  exists (concat lr ++ [ix; ra]), fra, f, ra, a.
  split; [reflexivity|]. split; [rewrite Eb, <- !app_assoc; reflexivity|].
  split. { apply Forall_app. split; [exact Hfok|]. constructor; [exact (proj1 A1)|]. constructor; [exact (proj1 (proj1 A5))|constructor]. }
  split; [exact A6|]. split.
  { unfold texts. cbn [flat_map]. rewrite <- (app_nil_r (placed _ _ _ _ _)), <- (app_nil_r ss). apply layout_app; [apply layout_items; assumption|].
    apply L_other; [rewrite A2; reflexivity|]. apply L_other; [exact (proj1 (access_name _ _ A5))|]. constructor. }
  pose proof (Zlen_nonneg (sess_text comp s)). pose proof (f_size_pos ix (proj1 A1)).
  split; [lia|]. split.
  { rewrite A10, A9, Eb. rewrite app_assoc. rewrite <- (app_nil_r (f_bytes ra)). replace (Zlen (sess_text comp s) + f_size ix) with (Zlen (sess_text comp s ++ f_bytes ix)) by (rewrite Zlen_app, f_bytes_len; reflexivity).
    apply rec_at_here. }
  do 4 (split; [assumption|]). split; [congruence|]. split; [rewrite A15; change (mgr_count (new_mgr (ss_raw s))) with 0; lia|]. split; [lia|].
  split; [rewrite A15; change (mgr_count (new_mgr (ss_raw s))) with 0; cbn [count fold_right]; lia|].
  split; [cbn [concat]; rewrite app_nil_r; reflexivity|]. split; [discriminate|]. split; [cbn [flat_map]; rewrite app_nil_r; apply placed_keys|].
  split; [unfold all_items; cbn [flat_map]; rewrite app_nil_r; apply encoded_all; exact Henc|].
  split. { rewrite Eb, !Zlen_app, !f_bytes_len. destruct A5 as (_ & _ & E5 & _). rewrite E5. cbn [volume count fold_right].
    assert (1 <= Zlen (ss_items s)) by (destruct (ss_items s); [contradiction|rewrite Zlen_cons; pose proof (Zlen_nonneg l); lia]). unfold access_size. lia. }
  intros Hcv. inversion Hcv as [|? ? Hcs _]; subst. cbn [rev app map].
  eapply C_cons; [lia| |exact A5| |apply A4; exact Hcs| |].
  - rewrite A10, A9, Eb, app_assoc. rewrite <- (app_nil_r (f_bytes ra)). replace (Zlen (sess_text comp s) + f_size ix) with (Zlen (sess_text comp s ++ f_bytes ix)) by (rewrite Zlen_app, f_bytes_len; reflexivity).
    apply rec_at_here.
  - rewrite A7, Eb. apply rec_at_here.
  - rewrite A8. change (last_pos (new_mgr (ss_raw s))) with 0. lia.
  - rewrite A8. constructor.
Qed.

Lemma append_open data body fra f xa a raw : data = body ++ f_bytes fra -> is_access fra f -> rec_at body (ra_next f) xa -> is_access xa a ->
  exists s' raw', init_append uncomp (open_ifs data) (new_mgr raw) = (Ok true, s', mkMgr no_remap [a] (Some f) raw') /\ usable_buf raw'.
Proof.
  intros Hd Hf Hr Ha. unfold init_append.
  assert (Hs : usable_stream (open_ifs data)) by (split; reflexivity).
  rewrite (access_at_end (open_ifs data) body fra f _ Hs Hf Hd). unfold take_file. cbn [mg_list mg_map mg_raw mg_file new_mgr app removelast].
  change (mg_last (mkMgr no_remap [f] None (mkBuffer (f_core fra) true))) with (Some f). cbv iota beta.
  set (g1 := mkMgr no_remap [] (Some f) _).
  rewrite (access_at (at_pos (s_data (open_ifs data)) (Zlen (s_data (open_ifs data)))) (ra_next f) xa a g1 (usable_at _ _) Ha).
  2:{ cbn [at_pos s_data open_ifs]. rewrite Hd. apply rec_at_app. exact Hr. }
  do 2 eexists. split; [reflexivity|]. split; [reflexivity|]. cbn [b_bytes].
  intros E. pose proof (f_core_len xa) as L. rewrite E in L. pose proof (rec_hlen_range (f_name xa)) as R.
  pose proof Ha as ((Hy & _) & _). pose proof Hy as (_ & _ & _ & Hn & _). specialize (R Hn). pose proof (Zlen_nonneg (f_data xa)).
  unfold f_dlen in L. rewrite Zlen_nil in L. lia.
Qed.

Lemma count_app l s : count (l ++ [s]) = count l + Zlen (ss_items s).
Proof. induction l as [|x l IH]; cbn [app count fold_right]; [lia|]. fold (count (l ++ [s])). rewrite IH. fold (count l). lia. Qed.
Lemma volume_app l s : volume comp (l ++ [s]) = volume comp l + Zlen (sess_text comp s).
Proof. induction l as [|x l IH]; cbn [app volume fold_right]; [lia|]. fold (volume comp (l ++ [s])). rewrite IH. fold (volume comp l). lia. Qed.
Lemma count_nonneg l : 0 <= count l.
Proof. induction l as [|s l IH]; cbn [count fold_right]; [lia|]. fold (count l). pose proof (Zlen_nonneg (ss_items s)). lia. Qed.
Lemma volume_nonneg l : 0 <= volume comp l.
Proof. induction l as [|s l IH]; cbn [volume fold_right]; [lia|]. fold (volume comp l). pose proof (Zlen_nonneg (sess_text comp s)). lia. Qed.

Lemma append_inv d name s done data body E Es S : codec_ok comp uncomp -> sess_ok s ->
  count (done ++ [s]) < 2 ^ 27 -> volume comp (done ++ [s]) < 2 ^ 61 ->
  d (sio_filename name) = Some data -> file_inv done data body E Es S ->
  exists data' body' more E' Es' S', append_session comp uncomp d name s = Ok (save d (sio_filename name) data') /\ file_inv (done ++ [s]) data' body' (E ++ E') Es' (S ++ S') /\
    body' = body ++ more.
Proof.
  intros Hc Hs Hcount Hvol Hdisk (lb & fra & f & xa & a & I1 & I2 & I3 & I4 & I5 & I6 & I7 & I8 & I9 & I10 & I11 & I12 & I13 & I14 & I15 & I16 & I17 & I18 & I19 & I20 & I21).
  rewrite count_app in Hcount. rewrite volume_app in Hvol. pose proof (count_nonneg done) as Hc0. pose proof (volume_nonneg done) as Hv0.
  destruct (append_open data body fra f xa a (ss_raw s) I2 I4 I7 I8) as (s' & raw' & Ea & Hraw').
  assert (Hlen : Zlen data = Zlen body + access_size). { destruct I4 as (_ & _ & E4 & _). rewrite I2, Zlen_app, f_bytes_len, E4. reflexivity. }
  pose proof (Zlen_nonneg body) as Hb0.
  assert (Hopen : open_append uncomp d name (ss_level s) (ss_raw s) = Ok (mkWr (mkO (body ++ f_bytes fra) (Zlen body)) (mkMgr no_remap [a] (Some f) raw') (ss_level s))).
  { unfold open_append. rewrite Hdisk, Ea. cbn [bind]. replace (Zlen data <? access_size) with false by (unfold access_size in *; lia).
    rewrite <- I2. do 3 f_equal. lia. }
  destruct (list_eq_dec (fun x y : unit => match x, y with tt, tt => left eq_refl end) (map (fun _ => tt) (ss_items s)) []) as [Hnil|Hne].
  - apply map_eq_nil in Hnil. exists data, body, [], [], Es, []. split; [|split].
    + unfold append_session. rewrite Hopen. cbn [bind]. unfold run_writer. rewrite Hnil. cbn [write_items bind]. unfold close_writer. cbn [wr_mgr wr_o].
      unfold write_access. cbn [mg_map no_remap rm_map bind o_data]. rewrite <- I2. reflexivity.
    + rewrite !app_nil_r. exists lb, fra, f, xa, a.
      assert (Q1 : count (done ++ [s]) = count done) by (rewrite count_app, Hnil; apply Z.add_0_r).
      assert (Q2 : volume comp (done ++ [s]) = volume comp done) by (rewrite volume_app; unfold sess_text; rewrite Hnil; apply Z.add_0_r).
      assert (Q3 : flat_map keys (done ++ [s]) = flat_map keys done) by (rewrite flat_map_app; cbn [flat_map]; unfold keys at 2; rewrite Hnil; apply app_nil_r).
      assert (Q4 : all_items (done ++ [s]) = all_items done) by (unfold all_items; rewrite flat_map_app; cbn [flat_map]; rewrite Hnil; apply app_nil_r).
      assert (Q5 : texts comp (done ++ [s]) = texts comp done) by (unfold texts; rewrite flat_map_app; cbn [flat_map]; rewrite Hnil; apply app_nil_r).
      rewrite Q1, Q2, Q3, Q4, Q5.
      repeat match goal with |- _ /\ _ => split end; try assumption. intros Hcv. apply I21. apply Forall_app in Hcv. exact (proj1 Hcv).
    + rewrite app_nil_r. reflexivity.
  - assert (Hne' : ss_items s <> []) by (intros H; rewrite H in Hne; apply Hne; reflexivity).
    assert (Hra : ra_next f < Zlen body). { pose proof (rec_at_range _ _ _ (proj2 (access_name _ _ I8)) I7). lia. }
    pose proof (Zlen_nonneg (ss_items s)) as Hn0. pose proof (Zlen_nonneg (sess_text comp s)) as Ht0.
    destruct (session_step (mkMgr no_remap [a] (Some f) raw') (ss_level s) body (f_bytes fra) s Hc Hs Hne' eq_refl)
      as (lr & ss & ix & ra & fra' & a' & f' & _ & Er & Ht & Henc & Hrecs & Hfok & Htxt & A1 & A2 & A3 & A4 & A5 & A6 & A7 & A8 & A9 & A10 & A11 & A12 & A13 & A14 & A15).
    { split; [exact no_remap_ok|]. split; [exact Hraw'|]. split; [exact I9|]. split; [cbn [file_start mg_file]; lia|]. right. exists a. cbn [mg_list].
      split; [reflexivity|]. split; [exact I10|]. split; [exact I11|]. rewrite I12. exact Hra. }
    { destruct I4 as (_ & _ & E4 & _). rewrite f_bytes_len, E4. lia. }
    { lia. } { unfold mgr_count. cbn [file_start mg_file mg_list mg_map no_remap rm_map fold_right]. change (Zlen (@nil (runevt * Z))) with 0. lia. } { lia. }
    cbv zeta in *. set (El := placed comp (ss_b1 s) (ss_b2 s) (Zlen body) (ss_items s)) in *.
    assert (Eb : ftext (lb ++ concat lr ++ [ix; ra]) = body ++ sess_text comp s ++ f_bytes ix ++ f_bytes ra).
    { rewrite !ftext_app, <- Ht, <- I1. cbn [ftext flat_map]. rewrite app_nil_r. reflexivity. }
    assert (Hpos : ra_next f' = Zlen ((body ++ sess_text comp s) ++ f_bytes ix)) by (rewrite A10, A9, !Zlen_app, f_bytes_len; reflexivity).
    assert (Hrec : rec_at (body ++ sess_text comp s ++ f_bytes ix ++ f_bytes ra) (ra_next f') ra).
    { rewrite Hpos, !app_assoc. rewrite <- (app_nil_r (f_bytes ra)), app_nil_r at 1. rewrite <- (app_nil_r (f_bytes ra)). apply rec_at_here. }
    exists (body ++ sess_text comp s ++ f_bytes ix ++ f_bytes ra ++ f_bytes fra'), (ftext (lb ++ concat lr ++ [ix; ra])),
      (sess_text comp s ++ f_bytes ix ++ f_bytes ra), El, (Es ++ [El]), ss.
    split; [unfold append_session; rewrite Hopen; cbn [bind]; rewrite Er; reflexivity|]. split; [|exact Eb].
    exists (lb ++ concat lr ++ [ix; ra]), fra', f', ra, a'.
    split; [reflexivity|]. split; [rewrite Eb, <- !app_assoc; reflexivity|].
    split. { apply Forall_app. split; [exact I3|]. apply Forall_app. split; [exact Hfok|]. constructor; [exact (proj1 A1)|]. constructor; [exact (proj1 (proj1 A5))|constructor]. }
    split; [exact A6|]. split.
    { unfold texts. rewrite flat_map_app. cbn [flat_map]. apply layout_app; [exact I5|]. rewrite Z.add_0_l, <- I1. rewrite <- (app_nil_r El), <- (app_nil_r ss). apply layout_app; [apply layout_items; assumption|].
      apply L_other; [rewrite A2; reflexivity|]. apply L_other; [exact (proj1 (access_name _ _ A5))|]. constructor. }
    pose proof (f_size_pos ix (proj1 A1)).
    split; [lia|]. split; [rewrite Eb; exact Hrec|].
    assert (Hcm : mgr_count (mkMgr no_remap [a] (Some f) raw') = ra_count f + ra_count a)
      by (unfold mgr_count; cbn [file_start mg_file mg_list mg_map no_remap rm_map fold_right]; change (Zlen (@nil (runevt * Z))) with 0; lia).
    rewrite Hcm in A15. rewrite count_app, volume_app.
    do 4 (split; [assumption|]). split; [congruence|]. split; [lia|]. split; [lia|]. split; [lia|].
    split; [rewrite concat_app, <- I16; cbn [concat]; rewrite app_nil_r; reflexivity|]. split; [destruct Es; discriminate|].
    split; [rewrite map_app, flat_map_app, I18; cbn [flat_map]; rewrite app_nil_r; f_equal; apply placed_keys|].
    split; [unfold all_items; rewrite flat_map_app; cbn [flat_map]; rewrite app_nil_r; apply Forall2_app; [exact I19|apply encoded_all; exact Henc]|].
    split. { rewrite Eb, !Zlen_app, !f_bytes_len. destruct A5 as (_ & _ & E5 & _). rewrite E5.
      assert (1 <= Zlen (ss_items s)) by (destruct (ss_items s); [contradiction|rewrite Zlen_cons; pose proof (Zlen_nonneg l); lia]). unfold access_size. lia. }
    intros Hcv. apply Forall_app in Hcv. destruct Hcv as [Hcv Hcs]. inversion Hcs as [|? ? Hcs' _]; subst x l. rewrite rev_app_distr. cbn [rev app map].
    rewrite Eb. eapply C_cons; [lia|exact Hrec|exact A5| |apply A4; exact Hcs'| |].
    + rewrite A7. replace (Zlen body + Zlen (sess_text comp s)) with (Zlen (body ++ sess_text comp s)) by (rewrite Zlen_app; reflexivity).
      rewrite app_assoc. apply rec_at_here.
    + rewrite A8. cbn [last_pos mg_last mg_list map last]. rewrite I12. lia.
    + rewrite A8. change (last_pos (mkMgr no_remap [a] (Some f) raw')) with (ra_first a). rewrite I12. apply chain_app. apply I21. exact Hcv.
Qed.

(** any number of sessions *)
Lemma appends_inv name : codec_ok comp uncomp -> forall l d done data body E Es S, Forall sess_ok l ->
  count (done ++ l) < 2 ^ 27 -> volume comp (done ++ l) < 2 ^ 61 ->
  d (sio_filename name) = Some data -> file_inv done data body E Es S ->
  exists d' data' body' more E' Es' S', append_sessions comp uncomp d name l = Ok d' /\ d' (sio_filename name) = Some data' /\
    (forall n, bytes_eqb n (sio_filename name) = false -> d' n = d n) /\
    file_inv (done ++ l) data' body' (E ++ E') Es' (S ++ S') /\ body' = body ++ more.
Proof.
  intros Hc l. induction l as [|s l IH]; intros d done data body E Es S Hok Hcount Hvol Hd Hinv.
  - exists d, data, body, [], [], Es, []. rewrite !app_nil_r. repeat split; assumption.
  - inversion Hok as [|? ? Hs Hl]; subst. replace (done ++ s :: l) with ((done ++ [s]) ++ l) in * by (rewrite <- app_assoc; reflexivity).
    assert (Hle : forall l0, count (done ++ [s]) <= count ((done ++ [s]) ++ l0) /\ volume comp (done ++ [s]) <= volume comp ((done ++ [s]) ++ l0)).
    { intros l0. induction l0 as [|x l0 IH0] using rev_ind; [rewrite app_nil_r; lia|]. rewrite app_assoc, (count_app ((done ++ [s]) ++ l0)), (volume_app ((done ++ [s]) ++ l0)).
      pose proof (Zlen_nonneg (ss_items x)). pose proof (Zlen_nonneg (sess_text comp x)). lia. }
    destruct (append_inv d name s done data body E Es S Hc Hs) as (data1 & body1 & more1 & E1 & Es1 & S1 & Ea & Hi & Hb); try assumption.
    { pose proof (Hle l). lia. } { pose proof (Hle l). lia. }
    destruct (IH (save d (sio_filename name) data1) (done ++ [s]) data1 body1 (E ++ E1) Es1 (S ++ S1) Hl Hcount Hvol) as (d' & data' & body' & more & E' & Es' & S' & A & B & C & D & F).
    { unfold save. rewrite bytes_eqb_refl. reflexivity. } { exact Hi. }
    exists d', data', body', (more1 ++ more), (E1 ++ E'), Es', (S1 ++ S'). split; [cbn [append_sessions]; rewrite Ea; exact A|]. split; [exact B|].
    split; [intros n Hn; rewrite (C n Hn); unfold save; rewrite Hn; reflexivity|]. rewrite !app_assoc in *. split; [exact D|]. rewrite F, Hb. rewrite <- app_assoc. reflexivity.
Qed.
Theorem sessions_inv d name s l : codec_ok comp uncomp -> Forall sess_ok (s :: l) -> ss_items s <> [] ->
  count (s :: l) < 2 ^ 27 -> volume comp (s :: l) < 2 ^ 61 ->
  exists d' data body E Es S, sessions comp uncomp d name s l = Ok d' /\ d' (sio_filename name) = Some data /\
    (forall n, bytes_eqb n (sio_filename name) = false -> d' n = d n) /\
    file_inv (s :: l) data body E Es S.
Proof.
  intros Hc Hok Hne Hcount Hvol. inversion Hok as [|? ? Hs Hl]; subst.
  pose proof (count_nonneg l). pose proof (volume_nonneg l). pose proof Hcount as Hcount'. pose proof Hvol as Hvol'.
  change (count (s :: l)) with (Zlen (ss_items s) + count l) in Hcount'. change (volume comp (s :: l)) with (Zlen (sess_text comp s) + volume comp l) in Hvol'.
  destruct (new_inv d name s Hc Hs Hne) as (data1 & body1 & E1 & Es1 & S1 & En & Hi); [lia|lia|].
  destruct (appends_inv name Hc l (save d (sio_filename name) data1) [s] data1 body1 E1 Es1 S1 Hl) as (d' & data' & body' & more & E' & Es' & S' & A & B & C & D & F).
  { exact Hcount. } { exact Hvol. }
  { unfold save. rewrite bytes_eqb_refl. reflexivity. } { exact Hi. }
  exists d', data', body', (E1 ++ E'), Es', (S1 ++ S'). split; [unfold sessions; rewrite En; exact A|]. split; [exact B|].
  split; [intros n Hn; rewrite (C n Hn); unfold save; rewrite Hn; reflexivity|]. exact D.
Qed.
End Codec.

(** * Lazily unpacked events answer like others *)

From Verif Require Import Bytes StrMap SioModel SioProofs SioFrame Ieee ObjModel EventModel IndexModel FileModel FileRead LazyModel LazySpec.

(** ** Without null pointers the search for handlers is the ordinary one *)

Lemma find_slot_some {A} n (bs : list (rblock A)) :
  find_slot n (map Some bs) = match find_block n bs with Some b => FSome b | None => FNone end.
Proof.
  induction bs as [|b bs IH]; [reflexivity|]. cbn [map find_slot]. unfold find_block. cbn [find]. destruct (bytes_eqb (rb_name b) n); [reflexivity|exact IH].
Qed.
Lemma read_slots_loop_some {A} f buf (bs : list (rblock A)) : forall pos at_ next,
  read_slots_loop f buf (map Some bs) pos at_ next = read_blocks_loop f buf bs pos at_ next.
Proof.
  induction f as [|f IH]; intros pos at_ next; [reflexivity|]. cbn [read_slots_loop read_blocks_loop].
  destruct (Zlen buf <=? pos); [reflexivity|]. destruct (extract_block buf pos) as [[info sp]|x|k]; cbn [bind]; [|reflexivity..].
  rewrite find_slot_some. destruct (find_block (bi_name info) bs) as [b|]; [|rewrite IH; reflexivity].
  destruct (r_seek _ _) as [[u d]|x|k]; cbn [bind]; [|reflexivity..].
  destruct (rethrow _ _) as [[a d']|x|k]; cbn [bind]; [|reflexivity..]. rewrite IH. reflexivity.
Qed.

Lemma handlers_same srt e : map (slot_handler srt) (setup_blocks e) = map Some (coll_handlers srt (ev_cols e)).
Proof. unfold setup_blocks, coll_handlers. rewrite !map_map. reflexivity. Qed.

(** ** The record in the buffer *)

Definition complete (ri : record_info) (buf : bytes) : Prop := 0 <= ri_hlen ri /\ 0 <= ri_dlen ri /\ Zlen buf = ri_hlen ri + ri_dlen ri.

Lemma span_whole ri buf : complete ri buf ->
  span buf (ri_hlen ri) (ri_dlen ri) = Ok (skipn (Z.to_nat (ri_hlen ri)) buf) /\ span_from buf (ri_hlen ri) = Ok (skipn (Z.to_nat (ri_hlen ri)) buf) /\
  sub buf (ri_hlen ri) (ri_dlen ri) = skipn (Z.to_nat (ri_hlen ri)) buf.
Proof.
  intros (H1 & H2 & H3). assert (E : sub buf (ri_hlen ri) (ri_dlen ri) = skipn (Z.to_nat (ri_hlen ri)) buf).
  { unfold sub. apply firstn_all2. rewrite skipn_length. unfold Zlen in H3. lia. }
  unfold span, span_from. rewrite E. replace (_ <? _) with false by lia. replace (_ <? _) with false by lia. repeat split.
Qed.

Section Reading.
Context (uncomp : bytes -> option bytes) (srt : forall A : Type, (A -> Z) -> list A -> list A) (ignore_null : bool).

(** the data that is unpacked at once, and the data that is unpacked later *)
Lemma data_same ri buf r : complete ri buf -> intact uncomp ri buf -> fst (record_data uncomp ri buf r) = lz_data uncomp ri buf.
Proof.
  intros Hc Hi. destruct (span_whole ri buf Hc) as (E1 & E2 & E3). unfold record_data, lz_data. rewrite E1, E2. cbn [bind]. unfold intact in Hi.
  destruct (is_compressed (ri_options ri)) eqn:Ec; [|reflexivity].
  destruct (Hi eq_refl) as (Hu & d & Hd & Hl). rewrite E3 in Hd. replace (ri_ulen ri =? 0) with false by lia. cbn [bind]. unfold uncompress. rewrite Hd.
  replace (_ <? _) with false by lia. cbn [fst]. f_equal.
  pose proof (resize_length (zeros (Z.to_nat (ri_ulen ri))) (ri_ulen ri) ltac:(lia)) as A. pose proof (resize_length (rd_comp r) (ri_ulen ri) ltac:(lia)) as B.
  rewrite (put_all uncomp (resize (rd_comp r) (ri_ulen ri)) d) by (unfold Zlen in *; lia). rewrite (put_all uncomp (resize (zeros _) (ri_ulen ri)) d) by (unfold Zlen in *; lia). reflexivity.
Qed.
Lemma data_intact ri buf r : complete ri buf -> intact uncomp ri buf -> exists data, fst (record_data uncomp ri buf r) = Ok data.
Proof.
  intros Hc Hi. destruct (span_whole ri buf Hc) as (E1 & E2 & E3). unfold record_data. rewrite E1. cbn [bind]. unfold intact in Hi.
  destruct (is_compressed (ri_options ri)) eqn:Ec; [|eexists; reflexivity].
  destruct (Hi eq_refl) as (Hu & d & Hd & Hl). rewrite E3 in Hd. unfold uncompress. rewrite Hd. replace (_ <? _) with false by lia. eexists. reflexivity.
Qed.
Lemma data_next ri buf r : rd_next (snd (record_data uncomp ri buf r)) = rd_next r /\ rd_s (snd (record_data uncomp ri buf r)) = rd_s r.
Proof. unfold record_data. destruct (bind _ _); [destruct (is_compressed _)| |]; split; reflexivity. Qed.

(** ** The events *)

Definition no_heap : heap := fun _ => None.
Definition kept (e : event) (ri : record_info) (buf : bytes) : levent := mkLE e no_heap (Some (ri, buf)).
(** the state of the event as it is delivered *)
Definition fresh (readonly : bool) (e : event) (ri : record_info) (buf : bytes) : lazyev :=
  mkLz (mkBase e no_heap (lock readonly e)) (Some (ri, buf)) (setup_blocks e) false.
Lemma lazy_event_fresh readonly e ri buf : lazy_event readonly (kept e ri buf) = Ok (fresh readonly e ri buf).
Proof. reflexivity. Qed.

Lemma blocks_read_same next data e ri buf readonly :
  lz_blocks_read srt next data (fresh readonly e ri buf) =
  do '(e', h, _) <- read_event_record srt data e next; Ok (e', h).
Proof.
  unfold lz_blocks_read, read_event_record, fresh. cbn [lz_base b_evt lz_blocks]. rewrite handlers_same. unfold read_slots, read_blocks. rewrite read_slots_loop_some.
  destruct (read_blocks_loop _ _ _ _ _ _) as [[[out at_] n']|x|k]; cbn [bind]; [|reflexivity..]. destruct (repeats _); reflexivity.
Qed.

(** what unpacking gives, in terms of what the reader does at once *)
Definition late_base (readonly : bool) (e0 : event) (e : event) (h : heap) : base := mkBase e h (lock readonly e0).
Lemma unpack_fresh next readonly e ri buf r l r1 : complete ri buf -> intact uncomp ri buf -> rd_lazy r = false -> rd_next r = next ->
  event_step uncomp srt e ri buf r = (Ok l, r1) ->
  match finish ignore_null l with
  | Ok l' => le_rec l' = None /\ exists z, unpack uncomp srt ignore_null next (fresh readonly e ri buf) = (Ok tt, Some z) /\
      lz_unpacked z = true /\ lz_base z = late_base readonly e (le_evt l') (le_heap l')
  | Throw x => fst (unpack uncomp srt ignore_null next (fresh readonly e ri buf)) = Throw x
  | UB k => fst (unpack uncomp srt ignore_null next (fresh readonly e ri buf)) = UB k
  end.
Proof.
  intros Hc Hi Hz Hn H. unfold event_step in H. rewrite Hz in H. pose proof (data_same ri buf r Hc Hi) as Ed. pose proof (data_next ri buf r) as [Hn2 _].
  destruct (record_data uncomp ri buf r) as [[data|x|k] r2]; cbn [fst snd] in *; try discriminate H. rewrite Hn2, Hn in H.
  unfold unpack. cbn [fresh lz_unpacked lz_rec]. rewrite <- Ed, (blocks_read_same next data e ri buf readonly).
  destruct (read_event_record srt data e next) as [[[e' h] n']|x|k]; cbn [bind]; try discriminate H. injection H as <- <-.
  unfold finish. cbn [le_rec le_heap le_evt]. unfold post_process. destruct (restore h (ev_cols e')) as [h'|x|k]; cbn [bind]; [|reflexivity..].
  destruct (negb ignore_null && null_in_subset (ev_cols e')); cbn [bind]; [reflexivity|]. split; [reflexivity|]. eexists. split; [reflexivity|]. split; reflexivity.
Qed.
Lemma unpack_fails next readonly e ri buf r x r1 : complete ri buf -> intact uncomp ri buf -> rd_lazy r = false -> rd_next r = next ->
  event_step uncomp srt e ri buf r = (x, r1) -> match x with
  | Ok _ => True
  | Throw y => fst (unpack uncomp srt ignore_null next (fresh readonly e ri buf)) = Throw y
  | UB k => fst (unpack uncomp srt ignore_null next (fresh readonly e ri buf)) = UB k
  end.
Proof.
  intros Hc Hi Hz Hn H. unfold event_step in H. rewrite Hz in H. pose proof (data_same ri buf r Hc Hi) as Ed. destruct (data_intact ri buf r Hc Hi) as (data & Eo).
  pose proof (data_next ri buf r) as [Hn2 _]. destruct (record_data uncomp ri buf r) as [y r2]; cbn [fst snd] in *. rewrite Eo in *. clear Eo. rewrite Hn2, Hn in H.
  unfold unpack. cbn [fresh lz_unpacked lz_rec]. rewrite <- Ed, (blocks_read_same next data e ri buf readonly).
  destruct (read_event_record srt data e next) as [[[e' h] n']|yy|k]; cbn [bind] in *; injection H as <- <-; [exact Logic.I|reflexivity|reflexivity].
Qed.

(** the event record changes nothing but the contents of the collections *)
Definition same_head (e e' : event) : Prop :=
  ev_run e' = ev_run e /\ ev_num e' = ev_num e /\ ev_time e' = ev_time e /\ ev_det e' = ev_det e /\ ev_par e' = ev_par e /\
  sm_keys (ev_cols e') = sm_keys (ev_cols e).
Lemma filled_keys cols out : sm_keys (filled cols out) = sm_keys cols.
Proof. unfold sm_keys, filled. rewrite map_map. reflexivity. Qed.
Lemma event_step_head e ri buf r l r1 l' : rd_lazy r = false -> event_step uncomp srt e ri buf r = (Ok l, r1) -> finish ignore_null l = Ok l' ->
  same_head e (le_evt l').
Proof.
  intros Hz H Hf. unfold event_step in H. rewrite Hz in H. destruct (record_data uncomp ri buf r) as [[data|x|k] r2]; try discriminate H.
  unfold read_event_record in H. destruct (read_blocks _ _ _) as [[[out at_] n']|x|k]; cbn [bind] in H; try discriminate H. destruct (repeats _); try discriminate H. injection H as <- <-.
  unfold finish in Hf. cbn [le_rec le_heap le_evt] in Hf. destruct (post_process _ _ _) as [h'|x|k]; cbn [bind] in Hf; try discriminate Hf. injection Hf as <-.
  cbn [le_evt]. unfold same_head. cbn [ev_run ev_num ev_time ev_det ev_par ev_cols]. rewrite filled_keys. repeat split.
Qed.

(** ** Any sequence of read accesses *)

(** two events that differ only in what is read only *)
Definition as_base (b b' : base) : Prop := b_evt b' = b_evt b /\ b_heap b' = b_heap b.
Lemma base_do_as b b' a : reads a = true -> as_base b b' -> fst (base_do b' a) = fst (base_do b a) /\ as_base (snd (base_do b a)) (snd (base_do b' a)).
Proof.
  intros Hr [H1 H2]. destruct a; try discriminate Hr; cbn [base_do]; rewrite ?H1, ?H2; try (split; [reflexivity|split; assumption]).
  - destruct (sm_get n (ev_cols (b_evt b))); (split; [reflexivity|split; assumption]).
  - destruct (sm_get n (ev_cols (b_evt b))); cbn [fst snd]; (split; [reflexivity|]); [|split; assumption]. split; cbn [with_cols b_evt b_heap]; [rewrite H1; reflexivity|exact H2].
Qed.
Lemma run_unpacked next accs : forall z b, forallb reads accs = true -> lz_unpacked z = true -> as_base b (lz_base z) ->
  lazy_run uncomp srt ignore_null next (Some z) accs = base_run b accs.
Proof.
  induction accs as [|a accs IH]; intros z b Hr Hu Hb; [reflexivity|]. cbn [forallb] in Hr. apply andb_true_iff in Hr. destruct Hr as [Ha Hr].
  cbn [lazy_run base_run]. assert (E : lazy_do uncomp srt ignore_null next z a = inherited z a).
  { unfold lazy_do. destruct (unpacks a) eqn:Eu; [|destruct a; try reflexivity; discriminate Ha]. unfold unpack. rewrite Hu. reflexivity. }
  rewrite E. unfold inherited. destruct (base_do_as b (lz_base z) a Ha Hb) as [A B].
  destruct (base_do (lz_base z) a) as [x bz]. destruct (base_do b a) as [y bb]. cbn [fst snd] in A, B. subst x. f_equal. apply IH; [exact Hr|exact Hu|exact B].
Qed.
(** before the event is unpacked *)
Lemma head_answer e e' h h' lk lk' a : same_head e e' -> reads a = true -> unpacks a = false ->
  fst (base_do (mkBase e h lk) a) = fst (base_do (mkBase e' h' lk') a) /\ snd (base_do (mkBase e h lk) a) = mkBase e h lk /\
  snd (base_do (mkBase e' h' lk') a) = mkBase e' h' lk'.
Proof.
  intros (H1 & H2 & H3 & H4 & H5 & H6) Hr Hu. destruct a; try discriminate Hr; try discriminate Hu; cbn [base_do b_evt fst snd]; rewrite ?H1, ?H2, ?H3, ?H4, ?H5, ?H6;
    (split; [reflexivity|split; reflexivity]).
Qed.

Theorem run_alike next readonly e ri buf r l r1 l' : complete ri buf -> intact uncomp ri buf -> rd_lazy r = false -> rd_next r = next ->
  event_step uncomp srt e ri buf r = (Ok l, r1) -> finish ignore_null l = Ok l' ->
  forall accs, forallb reads accs = true ->
    lazy_run uncomp srt ignore_null next (Some (fresh readonly e ri buf)) accs = base_run (immediate readonly l') accs.
Proof.
  intros Hc Hi Hz Hn H Hf. pose proof (event_step_head e ri buf r l r1 l' Hz H Hf) as Hh. pose proof (unpack_fresh next readonly e ri buf r l r1 Hc Hi Hz Hn H) as Hu.
  rewrite Hf in Hu. destruct Hu as (_ & z & Eu & U1 & U2).
  induction accs as [|a accs IH]; intros Hr; [reflexivity|]. cbn [forallb] in Hr. apply andb_true_iff in Hr. destruct Hr as [Ha Hr].
  destruct (unpacks a) eqn:Ea.
  - cbn [lazy_run base_run]. unfold lazy_do. rewrite Ea, Eu.
    assert (Hb : as_base (immediate readonly l') (lz_base z)) by (rewrite U2; split; reflexivity).
    pose proof (run_unpacked next (a :: accs) z (immediate readonly l') ltac:(cbn [forallb]; rewrite Ha, Hr; reflexivity) U1 Hb) as R.
    cbn [lazy_run base_run] in R. unfold lazy_do in R. rewrite Ea in R. unfold unpack in R at 1. rewrite U1 in R. exact R.
  - cbn [lazy_run base_run]. assert (E : lazy_do uncomp srt ignore_null next (fresh readonly e ri buf) a = inherited (fresh readonly e ri buf) a).
    { unfold lazy_do. rewrite Ea. destruct a; try reflexivity; discriminate Ha. }
    rewrite E. unfold inherited. cbn [fresh lz_base]. unfold immediate.
    destruct (head_answer e (le_evt l') no_heap (le_heap l') (lock readonly e) (lock readonly (le_evt l')) a Hh Ha Ea) as (A & B & C).
    destruct (base_do (mkBase e no_heap (lock readonly e)) a) as [x b1]. destruct (base_do (mkBase (le_evt l') _ _) a) as [y b2]. cbn [fst snd] in A, B, C. subst x b1 b2.
    f_equal. exact (IH Hr).
Qed.

(** ** The reader *)

(** no end of file from decoding an event *)
Lemma ext_no_eof buf pos : extract_block buf pos <> Throw EEof.
Proof.
  unfold extract_block, r_u32, r_data, api_read, rbind, rret, rthrow, r_seek, span. intros H.
  repeat match type of H with
  | context[if ?b then _ else _] => destruct b; try discriminate H
  | context[match match ?x with _ => _ end with _ => _ end] => destruct x; try discriminate H
  end; cbn [r_buf r_cur bind bi_end bi_start bi_hlen] in H;
  repeat match type of H with
  | context[if ?b then _ else _] => destruct b; cbn [r_buf r_cur bind bi_end bi_start bi_hlen] in H; try discriminate H
  end; discriminate H.
Qed.
Lemma rethrow_no_eof {A} (r : Res A) : rethrow EIoFailure r <> Throw EEof.
Proof. destruct r as [a|[]|k]; cbn [rethrow is_sio]; discriminate. Qed.
Lemma blocks_no_eof {A} f buf (bs : list (rblock A)) : forall pos at_ next, read_blocks_loop f buf bs pos at_ next <> Throw EEof.
Proof.
  induction f as [|f IH]; intros pos at_ next; cbn [read_blocks_loop]; [discriminate|]. destruct (_ <=? _); [discriminate|].
  pose proof (ext_no_eof buf pos) as H1. destruct (extract_block buf pos) as [[info sp]|x|k]; cbn [bind]; [|intros H; injection H as ->; contradiction|discriminate].
  destruct (find_block _ _) as [b|]; [|destruct (_ =? _); [discriminate|apply IH]]. unfold r_seek. cbn [r_buf r_at r_next].
  destruct (_ <? _); cbn [bind]; [discriminate|]. pose proof (rethrow_no_eof (rb_read b (bi_version info) (mkR sp (bi_hlen info) at_ next))) as H2.
  destruct (rethrow _ _) as [[a d']|x|k]; cbn [bind]; [|intros H; injection H as ->; contradiction|discriminate].
  specialize (IH (bi_end info) (r_at d') (r_next d')). destruct (read_blocks_loop _ _ _ _ _ _) as [[[rest a2] n2]|x|k]; cbn [bind]; [discriminate|intros H; injection H as ->; contradiction|discriminate].
Qed.
Lemma data_no_eof ri buf r : fst (record_data uncomp ri buf r) <> Throw EEof.
Proof.
  unfold record_data, span, uncompress. destruct (_ <? _); cbn [bind fst]; [discriminate|]. destruct (is_compressed _); cbn [fst]; [|discriminate].
  destruct (uncomp _); [|discriminate]. destruct (_ <? _); discriminate.
Qed.
Lemma step_no_eof e ri buf r : rd_lazy r = false -> fst (event_step uncomp srt e ri buf r) <> Throw EEof.
Proof.
  intros Hz. unfold event_step. rewrite Hz. pose proof (data_no_eof ri buf r) as H. destruct (record_data uncomp ri buf r) as [[data|x|k] r1]; cbn [fst] in *; [|exact (fun E => H ltac:(injection E as ->; reflexivity))|discriminate].
  unfold read_event_record. pose proof (blocks_no_eof (S (length data)) data (coll_handlers srt (ev_cols e)) 0 [] (rd_next r1)) as Hb. unfold read_blocks.
  destruct (read_blocks_loop _ _ _ _ _ _) as [[[out at_] n']|x|k]; cbn [bind fst]; [destruct (repeats _); discriminate|intros E; injection E as ->; contradiction|discriminate].
Qed.
Lemma finish_no_eof l : finish ignore_null l <> Throw EEof.
Proof.
  unfold finish. destruct (le_rec l); [discriminate|]. unfold post_process.
  assert (R : forall cols h, restore h cols <> Throw EEof).
  { assert (M : forall h a, mcp_at h a <> Throw EEof) by (intros h a; unfold mcp_at; destruct (a =? 0); [discriminate|]; destruct (h a) as [[]|]; discriminate).
    assert (C : forall h l, count_links h l <> Throw EEof).
    { induction l0 as [|a l0 IH]; cbn [count_links]; [discriminate|]. specialize (M h a). destruct (mcp_at h a); cbn [bind]; [|congruence|discriminate].
      destruct (count_links h l0) as [[]|x|k]; cbn [bind]; [discriminate|congruence|discriminate]. }
    assert (P : forall f l h, push_each f h l <> Throw EEof).
    { induction l0 as [|a l0 IH]; intros h; cbn [push_each]; [discriminate|]. specialize (M h a). destruct (mcp_at h a); cbn [bind]; [apply IH|congruence|discriminate]. }
    assert (Q : forall nd np l h, restore_elems nd np h l <> Throw EEof).
    { induction l0 as [|a l0 IH]; intros h; cbn [restore_elems]; [discriminate|]. specialize (M h a). destruct (mcp_at h a) as [o|x|k]; cbn [bind]; [|congruence|discriminate].
      destruct ((np =? 0) && (0 <? nd)).
      - pose proof (P (add_parent a) (mc_daughters o) h) as P1. destruct (push_each _ _ _); cbn [bind]; [apply IH|congruence|discriminate].
      - destruct ((0 <? np) && (nd =? 0)); cbn [bind]; [|apply IH].
        pose proof (P (add_daughter a) (mc_parents o) h) as P1. destruct (push_each _ _ _); cbn [bind]; [apply IH|congruence|discriminate]. }
    induction cols as [|[n c] cols IH]; intros h; cbn [restore]; [discriminate|]. destruct (_ && _); [|apply IH].
    specialize (C h (c_elems c)). destruct (count_links _ _) as [[nd np]|x|k]; cbn [bind]; [|congruence|discriminate].
    specialize (Q nd np (c_elems c) h). destruct (restore_elems _ _ _ _); cbn [bind]; [apply IH|congruence|discriminate]. }
  specialize (R (ev_cols (le_evt l)) (le_heap l)). destruct (restore _ _) as [h'|x|k]; cbn [bind]; [|congruence|discriminate].
  destruct (_ && _); cbn [bind]; discriminate.
Qed.

(** the lazy reader does the same as the other one until an event record comes *)
Lemma lazily_data ri buf r : record_data uncomp ri buf (lazily r) = (fst (record_data uncomp ri buf r), lazily (snd (record_data uncomp ri buf r))).
Proof. unfold record_data. cbn [lazily rd_comp]. destruct (bind _ _) as [d|x|k]; [|reflexivity..]. destruct (is_compressed _); reflexivity. Qed.
Lemma lazily_header ri buf r : header_step uncomp ri buf (lazily r) = (fst (header_step uncomp ri buf r), lazily (snd (header_step uncomp ri buf r))).
Proof. unfold header_step. rewrite lazily_data. destruct (record_data uncomp ri buf r) as [[d|x|k] r1]; reflexivity. Qed.
Lemma header_keeps ri buf r : let r' := snd (header_step uncomp ri buf r) in rd_lazy r' = rd_lazy r /\ rd_next r' = rd_next r /\ rd_s r' = rd_s r.
Proof.
  unfold header_step, record_data. destruct (bind _ _) as [d|x|k]; cbn [snd]; [|repeat split..]. destruct (is_compressed _); cbn [snd]; repeat split.
Qed.

Lemma data_complete s ri buf buf' s2 : 0 <= ri_hlen ri -> 0 <= ri_dlen ri -> read_record_data s ri buf (ri_hlen ri) = (Ok buf', s2) -> complete ri buf'.
Proof.
  intros H1 H2 H. unfold read_record_data in H. destruct (negb (s_open s)); [discriminate|]. destruct (negb (s_good s)); [discriminate|].
  destruct (negb (s_good (s_seek s _))) eqn:Es; [discriminate|]. destruct (s_read _ _) as [bs s3] eqn:Er. destruct (negb (s_good s3)) eqn:Eg; [discriminate|].
  destruct (negb (s_good (s_seek s3 _))); [discriminate|]. injection H as <- <-. split; [exact H1|]. split; [exact H2|].
  assert (Hp : 0 <= s_pos (s_seek s (ri_start ri + ri_hlen ri))).
  { unfold s_seek, s_good in *. destruct (s_fail s); [discriminate Es|]. destruct (_ <? 0) eqn:E0; [discriminate Es|]. cbn [s_pos]. lia. }
  assert (L : Zlen bs = ri_dlen ri).
  { unfold s_read in Er. rewrite Es in Er. destruct (_ <=? _) eqn:E2 in Er; injection Er as <- <-; [|discriminate Eg].
    unfold s_avail in E2. unfold sub, Zlen in *. rewrite firstn_length, skipn_length. lia. }
  assert (R := resize_length buf (ri_hlen ri + ri_dlen ri) ltac:(lia)). unfold Zlen at 1. rewrite put_length; [exact R|exact H1|lia].
Qed.
Lemma info_nonneg s buf ri buf' s' : read_record_info s buf = (Ok (ri, buf'), s') -> 0 <= ri_hlen ri /\ 0 <= ri_dlen ri.
Proof.
  intros H. unfold read_record_info in H. destruct (negb (s_open s)); [discriminate H|]. destruct (negb (s_good s)); [discriminate H|].
  destruct (s_read s 8) as [b1 s1]. destruct (s_eof s1); [discriminate H|]. destruct (negb (s_good s1)); [discriminate H|]. destruct (negb (_ =? _)); [discriminate H|].
  destruct (s_read s1 _) as [b2 s2]. destruct (_ <? _) in H; [discriminate H|]. destruct (_ <? _) in H; [discriminate H|]. injection H as H _ _. subst ri.
  cbn [ri_hlen ri_dlen]. unfold word_at. split; apply unbe_range.
Qed.

Lemma data_no_ub ri buf r k : fst (record_data uncomp ri buf r) <> UB k.
Proof.
  unfold record_data, span, uncompress. destruct (_ <? _); cbn [bind fst]; [discriminate|]. destruct (is_compressed _); cbn [fst]; [|discriminate].
  destruct (uncomp _); [|discriminate]. destruct (_ <? _); discriminate.
Qed.
Lemma step_kept e ri buf r l r1 : rd_lazy r = false -> event_step uncomp srt e ri buf r = (Ok l, r1) ->
  le_rec l = None /\ rd_s (snd (event_step uncomp srt e ri buf (lazily r))) = rd_s r1.
Proof.
  intros Hz H. unfold event_step in *. rewrite Hz in H. cbn [lazily rd_lazy snd rd_s]. pose proof (data_next ri buf r) as [_ Hs].
  destruct (record_data uncomp ri buf r) as [[data|x|k] r2]; try discriminate H. cbn [snd] in Hs.
  destruct (read_event_record _ _ _ _) as [[[e' h] n']|x|k]; try discriminate H. injection H as <- <-. split; [reflexivity|]. cbn [with_next rd_s]. symmetry. exact Hs.
Qed.
Definition rec_like (next : addr) (E Z : Res unit * evst * reader) : Prop :=
  (exists x st' r', E = (x, st', r') /\ Z = (x, st', lazily r') /\ es_res st' = None /\ rd_lazy r' = false /\ rd_next r' = next) \/
  (exists e ez st1 st2 r' rz, E = (Throw e, st1, r') /\ Z = (Throw ez, st2, rz) /\ e <> EEof /\ ez <> EEof) \/
  (exists e ri buf r0 st0, rd_lazy r0 = false /\ rd_next r0 = next /\ complete ri buf /\
    Z = (Ok tt, mkES (Some e) (Some (kept e ri buf)), snd (event_step uncomp srt e ri buf (lazily r0))) /\
    E = match event_step uncomp srt e ri buf r0 with
        | (Ok l, r1) => (Ok tt, mkES (Some e) (Some l), r1)
        | (Throw x, r1) => (Throw x, st0, r1)
        | (UB k, r1) => (UB k, st0, r1)
        end).
Lemma records_alike f : forall st r, rd_lazy r = false -> es_res st = None ->
  rec_like (rd_next r) (read_records f wanted_rec (evt_func uncomp srt) st r) (read_records f wanted_rec (evt_func uncomp srt) st (lazily r)).
Proof.
  induction f as [|f IH]; intros st r Hz Hs; cbn [read_records].
  - left. do 3 eexists. repeat split; assumption.
  - cbn [lazily rd_s rd_raw]. destruct (read_record_info (rd_s r) (rd_raw r)) as [[[ri buf]|x|k] s1] eqn:Ei.
    2, 3: left; do 3 eexists; (split; [reflexivity|]); (split; [reflexivity|]); repeat split; assumption.
    destruct (info_nonneg _ _ _ _ _ Ei) as [N1 N2]. destruct (wanted_rec ri) eqn:Ew.
    + destruct (read_record_data s1 ri buf (ri_hlen ri)) as [[buf'|x|k] s2] eqn:Ed.
      2, 3: left; do 3 eexists; (split; [reflexivity|]); (split; [reflexivity|]); repeat split; assumption.
      pose proof (data_complete _ _ _ _ _ N1 N2 Ed) as Hc.
      change (with_raw (lazily r) s2 buf') with (lazily (with_raw r s2 buf')). set (ra := with_raw r s2 buf').
      unfold evt_func at 1. unfold evt_func at 2. destruct (is_header ri) eqn:Eh.
      * rewrite lazily_header. pose proof (header_keeps ri buf' ra) as (K1 & K2 & K3).
        destruct (header_step uncomp ri buf' ra) as [[e|x|k] r1]; cbn [fst snd] in *.
        -- change (rd_next r) with (rd_next ra). rewrite <- K2. exact (IH (mkES (Some e) None) r1 ltac:(rewrite K1; exact Hz) eq_refl).
        -- left. do 3 eexists. split; [reflexivity|]. split; [reflexivity|]. split; [exact Hs|]. split; [rewrite K1; exact Hz|rewrite K2; reflexivity].
        -- left. do 3 eexists. split; [reflexivity|]. split; [reflexivity|]. split; [exact Hs|]. split; [rewrite K1; exact Hz|rewrite K2; reflexivity].
      * destruct (is_event ri) eqn:Ee.
        -- destruct (es_evt st) as [e|] eqn:Ev.
           ++ right. right. exists e, ri, buf', ra, st. split; [exact Hz|]. split; [reflexivity|]. split; [exact Hc|]. split; [reflexivity|].
              destruct (event_step uncomp srt e ri buf' ra) as [[l|x|k] r1]; reflexivity.
           ++ right. left. change (rd_lazy (lazily ra)) with true. change (rd_lazy ra) with (rd_lazy r). rewrite Hz. cbn iota.
              pose proof (data_no_eof ri buf' ra) as Hd. pose proof (data_no_ub ri buf' ra) as Hd2. destruct (record_data uncomp ri buf' ra) as [[dd|x|k] r1]; cbn [fst] in *.
              ** do 6 eexists. split; [reflexivity|]. split; [reflexivity|]. split; discriminate.
              ** do 6 eexists. split; [reflexivity|]. split; [reflexivity|]. split; [congruence|discriminate].
              ** exfalso. exact (Hd2 k eq_refl).
        -- left. do 3 eexists. split; [reflexivity|]. split; [reflexivity|]. split; [exact Hs|]. split; [exact Hz|reflexivity].
    + change (with_raw (lazily r) (s_seek s1 (ri_end ri)) buf) with (lazily (with_raw r (s_seek s1 (ri_end ri)) buf)).
      exact (IH st (with_raw r (s_seek s1 (ri_end ri)) buf) Hz Hs).
Qed.

(** one file *)
Definition step_like (next : addr) (readonly : bool) (E Z : Res (option levent) * reader) : Prop :=
  (exists x r', E = (x, r') /\ Z = (x, lazily r') /\ rd_lazy r' = false /\ rd_next r' = next /\ forall l, x <> Ok (Some l)) \/
  (alike uncomp srt ignore_null next readonly E Z /\ fst E <> Throw EEof /\ fst Z <> Throw EEof).
Lemma step_alike readonly r : rd_lazy r = false ->
  step_like (rd_next r) readonly (event_step_all uncomp srt ignore_null r) (event_step_all uncomp srt ignore_null (lazily r)).
Proof.
  intros Hz. unfold event_step_all. fold wanted_rec. change (reader_fuel (lazily r)) with (reader_fuel r).
  destruct (records_alike (reader_fuel r) (mkES None None) r Hz eq_refl) as [(x & st & r' & -> & -> & Hs & H1 & H2)|[(e & ez & st1 & st2 & r' & rz & -> & -> & H1 & H2)|(e & ri & buf & r0 & st0 & H1 & H2 & H3 & -> & ->)]].
  - left. destruct x as [[]|x|k]; [rewrite Hs|..]; do 2 eexists; (split; [reflexivity|]); (split; [reflexivity|]); (split; [assumption|]); (split; [assumption|]); discriminate.
  - right. split; [constructor|]. cbn [fst]. split; congruence.
  - right. cbn [es_res]. unfold finish at 2 4. cbn [kept le_rec bind]. fold (kept e ri buf).
    pose proof (step_no_eof e ri buf r0 H1) as Hn. destruct (event_step uncomp srt e ri buf r0) as [[l|x|k] r1] eqn:El; cbn [fst] in *.
    + cbn [es_res]. pose proof (finish_no_eof l) as Hf. pose proof (step_kept e ri buf r0 l r1 H1 El) as (K1 & K2).
      destruct (finish ignore_null l) as [l'|x|k] eqn:Ef; cbn [bind].
      * split; [|split; discriminate]. apply AL_event; [|eexists; reflexivity|exact K2|].
        -- unfold finish in Ef. rewrite K1 in Ef. destruct (post_process _ _ _); cbn [bind] in Ef; try discriminate Ef. injection Ef as <-. reflexivity.
        -- intros ri' buf' Hr Hi. cbn [kept le_rec] in Hr. injection Hr as <- <-. eexists. split; [apply lazy_event_fresh|]. intros accs Ha.
           exact (run_alike (rd_next r) readonly e ri buf r0 l r1 l' H3 Hi H1 H2 El Ef accs Ha).
      * split; [|split; [cbn [fst]; congruence|discriminate]]. apply AL_late; [eexists; reflexivity|discriminate|].
        intros ri' buf' Hr Hi. cbn [kept le_rec] in Hr. injection Hr as <- <-. eexists. split; [apply lazy_event_fresh|]. intros a Ha.
        pose proof (unpack_fresh (rd_next r) readonly e ri buf r0 l r1 H3 Hi H1 H2 El) as Hu. rewrite Ef in Hu. unfold lazy_do. rewrite Ha.
        destruct (unpack _ _ _ _ _) as [u z]. cbn [fst] in Hu. rewrite Hu. reflexivity.
      * split; [|split; discriminate]. apply AL_late; [eexists; reflexivity|discriminate|].
        intros ri' buf' Hr Hi. cbn [kept le_rec] in Hr. injection Hr as <- <-. eexists. split; [apply lazy_event_fresh|]. intros a Ha.
        pose proof (unpack_fresh (rd_next r) readonly e ri buf r0 l r1 H3 Hi H1 H2 El) as Hu. rewrite Ef in Hu. unfold lazy_do. rewrite Ha.
        destruct (unpack _ _ _ _ _) as [u z]. cbn [fst] in Hu. rewrite Hu. reflexivity.
    + split; [|split; [cbn [fst]; congruence|discriminate]]. apply AL_late; [eexists; reflexivity|discriminate|].
      intros ri' buf' Hr Hi. cbn [kept le_rec] in Hr. injection Hr as <- <-. eexists. split; [apply lazy_event_fresh|]. intros a Ha.
      pose proof (unpack_fails (rd_next r) readonly e ri buf r0 _ r1 H3 Hi H1 H2 El) as Hu. cbn iota in Hu. unfold lazy_do. rewrite Ha.
      destruct (unpack _ _ _ _ _) as [u z]. cbn [fst] in Hu. rewrite Hu. reflexivity.
    + split; [|split; discriminate]. apply AL_late; [eexists; reflexivity|discriminate|].
      intros ri' buf' Hr Hi. cbn [kept le_rec] in Hr. injection Hr as <- <-. eexists. split; [apply lazy_event_fresh|]. intros a Ha.
      pose proof (unpack_fails (rd_next r) readonly e ri buf r0 _ r1 H3 Hi H1 H2 El) as Hu. cbn iota in Hu. unfold lazy_do. rewrite Ha.
      destruct (unpack _ _ _ _ _) as [u z]. cbn [fst] in Hu. rewrite Hu. reflexivity.
Qed.

(** opening the next file *)
Lemma lazily_open d n r : open_file uncomp d n (lazily r) = (fst (open_file uncomp d n r), lazily (snd (open_file uncomp d n r))) /\
  rd_lazy (snd (open_file uncomp d n r)) = rd_lazy r /\ rd_next (snd (open_file uncomp d n r)) = rd_next r.
Proof.
  unfold open_file. destruct (d n) as [data|]; [|repeat split]. unfold get_map. cbn [lazily with_s rd_direct rd_s rd_mgr].
  destruct (rd_direct r) eqn:Ed.
  - destruct (create_map uncomp (open_ifs data) (rd_mgr r)) as [[x s] g].
    destruct x as [a|e|k]; cbn [bind with_mgr with_s rd_files rd_direct lazily fst snd]; [|repeat split..]. destruct (rd_files r); repeat split; rewrite ?Ed; reflexivity.
  - cbn [with_s rd_files lazily fst snd]. destruct (rd_files r); repeat split.
Qed.

Lemma over_like d readonly : forall files r, rd_lazy r = false ->
  step_like (rd_next r) readonly
    (over_files uncomp files d (event_step_all uncomp srt ignore_null) r) (over_files uncomp files d (event_step_all uncomp srt ignore_null) (lazily r)).
Proof.
  induction files as [|files IH]; intros r Hz; cbn [over_files];
    (destruct (step_alike readonly r Hz) as [(x & r' & -> & -> & H1 & H2 & H3)|(H & H1 & H2)];
    [|right; destruct (event_step_all uncomp srt ignore_null r) as [x r1]; destruct (event_step_all uncomp srt ignore_null (lazily r)) as [xz r2]; cbn [fst] in *;
      destruct x as [o|[]|k]; destruct xz as [oz|[]|kz]; try (split; [exact H|split; cbn [fst]; congruence]); congruence]).
  - left. destruct x as [[l|]|e|k]; [exfalso; exact (H3 l eq_refl)|..].
    + do 2 eexists. split; [reflexivity|]. split; [reflexivity|]. split; [exact H1|]. split; [exact H2|discriminate].
    + destruct e; try (do 2 eexists; split; [reflexivity|]; split; [reflexivity|]; split; [exact H1|]; split; [exact H2|discriminate]).
      change (next_file (lazily r')) with (next_file r'). destruct (next_file r'); do 2 eexists; (split; [reflexivity|]); (split; [reflexivity|]); (split; [exact H1|]); (split; [exact H2|discriminate]).
    + do 2 eexists. split; [reflexivity|]. split; [reflexivity|]. split; [exact H1|]. split; [exact H2|discriminate].
  - destruct x as [[l|]|e|k]; [exfalso; exact (H3 l eq_refl)|..].
    + left. do 2 eexists. split; [reflexivity|]. split; [reflexivity|]. split; [exact H1|]. split; [exact H2|discriminate].
    + destruct e; try (left; do 2 eexists; split; [reflexivity|]; split; [reflexivity|]; split; [exact H1|]; split; [exact H2|discriminate]).
      change (next_file (lazily r')) with (next_file r'). destruct (next_file r') as [n|];
        [|left; do 2 eexists; (split; [reflexivity|]); (split; [reflexivity|]); (split; [exact H1|]); (split; [exact H2|discriminate])].
      change (advance (lazily r')) with (lazily (advance r')). destruct (lazily_open d n (advance r')) as (-> & L1 & L2).
      change (rd_lazy (advance r')) with (rd_lazy r') in L1. change (rd_next (advance r')) with (rd_next r') in L2.
      destruct (open_file uncomp d n (advance r')) as [[u|e|k] r2]; cbn [fst snd] in *.
      2, 3: left; do 2 eexists; (split; [reflexivity|]); (split; [reflexivity|]); (split; [congruence|]); (split; [congruence|discriminate]).
      specialize (IH r2 ltac:(congruence)). rewrite L2, H2 in IH.
      destruct IH as [(x & r3 & -> & -> & I1 & I2 & I3)|(I & I1 & I2)].
      * left. destruct x as [[l|]|e|k]; [exfalso; exact (I3 l eq_refl)|..]; try destruct e;
          do 2 eexists; (split; [reflexivity|]); (split; [reflexivity|]); (split; [exact I1|]); (split; [exact I2|discriminate]).
      * right. destruct (over_files uncomp files d (event_step_all uncomp srt ignore_null) r2) as [x r3].
        destruct (over_files uncomp files d (event_step_all uncomp srt ignore_null) (lazily r2)) as [xz r4]. cbn [fst] in *.
        destruct x as [o|[]|k]; destruct xz as [oz|[]|kz]; try (split; [exact I|split; cbn [fst]; congruence]); congruence.
    + left. do 2 eexists. split; [reflexivity|]. split; [reflexivity|]. split; [exact H1|]. split; [exact H2|discriminate].
Qed.
Theorem next_event_alike d readonly r : rd_lazy r = false ->
  alike uncomp srt ignore_null (rd_next r) readonly (read_next_event uncomp srt ignore_null d r) (read_next_event uncomp srt ignore_null d (lazily r)).
Proof.
  intros Hz. unfold read_next_event. change (rd_files (lazily r)) with (rd_files r).
  destruct (over_like d readonly (length (rd_files r)) r Hz) as [(x & r' & -> & -> & _ & _ & H)|(H & _)]; [|exact H].
  destruct x as [[l|]|e|k]; [exfalso; exact (H l eq_refl)|constructor..].
Qed.
End Reading.

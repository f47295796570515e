(** * Repairing files and counting events: proofs *)

From Verif Require Import Bytes StrMap SioModel SioProofs SioSpec SioFrame Ieee ObjModel ObjSpec CollSpec CollProofs ListFacts
  EventModel EventSpec EventProofs PostProofs EventFacts IndexModel IndexSpec IndexProofs FileModel FileFrame IndexFile FileSpec FileWrite FileSessions FileRead FileSeq FileDeliver FileFacts
  FileUse FileDirect FileMore FileCount StreamSpec FileStream CopySpec CopyObj CopySize CopyEvent MergeModel MergeProofs FixModel.

Section Fix.
Context (comp : Z -> bytes -> bytes) (uncomp : bytes -> option bytes) (srt : forall A : Type, (A -> Z) -> list A -> list A)
  (ignore_null : bool) (Hsrt : sort_ok srt).

(** what is read from a file of copies *)
Definition copy_of (level : Z) (w : bytes * witem) (kc : nat * call) : Prop :=
  item_ok (level, item_of_call (snd kc)) /\ item_key (item_of_call (snd kc)) = item_key (snd w) /\
     (forall ig names, readable ig names (snd w) -> readable ig names (item_of_call (snd kc))) /\
     forall names, as_good srt names (snd w) (item_of_call (snd kc)).
Definition reads_as (d : disk) (name : bytes) (W : list (bytes * witem)) : Prop :=
  forall ig names ops raw cbuf mraw next, 0 < next -> Forall (fun w => readable ig names (snd w)) W ->
    trace srt names at_null next (map (fun w => (name, snd w)) W) ops
      (read_all uncomp srt ig d [name] ops (new_reader false false names raw cbuf mraw next)).

Lemma copies_file d out level wraw b1 b2 W cs : codec_ok comp uncomp -> usable wraw -> usable b1 -> usable b2 -> W <> [] ->
  Forall2 (copy_of level) W cs -> runs_close (map (fun w => item_key (snd w)) W) -> Zlen W < 2 ^ 27 ->
  exists d' f, (do w <- open_new d out level wraw; do w' <- write_calls comp w b1 b2 cs; do c <- close_writer w'; Ok (save d (sio_filename out) c)) = Ok d' /\
    (forall n, n <> sio_filename out -> d' n = d n) /\ wf_name f = sio_filename out /\ wf_ok comp uncomp d' f /\
    Forall2 (fun w w' => fst w' = sio_filename out /\ item_key (snd w') = item_key (snd w) /\
       (forall ig names, readable ig names (snd w) -> readable ig names (snd w')) /\ forall names, as_good srt names (snd w) (snd w')) W (wf_items f).
Proof.
  intros HC Uw U1 U2 HWne F HK HL. cbn [bind open_new].
  set (s := mkSess level wraw b1 b2 (map (fun kc => (level, item_of_call (snd kc))) cs)).
  assert (Hlen : Zlen (ss_items s) = Zlen W).
  { cbn [ss_items s]. rewrite Zlen_map. unfold Zlen. rewrite (Forall2_len _ _ _ F). reflexivity. }
  assert (Hitems : Forall item_ok (ss_items s)).
  { cbn [ss_items s]. clear -F. induction F as [|w kc W cs (H & _) F IH]; [constructor|]. constructor; assumption. }
  assert (Hkeys : keys s = map (fun w => item_key (snd w)) W).
  { unfold keys. cbn [ss_items s]. clear -F. induction F as [|w kc W cs (_ & H & _) F IH]; [reflexivity|]. cbn [map]. rewrite IH, <- H. reflexivity. }
  assert (Hs : sess_ok s).
  { split; [exact Uw|]. split; [exact U1|]. split; [exact U2|]. split; [exact Hitems|]. rewrite Hkeys. exact HK. }
  assert (Hsne : ss_items s <> []).
  { intros E. rewrite E in Hlen. unfold Zlen in Hlen. destruct W; [congruence|cbn in Hlen; lia]. }
  assert (Hvol : Zlen (sess_text comp s) < 2 ^ 61).
  { pose proof (text_size comp uncomp b1 b2 (ss_items s) HC U1 U2 Hitems) as T. rewrite Hlen in T. unfold sess_text. cbn [ss_b1 ss_b2 s] in *. cbn [ss_items s] in T |- *. lia. }
  destruct (new_inv comp uncomp d out s HC Hs Hsne) as (data & body & E & Es & S & HN & _); [lia|exact Hvol|].
  pose proof HN as HN'. unfold new_session, run_writer in HN. cbn [bind open_new ss_level ss_raw ss_b1 ss_b2 ss_items s] in HN.
  rewrite (write_calls_eq comp level b1 b2 cs) by reflexivity.
  destruct (write_items comp _ b1 b2 _) as [w'|y|y] eqn:Ew; cbn [bind] in HN |- *; try discriminate.
  destruct (close_writer w') as [c|y|y]; cbn [bind] in HN |- *; try discriminate.
  exists (save d (sio_filename out) data), (mkWF (sio_filename out) s []).
  split; [exact HN|]. split; [|split; [reflexivity|split]].
  - intros n Hnn. unfold save. destruct (bytes_eqb n (sio_filename out)) eqn:Eb; [apply bytes_eqb_eq in Eb; contradiction|reflexivity].
  - split.
    + unfold sessions_ok, wf_sess. cbn [wf_first wf_more]. split; [constructor; [exact Hs|constructor]|]. split; [exact Hsne|].
      cbn [count volume fold_right]. split; [rewrite Z.add_0_r, Hlen; exact HL|rewrite Z.add_0_r; exact Hvol].
    + cbn [wf_name wf_first wf_more]. exists d, (save d (sio_filename out) data), out. split; [reflexivity|]. unfold sessions. rewrite HN'. cbn [bind append_sessions]. split; reflexivity.
  - unfold wf_items, wf_sess, items_of. cbn [wf_name wf_first wf_more flat_map ss_items s]. rewrite app_nil_r, !map_map. cbn [snd].
    clear -F. induction F as [|w kc W cs (_ & H2 & H3 & H4) F IH]; [constructor|]. cbn [map]. constructor; [|exact IH]. cbn [fst snd].
    split; [reflexivity|]. split; [exact H2|]. split; [exact H3|exact H4].
Qed.

Lemma copies_read d' f name W : codec_ok comp uncomp -> wf_name f = name -> wf_ok comp uncomp d' f ->
  Forall2 (fun w w' => fst w' = name /\ item_key (snd w') = item_key (snd w) /\
       (forall ig names, readable ig names (snd w) -> readable ig names (snd w')) /\ forall names, as_good srt names (snd w) (snd w')) W (wf_items f) ->
  reads_as d' name W.
Proof.
  intros HC Hf Hw F ig names ops raw cbuf mraw next Hn' HR'.
  pose proof (read_sequential comp uncomp srt ig d' [f] ops false names raw cbuf mraw next HC ltac:(discriminate) (Forall_cons _ Hw (Forall_nil _))
    (fun E => False_ind _ (Bool.diff_false_true E))) as T.
  cbn [flat_map map] in T. rewrite app_nil_r, Hf in T.
  apply (trace_as_good srt) with (W' := wf_items f).
  - apply T; [|exact Hn']. apply Forall_forall. intros w' Hw'. destruct (Forall2_in_r _ _ _ _ F Hw') as (w & Hin & _ & _ & Hr & _).
    apply Hr. exact (proj1 (Forall_forall _ _) HR' w Hin).
  - clear -F. induction F as [|w w' W W' (H1 & _ & _ & H4) F IH]; [constructor|]. cbn [map]. constructor; [|exact IH].
    split; [symmetry; exact H1|]. apply H4.
Qed.

(** an empty file *)
Lemma empty_read d name : d name = Some [] -> reads_as d name [].
Proof.
  intros Hd ig names ops raw cbuf mraw next Hn _.
  unfold read_all, open_files. cbn [existsb]. rewrite Hd. cbn [orb]. unfold open_file. rewrite Hd. cbn [with_s with_files new_reader rd_direct rd_files].
  set (r := with_s _ _).
  assert (HS : sim uncomp d r (tagged (name, [])) true).
  { exists [], name, [], []. split; [reflexivity|]. split; [reflexivity|]. split; [reflexivity|].
    split; [|split; [right; reflexivity|split; [constructor|cbn [flat_map]; rewrite app_nil_r; reflexivity]]].
    exists [], 0, []. split; [reflexivity|]. split; [apply V_end; [reflexivity|lia]|constructor]. }
  destruct (run_ops_play uncomp srt ig d true ops r _ HS) as (fin & Hfin & Ep); [exact Hn|constructor|].
  rewrite Ep. change (rd_names r) with names. change (rd_next r) with next.
  exact (play_trace comp uncomp srt ig fin true names ops Hfin next _ _ Hn (Forall2_nil _) (Forall_nil _)).
Qed.

Lemma run_strings d f : wf_ok comp uncomp d f -> Forall (fun w => match snd w with WRun h => sm_ok (p_str (rh_par h)) | _ => True end) (wf_items f).
Proof.
  intros [(Hs & _) _]. apply Forall_forall. intros w Hw. unfold wf_items in Hw. apply in_map_iff in Hw. destruct Hw as (i & <- & Hi). cbn [snd].
  unfold items_of in Hi. apply in_flat_map in Hi. destruct Hi as (s & Hs1 & Hi). apply in_map_iff in Hi. destruct Hi as (zi & <- & Hi).
  pose proof (proj1 (Forall_forall _ _) Hs s Hs1) as (_ & _ & _ & Hit & _). pose proof (proj1 (Forall_forall _ _) Hit zi Hi) as Hz. unfold item_ok in Hz.
  destruct (snd zi) as [h|]; [|exact I]. destruct Hz as [(_ & _ & _ & _ & _ & Hp) _]. exact (proj1 (proj2 (proj2 Hp))).
Qed.
Lemma Forall_firstn {A} (P : A -> Prop) m l : Forall P l -> Forall P (firstn m l).
Proof. intros H. rewrite <- (firstn_skipn m l) in H. apply Forall_app in H. exact (proj1 H). Qed.
Lemma count_items l : Zlen (items_of l) = count l.
Proof. induction l as [|s l IH]; [reflexivity|]. unfold items_of in *. cbn [flat_map count fold_right]. rewrite Zlen_app, Zlen_map, IH. reflexivity. Qed.

Theorem repaired d0 d f k out level wraw b1 b2 raw cbuf mraw next data :
  codec_ok comp uncomp -> wf_ok comp uncomp d0 f -> d0 (wf_name f) = Some data -> 0 <= k ->
  d (wf_name f) = Some (firstn (Z.to_nat k) data) -> sio_filename out <> wf_name f ->
  usable wraw -> usable b1 -> usable b2 -> 0 < next ->
  Forall (fun w => readable ignore_null [] (snd w)) (wf_items f) -> Forall (rewritable level) (wf_items f) ->
  runs_close (map (fun w => item_key (snd w)) (wf_items f)) ->
  exists ps m d', located data 0 (texts comp (wf_sess f)) ps /\
    (forall j p t, nth_error ps j = Some p -> nth_error (texts comp (wf_sess f)) j = Some t ->
       ((j < m)%nat -> p + Zlen t <= k + 3) /\ ((m <= j)%nat -> k < p + Zlen t)) /\
    copy_fix comp uncomp srt ignore_null d (wf_name f) out level wraw b1 b2 (new_reader false false [] raw cbuf mraw next) = Ok d' /\
    (forall n, n <> sio_filename out -> d' n = d n) /\
    reads_as d' (sio_filename out) (firstn m (wf_items f)) /\
    (m <> 0%nat -> exists g, wf_name g = sio_filename out /\ wf_ok comp uncomp d' g /\
       map (fun w => item_key (snd w)) (wf_items g) = map (fun w => item_key (snd w)) (firstn m (wf_items f))).
Proof.
  intros HC Hf Hd0 Hk Hd Hout Uw U1 U2 Hn HR HW HK.
  destruct (stream_truncated comp uncomp srt ignore_null d0 d f k 1 max_int [] raw cbuf mraw next data HC Hf Hd0 Hk Hd HR) as (ps & m & Hloc & Hcut & x & cs & next' & HS & Hx).
  { apply Forall_forall. intros w _. destruct (snd w); [exact I|left; apply le_n]. } { exact Hn. } { unfold max_int. lia. }
  rewrite Z.ltb_irrefl in Hx. cbn [andb] in Hx. destruct Hx as [Hx Hst].
  exists ps, m.
  pose proof (streamed_items comp uncomp srt Hsrt level next (firstn m (wf_items f)) next' cs Hst Hn (Forall_firstn _ _ _ HW) (Forall_firstn _ _ _ (run_strings _ _ Hf))) as F.
  unfold stream_files, open_files in HS. cbn [existsb] in HS. rewrite Hd in HS. cbn [orb] in HS.
  unfold copy_fix.
  assert (Eo : open_file uncomp d (wf_name f) (with_files (new_reader false false [] raw cbuf mraw next) [wf_name f] 0) = open_file uncomp d (wf_name f) (new_reader false false [] raw cbuf mraw next)).
  { unfold open_file. rewrite Hd. reflexivity. }
  rewrite Eo in HS. destruct (open_file uncomp d (wf_name f) (new_reader false false [] raw cbuf mraw next)) as [[u|e|e] r1] eqn:Er.
  2: { unfold open_file in Er. rewrite Hd in Er. discriminate Er. }
  2: { unfold open_file in Er. rewrite Hd in Er. discriminate Er. }
  destruct (bytes_eqb (sio_filename out) (wf_name f)) eqn:Eb; [apply bytes_eqb_eq in Eb; contradiction|].
  cbn [run_streams] in HS. change (two31 - 1) with max_int. destruct (read_stream uncomp srt ignore_null d 1 max_int r1) as [[y cs'] r2].
  assert (Ey : y = x /\ cs' = cs) by (injection HS as -> -> _; split; reflexivity). destruct Ey as [-> ->]. clear HS.
  assert (Hres : forall K : Res disk, match x with UB k => UB k | _ => K end = K) by (intros K; destruct Hx as [->|[e ->]]; reflexivity).
  assert (Em : exists d', (do w <- open_new d out level wraw; do w' <- write_calls comp w b1 b2 cs; do c <- close_writer w'; Ok (save d (sio_filename out) c)) = Ok d' /\
    (forall n, n <> sio_filename out -> d' n = d n) /\ reads_as d' (sio_filename out) (firstn m (wf_items f)) /\
    (m <> 0%nat -> exists g, wf_name g = sio_filename out /\ wf_ok comp uncomp d' g /\
       map (fun w => item_key (snd w)) (wf_items g) = map (fun w => item_key (snd w)) (firstn m (wf_items f)))).
  { assert (HWne : wf_items f <> []).
    { destruct Hf as [(_ & Hne & _) _]. unfold wf_items, wf_sess, items_of in *. cbn [flat_map] in *. destruct (ss_items (wf_first f)); [contradiction|]. discriminate. }
    destruct m as [|m'].
    - cbn [firstn] in F |- *. inversion F; subst. exists (save d (sio_filename out) []). split; [reflexivity|].
      split; [intros n Hnn; unfold save; destruct (bytes_eqb n (sio_filename out)) eqn:E; [apply bytes_eqb_eq in E; contradiction|reflexivity]|].
      split; [apply empty_read; unfold save; rewrite bytes_eqb_refl; reflexivity|]. intros H. exfalso. apply H. reflexivity.
    - set (W := firstn (S m') (wf_items f)) in *.
      assert (HWm : W <> []) by (unfold W; destruct (wf_items f); [contradiction|discriminate]).
      destruct (copies_file d out level wraw b1 b2 W cs HC Uw U1 U2 HWm F) as (d' & g & E1 & E2 & E3 & E4 & E5).
      { assert (Hsub : forall a, In a (map (fun w => item_key (snd w)) W) -> In a (map (fun w => item_key (snd w)) (wf_items f))).
        { intros a Ha. rewrite <- (firstn_skipn (S m') (wf_items f)), map_app. apply in_or_app. left. exact Ha. }
        intros a b Ha Hb. apply HK; apply Hsub; assumption. }
      { destruct Hf as [(_ & _ & Hcnt & _) _]. rewrite <- count_items in Hcnt. unfold W, Zlen. rewrite firstn_length. unfold wf_items. rewrite map_length. unfold Zlen in Hcnt. lia. }
      exists d'. split; [exact E1|]. split; [exact E2|]. split; [eapply copies_read; eassumption|]. intros _. exists g. split; [exact E3|]. split; [exact E4|].
      clear -E5. induction E5 as [|w w' W W' (_ & H & _) _ IH]; [reflexivity|]. cbn [map]. rewrite IH, H. reflexivity. }
  destruct Em as (d' & E1 & E2 & E3 & E4). exists d'. split; [exact Hloc|]. split; [exact Hcut|].
  split; [|split; [exact E2|split; [exact E3|exact E4]]].
  cbn [bind open_new] in E1 |- *. destruct Hx as [->|[e ->]]; exact E1.
Qed.

(** ** Counting *)

Theorem counted d files raw cbuf mraw next : codec_ok comp uncomp -> Forall (wf_ok comp uncomp d) files ->
  Forall (fun f => Forall (sess_covers comp) (wf_sess f) /\ numbered (items_of (wf_sess f))) files ->
  count_files uncomp d (new_reader false false [] raw cbuf mraw next) (map wf_name files) =
    Ok (Zlen (item_events (map snd (flat_map wf_items files)))).
Proof.
  intros HC. unfold count_files.
  assert (G : forall files total, Forall (wf_ok comp uncomp d) files -> Forall (fun f => Forall (sess_covers comp) (wf_sess f) /\ numbered (items_of (wf_sess f))) files ->
    count_loop uncomp d (new_reader false false [] raw cbuf mraw next) total (map wf_name files) = Ok (total + Zlen (item_events (map snd (flat_map wf_items files))))).
  { clear files. induction files as [|f files IH]; intros total Fw Fn; [cbn; f_equal; lia|]. cbn [map count_loop flat_map].
    destruct (counts comp uncomp d f false [] raw cbuf mraw next HC (Forall_inv Fw) (proj1 (Forall_inv Fn)) (proj2 (Forall_inv Fn))) as (r & r1 & E1 & E2 & _).
    rewrite E1, E2. cbn [fst bind]. rewrite (IH _ (Forall_inv_tail Fw) (Forall_inv_tail Fn)). f_equal. rewrite map_app.
    assert (E : map snd (wf_items f) = items_of (wf_sess f)) by (unfold wf_items; rewrite map_map; apply map_id). rewrite E.
    assert (Ea : forall a b, item_events (a ++ b) = item_events a ++ item_events b) by (intros a b; unfold item_events; apply flat_map_app).
    rewrite Ea, Zlen_app. lia. }
  intros Fw Fn. apply (G files 0 Fw Fn).
Qed.

(** a file that does not exist, behind files that can be counted *)
Theorem counted_missing d files n more raw cbuf mraw next : codec_ok comp uncomp -> Forall (wf_ok comp uncomp d) files ->
  Forall (fun f => Forall (sess_covers comp) (wf_sess f) /\ numbered (items_of (wf_sess f))) files -> d n = None ->
  count_files uncomp d (new_reader false false [] raw cbuf mraw next) (map wf_name files ++ n :: more) = Throw ENotOpen.
Proof.
  intros HC Fw Fn Hn. unfold count_files. generalize 0. induction files as [|f files IH]; intros total; cbn [map app count_loop].
  - unfold open_file. rewrite Hn. reflexivity.
  - destruct (counts comp uncomp d f false [] raw cbuf mraw next HC (Forall_inv Fw) (proj1 (Forall_inv Fn)) (proj2 (Forall_inv Fn))) as (r & r1 & E1 & E2 & _).
    rewrite E1, E2. cbn [fst bind]. apply (IH (Forall_inv_tail Fw) (Forall_inv_tail Fn)).
Qed.

End Fix.

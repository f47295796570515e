(** * What files give back *)

From Verif Require Import Bytes StrMap SioModel SioProofs SioRecord SioRead SioFrame SioSpec Ieee ObjModel ObjSpec ObjProofs ObjCalls CollSpec
  CollProofs ListFacts EventModel EventSpec EventProofs PostProofs EventFacts IndexModel IndexSpec IndexProofs FileModel FileFrame IndexFile IndexFacts FileSpec FileWrite FileSessions FileRead FileSeq FileDeliver.

Section Codec.
Context (comp : Z -> bytes -> bytes) (uncomp : bytes -> option bytes) (srt : forall A : Type, (A -> Z) -> list A -> list A) (ignore_null : bool).

(** ** Complete files *)

Lemma file_content d f : codec_ok comp uncomp -> wf_ok comp uncomp d f ->
  exists S, content uncomp d (wf_name f) S /\ Forall2 stored_in (wf_items f) (tagged (wf_name f, S)) /\
    (Forall (sess_covers comp) (wf_sess f) -> exists data body fr c, d (wf_name f) = Some data /\ closed data body fr c).
Proof.
  intros Hc (Hs & Hm). destruct (made_inv comp uncomp d (wf_name f) (wf_first f) (wf_more f) Hc Hs Hm) as (data & body & E & Es & S & Hd & Hi).
  exists S. split; [eapply inv_content; eassumption|]. split.
  - pose proof (inv_stored comp uncomp _ _ _ _ _ _ Hi (proj1 Hs)) as F. unfold wf_items, wf_sess, tagged. cbn [fst snd].
    clear -F. induction F as [|i s W S H _ IH]; [constructor|]. cbn [map]. constructor; [|exact IH]. split; [reflexivity|exact H].
  - intros Hcv. destruct (inv_closed comp uncomp _ _ _ _ _ _ Hi Hcv) as (fr & Hcl). exists data, body, fr. eexists. split; [exact Hd|exact Hcl].
Qed.

Lemma files_content d files : codec_ok comp uncomp -> Forall (wf_ok comp uncomp d) files ->
  exists L, map fst L = map wf_name files /\ Forall (fun nS => content uncomp d (fst nS) (snd nS)) L /\
    Forall2 stored_in (flat_map wf_items files) (flat_map tagged L).
Proof.
  intros Hc. induction 1 as [|f files Hf _ (L & E & F & G)]; [exists []; repeat split; constructor|].
  destruct (file_content d f Hc Hf) as (S & A & B & _). exists ((wf_name f, S) :: L). cbn [map fst flat_map]. rewrite E.
  split; [reflexivity|]. split; [constructor; assumption|]. apply Forall2_app; assumption.
Qed.

Lemma files_sim d files direct names raw cbuf mraw next : codec_ok comp uncomp -> files <> [] -> Forall (wf_ok comp uncomp d) files ->
  (direct = true -> match files with f :: _ => Forall (sess_covers comp) (wf_sess f) | [] => True end) ->
  exists L r, open_files uncomp d (map wf_name files) (new_reader direct false names raw cbuf mraw next) = (Ok tt, r) /\
    sim uncomp d r L true /\ rd_names r = names /\ rd_next r = next /\ Forall2 stored_in (flat_map wf_items files) L.
Proof.
  intros Hc Hne Hok Hdir. destruct files as [|f files]; [contradiction|]. inversion Hok as [|? ? Hf Hfs]; subst.
  destruct (file_content d f Hc Hf) as (S & A & B & C). destruct (files_content d files Hc Hfs) as (L & E & F & G).
  destruct (open_sim uncomp d (wf_name f) S L direct names raw cbuf mraw next A F) as (r & O & HS & N1 & N2).
  { intros Hd. exact (C (Hdir Hd)). }
  exists (tagged (wf_name f, S) ++ flat_map tagged L), r. cbn [map]. rewrite <- E. split; [exact O|]. split; [exact HS|]. split; [exact N1|]. split; [exact N2|].
  cbn [flat_map]. apply Forall2_app; assumption.
Qed.

Lemma all_good names W L : Forall2 stored_in W L -> Forall (fun w => readable ignore_null names (snd w)) W -> Forall (fun x => good_item srt ignore_null names (snd x)) L.
Proof.
  induction 1 as [|w x W L [_ H] _ IH]; intros F; [constructor|]. inversion F; subst. constructor; [|apply IH; assumption].
  eapply (stored_good comp uncomp); eassumption.
Qed.

(** reading files from the beginning to the end *)
Theorem read_sequential d files ops direct names raw cbuf mraw next :
  codec_ok comp uncomp -> files <> [] -> Forall (wf_ok comp uncomp d) files ->
  (direct = true -> match files with f :: _ => Forall (sess_covers comp) (wf_sess f) | [] => True end) ->
  Forall (fun w => readable ignore_null names (snd w)) (flat_map wf_items files) -> 0 < next ->
  trace srt names at_null next (flat_map wf_items files) ops
    (read_all uncomp srt ignore_null d (map wf_name files) ops (new_reader direct false names raw cbuf mraw next)).
Proof.
  intros Hc Hne Hok Hdir HR Hp. destruct (files_sim d files direct names raw cbuf mraw next Hc Hne Hok Hdir) as (L & r & O & HS & N1 & N2 & F).
  unfold read_all. rewrite O. destruct (run_ops_play uncomp srt ignore_null d true ops r L HS) as (fin & Hfin & E); [lia|rewrite N1; eapply all_good; eassumption|].
  rewrite E, N1, N2. exact (play_trace comp uncomp srt ignore_null fin true names ops Hfin next _ _ Hp F HR).
Qed.

(** ** Files that are cut off *)

Lemma whole_tail k x l : Forall f_ok (x :: l) -> k < Zlen (f_core x) -> whole k (x :: l) = [].
Proof. intros _ H. cbn [whole]. replace (_ <=? k) with false by lia. reflexivity. Qed.
Lemma core_size x : Zlen (f_core x) = f_size x - f_pad x.
Proof. rewrite f_core_len. unfold f_size. lia. Qed.

Lemma layout_cut pos l E T S tl : layout uncomp pos l E T S -> Forall f_ok l -> Forall (fun x => plain_name (f_name x) = true) tl -> forall k,
  exists m, stores uncomp (whole (k - pos) (l ++ tl)) (firstn m S) /\
    forall j e t, nth_error E j = Some e -> nth_error T j = Some t ->
      ((j < m)%nat -> snd e + Zlen t <= k + 3) /\ ((m <= j)%nat -> k < snd e + Zlen t).
Proof.
  induction 1 as [pos|pos x l E T S H1 H2 IH|pos recs s key l E T S H1 H2 IH]; intros F Ht k; cbn [app].
  - exists 0%nat. split; [|intros [|j] e t; discriminate]. generalize (k - pos). clear -Ht. induction Ht as [|x tl Hx _ IH]; intros k; [constructor|].
    cbn [whole firstn]. destruct (_ <=? k); [apply S_other; [exact Hx|apply (IH (k - f_size x))]|constructor].
  - inversion F as [|? ? Hx Fl]; subst. cbn [whole]. pose proof (core_size x) as Hcs. pose proof (f_pad_range x) as Hp.
    destruct (Z.leb_spec (Zlen (f_core x)) (k - pos)) as [Hle|Hlt].
    + destruct (IH Fl Ht k) as (m & A & B). exists m. split; [|exact B]. apply S_other; [exact H1|]. replace (k - pos - f_size x) with (k - (pos + f_size x)) by lia. exact A.
    + exists 0%nat. split; [constructor|]. intros j e t He Hn. split; [lia|]. intros _. apply nth_error_In in He.
      pose proof (layout_nonneg comp uncomp _ _ _ _ _ H2 Fl e He). pose proof (Zlen_nonneg t). lia.
  - apply Forall_app in F. destruct F as [Fr Fl].
    assert (Hfar : k < pos + Zlen (ftext recs) -> forall j e t, nth_error ((key, pos) :: E) j = Some e -> nth_error (ftext recs :: T) j = Some t -> k < snd e + Zlen t).
    { intros Hk [|j] e t He Hn; cbn [nth_error] in *; [injection He as <-; injection Hn as <-; exact Hk|].
      apply nth_error_In in He. pose proof (layout_nonneg comp uncomp _ _ _ _ _ H2 Fl e He). pose proof (Zlen_nonneg t). lia. }
    assert (Hnear : pos + Zlen (ftext recs) <= k + 3 -> forall m, (forall j e t, nth_error E j = Some e -> nth_error T j = Some t ->
        ((j < m)%nat -> snd e + Zlen t <= k + 3) /\ ((m <= j)%nat -> k < snd e + Zlen t)) ->
      forall j e t, nth_error ((key, pos) :: E) j = Some e -> nth_error (ftext recs :: T) j = Some t ->
        ((j < Datatypes.S m)%nat -> snd e + Zlen t <= k + 3) /\ ((Datatypes.S m <= j)%nat -> k < snd e + Zlen t)).
    { intros Hk m B [|j] e t He Hn; cbn [nth_error] in *; [injection He as <-; injection Hn as <-; cbn [snd]; split; [lia|lia]|].
      destruct (B j e t He Hn) as [B1 B2]. split; [intros; apply B1; lia|intros; apply B2; lia]. }
    destruct (IH Fl Ht k) as (m & A & B).
    destruct s as [h|hd ed].
    + destruct H1 as (x & d & -> & Hn & Hd & Hh). cbn [app whole]. pose proof (core_size x) as Hcs. pose proof (f_pad_range x) as Hp.
      assert (El : Zlen (ftext [x]) = f_size x) by (cbn [ftext flat_map]; rewrite app_nil_r; apply f_bytes_len). rewrite El in *.
      destruct (Z.leb_spec (Zlen (f_core x)) (k - pos)) as [Hle|Hlt].
      * exists (Datatypes.S m). split; [|apply Hnear; [lia|exact B]]. cbn [firstn]. eapply S_run; try eassumption.
        replace (k - pos - f_size x) with (k - (pos + f_size x)) by lia. exact A.
      * exists 0%nat. split; [constructor|]. intros j e t He Ht'. split; [lia|]. intros _. eapply Hfar; try eassumption. lia.
    + destruct H1 as (x & y & -> & Hn & Hd & Hg & Hn2 & Hd2). cbn [app whole]. pose proof (core_size x) as Hcs. pose proof (f_pad_range x) as Hp.
      pose proof (core_size y) as Hcs'. pose proof (f_pad_range y) as Hp'.
      assert (El : Zlen (ftext [x; y]) = f_size x + f_size y) by (cbn [ftext flat_map]; rewrite app_nil_r, Zlen_app, !f_bytes_len; reflexivity). rewrite El in *.
      inversion Fr as [|? ? Hx Fr']; subst. inversion Fr' as [|? ? Hy _]; subst. pose proof (f_size_pos y Hy).
      destruct (Z.leb_spec (Zlen (f_core x)) (k - pos)) as [Hle|Hlt].
      * destruct (Z.leb_spec (Zlen (f_core y)) (k - pos - f_size x)) as [Hle2|Hlt2].
        -- exists (Datatypes.S m). split; [|apply Hnear; [lia|exact B]]. cbn [firstn]. eapply S_evt; try eassumption.
           replace (k - pos - f_size x - f_size y) with (k - (pos + (f_size x + f_size y))) by lia. exact A.
        -- exists 0%nat. split; [eapply S_hdr; eassumption|]. intros j e t He Ht'. split; [lia|]. intros _. eapply Hfar; try eassumption. lia.
      * exists 0%nat. split; [constructor|]. intros j e t He Ht'. split; [lia|]. intros _. eapply Hfar; try eassumption. lia.
Qed.

Lemma layout_located pos l E T S : layout uncomp pos l E T S -> forall pre tail from, Zlen pre = pos -> 0 <= from <= pos ->
  located (pre ++ ftext l ++ tail) from T (map snd E).
Proof.
  induction 1 as [pos|pos x l E T S H1 H2 IH|pos recs s key l E T S H1 H2 IH]; intros pre tail from Hp Hf.
  - exact I.
  - change (ftext (x :: l)) with (f_bytes x ++ ftext l). rewrite <- app_assoc, (app_assoc pre). pose proof (f_bytes_len x). pose proof (Zlen_nonneg (f_bytes x)).
    apply IH; [rewrite Zlen_app; lia|lia].
  - cbn [map snd located]. rewrite ftext_app, <- app_assoc. pose proof (Zlen_nonneg (ftext recs)).
    split; [lia|]. split; [rewrite !Zlen_app; pose proof (Zlen_nonneg (ftext l)); pose proof (Zlen_nonneg tail); lia|].
    split; [rewrite <- Hp; apply sub_mid; reflexivity|]. rewrite (app_assoc pre). apply IH; [rewrite Zlen_app; lia|lia].
Qed.

Theorem read_truncated d0 d f k ops names raw cbuf mraw next data :
  codec_ok comp uncomp -> wf_ok comp uncomp d0 f -> d0 (wf_name f) = Some data -> 0 <= k ->
  d (wf_name f) = Some (firstn (Z.to_nat k) data) ->
  Forall (fun w => readable ignore_null names (snd w)) (wf_items f) -> 0 < next ->
  exists ps m, located data 0 (texts comp (wf_sess f)) ps /\
    (forall j p t, nth_error ps j = Some p -> nth_error (texts comp (wf_sess f)) j = Some t ->
       ((j < m)%nat -> p + Zlen t <= k + 3) /\ ((m <= j)%nat -> k < p + Zlen t)) /\
    trace srt names null_or_exn next (firstn m (wf_items f)) ops
      (read_all uncomp srt ignore_null d [wf_name f] ops (new_reader false false names raw cbuf mraw next)).
Proof.
  intros Hc (Hs & Hm) Hd0 Hk Hd HR Hp.
  destruct (made_inv comp uncomp d0 (wf_name f) (wf_first f) (wf_more f) Hc Hs Hm) as (data' & body & E & Es & S & Hd' & Hi).
  rewrite Hd0 in Hd'. injection Hd' as <-.
  pose proof (inv_stored comp uncomp _ _ _ _ _ _ Hi (proj1 Hs)) as FS.
  destruct Hi as (lb & fra & fr & xa & a & I1 & I2 & I3 & I4 & I5 & _).
  fold (wf_sess f) in I5, FS.
  destruct (layout_cut 0 lb E (texts comp (wf_sess f)) S [fra] I5 I3) with (k := k) as (m & Hst & Hb).
  { constructor; [exact (proj1 (access_name _ _ I4))|constructor]. }
  exists (map snd E), m. split.
  { rewrite I2, I1. change (ftext lb ++ f_bytes fra) with ([] ++ ftext lb ++ f_bytes fra). apply (layout_located 0 lb E _ S I5); [reflexivity|lia]. }
  split.
  { intros j p t Hj Ht. rewrite nth_error_map in Hj. destruct (nth_error E j) as [e|] eqn:Ee; [|discriminate]. injection Hj as <-. exact (Hb j e t Ee Ht). }
  assert (Hfo : Forall f_ok (lb ++ [fra])) by (apply Forall_app; split; [exact I3|constructor; [exact (proj2 (access_name _ _ I4))|constructor]]).
  destruct (view_truncated (lb ++ [fra]) [] k Hfo Hk) as (c & V).
  rewrite Z.sub_0_r in Hst.
  assert (Edata : data = ftext (lb ++ [fra])) by (rewrite I2, I1, ftext_app; cbn [ftext flat_map]; rewrite app_nil_r; reflexivity).
  rewrite <- Edata in V. cbn [app] in V. change (Zlen []) with 0 in V.
  unfold read_all, open_files. cbn [existsb]. rewrite Hd. cbn [orb]. unfold open_file. rewrite Hd. cbn [with_s with_files new_reader rd_direct rd_files].
  set (r := with_s _ _).
  assert (HS : sim uncomp d r (tagged (wf_name f, firstn m S)) c).
  { exists [], (wf_name f), (firstn m S), []. split; [reflexivity|]. split; [reflexivity|]. split; [reflexivity|].
    split; [|split; [right; reflexivity|split; [constructor|cbn [flat_map]; rewrite app_nil_r; reflexivity]]].
    exists (firstn (Z.to_nat k) data), 0, (whole k (lb ++ [fra])). split; [reflexivity|]. split; assumption. }
  assert (FL : Forall2 stored_in (firstn m (wf_items f)) (tagged (wf_name f, firstn m S))).
  { unfold wf_items, tagged. cbn [fst snd]. clear -FS. revert m. induction FS as [|i s W S H _ IH]; intros [|m]; try constructor; [split; [reflexivity|exact H]|]. apply IH. }
  assert (HRm : Forall (fun w => readable ignore_null names (snd w)) (firstn m (wf_items f))).
  { apply Forall_forall. intros w Hw. rewrite Forall_forall in HR. apply HR. rewrite <- (firstn_skipn m). apply in_or_app. left. exact Hw. }
  destruct (run_ops_play uncomp srt ignore_null d c ops r _ HS) as (fin & Hfin & Ep); [exact Hp|eapply all_good; eassumption|].
  rewrite Ep. change (rd_names r) with names. change (rd_next r) with next.
  assert (Hfin' : fin_ok false fin) by (destruct c; [rewrite Hfin; intros b; left; reflexivity|exact Hfin]).
  exact (play_trace comp uncomp srt ignore_null fin false names ops Hfin' next _ _ Hp FL HRm).
Qed.
End Codec.

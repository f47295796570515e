(** * Splitting files and adding an index: proofs *)

From Verif Require Import Bytes StrMap SioModel SioProofs SioSpec SioFrame Ieee ObjModel ObjSpec CollSpec CollProofs ListFacts
  EventModel EventSpec EventProofs PostProofs EventFacts IndexModel IndexSpec IndexProofs FileModel FileFrame IndexFile FileSpec FileWrite FileSessions FileRead FileSeq FileDeliver FileFacts
  FileUse FileDirect StreamSpec FileStream BitModel BitSpec SplitModel SplitSpec SplitProofs CopySpec CopyObj CopySize CopyEvent MergeModel MergeProofs.

(** ** Splitting *)

Section Splitting.
Context (comp : Z -> bytes -> bytes) (uncomp : bytes -> option bytes) (b1 b2 : buffer) (srt : forall A : Type, (A -> Z) -> list A -> list A)
  (ignore_null : bool) (Hsrt : sort_ok srt).

Lemma run_done l o : forall s s', sp_run comp b1 b2 s (l ++ [o]) = Ok (repeat Done (length l + 1), s') ->
  exists s1, split_calls comp b1 b2 s l = Ok (Done, s1) /\ sp_step comp b1 b2 s1 o = Ok (Done, s').
Proof.
  induction l as [|x l IH]; intros s s' H; cbn [app sp_run split_calls length repeat plus] in *.
  - destruct (sp_step comp b1 b2 s o) as [[a s1]|e|k] eqn:E; cbn [bind] in H; try discriminate. injection H as -> ->. exists s. split; [reflexivity|exact E].
  - destruct (sp_step comp b1 b2 s x) as [[a s1]|e|k]; cbn [bind] in H |- *; try discriminate.
    destruct (sp_run comp b1 b2 s1 (l ++ [o])) as [[as' s2]|e|k] eqn:E; cbn [bind] in H; try discriminate. injection H as -> -> ->. apply IH. exact E.
Qed.
Lemma regroup {A B} (R : A -> B -> Prop) : forall gs l, Forall2 R l (concat gs) -> exists gl, concat gl = l /\ Forall2 (Forall2 R) gl gs.
Proof.
  induction gs as [|g gs IH]; intros l F; cbn [concat] in F.
  - inversion F; subst. exists []. split; [reflexivity|constructor].
  - apply Forall2_app_inv_r in F. destruct F as (l1 & l2 & F1 & F2 & ->). destruct (IH l2 F2) as (gl & <- & G). exists (l1 :: gl). split; [reflexivity|constructor; assumption].
Qed.
Lemma written_calls level (f : nat * call -> witem) cs : written level (map (fun kc => SWrite (f kc)) cs) = map (fun kc => (level, f kc)) cs.
Proof. induction cs as [|kc cs IH]; [reflexivity|]. cbn [map written]. rewrite IH. reflexivity. Qed.

Theorem split_file_ok d f base max level wraw raw cbuf mraw next :
  codec_ok comp uncomp -> usable wraw -> usable b1 -> usable b2 -> wf_ok comp uncomp d f -> 0 < next -> 0 <= max ->
  Forall (fun w => readable ignore_null [] (snd w)) (wf_items f) -> Forall (rewritable level) (wf_items f) ->
  runs_close (map (fun w => item_key (snd w)) (wf_items f)) -> Zlen (wf_items f) < 2 ^ 27 ->
  base <> [] -> Zlen base + 6 < two32 -> free d base (str ".slcio") (Zlen (wf_items f)) ->
  exists d' names groups,
    split_file comp uncomp srt ignore_null d (wf_name f) (base ++ str ".slcio") max level wraw b1 b2 (new_reader false false [] raw cbuf mraw next) = Ok (Done, d') /\
    concat groups = map snd (wf_items f) /\ length names = length groups /\ NoDup names /\
    (forall k n, nth_error names k = Some n -> file_number base (str ".slcio") (Z.of_nat k) n) /\
    (forall n, ~ In n names -> d' n = d n) /\
    (exists copies, Forall2 (fun g c => length g = length c /\ Forall (fun zi => fst zi = level) c) groups copies /\
      Forall2 (holds_items comp uncomp b1 b2 d') names copies /\ split_at comp b1 b2 max copies) /\
    forall ig tags ops raw' cbuf' mraw' next', 0 < next' -> Forall (fun w => readable ig tags (snd w)) (wf_items f) ->
      trace srt tags at_null next' (flat_map (fun ng => map (pair (fst ng)) (snd ng)) (combine names groups)) ops
        (read_all uncomp srt ig d' names ops (new_reader false false tags raw' cbuf' mraw' next')).
Proof.
  intros HC Uw U1 U2 Hf Hn Hmax HR HW HK HL Hb Hbl Hfree.
  destruct (delivered comp uncomp srt ignore_null Hsrt d [f] level raw cbuf mraw next HC ltac:(discriminate) (Forall_cons _ Hf (Forall_nil _)) Hn) as (u & r1 & r2 & cs & HO & HS & HWne & F);
    [cbn [flat_map]; rewrite app_nil_r; exact HR|cbn [flat_map]; rewrite app_nil_r; exact HW|].
  cbn [flat_map map] in HO, HWne, F. rewrite app_nil_r in HWne, F. set (W := wf_items f) in *.
  set (its := map (fun kc => (level, item_of_call (snd kc))) cs). set (ops0 := map (fun kc : nat * call => SWrite (item_of_call (snd kc))) cs).
  set (s := new_split d wraw level max).
  assert (Ewr : written (sp_level s) ops0 = its) by (cbn [s new_split sp_level]; apply written_calls).
  assert (Hlen : Zlen its = Zlen W) by (unfold its; rewrite Zlen_map; unfold Zlen; rewrite (MergeProofs.Forall2_len _ _ _ F); reflexivity).
  assert (Hitems : Forall item_ok its).
  { unfold its. clear -F. induction F as [|w kc W cs (H & _) F IH]; [constructor|]. constructor; assumption. }
  assert (Hkeys : map (fun zi => item_key (snd zi)) its = map (fun w => item_key (snd w)) W).
  { unfold its. clear -F. induction F as [|w kc W cs (_ & H & _) F IH]; [reflexivity|]. cbn [map]. rewrite IH, <- H. reflexivity. }
  assert (Hg : group_ok comp b1 b2 its).
  { split; [exact Hitems|]. split; [rewrite Hkeys; exact HK|]. split; [lia|]. pose proof (text_size comp uncomp b1 b2 its HC U1 U2 Hitems) as T. rewrite Hlen in T. unfold size_of. lia. }
  assert (Hine : its <> []). { intros E. rewrite E in Hlen. unfold Zlen in Hlen. destruct W; [congruence|cbn in Hlen; lia]. }
  destruct (split_session comp uncomp b1 b2 HC U1 U2 base max d s ops0) as (s' & names & groups & HRun & HSp & _).
  { split; [reflexivity|]. exists wraw. split; [exact Uw|reflexivity]. } { reflexivity. } { cbn [s new_split sp_last]. lia. } { reflexivity. } { exact Hb. } { exact Hbl. }
  { unfold ops0. apply Forall_map. apply Forall_forall. intros kc _. exact I. } { rewrite Ewr. exact Hg. } { rewrite Ewr, Hlen. exact Hfree. }
  rewrite Ewr in HSp. pose proof HSp as (S1 & S2 & S3 & S4 & S5 & S6 & S7).
  assert (FW : Forall2 (fun w zi => (forall ig names, readable ig names (snd w) -> readable ig names (snd zi)) /\ forall names, as_good srt names (snd w) (snd zi)) W (concat groups)).
  { rewrite S1. unfold its. clear -F. induction F as [|w kc W cs (_ & _ & H3 & H4) F IH]; [constructor|]. constructor; [split; assumption|exact IH]. }
  destruct (regroup _ groups W FW) as (gw & Ew & Fg). pose proof (MergeProofs.Forall2_len _ _ _ Fg) as Lg. pose proof (MergeProofs.Forall2_len _ _ _ S5) as Ln.
  exists (sp_disk s'), names, (map (map snd) gw). split; [|split; [|split; [|split; [|split; [|split; [|split]]]]]].
  - unfold split_file. rewrite HO. change (new_split d wraw level max) with s. cbn [sp_run] in HRun.
    replace (length ops0 + 2)%nat with (S (length ops0 + 1)) in HRun by lia. cbn [repeat] in HRun.
    change extension with (str ".slcio") in HRun.
    destruct (sp_step comp b1 b2 s (SOpen (base ++ str ".slcio"))) as [[a0 s0]|e|k]; cbn [bind] in HRun |- *; try discriminate.
    destruct (sp_run comp b1 b2 s0 (ops0 ++ [SClose])) as [[as' s2]|e|k] eqn:E; cbn [bind] in HRun; try discriminate. injection HRun as -> -> ->.
    destruct (run_done ops0 SClose s0 s' E) as (s1 & E1 & E2). change (two31 - 1) with max_int. rewrite HS. fold ops0. rewrite E1. cbn [bind]. rewrite E2. reflexivity.
  - rewrite <- concat_map, Ew. reflexivity.
  - rewrite map_length, Lg. exact Ln.
  - exact S4.
  - exact S3.
  - exact S7.
  - exists groups. split; [|split; [exact S5|exact S6]].
    assert (HL' : Forall (Forall (fun zi => fst zi = level)) groups).
    { apply Forall_forall. intros g Hin. apply Forall_forall. intros zi Hz. assert (Hc : In zi its) by (rewrite <- S1; apply in_concat; exists g; split; assumption).
      unfold its in Hc. apply in_map_iff in Hc. destruct Hc as (kc & <- & _). reflexivity. }
    clear -Fg HL'. induction Fg as [|g g' gw groups H Fg IH]; [constructor|]. inversion HL'; subst. cbn [map]. constructor; [|apply IH; assumption].
    split; [|assumption]. rewrite map_length. exact (MergeProofs.Forall2_len _ _ _ H).
  - intros ig tags ops raw' cbuf' mraw' next' Hn' HR'.
    destruct (read_split comp uncomp b1 b2 HC U1 U2 srt ig base max its d (sp_disk s') names groups ops tags raw' cbuf' mraw' next' Hg Hine Hmax HSp) as [_ T]; [|exact Hn'|].
    { rewrite <- S1. apply Forall_forall. intros zi Hzi. destruct (Forall2_in_r _ _ _ _ FW Hzi) as (w & Hw & Hr & _). apply Hr. exact (proj1 (Forall_forall _ _) HR' w Hw). }
    refine (trace_as_good srt tags at_null next' _ ops _ T _ _). clear -Fg Ln Lg. revert names Ln. unfold labelled.
    induction Fg as [|g g' gw groups H Fg IH]; intros names Ln; [destruct names; constructor|]. destruct names as [|n names]; [discriminate Ln|].
    cbn [map combine flat_map]. apply Forall2_app; [|apply IH; [injection Lg as Lg; exact Lg|injection Ln as Ln; exact Ln]]. cbn [fst snd].
    clear -H. induction H as [|w zi g g' [_ H1] H IH]; [constructor|]. cbn [map]. constructor; [|exact IH]. split; [reflexivity|apply H1].
Qed.
End Splitting.

(** ** Adding an index *)

Section Index.
Context (comp : Z -> bytes -> bytes) (uncomp : bytes -> option bytes).

(** a session in which nothing is written *)
Definition no_items (level : Z) (raw : buffer) : sess := mkSess level raw raw raw [].
Lemma no_items_append d name level raw : append_session comp uncomp d name (no_items level raw) = add_access uncomp d name level raw.
Proof. reflexivity. Qed.
Lemma append_last d name l s : append_sessions comp uncomp d name (l ++ [s]) = do d' <- append_sessions comp uncomp d name l; append_session comp uncomp d' name s.
Proof.
  revert d. induction l as [|x l IH]; intros d; cbn [app append_sessions].
  - cbn [bind]. destruct (append_session comp uncomp d name s); reflexivity.
  - destruct (append_session comp uncomp d name x); cbn [bind]; [apply IH|reflexivity|reflexivity].
Qed.
(** only the file itself matters *)
Lemma add_access_eq d d1 name name1 level raw d2 : sio_filename name = sio_filename name1 -> d (sio_filename name) = d1 (sio_filename name) ->
  add_access uncomp d1 name1 level raw = Ok d2 ->
  exists c, d2 = save d1 (sio_filename name) c /\ add_access uncomp d name level raw = Ok (save d (sio_filename name) c).
Proof.
  intros En Ed H. unfold add_access, open_append in *. rewrite <- En in H. rewrite Ed. destruct (d1 (sio_filename name)) as [data|]; [|discriminate H].
  destruct (init_append uncomp (open_ifs data) (new_mgr raw)) as [[r s] g]. destruct r as [ra|x|x]; cbn [bind] in *; try discriminate H.
  destruct ra; [destruct (Zlen data <? access_size); [discriminate H|]|]; cbn [bind] in *;
    (match type of H with bind (close_writer ?w) _ = _ => destruct (close_writer w) as [c|x|x]; cbn [bind] in H |- *; try discriminate H end;
     exists c; split; [injection H as <-; reflexivity|reflexivity]).
Qed.

Theorem add_access_ok d f name level raw : codec_ok comp uncomp -> wf_ok comp uncomp d f -> usable raw -> sio_filename name = wf_name f ->
  exists d', add_access uncomp d name level raw = Ok d' /\ (forall n, n <> wf_name f -> d' n = d n) /\
    wf_ok comp uncomp d' (mkWF (wf_name f) (wf_first f) (wf_more f ++ [no_items level raw])).
Proof.
  intros HC ((F1 & F2 & F3 & F4) & d0 & d1 & name0 & En & Es & Ed) Ur Hname. set (e := no_items level raw).
  assert (He : sess_ok e).
  { split; [exact Ur|]. split; [exact Ur|]. split; [exact Ur|]. split; [constructor|]. intros a b []. }
  assert (EW : wf_sess (mkWF (wf_name f) (wf_first f) (wf_more f ++ [e])) = wf_sess f ++ [e]) by reflexivity.
  assert (Hok : sessions_ok comp (wf_sess f ++ [e])).
  { split; [apply Forall_app; split; [exact F1|constructor; [exact He|constructor]]|]. split; [exact F2|].
    rewrite count_app, volume_app. assert (E1 : Zlen (ss_items e) = 0) by reflexivity. assert (E2 : Zlen (sess_text comp e) = 0) by reflexivity. rewrite E1, E2, !Z.add_0_r. split; [exact F3|exact F4]. }
  destruct Hok as (G1 & G2 & G3 & G4).
  destruct (sessions_inv comp uncomp d0 name0 (wf_first f) (wf_more f ++ [e]) HC G1 G2 G3 G4) as (d2 & data & body & E & Ei & S & E2 & _).
  pose proof E2 as E2'. unfold sessions in E2, Es. destruct (new_session comp d0 name0 (wf_first f)) as [dn|x|x]; cbn [bind] in E2, Es; try discriminate.
  rewrite append_last in E2. rewrite Es in E2. cbn [bind] in E2. unfold e in E2. rewrite no_items_append in E2.
  destruct (add_access_eq d d1 name name0 level raw d2) as (c & Ec & Ea); [congruence|rewrite Hname; exact Ed|exact E2|].
  exists (save d (sio_filename name) c).
  split; [exact Ea|]. rewrite Hname in *. split.
  { intros n Hnn. unfold save. destruct (bytes_eqb n (wf_name f)) eqn:Eb; [apply bytes_eqb_eq in Eb; contradiction|reflexivity]. }
  split; [rewrite EW; split; [exact G1|split; [exact G2|split; [exact G3|exact G4]]]|]. cbn [wf_name wf_first wf_more].
    exists d0, d2, name0. split; [exact En|]. split; [exact E2'|]. rewrite Ec. unfold save. rewrite bytes_eqb_refl. reflexivity.
Qed.

Lemma same_items f level raw : wf_items (mkWF (wf_name f) (wf_first f) (wf_more f ++ [no_items level raw])) = wf_items f /\
  items_of (wf_sess (mkWF (wf_name f) (wf_first f) (wf_more f ++ [no_items level raw]))) = items_of (wf_sess f).
Proof.
  assert (E : items_of (wf_sess (mkWF (wf_name f) (wf_first f) (wf_more f ++ [no_items level raw]))) = items_of (wf_sess f)).
  { change (wf_sess (mkWF (wf_name f) (wf_first f) (wf_more f ++ [no_items level raw]))) with (wf_sess f ++ [no_items level raw]). unfold items_of.
    rewrite flat_map_app. cbn [flat_map no_items ss_items map]. rewrite !app_nil_r. reflexivity. }
  split; [|exact E]. unfold wf_items. rewrite E. reflexivity.
Qed.
Theorem add_access_answers d f name level raw : codec_ok comp uncomp -> wf_ok comp uncomp d f -> usable raw -> sio_filename name = wf_name f ->
  exists d', add_access uncomp d name level raw = Ok d' /\ (forall n, n <> wf_name f -> d' n = d n) /\
    forall srt ig steps direct tags raw' cbuf mraw next, (direct = true -> Forall (sess_covers comp) (wf_sess f) /\ numbered (items_of (wf_sess f))) ->
      Forall (readable ig tags) (items_of (wf_sess f)) -> Forall step_ok steps -> 0 < next ->
      answers srt tags (wf_name f) direct (items_of (wf_sess f)) next (Some (items_of (wf_sess f))) steps
        (use_file uncomp srt ig d' (wf_name f) steps (new_reader direct false tags raw' cbuf mraw next)).
Proof.
  intros HC Hf Ur Hname. destruct (add_access_ok d f name level raw HC Hf Ur Hname) as (d' & Ea & Hd & Hw).
  exists d'. split; [exact Ea|]. split; [exact Hd|]. intros srt ig steps direct tags raw' cbuf mraw next Hdir HR Hs Hn.
  pose proof (file_answers comp uncomp srt ig d' _ steps direct tags raw' cbuf mraw next HC Hw) as T. destruct (same_items f level raw) as [_ E].
  rewrite E in T. cbn [wf_name] in T. apply T; try assumption. intros D. destruct (Hdir D) as [D1 D2]. split; [|exact D2].
  change (wf_sess (mkWF (wf_name f) (wf_first f) (wf_more f ++ [no_items level raw]))) with (wf_sess f ++ [no_items level raw]).
  apply Forall_app. split; [exact D1|]. constructor; [exact I|constructor].
Qed.
(** several files, some of which do not exist *)
Theorem add_access_all_ok level raw names : forall d files, codec_ok comp uncomp -> usable raw -> Forall (wf_ok comp uncomp d) files ->
  NoDup (map wf_name files) ->
  (forall n, In n names -> d (sio_filename n) = None \/ In (sio_filename n) (map wf_name files)) ->
  exists d' files', add_access_all uncomp d names level raw = Ok d' /\ Forall2 (fun f f' => wf_name f' = wf_name f /\ wf_items f' = wf_items f) files files' /\
    Forall (wf_ok comp uncomp d') files' /\ (forall n, ~ In n (map wf_name files) -> d' n = d n).
Proof.
  induction names as [|n names IH]; intros d files HC Ur Hok Hnd Hn; cbn [add_access_all].
  - exists d, files. split; [reflexivity|]. split; [|split; [exact Hok|reflexivity]]. clear. induction files as [|f files IH]; constructor; [split; reflexivity|exact IH].
  - destruct (Hn n (or_introl eq_refl)) as [Hnone|Hin].
    + rewrite Hnone. apply IH; auto. intros m Hm. apply Hn. right. exact Hm.
    + apply in_map_iff in Hin. destruct Hin as (f & Ef & Hf). pose proof (proj1 (Forall_forall _ _) Hok f Hf) as Hwf.
      destruct (add_access_ok d f n level raw HC Hwf Ur (eq_sym Ef)) as (d1 & Ea & Hd & Hw1).
      set (f1 := mkWF (wf_name f) (wf_first f) (wf_more f ++ [no_items level raw])) in *. assert (Hn1 : wf_name f1 = wf_name f) by reflexivity.
      assert (Hi1 : wf_items f1 = wf_items f) by apply same_items. clearbody f1.
      assert (Hsome : d (sio_filename n) <> None).
      { intros E. unfold add_access, open_append in Ea. rewrite E in Ea. discriminate Ea. }
      destruct (d (sio_filename n)) as [c|]; [|contradiction]. rewrite Ea. cbn [bind].
      apply in_split in Hf. destruct Hf as (A & B & ->). rewrite map_app in Hnd. cbn [map] in Hnd.
      assert (Keep : forall g, In g A \/ In g B -> wf_ok comp uncomp d1 g).
      { intros g Hg. assert (Hng : wf_name g <> wf_name f).
        { intros E. apply NoDup_remove_2 in Hnd. apply Hnd. rewrite <- E. apply in_or_app. destruct Hg as [Hg|Hg]; [left|right]; apply in_map; exact Hg. }
        assert (Hg' : wf_ok comp uncomp d g) by (apply (proj1 (Forall_forall _ _) Hok); apply in_or_app; cbn [In]; tauto).
        destruct Hg' as [K1 (x0 & x1 & xn & K2 & K3 & K4)]. split; [exact K1|]. exists x0, x1, xn. split; [exact K2|]. split; [exact K3|]. rewrite Hd by exact Hng. exact K4. }
      destruct (IH d1 (A ++ f1 :: B) HC Ur) as (d' & files' & E' & F' & Hok' & Hd').
      * apply Forall_app. split; [apply Forall_forall; auto|]. constructor; [exact Hw1|apply Forall_forall; auto].
      * rewrite map_app. cbn [map]. rewrite Hn1. exact Hnd.
      * intros m Hm. destruct (Hn m (or_intror Hm)) as [Hm'|Hm'].
        -- destruct (bytes_eqb (sio_filename m) (wf_name f)) eqn:Eb.
           ++ right. apply bytes_eqb_eq in Eb. rewrite map_app. cbn [map]. apply in_or_app. right. left. rewrite Hn1. symmetry. exact Eb.
           ++ left. apply bytes_eqb_neq in Eb. rewrite Hd by exact Eb. exact Hm'.
        -- right. rewrite map_app in *. cbn [map] in *. rewrite Hn1. exact Hm'.
      * exists d', files'. split; [exact E'|]. split; [|split; [exact Hok'|]].
        -- apply Forall2_app_inv_l in F'. destruct F' as (A' & B' & FA & FB & ->). inversion FB as [|? y ? B'' [H1 H2] FB']; subst. apply Forall2_app; [exact FA|].
           constructor; [split; [congruence|congruence]|exact FB'].
        -- intros m Hm. rewrite map_app in Hm, Hd'. cbn [map] in Hm, Hd'. rewrite Hn1 in Hd'. rewrite Hd' by exact Hm. apply Hd.
           intros E. apply Hm. rewrite E. apply in_or_app. right. left. reflexivity.
Qed.
End Index.

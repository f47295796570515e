(** * Merging files: proofs *)

From Verif Require Import Bytes StrMap SioModel SioProofs SioSpec SioFrame Ieee ObjModel ObjSpec CollSpec CollProofs ListFacts
  EventModel EventSpec EventProofs PostProofs EventFacts IndexModel IndexSpec IndexProofs FileModel FileFrame IndexFile FileSpec FileWrite FileSessions FileRead FileSeq FileDeliver FileFacts
  StreamSpec FileStream CopySpec CopyObj CopySize CopyEvent MergeModel.

Lemma Forall2_len {A B} (P : A -> B -> Prop) l l' : Forall2 P l l' -> length l = length l'.
Proof. induction 1 as [|a b l l' _ _ IH]; [reflexivity|cbn [length]; rewrite IH; reflexivity]. Qed.

(** ** Run headers *)

Lemma sm_set_set {V} k (u v : V) m : sm_ok m -> sm_set k v (sm_set k u m) = sm_set k v m.
Proof.
  intros Hm. apply sm_ext; [apply sm_set_ok, sm_set_ok; exact Hm|apply sm_set_ok; exact Hm|]. intros k'.
  rewrite !sm_get_set by (try apply sm_set_ok; exact Hm). destruct (bytes_eqb k' k); reflexivity.
Qed.
Lemma run_copy_twice n m h : runhdr_ok (run_copy n h) -> sm_ok (p_str (rh_par h)) -> run_copy m (run_copy n h) = run_copy m h.
Proof.
  intros _ Hs. unfold run_copy. cbn [rh_run rh_det rh_desc rh_subs rh_par]. f_equal. unfold set_strings. cbn [p_int p_flt p_str].
  rewrite sm_set_set by exact Hs. reflexivity.
Qed.

(** ** Items that are read alike *)

Section Alike.
Context (srt : forall A : Type, (A -> Z) -> list A -> list A).

Definition as_good (names : list bytes) (i i' : witem) : Prop :=
  match i, i' with
  | WRun h, WRun h' => forall n, run_copy n h' = run_copy n h
  | WEvt h e only, WEvt h' e' only' =>
      (forall next l, event_copy srt names next h' e' only' l -> event_copy srt names next h e only l) /\
      Zlen (event_objs only' names h' e') = Zlen (event_objs only names h e)
  | _, _ => False
  end.
Definition as_good2 (names : list bytes) (w w' : bytes * witem) : Prop := fst w = fst w' /\ as_good names (snd w) (snd w').

Lemma as_good_run names w w' : as_good2 names w w' -> is_wrun w = is_wrun w'.
Proof. intros (_ & H). unfold is_wrun. destruct (snd w), (snd w'); try contradiction; reflexivity. Qed.
Lemma as_good_forallb names l l' : Forall2 (as_good2 names) l l' -> forallb is_wrun l = forallb is_wrun l' /\ existsb is_wrun l = existsb is_wrun l'.
Proof.
  induction 1 as [|w w' l l' H F [IH1 IH2]]; [split; reflexivity|]. cbn [forallb existsb]. rewrite (as_good_run _ _ _ H), IH1, IH2. split; reflexivity.
Qed.

Lemma trace_as_good names fin next W' ops rs : trace srt names fin next W' ops rs -> forall W, Forall2 (as_good2 names) W W' ->
  trace srt names fin next W ops rs.
Proof.
  induction 1 as [next l|next pre n h e only l ops le rs Hpre Hc Ht IH|next l ops x Hl Hf|next pre n h l ops rs Hpre Ht IH|next l ops x Hl Hf]; intros W F.
  - constructor.
  - destruct (Forall2_app_cons_r _ _ _ _ _ F) as (pre0 & w & l0 & -> & F1 & Hw & F2). destruct w as [n0 i0]. destruct Hw as (E1 & Hg). cbn [fst snd] in *.
    destruct i0 as [h0|h0 e0 only0]; cbn [as_good] in Hg; [contradiction|]. destruct Hg as [G1 G2].
    apply T_evt; [rewrite (proj1 (as_good_forallb _ _ _ F1)); exact Hpre|apply G1; exact Hc|]. rewrite <- G2. apply IH. exact F2.
  - apply T_evt_end; [rewrite (proj1 (as_good_forallb _ _ _ F)); exact Hl|exact Hf].
  - destruct (Forall2_app_cons_r _ _ _ _ _ F) as (pre0 & w & l0 & -> & F1 & Hw & F2). destruct w as [n0 i0]. destruct Hw as (E1 & Hg). cbn [fst snd] in *.
    destruct i0 as [h0|h0 e0 only0]; cbn [as_good] in Hg; [|contradiction]. subst n0. rewrite Hg.
    apply T_run; [rewrite (proj2 (as_good_forallb _ _ _ F1)); exact Hpre|]. apply IH. exact F2.
  - apply T_run_end; [rewrite (proj2 (as_good_forallb _ _ _ F)); exact Hl|exact Hf].
Qed.
End Alike.

(** ** The size of the texts *)

Section Texts.
Context (comp : Z -> bytes -> bytes) (uncomp : bytes -> option bytes).

Lemma rec_size x : f_ok x -> Zlen (f_bytes x) <= 2 ^ 33.
Proof.
  intros (_ & H1 & _ & H2 & H3). unfold f_bytes. rewrite Zlen_app, f_core_len. unfold f_dlen in *.
  assert (Zlen (zeros (Z.to_nat (f_pad x))) <= 3); [|unfold two32 in *; lia].
  pose proof (rec_pad_range (f_opts x) (f_dlen x)). unfold f_pad. unfold zeros, Zlen. rewrite repeat_length. lia.
Qed.
Lemma item_size b1 b2 zi : codec_ok comp uncomp -> usable b1 -> usable b2 -> item_ok zi -> Zlen (item_text comp b1 b2 zi) <= 2 ^ 34.
Proof.
  intros HC U1 U2 Hi. destruct zi as [z i]. destruct (item_spec comp uncomp z i b1 b2 HC U1 U2 Hi) as (recs & s & i' & E & K & _ & R).
  rewrite (item_text_recs comp z i b1 b2 recs _ _ E). destruct s as [hh|hd ed]; cbn [item_recs] in R.
  - destruct R as (x & y & -> & _). apply Forall_inv in K. unfold ftext. cbn [flat_map]. rewrite app_nil_r. pose proof (rec_size x K). lia.
  - destruct R as (x & y & -> & _). inversion K as [|? ? K1 K2]; subst. apply Forall_inv in K2. unfold ftext. cbn [flat_map]. rewrite app_nil_r, Zlen_app.
    pose proof (rec_size x K1). pose proof (rec_size y K2). lia.
Qed.
Lemma text_size b1 b2 l : codec_ok comp uncomp -> usable b1 -> usable b2 -> Forall item_ok l ->
  Zlen (flat_map (item_text comp b1 b2) l) <= 2 ^ 34 * Zlen l.
Proof.
  intros HC U1 U2 F. induction F as [|zi l Hi F IH]; [reflexivity|]. cbn [flat_map]. rewrite Zlen_app, Zlen_cons.
  pose proof (item_size b1 b2 zi HC U1 U2 Hi). lia.
Qed.
Lemma write_calls_eq level b1 b2 cs : forall w, wr_level w = level ->
  write_calls comp w b1 b2 cs = write_items comp w b1 b2 (map (fun kc => (level, item_of_call (snd kc))) cs).
Proof.
  induction cs as [|kc cs IH]; intros w Hw; [reflexivity|]. cbn [write_calls map write_items].
  replace (set_level w level) with w by (destruct w; cbn in *; subst; reflexivity).
  unfold write_item at 1 2. destruct (encode_item comp (wr_level w) b1 b2 (item_of_call (snd kc))) as [[[recs re] i]|x|x]; cbn [bind]; try reflexivity.
  apply IH. exact Hw.
Qed.
End Texts.

(** ** The merged file *)

Section Merged.
Context (comp : Z -> bytes -> bytes) (uncomp : bytes -> option bytes) (srt : forall A : Type, (A -> Z) -> list A -> list A)
  (ignore_null : bool) (Hsrt : sort_ok srt).

(** what the listener was given *)
Lemma streamed_items level next W next' cs : streamed srt [] 1 next W next' cs -> 0 < next ->
  Forall (rewritable level) W -> Forall (fun w => match snd w with WRun h => sm_ok (p_str (rh_par h)) | _ => True end) W ->
  Forall2 (fun w kc => item_ok (level, item_of_call (snd kc)) /\ item_key (item_of_call (snd kc)) = item_key (snd w) /\
     (forall ig names, readable ig names (snd w) -> readable ig names (item_of_call (snd kc))) /\
     forall names, as_good srt names (snd w) (item_of_call (snd kc))) W cs.
Proof.
  induction 1 as [next|next f h l next' cs H IH|next f h e only l le next' cs Hc H IH]; intros Hn FW FS.
  - constructor.
  - cbn [to_all seq map app]. constructor; [|apply IH; [exact Hn|exact (Forall_inv_tail FW)|exact (Forall_inv_tail FS)]]. apply Forall_inv in FW, FS.
    cbn [fst snd rewritable item_of_call] in *. unfold rewritable in FW. cbn [fst snd] in FW. split; [exact FW|]. split; [reflexivity|]. split; [auto|]. intros names. cbn [as_good].
    intros n. apply run_copy_twice; [exact (proj1 FW)|exact FS].
  - cbn [to_all seq map app]. pose proof (Zlen_nonneg (event_objs only [] h e)) as Hz.
    constructor; [|apply IH; [lia|exact (Forall_inv_tail FW)|exact (Forall_inv_tail FS)]]. apply Forall_inv in FW. unfold rewritable in FW. cbn [fst snd item_of_call] in *.
    destruct FW as [Hcp Hi]. pose proof Hc as (_ & Hsame & new1 & Hnum & HF & HH). pose proof Hi as (He & _).
    split; [exact (copy_item srt Hsrt only h e next new1 (le_evt le) (le_heap le) He Hcp Hn Hnum Hsame HF HH level Hi)|].
    split; [cbn [item_key]; destruct Hsame as (-> & -> & _); reflexivity|].
    split; [intros ig names; exact (copy_readable srt Hsrt only h e next new1 (le_evt le) (le_heap le) He Hcp Hn Hnum HF HH ig names)|].
    intros names. cbn [as_good]. split.
    + intros next2 l2. exact (copy_copy srt Hsrt only h e next new1 (le_evt le) (le_heap le) He Hcp Hn Hnum Hsame HF HH names next2 l2).
    + rewrite (copy_objs srt Hsrt only h e new1 (le_evt le) (le_heap le) He Hcp HF HH names), Zlen_map. reflexivity.
Qed.

(** what the listener is given by readStream *)
Lemma delivered d files level raw cbuf mraw next :
  codec_ok comp uncomp -> files <> [] -> Forall (wf_ok comp uncomp d) files -> 0 < next ->
  let W := flat_map wf_items files in
  Forall (fun w => readable ignore_null [] (snd w)) W -> Forall (rewritable level) W ->
  exists u r1 r2 cs, open_files uncomp d (map wf_name files) (new_reader false false [] raw cbuf mraw next) = (Ok u, r1) /\
    read_stream uncomp srt ignore_null d 1 max_int r1 = (Ok tt, cs, r2) /\ W <> [] /\
    Forall2 (fun w kc => item_ok (level, item_of_call (snd kc)) /\ item_key (item_of_call (snd kc)) = item_key (snd w) /\
     (forall ig names, readable ig names (snd w) -> readable ig names (item_of_call (snd kc))) /\
     forall names, as_good srt names (snd w) (item_of_call (snd kc))) W cs.
Proof.
  intros HC Hne Hok Hn W HR HW.
  pose proof (stream_files_spec comp uncomp srt ignore_null d files [(1%nat, max_int)] false [] raw cbuf mraw next HC Hne Hok) as HS.
  assert (Hsm : Forall (fun w => match snd w with WRun h => sm_ok (p_str (rh_par h)) | _ => True end) W).
  { apply Forall_forall. intros w Hw. unfold W in Hw. apply in_flat_map in Hw. destruct Hw as (f & Hf & Hw).
    pose proof (proj1 (Forall_forall _ _) Hok f Hf) as [(Hs & _) _]. unfold wf_items in Hw. apply in_map_iff in Hw. destruct Hw as (i & <- & Hi). cbn [snd].
    unfold items_of in Hi. apply in_flat_map in Hi. destruct Hi as (s & Hs1 & Hi). apply in_map_iff in Hi. destruct Hi as (zi & <- & Hi).
    pose proof (proj1 (Forall_forall _ _) Hs s Hs1) as (_ & _ & _ & Hit & _). pose proof (proj1 (Forall_forall _ _) Hit zi Hi) as Hz. unfold item_ok in Hz.
    destruct (snd zi) as [h|]; [|exact I]. destruct Hz as [(_ & _ & _ & _ & _ & Hp) _]. exact (proj1 (proj2 (proj2 Hp))). }
  specialize (HS (fun E => False_ind _ (Bool.diff_false_true E)) HR).
  assert (HS' : Forall (fun w => Forall (fun nm => shareable [] (fst nm) (snd w)) [(1%nat, max_int)]) (flat_map wf_items files)).
  { apply Forall_forall. intros w _. constructor; [|constructor]. cbn [fst]. destruct (snd w); [exact I|left; apply le_n]. }
  specialize (HS HS'). assert (HM : Forall (fun nm : nat * Z => 0 < snd nm <= max_int) [(1%nat, max_int)]) by (constructor; [cbn [snd]; unfold max_int; lia|constructor]).
  specialize (HS HM Hn). clear HS' HM. fold W in HS. unfold stream_files in HS.
  destruct (open_files uncomp d (map wf_name files) (new_reader false false [] raw cbuf mraw next)) as [[u|x|x] r1];
    [|exfalso; inversion HS; subst; lia|exfalso; inversion HS; subst; lia].
  cbn [run_streams] in HS. destruct (read_stream uncomp srt ignore_null d 1 max_int r1) as [[x cs] r2] eqn:Er.
  assert (Hst : x = Ok tt /\ exists next', streamed srt [] 1 next W next' cs).
  { inversion HS; subst; try (unfold max_int in *; lia). split; [reflexivity|eexists; eassumption]. }
  destruct Hst as [-> (next' & Hst)]. exists u, r1, r2, cs. split; [reflexivity|]. split; [exact Er|]. split; [|exact (streamed_items level next W next' cs Hst Hn HW Hsm)].
  unfold W. destruct files as [|f fs]; [congruence|]. apply Forall_inv in Hok. destruct Hok as [(_ & Hne' & _) _]. cbn [flat_map].
  unfold wf_items, wf_sess, items_of in *. cbn [flat_map] in *. destruct (ss_items (wf_first f)); [contradiction|]. discriminate.
Qed.

Theorem merged d files out level wraw b1 b2 raw cbuf mraw next :
  codec_ok comp uncomp -> files <> [] -> Forall (wf_ok comp uncomp d) files -> usable wraw -> usable b1 -> usable b2 -> 0 < next ->
  let W := flat_map wf_items files in
  ~ In (sio_filename out) (map wf_name files) ->
  Forall (fun w => readable ignore_null [] (snd w)) W -> Forall (rewritable level) W -> runs_close (map (fun w => item_key (snd w)) W) -> Zlen W < 2 ^ 27 ->
  exists d' f, merge_files comp uncomp srt ignore_null d out (map wf_name files) level wraw b1 b2 (new_reader false false [] raw cbuf mraw next) = Ok d' /\
    (forall n, n <> sio_filename out -> d' n = d n) /\ wf_name f = sio_filename out /\ wf_ok comp uncomp d' f /\
    Forall2 (fun w w' => fst w' = sio_filename out /\ item_key (snd w') = item_key (snd w) /\
       (forall ig names, readable ig names (snd w) -> readable ig names (snd w')) /\ forall names, as_good srt names (snd w) (snd w')) W (wf_items f).
Proof.
  intros HC Hne Hok Uw U1 U2 Hn W Hout HR HW HK HL.
  destruct (delivered d files level raw cbuf mraw next HC Hne Hok Hn HR HW) as (u & r1 & r2 & cs & HO & HS & HWne & F). fold W in HWne, F.
  unfold merge_files. rewrite HO.
  assert (Ex : existsb (bytes_eqb (sio_filename out)) (map wf_name files) = false).
  { destruct (existsb _ _) eqn:E; [|reflexivity]. apply existsb_exists in E. destruct E as (n & Hin & E). apply bytes_eqb_eq in E. subst n. contradiction. }
  rewrite Ex. cbn [bind open_new]. change (two31 - 1) with max_int. rewrite HS.
  set (s := mkSess level wraw b1 b2 (map (fun kc => (level, item_of_call (snd kc))) cs)).
  assert (Hlen : Zlen (ss_items s) = Zlen W).
  { cbn [ss_items s]. rewrite Zlen_map. unfold Zlen. rewrite (Forall2_len _ _ _ F). reflexivity. }
  assert (Hitems : Forall item_ok (ss_items s)).
  { cbn [ss_items s]. clear -F. induction F as [|w kc W cs (H & _) F IH]; [constructor|]. constructor; assumption. }
  assert (Hkeys : keys s = map (fun w => item_key (snd w)) W).
  { unfold keys. cbn [ss_items s]. clear -F. induction F as [|w kc W cs (_ & H & _) F IH]; [reflexivity|]. cbn [map]. rewrite IH, <- H. reflexivity. }
  assert (Hs : sess_ok s).
  { split; [exact Uw|]. split; [exact U1|]. split; [exact U2|]. split; [exact Hitems|]. rewrite Hkeys. exact HK. }
  assert (Hsne : ss_items s <> []).
  { intros E. rewrite E in Hlen. unfold Zlen in Hlen. destruct W; [congruence|cbn in Hlen; lia]. }
  assert (Hvol : Zlen (sess_text comp s) < 2 ^ 61).
  { pose proof (text_size comp uncomp b1 b2 (ss_items s) HC U1 U2 Hitems) as T. rewrite Hlen in T. unfold sess_text. cbn [ss_b1 ss_b2 s] in *. cbn [ss_items s] in T |- *. lia. }
  destruct (new_inv comp uncomp d out s HC Hs Hsne) as (data & body & E & Es & S & HN & _); [lia|exact Hvol|].
  pose proof HN as HN'. unfold new_session, run_writer in HN. cbn [bind open_new ss_level ss_raw ss_b1 ss_b2 ss_items s] in HN.
  rewrite (write_calls_eq comp level b1 b2 cs) by reflexivity.
  destruct (write_items comp _ b1 b2 _) as [w'|y|y] eqn:Ew; cbn [bind] in HN |- *; try discriminate.
  destruct (close_writer w') as [c|y|y]; cbn [bind] in HN |- *; try discriminate.
  exists (save d (sio_filename out) data), (mkWF (sio_filename out) s []).
  split; [exact HN|]. split; [|split; [reflexivity|split]].
  - intros n Hnn. unfold save. destruct (bytes_eqb n (sio_filename out)) eqn:Eb; [apply bytes_eqb_eq in Eb; contradiction|reflexivity].
  - split.
    + unfold sessions_ok, wf_sess. cbn [wf_first wf_more]. split; [constructor; [exact Hs|constructor]|]. split; [exact Hsne|].
      cbn [count volume fold_right]. split; [rewrite Z.add_0_r, Hlen; exact HL|rewrite Z.add_0_r; exact Hvol].
    + cbn [wf_name wf_first wf_more]. exists d, (save d (sio_filename out) data), out. split; [reflexivity|]. unfold sessions. rewrite HN'. cbn [bind append_sessions]. split; reflexivity.
  - unfold wf_items, wf_sess, items_of. cbn [wf_name wf_first wf_more flat_map ss_items s]. rewrite app_nil_r, !map_map. cbn [snd].
    clear -F. induction F as [|w kc W cs (_ & H2 & H3 & H4) F IH]; [constructor|]. cbn [map]. constructor; [|exact IH]. cbn [fst snd].
    split; [reflexivity|]. split; [exact H2|]. split; [exact H3|exact H4].
Qed.

(** reading the merged file gives what reading the files gives *)
Theorem merged_reads d files out level wraw b1 b2 raw cbuf mraw next :
  codec_ok comp uncomp -> files <> [] -> Forall (wf_ok comp uncomp d) files -> usable wraw -> usable b1 -> usable b2 -> 0 < next ->
  let W := flat_map wf_items files in
  ~ In (sio_filename out) (map wf_name files) ->
  Forall (fun w => readable ignore_null [] (snd w)) W -> Forall (rewritable level) W -> runs_close (map (fun w => item_key (snd w)) W) -> Zlen W < 2 ^ 27 ->
  exists d', merge_files comp uncomp srt ignore_null d out (map wf_name files) level wraw b1 b2 (new_reader false false [] raw cbuf mraw next) = Ok d' /\
    (forall n, n <> sio_filename out -> d' n = d n) /\
    forall ig names ops raw' cbuf' mraw' next', 0 < next' -> Forall (fun w => readable ig names (snd w)) W ->
      trace srt names at_null next' (map (fun w => (sio_filename out, snd w)) W) ops
        (read_all uncomp srt ig d' [sio_filename out] ops (new_reader false false names raw' cbuf' mraw' next')).
Proof.
  intros HC Hne Hok Uw U1 U2 Hn W Hout HR HW HK HL.
  destruct (merged d files out level wraw b1 b2 raw cbuf mraw next HC Hne Hok Uw U1 U2 Hn Hout HR HW HK HL) as (d' & f & Hm & Hd & Hf & Hw & F). fold W in F.
  exists d'. split; [exact Hm|]. split; [exact Hd|]. intros ig names ops raw' cbuf' mraw' next' Hn' HR'.
  pose proof (read_sequential comp uncomp srt ig d' [f] ops false names raw' cbuf' mraw' next' HC ltac:(discriminate) (Forall_cons _ Hw (Forall_nil _))
    (fun E => False_ind _ (Bool.diff_false_true E))) as T.
  cbn [flat_map map] in T. rewrite app_nil_r, Hf in T.
  apply (trace_as_good srt) with (W' := wf_items f).
  - apply T; [|exact Hn']. apply Forall_forall. intros w' Hw'. destruct (Forall2_in_r _ _ _ _ F Hw') as (w & Hin & _ & _ & Hr & _).
    apply Hr. exact (proj1 (Forall_forall _ _) HR' w Hin).
  - clear -F. induction F as [|w w' W W' (H1 & _ & _ & H4) F IH]; [constructor|]. cbn [map]. constructor; [|exact IH].
    split; [symmetry; exact H1|]. apply H4.
Qed.
(** one event *)
Lemma copied only h e z next l : item_ok (z, WEvt h e only) -> copyable only h e -> 0 < next -> event_copy srt [] next h e only l ->
  item_ok (z, WEvt (le_heap l) (le_evt l) []) /\
  (forall ig names, readable ig names (WEvt h e only) -> readable ig names (WEvt (le_heap l) (le_evt l) [])) /\
  (forall names next2 l2, event_copy srt names next2 (le_heap l) (le_evt l) [] l2 -> event_copy srt names next2 h e only l2).
Proof.
  intros Hi Hcp Hn (_ & Hsame & new1 & Hnum & HF & HH). pose proof Hi as (He & _).
  split; [exact (copy_item srt Hsrt only h e next new1 (le_evt l) (le_heap l) He Hcp Hn Hnum Hsame HF HH z Hi)|].
  split; [intros ig names; exact (copy_readable srt Hsrt only h e next new1 (le_evt l) (le_heap l) He Hcp Hn Hnum HF HH ig names)|].
  intros names next2 l2. exact (copy_copy srt Hsrt only h e next new1 (le_evt l) (le_heap l) He Hcp Hn Hnum Hsame HF HH names next2 l2).
Qed.
End Merged.

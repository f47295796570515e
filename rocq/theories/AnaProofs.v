(** * Proofs about anajob *)

From Verif Require Import Bytes BitModel StrMap SioModel SioProofs SioSpec Ieee ObjModel ObjSpec CollSpec EventModel EventSpec EventProofs EventFacts
  IndexModel IndexSpec IndexProofs FileModel IndexFile IndexFacts FileSpec FileWrite FileSessions FileRead FileSeq FileDeliver FileFacts FileUse FileDirect FileMore FileCount
  ShowModel AnaModel AnaSpec.

(** ** Settings of the reader are kept *)

Definition keeps (r r' : reader) : Prop := rd_lazy r' = rd_lazy r /\ rd_names r' = rd_names r /\ rd_next r' = rd_next r.
Lemma keeps_refl r : keeps r r. Proof. repeat split. Qed.
Lemma keeps_trans a b c : keeps a b -> keeps b c -> keeps a c.
Proof. intros (H1 & H2 & H3) (K1 & K2 & K3). repeat split; congruence. Qed.

Section Keep.
Context (uncomp : bytes -> option bytes).
Lemma data_keeps ri buf r : keeps r (snd (record_data uncomp ri buf r)).
Proof.
  unfold record_data. destruct (do data <- span buf (ri_hlen ri) (ri_dlen ri); if is_compressed (ri_options ri) then uncompress uncomp data (ri_ulen ri) (rd_comp r) else Ok data) as [data|e|k];
    [|repeat split..]. cbn [snd]. destruct (is_compressed (ri_options ri)); repeat split.
Qed.
Lemma run_func_keeps st ri buf r : keeps r (snd (run_func uncomp st ri buf r)).
Proof.
  unfold run_func. pose proof (data_keeps ri buf r) as H. destruct (record_data uncomp ri buf r) as [[data|e|k] r1]; cbn [snd] in *; [|exact H..].
  destruct (read_run_record data); exact H.
Qed.
Lemma records_keeps {St} valid (func : St -> record_info -> bytes -> reader -> Res bool * St * reader) :
  (forall st ri buf r, keeps r (snd (func st ri buf r))) -> forall fuel st r, keeps r (snd (read_records fuel valid func st r)).
Proof.
  intros HF. induction fuel as [|fuel IH]; intros st r; [apply keeps_refl|]. cbn [read_records].
  destruct (read_record_info (rd_s r) (rd_raw r)) as [[[ri buf]|e|k] s1]; [|repeat split..].
  destruct (valid ri).
  - destruct (read_record_data s1 ri buf (ri_hlen ri)) as [[buf'|e|k] s2]; [|repeat split..].
    pose proof (HF st ri buf' (with_raw r s2 buf')) as K. destruct (func st ri buf' (with_raw r s2 buf')) as [[[[|]|e|k] st1] r1]; cbn [snd] in *;
      (apply (keeps_trans _ (with_raw r s2 buf')); [repeat split|]); try exact K. exact (keeps_trans _ _ _ K (IH st1 r1)).
  - apply (keeps_trans _ (with_raw r (s_seek s1 (ri_end ri)) buf)); [repeat split|apply IH].
Qed.
Lemma run_step_keeps r : keeps r (snd (run_step uncomp r)).
Proof.
  unfold run_step. pose proof (records_keeps is_run (run_func uncomp) run_func_keeps (reader_fuel r) None r) as K.
  destruct (read_records (reader_fuel r) is_run (run_func uncomp) None r) as [[[u|e|k] st] r1]; exact K.
Qed.
Lemma map_keeps r : keeps r (snd (get_map uncomp r)).
Proof. unfold get_map. destruct (create_map uncomp (rd_s r) (rd_mgr r)) as [[x s] g]. repeat split. Qed.
Lemma open_keeps d n r : keeps r (snd (open_file uncomp d n r)).
Proof.
  unfold open_file. destruct (d n) as [data|]; [|repeat split]. cbv zeta.
  assert (K : keeps r (snd (if rd_direct (with_s r (open_ifs data)) then get_map uncomp (with_s r (open_ifs data)) else (Ok tt, with_s r (open_ifs data))))).
  { destruct (rd_direct (with_s r (open_ifs data))); [|repeat split]. exact (map_keeps (with_s r (open_ifs data))). }
  destruct (if rd_direct (with_s r (open_ifs data)) then get_map uncomp (with_s r (open_ifs data)) else (Ok tt, with_s r (open_ifs data))) as [[u|e|k] r2]; cbn [snd] in *; [|exact K..].
  destruct (rd_files r2); exact K.
Qed.
Lemma over_keeps {A} d (step : reader -> Res (option A) * reader) : (forall r, keeps r (snd (step r))) ->
  forall f r, keeps r (snd (over_files uncomp f d step r)).
Proof.
  intros HF. induction f as [|f IH]; intros r; cbn [over_files]; pose proof (HF r) as K; destruct (step r) as [[o|e|k] r1]; cbn [snd] in K; try exact K; destruct e; try exact K.
  - destruct (next_file r1); exact K.
  - destruct (next_file r1) as [n|]; [|exact K]. pose proof (open_keeps d n (advance r1)) as K2. destruct (open_file uncomp d n (advance r1)) as [[u|e|k] r2]; cbn [snd] in *.
    + pose proof (IH r2) as K3. assert (K4 : keeps r r2) by (apply (keeps_trans _ _ _ K); exact K2).
      destruct (over_files uncomp f d step r2) as [[o|e|k] r3]; cbn [snd] in *; try destruct e; exact (keeps_trans _ _ _ K4 K3).
    + exact (keeps_trans _ _ _ K K2).
    + exact (keeps_trans _ _ _ K K2).
Qed.
Lemma next_run_keeps d r : keeps r (snd (read_next_run uncomp d r)).
Proof. apply over_keeps. exact run_step_keeps. Qed.
Lemma ana_runs_keeps d : forall fuel r, keeps r (snd (ana_runs uncomp fuel d r)).
Proof.
  induction fuel as [|fuel IH]; intros r; [apply keeps_refl|]. cbn [ana_runs]. pose proof (next_run_keeps d r) as K.
  destruct (read_next_run uncomp d r) as [[[h|]|e|k] r1]; cbn [snd] in K; [|exact K| |exact K].
  - pose proof (IH r1) as K2. destruct (ana_runs uncomp fuel d r1) as [x r2]. exact (keeps_trans _ _ _ K K2).
  - destruct e; exact K.
Qed.
End Keep.

Section Ana.
Context (comp : Z -> bytes -> bytes) (uncomp : bytes -> option bytes) (srt : forall A : Type, (A -> Z) -> list A -> list A) (ignore_null : bool).

(** ** The numbers *)

(** a reader that was closed, or has not been used *)
Definition idle (names : list bytes) (next : addr) (r : reader) : Prop :=
  rd_direct r = false /\ rd_lazy r = false /\ rd_names r = names /\ rd_next r = next /\ exists m, rd_mgr r = new_mgr m.

Lemma close_idle names next r : rd_lazy r = false -> rd_names r = names -> rd_next r = next -> idle names next (close_reader r).
Proof. intros H1 H2 H3. split; [reflexivity|]. split; [exact H1|]. split; [exact H2|]. split; [exact H3|]. exists (mg_raw (rd_mgr r)). reflexivity. Qed.

Lemma one_counted d f names next r : codec_ok comp uncomp -> wf_ok comp uncomp d f -> Forall (sess_covers comp) (wf_sess f) -> numbered (items_of (wf_sess f)) ->
  idle names next r -> exists r1 r2, open_file uncomp d (wf_name f) r = (Ok tt, r1) /\
    number_of_runs uncomp r1 = (Ok (Zlen (item_runs (items_of (wf_sess f)))), r2) /\
    number_of_events uncomp r2 = (Ok (Zlen (item_events (items_of (wf_sess f)))), r2) /\ idle names next (close_reader r2).
Proof.
  intros HC HW Hcov Hnum (I1 & I2 & I3 & I4 & m & I5).
  destruct (counts comp uncomp d f false names [] [] m next HC HW Hcov Hnum) as (q & q1 & O & _ & _ & NR & NE & _).
  unfold open_file in *. destruct (d (wf_name f)) as [data|] in O |- *; [|discriminate O]. cbn [with_s new_reader rd_direct rd_files rd_idx with_files rd_raw rd_comp rd_mgr rd_lazy rd_names rd_max rd_next] in O.
  injection O as O.
  assert (Q0 : rd_direct q = false /\ rd_s q = open_ifs data /\ rd_mgr q = new_mgr m) by (rewrite <- O; repeat split). clear O. destruct Q0 as (QD & QS & QM).
  cbn [with_s rd_direct]. rewrite I1.
  set (r1 := match rd_files (with_s r (open_ifs data)) with [] => with_files (with_s r (open_ifs data)) [wf_name f] (rd_idx (with_s r (open_ifs data))) | _ => with_s r (open_ifs data) end).
  assert (R1 : rd_direct r1 = false /\ rd_s r1 = open_ifs data /\ rd_mgr r1 = new_mgr m /\ rd_lazy r1 = false /\ rd_names r1 = names /\ rd_next r1 = next).
  { unfold r1. destruct (rd_files (with_s r (open_ifs data))); cbn; auto 10. }
  destruct R1 as (D1 & S1 & M1 & L1 & N1 & X1).
  destruct (create_map uncomp (open_ifs data) (new_mgr m)) as [[x s] g] eqn:EM.
  unfold number_of_runs, need_map, get_map in NR. rewrite QD in NR. cbn [with_mgr rd_direct rd_s rd_mgr] in NR. rewrite QS, QM, EM in NR.
  cbn [with_mgr rd_mgr] in NR. destruct x as [u|e|k]; cbn [bind] in NR; [|discriminate NR..].
  injection NR as ENR Q1. rewrite <- Q1 in NE. unfold number_of_events, need_map in NE. cbn [with_mgr rd_direct rd_mgr bind] in NE. injection NE as NE.
  exists r1, (with_mgr (with_mgr r1 (open_ifs data) true (new_mgr m)) s true g). split; [reflexivity|]. split; [|split].
  - unfold number_of_runs, need_map, get_map. rewrite D1, S1, M1. cbn [with_mgr rd_direct rd_s rd_mgr]. rewrite EM. cbn [bind with_mgr rd_mgr rd_direct]. rewrite ENR. reflexivity.
  - unfold number_of_events, need_map. cbn [with_mgr rd_direct rd_mgr bind]. rewrite NE. reflexivity.
  - apply close_idle; assumption.
Qed.
Lemma all_counted d names next : codec_ok comp uncomp -> forall files r,
  Forall (wf_ok comp uncomp d) files -> Forall (fun f => Forall (sess_covers comp) (wf_sess f) /\ numbered (items_of (wf_sess f))) files -> idle names next r ->
  exists r', ana_counts uncomp d (map wf_name files) r =
    (Ok (map (fun f => (Zlen (item_runs (items_of (wf_sess f))), Zlen (item_events (items_of (wf_sess f))))) files), r') /\ idle names next r'.
Proof.
  intros HC. induction files as [|f files IH]; intros r HW HN HI; [exists r; split; [reflexivity|exact HI]|].
  inversion HW as [|? ? Hf Hfs]; subst. inversion HN as [|? ? [Hcov Hnum] HN']; subst.
  destruct (one_counted d f names next r HC Hf Hcov Hnum HI) as (r1 & r2 & O & NR & NE & HI2).
  destruct (IH (close_reader r2) Hfs HN' HI2) as (r' & E & HI'). exists r'. cbn [map ana_counts]. rewrite O, NR, NE. cbn [bind]. rewrite E. split; [reflexivity|exact HI'].
Qed.

(** ** Opening the list of files *)

Lemma idle_open d files names next r : codec_ok comp uncomp -> files <> [] -> Forall (wf_ok comp uncomp d) files -> idle names next r ->
  exists L r', ana_open uncomp d (map wf_name files) r = Ok r' /\ sim uncomp d r' L true /\ rd_names r' = names /\ rd_next r' = next /\ rd_lazy r' = false /\
    Forall2 stored_in (flat_map wf_items files) L.
Proof.
  intros HC HN HW (I1 & I2 & I3 & I4 & _). destruct files as [|f files]; [contradiction|]. inversion HW as [|? ? Hf Hfs]; subst.
  destruct (file_content comp uncomp d f HC Hf) as (S & (data & lb & Hd & Hv & Hs) & B & _). destruct (files_content comp uncomp d files HC Hfs) as (L & E & F & G).
  exists (tagged (wf_name f, S) ++ flat_map tagged L).
  assert (Hex : existsb (fun m => match d m with None => true | Some _ => false end) (map wf_name (f :: files)) = false).
  { cbn [map existsb]. rewrite Hd. cbn [orb]. rewrite <- E. clear -F. induction F as [|[m Sm] rest (dm & lm & Hm & _) _ IH]; [reflexivity|]. cbn [map existsb fst] in *. rewrite Hm. exact IH. }
  unfold ana_open, open_files. cbn [map] in Hex |- *. rewrite Hex. unfold open_file. rewrite Hd. cbn [with_s with_files rd_direct]. rewrite I1.
  cbn [rd_files]. eexists. split; [reflexivity|]. split; [|split; [|split; [|split]]].
  - exists [], (wf_name f), S, L. cbn. rewrite E. split; [reflexivity|]. split; [reflexivity|]. split; [exact I2|]. split; [|split; [left; reflexivity|split; [exact F|reflexivity]]].
    exists data, 0, lb. split; [reflexivity|]. split; assumption.
  - reflexivity.
  - reflexivity.
  - exact I2.
  - cbn [flat_map]. apply Forall2_app; assumption.
Qed.

(** ** The loops *)

Lemma headers_app A B : headers (A ++ B) = headers A ++ headers B.
Proof. unfold headers. apply flat_map_app. Qed.
Lemma headers_events W : existsb is_wrun W = false -> headers W = [].
Proof. induction W as [|[n [h|h e only]] W IH]; intros H; [reflexivity|discriminate H|exact (IH H)]. Qed.
Lemma runs_all d : forall fuel W L r, sim uncomp d r L true -> Forall2 stored_in W L -> (length (headers W) < fuel)%nat ->
  exists r', ana_runs uncomp fuel d r = (Ok (headers W, false), r').
Proof.
  induction fuel as [|fuel IH]; intros W L r HS HF Hfu; [lia|]. cbn [ana_runs]. pose proof (sim_run uncomp d r L true HS) as HE.
  destruct (find_run L) as [[[n h] L']|] eqn:EL.
  - destruct (find_run_in _ _ _ _ EL) as (pre & -> & Hpre). apply Forall2_app_inv_r in HF. destruct HF as (W1 & W2 & F1 & F2 & ->).
    inversion F2 as [|[m i] ? W' ? Hs F3]; subst. rewrite <- (proj2 (kinds _ _ F1)) in Hpre. destruct Hs as [Hmn Hs]. cbn [fst snd] in Hmn, Hs.
    destruct i as [r0|h0 e only]; [|destruct Hs as (? & ? & ? & _ & _ & _ & [])]. destruct Hs as (? & ? & ? & _ & _ & _ & Q). cbn in Q. subst h n.
    rewrite headers_app, (headers_events _ Hpre) in Hfu |- *. cbn [app] in Hfu |- *. change (headers ((m, WRun r0) :: W')) with (run_copy m r0 :: headers W') in *. cbn [length] in Hfu.
    destruct HE as (r1 & E & HS' & _). rewrite E. destruct (IH W' L' r1 HS' F3 ltac:(lia)) as (r' & E'). rewrite E'. exists r'. reflexivity.
  - destruct HE as (y & r' & E & Hy & _). rewrite E. destruct Hy as [->|[Hc _]]; [|discriminate Hc]. exists r'.
    apply find_run_none in EL. rewrite <- (proj2 (kinds _ _ HF)) in EL. rewrite (headers_events _ EL). reflexivity.
Qed.

Lemma copies_skip names W1 : forallb is_wrun W1 = true -> forall next W l, copies srt names next W l -> copies srt names next (W1 ++ W) l.
Proof.
  induction W1 as [|[n [h|h e only]] W1 IH]; intros H next W l C; [exact C| |discriminate H]. cbn [app]. apply copies_run. apply IH; [exact H|exact C].
Qed.
Lemma events_all d : forall fuel W L r, sim uncomp d r L true -> Forall2 stored_in W L -> Forall (fun w => readable ignore_null (rd_names r) (snd w)) W -> 0 < rd_next r ->
  (length W < fuel)%nat -> exists l, ana_events uncomp srt ignore_null fuel d r = Ok l /\ copies srt (rd_names r) (rd_next r) W l.
Proof.
  induction fuel as [|fuel IH]; intros W L r HS HF HR Hp Hfu; [lia|]. cbn [ana_events]. pose proof (sim_evt uncomp srt ignore_null d r L true HS) as HE.
  destruct (find_evt L) as [[[hd ed] L']|] eqn:EL.
  - destruct (find_evt_in _ _ _ _ EL) as (pre & n & -> & Hpre). apply Forall2_app_inv_r in HF. destruct HF as (W1 & W2 & F1 & F2 & ->).
    inversion F2 as [|[m i] ? W' ? Hs F3]; subst. apply Forall_app in HR. destruct HR as [_ HR]. inversion HR as [|? ? Hr HR']; subst.
    rewrite <- (proj1 (kinds _ _ F1)) in Hpre. destruct Hs as [Hmn Hs]. cbn [fst snd] in Hmn, Hs, Hr.
    destruct i as [r0|h e only]; [destruct Hs as (? & ? & ? & _ & _ & _ & [])|].
    destruct (stored_event comp srt ignore_null (rd_names r) h e only _ (rd_next r) Hs Hr Hp) as (hd' & ed' & e0 & l & Q & Eh & Er & Hc). injection Q as <- <-.
    destruct (HE e0 Eh) as (r' & E & HS' & N1 & N2); [rewrite Er; discriminate|]. rewrite Er in E, N2. cbn [fst snd] in E, N2. rewrite E.
    rewrite app_length in Hfu. cbn [length] in Hfu.
    destruct (IH W' L' r' HS' F3) as (ls & EI & CI); [rewrite N1; exact HR'|rewrite N2; pose proof (Zlen_nonneg (event_objs only (rd_names r) h e)); lia|lia|].
    rewrite EI. cbn [bind]. exists (l :: ls). split; [reflexivity|]. apply copies_skip; [exact Hpre|]. rewrite N1, N2 in CI. apply copies_evt; assumption.
  - destruct HE as (y & r' & E & Hy & _). rewrite E. destruct Hy as [->|[Hc _]]; [|discriminate Hc].
    apply find_evt_none in EL. rewrite <- (proj1 (kinds _ _ HF)) in EL. exists []. split; [reflexivity|]. rewrite <- (app_nil_r W). apply copies_skip; [exact EL|constructor].
Qed.

Lemma headers_length W : (length (headers W) <= length W)%nat.
Proof. unfold headers. induction W as [|[n [h|h e only]] W IH]; cbn [flat_map snd fst app length]; lia. Qed.

(** ** The program *)

Theorem ana_done d files fuel env names raw cbuf mraw next :
  codec_ok comp uncomp -> files <> [] -> Forall (wf_ok comp uncomp d) files ->
  Forall (fun f => Forall (sess_covers comp) (wf_sess f) /\ numbered (items_of (wf_sess f))) files ->
  Forall (fun w => readable ignore_null names (snd w)) (flat_map wf_items files) -> 0 < next -> env_names env = names ->
  (length (flat_map wf_items files) < fuel)%nat ->
  exists evs, anajob uncomp srt ignore_null fuel d (map wf_name files) env (fun names => new_reader false false names raw cbuf mraw next) =
    ADone (map (fun f => (Zlen (item_runs (items_of (wf_sess f))), Zlen (item_events (items_of (wf_sess f))))) files) (headers (flat_map wf_items files)) false evs /\
    copies srt names next (flat_map wf_items files) evs.
Proof.
  intros HC HN HW HX HR Hp HE Hfu. unfold anajob. rewrite HE.
  destruct (map wf_name files) as [|a l] eqn:HM; [destruct files; [contradiction|discriminate HM]|]. rewrite <- HM. clear a l HM.
  destruct (all_counted d names next HC files (new_reader false false names raw cbuf mraw next) HW HX) as (r1 & E1 & I1).
  { repeat (split; [reflexivity|]). exists mraw. reflexivity. }
  rewrite E1. cbn [bind]. destruct (idle_open d files names next r1 HC HN HW I1) as (L & r2 & O2 & S2 & N2 & X2 & Z2 & F2). rewrite O2. cbn [bind].
  pose proof (headers_length (flat_map wf_items files)) as HL.
  destruct (runs_all d fuel _ L r2 S2 F2 ltac:(lia)) as (r3 & E3). pose proof (ana_runs_keeps uncomp d fuel r2) as K. rewrite E3 in K |- *. cbn [snd] in K. destruct K as (K1 & K2 & K3). cbn [bind].
  assert (I3 : idle names next (close_reader r3)) by (apply close_idle; congruence).
  destruct (idle_open d files names next _ HC HN HW I3) as (L' & r4 & O4 & S4 & N4 & X4 & _ & F4). rewrite O4. cbn [bind].
  destruct (events_all d fuel _ L' r4 S4 F4) as (evs & EE & CC); [rewrite N4; exact HR|lia|exact Hfu|]. rewrite EE. cbn [bind]. exists evs. split; [reflexivity|]. rewrite N4, X4 in CC. exact CC.
Qed.

Lemma missing_counted d name names next : codec_ok comp uncomp -> d name = None -> forall files post r,
  Forall (wf_ok comp uncomp d) files -> Forall (fun f => Forall (sess_covers comp) (wf_sess f) /\ numbered (items_of (wf_sess f))) files -> idle names next r ->
  fst (ana_counts uncomp d (map wf_name files ++ name :: post) r) = Throw ENotOpen.
Proof.
  intros HC HD. induction files as [|f files IH]; intros post r HW HN HI.
  - cbn [map app ana_counts]. unfold open_file. rewrite HD. reflexivity.
  - inversion HW as [|? ? Hf Hfs]; subst. inversion HN as [|? ? [Hcov Hnum] HN']; subst.
    destruct (one_counted d f names next r HC Hf Hcov Hnum HI) as (r1 & r2 & O & NR & NE & HI2). cbn [map app ana_counts]. rewrite O, NR, NE. cbn [bind].
    pose proof (IH post (close_reader r2) Hfs HN' HI2) as E. destruct (ana_counts uncomp d (map wf_name files ++ name :: post) (close_reader r2)) as [x r4]. cbn [fst] in *. rewrite E. reflexivity.
Qed.
Theorem ana_missing d files name post fuel env raw cbuf mraw next : codec_ok comp uncomp -> Forall (wf_ok comp uncomp d) files ->
  Forall (fun f => Forall (sess_covers comp) (wf_sess f) /\ numbered (items_of (wf_sess f))) files -> d name = None ->
  anajob uncomp srt ignore_null fuel d (map wf_name files ++ name :: post) env (fun names => new_reader false false names raw cbuf mraw next) = ATerminate ENotOpen.
Proof.
  intros HC HW HN HD. assert (HI : idle (env_names env) next (new_reader false false (env_names env) raw cbuf mraw next)) by (repeat (split; [reflexivity|]); exists mraw; reflexivity).
  pose proof (missing_counted d name (env_names env) next HC HD files post _ HW HN HI) as E. unfold anajob.
  destruct (map wf_name files ++ name :: post) as [|a l]; [discriminate E|].
  destruct (ana_counts uncomp d (a :: l) (new_reader false false (env_names env) raw cbuf mraw next)) as [x r1]. cbn [fst] in E. rewrite E. reflexivity.
Qed.
End Ana.

(** * Compression, and appending *)

From Verif Require Import Bytes StrMap SioModel SioProofs SioRecord SioRead SioFrame SioSpec Ieee ObjModel ObjSpec ObjProofs ObjCalls CollSpec
  CollProofs ListFacts EventModel EventSpec EventProofs PostProofs EventFacts IndexModel IndexSpec IndexProofs FileModel FileFrame IndexFile IndexFacts FileSpec FileWrite FileSessions FileRead FileSeq FileDeliver FileFacts FileUse FileDirect.

(** ** Compression *)

Lemma stored_unique i s s' : stored_as i s -> stored_as i s' -> s = s'.
Proof.
  intros (b1 & b2 & z & U1 & U2 & Hok & H) (c1 & c2 & z' & V1 & V2 & _ & H').
  exact (encoded_unique (fun _ x => x) (fun x => Some x) z i b1 b2 c1 c2 s s' U1 U2 V1 V2 Hok H H').
Qed.
Lemma stored_in_unique W : forall L L', Forall2 stored_in W L -> Forall2 stored_in W L' -> L = L'.
Proof.
  induction W as [|w W IH]; intros L L' H H'; inversion H as [|? x ? L1 Hx HL]; inversion H' as [|? y ? L2 Hy HL']; subst; [reflexivity|].
  f_equal; [|apply IH; assumption]. destruct Hx as [E1 H1], Hy as [E2 H2]. destruct x, y. cbn [fst snd] in *. f_equal; [congruence|eapply stored_unique; eassumption].
Qed.

Lemma cons_inj {A} (a b : A) l l' : a :: l = b :: l' -> a = b /\ l = l'.
Proof. intros H. injection H as -> ->. auto. Qed.

Theorem same_reading comp1 uncomp1 comp2 uncomp2 srt ignore_null d1 d2 files1 files2 ops direct1 direct2 names raw1 cbuf1 mraw1 raw2 cbuf2 mraw2 next :
  codec_ok comp1 uncomp1 -> codec_ok comp2 uncomp2 -> files1 <> [] ->
  Forall (wf_ok comp1 uncomp1 d1) files1 -> Forall (wf_ok comp2 uncomp2 d2) files2 ->
  map wf_name files1 = map wf_name files2 -> map (fun f => items_of (wf_sess f)) files1 = map (fun f => items_of (wf_sess f)) files2 ->
  (direct1 = true -> match files1 with f :: _ => Forall (sess_covers comp1) (wf_sess f) | [] => True end) ->
  (direct2 = true -> match files2 with f :: _ => Forall (sess_covers comp2) (wf_sess f) | [] => True end) ->
  Forall (fun w => readable ignore_null names (snd w)) (flat_map wf_items files1) -> 0 < next ->
  read_all uncomp1 srt ignore_null d1 (map wf_name files1) ops (new_reader direct1 false names raw1 cbuf1 mraw1 next) =
  read_all uncomp2 srt ignore_null d2 (map wf_name files2) ops (new_reader direct2 false names raw2 cbuf2 mraw2 next).
Proof.
  intros Hc1 Hc2 Hne Hok1 Hok2 Hnames Hitems Hd1 Hd2 HR Hp.
  assert (Hne2 : files2 <> []) by (intros ->; destruct files1; [contradiction|discriminate Hnames]).
  assert (Hw : flat_map wf_items files1 = flat_map wf_items files2).
  { clear -Hnames Hitems. revert files2 Hnames Hitems. induction files1 as [|f l IH]; intros [|g l'] Hn Hi; try discriminate Hn; [reflexivity|].
    cbn [map] in Hn, Hi. injection Hn as N1 N2. apply cons_inj in Hi. destruct Hi as [I1 I2]. cbn [flat_map]. rewrite (IH l' N2 I2). f_equal. unfold wf_items. rewrite N1, I1. reflexivity. }
  destruct (files_sim comp1 uncomp1 d1 files1 direct1 names raw1 cbuf1 mraw1 next Hc1 Hne Hok1 Hd1) as (L1 & r1 & O1 & HS1 & N1 & X1 & F1).
  destruct (files_sim comp2 uncomp2 d2 files2 direct2 names raw2 cbuf2 mraw2 next Hc2 Hne2 Hok2 Hd2) as (L2 & r2 & O2 & HS2 & N2 & X2 & F2).
  rewrite <- Hw in F2. pose proof (stored_in_unique _ _ _ F1 F2) as <-.
  unfold read_all. rewrite O1, O2.
  destruct (run_ops_play uncomp1 srt ignore_null d1 true ops r1 L1 HS1) as (fin1 & Hf1 & E1); [lia|rewrite N1; eapply (all_good comp1 uncomp1); eassumption|].
  destruct (run_ops_play uncomp2 srt ignore_null d2 true ops r2 L1 HS2) as (fin2 & Hf2 & E2); [lia|rewrite N2; eapply (all_good comp1 uncomp1); eassumption|].
  cbn [fin_ok] in Hf1, Hf2. rewrite E1, E2, N1, N2, X1, X2, Hf1, Hf2. reflexivity.
Qed.

(** ** Appending *)

Section Append.
Context (comp : Z -> bytes -> bytes) (uncomp : bytes -> option bytes).

Lemma sessions_snoc d name s l s' : sessions comp uncomp d name s (l ++ [s']) = (do d' <- sessions comp uncomp d name s l; append_session comp uncomp d' name s').
Proof.
  unfold sessions. destruct (new_session comp d name s) as [d1|e|k]; [|reflexivity|reflexivity]. cbn [bind].
  revert d1. induction l as [|x l IH]; intros d1; cbn [app append_sessions bind].
  - destruct (append_session comp uncomp d1 name s'); reflexivity.
  - destruct (append_session comp uncomp d1 name x); [|reflexivity|reflexivity]. cbn [bind]. apply IH.
Qed.

(** the position of the item with the key [k], when the file is opened for direct access *)
Definition finds (data : bytes) (mraw : buffer) (k : runevt) (p : Z) : Prop :=
  exists g, create_map uncomp (open_ifs data) (new_mgr mraw) = (Ok true, at_pos data 0, g) /\ rm_pos (mg_map g) k = p.

Lemma inv_finds l data body E Es S mraw : file_inv comp uncomp l data body E Es S -> sessions_ok comp l -> numbered (items_of l) -> Forall (sess_covers comp) l ->
  exists ps, located data 0 (texts comp l) ps /\ Forall2 (fun i p => finds data mraw (item_key i) p) (items_of l) ps.
Proof.
  intros Hi Hok Hn Hcv. destruct (inv_closed comp uncomp _ _ _ _ _ _ Hi Hcv) as (fr & Hcl).
  destruct (create_closed uncomp data body fr _ (open_ifs data) (new_mgr mraw) Hcl (conj eq_refl eq_refl) eq_refl) as (g & Eg & Em).
  pose proof (inv_entries comp uncomp _ _ _ _ _ _ Hi Hok) as HE.
  destruct Hi as (lb & fra & f & xa & a & I1 & I2 & I3 & I4 & I5 & I6 & I7 & I8 & I9 & I10 & I11 & I12 & I13 & I14 & I15 & I16 & I17 & I18 & I19 & I20 & I21).
  exists (map snd E). split.
  - pose proof (layout_located comp uncomp _ _ _ _ _ I5 [] (f_bytes fra) 0 eq_refl ltac:(lia)) as H. cbn [app] in H. rewrite <- I1, <- I2 in H. exact H.
  - rewrite item_keys in I18. pose proof (numbered_distinct _ Hn) as Hd. rewrite <- I18 in Hd. rewrite I16 in HE, Hd.
    assert (Hf : forall e, In e E -> finds data mraw (fst e) (snd e)).
    { intros [k p] He. exists g. split; [exact Eg|]. rewrite Em. cbn [fst snd]. apply (whole_index_find Es k p HE Hd). rewrite <- I16. exact He. }
    clear -I18 Hf. revert E I18 Hf. induction (items_of l) as [|i W IH]; intros [|e E] H Hf; try discriminate H; [constructor|].
    cbn [map] in *. injection H as H1 H2. constructor; [rewrite <- H1; apply Hf; left; reflexivity|apply IH; [exact H2|intros e' He'; apply Hf; right; exact He']].
Qed.

Theorem append_keeps d name s l s' : codec_ok comp uncomp -> sessions_ok comp (s :: l ++ [s']) ->
  exists d1 d2 data1 data2, sessions comp uncomp d name s l = Ok d1 /\ append_session comp uncomp d1 name s' = Ok d2 /\
    d1 (sio_filename name) = Some data1 /\ d2 (sio_filename name) = Some data2 /\
    (forall n, bytes_eqb n (sio_filename name) = false -> d2 n = d1 n) /\
    access_size <= Zlen data1 /\ Zlen data1 <= Zlen data2 /\
    sub data2 0 (Zlen data1 - access_size) = sub data1 0 (Zlen data1 - access_size) /\
    (numbered (items_of (s :: l ++ [s'])) -> Forall (sess_covers comp) (s :: l ++ [s']) -> forall mraw,
      exists ps, located data2 0 (texts comp (s :: l ++ [s'])) ps /\ Forall2 (fun i p => finds data2 mraw (item_key i) p) (items_of (s :: l ++ [s'])) ps).
Proof.
  intros Hc Hok2. pose proof Hok2 as (Hall & Hne & Hcount & Hvol). change (s :: l ++ [s']) with ((s :: l) ++ [s']) in *.
  apply Forall_app in Hall. destruct Hall as [Hall Hs']. inversion Hs' as [|? ? Hs1 _]; subst.
  pose proof (Zlen_nonneg (ss_items s')). pose proof (Zlen_nonneg (sess_text comp s')).
  pose proof Hcount as Hcount1. pose proof Hvol as Hvol1. rewrite count_app in Hcount1. rewrite volume_app in Hvol1.
  destruct (sessions_inv comp uncomp d name s l Hc Hall Hne) as (d1 & data1 & body1 & E1 & Es1 & S1 & Es & Hd1 & _ & Hi1); [lia|lia|].
  destruct (append_inv comp uncomp d1 name s' (s :: l) data1 body1 E1 Es1 S1 Hc Hs1 Hcount Hvol Hd1 Hi1) as (data2 & body2 & more & E' & Es2 & S' & Ea & Hi2 & Hb).
  exists d1, (save d1 (sio_filename name) data2), data1, data2. split; [exact Es|]. split; [exact Ea|]. split; [exact Hd1|].
  assert (Hsv : save d1 (sio_filename name) data2 (sio_filename name) = Some data2) by (unfold save; rewrite bytes_eqb_refl; reflexivity).
  split; [exact Hsv|]. split; [intros n Hn; unfold save; rewrite Hn; reflexivity|].
  pose proof Hi1 as (lb & fra & f & xa & a & I1 & I2 & _ & I4 & _). pose proof Hi2 as (lb2 & fra2 & f2 & xa2 & a2 & J1 & J2 & _ & J4 & _).
  assert (HL1 : Zlen data1 = Zlen body1 + access_size). { destruct I4 as (_ & _ & E4 & _). rewrite I2, Zlen_app, f_bytes_len, E4. reflexivity. }
  assert (HL2 : Zlen data2 = Zlen body2 + access_size). { destruct J4 as (_ & _ & E4 & _). rewrite J2, Zlen_app, f_bytes_len, E4. reflexivity. }
  pose proof (Zlen_nonneg body1). pose proof (Zlen_nonneg more). rewrite Hb, Zlen_app in HL2.
  split; [lia|]. split; [lia|]. replace (Zlen data1 - access_size) with (Zlen body1) by lia. split.
  - rewrite J2, I2, Hb, <- app_assoc. transitivity body1; [|symmetry]; exact (sub_mid [] body1 _ _ eq_refl).
  - intros Hn Hcv mraw. exact (inv_finds _ _ _ _ _ _ mraw Hi2 Hok2 Hn Hcv).
Qed.
End Append.

(** * Concrete files that are not well-formed *)

From Verif Require Import Bytes StrMap SioModel SioProofs Ieee ObjModel EventModel EventFacts EventExamples IndexModel FileModel
  FileExamples InputSpec InputProofs InputObj InputEvent InputFile.

(** words, padded strings, blocks and records *)
Definition ws (l : list Z) : bytes := flat_map (be 4) l.
Definition padded (s : bytes) : bytes := s ++ zeros (Z.to_nat (Z.land (4 - Z.land (Zlen s) 3) 3)).
Definition xstr (s : bytes) : bytes := be 4 (Zlen s) ++ padded s.
Definition xrec (name data : bytes) : bytes :=
  ws [24 + Zlen (padded name); rmarker; 0; Zlen data; Zlen data; Zlen name] ++ padded name ++ data.
Definition xblock (name : bytes) (vers : Z) (data : bytes) : bytes :=
  ws [16 + Zlen (padded name) + Zlen data; marker; vers; Zlen name] ++ padded name ++ data.
(** an event header with one collection, and an event with it *)
Definition xheader (ty : bytes) : bytes :=
  xrec header_record (xblock header_block cur_vers
    (ws [1; 2; 0; 0] ++ xstr (str "det") ++ ws [1] ++ xstr (str "col") ++ xstr ty ++ ws [0; 0; 0])).
Definition xevent (vers : Z) (data : bytes) : bytes := xrec event_record (xblock (str "col") vers data).

(** a reader that has opened the file [F] *)
Definition reading (F : bytes) : reader :=
  snd (open_file ex_uncomp (fun _ => Some F) (str "f") (new_reader false false [] [] [] ex_buf 1)).
Definition next_event (F : bytes) : Res (option levent) :=
  fst (read_next_event ex_uncomp isort false (fun _ => Some F) (reading F)).

(** the header of a record is said to have 200, or 4, bytes *)
Definition x_long_header : bytes := ws [200; rmarker] ++ zeros 192.
Definition x_short_header : bytes := ws [4; rmarker] ++ zeros 200.
(** header and data have 2^32 bytes together *)
Definition x_huge : bytes := ws [24; rmarker; 0; 4294967272; 0; 0].
(** a block of 0 bytes *)
Definition x_zero_block : bytes := xrec header_record (ws [0; marker; cur_vers; 0]).
(** a block with a name of 2^32-1 bytes *)
Definition x_long_name : bytes := xrec header_record (ws [20; marker; cur_vers; 4294967295; 0]).
(** a collection of an unknown type *)
Definition x_unknown : bytes := xheader (str "Nonsense") ++ xevent cur_vers (ws [0; 0; 0; 0; 0]).
(** a hit of the TPC with 2^30 raw data words *)
Definition x_count : bytes := xheader (str "TPCHit") ++ xevent cur_vers (ws [2147483648; 0; 0; 0; 1; 0; 0; 0; 0; 1073741824; 0; 0]).
(** a particle with a null pointer to a parent *)
Definition x_orphan : bytes :=
  xheader (str "MCParticle") ++ xevent cur_vers (ws [0; 0; 0; 0; 1; 1; 1; 0; 11; 1; 0] ++ ws (repeat 0 40)).
(** a reconstructed particle of version 1.2 with two Monte Carlo particles *)
Definition x_old : bytes :=
  xheader (str "ReconstructedParticle") ++ xevent 65538 (ws [0; 0; 0; 0; 1; 1] ++ ws (repeat 0 28) ++ ws [2] ++ ws (repeat 0 20)).


(** a well-formed file: a particle without parents *)
Definition x_good : bytes :=
  xheader (str "MCParticle") ++ xevent cur_vers (ws [0; 0; 0; 0; 1; 1; 0; 11; 1; 0] ++ ws (repeat 0 17)).
Definition defined {A} (x : Res A) : bool := match x with UB _ => false | _ => true end.
(** the positions at which inverting a byte makes reading undefined *)
Definition invert (n : nat) (F : bytes) : bytes := firstn n F ++ bZ (255 - Zb (nth n F Init.Byte.x00)) :: skipn (S n) F.
Definition count_undefined (F : bytes) : list nat :=
  filter (fun n => negb (defined (next_event (invert n F)))) (seq 0 (length F)).

(** in [x_good]: the lengths of the two headers, and the type of the collection *)
Definition ex_undefined : list nat := seq 0 4 ++ seq 108 10 ++ seq 132 4.

(** ** The witnesses *)

Lemma header_length_witness : exists F,
  fst (read_record (open_ifs F) []) = UB UBOutOfBounds /\ next_event F = UB UBOutOfBounds.
Proof. exists x_long_header. split; vm_compute; reflexivity. Qed.

Lemma zero_block_witness : exists buf, Zlen buf = 16 /\
  (forall A (blocks : list (rblock A)) next, Forall (fun b => rb_name b <> []) blocks ->
     read_blocks buf blocks next = UB UBDiverge) /\
  (exists info sp, extract_block buf 0 = Ok (info, sp) /\ bi_end info = 0) /\
  next_event (xrec header_record buf) = UB UBDiverge.
Proof.
  exists (ws [0; marker; cur_vers; 0]).
  assert (E : extract_block (ws [0; marker; cur_vers; 0]) 0 = Ok (mkBI 0 0 16 cur_vers 4294967280 [], [])) by (vm_compute; reflexivity).
  split; [vm_compute; reflexivity|]. split.
  - intros A blocks next H. unfold read_blocks. cbn [read_blocks_loop].
    replace (Zlen (ws [0; marker; cur_vers; 0]) <=? 0) with false by (vm_compute; reflexivity).
    rewrite E. cbn [bind bi_name bi_end].
    assert (N : find_block [] blocks = None).
    { unfold find_block. destruct (find _ blocks) as [b|] eqn:Ef; [|reflexivity]. apply find_some in Ef. destruct Ef as [Hi Hb].
      apply bytes_eqb_eq in Hb. rewrite Forall_forall in H. destruct (H b Hi Hb). }
    rewrite N. reflexivity.
  - split; [eexists _, _; split; [exact E|reflexivity]|]. vm_compute. reflexivity.
Qed.

Lemma name_length_witness : exists buf, Zlen buf = 20 /\ read_block_infos buf = UB UBOutOfBounds /\
  next_event (xrec header_record buf) = UB UBOutOfBounds.
Proof. exists (ws [20; marker; cur_vers; 4294967295; 0]). repeat split; vm_compute; reflexivity. Qed.

Lemma unknown_type_witness : exists F, next_event F = UB UBNullDeref /\
  exists ty data vers, F = xheader ty ++ xevent vers data /\ ~ In ty known_types.
Proof.
  exists x_unknown. split; [vm_compute; reflexivity|]. eexists _, _, _. split; [reflexivity|].
  intros H.
  assert (X : existsb (bytes_eqb (str "Nonsense")) known_types = true).
  { apply existsb_exists. eexists. split; [exact H|]. apply bytes_eqb_eq. reflexivity. }
  vm_compute in X. discriminate.
Qed.
Lemma array_length_witness : exists F, next_event F = UB UBOutOfBounds /\
  exists data, F = xheader (str "TPCHit") ++ xevent cur_vers data.
Proof. exists x_count. split; [vm_compute; reflexivity|]. eexists. reflexivity. Qed.
Lemma old_particle_witness : exists F, next_event F = UB UBOutOfBounds /\
  exists data, F = xheader (str "ReconstructedParticle") ++ xevent 65538 data.
Proof. exists x_old. split; [vm_compute; reflexivity|]. eexists. reflexivity. Qed.
Lemma orphan_witness : exists F, next_event F = UB UBNullDeref /\
  exists data, F = xheader (str "MCParticle") ++ xevent cur_vers data.
Proof. exists x_orphan. split; [vm_compute; reflexivity|]. eexists. reflexivity. Qed.

Lemma repeated_block_witness : exists F, next_event F = UB UBPrecondition /\
  exists b1 b2, F = xheader (str "MCParticle") ++ xrec event_record (xblock (str "col") cur_vers b1 ++ xblock (str "col") cur_vers b2) /\
    Zlen b1 < Zlen b2.
Proof.
  exists (xheader (str "MCParticle") ++ xrec event_record (xblock (str "col") cur_vers (ws [262144; 0; 0; 0; 1; 7]) ++ xblock (str "col") cur_vers (ws [262144; 0; 0; 0; 5; 1; 2; 3; 4; 5]))).
  split; [vm_compute; reflexivity|]. eexists _, _. split; [reflexivity|]. vm_compute. reflexivity.
Qed.

(** the state after the first turn of the loop is the state after every turn *)
Definition x_turned : reader :=
  snd (read_records 1 (fun ri => is_header ri || is_event ri) (evt_func ex_uncomp isort) (mkES None None) (reading x_huge)).
Lemma huge_record_witness : exists F, Zlen F = 24 /\ next_event F = UB UBDiverge /\
  forall fuel, fst (fst (read_records fuel (fun ri => is_header ri || is_event ri) (evt_func ex_uncomp isort) (mkES None None) (reading F)))
               = UB UBDiverge.
Proof.
  exists x_huge. split; [vm_compute; reflexivity|]. split; [vm_compute; reflexivity|].
  set (valid := fun ri => is_header ri || is_event ri). set (func := evt_func ex_uncomp isort).
  assert (T : forall s raw buf ri s1, read_record_info s raw = (Ok (ri, buf), s1) -> valid ri = false ->
    forall r fuel, rd_s r = s -> rd_raw r = raw ->
    read_records (S fuel) valid func (mkES None None) r = read_records fuel valid func (mkES None None) (with_raw r (s_seek s1 (ri_end ri)) buf)).
  { intros s raw buf ri s1 H V r fuel <- <-. cbn [read_records]. rewrite H, V. reflexivity. }
  set (s0 := open_ifs x_huge). set (w := ws [24; rmarker; 0; 4294967272; 0; 0]).
  set (ri := mkRI 0 0 24 0 4294967272 0 []). set (s1 := mkIfs x_huge 24 true false false).
  assert (A0 : read_record_info s0 [] = (Ok (ri, w), s1)) by (vm_compute; reflexivity).
  assert (A1 : read_record_info s0 w = (Ok (ri, w), s1)) by (vm_compute; reflexivity).
  assert (V : valid ri = false) by (vm_compute; reflexivity).
  assert (S0 : s_seek s1 (ri_end ri) = s0) by reflexivity.
  assert (L : forall fuel r, rd_s r = s0 -> rd_raw r = w ->
    fst (fst (read_records fuel valid func (mkES None None) r)) = UB UBDiverge).
  { induction fuel as [|fuel IH]; intros r H1 H2; [reflexivity|]. rewrite (T _ _ _ _ _ A1 V r fuel H1 H2), S0. apply IH; reflexivity. }
  intros [|fuel]; [reflexivity|]. rewrite (T _ _ _ _ _ A0 V (reading x_huge) fuel eq_refl eq_refl), S0. apply L; reflexivity.
Qed.

(** ** The theorems about files *)

Lemma next_run_cause : forall uncomp d r k r', 0 < rd_next r -> 0 <= s_pos (rd_s r) ->
  read_next_run uncomp d r = (UB k, r') ->
  exists F, (F = s_data (rd_s r) \/ exists n, d n = Some F) /\
    (bad_header F \/ huge_record F \/
     exists data, payload uncomp F data /\ (zero_block data \/ long_name data)).
Proof.
  intros uncomp d r k r' Hn Hp H. apply (read_next_run_cause uncomp (rd_names r)) in H; [|split; [exact Hn|reflexivity]|exact Hp].
  destruct H as [H|(n & F & Hd & H)]; [exists (s_data (rd_s r))|exists F]; (split; [eauto|]); exact H.
Qed.
Lemma next_event_cause : forall uncomp srt ign d r k r', 0 < rd_next r -> 0 <= s_pos (rd_s r) ->
  read_next_event uncomp srt ign d r = (UB k, r') ->
  exists F, (F = s_data (rd_s r) \/ exists n, d n = Some F) /\
    (bad_header F \/ huge_record F \/
     (exists data, payload uncomp F data /\ (zero_block data \/ long_name data)) \/
     (exists ed, payload uncomp F ed /\ repeated_block ed) \/
     (exists hd ed e0, payload uncomp F hd /\ payload uncomp F ed /\ read_header_record (rd_names r) hd = Ok e0 /\
        bad_collection (map (fun nc => c_type (snd nc)) (ev_cols e0)) ed) \/
     (exists hd ed e0 next e h next', payload uncomp F hd /\ payload uncomp F ed /\ 0 < next /\
        read_header_record (rd_names r) hd = Ok e0 /\ read_event_record srt ed e0 next = Ok (e, h, next') /\ orphan h)).
Proof.
  intros uncomp srt ign d r k r' Hn Hp H. apply (read_next_event_cause uncomp srt (rd_names r)) in H; [|split; [exact Hn|reflexivity]|exact Hp].
  destruct H as [H|(n & F & Hd & H)]; [exists (s_data (rd_s r))|exists F]; (split; [eauto|]); exact H.
Qed.

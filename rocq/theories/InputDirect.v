(** * Untrusted input: direct access and readStream, the theorems about readers, and their witnesses *)

From Coq Require Import Relation_Operators.
From Verif Require Import Bytes StrMap SioModel SioProofs Ieee ObjModel EventModel EventFacts EventExamples IndexModel FileModel
  FileExamples EventProofs InputSpec InputProofs InputObj InputEvent InputFile InputExamples InputStream InputIndex.

(** ** Readers *)

Lemma get_map_ok uncomp r : 0 <= s_pos (rd_s r) ->
  match get_map uncomp r with
  | (Ok _, r1) => counted (mg_map (rd_mgr r)) -> counted (mg_map (rd_mgr r1))
  | (Throw _, _) => True
  | (UB _, _) => index_cause uncomp (s_data (rd_s r))
  end.
Proof.
  intros Hp. unfold get_map.
  pose proof (create_map_ok uncomp (s_data (rd_s r)) (rd_s r) (rd_mgr r) (conj eq_refl Hp)) as H.
  destruct (create_map uncomp (rd_s r) (rd_mgr r)) as [[[x|x|u] s] g]; cbn [bind]; [|exact Logic.I|exact H].
  cbn [rd_mgr with_mgr]. apply H.
Qed.

Lemma open_file_cause uncomp d n r k r' : open_file uncomp d n r = (UB k, r') ->
  rd_direct r = true /\ exists F, d n = Some F /\ index_cause uncomp F.
Proof.
  unfold open_file. destruct (d n) as [F|]; [|discriminate]. cbn [rd_direct with_s].
  destruct (rd_direct r); [|destruct (rd_files _); discriminate].
  pose proof (get_map_ok uncomp (with_s r (open_ifs F))) as H. cbn [rd_s with_s] in H. specialize (H ltac:(cbn; lia)).
  destruct (get_map uncomp (with_s r (open_ifs F))) as [[x|x|u] r2].
  - destruct (rd_files r2); discriminate.
  - discriminate.
  - intros _. split; [reflexivity|]. exists F. split; [reflexivity|exact H].
Qed.
Lemma open_files_cause uncomp d ns r k r' : open_files uncomp d ns r = (UB k, r') ->
  rd_direct r = true /\ exists n F, In n ns /\ d n = Some F /\ index_cause uncomp F.
Proof.
  unfold open_files. destruct ns as [|n ns]; [discriminate|]. destruct (existsb _ _); [discriminate|].
  intros H. apply open_file_cause in H. destruct H as (H1 & F & H2 & H3). split; [exact H1|].
  exists n, F. split; [left; reflexivity|auto].
Qed.
Lemma need_map_ok uncomp r : 0 <= s_pos (rd_s r) ->
  match need_map uncomp r with
  | (Ok _, r1) => counted (mg_map (rd_mgr r)) -> counted (mg_map (rd_mgr r1))
  | (Throw _, _) => True
  | (UB _, _) => index_cause uncomp (s_data (rd_s r))
  end.
Proof.
  intros Hp. unfold need_map. destruct (rd_direct r); [auto|].
  exact (get_map_ok uncomp (with_mgr r (rd_s r) true (rd_mgr r)) Hp).
Qed.

Lemma lists_ok m : counted m -> exists rs es, runs_of m = Ok rs /\ events_of m = Ok es.
Proof.
  intros (H1 & H2 & H3). unfold runs_of, events_of.
  destruct (Z.ltb_spec (Zlen (rm_map m)) (rm_nrun m)); [lia|].
  destruct (Z.ltb_spec (Zlen (rm_map m)) (rm_nrun m + rm_nevt m)); [lia|]. eauto.
Qed.
Lemma no_remap_counted : counted no_remap.
Proof. unfold counted, no_remap. cbn. lia. Qed.

Lemma skip_events_cause n r k r' : 0 <= s_pos (rd_s r) -> skip_events n r = (UB k, r') ->
  bad_header (s_data (rd_s r)) \/ huge_record (s_data (rd_s r)).
Proof.
  intros Hp. unfold skip_events. destruct (n <? 1); [discriminate|]. set (F := s_data (rd_s r)).
  assert (EN : forall s m, 0 <= s_pos s -> enough (stream_fuel s + m) s).
  { intros s m Hs. unfold stream_fuel, enough, Zlen. split; [lia|]. intros _ _. lia. }
  match goal with |- context [skip_records ?f ?p ?t ?s ?b] =>
    pose proof (skip_ok (fun _ => None) F p f t s b (conj eq_refl Hp) (or_introl (EN s (Z.to_nat n) Hp))) as S1;
    destruct (skip_records f p t s b) as [[[x|x|u] st] s1] end.
  - destruct S1 as (K1 & _). unfold skip_n_records.
    match goal with |- context [skip_records ?f ?p ?t ?s ?b] =>
      pose proof (skip_ok (fun _ => None) F p f t s b K1 (or_introl (EN s (Z.to_nat 1) (proj2 K1)))) as S2;
      destruct (skip_records f p t s b) as [[[y|y|u] st2] s2] end; [discriminate|destruct y; discriminate|].
    intros _. exact S2.
  - destruct x; discriminate.
  - intros _. exact S1.
Qed.

Lemma open_append_cause uncomp d name level raw k : open_append uncomp d name level raw = UB k ->
  exists F, d (sio_filename name) = Some F /\ rebuild_cause uncomp F.
Proof.
  unfold open_append. destruct (d (sio_filename name)) as [F|]; [|discriminate].
  pose proof (init_append_ok uncomp F (open_ifs F) (new_mgr raw)) as H.
  assert (K : keeps F (open_ifs F)) by (split; cbn; [reflexivity|lia]). specialize (H K).
  destruct (init_append uncomp (open_ifs F) (new_mgr raw)) as [[[x|x|u] s] g]; cbn [bind].
  - destruct x; [destruct (Zlen F <? access_size)|]; discriminate.
  - discriminate.
  - intros _. exists F. split; [reflexivity|exact H].
Qed.

(** ** Witnesses *)

Definition x_access (index prev next : Z) : bytes :=
  xrec access_record (xblock access_record cur_vers
    (ws [0; 0; 0; 0; 0; 0; 0] ++ be 8 index ++ be 8 prev ++ be 8 next ++ be 8 0 ++ ws [0])).
(** opening a file for direct access *)
Definition opening (F : bytes) : Res unit * reader :=
  open_file ex_uncomp (fun _ => Some F) (str "f") (new_reader true false [] [] [] ex_buf 1).

(** a random access record whose predecessor is the record itself *)
Definition x_cycle : bytes := x_good ++ x_access 0 (Zlen x_good) 0 ++ x_access 0 0 (Zlen x_good).
(** a file record that points to an event *)
Definition x_dangling : bytes := x_good ++ x_access 0 0 0.
(** an index with the runs 2147483647 and 2147483648; one whose second position is 2^63 *)
Definition x_index (data : bytes) : bytes :=
  let i := xrec index_record (xblock index_record cur_vers data) in
  i ++ x_access 0 0 0 ++ x_access 0 0 (Zlen i).
Definition x_run_overflow : bytes := x_index (ws [0; 2147483647; 0; 0; 2; 0; 1; 0; 1; 1; 0]).
Definition x_pos_overflow : bytes := x_index (ws [1; 1; 2147483647; 4294967295; 1; 1; 1]).


(** the state after one turn of the loop is the state after every turn, up to the list of records *)
Definition x_turn : ifs * ramgr :=
  let '(_, s, g) := at_position 0 (read_index_record ex_uncomp) (open_ifs x_cycle) (new_mgr ex_buf) in (s, g).
Definition x_found : racc := mkRA (0, 0) (0, 0) 0 0 0 0 (Zlen x_good) 0 0.
Lemma cycle_witness : exists F, fst (opening F) = UB UBDiverge /\
  (exists p, found F p x_found /\ ra_prev x_found = p /\ p <> 0) /\
  exists s g, forall fuel, fst (fst (chain_loop ex_uncomp fuel (Zlen x_good) s g)) = UB UBDiverge.
Proof.
  exists x_cycle. split; [vm_compute; reflexivity|]. split.
  { exists (Zlen x_good). split; [|split; [reflexivity|discriminate]].
    exists (open_ifs x_cycle), (new_mgr ex_buf).
    destruct (at_position (Zlen x_good) read_access (open_ifs x_cycle) (new_mgr ex_buf)) as [[x s] g] eqn:E.
    exists s, g. split; [reflexivity|].
    assert (X : x = Ok true /\ mg_last g = Some x_found).
    { revert E. vm_compute. intros E. injection E as <- <- <-. split; reflexivity. }
    destruct X as [-> X]. split; [reflexivity|exact X]. }
  exists (fst x_turn), (snd x_turn).
  set (sX := fst x_turn). set (rX := mg_raw (snd x_turn)).
  assert (T : forall l f, exists sY rY,
    at_position (Zlen x_good) read_access sX (mkMgr no_remap l f rX) = (Ok true, sY, mkMgr no_remap (l ++ [x_found]) f rY) /\
    at_position 0 (read_index_record ex_uncomp) sY (mkMgr no_remap (l ++ [x_found]) f rY) = (Ok false, sX, mkMgr no_remap (l ++ [x_found]) f rX)).
  { intros l f.
    set (Y := at_position (Zlen x_good) read_access sX (mkMgr no_remap [] None rX)).
    exists (snd (fst Y)), (mg_raw (snd Y)). split; vm_compute; reflexivity. }
  assert (L : forall fuel l f, fst (fst (chain_loop ex_uncomp fuel (Zlen x_good) sX (mkMgr no_remap l f rX))) = UB UBDiverge).
  { induction fuel as [|fuel IH]; intros l f; cbn [chain_loop];
      replace (Zlen x_good =? 0) with false by (vm_compute; reflexivity); [reflexivity|].
    destruct (T l f) as (sY & rY & T1 & T2). rewrite T1.
    rewrite (mg_last_app (mkMgr no_remap (l ++ [x_found]) f rY) l x_found eq_refl).
    change (ra_index x_found) with 0. rewrite T2. change (ra_prev x_found) with (Zlen x_good). apply IH. }
  assert (E : snd x_turn = mkMgr no_remap [] None rX) by (vm_compute; reflexivity).
  intros fuel. rewrite E. apply L.
Qed.

Lemma dangling_witness : exists F ev, F = ev ++ x_access 0 0 0 /\ fst (opening F) = UB UBNullDeref /\ fst (opening ev) = Ok tt.
Proof. exists x_dangling, x_good. repeat split; vm_compute; reflexivity. Qed.

Lemma overflow_witness : exists F G, fst (opening F) = UB UBOverflow /\ fst (opening G) = UB UBOverflow /\
  (exists data, F = x_index data /\ index_overflow data) /\ (exists data, G = x_index data /\ index_overflow data).
Proof.
  exists x_run_overflow, x_pos_overflow. split; [vm_compute; reflexivity|]. split; [vm_compute; reflexivity|].
  assert (WI : forall (pre post : list Z) n, 0 <= n < 2147483648 -> int_in (ws (pre ++ n :: post)) (4 * Zlen pre) n).
  { intros pre post n Hn. exists n. split.
    - exists (ws pre), (be 4 n), (ws post). unfold ws. rewrite flat_map_app. cbn [flat_map]. split; [reflexivity|].
      split; [|split; [apply be_length|rewrite unbe_be; symmetry; apply Z.mod_small; change (256 ^ Z.of_nat 4) with 4294967296; lia]].
      induction pre as [|x pre IH]; [reflexivity|]. cbn [flat_map]. rewrite Zlen_app, IH, Zlen_cons.
      unfold Zlen at 1. rewrite be_length. lia.
    - destruct (Z.ltb_spec n 2147483648); [reflexivity|lia]. }
  split.
  - eexists. split; [reflexivity|].
    exists 0, 0, 2147483647, 0, 2, 1. split; [apply (WI [] _ 0); lia|]. split; [apply (WI [0] _ 2147483647); lia|].
    split.
    { exists (ws [0; 2147483647]), (ws [0; 0]), (ws [2; 0; 1; 0; 1; 1; 0]). repeat split; vm_compute; reflexivity. }
    split; [apply (WI [0; 2147483647; 0; 0] _ 2); lia|]. split; [lia|]. cbv zeta. left. split; [reflexivity|].
    exists 1. split; [|lia]. exact (WI [0; 2147483647; 0; 0; 2; 0; 1; 0] [1; 0] 1 ltac:(lia)).
  - eexists. split; [reflexivity|].
    exists 0, 1, 1, 9223372036854775807, 1, 0. split; [apply (WI [] _ 1); lia|]. split; [apply (WI [1] _ 1); lia|].
    split.
    { exists (ws [1; 1]), (ws [2147483647; 4294967295]), (ws [1; 1; 1]). repeat split; vm_compute; reflexivity. }
    split; [apply (WI [1; 1; 2147483647; 4294967295] _ 1); lia|]. split; [lia|]. cbv zeta. right.
    exists 1. split; [|lia]. exact (WI [1; 1; 2147483647; 4294967295; 1; 1] [] 1 ltac:(lia)).
Qed.

(** a file with an index that can be read *)
Definition x_direct : bytes :=
  let i := Zlen x_good in
  let ix := xrec index_record (xblock index_record cur_vers (ws [1; 1; 0; 0; 1; 2; 0])) in
  x_good ++ ix ++ x_access i 0 0 ++ x_access 0 0 (i + Zlen ix).
(** reading the event 2 of run 1 after opening a file for direct access *)
Definition event_at (F : bytes) : Res (option levent) :=
  match opening F with
  | (Ok _, r) => fst (read_event_at ex_uncomp isort false (fun _ => Some F) 1 2 r)
  | (Throw e, _) => Throw e
  | (UB k, _) => UB k
  end.


(** the same file without its last record *)
Lemma cut_witness : fst (opening x_direct) = Ok tt /\ (exists l, event_at x_direct = Ok (Some l)) /\
  fst (opening (firstn (length x_direct - 136) x_direct)) = UB UBNullDeref.
Proof. split; [vm_compute; reflexivity|]. split; [eexists; vm_compute; reflexivity|vm_compute; reflexivity]. Qed.
(** the lengths of the beginnings of [x_direct] for which opening or reading is undefined *)
Definition cut_undefined : list nat :=
  filter (fun n => negb (defined (event_at (firstn n x_direct)))) (seq 0 (length x_direct)).

(** ** The theorems about readers *)

Lemma some_file (d : disk) (C : bytes -> Prop) F0 : (C F0 \/ exists n F, d n = Some F /\ C F) ->
  exists F, (F = F0 \/ exists n, d n = Some F) /\ C F.
Proof. intros [H|(n & F & Hd & H)]; [exists F0|exists F]; (split; [eauto|]); exact H. Qed.

(** what can go wrong with events of the file [F] *)
Lemma stream_cause : forall uncomp srt ign d n max r k cs r', 0 < rd_next r -> 0 <= s_pos (rd_s r) ->
  read_stream uncomp srt ign d n max r = (UB k, cs, r') ->
  exists F, (F = s_data (rd_s r) \/ exists m, d m = Some F) /\ file_cause (event_cause uncomp srt (rd_names r)) F.
Proof.
  intros uncomp srt ign d n max r k cs r' Hn Hp H. unfold read_stream in H.
  apply (read_stream_files_cause uncomp srt ign (rd_names r)) in H; [|split; [exact Hn|reflexivity]|exact Hp].
  apply (some_file d _ _ H).
Qed.
Lemma event_at_cause : forall uncomp srt ign d run num r k r', 0 < rd_next r -> 0 <= s_pos (rd_s r) ->
  read_event_at uncomp srt ign d run num r = (UB k, r') ->
  exists F, (F = s_data (rd_s r) \/ exists m, d m = Some F) /\ file_cause (event_cause uncomp srt (rd_names r)) F.
Proof.
  intros uncomp srt ign d run num r k r' Hn Hp H.
  apply (read_event_at_cause uncomp srt ign (rd_names r)) in H; [|split; [exact Hn|reflexivity]|exact Hp].
  apply (some_file d _ _ H).
Qed.
Lemma run_at_cause : forall uncomp d run r k r', 0 < rd_next r ->
  read_run uncomp d run r = (UB k, r') ->
  exists F, (F = s_data (rd_s r) \/ exists m, d m = Some F) /\
    (bad_header F \/ huge_record F \/ exists data, payload uncomp F data /\ (zero_block data \/ long_name data)).
Proof.
  intros uncomp d run r k r' Hn H.
  apply (read_run_at_cause uncomp (rd_names r)) in H; [|split; [exact Hn|reflexivity]].
  apply (some_file d _ _ H).
Qed.
Lemma number_cause : forall uncomp r k r', 0 <= s_pos (rd_s r) ->
  (number_of_events uncomp r = (UB k, r') \/ number_of_runs uncomp r = (UB k, r')) -> index_cause uncomp (s_data (rd_s r)).
Proof.
  intros uncomp r k r' Hp. unfold number_of_events, number_of_runs. pose proof (need_map_ok uncomp r Hp) as H.
  destruct (need_map uncomp r) as [[x|x|u] r1]; cbn [bind]; [intros [E|E]; discriminate E|intros [E|E]; discriminate E|intros _; exact H].
Qed.
Lemma lists_defined : forall uncomp d n direct lazy names raw cbuf mraw next r,
  open_file uncomp d n (new_reader direct lazy names raw cbuf mraw next) = (Ok tt, r) ->
  forall x r', number_of_events uncomp r = (Ok x, r') ->
  exists rs es, runs_of (mg_map (rd_mgr r')) = Ok rs /\ events_of (mg_map (rd_mgr r')) = Ok es.
Proof.
  intros uncomp d n direct lazy names raw cbuf mraw next r HO x r' HN. apply lists_ok.
  assert (C : counted (mg_map (rd_mgr r)) /\ 0 <= s_pos (rd_s r)).
  { unfold open_file in HO. destruct (d n) as [F|]; [|discriminate].
    set (r1 := with_s (new_reader direct lazy names raw cbuf mraw next) (open_ifs F)) in *.
    assert (G : match (if rd_direct r1 then get_map uncomp r1 else (Ok tt, r1)) with
                | (Ok _, r2) => counted (mg_map (rd_mgr r2)) /\ 0 <= s_pos (rd_s r2) | _ => True end).
    { destruct (rd_direct r1); [|split; [apply no_remap_counted|cbn; lia]].
      unfold get_map. assert (K : keeps F (rd_s r1)) by (split; cbn; [reflexivity|lia]).
      pose proof (create_map_ok uncomp F (rd_s r1) (rd_mgr r1) K) as M.
      destruct (create_map uncomp (rd_s r1) (rd_mgr r1)) as [[[y|y|u] s] g]; cbn [bind]; auto.
      cbn [rd_mgr rd_s with_mgr]. destruct M as [[_ M1] M2]. split; [apply M2, no_remap_counted|exact M1]. }
    destruct (if rd_direct r1 then get_map uncomp r1 else (Ok tt, r1)) as [[y|y|u] r2]; try discriminate.
    assert (X : r = match rd_files r2 with [] => with_files r2 [n] (rd_idx r2) | _ => r2 end) by (symmetry; congruence).
    rewrite X. destruct (rd_files r2); exact G. }
  destruct C as [C Hp]. unfold number_of_events in HN. pose proof (need_map_ok uncomp r Hp) as M.
  destruct (need_map uncomp r) as [[y|y|u] r1]; cbn [bind] in HN; try discriminate. injection HN as _ <-. apply M, C.
Qed.

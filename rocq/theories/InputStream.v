(** * Untrusted input: readStream, and access to single runs and events *)

From Verif Require Import Bytes StrMap SioModel SioProofs Ieee ObjModel EventModel IndexModel FileModel
  EventProofs InputSpec InputProofs InputObj InputEvent InputFile.

Section Stream.
Context (uncomp : bytes -> option bytes) (srt : forall A : Type, (A -> Z) -> list A -> list A) (ign : bool) (names : list bytes).

(** ** Calling the listeners *)

Lemma from_record_split F l : from_record uncomp srt names F l -> le_rec l = None ->
  event_cause uncomp srt names F \/ linked (le_heap l) (le_evt l).
Proof.
  intros HF El. destruct (HF El) as (ed & e0 & next & next' & (hd & Ph & Hh) & Pe & Hn & R).
  destruct (read_header_empty _ _ _ Hh) as [H1 H2].
  destruct (post_split _ _ _ _ _ _ _ Hn H1 (str_sorted_nodup _ H2) R) as [O|L]; [left|right; exact L].
  right; right; right. exists hd, ed, e0, next, (le_evt l), (le_heap l), next'. auto 10.
Qed.

Lemma call_all_linked : forall n k l, (le_rec l = None -> linked (le_heap l) (le_evt l)) ->
  forall u cs, call_all ign n k l <> (UB u, cs).
Proof.
  induction n as [|n IH]; intros k l H u cs; cbn [call_all]; [discriminate|].
  unfold finish. destruct (le_rec l) eqn:El.
  - specialize (IH (S k) l). destruct (call_all ign n (S k) l) as [x cs'].
    intros X. injection X as -> _. eapply IH; [|reflexivity]. intros E. congruence.
  - specialize (H eq_refl). pose proof (post_linked ign _ _ H) as P.
    destruct (post_process ign (le_heap l) (le_evt l)) as [h|e|v]; cbn [bind]; [|discriminate|destruct P].
    specialize (IH (S k) (mkLE (le_evt l) h None)).
    destruct (call_all ign n (S k) (mkLE (le_evt l) h None)) as [x cs'].
    intros X. injection X as -> _. eapply IH; [|reflexivity]. intros _. exact P.
Qed.

Lemma call_all_cause F n l u cs : from_record uncomp srt names F l -> call_all ign n 0 l = (UB u, cs) ->
  event_cause uncomp srt names F.
Proof.
  intros HF HC. destruct (le_rec l) eqn:El.
  - exfalso. eapply call_all_linked; [|exact HC]. congruence.
  - destruct (from_record_split F l HF El) as [C|L]; [exact C|]. exfalso. eapply call_all_linked; [|exact HC]. auto.
Qed.

(** ** The processor of readStream *)

Definition rs_inv (F : bytes) (st : rsst) : Prop := forall e, rs_evt st = Some e -> from_header uncomp names F e.

Lemma stream_func_ok F n max st ri buf r : rs_inv F st -> rd_inv names r -> holds_part F ri buf ->
  match stream_func uncomp srt ign n max st ri buf r with
  | (Ok _, st1, r1) => rs_inv F st1 /\ rd_inv names r1 /\ rd_s r1 = rd_s r
  | (Throw _, _, r1) => rd_inv names r1
  | (UB _, _, _) => event_cause uncomp srt names F
  end.
Proof.
  intros HS Hr HH. unfold stream_func. destruct (is_run ri).
  { pose proof (record_data_cause uncomp F ri buf r HH) as RD.
    destruct (record_data uncomp ri buf r) as [[d|e|u] r1].
    - destruct RD as (Pd & N1 & N2 & N3).
      assert (Hr1 : rd_inv names r1) by (unfold rd_inv in *; rewrite N1, N2; exact Hr).
      destruct (read_run_record d) as [h|e|u] eqn:R; [|exact Hr1|].
      + split; [exact HS|]. split; [exact Hr1|exact N3].
      + left. exists d. split; [exact Pd|]. apply read_run_cause in R. tauto.
    - subst r1. exact Hr.
    - destruct RD. }
  destruct (is_header ri).
  { pose proof (header_step_ok uncomp srt names F ri buf r Hr HH) as H. destruct (header_step uncomp ri buf r) as [[e|x|u] r1]; auto.
    destruct H as (H1 & H2 & H3). split; [|split; assumption]. intros e' X. cbn [rs_evt] in X. injection X as <-. exact H1. }
  destruct (is_event ri).
  2:{ split; [exact HS|]. split; [exact Hr|reflexivity]. }
  destruct (rs_evt st) as [e|] eqn:Ee.
  - pose proof (event_step_ok uncomp srt names F e ri buf r (HS e Ee) Hr HH) as H.
    destruct (event_step uncomp srt e ri buf r) as [[l|x|u] r1]; auto.
    destruct H as (H1 & H2 & H3).
    destruct (call_all ign n 0 l) as [[x|x|u] cs] eqn:CA.
    + split; [|split; assumption]. intros e' X. discriminate X.
    + exact H2.
    + eapply call_all_cause; [exact H1|exact CA].
  - destruct (rd_lazy r); [exact Hr|]. pose proof (record_data_cause uncomp F ri buf r HH) as RD.
    destruct (record_data uncomp ri buf r) as [[d|x|u] r1].
    + destruct RD as (_ & N1 & N2 & _). unfold rd_inv in *. rewrite N1, N2. exact Hr.
    + subst r1. exact Hr.
    + destruct RD.
Qed.

Lemma read_stream_files_cause d n : forall files max calls r k cs r', rd_inv names r -> 0 <= s_pos (rd_s r) ->
  read_stream_files uncomp srt ign files d n max calls r = (UB k, cs, r') ->
  file_cause (event_cause uncomp srt names) (s_data (rd_s r)) \/
  exists m F, d m = Some F /\ file_cause (event_cause uncomp srt names) F.
Proof.
  induction files as [|f IH]; intros max calls r k cs r' Hr Hp; cbn [read_stream_files].
  all: set (F := s_data (rd_s r)).
  all: assert (S0 : rs_inv F (mkRS None 0 calls)) by (intros e X; discriminate X).
  all: pose proof (records_cause F names (event_cause uncomp srt names F) (rs_inv F) (fun ri => is_run ri || is_header ri || is_event ri)
    (stream_func uncomp srt ign n max) (fun st ri buf r0 => stream_func_ok F n max st ri buf r0) (reader_fuel r) (mkRS None 0 calls) r
    S0 Hr eq_refl Hp (or_introl (enough_start r Hp))) as H.
  all: destruct (read_records (reader_fuel r) (fun ri => is_run ri || is_header ri || is_event ri) (stream_func uncomp srt ign n max)
    (mkRS None 0 calls) r) as [[[x|x|u] st] r1]; [discriminate| |intros _; left; exact H].
  all: destruct x; try discriminate.
  all: destruct (next_file r1) as [nm|]; try (destruct (max =? two31 - 1); discriminate).
  pose proof (open_inv uncomp names d nm (advance r1) H eq_refl) as HO.
  destruct (open_file uncomp d nm (advance r1)) as [[x|e|u] r2]; [|discriminate|destruct HO].
  destruct HO as (O1 & O2 & O3). intros E. apply IH in E; [|exact O1|lia].
  right. destruct E as [E|E]; [exists nm, (s_data (rd_s r2)); auto|exact E].
Qed.

(** ** Single runs and events *)

Lemma seek_good s p : s_good (s_seek s p) = true -> s_data (s_seek s p) = s_data s /\ 0 <= s_pos (s_seek s p).
Proof.
  unfold s_seek. destruct (s_fail s) eqn:Fs.
  - unfold s_good. cbn. rewrite ?Fs, ?andb_false_r. try destruct (s_eof s); cbn; discriminate.
  - destruct (Z.ltb_spec p 0); cbn [s_data s_pos]; [|intros _; split; [reflexivity|lia]].
    unfold s_good. cbn. rewrite ?andb_false_r. discriminate.
Qed.

Lemma find_func_ok F run num st ri buf r : st_inv uncomp srt names F st -> rd_inv names r -> holds_part F ri buf ->
  match find_func uncomp srt run num st ri buf r with
  | (Ok _, st1, r1) => st_inv uncomp srt names F st1 /\ rd_inv names r1 /\ rd_s r1 = rd_s r
  | (Throw _, _, r1) => rd_inv names r1
  | (UB _, _, _) => event_cause uncomp srt names F
  end.
Proof.
  intros HS Hr HH. unfold find_func. destruct (is_header ri).
  { pose proof (header_step_ok uncomp srt names F ri buf r Hr HH) as H. destruct (header_step uncomp ri buf r) as [[e|x|u] r1]; auto.
    destruct H as (H1 & H2 & H3). split; [|split; assumption].
    split; cbn; [intros e' X; injection X as <-; exact H1|discriminate]. }
  destruct (is_event ri); [|split; [exact HS|split; [exact Hr|reflexivity]]].
  assert (RD : forall (go : Res bool), (forall u, go <> UB u) ->
    match (match (if rd_lazy r then (Ok [], r) else record_data uncomp ri buf r) with
           | (Ok _, r1) => (go, st, r1)
           | (Throw x, r1) => (Throw x, st, r1)
           | (UB k, r1) => (UB k, st, r1)
           end) with
    | (Ok _, st1, r1) => st_inv uncomp srt names F st1 /\ rd_inv names r1 /\ rd_s r1 = rd_s r
    | (Throw _, _, r1) => rd_inv names r1
    | (UB _, _, _) => event_cause uncomp srt names F
    end).
  { intros go Hgo. pose proof (record_data_cause uncomp F ri buf r HH) as RD.
    destruct (rd_lazy r); [destruct go as [b|x|u]; [auto|exact Hr|destruct (Hgo u eq_refl)]|].
    destruct (record_data uncomp ri buf r) as [[d|x|u] r1].
    - destruct RD as (_ & N1 & N2 & N3).
      assert (Hr1 : rd_inv names r1) by (unfold rd_inv in *; rewrite N1, N2; exact Hr).
      destruct go as [b|x|u]; [auto|exact Hr1|destruct (Hgo u eq_refl)].
    - subst r1. exact Hr.
    - destruct RD. }
  destruct (es_evt st) as [e|] eqn:Ee; [|apply RD; discriminate].
  destruct ((ev_num e =? num) && (ev_run e =? run)); [|apply RD; discriminate].
  pose proof (event_step_ok uncomp srt names F e ri buf r (proj1 HS e Ee) Hr HH) as H.
  destruct (event_step uncomp srt e ri buf r) as [[l|x|u] r1]; auto.
  destruct H as (H1 & H2 & H3). split; [|split; assumption].
  split; cbn; [intros e' X; injection X as <-; exact (proj1 HS e Ee)|intros l' X; injection X as <-; exact H1].
Qed.

Lemma read_event_at_cause d run num r k r' : rd_inv names r -> 0 <= s_pos (rd_s r) ->
  read_event_at uncomp srt ign d run num r = (UB k, r') ->
  file_cause (event_cause uncomp srt names) (s_data (rd_s r)) \/
  exists n F, d n = Some F /\ file_cause (event_cause uncomp srt names) F.
Proof.
  intros Hr Hp. unfold read_event_at. destruct (rd_direct r).
  - destruct (rm_pos (mg_map (rd_mgr r)) (run, num) =? -1); [discriminate|].
    set (s1 := s_seek (rd_s r) (rm_pos (mg_map (rd_mgr r)) (run, num))).
    destruct (s_good s1) eqn:G; cbn [negb]; [|discriminate].
    destruct (seek_good _ _ G) as [D1 P1]. fold s1 in D1, P1. intros H.
    apply (read_next_event_cause uncomp srt names) in H; [|exact Hr|exact P1].
    cbn [rd_s with_s] in H. rewrite D1 in H. exact H.
  - set (F := s_data (rd_s r)).
    assert (S0 : st_inv uncomp srt names F (mkES None None)) by (split; discriminate).
    pose proof (records_cause F names (event_cause uncomp srt names F) (st_inv uncomp srt names F) (fun ri => is_header ri || is_event ri)
      (find_func uncomp srt run num) (fun st ri buf r0 => find_func_ok F run num st ri buf r0) (reader_fuel r) (mkES None None) r
      S0 Hr eq_refl Hp (or_introl (enough_start r Hp))) as H.
    destruct (read_records (reader_fuel r) (fun ri => is_header ri || is_event ri) (find_func uncomp srt run num) (mkES None None) r)
      as [[[x|x|u] st] r1]; [| |intros _; left; exact H].
    + destruct (es_res st) as [l|] eqn:El; [|discriminate].
      destruct (finish ign l) as [l'|x'|u] eqn:Ef; cbn [bind]; [discriminate|discriminate|].
      intros _. left. right; right. eapply finish_cause; [apply (proj2 (proj1 H)); exact El|exact Ef].
    + destruct x; discriminate.
Qed.

Lemma read_run_at_cause d run r k r' : rd_inv names r ->
  read_run uncomp d run r = (UB k, r') ->
  file_cause (run_cause uncomp) (s_data (rd_s r)) \/ exists n F, d n = Some F /\ file_cause (run_cause uncomp) F.
Proof.
  intros Hr. unfold read_run. destruct (rd_direct r); [|discriminate].
  destruct (rm_pos (mg_map (rd_mgr r)) (run, -1) =? -1); [discriminate|].
  set (s1 := s_seek (rd_s r) (rm_pos (mg_map (rd_mgr r)) (run, -1))).
  destruct (s_good s1) eqn:G; cbn [negb]; [|discriminate].
  destruct (seek_good _ _ G) as [D1 P1]. fold s1 in D1, P1. intros H.
  apply (read_next_run_cause uncomp names) in H; [|exact Hr|exact P1].
  cbn [rd_s with_s] in H. rewrite D1 in H. exact H.
Qed.
End Stream.

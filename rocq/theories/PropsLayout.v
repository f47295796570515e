(** * The layout of the records in a file: C75 *)

From Coq Require Import Sorted.
From Verif Require Import Bytes StrMap SioModel SioSpec Ieee ObjModel ObjSpec CollSpec EventModel EventSpec EventFacts EventExamples
  IndexModel IndexSpec FileModel IndexFile IndexFacts IndexExamples FileSpec FileExamples LayoutSpec LayoutProofs LayoutFile.

(** ** C75: which bytes the records are *)

(** run headers *)
Theorem C75_run_record : forall buf r, usable buf -> runhdr_ok r -> size (run_layout r) < 2 ^ 32 ->
  exists ri buf', write_run_record buf r = Ok (ri, buf') /\ laid_out (run_layout r) (b_bytes buf').
Proof. exact run_laid. Qed.
Print Assumptions C75_run_record.

Example C75_run_case : usable ex_buf /\ runhdr_ok ex_run /\ size (run_layout ex_run) < 2 ^ 32.
Proof. split; [exact ex_usable|]. split; [exact (proj1 ex_run_ok)|]. vm_compute. reflexivity. Qed.

(** event headers *)
Theorem C75_header_record : forall buf only h e, usable buf -> event_ok only h e -> size (header_layout only e) < 2 ^ 32 ->
  exists ri buf', write_header_record buf only e = Ok (ri, buf') /\ laid_out (header_layout only e) (b_bytes buf').
Proof. exact header_laid. Qed.
Print Assumptions C75_header_record.

(** events: every stored collection with all its objects *)
Theorem C75_event_record : forall buf only h e, usable buf -> event_ok only h e -> size (event_layout only h e) < 2 ^ 32 ->
  exists e1 ri buf', write_event_record buf only h e = Ok (e1, ri, buf') /\ laid_out (event_layout only h e) (b_bytes buf').
Proof. exact event_laid. Qed.
Print Assumptions C75_event_record.

Example C75_event_case : event_ok [] ex_heap ex_event /\ size (header_layout [] ex_event) < 2 ^ 32 /\
  size (event_layout [] ex_heap ex_event) < 2 ^ 32 /\ size (event_layout [] ex_heap ex_event) = 764.
Proof. split; [exact (proj1 ex_event_ok)|]. vm_compute. repeat split; reflexivity. Qed.

(** the first bytes of the run header record of a run: lengths, markers, names and the run number *)
Example C75_run_bytes : exists N, numbering N (run_layout ex_run) /\
  firstn 12 (layout N (run_layout ex_run)) = big 4 36 ++ big 4 2880293630 ++ big 4 0.
Proof.
  exists (fun _ => None). split; [|vm_compute; reflexivity]. split; [|split].
  - intros a. split; [congruence|]. intros (_ & H & _). exfalso. revert H.
    vm_compute. intuition discriminate.
  - discriminate.
  - congruence.
Qed.

(** what closing a file appends: the index and two records of 136 bytes *)
Theorem C75_index_and_access_records : forall base g l, mg_map g = index_of l -> Forall entry_ok l -> l <> [] ->
  covers (rm_map (index_of l)) -> Zlen (rm_map (index_of l)) < 2 ^ 27 -> usable (mg_raw g) ->
  exists x y z a f g', write_access g (mkO base (Zlen base)) = Ok (g', mkO (base ++ x ++ y ++ z) (Zlen (base ++ x ++ y ++ z))) /\
    laid_out (index_layout (rm_map (index_of l))) x /\ laid_out (access_layout a) y /\ laid_out (access_layout f) z /\
    mg_list g' = mg_list g ++ [a] /\ mg_file g' = Some f /\
    ra_index a = Zlen base /\ ra_first a = Zlen base + Zlen x /\ ra_next a = 0 /\ ra_order a = 1 /\
    ra_prev a = match mg_last g with Some b => ra_first b | None => 0 end /\
    Zlen y = 136 /\ Zlen z = 136.
Proof. exact close_laid. Qed.
Print Assumptions C75_index_and_access_records.

Example C75_index_case : Forall entry_ok ix_long /\ covers (rm_map (index_of ix_long)) /\ usable ex_buf /\
  size (index_layout (rm_map (index_of ix_long))) = 164 /\
  Forall entry_ok ix_short /\ covers (rm_map (index_of ix_short)) /\ size (index_layout (rm_map (index_of ix_short))) = 108.
Proof.
  split; [exact (proj1 (proj1 ix_examples))|]. split; [exact (proj2 (proj1 ix_examples))|]. split; [exact ex_usable|].
  split; [vm_compute; reflexivity|]. split; [exact (proj1 (proj1 (proj2 ix_examples)))|].
  split; [exact (proj2 (proj1 (proj2 ix_examples)))|]. vm_compute. reflexivity.
Qed.

(** the records of an item in the file, at any compression level *)
Theorem C75_stored_records : forall comp uncomp z b1 b2 i, codec_ok comp uncomp -> usable b1 -> usable b2 ->
  match i with
  | WRun r => runhdr_ok r /\ sized z (size (run_layout r))
  | WEvt h e only => event_ok only h e /\ sized z (size (header_layout only e)) /\ sized z (size (event_layout only h e))
  end ->
  exists recs i', encode_item comp z b1 b2 i = Ok (recs, item_key i, i') /\
    match i with
    | WRun r => exists x, recs = [x] /\ stored comp z (str "LCRunHeader") (run_data r) x
    | WEvt h e only => exists x y, recs = [x; y] /\ stored comp z (str "LCEventHeader") (header_data only e) x /\
                         stored comp z (str "LCEvent") (event_data only h e) y
    end.
Proof. exact item_stored. Qed.
Print Assumptions C75_stored_records.

Example C75_stored_case : codec_ok ex_comp ex_uncomp /\ usable ex_buf /\
  sized 5 (size (run_layout ex_run)) /\ sized 5 (size (header_layout [] ex_event)) /\ sized 5 (size (event_layout [] ex_heap ex_event)).
Proof.
  split; [exact ex_codec|]. split; [exact ex_usable|]. repeat split; intros; vm_compute; reflexivity.
Qed.

(** * Lazy unpacking of events (C37) *)

From Verif Require Import Bytes StrMap SioModel SioSpec Ieee ObjModel ObjSpec EventModel EventSpec EventFacts EventExamples
  IndexModel IndexExamples FileModel FileSpec FileExamples LazyModel LazySpec LazyProofs LazyFile LazyExamples.

(** ** Files that were written by the library *)

(** Whatever the order in which events and run headers are asked for, over all files that were opened,
    the lazy reader gives the same results as the usual one: the same run headers, the end at the same
    place, and events that answer every sequence of read accesses in the same way ([same_result]).
    Excepted are events without any collection in a compressed record, see below. *)
Theorem C37_lazy_files_partial : forall comp uncomp srt ignore_null d files ops readonly direct names raw cbuf mraw next direct' raw' cbuf' mraw' next',
  codec_ok comp uncomp -> files <> [] -> Forall (wf_ok comp uncomp d) files ->
  (direct = true \/ direct' = true -> match files with f :: _ => Forall (sess_covers comp) (wf_sess f) | [] => True end) ->
  Forall (fun w => readable ignore_null names (snd w)) (flat_map wf_items files) -> 0 < next ->
  Forall2 (same_result uncomp srt ignore_null readonly)
    (read_all uncomp srt ignore_null d (map wf_name files) ops (new_reader direct false names raw cbuf mraw next))
    (read_all uncomp srt ignore_null d (map wf_name files) ops (new_reader direct' true names raw' cbuf' mraw' next')).
Proof. exact read_lazily. Qed.
Print Assumptions C37_lazy_files_partial.

(** a file with two runs and three events, two of them in compressed records *)
Example C37_case : codec_ok ex_comp ex_uncomp /\ Forall (wf_ok ex_comp ex_uncomp ex_disk) [ex_file] /\ Forall (sess_covers ex_comp) (wf_sess ex_file) /\
  Forall (fun w => readable false [] (snd w)) (flat_map wf_items [ex_file]) /\
  (exists l ri buf, ex_first ex_disk true = Ok l /\ le_rec l = Some (ri, buf) /\ is_compressed (ri_options ri) = true /\ ri_ulen ri <> 0 /\ map (fun nc => c_elems (snd nc)) (ev_cols (le_evt l)) = [[]; []; []; []]) /\
  let accs := [AEvent; AGet (str "Sel"); ANames; ATake (str "Gen"); AGet (str "Gen"); AGet (str "Tmp"); AWeight] in
  map short (ex_lazy ex_disk true accs) = map short (ex_eager ex_disk true accs) /\
  nth 1 (map short (ex_lazy ex_disk true accs)) (UB UBUninit) = Ok (NColl (mkColl (str "MCParticle") (2 ^ 18) no_params [1002; 1000]) no_heap).
Proof.
  split; [exact ex_codec|]. split; [exact (Forall_cons _ (proj1 ex_wf) (Forall_nil _))|]. split; [exact (proj1 ex_covers)|].
  split; [cbn [flat_map]; rewrite app_nil_r; apply Forall_map; exact ex_readable|]. split; [|split; vm_compute; reflexivity].
  assert (H : match ex_first ex_disk true with
    | Ok l => match le_rec l with Some (ri, _) => Some (is_compressed (ri_options ri), ri_ulen ri =? 0, map (fun nc => c_elems (snd nc)) (ev_cols (le_evt l))) | None => None end
    | _ => None end = Some (true, false, [[]; []; []; []])) by (vm_compute; reflexivity).
  destruct (ex_first ex_disk true) as [l| |]; [|discriminate H..]. destruct (le_rec l) as [[ri buf]|] eqn:E; [|discriminate H].
  injection H as H1 H2 H3. exists l, ri, buf. split; [reflexivity|]. split; [exact E|]. split; [exact H1|]. split; [lia|exact H3].
Qed.

(** takeCollection gives the collection of that name with the flag that it is transient, bit 16, and with
    nothing else changed, and throws exactly if there is none. *)
Theorem C37_taken : forall b n, sm_ok (ev_cols (b_evt b)) ->
  match sm_get n (ev_cols (b_evt b)) with
  | Some c => exists c' b', base_do b (ATake n) = (Ok (NColl c' (b_heap b)), b') /\
      c_type c' = c_type c /\ c_par c' = c_par c /\ c_elems c' = c_elems c /\
      (forall i, 0 <= i -> Z.testbit (c_flag c') i = if i =? 16 then true else Z.testbit (c_flag c) i) /\
      fst (base_do b' (AGet n)) = Ok (NColl c' (b_heap b)) /\
      (forall m, m <> n -> fst (base_do b' (AGet m)) = fst (base_do b (AGet m)))
  | None => base_do b (ATake n) = (Throw LDataNotAvailable, b)
  end.
Proof.
  intros b n OK. cbn [base_do]. destruct (sm_get n (ev_cols (b_evt b))) as [c|] eqn:E; [|reflexivity].
  eexists _, _. split; [reflexivity|]. split; [reflexivity|]. split; [reflexivity|]. split; [reflexivity|]. split; [|split].
  - intros i Hi. cbn [c_flag transient]. rewrite Z.lor_spec. unfold BITTransient. rewrite Z.pow2_bits_eqb by lia. rewrite (Z.eqb_sym 16).
    destruct (i =? 16); [apply orb_true_r|apply orb_false_r].
  - cbn [with_cols b_evt ev_cols b_heap]. rewrite sm_get_set by exact OK. rewrite bytes_eqb_refl. reflexivity.
  - intros m Hm. cbn [with_cols b_evt ev_cols b_heap]. rewrite sm_get_set by exact OK.
    destruct (bytes_eqb m n) eqn:Q; [apply bytes_eqb_eq in Q; contradiction|]. destruct (sm_get m (ev_cols (b_evt b))); reflexivity.
Qed.
Print Assumptions C37_taken.

Example C37_taken_case : let c := mkColl (str "MCParticle") 5 no_params [1002; 1000] in
  sm_ok [(str "A", c)] /\ fst (base_do (mkBase (mkEvt 1 2 3 (str "D") no_params [(str "A", c)]) no_heap []) (ATake (str "A")))
  = Ok (NColl (mkColl (str "MCParticle") 65541 no_params [1002; 1000]) no_heap).
Proof. split; [apply (sm_set_ok _ _ []); exact sm_ok_nil|]. vm_compute. reflexivity. Qed.

(** ** Files of any contents *)

(** The reader may be in any state, before any bytes: the next event is found by the lazy reader if and
    only if it is found by the usual one, or if it cannot be unpacked; then the first access that needs a
    collection fails in the same way ([alike]).  Where the record is [intact] the event answers every
    sequence of read accesses like that of the usual reader. *)
Theorem C37_next_event_partial : forall uncomp srt ignore_null d readonly r, rd_lazy r = false ->
  alike uncomp srt ignore_null (rd_next r) readonly (read_next_event uncomp srt ignore_null d r) (read_next_event uncomp srt ignore_null d (lazily r)).
Proof. exact next_event_alike. Qed.
Print Assumptions C37_next_event_partial.

Example C37_next_case : rd_lazy ex_opened = false /\ got (fst (read_next_event ex_uncomp isort false ex_disk ex_opened)) = [(42, 7)] /\
  got (fst (read_next_event ex_uncomp isort false ex_disk (lazily ex_opened))) = [(42, 7)].
Proof. split; [vm_compute; reflexivity|split; vm_compute; reflexivity]. Qed.

(** ** Where they differ *)

(** An event without collections in a compressed record: asking for a collection throws
    std::invalid_argument, not DataNotAvailableException. *)
Theorem C37_empty_event_refuted : exists d n,
  ex_eager d false [AGet n] = [Throw LDataNotAvailable] /\ ex_lazy d false [AGet n] = [Throw EInvalidArgument].
Proof. exists (ex_one ex_heap ex_empty), (str "A"). split; vm_compute; reflexivity. Qed.
Print Assumptions C37_empty_event_refuted.

(** A subset collection that refers to an object that is not in the file: the usual reader throws when
    the event is read; the lazy reader delivers the event, throws at the first access, and gives the
    collection with null pointers at the second one. *)
Theorem C37_null_in_subset_refuted : exists d n c,
  ex_first d false = Throw LException /\
  map short (ex_lazy d false [AGet n; AGet n]) = [Throw LException; Ok (NColl c no_heap)] /\ c_elems c = [0; 0].
Proof. eexists (ex_one ex_heap ex_dangling), (str "A"), _. split; [|split]; [vm_compute; reflexivity..|reflexivity]. Qed.
Print Assumptions C37_null_in_subset_refuted.

(** The elements of a lazily unpacked event are not protected: a set method of an element succeeds
    although the event was read in read only mode. *)
Theorem C37_read_only_refuted : exists d n,
  ex_eager d true [AModify n 0] = [Throw LReadOnly] /\ ex_lazy d true [AModify n 0] = [Ok NDone].
Proof. exists ex_disk, (str "Gen"). split; vm_compute; reflexivity. Qed.
Print Assumptions C37_read_only_refuted.

(** removeCollection before the event is unpacked leaves a null pointer among the block handlers *)
Theorem C37_remove_refuted : exists d n m,
  map short (ex_eager d false [ARemove n; AGet m]) = [Ok NDone; Throw LDataNotAvailable] /\
  ex_lazy d false [ARemove n; AGet m] = [Ok NDone; UB UBNullDeref].
Proof. exists ex_disk, (str "Gen"), (str "Gen"). split; vm_compute; reflexivity. Qed.
Print Assumptions C37_remove_refuted.

(** * The index and the random access records: C15, C18, C20 *)

From Coq Require Import Sorted.
From Verif Require Import Bytes StrMap SioModel SioSpec Ieee ObjModel ObjSpec EventModel EventSpec EventExamples IndexModel IndexSpec
  FileModel IndexFile IndexFacts IndexExamples.

(** ** C20: the order of run headers and events *)

Theorem C20_strict_weak_order :
  (forall a, re_lt a a = false) /\
  (forall a b c, re_lt a b = true -> re_lt b c = true -> re_lt a c = true) /\
  (forall a b c, re_lt a b = false -> re_lt b a = false -> re_lt b c = false -> re_lt c b = false ->
     re_lt a c = false /\ re_lt c a = false) /\
  (forall a b, snd a < 0 -> 0 <= snd b -> re_lt a b = true) /\
  (forall a b, 0 <= snd a -> 0 <= snd b -> (re_lt a b = true <-> evt_lt a b)) /\
  (forall a b, snd a < 0 -> snd b < 0 -> (re_lt a b = true <-> fst a < fst b)).
Proof. exact order_facts. Qed.
Print Assumptions C20_strict_weak_order.

(** [l] are the run headers and events added to the index, in any order and any number of times;
    run headers have event number -1 *)
Theorem C20_listing : forall l, Forall entry_ok l ->
  exists rs es, runs_of (index_of l) = Ok rs /\ events_of (index_of l) = Ok es /\
    StronglySorted Z.lt rs /\ StronglySorted evt_lt es /\
    (forall r, In r rs <-> exists e, In e l /\ fst (fst e) = r /\ snd (fst e) < 0) /\
    (forall x, In x es <-> exists e, In e l /\ fst e = x /\ 0 <= snd x) /\
    rm_nrun (index_of l) = Zlen rs /\ rm_nevt (index_of l) = Zlen es.
Proof. exact listing. Qed.
Print Assumptions C20_listing.

Example C20_case : Forall entry_ok ix_extreme /\ runs_of (index_of ix_extreme) = Ok [-2147483648; 2147483647] /\
  events_of (index_of ix_extreme) = Ok [(-2147483648, 0); (0, 5); (0, 2147483647)].
Proof. split; [exact (proj1 (proj2 (proj2 ix_examples)))|]. split; vm_compute; reflexivity. Qed.

(** an event with a negative number is listed as a run, not as an event *)
Theorem C20_negative_event_refuted : exists l, Forall entry_ok l /\ In ((6, -3), 800) l /\
  runs_of (index_of l) = Ok [5; 6] /\ events_of (index_of l) = Ok [(5, 1)].
Proof.
  exists ix_negative. split; [exact (proj2 (proj2 (proj2 (proj2 (proj2 ix_examples)))))|]. split; [right; right; left; reflexivity|].
  split; vm_compute; reflexivity.
Qed.

(** ** C15: the index record *)

Theorem C15_index_roundtrip : forall base tail raw l, Forall entry_ok l ->
  covers (rm_map (index_of l)) -> Zlen (rm_map (index_of l)) < 2 ^ 27 -> usable_buf raw ->
  exists w o' raw', write_index (index_of l) = Ok w /\
    put_record (mkO (base ++ tail) (Zlen base)) raw index_record [mkWB index_record cur_vers w] = Ok (o', raw', Zlen base) /\
    forall uncomp g, mg_map g = no_remap ->
    exists s' g', at_position (Zlen base) (read_index_record uncomp) (open_ifs (o_data o')) g = (Ok true, s', g') /\
      mg_map g' = index_of l /\
      forall k, key_ok k -> rm_pos (mg_map g') k = match last_position k l with Some p => p | None => -1 end.
Proof. exact index_record_read. Qed.
Print Assumptions C15_index_roundtrip.

(** the hypothesis holds for files below 2 GB in which each run header has events and each event a
    run header *)
Theorem C15_ordinary_files : forall l, Forall entry_ok l -> ordinary l -> covers (rm_map (index_of l)).
Proof. exact ordinary_covers. Qed.
Print Assumptions C15_ordinary_files.

Example C15_case :
  (Forall entry_ok ix_long /\ covers (rm_map (index_of ix_long))) /\ (Forall entry_ok ix_short /\ covers (rm_map (index_of ix_short))) /\
  reread ix_long = Ok (index_of ix_long) /\ reread ix_short = Ok (index_of ix_short) /\ usable_buf ex_buf.
Proof.
  split; [exact (proj1 ix_examples)|]. split; [exact (proj1 (proj2 ix_examples))|]. split; [vm_compute; reflexivity|].
  split; [vm_compute; reflexivity|exact ex_usable].
Qed.

(** without it: the header of run 7 is read back as the header of run 5 *)
Theorem C15_one_run_refuted : exists l m, Forall entry_ok l /\ reread l = Ok m /\
  last_position (7, -1) l = Some 100 /\ rm_pos m (7, -1) = -1 /\ last_position (5, -1) l = Some 0 /\ rm_pos m (5, -1) = 100.
Proof.
  exists ix_lost. eexists. split; [exact (proj1 (proj2 (proj2 (proj2 ix_examples))))|]. split; [vm_compute; reflexivity|].
  vm_compute. repeat split.
Qed.

(** without it: a position beyond 2 GB is read back as a negative number *)
Theorem C15_short_offset_refuted : exists l m, Forall entry_ok l /\ reread l = Ok m /\
  last_position (1, 1) l = Some 3000000000 /\ rm_pos m (1, 1) = -1294967296.
Proof.
  exists ix_far. eexists. split; [exact (proj1 (proj2 (proj2 (proj2 (proj2 ix_examples)))))|]. split; [vm_compute; reflexivity|].
  vm_compute. repeat split.
Qed.

(** ** C18: the random access record *)

Theorem C18_fixed_size_and_found : forall base raw a, racc_ok a -> usable_buf raw ->
  exists o' raw', put_record (mkO base (Zlen base)) raw access_record [mkWB access_record cur_vers (write_racc a)] = Ok (o', raw', Zlen base) /\
    firstn (length base) (o_data o') = base /\ Zlen (o_data o') = Zlen base + access_size /\
    forall g, exists s' g', at_position (- access_size) read_access (open_ifs (o_data o')) g = (Ok true, s', g') /\
      mg_list g' = mg_list g ++ [a] /\ mg_map g' = mg_map g.
Proof. exact access_record_read. Qed.
Print Assumptions C18_fixed_size_and_found.

Example C18_case : racc_ok (mkRA (-5, 3) (2147483647, -2147483648) 7 0 1 9223372036854775807 400 0 136) /\ access_size = 136.
Proof. unfold racc_ok, key_ok, int32, int64. cbn. repeat split; discriminate. Qed.

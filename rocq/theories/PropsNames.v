(** * Names of records: C04

    Which names [write_record] accepts, in terms of identifiers of C ([identifier], ImplSpec.v). *)

From Coq Require Import ZArith List Bool Lia.
From Verif Require Import Bytes SioModel SioProofs SioRecord SioRead SioFrame SioSpec ImplSpec ImplProofs.
Import ListNotations.
Open Scope Z_scope.

Lemma valid_record_name_iff n : no_nul n -> (valid_record_name n = true <-> identifier n /\ Zlen n <= 64).
Proof.
  intros H. unfold valid_record_name, max_record_name_len. rewrite andb_true_iff, (validate_iff Z.add n H), Z.leb_le. tauto.
Qed.

(** A record is written exactly if its name is an identifier of C of at most 64 characters;
    otherwise nothing is written and an exception says that an argument is wrong. *)
Theorem C04_record_names : forall name buf blks opts,
  no_nul name -> b_valid buf = true -> b_bytes buf <> [] -> blocks_ok blks ->
  NoDup (blocks_tags blks) -> record_size name blks < two32 ->
  ((exists r, write_record name buf blks opts = Ok r) <-> identifier name /\ Zlen name <= 64) /\
  (write_record name buf blks opts = Throw EInvalidArgument <-> ~ (identifier name /\ Zlen name <= 64)).
Proof.
  intros name buf blks opts Hn Hv Hne Hok Hnd Hsz.
  destruct (valid_record_name name) eqn:E.
  - assert (Hname := E). apply (valid_record_name_iff name Hn) in E.
    pose proof (rec_hlen_range name (valid_name_small name Hname)) as [Hh _].
    assert (Hfits : Forall block_fits blks) by (apply blocks_ok_fits; [exact Hok|unfold record_size in Hsz; lia]).
    destruct (write_record_bytes name buf blks opts Hname Hv Hne (blocks_fits_ok blks Hfits) Hnd Hsz) as [He _].
    rewrite He. split; split; intros H; try tauto; try discriminate. eexists; reflexivity.
  - assert (Hneg : ~ (identifier name /\ Zlen name <= 64)).
    { intros H. apply (valid_record_name_iff name Hn) in H. congruence. }
    unfold write_record. rewrite E. cbn [negb]. split; split; intros H; try tauto. destruct H as [r H]. discriminate.
Qed.
Print Assumptions C04_record_names.

Example C04_record_names_case : forall opts,
  let buf := mkBuffer (repeat x00 16) true in let blks := [mkWB (str "A") 1 [DTag 10; DPtr 10]] in
  no_nul (str "LCEvent_2") /\ no_nul (str "2LCEvent") /\ b_valid buf = true /\ b_bytes buf <> [] /\ blocks_ok blks /\
  NoDup (blocks_tags blks) /\ record_size (str "LCEvent_2") blks < two32 /\ record_size (str "2LCEvent") blks < two32 /\
  (identifier (str "LCEvent_2") /\ Zlen (str "LCEvent_2") <= 64) /\
  write_record (str "2LCEvent") buf blks opts = Throw EInvalidArgument.
Proof.
  intros opts buf blks.
  assert (Hn : forall l : bytes, forallb (fun b => negb (Zb b =? 0)) l = true -> no_nul l).
  { intros l H. apply Forall_forall. intros b Hb E. rewrite forallb_forall in H. specialize (H b Hb). rewrite E in H. discriminate. }
  split; [apply Hn; reflexivity|]. split; [apply Hn; reflexivity|]. split; [reflexivity|]. split; [discriminate|].
  split; [repeat constructor; vm_compute; congruence|]. split; [cbn; repeat constructor; cbn; tauto|].
  split; [vm_compute; reflexivity|]. split; [vm_compute; reflexivity|]. split; [|reflexivity].
  apply valid_record_name_iff; [apply Hn; reflexivity|reflexivity].
Qed.

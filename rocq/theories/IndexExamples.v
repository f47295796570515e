(** * Concrete indices *)

From Coq Require Import Sorted.
From Verif Require Import Bytes StrMap SioModel SioSpec Ieee ObjModel ObjSpec EventModel EventSpec EventExamples IndexModel IndexSpec IndexProofs
  FileModel IndexFile IndexFacts.

(** two runs, a file beyond 2 GB *)
Definition ix_long : list (runevt * Z) :=
  [((3, -1), 0); ((3, 7), 400); ((3, 2), 1000000); ((9, -1), 3000000000); ((9, 1), 3000000200)].
(** one run, a short file *)
Definition ix_short : list (runevt * Z) := [((4, -1), 0); ((4, 2), 800); ((4, 1), 400)].
(** extreme numbers, and an entry that is overwritten *)
Definition ix_extreme : list (runevt * Z) :=
  [((2147483647, -1), 12); ((-2147483648, 0), 40); ((-2147483648, -1), 80); ((0, 2147483647), 96); ((0, 5), 120); ((0, 5), 160)].
(** the header of a run without events has a larger number than all events *)
Definition ix_lost : list (runevt * Z) := [((5, -1), 0); ((7, -1), 100); ((5, 1), 200)].
(** event 2 was written before event 1, which is more than 2 GB behind *)
Definition ix_far : list (runevt * Z) := [((1, -1), 0); ((1, 2), 400); ((1, 1), 3000000000)].
(** an event with a negative number *)
Definition ix_negative : list (runevt * Z) := [((5, -1), 0); ((5, 1), 400); ((6, -3), 800)].

Lemma entries_check l : forallb (fun e : runevt * Z => (- 2 ^ 31 <=? fst (fst e)) && (fst (fst e) <? 2 ^ 31) && (- 2 ^ 31 <=? snd (fst e)) &&
    (snd (fst e) <? 2 ^ 31) && (- 2 ^ 63 <=? snd e) && (snd e <? 2 ^ 63)) l = true -> Forall entry_ok l.
Proof.
  intros H. apply Forall_forall. intros e He. rewrite forallb_forall in H. specialize (H e He). cbn beta in H.
  unfold entry_ok, key_ok, int32, int64. lia.
Qed.
Definition coversb (l : list (runevt * Z)) : bool :=
  match l with
  | [] => true
  | f :: _ =>
      let z := last l f in
      forallb (fun e : runevt * Z =>
        (negb (fst (fst f) =? fst (fst z)) || (fst (fst e) =? fst (fst f))) &&
        ((fst (fst f) =? fst (fst z)) || ((- 2 ^ 31 <=? fst (fst e) - fst (fst f)) && (fst (fst e) - fst (fst f) <? 2 ^ 31))) &&
        (negb (snd z - snd f <? 2 ^ 31) || ((- 2 ^ 31 <=? snd e - snd f) && (snd e - snd f <? 2 ^ 31))) &&
        ((- 2 ^ 63 <=? snd e - snd f) && (snd e - snd f <? 2 ^ 63))) l
  end.
Lemma covers_check l : coversb l = true -> covers l.
Proof.
  destruct l as [|f l]; [exact (fun _ => I)|]. unfold coversb, covers. set (z := last (f :: l) f). intros H. rewrite forallb_forall in H.
  unfold int32, int64. split; [|split; [|split]]; intros; match goal with He : In _ _ |- _ => specialize (H _ He) end; cbn beta in H; lia.
Qed.

Lemma ix_examples :
  (Forall entry_ok ix_long /\ covers (rm_map (index_of ix_long))) /\ (Forall entry_ok ix_short /\ covers (rm_map (index_of ix_short))) /\
  Forall entry_ok ix_extreme /\ Forall entry_ok ix_lost /\ Forall entry_ok ix_far /\ Forall entry_ok ix_negative.
Proof.
  split; [split; [apply entries_check; reflexivity|apply covers_check; vm_compute; reflexivity]|].
  split; [split; [apply entries_check; reflexivity|apply covers_check; vm_compute; reflexivity]|].
  repeat split; apply entries_check; reflexivity.
Qed.

(** writing the entries [l] and reading them back *)
Definition reread (l : list (runevt * Z)) : Res remap :=
  do w <- write_index (index_of l);
  do '(o, _, _) <- put_record (mkO [] 0) ex_buf index_record [mkWB index_record cur_vers w];
  match read_index_record (fun _ => None) (open_ifs (o_data o)) (new_mgr ex_buf) with
  | (Ok _, _, g) => Ok (mg_map g)
  | (Throw e, _, _) => Throw e
  | (UB k, _, _) => UB k
  end.

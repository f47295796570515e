(** * Forcing a new index (C50) *)

From Coq Require Import ZArith List Bool Lia.
From Verif Require Import Bytes SioModel ObjModel IndexModel FileModel FileSpec FileExamples MergeModel.
Import ListNotations.
Open Scope Z_scope.

(** What the option -f of addRandomAccess changes in a file before the index is added as without the option: 16 of
    its bytes, at 112 bytes from the end, if they are the name of an access record.  A file with fewer bytes is changed
    only at its beginning, and one with fewer than 16 gets the new name at its end, although it has no access record. *)
Theorem C50_force : forall uncomp d name level raw data, d name = Some data ->
  (112 <= Zlen data -> exists a b c, data = a ++ b ++ c /\ length b = 16%nat /\ length c = 96%nat /\
     (b <> str "LCIORandomAccess" -> force_access uncomp d name level raw = add_access uncomp (save d name data) name level raw) /\
     (b = str "LCIORandomAccess" -> force_access uncomp d name level raw = add_access uncomp (save d name (a ++ str "LCIORandomIGNORE" ++ c)) name level raw)) /\
  (16 <= Zlen data < 112 -> forall b c, data = b ++ c -> length b = 16%nat -> b <> str "LCIORandomAccess" ->
     force_access uncomp d name level raw = add_access uncomp (save d name data) name level raw) /\
  (Zlen data < 16 -> force_access uncomp d name level raw = add_access uncomp (save d name (data ++ str "LCIORandomIGNORE")) name level raw).
Proof.
  intros uncomp d name level raw data Hd. unfold force_access. rewrite Hd. unfold force_name, Zlen.
  assert (EQ : forall x y : bytes, x <> y -> bytes_eqb x y = false) by (intros x y N; destruct (bytes_eqb x y) eqn:E; [apply bytes_eqb_eq in E; contradiction|reflexivity]).
  split; [|split].
  - intros H. destruct (Z.ltb_spec (Z.of_nat (length data)) 112) as [G|_]; [lia|]. rewrite Z.max_r by lia. set (p := Z.to_nat (Z.of_nat (length data) - 112)).
    exists (firstn p data), (firstn 16 (skipn p data)), (skipn 16 (skipn p data)).
    assert (L : length (skipn p data) = 112%nat) by (rewrite skipn_length; unfold p; lia).
    assert (L16 : length (firstn 16 (skipn p data)) = 16%nat) by (rewrite firstn_length; lia).
    split; [rewrite firstn_skipn; symmetry; apply firstn_skipn|]. split; [exact L16|]. split; [rewrite skipn_length; lia|]. rewrite L16. change (Z.of_nat 16 =? 16) with true. cbn [negb]. rewrite orb_false_r.
    split; [intros N; rewrite EQ by exact N; reflexivity|]. intros ->. rewrite bytes_eqb_refl. cbv iota.
    replace (skipn (p + 16) data) with (skipn 16 (skipn p data)); [reflexivity|].
    assert (SS : forall n (l : bytes), skipn 16 (skipn n l) = skipn (n + 16) l) by (induction n as [|n IH]; intros [|x l]; cbn [skipn Nat.add]; [reflexivity..|apply IH]).
    apply SS.
  - intros H b c -> Lb N. destruct (Z.ltb_spec (Z.of_nat (length (b ++ c))) 112) as [_|G]; [|lia]. change (Z.to_nat (Z.max 0 0)) with 0%nat. cbn [skipn].
    replace (firstn 16 (b ++ c)) with b by (rewrite firstn_app, Lb, Nat.sub_diag; change (firstn 0 c) with (@nil byte); rewrite app_nil_r, firstn_all2 by lia; reflexivity).
    rewrite EQ by exact N. rewrite Lb. reflexivity.
  - intros H. destruct (Z.ltb_spec (Z.of_nat (length data)) 112) as [_|G]; [|lia]. change (Z.to_nat (Z.max 0 0)) with 0%nat. cbn [skipn]. rewrite (firstn_all2 data) by lia.
    destruct (Z.eqb_spec (Z.of_nat (length data)) 16) as [G|_]; [lia|]. cbn [negb]. rewrite orb_true_r. cbn [Nat.add]. rewrite firstn_all, skipn_all2 by lia. rewrite app_nil_r. reflexivity.
Qed.
Print Assumptions C50_force.

(** a file of two sessions: the bytes are the name; and one that is too short *)
Example C50_force_case :
  match ex_disk ex_name with
  | Some data => (112 <=? Zlen data) && bytes_eqb (firstn 16 (skipn (length data - 112) data)) (str "LCIORandomAccess")
  | None => false
  end = true /\ Zlen (str "short") < 16 /\
  force_name (str "short") = str "shortLCIORandomIGNORE".
Proof. repeat split; vm_compute; reflexivity. Qed.

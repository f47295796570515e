(** * Which file a writer writes (C17) *)

From Coq Require Import ZArith List Bool Lia.
From Verif Require Import Bytes SioModel ObjModel IndexModel FileModel FileSpec FileExamples.
Import ListNotations.
Open Scope Z_scope.

(** the name of the file, given the name that is passed to open: with the extension, exactly once if it was there *)
Definition file_for (name file : bytes) : Prop :=
  (exists base, name = base ++ str ".slcio") /\ file = name \/
  ~ (exists base, name = base ++ str ".slcio") /\ file = name ++ str ".slcio".
Lemma named name : file_for name (sio_filename name).
Proof.
  unfold file_for, sio_filename. change (str ".slcio") with extension. destruct (bytes_eqb (skipn (length name - length extension) name) extension) eqn:E.
  - left. split; [|reflexivity]. apply bytes_eqb_eq in E. exists (firstn (length name - length extension) name). rewrite <- E at 2. symmetry. apply firstn_skipn.
  - right. split; [|reflexivity]. intros (base & ->). rewrite app_length in E. replace (length base + length extension - length extension)%nat with (length base) in E by lia.
    rewrite skipn_app, skipn_all, Nat.sub_diag in E. cbn [skipn app] in E. rewrite bytes_eqb_refl in E. discriminate E.
Qed.

(** Opening a file for writing or for appending, writing and closing it changes one file, and this is the one
    whose name is the given one with the extension .slcio. *)
Theorem C17_file_name : forall comp uncomp d name s d', new_session comp d name s = Ok d' \/ append_session comp uncomp d name s = Ok d' ->
  exists file, file_for name file /\ (exists data, d' file = Some data) /\ (forall n, n <> file -> d' n = d n) /\
    (append_session comp uncomp d name s = Ok d' -> d file <> None).
Proof.
  assert (A : forall d name c, (exists data, save d (sio_filename name) c (sio_filename name) = Some data) /\ forall n, n <> sio_filename name -> save d (sio_filename name) c n = d n).
  { intros d name c. split; [exists c; unfold save; rewrite bytes_eqb_refl; reflexivity|]. intros n N. unfold save. destruct (bytes_eqb n (sio_filename name)) eqn:E; [|reflexivity]. apply bytes_eqb_eq in E. contradiction. }
  intros comp uncomp d name s d' H. exists (sio_filename name). split; [apply named|].
  assert (B : exists c, d' = save d (sio_filename name) c).
  { destruct H as [H|H]; [unfold new_session in H; destruct (open_new d name (ss_level s) (ss_raw s)) as [w|e|u]|unfold append_session in H; destruct (open_append uncomp d name (ss_level s) (ss_raw s)) as [w|e|u]];
      cbn [bind] in H; try discriminate H; destruct (run_writer comp w s) as [c|e|u]; cbn [bind] in H; try discriminate H; injection H as <-; exists c; reflexivity. }
  destruct B as [c ->]. destruct (A d name c) as [A1 A2]. split; [exact A1|]. split; [exact A2|].
  intros H2. unfold append_session, open_append in H2. destruct (d (sio_filename name)); [discriminate|discriminate H2].
Qed.
Print Assumptions C17_file_name.

Example C17_file_name_case : file_for (str "run1") (str "run1.slcio") /\ file_for (str "run1.slcio") (str "run1.slcio") /\ file_for (str ".slcio.old") (str ".slcio.old.slcio") /\
  file_for (str "lcio") (str "lcio.slcio").
Proof.
  change (str "run1.slcio") with (sio_filename (str "run1")) at 1. split; [apply named|]. split; [exact (named (str "run1.slcio"))|]. split; [exact (named (str ".slcio.old"))|exact (named (str "lcio"))].
Qed.
Example C17_sessions_case :
  match new_session ex_comp empty_disk (str "x") ex_sess1 with
  | Ok d' => match append_session ex_comp ex_uncomp d' (str "x.slcio") ex_sess1 with
             | Ok d2 => match d' (str "x.slcio"), d2 (str "x.slcio"), d2 (str "x") with Some a, Some b, None => Zlen a <? Zlen b | _, _, _ => false end
             | _ => false
             end
  | _ => false
  end = true.
Proof. vm_compute. reflexivity. Qed.

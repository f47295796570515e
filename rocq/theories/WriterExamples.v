(** * Writer objects: examples *)

From Verif Require Import Bytes StrMap SioModel SioProofs SioSpec Ieee ObjModel ObjSpec CollSpec EventModel EventSpec EventProofs EventFacts EventExamples
  IndexModel IndexSpec IndexProofs FileModel IndexFile IndexFacts IndexExamples FileSpec FileWrite FileSessions FileRead FileSeq FileDeliver FileFacts FileUse FileDirect FileMore
  FileExamples WriterModel WriterSpec WriterProofs WriterRun.

Definition no_files : bytes -> option (list session) := fun _ => None.
Definition ex_start : sp := mkSp no_files None false 0.

(** too early; a file; a second session of it, with an attempt to append to a file that is not there; an
    attempt to create it again; an empty file *)
Definition ex_program : list wrcall :=
  [ CRunHeader (ex_rn 42); COpen (str "x") 0; CRunHeader (ex_rn 42); CLevel 6; CEvent ex_heap (ex_ev 42 7); CClose;
    COpen (str "x") 1; CLevel 1; CRunHeader (ex_rn 43); COpen (str "y") 1; CFlush; CLevel 9; CEvent ex_heap (ex_ev 43 7); CClose;
    CCreate (str "x"); CCreate (str "y"); CClose; CClose ].
Definition ex_written : list session :=
  [ [(0, WRun (ex_rn 42)); (6, WEvt ex_heap (ex_ev 42 7) [])]; [(1, WRun (ex_rn 43)); (9, WEvt ex_heap (ex_ev 43 7) [])] ].

Lemma ex_four_ok : item_ok (0, WRun (ex_rn 42)) /\ item_ok (6, WEvt ex_heap (ex_ev 42 7) []) /\ item_ok (1, WRun (ex_rn 43)) /\ item_ok (9, WEvt ex_heap (ex_ev 43 7) []).
Proof.
  destruct ex_items_ok as (A & B & _). cbn [ex_sess1 ex_sess2 ss_items] in *.
  repeat match goal with H : Forall _ (_ :: _) |- _ => inversion H; clear H; subst end. split; [|split; [|split]]; assumption.
Qed.

Lemma ex_fits l : Forall (fun s => incl s (concat ex_written)) l -> items_in l < 2 ^ 27 -> bytes_in ex_comp l < 2 ^ 61 -> sessions_fit ex_comp l.
Proof.
  intros Hl Hi Hb. split; [|split; assumption]. eapply Forall_impl; [|exact Hl]. intros s Hs. destruct ex_four_ok as (A & B & C & D). split.
  - apply Forall_forall. intros x Hx. apply Hs in Hx. cbn [ex_written concat app In] in Hx. destruct Hx as [<-|[<-|[<-|[<-|[]]]]]; assumption.
  - apply ex_close. intros k Hk. apply in_map_iff in Hk. destruct Hk as (x & <- & Hx). apply Hs in Hx. cbn [ex_written concat app In] in Hx.
    destruct Hx as [<-|[<-|[<-|[<-|[]]]]]; cbn; lia.
Qed.

Lemma xy : bytes_eqb (sio_filename (str "y")) (sio_filename (str "x")) = false /\ bytes_eqb (sio_filename (str "x")) (sio_filename (str "y")) = false.
Proof. split; reflexivity. Qed.

Ltac ex_incl := let x := fresh "x" in let H := fresh "H" in intros x H; cbn [In] in H; cbn [ex_written concat app In]; tauto.
Ltac ex_fit := apply ex_fits; [repeat (apply Forall_cons; [ex_incl|]); apply Forall_nil|vm_compute; reflexivity|vm_compute; reflexivity].

Ltac ex_step A B C D := lazymatch goal with
  | |- True => exact Logic.I
  | |- item_ok (0, _) => exact A | |- item_ok (6, _) => exact B | |- item_ok (1, _) => exact C | |- item_ok (9, _) => exact D
  | |- sp_fits _ (mkSp _ None _ _) => exact Logic.I
  | |- sp_fits _ _ => unfold sp_fits; cbn [sp_cur app]; ex_fit
  end.

Lemma program_step comp s c l r s1 : sp_do s c = (r, s1) -> covered s c -> call_fits s c -> sp_fits comp s1 -> program_ok comp s1 l -> program_ok comp s (c :: l).
Proof. intros E H1 H2 H3 H4. cbn [program_ok]. rewrite E. cbv zeta. cbn [snd]. auto. Qed.

(** the files after the sessions *)
Definition ex_files (x y : option (list session)) : bytes -> option (list session) :=
  fun m => if bytes_eqb m (sio_filename (str "x")) then x else if bytes_eqb m (sio_filename (str "y")) then y else None.

Ltac ex_reduce Q1 Q2 :=
  cbn [sp_do covered call_fits]; unfold sp_write, sp_open, put_file, no_files; cbn [sp_cur sp_files sp_stuck sp_level Z.eqb Pos.eqb]; cbv zeta; rewrite ?bytes_eqb_refl, ?Q1, ?Q2; cbn [begun app andb].

Lemma ex_program_ok : program_ok ex_comp ex_start ex_program.
Proof.
  destruct ex_four_ok as (A & B & C & D). destruct xy as [Q1 Q2]. unfold ex_program, ex_start.
  repeat (eapply program_step; [ex_reduce Q1 Q2; reflexivity|ex_reduce Q1 Q2; ex_step A B C D|ex_reduce Q1 Q2; ex_step A B C D|ex_step A B C D|]).
  exact Logic.I.
Qed.

Lemma ex_program_result : let s := sp_all ex_start ex_program in
  fst s = [Throw LIOException; Ok tt; Ok tt; Ok tt; Ok tt; Ok tt; Ok tt; Ok tt; Ok tt; Throw LIOException; Ok tt; Ok tt; Ok tt; Ok tt; Throw LIOException; Ok tt; Ok tt; Ok tt] /\
  sp_cur (snd s) = None /\ sp_files (snd s) (sio_filename (str "x")) = Some ex_written /\ sp_files (snd s) (sio_filename (str "y")) = Some [[]].
Proof. repeat split. Qed.

Definition ex_writer : wobj := new_wobj empty_disk ex_buf ex_buf.
Definition ex_says (l : list wrcall) : list (Res unit) := fst (wo_all ex_comp ex_uncomp ex_writer l).
Definition ex_after (l : list wrcall) : disk := wo_disk (snd (wo_all ex_comp ex_uncomp ex_writer l)).

Lemma ex_readable_written : Forall (readable false []) (map snd (concat ex_written)).
Proof.
  pose proof ex_readable as H. cbn [ex_file wf_sess wf_first wf_more items_of flat_map ex_sess1 ex_sess2 ss_items map snd app] in H. cbn [ex_written concat map snd app].
  repeat match goal with H : Forall _ (_ :: _) |- _ => inversion H; clear H; subst end. repeat (apply Forall_cons; [assumption|]). apply Forall_nil.
Qed.

(** * What a sequence of calls of MT::LCWriter does: specification

    As for SIOWriter (WriterSpec), but the collections to write can be given, and a close is only allowed
    after an attempt to open a file. *)

From Verif Require Import Bytes StrMap SioModel SioSpec Ieee ObjModel ObjSpec CollSpec EventModel EventSpec EventProofs EventFacts
  IndexModel IndexSpec FileModel FileSpec WriterModel WriterSpec MtModel.

(** the files and the open file; whether an open was tried since the last close *)
Definition mp : Type := (sp * bool)%type.

Definition mp_do (s : mp) (c : mtcall) : Res unit * mp :=
  match c with
  | MCreate name =>
      match sp_files (fst s) (sio_filename name) with
      | Some _ => (Throw LIOException, s)
      | None => let '(r, s1) := sp_open (fst s) name 0 in (r, (s1, true))
      end
  | MOpen name mode => let '(r, s1) := sp_open (fst s) name mode in (r, (s1, true))
  | MLevel z => (Ok tt, (mkSp (sp_files (fst s)) (sp_cur (fst s)) (sp_stuck (fst s)) z, snd s))
  | MWrite i => let '(r, s1) := sp_write (fst s) i in (r, (s1, snd s))
  | MClose => if snd s then let '(r, s1) := sp_do (fst s) CClose in (r, (s1, false)) else (UB UBNullDeref, s)
  end.
Fixpoint mp_all (s : mp) (l : list mtcall) : list (Res unit) * mp :=
  match l with
  | [] => ([], s)
  | c :: l' =>
      let '(r, s1) := mp_do s c in
      match r with
      | UB _ => ([r], s1)
      | _ => let '(rs, s2) := mp_all s1 l' in (r :: rs, s2)
      end
  end.

(** no file is opened while another is open; open( name ) of a file that exists does no harm *)
Definition one_at_a_time (s : sp) (c : mtcall) : Prop :=
  match c with
  | MOpen _ _ => sp_cur s = None
  | MCreate name => sp_cur s = None \/ sp_files s (sio_filename name) <> None
  | _ => True
  end.
(** what is given to the writer can be put into a buffer, also if no file is open *)
Definition item_fits (s : sp) (c : mtcall) : Prop := match c with MWrite i => item_ok (sp_level s, i) | _ => True end.
Fixpoint mt_program_ok (comp : Z -> bytes -> bytes) (s : mp) (l : list mtcall) : Prop :=
  match l with
  | [] => True
  | c :: l' => one_at_a_time (fst s) c /\ item_fits (fst s) c /\ let s1 := snd (mp_do s c) in sp_fits comp (fst s1) /\ mt_program_ok comp s1 l'
  end.
Definition mt_name (c : mtcall) : list bytes := match c with MCreate name | MOpen name _ => [sio_filename name] | _ => [] end.
Definition mt_named (l : list mtcall) : list bytes := flat_map mt_name l.

(** * What a sequence of calls of a writer does: specification

    A file is the list of the sessions in which it was written, a session the list of the items with
    their compression levels. *)

From Verif Require Import Bytes StrMap SioModel SioSpec Ieee ObjModel ObjSpec CollSpec EventModel EventSpec EventProofs EventFacts
  IndexModel IndexSpec FileModel FileSpec WriterModel.

Definition session : Type := list (Z * witem).

(** the files; the file that is open, with its earlier sessions and the current one; whether a second
    file was opened before the first was closed; the compression level *)
Record sp := mkSp { sp_files : bytes -> option (list session); sp_cur : option (bytes * list session * session); sp_stuck : bool; sp_level : Z }.

Definition put_file (f : bytes -> option (list session)) (n : bytes) (l : list session) : bytes -> option (list session) :=
  fun m => if bytes_eqb m n then Some l else f m.
(** there is something in the first session *)
Definition begun (l : list session) : bool := match l with (_ :: _) :: _ => true | _ => false end.

Definition sp_write (s : sp) (i : witem) : Res unit * sp :=
  match sp_cur s with
  | None => (Throw LIOException, s)
  | Some (n, before, now) =>
      if sp_stuck s then (Throw EBadState, s)
      else (Ok tt, mkSp (sp_files s) (Some (n, before, now ++ [(sp_level s, i)])) false (sp_level s))
  end.
Definition sp_open (s : sp) (name : bytes) (mode : Z) : Res unit * sp :=
  let n := sio_filename name in
  if mode =? 0 then
    match sp_cur s with
    | None => (Ok tt, mkSp (put_file (sp_files s) n []) (Some (n, [], [])) false (sp_level s))
    | Some c => (Throw ENotOpen, mkSp (sp_files s) (Some c) true (sp_level s))
    end
  else if mode =? 1 then
    match sp_files s n with
    | None => (Throw LIOException, s)
    | Some l => if begun l then (Ok tt, mkSp (sp_files s) (Some (n, l, [])) false (sp_level s)) else (Throw LIOException, s)
    end
  else
    match sp_cur s with
    | Some _ => if sp_stuck s then (Throw ENotOpen, s) else (Ok tt, s)
    | None => (Throw ENotOpen, s)
    end.
Definition sp_do (s : sp) (c : wrcall) : Res unit * sp :=
  match c with
  | CCreate name => match sp_files s (sio_filename name) with Some _ => (Throw LIOException, s) | None => sp_open s name 0 end
  | COpen name mode => sp_open s name mode
  | CLevel z => (Ok tt, mkSp (sp_files s) (sp_cur s) (sp_stuck s) z)
  | CRunHeader r => sp_write s (WRun r)
  | CEvent h e => sp_write s (WEvt h e [])
  | CFlush => (Ok tt, s)
  | CClose =>
      match sp_cur s with
      | None => (Ok tt, s)
      | Some (n, before, now) =>
          if sp_stuck s && match now with [] => false | _ => true end then (Throw EBadState, s)
          else (Ok tt, mkSp (put_file (sp_files s) n (before ++ [now])) None false (sp_level s))
      end
  end.
Fixpoint sp_all (s : sp) (l : list wrcall) : list (Res unit) * sp :=
  match l with
  | [] => ([], s)
  | c :: l' => let '(r, s1) := sp_do s c in let '(rs, s2) := sp_all s1 l' in (r :: rs, s2)
  end.

(** the program does not open for appending, while a file is open, a file that exists *)
Definition covered (s : sp) (c : wrcall) : Prop :=
  match c with
  | COpen name 1 => match sp_cur s, sp_files s (sio_filename name) with Some _, Some _ => False | _, _ => True end
  | _ => True
  end.
(** the sizes: less than 2^27 items and 2^61 bytes per file, the run numbers of a session differ by
    less than 2^31.  The bytes of an item do not depend on the buffer, [any_buffer] is one *)
Definition any_buffer : buffer := mkBuffer [Init.Byte.x00] true.
Definition session_ok (l : session) : Prop := Forall item_ok l /\ runs_close (map (fun zi => item_key (snd zi)) l).
Definition items_in (l : list session) : Z := fold_right (fun s n => Zlen s + n) 0 l.
Definition bytes_in (comp : Z -> bytes -> bytes) (l : list session) : Z :=
  fold_right (fun s n => Zlen (flat_map (item_text comp any_buffer any_buffer) s) + n) 0 l.
Definition sessions_fit (comp : Z -> bytes -> bytes) (l : list session) : Prop :=
  Forall session_ok l /\ items_in l < 2 ^ 27 /\ bytes_in comp l < 2 ^ 61.
Definition sp_fits (comp : Z -> bytes -> bytes) (s : sp) : Prop :=
  match sp_cur s with None => True | Some (_, before, now) => sessions_fit comp (before ++ [now]) end.
(** also the items that are refused can be put into a buffer *)
Definition call_fits (s : sp) (c : wrcall) : Prop :=
  match c with
  | CRunHeader r => item_ok (sp_level s, WRun r)
  | CEvent h e => item_ok (sp_level s, WEvt h e [])
  | _ => True
  end.
Fixpoint program_ok (comp : Z -> bytes -> bytes) (s : sp) (l : list wrcall) : Prop :=
  match l with
  | [] => True
  | c :: l' => covered s c /\ call_fits s c /\ let s1 := snd (sp_do s c) in sp_fits comp s1 /\ program_ok comp s1 l'
  end.

(** the files a program names *)
Definition call_name (c : wrcall) : list bytes :=
  match c with CCreate name | COpen name _ => [sio_filename name] | _ => [] end.
Definition named (l : list wrcall) : list bytes := flat_map call_name l.

(** the file [n] is on the disk as written in the sessions [l] *)
Definition on_disk (comp : Z -> bytes -> bytes) (uncomp : bytes -> option bytes) (d : disk) (n : bytes) (x : option (list session)) : Prop :=
  match x with
  | None => d n = None
  | Some l => if begun l then exists f, wf_name f = n /\ wf_ok comp uncomp d f /\ map ss_items (wf_sess f) = l
              else d n = Some []
  end.

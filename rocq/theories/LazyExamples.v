(** * Concrete events that are read with lazy unpacking *)

From Verif Require Import Bytes StrMap SioModel SioSpec Ieee ObjModel EventModel EventExamples
  IndexModel IndexExamples FileModel FileSpec FileExamples LazyModel LazySpec LazyProofs EventFacts.

(** the first event of a file, in lazy mode or not *)
Definition ex_first (d : disk) (lazy : bool) : Res levent :=
  match read_all ex_uncomp isort false d [ex_name] [true] (new_reader false lazy [] [] [] ex_buf 1000) with
  | [REvt (Some l)] => Ok l
  | [RThrow e] => Throw e
  | _ => UB UBUninit
  end.
(** what the accesses to it give *)
Definition ex_eager (d : disk) (readonly : bool) (accs : list access) : list (Res answer) :=
  match ex_first d false with
  | Ok l => base_run (immediate readonly l) accs
  | Throw e => [Throw e]
  | UB k => [UB k]
  end.
Definition ex_lazy (d : disk) (readonly : bool) (accs : list access) : list (Res answer) :=
  match (do l <- ex_first d true; lazy_event readonly l) with
  | Ok z => lazy_run ex_uncomp isort false 1000 (Some z) accs
  | Throw e => [Throw e]
  | UB k => [UB k]
  end.
(** the answers without the memory *)
Definition short (r : Res answer) : Res answer :=
  match r with Ok (NColl c _) => Ok (NColl c no_heap) | _ => r end.

(** one event, compressed *)
Definition ex_one (h : heap) (e : event) : disk :=
  disk_of (sessions ex_comp ex_uncomp empty_disk (str "x") (mkSess 6 ex_buf ex_buf ex_buf [(6, WEvt h e [])]) []).
Definition ex_empty : event := mkEvt 5 1 0 (str "D") no_params [].
(** a selection of a particle that is not in the file *)
Definition ex_dangling : event := mkEvt 5 1 0 (str "D") no_params [(str "A", ex_sel); (str "B", ex_usr)].

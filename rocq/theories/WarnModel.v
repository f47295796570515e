(** * Warnings that are shown a limited number of times

    Model of src/cpp/src/UTIL/LCWarning.cc and src/cpp/include/UTIL/LCWarning.h.  The output is a list of what is shown; rules and fixed sentences
    are left out. *)

From Verif Require Import Bytes StrMap.

(** _warning_cfg_struct, LCWarning.h:48-52 *)
Record wcfg := mkWC { wc_txt : bytes; wc_max : Z; wc_left : Z }.
(** _warning_cfg, LCWarning.h:54 *)
Notation warnings := (list (bytes * wcfg)).
(** a new element of the map, made by operator[], LCWarning.h:49-51 *)
Definition blank : wcfg := mkWC [] 0 0.
(** what is shown: a text with the maximal number and how often it will be shown again (LCWarning.cc:122-130), a text for the last time but one
    (132-136), the heading at the end (154-157) and a text below it (161) *)
Inductive wshow := WText (txt : bytes) (max left : Z) | WLast (txt : bytes) | WHeading | WEnd (txt : bytes).
(** the calls *)
Inductive wcall := WRegister (id txt : bytes) (max : Z) | WPrint (id : bytes).

(** registerWarning, LCWarning.cc:103-113; an exception leaves the map as it is *)
Definition register (w : warnings) (id txt : bytes) (max : Z) : Res warnings :=
  match sm_get id w with Some _ => Throw LException | None => Ok (sm_set id (mkWC txt max max) w) end.
(** printWarning, LCWarning.cc:117-143; [operator[]] makes an entry for an unknown name *)
Definition print (w : warnings) (id : bytes) : warnings * list wshow :=
  let c := match sm_get id w with Some c => c | None => blank end in
  if wc_left c <=? 0 then (sm_set id c w, [])
  else (sm_set id (mkWC (wc_txt c) (wc_max c) (wc_left c - 1)) w,
        [if 1 <? wc_left c then WText (wc_txt c) (wc_max c) (wc_left c - 1) else WLast (wc_txt c)]).
(** one call: the warnings after it and what is shown, or the exception *)
Definition wstep (w : warnings) (c : wcall) : warnings * Res (list wshow) :=
  match c with
  | WRegister id txt max => match register w id txt max with Ok w' => (w', Ok []) | Throw e => (w, Throw e) | UB k => (w, UB k) end
  | WPrint id => let (w', o) := print w id in (w', Ok o)
  end.
(** a sequence of calls: no code of its own *)
Fixpoint wrun (w : warnings) (l : list wcall) : warnings * list (Res (list wshow)) :=
  match l with [] => (w, []) | c :: l' => let (w1, o) := wstep w c in let (w2, os) := wrun w1 l' in (w2, o :: os) end.
(** the destructor, LCWarning.cc:147-165 *)
Fixpoint wclose (w : warnings) (first : bool) : list wshow :=
  match w with
  | [] => []
  | (_, c) :: w' => if wc_max c =? wc_left c then wclose w' first
                    else (if first then [WHeading] else []) ++ WEnd (wc_txt c) :: wclose w' false
  end.
(** the names registered by the constructor, LCWarning.cc:11-96; the texts are left out of the model: [txt] gives them.  The default of [max],
    LCWarning.h:32 *)
Definition builtin_ids : list bytes := map str
  ["SIMTRACKERHIT_DEPRECATED_GETDEDX"; "SIMTRACKERHIT_DEPRECATED_SETDEDX"; "SIMTRACKERHIT_DEPRECATED_GETCELLID"; "SIMTRACKERHIT_DEPRECATED_SETCELLID";
   "TRACKERHIT_DEPRECATED_GETDEDX"; "TRACKERHIT_DEPRECATED_SETDEDX"; "SIMCALORIMETERHIT_DEPRECATED_GETNMCPARTICLES"; "MCPARTICLE_DEPRECATED_GETNUMBEROFPARENTS";
   "MCPARTICLE_DEPRECATED_GETPARENT"; "MCPARTICLE_DEPRECATED_GETNUMBEROFDAUGHTERS"; "MCPARTICLE_DEPRECATED_GETDAUGHTER"]%string.
Definition builtin (txt : bytes -> bytes) : list wcall := map (fun id => WRegister id (txt id) 10) builtin_ids.

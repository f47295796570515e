(** * What is expected of the Fortran functions for events, run headers and navigators *)
From Verif Require Import Bytes StrMap SioModel ObjModel EventModel ImplModel ImplSpec EvAttrModel EvAttrSpec NavModel NavSpec FortModel FevtModel.

(** a memory as programs leave it: objects are at addresses that [new] has given, none is null *)
Definition usable_memory (s : fmemory) : Prop :=
  0 < fm_next s /\
  forall a, fm_evs s a <> None \/ fm_rhs s a <> None \/ fm_navs s a <> None \/ fm_cols s a <> None -> 0 < a < fm_next s.
Definition empty_memory : fmemory := mkFM 1 (fun _ => None) (fun _ => None) (fun _ => None) (fun _ => None).
(** every call of the program returned *)
Definition all_returned (h : list (fcall77 * Res out77)) : Prop := Forall (fun cr => exists o, snd cr = Ok o) h.
(** what a call returns *)
Definition returns77 (fadd : Z -> Z -> Z) (s : fmemory) (c : fcall77) (o : out77) : Prop := fst (step77 fadd s c) = Ok o.

(** ** Histories: what was last given to a setter of the object [a] *)
Definition run_given (a : addr) (cr : fcall77 * Res out77) : option Z := match fst cr with Lcevtsetrunnumber e v => if e =? a then Some v else None | _ => None end.
Definition num_given (a : addr) (cr : fcall77 * Res out77) : option Z := match fst cr with Lcevtseteventnumber e v => if e =? a then Some v else None | _ => None end.
Definition time_given (a : addr) (cr : fcall77 * Res out77) : option Z := match fst cr with Lcevtsettimestamp e v => if e =? a then Some v else None | _ => None end.
Definition det_given (a : addr) (cr : fcall77 * Res out77) : option bytes := match fst cr with Lcevtsetdetectorname e v => if e =? a then Some (c_str v) else None | _ => None end.
Definition hrun_given (a : addr) (cr : fcall77 * Res out77) : option Z := match fst cr with Lcrhdsetrunnumber r v => if r =? a then Some v else None | _ => None end.
Definition hdet_given (a : addr) (cr : fcall77 * Res out77) : option bytes := match fst cr with Lcrhdsetdetectorname r v => if r =? a then Some (c_str v) else None | _ => None end.
Definition hdesc_given (a : addr) (cr : fcall77 * Res out77) : option bytes := match fst cr with Lcrhdsetdescription r v => if r =? a then Some (c_str v) else None | _ => None end.
Definition subs_given (a : addr) (h : list (fcall77 * Res out77)) : list bytes :=
  flat_map (fun cr => match fst cr with Lcrhdaddactivesubdetector r v => if r =? a then [c_str v] else [] | _ => [] end) h.
(** the collection that the event [a] holds under a name: added with status 1 and not removed since with status 1 *)
Definition held77 (a : addr) (h : list (fcall77 * Res out77)) (name : bytes) : option addr :=
  fold_left (fun acc cr => match cr with
                           | (Lcevtaddcollection e c n, Ok (OStatus 1)) => if e =? a then if bytes_dec (c_str n) name then Some c else acc else acc
                           | (Lcevtremovecollection e n, Ok (OStatus 1)) => if e =? a then if bytes_dec (c_str n) name then None else acc else acc
                           | _ => acc
                           end) h None.
(** the relations added to and removed from the navigator [a] *)
Definition relations_given (a : addr) (h : list (fcall77 * Res out77)) : list nav_call :=
  flat_map (fun cr => match fst cr with
                      | Lcrnvgaddrelation n f t w => if n =? a then [NAdd f t w] else []
                      | Lcrnvgremoverelation n f t => if n =? a then [NRemove f t] else []
                      | _ => []
                      end) h.
(** the answers of the navigator [a] for the objects related by [w] *)
Definition navigator_answers (fadd : Z -> Z -> Z) (s : fmemory) (a : addr) (wt : addr -> addr -> option Z) : Prop := forall x,
  exists tos tws froms fws,
    returns77 fadd s (Lcrnvgetrelatedtoobjects a x) (ONums tos) /\ returns77 fadd s (Lcrnvgetrelatedtoweights a x) (ONums tws) /\
    returns77 fadd s (Lcrnvgetrelatedfromobjects a x) (ONums froms) /\ returns77 fadd s (Lcrnvgetrelatedfromweights a x) (ONums fws) /\
    length tos = length tws /\ NoDup tos /\ (forall y w, related tos tws y w <-> wt x y = Some w) /\
    length froms = length fws /\ NoDup froms /\ (forall y w, related froms fws y w <-> wt y x = Some w).

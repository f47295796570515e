(** * What names of classes and summaries of events are expected to be

    Independent of the model of LCIOTypeInfo.h and of the positions in EventSummary.h. *)

From Verif Require Import Bytes StrMap ObjModel EventSpec TypeModel.

(** ** Summaries *)

(** a description is a list of entries separated by commas; [entries k d] are the names that stand behind
    the letter [k] and a colon *)
Fixpoint fields (acc : bytes) (d : bytes) : list bytes :=
  match d with
  | [] => [rev acc]
  | b :: d' => if Byte.eqb b ","%byte then rev acc :: fields [] d' else fields (b :: acc) d'
  end.
Fixpoint entries_of (k : byte) (l : list bytes) : list bytes :=
  match l with
  | [] => []
  | (c :: d :: n) :: l' => if Byte.eqb c k && Byte.eqb d ":"%byte then n :: entries_of k l' else entries_of k l'
  | _ :: l' => entries_of k l'
  end.
Definition entries (k : byte) (d : bytes) : list bytes := entries_of k (fields [] d).

(** the names, as users write them *)
Definition esi_name (e : esi) : bytes :=
  match e with
  | runnum => str "runnum" | evtnum => str "evtnum" | chpfonum => str "chpfonum" | neupfonum => str "neupfonum"
  | elnum => str "elnum" | munum => str "munum" | taunum => str "taunum" | phonum => str "phonum" | jetnum => str "jetnum"
  | bcpfonum => str "bcpfonum" | trknum => str "trknum" | clunum => str "clunum" | mcproc => str "mcproc"
  end.
Definition esf_name (e : esf) : bytes :=
  match e with
  | epfotot => str "epfotot" | emcptot => str "emcptot" | thrust => str "thrust" | spher => str "spher" | emiss => str "emiss"
  | pxmiss => str "pxmiss" | pymiss => str "pymiss" | pzmiss => str "pzmiss" | y12 => str "y12" | y23 => str "y23"
  | y34 => str "y34" | y45 => str "y45" | y56 => str "y56" | y67 => str "y67" | y78 => str "y78"
  end.

(** one of the values of a summary *)
Inductive es_key := EI (e : esi) | EF (e : esf) | ED (e : esf).
(** the value that was set last by some calls, the last of them at the head; 0 at the beginning *)
Definition es_sets (c : es_call) : option (es_key * Z) :=
  match c with SetI e v => Some (EI e, v) | SetF e v => Some (EF e, v) | SetD e v => Some (ED e, v) | _ => None end.
Definition es_key_dec (a b : es_key) : {a = b} + {a <> b}. Proof. repeat decide equality. Defined.
Fixpoint last_set (rev_calls : list es_call) (k : es_key) : Z :=
  match rev_calls with
  | [] => 0
  | c :: r => match es_sets c with Some (k', v) => if es_key_dec k' k then v else last_set r k | None => last_set r k end
  end.
(** what a call returns after the calls [done] *)
Definition es_expected (done : list es_call) (c : es_call) : Z :=
  match c with
  | GetI e => last_set (rev done) (EI e) | GetF e => last_set (rev done) (EF e) | GetD e => last_set (rev done) (ED e)
  | _ => 0
  end.

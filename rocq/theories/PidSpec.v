(** * What is expected of the registered algorithms *)
From Coq Require Import ZArith List Bool Permutation.
From Verif Require Import Bytes StrMap SioModel ObjModel ImplModel PidModel.
Import ListNotations.
Open Scope Z_scope.

(** a registered algorithm: id, name, names of its parameters *)
Record algo := mkA { a_id : Z; a_name : bytes; a_pars : list bytes }.
(** ids are 32 bit numbers; ids and names occur once *)
Definition consistent (reg : list algo) : Prop :=
  NoDup (map a_id reg) /\ NoDup (map a_name reg) /\ Forall (fun a => - 2 ^ 31 <= a_id a < 2 ^ 31) reg.
(** the next id *)
Definition next_id (reg : list algo) : Z := 1 + fold_left (fun m a => Z.max m (a_id a)) reg (-1).
(** a registration: a name that is known already is refused *)
Definition register (reg : list algo) (e : bytes * list bytes) : list algo :=
  if existsb (fun a => bytes_eqb (a_name a) (fst e)) reg then reg else reg ++ [mkA (next_id reg) (fst e) (snd e)].
(** after a program: only handlers of modifiable collections register *)
Definition registered (reg : list algo) (l : list step) : list algo :=
  fold_left (fun r s => match s with Life true adds => fold_left register adds r | _ => r end) l reg.
(** the string vector and int vector of a key, empty if absent *)
Definition strings (p : params) (k : bytes) : list bytes := match sm_get k (p_str p) with Some l => l | None => [] end.
Definition ints (p : params) (k : bytes) : list Z := match sm_get k (p_int p) with Some l => l | None => [] end.
(** the parameters of a collection hold the algorithms, in any order *)
Definition describes (p : params) (reg : list algo) : Prop :=
  sm_ok (p_int p) /\ sm_ok (p_str p) /\ consistent reg /\
  (exists l, Permutation reg l /\ strings p (str "PIDAlgorithmTypeName") = map a_name l /\ ints p (str "PIDAlgorithmTypeID") = map a_id l) /\
  (forall a, In a reg -> strings p (str "ParameterNames_" ++ a_name a) = a_pars a).
(** a change of other parameters *)
Definition other_key (c : par_call) : Prop :=
  match c with
  | P_setString k _ | P_setStrings k _ => k <> str "PIDAlgorithmTypeName" /\ (forall n, k <> str "ParameterNames_" ++ n)
  | P_setInt k _ | P_setInts k _ => k <> str "PIDAlgorithmTypeID"
  | P_setFloat _ _ | P_setFloats _ _ => True
  end.
Definition other_steps (l : list step) : Prop := Forall (fun s => match s with Other c => other_key c | Life _ _ => True end) l.
(** all ids handed out fit in an [int] *)
Definition room (reg : list algo) (l : list step) : Prop :=
  next_id reg + Z.of_nat (fold_right (fun s n => match s with Life _ adds => length adds + n | _ => n end)%nat 0%nat l) <= 2 ^ 31.
(** the index of the first occurrence *)
Definition first_index (l : list bytes) (name : bytes) (i : Z) : Prop :=
  0 <= i /\ nth_error l (Z.to_nat i) = Some name /\ forall j, (j < Z.to_nat i)%nat -> nth_error l j <> Some name.
(** a handler answers according to a registry *)
Definition answers (h : handler) (reg : list algo) : Prop :=
  (forall n i, algorithm_id h n = Ok i <-> exists ps, In (mkA i n ps) reg) /\
  (forall i n, algorithm_name h i = Ok n <-> exists ps, In (mkA i n ps) reg) /\
  (forall i ps, parameter_names h i = Ok ps <-> exists n, In (mkA i n ps) reg) /\
  (forall i n ps name j, In (mkA i n ps) reg -> Zlen ps < 2 ^ 31 ->
     (parameter_index h i name = Ok j <-> (first_index ps name j \/ j = -1 /\ ~ In name ps))) /\
  Permutation (algorithm_ids h) (map a_id reg).
(** the particle ids of an algorithm; at most one for each algorithm *)
Definition of_algorithm (id : Z) (l : list pid) : list pid := filter (fun x => pi_alg x =? id) l.
Definition one_each (l : list pid) : Prop := forall id, (length (of_algorithm id l) <= 1)%nat.
(** several calls of setParticleID: user type, PDG, likelihood, algorithm, parameters; exceptions caught *)
Definition pid_call : Type := Z * Z * Z * Z * list Z.
Fixpoint set_all (srt : forall A : Type, (A -> Z) -> list A -> list A) (h : handler) (l : list pid) (cs : list pid_call) : Res (list pid) :=
  match cs with
  | [] => Ok l
  | (user, pdg, like, id, pars) :: cs' =>
      match set_particle_id srt h l user pdg like id pars with
      | Ok l' => set_all srt h l' cs'
      | Throw _ => set_all srt h l cs'
      | UB u => UB u
      end
  end.
(** a call the handler has to accept: the algorithm is known and the number of parameters is right *)
Definition accepted (reg : list algo) (c : pid_call) : bool :=
  let '(_, _, _, id, pars) := c in existsb (fun a => (a_id a =? id) && (Zlen (a_pars a) =? Zlen pars)) reg.
(** what was set last for an algorithm *)
Definition last_set (reg : list algo) (id : Z) (d : pid) (cs : list pid_call) : pid :=
  fold_left (fun d c => let '(user, pdg, like, i, pars) := c in
                        if accepted reg c && (i =? id) then mkPID like user pdg i pars else d) cs d.

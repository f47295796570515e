(** * Model of src/cpp/src/UTIL/PIDHandler.cc and CollectionParameterMap.cc *)
From Coq Require Import ZArith List Bool.
From Verif Require Import Bytes StrMap ZMap SioModel ObjModel ImplModel.
Import ListNotations.
Open Scope Z_scope.

(** the names of the collection parameters, PIDHandler.cc:23 and 74 *)
Definition k_names : bytes := str "PIDAlgorithmTypeName".
Definition k_ids : bytes := str "PIDAlgorithmTypeID".
Definition k_pars (algo : bytes) : bytes := str "ParameterNames_" ++ algo.

(** the members of PIDHandler, PIDHandler.h:123-129, with those of CollectionParameterMap, .h:56-59:
    whether the collection is updated, the map from names to ids, the largest id, the names of the
    parameters, the map from ids to names, the ids *)
Record handler := mkH {
  h_update : bool; h_map : list (bytes * Z); h_max : Z;
  h_names : list (Z * list bytes); h_inv : list (Z * bytes); h_ids : list Z
}.

(** std::map::insert does not change existing entries, PIDHandler.cc:82, 145 and 148 *)
Definition map_insert {V} (k : bytes) (v : V) (m : list (bytes * V)) : list (bytes * V) :=
  match sm_get k m with Some _ => m | None => sm_set k v m end.
Definition zmap_insert {V} (k : Z) (v : V) (m : list (Z * V)) : list (Z * V) :=
  match zm_get k m with Some _ => m | None => zm_set k v m end.

(** CollectionParameterMap::init, CollectionParameterMap.cc:33-62; vectors have fewer than 2^32 elements *)
Fixpoint cpm_insert (keys : list bytes) (values : list Z) (m : list (bytes * Z)) : list (bytes * Z) :=
  match keys, values with k :: keys', v :: values' => cpm_insert keys' values' (map_insert k v m) | _, _ => m end.
Definition cpm_init (p : params) : Res (list (bytes * Z)) :=
  let keys := par_vals (p_str p) k_names [] in
  let values := par_vals (p_int p) k_ids [] in
  if Zlen keys =? Zlen values then Ok (cpm_insert keys values []) else Throw LException.
(** ~CollectionParameterMap, CollectionParameterMap.cc:65-93 *)
Definition cpm_save (update : bool) (m : list (bytes * Z)) (p : params) : params :=
  if update then
    let p1 := fst (par_do false p (P_setStrings k_names (map fst m))) in
    fst (par_do false p1 (P_setInts k_ids (map snd m)))
  else p.

(** the loop of PIDHandler::init, PIDHandler.cc:47-84 *)
Fixpoint init_loop (p : params) (l : list (bytes * Z)) (h : handler) : Res handler :=
  match l with
  | [] => Ok h
  | (name, id) :: l' =>
      match zm_get id (h_names h) with
      | Some _ => Throw LException
      | None =>
          init_loop p l' (mkH (h_update h) (h_map h) (if h_max h <? id then id else h_max h)
            (zm_set id (par_vals (p_str p) (k_pars name) []) (h_names h)) (zmap_insert id name (h_inv h)) (h_ids h ++ [id]))
      end
  end.
(** the constructors, PIDHandler.cc:21-38, with init, 41-105: outcome and parameters of the collection.  If
    [init] throws, the map is destroyed and writes its entries *)
Definition open_handler (update : bool) (ty : bytes) (p : params) : Res handler * params :=
  match cpm_init p with
  | Ok m =>
      match init_loop p m (mkH update m (-1) [] [] []) with
      | Ok h => if bytes_eqb ty (str "ReconstructedParticle") || bytes_eqb ty (str "Cluster") then (Ok h, p)
                else (Throw LException, cpm_save update m p)
      | Throw e => (Throw e, cpm_save update m p)
      | UB u => (UB u, p)
      end
  | Throw e => (Throw e, p)
  | UB u => (UB u, p)
  end.
(** ~PIDHandler, PIDHandler.cc:110-125, then ~CollectionParameterMap; [_cpmInv[id]] of an unknown id is empty *)
Definition close_handler (h : handler) (p : params) : params :=
  let p1 := if h_update h then
    fold_left (fun q e => fst (par_do false q (P_setStrings (k_pars (match zm_get (fst e) (h_inv h) with Some n => n | None => [] end)) (snd e)))) (h_names h) p
    else p in
  cpm_save (h_update h) (h_map h) p1.

(** addAlgorithm, PIDHandler.cc:127-156, with nextID, PIDHandler.h:119 *)
Definition add_algorithm (h : handler) (name : bytes) (pars : list bytes) : Res (handler * Z) :=
  match sm_get name (h_map h) with
  | Some _ => Throw LException
  | None =>
      let id := h_max h + 1 in
      if two31 <=? id then UB UBOverflow else
      Ok (mkH (h_update h) (map_insert name id (h_map h)) id (zm_set id pars (h_names h)) (zmap_insert id name (h_inv h)) (h_ids h ++ [id]), id)
  end.
(** getAlgorithmID, PIDHandler.cc:158-168; UnknownAlgorithm is derived from Exception *)
Definition algorithm_id (h : handler) (name : bytes) : Res Z :=
  match sm_get name (h_map h) with Some i => Ok i | None => Throw LException end.
(** getAlgorithmName, PIDHandler.cc:170-181 *)
Definition algorithm_name (h : handler) (id : Z) : Res bytes :=
  match zm_get id (h_inv h) with Some n => Ok n | None => Throw LException end.
(** getParameterNames, PIDHandler.cc:212-223 *)
Definition parameter_names (h : handler) (id : Z) : Res (list bytes) :=
  match zm_get id (h_names h) with Some l => Ok l | None => Throw LException end.
(** the search of getParameterIndex, PIDHandler.cc:199-208 *)
Fixpoint search (l : list bytes) (i : Z) (name : bytes) : Z :=
  match l with [] => -1 | x :: l' => if bytes_eqb x name then s32 i else search l' (i + 1) name end.
(** getParameterIndex, PIDHandler.cc:185-209 *)
Definition parameter_index (h : handler) (id : Z) (name : bytes) : Res Z :=
  match zm_get id (h_names h) with Some l => Ok (search l 0 name) | None => Throw LException end.
(** getAlgorithmIDs, PIDHandler.cc:225-228 *)
Definition algorithm_ids (h : handler) : list Z := h_ids h.

(** ** Particle ids of a particle or cluster *)

(** the first one of an algorithm, replaced: PIDHandler.cc:419-427 and 443-458 *)
Fixpoint replace_pid (id : Z) (q : pid) (l : list pid) : option (list pid) :=
  match l with
  | [] => None
  | x :: l' => if pi_alg x =? id then Some (q :: l') else match replace_pid id q l' with Some l'' => Some (x :: l'') | None => None end
  end.
(** setParticleID, PIDHandler.cc:367-475: a new one is added with addParticleID (ClusterImpl.cc:120-125 and
    ReconstructedParticleImpl.cc:162-168), which sorts *)
Definition set_particle_id (srt : forall A : Type, (A -> Z) -> list A -> list A) (h : handler) (l : list pid)
    (user pdg like id : Z) (pars : list Z) : Res (list pid) :=
  match zm_get id (h_names h) with
  | None => Throw LException
  | Some names =>
      if Zlen pars =? Zlen names then
        let q := mkPID like user pdg id pars in
        match replace_pid id q l with Some l' => Ok l' | None => Ok (srt pid pi_like (l ++ [q])) end
      else Throw LException
  end.
(** getParticleIDs, PIDHandler.cc:280-321 *)
Definition get_particle_ids (h : handler) (l : list pid) (id : Z) : Res (list pid) :=
  match zm_get id (h_names h) with None => Throw LException | Some _ => Ok (filter (fun x => pi_alg x =? id) l) end.
(** getParticleID, PIDHandler.cc:323-365; the dummy is a new ParticleIDImpl, ParticleIDImpl.cc:5-10 *)
Definition get_particle_id (h : handler) (l : list pid) (id : Z) : Res pid :=
  match zm_get id (h_names h) with
  | None => Throw LException
  | Some _ => Ok (match filter (fun x => pi_alg x =? id) l with x :: _ => x | [] => mkPID 0 0 0 0 [] end)
  end.

(** ** Programs: handlers are used one after the other, in between other parameters are changed *)

(** the calls of addAlgorithm on one handler, exceptions caught, PIDHandler.cc:127-154 *)
Fixpoint add_algorithms (h : handler) (l : list (bytes * list bytes)) : Res handler :=
  match l with
  | [] => Ok h
  | (n, ps) :: l' =>
      match add_algorithm h n ps with
      | Ok (h', _) => add_algorithms h' l'
      | Throw _ => add_algorithms h l'
      | UB u => UB u
      end
  end.
(** a handler from its creation to its destruction; another change of parameters,
    PIDHandler.cc:21-29, 110-123 and 127-154 *)
Inductive step := Life (update : bool) (adds : list (bytes * list bytes)) | Other (c : par_call).
(** one step; PIDHandler.cc as above (21-154) *)
Definition do_step (ty : bytes) (p : params) (s : step) : Res params :=
  match s with
  | Life update adds => do h <- fst (open_handler update ty p); do h' <- add_algorithms h adds; Ok (close_handler h' p)
  | Other c => Ok (fst (par_do false p c))
  end.
(** no code of its own: a program that uses PIDHandler.cc:21-154 *)
Fixpoint do_steps (ty : bytes) (p : params) (l : list step) : Res params :=
  match l with [] => Ok p | s :: l' => do p' <- do_step ty p s; do_steps ty p' l' end.

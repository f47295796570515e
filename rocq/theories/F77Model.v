(** * The Fortran interface: lists of objects

    Model of the functions of src/cpp/src/CPPFORT that add objects or numbers to lists and return them by their index:
    lccol.cc, lcmcp.cc, lcsch.cc, lcsth.cc, lcobv.cc, lcpid.cc, lcvtx.cc, lcclu.cc and, of lciof77apiext.cc, the functions
    for hits (lines 191-272).  Pointers are addresses.  The functions that delete objects, and those that only call one
    setter or getter of the class, are left out; objects are not read only. *)

From Verif Require Import Bytes SioModel ObjModel ImplModel.

Section F77.
(** the addition of two [float]s, SimCalorimeterHitImpl.cc:181 *)
Context (fadd : Z -> Z -> Z).

(** ** Objects *)

(** a contribution to a hit: particle, energy, time, pdg; SimCalorimeterHitImpl.h:23-45 (the others are 0 here) *)
Definition contr : Type := (addr * Z * Z * Z)%type.
(** the members that matter: LCCollectionVec (the elements); MCParticleImpl (_parents, _daughters, MCParticleImpl.h:289-290);
    SimTrackerHitImpl (cellID0, position, energy, time, particle); SimCalorimeterHitImpl (cellIDs, energy, position,
    contributions); LCObjectVec; ParticleIDImpl and VertexImpl (the parameters); ClusterImpl (hits and contributions) *)
Inductive fob :=
| FCol (els : list addr)
| FMcp (parents daughters : list addr)
| FSth (id : Z) (pos : list Z) (edep time : Z) (mcp : addr)
| FSch (id0 id1 energy : Z) (pos : list Z) (conts : list contr)
| FObv (l : list addr)
| FPar (vertex : bool) (l : list Z)
| FClu (hits : list addr) (weights : list Z).
(** the memory, and the next free address (no code of its own) *)
Record fmem := mkFM { fm_at : addr -> option fob; fm_next : addr }.
Definition fm_init : fmem := mkFM (fun _ => None) 1.
(** the memory with another object at an address (no code of its own) *)
Definition fm_set (s : fmem) (a : addr) (o : fob) : fmem := mkFM (fun x => if x =? a then Some o else fm_at s x) (fm_next s).
(** [new] (no code of its own) *)
Definition fm_new (s : fmem) (o : fob) : fmem * addr :=
  (mkFM (fun x => if x =? fm_next s then Some o else fm_at s x) (fm_next s + 1), fm_next s).

(** ** Calls *)
Inductive fcall :=
| ColCreate                                (* lccolcreate, lccol.cc:22-25 *)
| ColAdd (c o : addr)                      (* lccoladdelement, lccol.cc:79-86 *)
| ColRemove (c : addr) (i : Z)             (* lccolremoveelementat, lccol.cc:88-94 *)
| ColNumber (c : addr)                     (* lccolgetnumberofelements, lccol.cc:32-35 *)
| ColAt (c : addr) (i : Z)                 (* lccolgetelementat, lccol.cc:42-46 *)
| McpCreate                                (* lcmcpcreate, lcmcp.cc:11-21 *)
| McpAddParent (p m : addr)                (* lcmcpaddparent, lcmcp.cc:103-108 *)
| McpParents (p : addr)                    (* lcmcpgetnumberofparents, lcmcp.cc:27-30 *)
| McpParent (p : addr) (i : Z)             (* lcmcpgetparent, lcmcp.cc:31-34 *)
| McpDaughters (p : addr)                  (* lcmcpgetnumberofdaughters, lcmcp.cc:48-51 *)
| McpDaughter (p : addr) (i : Z)           (* lcmcpgetdaughter, lcmcp.cc:39-42 *)
| SthAdd (c : addr) (id : Z) (pos : list Z) (edep time : Z) (mcp : addr)   (* lcaddsimtrackerhit, lciof77apiext.cc:191-206 *)
| SthAt (c : addr) (i : Z)                 (* lcgetsimtrackerhit, lciof77apiext.cc:208-219 *)
| SthPosition (h : addr) (i : Z)           (* lcsthgetposition, lcsth.cc:40-43 *)
| SchAdd (c : addr) (id0 id1 energy : Z) (pos : list Z)   (* lcaddsimcalohit, lciof77apiext.cc:222-231 *)
| SchAt (c : addr) (i : Z)                 (* lcgetsimcalohit, lciof77apiext.cc:234-254 *)
| SchCont (h mcp : addr) (energy time pdg : Z)   (* lcschaddmcparticlecontribution, lcsch.cc:94-99 *)
| SchConts (h : addr)                      (* lcschgetnmccontributions, lcsch.cc:50-53 *)
| SchContAt (h : addr) (i : Z)             (* lcgetsimcalohitmccont, lciof77apiext.cc:256-271 *)
| ObvCreate (l : list addr)                (* lcobjectvectorcreate, lciof77apiext.cc:297-304 *)
| ObvLength (v : addr)                     (* lcobvgetlength, lcobv.cc:18-21 *)
| ObvAt (v : addr) (i : Z)                 (* lcobvgetobject, lcobv.cc:23-31 *)
| ParCreate (vertex : bool)                (* lcpidcreate, lcpid.cc:13-16; lcvtxcreate, lcvtx.cc:13-16 *)
| ParAdd (p : addr) (x : Z)                (* lcpidaddparameter, lcpid.cc:93-97; lcvtxaddparameter, lcvtx.cc:123-127 *)
| ParGet (p : addr) (arr : list Z) (n : Z) (* lcpidgetparameters, lcpid.cc:51-64; lcvtxgetparameters, lcvtx.cc:63-76 *)
| CluCreate                                (* lcclucreate, lcclu.cc:12-15 *)
| CluAddHit (c h : addr) (w : Z)           (* lccluaddhit, lcclu.cc:229-234 *)
| CluWeights (c : addr) (arr : list Z) (n : Z). (* lcclugethitcontributions, lcclu.cc:118-130 *)

(** what the caller gets: a pointer; a number; a status, with the address of the hit that was made (which the
    caller can only get from the collection); the values of a hit; an array and the number; an exception *)
Inductive fout :=
| RAddr (a : addr) | RInt (n : Z) | RStatus (s : Z) | RMade (s : Z) (a : addr)
| RHit (id : Z) (pos : list Z) (edep time : Z) (mcp : addr)
| RCal (a : addr) (id0 id1 energy : Z) (pos : list Z)
| RCont (c : contr)
| RArr (s : Z) (arr : list Z) (n : Z)
| RExc.

(** LCIO::ERROR and LCIO::SUCCESS, cmake/LCIO.h.in:99-100 *)
Definition st_error : Z := 0.
Definition st_success : Z := 1.

(** [i-1] for an [int], e.g. lccol.cc:45 *)
Definition minus1 (i : Z) : Res Z := if i =? - two31 then UB UBOverflow else Ok (i - 1).
(** vector::operator[], e.g. lcmcp.cc:33 *)
Definition elem_at {A} (l : list A) (i : Z) : Res A :=
  if i <? 0 then UB UBOutOfBounds else match nth_error l (Z.to_nat i) with Some x => Ok x | None => UB UBOutOfBounds end.
(** the object that a call is for: using no object, or one of another class, is undefined; f2c_pointer and
    reinterpret_cast, cpointer.h:24-31 *)
Definition obj_at (s : fmem) (a : addr) : Res fob :=
  if a =? 0 then UB UBNullDeref else match fm_at s a with Some o => Ok o | None => UB UBPrecondition end.
(** [f2c_pointer<MCParticle,LCObject>( p )], cpointer.h:24-31: null for another class, or for a null pointer *)
Definition as_mcp (s : fmem) (p : addr) : Res addr :=
  if p =? 0 then Ok 0 else
  match fm_at s p with Some (FMcp _ _) => Ok p | Some _ => Ok 0 | None => UB UBPrecondition end.
(** the loop of lcpidgetparameters, lcpid.cc:55-61 (and lcvtx.cc:67-73, lcclu.cc:121-127): [k] is the number
    of values written; the result is the status and the array *)
Fixpoint copy_out (l : list Z) (k : Z) (arr : list Z) (ntot : Z) : Res (bool * list Z) :=
  match l with
  | [] => Ok (true, arr)
  | x :: l' =>
      if u32 ntot <? k then Ok (false, arr)
      else if k <? Zlen arr then copy_out l' (k + 1) (firstn (Z.to_nat k) arr ++ x :: skipn (S (Z.to_nat k)) arr) ntot
      else UB UBOutOfBounds
  end.
(** the whole function, lcpid.cc:53-63, lcvtx.cc:65-75, lcclu.cc:120-129 *)
Definition get_values (l arr : list Z) (n : Z) : Res fout :=
  do ntot <- minus1 n;
  do '(ok, arr') <- copy_out l 0 arr ntot;
  if ok then Ok (RArr st_success arr' (s32 (u64 (Zlen l + 1)))) else Ok (RArr st_error arr' n).

(** one call *)
Definition f_step (s : fmem) (c : fcall) : Res fout * fmem :=
  let ret r := (r, s) in
  let on a (k : fob -> Res fout) := ret (do o <- obj_at s a; k o) in
  match c with
  | ColCreate => let '(s1, a) := fm_new s (FCol []) in (Ok (RAddr a), s1)
  | ColAdd c o =>
      match obj_at s c with
      | Ok (FCol l) => (Ok (RStatus st_success), fm_set s c (FCol (l ++ [o])))
      | Ok _ => ret (UB UBPrecondition) | Throw e => ret (Throw e) | UB k => ret (UB k)
      end
  | ColRemove c i =>
      match obj_at s c with
      | Ok (FCol l) =>
          if (0 <=? i) && (i <? Zlen l) then
            (Ok (RStatus st_success), fm_set s c (FCol (firstn (Z.to_nat i) l ++ skipn (S (Z.to_nat i)) l)))
          else ret (UB UBOutOfBounds)
      | Ok _ => ret (UB UBPrecondition) | Throw e => ret (Throw e) | UB k => ret (UB k)
      end
  | ColNumber c => on c (fun o => match o with FCol l => Ok (RInt (s32 (Zlen l))) | _ => UB UBPrecondition end)
  | ColAt c i => on c (fun o => match o with FCol l => do j <- minus1 i; do a <- elem_at l j; Ok (RAddr a) | _ => UB UBPrecondition end)
  | McpCreate => let '(s1, a) := fm_new s (FMcp [] []) in (Ok (RAddr a), s1)
  | McpAddParent p m =>
      match obj_at s p, as_mcp s m with
      | Ok (FMcp ps ds), Ok mom =>
          if existsb (Z.eqb mom) ps then (Ok (RStatus st_success), s)
          else
            let s1 := fm_set s p (FMcp (ps ++ [mom]) ds) in
            match fm_at s1 mom with
            | Some (FMcp ps' ds') => (Ok (RStatus st_success), fm_set s1 mom (FMcp ps' (ds' ++ [p])))
            | _ => (Ok (RStatus st_success), s1)
            end
      | Ok _, Ok _ => ret (UB UBNullDeref)
      | UB k, _ => ret (UB k) | Throw e, _ => ret (Throw e)
      | _, UB k => ret (UB k) | _, Throw e => ret (Throw e)
      end
  | McpParents p => on p (fun o => match o with FMcp ps _ => Ok (RInt (s32 (Zlen ps))) | _ => UB UBNullDeref end)
  | McpParent p i => on p (fun o => match o with FMcp ps _ => do a <- elem_at ps i; Ok (RAddr a) | _ => UB UBNullDeref end)
  | McpDaughters p => on p (fun o => match o with FMcp _ ds => Ok (RInt (s32 (Zlen ds))) | _ => UB UBNullDeref end)
  | McpDaughter p i => on p (fun o => match o with FMcp _ ds => do j <- minus1 i; do a <- elem_at ds j; Ok (RAddr a) | _ => UB UBNullDeref end)
  | SthAdd c id pos edep time mcp =>
      match obj_at s c, as_mcp s mcp with
      | Ok (FCol l), Ok m =>
          if (Zlen pos =? 3) then
            let '(s1, h) := fm_new s (FSth id pos edep time m) in
            (Ok (RMade st_success h), fm_set s1 c (FCol (l ++ [h])))
          else ret (UB UBOutOfBounds)
      | Ok _, Ok _ => ret (UB UBPrecondition)
      | UB k, _ => ret (UB k) | Throw e, _ => ret (Throw e)
      | _, UB k => ret (UB k) | _, Throw e => ret (Throw e)
      end
  | SthAt c i => on c (fun o => match o with
      | FCol l => do j <- minus1 i; do h <- elem_at l j; do x <- obj_at s h;
                  match x with FSth id pos edep time mcp => Ok (RHit id pos edep time mcp) | _ => UB UBNullDeref end
      | _ => UB UBPrecondition end)
  | SthPosition h i => on h (fun o => match o with FSth _ pos _ _ _ => do v <- elem_at pos i; Ok (RInt v) | _ => UB UBNullDeref end)
  | SchAdd c id0 id1 energy pos =>
      match obj_at s c with
      | Ok (FCol l) =>
          if (Zlen pos =? 3) then
            let '(s1, h) := fm_new s (FSch id0 id1 energy pos []) in
            (Ok (RAddr h), fm_set s1 c (FCol (l ++ [h])))
          else ret (UB UBOutOfBounds)
      | Ok _ => ret (UB UBPrecondition) | Throw e => ret (Throw e) | UB k => ret (UB k)
      end
  | SchAt c i => on c (fun o => match o with
      | FCol l =>
          if (i <? 0) && (s32 (Zlen l) - 1 <? i) then Ok (RAddr st_error)
          else do j <- minus1 i; do h <- elem_at l j; do x <- obj_at s h;
               match x with FSch id0 id1 energy pos _ => Ok (RCal h id0 id1 energy pos) | _ => UB UBNullDeref end
      | _ => UB UBPrecondition end)
  | SchCont h mcp energy time pdg =>
      match obj_at s h, as_mcp s mcp with
      | Ok (FSch id0 id1 e pos cs), Ok m =>
          (Ok (RStatus st_success), fm_set s h (FSch id0 id1 (fadd e energy) pos (cs ++ [(m, energy, time, pdg)])))
      | Ok _, Ok _ => ret (UB UBNullDeref)
      | UB k, _ => ret (UB k) | Throw e, _ => ret (Throw e)
      | _, UB k => ret (UB k) | _, Throw e => ret (Throw e)
      end
  | SchConts h => on h (fun o => match o with FSch _ _ _ _ cs => Ok (RInt (s32 (Zlen cs))) | _ => UB UBNullDeref end)
  | SchContAt h i => on h (fun o => match o with
      | FSch _ _ _ _ cs =>
          if (i <? 0) && (s32 (Zlen cs) - 1 <? i) then Ok (RStatus st_error)
          else do j <- minus1 i;
               match (if j <? 0 then None else nth_error cs (Z.to_nat j)) with   (* at(), SimCalorimeterHitImpl.cc:97-104 *)
               | Some x => Ok (RCont x)
               | None => Ok RExc
               end
      | _ => UB UBNullDeref end)
  | ObvCreate l => let '(s1, a) := fm_new s (FObv l) in (Ok (RAddr a), s1)
  | ObvLength v => on v (fun o => match o with FObv l => Ok (RInt (s32 (Zlen l))) | _ => UB UBPrecondition end)
  | ObvAt v i => on v (fun o => match o with
      | FObv l => if (i <? 1) || (s32 (Zlen l) <? i) then Ok RExc else do a <- elem_at l (i - 1); Ok (RAddr a)
      | _ => UB UBPrecondition end)
  | ParCreate vx => let '(s1, a) := fm_new s (FPar vx []) in (Ok (RAddr a), s1)
  | ParAdd p x =>
      match obj_at s p with
      | Ok (FPar vx l) => (Ok (RStatus st_success), fm_set s p (FPar vx (l ++ [x])))
      | Ok _ => ret (UB UBNullDeref) | Throw e => ret (Throw e) | UB k => ret (UB k)
      end
  | ParGet p arr n => on p (fun o => match o with FPar _ l => get_values l arr n | _ => UB UBNullDeref end)
  | CluCreate => let '(s1, a) := fm_new s (FClu [] []) in (Ok (RAddr a), s1)
  | CluAddHit c h w =>
      match obj_at s c with
      | Ok (FClu hs ws) => (Ok (RStatus st_success), fm_set s c (FClu (hs ++ [h]) (ws ++ [w])))
      | Ok _ => ret (UB UBNullDeref) | Throw e => ret (Throw e) | UB k => ret (UB k)
      end
  | CluWeights c arr n => on c (fun o => match o with
      | FClu hs ws => if Zlen ws <? Zlen hs then UB UBOutOfBounds else get_values (firstn (length hs) ws) arr n
      | _ => UB UBNullDeref end)
  end.

(** a program: the results of its calls, up to the first that is not defined (no code of its own) *)
Fixpoint f_run (s : fmem) (cs : list fcall) : list (Res fout) * fmem :=
  match cs with
  | [] => ([], s)
  | c :: cs' =>
      let '(r, s1) := f_step s c in
      match r with
      | Ok _ => let '(rs, s2) := f_run s1 cs' in (r :: rs, s2)
      | _ => ([r], s1)
      end
  end.
End F77.

(** * The Fortran interface: what a caller expects

    What a call returns, stated by the calls made before, without the memory of the model. *)

From Verif Require Import Bytes SioModel ObjModel F77Model.

(** the calls made so far with their results, newest first *)
Notation hist := (list (fcall * fout)) (only parsing).

(** the classes *)
Inductive cls := KCol | KMcp | KSth | KSch | KObv | KPar | KClu.
(** the object made by a call *)
Definition creates (e : fcall * fout) : option (addr * cls) :=
  match e with
  | (ColCreate, RAddr a) => Some (a, KCol)
  | (McpCreate, RAddr a) => Some (a, KMcp)
  | (SthAdd _ _ _ _ _ _, RMade _ a) => Some (a, KSth)
  | (SchAdd _ _ _ _ _, RAddr a) => Some (a, KSch)
  | (ObvCreate _, RAddr a) => Some (a, KObv)
  | (ParCreate _, RAddr a) => Some (a, KPar)
  | (CluCreate, RAddr a) => Some (a, KClu)
  | _ => None
  end.
(** the class of the object at an address *)
Fixpoint made (h : hist) (a : addr) : option cls :=
  match h with
  | [] => None
  | e :: h' => match creates e with Some (b, k) => if b =? a then Some k else made h' a | None => made h' a end
  end.
(** the k-th element of a list, counted from 1 *)
Definition nth1 {A} (l : list A) (k : Z) : option A := if k <? 1 then None else nth_error l (Z.to_nat (k - 1)).
(** the list without its k-th element, counted from 1 *)
Definition without {A} (l : list A) (k : Z) : list A := firstn (Z.to_nat (k - 1)) l ++ skipn (Z.to_nat k) l.
(** the elements of a collection: those added, without those removed; lccolremoveelementat counts from 0 *)
Fixpoint elements (h : hist) (c : addr) : list addr :=
  match h with
  | [] => []
  | (ColAdd c' o, _) :: h' => if c' =? c then elements h' c ++ [o] else elements h' c
  | (SthAdd c' _ _ _ _ _, RMade _ o) :: h' => if c' =? c then elements h' c ++ [o] else elements h' c
  | (SchAdd c' _ _ _ _, RAddr o) :: h' => if c' =? c then elements h' c ++ [o] else elements h' c
  | (ColRemove c' i, _) :: h' => if c' =? c then without (elements h' c) (i + 1) else elements h' c
  | _ :: h' => elements h' c
  end.
(** the parents of a particle: those added, each once *)
Fixpoint parents (h : hist) (p : addr) : list addr :=
  match h with
  | [] => []
  | (McpAddParent q m, _) :: h' =>
      if (q =? p) && negb (existsb (Z.eqb m) (parents h' p)) then parents h' p ++ [m] else parents h' p
  | _ :: h' => parents h' p
  end.
(** the daughters of a particle: those to which it was added as a parent *)
Fixpoint daughters (h : hist) (m : addr) : list addr :=
  match h with
  | [] => []
  | (McpAddParent q m', _) :: h' =>
      if (m' =? m) && negb (existsb (Z.eqb m) (parents h' q)) then daughters h' m ++ [q] else daughters h' m
  | _ :: h' => daughters h' m
  end.
(** the values with which a tracker hit was made *)
Fixpoint hit_made (h : hist) (a : addr) : option (Z * list Z * Z * Z * addr) :=
  match h with
  | [] => None
  | (SthAdd _ id pos edep time mcp, RMade _ b) :: h' => if b =? a then Some (id, pos, edep, time, mcp) else hit_made h' a
  | _ :: h' => hit_made h' a
  end.
(** the cell and the position with which a calorimeter hit was made *)
Fixpoint cal_made (h : hist) (a : addr) : option (Z * Z * list Z) :=
  match h with
  | [] => None
  | (SchAdd _ id0 id1 _ pos, RAddr b) :: h' => if b =? a then Some (id0, id1, pos) else cal_made h' a
  | _ :: h' => cal_made h' a
  end.
(** its energy: that with which it was made, and then that of each contribution *)
Fixpoint cal_energy (fadd : Z -> Z -> Z) (h : hist) (a : addr) : Z :=
  match h with
  | [] => 0
  | (SchAdd _ _ _ en _, RAddr b) :: h' => if b =? a then en else cal_energy fadd h' a
  | (SchCont b _ en _ _, _) :: h' => if b =? a then fadd (cal_energy fadd h' a) en else cal_energy fadd h' a
  | _ :: h' => cal_energy fadd h' a
  end.
(** its contributions *)
Fixpoint cal_conts (h : hist) (a : addr) : list contr :=
  match h with
  | [] => []
  | (SchCont b m en t pdg, _) :: h' => if b =? a then cal_conts h' a ++ [(m, en, t, pdg)] else cal_conts h' a
  | _ :: h' => cal_conts h' a
  end.
(** the elements with which a vector was made *)
Fixpoint obv_made (h : hist) (a : addr) : list addr :=
  match h with
  | [] => []
  | (ObvCreate l, RAddr b) :: h' => if b =? a then l else obv_made h' a
  | _ :: h' => obv_made h' a
  end.
(** the parameters of a particle id or of a vertex *)
Fixpoint params (h : hist) (a : addr) : list Z :=
  match h with
  | [] => []
  | (ParAdd b x, _) :: h' => if b =? a then params h' a ++ [x] else params h' a
  | _ :: h' => params h' a
  end.
(** the contributions of the hits of a cluster *)
Fixpoint contributions (h : hist) (a : addr) : list Z :=
  match h with
  | [] => []
  | (CluAddHit b _ x, _) :: h' => if b =? a then contributions h' a ++ [x] else contributions h' a
  | _ :: h' => contributions h' a
  end.

(** a particle, or none *)
Definition mcp_or_null (h : hist) (m : addr) : Prop := m = 0 \/ made h m = Some KMcp.
(** calls with the objects of the right class, and - where the functions do not check - an index in the list;
    the index of lccolremoveelementat, lcmcpgetparent and lcsthgetposition counts from 0 *)
Definition allowed (h : hist) (c : fcall) : Prop :=
  match c with
  | ColCreate | McpCreate | ParCreate _ | CluCreate => True
  | ColAdd c _ => made h c = Some KCol
  | ColRemove c i => made h c = Some KCol /\ 0 <= i < Zlen (elements h c)
  | ColNumber c => made h c = Some KCol /\ Zlen (elements h c) < two31
  | ColAt c i => made h c = Some KCol /\ 1 <= i <= Zlen (elements h c)
  | McpAddParent p m => made h p = Some KMcp /\ made h m = Some KMcp
  | McpParents p => made h p = Some KMcp /\ Zlen (parents h p) < two31
  | McpParent p i => made h p = Some KMcp /\ 0 <= i < Zlen (parents h p)
  | McpDaughters p => made h p = Some KMcp /\ Zlen (daughters h p) < two31
  | McpDaughter p i => made h p = Some KMcp /\ 1 <= i <= Zlen (daughters h p)
  | SthAdd c _ pos _ _ m => made h c = Some KCol /\ Zlen pos = 3 /\ mcp_or_null h m
  | SthAt c i => made h c = Some KCol /\ exists a, nth1 (elements h c) i = Some a /\ made h a = Some KSth
  | SthPosition a i => made h a = Some KSth /\ 0 <= i < 3
  | SchAdd c _ _ _ pos => made h c = Some KCol /\ Zlen pos = 3
  | SchAt c i => made h c = Some KCol /\ exists a, nth1 (elements h c) i = Some a /\ made h a = Some KSch
  | SchCont a m _ _ _ => made h a = Some KSch /\ mcp_or_null h m
  | SchConts a => made h a = Some KSch /\ Zlen (cal_conts h a) < two31
  | SchContAt a i => made h a = Some KSch /\ - two31 < i < two31 /\ Zlen (cal_conts h a) < two31
  | ObvCreate l => Zlen l < two31
  | ObvLength v => made h v = Some KObv
  | ObvAt v i => made h v = Some KObv
  | ParAdd p _ => made h p = Some KPar
  | ParGet p arr n => made h p = Some KPar /\ Zlen (params h p) < two31 - 1 /\ 1 <= n <= Zlen arr /\ n < two31
  | CluAddHit c _ _ => made h c = Some KClu
  | CluWeights c arr n => made h c = Some KClu /\ Zlen (contributions h c) < two31 - 1 /\ 1 <= n <= Zlen arr /\ n < two31
  end.

(** the values of a list copied to an array: all of them, and then one more than their number is reported; or
    those for which there is room, with an error *)
Definition copied_to (l arr : list Z) (n : Z) (r : fout) : Prop :=
  if Zlen l <=? n then r = RArr 1 (l ++ skipn (length l) arr) (Zlen l + 1)
  else r = RArr 0 (firstn (Z.to_nat n) l ++ skipn (Z.to_nat n) arr) n.
(** an address that is not that of any other object *)
Definition unused (h : hist) (a : addr) : Prop := a <> 0 /\ made h a = None.

(** the result of a call *)
Definition expected (fadd : Z -> Z -> Z) (h : hist) (c : fcall) (r : fout) : Prop :=
  match c with
  | ColCreate | McpCreate | ParCreate _ | CluCreate | ObvCreate _ | SchAdd _ _ _ _ _ =>
      exists a, r = RAddr a /\ unused h a
  | SthAdd _ _ _ _ _ _ => exists a, r = RMade 1 a /\ unused h a
  | ColAdd _ _ | ColRemove _ _ | McpAddParent _ _ | SchCont _ _ _ _ _ | ParAdd _ _ | CluAddHit _ _ _ => r = RStatus 1
  | ColNumber c => r = RInt (Zlen (elements h c))
  | ColAt c i => exists a, r = RAddr a /\ nth1 (elements h c) i = Some a
  | McpParents p => r = RInt (Zlen (parents h p))
  | McpParent p i => exists a, r = RAddr a /\ nth1 (parents h p) (i + 1) = Some a
  | McpDaughters p => r = RInt (Zlen (daughters h p))
  | McpDaughter p i => exists a, r = RAddr a /\ nth1 (daughters h p) i = Some a
  | SthAt c i => exists a id pos edep time m,
      nth1 (elements h c) i = Some a /\ hit_made h a = Some (id, pos, edep, time, m) /\ r = RHit id pos edep time m
  | SthPosition a i => exists id pos edep time m v,
      hit_made h a = Some (id, pos, edep, time, m) /\ nth1 pos (i + 1) = Some v /\ r = RInt v
  | SchAt c i => exists a id0 id1 pos,
      nth1 (elements h c) i = Some a /\ cal_made h a = Some (id0, id1, pos) /\ r = RCal a id0 id1 (cal_energy fadd h a) pos
  | SchConts a => r = RInt (Zlen (cal_conts h a))
  | SchContAt a i => r = match nth1 (cal_conts h a) i with Some x => RCont x | None => RExc end
  | ObvLength v => r = RInt (Zlen (obv_made h v))
  | ObvAt v i => r = match nth1 (obv_made h v) i with Some a => RAddr a | None => RExc end
  | ParGet p arr n => copied_to (params h p) arr n r
  | CluWeights c arr n => copied_to (contributions h c) arr n r
  end.

(** a program all of whose calls are allowed, with results: they are as expected *)
Fixpoint as_expected (fadd : Z -> Z -> Z) (h : hist) (cs : list fcall) (rs : list (Res fout)) : Prop :=
  match cs, rs with
  | [], [] => True
  | c :: cs', Ok r :: rs' => expected fadd h c r /\ as_expected fadd ((c, r) :: h) cs' rs'
  | _, _ => False
  end.
(** a program all of whose calls are allowed after the results of those before *)
Fixpoint all_allowed (h : hist) (cs : list fcall) (rs : list (Res fout)) : Prop :=
  match cs, rs with
  | [], _ => True
  | c :: cs', Ok r :: rs' => allowed h c /\ all_allowed ((c, r) :: h) cs' rs'
  | c :: _, _ => allowed h c
  end.

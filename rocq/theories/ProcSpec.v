(** * What is said about the process of an event *)

From Verif Require Import Bytes SioModel ObjModel FlagModel.

(** the particle at an address: the first one listed for it *)
Definition found (h : list (addr * mcp)) (a : addr) (o : mcp) : Prop :=
  exists l1 l2, h = l1 ++ (a, o) :: l2 /\ forall x, In x l1 -> fst x <> a.
Definition occurs (p : Z) (l : list Z) : Z := Z.of_nat (count_occ Z.eq_dec l p).

(** ** The hard final state *)

(** the particles at the addresses [l] *)
Definition those (h : list (addr * mcp)) (l : list addr) (os : list mcp) : Prop := Forall2 (found h) l os.
Definition orphan (o : mcp) : bool := match mc_parents o with [] => true | _ => false end.
Definition orphans (os : list mcp) : nat := length (filter orphan os).
(** from the first [max] elements of the collection *)
Inductive hard (h : list (addr * mcp)) (elems : list addr) (max : Z) : Z -> list addr -> Prop :=
| hard_incoming l1 a l2 os o : firstn (Z.to_nat max) elems = l1 ++ a :: l2 ->
    those h l1 os -> Forall (fun o => mc_gen o <> 3) os -> found h a o -> mc_gen o = 3 -> hard h elems max 1 (mc_daughters o)
| hard_no_beam os : those h (firstn (Z.to_nat max) elems) os -> Forall (fun o => mc_gen o <> 3) os -> (2 < orphans os)%nat ->
    hard h elems max 2 (firstn (orphans os) elems)
| hard_beam os a elems' o l1 d l2 ds od : those h (firstn (Z.to_nat max) elems) os -> Forall (fun o => mc_gen o <> 3) os -> orphans os = 2%nat ->
    elems = a :: elems' -> found h a o -> mc_daughters o = l1 ++ d :: l2 ->
    those h l1 ds -> Forall (fun o => Zlen (mc_daughters o) <= 1) ds -> found h d od -> 1 < Zlen (mc_daughters od) ->
    hard h elems max 3 (mc_daughters od)
| hard_beam_none os a elems' o ds : those h (firstn (Z.to_nat max) elems) os -> Forall (fun o => mc_gen o <> 3) os -> orphans os = 2%nat ->
    elems = a :: elems' -> found h a o -> those h (mc_daughters o) ds -> Forall (fun o => Zlen (mc_daughters o) <= 1) ds ->
    hard h elems max 0 []
| hard_none os : those h (firstn (Z.to_nat max) elems) os -> Forall (fun o => mc_gen o <> 3) os -> (orphans os < 2)%nat -> hard h elems max 0 [].

(** ** Higgs decays *)

(** [o'] is the only daughter of [o], and a Higgs again *)
Definition next_higgs (h : list (addr * mcp)) (o o' : mcp) : Prop := exists d, mc_daughters o = [d] /\ found h d o' /\ Z.abs (mc_pdg o') = 25.
Fixpoint steps (h : list (addr * mcp)) (n : nat) (o o' : mcp) : Prop :=
  match n with O => o = o' | S n' => exists o1, next_higgs h o o1 /\ steps h n' o1 o' end.
(** the decay of a Higgs: the codes of the first and (if there is one) of the second daughter of the last
    Higgs of the chain *)
Definition decays (h : list (addr * mcp)) (o : mcp) (d : Z * option Z) : Prop :=
  exists n o', steps h n o o' /\ (forall o2, ~ next_higgs h o' o2) /\
  exists x l ox, mc_daughters o' = x :: l /\ found h x ox /\ fst d = mc_pdg ox /\
  match snd d with
  | None => l = []
  | Some c => exists y l' oy, l = y :: l' /\ found h y oy /\ c = mc_pdg oy
  end.
(** the decays of the Higgs bosons in a list of particles *)
Inductive all_decays (h : list (addr * mcp)) : list mcp -> list (Z * option Z) -> Prop :=
| ad_nil : all_decays h [] []
| ad_higgs o os d ds : Z.abs (mc_pdg o) = 25 -> decays h o d -> all_decays h os ds -> all_decays h (o :: os) (d :: ds)
| ad_other o os ds : Z.abs (mc_pdg o) <> 25 -> all_decays h os ds -> all_decays h (o :: os) ds.
(** the decay that counts: the last first daughter, the last second daughter *)
Definition last_decay (ds : list (Z * option Z)) (d0 d1 : Z) : Prop :=
  (exists l y, ds = l ++ [(d0, y)]) /\
  ((d1 = 0 /\ Forall (fun d => snd d = None) ds) \/ (exists l1 x l2, ds = l1 ++ (x, Some d1) :: l2 /\ Forall (fun d => snd d = None) l2)).

(** ** The bits *)

(** two particles of kind [c] *)
Definition both (ds : list (Z * option Z)) (c : Z) : Prop := exists d0 d1, last_decay ds d0 d1 /\ Z.abs d0 = c /\ Z.abs d1 = c.
(** for the final state of particles with the codes [ps] *)
Definition present (icase : Z) (ps : list Z) (c : Z) : Prop := if (icase =? 2) && (c =? 22) then 2 < occurs 22 ps else In c ps.
Definition flagged (icase : Z) (ps : list Z) (ds : list (Z * option Z)) (b : pf) : Prop :=
  match b with
  | PFelectrons => present icase ps 11 | PFmuons => present icase ps 13 | PFtaus => present icase ps 15
  | PFneutrinos => present icase ps 12 \/ present icase ps 14 \/ present icase ps 16
  | PFphotons => present icase ps 22
  | PFdquarks => present icase ps 1 | PFuquarks => present icase ps 2 | PFsquarks => present icase ps 3
  | PFcquarks => present icase ps 4 | PFbquarks => present icase ps 5
  | PFhiggsbb => both ds 5 | PFhiggscc => both ds 4 | PFhiggsdu => both ds 1 \/ both ds 2 | PFhiggsss => both ds 3
  | PFhiggstautau => both ds 15 | PFhiggsmumu => both ds 13 | PFhiggsWW => both ds 24 | PFhiggsZZ => both ds 23 | PFhiggsgaga => both ds 22
  | PFhiggsgaZ => last_decay ds 22 23 \/ last_decay ds 23 22
  | PFhiggsinv => both ds 12 \/ both ds 14 \/ both ds 16 \/ both ds 1000022
  | PFhiggsgg => False | PFhiggsother => False
  | PFexotic => (exists d0 d1, last_decay ds d0 d1 /\ (1000000 < Z.abs d0 \/ 1000000 < Z.abs d1)) \/
                (exists c, 1000000 < occurs c ps - (if (icase =? 2) && (c =? 22) then 2 else 0))
  | PFunknown => False
  end.

(** ** Collections that can be decoded *)
Definition sound (h : list (addr * mcp)) (elems : list addr) : Prop :=
  (forall a, In a elems -> exists o, found h a o) /\
  (forall a o d, found h a o -> In d (mc_daughters o) -> exists o', found h d o') /\
  (forall a o, found h a o -> - two31 < mc_pdg o < two31) /\
  (forall a o, found h a o -> Z.abs (mc_pdg o) = 25 -> mc_daughters o <> []) /\
  (* no particle is its own descendant *)
  (exists rank : addr -> nat, forall a o d, found h a o -> In d (mc_daughters o) -> (rank d < rank a)%nat).

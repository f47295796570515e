(** * What converting the common block HEPEVT to an event and back should do *)

From Verif Require Import Bytes StrMap SioModel Ieee ObjModel HepModel HevtModel.

(** the lines in use *)
Definition used (b : hblock) : list hline := firstn (Z.to_nat (hb_n b)) (hb_lines b).
(** the mothers of a line: their numbers, beginning with 1 *)
Definition mothers (l : hline) : list Z :=
  if 0 <? hl_mo1 l then
    if hl_mo1 l <? hl_mo2 l then map (fun i => hl_mo1 l + Z.of_nat i) (seq 0 (Z.to_nat (hl_mo2 l - hl_mo1 l + 1))) else [hl_mo1 l]
  else [].
(** the lines that have line number [k] as a mother, by their numbers *)
Definition numbered {A} (ls : list A) : list (Z * A) := combine (map (fun i => 1 + Z.of_nat i) (seq 0 (length ls))) ls.
Definition daughters_of (ls : list hline) (k : Z) : list Z :=
  map fst (filter (fun il => existsb (Z.eqb k) (mothers (snd il))) (numbered ls)).

(** the number of lines fits, and the mothers are lines in use *)
Definition block_ok (b : hblock) : Prop :=
  0 <= hb_n b <= Zlen (hb_lines b) /\
  forall l, In l (used b) -> 0 < hl_mo1 l -> hl_mo1 l <= hb_n b /\ hl_mo2 l <= hb_n b.

(** rounded to [float] *)
Definition rounded (x : Z) : Z := f2d (d2f x).

(** line number [k] of the block after the conversion to an event and back *)
Record back (energy : list Z -> Z -> Z) (ls : list hline) (base : addr) (k : Z) (l l' : hline) : Prop := mkBack {
  bk_status : hl_st l' = hl_st l;
  bk_id : hl_id l' = hl_id l;
  bk_mo1 : hl_mo1 l' = if 0 <? hl_mo1 l then hl_mo1 l else 0;
  bk_mo2 : hl_mo2 l' = if (0 <? hl_mo1 l) && (hl_mo1 l <? hl_mo2 l) then hl_mo2 l else 0;
  bk_da : (hl_da1 l', hl_da2 l') =
          if hl_st l =? 3 then (0, 0) else
          match daughters_of ls k with [] => (0, 0) | d :: ds => (d, d + Zlen ds) end;
  bk_p : hl_p l' = (let r i := rounded (nth i (hl_p l) 0) in
                    [r 0%nat; r 1%nat; r 2%nat; energy [r 0%nat; r 1%nat; r 2%nat] (r 4%nat); r 4%nat]);
  bk_v : exists t, hl_v l' = [nth 0 (hl_v l) 0; nth 1 (hl_v l) 0; nth 2 (hl_v l) 0; t] /\ (hl_mo1 l <= 0 -> t = 0);
  bk_charge : hl_ch l' = hl_ch l;
  bk_ptr : hl_ptr l' = base + (k - 1) }.

(** a consistent table: no second mother unless it comes after the first, the daughters of a line are the
    lines that have it as a mother and follow each other; lines with status 3 have none *)
Definition consistent (ls : list hline) : Prop := forall k l, In (k, l) (numbered ls) ->
  (0 <= hl_mo1 l /\ (hl_mo2 l = 0 \/ 0 < hl_mo1 l < hl_mo2 l)) /\
  (hl_st l = 3 /\ hl_da1 l = 0 /\ hl_da2 l = 0 \/
   hl_st l <> 3 /\
   (hl_da1 l = 0 /\ hl_da2 l = 0 /\ (forall k' l', In (k', l') (numbered ls) -> ~ In k (mothers l')) \/
    0 < hl_da1 l <= hl_da2 l /\ hl_da2 l <= Zlen ls /\
    (forall k' l', In (k', l') (numbered ls) -> (In k (mothers l') <-> hl_da1 l <= k' <= hl_da2 l)))).

(** ** the other way: an event whose particles can be written to the table *)
(** the particles are in the collection once each, their parents follow each other in the collection *)
Record in_table (h : addr -> option mcp) (elems : list addr) : Prop := mkTable {
  tb_once : NoDup elems;
  tb_some : forall a, In a elems -> a <> 0 /\ exists o, h a = Some o /\ length (mc_vertex o) = 3%nat /\ length (mc_p o) = 3%nat;
  tb_parents : forall a o, In a elems -> h a = Some o -> exists i n, mc_parents o = firstn n (skipn i elems) }.
(** the particles [a'] and [a] have the same place *)
Definition same_place (elems' elems : list addr) (a' a : addr) : Prop :=
  exists i, nth_error elems' i = Some a' /\ nth_error elems i = Some a.
(** what remains of a particle: the generator's part, without time, end point, spin and colour *)
Record kept (elems' elems : list addr) (o' o : mcp) : Prop := mkKept {
  kp_pdg : mc_pdg o' = mc_pdg o; kp_gen : mc_gen o' = mc_gen o; kp_charge : mc_charge o' = mc_charge o;
  kp_vertex : mc_vertex o' = mc_vertex o;
  kp_p : mc_p o' = map rounded (mc_p o); kp_mass : mc_mass o' = rounded (mc_mass o);
  kp_sim : mc_sim o' = 0; kp_time : mc_time o' = 0;
  kp_parents : Forall2 (same_place elems' elems) (mc_parents o') (mc_parents o) }.

(** * What is said about the particles of StdHep events *)

From Verif Require Import Bytes SioModel Ieee ObjModel HepModel.

(** ** Family links *)

(** how often [x] is in a list *)
Definition times (x : Z) (l : list Z) : nat := count_occ Z.eq_dec l x.
Definition at_ (l : parts) (i : Z) (p : mcp) : Prop := 0 <= i /\ nth_error l (Z.to_nat i) = Some p.
(** parents and daughters are particles of the collection, mirror each other, and no pair is listed twice *)
Definition mirrored (l : parts) : Prop :=
  (forall d p od op, at_ l d od -> at_ l p op -> times p (mc_parents od) = times d (mc_daughters op) /\ (times p (mc_parents od) <= 1)%nat) /\
  (forall i o x, at_ l i o -> In x (mc_parents o) \/ In x (mc_daughters o) -> 0 <= x < Zlen l).
(** [p] is a parent of [d] *)
Definition linked (l : parts) (p d : Z) : Prop := exists o, at_ l d o /\ In p (mc_parents o).

(** an entry of a table with [k] columns *)
Definition entry (a : option (list Z)) (k i j : Z) : Z := match a with Some l => nth (Z.to_nat (k * i + j)) l 0 | None => 0 end.
(** the lines of the first and the last daughter; the digits above the fourth have another meaning *)
Definition first_daughter (e : hev) (i : Z) : Z := Z.rem (entry (he_da e) 2 i 0) 10000 - 1.
Definition last_daughter (e : hev) (i : Z) : Z := Z.rem (entry (he_da e) 2 i 1) 10000 - 1.
(** line [p] declares [d] to be a daughter *)
Definition declared (e : hev) (p d : Z) : Prop :=
  let f := first_daughter e p in let l := last_daughter e p in
  (0 <= f /\ f <= d <= l) \/ (0 <= l < f /\ (d = f \/ d = l)) \/ (0 <= f < he_n e /\ l < 0 /\ d = f).
(** the lines of the mothers *)
Definition first_mother (e : hev) (i : Z) : Z := s32 (entry (he_mo e) 2 i 0 - 1).
Definition last_mother (e : hev) (i : Z) : Z := s32 (entry (he_mo e) 2 i 1 - 1).
(** line [d] declares [p] to be a mother *)
Definition mother (e : hev) (d p : Z) : Prop :=
  let f := first_mother e d in let l := last_mother e d in
  (0 < f /\ l = -1 /\ p = f) \/ (0 <= f /\ f <= p <= l).
(** the link that repairs a decay without daughters: [d] is a state with code 94, [p] one of the lines from its
    mother on, decayed (status 2) but without a declared daughter *)
Definition repairs (e : hev) (p d : Z) : Prop :=
  s32 (entry (he_id e) 1 d 0) = 94 /\ s32 (entry (he_ist e) 1 p 0) = 2 /\
  Z.rem (entry (he_mo e) 2 d 0) 10000 - 1 <= p < d /\ forall x, 0 <= x < he_n e -> ~ declared e p x.

(** the tables have entries for all particles, and point to lines of the record *)
Definition has (a : option (list Z)) (n : Z) : Prop := exists l, a = Some l /\ n <= Zlen l.
Definition tables_ok (e : hev) : Prop :=
  0 <= he_n e /\
  has (he_id e) (he_n e) /\ has (he_ist e) (he_n e) /\ has (he_p e) (5 * he_n e) /\ has (he_v e) (4 * he_n e) /\
  has (he_mo e) (2 * he_n e) /\ has (he_da e) (2 * he_n e) /\
  (he_scale e = None \/ has (he_spin e) (3 * he_n e) /\ has (he_color e) (2 * he_n e)) /\
  (forall i, 0 <= i < he_n e -> exists c, three_charge (s32 (entry (he_id e) 1 i 0)) = Ok c) /\
  (forall i, 0 <= i < he_n e ->
    (0 <= last_daughter e i -> first_daughter e i < he_n e /\ last_daughter e i < he_n e) /\
    first_mother e i < he_n e /\ last_mother e i < he_n e /\
    (s32 (entry (he_id e) 1 i 0) = 94 -> 0 <= Z.rem (entry (he_mo e) 2 i 0) 10000 - 1 <= i)).

(** ** Attributes *)

(** the attributes of the particle of line [i] *)
Definition attributes_of (third in_time : Z -> Z) (e : hev) (i : Z) (o : mcp) : Prop :=
  mc_pdg o = s32 (entry (he_id e) 1 i 0) /\ mc_gen o = s32 (entry (he_ist e) 1 i 0) /\ mc_sim o = 0 /\
  mc_p o = map (fun j => f2d (d2f (entry (he_p e) 5 i j))) [0; 1; 2] /\ mc_mass o = f2d (d2f (entry (he_p e) 5 i 4)) /\
  mc_vertex o = map (entry (he_v e) 4 i) [0; 1; 2] /\ mc_time o = in_time (entry (he_v e) 4 i 3) /\
  (exists c, three_charge (s32 (entry (he_id e) 1 i 0)) = Ok c /\ mc_charge o = third c) /\
  mc_endpoint o = [0; 0; 0] /\ mc_pend o = [0; 0; 0] /\
  match he_scale e with
  | None => mc_spin o = [0; 0; 0] /\ mc_color o = [0; 0]
  | Some _ => mc_spin o = map (fun j => d2f (entry (he_spin e) 3 i j)) [0; 1; 2] /\ mc_color o = map (fun j => s32 (entry (he_color e) 2 i j)) [0; 1]
  end.

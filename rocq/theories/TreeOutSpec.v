(** * Descendants of a particle *)

From Coq Require Import ZArith List Bool.
From Verif Require Import Bytes SioModel ObjModel.
Import ListNotations.
Open Scope Z_scope.

(** [way h ds p d]: from daughters [ds] one comes to [d] by choosing the daughters with the numbers [p] *)
Inductive way (h : addr -> option obj) : list addr -> list nat -> mcp -> Prop :=
| way_one ds i a d : nth_error ds i = Some a -> h a = Some (OMC d) -> way h ds [i] d
| way_more ds i a d p e : nth_error ds i = Some a -> h a = Some (OMC d) -> way h (mc_daughters d) p e -> way h ds (i :: p) e.

(** the order of a traversal that shows a particle before its daughters, and daughters in their order *)
Inductive before : list nat -> list nat -> Prop :=
| before_nil i p : before [] (i :: p)
| before_head i j p q : (i < j)%nat -> before (i :: p) (j :: q)
| before_tail i p q : before p q -> before (i :: p) (i :: q).

(** all pointers to daughters, of the particle and of its descendants, point to particles *)
Definition whole (h : addr -> option obj) (part : mcp) : Prop :=
  forall m, m = part \/ (exists p, way h (mc_daughters part) p m) -> forall a, In a (mc_daughters m) -> exists d, h a = Some (OMC d).

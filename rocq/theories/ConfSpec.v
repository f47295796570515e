(** * What is said about the cell id encoding of tracking detectors *)

From Verif Require Import Bytes BitSpec BitModel ConfModel.

(** the first occurrence of [p] in [s] begins at [k] *)
Definition first_at (p s : bytes) (k : Z) : Prop :=
  exists l1 l2, s = l1 ++ p ++ l2 /\ Zlen l1 = k /\ forall m1 m2, s = m1 ++ p ++ m2 -> Zlen l1 <= Zlen m1.
(** the names occur in this order *)
Definition ordered (s : bytes) : Prop := exists a b c d e,
  (first_at (str "subdet") s a \/ first_at (str "system") s a) /\ first_at (str "side") s b /\ first_at (str "layer") s c /\
  first_at (str "module") s d /\ first_at (str "sensor") s e /\ a < b < c /\ c < d < e.

(** ** Histories *)

Definition sets (op : confcall) : Prop := exists s, op = CSet s.
(** the encoding after some calls that set it: the last ordered one, or the canonical one *)
Definition last_set (ops : list confcall) (e : bytes) : Prop :=
  (e = str "subdet:5,side:-2,layer:9,module:8,sensor:8" /\ forall s, In (CSet s) ops -> ~ ordered s) \/
  (exists l1 l2, ops = l1 ++ CSet e :: l2 /\ ordered e /\ forall s, In (CSet s) l2 -> ~ ordered s).

(** ** Printed values *)

Definition written (t : bytes) (z : Z) : Prop := (0 <= z /\ numeral t z) \/ (z < 0 /\ exists u, t = Init.Byte.x2d :: u /\ numeral u (- z)).
(** name, colon, number; separated by commas *)
Inductive shows (v : Z) : list (bytes * place) -> bytes -> Prop :=
| shows_nil : shows v [] []
| shows_one n p t : written t (number_in v p) -> shows v [(n, p)] (n ++ [Init.Byte.x3a] ++ t)
| shows_more n p t ps s : written t (number_in v p) -> ps <> [] -> shows v ps s -> shows v ((n, p) :: ps) (n ++ [Init.Byte.x3a] ++ t ++ [Init.Byte.x2c] ++ s).

(** ** Fields in their places *)

Definition five (first : bytes) : list bytes := [first; str "side"; str "layer"; str "module"; str "sensor"].
(** where the canonical encoding has its fields *)
Definition canonical_places : list (bytes * place) :=
  [(str "subdet", mkPlace 0 5 false); (str "side", mkPlace 5 2 true); (str "layer", mkPlace 7 9 false); (str "module", mkPlace 16 8 false); (str "sensor", mkPlace 24 8 false)].

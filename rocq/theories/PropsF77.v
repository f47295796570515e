(** * C69: the Fortran interface gives the objects of a list by their index *)

From Verif Require Import Bytes SioModel ObjModel F77Model F77Spec F77Proofs.

(** For every program of calls with objects of the right class, every call returns what the calls before imply: the
    i-th element added to a collection, the i-th daughter, the values with which the i-th hit was made, the energy
    and the contributions of a hit, the parameters of a particle id or of a vertex, the contributions of a cluster.
    The index counts from 1, but for lcmcpgetparent, lccolremoveelementat and lcsthgetposition, where it counts from 0;
    the functions that copy numbers to an array report one more than their number (partial: see the refuted theorems). *)
Theorem C69_lists_partial fadd cs :
  all_allowed [] cs (fst (f_run fadd fm_init cs)) -> as_expected fadd [] cs (fst (f_run fadd fm_init cs)).
Proof. exact (lists_ok fadd cs). Qed.
Print Assumptions C69_lists_partial.

(** a program with two particles, a mother, hits, contributions, a vector, parameters and a cluster *)
Definition ex_calls : list fcall :=
  [ McpCreate; McpCreate; McpCreate; McpAddParent 1 3; McpAddParent 2 3; McpAddParent 1 3; McpDaughters 3; McpDaughter 3 2; McpParents 1;
    McpParent 1 0; ColCreate; ColAdd 4 1; SthAdd 4 77 [1; 2; 3] 5 6 2; SchAdd 4 8 9 10 [4; 5; 6]; ColNumber 4; ColAt 4 2; SthAt 4 2;
    SthPosition 5 1; SchCont 6 1 11 12 13; SchCont 6 2 21 22 23; SchConts 6; SchContAt 6 2; SchContAt 6 3; SchAt 4 3; ColRemove 4 0; ColAt 4 1;
    ObvCreate [3; 1]; ObvLength 7; ObvAt 7 1; ObvAt 7 3; ParCreate true; ParAdd 8 31; ParAdd 8 32; ParGet 8 [0; 0; 0] 3; ParGet 8 [0; 0; 0] 1;
    CluCreate; CluAddHit 9 6 41; CluWeights 9 [0; 0] 2 ].
Example C69_example_results : fst (f_run Z.add fm_init ex_calls) = map (@Ok fout)
  [ RAddr 1; RAddr 2; RAddr 3; RStatus 1; RStatus 1; RStatus 1; RInt 2; RAddr 2; RInt 1;
    RAddr 3; RAddr 4; RStatus 1; RMade 1 5; RAddr 6; RInt 3; RAddr 5; RHit 77 [1; 2; 3] 5 6 2;
    RInt 2; RStatus 1; RStatus 1; RInt 2; RCont (2, 21, 22, 23); RExc; RCal 6 8 9 42 [4; 5; 6]; RStatus 1; RAddr 5;
    RAddr 7; RInt 2; RAddr 3; RExc; RAddr 8; RStatus 1; RStatus 1; RArr 1 [31; 32; 0] 3; RArr 0 [31; 0; 0] 1;
    RAddr 9; RStatus 1; RArr 1 [41; 0] 2 ].
Proof. vm_compute. reflexivity. Qed.
Example C69_example_allowed : all_allowed [] ex_calls (fst (f_run Z.add fm_init ex_calls)).
Proof.
  rewrite C69_example_results. unfold ex_calls. cbn -[two31 Z.le Z.lt]. unfold mcp_or_null, nth1.
  repeat match goal with
  | |- _ /\ _ => split
  | |- True => exact Logic.I
  | |- _ = _ => reflexivity
  | |- _ \/ _ => right
  | |- _ <= _ => vm_compute; discriminate
  | |- _ < _ => vm_compute; reflexivity
  end.
  - exists 5. split; reflexivity.
  - exists 6. split; reflexivity.
Qed.

(** lcmcpgetparent( p, 1 ) does not give the first parent: with two parents it gives the second, and with one it
    reads beyond the list *)
Theorem C69_parent_refuted : exists fadd cs1 cs2 p m1 m2,
  fst (f_run fadd fm_init (cs1 ++ [McpAddParent p m1])) = map (@Ok fout) [RAddr p; RAddr m1; RAddr m2; RStatus 1] /\
  fst (f_run fadd fm_init (cs1 ++ [McpAddParent p m1; McpParents p; McpParent p 1])) =
    map (@Ok fout) [RAddr p; RAddr m1; RAddr m2; RStatus 1; RInt 1] ++ [UB UBOutOfBounds] /\
  cs2 = cs1 ++ [McpAddParent p m1; McpAddParent p m2; McpParents p; McpParent p 1] /\ m1 <> m2 /\
  fst (f_run fadd fm_init cs2) = map (@Ok fout) [RAddr p; RAddr m1; RAddr m2; RStatus 1; RStatus 1; RInt 2; RAddr m2].
Proof.
  exists Z.add, [McpCreate; McpCreate; McpCreate], [McpCreate; McpCreate; McpCreate; McpAddParent 1 2; McpAddParent 1 3; McpParents 1; McpParent 1 1], 1, 2, 3.
  split; [vm_compute; reflexivity|]. split; [vm_compute; reflexivity|]. split; [reflexivity|]. split; [discriminate|]. vm_compute; reflexivity.
Qed.
Print Assumptions C69_parent_refuted.

(** lccolremoveelementat( c, 1 ) removes the second element, and leaves the first *)
Theorem C69_remove_refuted : exists fadd cs c o1 o2,
  cs = [ColCreate; McpCreate; McpCreate; ColAdd c o1; ColAdd c o2; ColRemove c 1; ColNumber c; ColAt c 1] /\ o1 <> o2 /\
  fst (f_run fadd fm_init cs) = map (@Ok fout) [RAddr c; RAddr o1; RAddr o2; RStatus 1; RStatus 1; RStatus 1; RInt 1; RAddr o1].
Proof.
  exists Z.add, [ColCreate; McpCreate; McpCreate; ColAdd 1 2; ColAdd 1 3; ColRemove 1 1; ColNumber 1; ColAt 1 1], 1, 2, 3.
  split; [reflexivity|]. split; [discriminate|]. vm_compute; reflexivity.
Qed.
Print Assumptions C69_remove_refuted.

(** lcsthgetposition( h, i ), i = 1, 2, 3, does not give x, y, z: 1 gives y, and 3 reads beyond the array *)
Theorem C69_position_refuted : exists fadd cs c h x y z,
  cs = [ColCreate; SthAdd c 7 [x; y; z] 5 6 0] /\ x <> y /\
  fst (f_run fadd fm_init (cs ++ [SthPosition h 1])) = map (@Ok fout) [RAddr c; RMade 1 h; RInt y] /\
  fst (f_run fadd fm_init (cs ++ [SthPosition h 3])) = map (@Ok fout) [RAddr c; RMade 1 h] ++ [UB UBOutOfBounds].
Proof.
  exists Z.add, [ColCreate; SthAdd 1 7 [10; 20; 30] 5 6 0], 1, 2, 10, 20, 30.
  split; [reflexivity|]. split; [discriminate|]. split; vm_compute; reflexivity.
Qed.
Print Assumptions C69_position_refuted.

(** lcgetsimcalohit does not report an index out of range, although it has a check for it: it reads beyond the list *)
Theorem C69_range_refuted : exists fadd cs c h, forall i, - two31 < i < two31 -> ~ (1 <= i <= 1) ->
  cs = [ColCreate; SchAdd c 7 8 9 [1; 2; 3]] /\
  fst (f_run fadd fm_init (cs ++ [SchAt c i])) = map (@Ok fout) [RAddr c; RAddr h] ++ [UB UBOutOfBounds].
Proof.
  exists Z.add, [ColCreate; SchAdd 1 7 8 9 [1; 2; 3]], 1, 2. intros i R N. split; [reflexivity|].
  cbn -[two31 minus1 elem_at s32]. change (s32 1) with 1.
  assert ((i <? 0) && (1 - 1 <? i) = false) as -> by (destruct (Z.ltb_spec i 0); [destruct (Z.ltb_spec (1 - 1) i); [lia|reflexivity]|reflexivity]).
  rewrite (minus1_ok Z.add i (proj1 R)). cbn [bind]. unfold elem_at. destruct (Z.ltb_spec (i - 1) 0); [reflexivity|].
  replace (Z.to_nat (i - 1)) with (S (Z.to_nat (i - 2))) by lia. cbn [nth_error]. destruct (Z.to_nat (i - 2)); reflexivity.
Qed.
Print Assumptions C69_range_refuted.

(** lcpidgetparameters, lcvtxgetparameters and lcclugethitcontributions do not return the number of values, but one more;
    and called with the size 0 they write beyond the array *)
Theorem C69_number_refuted : exists p, forall fadd vx x,
  fst (f_run fadd fm_init [ParCreate vx; ParAdd p x; ParGet p [0; 0] 2]) = map (@Ok fout) [RAddr p; RStatus 1; RArr 1 [x; 0] 2] /\
  fst (f_run fadd fm_init [ParCreate vx; ParAdd p x; ParGet p [] 0]) = map (@Ok fout) [RAddr p; RStatus 1] ++ [UB UBOutOfBounds] /\
  fst (f_run fadd fm_init [CluCreate; CluAddHit p 0 x; CluWeights p [] 0]) = map (@Ok fout) [RAddr p; RStatus 1] ++ [UB UBOutOfBounds].
Proof. exists 1. intros. split; [|split]; vm_compute; reflexivity. Qed.
Print Assumptions C69_number_refuted.

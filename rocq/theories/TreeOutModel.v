(** * Printing the daughters of a particle

    Model of LCTOOLS::printDaughterParticles, src/cpp/src/UTIL/LCTOOLS.cc:1281-1315.  A line is given by what is
    printed in it, not as text. *)

From Coq Require Import ZArith List Bool.
From Verif Require Import Bytes SioModel ObjModel DerivModel.
Import ListNotations.
Open Scope Z_scope.

(** a line, LCTOOLS.cc:1289-1309: its number and that of the mother; the particle from which code, momentum, vertex,
    mass, charge and energy are taken; generator status, simulator status and endpoint (those of [part]: 1294, 1295 and
    1299-1302; the endpoint is never a null pointer) *)
Record dline := mkDL { dl_index : Z; dl_mother : Z; dl_part : mcp; dl_gen : Z; dl_sim : Z; dl_end : list Z }.

(** the loop over the daughters, LCTOOLS.cc:1285-1312, with [rec] for the call of the function itself (1311); index++ is
    that of an int (1289) *)
Fixpoint daughter_loop (h : addr -> option obj) (rec : mcp -> Z -> Res (list dline * Z)) (part : mcp) (mother : Z) (ds : list addr) (index : Z) : Res (list dline * Z) :=
  match ds with
  | [] => Ok ([], index)
  | a :: ds' =>
      match h a with
      | Some (OMC d) =>
          if index <? 2 ^ 31 - 1 then
            do e <- get_endpoint h part;
            do '(l1, i1) <- rec d (index + 1);
            do '(l2, i2) <- daughter_loop h rec part mother ds' i1;
            Ok (mkDL index mother d (mc_gen part) (mc_sim part) e :: l1 ++ l2, i2)
          else UB UBOverflow
      | _ => UB UBNullDeref
      end
  end.
(** printDaughterParticles, LCTOOLS.cc:1281-1315; [fuel] bounds the depth of the calls *)
Fixpoint print_daughters (fuel : nat) (h : addr -> option obj) (part : mcp) (index : Z) : Res (list dline * Z) :=
  match fuel with
  | O => UB UBDiverge
  | S fuel' =>
      if - 2 ^ 31 <? index then daughter_loop h (print_daughters fuel' h) part (index - 1) (mc_daughters part) index else UB UBOverflow
  end.

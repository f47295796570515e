(** * Checking the number of elements of a collection

    Model of src/cpp/src/EXAMPLE/lcio_check_col_elements.cc.  The command line is given as the
    values that getopt_long, atoi and atof deliver (lines 230-350 without the checks of ranges); printing is left out. *)

From Verif Require Import Bytes StrMap SioModel Ieee ObjModel EventModel IndexModel FileModel.

(** ** The arithmetic with floats

    A [float] that occurs here is not negative and finite: it is given as a quotient of integers with
    a positive denominator. *)

(** [n / d] rounded to an integer, to nearest, ties to even: rounding of IEEE-754; no code of the program *)
Definition near_even (n d : Z) : Z :=
  let q := n / d in let r := n mod d in
  if 2 * r <? d then q else if d <? 2 * r then q + 1 else if Z.even q then q else q + 1.
(** [p / q] rounded to 24 binary digits: no code of the program.  The values are too large to be
    denormalised or are rounded to 0 by what follows, and are smaller than 2^31. *)
Definition f32 (x : Z * Z) : Z * Z :=
  let '(p, q) := x in
  if p <=? 0 then (0, 1) else
  let b := Z.log2 p - Z.log2 q in
  let e := if q * 2 ^ Z.max b 0 <=? p * 2 ^ Z.max (- b) 0 then b - 23 else b - 24 in
  (near_even (p * 2 ^ Z.max (- e) 0) (q * 2 ^ Z.max e 0) * 2 ^ Z.max e 0, 2 ^ Z.max (- e) 0).
(** [(float) n] *)
Definition f32_of (n : Z) : Z * Z := f32 (n, 1).
(** the quotient and the product of two floats, and [<] *)
Definition f32_div (x y : Z * Z) : Z * Z := f32 (fst x * snd y, snd x * fst y).
Definition f32_mul (x y : Z * Z) : Z * Z := f32 (fst x * fst y, snd x * snd y).
Definition f32_lt (x y : Z * Z) : bool := fst x * snd y <? fst y * snd x.
(** [(int)round( n * rel )], lines 390 and 584: [n] is converted to float; ties away from 0 *)
Definition round_part (n : Z) (rel : Z * Z) : Z :=
  let '(p, q) := f32_mul (f32_of n) rel in (2 * p + q) / (2 * q).

(** ** Options *)

(** opts_t, lines 39-60, without the counters.  [None]: the option is not given; [o_relel] and [o_relev] are
    the floats as quotients. *)
Record copts := mkCO {
  o_name : bytes; o_pedantic : bool; o_average : bool; o_start : option Z; o_max : option Z;
  o_minel : option Z; o_maxel : option Z; o_exp : option Z; o_absel : option Z; o_absev : option Z;
  o_relel : option (Z * Z); o_relev : option (Z * Z) }.

(** the checks of the single options, lines 252-319: at least [least] *)
Definition range (least : Z) (o : option Z) : bool := match o with None => true | Some v => least <=? v end.
(** relelementerror and releventerror, lines 321-339: between 0 and 1 *)
Definition range01 (o : option (Z * Z)) : bool := match o with None => true | Some (p, q) => (0 <? p) && (p <? q) end.
(** 0 is "not set", lines 214-222 *)
Definition val (o : option Z) : Z := match o with None => 0 | Some v => v end.
Definition is_some {A} (o : option A) : bool := match o with None => false | Some _ => true end.

(** [n + k] as an [int]: lines 416, 443, 531 and 543 *)
Definition int_plus (n k : Z) : Res Z := if n + k <? 2147483648 then Ok (n + k) else UB UBOverflow.

(** the checks of the options (252-339, 365-378) and the bounds for the number of elements, 383-460:
    [None] if the usage is displayed and the program ends with EXIT_FAILURE (line 169) *)
Definition bounds (o : copts) : Res (option (Z * Z)) :=
  if negb (range 0 (o_start o) && range 1 (o_max o) && range 1 (o_exp o) && range 1 (o_minel o) && range 1 (o_maxel o) &&
           range 1 (o_absel o) && range 1 (o_absev o) && range01 (o_relel o) && range01 (o_relev o)) then Ok None else
  if is_some (o_absel o) && is_some (o_relel o) then Ok None else
  if is_some (o_absev o) && is_some (o_relev o) then Ok None else
  if (is_some (o_absev o) || is_some (o_relev o)) && o_average o then Ok None else
  let min := val (o_minel o) in let max := val (o_maxel o) in
  do b <- (match o_exp o with
    | Some x =>
        if is_some (o_absel o) || is_some (o_relel o) then
          let err := match o_relel o with
                     | Some rel => if round_part x rel =? 0 then 1 else round_part x rel
                     | None => val (o_absel o)
                     end in
          do max' <- (if max =? 0 then int_plus x err else Ok max);
          Ok (Some (if min =? 0 then Z.max 0 (x - err) else min, max'))
        else
          do max' <- (if max =? 0 then if o_average o then int_plus x 1 else Ok x else Ok max);
          Ok (Some (if min =? 0 then if o_average o then x - 1 else x else min, max'))
    | None => if is_some (o_absel o) || is_some (o_relel o) then Ok None else Ok (Some (min, max))
    end);
  match b with
  | None => Ok None
  | Some (min, max) => if (0 <? max) && (max <? min) then Ok None else Ok (Some (min, max))
  end.

(** ** The loop *)

(** the counters, lines 56-59 *)
Record counts := mkCN { n_elem : Z; n_evt : Z; n_fail : Z; n_skip : Z }.

(** one event, lines 501-543: getCollection gives null if there is none of that name *)
Definition check_event (o : copts) (min max : Z) (e : event) (c : counts) : Res counts :=
  do c1 <- (match sm_get (o_name o) (ev_cols e) with
    | Some col =>
        let n := Zlen (c_elems col) in
        let f1 := if n <? min then n_fail c + 1 else n_fail c in
        let f2 := if 0 <? max then if max <? n then f1 + 1 else f1 else f1 in
        do t <- int_plus (n_elem c) n;
        Ok (mkCN t (n_evt c) f2 (n_skip c))
    | None => Ok (mkCN (n_elem c) (n_evt c) (if o_pedantic o then n_fail c + 1 else n_fail c) (n_skip c + 1))
    end);
  do t <- int_plus (n_evt c1) 1;
  Ok (mkCN (n_elem c1) t (n_fail c1) (n_skip c1)).

(** what [catch( lcio::IOException& )] catches, line 551 *)
Definition is_io (e : exn) : bool := match e with LIOException | LEndOfData => true | _ => false end.

Section Check.
Context (uncomp : bytes -> option bytes) (srt : forall A : Type, (A -> Z) -> list A -> list A) (ignore_null : bool).

(** the loop, lines 498-555.  [fuel] bounds the number of events. *)
Fixpoint check_loop (fuel : nat) (d : disk) (o : copts) (min max : Z) (c : counts) (r : reader) : Res counts :=
  match fuel with
  | O => UB UBDiverge
  | S f =>
      match read_next_event uncomp srt ignore_null d r with
      | (Throw e, _) => if is_io e then Ok c else Throw e
      | (UB k, _) => UB k
      | (Ok None, _) => Ok c
      | (Ok (Some l), r') =>
          do c' <- check_event o min max (le_evt l) c;
          if (0 <? val (o_max o)) && (val (o_max o) <=? n_evt c') then Ok c' else check_loop f d o min max c' r'
      end
  end.

(** what is decided from the counters, lines 565-639; 0 is EXIT_SUCCESS, 1 EXIT_FAILURE *)
Definition verdict (o : copts) (min max : Z) (c : counts) : Z :=
  if n_evt c <=? 0 then 1 else
  if n_evt c =? n_skip c then 1 else
  let avg := f32_div (f32_of (n_elem c)) (f32_of (if o_pedantic o then n_evt c else n_evt c - n_skip c)) in
  let allowed := match o_relev o with Some rel => round_part (n_evt c) rel | None => val (o_absev o) end in
  if o_average o then
    if f32_lt avg (f32_of min) then 1
    else if (0 <? max) && f32_lt (f32_of max) avg then 1 else 0
  else if allowed <? n_fail c then 1 else 0.

(** main, lines 202-640: the exit status.  [Throw]: the exception is not caught, and terminates the program;
    at least two arguments have to be given, 355-358: the name of the collection and a file. *)
Definition check_files (fuel : nat) (d : disk) (files : list bytes) (o : copts) (new : reader) : Res Z :=
  if (length files =? 0)%nat then Ok 1 else
  do b <- bounds o;
  match b with
  | None => Ok 1
  | Some (min, max) =>
      match open_files uncomp d files new with
      | (Throw e, _) => Throw e
      | (UB k, _) => UB k
      | (Ok _, r1) =>
          match (if 0 <? val (o_start o) then skip_events (val (o_start o)) r1 else (Ok tt, r1)) with
          | (Throw e, _) => Throw e
          | (UB k, _) => UB k
          | (Ok _, r2) => do c <- check_loop fuel d o min max (mkCN 0 0 0 0) r2; Ok (verdict o min max c)
          end
      end
  end.

End Check.

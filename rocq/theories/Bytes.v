(** * Bytes, machine words and outcomes

    Basis of the model.  Target: LP64, little-endian host (all platforms LCIO is
    built for); [sio::byte] is [char], [sio::ptr_type] is [std::size_t]. *)

From Coq Require Export Strings.String.
From Coq Require Export List ZArith Lia Bool Init.Byte.
From Coq Require Import Strings.Byte.
From Coq Require Export ZifyBool ZifyNat ZifyN.
Export ListNotations.
Global Open Scope Z_scope.
Global Open Scope list_scope.
Ltac Zify.zify_post_hook ::= Z.div_mod_to_equations.

(** ** Outcomes of an operation *)

(** C++ exceptions.  The [sio] ones are the error codes of
    [sio/include/sio/exception.h] ([error_code]); the [L] ones are the LCIO classes of
    [src/cpp/include/Exceptions.h]. *)
Inductive exn : Set :=
| ENotFound | EAlreadyOpen | EOpenFail | ENotOpen | EEof | EIoFailure | ENoMarker
| ECompressError | EBadState | EInvalidArgument | EBadAlloc | EOutOfRange
| LException | LEventException | LDataNotAvailable | LReadOnly | LIOException
| LEndOfData | StdOutOfRange | StdLengthError.

(** Undefined behaviour of the C++ abstract machine, and divergence. *)
Inductive ub : Set :=
| UBOutOfBounds      (* access outside an object or buffer *)
| UBNullDeref        (* dereference of a null pointer *)
| UBShift            (* shift by a negative amount or by >= width *)
| UBOverflow         (* signed integer overflow *)
| UBDiverge          (* the loop never terminates *)
| UBUninit           (* use of an indeterminate or moved-from value *)
| UBPrecondition.    (* a precondition of the standard library violated *)

Inductive Res (A : Type) : Type :=
| Ok (a : A)
| Throw (e : exn)
| UB (k : ub).
Arguments Ok {A} _.
Arguments Throw {A} _.
Arguments UB {A} _.

Definition bind {A B} (r : Res A) (f : A -> Res B) : Res B :=
  match r with Ok a => f a | Throw e => Throw e | UB k => UB k end.

Notation "'do' x <- r ; k" := (bind r (fun x => k))
  (at level 200, x name, r at level 100, k at level 200, right associativity).
Notation "'do' ' p <- r ; k" := (bind r (fun x => let p := x in k))
  (at level 200, p strict pattern, r at level 100, k at level 200, right associativity).

Lemma bind_Ok {A B} (a : A) (f : A -> Res B) : bind (Ok a) f = f a.
Proof. reflexivity. Qed.

Lemma bind_Ok_inv {A B} (r : Res A) (f : A -> Res B) b :
  bind r f = Ok b -> exists a, r = Ok a /\ f a = Ok b.
Proof. destruct r; cbn; intros H; try discriminate; eauto. Qed.

Definition is_UB {A} (r : Res A) : bool := match r with UB _ => true | _ => false end.

(** ** Bytes as numbers *)

(** The value 0..255 of a byte ([static_cast<unsigned char>]). *)
Definition Zb (b : byte) : Z := Z.of_N (Byte.to_N b).

(** The byte with the low eight bits of [z]. *)
Definition bZ (z : Z) : byte :=
  match Byte.of_N (Z.to_N (z mod 256)) with Some b => b | None => x00 end.

Lemma Zb_range b : 0 <= Zb b < 256.
Proof. unfold Zb. pose proof (to_N_bounded b). lia. Qed.

Lemma Zb_bZ z : Zb (bZ z) = z mod 256.
Proof.
  unfold Zb, bZ.
  destruct (Byte.of_N (Z.to_N (z mod 256))) eqn:E.
  - apply to_of_N in E. rewrite E. rewrite Z2N.id; [reflexivity|]. apply Z.mod_pos_bound; lia.
  - exfalso. apply of_N_None_iff in E. pose proof (Z.mod_pos_bound z 256). lia.
Qed.

Lemma bZ_Zb b : bZ (Zb b) = b.
Proof.
  unfold bZ, Zb. rewrite Z.mod_small by (pose proof (to_N_bounded b); lia).
  rewrite N2Z.id, of_to_N. reflexivity.
Qed.

Lemma bZ_mod z : bZ (z mod 256) = bZ z.
Proof. unfold bZ. rewrite Z.mod_mod by lia. reflexivity. Qed.

Definition byte_dec (a b : byte) : {a = b} + {a <> b}.
Proof. destruct (Byte.eqb a b) eqn:E.
  - left. apply Byte.byte_dec_bl; exact E.
  - right. intros ->. rewrite (Byte.byte_dec_lb (x:=b) (y:=b) eq_refl) in E; discriminate.
Defined.

Notation bytes := (list byte) (only parsing).
Definition bytes_dec : forall a b : bytes, {a = b} + {a <> b} := list_eq_dec byte_dec.
Definition bytes_eqb (a b : bytes) : bool := if bytes_dec a b then true else false.

Lemma bytes_eqb_eq a b : bytes_eqb a b = true <-> a = b.
Proof. unfold bytes_eqb; destruct (bytes_dec a b); split; congruence. Qed.
Lemma bytes_eqb_refl a : bytes_eqb a a = true.
Proof. apply bytes_eqb_eq; reflexivity. Qed.
Lemma bytes_eqb_neq a b : bytes_eqb a b = false <-> a <> b.
Proof. unfold bytes_eqb; destruct (bytes_dec a b); split; congruence. Qed.

(** Literal strings of the source as byte strings. *)
Definition str (s : String.string) : bytes := String.list_byte_of_string s.

Definition zeros (n : nat) : bytes := repeat x00 n.

(** ** Big-endian words

    [sio/src/memcpy.cc:6-22]: on a little-endian host every element is stored with its
    bytes reversed, i.e. most significant byte first. *)
Fixpoint be (n : nat) (z : Z) : bytes :=
  match n with
  | O => []
  | S k => bZ (Z.shiftr z (8 * Z.of_nat k)) :: be k z
  end.

Definition unbe (l : bytes) : Z := fold_left (fun a b => a * 256 + Zb b) l 0.

Lemma be_length n z : length (be n z) = n.
Proof. induction n; cbn; congruence. Qed.

Lemma unbe_acc l a : fold_left (fun a b => a * 256 + Zb b) l a = a * 256 ^ Z.of_nat (length l) + unbe l.
Proof.
  unfold unbe. revert a. induction l as [|b l IH]; intros a.
  - cbn [fold_left length]. change (256 ^ Z.of_nat 0) with 1. ring.
  - cbn [fold_left length]. rewrite IH, (IH (0 * 256 + Zb b)).
    rewrite Nat2Z.inj_succ, Z.pow_succ_r by lia. ring.
Qed.

Lemma unbe_cons b l : unbe (b :: l) = Zb b * 256 ^ Z.of_nat (length l) + unbe l.
Proof. unfold unbe at 1. cbn [fold_left]. rewrite unbe_acc. ring. Qed.

Lemma unbe_app l1 l2 : unbe (l1 ++ l2) = unbe l1 * 256 ^ Z.of_nat (length l2) + unbe l2.
Proof.
  unfold unbe at 1. rewrite fold_left_app, unbe_acc. reflexivity.
Qed.

Lemma unbe_range l : 0 <= unbe l < 256 ^ Z.of_nat (length l).
Proof.
  induction l as [|b l IH].
  - cbn. lia.
  - rewrite unbe_cons. cbn [length]. rewrite Nat2Z.inj_succ, Z.pow_succ_r by lia.
    pose proof (Zb_range b). nia.
Qed.

Lemma unbe_be n z : unbe (be n z) = z mod 256 ^ Z.of_nat n.
Proof.
  induction n as [|n IH].
  - cbn. rewrite Z.mod_1_r. reflexivity.
  - cbn [be]. rewrite unbe_cons, be_length, IH, Zb_bZ.
    rewrite Z.shiftr_div_pow2 by lia.
    replace (2 ^ (8 * Z.of_nat n)) with (256 ^ Z.of_nat n).
    2:{ rewrite Z.pow_mul_r by lia. reflexivity. }
    rewrite Nat2Z.inj_succ, Z.pow_succ_r by lia.
    set (M := 256 ^ Z.of_nat n). assert (0 < M) by (unfold M; lia).
    rewrite (Z.mul_comm 256 M), Z.rem_mul_r by lia. ring.
Qed.

Lemma be_unbe l : be (length l) (unbe l) = l.
Proof.
  assert (Hgen : forall l z, be (length l) (z * 256 ^ Z.of_nat (length l) + unbe l) = l).
  { clear l. induction l as [|b l IH]; intros z; [reflexivity|].
    cbn [length be]. f_equal.
    - rewrite unbe_cons, Z.shiftr_div_pow2 by lia.
      replace (2 ^ (8 * Z.of_nat (length l))) with (256 ^ Z.of_nat (length l)).
      2:{ rewrite Z.pow_mul_r by lia. reflexivity. }
      pose proof (unbe_range l).
      rewrite Nat2Z.inj_succ, Z.pow_succ_r by lia.
      set (M := 256 ^ Z.of_nat (length l)) in *.
      replace (z * (256 * M) + (Zb b * M + unbe l)) with (unbe l + (z * 256 + Zb b) * M) by ring.
      rewrite Z.div_add by lia. rewrite Z.div_small by lia.
      rewrite <- bZ_mod. replace ((0 + (z * 256 + Zb b)) mod 256) with (Zb b).
      + apply bZ_Zb.
      + rewrite Z.add_0_l, Z.add_comm, Z_mod_plus_full, Z.mod_small; [reflexivity|apply Zb_range].
    - rewrite unbe_cons.
      replace (z * 256 ^ Z.of_nat (S (length l)) + (Zb b * 256 ^ Z.of_nat (length l) + unbe l))
        with ((z * 256 + Zb b) * 256 ^ Z.of_nat (length l) + unbe l).
      + apply IH.
      + rewrite Nat2Z.inj_succ, Z.pow_succ_r by lia. ring. }
  specialize (Hgen l 0). rewrite Z.mul_0_l, Z.add_0_l in Hgen. exact Hgen.
Qed.

Lemma be_inj n a b : 0 <= a < 256 ^ Z.of_nat n -> 0 <= b < 256 ^ Z.of_nat n ->
  be n a = be n b -> a = b.
Proof.
  intros Ha Hb H. apply (f_equal unbe) in H. rewrite !unbe_be in H.
  rewrite !Z.mod_small in H by lia. exact H.
Qed.

Lemma be_mod n z : be n (z mod 256 ^ Z.of_nat n) = be n z.
Proof.
  rewrite <- unbe_be. pose proof (be_unbe (be n z)) as H. rewrite be_length in H. exact H.
Qed.

(** ** Fixed-width integers *)

Definition two16 : Z := 65536.
Definition two31 : Z := 2147483648.
Definition two32 : Z := 4294967296.
Definition two63 : Z := 9223372036854775808.
Definition two64 : Z := 18446744073709551616.

(** Conversion to a signed type of [w] bits (two's complement, as on every supported
    compiler). *)
Definition sgn (w : Z) (z : Z) : Z :=
  let m := z mod 2 ^ w in if m <? 2 ^ (w - 1) then m else m - 2 ^ w.

Definition s16 (z : Z) : Z := let m := z mod two16 in if m <? 32768 then m else m - two16.
Definition s32 (z : Z) : Z := let m := z mod two32 in if m <? two31 then m else m - two32.
Definition s64 (z : Z) : Z := let m := z mod two64 in if m <? two63 then m else m - two64.
Definition u32 (z : Z) : Z := z mod two32.
Definition u64 (z : Z) : Z := z mod two64.

Definition is_u8 (z : Z) : Prop := 0 <= z < 256.
Definition is_i16 (z : Z) : Prop := -32768 <= z < 32768.
Definition is_u16 (z : Z) : Prop := 0 <= z < two16.
Definition is_i32 (z : Z) : Prop := - two31 <= z < two31.
Definition is_u32 (z : Z) : Prop := 0 <= z < two32.
Definition is_i64 (z : Z) : Prop := - two63 <= z < two63.
Definition is_u64 (z : Z) : Prop := 0 <= z < two64.

Lemma s16_id z : is_i16 z -> s16 z = z.
Proof. unfold s16, is_i16, two16. intros H. cbv zeta.
  destruct (z mod 65536 <? 32768) eqn:E; lia. Qed.
Lemma s32_id z : is_i32 z -> s32 z = z.
Proof. unfold s32, is_i32, two31, two32. intros H. cbv zeta.
  destruct (z mod 4294967296 <? 2147483648) eqn:E; lia. Qed.
Lemma s64_id z : is_i64 z -> s64 z = z.
Proof. unfold s64, is_i64, two63, two64. intros H. cbv zeta.
  destruct (z mod 18446744073709551616 <? 9223372036854775808) eqn:E; lia. Qed.
Lemma s32_range z : is_i32 (s32 z).
Proof. unfold s32, is_i32, two31, two32. cbv zeta.
  destruct (z mod 4294967296 <? 2147483648) eqn:E; lia. Qed.
Lemma s64_range z : is_i64 (s64 z).
Proof. unfold s64, is_i64, two63, two64. cbv zeta.
  destruct (z mod 18446744073709551616 <? 9223372036854775808) eqn:E; lia. Qed.
Lemma u32_id z : is_u32 z -> u32 z = z.
Proof. unfold u32, is_u32. intros H. apply Z.mod_small; exact H. Qed.
Lemma u64_id z : is_u64 z -> u64 z = z.
Proof. unfold u64, is_u64. intros H. apply Z.mod_small; exact H. Qed.
Lemma u32_range z : is_u32 (u32 z).
Proof. unfold u32, is_u32. apply Z.mod_pos_bound. reflexivity. Qed.
Lemma s32_mod z : s32 (z mod two32) = s32 z.
Proof. unfold s32. rewrite Z.mod_mod by discriminate. reflexivity. Qed.
Lemma s64_mod z : s64 (z mod two64) = s64 z.
Proof. unfold s64. rewrite Z.mod_mod by discriminate. reflexivity. Qed.
Lemma s16_mod z : s16 (z mod two16) = s16 z.
Proof. unfold s16. rewrite Z.mod_mod by discriminate. reflexivity. Qed.
Lemma u32_s32 z : u32 (s32 z) = u32 z.
Proof. unfold u32, s32, two31, two32. cbv zeta.
  destruct (z mod 4294967296 <? 2147483648) eqn:E; lia. Qed.

(** Length of a list as an integer. *)
Definition Zlen {A} (l : list A) : Z := Z.of_nat (length l).
Lemma Zlen_nil {A} : Zlen (@nil A) = 0. Proof. reflexivity. Qed.
Lemma Zlen_cons {A} (a : A) l : Zlen (a :: l) = 1 + Zlen l.
Proof. unfold Zlen. cbn [length]. lia. Qed.
Lemma Zlen_app {A} (l1 l2 : list A) : Zlen (l1 ++ l2) = Zlen l1 + Zlen l2.
Proof. unfold Zlen. rewrite app_length. lia. Qed.
Lemma Zlen_nonneg {A} (l : list A) : 0 <= Zlen l.
Proof. unfold Zlen. lia. Qed.

(** * The Gregorian calendar *)
From Coq Require Import ZArith List Bool.
From Verif Require Import Bytes TimeModel.
Import ListNotations.
Open Scope Z_scope.

(** leap years: every fourth year, but of the full centuries only every fourth *)
Definition leap (y : Z) : Prop := ((4 | y) /\ ~ (100 | y)) \/ (400 | y).
(** the lengths of the months *)
Definition month_length (y m n : Z) : Prop :=
  (In m [1; 3; 5; 7; 8; 10; 12] /\ n = 31) \/ (In m [4; 6; 9; 11] /\ n = 30) \/
  (m = 2 /\ leap y /\ n = 29) \/ (m = 2 /\ ~ leap y /\ n = 28).
(** a date and time that exists *)
Definition valid_date (d : caltime) : Prop :=
  1970 <= c_year d /\ 1 <= c_day d /\ (exists n, month_length (c_year d) (c_month d) n /\ c_day d <= n) /\
  0 <= c_hour d < 24 /\ 0 <= c_min d < 60 /\ 0 <= c_sec d < 60 /\ 0 <= c_ns d < 10 ^ 9.
(** the day after a day *)
Inductive next_day : Z * Z * Z -> Z * Z * Z -> Prop :=
| next_in_month y m d n : month_length y m n -> d < n -> next_day (y, m, d) (y, m, d + 1)
| next_month y m n : month_length y m n -> m < 12 -> next_day (y, m, n) (y, m + 1, 1)
| next_year y : next_day (y, 12, 31) (y + 1, 1, 1).
(** the [n]-th day after the first of January 1970 *)
Inductive day_number : nat -> Z * Z * Z -> Prop :=
| day_zero : day_number 0 (1970, 1, 1)
| day_succ n a b : day_number n a -> next_day a b -> day_number (S n) b.
(** the time stamp of a date: nanoseconds since the start of 1970 *)
Definition instant (d : caltime) (t : Z) : Prop :=
  exists n, day_number n (c_year d, c_month d, c_day d) /\
    t = (((Z.of_nat n * 24 + c_hour d) * 60 + c_min d) * 60 + c_sec d) * 10 ^ 9 + c_ns d.

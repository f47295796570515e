(** * Model of src/cpp/src/UTIL/LCTime.cc

    LCTime keeps a time stamp in ns since 1970 and the calendar date.  Members of the date are [short],
    the nanoseconds [int]. *)

From Coq Require Import ZArith List Bool.
From Verif Require Import Bytes.
Import ListNotations.
Open Scope Z_scope.

(** struct CalendarTime, LCTime.h:24-32 *)
Record caltime := mkCal { c_year : Z; c_month : Z; c_day : Z; c_hour : Z; c_min : Z; c_sec : Z; c_ns : Z }.
(** the members of LCTime, LCTime.h:119-120 *)
Record lctime := mkTime { lt_t : Z; lt_d : caltime }.

(** constants, LCTime.cc:10-18 *)
Definition YEAR0 : Z := 1970.
Definition SPM : Z := 60.
Definition SPH : Z := 3600.
Definition SPD : Z := 86400.
Definition DPY : Z := 365.
Definition NPS : Z := 1000000000.

(** dpm, LCTime.cc:27 *)
Definition dpm : list Z := [0; 31; 28; 31; 30; 31; 30; 31; 31; 30; 31; 30; 31].
(** isLeapYear, LCTime.h:66; [%] of C++ is zero exactly if [mod] is *)
Definition is_leap_year (y : Z) : bool := ((y mod 4 =? 0) && negb (y mod 100 =? 0)) || (y mod 400 =? 0).
(** daysInYear, LCTime.cc:196-200 *)
Definition days_in_year (y : Z) : Z := if is_leap_year y then DPY + 1 else DPY.
(** daysInMonth, LCTime.cc:202-210 *)
Definition days_in_month (m y : Z) : Z :=
  if (m <? 1) || (12 <? m) then 0 else
  let d := nth (Z.to_nat m) dpm 0 in
  if (m =? 2) && is_leap_year y then d + 1 else d.

(** the loop over years, LCTime.cc:122-125: year and days left *)
Fixpoint year_loop (fuel : nat) (n y : Z) : Res (Z * Z) :=
  match fuel with
  | O => UB UBDiverge
  | S k => let left := n - days_in_year y in if 0 <=? left then year_loop k left (s16 (y + 1)) else Ok (y, n)
  end.
(** the loop over months, LCTime.cc:129-132; after December it does not end *)
Fixpoint month_loop (fuel : nat) (n m y : Z) : Res (Z * Z) :=
  match fuel with
  | O => UB UBDiverge
  | S k => let left := n - days_in_month m y in if 0 <=? left then month_loop k left (s16 (m + 1)) y else Ok (m, n)
  end.

(** the start of 1970, LCTime.cc:98-105 *)
Definition epoch : caltime := mkCal YEAR0 1 1 0 0 0 0.

(** convertToCalTime, LCTime.cc:96-163 *)
Definition convert_to (t : Z) : Res lctime :=
  if t <? 0 then Ok (mkTime 0 epoch) else
  let s := t / NPS in
  let nd := s32 (s / SPD) in
  do yn <- year_loop (Z.to_nat (nd / DPY + 2)) nd YEAR0;
  do mn <- month_loop 13 (snd yn) 1 (fst yn);
  let r := s mod SPD in
  let r' := r mod SPH in
  Ok (mkTime t (mkCal (fst yn) (fst mn) (s16 (1 + snd mn)) (s16 (r / SPH)) (s16 (r' / SPM)) (s16 (r' mod SPM)) (s32 (t mod NPS)))).

(** the days of the years from [y] on, [k] years, LCTime.cc:177-179 *)
Fixpoint sum_years (k : nat) (y : Z) (acc : Z) : Z :=
  match k with O => acc | S k' => sum_years k' (y + 1) (u32 (acc + days_in_year y)) end.
(** the days of the months from [m] on, [k] months, LCTime.cc:181-183 *)
Fixpoint sum_months (k : nat) (m y : Z) (acc : Z) : Z :=
  match k with O => acc | S k' => sum_months k' (m + 1) y (u32 (acc + days_in_month m y)) end.
(** convertFromCalTime, LCTime.cc:165-193: all sums are those of 32 bit unsigned numbers *)
Definition convert_from (d0 : caltime) : lctime :=
  let d := if c_year d0 <? YEAR0 then epoch else d0 in
  let n1 := sum_years (Z.to_nat (c_year d - YEAR0)) YEAR0 0 in
  let n2 := sum_months (Z.to_nat (c_month d - 1)) 1 (c_year d) n1 in
  let n := u32 (n2 + (c_day d - 1)) in
  mkTime (u32 (n * SPD + c_hour d * SPH + c_min d * SPM + c_sec d) * NPS) d.

(** LCTime( long64 ), LCTime.cc:58-61 *)
Definition time_of_stamp (t : Z) : Res lctime := convert_to t.
(** LCTime( int unixTime ), LCTime.cc:87-92 *)
Definition time_of_unix (u : Z) : Res lctime := convert_to (u * NPS).
(** LCTime( year, month, day, hour, min, s ), LCTime.cc:64-85 *)
Definition time_of_date (y mon d h m s : Z) : Res lctime :=
  if (y <? YEAR0) || (mon <? 0) || (12 <? mon) || (d <? 0) || (days_in_month mon y <? d) then Throw LException else
  Ok (convert_from (mkCal (s16 y) (s16 mon) (s16 d) (s16 h) (s16 m) (s16 s) 0)).
(** operator+=, LCTime.cc:213-216 *)
Definition time_add (x : lctime) (t : Z) : Res lctime :=
  let t' := lt_t x + t in
  if (t' <? - 2 ^ 63) || (2 ^ 63 <=? t') then UB UBOverflow else convert_to t'.
(** unixTime, LCTime.h:55; the stamp is never negative *)
Definition unix_time (x : lctime) : Z := s32 (lt_t x / NPS).

(** what can be done with an LCTime object: construction and +=, LCTime.cc:58-93 and 213-216 *)
Inductive made := FromStamp (t : Z) | FromUnix (u : Z) | FromDate (y mon d h m s : Z).
(** LCTime.cc, as above (58-93) *)
Definition make_time (c : made) : Res lctime :=
  match c with
  | FromStamp t => time_of_stamp t
  | FromUnix u => time_of_unix u
  | FromDate y mon d h m s => time_of_date y mon d h m s
  end.
(** no code of its own: a program that uses LCTime.cc:213-216 *)
Fixpoint add_all (x : lctime) (l : list Z) : Res lctime :=
  match l with [] => Ok x | t :: l' => do x' <- time_add x t; add_all x' l' end.

(** a number with at least [w] digits, std::setw and std::setfill('0') *)
Fixpoint digits (w : nat) (n : Z) (acc : bytes) : bytes :=
  match w with O => acc | S w' => digits w' (n / 10) (bZ (48 + n mod 10) :: acc) end.
(** getDateString, LCTime.cc:220-241, for members that have at most as many digits as their columns *)
Definition date_string (x : lctime) : bytes :=
  let d := lt_d x in
  digits 2 (c_day d) [] ++ str "." ++ digits 2 (c_month d) [] ++ str "." ++ digits 4 (c_year d) [] ++ str "  " ++
  digits 2 (c_hour d) [] ++ str ":" ++ digits 2 (c_min d) [] ++ str ":" ++ digits 2 (c_sec d) [] ++ str "." ++ digits 9 (c_ns d) [].

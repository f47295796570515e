(** * Time stamps and dates

    [instant d t]: [t] is the number of nanoseconds from the start of 1970 to [d], counting days one by one
    with the rules of the Gregorian calendar. *)

From Coq Require Import ZArith List Bool Lia.
From Verif Require Import Bytes TimeModel TimeSpec TimeProofs.
Import ListNotations.
Open Scope Z_scope.

(** C27: every time stamp is converted to the date and time of that instant *)
Theorem C27_stamp_to_date : forall t, 0 <= t < 2 ^ 63 -> exists d, time_of_stamp t = Ok (mkTime t d) /\ valid_date d /\ instant d t.
Proof. exact stamp_ok. Qed.
Print Assumptions C27_stamp_to_date.

Example C27_stamp_case : time_of_stamp 1108032869123456789 = Ok (mkTime 1108032869123456789 (mkCal 2005 2 10 10 54 29 123456789)).
Proof. vm_compute. reflexivity. Qed.
(** the last stamp, and the end of a leap day in a century that is a leap year *)
Example C27_last_case : time_of_stamp (2 ^ 63 - 1) = Ok (mkTime (2 ^ 63 - 1) (mkCal 2262 4 11 23 47 16 854775807)).
Proof. vm_compute. reflexivity. Qed.
Example C27_leap_case : time_of_stamp 951868799000000000 = Ok (mkTime 951868799000000000 (mkCal 2000 2 29 23 59 59 0)).
Proof. vm_compute. reflexivity. Qed.

(** C27: no two dates belong to the same instant, so the date of a stamp is the only one *)
Theorem C27_date_unique : forall d d' t, valid_date d -> valid_date d' -> instant d t -> instant d' t -> d = d'.
Proof. exact instant_unique. Qed.
Print Assumptions C27_date_unique.

(** C27: a date gives its stamp and the stamp gives back the date until 2^32 seconds after the start of 1970 *)
Theorem C27_date_to_stamp : forall d t, valid_date d -> c_ns d = 0 -> instant d t -> t < 2 ^ 32 * 10 ^ 9 ->
  exists x, time_of_date (c_year d) (c_month d) (c_day d) (c_hour d) (c_min d) (c_sec d) = Ok x /\
            lt_d x = d /\ lt_t x = t /\ time_of_stamp (lt_t x) = Ok x.
Proof. exact round_trip. Qed.
Print Assumptions C27_date_to_stamp.

Example C27_date_case : valid_date (mkCal 2004 2 29 12 30 15 0) /\ instant (mkCal 2004 2 29 12 30 15 0) 1078057815000000000.
Proof.
  destruct (stamp_ok 1078057815000000000 ltac:(lia)) as (d & E & V & I).
  assert (X : time_of_stamp 1078057815000000000 = Ok (mkTime 1078057815000000000 (mkCal 2004 2 29 12 30 15 0))) by (vm_compute; reflexivity).
  rewrite E in X. injection X as ->. split; assumption.
Qed.

(** C27: whatever is added, stamp and date belong together; an overflow of the sum is undefined behaviour *)
Theorem C27_any_object : forall c l x,
  match c with FromDate _ _ _ _ _ _ => False | FromStamp t => - 2 ^ 63 <= t < 2 ^ 63 | FromUnix u => - 2 ^ 31 <= u < 2 ^ 31 end ->
  (do x0 <- make_time c; add_all x0 l) = Ok x -> 0 <= lt_t x < 2 ^ 63 /\ valid_date (lt_d x) /\ instant (lt_d x) (lt_t x).
Proof. exact made_ok. Qed.
Print Assumptions C27_any_object.

Example C27_any_object_case : exists x, (do x0 <- make_time (FromUnix 86399); add_all x0 [10 ^ 9; - 1]) = Ok x /\
  lt_t x = 86399999999999 /\ lt_d x = mkCal 1970 1 1 23 59 59 999999999.
Proof. eexists. split; [vm_compute; reflexivity|]. vm_compute. auto. Qed.

(** C27: unix times *)
Theorem C27_unix : forall u, 0 <= u < 2 ^ 31 -> exists x, time_of_unix u = Ok x /\ lt_t x = u * 10 ^ 9 /\ unix_time x = u /\
  (0 <= lt_t x < 2 ^ 63 /\ valid_date (lt_d x) /\ instant (lt_d x) (lt_t x)).
Proof. exact unix_ok. Qed.
Print Assumptions C27_unix.

(** C27: the printed date tells the stamp *)
Theorem C27_date_string : forall x y,
  (0 <= lt_t x < 2 ^ 63 /\ valid_date (lt_d x) /\ instant (lt_d x) (lt_t x)) ->
  (0 <= lt_t y < 2 ^ 63 /\ valid_date (lt_d y) /\ instant (lt_d y) (lt_t y)) -> date_string x = date_string y -> x = y.
Proof. exact date_string_inj. Qed.
Print Assumptions C27_date_string.

Example C27_date_string_case : date_string (mkTime 1108032869123456789 (mkCal 2005 2 10 10 54 29 123456789)) = str "10.02.2005  10:54:29.123456789".
Proof. vm_compute. reflexivity. Qed.

(** C27: 2^32 seconds after the start of 1970 the stamp of a date starts again with 0 *)
Theorem C27_overflow_refuted : exists d x, valid_date d /\ instant d (2 ^ 32 * 10 ^ 9) /\
  time_of_date (c_year d) (c_month d) (c_day d) (c_hour d) (c_min d) (c_sec d) = Ok x /\ lt_d x = d /\ lt_t x = 0.
Proof.
  exists (mkCal 2106 2 7 6 28 16 0), (mkTime 0 (mkCal 2106 2 7 6 28 16 0)).
  destruct (stamp_ok (2 ^ 32 * 10 ^ 9) ltac:(lia)) as (d & E & V & I).
  assert (X : time_of_stamp (2 ^ 32 * 10 ^ 9) = Ok (mkTime (2 ^ 32 * 10 ^ 9) (mkCal 2106 2 7 6 28 16 0))) by (vm_compute; reflexivity).
  rewrite E in X. injection X as ->. split; [exact V|]. split; [exact I|]. vm_compute. auto.
Qed.
Print Assumptions C27_overflow_refuted.

(** C27: dates that do not exist are accepted: day 0, month 0, hour 25 *)
Theorem C27_invalid_date_refuted : exists x y z,
  time_of_date 2005 1 0 0 0 0 = Ok x /\ c_day (lt_d x) = 0 /\ time_of_date 2005 0 0 0 0 0 = Ok y /\ c_month (lt_d y) = 0 /\
  time_of_date 2005 1 1 25 0 0 = Ok z /\ c_hour (lt_d z) = 25.
Proof. eexists. eexists. eexists. split; [vm_compute; reflexivity|]. split; [reflexivity|]. split; [vm_compute; reflexivity|]. split; [reflexivity|]. split; [vm_compute; reflexivity|]. reflexivity. Qed.
Print Assumptions C27_invalid_date_refuted.

(** C27: the unix time of stamps from 2^31 seconds on (2038) is wrong *)
Theorem C27_unix_refuted : exists x, time_of_stamp (2 ^ 31 * 10 ^ 9) = Ok x /\ unix_time x = - 2 ^ 31.
Proof. eexists. split; [vm_compute; reflexivity|]. vm_compute. reflexivity. Qed.
Print Assumptions C27_unix_refuted.

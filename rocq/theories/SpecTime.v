(** Specification of the texts of times (RFC 3339, in UTC) and of bytes (RFC 4648, base64). *)
From Coq Require Import NArith ZArith String List Bool.
From Verif Require Import GoBase SpecJson.
Import ListNotations.

(** ** The Gregorian calendar *)
Open Scope Z_scope.
Definition leap_year (y : nat) : bool :=
  ((y mod 4 =? 0) && (negb (y mod 100 =? 0) || (y mod 400 =? 0)))%nat.
Definition month_length (y m : nat) : Z :=
  match m with
  | 2%nat => if leap_year y then 29 else 28
  | 4%nat | 6%nat | 9%nat | 11%nat => 30
  | _ => 31
  end.
(** Days from January 1 of the year 0 to January 1 of [y], and from there to the first of [m]. *)
Fixpoint year_start (y : nat) : Z :=
  match y with O => 0 | S y' => year_start y' + (if leap_year y' then 366 else 365) end.
Fixpoint month_start (y m : nat) : Z :=
  match m with
  | O | S O => 0
  | S m' => month_start y m' + month_length y m'
  end.
(** The number of a day, counted from January 1, 1970. *)
Definition day_number (y m : nat) (d : Z) : Z := year_start y + month_start y m + (d - 1) - year_start 1970.

(** ** Times, in nanoseconds since 1970 *)
(** [k] decimal digits. *)
Definition digits_of (k : nat) (t : bytes) (n : Z) : Prop :=
  length t = k /\ Forall is_digit t /\ Z.of_N (value10 t) = n.
(** A fraction of a second, at most nine digits. *)
Definition fraction (t : bytes) (ns : Z) : Prop :=
  (t = [] /\ ns = 0) \/
  (exists u, t = (46%N :: u)%list /\ digits u /\ (length u <= 9)%nat /\ ns = Z.of_N (value10 u) * 10 ^ Z.of_nat (9 - length u)).
Definition time_of (t : bytes) (ns : Z) : Prop :=
  exists y m d hh mm ss fr ty tm td th ti ts tf,
    t = (ty ++ [45%N] ++ tm ++ [45%N] ++ td ++ [84%N] ++ th ++ [58%N] ++ ti ++ [58%N] ++ ts ++ tf ++ [90%N])%list /\
    digits_of 4 ty (Z.of_nat y) /\ digits_of 2 tm (Z.of_nat m) /\ digits_of 2 td d /\
    digits_of 2 th hh /\ digits_of 2 ti mm /\ digits_of 2 ts ss /\ fraction tf fr /\
    (1 <= m <= 12)%nat /\ 1 <= d <= month_length y m /\ 0 <= hh < 24 /\ 0 <= mm < 60 /\ 0 <= ss < 60 /\ 0 <= fr < 1000000000 /\
    ns = (((day_number y m d * 24 + hh) * 60 + mm) * 60 + ss) * 1000000000 + fr.
(** The times that have such a text: the years 0 to 9999. *)
Definition four_digit_year (ns : Z) : Prop :=
  day_number 0 1 1 * 86400 * 1000000000 <= ns < day_number (100 * 100) 1 1 * 86400 * 1000000000.

(** ** base64 *)
Open Scope N_scope.
Definition b64_digit (c v : N) : Prop :=
  (65 <= c <= 90 /\ v = c - 65) \/ (97 <= c <= 122 /\ v = c - 71) \/ (48 <= c <= 57 /\ v = c + 4) \/
  (c = 43 /\ v = 62) \/ (c = 47 /\ v = 63).
Inductive base64_of : bytes -> bytes -> Prop :=
| b64_nil : base64_of [] []
| b64_three c1 c2 c3 c4 v1 v2 v3 v4 x y z t b :
    b64_digit c1 v1 -> b64_digit c2 v2 -> b64_digit c3 v3 -> b64_digit c4 v4 -> x < 256 -> y < 256 -> z < 256 ->
    65536 * x + 256 * y + z = 262144 * v1 + 4096 * v2 + 64 * v3 + v4 -> base64_of t b ->
    base64_of (c1 :: c2 :: c3 :: c4 :: t) (x :: y :: z :: b)
| b64_two c1 c2 c3 v1 v2 v3 x y :
    b64_digit c1 v1 -> b64_digit c2 v2 -> b64_digit c3 v3 -> x < 256 -> y < 256 ->
    4 * (256 * x + y) = 4096 * v1 + 64 * v2 + v3 -> base64_of [c1; c2; c3; 61] [x; y]
| b64_one c1 c2 v1 v2 x :
    b64_digit c1 v1 -> b64_digit c2 v2 -> x < 256 -> 16 * x = 64 * v1 + v2 -> base64_of [c1; c2; 61; 61] [x].

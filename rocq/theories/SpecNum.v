(** Specification of the texts of numbers: what a decimal text stands for, and the float a reader
    gets from it by rounding to the nearest float, ties to even (IEEE 754). *)
From Coq Require Import NArith ZArith Reals List.
From Flocq Require Import Core BinarySingleNaN.
From Verif Require Import GoBase GoFloat.
Import ListNotations.
Open Scope N_scope.

Definition is_digit (c : N) : Prop := 48 <= c <= 57.

(** Decimal digits without superfluous zeros, and their value. *)
Definition value10 (t : bytes) : N := fold_left (fun a c => 10 * a + (c - 48)) t 0.
Definition nat_text (t : bytes) (n : N) : Prop :=
  t <> [] /\ Forall is_digit t /\ (hd 0 t = 48 -> t = [48]) /\ value10 t = n.
Definition int_text (t : bytes) (z : Z) : Prop :=
  (exists n, nat_text t n /\ z = Z.of_N n) \/ (exists u n, t = 45 :: u /\ nat_text u n /\ z = (- Z.of_N n)%Z).

(** A number: integer, then optionally fraction and exponent. *)
Definition digits (t : bytes) : Prop := t <> [] /\ Forall is_digit t.
Definition frac_text (t : bytes) : Prop := t = [] \/ exists u, t = 46 :: u /\ digits u.
Definition exp_text (t : bytes) : Prop :=
  t = [] \/ exists e s u, t = [e] ++ s ++ u /\ (e = 101 \/ e = 69) /\ (s = [] \/ s = [43] \/ s = [45]) /\ digits u.
Definition number (t : bytes) : Prop := exists s i f e,
  t = s ++ i ++ f ++ e /\ (s = [] \/ s = [45]) /\ (exists n, nat_text i n) /\ frac_text f /\ exp_text e.

(** What it stands for: sign, digits and power of ten. *)
Definition frac_of (t u : bytes) : Prop := (t = [] /\ u = []) \/ (t = 46 :: u /\ digits u).
Definition exp_of (t : bytes) (z : Z) : Prop :=
  (t = [] /\ z = 0%Z) \/
  exists e s u, t = [e] ++ s ++ u /\ (e = 101 \/ e = 69) /\ digits u /\
    (((s = [] \/ s = [43]) /\ z = Z.of_N (value10 u)) \/ (s = [45] /\ z = (- Z.of_N (value10 u))%Z)).
Definition decimal_of (t : bytes) (neg : bool) (d : N) (q : Z) : Prop := exists i f e u z,
  t = (if neg then [45] else []) ++ i ++ f ++ e /\ (exists n, nat_text i n) /\ frac_of f u /\ exp_of e z /\
  d = value10 (i ++ u) /\ q = (z - Z.of_nat (length u))%Z.

(** d * 10^q *)
Definition dec_value (d : N) (q : Z) : R := (IZR (Z.of_N d) * powerRZ 10 q)%R.
Definition signed (neg : bool) (r : R) : R := if neg then (- r)%R else r.

(** Rounding to the nearest float with [p] bits and smallest exponent [emin], ties to even. *)
Definition nearest (p emin : Z) (r : R) : R := round radix2 (FLT_exp emin p) ZnearestE r.

(** The float64 a reader gets from a text. *)
Definition reads64 (t : bytes) (x : f64) : Prop := exists neg d q, decimal_of t neg d q /\
  is_finite x = true /\ Bsign x = neg /\ B2R x = nearest 53 (-1074) (signed neg (dec_value d q)).

(** The float32 with given bits: sign, exponent and mantissa (IEEE 754 binary32); finite unless the
    exponent is 255. *)
Definition finite32 (n : N) : Prop := n / 8388608 mod 256 <> 255.
Definition real32 (n : N) : R :=
  let m := n mod 8388608 in
  let x := n / 8388608 mod 256 in
  signed (n / 2147483648 =? 1)
    (if x =? 0 then (IZR (Z.of_N m) * powerRZ 2 (-149))%R
     else (IZR (Z.of_N (8388608 + m)) * powerRZ 2 (Z.of_N x - 150))%R).
Definition reads32 (t : bytes) (n : N) : Prop := exists neg d q, decimal_of t neg d q /\
  n < 4294967296 /\ finite32 n /\ (n / 2147483648 =? 1) = neg /\ real32 n = nearest 24 (-149) (signed neg (dec_value d q)).

(** The forms of the texts of floats.  Plain notation: whole part, then a fraction without trailing
    zeros, if any.  With an exponent: one digit other than 0 before the point; the exponent is
    signed, a positive one has at least two digits, a negative one no superfluous zeros. *)
Definition trimmed (t : bytes) : Prop :=
  t = [] \/ exists u c, t = 46 :: u ++ [c] /\ Forall is_digit u /\ is_digit c /\ c <> 48.
Definition plain_form (t : bytes) : Prop := exists s i n f,
  t = s ++ i ++ f /\ (s = [] \/ s = [45]) /\ nat_text i n /\ trimmed f.
Definition exp_form (t : bytes) : Prop := exists s c f g w,
  t = s ++ [c] ++ f ++ [101] ++ g ++ w /\ (s = [] \/ s = [45]) /\ is_digit c /\ c <> 48 /\ trimmed f /\
  ((g = [45] /\ exists n, nat_text w n) \/
   (g = [43] /\ ((exists n, 10 <= n /\ nat_text w n) \/ exists d, w = [48; d] /\ is_digit d))).

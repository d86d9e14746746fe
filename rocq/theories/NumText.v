(** Model of the texts of numbers: strconv.AppendUint, AppendInt, and AppendFloat as encoding/json
    calls it (floatEncoder.encode): the shortest decimal that a reader rounds back to the float, in
    plain notation from 1e-6 up to 1e21 and with an exponent outside.  Definitions only.

    strconv.AppendFloat(b, x, fmt, -1, bits) is modelled by what it is documented to compute; the
    search for the digits follows strconv's roundShortest with exact integers. *)
From Coq Require Import NArith ZArith List Bool.
From Flocq Require Import BinarySingleNaN.
From Verif Require Import GoBase GoFloat.
Import ListNotations.
Open Scope N_scope.

(** Decimal digits, strconv.AppendUint and AppendInt. *)
Fixpoint dec_k (k : nat) (n : N) : bytes :=
  match k with
  | O => []
  | S k' => if n <? 10 then [48 + n] else dec_k k' (n / 10) ++ [48 + n mod 10]
  end.
Definition dec (n : N) : bytes := dec_k (S (N.size_nat n)) n.
Definition dec_Z (z : Z) : bytes := if (z <? 0)%Z then 45 :: dec (Z.to_N (- z)) else dec (Z.to_N z).

(** ** The shortest decimal *)
Section Shortest.
(** The number and the ends of the interval of numbers that a reader rounds to it, which belong to
    the interval if the mantissa is even. *)
Variables (x lo up : N) (incl : bool).

(** Rounding down or up to a multiple of 10^i, if that stays in the interval; the nearest of both. *)
Definition pick (i : nat) : option N :=
  let t := 10 ^ N.of_nat i in
  let k := x / t in
  let okdown := (lo <? k * t) || incl && (lo =? k * t) in
  let okup := (k * t + t <? up) || incl && (k * t + t =? up) in
  match okdown, okup with
  | true, true =>
      let r := 2 * (x mod t) in
      Some (if (r <? t) || (r =? t) && N.even k then k else k + 1)
  | true, false => Some k
  | false, true => Some (k + 1)
  | false, false => None
  end.

(** As few digits as possible: the largest such power of ten. *)
Fixpoint pick_first (i : nat) : N * nat :=
  match pick i with
  | Some k => (k, i)
  | None => match i with O => (x, O) | S j => pick_first j end
  end.
End Shortest.

(** Digits [k] and exponent [q] such that k * 10^q is the text of m * 2^e, for floats with [p] bits
    of mantissa and smallest exponent [emin].  The interval reaches halfway to the neighbours; the
    lower neighbour of a power of two is twice as near.  Everything is multiplied by 10^sc. *)
Definition shortest (p emin : Z) (m : N) (e : Z) : N * Z :=
  let sc := Z.to_N (Z.max 0 (2 - e)) in
  let f := 2 ^ Z.to_N (Z.max 0 (e - 2)) * 5 ^ sc in
  let lo := if (m =? 2 ^ Z.to_N (p - 1)) && (emin <? e)%Z then 4 * m - 1 else 4 * m - 2 in
  let up := (4 * m + 2) * f in
  let (k, i) := pick_first (4 * m * f) (lo * f) up (N.even m) (length (dec up)) in
  (k, (Z.of_nat i - Z.of_N sc)%Z).

(** ** Notation *)
Definition zeros (n : Z) : bytes := repeat 48 (Z.to_nat n).

(** fmtF: digits [ds] with the decimal point after the first [dp]. *)
Definition fmtF (ds : bytes) (dp : Z) : bytes :=
  let nd := Z.of_nat (length ds) in
  if (dp <=? 0)%Z then [48; 46] ++ zeros (- dp) ++ ds
  else if (nd <=? dp)%Z then ds ++ zeros (dp - nd)
  else firstn (Z.to_nat dp) ds ++ [46] ++ skipn (Z.to_nat dp) ds.

(** fmtE, with the exponent as encoding/json leaves it ("clean up e-09 to e-9"). *)
Definition fmtE (ds : bytes) (dp : Z) : bytes :=
  let x := (dp - 1)%Z in
  let a := Z.to_N (Z.abs x) in
  firstn 1 ds ++ (match skipn 1 ds with [] => [] | r => 46 :: r end) ++ [101] ++
  (if (x <? 0)%Z then 45 :: dec a else 43 :: (if a <? 10 then [48] else []) ++ dec a).

(** m * 2^e < n * 2^f *)
Definition bin_lt (m : N) (e : Z) (n : N) (f : Z) : bool :=
  let g := Z.min e f in m * 2 ^ Z.to_N (e - g) <? n * 2 ^ Z.to_N (f - g).

(** floatEncoder.encode for a finite float; [small] and [large] are the constants 1e-6 and 1e21 as
    floats. *)
Definition float_text (p emin : Z) (small large : N * Z) (neg : bool) (m : N) (e : Z) : bytes :=
  (if neg then [45] else []) ++
  (if m =? 0 then [48]
   else
     let (k, q) := shortest p emin m e in
     let ds := dec k in
     let dp := (Z.of_nat (length ds) + q)%Z in
     if bin_lt m e (fst small) (snd small) || negb (bin_lt m e (fst large) (snd large)) then fmtE ds dp else fmtF ds dp).

(** bits = 64 *)
Definition text64 (x : f64) : bytes :=
  let t := float_text 53 (-1074) (4722366482869645, (-72)%Z) (7629394531250000, 17%Z) in
  match x with
  | B754_finite s m e _ => t s (Npos m) e
  | B754_zero s => t s 0 (-1074)%Z
  | _ => []
  end.

(** bits = 32, for the float32 with the given bits *)
Definition text32 (n : N) : bytes :=
  let x := N.shiftr n 23 mod 256 in
  let m := n mod 8388608 in
  let (m, e) := if x =? 0 then (m, (-149)%Z) else (m + 8388608, (Z.of_N x - 150)%Z) in
  float_text 24 (-149) (8796093, (-43)%Z) (14210855, 46%Z) (N.testbit n 31) m e.

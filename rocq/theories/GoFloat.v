(** float64 and time.Time arithmetic used by the position subrecord.
    Definitions only.  float64 is Flocq's IEEE-754 binary64 (one NaN; Go's NaN payloads
    are not observable here), rounding to nearest even. *)
From Coq Require Import NArith ZArith Lia.
From Flocq Require Import Core BinarySingleNaN.
From Verif Require Import GoBase.
Open Scope Z_scope.

Definition prec := 53.
Definition emax := 1024.

Definition f64 := binary_float prec emax.

Lemma Hprec : Prec_gt_0 prec. Proof. reflexivity. Qed.
Lemma Hmax : Prec_lt_emax prec emax. Proof. reflexivity. Qed.

(** Conversion of an integer to float64, [float64(n)]. *)
Definition f64_of_Z (z : Z) : f64 := @binary_normalize prec emax Hprec Hmax mode_NE z 0 false.
Definition f64_mul : f64 -> f64 -> f64 := @Bmult prec emax Hprec Hmax mode_NE.
Definition f64_div : f64 -> f64 -> f64 := @Bdiv prec emax Hprec Hmax mode_NE.
Definition f64_add : f64 -> f64 -> f64 := @Bplus prec emax Hprec Hmax mode_NE.
Definition f64_zero : f64 := B754_zero false.

(** 0xFFFFFFFF *)
Definition max32 : Z := 4294967295.

(** time.Time is the number of nanoseconds since 1970-01-01T00:00:00Z; locations and
    monotonic clock readings are not modelled. *)
Definition time := Z.

Definition ns_per_s : Z := 1000000000.

(** time.Date(2010, time.January, 1, 0, 0, 0, 0, time.UTC)
    (service_data_records.go:12, egts_sr_pos_data.go:46 and :142) *)
Definition t2010 : time := 1262304000 * ns_per_s.

(** The zero time.Time, January 1, year 1, 00:00:00 UTC. *)
Definition t_zero : time := -62135596800 * ns_per_s.

Definition min_dur : Z := -9223372036854775808.
Definition max_dur : Z := 9223372036854775807.

(** Two's complement wrap-around of int64 arithmetic. *)
Definition wrap64 (z : Z) : Z := (z + 9223372036854775808) mod 18446744073709551616 - 9223372036854775808.

(** [t.Add(time.Duration(n) * time.Second)]; the product wraps in int64. *)
Definition t_add_seconds (t : time) (n : Z) : time := t + wrap64 (n * ns_per_s).

(** [t.Unix()] *)
Definition t_unix (t : time) : Z := t / ns_per_s.

(** [t.Sub(u)]: saturating difference. *)
Definition t_sub (t u : time) : Z := Z.max min_dur (Z.min max_dur (t - u)).

(** [Duration.Seconds()]: float64(d / Second) + float64(d % Second)/1e9, Go's division
    truncating towards zero. *)
Definition dur_seconds (d : Z) : f64 :=
  f64_add (f64_of_Z (Z.quot d ns_per_s)) (f64_div (f64_of_Z (Z.rem d ns_per_s)) (f64_of_Z 1000000000)).

(** [uint32(x)] of an int64: low 32 bits. *)
Definition u32_of_Z (z : Z) : N := Z.to_N (z mod 4294967296).

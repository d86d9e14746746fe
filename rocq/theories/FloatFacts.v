(** float64 facts: exactness of small integers, error bounds of the coordinate conversions. *)
From Coq Require Import NArith ZArith Lia Reals Lra Psatz.
From Flocq Require Import Core BinarySingleNaN Relative.
From Verif Require Import GoBase GoFloat SubRecords.
Open Scope R_scope.

Notation fexp64 := (FLT_exp (-1074) 53).
Notation rnd := (round radix2 fexp64 ZnearestE).
Notation fmt64 := (generic_format radix2 fexp64).

#[export] Instance fexp64_valid : Valid_exp fexp64.
Proof. apply FLT_exp_valid. reflexivity. Qed.

Lemma fmt_IZR z : (Z.abs z < 2 ^ 53)%Z -> fmt64 (IZR z).
Proof.
  intros H. apply generic_format_FLT.
  apply (FLT_spec radix2 (-1074) 53 (IZR z) (Float radix2 z 0)).
  - unfold F2R. cbn. lra.
  - exact H.
  - cbn. lia.
Qed.

Lemma rnd_IZR z : (Z.abs z < 2 ^ 53)%Z -> rnd (IZR z) = IZR z.
Proof. intros H. apply round_generic; [apply valid_rnd_N|]. apply fmt_IZR; assumption. Qed.

Lemma rnd_le x y : x <= y -> rnd x <= rnd y.
Proof. apply round_le; [apply fexp64_valid|apply valid_rnd_N]. Qed.

Lemma rnd_bound v z : (Z.abs z < 2 ^ 53)%Z -> Rabs v <= IZR z -> Rabs (rnd v) <= IZR z.
Proof.
  intros Hz H. apply abs_round_le_generic; auto using fexp64_valid.
  - apply valid_rnd_N.
  - apply fmt_IZR. assumption.
Qed.

Lemma rnd_ub v z : (Z.abs z < 2 ^ 53)%Z -> v <= IZR z -> rnd v <= IZR z.
Proof. intros Hz H. rewrite <- (rnd_IZR z) by assumption. apply rnd_le. assumption. Qed.

Lemma rnd_lb v z : (Z.abs z < 2 ^ 53)%Z -> IZR z <= v -> IZR z <= rnd v.
Proof. intros Hz H. rewrite <- (rnd_IZR z) by assumption. apply rnd_le. assumption. Qed.

(** Bound used to rule out overflow. *)
Definition big : Z := 1125899906842624. (* 2^50 *)

Lemma big_lt : (Z.abs big < 2 ^ 53)%Z. Proof. reflexivity. Qed.
Lemma big_emax : IZR big < bpow radix2 1024.
Proof.
  change (IZR big) with (bpow radix2 50). apply bpow_lt. lia.
Qed.

Lemma no_ovf v : Rabs v <= IZR big -> Rlt_bool (Rabs (rnd v)) (bpow radix2 emax) = true.
Proof.
  intros H. apply Rlt_bool_true. apply Rle_lt_trans with (IZR big); [|apply big_emax].
  apply rnd_bound; [apply big_lt|assumption].
Qed.

Lemma of_Z z : (Z.abs z <= big)%Z -> B2R (f64_of_Z z) = IZR z /\ is_finite (f64_of_Z z) = true.
Proof.
  intros H. unfold f64_of_Z.
  pose proof (binary_normalize_correct prec emax Hprec Hmax mode_NE z 0 false) as C.
  cbv zeta in C. unfold F2R in C. cbn [Fnum Fexp bpow round_mode] in C. rewrite Rmult_1_r in C.
  change (SpecFloat.fexp prec emax) with fexp64 in C.
  assert (Z.abs z < 2 ^ 53)%Z by (unfold big in H; lia).
  rewrite no_ovf in C by (rewrite <- abs_IZR; apply IZR_le; assumption).
  rewrite rnd_IZR in C by assumption. tauto.
Qed.

Lemma mul_R x y : is_finite x = true -> is_finite y = true -> Rabs (B2R x * B2R y) <= IZR big ->
  B2R (f64_mul x y) = rnd (B2R x * B2R y) /\ is_finite (f64_mul x y) = true.
Proof.
  intros Hx Hy H. unfold f64_mul.
  pose proof (Bmult_correct prec emax Hprec Hmax mode_NE x y) as C.
  change (SpecFloat.fexp prec emax) with fexp64 in C. cbn [round_mode] in C.
  rewrite no_ovf in C by assumption. rewrite Hx, Hy in C. tauto.
Qed.

Lemma div_R x y : is_finite x = true -> B2R y <> 0 -> Rabs (B2R x / B2R y) <= IZR big ->
  B2R (f64_div x y) = rnd (B2R x / B2R y) /\ is_finite (f64_div x y) = true.
Proof.
  intros Hx Hy H. unfold f64_div.
  pose proof (Bdiv_correct prec emax Hprec Hmax mode_NE x y Hy) as C.
  change (SpecFloat.fexp prec emax) with fexp64 in C. cbn [round_mode] in C.
  rewrite no_ovf in C by assumption. rewrite Hx in C. tauto.
Qed.

Lemma add_R x y : is_finite x = true -> is_finite y = true -> Rabs (B2R x + B2R y) <= IZR big ->
  B2R (f64_add x y) = rnd (B2R x + B2R y) /\ is_finite (f64_add x y) = true.
Proof.
  intros Hx Hy H. unfold f64_add.
  pose proof (Bplus_correct prec emax Hprec Hmax mode_NE x y Hx Hy) as C.
  change (SpecFloat.fexp prec emax) with fexp64 in C. cbn [round_mode] in C.
  rewrite no_ovf in C by assumption. tauto.
Qed.

Lemma trunc_R (x : f64) : Btrunc x = Ztrunc (B2R x).
Proof.
  apply eq_IZR. rewrite (Btrunc_correct prec emax Hmax x).
  unfold round, scaled_mantissa, cexp, FIX_exp, F2R. cbn [Fnum Fexp bpow Z.opp].
  rewrite !Rmult_1_r. reflexivity.
Qed.

Lemma rnd_err v : Rabs (rnd v - v) <= / IZR (2 ^ 53) * Rabs v + / IZR (2 ^ 60).
Proof.
  destruct (relative_error_N_FLT'_ex radix2 (-1074) 53 eq_refl (fun x => negb (Z.even x)) v)
    as (eps & eta & He & Ht & _ & Hr).
  fold ZnearestE in Hr. rewrite Hr.
  replace (v * (1 + eps) + eta - v) with (v * eps + eta) by ring.
  eapply Rle_trans; [apply Rabs_triang|]. apply Rplus_le_compat.
  - rewrite Rabs_mult, Rmult_comm. apply Rmult_le_compat_r; [apply Rabs_pos|].
    eapply Rle_trans; [exact He|]. unfold u_ro. cbn. lra.
  - eapply Rle_trans; [exact Ht|].
    apply Rle_trans with (bpow radix2 (-60)); [|cbn; lra].
    change (/ 2) with (bpow radix2 (-1)). rewrite <- bpow_plus. apply bpow_le. lia.
Qed.

(** ** Coordinates *)

Lemma max32_R : B2R (f64_of_Z max32) = 4294967295 /\ is_finite (f64_of_Z max32) = true.
Proof. apply of_Z. unfold max32, big. lia. Qed.

Section Coord.
Variable S : Z.
Hypothesis HS : (1 <= S <= 256)%Z.

Lemma HSR : 1 <= IZR S <= 256.
Proof. split; apply IZR_le; lia. Qed.

Lemma scale_R : B2R (f64_of_Z S) = IZR S /\ is_finite (f64_of_Z S) = true.
Proof. apply of_Z. unfold big. lia. Qed.

(** Decoding rounds the exact quotient once. *)
Lemma decode_R raw : (raw < 4294967296)%N ->
  B2R (coord_decode S raw) = rnd (IZR (Z.of_N raw * S) / 4294967295)
  /\ is_finite (coord_decode S raw) = true.
Proof.
  pose proof HSR as HSR.
  intros H. unfold coord_decode.
  assert (0 <= Z.of_N raw * S <= 4294967295 * 256)%Z as HrS by nia.
  destruct (of_Z (Z.of_N raw)) as [Ra Fa]; [unfold big; lia|].
  destruct scale_R as [Rb Fb]. destruct max32_R as [Rm Fm].
  destruct (mul_R (f64_of_Z (Z.of_N raw)) (f64_of_Z S)) as [Rp Fp]; auto.
  { rewrite Ra, Rb, <- mult_IZR, <- abs_IZR. apply IZR_le. unfold big. lia. }
  rewrite Ra, Rb, <- mult_IZR in Rp. rewrite rnd_IZR in Rp by lia.
  destruct (div_R (f64_mul (f64_of_Z (Z.of_N raw)) (f64_of_Z S)) (f64_of_Z max32)) as [Rq Fq]; auto.
  { rewrite Rm. lra. }
  { rewrite Rp, Rm. pose proof (IZR_le _ _ (proj1 HrS)) as H0. pose proof (IZR_le _ _ (proj2 HrS)) as H1. change (4294967295 * 256)%Z with 1099511627520%Z in H1.
    rewrite Rabs_pos_eq by (apply Rmult_le_pos; lra).
    apply Rle_trans with (IZR (Z.of_N raw * S)); [|unfold big; lra].
    apply Rmult_le_reg_r with 4294967295; [lra|]. unfold Rdiv. rewrite Rmult_assoc, Rinv_l by lra. nra. }
  rewrite Rp, Rm in Rq. auto.
Qed.

Lemma raw_bounds raw : (raw < 4294967296)%N -> 0 <= IZR (Z.of_N raw) <= 4294967295.
Proof. intros H. split; [apply (IZR_le 0)|apply IZR_le]; lia. Qed.

Lemma decode_range raw : (raw < 4294967296)%N -> 0 <= B2R (coord_decode S raw) <= IZR S.
Proof.
  pose proof HSR as HSR.
  intros H. destruct (decode_R raw H) as [-> _]. pose proof (raw_bounds raw H) as Hr.
  rewrite mult_IZR. split.
  - apply (rnd_lb _ 0); [compute; reflexivity|]. apply Rmult_le_pos; [nra|lra].
  - apply rnd_ub; [lia|].
    apply Rmult_le_reg_r with 4294967295; [lra|]. unfold Rdiv. rewrite Rmult_assoc, Rinv_l by lra. nra.
Qed.

Context {E : Env}.

(** Encoding: two roundings, then truncation. *)
Lemma encode_R (x : f64) : is_finite x = true -> 0 <= B2R x <= IZR S ->
  let y := rnd (rnd (B2R x / IZR S) * 4294967295) in
  0 <= y <= 4294967295 /\ coord_encode S x = Z.to_N (Ztrunc y).
Proof.
  pose proof HSR as HSR.
  intros Fx Hx y. destruct scale_R as [Rb Fb]. destruct max32_R as [Rm Fm].
  assert (0 <= B2R x / IZR S <= 1) as Hd.
  { split; [apply Rmult_le_pos; [lra|apply Rlt_le, Rinv_0_lt_compat; lra]|].
    apply Rmult_le_reg_r with (IZR S); [lra|]. unfold Rdiv. rewrite Rmult_assoc, Rinv_l by lra. lra. }
  assert (0 <= rnd (B2R x / IZR S) <= 1) as Hq.
  { split.
    - apply (rnd_lb _ 0); [compute; reflexivity|]. lra.
    - apply (rnd_ub _ 1); [compute; reflexivity|]. lra. }
  destruct (div_R x (f64_of_Z S)) as [Rq Fq]; auto.
  { rewrite Rb. lra. }
  { rewrite Rb, Rabs_pos_eq by lra. unfold big. lra. }
  rewrite Rb in Rq.
  destruct (mul_R (f64_div x (f64_of_Z S)) (f64_of_Z max32)) as [Ry Fy]; auto.
  { rewrite Rq, Rm, Rabs_pos_eq by nra. unfold big. nra. }
  rewrite Rq, Rm in Ry. fold y in Ry.
  assert (0 <= y <= 4294967295) as Hy.
  { unfold y. split.
    - apply (rnd_lb _ 0); [compute; reflexivity|]. nra.
    - apply (rnd_ub _ 4294967295); [compute; reflexivity|]. lra. }
  split; [exact Hy|].
  unfold coord_encode, f64_to_u32. rewrite trunc_R, Fy, Ry.
  assert (0 <= Ztrunc y < 4294967296)%Z as Ht.
  { rewrite Ztrunc_floor by lra. split.
    - apply Zfloor_lub. lra.
    - apply lt_IZR. pose proof (Zfloor_lb y). lra. }
  replace (0 <=? Ztrunc y)%Z with true by (symmetry; apply Z.leb_le; lia).
  replace (Ztrunc y <? 4294967296)%Z with true by (symmetry; apply Z.ltb_lt; lia).
  reflexivity.
Qed.

(** The value before truncation is within 2^-18 of the exact one. *)
Lemma encode_close (x : f64) : 0 <= B2R x <= IZR S ->
  Rabs (rnd (rnd (B2R x / IZR S) * 4294967295) - B2R x / IZR S * 4294967295) <= / 262144.
Proof.
  pose proof HSR as HSR.
  intros Hx.
  assert (0 <= B2R x / IZR S <= 1) as Hd.
  { split; [apply Rmult_le_pos; [lra|apply Rlt_le, Rinv_0_lt_compat; lra]|].
    apply Rmult_le_reg_r with (IZR S); [lra|]. unfold Rdiv. rewrite Rmult_assoc, Rinv_l by lra. lra. }
  set (d := B2R x / IZR S) in *.
  assert (0 <= rnd d <= 1) as Hq.
  { split.
    - apply (rnd_lb _ 0); [compute; reflexivity|]. lra.
    - apply (rnd_ub _ 1); [compute; reflexivity|]. lra. }
  pose proof (rnd_err d) as H1. pose proof (rnd_err (rnd d * 4294967295)) as H2.
  rewrite (Rabs_pos_eq d) in H1 by lra. rewrite (Rabs_pos_eq (rnd d * _)) in H2 by nra.
  change (2 ^ 53)%Z with 9007199254740992%Z in *. change (2 ^ 60)%Z with 1152921504606846976%Z in *.
  apply Rabs_le_inv in H1. apply Rabs_le_inv in H2. apply Rabs_le. lra.
Qed.

Lemma encode_floor (x : f64) : is_finite x = true -> 0 <= B2R x <= IZR S ->
  (coord_encode S x < 4294967296)%N /\
  IZR (Z.of_N (coord_encode S x)) <= B2R x / IZR S * 4294967295 + / 262144 /\
  B2R x / IZR S * 4294967295 - / 262144 < IZR (Z.of_N (coord_encode S x)) + 1.
Proof.
  intros Fx Hx. destruct (encode_R x Fx Hx) as [Hy He]. cbv zeta in *.
  pose proof (encode_close x Hx) as Hc. apply Rabs_le_inv in Hc.
  set (y := rnd (rnd (B2R x / IZR S) * 4294967295)) in *.
  rewrite Ztrunc_floor in He by lra.
  pose proof (Zfloor_lb y) as H1. pose proof (Zfloor_ub y) as H2.
  assert (0 <= Zfloor y)%Z by (apply Zfloor_lub; lra).
  assert (Zfloor y < 4294967296)%Z by (apply lt_IZR; lra).
  rewrite He, Z2N.id by assumption. split; [lia|]. lra.
Qed.

(** Encoding and decoding again cuts off less than one wire unit, but for rounding. *)
Lemma encode_decode_close (x : f64) : is_finite x = true -> 0 <= B2R x <= IZR S ->
  B2R x - (1 + / 131072) * (IZR S / 4294967295) < B2R (coord_decode S (coord_encode S x)) < B2R x + / 131072 * (IZR S / 4294967295).
Proof.
  pose proof HSR as HSR.
  intros Fx Hx. destruct (encode_floor x Fx Hx) as (Hb & H1 & H2).
  set (n := coord_encode S x) in *. destruct (decode_R n Hb) as [-> _].
  pose proof (raw_bounds n Hb) as Hn. rewrite mult_IZR.
  set (r := IZR (Z.of_N n)) in *. set (u := IZR S / 4294967295).
  assert (/ 4294967296 <= u <= 256 / 4294967295) as Hu.
  { unfold u. split; lra. }
  set (v := B2R x / IZR S * 4294967295) in *.
  assert (B2R x = v * u) as Hv by (unfold v, u; field; lra).
  replace (r * IZR S / 4294967295) with (r * u) by (unfold u; field).
  pose proof (rnd_err (r * u)) as H3. rewrite (Rabs_pos_eq (r * u)) in H3 by nra.
  change (2 ^ 53)%Z with 9007199254740992%Z in *. change (2 ^ 60)%Z with 1152921504606846976%Z in *.
  fold u. assert (r * u <= 4294967295 * u) as Hru by nra.
  assert (0 <= r * u) by nra.
  rewrite Hv. apply Rabs_le_inv in H3.
  assert (- (1 + / 262144) * u <= r * u - v * u <= / 262144 * u) by nra.
  lra.
Qed.

(** Decoding and encoding again loses at most one, and gains nothing. *)
Lemma decode_encode_close raw : (raw < 4294967296)%N ->
  coord_encode S (coord_decode S raw) = raw \/ coord_encode S (coord_decode S raw) = (raw - 1)%N.
Proof.
  pose proof HSR as HSR.
  intros Hraw. pose proof (decode_range raw Hraw) as Hx. destruct (decode_R raw Hraw) as [HR HF].
  destruct (encode_floor _ HF Hx) as (Hb & H1 & H2).
  set (n := coord_encode S (coord_decode S raw)) in *.
  pose proof (raw_bounds raw Hraw) as Hr. rewrite mult_IZR in HR. rewrite HR in *.
  pose proof (rnd_err (IZR (Z.of_N raw) * IZR S / 4294967295)) as H3.
  set (r := IZR (Z.of_N raw)) in *. set (u := IZR S / 4294967295).
  assert (/ 4294967296 <= u <= 256 / 4294967295) as Hu.
  { unfold u. split; lra. }
  replace (r * IZR S / 4294967295) with (r * u) in * by (unfold u; field).
  rewrite (Rabs_pos_eq (r * u)) in H3 by nra.
  set (d := rnd (r * u)) in *.
  change (2 ^ 53)%Z with 9007199254740992%Z in *. change (2 ^ 60)%Z with 1152921504606846976%Z in *.
  replace (d / IZR S * 4294967295) with (d / u) in * by (unfold u; field; lra).
  assert (Rabs (d / u - r) <= / 1048576) as H4.
  { replace (d / u - r) with ((d - r * u) / u) by (field; lra).
    unfold Rdiv. rewrite Rabs_mult, (Rabs_pos_eq (/ u)) by (apply Rlt_le, Rinv_0_lt_compat; lra).
    apply Rmult_le_reg_r with u; [lra|]. rewrite Rmult_assoc, Rinv_l, Rmult_1_r by lra.
    eapply Rle_trans; [exact H3|]. nra. }
  apply Rabs_le_inv in H4.
  assert (Z.of_N n < Z.of_N raw + 1)%Z by (apply lt_IZR; rewrite plus_IZR; fold r; lra).
  assert (Z.of_N raw - 2 < Z.of_N n)%Z by (apply lt_IZR; rewrite minus_IZR; fold r; lra).
  lia.
Qed.

(** Different raw values decode to different coordinates, in order. *)
Lemma decode_mono raw1 raw2 : (raw1 < raw2)%N -> (raw2 < 4294967296)%N ->
  B2R (coord_decode S raw1) < B2R (coord_decode S raw2).
Proof.
  pose proof HSR as HSR.
  intros H12 H2. assert (raw1 < 4294967296)%N as H1 by lia.
  destruct (decode_R raw1 H1) as [-> _]. destruct (decode_R raw2 H2) as [-> _].
  pose proof (raw_bounds raw1 H1) as Hr1. pose proof (raw_bounds raw2 H2) as Hr2. rewrite !mult_IZR.
  assert (IZR (Z.of_N raw1) + 1 <= IZR (Z.of_N raw2)) as H12R.
  { rewrite <- (plus_IZR _ 1). apply IZR_le. lia. }
  set (r1 := IZR (Z.of_N raw1)) in *. set (r2 := IZR (Z.of_N raw2)) in *. set (u := IZR S / 4294967295).
  assert (/ 4294967296 <= u <= 256 / 4294967295) as Hu by (unfold u; split; lra).
  replace (r1 * IZR S / 4294967295) with (r1 * u) in * by (unfold u; field).
  replace (r2 * IZR S / 4294967295) with (r2 * u) in * by (unfold u; field).
  pose proof (rnd_err (r1 * u)) as E1. pose proof (rnd_err (r2 * u)) as E2.
  rewrite (Rabs_pos_eq (r1 * u)) in E1 by nra. rewrite (Rabs_pos_eq (r2 * u)) in E2 by nra.
  change (2 ^ 53)%Z with 9007199254740992%Z in *. change (2 ^ 60)%Z with 1152921504606846976%Z in *.
  apply Rabs_le_inv in E1. apply Rabs_le_inv in E2.
  assert (r1 * u + u <= r2 * u) by nra.
  assert (r2 * u <= 4294967295 * u) by nra. assert (0 <= r1 * u) by nra. nra.
Qed.
End Coord.

(** ** Time *)

Lemma secs_R n : (0 <= n <= 4294967295)%Z ->
  B2R (dur_seconds (n * ns_per_s)) = IZR n /\ is_finite (dur_seconds (n * ns_per_s)) = true.
Proof.
  intros H. unfold dur_seconds. rewrite Z.quot_mul, Z.rem_mul by (unfold ns_per_s; lia).
  destruct (of_Z n) as [Rn Fn]; [unfold big; lia|].
  destruct (of_Z 0) as [R0 F0]; [unfold big; lia|].
  destruct (of_Z 1000000000) as [Rk Fk]; [unfold big; lia|].
  destruct (div_R (f64_of_Z 0) (f64_of_Z 1000000000)) as [Rd Fd]; auto.
  { rewrite Rk. lra. }
  { rewrite R0, Rk. unfold Rdiv. rewrite Rmult_0_l, Rabs_R0. unfold big. lra. }
  rewrite R0, Rk in Rd. unfold Rdiv in Rd. rewrite Rmult_0_l, (rnd_IZR 0) in Rd by (compute; reflexivity).
  pose proof (IZR_le _ _ (proj1 H)). pose proof (IZR_le _ _ (proj2 H)).
  destruct (add_R (f64_of_Z n) (f64_div (f64_of_Z 0) (f64_of_Z 1000000000))) as [Ra Fa]; auto.
  { rewrite Rn, Rd, Rplus_0_r, Rabs_pos_eq by lra. unfold big. lra. }
  rewrite Rn, Rd, Rplus_0_r, rnd_IZR in Ra by lia. auto.
Qed.

Lemma to_u32_IZR {E : Env} x n : is_finite x = true -> B2R x = IZR n -> (0 <= n < 4294967296)%Z ->
  f64_to_u32 x = Z.to_N n.
Proof.
  intros F R H. unfold f64_to_u32. rewrite trunc_R, F, R, Ztrunc_IZR.
  replace (0 <=? n)%Z with true by (symmetry; apply Z.leb_le; lia).
  replace (n <? 4294967296)%Z with true by (symmetry; apply Z.ltb_lt; lia).
  reflexivity.
Qed.

Lemma time_decode_eq n : (n < 4294967296)%N ->
  time_decode n = ((1262304000 + Z.of_N n) * 1000000000)%Z.
Proof.
  intros H. unfold time_decode, t_add_seconds, t2010, ns_per_s, wrap64.
  rewrite Z.mod_small by lia. lia.
Qed.

Lemma ntm_encode_eq {E : Env} n : (n < 4294967296)%N ->
  ntm_encode ((1262304000 + Z.of_N n) * 1000000000)%Z = n.
Proof.
  intros H. unfold ntm_encode.
  replace (t_sub ((1262304000 + Z.of_N n) * 1000000000)%Z t2010) with (Z.of_N n * ns_per_s)%Z
    by (unfold t_sub, t2010, ns_per_s, min_dur, max_dur; lia).
  destruct (secs_R (Z.of_N n)) as [HR HF]; [lia|].
  rewrite (to_u32_IZR _ (Z.of_N n)) by (auto; lia). apply N2Z.id.
Qed.

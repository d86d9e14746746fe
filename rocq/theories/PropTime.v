(** Times that are not whole seconds: C96. *)
From Coq Require Import NArith ZArith Lia Reals Lra Psatz List.
From Flocq Require Import Core BinarySingleNaN.
From Verif Require Import GoBase GoFloat SubRecords Records SpecBase ConcreteEnv FloatFacts.
Open Scope R_scope.

(** ** The float64 sum *)
Lemma secs_frac n f : (0 <= n <= 4294967295)%Z -> (0 <= f < 1000000000)%Z ->
  B2R (dur_seconds (n * ns_per_s + f)) = rnd (IZR n + rnd (IZR f / 1000000000))
  /\ is_finite (dur_seconds (n * ns_per_s + f)) = true.
Proof.
  intros H Hf. unfold dur_seconds.
  rewrite Z.quot_div_nonneg, Z.rem_mod_nonneg by (unfold ns_per_s; lia).
  replace ((n * ns_per_s + f) / ns_per_s)%Z with n by (unfold ns_per_s; rewrite Z.div_add_l by lia; rewrite Z.div_small by lia; lia).
  replace ((n * ns_per_s + f) mod ns_per_s)%Z with f
    by (unfold ns_per_s; rewrite Z.add_comm, Z.mod_add by lia; rewrite Z.mod_small by lia; reflexivity).
  destruct (of_Z n) as [Rn Fn]; [unfold big; lia|].
  destruct (of_Z f) as [R0 F0]; [unfold big; lia|].
  destruct (of_Z 1000000000) as [Rk Fk]; [unfold big; lia|].
  assert (0 <= IZR f <= 1000000000) as Bf by (split; apply IZR_le; lia).
  assert (0 <= IZR f / 1000000000 <= 1) as Bq by (split; [apply Rmult_le_pos; lra|apply Rmult_le_reg_r with 1000000000; lra]).
  destruct (div_R (f64_of_Z f) (f64_of_Z 1000000000)) as [Rd Fd]; auto.
  { rewrite Rk. lra. }
  { rewrite R0, Rk, Rabs_pos_eq by apply Bq. unfold big. lra. }
  rewrite R0, Rk in Rd.
  assert (0 <= rnd (IZR f / 1000000000) <= 1) as By.
  { split; [apply (rnd_lb _ 0); [reflexivity|apply Bq]|apply (rnd_ub _ 1); [reflexivity|apply Bq]]. }
  pose proof (IZR_le _ _ (proj1 H)). pose proof (IZR_le _ _ (proj2 H)).
  destruct (add_R (f64_of_Z n) (f64_div (f64_of_Z f) (f64_of_Z 1000000000))) as [Ra Fa]; auto.
  { rewrite Rn, Rd, Rabs_pos_eq by lra. unfold big. lra. }
  rewrite Rn, Rd in Ra. auto.
Qed.

Lemma rnd_nearest x g : fmt64 g -> Rabs (rnd x - x) <= Rabs (g - x).
Proof. intros Hg. apply (round_N_pt radix2 fexp64 (fun x => negb (Z.even x)) x). exact Hg. Qed.

Lemma bpow_prod a b c : (a + b = c)%Z -> bpow radix2 a * bpow radix2 b = bpow radix2 c.
Proof. intros <-. symmetry. apply bpow_plus. Qed.

(** Floats from 2^k on are multiples of 2^(k-52). *)
Lemma fmt_multiple g k : (0 <= k)%Z -> fmt64 g -> bpow radix2 k <= g -> exists m, g = IZR m * bpow radix2 (k - 52).
Proof.
  intros Hk Hg Hb. rewrite Hg. unfold F2R. cbn [Fnum Fexp].
  set (e := cexp radix2 fexp64 g). set (m := Ztrunc (scaled_mantissa radix2 fexp64 g)).
  assert (k - 52 <= e)%Z as He.
  { subst e. unfold cexp, FLT_exp. assert (k + 1 <= mag radix2 g)%Z; [|lia].
    apply mag_ge_bpow. replace (k + 1 - 1)%Z with k by lia. rewrite Rabs_pos_eq; [exact Hb|]. pose proof (bpow_ge_0 radix2 k). lra. }
  exists (m * 2 ^ (e - (k - 52)))%Z. rewrite mult_IZR. rewrite (IZR_Zpower radix2) by lia.
  rewrite Rmult_assoc. f_equal. symmetry. apply bpow_prod. lia.
Qed.

Section Sum.
Variables (n f k : Z).
Hypothesis Hn : (0 <= n < 4294967295)%Z.
Hypothesis Hf : (0 <= f < 1000000000)%Z.
Hypothesis Hk : (0 <= k <= 31)%Z.
Hypothesis Hn2 : (n + 1 <= 2 ^ (k + 1))%Z.

Let u : R := bpow radix2 (k - 53).
Let y : R := rnd (IZR f / 1000000000).
Let x : R := IZR n + y.

Lemma u_pos : 0 < u. Proof. apply bpow_gt_0. Qed.
Lemma u_val : u * IZR (2 ^ (53 - k)) = 1.
Proof. subst u. rewrite (IZR_Zpower radix2) by lia. rewrite (bpow_prod _ _ 0) by lia. reflexivity. Qed.

Lemma y_err : Rabs (y - IZR f / 1000000000) <= / IZR (2 ^ 53) + / IZR (2 ^ 60).
Proof.
  pose proof (rnd_err (IZR f / 1000000000)) as H. fold y in H.
  assert (0 <= IZR f <= 1000000000) as Bf by (split; apply IZR_le; lia).
  assert (0 <= IZR f / 1000000000 <= 1) as Bq by (split; [apply Rmult_le_pos; lra|apply Rmult_le_reg_r with 1000000000; lra]).
  eapply Rle_trans; [exact H|]. rewrite (Rabs_pos_eq (IZR f / 1000000000)) by apply Bq.
  apply Rplus_le_compat_r. rewrite <- (Rmult_1_r (/ IZR (2 ^ 53))) at 2. apply Rmult_le_compat_l; [|apply Bq].
  apply Rlt_le, Rinv_0_lt_compat, IZR_lt. reflexivity.
Qed.

Lemma y_range : 0 <= y <= 1.
Proof.
  assert (0 <= IZR f <= 1000000000) as Bf by (split; apply IZR_le; lia).
  assert (0 <= IZR f / 1000000000 <= 1) as Bq by (split; [apply Rmult_le_pos; lra|apply Rmult_le_reg_r with 1000000000; lra]).
  split; [apply (rnd_lb _ 0); [reflexivity|apply Bq]|apply (rnd_ub _ 1); [reflexivity|apply Bq]].
Qed.

Lemma x_range : IZR n <= rnd x <= IZR (n + 1).
Proof.
  pose proof y_range as Hy. split; [apply rnd_lb; [lia|subst x; lra]|]. apply rnd_ub; [lia|]. subst x. rewrite plus_IZR. lra.
Qed.

(** The power of two in 10^9 is 2^9. *)
Lemma gap a : (0 < a)%Z -> (a * 2 ^ (53 - k) <> 1000000000)%Z /\
  ((a * 2 ^ (53 - k) <= 1000000000)%Z -> (a * 2 ^ (53 - k) <= 1000000000 - 512)%Z) /\
  ((1000000000 < a * 2 ^ (53 - k))%Z -> (1000000000 + 512 <= a * 2 ^ (53 - k))%Z).
Proof.
  intros Ha. replace (2 ^ (53 - k))%Z with (1024 * 2 ^ (43 - k))%Z.
  - set (b := (2 ^ (43 - k))%Z). nia.
  - replace (53 - k)%Z with (10 + (43 - k))%Z by lia. rewrite Z.pow_add_r by lia. reflexivity.
Qed.

Lemma up : ((1000000000 - f) * 2 ^ (53 - k) <= 1000000000)%Z -> (2 ^ k <= n)%Z -> rnd x = IZR (n + 1).
Proof.
  intros Hc Hn1. pose proof x_range as Hr. destruct (Rle_lt_or_eq_dec _ _ (proj2 Hr)) as [Hl|]; [exfalso|assumption].
  assert (24 <= k)%Z as K24.
  { destruct (Z.le_gt_cases 24 k); [assumption|]. assert (2 ^ 30 <= 2 ^ (53 - k))%Z by (apply Z.pow_le_mono_r; lia). nia. }
  pose proof y_err as Ye. pose proof u_pos as Up. pose proof u_val as Uv.
  apply (gap (1000000000 - f)) in Hc; [|lia]. apply IZR_le in Hc. rewrite mult_IZR, minus_IZR in Hc.
  assert (/ IZR (2 ^ 29) <= u) as U29.
  { subst u. change (IZR (2 ^ 29)) with (bpow radix2 29). rewrite <- bpow_opp. apply bpow_le. lia. }
  set (P := IZR (2 ^ (53 - k))) in *.
  assert (1000000000 - IZR f <= u * (1000000000 - 512)) as Hz.
  { apply Rmult_le_reg_r with P; [nra|]. replace (u * (1000000000 - 512) * P) with ((u * P) * (1000000000 - 512)) by ring. rewrite Uv.
    rewrite minus_IZR in Hc. lra. }
  assert (1 - y < u) as Hy.
  { apply Rabs_le_inv in Ye. change (IZR (2 ^ 53)) with 9007199254740992 in Ye. change (IZR (2 ^ 60)) with 1152921504606846976 in Ye.
    change (IZR (2 ^ 29)) with 536870912 in U29.
    assert (IZR f / 1000000000 >= 1 - u * (1000000000 - 512) / 1000000000) by (apply Rle_ge, Rmult_le_reg_r with 1000000000; lra). lra. }
  assert (fmt64 (rnd x)) as Fg by (apply generic_format_round; [apply fexp64_valid|apply valid_rnd_N]).
  assert (bpow radix2 k <= rnd x) as Bg.
  { apply Rle_trans with (IZR n); [|apply Hr]. rewrite <- (IZR_Zpower radix2) by lia. apply IZR_le. exact Hn1. }
  destruct (fmt_multiple _ k ltac:(lia) Fg Bg) as [m Hm].
  assert (bpow radix2 (k - 52) = 2 * u) as U2.
  { subst u. change 2 with (bpow radix2 1). symmetry. apply bpow_prod. lia. }
  assert (IZR (n + 1) = IZR ((n + 1) * 2 ^ (52 - k)) * (2 * u)) as En.
  { rewrite mult_IZR, (IZR_Zpower radix2) by lia. rewrite <- U2, Rmult_assoc, (bpow_prod _ _ 0) by lia. cbn [bpow]. ring. }
  rewrite U2 in Hm. assert (m <= (n + 1) * 2 ^ (52 - k) - 1)%Z as Lm.
  { assert (m < (n + 1) * 2 ^ (52 - k))%Z; [|lia]. apply lt_IZR. rewrite Hm, En in Hl. apply Rmult_lt_reg_r in Hl; lra. }
  apply IZR_le in Lm. rewrite minus_IZR in Lm.
  assert (rnd x <= IZR (n + 1) - 2 * u) as Lg by (rewrite Hm, En; nra).
  assert (Z.abs (n + 1) < 2 ^ 53)%Z as L53 by lia.
  pose proof (rnd_nearest x _ (fmt_IZR _ L53)) as Near. assert (x = IZR n + y) as Ex by reflexivity.
  rewrite plus_IZR in Near, Lg. pose proof y_range as Yr.
  rewrite (Rabs_pos_eq (IZR n + 1 - x)), (Rabs_left (rnd x - x)) in Near by lra. lra.
Qed.

Lemma down : (1000000000 < (1000000000 - f) * 2 ^ (53 - k))%Z -> rnd x < IZR (n + 1).
Proof.
  intros Hc. pose proof x_range as Hr. destruct (Rle_lt_or_eq_dec _ _ (proj2 Hr)) as [|He]; [assumption|exfalso].
  pose proof y_err as Ye. pose proof u_pos as Up. pose proof u_val as Uv. pose proof y_range as Yr.
  change (IZR (2 ^ 53)) with 9007199254740992 in Ye. change (IZR (2 ^ 60)) with 1152921504606846976 in Ye. apply Rabs_le_inv in Ye.
  assert (u < 1 - y) as Hy.
  { destruct (Z.le_gt_cases 24 k) as [K24|K24].
    - apply (gap (1000000000 - f)) in Hc; [|lia]. apply IZR_le in Hc. rewrite mult_IZR, minus_IZR, plus_IZR in Hc.
      assert (/ IZR (2 ^ 29) <= u) as U29.
      { subst u. change (IZR (2 ^ 29)) with (bpow radix2 29). rewrite <- bpow_opp. apply bpow_le. lia. }
      change (IZR (2 ^ 29)) with 536870912 in U29. set (P := IZR (2 ^ (53 - k))) in *.
      assert (u * (1000000000 + 512) <= 1000000000 - IZR f) as Hz.
      { apply Rmult_le_reg_r with P; [nra|]. replace (u * (1000000000 + 512) * P) with ((u * P) * (1000000000 + 512)) by ring. rewrite Uv. lra. }
      assert (IZR f / 1000000000 <= 1 - u * (1000000000 + 512) / 1000000000) by (apply Rmult_le_reg_r with 1000000000; lra). lra.
    - assert (u <= / IZR (2 ^ 30)) as U30.
      { subst u. change (IZR (2 ^ 30)) with (bpow radix2 30). rewrite <- bpow_opp. apply bpow_le. lia. }
      change (IZR (2 ^ 30)) with 1073741824 in U30.
      assert (IZR f <= 999999999) as Lf by (apply IZR_le; lia).
      assert (IZR f / 1000000000 <= 1 - 1 / 1000000000) by (apply Rmult_le_reg_r with 1000000000; lra). lra. }
  assert (bpow radix2 (k - 52) = 2 * u) as U2.
  { subst u. change 2 with (bpow radix2 1). symmetry. apply bpow_prod. lia. }
  assert (IZR (n + 1) = IZR ((n + 1) * 2 ^ (52 - k)) * (2 * u)) as En.
  { rewrite mult_IZR, (IZR_Zpower radix2) by lia. rewrite <- U2, Rmult_assoc, (bpow_prod _ _ 0) by lia. cbn [bpow]. ring. }
  assert (fmt64 (IZR (n + 1) - 2 * u)) as Fv.
  { apply generic_format_FLT. apply (FLT_spec radix2 (-1074) 53 _ (Float radix2 ((n + 1) * 2 ^ (52 - k) - 1) (k - 52))).
    - unfold F2R. cbn [Fnum Fexp]. rewrite U2, minus_IZR, En. ring.
    - cbn [Fnum]. change (Zpower_nat radix2 53) with (2 ^ 53)%Z || idtac.
      assert ((n + 1) * 2 ^ (52 - k) <= 2 ^ (k + 1) * 2 ^ (52 - k))%Z by (apply Z.mul_le_mono_nonneg_r; [apply Z.pow_nonneg; lia|assumption]).
      rewrite <- Z.pow_add_r in H by lia. replace (k + 1 + (52 - k))%Z with 53%Z in H by lia.
      assert (0 < 2 ^ (52 - k))%Z by (apply Z.pow_pos_nonneg; lia).
      change (radix_val radix2) with 2%Z. nia.
    - cbn [Fexp]. lia. }
  pose proof (rnd_nearest x _ Fv) as Near. rewrite He in Near. rewrite plus_IZR in *.
  unfold x in Near. replace (IZR n + 1 - (IZR n + y)) with (1 - y) in Near by ring. rewrite (Rabs_pos_eq (1 - y)) in Near by lra.
  replace (IZR n + 1 - 2 * u - (IZR n + y)) with ((1 - y) - 2 * u) in Near by ring.
  destruct (Rle_lt_dec 0 ((1 - y) - 2 * u)) as [Hs|Hs].
  - pose proof (rnd_le x (IZR n + 1 - 2 * u) ltac:(subst x; lra)) as M. rewrite He in M.
    rewrite (round_generic radix2 fexp64 ZnearestE (IZR n + 1 - 2 * u)) in M by (try apply valid_rnd_N; assumption). lra.
  - rewrite Rabs_left in Near by exact Hs. lra.
Qed.
End Sum.

(** The instant [f] nanoseconds after the second [n] from 2010-01-01T00:00:00Z. *)
Definition instant (n f : Z) : time := ((1262304000 + n) * 1000000000 + f)%Z.

Lemma to_u32_trunc {E : Env} x n : is_finite x = true -> IZR n <= B2R x < IZR (n + 1) -> (0 <= n < 4294967296)%Z ->
  f64_to_u32 x = Z.to_N n.
Proof.
  intros F R H. unfold f64_to_u32. rewrite trunc_R, F.
  assert (Ztrunc (B2R x) = n) as T.
  { assert (0 <= IZR n) by (apply IZR_le; lia). rewrite Ztrunc_floor by lra. apply Zfloor_imp. exact R. }
  rewrite T. replace (0 <=? n)%Z with true by (symmetry; apply Z.leb_le; lia).
  replace (n <? 4294967296)%Z with true by (symmetry; apply Z.ltb_lt; lia).
  reflexivity.
Qed.

Open Scope Z_scope.

(** ** C96 *)
(** The second written for a position: the next one if the instant is closer to it than float64
    can tell apart there, else the one the instant is in. *)
Theorem C96_position_second `{Env} : forall n f, 0 <= n < 4294967295 -> 0 <= f < 1000000000 ->
  ntm_encode (instant n f) = Z.to_N (if (1000000000 - f) * 2 ^ (53 - Z.log2 n) <=? 1000000000 then n + 1 else n).
Proof.
  intros n f Hn Hf. unfold ntm_encode.
  replace (t_sub (instant n f) t2010) with (n * ns_per_s + f) by (unfold t_sub, instant, t2010, ns_per_s, min_dur, max_dur; lia).
  destruct (secs_frac n f) as [SR SF]; [lia|assumption|].
  assert (0 <= Z.log2 n <= 31) as Hk.
  { split; [apply Z.log2_nonneg|]. change 31 with (Z.log2 4294967295). apply Z.log2_le_mono. lia. }
  assert (n + 1 <= 2 ^ (Z.log2 n + 1)) as Hn2.
  { destruct (Z.eq_dec n 0) as [->|]; [change (2 ^ (Z.log2 0 + 1)) with 2; lia|]. pose proof (Z.log2_spec n ltac:(lia)) as L. unfold Z.succ in L. lia. }
  pose proof (x_range n f (Z.log2 n) Hn Hf Hk) as Hr.
  destruct (Z.leb_spec ((1000000000 - f) * 2 ^ (53 - Z.log2 n)) 1000000000) as [Hc|Hc].
  - assert (0 < n) as Hp.
    { destruct (Z.eq_dec n 0) as [->|]; [|lia]. exfalso. change (2 ^ (53 - Z.log2 0)) with 9007199254740992 in Hc. lia. }
    pose proof (up n f (Z.log2 n) Hn Hf Hk Hn2 Hc (proj1 (Z.log2_spec n Hp))) as Hu. rewrite <- SR in Hu.
    apply to_u32_IZR; [assumption..|lia].
  - pose proof (down n f (Z.log2 n) Hn Hf Hk Hn2 Hc) as Hd. rewrite <- SR in Hd, Hr.
    apply to_u32_trunc; [assumption| |lia]. split; [apply Hr|exact Hd].
Qed.

(** In a record the fraction is cut off. *)
Theorem C96_record_second `{Env} : forall n f, 0 <= n < 4294967296 -> 0 <= f < 1000000000 -> tm_encode (instant n f) = Z.to_N n.
Proof.
  intros n f Hn Hf. unfold tm_encode, t_unix, t2010, ns_per_s, u32_of_Z, instant. rewrite Z.div_add_l, Z.div_mul by lia.
  rewrite (Z.div_small f) by lia. replace (1262304000 + n + 0 - 1262304000) with n by lia. rewrite Z.mod_small by lia. reflexivity.
Qed.

(** So it is in a position until 239 ns before the next second. *)
Theorem C96_position_second_partial `{Env} : forall n f, 0 <= n < 4294967295 -> 0 <= f <= 999999761 -> ntm_encode (instant n f) = Z.to_N n.
Proof.
  intros n f Hn Hf. rewrite C96_position_second by lia.
  assert (0 <= Z.log2 n <= 31) as Hk.
  { split; [apply Z.log2_nonneg|]. change 31 with (Z.log2 4294967295). apply Z.log2_le_mono. lia. }
  assert (2 ^ 22 <= 2 ^ (53 - Z.log2 n)) by (apply Z.pow_le_mono_r; lia).
  destruct (Z.leb_spec ((1000000000 - f) * 2 ^ (53 - Z.log2 n)) 1000000000) as [Hc|Hc]; [exfalso; nia|reflexivity].
Qed.
Theorem C96_first_half_year `{Env} : forall n f, 0 <= n < 16777216 -> 0 <= f < 1000000000 -> ntm_encode (instant n f) = Z.to_N n.
Proof.
  intros n f Hn Hf. rewrite C96_position_second by lia.
  assert (0 <= Z.log2 n <= 23) as Hk.
  { split; [apply Z.log2_nonneg|]. change 23 with (Z.log2 16777215). apply Z.log2_le_mono. lia. }
  assert (2 ^ 30 <= 2 ^ (53 - Z.log2 n)) by (apply Z.pow_le_mono_r; lia).
  destruct (Z.leb_spec ((1000000000 - f) * 2 ^ (53 - Z.log2 n)) 1000000000) as [Hc|Hc]; [exfalso; nia|reflexivity].
Qed.

(** But from July 2010 on the last nanosecond of every second counts as the next second, so a record
    and a position of the same instant get different seconds. *)
Theorem C96_same_second_refuted `{Env} : forall n, 16777216 <= n < 4294967295 ->
  ntm_encode (instant n 999999999) = Z.to_N (n + 1) /\ tm_encode (instant n 999999999) = Z.to_N n.
Proof.
  intros n Hn. split; [|apply C96_record_second; lia]. rewrite C96_position_second by lia.
  assert (24 <= Z.log2 n <= 31) as Hk.
  { split; [change 24 with (Z.log2 16777216)|change 31 with (Z.log2 4294967295)]; apply Z.log2_le_mono; lia. }
  assert (2 ^ (53 - Z.log2 n) <= 2 ^ 29) by (apply Z.pow_le_mono_r; lia).
  destruct (Z.leb_spec ((1000000000 - 999999999) * 2 ^ (53 - Z.log2 n)) 1000000000) as [Hc|Hc]; [reflexivity|exfalso; lia].
Qed.

Example C96_example : ntm_encode (H := env0) (instant 315532805 999999971) = 315532806%N
  /\ ntm_encode (H := env0) (instant 315532805 999999970) = 315532805%N /\ tm_encode (instant 315532805 999999971) = 315532805%N.
Proof. vm_compute. repeat split; reflexivity. Qed.

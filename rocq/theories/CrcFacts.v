(** The checksums of the code are the specified ones, and what errors they detect. *)
From Coq Require Import NArith ZArith Lia ZifyBool ZifyNat ZifyN Bool List.
From Verif Require Import GoBase Crc SpecCrc.
Import ListNotations.
Open Scope N_scope.

Fixpoint msb (w : nat) (n : N) : list bool :=
  match w with
  | O => []
  | S w' => N.testbit n (N.of_nat w') :: msb w' n
  end.

Lemma msb_length w n : length (msb w n) = w.
Proof. induction w; cbn; auto. Qed.

Lemma msb_shift w c : msb w c ++ [false] = msb (S w) (2 * c).
Proof.
  induction w as [|w IH].
  - cbn [msb app]. rewrite N.testbit_even_0. reflexivity.
  - cbn [msb app]. cbn [msb] in IH. rewrite IH. rewrite Nat2N.inj_succ, N.testbit_even_succ by lia. reflexivity.
Qed.

Lemma msb_xor w a b : xors (msb w a) (msb w b) = msb w (N.lxor a b).
Proof. induction w as [|w IH]; [reflexivity|]. cbn [msb xors]. rewrite IH, N.lxor_spec. reflexivity. Qed.

Lemma msb_ext w a b : (forall i, i < N.of_nat w -> N.testbit a i = N.testbit b i) -> msb w a = msb w b.
Proof.
  induction w as [|w IH]; intros H; [reflexivity|]. cbn [msb]. rewrite H by lia. f_equal. apply IH. intros; apply H; lia.
Qed.

Lemma msb_mod w c : msb w (c mod 2 ^ N.of_nat w) = msb w c.
Proof. apply msb_ext. intros i Hi. apply N.mod_pow2_bits_low; lia. Qed.

Lemma mod_S c w : c mod 2 ^ N.of_nat (S w) = N.b2n (N.testbit c (N.of_nat w)) * 2 ^ N.of_nat w + c mod 2 ^ N.of_nat w.
Proof.
  rewrite Nat2N.inj_succ, N.pow_succ_r'. rewrite (N.mul_comm 2), N.mod_mul_r by (try lia; apply N.pow_nonzero; lia).
  rewrite N.testbit_spec' . lia.
Qed.

Lemma number_acc l : forall a, fold_left (fun n (b : bool) => 2 * n + (if b then 1 else 0)) l a = a * 2 ^ N.of_nat (length l) + number l.
Proof.
  unfold number. induction l as [|b l IH]; intros a; [cbn; lia|].
  cbn [fold_left length]. rewrite IH, (IH (2 * 0 + _)). rewrite Nat2N.inj_succ, N.pow_succ_r'. nia.
Qed.

Lemma number_msb w c : number (msb w c) = c mod 2 ^ N.of_nat w.
Proof.
  induction w as [|w IH]; [cbn [msb number fold_left N.of_nat]; rewrite N.pow_0_r, N.mod_1_r; reflexivity|].
  rewrite mod_S, <- IH. unfold number. cbn [msb fold_left]. rewrite number_acc, msb_length.
  destruct (N.testbit c (N.of_nat w)); reflexivity.
Qed.

Lemma msb_number l : msb (length l) (number l) = l.
Proof.
  induction l as [|b l IH]; [reflexivity|]. cbn [length msb].
  assert (number (b :: l) = N.b2n b * 2 ^ N.of_nat (length l) + number l) as Hn.
  { unfold number. cbn [fold_left]. rewrite number_acc. destruct b; reflexivity. }
  assert (forall l, number l < 2 ^ N.of_nat (length l)) as Hlt.
  { clear. intros l. induction l as [|b l IH]; [reflexivity|].
    unfold number. cbn [fold_left]. rewrite number_acc. cbn [length]. rewrite Nat2N.inj_succ, N.pow_succ_r'.
    destruct b; lia. }
  specialize (Hlt l). rewrite Hn. f_equal.
  - rewrite N.testbit_eqb, N.div_add_l by (apply N.pow_nonzero; lia). rewrite N.div_small by assumption.
    destruct b; reflexivity.
  - transitivity (msb (length l) (number l)); [|exact IH]. apply msb_ext. intros i Hi.
    rewrite <- (N.mod_pow2_bits_low _ (N.of_nat (length l)) i) by assumption.
    rewrite N.add_comm, N.mod_add by (apply N.pow_nonzero; lia). apply N.mod_pow2_bits_low. assumption.
Qed.

Lemma byte_bits_msb n : byte_bits n = msb 8 n.
Proof. reflexivity. Qed.

Lemma lxor_lt a b n : a < 2 ^ n -> b < 2 ^ n -> N.lxor a b < 2 ^ n.
Proof.
  intros Ha Hb. destruct (N.eq_dec (N.lxor a b) 0) as [->|H]; [lia|].
  apply N.log2_lt_pow2; [lia|]. pose proof (N.log2_lxor a b) as Hl.
  destruct (N.eq_dec n 0) as [->|Hn].
  { change (2 ^ 0) with 1 in *. assert (a = 0) by lia. assert (b = 0) by lia. subst. elim H. reflexivity. }
  assert (forall x, x < 2 ^ n -> N.log2 x < n) as Hx.
  { intros x Hx. destruct (N.eq_dec x 0) as [->|]; [cbn; lia|]. apply N.log2_lt_pow2; lia. }
  apply Hx in Ha. apply Hx in Hb. lia.
Qed.

Section Generic.
Variable w : nat. (* one less than the width *)
Variable poly : N.
Hypothesis poly_small : poly < 2 ^ N.of_nat (S w).

Definition W : N := 2 ^ N.of_nat (S w).
Definition top : N := 2 ^ N.of_nat w.

(** One shift. *)
Definition g (c : N) : N := N.lxor ((2 * c) mod W) (if N.testbit c (N.of_nat w) then poly else 0).
(** One shift with an input bit. *)
Definition s (c : N) (b : bool) : N := g (N.lxor c (if b then top else 0)).

Lemma W_top : W = 2 * top.
Proof. unfold W, top. rewrite Nat2N.inj_succ, N.pow_succ_r'. reflexivity. Qed.

Lemma g_lt c : g c < W.
Proof.
  unfold g. apply lxor_lt; [apply N.mod_lt, N.pow_nonzero; lia|]. destruct (N.testbit c (N.of_nat w)); [exact poly_small|].
  apply N.neq_0_lt_0, N.pow_nonzero. lia.
Qed.
Lemma s_lt c b : s c b < W. Proof. apply g_lt. Qed.

Lemma double_mod_xor a b : (2 * N.lxor a b) mod W = N.lxor ((2 * a) mod W) ((2 * b) mod W).
Proof.
  apply N.bits_inj. intros i. rewrite N.lxor_spec. unfold W.
  destruct (N.lt_ge_cases i (N.of_nat (S w))) as [Hi|Hi].
  - rewrite !N.mod_pow2_bits_low by assumption. destruct (N.eq_dec i 0) as [->|H0].
    + rewrite !N.testbit_even_0. reflexivity.
    + replace i with (N.succ (N.pred i)) by lia. rewrite !N.testbit_even_succ by lia. apply N.lxor_spec.
  - rewrite !N.mod_pow2_bits_high by assumption. reflexivity.
Qed.

Lemma lxor_swap a b c d : N.lxor (N.lxor a b) (N.lxor c d) = N.lxor (N.lxor a c) (N.lxor b d).
Proof. rewrite !N.lxor_assoc. f_equal. rewrite <- !N.lxor_assoc. f_equal. apply N.lxor_comm. Qed.

Lemma g_xor a b : g (N.lxor a b) = N.lxor (g a) (g b).
Proof.
  unfold g. rewrite double_mod_xor, N.lxor_spec, lxor_swap. f_equal.
  destruct (N.testbit a _), (N.testbit b _); cbn [xorb]; rewrite ?N.lxor_nilpotent, ?N.lxor_0_r, ?N.lxor_0_l; reflexivity.
Qed.
Lemma g_0 : g 0 = 0.
Proof. unfold g. rewrite N.bits_0, N.mul_0_r, N.lxor_0_r. apply N.mod_0_l, N.pow_nonzero. lia. Qed.

Hypothesis poly_odd : N.testbit poly 0 = true.

Lemma g_inj c : c < W -> g c = 0 -> c = 0.
Proof.
  intros Hc Hg. unfold g in Hg. rewrite W_top in Hc. destruct (N.testbit c (N.of_nat w)) eqn:Ht.
  - exfalso. apply (f_equal (fun x => N.testbit x 0)) in Hg. rewrite N.lxor_spec, poly_odd in Hg. unfold W in Hg.
    rewrite N.mod_pow2_bits_low, N.testbit_even_0 in Hg by lia. discriminate.
  - rewrite N.lxor_0_r, W_top in Hg.
    assert (c < top).
    { destruct (N.lt_ge_cases c top) as [|Hge]; [assumption|]. exfalso.
      rewrite N.testbit_eqb in Ht. unfold top in *.
      replace (c / 2 ^ N.of_nat w) with 1 in Ht; [discriminate|].
      set (t := 2 ^ N.of_nat w) in *. clearbody t. clear - Hc Hge.
      apply N.div_unique with (r := c - t); [clear - Hc Hge|clear - Hge]; lia. }
    rewrite N.mod_small in Hg by lia. lia.
Qed.

Lemma s_xor c b c' b' : s (N.lxor c c') (xorb b b') = N.lxor (s c b) (s c' b').
Proof.
  unfold s. rewrite <- g_xor. f_equal. rewrite lxor_swap. f_equal.
  destruct b, b'; cbn [xorb]; rewrite ?N.lxor_nilpotent, ?N.lxor_0_r, ?N.lxor_0_l; reflexivity.
Qed.
Lemma s_0 : s 0 false = 0. Proof. unfold s. rewrite N.lxor_0_r. apply g_0. Qed.

(** Agreement with the serial specification. *)
Lemma s_lfsr c b : c < W -> lfsr (msb (S w) poly) (msb (S w) c) b = msb (S w) (s c b).
Proof.
  intros Hc. change (lfsr (msb (S w) poly) (msb (S w) c) b) with
    (if xorb (N.testbit c (N.of_nat w)) b then xors (msb w c ++ [false]) (msb (S w) poly) else msb w c ++ [false]).
  unfold s, g.
  rewrite N.lxor_spec.
  assert (N.testbit (if b then top else 0) (N.of_nat w) = b) as ->.
  { destruct b; [apply N.pow2_bits_true|apply N.bits_0]. }
  assert (msb w c ++ [false] = msb (S w) ((2 * N.lxor c (if b then top else 0)) mod W)) as ->.
  { unfold W. rewrite msb_mod, <- msb_shift. f_equal. apply msb_ext. intros i Hi. rewrite N.lxor_spec.
    replace (N.testbit (if b then top else 0) i) with false; [rewrite xorb_false_r; reflexivity|].
    destruct b; [symmetry; apply N.pow2_bits_false; lia|rewrite N.bits_0; reflexivity]. }
  destruct (xorb _ b); [apply msb_xor|]. rewrite N.lxor_0_r. reflexivity.
Qed.

Lemma fold_lfsr l : forall c, c < W -> fold_left (lfsr (msb (S w) poly)) l (msb (S w) c) = msb (S w) (fold_left s l c).
Proof.
  induction l as [|b l IH]; intros c Hc; [reflexivity|]. cbn [fold_left]. rewrite s_lfsr by assumption. apply IH, s_lt.
Qed.

Lemma fold_s_lt l : forall c, c < W -> fold_left s l c < W.
Proof. induction l as [|b l IH]; intros c Hc; [assumption|]. cbn. apply IH, s_lt. Qed.

(** Feeding [k] bits at once. *)
Lemma iter_s k : forall c v, (k <= S w)%nat -> v < 2 ^ N.of_nat k ->
  iter k g (N.lxor c (v * 2 ^ N.of_nat (S w - k))) = fold_left s (msb k v) c.
Proof.
  induction k as [|k IH]; intros c v Hk Hv.
  - cbn [iter msb fold_left N.of_nat] in *. change (2 ^ 0) with 1 in Hv. replace v with 0 by lia.
    rewrite N.mul_0_l, N.lxor_0_r. reflexivity.
  - cbn [iter msb fold_left].
    set (v' := v mod 2 ^ N.of_nat k).
    assert (v' < 2 ^ N.of_nat k) as Hv' by (apply N.mod_lt, N.pow_nonzero; lia).
    assert (msb k v = msb k v') as -> by (symmetry; apply msb_mod).
    rewrite <- (IH (s c (N.testbit v (N.of_nat k))) v') by (try assumption; lia).
    f_equal. unfold s.
    assert (v * 2 ^ N.of_nat (S w - S k) = N.lxor (if N.testbit v (N.of_nat k) then top else 0) (v' * 2 ^ N.of_nat (S w - S k))) as ->.
    { rewrite <- (N.mod_small v (2 ^ N.of_nat (S k))) at 1 by assumption. rewrite mod_S. fold v'.
      rewrite N.mul_add_distr_r.
      replace (N.b2n (N.testbit v (N.of_nat k)) * 2 ^ N.of_nat k * 2 ^ N.of_nat (S w - S k)) with (if N.testbit v (N.of_nat k) then top else 0).
      2: { destruct (N.testbit v _); cbn [N.b2n]; [|lia]. unfold top. rewrite <- N.mul_assoc, <- N.pow_add_r, N.mul_1_l. f_equal. lia. }
      assert (v' * 2 ^ N.of_nat (S w - S k) < top) as Hlt.
      { unfold top. replace (2 ^ N.of_nat w) with (2 ^ N.of_nat k * 2 ^ N.of_nat (S w - S k)).
        - apply N.mul_lt_mono_pos_r; [|assumption]. apply N.neq_0_lt_0, N.pow_nonzero. lia.
        - rewrite <- N.pow_add_r. f_equal. lia. }
      destruct (N.testbit v _); [|rewrite N.lxor_0_l; reflexivity].
      apply N.add_nocarry_lxor. apply N.bits_inj_0. intros i. rewrite N.land_spec. unfold top in *.
      destruct (N.eq_dec i (N.of_nat w)) as [->|Hi].
      - replace (N.testbit (v' * 2 ^ N.of_nat (S w - S k)) (N.of_nat w)) with false; [apply andb_false_r|].
        symmetry. rewrite N.testbit_eqb, N.div_small by assumption. reflexivity.
      - rewrite N.pow2_bits_false by lia. reflexivity. }
    rewrite <- N.lxor_assoc, g_xor. f_equal.
    assert (v' * 2 ^ N.of_nat (S w - S k) < top) as Hlt.
    { unfold top. replace (2 ^ N.of_nat w) with (2 ^ N.of_nat k * 2 ^ N.of_nat (S w - S k)).
      - apply N.mul_lt_mono_pos_r; [|assumption]. apply N.neq_0_lt_0, N.pow_nonzero. lia.
      - rewrite <- N.pow_add_r. f_equal. lia. }
    unfold g. rewrite W_top, (N.mod_small (2 * _)) by lia.
    replace (N.testbit (v' * 2 ^ N.of_nat (S w - S k)) (N.of_nat w)) with false.
    + rewrite N.lxor_0_r. replace (S w - k)%nat with (S (S w - S k))%nat by lia. rewrite Nat2N.inj_succ, N.pow_succ_r'. lia.
    + symmetry. rewrite N.testbit_eqb. unfold top in Hlt. rewrite N.div_small by assumption. reflexivity.
Qed.

(** Linearity over messages. *)
Lemma fold_s_xor l : forall l' c c', length l = length l' ->
  fold_left s (xors l l') (N.lxor c c') = N.lxor (fold_left s l c) (fold_left s l' c').
Proof.
  induction l as [|b l IH]; intros [|b' l'] c c' H; try discriminate; [reflexivity|].
  cbn [xors fold_left]. rewrite s_xor. apply IH. injection H. auto.
Qed.

Lemma fold_s_nothing n : fold_left s (nothing n) 0 = 0.
Proof. induction n; [reflexivity|]. cbn [nothing repeat fold_left]. rewrite s_0. assumption. Qed.

Lemma s_false c : s c false = g c. Proof. unfold s. rewrite N.lxor_0_r. reflexivity. Qed.

Lemma iter_g_inj n : forall c, c < W -> iter n g c = 0 -> c = 0.
Proof.
  induction n as [|n IH]; intros c Hc H; [assumption|]. cbn [iter] in H. apply IH in H; [|apply g_lt]. apply g_inj; assumption.
Qed.

Lemma fold_nothing n : forall c, fold_left s (nothing n) c = iter n g c.
Proof. induction n as [|n IH]; intros c; [reflexivity|]. cbn [nothing repeat fold_left iter]. rewrite s_false. apply IH. Qed.

Lemma burst_nonzero l : burst (S w) l -> fold_left s l 0 <> 0.
Proof.
  intros (i & m & j & -> & Hm & Ht) H. rewrite !fold_left_app, fold_s_nothing, fold_nothing in H.
  apply iter_g_inj in H; [|apply fold_s_lt; apply N.neq_0_lt_0, N.pow_nonzero; lia].
  rewrite <- (msb_number m) in H. rewrite <- iter_s in H.
  2: assumption.
  2: { pose proof (number_msb (length m) (number m)) as Hn. rewrite msb_number in Hn. rewrite Hn.
       apply N.mod_lt, N.pow_nonzero. lia. }
  rewrite N.lxor_0_l in H. apply iter_g_inj in H.
  - apply N.mul_eq_0 in H. destruct H as [H|H]; [|revert H; apply N.pow_nonzero; lia].
    pose proof (msb_number m) as Hn. rewrite H in Hn. rewrite <- Hn in Ht. clear -Ht.
    induction (length m) as [|k IH]; cbn [msb] in Ht; [destruct Ht|]. destruct Ht as [Ht|Ht]; [rewrite N.bits_0 in Ht; discriminate|auto].
  - pose proof (number_msb (length m) (number m)) as Hn. rewrite msb_number in Hn. 
    assert (number m < 2 ^ N.of_nat (length m)) as Hlt. { rewrite Hn. apply N.mod_lt, N.pow_nonzero. lia. }
    unfold W. replace (2 ^ N.of_nat (S w)) with (2 ^ N.of_nat (length m) * 2 ^ N.of_nat (S w - length m)).
    + apply N.mul_lt_mono_pos_r; [|assumption]. apply N.neq_0_lt_0, N.pow_nonzero. lia.
    + rewrite <- N.pow_add_r. f_equal. lia.
Qed.

(** Parity. *)
Definition par (l : list bool) : bool := fold_left xorb l false.
Lemma par_acc l : forall a, fold_left xorb l a = xorb a (par l).
Proof.
  unfold par. induction l as [|b l IH]; intros a; [cbn; rewrite xorb_false_r; reflexivity|].
  cbn [fold_left]. rewrite IH, (IH (xorb false b)). rewrite xorb_false_l, xorb_assoc. reflexivity.
Qed.
Lemma par_cons b l : par (b :: l) = xorb b (par l).
Proof. unfold par at 1. cbn [fold_left]. rewrite par_acc, xorb_false_l. reflexivity. Qed.
Lemma par_app a b : par (a ++ b) = xorb (par a) (par b).
Proof. induction a as [|x a IH]; [cbn [app]; change (par []) with false; rewrite xorb_false_l; reflexivity|]. cbn [app]. rewrite !par_cons, IH, xorb_assoc. reflexivity. Qed.
Lemma par_xors a : forall b, length a = length b -> par (xors a b) = xorb (par a) (par b).
Proof.
  induction a as [|x a IH]; intros [|y b] H; try discriminate; [reflexivity|]. cbn [xors]. rewrite !par_cons, IH by (injection H; auto).
  destruct x, y, (par a), (par b); reflexivity.
Qed.
Lemma par_odd l : par l = Nat.odd (length (filter (fun b => b) l)).
Proof.
  induction l as [|b l IH]; [reflexivity|]. rewrite par_cons, IH. destruct b; cbn [filter length]; [|apply xorb_false_l].
  rewrite Nat.odd_succ, <- Nat.negb_odd. apply xorb_true_l.
Qed.

Hypothesis poly_par : par (msb (S w) poly) = true.

Lemma par_s c b : c < W -> par (msb (S w) (s c b)) = xorb (par (msb (S w) c)) b.
Proof.
  intros Hc. rewrite <- s_lfsr by assumption. remember (msb (S w) c) as r eqn:Hr.
  assert (length r = S w) as Hl by (subst; apply msb_length). destruct r as [|t r]; [discriminate|].
  unfold lfsr. rewrite par_cons. destruct (xorb t b) eqn:Hx.
  - rewrite par_xors by (rewrite app_length, msb_length; cbn [length] in *; lia).
    rewrite poly_par, par_app. change (par [false]) with false. destruct t, b, (par r); try discriminate Hx; reflexivity.
  - rewrite par_app. change (par [false]) with false. destruct t, b, (par r); try discriminate Hx; reflexivity.
Qed.

Lemma par_fold l : forall c, c < W -> par (msb (S w) (fold_left s l c)) = xorb (par (msb (S w) c)) (par l).
Proof.
  induction l as [|b l IH]; intros c Hc; [cbn; rewrite xorb_false_r; reflexivity|].
  cbn [fold_left]. rewrite IH by apply s_lt. rewrite par_s, par_cons, xorb_assoc by assumption. reflexivity.
Qed.

Lemma msb_0 k : msb k 0 = nothing k.
Proof. induction k; [reflexivity|]. cbn [msb]. rewrite N.bits_0, IHk. reflexivity. Qed.
Lemma par_nothing k : par (nothing k) = false.
Proof. induction k; [reflexivity|]. cbn [nothing repeat]. rewrite par_cons, xorb_false_l. exact IHk. Qed.

Lemma odd_nonzero l : odd_errors l -> fold_left s l 0 <> 0.
Proof.
  intros Ho H. pose proof (par_fold l 0) as Hp. rewrite H, msb_0, par_nothing, xorb_false_l in Hp.
  unfold odd_errors in Ho. rewrite <- par_odd in Ho.
  rewrite <- Hp in Ho; [discriminate|]. apply N.neq_0_lt_0, N.pow_nonzero. lia.
Qed.

(** Two errors: the register does not return to its top bit. *)
Lemma two_nonzero d l : (forall k, (0 < k <= d)%nat -> iter k g top <> top) -> two_errors d l -> fold_left s l 0 <> 0.
Proof.
  intros Hd (i & k & j & -> & Hk) H. rewrite !fold_left_app, fold_s_nothing in H. cbn [fold_left] in H.
  rewrite !fold_nothing in H. apply iter_g_inj in H; [|apply s_lt].
  unfold s in H at 1. apply g_inj in H.
  - apply N.lxor_eq in H. apply (Hd (S k)); [lia|]. cbn [iter]. unfold s in H. rewrite N.lxor_0_l in H. exact H.
  - apply lxor_lt.
    + assert (forall k c, c < W -> iter k g c < W) as Hi.
      { clear - poly_small. intros k0. induction k0; intros c Hc; [assumption|]. cbn. auto using g_lt. }
      apply Hi. apply s_lt.
    + fold W. rewrite W_top. assert (top <> 0) by (apply N.pow_nonzero; lia). lia.
Qed.

End Generic.

(** ** The two checksums *)
Definition s8 := s 7 0x31.
Definition s16 := s 15 0x1021.

Lemma crc8_bit_g c : c < 256 -> crc8_bit c = g 7 0x31 c.
Proof.
  intros H. unfold crc8_bit, g, u8, W. change (N.of_nat 7) with 7. change (2 ^ N.of_nat 8) with 256.
  rewrite N.shiftl_mul_pow2, (N.mul_comm c). change (2 ^ 1) with 2.
  destruct (N.testbit c 7); [reflexivity|]. rewrite N.lxor_0_r. reflexivity.
Qed.
Lemma crc16_bit_g c : c < 65536 -> crc16_bit c = g 15 0x1021 c.
Proof.
  intros H. unfold crc16_bit, g, u16, W. change (N.of_nat 15) with 15. change (2 ^ N.of_nat 16) with 65536.
  rewrite N.shiftl_mul_pow2, (N.mul_comm c). change (2 ^ 1) with 2.
  destruct (N.testbit c 15); [reflexivity|]. rewrite N.lxor_0_r. reflexivity.
Qed.

Lemma iter_ext (f h : N -> N) (P : N -> Prop) : (forall c, P c -> f c = h c) -> (forall c, P c -> P (h c)) ->
  forall n c, P c -> iter n f c = iter n h c.
Proof.
  intros He Hp. induction n as [|n IH]; intros c Hc; [reflexivity|]. cbn [iter]. rewrite He by assumption. apply IH. auto.
Qed.

Lemma crc8_byte_s c b : c < 256 -> b < 256 -> crc8_byte c b = fold_left s8 (byte_bits b) c.
Proof.
  intros Hc Hb. unfold crc8_byte, s8. rewrite byte_bits_msb, <- iter_s by (reflexivity || assumption || lia).
  change (2 ^ N.of_nat (8 - 8)) with 1. rewrite N.mul_1_r.
  apply (iter_ext _ _ (fun c => c < 256)).
  - apply crc8_bit_g.
  - intros x _. apply (g_lt 7 0x31). reflexivity.
  - change 256 with (2 ^ 8). apply lxor_lt; assumption.
Qed.
Lemma crc16_byte_s c b : c < 65536 -> b < 256 -> crc16_byte c b = fold_left s16 (byte_bits b) c.
Proof.
  intros Hc Hb. unfold crc16_byte, s16. rewrite byte_bits_msb, <- iter_s by (reflexivity || assumption || lia).
  change (2 ^ N.of_nat (16 - 8)) with (2 ^ 8). rewrite N.shiftl_mul_pow2.
  apply (iter_ext _ _ (fun c => c < 65536)).
  - apply crc16_bit_g.
  - intros x _. apply (g_lt 15 0x1021). reflexivity.
  - change 65536 with (2 ^ 16). apply lxor_lt; [assumption|]. change (2 ^ 16) with (256 * 2 ^ 8). 
    apply N.mul_lt_mono_pos_r; [reflexivity|assumption].
Qed.

Lemma s8_lt l c : c < 256 -> fold_left s8 l c < 256.
Proof. apply (fold_s_lt 7 0x31). reflexivity. Qed.
Lemma s16_lt l c : c < 65536 -> fold_left s16 l c < 65536.
Proof. apply (fold_s_lt 15 0x1021). reflexivity. Qed.

Lemma crc8_s data : bytes_ok data -> crc8 data = fold_left s8 (bits_of data) 255.
Proof.
  unfold crc8. assert (255 < 256) as H by lia. revert H. generalize 255. induction data as [|b data IH]; intros c Hc Hd; [reflexivity|].
  inversion Hd; subst. cbn [fold_left bits_of flat_map]. rewrite fold_left_app, crc8_byte_s by assumption. apply IH; [apply s8_lt|]; assumption.
Qed.
Lemma crc16_s data : bytes_ok data -> crc16 data = fold_left s16 (bits_of data) 65535.
Proof.
  unfold crc16. assert (65535 < 65536) as H by lia. revert H. generalize 65535. induction data as [|b data IH]; intros c Hc Hd; [reflexivity|].
  inversion Hd; subst. cbn [fold_left bits_of flat_map]. rewrite fold_left_app, crc16_byte_s by assumption. apply IH; [apply s16_lt|]; assumption.
Qed.

Lemma crc8_lt data : bytes_ok data -> crc8 data < 256.
Proof. intros H. rewrite crc8_s by assumption. apply s8_lt. reflexivity. Qed.
Lemma crc16_lt data : bytes_ok data -> crc16 data < 65536.
Proof. intros H. rewrite crc16_s by assumption. apply s16_lt. reflexivity. Qed.

Lemma crc8_checksum data : bytes_ok data -> crc8 data = checksum8 data.
Proof.
  intros H. unfold checksum8. change [F;F;T;T;F;F;F;T] with (msb 8 0x31). change [T;T;T;T;T;T;T;T] with (msb 8 255).
  rewrite (fold_lfsr 7 0x31) by reflexivity. rewrite number_msb, crc8_s by assumption. symmetry. apply N.mod_small.
  apply s8_lt. reflexivity.
Qed.
Lemma crc16_checksum data : bytes_ok data -> crc16 data = checksum16 data.
Proof.
  intros H. unfold checksum16. change [F;F;F;T;F;F;F;F;F;F;T;F;F;F;F;T] with (msb 16 0x1021).
  change [T;T;T;T;T;T;T;T;T;T;T;T;T;T;T;T] with (msb 16 65535).
  rewrite (fold_lfsr 15 0x1021) by reflexivity. rewrite number_msb, crc16_s by assumption. symmetry. apply N.mod_small.
  apply s16_lt. reflexivity.
Qed.

(** Errors. *)
Lemma flip_ok data : forall e, bytes_ok data -> bytes_ok e -> bytes_ok (flip data e).
Proof.
  induction data as [|x d IH]; intros [|y e] Hd He; cbn [flip]; auto. inversion Hd; inversion He; subst.
  constructor; [unfold byte_ok in *; change 256 with (2 ^ 8) in *; apply lxor_lt; assumption|apply IH; assumption].
Qed.
Lemma flip_length data : forall e, length (flip data e) = length data.
Proof. induction data as [|x d IH]; intros [|y e]; cbn; auto. Qed.

Lemma bits_flip data : forall e, length data = length e -> bits_of (flip data e) = xors (bits_of data) (bits_of e).
Proof.
  induction data as [|x d IH]; intros [|y e] H; try discriminate; [reflexivity|].
  cbn [flip bits_of flat_map]. injection H as H. unfold bits_of in IH. rewrite IH by assumption.
  unfold byte_bits. cbn [app xors]. rewrite !N.lxor_spec. reflexivity.
Qed.
Lemma bits_of_length data : length (bits_of data) = (8 * length data)%nat.
Proof. induction data as [|x d IH]; [reflexivity|]. cbn [bits_of flat_map]. rewrite app_length. unfold bits_of in IH. rewrite IH. cbn [byte_bits length]. lia. Qed.
Lemma bits_of_app a b : bits_of (a ++ b) = bits_of a ++ bits_of b.
Proof. apply flat_map_app. Qed.

Lemma crc8_flip data e : bytes_ok data -> bytes_ok e -> length data = length e ->
  crc8 (flip data e) = N.lxor (crc8 data) (fold_left s8 (bits_of e) 0).
Proof.
  intros Hd He Hl. rewrite !crc8_s by auto using flip_ok. rewrite bits_flip by assumption.
  rewrite <- (N.lxor_0_r 255) at 1. unfold s8. rewrite fold_s_xor by (reflexivity || (rewrite !bits_of_length; lia)). reflexivity.
Qed.
Lemma crc16_flip data e : bytes_ok data -> bytes_ok e -> length data = length e ->
  crc16 (flip data e) = N.lxor (crc16 data) (fold_left s16 (bits_of e) 0).
Proof.
  intros Hd He Hl. rewrite !crc16_s by auto using flip_ok. rewrite bits_flip by assumption.
  rewrite <- (N.lxor_0_r 65535) at 1. unfold s16. rewrite fold_s_xor by (reflexivity || (rewrite !bits_of_length; lia)). reflexivity.
Qed.

Lemma lxor_ne a b : b <> 0 -> N.lxor a b <> a.
Proof.
  intros Hb H. apply Hb. rewrite <- (N.lxor_0_l b), <- (N.lxor_nilpotent a), N.lxor_assoc, H. reflexivity.
Qed.

(** How long it takes for the register to return to its top bit. *)
Fixpoint no_return (f : N -> N) (t : N) (n : nat) (c : N) : bool :=
  match n with
  | O => true
  | S n' => let c := f c in if c =? t then false else no_return f t n' c
  end.
Lemma no_return_ok f t n : forall c, no_return f t n c = true ->
  forall k, (0 < k <= n)%nat -> iter k f c <> t.
Proof.
  induction n as [|n IH]; intros c H k Hk; [lia|]. cbn [no_return] in H.
  destruct (N.eqb_spec (f c) t) as [He|He]; [discriminate|].
  destruct k as [|k]; [lia|]. cbn [iter]. destruct k as [|k]; [assumption|]. apply IH; [assumption|lia].
Qed.

(** The shift written so that it is quick to evaluate. *)
Definition step16 (c : N) : N := if 32768 <=? c then N.lxor (2 * c - 65536) 4129 else 2 * c.
Lemma step16_g c : c < 65536 -> g 15 0x1021 c = step16 c.
Proof.
  intros H. unfold g, step16, W. change (2 ^ N.of_nat 16) with 65536. change (N.of_nat 15) with 15.
  rewrite N.testbit_eqb. change (2 ^ 15) with 32768.
  destruct (N.leb_spec 32768 c) as [Hc|Hc].
  - replace (c / 32768) with 1 by (apply N.div_unique with (r := c - 32768); lia). cbn [N.modulo N.eqb].
    replace ((2 * c) mod 65536) with (2 * c - 65536); [reflexivity|].
    apply N.mod_unique with (q := 1); lia.
  - rewrite N.div_small by assumption. rewrite N.mod_small by lia. apply N.lxor_0_r.
Qed.

Lemma no_return_8 : forall k, (0 < k <= 126)%nat -> iter k (g 7 0x31) (top 7) <> top 7.
Proof. apply no_return_ok. vm_compute. reflexivity. Qed.
Lemma no_return_16 : forall k, (0 < k <= N.to_nat 32766)%nat -> iter k (g 15 0x1021) (top 15) <> top 15.
Proof.
  intros k Hk. change (top 15) with 32768. rewrite (iter_ext _ step16 (fun c => c < 65536)).
  - revert k Hk. apply no_return_ok. vm_compute. reflexivity.
  - apply step16_g.
  - intros c Hc. rewrite <- step16_g by assumption. apply (g_lt 15). reflexivity.
  - reflexivity.
Qed.

Definition detectable8 (l : list bool) : Prop := burst 8 l \/ odd_errors l \/ two_errors 126 l.
Definition detectable16 (l : list bool) : Prop := burst 16 l \/ odd_errors l \/ two_errors (N.to_nat 32766) l.

Lemma detect8 data e : bytes_ok data -> bytes_ok e -> length data = length e -> detectable8 (bits_of e) ->
  crc8 (flip data e) <> crc8 data.
Proof.
  intros Hd He Hl H. rewrite crc8_flip by assumption. apply lxor_ne. unfold s8. destruct H as [H|[H|H]].
  - apply burst_nonzero; auto; reflexivity.
  - apply odd_nonzero; auto; reflexivity.
  - apply two_nonzero with 126%nat; auto; try reflexivity. exact no_return_8.
Qed.
Lemma detect16 data e : bytes_ok data -> bytes_ok e -> length data = length e -> detectable16 (bits_of e) ->
  crc16 (flip data e) <> crc16 data.
Proof.
  intros Hd He Hl H. rewrite crc16_flip by assumption. apply lxor_ne. unfold s16. destruct H as [H|[H|H]].
  - apply burst_nonzero; auto; reflexivity.
  - apply odd_nonzero; auto; reflexivity.
  - apply two_nonzero with (N.to_nat 32766); auto; try reflexivity. exact no_return_16.
Qed.

(** The texts of floats in JSON: C92. *)
From Coq Require Import String NArith ZArith Reals Lia Lra List Bool.
From Flocq Require Import Core BinarySingleNaN.
From Verif Require Import GoBase BaseFacts GoFloat NumText SpecNum NumFacts NumTextFacts.
Import ListNotations.
Open Scope N_scope.

(** ** C92 *)
(** Whoever reads the text of a float gets that float, and nothing else. *)
Theorem C92_float64_is_read_back : forall x, is_finite x = true ->
  reads64 (text64 x) x /\ forall y, reads64 (text64 x) y -> y = x.
Proof.
  intros x Hx. split; [apply text64_reads, Hx|]. intros y Hy. apply (reads64_det _ _ _ Hy), text64_reads, Hx.
Qed.
Theorem C92_float32_is_read_back : forall n, n < 4294967296 -> finite32 n ->
  reads32 (text32 n) n /\ forall n', reads32 (text32 n) n' -> n' = n.
Proof.
  intros n Hn Hf. split; [apply text32_reads; assumption|]. intros y Hy. apply (reads32_det _ _ _ Hy), text32_reads; assumption.
Qed.

(** Different floats have different texts. *)
Theorem C92_float64_texts_differ : forall x y, is_finite x = true -> is_finite y = true -> text64 x = text64 y -> x = y.
Proof.
  intros x y Hx Hy H. apply (C92_float64_is_read_back y Hy). rewrite <- H. apply text64_reads, Hx.
Qed.
Theorem C92_float32_texts_differ : forall n n', n < 4294967296 -> n' < 4294967296 -> finite32 n -> finite32 n' ->
  text32 n = text32 n' -> n = n'.
Proof.
  intros n n' Hn Hn' Hf Hf' H. apply (C92_float32_is_read_back n' Hn' Hf'). rewrite <- H. apply text32_reads; assumption.
Qed.

(** As few digits as possible: the text stands for k * 10^q, and no decimal that is read as the same
    float has fewer digits than k; among the multiples of 10^q it is nearest to the float. *)
Definition shortest_for (p emin : Z) (t : bytes) (x : R) : Prop := exists neg d r k q,
  decimal_of t neg d r /\ dec_value d r = dec_value k q /\
  (forall d' r' n, nearest p emin (dec_value d' r') = Rabs x -> d' < 10 ^ n -> k < 10 ^ n) /\
  (forall d', nearest p emin (dec_value d' q) = Rabs x ->
    (Rabs (dec_value k q - Rabs x) <= Rabs (dec_value d' q - Rabs x))%R).

Lemma dec_fewer k d n : (length (dec k) <= length (dec d))%nat -> 0 < d -> d < 10 ^ n -> k < 10 ^ n.
Proof.
  intros Hl Hd H. destruct (dec_bounds k) as [K1 _]. destruct (dec_bounds d) as [_ D2]. specialize (D2 Hd).
  assert (10 ^ N.of_nat (length (dec d) - 1) < 10 ^ n) as L by lia. apply N.pow_lt_mono_r_iff in L; [|lia].
  apply N.lt_le_trans with (10 ^ N.of_nat (length (dec k))); [exact K1|]. apply N.pow_le_mono_r; lia.
Qed.

Lemma float_text_shortest p emin small large neg m e : (2 <= p)%Z -> canon p emin m e ->
  shortest_for p emin (float_text p emin small large neg m e) (signed neg (F2R (Float radix2 (Z.of_N m) e))).
Proof.
  intros Hp Hc. destruct (float_text_decimal p emin small large neg m e Hp Hc) as (d & r & H1 & H2 & H3).
  assert (Rabs (signed neg (F2R (Float radix2 (Z.of_N m) e))) = F2R (Float radix2 (Z.of_N m) e)) as Ha.
  { assert (0 <= F2R (Float radix2 (Z.of_N m) e))%R by (apply F2R_ge_0; cbn; lia). destruct neg; cbn [signed]; [rewrite Rabs_Ropp|]; apply Rabs_pos_eq; assumption. }
  unfold shortest_for. rewrite Ha. destruct (N.eq_dec m 0) as [->|Hm].
  - exists neg, d, r, 0, 0%Z. assert (dec_value 0 0 = 0%R) as Z0 by (unfold dec_value; cbn; lra).
    split; [exact H1|]. split; [rewrite (H2 eq_refl), Z0; reflexivity|]. split.
    + intros d' r' n _ L. lia.
    + intros d' _. rewrite Z0. unfold F2R. cbn [Fnum Z.of_N]. rewrite Rmult_0_l, Rminus_0_r, Rabs_R0. apply Rabs_pos.
  - destruct (H3 Hm) as (k & q & (K1 & _ & K3 & K4 & K5) & E). exists neg, d, r, k, q. split; [exact H1|]. split; [exact E|]. split; [|exact K5].
    intros d' r' n Hd L. eapply dec_fewer; [apply (K4 d' r' Hd)| |exact L].
    destruct (N.eq_dec d' 0) as [->|]; [exfalso|lia].
    assert (dec_value 0 r' = 0%R) as Z0 by (unfold dec_value; cbn; lra). rewrite Z0, nearest_0 in Hd.
    assert (0 < F2R (Float radix2 (Z.of_N m) e))%R by (apply F2R_gt_0; cbn; lia). lra.
Qed.

Theorem C92_float64_shortest : forall x, is_finite x = true -> shortest_for 53 (-1074) (text64 x) (B2R x).
Proof.
  intros x Hx. pose proof (parts64_ok x Hx) as H. destruct (parts64 x) as [[s m] e]. destruct H as (H1 & _ & -> & ->).
  apply float_text_shortest; [lia|exact H1].
Qed.
Theorem C92_float32_shortest : forall n, n < 4294967296 -> finite32 n -> shortest_for 24 (-149) (text32 n) (real32 n).
Proof.
  intros n Hn _. rewrite (text32_is n Hn). pose proof (parts32_canon n) as Hc. pose proof (parts32_real n) as Hr. destruct (parts32 n) as [m e].
  rewrite Hr. apply float_text_shortest; [lia|exact Hc].
Qed.

(** Plain notation for zero and from 1e-6 up to 1e21, an exponent otherwise. *)
Lemma float_text_notation p emin small large neg m e : (2 <= p)%Z -> canon p emin m e ->
  let t := float_text p emin small large neg m e in
  let x := signed neg (F2R (Float radix2 (Z.of_N m) e)) in
  let plain := (x = 0 \/ F2R (Float radix2 (Z.of_N (fst small)) (snd small)) <= Rabs x < F2R (Float radix2 (Z.of_N (fst large)) (snd large)))%R in
  (plain -> plain_form t) /\ (~ plain -> exp_form t).
Proof.
  intros Hp Hc t x plain.
  assert (Rabs x = F2R (Float radix2 (Z.of_N m) e)) as Ha.
  { assert (0 <= F2R (Float radix2 (Z.of_N m) e))%R by (apply F2R_ge_0; cbn; lia). unfold x. destruct neg; cbn [signed]; [rewrite Rabs_Ropp|]; apply Rabs_pos_eq; assumption. }
  assert (plain <-> ~ In 101 t) as Hn.
  { unfold plain. rewrite Ha. destruct (N.eq_dec m 0) as [->|Hm].
    - split; [intros _|intros _; left].
      + unfold t, float_text. cbn. destruct neg; cbn; intuition discriminate.
      + unfold x, F2R. cbn [Fnum Z.of_N]. destruct neg; cbn [signed]; lra.
    - unfold t. rewrite float_text_plain by exact Hm. split; [|right; assumption]. intros [K|K]; [exfalso|exact K].
      assert (0 < F2R (Float radix2 (Z.of_N m) e))%R by (apply F2R_gt_0; cbn; lia). rewrite K, Rabs_R0 in Ha. lra. }
  destruct (float_text_form p emin small large neg m e Hp Hc) as [K|K]; fold t in K.
  - split; [intros _; exact K|]. intros N. exfalso. apply N, Hn, plain_form_no_e, K.
  - split; [|intros _; exact K]. intros P. exfalso. apply Hn in P. apply P, exp_form_e, K.
Qed.

Theorem C92_float64_notation : forall x, is_finite x = true ->
  let plain := (B2R x = 0 \/ nearest 53 (-1074) (dec_value 1 (-6)) <= Rabs (B2R x) < nearest 53 (-1074) (dec_value 1 21))%R in
  (plain -> plain_form (text64 x)) /\ (~ plain -> exp_form (text64 x)).
Proof.
  intros x Hx. pose proof (parts64_ok x Hx) as H. destruct (parts64 x) as [[s m] e]. destruct H as (H1 & _ & -> & ->).
  rewrite <- (constant 53 (-1074) 4722366482869645 (-72) 1 (-6)), <- (constant 53 (-1074) 7629394531250000 17 1 21);
    try lia; try (vm_compute; reflexivity); try (unfold canon; lia).
  apply (float_text_notation 53 (-1074) (4722366482869645, (-72)%Z) (7629394531250000, 17%Z)); [lia|exact H1].
Qed.
Theorem C92_float32_notation : forall n, n < 4294967296 -> finite32 n ->
  let plain := (real32 n = 0 \/ nearest 24 (-149) (dec_value 1 (-6)) <= Rabs (real32 n) < nearest 24 (-149) (dec_value 1 21))%R in
  (plain -> plain_form (text32 n)) /\ (~ plain -> exp_form (text32 n)).
Proof.
  intros n Hn _. rewrite (text32_is n Hn). pose proof (parts32_canon n) as Hc. pose proof (parts32_real n) as Hr. destruct (parts32 n) as [m e].
  rewrite Hr, <- (constant 24 (-149) 8796093 (-43) 1 (-6)), <- (constant 24 (-149) 14210855 46 1 21);
    try lia; try (vm_compute; reflexivity); try (unfold canon; lia).
  apply (float_text_notation 24 (-149) (8796093, (-43)%Z) (14210855, 46%Z)); [lia|exact Hc].
Qed.

(** ** Concrete cases *)
(** 55.55389, the smallest and the largest float64, -0.0, 1e21 and the float64 before it. *)
Definition f64_ex (s : bool) (m : positive) (e : Z) (H : SpecFloat.bounded prec emax m e = true) : f64 := B754_finite s m e H.
Example C92_float64_example :
  map (fun x => (is_finite x, string_of_bytes (text64 x)))
    [f64_ex false 7818514946968173 (-47) eq_refl; f64_ex true 1 (-1074) eq_refl; f64_ex false 9007199254740991 971 eq_refl; B754_zero true;
     f64_ex false 7629394531250000 17 eq_refl; f64_ex false 7629394531249999 17 eq_refl] =
  [(true, "55.55389"); (true, "-5e-324"); (true, "1.7976931348623157e+308"); (true, "-0"); (true, "1e+21"); (true, "999999999999999900000")]%string.
Proof. vm_compute. reflexivity. Qed.
(** 12.5, the smallest float32, 1e-6 and the float32 before it. *)
Example C92_float32_example :
  map (fun n => string_of_bytes (text32 n)) [1095237632; 1; 897988541; 897988540] = ["12.5"; "1e-45"; "0.000001"; "9.999999e-7"]%string.
Proof. vm_compute. reflexivity. Qed.
Example C92_finite32_example : Forall (fun n => n < 4294967296 /\ finite32 n) [1095237632; 1; 897988541; 897988540].
Proof. repeat constructor; unfold finite32; vm_compute; discriminate. Qed.

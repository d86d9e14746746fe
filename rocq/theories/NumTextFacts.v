(** What the texts of floats stand for. *)
From Coq Require Import NArith ZArith Reals Lia Lra List Bool.
From Flocq Require Import Core BinarySingleNaN.
From Verif Require Import GoBase BaseFacts GoFloat NumText SpecNum NumFacts.
Import ListNotations.
Open Scope N_scope.

(** ** A text stands for one number *)
Lemma digits_split i x i' x' : Forall is_digit i -> Forall is_digit i' ->
  (forall c r, x = c :: r -> ~ is_digit c) -> (forall c r, x' = c :: r -> ~ is_digit c) -> i ++ x = i' ++ x' -> i = i' /\ x = x'.
Proof. apply prefix_unamb. Qed.

Lemma exp_of_start e z : exp_of e z -> forall c r, e = c :: r -> c = 101 \/ c = 69.
Proof. intros [[-> _]|(x & s & u & -> & H & _)] c r E; [discriminate|]. injection E as -> _. exact H. Qed.
Lemma frac_of_start f u e z : frac_of f u -> exp_of e z -> forall c r, f ++ e = c :: r -> ~ is_digit c.
Proof.
  intros [[-> _]|[-> _]] He c r E; unfold is_digit.
  - destruct (exp_of_start _ _ He _ _ E); lia.
  - injection E as <- _. lia.
Qed.
Lemma exp_of_det e z z' : exp_of e z -> exp_of e z' -> z = z'.
Proof.
  intros [[-> ->]|(x & s & u & -> & Hx & [Hn Hu] & H)] [[E ->]|(x' & s' & u' & E & Hx' & [Hn' Hu'] & H')]; try discriminate; [reflexivity|].
  cbn [app] in E. injection E as -> E. apply Forall_inv in Hu as Hd || idtac.
  assert (forall c r, u = c :: r -> is_digit c) as D by (intros c r ->; apply Forall_inv in Hu; exact Hu).
  assert (forall c r, u' = c :: r -> is_digit c) as D' by (intros c r ->; apply Forall_inv in Hu'; exact Hu').
  unfold is_digit in *.
  destruct u as [|c u]; [congruence|]. destruct u' as [|c' u']; [congruence|]. specialize (D _ _ eq_refl). specialize (D' _ _ eq_refl).
  destruct H as [[[-> | ->] ->]|[-> ->]], H' as [[[-> | ->] ->]|[-> ->]]; cbn [app] in E; injection E; intros; subst; try lia; reflexivity.
Qed.

Lemma decimal_of_det t neg d q neg' d' q' : decimal_of t neg d q -> decimal_of t neg' d' q' -> neg = neg' /\ d = d' /\ q = q'.
Proof.
  intros (i & f & e & u & z & E & (n & Hi) & Hf & He & -> & ->) (i' & f' & e' & u' & z' & E' & (n' & Hi') & Hf' & He' & -> & ->).
  rewrite E in E'. clear E t. destruct Hi as (I1 & I2 & _ & _), Hi' as (I1' & I2' & _ & _).
  assert (forall c r, i = c :: r -> c <> 45) as Ni by (intros c r ->; apply Forall_inv in I2; unfold is_digit in I2; lia).
  assert (forall c r, i' = c :: r -> c <> 45) as Ni' by (intros c r ->; apply Forall_inv in I2'; unfold is_digit in I2'; lia).
  assert (neg = neg' /\ i ++ f ++ e = i' ++ f' ++ e') as [-> E].
  { destruct i as [|c i]; [congruence|]. destruct i' as [|c' i']; [congruence|]. specialize (Ni _ _ eq_refl). specialize (Ni' _ _ eq_refl).
    destruct neg, neg'; cbn [app] in E' |- *; try (injection E'; intros; congruence); split; try reflexivity; [injection E' as -> ->; reflexivity|exact E']. }
  clear E'. split; [reflexivity|].
  destruct (digits_split _ _ _ _ I2 I2' (frac_of_start _ _ _ _ Hf He) (frac_of_start _ _ _ _ Hf' He') E) as [<- E2].
  assert (u = u' /\ e = e') as [<- <-].
  { destruct Hf as [[-> ->]|[-> [_ Hu]]], Hf' as [[-> ->]|[-> [_ Hu']]]; cbn [app] in E2.
    - auto.
    - destruct (exp_of_start _ _ He _ _ E2); discriminate.
    - symmetry in E2. destruct (exp_of_start _ _ He' _ _ E2); discriminate.
    - injection E2 as E2. apply digits_split in E2; try assumption.
      + intros c r Er. unfold is_digit. destruct (exp_of_start _ _ He _ _ Er); lia.
      + intros c r Er. unfold is_digit. destruct (exp_of_start _ _ He' _ _ Er); lia. }
  rewrite (exp_of_det _ _ _ He He'). auto.
Qed.

Lemma decimal_number t neg d q : decimal_of t neg d q -> number t.
Proof.
  intros (i & f & e & u & z & E & Hi & Hf & He & _ & _). exists (if neg then [45] else []), i, f, e. split; [exact E|].
  split; [destruct neg; auto|]. split; [exact Hi|]. split.
  - destruct Hf as [[-> _]|[-> Hu]]; [left; reflexivity|right; eauto].
  - destruct He as [[-> _]|(x & s & w & -> & Hx & Hw & H)]; [left; reflexivity|right]. exists x, s, w. tauto.
Qed.

(** ** The two notations *)
Lemma zeros_digits n : Forall is_digit (zeros n).
Proof. unfold zeros. induction (Z.to_nat n); constructor; [unfold is_digit; lia|assumption]. Qed.
Lemma value10_zeros n : value10 (zeros n) = 0.
Proof.
  unfold zeros. induction (Z.to_nat n) as [|k IH]; [reflexivity|]. cbn [repeat]. change (48 :: repeat 48 k) with ([48] ++ repeat 48 k).
  rewrite value10_app, IH. reflexivity.
Qed.
Lemma zeros_length n : length (zeros n) = Z.to_nat n.
Proof. apply repeat_length. Qed.
Lemma dec_head k : 0 < k -> hd 0 (dec k) <> 48.
Proof.
  intros Hk H. destruct (dec_text k) as (_ & _ & H3 & H4). rewrite (H3 H) in H4. cbn in H4. lia.
Qed.
Lemma digits_app a b : Forall is_digit a -> Forall is_digit b -> a ++ b <> [] -> digits (a ++ b).
Proof. intros H K N. split; [exact N|apply Forall_app; auto]. Qed.

Lemma fmtF_decimal (neg : bool) k q : 0 < k -> exists d r, decimal_of ((if neg then [45] else []) ++ fmtF (dec k) (Z.of_nat (length (dec k)) + q)) neg d r /\
  dec_value d r = dec_value k q.
Proof.
  intros Hk. destruct (dec_text k) as (D1 & D2 & D3 & D4). pose proof (dec_head k Hk) as Dh. pose proof (dec_nonempty k) as Dn.
  unfold fmtF. set (nd := Z.of_nat (length (dec k))). destruct (Z.leb_spec (nd + q) 0) as [L|L]; [|destruct (Z.leb_spec nd (nd + q)) as [L2|L2]].
  - exists k, q. split; [|reflexivity].
    exists [48], (46 :: zeros (- (nd + q)) ++ dec k), [], (zeros (- (nd + q)) ++ dec k), 0%Z.
    split; [rewrite app_nil_r; reflexivity|]. split; [exists 0; repeat split; try discriminate; constructor; [unfold is_digit; lia|constructor]|].
    split; [right; split; [reflexivity|]; apply digits_app; [apply zeros_digits|exact D2|]; destruct (zeros _); [exact D1|discriminate]|].
    split; [left; auto|]. split.
    + rewrite !value10_app, value10_zeros, D4. change (value10 [48]) with 0. lia.
    + rewrite app_length, zeros_length. lia.
  - exists (k * 10 ^ Z.to_N q), 0%Z. split.
    + exists (dec k ++ zeros (nd + q - nd)), [], [], [], 0%Z. split; [rewrite !app_nil_r; reflexivity|].
      split; [|split; [left; auto|split; [left; auto|split; [|reflexivity]]]].
      * exists (k * 10 ^ Z.to_N q). split; [destruct (dec k); [congruence|discriminate]|]. split; [apply Forall_app; split; [exact D2|apply zeros_digits]|].
        split; [intros H; destruct (dec k); [congruence|cbn in H; cbn in Dh; congruence]|].
        rewrite value10_app, value10_zeros, zeros_length, D4, N.add_0_r. do 2 f_equal. lia.
      * rewrite app_nil_r, value10_app, value10_zeros, zeros_length, D4, N.add_0_r. do 2 f_equal. lia.
    + unfold dec_value. rewrite N2Z.inj_mul, mult_IZR. replace q with (Z.of_nat (Z.to_nat q)) at 2 by lia. rewrite p10_nat.
      replace (N.of_nat (Z.to_nat q)) with (Z.to_N q) by lia. cbn [powerRZ]. ring.
  - exists k, q. split; [|reflexivity].
    set (n := Z.to_nat (nd + q)). assert (0 < n < length (dec k))%nat as Hn by lia.
    pose proof (firstn_skipn n (dec k)) as Es. assert (length (firstn n (dec k)) = n) as Lf by (rewrite firstn_length; lia).
    assert (length (skipn n (dec k)) = length (dec k) - n)%nat as Ls by apply skipn_length.
    assert (Forall is_digit (firstn n (dec k)) /\ Forall is_digit (skipn n (dec k))) as [F1 F2] by (apply Forall_app; rewrite Es; exact D2).
    exists (firstn n (dec k)), (46 :: skipn n (dec k)), [], (skipn n (dec k)), 0%Z. split; [rewrite app_nil_r; reflexivity|].
    split; [|split; [right; split; [reflexivity|split; [intros E0; rewrite E0 in Ls; cbn [length] in Ls; lia|exact F2]]|split; [left; auto|]]].
    + exists (value10 (firstn n (dec k))). split; [intros E0; rewrite E0 in Lf; cbn [length] in Lf; lia|]. split; [exact F1|]. split; [|reflexivity].
      intros H. exfalso. apply Dh. rewrite <- Es. destruct (firstn n (dec k)); [cbn [length] in Lf; lia|exact H].
    + rewrite Es, Ls. split; [symmetry; exact D4|]. lia.
Qed.

Lemma fmtE_decimal (neg : bool) k q : 0 < k -> decimal_of ((if neg then [45] else []) ++ fmtE (dec k) (Z.of_nat (length (dec k)) + q)) neg k q.
Proof.
  intros Hk. destruct (dec_text k) as (D1 & D2 & D3 & D4). pose proof (dec_head k Hk) as Dh. pose proof (dec_nonempty k) as Dn.
  unfold fmtE. set (z := (Z.of_nat (length (dec k)) + q - 1)%Z). set (a := Z.to_N (Z.abs z)).
  destruct (dec_text a) as (A1 & A2 & A3 & A4).
  destruct (dec k) as [|c r] eqn:Ek; [congruence|]. cbn [firstn skipn]. cbn [length] in *. apply Forall_cons_iff in D2 as [Dc Dr].
  exists [c], (match r with [] => [] | _ => 46 :: r end), ([101] ++ (if (z <? 0)%Z then 45 :: dec a else 43 :: (if a <? 10 then [48] else []) ++ dec a)), r, z.
  split; [destruct r; reflexivity|]. split; [|split; [|split; [|split; [|unfold z; lia]]]].
  - exists (c - 48). split; [discriminate|]. split; [constructor; [exact Dc|constructor]|]. split; [intros H; cbn in H; cbn in Dh; congruence|]. cbn. lia.
  - destruct r as [|c' r]; [left; auto|right]. split; [reflexivity|]. split; [discriminate|exact Dr].
  - right. destruct (Z.ltb_spec z 0).
    + exists 101, [45], (dec a). split; [reflexivity|]. split; [auto|]. split; [split; assumption|]. right. split; [reflexivity|]. rewrite A4. unfold a. lia.
    + exists 101, [43], ((if a <? 10 then [48] else []) ++ dec a). split; [reflexivity|]. split; [auto|]. split.
      * apply digits_app; [destruct (a <? 10); repeat constructor; unfold is_digit; lia|exact A2|]. destruct (a <? 10); [discriminate|exact A1].
      * left. split; [auto|]. rewrite value10_app, A4. destruct (a <? 10); cbn -[N.mul N.pow]; lia.
  - change ([c] ++ r) with (c :: r). symmetry. exact D4.
Qed.

(** ** The text of a float *)
(** The mantissas and exponents of floats: canonical. *)
Definition canon (p emin : Z) (m : N) (e : Z) : Prop :=
  (Z.of_N m < 2 ^ p)%Z /\ (emin <= e)%Z /\ (2 ^ (p - 1) <= Z.of_N m \/ e = emin)%Z.

Lemma float_text_decimal p emin small large neg m e : (2 <= p)%Z -> canon p emin m e ->
  exists d q, decimal_of (float_text p emin small large neg m e) neg d q /\
    (m = 0 -> dec_value d q = 0%R) /\
    (m <> 0 -> exists k r, as_short p emin m e k r /\ dec_value d q = dec_value k r).
Proof.
  intros Hp (C1 & C2 & C3). unfold float_text. destruct (N.eqb_spec m 0) as [->|Hm].
  - exists 0, 0%Z. split; [|split; [intros _; unfold dec_value; cbn; lra|congruence]].
    exists [48], [], [], [], 0%Z. split; [reflexivity|]. split; [exists 0; repeat split; try discriminate; constructor; [unfold is_digit; lia|constructor]|].
    split; [left; auto|]. split; [left; auto|]. split; reflexivity.
  - destruct (shortest p emin m e) as [k r] eqn:Es.
    pose proof (shortest_is p emin m e Hp ltac:(lia) C2 C3 k r Es) as Hs.
    assert (0 < k) as Hk by apply Hs.
    destruct (_ || _).
    + exists k, r. split; [apply fmtE_decimal, Hk|]. split; [congruence|]. eauto.
    + destruct (fmtF_decimal neg k r Hk) as (d & q & H1 & H2). exists d, q. split; [exact H1|]. split; [congruence|]. eauto.
Qed.

Lemma canon_bounded m e (H : SpecFloat.bounded prec emax m e = true) : canon 53 (-1074) (Npos m) e.
Proof.
  apply andb_prop in H as [H _]. apply Zeq_bool_eq in H. unfold SpecFloat.fexp, SpecFloat.emin, prec, emax in H.
  rewrite Zpos_digits2_pos in H. pose proof (Zdigits_correct radix2 (Zpos m)) as [D1 D2]. cbn [Z.abs] in D1, D2.
  change (Zpower radix2) with (Z.pow 2) in *. assert (0 < Zdigits radix2 (Zpos m))%Z as D0 by (apply Zdigits_gt_0; discriminate).
  set (g := Zdigits radix2 (Zpos m)) in *. change (Z.of_N (N.pos m)) with (Zpos m).
  assert (g <= 53)%Z by lia. split; [|split; [lia|]].
  - apply Z.lt_le_trans with (2 ^ g)%Z; [exact D2|]. apply Z.pow_le_mono_r; lia.
  - destruct (Z.eq_dec e (-1074)) as [|He]; [right; assumption|left]. assert (g = 53)%Z as Eg by lia. rewrite Eg in D1. exact D1.
Qed.

Definition parts64 (x : f64) : bool * N * Z :=
  match x with B754_finite s m e _ => (s, Npos m, e) | _ => (Bsign x, 0, (-1074)%Z) end.

Lemma parts64_ok x : is_finite x = true -> let '(s, m, e) := parts64 x in
  canon 53 (-1074) m e /\ Bsign x = s /\ B2R x = signed s (F2R (Float radix2 (Z.of_N m) e)) /\
  text64 x = float_text 53 (-1074) (4722366482869645, (-72)%Z) (7629394531250000, 17%Z) s m e.
Proof.
  destruct x as [s|s| |s m e H]; intros Hf; try discriminate; cbn [parts64 Bsign].
  - split; [repeat split; try lia|]. split; [reflexivity|]. split; [|reflexivity]. cbn [B2R]. unfold F2R. cbn [Fnum Fexp Z.of_N].
    destruct s; cbn [signed]; ring.
  - split; [apply (canon_bounded m e H)|]. split; [reflexivity|]. split; [|reflexivity]. cbn [B2R].
    destruct s; cbn [signed cond_Zopp Z.of_N]; [|reflexivity]. change (Z.neg m) with (- Z.pos m)%Z. apply F2R_Zopp.
Qed.

Lemma nearest_signed p emin s r : nearest p emin (signed s r) = signed s (nearest p emin r).
Proof. unfold nearest. destruct s; cbn [signed]; [apply round_NE_opp|reflexivity]. Qed.

Lemma nearest_0 p emin : nearest p emin 0 = 0%R.
Proof. unfold nearest. apply round_0. exact _. Qed.

Lemma float_text_reads p emin small large neg m e : (2 <= p)%Z -> canon p emin m e ->
  exists d q, decimal_of (float_text p emin small large neg m e) neg d q /\
    nearest p emin (signed neg (dec_value d q)) = signed neg (F2R (Float radix2 (Z.of_N m) e)).
Proof.
  intros Hp Hc. destruct (float_text_decimal p emin small large neg m e Hp Hc) as (d & q & H1 & H2 & H3). exists d, q. split; [exact H1|].
  rewrite nearest_signed. f_equal. destruct (N.eq_dec m 0) as [->|Hm].
  - rewrite (H2 eq_refl), nearest_0. unfold F2R. cbn [Fnum Z.of_N]. ring.
  - destruct (H3 Hm) as (k & r & (_ & _ & Hr & _) & ->). exact Hr.
Qed.

Theorem text64_reads x : is_finite x = true -> reads64 (text64 x) x.
Proof.
  intros Hf. pose proof (parts64_ok x Hf) as H. destruct (parts64 x) as [[s m] e]. destruct H as (H1 & H2 & H3 & H4).
  destruct (float_text_reads 53 (-1074) (4722366482869645, (-72)%Z) (7629394531250000, 17%Z) s m e ltac:(lia) H1) as (d & q & D1 & D2).
  exists s, d, q. rewrite H4. split; [exact D1|]. split; [exact Hf|]. split; [exact H2|]. rewrite H3. symmetry. exact D2.
Qed.

Theorem reads64_det t x y : reads64 t x -> reads64 t y -> x = y.
Proof.
  intros (n & d & q & H1 & H2 & H3 & H4) (n' & d' & q' & K1 & K2 & K3 & K4).
  destruct (decimal_of_det _ _ _ _ _ _ _ H1 K1) as (-> & -> & ->). apply B2R_Bsign_inj; congruence.
Qed.

Lemma reads64_number t x : reads64 t x -> number t.
Proof. intros (n & d & q & H & _). eapply decimal_number, H. Qed.

(** ** float32 *)
Definition parts32 (n : N) : N * Z :=
  if n / 8388608 mod 256 =? 0 then (n mod 8388608, (-149)%Z) else (n mod 8388608 + 8388608, (Z.of_N (n / 8388608 mod 256) - 150)%Z).

Lemma parts32_canon n : let (m, e) := parts32 n in canon 24 (-149) m e.
Proof.
  unfold parts32. pose proof (N.mod_lt n 8388608 ltac:(lia)). pose proof (N.mod_lt (n / 8388608) 256 ltac:(lia)).
  destruct (N.eqb_spec (n / 8388608 mod 256) 0); unfold canon; change (2 ^ 24)%Z with 16777216%Z; change (2 ^ (24 - 1))%Z with 8388608%Z; lia.
Qed.

Lemma parts32_real n : let (m, e) := parts32 n in real32 n = signed (n / 2147483648 =? 1) (F2R (Float radix2 (Z.of_N m) e)).
Proof.
  unfold parts32, real32. destruct (N.eqb_spec (n / 8388608 mod 256) 0); unfold F2R; cbn [Fnum Fexp]; rewrite bpow_powerRZ; [reflexivity|].
  rewrite N.add_comm. reflexivity.
Qed.

Lemma text32_is n : n < 4294967296 ->
  text32 n = let (m, e) := parts32 n in float_text 24 (-149) (8796093, (-43)%Z) (14210855, 46%Z) (n / 2147483648 =? 1) m e.
Proof.
  intros Hn. unfold text32, parts32. rewrite N.shiftr_div_pow2. change (2 ^ 23) with 8388608.
  assert (N.testbit n 31 = (n / 2147483648 =? 1)) as ->.
  { rewrite N.testbit_eqb. change (2 ^ 31) with 2147483648. assert (n / 2147483648 < 2) by (apply N.div_lt_upper_bound; lia).
    rewrite N.mod_small by assumption. reflexivity. }
  destruct (_ =? 0); reflexivity.
Qed.

Theorem text32_reads n : n < 4294967296 -> finite32 n -> reads32 (text32 n) n.
Proof.
  intros Hn Hf. rewrite (text32_is n Hn). pose proof (parts32_canon n) as Hc. pose proof (parts32_real n) as Hr. destruct (parts32 n) as [m e].
  destruct (float_text_reads 24 (-149) (8796093, (-43)%Z) (14210855, 46%Z) (n / 2147483648 =? 1) m e ltac:(lia) Hc) as (d & q & D1 & D2).
  exists (n / 2147483648 =? 1), d, q. repeat (split; [assumption || reflexivity|]). congruence.
Qed.

Lemma canon_inj p emin m e m' e' : (2 <= p)%Z -> canon p emin m e -> canon p emin m' e' ->
  F2R (Float radix2 (Z.of_N m) e) = F2R (Float radix2 (Z.of_N m') e') -> m = m' /\ (m <> 0 -> e = e').
Proof.
  intros Hp (A1 & A2 & A3) (B1 & B2 & B3) H.
  destruct (N.eq_dec m 0) as [->|Hm], (N.eq_dec m' 0) as [->|Hm'].
  - split; congruence.
  - exfalso. assert (0 < F2R (Float radix2 (Z.of_N m') e'))%R by (apply F2R_gt_0; cbn; lia). rewrite <- H in H0. unfold F2R in H0. cbn [Fnum Z.of_N] in H0. lra.
  - exfalso. assert (0 < F2R (Float radix2 (Z.of_N m) e))%R by (apply F2R_gt_0; cbn; lia). rewrite H in H0. unfold F2R in H0. cbn [Fnum Z.of_N] in H0. lra.
  - pose proof (canonical_unique radix2 (FLT_exp emin p) (Float radix2 (Z.of_N m) e) (Float radix2 (Z.of_N m') e')) as K.
    assert (Float radix2 (Z.of_N m) e = Float radix2 (Z.of_N m') e') as E by (apply K; [apply canon_x; lia|apply canon_x; lia|exact H]).
    injection E as E1 E2. split; [lia|auto].
Qed.

Lemma real32_inj n n' : n < 4294967296 -> n' < 4294967296 ->
  (n / 2147483648 =? 1) = (n' / 2147483648 =? 1) -> real32 n = real32 n' -> n = n'.
Proof.
  intros Hn Hn' Hs H. pose proof (parts32_canon n) as C. pose proof (parts32_canon n') as C'. pose proof (parts32_real n) as R1. pose proof (parts32_real n') as R2.
  destruct (parts32 n) as [m e] eqn:E, (parts32 n') as [m' e'] eqn:E'. rewrite R1, R2, Hs in H.
  assert (F2R (Float radix2 (Z.of_N m) e) = F2R (Float radix2 (Z.of_N m') e')) as Hv by (destruct (n' / 2147483648 =? 1); cbn [signed] in H; lra).
  destruct (canon_inj 24 (-149) _ _ _ _ ltac:(lia) C C' Hv) as [-> He]. clear H Hv R1 R2 C C'. unfold parts32 in E, E'.
  assert (forall k, k < 4294967296 -> k = (if k / 2147483648 =? 1 then 2147483648 else 0) + 8388608 * (k / 8388608 mod 256) + k mod 8388608) as Hk.
  { intros k Hk. assert (k / 2147483648 < 2) by (apply N.div_lt_upper_bound; lia).
    assert (k / 2147483648 = k / 8388608 / 256) as E2 by (rewrite N.div_div by lia; reflexivity).
    pose proof (N.div_mod (k / 8388608) 256 ltac:(lia)). pose proof (N.div_mod k 8388608 ltac:(lia)).
    destruct (N.eqb_spec (k / 2147483648) 1); lia. }
  rewrite (Hk n Hn), (Hk n' Hn'), Hs.
  assert (n / 8388608 mod 256 = n' / 8388608 mod 256 /\ n mod 8388608 = n' mod 8388608) as [-> ->]; [|reflexivity].
  pose proof (N.mod_lt n 8388608 ltac:(lia)). pose proof (N.mod_lt n' 8388608 ltac:(lia)).
  generalize dependent (n / 8388608 mod 256). generalize dependent (n' / 8388608 mod 256). generalize dependent (n mod 8388608). generalize dependent (n' mod 8388608).
  intros a Ha b Hb x Ex y Ey. destruct (N.eqb_spec y 0) as [Hy|Hy], (N.eqb_spec x 0) as [Hx|Hx]; injection Ex as <- <-; injection Ey as Ey1 Ey2; try lia.
Qed.

Theorem reads32_det t n n' : reads32 t n -> reads32 t n' -> n = n'.
Proof.
  intros (s & d & q & H1 & H2 & H3 & H4 & H5) (s' & d' & q' & K1 & K2 & K3 & K4 & K5).
  destruct (decimal_of_det _ _ _ _ _ _ _ H1 K1) as (-> & -> & ->). apply real32_inj; try assumption; congruence.
Qed.
Lemma reads32_number t n : reads32 t n -> number t.
Proof. intros (s & d & q & H & _). eapply decimal_number, H. Qed.

(** ** When there is an exponent *)
Lemma bin_lt_spec m e n f : bin_lt m e n f = true <-> (F2R (Float radix2 (Z.of_N m) e) < F2R (Float radix2 (Z.of_N n) f))%R.
Proof.
  unfold bin_lt. set (g := Z.min e f). rewrite N.ltb_lt. unfold F2R. cbn [Fnum Fexp].
  assert (forall a z, (g <= z)%Z -> (IZR (Z.of_N a) * bpow radix2 z = IZR (Z.of_N (a * 2 ^ Z.to_N (z - g))) * bpow radix2 g)%R) as K.
  { intros a z Hz. replace z with ((z - g) + g)%Z at 1 by lia. rewrite bpow_plus, N2Z.inj_mul, mult_IZR, N2Z.inj_pow, Z2N.id by lia.
    change (Z.of_N 2 ^ (z - g))%Z with (Zpower radix2 (z - g)). rewrite IZR_Zpower by lia. ring. }
  rewrite (K m e), (K n f) by lia. pose proof (bpow_gt_0 radix2 g) as Hg. split; intros H.
  - apply Rmult_lt_compat_r; [exact Hg|]. apply IZR_lt. lia.
  - apply Rmult_lt_reg_r in H; [|exact Hg]. apply lt_IZR in H. lia.
Qed.

Lemma no_e_dec n : ~ In 101 (dec n).
Proof. destruct (dec_text n) as (_ & H & _). intros K. rewrite Forall_forall in H. specialize (H _ K). unfold is_digit in H. lia. Qed.
Lemma no_e_zeros n : ~ In 101 (zeros n).
Proof. intros K. pose proof (zeros_digits n) as H. rewrite Forall_forall in H. specialize (H _ K). unfold is_digit in H. lia. Qed.
Lemma fmtF_no_e k dp : ~ In 101 (fmtF (dec k) dp).
Proof.
  pose proof (no_e_dec k) as H. unfold fmtF. destruct (_ <=? 0)%Z; [|destruct (_ <=? _)%Z].
  - cbn [app]. intros [K|[K|K]]; try discriminate. apply in_app_iff in K as [K|K]; [exact (no_e_zeros _ K)|exact (H K)].
  - intros K. apply in_app_iff in K as [K|K]; [exact (H K)|exact (no_e_zeros _ K)].
  - intros K. apply H. rewrite <- (firstn_skipn (Z.to_nat dp)). apply in_app_iff in K as [K|K]; apply in_app_iff; [left; exact K|right].
    destruct K as [K|K]; [discriminate|exact K].
Qed.
Lemma fmtE_e ds dp : In 101 (fmtE ds dp).
Proof. unfold fmtE. apply in_app_iff. right. apply in_app_iff. right. left. reflexivity. Qed.

Lemma float_text_plain p emin small large neg m e : m <> 0 -> ~ In 101 (float_text p emin small large neg m e) <->
  (F2R (Float radix2 (Z.of_N (fst small)) (snd small)) <= F2R (Float radix2 (Z.of_N m) e) < F2R (Float radix2 (Z.of_N (fst large)) (snd large)))%R.
Proof.
  intros Hm. unfold float_text. destruct (N.eqb_spec m 0); [congruence|]. destruct (shortest p emin m e) as [k r].
  set (b1 := bin_lt m e (fst small) (snd small)). set (b2 := bin_lt m e (fst large) (snd large)).
  pose proof (bin_lt_spec m e (fst small) (snd small)) as H1. pose proof (bin_lt_spec m e (fst large) (snd large)) as H2. fold b1 in H1. fold b2 in H2.
  assert ((b1 || negb b2) = false <-> (b1 = false /\ b2 = true)) as Hb by (destruct b1, b2; cbn; intuition congruence).
  assert (b1 = false <-> ~ b1 = true) as Hb1 by (destruct b1; intuition congruence).
  assert (forall s t : bytes, (s = [] \/ s = [45]) -> (In 101 (s ++ t) <-> In 101 t)) as Hs.
  { intros s t [-> | ->]; [reflexivity|]. cbn. intuition congruence. }
  assert ((if neg then [45] else []) = [] \/ (if neg then [45] else []) = [45]) as Hn by (destruct neg; auto).
  destruct (b1 || negb b2) eqn:E.
  - rewrite Hs by exact Hn. split; [intros K; exfalso; apply K, fmtE_e|]. intros [K1 K2]. exfalso.
    assert (true = false) as X; [|discriminate]. apply Hb. split; [apply Hb1; rewrite H1; lra|apply H2, K2].
  - rewrite Hs by exact Hn. destruct (proj1 Hb eq_refl) as [B1 B2]. split; [|intros _; apply fmtF_no_e]. intros _. split; [|apply H2, B2].
    apply Rnot_lt_le. rewrite <- H1. rewrite B1. discriminate.
Qed.

Lemma constant p emin m e k r : (2 <= p)%Z -> canon p emin m e -> m <> 0 -> shortest p emin m e = (k, r) ->
  F2R (Float radix2 (Z.of_N m) e) = nearest p emin (dec_value k r).
Proof.
  intros Hp (C1 & C2 & C3) Hm Hs. pose proof (shortest_is p emin m e Hp ltac:(lia) C2 C3 k r Hs) as (_ & _ & H & _). symmetry. exact H.
Qed.

(** ** The forms of the texts *)
Lemma dec_last k : k mod 10 <> 0 -> exists u c, dec k = u ++ [c] /\ Forall is_digit u /\ is_digit c /\ c <> 48.
Proof.
  intros Hk. destruct (dec_text k) as (D1 & D2 & _ & D4). destruct (exists_last D1) as (u & c & E). exists u, c. split; [exact E|].
  rewrite E in D2, D4. apply Forall_app in D2 as [D2 D3]. apply Forall_inv in D3. split; [exact D2|]. split; [exact D3|].
  intros ->. apply Hk. rewrite <- D4. unfold value10. rewrite fold_left_app. cbn [fold_left].
  replace (48 - 48) with 0 by reflexivity. rewrite N.add_0_r, N.mul_comm. apply N.mod_mul. discriminate.
Qed.

Lemma trimmed_after v u c : Forall is_digit v -> Forall is_digit u -> is_digit c -> c <> 48 -> trimmed (46 :: v ++ u ++ [c]).
Proof.
  intros Hv Hu Hc Hn. right. exists (v ++ u), c. rewrite app_assoc. split; [reflexivity|]. split; [apply Forall_app; auto|]. auto.
Qed.

Lemma fmtF_form (neg : bool) k dp : 0 < k -> k mod 10 <> 0 -> plain_form ((if neg then [45] else []) ++ fmtF (dec k) dp).
Proof.
  intros Hk Hm. destruct (dec_text k) as (D1 & D2 & D3 & D4). pose proof (dec_head k Hk) as Dh.
  destruct (dec_last k Hm) as (u & c & E & Hu & Hc & Hn).
  assert ((if neg then [45] else []) = [] \/ (if neg then [45] else []) = [45]) as Hs by (destruct neg; auto).
  unfold fmtF. destruct (Z.leb_spec dp 0) as [L|L]; [|destruct (Z.leb_spec (Z.of_nat (length (dec k))) dp) as [L2|L2]].
  - exists (if neg then [45] else []), [48], 0, (46 :: zeros (- dp) ++ dec k). split; [reflexivity|]. split; [exact Hs|].
    split; [repeat split; try discriminate; constructor; [unfold is_digit; lia|constructor]|].
    rewrite E. apply trimmed_after; try assumption. apply zeros_digits.
  - exists (if neg then [45] else []), (dec k ++ zeros (dp - Z.of_nat (length (dec k)))), (value10 (dec k ++ zeros (dp - Z.of_nat (length (dec k))))), [].
    split; [rewrite app_nil_r; reflexivity|]. split; [exact Hs|]. split; [|left; reflexivity].
    split; [destruct (dec k); [congruence|discriminate]|]. split; [apply Forall_app; split; [exact D2|apply zeros_digits]|]. split; [|reflexivity].
    destruct (dec k) as [|a r]; [congruence|]. cbn [hd app] in *. congruence.
  - set (i := Z.to_nat dp). assert (0 < i < length (dec k))%nat as Hi by lia.
    exists (if neg then [45] else []), (firstn i (dec k)), (value10 (firstn i (dec k))), (46 :: skipn i (dec k)).
    split; [reflexivity|]. split; [exact Hs|]. split.
    + split; [|split; [|split; [|reflexivity]]].
      * intros X. apply (f_equal (@length N)) in X. rewrite firstn_length in X. cbn [length] in X. lia.
      * apply Forall_forall. intros x Hx. rewrite Forall_forall in D2. apply D2. rewrite <- (firstn_skipn i). apply in_app_iff. auto.
      * destruct (dec k) as [|a r]; [congruence|]. destruct i; [lia|]. cbn [firstn hd] in *. congruence.
    + rewrite E in *. rewrite app_length in Hi. cbn [length] in Hi. rewrite skipn_app. replace (i - length u)%nat with O by lia. cbn [skipn].
      apply (trimmed_after []); [constructor| |exact Hc|exact Hn].
      apply Forall_forall. intros x Hx. rewrite Forall_forall in Hu. apply Hu. rewrite <- (firstn_skipn i). apply in_app_iff. auto.
Qed.

Lemma fmtE_form (neg : bool) k dp : 0 < k -> k mod 10 <> 0 -> exp_form ((if neg then [45] else []) ++ fmtE (dec k) dp).
Proof.
  intros Hk Hm. destruct (dec_text k) as (D1 & D2 & D3 & D4). pose proof (dec_head k Hk) as Dh.
  destruct (dec_last k Hm) as (u & c & E & Hu & Hc & Hn).
  assert ((if neg then [45] else []) = [] \/ (if neg then [45] else []) = [45]) as Hs by (destruct neg; auto).
  unfold fmtE. set (z := (dp - 1)%Z). set (a := Z.to_N (Z.abs z)).
  destruct (dec k) as [|d r] eqn:Ek; [congruence|]. cbn [firstn skipn hd] in *.
  exists (if neg then [45] else []), d, (match r with [] => [] | _ => 46 :: r end),
    (if (z <? 0)%Z then [45] else [43]), (if (z <? 0)%Z then dec a else (if a <? 10 then [48] else []) ++ dec a).
  split; [destruct (z <? 0)%Z, r; reflexivity|]. split; [exact Hs|]. split; [exact (Forall_inv D2)|]. split; [exact Dh|]. split.
  - destruct r as [|b r]; [left; reflexivity|]. destruct u as [|x u]; [discriminate E|]. injection E as -> E. rewrite E. right. exists u, c.
    split; [reflexivity|]. apply Forall_inv_tail in Hu. auto.
  - destruct (z <? 0)%Z; [left; split; [reflexivity|]; exists a; apply dec_text|right]. split; [reflexivity|].
    destruct (N.ltb_spec a 10) as [L|L]; [right|left; exists a; split; [exact L|apply dec_text]]. exists (48 + a). split.
    + unfold dec. cbn [dec_k]. rewrite (proj2 (N.ltb_lt a 10) L). reflexivity.
    + unfold is_digit. lia.
Qed.

Lemma float_text_form p emin small large neg m e : (2 <= p)%Z -> canon p emin m e ->
  plain_form (float_text p emin small large neg m e) \/ exp_form (float_text p emin small large neg m e).
Proof.
  intros Hp (C1 & C2 & C3). unfold float_text. destruct (N.eqb_spec m 0) as [->|Hm].
  - left. exists (if neg then [45] else []), [48], 0, []. split; [reflexivity|]. split; [destruct neg; auto|].
    split; [repeat split; try discriminate; constructor; [unfold is_digit; lia|constructor]|left; reflexivity].
  - destruct (shortest p emin m e) as [k r] eqn:Es. pose proof (shortest_is p emin m e Hp ltac:(lia) C2 C3 k r Es) as (K1 & K2 & _).
    destruct (_ || _); [right; apply fmtE_form|left; apply fmtF_form]; assumption.
Qed.

Lemma no_e_digits t : Forall is_digit t -> ~ In 101 t.
Proof. intros H K. rewrite Forall_forall in H. specialize (H _ K). unfold is_digit in H. lia. Qed.
Lemma plain_form_no_e t : plain_form t -> ~ In 101 t.
Proof.
  intros (s & i & n & f & -> & Hs & (_ & Hi & _) & Hf) K. apply in_app_iff in K as [K|K].
  - destruct Hs as [-> | ->]; [destruct K|]. destruct K as [K|[]]. discriminate.
  - apply in_app_iff in K as [K|K]; [exact (no_e_digits _ Hi K)|]. destruct Hf as [-> |(u & c & -> & Hu & Hc & _)]; [destruct K|].
    destruct K as [K|K]; [discriminate|]. apply in_app_iff in K as [K|K]; [exact (no_e_digits _ Hu K)|].
    destruct K as [K|[]]. subst c. unfold is_digit in Hc. lia.
Qed.
Lemma exp_form_e t : exp_form t -> In 101 t.
Proof.
  intros (s & c & f & g & w & -> & _). rewrite !in_app_iff. right. right. right. left. left. reflexivity.
Qed.

(** The shortest decimals: the interval of numbers that round to a float, and the search for the
    decimal in it. *)
From Coq Require Import NArith ZArith Reals Lia Lra List Bool Psatz.
From Flocq Require Import Core BinarySingleNaN.
From Verif Require Import GoBase BaseFacts GoFloat NumText SpecNum.
Import ListNotations.
Open Scope N_scope.

(** ** Integers *)
Lemma value10_snoc a c : value10 (a ++ [c]) = 10 * value10 a + (c - 48).
Proof. unfold value10. rewrite fold_left_app. reflexivity. Qed.

Lemma pow10_S k : 10 ^ N.of_nat (S k) = 10 * 10 ^ N.of_nat k.
Proof. rewrite Nat2N.inj_succ, N.pow_succ_r'. reflexivity. Qed.

Lemma dec_k_text k : forall n, n < 10 ^ N.of_nat (S k) -> nat_text (dec_k (S k) n) n.
Proof.
  assert (forall m, m < 10 -> nat_text [48 + m] m) as Hone.
  { intros m Hm. split; [discriminate|]. split; [constructor; [unfold is_digit; lia|constructor]|].
    split; [intros H; cbn [hd] in H; f_equal; lia|]. unfold value10. cbn [fold_left]. lia. }
  induction k; intros n Hn.
  - change (10 ^ N.of_nat 1) with 10 in Hn. cbn [dec_k]. apply N.ltb_lt in Hn as Hl. rewrite Hl. apply Hone, Hn.
  - change (dec_k (S (S k)) n) with (if n <? 10 then [48 + n] else dec_k (S k) (n / 10) ++ [48 + n mod 10]).
    destruct (N.ltb_spec n 10) as [H|H]; [apply Hone, H|]. rewrite pow10_S in Hn.
    destruct (IHk (n / 10)) as (H1 & H2 & H3 & H4); [apply N.div_lt_upper_bound; lia|].
    pose proof (N.mod_lt n 10 ltac:(lia)) as Hm. pose proof (N.div_mod n 10 ltac:(lia)) as Hd.
    split; [destruct (dec_k (S k) (n / 10)); discriminate|].
    split; [apply Forall_app; split; [exact H2|]; constructor; [unfold is_digit; lia|constructor]|].
    split.
    + intros Hh. exfalso. destruct (dec_k (S k) (n / 10)) as [|c u]; [congruence|]. cbn [hd app] in Hh. subst c.
      specialize (H3 eq_refl). injection H3 as ->. unfold value10 in H4. cbn [fold_left] in H4. lia.
    + rewrite value10_snoc, H4. lia.
Qed.

Lemma dec_text n : nat_text (dec n) n.
Proof.
  apply dec_k_text. apply N.lt_le_trans with (2 ^ N.of_nat (N.size_nat n)).
  - destruct n as [|p]; [reflexivity|]. cbn [N.size_nat].
    pose proof (N.size_gt (N.pos p)) as H. replace (N.of_nat (Pos.size_nat p)) with (N.size (N.pos p)); [exact H|].
    cbn [N.size]. clear. induction p; cbn [Pos.size Pos.size_nat]; try reflexivity; rewrite Nat2N.inj_succ, <- IHp; lia.
  - apply N.le_trans with (10 ^ N.of_nat (N.size_nat n)); [apply N.pow_le_mono_l; lia|]. apply N.pow_le_mono_r; lia.
Qed.

Lemma dec_Z_text z : int_text (dec_Z z) z.
Proof.
  unfold dec_Z. destruct (Z.ltb_spec z 0).
  - right. exists (dec (Z.to_N (- z))), (Z.to_N (- z)). split; [reflexivity|]. split; [apply dec_text|]. lia.
  - left. exists (Z.to_N z). split; [apply dec_text|]. lia.
Qed.

Lemma int_number t z : int_text t z -> number t.
Proof.
  intros [(n & H & _)|(u & n & -> & H & _)].
  - exists [], t, [], []. rewrite !app_nil_r. repeat split; eauto; left; reflexivity.
  - exists [45], u, [], []. rewrite !app_nil_r. repeat split; eauto; left; reflexivity.
Qed.

Lemma value10_inj t u n : nat_text t n -> nat_text u n -> t = u.
Proof.
  revert u n. induction t as [|c t IH] using rev_ind; intros u n (H1 & H2 & H3 & H4) (K1 & K2 & K3 & K4); [congruence|].
  destruct u as [|d u _] using rev_ind; [congruence|]. rewrite value10_snoc in *.
  apply Forall_app in H2 as [H2 Hc], K2 as [K2 Hd]. apply Forall_cons_iff in Hc as [Hc _], Hd as [Hd _]. unfold is_digit in *.
  assert (c = d /\ value10 t = value10 u) as [-> E] by lia. f_equal.
  assert (forall v, Forall is_digit v -> (hd 0 (v ++ [d]) = 48 -> v ++ [d] = [48]) -> v = [] \/ (0 < value10 v /\ nat_text v (value10 v))) as Haux.
  { clear. intros v Hv H. destruct v as [|a v]; [left; reflexivity|right]. cbn [app hd] in H.
    assert (a <> 48) as Ha. { intros ->. specialize (H eq_refl). destruct v; discriminate. }
    assert (0 < value10 (a :: v)) as Hp.
    { apply Forall_cons_iff in Hv as [Hd Hv]. clear H. unfold is_digit in Hd. unfold value10. cbn [fold_left].
      assert (0 < 10 * 0 + (a - 48)) as H0 by lia. revert H0. generalize (10 * 0 + (a - 48)). clear -Hv.
      induction v as [|c v IH]; intros m Hm; [exact Hm|]. cbn [fold_left]. apply Forall_cons_iff in Hv as [_ Hv]. apply IH; [exact Hv|]. lia. }
    split; [exact Hp|]. split; [discriminate|]. split; [exact Hv|]. split; [|reflexivity]. cbn [hd]. contradiction. }
  destruct (Haux t H2 H3) as [->|[Ht Nt]], (Haux u K2 K3) as [->|[Hu Nu]].
  - reflexivity.
  - cbn in E. lia.
  - cbn in E. lia.
  - rewrite E in Nt. eapply IH; eassumption.
Qed.

Lemma nat_text_det t m n : nat_text t m -> nat_text t n -> m = n.
Proof. intros (_ & _ & _ & H) (_ & _ & _ & K). congruence. Qed.

Lemma int_text_det t y z : int_text t y -> int_text t z -> y = z.
Proof.
  assert (forall u n, nat_text (45 :: u) n -> False) as H45.
  { intros u n (_ & H & _). apply Forall_cons_iff in H as [H _]. unfold is_digit in H. lia. }
  intros [(n & H & ->)|(u & n & -> & H & ->)] [(m & K & ->)|(w & m & E & K & ->)].
  - f_equal. eapply nat_text_det; eassumption.
  - subst. exfalso. eapply H45, H.
  - exfalso. eapply H45, K.
  - injection E as ->. do 2 f_equal. eapply nat_text_det; eassumption.
Qed.

Lemma prefix_unamb (P : N -> Prop) : forall t t' x y, Forall P t -> Forall P t' ->
  (forall c r, x = c :: r -> ~ P c) -> (forall c r, y = c :: r -> ~ P c) -> t ++ x = t' ++ y -> t = t' /\ x = y.
Proof.
  induction t as [|c t IH]; intros [|c' t'] x y Ht Ht' Hx Hy E; cbn [app] in E.
  - auto.
  - apply Forall_cons_iff in Ht' as [Hc _]. exfalso. eapply Hx; eauto.
  - apply Forall_cons_iff in Ht as [Hc _]. exfalso. eapply Hy; eauto.
  - injection E as -> E. apply Forall_cons_iff in Ht as [_ Ht], Ht' as [_ Ht']. destruct (IH _ _ _ Ht Ht' Hx Hy E) as [-> ->]. auto.
Qed.
Close Scope N_scope.

(** ** The interval of numbers that round to a float *)
Section Interval.
Variables (p emin m e : Z).
Hypothesis Hp : (2 <= p)%Z.
(** [m] has [p] bits, or fewer and the smallest exponent. *)
Hypothesis Hm : (1 <= m < 2 ^ p)%Z.
Hypothesis He : (emin <= e)%Z.
Hypothesis Hc : (2 ^ (p - 1) <= m \/ e = emin)%Z.

Notation fexp := (FLT_exp emin p).
Notation x := (F2R (Float radix2 m e)).
Notation F := (generic_format radix2 fexp).

#[local] Instance prec_pos : Prec_gt_0 p. Proof. unfold Prec_gt_0. lia. Qed.
#[local] Instance fexp_ok : Valid_exp fexp. Proof. apply FLT_exp_valid. exact prec_pos. Qed.
#[local] Instance fexp_mono : Monotone_exp fexp. Proof. apply FLT_exp_monotone. Qed.
#[local] Instance fexp_NE : Exists_NE radix2 fexp. Proof. apply exists_NE_FLT. right. lia. Qed.

Lemma dig_le : (Zdigits radix2 m <= p)%Z.
Proof. apply Zdigits_le_Zpower. change (Zpower radix2 p) with (2 ^ p)%Z. lia. Qed.

Lemma mag_x : mag radix2 x = (Zdigits radix2 m + e)%Z :> Z.
Proof. apply mag_F2R_Zdigits. lia. Qed.

Lemma dig_full : (2 ^ (p - 1) <= m)%Z -> Zdigits radix2 m = p.
Proof.
  intros H. pose proof dig_le. pose proof (Zdigits_gt_Zpower radix2 (p - 1) m). change (Zpower radix2 (p - 1)) with (2 ^ (p - 1))%Z in *. lia.
Qed.

Lemma canon_x : canonical radix2 fexp (Float radix2 m e).
Proof.
  unfold canonical, cexp. rewrite mag_x. cbn [Fexp]. unfold FLT_exp. pose proof dig_le.
  destruct Hc as [H1|H1]; [rewrite (dig_full H1)|]; lia.
Qed.

Lemma format_x : F x.
Proof. apply generic_format_canonical, canon_x. Qed.

Lemma x_pos : (0 < x)%R.
Proof. apply F2R_gt_0. cbn. lia. Qed.

Lemma succ_x : succ radix2 fexp x = (IZR (m + 1) * bpow radix2 e)%R.
Proof.
  rewrite succ_eq_pos by apply Rlt_le, x_pos. rewrite ulp_canonical; [|lia|apply canon_x].
  unfold F2R. cbn [Fnum Fexp]. rewrite plus_IZR. ring.
Qed.

(** The lower neighbour of a power of two is nearer. *)
Definition near : bool := (m =? 2 ^ (p - 1))%Z && (emin <? e)%Z.

Lemma bpow_S z : bpow radix2 z = (2 * bpow radix2 (z - 1))%R.
Proof. replace z with (1 + (z - 1))%Z at 1 by lia. rewrite bpow_plus. reflexivity. Qed.
Lemma bpow_4 z : bpow radix2 z = (4 * bpow radix2 (z - 2))%R.
Proof. rewrite bpow_S, (bpow_S (z - 1)). replace (z - 1 - 1)%Z with (z - 2)%Z by lia. ring. Qed.

Lemma pred_x : pred radix2 fexp x = (x - (if near then bpow radix2 (e - 1) else bpow radix2 e))%R.
Proof.
  rewrite pred_eq_pos by apply Rlt_le, x_pos. unfold pred_pos. rewrite ulp_canonical; [|lia|apply canon_x].
  pose proof mag_x as Hmag. unfold near.
  destruct (Req_bool_spec x (bpow radix2 (mag radix2 x - 1))) as [Hx|Hx].
  - f_equal. rewrite Hmag in Hx |- *. unfold F2R in Hx. cbn [Fnum Fexp] in Hx.
    assert (m = 2 ^ (Zdigits radix2 m - 1))%Z as Em.
    { assert (0 < Zdigits radix2 m)%Z by (apply Zdigits_gt_0; lia).
      apply eq_IZR. change (2 ^ (Zdigits radix2 m - 1))%Z with (Zpower radix2 (Zdigits radix2 m - 1)).
      rewrite IZR_Zpower by lia. replace (Zdigits radix2 m + e - 1)%Z with ((Zdigits radix2 m - 1) + e)%Z in Hx by lia. rewrite bpow_plus in Hx.
      apply Rmult_eq_reg_r with (bpow radix2 e); [assumption|]. apply Rgt_not_eq, bpow_gt_0. }
    unfold FLT_exp. pose proof dig_le.
    destruct (Z.eqb_spec m (2 ^ (p - 1))) as [E1|E1]; cbn [andb].
    + assert (Zdigits radix2 m = p) as -> by (apply dig_full; lia). destruct (Z.ltb_spec emin e); f_equal; lia.
    + destruct Hc as [H1|H1].
      * exfalso. apply E1. rewrite (dig_full H1) in Em. exact Em.
      * f_equal. lia.
  - destruct (Z.eqb_spec m (2 ^ (p - 1))) as [E1|E1]; cbn [andb]; [|reflexivity].
    exfalso. apply Hx. rewrite Hmag, dig_full by lia. unfold F2R. cbn [Fnum Fexp]. rewrite E1.
    change (2 ^ (p - 1))%Z with (Zpower radix2 (p - 1)). rewrite IZR_Zpower by lia. rewrite <- bpow_plus. f_equal. lia.
Qed.

Definition lo4 : Z := if near then (4 * m - 1)%Z else (4 * m - 2)%Z.

Lemma mid_low : ((x + pred radix2 fexp x) / 2 = IZR lo4 * bpow radix2 (e - 2))%R.
Proof.
  rewrite pred_x. unfold lo4, F2R. cbn [Fnum Fexp]. destruct near.
  - rewrite (bpow_S (e - 1)), (bpow_4 e). replace (e - 1 - 1)%Z with (e - 2)%Z by lia. rewrite minus_IZR, mult_IZR. field.
  - rewrite (bpow_4 e). rewrite minus_IZR, mult_IZR. field.
Qed.

Lemma mid_up : ((x + succ radix2 fexp x) / 2 = IZR (4 * m + 2) * bpow radix2 (e - 2))%R.
Proof.
  rewrite succ_x. unfold F2R. cbn [Fnum Fexp]. rewrite (bpow_4 e), !plus_IZR, mult_IZR. field.
Qed.

(** Inside the interval; the ends count if [m] is even. *)
Definition inside (v : R) : Prop :=
  let a := (IZR lo4 * bpow radix2 (e - 2))%R in
  let b := (IZR (4 * m + 2) * bpow radix2 (e - 2))%R in
  (a < v < b \/ (Z.even m = true /\ (v = a \/ v = b)))%R.

Lemma lt_succ_x : (x < succ radix2 fexp x)%R.
Proof. apply succ_gt_id. apply Rgt_not_eq, x_pos. Qed.
Lemma lt_pred_x : (pred radix2 fexp x < x)%R.
Proof. apply pred_lt_id. apply Rgt_not_eq, x_pos. Qed.
Lemma format_pred : F (pred radix2 fexp x). Proof. apply generic_format_pred, format_x; exact _. Qed.
Lemma format_succ : F (succ radix2 fexp x). Proof. apply generic_format_succ, format_x; exact _. Qed.

(** In the closed interval no float is nearer than [x]. *)
Lemma N_pt v : ((x + pred radix2 fexp x) / 2 <= v <= (x + succ radix2 fexp x) / 2)%R -> Rnd_N_pt F v x.
Proof.
  intros [H1 H2]. split; [apply format_x|]. intros g Hg. pose proof lt_succ_x. pose proof lt_pred_x.
  destruct (Rtotal_order g x) as [Hl|[->|Hl]].
  - assert (g <= pred radix2 fexp x)%R by (apply pred_ge_gt; try assumption; [exact _|apply format_x]).
    unfold Rabs. destruct (Rcase_abs (x - v)), (Rcase_abs (g - v)); lra.
  - apply Rle_refl.
  - assert (succ radix2 fexp x <= g)%R by (apply succ_le_lt; try assumption; [exact _|apply format_x]).
    unfold Rabs. destruct (Rcase_abs (x - v)), (Rcase_abs (g - v)); lra.
Qed.

Lemma inside_rounds v : inside v -> round radix2 fexp ZnearestE v = x.
Proof.
  unfold inside. rewrite <- mid_low, <- mid_up. intros [[H1 H2]|[Ev H]].
  - apply Rle_antisym; [apply round_N_le_midp|apply round_N_ge_midp]; try assumption; try exact _; apply format_x.
  - assert (Rnd_N_pt F v x) as HN.
    { apply N_pt. pose proof lt_succ_x. pose proof lt_pred_x. destruct H as [-> | ->]; lra. }
    apply (round_unique (Rnd_NE_pt radix2 fexp) (Rnd_NE_pt_monotone radix2 fexp) v).
    + apply round_NE_pt; exact _.
    + split; [exact HN|]. left. exists (Float radix2 m e). repeat split; [apply canon_x|exact Ev].
Qed.

Lemma rounds_inside v : round radix2 fexp ZnearestE v = x -> inside v.
Proof.
  intros H. unfold inside. rewrite <- mid_low, <- mid_up. pose proof lt_succ_x as Hs. pose proof lt_pred_x as Hp'.
  assert (~ (v < (x + pred radix2 fexp x) / 2)%R) as N1.
  { intros K. pose proof (round_N_le_midp radix2 fexp (fun z => negb (Z.even z)) (pred radix2 fexp x) v format_pred) as L.
    rewrite succ_pred in L by (try exact _; apply format_x). rewrite Rplus_comm in L. specialize (L K). rewrite H in L. lra. }
  assert (~ ((x + succ radix2 fexp x) / 2 < v)%R) as N2.
  { intros K. pose proof (round_N_ge_midp radix2 fexp (fun z => negb (Z.even z)) (succ radix2 fexp x) v format_succ) as L.
    rewrite pred_succ in L by (try exact _; apply format_x). rewrite Rplus_comm in L. specialize (L K). rewrite H in L. lra. }
  destruct (Req_dec v ((x + pred radix2 fexp x) / 2)) as [E1|E1]; [|destruct (Req_dec v ((x + succ radix2 fexp x) / 2)) as [E2|E2]; [|left; lra]].
  all: right; split; [|auto].
  all: pose proof (round_NE_pt radix2 fexp v) as [_ [(g & Hg & Hcg & Hev)|Hu]]; [rewrite H in Hg|].
  1,3: rewrite (canonical_unique _ _ _ _ Hcg canon_x (eq_sym Hg)) in Hev; exact Hev.
  - exfalso. assert (pred radix2 fexp x = round radix2 fexp ZnearestE v) as K; [|rewrite H in K; lra].
    apply Hu. split; [apply format_pred|]. intros g Hg. pose proof (N_pt v) as [_ L]; [lra|]. specialize (L g Hg).
    replace (Rabs (pred radix2 fexp x - v)) with (Rabs (x - v)); [exact L|]. subst v.
    unfold Rabs. destruct (Rcase_abs _), (Rcase_abs _); lra.
  - exfalso. assert (succ radix2 fexp x = round radix2 fexp ZnearestE v) as K; [|rewrite H in K; lra].
    apply Hu. split; [apply format_succ|]. intros g Hg. pose proof (N_pt v) as [_ L]; [lra|]. specialize (L g Hg).
    replace (Rabs (succ radix2 fexp x - v)) with (Rabs (x - v)); [exact L|]. subst v.
    unfold Rabs. destruct (Rcase_abs _), (Rcase_abs _); lra.
Qed.
End Interval.

(** ** The search *)
Section Search.
Open Scope N_scope.
Variables (x lo up : N) (incl : bool).
Hypothesis H0 : 0 < lo.
Hypothesis H1 : lo < x.
Hypothesis H2 : x < up.

Definition within (v : N) : Prop := lo < v < up \/ (incl = true /\ (v = lo \/ v = up)).
Definition apart (v : N) : Z := Z.abs (Z.of_N v - Z.of_N x).

Definition good_pick (i : nat) (k : N) : Prop :=
  within (k * 10 ^ N.of_nat i) /\
  forall k', within (k' * 10 ^ N.of_nat i) -> (apart (k * 10 ^ N.of_nat i) <= apart (k' * 10 ^ N.of_nat i))%Z.

Lemma pick_spec i :
  match pick x lo up incl i with
  | Some k => good_pick i k
  | None => forall k', ~ within (k' * 10 ^ N.of_nat i)
  end.
Proof.
  unfold pick, good_pick, within, apart. set (t := 10 ^ N.of_nat i).
  assert (0 < t) as Ht by (unfold t; apply N.neq_0_lt_0, N.pow_nonzero; lia).
  pose proof (N.div_mod x t ltac:(lia)) as Hd. pose proof (N.mod_lt x t ltac:(lia)) as Hr.
  set (k := x / t) in *. set (r := x mod t) in *.
  assert (forall k', k' * t <= k * t \/ k * t + t <= k' * t) as Hsep.
  { intros k'. destruct (N.le_gt_cases k' k) as [L|L]; [left|right]; nia. }
  assert ((k + 1) * t = k * t + t) as Ek by lia. rewrite (N.mul_comm t k) in Hd.
  assert ((lo <? k * t) || incl && (lo =? k * t) = true <-> (lo < k * t \/ (incl = true /\ lo = k * t))) as Hdn.
  { rewrite orb_true_iff, andb_true_iff, N.ltb_lt, N.eqb_eq. tauto. }
  assert ((k * t + t <? up) || incl && (k * t + t =? up) = true <-> (k * t + t < up \/ (incl = true /\ k * t + t = up))) as Hup.
  { rewrite orb_true_iff, andb_true_iff, N.ltb_lt, N.eqb_eq. tauto. }
  set (okd := (lo <? k * t) || incl && (lo =? k * t)) in *. set (oku := (k * t + t <? up) || incl && (k * t + t =? up)) in *.
  remember (k * t) as kt eqn:Ekt.
  destruct okd, oku.
  - assert (lo < kt \/ incl = true /\ lo = kt) as Dn by (apply Hdn; reflexivity).
    assert (kt + t < up \/ incl = true /\ kt + t = up) as Up by (apply Hup; reflexivity).
    destruct ((2 * r <? t) || (2 * r =? t) && N.even k) eqn:Er.
    + assert (2 * r <= t). { apply orb_true_iff in Er as [Er|Er]; [apply N.ltb_lt in Er|apply andb_true_iff in Er as [Er _]; apply N.eqb_eq in Er]; lia. }
      rewrite <- Ekt. clear Hdn Hup. split; [destruct Dn as [?|[? ?]]; [left; lia|right; split; [assumption|left; lia]]|]. intros k' _. destruct (Hsep k'); lia.
    + assert (t <= 2 * r). { apply orb_false_iff in Er as [Er _]. apply N.ltb_ge in Er. lia. }
      rewrite Ek. clear Hdn Hup. split; [destruct Up as [?|[? ?]]; [left; lia|right; split; [assumption|right; lia]]|]. intros k' _. destruct (Hsep k'); lia.
  - assert (lo < kt \/ incl = true /\ lo = kt) as Dn by (apply Hdn; reflexivity).
    assert (~ (kt + t < up \/ incl = true /\ kt + t = up)) as Up by (intros K; apply Hup in K; discriminate).
    rewrite <- Ekt. clear Hdn Hup. split; [destruct Dn as [?|[? ?]]; [left; lia|right; split; [assumption|left; lia]]|]. intros k' Hk. destruct (Hsep k'); [lia|]. exfalso.
    destruct Hk as [Hk|[Hi Hk]]; [lia|]. assert (k' * t = up) by lia. destruct (N.eq_dec (kt + t) up); [tauto|lia].
  - assert (~ (lo < kt \/ incl = true /\ lo = kt)) as Dn by (intros K; apply Hdn in K; discriminate).
    assert (kt + t < up \/ incl = true /\ kt + t = up) as Up by (apply Hup; reflexivity).
    rewrite Ek. clear Hdn Hup. split; [destruct Up as [?|[? ?]]; [left; lia|right; split; [assumption|right; lia]]|]. intros k' Hk. destruct (Hsep k'); [|lia]. exfalso.
    destruct Hk as [Hk|[Hi Hk]]; [lia|]. assert (k' * t = lo) by lia. destruct (N.eq_dec lo kt); [tauto|lia].
  - assert (~ (lo < kt \/ incl = true /\ lo = kt)) as Dn by (intros K; apply Hdn in K; discriminate).
    assert (~ (kt + t < up \/ incl = true /\ kt + t = up)) as Up by (intros K; apply Hup in K; discriminate).
    clear Hdn Hup. intros k' Hk. destruct (Hsep k').
    + destruct Hk as [Hk|[Hi Hk]]; [lia|]. assert (k' * t = lo) by lia. destruct (N.eq_dec lo kt); [tauto|lia].
    + destruct Hk as [Hk|[Hi Hk]]; [lia|]. assert (k' * t = up) by lia. destruct (N.eq_dec (kt + t) up); [tauto|lia].
Qed.

Lemma pick_first_spec n : let (k, i) := pick_first x lo up incl n in
  good_pick i k /\ (i <= n)%nat /\ forall j k', (i < j <= n)%nat -> ~ within (k' * 10 ^ N.of_nat j).
Proof.
  induction n as [|n IH]; cbn [pick_first].
  - pose proof (pick_spec 0) as H. destruct (pick x lo up incl 0) as [k|].
    + split; [exact H|]. split; [lia|]. intros j k' Hj. lia.
    + exfalso. apply (H x). change (10 ^ N.of_nat 0) with 1. left. lia.
  - pose proof (pick_spec (S n)) as H. destruct (pick x lo up incl (S n)) as [k|].
    + split; [exact H|]. split; [lia|]. intros j k' Hj. lia.
    + destruct (pick_first x lo up incl n) as [k i]. destruct IH as (I1 & I2 & I3). split; [exact I1|]. split; [lia|].
      intros j k' Hj. destruct (Nat.eq_dec j (S n)) as [->|Hne]; [apply H|apply I3; lia].
Qed.

(** With enough digits: no larger power of ten at all. *)
Lemma pick_first_all n : up < 10 ^ N.of_nat n -> let (k, i) := pick_first x lo up incl n in
  good_pick i k /\ forall j k', (i < j)%nat -> ~ within (k' * 10 ^ N.of_nat j).
Proof.
  intros Hn. pose proof (pick_first_spec n) as H. destruct (pick_first x lo up incl n) as [k i]. destruct H as (I1 & I2 & I3).
  split; [exact I1|]. intros j k' Hj. destruct (Nat.le_gt_cases j n) as [L|L]; [apply I3; lia|].
  intros K. assert (10 ^ N.of_nat n <= 10 ^ N.of_nat j) by (apply N.pow_le_mono_r; lia).
  assert (k' = 0 \/ 10 ^ N.of_nat j <= k' * 10 ^ N.of_nat j) as [->|] by nia; unfold within in K; lia.
Qed.
End Search.

(** ** Digits and powers of ten *)
Section Digits.
Open Scope N_scope.
Lemma value10_app a b : value10 (a ++ b) = value10 a * 10 ^ N.of_nat (length b) + value10 b.
Proof.
  revert a. induction b as [|c b IH] using rev_ind; intros a.
  - rewrite app_nil_r. cbn. lia.
  - rewrite app_assoc, !value10_snoc, IH, app_length, Nat.add_1_r, pow10_S. lia.
Qed.
Lemma value10_lt t : Forall is_digit t -> value10 t < 10 ^ N.of_nat (length t).
Proof.
  induction t as [|c t IH] using rev_ind; intros H; [reflexivity|]. apply Forall_app in H as [H Hc]. apply Forall_cons_iff in Hc as [Hc _].
  unfold is_digit in Hc. specialize (IH H). rewrite value10_snoc, app_length, Nat.add_1_r, pow10_S. lia.
Qed.
Lemma dec_bounds n : n < 10 ^ N.of_nat (length (dec n)) /\ (0 < n -> 10 ^ N.of_nat (length (dec n) - 1) <= n).
Proof.
  destruct (dec_text n) as (H1 & H2 & H3 & H4). split; [rewrite <- H4 at 1; apply value10_lt, H2|]. intros Hn.
  destruct (dec n) as [|c t] eqn:E; [congruence|]. cbn [length]. rewrite Nat.sub_succ, Nat.sub_0_r.
  change (c :: t) with ([c] ++ t) in H4. rewrite value10_app in H4. change (value10 [c]) with (10 * 0 + (c - 48)) in H4.
  apply Forall_cons_iff in H2 as [Hc _]. unfold is_digit in Hc. cbn [hd] in H3.
  assert (c <> 48) as Hc'. { intros ->. specialize (H3 eq_refl). injection H3 as ->. cbn in H4. lia. }
  rewrite <- H4. generalize (10 ^ N.of_nat (length t)). intros. nia.
Qed.
Lemma dec_nonempty n : (1 <= length (dec n))%nat.
Proof. destruct (dec_text n) as (H & _). destruct (dec n); [congruence|cbn; lia]. Qed.
End Digits.

Section Reals.
Open Scope R_scope.
Lemma p10_nat n : powerRZ 10 (Z.of_nat n) = IZR (Z.of_N (10 ^ N.of_nat n)).
Proof. rewrite <- pow_powerRZ, pow_IZR, N2Z.inj_pow. do 3 f_equal. lia. Qed.
Lemma p10_pos z : 0 < powerRZ 10 z.
Proof. apply powerRZ_lt. lra. Qed.
Lemma p10_add a b : powerRZ 10 (a + b) = powerRZ 10 a * powerRZ 10 b.
Proof. apply powerRZ_add. lra. Qed.
Lemma p10_le a b : (a <= b)%Z -> powerRZ 10 a <= powerRZ 10 b.
Proof.
  intros H. replace b with (a + Z.of_nat (Z.to_nat (b - a)))%Z by lia. rewrite p10_add, p10_nat.
  pose proof (p10_pos a). assert (1 <= IZR (Z.of_N (10 ^ N.of_nat (Z.to_nat (b - a))))).
  { apply IZR_le. pose proof (N.pow_nonzero 10 (N.of_nat (Z.to_nat (b - a))) ltac:(lia)). lia. }
  nra.
Qed.
Lemma dec_value_pos d q : (0 < d)%N -> 0 < dec_value d q.
Proof. intros H. unfold dec_value. apply Rmult_lt_0_compat; [apply IZR_lt; lia|apply p10_pos]. Qed.
Lemma dec_value_shift d q n : dec_value d q * powerRZ 10 (Z.of_nat n) = dec_value d (q + Z.of_nat n).
Proof. unfold dec_value. rewrite p10_add. ring. Qed.
Lemma dec_value_nat d n : dec_value d (Z.of_nat n) = IZR (Z.of_N (d * 10 ^ N.of_nat n)).
Proof. unfold dec_value. rewrite p10_nat, N2Z.inj_mul, mult_IZR. reflexivity. Qed.
(** Between powers of ten. *)
Lemma dec_value_lt d q : dec_value d q < powerRZ 10 (Z.of_nat (length (dec d)) + q).
Proof.
  unfold dec_value. rewrite p10_add, p10_nat. apply Rmult_lt_compat_r; [apply p10_pos|]. apply IZR_lt. pose proof (proj1 (dec_bounds d)). lia.
Qed.
Lemma dec_value_ge d q : (0 < d)%N -> powerRZ 10 (Z.of_nat (length (dec d)) - 1 + q) <= dec_value d q.
Proof.
  intros H. unfold dec_value. rewrite p10_add. pose proof (dec_nonempty d).
  replace (Z.of_nat (length (dec d)) - 1)%Z with (Z.of_nat (length (dec d) - 1)) by lia. rewrite p10_nat.
  apply Rmult_le_compat_r; [apply Rlt_le, p10_pos|]. apply IZR_le. pose proof (proj2 (dec_bounds d) H). lia.
Qed.
End Reals.

(** ** The shortest decimal of a float *)
Section Link.
Variables (p emin : Z) (m : N) (e : Z).
Hypothesis Hp : (2 <= p)%Z.
Hypothesis Hm : (1 <= Z.of_N m < 2 ^ p)%Z.
Hypothesis He : (emin <= e)%Z.
Hypothesis Hc : (2 ^ (p - 1) <= Z.of_N m \/ e = emin)%Z.
Notation fexp := (FLT_exp emin p).
Notation x := (F2R (Float radix2 (Z.of_N m) e)).

Let sc := Z.to_N (Z.max 0 (2 - e)).
Let f := (2 ^ Z.to_N (Z.max 0 (e - 2)) * 5 ^ sc)%N.
Let lo := (if ((m =? 2 ^ Z.to_N (p - 1)) && (emin <? e)%Z)%N then 4 * m - 1 else 4 * m - 2)%N.

Lemma f_pos : (0 < f)%N.
Proof. unfold f. pose proof (N.pow_nonzero 2 (Z.to_N (Z.max 0 (e - 2))) ltac:(lia)). pose proof (N.pow_nonzero 5 sc ltac:(lia)). nia. Qed.

Lemma scale : (bpow radix2 (e - 2) * powerRZ 10 (Z.of_N sc) = IZR (Z.of_N f))%R.
Proof.
  unfold f. rewrite N2Z.inj_mul, !N2Z.inj_pow, mult_IZR. change (Z.of_N 2) with 2%Z. change (Z.of_N 5) with 5%Z.
  assert (forall a b, 0 <= b -> IZR (a ^ b) = powerRZ (IZR a) b)%Z as Hpow.
  { intros a b Hb. rewrite <- (Z2Nat.id b) by exact Hb. rewrite <- pow_IZR, pow_powerRZ. reflexivity. }
  rewrite !Hpow by lia. rewrite bpow_powerRZ. change (IZR radix2) with 2%R. subst sc.
  destruct (Z.le_gt_cases 2 e) as [L|L].
  - replace (Z.of_N (Z.to_N (Z.max 0 (2 - e)))) with 0%Z by lia. replace (Z.of_N (Z.to_N (Z.max 0 (e - 2)))) with (e - 2)%Z by lia. cbn [powerRZ]. ring.
  - replace (Z.of_N (Z.to_N (Z.max 0 (2 - e)))) with (2 - e)%Z by lia. replace (Z.of_N (Z.to_N (Z.max 0 (e - 2)))) with 0%Z by lia. rewrite powerRZ_O.
    replace 10%R with (2 * 5)%R by ring. rewrite powerRZ_mult, <- Rmult_assoc, <- powerRZ_add by lra.
    replace (e - 2 + (2 - e))%Z with 0%Z by lia. rewrite powerRZ_O. reflexivity.
Qed.

Lemma lo_is : lo4 p emin (Z.of_N m) e = Z.of_N lo.
Proof.
  unfold lo4, near, lo. replace (Z.of_N m =? 2 ^ (p - 1))%Z with (m =? 2 ^ Z.to_N (p - 1))%N.
  - destruct ((_ =? _)%N && _); lia.
  - apply eq_true_iff_eq. rewrite N.eqb_eq, Z.eqb_eq. rewrite <- N2Z.inj_iff, N2Z.inj_pow, Z2N.id by lia. reflexivity.
Qed.

Lemma inside_within v n : (v * powerRZ 10 (Z.of_N sc) = IZR (Z.of_N n))%R ->
  inside p emin (Z.of_N m) e v <-> within (lo * f) ((4 * m + 2) * f) (N.even m) n.
Proof.
  intros Hv. unfold inside, within. rewrite lo_is. replace (4 * Z.of_N m + 2)%Z with (Z.of_N (4 * m + 2)) by lia.
  assert (Z.even (Z.of_N m) = N.even m) as -> by (destruct m as [|[| |]]; reflexivity).
  pose proof scale as Hs. pose proof (p10_pos (Z.of_N sc)) as Ht. set (t := powerRZ 10 (Z.of_N sc)) in *. set (b := bpow radix2 (e - 2)) in *.
  assert (forall k, IZR (Z.of_N k) * b * t = IZR (Z.of_N (k * f)))%R as Hk.
  { intros k. rewrite Rmult_assoc, Hs, N2Z.inj_mul, mult_IZR. reflexivity. }
  assert (forall k, IZR (Z.of_N k) * b < v <-> (k * f < n)%N)%R as L1.
  { intros k. split; intros H.
    - apply Rmult_lt_compat_r with (r := t) in H; [|exact Ht]. rewrite Hk, Hv in H. apply lt_IZR in H. lia.
    - apply Rmult_lt_reg_r with t; [exact Ht|]. rewrite Hk, Hv. apply IZR_lt. lia. }
  assert (forall k, v < IZR (Z.of_N k) * b <-> (n < k * f)%N)%R as L2.
  { intros k. split; intros H.
    - apply Rmult_lt_compat_r with (r := t) in H; [|exact Ht]. rewrite Hk, Hv in H. apply lt_IZR in H. lia.
    - apply Rmult_lt_reg_r with t; [exact Ht|]. rewrite Hk, Hv. apply IZR_lt. lia. }
  assert (forall k, v = IZR (Z.of_N k) * b <-> (n = k * f)%N)%R as L3.
  { intros k. split; intros H.
    - apply (f_equal (fun r => (r * t)%R)) in H. rewrite Hk, Hv in H. apply eq_IZR in H. lia.
    - apply Rmult_eq_reg_r with t; [|lra]. rewrite Hk, Hv, H. reflexivity. }
  rewrite L1, L2, !L3. tauto.
Qed.

Definition as_short (k : N) (q : Z) : Prop :=
  (0 < k)%N /\ (k mod 10 <> 0)%N /\ round radix2 fexp ZnearestE (dec_value k q) = x /\
  (forall d r, round radix2 fexp ZnearestE (dec_value d r) = x -> (length (dec k) <= length (dec d))%nat) /\
  (forall d, round radix2 fexp ZnearestE (dec_value d q) = x -> (Rabs (dec_value k q - x) <= Rabs (dec_value d q - x))%R).

Lemma inside_pos v : inside p emin (Z.of_N m) e v -> (0 < v)%R.
Proof.
  unfold inside. rewrite lo_is. intros H. assert (0 < IZR (Z.of_N lo) * bpow radix2 (e - 2))%R.
  { apply Rmult_lt_0_compat; [|apply bpow_gt_0]. apply IZR_lt. unfold lo. destruct (_ && _); lia. }
  assert (0 < IZR (4 * Z.of_N m + 2) * bpow radix2 (e - 2))%R.
  { apply Rmult_lt_0_compat; [|apply bpow_gt_0]. apply IZR_lt. lia. }
  destruct H as [H|[_ [-> | ->]]]; lra.
Qed.

Lemma inside_convex u v w : inside p emin (Z.of_N m) e u -> inside p emin (Z.of_N m) e w -> (u <= v <= w)%R -> inside p emin (Z.of_N m) e v.
Proof.
  unfold inside. set (a := (_ * _)%R). set (b := (IZR (_ + _) * _)%R). intros Hu Hw Hv.
  assert (a < b)%R by (unfold a, b; apply Rmult_lt_compat_r; [apply bpow_gt_0|]; apply IZR_lt; unfold lo4; destruct (near _ _ _ _); lia).
  destruct (Z.even (Z.of_N m)).
  - assert (a <= v)%R by (destruct Hu as [Hu|[_ [Hu|Hu]]]; lra). assert (v <= b)%R by (destruct Hw as [Hw|[_ [Hw|Hw]]]; lra).
    destruct (Req_dec v a) as [Ea|Na]; [right; tauto|]. destruct (Req_dec v b) as [Eb|Nb]; [right; tauto|]. left. lra.
  - left. destruct Hu as [Hu|[Hu _]]; [|discriminate]. destruct Hw as [Hw|[Hw _]]; [|discriminate]. lra.
Qed.

Theorem shortest_is k q : shortest p emin m e = (k, q) -> as_short k q.
Proof.
  unfold shortest. fold sc. fold f. fold lo. set (up := ((4 * m + 2) * f)%N). set (xx := (4 * m * f)%N).
  assert (0 < lo * f /\ lo * f < xx /\ xx < up)%N as (B0 & B1 & B2).
  { pose proof f_pos. assert (0 < lo /\ lo < 4 * m)%N by (unfold lo; destruct (_ && _); lia). unfold xx, up. nia. }
  pose proof (pick_first_all xx (lo * f) up (N.even m) B0 B1 B2 (length (dec up)) (proj1 (dec_bounds up))) as H.
  destruct (pick_first _ _ _ _ _) as [k' i]. destruct H as [[G1 G2] G3]. intros E. injection E as -> <-.
  set (q := (Z.of_nat i - Z.of_N sc)%Z).
  assert (forall d j, (dec_value d (Z.of_nat j - Z.of_N sc) * powerRZ 10 (Z.of_N sc) = IZR (Z.of_N (d * 10 ^ N.of_nat j)))%R) as Hv.
  { intros d j. replace (Z.of_N sc) with (Z.of_nat (N.to_nat sc)) by lia. rewrite dec_value_shift. rewrite <- dec_value_nat. f_equal. lia. }
  assert (forall d j, inside p emin (Z.of_N m) e (dec_value d (Z.of_nat j - Z.of_N sc)) <-> within (lo * f) up (N.even m) (d * 10 ^ N.of_nat j)) as Hin.
  { intros d j. apply inside_within, Hv. }
  assert (inside p emin (Z.of_N m) e (dec_value k q)) as Hk by (apply Hin, G1).
  assert (0 < k)%N as Hk0. { destruct (N.eq_dec k 0) as [->|]; [|lia]. apply inside_pos in Hk. unfold dec_value in Hk. cbn in Hk. lra. }
  split; [exact Hk0|]. split.
  { intros Hd. apply (G3 (S i) (k / 10)%N); [lia|]. rewrite pow10_S. replace (k / 10 * (10 * 10 ^ N.of_nat i))%N with (k * 10 ^ N.of_nat i)%N; [exact G1|].
    pose proof (N.div_mod k 10 ltac:(lia)). nia. }
  split; [apply inside_rounds; assumption|]. split.
  - intros d r Hd. apply rounds_inside in Hd; try assumption. destruct (Nat.le_gt_cases (length (dec k)) (length (dec d))) as [|L]; [assumption|exfalso].
    pose proof (dec_nonempty d) as Ld. assert (0 < d)%N as Hd0.
    { destruct (N.eq_dec d 0) as [->|]; [|lia]. apply inside_pos in Hd. unfold dec_value in Hd. cbn in Hd. lra. }
    destruct (Z.le_gt_cases r q) as [Hr|Hr].
    + (* a power of ten lies between both *)
      set (w := dec_value 1 (Z.of_nat (length (dec k) - 1 + i) - Z.of_N sc)).
      assert (w = powerRZ 10 (Z.of_nat (length (dec k)) - 1 + q)) as Ew.
      { unfold w, dec_value. rewrite Rmult_1_l. f_equal. unfold q. lia. }
      assert (inside p emin (Z.of_N m) e w) as Hw.
      { apply (inside_convex _ _ _ Hd Hk). rewrite Ew. split; [|apply dec_value_ge, Hk0].
        apply Rlt_le, Rlt_le_trans with (powerRZ 10 (Z.of_nat (length (dec d)) + r)); [apply dec_value_lt|]. apply p10_le. lia. }
      apply Hin in Hw. rewrite N.mul_1_l in Hw. apply (G3 (length (dec k) - 1 + i)%nat 1%N); [lia|]. rewrite N.mul_1_l. exact Hw.
    + (* a larger power of ten *)
      assert (r = Z.of_nat (Z.to_nat (r + Z.of_N sc)) - Z.of_N sc)%Z as Er by (unfold q in Hr; lia).
      rewrite Er in Hd. apply Hin in Hd. revert Hd. apply G3. unfold q in Hr. lia.
  - intros d Hd. apply rounds_inside in Hd; try assumption. apply Hin in Hd. specialize (G2 d Hd).
    pose proof (p10_pos (Z.of_N sc)) as Ht. set (t := powerRZ 10 (Z.of_N sc)) in *.
    assert (forall v, Rabs (v - x) * t = Rabs (v * t - x * t))%R as Ha.
    { intros v. rewrite <- (Rabs_pos_eq t) at 1 by lra. rewrite <- Rabs_mult. f_equal. ring. }
    assert (x * t = IZR (Z.of_N xx))%R as Ex.
    { unfold xx. rewrite N2Z.inj_mul, mult_IZR. rewrite <- (scale). fold t. unfold F2R. cbn [Fnum Fexp]. rewrite (bpow_4 e). rewrite N2Z.inj_mul, mult_IZR. ring. }
    apply Rmult_le_reg_r with t; [exact Ht|]. rewrite !Ha. unfold q. rewrite !Hv, Ex, <- !minus_IZR, !Rabs_Zabs. apply IZR_le. exact G2.
Qed.
End Link.

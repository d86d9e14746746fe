(** Facts about UTF-8 and Go strings in JSON. *)
From Coq Require Import NArith ZArith String List Bool Lia.
From Verif Require Import GoBase BaseFacts Json SpecJson.
Import ListNotations.
Open Scope N_scope.

Ltac dlia := zify; Z.to_euclidean_division_equations; lia.

(** ** Arithmetic of masks and shifts *)
Lemma lor_shift a b k : b < 2 ^ k -> N.lor (N.shiftl a k) b = a * 2 ^ k + b.
Proof.
  intros Hb. rewrite <- N.shiftl_mul_pow2. symmetry. rewrite <- N.lxor_lor.
  - apply N.add_nocarry_lxor. apply N.bits_inj. intros i. rewrite N.land_spec, N.bits_0.
    destruct (N.lt_ge_cases i k) as [H|H]; [rewrite N.shiftl_spec_low by exact H; reflexivity|].
    destruct (N.eq_0_gt_0_cases b) as [->|Hp]; [rewrite N.bits_0, andb_false_r; reflexivity|].
    rewrite (N.bits_above_log2 b i), andb_false_r; [reflexivity|]. apply N.log2_lt_pow2 in Hb; [lia|exact Hp].
  - apply N.bits_inj. intros i. rewrite N.land_spec, N.bits_0.
    destruct (N.lt_ge_cases i k) as [H|H]; [rewrite N.shiftl_spec_low by exact H; reflexivity|].
    destruct (N.eq_0_gt_0_cases b) as [->|Hp]; [rewrite N.bits_0, andb_false_r; reflexivity|].
    rewrite (N.bits_above_log2 b i), andb_false_r; [reflexivity|]. apply N.log2_lt_pow2 in Hb; [lia|exact Hp].
Qed.
Lemma land63 c : N.land c 63 = c mod 64. Proof. apply (N.land_ones c 6). Qed.
Lemma land31 c : N.land c 31 = c mod 32. Proof. apply (N.land_ones c 5). Qed.
Lemma land15 c : N.land c 15 = c mod 16. Proof. apply (N.land_ones c 4). Qed.
Lemma land7 c : N.land c 7 = c mod 8. Proof. apply (N.land_ones c 3). Qed.

Lemma rune2 a b : b < 64 -> N.lor (N.shiftl a 6) b = 64 * a + b.
Proof. intros H. rewrite lor_shift by exact H. change (2 ^ 6) with 64. lia. Qed.
Lemma rune3 a b c : b < 64 -> c < 64 -> N.lor (N.lor (N.shiftl a 12) (N.shiftl b 6)) c = 4096 * a + 64 * b + c.
Proof.
  intros Hb Hc. replace (N.shiftl a 12) with (N.shiftl (N.shiftl a 6) 6) by (rewrite N.shiftl_shiftl; reflexivity).
  rewrite <- N.shiftl_lor, rune2, rune2 by assumption. lia.
Qed.
Lemma rune4 a b c d : b < 64 -> c < 64 -> d < 64 ->
  N.lor (N.lor (N.lor (N.shiftl a 18) (N.shiftl b 12)) (N.shiftl c 6)) d = 262144 * a + 4096 * b + 64 * c + d.
Proof.
  intros Hb Hc Hd. replace (N.shiftl a 18) with (N.shiftl (N.shiftl a 12) 6) by (rewrite N.shiftl_shiftl; reflexivity).
  replace (N.shiftl b 12) with (N.shiftl (N.shiftl b 6) 6) by (rewrite N.shiftl_shiftl; reflexivity).
  rewrite <- !N.shiftl_lor, rune2, rune3 by assumption. lia.
Qed.

(** ** UTF-8 forms *)
Lemma utf8_1 u : u < 128 -> utf8 u = [u].
Proof. intros H. unfold utf8. destruct (N.ltb_spec u 128); [reflexivity|lia]. Qed.
Lemma utf8_2 u : 128 <= u < 2048 -> utf8 u = [192 + u / 64; 128 + u mod 64].
Proof. intros H. unfold utf8. destruct (N.ltb_spec u 128); [lia|]. destruct (N.ltb_spec u 2048); [reflexivity|lia]. Qed.
Lemma utf8_3 u : 2048 <= u < 65536 -> utf8 u = [224 + u / 4096; 128 + u / 64 mod 64; 128 + u mod 64].
Proof.
  intros H. unfold utf8. destruct (N.ltb_spec u 128); [lia|]. destruct (N.ltb_spec u 2048); [lia|].
  destruct (N.ltb_spec u 65536); [reflexivity|lia].
Qed.
Lemma utf8_4 u : 65536 <= u -> utf8 u = [240 + u / 262144; 128 + u / 4096 mod 64; 128 + u / 64 mod 64; 128 + u mod 64].
Proof.
  intros H. unfold utf8. destruct (N.ltb_spec u 128); [lia|]. destruct (N.ltb_spec u 2048); [lia|].
  destruct (N.ltb_spec u 65536); [lia|reflexivity].
Qed.

Lemma in_range_spec lo hi c : in_range lo hi c = true <-> lo <= c <= hi.
Proof. unfold in_range. rewrite andb_true_iff, !N.leb_le. tauto. Qed.

Lemma rune_first_some c n lo hi : rune_first c = Some (n, lo, hi) ->
  (n = 2 /\ 194 <= c < 224 /\ lo = 128 /\ hi = 191) \/
  (n = 3 /\ c = 224 /\ lo = 160 /\ hi = 191) \/
  (n = 3 /\ c = 237 /\ lo = 128 /\ hi = 159) \/
  (n = 3 /\ (224 < c < 237 \/ 237 < c < 240) /\ lo = 128 /\ hi = 191) \/
  (n = 4 /\ c = 240 /\ lo = 144 /\ hi = 191) \/
  (n = 4 /\ 240 < c < 244 /\ lo = 128 /\ hi = 191) \/
  (n = 4 /\ c = 244 /\ lo = 128 /\ hi = 143).
Proof.
  unfold rune_first. intros H.
  destruct (N.ltb_spec c 194); [discriminate|]. destruct (N.ltb_spec c 224); [injection H as <- <- <-; lia|].
  destruct (N.eqb_spec c 224); [injection H as <- <- <-; lia|]. destruct (N.eqb_spec c 237); [injection H as <- <- <-; lia|].
  destruct (N.ltb_spec c 240); [injection H as <- <- <-; lia|]. destruct (N.eqb_spec c 240); [injection H as <- <- <-; lia|].
  destruct (N.ltb_spec c 244); [injection H as <- <- <-; lia|]. destruct (N.eqb_spec c 244); [injection H as <- <- <-; lia|].
  discriminate.
Qed.

Lemma mod63 c : c mod 64 < 64. Proof. apply N.mod_lt. discriminate. Qed.

(** What is decoded is a character at the beginning. *)
Lemma decode_rune_sound c r u n : decode_rune c r = Some (u, n) ->
  scalar u /\ 128 <= u /\ firstn n (c :: r) = utf8 u.
Proof.
  unfold decode_rune. destruct (rune_first c) as [[[m lo] hi]|] eqn:Ef; [|discriminate]. apply rune_first_some in Ef.
  destruct r as [|c1 r1]; [discriminate|]. destruct (in_range lo hi c1) eqn:E1; [|discriminate]. apply in_range_spec in E1. cbn [negb].
  destruct (N.eqb_spec m 2) as [->|Hm2].
  { intros H. injection H as <- <-. rewrite land31, land63, rune2 by apply mod63. unfold scalar.
    assert (c mod 32 = c - 192) as -> by dlia. assert (c1 mod 64 = c1 - 128) as -> by dlia.
    split; [lia|]. split; [lia|]. rewrite utf8_2 by lia. cbn [firstn]. f_equal; [dlia|]. f_equal. dlia. }
  destruct r1 as [|c2 r2]; [discriminate|]. destruct (in_range 128 191 c2) eqn:E2; [|discriminate]. apply in_range_spec in E2. cbn [negb].
  destruct (N.eqb_spec m 3) as [->|Hm3].
  { intros H. injection H as <- <-. rewrite land15, !land63, rune3 by apply mod63. unfold scalar.
    assert (c mod 16 = c - 224) as -> by dlia. assert (c1 mod 64 = c1 - 128) as -> by dlia. assert (c2 mod 64 = c2 - 128) as -> by dlia.
    split; [lia|]. split; [lia|]. rewrite utf8_3 by lia. cbn [firstn]. f_equal; [dlia|]. f_equal; [dlia|]. f_equal. dlia. }
  destruct r2 as [|c3 r3]; [discriminate|]. destruct (in_range 128 191 c3) eqn:E3; [|discriminate]. apply in_range_spec in E3. cbn [negb].
  intros H. injection H as <- <-. rewrite land7, !land63, rune4 by apply mod63. unfold scalar.
  assert (c mod 8 = c - 240) as -> by dlia. assert (c1 mod 64 = c1 - 128) as -> by dlia. assert (c2 mod 64 = c2 - 128) as -> by dlia.
  assert (c3 mod 64 = c3 - 128) as -> by dlia.
  split; [lia|]. split; [lia|]. rewrite utf8_4 by lia. cbn [firstn]. f_equal; [dlia|]. f_equal; [dlia|]. f_equal; [dlia|]. f_equal. dlia.
Qed.

(** A character at the beginning is decoded. *)
Lemma decode_rune_complete u t c r : scalar u -> 128 <= u -> c :: r = utf8 u ++ t ->
  decode_rune c r = Some (u, length (utf8 u)).
Proof.
  intros Hs Hu E. unfold scalar in Hs. destruct (N.lt_ge_cases u 2048) as [H2|H2]; [|destruct (N.lt_ge_cases u 65536) as [H3|H3]].
  - rewrite utf8_2 in * by lia. cbn [app] in E. injection E as -> ->. unfold decode_rune.
    assert (2 <= u / 64 < 32) by dlia. assert (u mod 64 < 64) by apply mod63.
    assert (rune_first (192 + u / 64) = Some (2, 128, 191)) as ->.
    { unfold rune_first. destruct (N.ltb_spec (192 + u / 64) 194); [lia|]. destruct (N.ltb_spec (192 + u / 64) 224); [reflexivity|lia]. }
    destruct (in_range 128 191 (128 + u mod 64)) eqn:E1; cbn [negb].
    + rewrite N.eqb_refl, land31, land63, rune2 by apply mod63. do 2 f_equal. dlia.
    + exfalso. rewrite (proj2 (in_range_spec _ _ _)) in E1 by lia. discriminate.
  - rewrite utf8_3 in * by lia. cbn [app] in E. injection E as -> ->. unfold decode_rune.
    assert (u / 4096 < 16) by dlia. assert (u / 64 mod 64 < 64) by apply mod63. assert (u mod 64 < 64) by apply mod63.
    assert (exists lo hi, rune_first (224 + u / 4096) = Some (3, lo, hi) /\ lo <= 128 + u / 64 mod 64 <= hi) as (lo & hi & -> & Hr).
    { unfold rune_first. destruct (N.ltb_spec (224 + u / 4096) 194); [lia|]. destruct (N.ltb_spec (224 + u / 4096) 224); [lia|].
      destruct (N.eqb_spec (224 + u / 4096) 224); [do 2 eexists; split; [reflexivity|dlia]|].
      destruct (N.eqb_spec (224 + u / 4096) 237); [do 2 eexists; split; [reflexivity|dlia]|].
      destruct (N.ltb_spec (224 + u / 4096) 240); [do 2 eexists; split; [reflexivity|dlia]|lia]. }
    rewrite (proj2 (in_range_spec _ _ _) Hr). cbn [negb]. change (3 =? 2) with false.
    rewrite (proj2 (in_range_spec 128 191 _)) by lia. cbn [negb]. rewrite N.eqb_refl, land15, !land63, rune3 by apply mod63. do 2 f_equal. dlia.
  - rewrite utf8_4 in * by lia. cbn [app] in E. injection E as -> ->. unfold decode_rune.
    assert (u / 262144 < 5) by dlia. assert (u / 4096 mod 64 < 64) by apply mod63.
    assert (u / 64 mod 64 < 64) by apply mod63. assert (u mod 64 < 64) by apply mod63.
    assert (exists lo hi, rune_first (240 + u / 262144) = Some (4, lo, hi) /\ lo <= 128 + u / 4096 mod 64 <= hi) as (lo & hi & -> & Hr).
    { unfold rune_first. destruct (N.ltb_spec (240 + u / 262144) 194); [lia|]. destruct (N.ltb_spec (240 + u / 262144) 224); [lia|].
      destruct (N.eqb_spec (240 + u / 262144) 224); [lia|]. destruct (N.eqb_spec (240 + u / 262144) 237); [lia|].
      destruct (N.ltb_spec (240 + u / 262144) 240); [lia|].
      destruct (N.eqb_spec (240 + u / 262144) 240); [do 2 eexists; split; [reflexivity|dlia]|].
      destruct (N.ltb_spec (240 + u / 262144) 244); [do 2 eexists; split; [reflexivity|dlia]|].
      destruct (N.eqb_spec (240 + u / 262144) 244); [do 2 eexists; split; [reflexivity|dlia]|lia]. }
    rewrite (proj2 (in_range_spec _ _ _) Hr). cbn [negb]. change (4 =? 2) with false. change (4 =? 3) with false.
    rewrite (proj2 (in_range_spec 128 191 _)) by lia. cbn [negb]. rewrite (proj2 (in_range_spec 128 191 _)) by lia. cbn [negb].
    rewrite land7, !land63, rune4 by apply mod63. do 2 f_equal. dlia.
Qed.

Lemma utf8_head u : exists c r, utf8 u = c :: r /\ (u < 128 -> c = u) /\ (128 <= u -> 128 <= c).
Proof.
  destruct (N.lt_ge_cases u 128) as [H|H]; [rewrite utf8_1 by exact H; do 2 eexists; split; [reflexivity|lia]|].
  destruct (N.lt_ge_cases u 2048); [rewrite utf8_2 by lia; do 2 eexists; split; [reflexivity|lia]|].
  destruct (N.lt_ge_cases u 65536); [rewrite utf8_3 by lia; do 2 eexists; split; [reflexivity|lia]|].
  rewrite utf8_4 by lia; do 2 eexists; split; [reflexivity|lia].
Qed.
Lemma utf8_bytes u : scalar u -> bytes_ok (utf8 u).
Proof.
  unfold scalar. intros Hs. destruct (N.lt_ge_cases u 128); [rewrite utf8_1 by lia|
  destruct (N.lt_ge_cases u 2048); [rewrite utf8_2 by lia|destruct (N.lt_ge_cases u 65536); [rewrite utf8_3 by lia|rewrite utf8_4 by lia]]];
    repeat (constructor; [unfold byte_ok; dlia|]); constructor.
Qed.
Lemma utf8_nonempty u : (1 <= length (utf8 u))%nat.
Proof. destruct (utf8_head u) as (c & r & -> & _). cbn. lia. Qed.

Lemma decode_rune_none c r : 128 <= c -> decode_rune c r = None -> forall u t, scalar u -> c :: r <> utf8 u ++ t.
Proof.
  intros Hc Hn u t Hs E. destruct (N.lt_ge_cases u 128) as [H|H].
  - rewrite utf8_1 in E by exact H. injection E as -> _. lia.
  - rewrite (decode_rune_complete _ _ _ _ Hs H E) in Hn. discriminate.
Qed.

(** ** Reading with replacement *)
Lemma utf8_prefix u v s t : scalar u -> scalar v -> utf8 u ++ s = utf8 v ++ t -> u = v /\ s = t.
Proof.
  intros Hu Hv E. destruct (utf8_head u) as (c & r & Ec & H1 & H2), (utf8_head v) as (d & q & Ed & K1 & K2).
  assert (c = d) as <- by (rewrite Ec, Ed in E; cbn [app] in E; congruence).
  assert (u = v) as <-.
  { destruct (N.lt_ge_cases u 128) as [Hu1|Hu1], (N.lt_ge_cases v 128) as [Hv1|Hv1]; [rewrite <- H1, <- K1 by assumption; reflexivity|..].
    - rewrite H1 in K2 by assumption. specialize (K2 Hv1). lia.
    - rewrite K1 in H2 by assumption. specialize (H2 Hu1). lia.
    - assert (c :: r ++ s = utf8 u ++ s) as E1 by (rewrite Ec; reflexivity).
      assert (c :: r ++ s = utf8 v ++ t) as E2 by (rewrite E1; exact E).
      pose proof (decode_rune_complete _ _ _ _ Hu Hu1 E1) as D1. pose proof (decode_rune_complete _ _ _ _ Hv Hv1 E2) as D2. congruence. }
  split; [reflexivity|]. eapply app_inv_head, E.
Qed.

Lemma readable_det s a : readable s a -> forall b, readable s b -> a = b.
Proof.
  induction 1 as [|u s a Hu H IH|c s a Hc H IH]; intros b Hb.
  - inversion Hb as [|v q b' Hv Hq E|]; subst; [reflexivity|]. destruct (utf8_head v) as (d & r & Ed & _). rewrite Ed in E. discriminate.
  - inversion Hb as [E|v q b' Hv Hq E|c q b' Hc Hq E]; subst.
    + destruct (utf8_head u) as (d & r & Ed & _). rewrite Ed in E. discriminate.
    + apply utf8_prefix in E as [-> ->]; [|assumption|assumption]. f_equal. auto.
    + exfalso. eapply Hc; [exact Hu|exact E].
  - inversion Hb as [E|v q b' Hv Hq E|c' q b' Hc' Hq E]; subst.
    + exfalso. eapply Hc; [exact Hv|symmetry; exact E].
    + f_equal. auto.
Qed.

Lemma readable_utf8 s a : readable s a -> is_utf8 a.
Proof.
  assert (scalar 65533) as Hf by (unfold scalar; lia).
  induction 1 as [|u s a Hu H [us [H1 ->]]|c s a Hc H [us [H1 ->]]].
  - exists []. split; [constructor|reflexivity].
  - exists (u :: us). split; [constructor; assumption|reflexivity].
  - exists (65533 :: us). split; [constructor; assumption|reflexivity].
Qed.
Lemma utf8_readable s : is_utf8 s -> readable s s.
Proof. intros (us & H & ->). induction H; cbn [flat_map]; constructor; assumption. Qed.
Lemma readable_same s a : is_utf8 s -> readable s a -> a = s.
Proof. intros H K. eapply readable_det; [exact K|apply utf8_readable, H]. Qed.

(** The replacement as a function. *)
Fixpoint clean_k (k : nat) (s : bytes) : bytes :=
  match k, s with
  | S k', c :: r =>
      if c <? 128 then c :: clean_k k' r
      else match decode_rune c r with
           | None => utf8 65533 ++ clean_k k' r
           | Some (u, n) => firstn n s ++ clean_k k' (skipn n s)
           end
  | _, _ => []
  end.
Definition clean (s : bytes) : bytes := clean_k (length s) s.

Lemma skip_utf8 u s n : firstn n s = utf8 u -> s = utf8 u ++ skipn n s.
Proof. intros H. rewrite <- H. symmetry. apply firstn_skipn. Qed.
Lemma skip_length u (c : N) r n k : firstn n (c :: r) = utf8 u -> (length (c :: r) <= S k)%nat -> (length (skipn n (c :: r)) <= k)%nat.
Proof.
  intros H Hk. pose proof (utf8_nonempty u) as H1. rewrite <- H in H1. destruct n; [cbn in H1; lia|].
  cbn [skipn length] in *. rewrite skipn_length. lia.
Qed.

Lemma clean_k_readable k : forall s, bytes_ok s -> (length s <= k)%nat -> readable s (clean_k k s).
Proof.
  induction k as [|k IH]; intros [|c r] Hs Hk; cbn [clean_k]; try constructor; [cbn in Hk; lia|].
  apply Forall_cons_iff in Hs as Hcr. destruct Hcr as [Hc Hr]. cbn [length] in Hk.
  destruct (N.ltb_spec c 128) as [H|H].
  - change (c :: r) with ([c] ++ r). change (c :: clean_k k r) with ([c] ++ clean_k k r). rewrite <- (utf8_1 c H).
    constructor; [unfold scalar; lia|]. apply IH; [exact Hr|lia].
  - destruct (decode_rune c r) as [[u n]|] eqn:E.
    + apply decode_rune_sound in E as (H1 & H2 & H3). rewrite H3. rewrite (skip_utf8 _ _ _ H3) at 1. constructor; [exact H1|].
      apply IH; [apply bytes_ok_skipn, Hs|]. eapply skip_length; [exact H3|cbn [length]; lia].
    + constructor; [apply decode_rune_none; assumption|]. apply IH; [exact Hr|lia].
Qed.
Lemma clean_readable s : bytes_ok s -> readable s (clean s).
Proof. intros H. apply clean_k_readable; [exact H|lia]. Qed.
Lemma clean_same s : bytes_ok s -> is_utf8 s -> clean s = s.
Proof. intros H K. apply readable_same; [exact K|apply clean_readable, H]. Qed.

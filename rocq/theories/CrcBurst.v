(** Errors in data followed by its checksum: the CRC-8 follows as one byte, the CRC-16 as two
    bytes, the low one first. *)
From Coq Require Import NArith ZArith Lia ZifyBool ZifyNat ZifyN Bool List.
From Verif Require Import GoBase Crc SpecBase SpecCrc BaseFacts CrcFacts.
Import ListNotations.
Open Scope N_scope.

Lemma poly8_ok : 0x31 < W 7. Proof. reflexivity. Qed.
Lemma poly16_ok : 0x1021 < W 15. Proof. reflexivity. Qed.

Lemma lxor_cancel a b c : N.lxor a b = N.lxor a c -> b = c.
Proof.
  intros H. apply (f_equal (N.lxor a)) in H. rewrite <- !N.lxor_assoc, N.lxor_nilpotent, !N.lxor_0_l in H. exact H.
Qed.

(** ** Lists of bits *)
Lemma bits_zero l : bytes_ok l -> ~ In true (bits_of l) -> Forall (fun x => x = 0) l.
Proof.
  intros Hl. induction Hl as [|x l Hx Hl IH]; intros Hn; [constructor|].
  cbn [bits_of flat_map] in Hn. rewrite in_app_iff in Hn.
  constructor; [|apply IH; intros H; apply Hn; right; exact H].
  assert (forall i, i < 8 -> N.testbit x i = false) as Hz.
  { intros i Hi. destruct (N.testbit x i) eqn:Ht; [|reflexivity]. exfalso. apply Hn. left. unfold byte_bits.
    assert (i = 0 \/ i = 1 \/ i = 2 \/ i = 3 \/ i = 4 \/ i = 5 \/ i = 6 \/ i = 7) as Hc by lia. cbn [In].
    destruct Hc as [->|[->|[->|[->|[->|[->|[->| ->]]]]]]]; rewrite Ht; tauto. }
  apply N.bits_inj_0. intros i. destruct (N.lt_ge_cases i 8) as [Hi|Hi]; [auto|].
  destruct (N.eq_dec x 0) as [->|H0]; [apply N.bits_0|]. apply N.bits_above_log2.
  apply N.lt_le_trans with 8; [|exact Hi]. apply N.log2_lt_pow2; [lia|exact Hx].
Qed.

Lemma nothing_in n : ~ In true (nothing n).
Proof. intros H. apply repeat_spec in H. discriminate. Qed.
Lemma nothing_length n : length (nothing n) = n.
Proof. apply repeat_length. Qed.
Lemma nothing_app a b : nothing (a + b) = nothing a ++ nothing b.
Proof. apply repeat_app. Qed.

Lemma app_split {A} (a b x y : list A) : a ++ b = x ++ y -> (length a <= length x)%nat ->
  exists z, x = a ++ z /\ b = z ++ y.
Proof.
  revert x. induction a as [|u a IH]; intros x H Hl.
  - exists x. split; [reflexivity|exact H].
  - destruct x as [|v x]; [cbn in Hl; lia|]. injection H as -> H. destruct (IH x H) as (z & -> & ->); [cbn in Hl; lia|].
    exists z. split; reflexivity.
Qed.

(** ** The CRC-8, followed by itself *)
Lemma sum8_follows e x : bytes_ok e -> x < 256 ->
  fold_left s8 (bits_of e) 0 = x -> fold_left s8 (bits_of (e ++ [x])) 0 = 0.
Proof.
  intros He Hx H. rewrite bits_of_app, fold_left_app, H. cbn [bits_of flat_map]. rewrite app_nil_r.
  rewrite <- crc8_byte_s by assumption. unfold crc8_byte. rewrite N.lxor_nilpotent. reflexivity.
Qed.

Lemma detect8_sum data e x : bytes_ok data -> bytes_ok e -> x < 256 -> length data = length e ->
  detectable8 (bits_of (e ++ [x])) -> crc8 (flip data e) <> N.lxor (crc8 data) x.
Proof.
  intros Hd He Hx Hl H Heq. rewrite crc8_flip in Heq by assumption.
  pose proof (lxor_cancel _ _ _ Heq) as Hs.
  apply sum8_follows in Hs; [|assumption..]. unfold s8 in Hs. destruct H as [H|[H|H]].
  - revert Hs. apply burst_nonzero; auto; reflexivity.
  - revert Hs. apply odd_nonzero; auto; reflexivity.
  - revert Hs. apply two_nonzero with 126%nat; auto; try reflexivity. exact no_return_8.
Qed.

(** ** The CRC-16, low byte first *)
Lemma two_bytes_bit a b i : a < 256 -> N.testbit (a + 256 * b) i = if i <? 8 then N.testbit a i else N.testbit b (i - 8).
Proof.
  intros Ha. assert (a + 256 * b = N.lor a (N.shiftl b 8)) as ->.
  { rewrite N.shiftl_mul_pow2. change (2 ^ 8) with 256. rewrite <- N.lxor_lor.
    - rewrite <- N.add_nocarry_lxor; [lia|]. apply N.bits_inj_0. intros j. rewrite N.land_spec. 
      replace (b * 256) with (N.shiftl b 8) by (rewrite N.shiftl_mul_pow2; reflexivity).
      destruct (N.lt_ge_cases j 8) as [Hj|Hj]; [rewrite (N.shiftl_spec_low b) by exact Hj; apply andb_false_r|].
      destruct (N.eq_dec a 0) as [->|H0]; [rewrite N.bits_0; reflexivity|].
      rewrite (N.bits_above_log2 a); [reflexivity|]. apply N.lt_le_trans with 8; [|exact Hj]. apply N.log2_lt_pow2; [lia|exact Ha].
    - apply N.bits_inj_0. intros j. rewrite N.land_spec. 
      replace (b * 256) with (N.shiftl b 8) by (rewrite N.shiftl_mul_pow2; reflexivity).
      destruct (N.lt_ge_cases j 8) as [Hj|Hj]; [rewrite (N.shiftl_spec_low b) by exact Hj; apply andb_false_r|].
      destruct (N.eq_dec a 0) as [->|H0]; [rewrite N.bits_0; reflexivity|].
      rewrite (N.bits_above_log2 a); [reflexivity|]. apply N.lt_le_trans with 8; [|exact Hj]. apply N.log2_lt_pow2; [lia|exact Ha]. }
  rewrite N.lor_spec. destruct (N.ltb_spec i 8) as [Hi|Hi].
  - rewrite N.shiftl_spec_low by exact Hi. apply orb_false_r.
  - rewrite N.shiftl_spec_high by (exact Hi || lia).
    destruct (N.eq_dec a 0) as [->|H0]; [rewrite N.bits_0; reflexivity|].
    rewrite (N.bits_above_log2 a); [reflexivity|]. apply N.lt_le_trans with 8; [|exact Hi]. apply N.log2_lt_pow2; [lia|exact Ha].
Qed.

Lemma two_bytes_msb a b : a < 256 -> msb 16 (a + 256 * b) = byte_bits b ++ byte_bits a.
Proof.
  intros Ha. cbn [msb app byte_bits]. rewrite !two_bytes_bit by exact Ha. reflexivity.
Qed.

(** The number in two bytes given as 16 bits. *)
Definition le_number (l : list bool) : N := number (firstn 8 l) + 256 * number (skipn 8 l).
Lemma number_byte x : x < 256 -> number (byte_bits x) = x.
Proof. intros Hx. rewrite byte_bits_msb, number_msb. apply N.mod_small. exact Hx. Qed.
Lemma le_number_bytes a b : a < 256 -> b < 256 -> le_number (bits_of [a; b]) = a + 256 * b.
Proof.
  intros Ha Hb. unfold le_number. change (bits_of [a; b]) with (byte_bits a ++ byte_bits b ++ []). rewrite app_nil_r.
  change 8%nat with (length (byte_bits a)) at 1 2. rewrite firstn_app, skipn_app, Nat.sub_diag, firstn_all, skipn_all.
  cbn [firstn skipn app]. rewrite app_nil_r, !number_byte by assumption. reflexivity.
Qed.

Definition S16 (l : list bool) : N := fold_left s16 l 0.

Lemma S16_nothing n : S16 (nothing n) = 0.
Proof. unfold S16, s16. apply fold_s_nothing. exact poly16_ok. Qed.
Lemma S16_lead n l : S16 (nothing n ++ l) = S16 l.
Proof. unfold S16. rewrite fold_left_app. fold (S16 (nothing n)). rewrite S16_nothing. reflexivity. Qed.

(** An odd number of errors. *)
Lemma odd16 e a b : bytes_ok e -> a < 256 -> b < 256 -> odd_errors (bits_of (e ++ [a; b])) ->
  S16 (bits_of e) <> a + 256 * b.
Proof.
  intros He Ha Hb Ho H. unfold odd_errors in Ho. rewrite <- par_odd, bits_of_app, par_app in Ho.
  pose proof (par_fold 15 0x1021 poly16_ok eq_refl eq_refl (bits_of e) 0 eq_refl) as Hp.
  fold s16 in Hp. fold (S16 (bits_of e)) in Hp. rewrite H, msb_0, par_nothing, xorb_false_l in Hp.
  change (S 15) with 16%nat in Hp. rewrite two_bytes_msb in Hp by exact Ha.
  rewrite <- Hp in Ho. change (bits_of [a; b]) with (byte_bits a ++ byte_bits b ++ []) in Ho. rewrite app_nil_r in Ho.
  rewrite !par_app in Ho. destruct (par (byte_bits a)), (par (byte_bits b)); discriminate.
Qed.

(** Errors in the data and in the checksum, within 12 bits. *)
Fixpoint all_lists (n : nat) : list (list bool) :=
  match n with
  | O => [[]]
  | S n => map (cons false) (all_lists n) ++ map (cons true) (all_lists n)
  end.
Lemma all_lists_in l : In l (all_lists (length l)).
Proof.
  induction l as [|b l IH]; [left; reflexivity|]. cbn [all_lists length]. apply in_app_iff.
  destruct b; [right|left]; apply in_map; exact IH.
Qed.

Definition quick (l : list bool) : N := fold_left (fun c (b : bool) => step16 (if b then N.lxor c 32768 else c)) l 0.
Lemma quick_ok l : quick l = S16 l.
Proof.
  unfold quick, S16. assert (forall c, c < 65536 ->
    fold_left (fun c (b : bool) => step16 (if b then N.lxor c 32768 else c)) l c = fold_left s16 l c) as H; [|apply H; reflexivity].
  induction l as [|b l IH]; intros c Hc; [reflexivity|]. cbn [fold_left].
  assert (step16 (if b then N.lxor c 32768 else c) = s16 c b) as ->.
  { unfold s16, s. rewrite step16_g.
    - destruct b; [reflexivity|]. rewrite N.lxor_0_r. reflexivity.
    - change 65536 with (2 ^ 16) in *. apply lxor_lt; [exact Hc|destruct b; reflexivity]. }
  apply IH. unfold s16. apply (s_lt 15). exact poly16_ok.
Qed.

Lemma crossing_true :
  forallb (fun n1 => forallb (fun n2 =>
    forallb (fun m1 => let v := quick m1 in
      forallb (fun m2 => if existsb (fun b => b) (m1 ++ m2) then negb (v =? le_number (m2 ++ nothing (16 - n2))) else true)
        (all_lists n2)) (all_lists n1)) (seq 0 (13 - n1))) (seq 0 13) = true.
Proof. vm_compute. reflexivity. Qed.

Lemma crossing m1 m2 : (length m1 + length m2 <= 12)%nat -> In true (m1 ++ m2) ->
  S16 m1 <> le_number (m2 ++ nothing (16 - length m2)).
Proof.
  intros Hl Hin. pose proof crossing_true as H.
  rewrite forallb_forall in H. specialize (H (length m1)). rewrite in_seq in H. specialize (H ltac:(lia)).
  rewrite forallb_forall in H. specialize (H (length m2)). rewrite in_seq in H. specialize (H ltac:(lia)).
  rewrite forallb_forall in H. specialize (H m1 (all_lists_in m1)). cbv zeta in H.
  rewrite forallb_forall in H. specialize (H m2 (all_lists_in m2)).
  replace (existsb (fun b => b) (m1 ++ m2)) with true in H.
  2: { symmetry. apply existsb_exists. exists true. split; [exact Hin|reflexivity]. }
  rewrite quick_ok in H. intros He. rewrite He, N.eqb_refl in H. discriminate.
Qed.

Lemma all_false l : ~ In true l -> l = nothing (length l).
Proof.
  induction l as [|b l IH]; intros H; [reflexivity|]. destruct b; [exfalso; apply H; left; reflexivity|].
  cbn [length nothing repeat]. f_equal. apply IH. intros Hi. apply H. right. exact Hi.
Qed.

Lemma split_bits e a b : bits_of (e ++ [a; b]) = bits_of e ++ bits_of [a; b].
Proof. apply bits_of_app. Qed.
Lemma zero_pair a b : a < 256 -> b < 256 -> ~ In true (bits_of [a; b]) -> a = 0 /\ b = 0.
Proof.
  intros Ha Hb H. assert (bytes_ok [a; b]) as Hok by (repeat constructor; assumption).
  apply bits_zero in H; [|exact Hok]. inversion H as [|? ? -> H2]; inversion H2; auto.
Qed.

Lemma burst16 e a b : bytes_ok e -> a < 256 -> b < 256 -> burst 12 (bits_of (e ++ [a; b])) ->
  S16 (bits_of e) <> a + 256 * b.
Proof.
  intros He Ha Hb (i & m & j & Hbits & Hm & Hin) Heq. rewrite split_bits in Hbits.
  assert (length (bits_of [a; b]) = 16%nat) as H16 by reflexivity.
  pose proof (f_equal (@length bool) Hbits) as Hlen. rewrite !app_length, H16, !nothing_length in Hlen.
  destruct (Nat.le_gt_cases (length (bits_of e)) i) as [Hc|Hc].
  { (* all in the checksum *)
    destruct (app_split _ _ _ _ Hbits) as (z & Hz & Hcs); [rewrite nothing_length; exact Hc|].
    assert (~ In true (bits_of e)) as Hne.
    { intros H. apply (nothing_in i). rewrite Hz. apply in_app_iff. left. exact H. }
    rewrite (all_false _ Hne), S16_nothing in Heq. assert (a = 0 /\ b = 0) as [-> ->] by lia.
    apply (nothing_in 16). change (nothing 16) with (bits_of [0; 0]). rewrite Hcs, !in_app_iff. auto. }
  destruct (Nat.le_gt_cases (i + length m) (length (bits_of e))) as [Hd|Hd].
  { (* all in the data *)
    rewrite app_assoc in Hbits. symmetry in Hbits. destruct (app_split _ _ _ _ Hbits) as (z & Hz & Hcs).
    { rewrite app_length, nothing_length. exact Hd. }
    assert (forall q, In true q -> In q [z; bits_of [a; b]] -> False) as Hno.
    { intros q Hq [<-|[<-|[]]]; apply (nothing_in j); rewrite Hcs; apply in_app_iff; auto. }
    destruct (zero_pair a b Ha Hb) as [-> ->]; [intros H; eapply Hno; [exact H|cbn; auto]|].
    rewrite (all_false z) in Hz by (intros H; eapply Hno; [exact H|cbn; auto]).
    revert Heq. unfold S16, s16. apply burst_nonzero; try reflexivity.
    exists i, m, (length z). rewrite <- app_assoc in Hz. repeat split; [exact Hz|lia|exact Hin]. }
  (* in both *)
  destruct (app_split (nothing i) (m ++ nothing j) (bits_of e) (bits_of [a; b])) as (m1 & H1 & H2); [symmetry; exact Hbits|rewrite nothing_length; lia|].
  rewrite H1, app_length, nothing_length in Hd, Hc.
  symmetry in H2. destruct (app_split m1 (bits_of [a; b]) m (nothing j)) as (m2 & H3 & H4); [exact H2|lia|].
  rewrite <- (le_number_bytes a b Ha Hb), H1, S16_lead, H4 in Heq.
  apply (crossing m1 m2).
  - rewrite H3, app_length in Hm. exact Hm.
  - rewrite <- H3. exact Hin.
  - rewrite Heq. repeat f_equal. rewrite H4, app_length, nothing_length in H16. lia.
Qed.

(** Two errors. *)
Lemma iter_add {A} (f : A -> A) n : forall m x, iter (n + m) f x = iter m f (iter n f x).
Proof. induction n as [|n IH]; intros m x; [reflexivity|]. cbn [iter Nat.add]. apply IH. Qed.

Lemma S16_one k : S16 (true :: nothing k) = iter (S k) (g 15 0x1021) (top 15).
Proof.
  unfold S16. cbn [fold_left]. unfold s16. rewrite fold_nothing. cbn [iter]. unfold s. rewrite N.lxor_0_l. reflexivity.
Qed.

Lemma two16 e a b : bytes_ok e -> a < 256 -> b < 256 -> two_errors (N.to_nat 32758) (bits_of (e ++ [a; b])) ->
  S16 (bits_of e) <> a + 256 * b.
Proof.
  intros He Ha Hb (i & k & j & Hbits & Hk) Heq. rewrite split_bits in Hbits.
  assert (length (bits_of [a; b]) = 16%nat) as H16 by reflexivity.
  pose proof (f_equal (@length bool) Hbits) as Hlen. rewrite !app_length, H16, !nothing_length in Hlen. cbn [length] in Hlen.
  destruct (Nat.le_gt_cases (length (bits_of e)) i) as [Hc|Hc].
  { destruct (app_split _ _ _ _ Hbits) as (z & Hz & Hcs); [rewrite nothing_length; exact Hc|].
    assert (~ In true (bits_of e)) as Hne.
    { intros H. apply (nothing_in i). rewrite Hz. apply in_app_iff. left. exact H. }
    rewrite (all_false _ Hne), S16_nothing in Heq. assert (a = 0 /\ b = 0) as [-> ->] by lia.
    apply (nothing_in 16). change (nothing 16) with (bits_of [0; 0]). rewrite Hcs, !in_app_iff. cbn [In]. auto. }
  symmetry in Hbits. destruct (app_split (nothing i) ([true] ++ nothing k ++ [true] ++ nothing j) (bits_of e) (bits_of [a; b]) Hbits) as (r & H1 & H2);
    [rewrite nothing_length; lia|].
  destruct r as [|x r]; [rewrite app_nil_r in H1; rewrite H1, nothing_length in Hc; lia|].
  injection H2 as <- H2.
  rewrite H1, S16_lead in Heq.
  rewrite H1, app_length, nothing_length in Hlen. cbn [length] in Hlen.
  destruct (Nat.le_gt_cases (length r) k) as [Hd|Hd].
  - (* the second in the checksum *)
    symmetry in H2. destruct (app_split r (bits_of [a; b]) (nothing k) ([true] ++ nothing j)) as (z & H3 & H4); [exact H2|rewrite nothing_length; exact Hd|].
    assert (r = nothing (length r)) as Hr.
    { apply all_false. intros H. apply (nothing_in k). rewrite H3, in_app_iff. auto. }
    assert (z = nothing (length z)) as Hz.
    { apply all_false. intros H. apply (nothing_in k). rewrite H3, in_app_iff. auto. }
    pose proof (f_equal (@length bool) H3) as HL3. rewrite nothing_length, app_length in HL3.
    pose proof (f_equal (@length bool) H4) as HL4. rewrite H16, !app_length, nothing_length in HL4. cbn [length] in HL4.
    rewrite <- (le_number_bytes a b Ha Hb), H4, Hz in Heq. rewrite Hr, S16_one in Heq.
    remember (length r) as nr. remember (length z) as nz. replace j with (15 - nz)%nat in Heq by lia.
    assert (nz <= 15)%nat as Hnz by lia.
    assert (exists q, iter q (g 15 0x1021) (le_number (nothing nz ++ [true] ++ nothing (15 - nz))) = top 15
      /\ ((nz < 8)%nat /\ q = (8 + nz)%nat \/ (8 <= nz)%nat /\ (q + 8 = nz)%nat)) as (q & Hq & Hqn).
    { clear - Hnz. do 16 (destruct nz as [|nz]; [match goal with |- context [nothing ?n ++ _] =>
        first [exists (8 + n)%nat; split; [vm_compute; reflexivity|lia]|exists (n - 8)%nat; split; [vm_compute; reflexivity|lia]] end|]). lia. }
    rewrite <- Heq, <- iter_add in Hq. revert Hq. apply no_return_16. lia.
  - (* both in the data *)
    assert (exists t, r = nothing k ++ [true] ++ nothing t /\ ~ In true (bits_of [a; b])) as (t & Hr & Hz).
    { destruct (app_split (nothing k) ([true] ++ nothing j) r (bits_of [a; b]) H2) as (z & Hz1 & Hz2); [rewrite nothing_length; lia|].
      destruct z as [|y z]; [rewrite app_nil_r in Hz1; rewrite Hz1, nothing_length in Hd; lia|].
      injection Hz2 as <- Hz2. exists (length z).
      split.
      - rewrite Hz1. cbn [app]. repeat f_equal. apply all_false. intros H. apply (nothing_in j). rewrite Hz2, in_app_iff. auto.
      - intros H. apply (nothing_in j). rewrite Hz2, in_app_iff. auto. }
    destruct (zero_pair a b Ha Hb Hz) as [-> ->].
    revert Heq. unfold S16, s16. apply two_nonzero with (N.to_nat 32766); try reflexivity; [exact no_return_16|].
    exists 0%nat, k, t. split; [rewrite Hr; reflexivity|lia].
Qed.

(** All together. *)
Definition detectable16_sum (l : list bool) : Prop := burst 12 l \/ odd_errors l \/ two_errors (N.to_nat 32758) l.
Lemma detect16_sum data e a b : bytes_ok data -> bytes_ok e -> a < 256 -> b < 256 -> length data = length e ->
  detectable16_sum (bits_of (e ++ [a; b])) -> crc16 (flip data e) <> N.lxor (crc16 data) (a + 256 * b).
Proof.
  intros Hd He Ha Hb Hl H Heq. rewrite crc16_flip in Heq by assumption. fold (S16 (bits_of e)) in Heq.
  pose proof (lxor_cancel _ _ _ Heq) as Hs.
  revert Hs. destruct H as [H|[H|H]]; [apply burst16|apply odd16|apply two16]; assumption.
Qed.

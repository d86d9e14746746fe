(** Properties C100 and C101: damage to a checksum together with what it covers, and up to three
    wrong bits anywhere in a frame. *)
From Coq Require Import NArith ZArith Lia ZifyBool ZifyNat ZifyN String Ascii Bool List.
From Verif Require Import GoBase GoFloat Crc SubRecords Records Package SpecBase SpecCrc SpecPkg SpecSub SpecRec
  BaseFacts SubFacts SubMore RecordFacts DecodeFacts CrcFacts CrcBurst WireFacts PackageFacts PropSub PropRec PropPkg PropMore PropCrc ConcreteEnv.
Import ListNotations.
Open Scope N_scope.

Local Opaque le_bytes crc8 crc16.

(** The number of wrong bits. *)
Definition wrong_bits (e : list N) : nat := length (filter (fun b => b) (bits_of e)).

Section WithEnv.
Context {E : Env}.

(** Decoding a frame whose header checksum is wrong, or whose header is right and whose body
    checksum is wrong. *)
Lemma bad_header_sum key p0 c spare : bytes_ok c -> (hn c <= length c)%nat ->
  byte_at c 3 = N.of_nat (hn c) -> crc8 (firstn (hn c - 1) c) <> hcs c ->
  exists p, pkg_decode key p0 c spare = DRet p 137 false.
Proof.
  intros Hb Hl H3 Hne. pose proof (hn_pos c) as Hp. rewrite pkg_decode_full by assumption. cbv zeta.
  assert (covered c = N.of_nat (hn c - 1)) as Hcv by (unfold covered; destruct (N.eqb_spec (byte_at c 3) 0); lia).
  rewrite Hcv, go_slice_0 by (unfold len; rewrite app_length; lia). rewrite Nat2N.id, firstn_app.
  replace (hn c - 1 - length c)%nat with 0%nat by lia. cbn [firstn]. rewrite app_nil_r.
  destruct (N.eqb_spec (hcs c) (crc8 (firstn (hn c - 1) c))); [congruence|]. cbn [negb]. eauto.
Qed.

Lemma bad_body_sum key p0 c spare : bytes_ok c -> (hn c <= length c)%nat -> byte_at c 3 = N.of_nat (hn c) ->
  (hn c + fdl c < length c)%nat -> byte_at c 3 + word_at c 5 < 65536 -> byte_at c 9 < 2 ->
  crc16 (firstn (fdl c) (skipn (hn c) c)) <> stored_crc c ->
  exists p code, pkg_decode key p0 c spare = DRet p code false /\ (code = 129 \/ code = 137).
Proof.
  intros Hb Hl H3 Hs Hlt H9 Hne. pose proof (hn_pos c) as Hp. rewrite pkg_decode_full by assumption. cbv zeta.
  assert (covered c = N.of_nat (hn c - 1)) as Hcv by (unfold covered; destruct (N.eqb_spec (byte_at c 3) 0); lia).
  rewrite Hcv, go_slice_0 by (unfold len; rewrite app_length; lia).
  destruct (negb _); [eauto|]. destruct (Nat.eqb_spec (length c) (hn c)); [lia|].
  assert (exists k, kind_of c = Some k) as (k & ->).
  { unfold kind_of. assert (byte_at c 9 = 0 \/ byte_at c 9 = 1) as [-> | ->] by lia; cbn [N.eqb Pos.eqb]; eauto. }
  destruct (opened key c); [|eauto]. destruct (_ <=? _)%nat; [eauto|].
  unfold crc_area. replace (_ && _) with true.
  2: { symmetry. apply andb_true_iff. split; [apply N.ltb_lt; assumption|]. apply N.leb_le. unfold len. rewrite app_length.
       unfold fdl in Hs. lia. }
  rewrite H3, Nat2N.id, skipn_app. replace (hn c - length c)%nat with 0%nat by lia. cbn [skipn].
  rewrite firstn_app, skipn_length. replace (fdl c - (length c - hn c))%nat with 0%nat by lia. cbn [firstn]. rewrite app_nil_r.
  destruct (N.eqb_spec (stored_crc c) (crc16 (firstn (fdl c) (skipn (hn c) c)))); [congruence|eauto].
Qed.

(** What an accepted frame with a true length byte looks like. *)
Lemma accepted_sums key p0 c spare p code : is_bytes (c ++ spare) -> pkg_decode key p0 c spare = DRet p code true ->
  byte_at c 3 = N.of_nat (wire_header_size c) ->
  bytes_ok c /\ (hn c <= length c)%nat /\ crc8 (firstn (hn c - 1) c) = hcs c /\ (hn c + fdl c < length c)%nat
  /\ byte_at c 3 + word_at c 5 < 65536 /\ byte_at c 9 < 2 /\ crc16 (firstn (fdl c) (skipn (hn c) c)) = stored_crc c.
Proof.
  intros Hb Hd H3. apply C11_accepted_frames in Hd; [|assumption].
  destruct Hd as (_ & _ & Hc & _ & Hs & Hsp & Hlt & _ & Hbs & _ & _ & body & _ & Hbody).
  apply bytes_ok_app in Hb as [Hb _]. unfold header_complete, header_sum_ok, sum_present, body_sum_ok in *. fold (hn c) in *.
  pose proof (hn_pos c) as Hp.
  assert (covered c = N.of_nat (hn c - 1)) as Hcv by (unfold covered; destruct (N.eqb_spec (byte_at c 3) 0); lia).
  rewrite Hcv, Nat2N.id, firstn_app in Hs. replace (hn c - 1 - length c)%nat with 0%nat in Hs by lia. cbn [firstn] in Hs. rewrite app_nil_r in Hs.
  fold (fdl c) in *. split; [assumption|]. split; [assumption|]. split.
  { unfold hcs. rewrite Hs. apply crc8_checksum, bytes_ok_firstn. assumption. }
  split; [lia|]. split; [assumption|]. split.
  { destruct Hbody as (plain & _ & [(-> & _)|(-> & _)]); reflexivity. }
  rewrite H3, Nat2N.id, skipn_app in Hbs. replace (hn c - length c)%nat with 0%nat in Hbs by lia. cbn [skipn] in Hbs.
  rewrite firstn_app, skipn_length in Hbs. replace (fdl c - (length c - hn c))%nat with 0%nat in Hbs by lia. cbn [firstn] in Hbs. rewrite app_nil_r in Hbs.
  unfold stored_crc. rewrite Hbs. apply crc16_checksum. apply bytes_ok_firstn, bytes_ok_skipn. assumption.
Qed.

(** Flipping, taken apart. *)
Lemma flip_app a : forall b e f, length a = length e -> flip (a ++ b) (e ++ f) = (flip a e ++ flip b f)%list.
Proof. induction a as [|x a IH]; intros b [|y e] f H; try discriminate; [reflexivity|]. cbn [app flip]. f_equal. apply IH. injection H as H. exact H. Qed.
Lemma flip_firstn_both n : forall a e, firstn n (flip a e) = flip (firstn n a) (firstn n e).
Proof.
  induction n as [|n IH]; intros [|x a] e; try reflexivity. destruct e as [|y e]; [reflexivity|]. cbn [flip firstn]. f_equal. apply IH.
Qed.
Lemma flip_skipn_both n : forall a e, skipn n (flip a e) = flip (skipn n a) (skipn n e).
Proof.
  induction n as [|n IH]; intros [|x a] e; try reflexivity.
  destruct e as [|y e]; [cbn [flip skipn]; rewrite flip_nil; reflexivity|]. cbn [flip skipn]. apply IH.
Qed.
Lemma byte_flip c e i : (i < length c)%nat -> byte_at (flip c e) i = N.lxor (byte_at c i) (byte_at e i).
Proof. apply nth_flip. Qed.

Lemma lxor_word a b x y : a < 256 -> x < 256 -> N.lxor (a + 256 * b) (x + 256 * y) = N.lxor a x + 256 * N.lxor b y.
Proof.
  intros Ha Hx. apply N.bits_inj. intros i. rewrite N.lxor_spec, !two_bytes_bit by (assumption || (apply lxor_byte; assumption)).
  destruct (i <? 8); rewrite N.lxor_spec; reflexivity.
Qed.

(** ** Errors over a whole frame *)
(** [e] marks the wrong bits of a frame [c]; it leaves alone the length byte and the routing flag. *)
Section Whole.
Variables (key : option SecretKey) (p0 : Package) (c spare : list N) (p : Package) (code : N) (e : list N).
Hypothesis Hb : is_bytes (c ++ spare).
Hypothesis Hd : pkg_decode key p0 c spare = DRet p code true.
Hypothesis H3 : byte_at c 3 = N.of_nat (wire_header_size c).
Hypothesis Hlen : (wire_header_size c + N.to_nat (word_at c 5) + 2 <= length c)%nat.
Hypothesis He : is_bytes e.
Hypothesis Hle : length e = (wire_header_size c + N.to_nat (word_at c 5) + 2)%nat.
Hypothesis He3 : byte_at e 3 = 0.
Hypothesis He5 : N.testbit (byte_at e 2) 5 = false.

Let n := wire_header_size c.
Let f := N.to_nat (word_at c 5).
Let c' := flip c e.

Lemma whole_hn : hn c' = hn c.
Proof.
  destruct (accepted_sums _ _ _ _ _ _ Hb Hd H3) as (_ & Hl & _). pose proof (hn_pos c).
  unfold hn, wire_header_size, routed, c'. rewrite byte_flip by lia. rewrite N.lxor_spec, He5, xorb_false_r. reflexivity.
Qed.
Lemma whole_3 : byte_at c' 3 = byte_at c 3.
Proof.
  destruct (accepted_sums _ _ _ _ _ _ Hb Hd H3) as (_ & Hl & _). pose proof (hn_pos c).
  unfold c'. rewrite byte_flip, He3, N.lxor_0_r by lia. reflexivity.
Qed.
Lemma whole_ok : bytes_ok c'.
Proof. apply flip_bytes; [|exact He]. apply (accepted_sums _ _ _ _ _ _ Hb Hd H3). Qed.

(** Errors in the header. *)
Lemma whole_header : detectable8 (bits_of (firstn n e)) ->
  forall key' p0' spare', exists p', pkg_decode key' p0' c' spare' = DRet p' 137 false.
Proof.
  intros Herr key' p0' spare'. destruct (accepted_sums _ _ _ _ _ _ Hb Hd H3) as (Hbc & Hl & Hs & _). pose proof (hn_pos c) as Hp.
  apply bad_header_sum.
  - exact whole_ok.
  - rewrite whole_hn. unfold c'. rewrite flip_len. exact Hl.
  - rewrite whole_hn, whole_3. exact H3.
  - rewrite whole_hn. unfold hcs. rewrite whole_hn. unfold c'. rewrite flip_firstn_both, byte_flip by lia.
    assert (firstn n e = firstn (hn c - 1) e ++ [byte_at e (hn c - 1)])%list as Hf.
    { change n with (hn c). replace (hn c) with (S (hn c - 1)) at 1 by lia. unfold byte_at.
      assert (hn c - 1 < length e)%nat as Hlt by (fold (hn c) in Hle; lia). clear - Hlt. revert e Hlt. generalize (hn c - 1)%nat as k.
      induction k as [|k IH]; intros [|x e] Hlt; cbn [length] in Hlt; try lia; [reflexivity|]. cbn [firstn nth app]. f_equal. apply IH. lia. }
    rewrite Hf in Herr. fold (hcs c). rewrite <- Hs. apply detect8_sum.
    + apply bytes_ok_firstn. exact Hbc.
    + apply bytes_ok_firstn. exact He.
    + apply byte_at_lt. exact He.
    + rewrite !firstn_length. fold (hn c) in Hle. lia.
    + exact Herr.
Qed.

(** Errors behind the header. *)
Lemma whole_body : Forall (fun x => x = 0) (firstn n e) -> detectable16_sum (bits_of (skipn n e)) ->
  forall key' p0' spare', exists p' code', pkg_decode key' p0' c' spare' = DRet p' code' false /\ (code' = 129 \/ code' = 137).
Proof.
  intros Hz Herr key' p0' spare'. destruct (accepted_sums _ _ _ _ _ _ Hb Hd H3) as (Hbc & Hl & Hs & Hf & Hlt & H9 & Hs16). pose proof (hn_pos c) as Hp.
  assert (forall i, (i < n)%nat -> byte_at c' i = byte_at c i) as Hlow.
  { intros i Hi. change n with (hn c) in Hi. unfold c'. rewrite byte_flip by lia.
    assert (byte_at e i = 0) as ->; [|apply N.lxor_0_r].
    rewrite Forall_forall in Hz. apply Hz. unfold byte_at. rewrite <- (nth_firstn e n i) by exact Hi. apply nth_In.
    rewrite firstn_length. change n with (hn c). fold (hn c) in Hle. lia. }
  assert (word_at c' 5 = word_at c 5) as Hw.
  { change n with (hn c) in Hlow. pose proof (Hlow 5%nat) as A. pose proof (Hlow 6%nat) as B. unfold byte_at in A, B. unfold word_at.
    rewrite A, B by lia. reflexivity. }
  assert (fdl c' = fdl c) as Hfdl by (unfold fdl; rewrite Hw; reflexivity).
  pose proof whole_hn as Hhn. pose proof whole_3 as Hc3. fold (fdl c) in Hlen, Hle. fold (hn c) in Hlen, Hle.
  assert (length c' = length c) as Hcl by apply flip_len.
  apply bad_body_sum.
  - exact whole_ok.
  - rewrite Hhn, Hcl. exact Hl.
  - rewrite Hhn, Hc3. exact H3.
  - rewrite Hhn, Hfdl, Hcl. exact Hf.
  - rewrite Hc3, Hw. exact Hlt.
  - rewrite Hlow by (change n with (hn c); lia). exact H9.
  - rewrite Hhn, Hfdl. unfold stored_crc. rewrite Hhn, Hfdl. unfold c'. rewrite flip_skipn_both, flip_firstn_both.
    assert (word_at (flip c e) (hn c + fdl c) = N.lxor (stored_crc c) (byte_at e (hn c + fdl c) + 256 * byte_at e (S (hn c + fdl c)))) as ->.
    { unfold stored_crc, word_at. fold (byte_at (flip c e) (hn c + fdl c)). fold (byte_at (flip c e) (S (hn c + fdl c))).
      rewrite !byte_flip by lia. symmetry. apply lxor_word; apply byte_at_lt; assumption. }
    rewrite <- Hs16.
    assert (skipn n e = firstn (fdl c) (skipn (hn c) e) ++ [byte_at e (hn c + fdl c); byte_at e (S (hn c + fdl c))])%list as Hsp.
    { change n with (hn c). set (u := skipn (hn c) e).
      assert (forall k, byte_at e (hn c + k) = nth k u 0) as Hu by (intros k; unfold u, byte_at; symmetry; apply nth_skip).
      replace (S (hn c + fdl c)) with (hn c + S (fdl c))%nat by lia. rewrite !Hu.
      assert (length u = S (S (fdl c))) as Hlu by (unfold u; rewrite skipn_length; lia).
      clearbody u. clear - Hlu. revert u Hlu. induction (fdl c) as [|k IH]; intros u Hu.
      - destruct u as [|x [|y [|]]]; try discriminate. reflexivity.
      - destruct u as [|x u]; [discriminate|]. cbn [firstn nth app]. f_equal. apply IH. injection Hu as Hu. exact Hu. }
    rewrite Hsp in Herr. apply detect16_sum.
    + apply bytes_ok_firstn, bytes_ok_skipn. exact Hbc.
    + apply bytes_ok_firstn, bytes_ok_skipn. exact He.
    + apply byte_at_lt. exact He.
    + apply byte_at_lt. exact He.
    + rewrite !firstn_length, !skipn_length. lia.
    + exact Herr.
Qed.
End Whole.

(** ** C100 *)
Lemma flip_zeros k : forall c e, flip c (repeat 0 k ++ e) = flip_at k c e.
Proof.
  unfold flip_at. induction k as [|k IH]; intros c e; [reflexivity|]. destruct c as [|x c]; [reflexivity|].
  cbn [repeat app flip firstn skipn]. rewrite N.lxor_0_r, IH. reflexivity.
Qed.

(** The errors [e] cover the body and its checksum; the frame's length byte is its header size. *)
Theorem C100_body_and_checksum_partial : forall key p0 c spare p code e,
  is_bytes (c ++ spare) -> pkg_decode key p0 c spare = DRet p code true ->
  byte_at c 3 = N.of_nat (wire_header_size c) ->
  (wire_header_size c + N.to_nat (word_at c 5) + 2 <= length c)%nat ->
  is_bytes e -> length e = (N.to_nat (word_at c 5) + 2)%nat ->
  burst 12 (bits_of e) \/ odd_errors (bits_of e) \/ two_errors (N.to_nat 32758) (bits_of e) ->
  forall key' p0' spare', exists p' code',
    pkg_decode key' p0' (flip_at (wire_header_size c) c e) spare' = DRet p' code' false /\ (code' = 129 \/ code' = 137).
Proof.
  intros key p0 c spare p code e Hb Hd H3 Hlen He Hle Herr key' p0' spare'.
  rewrite <- flip_zeros.
  assert (forall i, (i < wire_header_size c)%nat -> byte_at (repeat 0 (wire_header_size c) ++ e) i = 0) as Hz.
  { intros i Hi. unfold byte_at. rewrite app_nth1 by (rewrite repeat_length; exact Hi). apply nth_repeat. }
  pose proof (hn_pos c) as Hp. unfold hn in Hp.
  eapply whole_body; try eassumption.
  - apply bytes_ok_app. split; [|exact He]. apply Forall_forall. intros x Hx. apply repeat_spec in Hx. subst x. reflexivity.
  - rewrite app_length, repeat_length. lia.
  - apply Hz. lia.
  - rewrite Hz by lia. reflexivity.
  - rewrite firstn_app, repeat_length, Nat.sub_diag. cbn [firstn]. rewrite app_nil_r, firstn_all2 by (rewrite repeat_length; lia).
    apply Forall_forall. intros x Hx. apply repeat_spec in Hx. exact Hx.
  - rewrite skipn_app, repeat_length, Nat.sub_diag. rewrite skipn_all2 by (rewrite repeat_length; lia). exact Herr.
Qed.

(** ** C101 *)
Lemma no_bits l : filter (fun b : bool => b) l = [] -> ~ In true l.
Proof. intros H Hi. assert (In true (filter (fun b : bool => b) l)) as Hf by (apply filter_In; auto). rewrite H in Hf. exact Hf. Qed.

(** Two wrong bits in a list of bits. *)
Lemma two_bits l d : length (filter (fun b : bool => b) l) = 2%nat -> (length l <= S d)%nat -> two_errors d l.
Proof.
  intros H Hl.
  assert (forall l k, length (filter (fun b : bool => b) l) = S k -> exists i r, l = nothing i ++ true :: r /\ length (filter (fun b : bool => b) r) = k) as Hs.
  { clear. induction l as [|b l IH]; intros k H; [discriminate|]. destruct b.
    - exists 0%nat, l. split; [reflexivity|]. injection H as H. exact H.
    - destruct (IH k H) as (i & r & -> & Hr). exists (S i), r. split; [reflexivity|exact Hr]. }
  destruct (Hs _ _ H) as (i & r & -> & Hr). destruct (Hs _ _ Hr) as (k & q & -> & Hq).
  exists i, k, (length q). split.
  - cbn [app]. do 4 f_equal. apply all_false, no_bits. destruct (filter _ q); [reflexivity|discriminate].
  - rewrite app_length, nothing_length in Hl. cbn [length] in Hl. rewrite app_length, nothing_length in Hl. cbn [length] in Hl. lia.
Qed.

Lemma wrong_bits_app a b : wrong_bits (a ++ b) = (wrong_bits a + wrong_bits b)%nat.
Proof. unfold wrong_bits. rewrite bits_of_app, filter_app, app_length. reflexivity. Qed.

(** Errors over the header, its checksum included. *)
Theorem C101_header_and_checksum_partial : forall key p0 c spare p code e,
  is_bytes (c ++ spare) -> pkg_decode key p0 c spare = DRet p code true ->
  byte_at c 3 = N.of_nat (wire_header_size c) ->
  (wire_header_size c + N.to_nat (word_at c 5) + 2 <= length c)%nat ->
  is_bytes e -> length e = (wire_header_size c + N.to_nat (word_at c 5) + 2)%nat ->
  byte_at e 3 = 0 -> N.testbit (byte_at e 2) 5 = false ->
  let h := bits_of (firstn (wire_header_size c) e) in
  burst 8 h \/ odd_errors h \/ two_errors 126 h ->
  forall key' p0' spare', exists p', pkg_decode key' p0' (flip c e) spare' = DRet p' 137 false.
Proof. intros key p0 c spare p code e Hb Hd H3 Hlen He Hle He3 He5 h Herr. eapply whole_header; eassumption. Qed.

Lemma two_far l : length (filter (fun b : bool => b) l) = 2%nat -> (length l <= 128)%nat -> nth 0 l false = false -> two_errors 126 l.
Proof.
  intros H Hl H0. destruct l as [|b l]; [discriminate|]. cbn [nth] in H0. subst b. cbn [filter] in H.
  destruct (two_bits l 126 H) as (i & k & j & -> & Hk); [cbn [length] in Hl; lia|]. exists (S i), k, j. split; [reflexivity|exact Hk].
Qed.

Theorem C101_three_bits_partial : forall key p0 c spare p code e,
  is_bytes (c ++ spare) -> pkg_decode key p0 c spare = DRet p code true ->
  byte_at c 3 = N.of_nat (wire_header_size c) ->
  (wire_header_size c + N.to_nat (word_at c 5) + 2 <= length c)%nat -> word_at c 5 <= 4092 ->
  is_bytes e -> length e = (wire_header_size c + N.to_nat (word_at c 5) + 2)%nat ->
  (1 <= wrong_bits e <= 3)%nat ->
  byte_at e 3 = 0 -> N.testbit (byte_at e 2) 5 = false -> routed c = false \/ N.testbit (byte_at e 0) 7 = false ->
  forall key' p0' spare', exists p' code',
    pkg_decode key' p0' (flip c e) spare' = DRet p' code' false /\ (code' = 129 \/ code' = 137).
Proof.
  intros key p0 c spare p code e Hb Hd H3 Hlen Hf He Hle Hw He3 He5 Hr key' p0' spare'.
  rewrite <- (firstn_skipn (wire_header_size c) e) in Hw. rewrite wrong_bits_app in Hw.
  set (h := firstn (wire_header_size c) e) in *. set (t := skipn (wire_header_size c) e) in *.
  assert (length h = wire_header_size c) as Hh by (unfold h; rewrite firstn_length; lia).
  assert (length t = N.to_nat (word_at c 5) + 2)%nat as Ht by (unfold t; rewrite skipn_length; lia).
  assert (bytes_ok h) as Hhb by (apply bytes_ok_firstn; exact He).
  destruct (wrong_bits h) as [|k] eqn:Hk.
  - (* behind the header *)
    eapply whole_body; try eassumption.
    + fold h. apply bits_zero; [exact Hhb|]. apply no_bits. unfold wrong_bits in Hk. destruct (filter _ _); [reflexivity|discriminate].
    + fold t. unfold detectable16_sum.
      destruct (wrong_bits t) as [|[|[|[|]]]] eqn:Hkt; try lia.
      * right; left. unfold odd_errors. fold (wrong_bits t). rewrite Hkt. reflexivity.
      * right; right. apply two_bits; [exact Hkt|]. rewrite bits_of_length. lia.
      * right; left. unfold odd_errors. fold (wrong_bits t). rewrite Hkt. reflexivity.
  - destruct (C101_header_and_checksum_partial key p0 c spare p code e Hb Hd H3 Hlen He Hle He3 He5) with (key' := key') (p0' := p0') (spare' := spare') as (p' & Hp'); [|eauto].
    fold h. destruct k as [|[|[|]]]; try lia.
    + right; left. unfold odd_errors. fold (wrong_bits h). rewrite Hk. reflexivity.
    + right; right. unfold wire_header_size in Hh. destruct (routed c).
      * destruct Hr as [Hr|Hr]; [discriminate|]. apply two_far; [exact Hk|rewrite bits_of_length; lia|].
        assert (byte_at h 0 = byte_at e 0) as H0 by (unfold h, byte_at; apply nth_firstn; unfold wire_header_size; destruct (routed c); lia).
        destruct h as [|x h']; [discriminate|]. cbn [bits_of flat_map byte_bits app nth]. unfold byte_at in *. cbn [nth] in H0. rewrite H0. exact Hr.
      * apply two_bits; [exact Hk|]. rewrite bits_of_length. lia.
    + right; left. unfold odd_errors. fold (wrong_bits h). rewrite Hk. reflexivity.
Qed.
End WithEnv.

(** ** Concrete frames *)
Example C100_hyps : let e := [0; 0; 5; 160; 0] in
  (exists p, pkg_decode (E := env0) None Package_zero resp_frame [] = DRet p 0 true)
  /\ is_bytes (resp_frame ++ []) /\ byte_at resp_frame 3 = N.of_nat (wire_header_size resp_frame)
  /\ (wire_header_size resp_frame + N.to_nat (word_at resp_frame 5) + 2 <= length resp_frame)%nat
  /\ is_bytes e /\ length e = (N.to_nat (word_at resp_frame 5) + 2)%nat
  /\ burst 12 (bits_of e) /\ ~ odd_errors (bits_of e) /\ odd_errors (bits_of [0; 1; 0; 1; 128])
  /\ two_errors (N.to_nat 32758) (bits_of [128; 0; 0; 0; 1]).
Proof.
  cbv zeta. split; [eexists; vm_compute; reflexivity|]. split; [okb|]. split; [reflexivity|]. split; [vm_compute; lia|].
  split; [okb|]. split; [reflexivity|]. split.
  { exists 21%nat, [true; false; true; true; false; true], 13%nat. split; [reflexivity|]. split; [cbn; lia|cbn; auto]. }
  split; [vm_compute; discriminate|]. split; [vm_compute; reflexivity|].
  exists 0%nat, 38%nat, 0%nat. split; [reflexivity|]. lia.
Qed.

(** Four wrong bits within 13, the last bit of the body and three of the checksum: accepted, with
    another processing result. *)
Theorem C100_body_and_checksum_refuted :
  let e := [0; 0; 1; 33; 16] in
  byte_at resp_frame 3 = N.of_nat (wire_header_size resp_frame)
  /\ length resp_frame = (wire_header_size resp_frame + N.to_nat (word_at resp_frame 5) + 2)%nat
  /\ (exists p, pkg_decode (E := env0) None Package_zero resp_frame [] = DRet p 0 true
       /\ p_SFRD p = Some (BResp (mkPtResponse 7 0 None)))
  /\ length e = (N.to_nat (word_at resp_frame 5) + 2)%nat /\ burst 13 (bits_of e) /\ wrong_bits e = 4%nat
  /\ (exists p, pkg_decode (E := env0) None Package_zero (flip_at (wire_header_size resp_frame) resp_frame e) [] = DRet p 0 true
       /\ p_SFRD p = Some (BResp (mkPtResponse 7 1 None))).
Proof.
  cbv zeta. split; [reflexivity|]. split; [reflexivity|]. split; [eexists; split; vm_compute; reflexivity|]. split; [reflexivity|].
  split.
  { exists 23%nat, [true; false; false; true; false; false; false; false; true; false; false; false; true], 4%nat.
    split; [reflexivity|]. split; [cbn; lia|cbn; auto]. }
  split; [reflexivity|]. eexists; split; vm_compute; reflexivity.
Qed.

Example C101_hyps : let e := [0; 0; 4; 0; 0; 0; 0; 0; 0; 0; 0; 0; 64; 0; 0; 1] in
  (exists p, pkg_decode (E := env0) None Package_zero resp_frame [] = DRet p 0 true)
  /\ is_bytes (resp_frame ++ []) /\ byte_at resp_frame 3 = N.of_nat (wire_header_size resp_frame)
  /\ (wire_header_size resp_frame + N.to_nat (word_at resp_frame 5) + 2 <= length resp_frame)%nat /\ word_at resp_frame 5 <= 4092
  /\ is_bytes e /\ length e = (wire_header_size resp_frame + N.to_nat (word_at resp_frame 5) + 2)%nat
  /\ wrong_bits e = 3%nat /\ byte_at e 3 = 0 /\ N.testbit (byte_at e 2) 5 = false /\ routed resp_frame = false
  /\ burst 8 (bits_of (firstn (wire_header_size resp_frame) e)).
Proof.
  cbv zeta. split; [eexists; vm_compute; reflexivity|]. split; [okb|]. split; [reflexivity|]. split; [vm_compute; lia|].
  split; [vm_compute; discriminate|]. split; [okb|]. repeat (split; [reflexivity|]).
  exists 21%nat, [true], 66%nat. split; [reflexivity|]. split; [cbn; lia|cbn; auto].
Qed.

(** One wrong bit, in the length byte: accepted. *)
Theorem C101_length_byte_refuted :
  let c := [1; 0; 0; 11; 0; 3; 0; 13; 1; 0; 153; 76; 16; 4; 167; 231] in
  let e := [0; 0; 0; 2; 0; 0; 0; 0; 0; 0; 0; 0; 0; 0; 0; 0] in
  byte_at c 3 = N.of_nat (wire_header_size c) /\ length c = (wire_header_size c + N.to_nat (word_at c 5) + 2)%nat
  /\ (exists p, pkg_decode (E := env0) None Package_zero c [] = DRet p 0 true /\ p_HL p = 11)
  /\ wrong_bits e = 1%nat
  /\ (exists p, pkg_decode (E := env0) None Package_zero (flip c e) [] = DRet p 0 true /\ p_HL p = 9).
Proof.
  cbv zeta. split; [reflexivity|]. split; [reflexivity|]. split; [eexists; split; vm_compute; reflexivity|]. split; [reflexivity|].
  eexists; split; vm_compute; reflexivity.
Qed.

(** Two wrong bits, the first and the last of a header with routing fields: accepted, with another
    protocol version. *)
Theorem C101_routed_header_refuted :
  let c := [1; 0; 32; 16; 0; 3; 0; 7; 0; 0; 1; 0; 2; 0; 9; 197; 7; 0; 0; 12; 73] in
  let e := [128; 0; 0; 0; 0; 0; 0; 0; 0; 0; 0; 0; 0; 0; 0; 1; 0; 0; 0; 0; 0] in
  byte_at c 3 = N.of_nat (wire_header_size c) /\ length c = (wire_header_size c + N.to_nat (word_at c 5) + 2)%nat
  /\ (exists p, pkg_decode (E := env0) None Package_zero c [] = DRet p 0 true /\ p_PRV p = 1)
  /\ wrong_bits e = 2%nat /\ byte_at e 3 = 0 /\ byte_at e 2 = 0
  /\ (exists p, pkg_decode (E := env0) None Package_zero (flip c e) [] = DRet p 0 true /\ p_PRV p = 129).
Proof.
  cbv zeta. split; [reflexivity|]. split; [reflexivity|]. split; [eexists; split; vm_compute; reflexivity|].
  repeat (split; [reflexivity|]). eexists; split; vm_compute; reflexivity.
Qed.

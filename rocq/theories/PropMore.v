(** Properties C20-C22 and the packet part of C39. *)
From Coq Require Import NArith ZArith Lia ZifyBool ZifyNat ZifyN String Ascii Bool List.
From Verif Require Import GoBase GoFloat Crc SubRecords Records Package SpecBase SpecCrc SpecPkg SpecSub SpecRec
  BaseFacts SubFacts SubMore RecordFacts DecodeFacts CrcFacts WireFacts PackageFacts PropSub PropRec PropPkg ConcreteEnv.
Import ListNotations.
Open Scope N_scope.

Local Opaque le_bytes crc8 crc16.

Section WithEnv.
Context {E : Env}.

(** ** C20 *)
Lemma digit_flag n i : is_flag (digit1 n i).
Proof. unfold is_flag, digit1, digit. destruct (N.testbit n i); auto. Qed.
Lemma digit_flag2 n i : is_flag2 (digit2 n i).
Proof. unfold is_flag2, digit2, digit1, digit. destruct (N.testbit n i), (N.testbit n (i + 1)); auto. Qed.

Lemma read_wf_flags c p : header_read c p -> wf_flags p.
Proof. intros []. constructor; rewrite ?hr_PRF, ?hr_RTE, ?hr_ENA, ?hr_CMP, ?hr_PR; auto using digit_flag, digit_flag2. Qed.

Lemma fl2_digit2 n i : fl2 (digit2 n i) = 2 * N.b2n (N.testbit n (i + 1)) + N.b2n (N.testbit n i).
Proof. unfold digit2, digit1, digit. destruct (N.testbit n i), (N.testbit n (i + 1)); reflexivity. Qed.
Lemma fl_digit1 n i : fl (digit1 n i) = N.b2n (N.testbit n i).
Proof. unfold digit1, digit. destruct (N.testbit n i); reflexivity. Qed.

Lemma read_flags c p : bytes_ok c -> header_read c p ->
  64 * fl2 (p_PRF p) + 32 * fl (p_RTE p) + 8 * fl2 (p_ENA p) + 4 * fl (p_CMP p) + fl2 (p_PR p) = byte_at c 2.
Proof.
  intros Hb []. rewrite hr_PRF, hr_RTE, hr_ENA, hr_CMP, hr_PR, !fl2_digit2, !fl_digit1.
  pose proof (num8_testbits (byte_at c 2) (byte_at_lt _ _ Hb)) as H. rewrite <- H at 9.
  unfold num8. change (6 + 1) with 7. change (3 + 1) with 4. change (0 + 1) with 1. lia.
Qed.

Lemma word_le c i : bytes_ok c -> le16 (word_at c i) = [nth i c 0; nth (S i) c 0].
Proof.
  intros Hb. unfold le16, word_at. pose proof (byte_at_lt c i Hb). pose proof (byte_at_lt c (S i) Hb). unfold byte_at in *.
  f_equal; [|f_equal]; lia.
Qed.

Lemma firstn_10 (c : bytes) : (11 <= length c)%nat ->
  firstn 10 c = [nth 0 c 0; nth 1 c 0; nth 2 c 0; nth 3 c 0; nth 4 c 0; nth 5 c 0; nth 6 c 0; nth 7 c 0; nth 8 c 0; nth 9 c 0].
Proof. do 11 (destruct c as [|? c]; [cbn; lia|]). reflexivity. Qed.
Lemma firstn_15 (c : bytes) : (16 <= length c)%nat ->
  firstn 15 c = firstn 10 c ++ [nth 10 c 0; nth 11 c 0; nth 12 c 0; nth 13 c 0; nth 14 c 0].
Proof. do 16 (destruct c as [|? c]; [cbn; lia|]). reflexivity. Qed.

Lemma read_header c p : bytes_ok c -> header_read c p -> (hn c <= length c)%nat ->
  lay_header p (byte_at c 3) (word_at c 5) = firstn (hn c - 1) c /\ header_size p = N.of_nat (hn c).
Proof.
  intros Hb Hr Hl. pose proof (read_flags c p Hb Hr) as Hf. unfold lay_header. rewrite Hf. destruct Hr.
  rewrite hr_PRV, hr_SKID, hr_HE, hr_PID, hr_PT, !word_le by assumption.
  unfold hn, wire_header_size in *. unfold header_size, opt. rewrite hr_RTE.
  destruct (routed c) eqn:Hrt; unfold routed in Hrt; unfold digit1, digit; rewrite Hrt.
  - destruct (string_dec _ _) as [_|]; [|congruence]. split; [|reflexivity].
    destruct (hr_route eq_refl) as (-> & -> & ->). rewrite !word_le by assumption.
    change (16 - 1)%nat with 15%nat. rewrite firstn_15, firstn_10 by lia. reflexivity.
  - destruct (string_dec _ _) as [Hx|_]; [discriminate|]. split; [|reflexivity].
    change (11 - 1)%nat with 10%nat. rewrite firstn_10 by lia. reflexivity.
Qed.

(** The frame ends where its fields say, the length byte is the header size, there is a body,
    it is not encrypted, and the decoded body is one that encodes to the received bytes. *)
Theorem C20_decode_then_encode_partial : forall key key' p0 c p body,
  is_bytes c -> pkg_decode key p0 c [] = DRet p 0 true ->
  byte_at c 3 = N.of_nat (wire_header_size c) -> 0 < word_at c 5 ->
  length c = (wire_header_size c + N.to_nat (word_at c 5) + 2)%nat ->
  encryption_bits c = "00"%string ->
  p_SFRD p = Some body -> body_encode body = Ok (declared_body c) ->
  snd (pkg_encode key' p) = Ok c.
Proof.
  intros key key' p0 c p body Hb Hd Hhl Hfdl Hlen He Hp Hbe.
  destruct (C11_accepted_frames key p0 c [] p 0) as (_ & Hr & Hc & Hcov & Hs & Hsp & Hlt & _ & Hbs & _); [rewrite app_nil_r; assumption|assumption|].
  unfold header_complete, sum_present, header_sum_ok, body_sum_ok in *. rewrite app_nil_r in *. fold (hn c) in *.
  pose proof (read_wf_flags _ _ Hr) as Hwf. destruct (read_header c p Hb Hr Hc) as [Hlay Hhs].
  assert (p_HL p = byte_at c 3) as HHL by (destruct Hr; assumption).
  assert (p_ENA p = "00"%string) as HENA by (destruct Hr; unfold encryption_bits in He; congruence).
  assert (declared_body c = firstn (N.to_nat (word_at c 5)) (skipn (hn c) c)) as Hdb.
  { unfold declared_body. fold (hn c). rewrite skipn_length, Hlen. replace (_ - _)%nat with 0%nat by lia. cbn [repeat]. apply app_nil_r. }
  assert (length (declared_body c) = N.to_nat (word_at c 5)) as Hdl.
  { rewrite Hdb, firstn_length, skipn_length. lia. }
  assert (out_body key' p = Ok (declared_body c)) as Ho.
  { apply outgoing_out. unfold outgoing. rewrite Hp. eauto. }
  rewrite (pkg_encode_ok key' p _ Hwf Ho). cbn [snd]. cbv zeta.
  assert (header_length p = byte_at c 3) as Hh.
  { unfold header_length. rewrite HHL. pose proof (hn_pos c). destruct (N.eqb_spec (byte_at c 3) 0); [lia|reflexivity]. }
  pose proof (word_at_lt c 5 Hb) as Hw.
  assert (u16 (len (declared_body c)) = word_at c 5) as Hu by (rewrite u16_len; rewrite Hdl; lia).
  rewrite Hu, Hh, Hlay. destruct (N.ltb_spec 0 (word_at c 5)); [|lia].
  assert (covered c = N.of_nat (hn c - 1)) as Hcv.
  { unfold covered. pose proof (hn_pos c). destruct (N.eqb_spec (byte_at c 3) 0); lia. }
  rewrite Hcv, Nat2N.id in Hs. rewrite crc8_checksum by (apply bytes_ok_firstn; assumption). rewrite <- Hs.
  assert (N.to_nat (byte_at c 3) = hn c) as Hhn by (rewrite Hhl; apply Nat2N.id).
  rewrite Hhn, <- Hdb in Hbs. rewrite crc16_checksum by (rewrite Hdb; apply bytes_ok_firstn, bytes_ok_skipn; assumption).
  rewrite <- Hbs, <- le16_eq, word_le by assumption. rewrite Hdb. f_equal.
  set (n := hn c) in *. set (f := N.to_nat (word_at c 5)) in *. pose proof (hn_pos c).
  unfold byte_at.
  transitivity (firstn (n - 1) c ++ skipn (n - 1) c)%list; [|apply firstn_skipn]. f_equal.
  rewrite (skipn_at c (n - 1)) by lia. replace (S (n - 1)) with n by lia. cbn [app]. f_equal.
  transitivity (firstn f (skipn n c) ++ skipn f (skipn n c))%list; [|apply firstn_skipn]. f_equal. rewrite skipn_plus.
  rewrite (skipn_at c (n + f)) by lia. f_equal. rewrite (skipn_at c (S (n + f))) by lia. f_equal.
  rewrite skipn_all2 by lia. reflexivity.
Qed.

(** ** C21 *)
Lemma nth_firstn (c : bytes) k i : (i < k)%nat -> nth i (firstn k c) 0 = nth i c 0.
Proof.
  revert k i. induction c as [|x c IH]; intros [|k] [|i] H; cbn; try lia; try reflexivity.
  apply IH. lia.
Qed.

(** A frame cut inside its header, its body or just before its body checksum. *)
Theorem C21_truncated_packets_partial : forall key p0 c spare p code k key' p0' spare',
  is_bytes (c ++ spare) -> is_bytes spare' -> pkg_decode key p0 c spare = DRet p code true ->
  (k <= wire_header_size c + N.to_nat (word_at c 5))%nat ->
  forall p' code', pkg_decode key' p0' (firstn k c) spare' <> DRet p' code' true.
Proof.
  intros key p0 c spare p code k key' p0' spare' Hb Hb' Hd Hk p' code' Hd'.
  apply C11_accepted_frames in Hd; [|assumption]. destruct Hd as (_ & _ & Hc & _ & _ & Hs & _).
  apply bytes_ok_app in Hb as [Hbc _].
  apply C11_accepted_frames in Hd'; [|apply bytes_ok_app; split; [apply bytes_ok_firstn|]; assumption].
  destruct Hd' as (_ & _ & Hc' & _ & _ & Hs' & _). unfold header_complete, sum_present in *.
  rewrite firstn_length in *. 
  assert (11 <= k)%nat as Hk1 by (unfold wire_header_size in Hc'; destruct (routed (firstn k c)); lia).
  assert (wire_header_size (firstn k c) = wire_header_size c) as Hw.
  { unfold wire_header_size, routed, byte_at. rewrite nth_firstn by lia. reflexivity. }
  assert (word_at (firstn k c) 5 = word_at c 5) as Hw5.
  { unfold word_at. rewrite !nth_firstn by lia. reflexivity. }
  rewrite Hw, Hw5 in Hs'. lia.
Qed.

Lemma rd_byte_len r b r' : rd_byte r = Some (b, r') -> (1 <= length r /\ length r' = length r - 1)%nat.
Proof. intros H. apply rd_byte_nz in H. lia. Qed.
Lemma rd_into_len old r b r' : rd_into old r = Some (b, r') -> (1 <= length r /\ length r' = length r - length old)%nat.
Proof. intros H. destruct r; [discriminate|]. injection H as _ <-. rewrite skipn_length. cbn [length]. lia. Qed.
Lemma rd_num_len k r n r' : rd_num k r = Some (n, r') -> (1 <= length r /\ length r' = length r - k)%nat.
Proof.
  unfold rd_num. destruct (rd_into _ _) as [[b q]|] eqn:H; [|discriminate]. intros H2. injection H2 as _ <-.
  apply rd_into_len in H. rewrite zeros_length in H. assumption.
Qed.
Lemma rd_num_tmp_len t r n t' r' : rd_num_tmp t r = Some ((n, t'), r') ->
  (1 <= length r /\ length r' = length r - length t /\ length t' = length t)%nat.
Proof.
  unfold rd_num_tmp. destruct (rd_into _ _) as [[b q]|] eqn:H; [|discriminate]. intros H2. injection H2 as _ <- <-.
  pose proof (rd_into_length _ _ _ _ H). apply rd_into_len in H. lia.
Qed.

Lemma rbind_err {A B} (x : option (A * bytes)) (f : A -> bytes -> res B) :
  (forall a r, x = Some (a, r) -> f a r = Err) -> rbind x f = Err.
Proof. intros H. destruct x as [[a r]|]; [apply H|]; reflexivity. Qed.

Definition nuls (b : bytes) : nat := count_occ N.eq_dec b 0.
Lemma rd_cstr_nuls r s r' : rd_cstr r = Some (s, r') -> nuls r = S (nuls r').
Proof.
  revert s. induction r as [|b r IH]; intros s H; [discriminate|]. 
  change (rd_cstr (b :: r)) with (if b =? 0 then Some (EmptyString, r) else match rd_cstr r with
    Some (s0, r0) => Some (String (ascii_of_N b) s0, r0) | None => None end) in H.
  unfold nuls. cbn [count_occ].
  destruct (N.eqb_spec b 0) as [->|Hb].
  - injection H as _ <-. destruct (N.eq_dec 0 0); [reflexivity|congruence].
  - destruct (rd_cstr r) as [[s2 r2]|] eqn:Hr in H; [|discriminate H]. injection H as _ <-. destruct (N.eq_dec b 0); [congruence|]. apply (IH s2). assumption.
Qed.
Lemma rd_num_skip k r n r' : rd_num k r = Some (n, r') -> r' = skipn k r.
Proof. unfold rd_num, rd_into. destruct r; [discriminate|]. rewrite zeros_length. congruence. Qed.
Lemma rd_byte_skip r b r' : rd_byte r = Some (b, r') -> r' = skipn 1 r.
Proof. destruct r; [discriminate|]. intros H. injection H as _ <-. reflexivity. Qed.

Ltac short := repeat first
  [ match goal with |- rbind (opt_rd _ _ _ _) _ = Err => apply rbind_err; intros ? ? _; cbv beta iota end
  | let H := fresh "L" in apply rbind_err; intros [? ?] ? H; cbv beta iota;
      apply rd_num_tmp_len in H; rewrite ?zeros_length in H
  | let H := fresh "L" in apply rbind_err; intros ? ? H; cbv beta iota;
      first [apply rd_byte_len in H|apply rd_num_len in H] ];
  try (cbn [length] in *; exfalso; lia).

(** Inputs shorter than the fields every value has are rejected.  For confirmations, state
    data, result codes, analog sensors (type 24), position data without altitude and responses
    this is every proper prefix of an encoding. *)
Theorem C21_short_inputs_rejected_partial :
  (forall b, (length b < 1)%nat -> SrResultCode_decode b = Err)
  /\ (forall b, (length b < 3)%nat -> SrResponse_decode_top b = Err)
  /\ (forall b, (length b < 5)%nat -> SrStateData_decode b = Err)
  /\ (forall b, (length b < 4)%nat -> SrAbsAnSensData_decode b = Err)
  /\ (forall e0 b, (length b < 21)%nat -> SrPosData_decode e0 b = Err)
  /\ (forall e0 b, (length b < 3)%nat -> PtResponse_decode e0 b = Err)
  /\ (forall e0 b, (length b < 5)%nat -> SrTermIdentity_decode e0 b = Err)
  /\ (forall e0 b, (length b < 3)%nat -> SrAdSensorsData_decode e0 b = Err)
  /\ (forall b, (length b < 4)%nat -> SrLiquidLevelSensor_decode b = Err)
  /\ (forall b, (length b < 2)%nat -> SrAbsCntrData_decode b = Err)
  /\ (forall b, (length b < 2)%nat -> SrDispatcherIdentity_decode b = Err)
  /\ (forall b, (nuls (skipn 11 b) < 2)%nat -> SrModuleData_decode b = Err)
  /\ (forall e0 b, (nuls b < 2)%nat -> SrAuthInfo_decode e0 b = Err).
Proof.
  repeat apply conj.
  - intros b Hb. unfold SrResultCode_decode. short.
  - intros b Hb. unfold SrResponse_decode_top, SrResponse_decode. short.
  - intros b Hb. unfold SrStateData_decode. short.
  - intros b Hb. unfold SrAbsAnSensData_decode. replace (len b <? 4) with true; [reflexivity|]. symmetry. apply N.ltb_lt. unfold len. lia.
  - intros e0 b Hb. unfold SrPosData_decode. short. destruct (parse_uint2 _ _) as [v ok]. destruct (negb ok); [reflexivity|]. short.
  - intros e0 b Hb. unfold PtResponse_decode. short.
  - intros e0 b Hb. unfold SrTermIdentity_decode. short.
  - intros e0 b Hb. unfold SrAdSensorsData_decode. short.
  - intros b Hb. unfold SrLiquidLevelSensor_decode. apply rbind_err. intros a r L. apply rd_byte_len in L. cbv zeta.
    destruct (parse_flags_total (slice 5 8 (sprintf_b 8 a))) as [[n ->]| ->]; [|reflexivity]. rewrite bind_ok. short.
  - intros b Hb. unfold SrAbsCntrData_decode. short.
  - intros b Hb. unfold SrDispatcherIdentity_decode. short.
  - intros b Hb. unfold SrModuleData_decode.
    apply rbind_err; intros ? r1 L1; apply rd_byte_skip in L1.
    apply rbind_err; intros ? r2 L2; apply rd_num_skip in L2.
    apply rbind_err; intros ? r3 L3; apply rd_num_skip in L3.
    apply rbind_err; intros ? r4 L4; apply rd_num_skip in L4.
    apply rbind_err; intros ? r5 L5; apply rd_byte_skip in L5.
    apply rbind_err; intros ? r6 L6; apply rd_byte_skip in L6.
    apply rbind_err; intros ? r7 L7; apply rd_cstr_nuls in L7.
    apply rbind_err; intros ? r8 L8; apply rd_cstr_nuls in L8.
    subst. rewrite !skipn_plus in L7. cbn [Nat.add] in L7. lia.
  - intros e0 b Hb. unfold SrAuthInfo_decode.
    apply rbind_err; intros ? r1 L1; apply rd_cstr_nuls in L1.
    apply rbind_err; intros ? r2 L2; apply rd_cstr_nuls in L2. lia.
Qed.

(** ** C22 *)
(** Two results of one decoder: both errors, or both values, related by [R]. *)
Inductive both {A} (R : A -> A -> Prop) : res A -> res A -> Prop :=
| both_ok a b : R a b -> both R (Ok a) (Ok b)
| both_err : both R Err Err.

(** A field present in the input is the same; an absent one is the receiver's. *)
Definition from {A} (flag : string) (old v v' : A) : Prop :=
  if string_dec flag "1" then v = v' else v = old.

Lemma both_rbind {A B} (R : B -> B -> Prop) (x : option (A * bytes)) f g :
  (forall a r, both R (f a r) (g a r)) -> both R (rbind x f) (rbind x g).
Proof. intros H. destruct x as [[a r]|]; [apply H|constructor]. Qed.
Lemma both_opt {A B} (R : B -> B -> Prop) flag (old old' : A) rdr r f g :
  (forall a a' r, from flag old a a' -> both R (f a r) (g a' r)) ->
  both R (rbind (opt_rd (is1 flag) old rdr r) f) (rbind (opt_rd (is1 flag) old' rdr r) g).
Proof.
  intros H. unfold opt_rd, is1, from in *. destruct (String.eqb_spec flag "1") as [Hf|Hf].
  - destruct (rdr r) as [[a r']|]; [|constructor]. rewrite !rbind_some. apply H. destruct (string_dec _ _); congruence.
  - rewrite !rbind_some. apply H. destruct (string_dec _ _); congruence.
Qed.
Lemma both_opt_tmp {B} (R : B -> B -> Prop) flag (old old' : N) (tmp : bytes) r f g :
  (forall a a' t r, from flag old a a' -> (flag <> "1"%string -> a' = old') -> both R (f (a, t) r) (g (a', t) r)) ->
  both R (rbind (opt_rd (is1 flag) (old, tmp) (rd_num_tmp tmp) r) f) (rbind (opt_rd (is1 flag) (old', tmp) (rd_num_tmp tmp) r) g).
Proof.
  intros H. unfold opt_rd, is1, from in *. destruct (String.eqb_spec flag "1") as [Hf|Hf].
  - destruct (rd_num_tmp tmp r) as [[[a t] r']|]; [|constructor]. rewrite !rbind_some. apply H; [destruct (string_dec _ _); congruence|congruence].
  - rewrite !rbind_some. apply H; [destruct (string_dec _ _); congruence|congruence].
Qed.

Definition same_pos (e0 e e' : SrPosData) : Prop :=
  e = mkSrPosData (pd_NTM e') (pd_LAT e') (pd_LONG e') (pd_ALTE e') (pd_LOHS e') (pd_LAHS e') (pd_MV e') (pd_BB e')
        (pd_CS e') (pd_FIX e') (pd_VLD e') (pd_DIRH e') (pd_ALTS e') (pd_SPD e') (pd_DIR e') (pd_ODM e') (pd_DIN e')
        (pd_SRC e') (pd_ALT e)
  /\ from (pd_ALTE e') (pd_ALT e0) (pd_ALT e) (pd_ALT e').

Record same_ti (e0 e e' : SrTermIdentity) : Prop := {
  st_flags : (ti_TID e, ti_MNE e, ti_BSE e, ti_NIDE e, ti_SSRA e, ti_LNGCE e, ti_IMSIE e, ti_IMEIE e, ti_HDIDE e)
    = (ti_TID e', ti_MNE e', ti_BSE e', ti_NIDE e', ti_SSRA e', ti_LNGCE e', ti_IMSIE e', ti_IMEIE e', ti_HDIDE e');
  st_HDID : from (ti_HDIDE e) (ti_HDID e0) (ti_HDID e) (ti_HDID e');
  st_IMEI : from (ti_IMEIE e) (ti_IMEI e0) (ti_IMEI e) (ti_IMEI e');
  st_IMSI : from (ti_IMSIE e) (ti_IMSI e0) (ti_IMSI e) (ti_IMSI e');
  st_LNGC : from (ti_LNGCE e) (ti_LNGC e0) (ti_LNGC e) (ti_LNGC e');
  st_NID : from (ti_NIDE e) (ti_NID e0) (ti_NID e) (ti_NID e');
  st_BS : from (ti_BSE e) (ti_BS e0) (ti_BS e) (ti_BS e');
  st_MSISDN : from (ti_MNE e) (ti_MSISDN e0) (ti_MSISDN e) (ti_MSISDN e')
}.

Record same_ext (e0 e e' : SrExtPosData) : Prop := {
  se_flags : (ep_NSFE e, ep_SFE e, ep_PFE e, ep_HFE e, ep_VFE e) = (ep_NSFE e', ep_SFE e', ep_PFE e', ep_HFE e', ep_VFE e');
  se_VDOP : from (ep_VFE e) (ep_VDOP e0) (ep_VDOP e) (ep_VDOP e');
  se_HDOP : from (ep_HFE e) (ep_HDOP e0) (ep_HDOP e) (ep_HDOP e');
  se_PDOP : from (ep_PFE e) (ep_PDOP e0) (ep_PDOP e) (ep_PDOP e');
  se_SAT : from (ep_SFE e) (ep_SAT e0) (ep_SAT e) (ep_SAT e');
  se_NS : from (ep_NSFE e) (ep_NS e0) (ep_NS e) (ep_NS e')
}.

Record same_ad (e0 e e' : SrAdSensorsData) : Prop := {
  sa_DOUT : ad_DOUT e = ad_DOUT e';
  sa_digital : [ad_DIOE1 e; ad_DIOE2 e; ad_DIOE3 e; ad_DIOE4 e; ad_DIOE5 e; ad_DIOE6 e; ad_DIOE7 e; ad_DIOE8 e]
    = [ad_DIOE1 e'; ad_DIOE2 e'; ad_DIOE3 e'; ad_DIOE4 e'; ad_DIOE5 e'; ad_DIOE6 e'; ad_DIOE7 e'; ad_DIOE8 e'];
  sa_analog : [ad_ASFE1 e; ad_ASFE2 e; ad_ASFE3 e; ad_ASFE4 e; ad_ASFE5 e; ad_ASFE6 e; ad_ASFE7 e; ad_ASFE8 e]
    = [ad_ASFE1 e'; ad_ASFE2 e'; ad_ASFE3 e'; ad_ASFE4 e'; ad_ASFE5 e'; ad_ASFE6 e'; ad_ASFE7 e'; ad_ASFE8 e'];
  sa_D1 : from (ad_DIOE1 e) (ad_ADIO1 e0) (ad_ADIO1 e) (ad_ADIO1 e');
  sa_D2 : from (ad_DIOE2 e) (ad_ADIO2 e0) (ad_ADIO2 e) (ad_ADIO2 e');
  sa_D3 : from (ad_DIOE3 e) (ad_ADIO3 e0) (ad_ADIO3 e) (ad_ADIO3 e');
  sa_D4 : from (ad_DIOE4 e) (ad_ADIO4 e0) (ad_ADIO4 e) (ad_ADIO4 e');
  sa_D5 : from (ad_DIOE5 e) (ad_ADIO5 e0) (ad_ADIO5 e) (ad_ADIO5 e');
  sa_D6 : from (ad_DIOE6 e) (ad_ADIO6 e0) (ad_ADIO6 e) (ad_ADIO6 e');
  sa_D7 : from (ad_DIOE7 e) (ad_ADIO7 e0) (ad_ADIO7 e) (ad_ADIO7 e');
  sa_D8 : from (ad_DIOE8 e) (ad_ADIO8 e0) (ad_ADIO8 e) (ad_ADIO8 e');
  sa_A1 : from (ad_ASFE1 e) (ad_ANS1 e0) (ad_ANS1 e) (ad_ANS1 e');
  sa_A2 : from (ad_ASFE2 e) (ad_ANS2 e0) (ad_ANS2 e) (ad_ANS2 e');
  sa_A3 : from (ad_ASFE3 e) (ad_ANS3 e0) (ad_ANS3 e) (ad_ANS3 e');
  sa_A4 : from (ad_ASFE4 e) (ad_ANS4 e0) (ad_ANS4 e) (ad_ANS4 e');
  sa_A5 : from (ad_ASFE5 e) (ad_ANS5 e0) (ad_ANS5 e) (ad_ANS5 e');
  sa_A6 : from (ad_ASFE6 e) (ad_ANS6 e0) (ad_ANS6 e) (ad_ANS6 e');
  sa_A7 : from (ad_ASFE7 e) (ad_ANS7 e0) (ad_ANS7 e) (ad_ANS7 e');
  sa_A8 : from (ad_ASFE8 e) (ad_ANS8 e0) (ad_ANS8 e) (ad_ANS8 e')
}.

(** Counter 1 comes from the input if flag 1 or flag 2 is set, counter 2 never (see C35). *)
Record same_cd (e0 e e' : SrCountersData) : Prop := {
  sc_flags : [cd_CFE1 e; cd_CFE2 e; cd_CFE3 e; cd_CFE4 e; cd_CFE5 e; cd_CFE6 e; cd_CFE7 e; cd_CFE8 e]
    = [cd_CFE1 e'; cd_CFE2 e'; cd_CFE3 e'; cd_CFE4 e'; cd_CFE5 e'; cd_CFE6 e'; cd_CFE7 e'; cd_CFE8 e'];
  sc_1 : cd_CFE1 e = "1"%string \/ cd_CFE2 e = "1"%string -> cd_CN1 e = cd_CN1 e';
  sc_1' : cd_CFE1 e <> "1"%string -> cd_CFE2 e <> "1"%string -> cd_CN1 e = cd_CN1 e0;
  sc_2 : cd_CN2 e = cd_CN2 e0;
  sc_3 : from (cd_CFE3 e) (cd_CN3 e0) (cd_CN3 e) (cd_CN3 e');
  sc_4 : from (cd_CFE4 e) (cd_CN4 e0) (cd_CN4 e) (cd_CN4 e');
  sc_5 : from (cd_CFE5 e) (cd_CN5 e0) (cd_CN5 e) (cd_CN5 e');
  sc_6 : from (cd_CFE6 e) (cd_CN6 e0) (cd_CN6 e) (cd_CN6 e');
  sc_7 : from (cd_CFE7 e) (cd_CN7 e0) (cd_CN7 e) (cd_CN7 e');
  sc_8 : from (cd_CFE8 e) (cd_CN8 e0) (cd_CN8 e) (cd_CN8 e')
}.

Ltac both := repeat first
  [ apply both_opt_tmp; intros | apply both_opt; intros | apply both_rbind; intros [? ?] ? | apply both_rbind; intros
  | progress cbv beta iota zeta
  | match goal with |- both _ (if ?b then Err else _) _ => destruct b; [constructor|] end
  | match goal with |- both _ (match ?p with _ => _ end) _ => destruct p end ].

(** For any two receivers [e0], [e1] and every input: the same outcome, and the results differ
    at most in the optional fields that the input does not have, which are the receiver's. *)
Theorem C22_receiver_independence_partial : forall b,
  (forall e0 e1, both (same_pos e0) (SrPosData_decode e0 b) (SrPosData_decode e1 b))
  /\ (forall e0 e1, both (same_ti e0) (SrTermIdentity_decode e0 b) (SrTermIdentity_decode e1 b))
  /\ (forall e0 e1, both (same_ext e0) (SrExtPosData_decode e0 b) (SrExtPosData_decode e1 b))
  /\ (forall e0 e1, both (same_ad e0) (SrAdSensorsData_decode e0 b) (SrAdSensorsData_decode e1 b))
  /\ (forall e0 e1, both (same_cd e0) (SrCountersData_decode e0 b) (SrCountersData_decode e1 b))
  /\ (forall e0 e1, both (fun e e' => ai_UNM e = ai_UNM e' /\ ai_UPSW e = ai_UPSW e' /\ (ai_SS e = ai_SS e' \/ ai_SS e = ai_SS e0))
        (SrAuthInfo_decode e0 b) (SrAuthInfo_decode e1 b))
  /\ (forall e0 e1, both (fun e e' => pr_RPID e = pr_RPID e' /\ pr_PR e = pr_PR e' /\ (pr_SDR e = pr_SDR e' \/ pr_SDR e = pr_SDR e0))
        (PtResponse_decode e0 b) (PtResponse_decode e1 b)).
Proof.
  intros b. repeat apply conj; intros e0 e1.
  - unfold SrPosData_decode. both. constructor. unfold same_pos. cbn [pd_NTM pd_LAT pd_LONG pd_ALTE pd_LOHS pd_LAHS pd_MV pd_BB
        pd_CS pd_FIX pd_VLD pd_DIRH pd_ALTS pd_SPD pd_DIR pd_ODM pd_DIN pd_SRC pd_ALT].
    repeat split; try assumption.
  - unfold SrTermIdentity_decode. both. constructor. constructor; first [assumption|reflexivity].
  - unfold SrExtPosData_decode. both. constructor. constructor; first [assumption|reflexivity].
  - unfold SrAdSensorsData_decode. both. constructor. constructor; first [assumption|reflexivity].
  - unfold SrCountersData_decode. both. constructor. constructor;
      cbn [cd_CFE1 cd_CFE2 cd_CFE3 cd_CFE4 cd_CFE5 cd_CFE6 cd_CFE7 cd_CFE8 cd_CN1 cd_CN2 cd_CN3 cd_CN4 cd_CN5 cd_CN6 cd_CN7 cd_CN8];
      try (first [assumption|reflexivity]).
    + unfold from in *. intros Hf.
      destruct (string_dec (slice 6 7 _) "1"); [assumption|]. destruct (string_dec (slice 7 8 _) "1"); [|tauto].
      match goal with H : _ -> ?x = _ |- _ = ?x => rewrite H by assumption end. congruence.
    + unfold from in *. intros Hf1 Hf2. destruct (string_dec (slice 6 7 _) "1"); [tauto|].
      destruct (string_dec (slice 7 8 _) "1"); [tauto|]. congruence.
  - unfold SrAuthInfo_decode. both. unfold opt_rd. destruct (negb _).
    + apply both_rbind. intros. constructor. repeat split. left; reflexivity.
    + rewrite !rbind_some. constructor. repeat split. right; reflexivity.
  - unfold PtResponse_decode. both.
    + constructor. repeat split. right; reflexivity.
    + destruct (sds_decode_nf r0) as [H1 H2]. destruct (sds_decode r0); try congruence; [|constructor].
      rewrite !bind_ok. constructor. repeat split. left; reflexivity.
Qed.


(** Sets append to what the receiver has. *)
Theorem C22_sets_append_refuted : forall s0 b l,
  (sds_decode b = Ok l -> sds_decode_into s0 b = Ok (s0 ++ l))
  /\ (forall r0 l', rds_decode b = Ok l' -> rds_decode_into r0 b = Ok (r0 ++ l')).
Proof.
  intros s0 b l. split.
  - intros H. unfold sds_decode_into. rewrite H. reflexivity.
  - intros r0 l' H. unfold rds_decode_into. rewrite H. reflexivity.
Qed.

(** A packet decoded into [p0] and into [p1]: the same code and verdict (or the same panic); on
    success the same packet, except that an unrouted packet keeps the receiver's addresses. *)
Definition with_route (p1 p : Package) : Package :=
  mkPackage (p_PRV p) (p_SKID p) (p_PRF p) (p_RTE p) (p_ENA p) (p_CMP p) (p_PR p) (p_HL p) (p_HE p) (p_FDL p) (p_PID p)
    (p_PT p) (p_PRA p1) (p_RCA p1) (p_TTL p1) (p_HCS p) (p_SFRD p) (p_SFRCS p).

Theorem C22_packets_partial : forall key p0 p1 c spare, is_bytes c ->
  match pkg_decode key p0 c spare with
  | DRet p code ok =>
      exists p', pkg_decode key p1 c spare = DRet p' code ok
        /\ (ok = true -> p' = if routed c then p else with_route p1 p)
  | d => pkg_decode key p1 c spare = d
  end.
Proof.
  intros key p0 p1 c spare Hb. destruct (Nat.lt_ge_cases (length c) (wire_header_size c)) as [Hl|Hl].
  { destruct (pkg_decode_short key p0 c spare Hb Hl) as (p & ->). destruct (pkg_decode_short key p1 c spare Hb Hl) as (p' & ->).
    exists p'. split; [reflexivity|discriminate]. }
  rewrite !pkg_decode_full by assumption. cbv zeta.
  destruct (go_slice _ _ _); [|reflexivity]. destruct (negb _); [eexists; split; [reflexivity|discriminate]|].
  destruct (_ =? _)%nat; [eexists; split; [reflexivity|discriminate]|].
  destruct (kind_of c); [|eexists; split; [reflexivity|discriminate]].
  destruct (opened key c); [|eexists; split; [reflexivity|discriminate]].
  destruct (_ <=? _)%nat; [eexists; split; [reflexivity|discriminate]|].
  destruct (crc_area c (c ++ spare)); [|reflexivity].
  destruct (_ =? _); [|eexists; split; [reflexivity|discriminate]].
  eexists. split; [reflexivity|]. intros _. unfold hdr_of, with_route. destruct (routed c); reflexivity.
Qed.

(** ** C39 *)
Theorem C39_malformed_packet_flags_partial : forall key p,
  malformed (p_PRF p ++ p_RTE p ++ p_ENA p ++ p_CMP p ++ p_PR p) -> snd (pkg_encode key p) = Err.
Proof.
  intros key p H. unfold pkg_encode. rewrite parse_flags_malformed by assumption. reflexivity.
Qed.

End WithEnv.

(** ** Concrete packets *)
Definition pkg_ex (rte ena : string) (pt : N) (body : option (@Body env0)) : @Package env0 :=
  mkPackage 1 0 "00" rte ena "0" "00" 0 0 0 65535 pt (if string_dec rte "1" then 513 else 0)
    (if string_dec rte "1" then 65535 else 0) (if string_dec rte "1" then 7 else 0) 0 body 0.

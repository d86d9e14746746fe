(** Ranges of decoded values. *)
From Coq Require Import NArith ZArith Reals String List Bool Lia.
From Flocq Require Import BinarySingleNaN.
From Verif Require Import GoBase GoFloat SubRecords Records Package Storage Server SpecBase BaseFacts SpecSub SubFacts FloatFacts PosFacts
  SubMore PropSub SpecRec RecordFacts DecodeFacts SpecCrc SpecPkg PropPkg SpecSrv.
Import ListNotations.
Open Scope N_scope.

Lemma opt_num_ok p s k r n r' : bytes_ok r -> opt_rd p s (rd_num k) r = Some (n, r') ->
  (s < 256 ^ N.of_nat k -> n < 256 ^ N.of_nat k) /\ bytes_ok r'.
Proof.
  intros Hr H. destruct p; cbn [opt_rd] in H; [apply rd_num_ok in H; tauto|]. injection H as <- <-. auto.
Qed.
Lemma opt_byte_ok p s r n r' : bytes_ok r -> opt_rd p s rd_byte r = Some (n, r') -> (s < 256 -> n < 256) /\ bytes_ok r'.
Proof.
  intros Hr H. destruct p; cbn [opt_rd] in H; [apply rd_byte_ok in H; tauto|]. injection H as <- <-. auto.
Qed.
Lemma opt_tmp_ok p s tmp r n t r' k : bytes_ok r -> bytes_ok tmp -> length tmp = k ->
  opt_rd p (s, tmp) (rd_num_tmp tmp) r = Some ((n, t), r') ->
  (s < 256 ^ N.of_nat k -> n < 256 ^ N.of_nat k) /\ bytes_ok t /\ length t = k /\ bytes_ok r'.
Proof.
  intros Hr Ht Hl H. destruct p; cbn [opt_rd] in H.
  - apply rd_num_tmp_ok in H; [|assumption..]. rewrite Hl in H. tauto.
  - injection H as <- <- <-. auto.
Qed.

Lemma lor_lt a b k : a < 2 ^ k -> b < 2 ^ k -> N.lor a b < 2 ^ k.
Proof.
  intros Ha Hb. destruct (N.eq_dec a 0) as [->|Ea]; [rewrite N.lor_0_l; assumption|].
  destruct (N.eq_dec b 0) as [->|Eb]; [rewrite N.lor_0_r; assumption|].
  apply N.log2_lt_pow2 in Ha, Hb; try lia. assert (0 < N.lor a b) as Hp.
  { destruct (N.eq_dec (N.lor a b) 0) as [E0|E0]; [|lia]. apply N.lor_eq_0_iff in E0. lia. }
  apply N.log2_lt_pow2; [exact Hp|]. rewrite N.log2_lor. lia.
Qed.

Section Ranges.
Context {E : Env}.

(** ** Every subrecord of a decoded set was decoded from bytes *)
Variable P : SubData -> Prop.
Hypothesis HP : forall t l b d, bytes_ok b -> sub_decode sds_decode t l b = Some (Ok d) -> P d.

Lemma rds_loop_all n : forall b l, bytes_ok b -> rds_loop sds_decode n b = Ok l ->
  Forall (fun s => forall d, rd_SRD s = Some d -> P d) l.
Proof.
  induction n as [|n IH]; intros [|t b] l Hb H; cbn [rds_loop] in H; try discriminate; try (injection H as <-; constructor).
  apply bytes_ok_cons in Hb as [_ Hb]. apply rbind_inv in H. destruct H as (srl & r & Hr & H).
  destruct (rd_num_ok _ _ _ _ Hb Hr) as [_ Hrb]. cbv zeta in H.
  destruct (sub_decode sds_decode t srl (firstn (N.to_nat srl) r)) as [x|] eqn:Es.
  - apply bind_inv in H. destruct H as (d & -> & H). apply bind_inv in H. destruct H as (l' & Hl & H). injection H as <-.
    constructor; [|eapply IH; [|exact Hl]; apply bytes_ok_skipn, Hrb].
    cbn [rd_SRD]. intros d' Hd. injection Hd as <-. eapply HP; [|exact Es]. apply bytes_ok_firstn, Hrb.
  - eapply IH; [|exact H]. apply bytes_ok_skipn, Hrb.
Qed.

Lemma sds_head_all b s r : bytes_ok b -> sds_head sds_decode b = Ok (s, r) ->
  bytes_ok r /\ Forall (fun x => forall d, rd_SRD x = Some d -> P d) (s_RD s).
Proof.
  intros Hb H. unfold sds_head in H.
  apply rbind_inv in H. destruct H as ([rl tmp] & r1 & H1 & H).
  apply rbind_inv in H. destruct H as ([rn tmp2] & r2 & H2 & H).
  apply rbind_inv in H. destruct H as (flags & r3 & H3 & H). cbv zeta in H.
  apply rbind_inv in H. destruct H as (oid & r4 & H4 & H).
  apply rbind_inv in H. destruct H as (evid & r5 & H5 & H).
  apply rbind_inv in H. destruct H as (tm & r6 & H6 & H).
  apply rbind_inv in H. destruct H as (sst & r7 & H7 & H).
  apply rbind_inv in H. destruct H as (rst & r8 & H8 & H).
  apply bind_inv in H. destruct H as ([rds r9] & H9 & H). injection H as <- <-. cbn [s_RD].
  destruct (rd_num_tmp_ok _ _ _ _ _ (zeros_ok 2) Hb H1) as (_ & _ & Ht & B1).
  destruct (rd_num_tmp_ok _ _ _ _ _ Ht B1 H2) as (_ & _ & _ & B2).
  destruct (rd_byte_ok _ _ _ B2 H3) as [_ B3].
  assert (bytes_ok r4) as B4.
  { apply opt_num_ok in H4; tauto. }
  assert (bytes_ok r5) as B5.
  { apply opt_num_ok in H5; tauto. }
  assert (bytes_ok r6) as B6.
  { unfold opt_rd in H6. destruct (is1 (slice 5 6 (sprintf_b 8 flags))); [|injection H6 as _ <-; assumption].
    destruct (rd_num 4 r5) as [[n r']|] eqn:En; [|discriminate]. injection H6 as _ <-. apply rd_num_ok in En; tauto. }
  destruct (rd_byte_ok _ _ _ B6 H7) as [_ B7]. destruct (rd_byte_ok _ _ _ B7 H8) as [_ B8].
  destruct (len r8 =? 0); [injection H9 as <- <-; split; [assumption|constructor]|].
  apply rbind_inv in H9. destruct H9 as (rdb & r10 & H10 & H9).
  apply bind_inv in H9. destruct H9 as (l & Hl & H9). injection H9 as <- <-.
  destruct (rd_into_ok _ _ _ _ (zeros_ok _) B8 H10) as [B9 B10]. split; [assumption|]. eapply rds_loop_all; [exact B9|exact Hl].
Qed.

Lemma sds_decode_all b l : bytes_ok b -> sds_decode b = Ok l -> forall r d, In r l -> In d (subs r) -> P d.
Proof.
  intros Hb H. revert Hb. apply (sds_decode_ind (fun b l => bytes_ok b -> forall r d, In r l -> In d (subs r) -> P d)) with (b := b); [|..].
  - intros _ r d [].
  - clear b l H. intros b s r l _ Hs _ IH Hb. destruct (sds_head_all _ _ _ Hb Hs) as [Hr Hf]. specialize (IH Hr).
    intros r0 d [<-|Hin]; [|apply IH, Hin]. unfold subs. rewrite in_flat_map. intros (x & Hx & Hd).
    rewrite Forall_forall in Hf. specialize (Hf _ Hx). destruct (rd_SRD x); [|destruct Hd]. destruct Hd as [<-|[]]. apply Hf. reflexivity.
  - exact H.
Qed.
End Ranges.

(** ** Ranges of each kind of subrecord that a saved record takes values from *)
Definition pos_range (x : SrPosData) : Prop :=
  is_finite (pd_LAT x) = true /\ (0 <= B2R (pd_LAT x) <= 90)%R /\
  is_finite (pd_LONG x) = true /\ (0 <= B2R (pd_LONG x) <= 180)%R /\
  pd_SPD x <= 1638 /\ pd_DIR x < 256 /\ (1262304000 <= pd_NTM x / 1000000000 < 1262304000 + 4294967296)%Z.
Definition ext_range (x : SrExtPosData) : Prop :=
  ep_VDOP x < 65536 /\ ep_HDOP x < 65536 /\ ep_PDOP x < 65536 /\ ep_SAT x < 256 /\ ep_NS x < 65536.
Definition liquid_range (x : SrLiquidLevelSensor) : Prop :=
  ll_LLSN x < 8 /\ ll_LLSD x < 4294967296 /\ (ll_LLSEF x = "0"%string \/ ll_LLSEF x = "1"%string) /\ is_flag2 (ll_LLSVU x).
Definition sub_range {E : Env} (d : SubData) : Prop :=
  match d with
  | DPosData x => pos_range x
  | DExtPosData x => ext_range x
  | DLiquid x => liquid_range x
  | DTermIdentity x => ti_TID x < 4294967296
  | _ => True
  end /\ Forall (fun a => as_SensorNumber a < 256 /\ as_Value a < 16777216) (analogs d).

Lemma pos_decode_range b x : bytes_ok b -> SrPosData_decode SrPosData_zero b = Ok x -> pos_range x.
Proof.
  intros Hb H. unfold SrPosData_decode in H.
  apply rbind_inv in H. destruct H as ([ntm tmp] & r1 & H1 & H).
  apply rbind_inv in H. destruct H as ([lat tmp2] & r2 & H2 & H).
  apply rbind_inv in H. destruct H as ([lon tmp3] & r3 & H3 & H).
  apply rbind_inv in H. destruct H as (flags & r4 & H4 & H). cbv zeta in H.
  apply rbind_inv in H. destruct H as (spd & r5 & H5 & H).
  destruct (rd_num_tmp_ok _ _ _ _ _ (zeros_ok 4) Hb H1) as (N1 & L1 & Ht & B1).
  destruct (rd_num_tmp_ok _ _ _ _ _ Ht B1 H2) as (N2 & L2 & Ht2 & B2).
  destruct (rd_num_tmp_ok _ _ _ _ _ Ht2 B2 H3) as (N3 & L3 & Ht3 & B3).
  destruct (rd_byte_ok _ _ _ B3 H4) as [_ B4]. destruct (rd_num_ok _ _ _ _ B4 H5) as [N5 B5].
  destruct (parse_uint2 65535 (slice 2 16 (sprintf_b 16 spd))) as [speed ok] eqn:Es. destruct ok; [|discriminate].
  cbn [negb] in H.
  apply rbind_inv in H. destruct H as (dir & r6 & H6 & H).
  apply rbind_inv in H. destruct H as (odm & r7 & H7 & H).
  apply rbind_inv in H. destruct H as (din & r8 & H8 & H).
  apply rbind_inv in H. destruct H as (src & r9 & H9 & H).
  apply rbind_inv in H. destruct H as (alt & r10 & H10 & H). injection H as <-.
  destruct (rd_byte_ok _ _ _ B5 H6) as [N6 _].
  rewrite L2, L1 in N3. rewrite L1 in N2. change (length (zeros 4)) with 4%nat in *. change (256 ^ N.of_nat 4) with 4294967296 in *.
  assert (speed < 16384) as Hsp.
  { change (256 ^ N.of_nat 2) with 65536 in N5. rewrite sprintf_b_small, slice_speed, parse_uint2_bits in Es by (try assumption; change (2 ^ N.of_nat 14) with 16384; lia).
    injection Es as <-. change (2 ^ N.of_nat 14) with 16384. apply N.mod_lt. lia. }
  unfold pos_range. cbn [pd_LAT pd_LONG pd_SPD pd_DIR pd_NTM].
  destruct (C30_coordinate_decode 90 lat) as (F1 & _ & R1); [auto|assumption|].
  destruct (C30_coordinate_decode 180 lon) as (F2 & _ & R2); [auto|assumption|].
  split; [exact F1|]. split; [exact R1|]. split; [exact F2|]. split; [exact R2|].
  split; [rewrite u16_small by lia; apply N.lt_succ_r, N.div_lt_upper_bound; lia|].
  split; [change 256 with (2 ^ 8); apply lor_lt; [exact N6|apply N.mod_lt; discriminate]|].
  rewrite time_decode_eq, Z.div_mul by (assumption || discriminate). lia.
Qed.

Lemma ext_decode_range b x : bytes_ok b -> SrExtPosData_decode SrExtPosData_zero b = Ok x -> ext_range x.
Proof.
  intros Hb H. unfold SrExtPosData_decode in H.
  apply rbind_inv in H. destruct H as (flags & r1 & H1 & H). cbv zeta in H. destruct (rd_byte_ok _ _ _ Hb H1) as [_ B1].
  apply rbind_inv in H. destruct H as ([n2 t2] & r2 & H2 & H).
  destruct (opt_tmp_ok _ _ _ _ _ _ _ 2 B1 (zeros_ok 2) eq_refl H2) as (N2 & T2 & L2 & B2).
  apply rbind_inv in H. destruct H as ([n3 t3] & r3 & H3 & H).
  destruct (opt_tmp_ok _ _ _ _ _ _ _ 2 B2 T2 L2 H3) as (N3 & T3 & L3 & B3).
  apply rbind_inv in H. destruct H as ([n4 t4] & r4 & H4 & H).
  destruct (opt_tmp_ok _ _ _ _ _ _ _ 2 B3 T3 L3 H4) as (N4 & T4 & L4 & B4).
  apply rbind_inv in H. destruct H as (n5 & r5 & H5 & H). destruct (opt_byte_ok _ _ _ _ _ B4 H5) as (N5 & B5).
  apply rbind_inv in H. destruct H as ([n6 t6] & r6 & H6 & H).
  destruct (opt_tmp_ok _ _ _ _ _ _ _ 2 B5 T4 L4 H6) as (N6 & _). injection H as <-.
  repeat split; cbn; (apply N2 || apply N3 || apply N4 || apply N5 || apply N6); reflexivity.
Qed.

Lemma ad_decode_range {E : Env} b x : bytes_ok b -> SrAdSensorsData_decode SrAdSensorsData_zero b = Ok x ->
  Forall (fun a => as_SensorNumber a < 256 /\ as_Value a < 16777216) (analogs (DAdSensors x)).
Proof.
  intros Hb H. unfold SrAdSensorsData_decode in H. cbv zeta in H.
  apply rbind_inv in H. destruct H as (f0 & r0 & H0 & H). destruct (rd_byte_ok _ _ _ Hb H0) as [_ B0]. clear H0 Hb.
  apply rbind_inv in H. destruct H as (f1 & r1 & H0 & H). destruct (rd_byte_ok _ _ _ B0 H0) as [_ B1]. clear H0 B0.
  apply rbind_inv in H. destruct H as (f2 & r2 & H0 & H). destruct (rd_byte_ok _ _ _ B1 H0) as [_ B2]. clear H0 B1.
  do 8 (apply rbind_inv in H; destruct H as (? & ? & K & H); apply opt_byte_ok in K; [|assumption]; destruct K as [_ ?]).
  assert (bytes_ok (zeros 3)) as T0 by apply zeros_ok. assert (length (zeros 3) = 3%nat) as L0 by reflexivity.
  do 8 (apply rbind_inv in H; destruct H as ([? ?] & ? & K & H); apply (opt_tmp_ok _ _ _ _ _ _ _ 3) in K; [|assumption..];
    change (256 ^ N.of_nat 3) with 16777216 in K; destruct K as (? & ? & ? & ?)).
  injection H as <-. cbn [analogs flat_map ad_ASFE1 ad_ASFE2 ad_ASFE3 ad_ASFE4 ad_ASFE5 ad_ASFE6 ad_ASFE7 ad_ASFE8 ad_ANS1 ad_ANS2 ad_ANS3 ad_ANS4 ad_ANS5 ad_ANS6 ad_ANS7 ad_ANS8].
  repeat (apply Forall_app; split); try constructor;
    (destruct (string_dec _ _); constructor; [|constructor]; cbn; split; [reflexivity|];
     match goal with K : _ < 16777216 -> ?n < 16777216 |- ?n < _ => apply K; reflexivity end).
Qed.

Lemma liquid_decode_range b x : bytes_ok b -> SrLiquidLevelSensor_decode b = Ok x -> liquid_range x.
Proof.
  intros Hb H. unfold SrLiquidLevelSensor_decode in H.
  apply rbind_inv in H. destruct H as (flags & r1 & H1 & H). cbv zeta in H. destruct (rd_byte_ok _ _ _ Hb H1) as [N1 B1].
  rewrite sprintf_b_8 in H by assumption. rewrite bits8_str8 in H. autorewrite with go in H.
  apply bind_inv in H. destruct H as (n & Hn & H).
  apply rbind_inv in H. destruct H as (m & r2 & H2 & H). destruct (rd_num_ok _ _ _ _ B1 H2) as [_ B2].
  apply rbind_inv in H. destruct H as (d & r3 & H3 & H). destruct (rd_num_ok _ _ _ _ B2 H3) as [N3 _]. injection H as <-.
  split; [|split; [exact N3|split]]; cbn.
  - destruct (N.testbit flags 2), (N.testbit flags 1), (N.testbit flags 0); vm_compute in Hn; injection Hn as <-; reflexivity.
  - destruct (N.testbit flags 6); auto.
  - unfold is_flag2. destruct (N.testbit flags 5), (N.testbit flags 4); cbn; auto.
Qed.

Lemma sub_decode_range {E : Env} t l b d : bytes_ok b -> sub_decode sds_decode t l b = Some (Ok d) -> sub_range d.
Proof.
  intros Hb H. unfold sub_decode in H.
  repeat match type of H with (if ?c then _ else _) = _ => destruct c end; try discriminate;
    injection H as H; apply bind_inv in H; destruct H as (x & Hx & H); injection H as <-; split; try exact I; try (cbn; constructor).
  all: try (eapply pos_decode_range; eassumption).
  all: try (eapply ext_decode_range; eassumption).
  all: try (eapply liquid_decode_range; eassumption).
  all: try (eapply ad_decode_range; eassumption).
  - unfold SrTermIdentity_decode in Hx. apply rbind_inv in Hx. destruct Hx as (tid & r1 & H1 & Hx). apply rd_num_ok in H1; [|assumption].
    do 8 (apply rbind_inv in Hx; destruct Hx as (? & ? & _ & Hx)). injection Hx as <-. apply H1.
  - unfold SrAbsAnSensData_decode in Hx. destruct (len b <? 4); [discriminate|].
    destruct b as [|b0 [|b1 [|b2 [|b3 b]]]]; try discriminate. injection Hx as <-. cbn [as_SensorNumber as_Value aa_SN aa_VAL].
    apply bytes_ok_cons in Hb as [H0 Hb]. split; [exact H0|]. apply bytes_ok_cons in Hb as [H1 Hb]. apply bytes_ok_cons in Hb as [H2 Hb].
    apply bytes_ok_cons in Hb as [H3 _]. rewrite N.shiftr_div_pow2. change (2 ^ 8) with 256. cbn [firstn]. unfold le_num.
    apply N.div_lt_upper_bound; lia.
  - constructor.
Qed.

(** ** Ranges of what is decoded from a packet *)
Lemma data_packet_range {E : Env} f l : is_bytes f -> data_packet f l -> forall r d, In r l -> In d (subs r) -> sub_range d.
Proof.
  intros Hb (p & (spare & code & Hs & Hd) & Hp & Hl). assert (is_bytes (f ++ spare)) as Hbs by (apply bytes_ok_app; auto).
  apply C11_accepted_frames in Hd; [|assumption].
  destruct Hd as (-> & Hr & _ & _ & _ & Hsp & _ & _ & _ & _ & _ & body & Hbody & plain & Hpl & Ha).
  destruct Hr. rewrite hr_PT in Hp. destruct Ha as [(_ & l' & -> & Hl')|(Ha & _)]; [|congruence].
  assert (l' = l) as -> by congruence.
  assert (plain = declared_body f) as ->.
  { destruct Hpl as [(_ & H)|(_ & k & Hk & _)]; [assumption|discriminate]. }
  eapply sds_decode_all; [apply sub_decode_range| |exact Hl'].
  unfold declared_body. apply bytes_ok_app. split; [apply bytes_ok_firstn; apply bytes_ok_skipn; assumption|]. apply zeros_ok.
Qed.


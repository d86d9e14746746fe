(** C86, C87 and C88: what the decoders accept, and as what, for every byte string. *)
From Coq Require Import NArith ZArith String Bool List Lia.
From Verif Require Import GoBase GoFloat Crc SubRecords Records Package.
From Verif Require Import SpecBase SpecSub SpecRec SpecCrc SpecPkg SpecDec SpecReads.
From Verif Require Import BaseFacts SubFacts SubMore RangeFacts CrcFacts RecordFacts DecodeFacts PackageFacts DecFacts ReadsFacts PropPkg PropOutcome ConcreteEnv PropCrc.
Import ListNotations.
Open Scope N_scope.

(** ** C86: subrecords *)
Theorem C86_term_identity_accepts : forall e0 b e, is_bytes b ->
  (SrTermIdentity_decode e0 b = Ok e <-> wf_ti e /\ abs_ti e0 e /\ received [] (items_ti e) b).
Proof. exact ti_accepts. Qed.
Theorem C86_module_data_accepts : forall b e, is_bytes b ->
  (SrModuleData_decode b = Ok e <-> wf_md e /\ received [] (items_md e) b).
Proof. exact md_accepts. Qed.
Theorem C86_dispatcher_accepts : forall b e, is_bytes b ->
  (SrDispatcherIdentity_decode b = Ok e <-> wf_di e /\ received [] (items_di e) b).
Proof. exact di_accepts. Qed.
Theorem C86_auth_info_accepts : forall e0 b e, is_bytes b ->
  (SrAuthInfo_decode e0 b = Ok e <->
   no_nul (ai_UNM e) /\ no_nul (ai_UPSW e)
   /\ (no_nul (ai_SS e) /\ received [] (items_ai3 e) b \/ ai_SS e = ai_SS e0 /\ received [] (items_ai2 e) b)).
Proof.
  intros e0 b e Hb. rewrite (ai_accepts e0 b e Hb). unfold wf_ai. cbn [ai_UNM ai_UPSW ai_SS].
  assert (no_nul "") by (intros []). tauto.
Qed.
Theorem C86_result_code_accepts : forall b e, is_bytes b ->
  (SrResultCode_decode b = Ok e <-> wf_result e /\ received [] (items_result e) b).
Proof. exact result_accepts. Qed.
Theorem C86_position_accepts : forall e0 b e, is_bytes b ->
  (SrPosData_decode e0 b = Ok e <->
   exists n lat long w dir, pos_of n lat long w dir e /\ abs_pos e0 e
     /\ received [0; 0; 0; 0] (items_pos n lat long w dir e) b).
Proof. exact pos_accepts. Qed.
Theorem C86_ext_position_accepts : forall e0 b e, is_bytes b ->
  (SrExtPosData_decode e0 b = Ok e <->
   wf_ext e /\ abs_ext e0 e /\ exists hi, hi < 8 /\ received [0; 0] (items_ext hi e) b).
Proof. exact ext_accepts. Qed.
Theorem C86_sensors_accepts : forall e0 b e, is_bytes b ->
  (SrAdSensorsData_decode e0 b = Ok e <-> wf_ad e /\ abs_ad e0 e /\ received [0; 0; 0] (items_ad e) b).
Proof. exact ad_accepts. Qed.
Theorem C86_counters_accepts : forall e0 b e, is_bytes b ->
  (SrCountersData_decode e0 b = Ok e <->
   exists e', wf_cd e' /\ abs_cd e0 e' /\ received [0; 0; 0] (items_cd e') b /\ e = second_is_first e0 e').
Proof. exact cd_accepts. Qed.
Theorem C86_state_accepts : forall b e, is_bytes b ->
  (SrStateData_decode b = Ok e <-> wf_sd e /\ exists hi, hi < 32 /\ received [] (items_sd hi e) b).
Proof. exact sd_accepts. Qed.
Theorem C86_liquid_accepts : forall b e, is_bytes b ->
  (SrLiquidLevelSensor_decode b = Ok e <-> wf_ll e /\ exists hi, hi < 2 /\ received [] (items_ll hi e) b).
Proof. exact ll_accepts. Qed.
Theorem C86_abs_counter_accepts : forall b e, is_bytes b ->
  (SrAbsCntrData_decode b = Ok e <-> wf_ac e /\ received [] (items_ac e) b).
Proof. exact ac_accepts. Qed.
Theorem C86_abs_sensor_accepts : forall b e, is_bytes b ->
  (SrAbsAnSensData_decode b = Ok e <-> wf_aa e /\ received [] (items_aa e) b).
Proof. exact aa_accepts. Qed.

(** A level sensor of which only the flags and one byte of the address have arrived is
    refused; with one byte of the level it is accepted. *)
Example C86_cut_ex :
  SrLiquidLevelSensor_decode [67; 7] = Err
  /\ (exists e, SrLiquidLevelSensor_decode [67; 7; 1; 200] = Ok e /\ ll_LLSD e = 200 /\ ll_MADDR e = 263 /\ ll_LLSN e = 3)
  /\ received [] [Own [67]; Own (le16 263); Own (le32 200)] [67; 7; 1; 200].
Proof.
  split; [reflexivity|]. split; [eexists; split; [reflexivity|auto]|].
  apply (rc_own _ [67]), (rc_own _ [7; 1]), (rc_own_cut _ [200] [0; 0; 0]); [discriminate|repeat constructor|constructor].
Qed.
(** The second of two dilutions of precision is cut after its first byte: its second byte is
    taken from the first one. *)
Example C86_stale_ex :
  (exists e, SrExtPosData_decode SrExtPosData_zero [3; 5; 1; 7] = Ok e /\ ep_VDOP e = 261 /\ ep_HDOP e = 263)
  /\ received [0; 0] [Own [3]; Shared (le16 261); Shared (le16 263)] [3; 5; 1; 7].
Proof.
  split; [eexists; split; [reflexivity|auto]|].
  apply (rc_own _ [3]), (rc_shared _ [5; 1]), (rc_shared_cut [5] [7] [1]); [discriminate|reflexivity|constructor].
Qed.

Section WithEnv.
Context {E : Env}.

(** A record confirmation: the bytes behind it must be records, which are dropped. *)
Theorem C86_response_accepts : forall b e, is_bytes b ->
  (SrResponse_decode_top b = Ok e <-> wf_response e /\ exists q l, b = lay_response e ++ q /\ reads_recs q l).
Proof.
  intros b e Hb. unfold SrResponse_decode_top. split.
  - intros H. assert (sub_decode sds_decode 0 0 b = Some (Ok (DResponse e))) as Hs.
    { change (sub_decode sds_decode 0 0 b) with (Some (bind (SrResponse_decode sds_decode b) (fun d => Ok (DResponse d)))). rewrite H. reflexivity. }
    apply sub_decode_means in Hs; [|assumption]. destruct Hs as [Hm|(_ & e' & q & l & He & -> & Hw & Hq)]; [inversion Hm|].
    injection He as ->. split; [assumption|]. exists q, l. split; [reflexivity|].
    apply decode_reads; [|assumption]. apply bytes_ok_app in Hb. tauto.
  - intros ([H1 H2] & q & l & -> & Hq). apply bytes_ok_app in Hb as [_ Hb]. apply (proj1 reads_decode) in Hq; [|assumption].
    destruct e as [crn rst]. unfold SrResponse_decode, lay_response. cbn [sr_CRN sr_RST] in *.
    rewrite le16_eq, <- app_assoc, rd_num_app by (auto; lia). rewrite rbind_some.
    change ([rst] ++ q) with (rst :: q). rewrite rd_byte_cons, rbind_some, Hq. reflexivity.
Qed.

(** ** C87: records *)
Theorem C87_records_accepts : forall b l, is_bytes b -> (sds_decode b = Ok l <-> reads_recs b l).
Proof.
  intros b l Hb. split; intros H; [apply decode_reads; assumption|apply (proj1 reads_decode); assumption].
Qed.
Theorem C87_subrecords_accepts : forall b l, is_bytes b -> (rds_decode b = Ok l <-> reads_subs b l).
Proof.
  intros b l Hb. split; intros H; [apply subs_decode_reads; assumption|apply reads_subs_decode; assumption].
Qed.

(** The body of a response packet. *)
Definition reads_response (b : list N) (r : PtResponse) : Prop :=
  is_u16 (pr_RPID r) /\ is_u8 (pr_PR r) /\
  exists q, b = le16 (pr_RPID r) ++ [pr_PR r] ++ q
    /\ (q = [] /\ pr_SDR r = None \/ q <> [] /\ exists l, reads_recs q l /\ pr_SDR r = Some l).

Theorem C87_response_body_accepts : forall b r, is_bytes b ->
  (PtResponse_decode PtResponse_zero b = Ok r <-> reads_response b r).
Proof.
  intros b r Hb. unfold PtResponse_decode, reads_response. split.
  - intros H. apply rbind_inv in H as (rpid & r1 & H1 & H). apply rbind_inv in H as (prc & r2 & H2 & H).
    assert (r1 <> []) as N1 by (destruct r1; discriminate).
    apply rd_num_full in H1 as (-> & L1 & B1); [|assumption|assumption]. destruct (rd_byte_ok _ _ _ B1 H2) as [L2 B2].
    destruct r1 as [|x1 r1]; [discriminate|]. injection H2 as -> ->.
    destruct (N.eqb_spec (len r2) 0) as [H0|H0].
    + injection H as <-. cbn [pr_RPID pr_PR pr_SDR]. split; [exact L1|]. split; [exact L2|]. exists r2. rewrite (le16_eq rpid).
      split; [reflexivity|]. left. split; [|reflexivity]. destruct r2; [reflexivity|]. rewrite len_cons in H0. lia.
    + apply bind_inv in H as (l & Hl & H). injection H as <-. cbn [pr_RPID pr_PR pr_SDR]. split; [exact L1|]. split; [exact L2|].
      exists r2. rewrite (le16_eq rpid). split; [reflexivity|]. right. split; [intros ->; apply H0; reflexivity|].
      exists l. split; [apply decode_reads; assumption|reflexivity].
  - intros (H1 & H2 & q & -> & H). apply bytes_ok_app in Hb as [_ Hb]. apply bytes_ok_app in Hb as [_ Hb].
    destruct r as [rpid prc sdr]. cbn [pr_RPID pr_PR pr_SDR] in *. rewrite (le16_eq rpid), rd_num_app by (auto; lia). rewrite rbind_some.
    change ([prc] ++ q) with (prc :: q). rewrite rd_byte_cons, rbind_some. destruct H as [(-> & ->)|(Hq & l & Hl & ->)]; [reflexivity|].
    destruct (N.eqb_spec (len q) 0) as [H0|H0].
    { destruct q; [congruence|]. rewrite len_cons in H0. lia. }
    apply (proj1 reads_decode) in Hl; [|assumption]. rewrite Hl. reflexivity.
Qed.

(** ** C88: packets *)
(** The body of a packet. *)
Definition reads_body (pt : N) (b : list N) (body : Body) : Prop :=
  (pt = 1 /\ exists l, body = BSds l /\ reads_recs b l) \/ (pt = 0 /\ exists r, body = BResp r /\ reads_response b r).

(** The key gives bytes. *)
Definition gives_bytes (key : option SecretKey) : Prop :=
  forall k x y, key = Some k -> sk_decode k x = Some y -> is_bytes y.

(** The frame [c], in a slice with the bytes [spare] behind it, is read as [p]; [p0] is what
    was in the packet before. *)
Record frame_reads (key : option SecretKey) (p0 : Package) (c spare : list N) (p : Package) : Prop := {
  fr_header : header_complete c;
  fr_covered : covered c <= N.of_nat (length c + length spare);
  fr_header_sum : header_sum_ok c spare;
  fr_sum : sum_present c;
  fr_short : byte_at c 3 + word_at c 5 < 65536;
  fr_inside : byte_at c 3 + word_at c 5 <= N.of_nat (length c + length spare);
  fr_body_sum : body_sum_ok c spare;
  fr_fields : header_read c p;
  fr_no_route : routed c = false -> p_PRA p = p_PRA p0 /\ p_RCA p = p_RCA p0 /\ p_TTL p = p_TTL p0;
  fr_HCS : p_HCS p = byte_at c (wire_header_size c - 1);
  fr_SFRCS : p_SFRCS p = word_at c (wire_header_size c + N.to_nat (word_at c 5));
  fr_body : exists plain body,
    (encryption_bits c = "00"%string /\ plain = declared_body c
     \/ encryption_bits c <> "00"%string /\ exists k, key = Some k /\ sk_decode k (declared_body c) = Some plain)
    /\ reads_body (byte_at c 9) plain body /\ p_SFRD p = Some body
}.

Lemma declared_bytes c : is_bytes c -> is_bytes (declared_body c).
Proof.
  intros H. unfold declared_body. apply bytes_ok_app. split; [apply bytes_ok_firstn, bytes_ok_skipn, H|].
  apply Forall_forall. intros x Hx. apply repeat_spec in Hx as ->. reflexivity.
Qed.
Lemma arrives_reads pt b body : is_bytes b -> (body_arrives pt b body <-> reads_body pt b body).
Proof.
  intros Hb. unfold body_arrives, reads_body. split; (intros [(-> & l & -> & H)|(-> & l & -> & H)]; [left|right]; split; try reflexivity; exists l; split; try reflexivity).
  1, 3: apply C87_records_accepts; assumption.
  all: apply C87_response_body_accepts; assumption.
Qed.

(** The bodies that count as readable in C08 and C10. *)
Theorem C88_readable_bodies : forall key c body, is_bytes c -> gives_bytes key ->
  (body_readable key c body <->
   exists plain,
     (encryption_bits c = "00"%string /\ plain = declared_body c
      \/ encryption_bits c <> "00"%string /\ exists k, key = Some k /\ sk_decode k (declared_body c) = Some plain)
     /\ reads_body (byte_at c 9) plain body).
Proof.
  intros key c body Hc Hkey. unfold body_readable. split; intros (plain & Hp & Hr); exists plain; (split; [exact Hp|]);
    apply arrives_reads in Hr || apply arrives_reads; try assumption;
    (destruct Hp as [(_ & ->)|(_ & k & -> & Hk)]; [apply declared_bytes; assumption|]; eapply Hkey; [reflexivity|exact Hk]).
Qed.

Lemma pkg_ext : forall a b : Package, p_PRV a = p_PRV b -> p_SKID a = p_SKID b -> p_PRF a = p_PRF b -> p_RTE a = p_RTE b ->
      p_ENA a = p_ENA b -> p_CMP a = p_CMP b -> p_PR a = p_PR b -> p_HL a = p_HL b -> p_HE a = p_HE b -> p_FDL a = p_FDL b ->
      p_PID a = p_PID b -> p_PT a = p_PT b -> p_PRA a = p_PRA b -> p_RCA a = p_RCA b -> p_TTL a = p_TTL b ->
      p_HCS a = p_HCS b -> p_SFRD a = p_SFRD b -> p_SFRCS a = p_SFRCS b -> a = b.
Proof. intros a b. destruct a, b. cbn. intros. subst. reflexivity. Qed.

Theorem C88_packet_accepts : forall key p0 c spare p, is_bytes (c ++ spare) -> gives_bytes key ->
  (pkg_decode key p0 c spare = DRet p 0 true <-> frame_reads key p0 c spare p).
Proof.
  intros key p0 c spare p Hb Hkey. pose proof Hb as Hb'. apply bytes_ok_app in Hb' as [Hbc _]. split.
  - intros H. destruct (C11_accepted_frames key p0 c spare p 0 Hb H) as (_ & H1 & H2 & H3 & H4 & H5 & H6 & H7 & H8 & H9 & H10 & body & H11 & plain & H12 & H13).
    constructor; try assumption.
    + intros Hr. rewrite pkg_decode_full in H by assumption. cbv zeta in H.
      destruct (go_slice _ _ _); [|discriminate]. destruct (negb _); [discriminate|]. destruct (_ =? _)%nat; [discriminate|].
      destruct (kind_of c); [|discriminate]. destruct (opened key c); [|discriminate]. destruct (_ <=? _)%nat; [discriminate|].
      destruct (crc_area _ _); [|discriminate]. destruct (_ =? _); [|discriminate]. injection H as <-.
      cbn [p_PRA p_RCA p_TTL set_SFRCS set_SFRD set_HCS hdr_of]. rewrite Hr. auto.
    + exists plain, body. split; [exact H12|]. split; [|assumption]. apply arrives_reads; [|assumption].
      destruct H12 as [(_ & ->)|(_ & k & -> & Hk)]; [apply declared_bytes; assumption|]. eapply Hkey; [reflexivity|exact Hk].
  - intros []. destruct fr_body0 as (plain & body & Hp & Hr & Hs).
    assert (is_bytes plain) as Hpb.
    { destruct Hp as [(_ & ->)|(_ & k & -> & Hk)]; [apply declared_bytes; assumption|]. eapply Hkey; [reflexivity|exact Hk]. }
    apply (arrives_reads _ _ _ Hpb) in Hr.
    assert (type_known c) as Ht by (unfold type_known; destruct Hr as [(Ht & _)|(Ht & _)]; auto).
    assert (body_readable key c body) as Ho by (exists plain; auto).
    assert (exists q, pkg_decode key p0 c spare = DRet q 0 true) as (q & Hq).
    { destruct (C10_every_outcome key p0 c spare Hb) as (_ & H & H').
      destruct (proj2 (H 0)) as (q & ok & Hq).
      - apply v_ok; try assumption. + unfold body_present. unfold sum_present in fr_sum0. lia. + exists body. assumption.
      - pose proof (H' _ _ _ Hq) as ->. eauto. }
    rewrite Hq. f_equal.
    destruct (C11_accepted_frames key p0 c spare q 0 Hb Hq) as (_ & H1 & _ & _ & _ & _ & _ & _ & _ & H9 & H10 & body' & H11 & H12).
    apply opened_readable in H12; [|assumption]. apply opened_readable in Ho; [|assumption]. rewrite Ho in H12. injection H12 as <-.
    assert (routed c = false -> p_PRA q = p_PRA p0 /\ p_RCA q = p_RCA p0 /\ p_TTL q = p_TTL p0) as H2.
    { intros Hrt. rewrite pkg_decode_full in Hq by assumption. cbv zeta in Hq.
      destruct (go_slice _ _ _); [|discriminate]. destruct (negb _); [discriminate|]. destruct (_ =? _)%nat; [discriminate|].
      destruct (kind_of c); [|discriminate]. destruct (opened key c); [|discriminate]. destruct (_ <=? _)%nat; [discriminate|].
      destruct (crc_area _ _); [|discriminate]. destruct (_ =? _); [|discriminate]. injection Hq as <-.
      cbn [p_PRA p_RCA p_TTL set_SFRCS set_SFRD set_HCS hdr_of]. rewrite Hrt. auto. }
    clear Hq. destruct H1, fr_fields0.
    assert (p_PRA q = p_PRA p /\ p_RCA q = p_RCA p /\ p_TTL q = p_TTL p) as (R1 & R2 & R3).
    { destruct (routed c).
      - destruct (hr_route eq_refl) as (-> & -> & ->). destruct (hr_route0 eq_refl) as (-> & -> & ->). auto.
      - destruct (H2 eq_refl) as (-> & -> & ->). destruct (fr_no_route0 eq_refl) as (-> & -> & ->). auto. }
    apply pkg_ext; congruence.
Qed.

End WithEnv.

(** Two records: the first declares four bytes of subrecords, a skipped one of type 200; the
    second declares 9 bytes of which 4 are there.  The zero bytes that are added for the rest are
    read as a subrecord of type 0 and length 0, which is too short for a confirmation. *)
Example C87_padded_ex :
  sds_decode (E := env0) [4; 0; 1; 0; 0; 2; 2; 200; 1; 0; 77; 9; 0; 2; 0; 0; 2; 2; 9; 1; 0; 5] = Err
  /\ (exists l, sds_decode (E := env0) [4; 0; 1; 0; 0; 2; 2; 200; 1; 0; 77; 9; 0; 2; 0; 0; 2; 2; 9; 6; 0; 5] = Ok l
        /\ map s_RN l = [1; 2] /\ map s_RL l = [4; 9]
        /\ map s_RD l = [[]; [mkRecordData 9 6 (Some (DResultCode (mkSrResultCode 5)))]]).
Proof. split; [vm_compute; reflexivity|]. eexists. split; [vm_compute; reflexivity|]. repeat split. Qed.
Example C87_padded_reads_ex : reads_recs (E := env0) [9; 0; 2; 0; 0; 2; 2; 9; 6; 0; 5]
  [mkSDR 9 2 "0" "0" "0" "00" "0" "0" "0" 0 0 (-62135596800 * 1000000000)%Z 2 2
     [mkRecordData 9 6 (Some (DResultCode (mkSrResultCode 5)))]].
Proof. apply C87_records_accepts; [okb|vm_compute; reflexivity]. Qed.
(** A subrecord whose length is cut to one byte. *)
Example C87_cut_length_ex : reads_subs (E := env0) [9; 1; 0; 5; 200; 7] [mkRecordData 9 1 (Some (DResultCode (mkSrResultCode 5)))].
Proof. apply C87_subrecords_accepts; [okb|vm_compute; reflexivity]. Qed.
Example C86_response_ex : SrResponse_decode_top (E := env0) [1; 2; 0] = Ok (mkSrResponse 513 0)
  /\ SrResponse_decode_top (E := env0) [1; 2; 0; 0; 0; 7; 0; 0; 2; 2] = Ok (mkSrResponse 513 0)
  /\ SrResponse_decode_top (E := env0) [1; 2; 0; 0; 0; 7; 0; 0; 2] = Err.
Proof. repeat split; vm_compute; reflexivity. Qed.
Example C88_ex : exists p, frame_reads (E := env0) None Package_zero resp_frame [] p.
Proof. eexists. apply C88_packet_accepts; [okb|discriminate|vm_compute; reflexivity]. Qed.

(** Properties C09, C14-C19, C23, C39: record sets and subrecord sets. *)
From Coq Require Import NArith ZArith Lia ZifyBool ZifyNat ZifyN String Bool List.
From Verif Require Import GoBase GoFloat SubRecords Records SpecBase SpecSub SpecRec
  BaseFacts SubFacts FloatFacts PosFacts SubMore RecordFacts DecodeFacts PropSub ConcreteEnv.
Import ListNotations.
Open Scope N_scope.

Lemma ok_inj {A} (a b : A) : Ok a = Ok b -> a = b.
Proof. congruence. Qed.

Section WithEnv.
Context {E : Env}.

(** ** C09 *)
Definition nonzero_bytes (b : bytes) : nat := length (filter (fun x => negb (x =? 0)) b).

(** With a nesting depth of one more than the number of nonzero bytes, decoding terminates
    (with a result or an error, without a panic), and allowing more depth changes nothing.
    The recursive equation is that of ServiceDataSet.Decode, without any bound. *)
Theorem C09_decoding_terminates : forall b,
  (forall depth, (nonzero_bytes b < depth)%nat -> sds_decode_fuel depth b = sds_decode b)
  /\ sds_decode b = sds_loop sds_decode (length b) b
  /\ (forall n, (length b <= n)%nat -> sds_decode b = sds_loop sds_decode n b)
  /\ ((exists l, sds_decode b = Ok l) \/ sds_decode b = Err)
  /\ ((exists l, rds_decode b = Ok l) \/ rds_decode b = Err)
  /\ (forall t n d, sub_decode sds_decode t n b = Some d -> (exists v, d = Ok v) \/ d = Err).
Proof.
  intros b. split; [|split; [|split; [|split; [|split]]]].
  - intros d Hd. apply sds_fuel_decode. exact Hd.
  - apply sds_decode_eq.
  - intros n Hn. rewrite sds_decode_eq. apply sds_loop_more; auto.
  - destruct (sds_decode_nf b) as [H1 H2]. destruct (sds_decode b); eauto; congruence.
  - destruct (rds_decode_nf b) as [H1 H2]. destruct (rds_decode b); eauto; congruence.
  - intros t n d Hd. pose proof (sub_decode_nf t n b) as H. rewrite Hd in H. destruct H. destruct d; eauto; congruence.
Qed.

(** ** C15 *)
Theorem C15_subrecord_set_round_trip_partial : forall l w l',
  subs_travel l w l' -> rds_encode l = Ok w /\ rds_decode w = Ok l'.
Proof.
  intros l w l' H. split; [eapply subs_travel_encode; eauto|].
  apply subs_arrive_rds. eapply subs_travel_arrive; eauto.
Qed.

(** ** C14 *)
(** Records whose subrecord lists round-trip through their own codec. *)
Inductive recs_round_trip : list ServiceDataRecord -> list N -> list ServiceDataRecord -> Prop :=
| rrt_nil : recs_round_trip [] [] []
| rrt_cons s w rds' l wl l' :
    wf_rec s -> rds_encode (s_RD s) = Ok w -> rds_decode w = Ok rds' -> N.of_nat (length w) < 65536 ->
    s_RL s = 0 \/ s_RL s = N.of_nat (length w) ->
    recs_round_trip l wl l' ->
    recs_round_trip (s :: l) (lay_rec s w ++ wl) (fill (N.of_nat (length w)) rds' s :: l').

Theorem C14_record_set_round_trip : forall l w l',
  recs_round_trip l w l' -> sds_encode l = Ok w /\ sds_decode w = Ok l'.
Proof.
  intros l w l' H. induction H as [|s w rds' l wl l' Hs He Hd Hl Hrl Hr [IHe IHd]]; [split; reflexivity|].
  split.
  - cbn [sds_encode]. rewrite (rec_encode _ _ Hs He Hl Hrl), bind_ok, IHe. reflexivity.
  - rewrite rds_decode_eq in Hd. rewrite sds_decode_eq.
    rewrite (sds_loop_more _ _ (S (length wl + length (lay_rec s w)))) by (rewrite app_length; lia).
    rewrite (rec_decode _ s w rds') by assumption.
    rewrite (sds_loop_more _ _ (length wl)) by lia. rewrite <- sds_decode_eq, IHd. reflexivity.
Qed.

Theorem C14_records_of_known_subrecords : forall l w l',
  recs_travel l w l' -> sds_encode l = Ok w /\ sds_decode w = Ok l'.
Proof.
  intros l w l' H. split; [eapply recs_travel_encode; eauto|].
  apply recs_arrive_sds. eapply recs_travel_arrive; eauto.
Qed.

(** ** C16 *)
Definition sub_wire (x : N * bytes) : bytes := [fst x] ++ le16 (N.of_nat (length (snd x))) ++ snd x.
Definition subs_wire (l : list (N * bytes)) : bytes := concat (map sub_wire l).

(** The subrecords before have arbitrary types and payloads, what follows is arbitrary bytes. *)
Theorem C16_unknown_subrecords_skipped : forall before t payload after,
  Forall (fun x => N.of_nat (length (snd x)) < 65536) before ->
  ~ In t known_types -> N.of_nat (length payload) < 65536 ->
  rds_decode (subs_wire before ++ sub_wire (t, payload) ++ after) = rds_decode (subs_wire before ++ after).
Proof.
  intros before t payload after Hb Ht Hp. rewrite !rds_decode_eq. unfold rds_decode_with.
  set (n := length (subs_wire before ++ sub_wire (t, payload) ++ after)).
  set (m := length (subs_wire before ++ after)).
  assert (length (subs_wire before ++ sub_wire (t, payload) ++ after) <= n)%nat as Hn by reflexivity.
  assert (length (subs_wire before ++ after) <= m)%nat as Hm by reflexivity.
  clearbody n m. revert n m Hn Hm. unfold subs_wire.
  induction Hb as [|[t1 p1] before Hx Hb IH]; intros n m Hn Hm.
  - cbn [map concat app] in *. unfold sub_wire in *. cbn [fst snd] in *.
    rewrite !app_length in Hn. cbn [length] in Hn. destruct n; [lia|].
    rewrite rds_loop_step, sub_unknown by assumption. apply rds_loop_more; lia.
  - cbn [map concat] in *. rewrite <- !app_assoc in *.
    change (sub_wire (t1, p1)) with ([t1] ++ le16 (N.of_nat (length p1)) ++ p1) in *. cbn [snd] in Hx.
    rewrite !app_length in Hn, Hm. cbn [length] in Hn, Hm.
    destruct n; [lia|]. destruct m; [lia|]. rewrite !rds_loop_step by assumption.
    rewrite (IH n m); [reflexivity| |]; rewrite app_length; lia.
Qed.

Theorem C16_unknown_subrecords_in_records : forall w l,
  recs_arrive w l -> sds_decode w = Ok l.
Proof. apply recs_arrive_sds. Qed.

(** ** C17 *)
(** The Go type of a subrecord, and the code the standard assigns to it. *)
Definition go_type (d : SubData) : nat :=
  match d with
  | DResponse _ => 0 | DTermIdentity _ => 1 | DModuleData _ => 2 | DDispatcherIdentity _ => 3
  | DAuthInfo _ => 4 | DResultCode _ => 5 | DEgtsPlus _ => 6 | DPosData _ => 7 | DExtPosData _ => 8
  | DAdSensors _ => 9 | DCounters _ => 10 | DState _ => 11 | DAbsAnSens _ => 12 | DAbsCntr _ => 13 | DLiquid _ => 14
  end%nat.
Definition code_of (d : SubData) : N :=
  match d with
  | DResponse _ => 0 | DTermIdentity _ => 1 | DModuleData _ => 2 | DDispatcherIdentity _ => 5
  | DAuthInfo _ => 7 | DResultCode _ => 9 | DEgtsPlus _ => 15 | DPosData _ => 16 | DExtPosData _ => 17
  | DAdSensors _ => 18 | DCounters _ => 19 | DState _ => 21 | DAbsAnSens _ => 24 | DAbsCntr _ => 25 | DLiquid _ => 27
  end.

Lemma decode_go_type d srl b d' : sub_decode sds_decode (code_of d) srl b = Some (Ok d') -> go_type d' = go_type d.
Proof.
  destruct d; cbn [code_of]; unfold sub_decode; cbn [N.eqb Pos.eqb SrPosDataType SrTermIdentityType SrModuleDataType
    SrRecordResponseType SrResultCodeType SrExtPosDataType SrAdSensorsDataType SrType20 SrStateDataType
    SrLiquidLevelSensorType SrAbsCntrDataType SrAuthInfoType SrCountersDataType SrEgtsPlusDataType
    SrAbsAnSensDataType SrDispatcherIdentityType]; intros H; injection H as H;
    apply bind_inv in H; destruct H as (x & _ & H); injection H as <-; reflexivity.
Qed.

Theorem C17_automatic_type_partial : forall d srl b,
  code_of d <> 2 -> code_of d <> 5 -> sub_encode d = Ok b ->
  exists n, rd_encode (mkRecordData 0 srl (Some d)) = Ok ([code_of d] ++ le16 n ++ b)
            /\ (forall n' b' d', sub_decode sds_decode (code_of d) n' b' = Some (Ok d') -> go_type d' = go_type d).
Proof.
  intros d srl b H2 H5 He.
  assert (auto_type (Some d) = Some (code_of d)) as Ha by (destruct d; try reflexivity; cbn in H2, H5; congruence).
  assert (exists n, (if srl =? 0 then sub_length d else Ok srl) = Ok n) as (n & Hn).
  { destruct (srl =? 0); [|eauto]. destruct d; cbn [sub_length]; rewrite ?He; cbn [length_of]; eauto. }
  exists n. split; [|intros; eapply decode_go_type; eauto].
  unfold rd_encode. cbn [rd_SRT rd_SRL rd_SRD]. rewrite Ha. change (0 =? 0) with true. cbv iota. rewrite bind_ok, Hn, bind_ok, He, bind_ok.
  rewrite <- le16_eq. reflexivity.
Qed.

Theorem C17_explicit_type : forall srt srl d w,
  srt <> 0 -> rd_encode (mkRecordData srt srl (Some d)) = Ok w -> exists r, w = srt :: r.
Proof.
  intros srt srl d w Hs. unfold rd_encode. cbn [rd_SRT rd_SRL rd_SRD]. apply N.eqb_neq in Hs. rewrite Hs, bind_ok.
  intros H. apply bind_inv in H. destruct H as (n & _ & H). apply bind_inv in H. destruct H as (b & _ & H).
  injection H as <-. eexists. reflexivity.
Qed.

(** Module data and dispatcher identity values with type 0 are not encodable, although the
    data alone is and Decode knows their codes. *)
Theorem C17_automatic_type_refuted :
  (forall e srl, rd_encode (mkRecordData 0 srl (Some (DModuleData e))) = Err)
  /\ (forall e srl, rd_encode (mkRecordData 0 srl (Some (DDispatcherIdentity e))) = Err)
  /\ (forall e, wf_md e -> exists b, sub_encode (DModuleData e) = Ok b /\ sub_decode sds_decode 2 (len b) b = Some (Ok (DModuleData e)))
  /\ (forall e, wf_di e -> exists b, sub_encode (DDispatcherIdentity e) = Ok b /\ sub_decode sds_decode 5 (len b) b = Some (Ok (DDispatcherIdentity e))).
Proof.
  split; [reflexivity|]. split; [reflexivity|]. split; intros e He.
  - exists (lay_md e). split; [apply md_encode; assumption|]. eapply travels_decode; [reflexivity|constructor; assumption|discriminate].
  - exists (lay_di e). split; [apply di_encode; assumption|]. eapply travels_decode; [reflexivity|constructor; assumption|discriminate].
Qed.

(** ** C18 *)
Definition size_of (e : res bytes) : res N :=
  match e with
  | Ok b => Ok (N.of_nat (length b) mod 65536)
  | Err => Ok 0
  | Panic => Panic
  | Fuel => Fuel
  end.

Theorem C18_length_is_encoded_size :
  (forall d, sub_length d = size_of (sub_encode d))
  /\ (forall l, rds_length l = size_of (rds_encode l))
  /\ (forall l, sds_length l = size_of (sds_encode l))
  /\ (forall p, PtResponse_length p = size_of (PtResponse_encode p)).
Proof.
  assert (forall e, length_of e = size_of e) as H by (intros []; reflexivity).
  split; [|split; [|split]]; intros; unfold rds_length, sds_length, PtResponse_length; rewrite ?H; try reflexivity.
  destruct d; cbn [sub_length]; rewrite ?H; reflexivity.
Qed.

(** ** C19 *)
(** The emitted bytes of subrecords and records with consistent length fields. *)
Inductive subs_framed : list RecordData -> list N -> Prop :=
| sf_nil : subs_framed [] []
| sf_cons r d t b l w : rd_SRD r = Some d -> sub_encode d = Ok b -> subs_framed l w ->
    subs_framed (r :: l) (([t] ++ le16 (N.of_nat (length b)) ++ b) ++ w).

Inductive recs_framed : list ServiceDataRecord -> list N -> Prop :=
| rf_nil : recs_framed [] []
| rf_cons s b h l w : rds_encode (s_RD s) = Ok b -> recs_framed l w ->
    recs_framed (s :: l) ((le16 (N.of_nat (length b)) ++ h ++ b) ++ w).

Definition honest_sub (r : RecordData) : Prop :=
  forall d b, rd_SRD r = Some d -> sub_encode d = Ok b ->
  N.of_nat (length b) < 65536 /\ (rd_SRL r = 0 \/ rd_SRL r = N.of_nat (length b)).
Definition honest_rec (s : ServiceDataRecord) : Prop :=
  forall b, rds_encode (s_RD s) = Ok b ->
  N.of_nat (length b) < 65536 /\ (s_RL s = 0 \/ s_RL s = N.of_nat (length b)).

Theorem C19_length_fields_partial :
  (forall l w, Forall honest_sub l -> rds_encode l = Ok w -> subs_framed l w)
  /\ (forall l w, Forall honest_rec l -> sds_encode l = Ok w -> recs_framed l w).
Proof.
  split.
  - induction l as [|r l IH]; intros w Hf Hw; [injection Hw as <-; constructor|].
    inversion Hf as [|? ? Hr Hl]; subst. cbn [rds_encode] in Hw.
    apply bind_inv in Hw. destruct Hw as (w1 & H1 & Hw). apply bind_inv in Hw. destruct Hw as (w2 & H2 & Hw).
    injection Hw as <-. unfold rd_encode in H1. apply bind_inv in H1. destruct H1 as (t & _ & H1).
    destruct (rd_SRD r) as [d|] eqn:Hd; [|discriminate].
    apply bind_inv in H1. destruct H1 as (n & Hn & H1). apply bind_inv in H1. destruct H1 as (b & Hb & H1). apply ok_inj in H1; subst w1.
    destruct (Hr d b Hd Hb) as [Hs Hsrl].
    assert (n = N.of_nat (length b)) as ->.
    { assert (sub_length d = Ok (N.of_nat (length b))) as Hlen.
      { rewrite (proj1 C18_length_is_encoded_size), Hb. cbn [size_of]. rewrite N.mod_small by assumption. reflexivity. }
      destruct Hsrl as [H0|H0]; rewrite H0 in Hn.
      - change (0 =? 0) with true in Hn. cbv iota in Hn. congruence.
      - destruct (_ =? 0); congruence. }
    rewrite <- le16_eq. econstructor; eauto.
  - induction l as [|s l IH]; intros w Hf Hw; [injection Hw as <-; constructor|].
    inversion Hf as [|? ? Hr Hl]; subst. cbn [sds_encode] in Hw.
    apply bind_inv in Hw. destruct Hw as (w1 & H1 & Hw). apply bind_inv in Hw. destruct Hw as (w2 & H2 & Hw).
    injection Hw as <-. unfold sdr_encode in H1. apply bind_inv in H1. destruct H1 as (b & Hb & H1).
    apply bind_inv in H1. destruct H1 as (fl & _ & H1). apply ok_inj in H1; subst w1.
    destruct (Hr b Hb) as [Hs Hrl].
    replace (if s_RL s =? 0 then u16 (len b) else s_RL s) with (N.of_nat (length b)).
    2: { destruct Hrl as [H0|H0]; rewrite H0; [rewrite len_length, u16_small by assumption; reflexivity|].
         rewrite len_length, u16_small by assumption. destruct (_ =? 0); reflexivity. }
    rewrite <- (le16_eq (N.of_nat (length b))).
    match goal with |- recs_framed _ ((?a ++ ?x ++ ?f ++ ?o ++ ?e ++ ?t ++ ?s1 ++ ?s2 ++ b) ++ _) =>
      replace (a ++ x ++ f ++ o ++ e ++ t ++ s1 ++ s2 ++ b) with (a ++ (x ++ f ++ o ++ e ++ t ++ s1 ++ s2) ++ b)
        by (rewrite <- !app_assoc; reflexivity) end.
    constructor; auto.
Qed.

(** ** C23 *)
Theorem C23_pt_response_round_trip : forall rpid pr,
  is_u16 rpid -> is_u8 pr ->
  (let p := mkPtResponse rpid pr None in
   PtResponse_encode p = Ok (le16 rpid ++ [pr]) /\ PtResponse_decode PtResponse_zero (le16 rpid ++ [pr]) = Ok p)
  /\ (forall l w l', recs_round_trip l w l' -> l <> [] ->
      PtResponse_encode (mkPtResponse rpid pr (Some l)) = Ok (le16 rpid ++ [pr] ++ w)
      /\ PtResponse_decode PtResponse_zero (le16 rpid ++ [pr] ++ w) = Ok (mkPtResponse rpid pr (Some l'))).
Proof.
  intros rpid pr H1 H2. unfold is_u16 in H1. rewrite le16_eq. split.
  - split; [unfold PtResponse_encode; cbn [pr_SDR pr_RPID pr_PR]; rewrite bind_ok; rewrite ?app_nil_r; reflexivity|].
    unfold PtResponse_decode. rewrite rd_num_app by (simpl; lia). rewrite rbind_some, rd_byte_cons, rbind_some. reflexivity.
  - intros l w l' H Hl. destruct (C14_record_set_round_trip _ _ _ H) as [He Hd]. split.
    + unfold PtResponse_encode; cbn [pr_SDR pr_RPID pr_PR]. rewrite He, bind_ok. reflexivity.
    + unfold PtResponse_decode. rewrite rd_num_app by (simpl; lia).
      rewrite rbind_some, rd_byte_one, rbind_some, Hd, bind_ok.
      destruct (N.eqb_spec (len w) 0) as [Hz|]; [|reflexivity].
      exfalso. inversion H; subst; [congruence|]. rewrite len_length, app_length in Hz.
      pose proof (lay_rec_length s w0). lia.
Qed.

(** ** C39 *)
Lemma nf_sub_encode d : nf (sub_encode d).
Proof.
  destruct d; cbn [sub_encode]; unfold SrResponse_encode, SrTermIdentity_encode, SrModuleData_encode,
    SrDispatcherIdentity_encode, SrAuthInfo_encode, SrResultCode_encode, StorageRecord_encode, SrPosData_encode,
    SrExtPosData_encode, SrAdSensorsData_encode, SrCountersData_encode, SrStateData_encode, SrAbsAnSensData_encode,
    SrAbsCntrData_encode, SrLiquidLevelSensor_encode; nft.
Qed.

Lemma nf_rds_encode l : Forall (fun r => rd_SRD r <> None) l -> nf (rds_encode l).
Proof.
  induction 1 as [|r l Hr Hl IH]; [apply nf_ok|]. cbn [rds_encode].
  apply nf_bind; [|intros; apply nf_bind; [exact IH|intros; apply nf_ok]].
  unfold rd_encode. apply nf_bind; [destruct (_ =? 0); [destruct (auto_type _)|]; nft|]. intros t.
  destruct (rd_SRD r) as [d|]; [|congruence]. apply nf_bind; [|intros; apply nf_bind; [apply nf_sub_encode|intros; apply nf_ok]].
  destruct (_ =? 0); [|apply nf_ok]. pose proof (nf_sub_encode d) as Hn.
  rewrite (proj1 C18_length_is_encoded_size). destruct (sub_encode d); cbn [size_of]; try apply nf_ok; destruct Hn; congruence.
Qed.

Theorem C39_malformed_flags_refused_partial :
  (forall e, malformed (pd_ALTE e ++ pd_LOHS e ++ pd_LAHS e ++ pd_MV e ++ pd_BB e ++ pd_CS e ++ pd_FIX e ++ pd_VLD e) ->
     SrPosData_encode e = Err)
  /\ (forall e, malformed ("000" ++ ep_NSFE e ++ ep_SFE e ++ ep_PFE e ++ ep_HFE e ++ ep_VFE e) -> SrExtPosData_encode e = Err)
  /\ (forall e, malformed (ad_DIOE8 e ++ ad_DIOE7 e ++ ad_DIOE6 e ++ ad_DIOE5 e ++ ad_DIOE4 e ++ ad_DIOE3 e ++ ad_DIOE2 e ++ ad_DIOE1 e)
      \/ malformed (ad_ASFE1 e ++ ad_ASFE2 e ++ ad_ASFE3 e ++ ad_ASFE4 e ++ ad_ASFE5 e ++ ad_ASFE6 e ++ ad_ASFE7 e ++ ad_ASFE8 e) ->
      SrAdSensorsData_encode e = Err)
  /\ (forall e, malformed (cd_CFE8 e ++ cd_CFE7 e ++ cd_CFE6 e ++ cd_CFE5 e ++ cd_CFE4 e ++ cd_CFE3 e ++ cd_CFE2 e ++ cd_CFE1 e) ->
      SrCountersData_encode e = Err)
  /\ (forall e, malformed ("00000" ++ sd_NMS e ++ sd_IBU e ++ sd_BBU e) -> SrStateData_encode e = Err)
  /\ (forall e, malformed ("0" ++ ll_LLSEF e ++ ll_LLSVU e ++ ll_RDF e ++ sprintf_b 3 (ll_LLSN e)) -> SrLiquidLevelSensor_encode e = Err)
  /\ (forall s, malformed (s_SSOD s ++ s_RSOD s ++ s_GRP s ++ s_RPP s ++ s_TMFE s ++ s_EVFE s ++ s_OBFE s) ->
      (forall w, sdr_encode s <> Ok w)
      /\ (Forall (fun r => rd_SRD r <> None) (s_RD s) -> sdr_encode s = Err)).
Proof.
  repeat apply conj.
  - intros e H. unfold SrPosData_encode. rewrite parse_flags_malformed by assumption. reflexivity.
  - intros e H. unfold SrExtPosData_encode. rewrite parse_flags_malformed by assumption. reflexivity.
  - intros e H. unfold SrAdSensorsData_encode. destruct H as [H|H].
    + rewrite parse_flags_malformed by assumption. reflexivity.
    + rewrite (parse_flags_malformed _ H). destruct (parse_flags_total
        (ad_DIOE8 e ++ ad_DIOE7 e ++ ad_DIOE6 e ++ ad_DIOE5 e ++ ad_DIOE4 e ++ ad_DIOE3 e ++ ad_DIOE2 e ++ ad_DIOE1 e)) as [[n ->]| ->]; reflexivity.
  - intros e H. unfold SrCountersData_encode. rewrite parse_flags_malformed by assumption. reflexivity.
  - intros e H. unfold SrStateData_encode. rewrite parse_flags_malformed by assumption. reflexivity.
  - intros e H. unfold SrLiquidLevelSensor_encode. rewrite parse_flags_malformed by assumption. reflexivity.
  - intros s H. unfold sdr_encode. rewrite parse_flags_malformed by assumption. split.
    + intros w. destruct (rds_encode (s_RD s)); discriminate.
    + intros Hn. apply nf_rds_encode in Hn. destruct Hn. destruct (rds_encode (s_RD s)); try reflexivity; congruence.
Qed.

End WithEnv.

(** The terminal identity is the exception: see C24. *)
Theorem C39_malformed_flags_refused_refuted :
  exists e b, malformed (ti_MNE e ++ ti_BSE e ++ ti_NIDE e ++ ti_SSRA e ++ ti_LNGCE e ++ ti_IMSIE e ++ ti_IMEIE e ++ ti_HDIDE e)
              /\ SrTermIdentity_encode e = Ok b.
Proof. exact C24_malformed_flags_refuted. Qed.
Example C39_hyps : malformed ("0" ++ "1" ++ "2") /\ malformed ("111111111" ++ "") /\ malformed "".
Proof.
  repeat split; intros n H; destruct (N.lt_ge_cases n 256) as [Hn|]; auto; exfalso;
    match type of H with binary ?s _ => assert (parse_flags s = Ok n) as Hp by (apply parse_flags_spec; auto) end; vm_compute in Hp; discriminate.
Qed.

(** ** Examples and refutations on a concrete environment *)
Definition state_ex : SrStateData := mkSrStateData 2 127 0 41 "0" "1" "0".
Definition subs_ex : list RecordData :=
  [mkRecordData 0 0 (Some (DPosData (pos_ex 0 44)));
   mkRecordData 20 5 (Some (DState state_ex));
   mkRecordData 2 0 (Some (DModuleData (mkSrModuleData (-1) 4294967295 257 2 1 0 "SN-0017" "")));
   mkRecordData 0 0 (Some (DEgtsPlus (E := env0) [8; 1]))].

Lemma subs_ex_travel : exists w l', subs_travel subs_ex w l' /\ N.of_nat (length w) < 1000.
Proof.
  eexists. eexists. split.
  - unfold subs_ex. constructor.
    { eapply (sub_tr 0 0 (DPosData (pos_ex 0 44)) 16).
      - destruct C29_hyps as (H1 & H2 & H3). apply tr_pos; assumption.
      - vm_compute. reflexivity.
      - right. split; [reflexivity|repeat split; discriminate].
      - left; reflexivity. }
    constructor.
    { eapply (sub_tr 20 5 (DState state_ex) 20).
      - apply tr_sd20. apply C36_hyps.
      - vm_compute. reflexivity.
      - left; reflexivity.
      - right; reflexivity. }
    constructor.
    { eapply (sub_tr 2 0 (DModuleData _) 2).
      - apply tr_md. apply C25_hyps.
      - vm_compute. reflexivity.
      - left; reflexivity.
      - left; reflexivity. }
    constructor.
    { eapply (sub_tr 0 0 (DEgtsPlus (E := env0) [8; 1]) 15).
      - apply (tr_plus (E := env0) [8; 1] [8; 1] [8; 1]); reflexivity.
      - vm_compute. reflexivity.
      - right. split; [reflexivity|repeat split; discriminate].
      - left; reflexivity. }
    constructor.
  - vm_compute. reflexivity.
Qed.
Example C15_hyps : exists w l', subs_travel subs_ex w l'.
Proof. destruct subs_ex_travel as (w & l' & H & _). eauto. Qed.

(** Analog sensors with asymmetric flags do not survive in a set either. *)
Theorem C15_subrecord_set_refuted :
  exists l w l', rds_encode (E := env0) l = Ok w
    /\ (forall r, In r l -> exists d, rd_SRD r = Some (DAdSensors d) /\ wf_ad d /\ abs_ad SrAdSensorsData_zero d)
    /\ rds_decode w = Ok l' /\ map rd_SRD l' <> map rd_SRD l.
Proof.
  exists [mkRecordData 18 0 (Some (DAdSensors (ad_ex "1" "0")))]. eexists. eexists. split; [vm_compute; reflexivity|]. split.
  - intros r [<-|[]]; exists (ad_ex "1" "0"); (split; [reflexivity|split; conc]).
  - split; [vm_compute; reflexivity|]. intros H. vm_compute in H. discriminate.
Qed.

Definition rec_ex (rl : N) (rds : list RecordData) : ServiceDataRecord :=
  mkSDR rl 65535 "0" "1" "0" "10" "1" "0" "1" 133552 0 (1600000000 * 1000000000)%Z 2 2 rds.
Lemma wf_rec_ex rl rds : wf_rec (E := env0) (rec_ex rl rds).
Proof.
  constructor; cbn; unfold is_u8, is_u16, is_u32, is_flag, is_flag2; auto;
    try (destruct (string_dec _ _); [|congruence]); try lia; auto.
  exists 337696000. split; [lia|reflexivity].
Qed.
Example C14_hyps : exists w l', recs_round_trip (E := env0) [rec_ex 0 subs_ex; rec_ex 0 []] w l'.
Proof.
  destruct subs_ex_travel as (w & l' & H & Hl).
  destruct (C15_subrecord_set_round_trip_partial _ _ _ H) as [He Hd].
  eexists. eexists. econstructor; [apply wf_rec_ex|exact He|exact Hd|lia|left; reflexivity|].
  econstructor; [apply wf_rec_ex|reflexivity|reflexivity|reflexivity|left; reflexivity|constructor].
Qed.
Example C16_hyps : ~ In 99 known_types /\ rds_decode (E := env0)
    (subs_wire [(9, [153]); (99, [0; 0])] ++ sub_wire (98, [1; 2; 3]) ++ [9; 1; 0; 151])
    = Ok [mkRecordData 9 1 (Some (DResultCode (mkSrResultCode 153))); mkRecordData 9 1 (Some (DResultCode (mkSrResultCode 151)))].
Proof. split; [cbn; intuition discriminate|vm_compute; reflexivity]. Qed.

Example C17_hyps : exists b, code_of (E := env0) (DState state_ex) <> 2 /\ code_of (DState state_ex) <> 5
  /\ sub_encode (DState state_ex) = Ok b.
Proof. eexists. repeat split; discriminate || reflexivity. Qed.

(** A decoded subrecord and record, edited and encoded again, keep their old length fields. *)
Theorem C19_length_fields_refuted :
  exists r d r' b w, rds_decode (E := env0) w = Ok [r]
    /\ r' = mkRecordData (rd_SRT r) (rd_SRL r) (Some d) /\ sub_encode d = Ok b
    /\ rds_encode [r'] = Ok ([rd_SRT r] ++ le16 4 ++ b) /\ length b = 7%nat.
Proof.
  exists (mkRecordData 7 4 (Some (DAuthInfo (mkSrAuthInfo "ab" "" "")))), (DAuthInfo (mkSrAuthInfo "abcde" "" "")).
  exists (mkRecordData 7 4 (Some (DAuthInfo (mkSrAuthInfo "abcde" "" "")))).
  eexists. exists [7; 4; 0; 97; 98; 0; 0].
  split; [vm_compute; reflexivity|]. split; [reflexivity|]. split; [vm_compute; reflexivity|].
  split; vm_compute; reflexivity.
Qed.
Theorem C19_record_length_refuted :
  exists s s' b w, sds_decode (E := env0) w = Ok [s] /\ s' = fill (s_RL s) [] s
    /\ sds_encode [s'] = Ok (le16 4 ++ b) /\ length b = 5%nat.
Proof.
  exists (mkSDR 4 7 "0" "0" "0" "00" "0" "0" "0" 0 0 t_zero 1 2 [mkRecordData 9 1 (Some (DResultCode (mkSrResultCode 153)))]).
  eexists. eexists. exists [4; 0; 7; 0; 0; 1; 2; 9; 1; 0; 153].
  split; [vm_compute; reflexivity|]. split; [reflexivity|]. split; vm_compute; reflexivity.
Qed.
Example C19_hyps : Forall (honest_sub (E := env0)) subs_ex /\ honest_rec (E := env0) (rec_ex 0 subs_ex).
Proof.
  split.
  - destruct subs_ex_travel as (w & l' & H & _). clear -H. revert H. generalize subs_ex. induction 1 as [|r w r' l wl l' Hr Hl IH]; constructor; auto.
    intros d b Hd Hb. destruct Hr as [srt srl d0 t b0 d' Ht Hb0 _ Hs]. cbn in *. injection Hd as ->.
    apply travels_encode in Ht. assert (b = b0) by congruence. subst. auto.
  - intros b Hb. cbn [s_RD rec_ex s_RL] in *. destruct subs_ex_travel as (w & l' & H & Hl).
    apply subs_travel_encode in H. assert (b = w) by congruence. subst. split; [lia|auto].
Qed.
Example C23_hyps : is_u16 65535 /\ is_u8 255 /\ [rec_ex 0 subs_ex; rec_ex 0 []] <> [].
Proof. repeat split; try reflexivity; discriminate. Qed.

(** A confirmation may nest records; the depth bound is met with equality here: three nested
    levels need depth 3 only. *)
Example C09_nested : exists l,
  sds_decode_fuel (E := env0) 3 [20;0; 1;0; 0; 1;1; 0;17;0; 5;0;0; 7;0; 1;0; 0; 1;1; 0;3;0; 5;0;0; 0] = l /\ l <> Fuel.
Proof. eexists. split; [vm_compute; reflexivity|discriminate]. Qed.

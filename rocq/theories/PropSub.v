(** Properties C24-C38: the subrecord codecs. *)
From Coq Require Import NArith ZArith Lia Reals String Bool List.
From Flocq Require Import Core BinarySingleNaN.
From Verif Require Import GoBase GoFloat SubRecords Records SpecBase SpecSub BaseFacts SubFacts FloatFacts PosFacts SubMore ConcreteEnv.
Import ListNotations.
Open Scope N_scope.

Ltac flags := unfold wf_opt, abs_opt, is_flag, is_flag2, is_u8, is_u16, is_u24, is_u32; cbn.
Ltac conc := constructor; flags; repeat split; auto; try lia; try discriminate; try (intros; lia).

(** ** C24 *)
Theorem C24_term_identity_round_trip : forall e,
  wf_ti e -> abs_ti SrTermIdentity_zero e ->
  exists b, SrTermIdentity_encode e = Ok b /\ b = lay_ti e /\
            SrTermIdentity_decode SrTermIdentity_zero b = Ok e.
Proof.
  intros e Hw Ha. exists (lay_ti e). split; [apply ti_encode; assumption|split; [reflexivity|]].
  rewrite <- (app_nil_r (lay_ti e)). apply ti_decode; assumption.
Qed.

Definition ti_ex : SrTermIdentity :=
  mkSrTermIdentity 133552 "0" "1" "0" "0" "1" "0" "1" "0" 0 "356307042441013" "" "rus" [] 1400 "".
Example C24_hyps : wf_ti ti_ex /\ abs_ti SrTermIdentity_zero ti_ex.
Proof. split; conc. Qed.

(** The second half of the property, refuted: malformed flags do not make Encode fail. *)
Theorem C24_malformed_flags_refuted :
  exists e b, malformed (ti_MNE e ++ ti_BSE e ++ ti_NIDE e ++ ti_SSRA e ++ ti_LNGCE e ++ ti_IMSIE e ++ ti_IMEIE e ++ ti_HDIDE e)
              /\ SrTermIdentity_encode e = Ok b.
Proof.
  exists SrTermIdentity_zero, [0; 0; 0; 0; 0]. split; [|reflexivity].
  intros n H. exfalso. assert (parse_flags "" = Err) as He by reflexivity.
  destruct (N.lt_ge_cases n 256) as [Hn|Hn].
  - assert (parse_flags "" = Ok n) by (apply parse_flags_spec; auto). congruence.
  - destruct (pu_loop_of_binary 1 "" n ltac:(lia) H) as [Hx _]. apply Hx. reflexivity.
Qed.

(** ** C25 *)
Theorem C25_module_data_round_trip : forall e,
  wf_md e ->
  exists b, SrModuleData_encode e = Ok b /\ b = lay_md e /\ SrModuleData_decode b = Ok e.
Proof.
  intros e Hw. exists (lay_md e). split; [apply md_encode; assumption|split; [reflexivity|]].
  rewrite <- (app_nil_r (lay_md e)). apply md_decode; assumption.
Qed.

Example C25_hyps : wf_md (mkSrModuleData (-1) 4294967295 257 2 1 0 "SN-0017" "").
Proof.
  constructor; flags; try lia; unfold no_nul; compute; intuition discriminate.
Qed.

(** ** C26 *)
Theorem C26_auth_info_round_trip : forall e,
  wf_ai e ->
  exists b, SrAuthInfo_encode e = Ok b /\ b = lay_ai e /\ SrAuthInfo_decode SrAuthInfo_zero b = Ok e.
Proof.
  intros e Hw. exists (lay_ai e). split; [apply ai_encode|split; [reflexivity|]].
  apply ai_decode; [assumption|reflexivity].
Qed.

Example C26_hyps : wf_ai (mkSrAuthInfo "user" "" "seq1").
Proof. repeat split; unfold no_nul; compute; intuition discriminate. Qed.

(** ** C27 *)
Theorem C27_dispatcher_identity_round_trip : forall e,
  wf_di e ->
  exists b, SrDispatcherIdentity_encode e = Ok b /\ b = lay_di e /\ SrDispatcherIdentity_decode b = Ok e.
Proof.
  intros e Hw. exists (lay_di e). split; [apply di_encode|split; [reflexivity|]]. apply di_decode; assumption.
Qed.

Example C27_hyps : wf_di (mkSrDispatcherIdentity 0 4294967295 (String (Ascii.ascii_of_N 0) "x")).
Proof. split; flags; lia. Qed.

(** ** C28 *)
Theorem C28_response_round_trip {E : Env} : forall e,
  wf_response e ->
  exists b, SrResponse_encode e = Ok b /\ b = lay_response e /\ SrResponse_decode_top b = Ok e.
Proof.
  intros [crn rst] [H1 H2]. exists (lay_response (mkSrResponse crn rst)). split; [apply response_encode|split; [reflexivity|]].
  unfold SrResponse_decode_top, SrResponse_decode, lay_response. cbn [sr_CRN sr_RST].
  rewrite le16_eq, rd_num_app by (auto; lia). reflexivity.
Qed.

Theorem C28_result_code_round_trip : forall e,
  wf_result e ->
  exists b, SrResultCode_encode e = Ok b /\ b = lay_result e /\ SrResultCode_decode b = Ok e.
Proof.
  intros e _. exists (lay_result e). split; [apply result_encode|split; [reflexivity|]].
  rewrite <- (app_nil_r (lay_result e)). apply result_decode.
Qed.

Example C28_hyps : wf_response (mkSrResponse 65535 129) /\ wf_result (mkSrResultCode 153).
Proof. repeat split; flags; lia. Qed.

(** ** C29 *)
(** Exactly what comes back: the coordinates are those of C30, the direction loses its bit
    7 when the ninth bit is set, everything else is the same. *)
Theorem C29_pos_data_travels_as {E : Env} : forall e,
  wf_pos e -> abs_pos SrPosData_zero e ->
  exists b, SrPosData_encode e = Ok b
    /\ b = lay_pos (coord_encode 90 (pd_LAT e)) (coord_encode 180 (pd_LONG e)) e
    /\ SrPosData_decode SrPosData_zero b
       = Ok (set_coords (coord_decode 90 (coord_encode 90 (pd_LAT e)))
                        (coord_decode 180 (coord_encode 180 (pd_LONG e)))
                        (set_dir (if pd_DIRH e =? 1 then 128 + pd_DIR e mod 128 else pd_DIR e) e)).
Proof.
  intros e Hw Ha. eexists. split; [apply pos_encode; assumption|]. split; [reflexivity|].
  apply pos_decode; auto using coord_encode_lt.
Qed.

(** The round trip, except for directions with the ninth bit set and bit 7 clear. *)
Theorem C29_pos_data_round_trip_partial {E : Env} : forall e,
  wf_pos e -> abs_pos SrPosData_zero e -> dir_ok e ->
  exists b lat long, SrPosData_encode e = Ok b
    /\ SrPosData_decode SrPosData_zero b = Ok (set_coords lat long e).
Proof.
  intros e Hw Ha Hd. destruct (C29_pos_data_travels_as e Hw Ha) as (b & Hb & _ & H).
  rewrite pos_dir_ok in H by assumption. eauto.
Qed.

Definition pos_ex (dirh dir : N) : SrPosData :=
  mkSrPosData (1600000000 * 1000000000)%Z f64_zero f64_zero "1" "0" "1" "1" "0" "0" "1" "1" dirh 0 60 dir 123456 7 0 150.
Example C29_hyps : wf_pos (pos_ex 0 44) /\ abs_pos SrPosData_zero (pos_ex 0 44) /\ dir_ok (pos_ex 0 44).
Proof.
  split; [|split]; [|intros H; discriminate|intros H; discriminate].
  constructor; flags; auto; try lia.
  exists 337696000. split; [lia|reflexivity].
Qed.

(** 300 degrees (ninth bit and 44) comes back as 172 with the ninth bit. *)
Theorem C29_pos_data_round_trip_refuted {E : Env} :
  exists e b e', wf_pos e /\ abs_pos SrPosData_zero e /\ SrPosData_encode e = Ok b
    /\ SrPosData_decode SrPosData_zero b = Ok e' /\ pd_DIRH e' = 1 /\ pd_DIR e = 44 /\ pd_DIR e' = 172.
Proof.
  assert (wf_pos (pos_ex 1 44)) as Hw.
  { constructor; flags; auto; try lia. exists 337696000. split; [lia|reflexivity]. }
  assert (abs_pos SrPosData_zero (pos_ex 1 44)) as Ha by (intros H; discriminate).
  destruct (C29_pos_data_travels_as (pos_ex 1 44) Hw Ha) as (b & Hb & _ & Hd).
  exists (pos_ex 1 44), b. eexists. split; [exact Hw|]. split; [exact Ha|]. split; [exact Hb|]. split; [exact Hd|].
  repeat split.
Qed.

(** ** C30 *)
Open Scope R_scope.

(** The value nearest to raw*scale/0xFFFFFFFF; scale is 90 for latitudes, 180 for longitudes. *)
Theorem C30_coordinate_decode : forall (scale : Z) raw,
  scale = 90%Z \/ scale = 180%Z -> (raw < 4294967296)%N ->
  is_finite (coord_decode scale raw) = true
  /\ B2R (coord_decode scale raw)
     = round radix2 (FLT_exp (-1074) 53) ZnearestE (IZR (Z.of_N raw) * IZR scale / 4294967295)
  /\ 0 <= B2R (coord_decode scale raw) <= IZR scale.
Proof.
  intros scale raw Hs Hr. assert (1 <= scale <= 256)%Z as HS by lia.
  destruct (decode_R scale HS raw Hr) as [H1 H2]. rewrite mult_IZR in H1.
  split; [assumption|]. split; [assumption|]. apply decode_range; assumption.
Qed.

(** Distinct raw values stay distinct, in the same order. *)
Theorem C30_coordinate_decode_monotone : forall (scale : Z) raw1 raw2,
  scale = 90%Z \/ scale = 180%Z -> (raw1 < raw2)%N -> (raw2 < 4294967296)%N ->
  B2R (coord_decode scale raw1) < B2R (coord_decode scale raw2).
Proof. intros scale raw1 raw2 Hs H1 H2. apply decode_mono; try assumption. lia. Qed.

(** encode then decode: less than one unit is cut off, but for the rounding of floats. *)
Theorem C30_coordinate_encode_decode {E : Env} : forall (scale : Z) (x : f64),
  scale = 90%Z \/ scale = 180%Z -> is_finite x = true -> 0 <= B2R x <= IZR scale ->
  B2R x - (1 + / 131072) * (IZR scale / 4294967295) < B2R (coord_decode scale (coord_encode scale x)) < B2R x + / 131072 * (IZR scale / 4294967295).
Proof. intros scale x Hs Hf Hx. apply encode_decode_close; try assumption. lia. Qed.

Example C30_hyps : is_finite (f64_of_Z 55) = true /\ 0 <= B2R (f64_of_Z 55) <= IZR 90.
Proof.
  destruct (of_Z 55 ltac:(unfold big; lia)) as [H1 H2]. rewrite H1. split; [exact H2|]. split; apply IZR_le; lia.
Qed.

(** decode then encode: off by at most one unit, downwards. *)
Theorem C30_coordinate_decode_encode_partial {E : Env} : forall (scale : Z) raw,
  scale = 90%Z \/ scale = 180%Z -> (raw < 4294967296)%N ->
  coord_encode scale (coord_decode scale raw) = raw
  \/ coord_encode scale (coord_decode scale raw) = (raw - 1)%N.
Proof. intros scale raw Hs Hr. apply decode_encode_close; try assumption. lia. Qed.

(** and it is not always the same. *)
Theorem C30_coordinate_decode_encode_refuted {E : Env} :
  coord_encode 90 (coord_decode 90 186415) = 186414%N
  /\ coord_encode 180 (coord_decode 180 186415) = 186414%N.
Proof. split; reflexivity. Qed.

Open Scope N_scope.

(** ** C31 *)
Theorem C31_time_exact {E : Env} : forall n,
  is_u32 n ->
  time_decode n = ((1262304000 + Z.of_N n) * 1000000000)%Z
  /\ ntm_encode (time_decode n) = n
  /\ tm_encode (time_decode n) = n.
Proof.
  intros n H. unfold is_u32 in H. rewrite time_decode_eq by assumption.
  split; [reflexivity|]. split; [apply ntm_encode_eq; assumption|].
  unfold tm_encode, t_unix, t2010, ns_per_s, u32_of_Z. rewrite !Z.div_mul by lia.
  replace (1262304000 + Z.of_N n - 1262304000)%Z with (Z.of_N n) by lia.
  rewrite Z.mod_small by lia. apply N2Z.id.
Qed.

(** The instant 1262304000 s after 1970 is 2010-01-01T00:00:00Z: 40 years, 10 of them leap. *)
Example C31_epoch : 1262304000 = (40 * 365 + 10) * 86400.
Proof. reflexivity. Qed.

(** ** C32 *)
(** Wire data of a position subrecord with arbitrary fields. *)
Definition pos_wire (ntm lat lon flags w dir odm din src : N) (tail : list N) : list N :=
  le32 ntm ++ le32 lat ++ le32 lon ++ [flags] ++ le16 w ++ [dir] ++ le24 odm ++ [din; src] ++ tail.

Theorem C32_speed_and_flags_partial : forall ntm lat lon flags w dir odm din src e,
  is_u32 ntm -> is_u32 lat -> is_u32 lon -> flags < 128 -> is_u16 w -> is_u8 dir -> is_u24 odm ->
  SrPosData_decode SrPosData_zero (pos_wire ntm lat lon flags w dir odm din src []) = Ok e ->
  pd_SPD e = w mod 16384 / 10 /\ pd_ALTS e = w / 16384 mod 2 /\ pd_DIRH e = w / 32768
  /\ (w < 32768 -> pd_DIR e = dir) /\ (32768 <= w -> pd_DIR e = 128 + dir mod 128).
Proof.
  unfold is_u32, is_u16, is_u8, is_u24, pos_wire. intros ntm lat lon flags w dir odm din src e ? ? ? ? ? ? ? H.
  rewrite pos_decode_raw in H by (auto; lia).
  assert (N.testbit flags 7 = false) as Hf.
  { destruct (N.eq_dec flags 0) as [->|Hz]; [reflexivity|].
    apply N.bits_above_log2. apply N.log2_lt_pow2; [lia|]. assumption. }
  rewrite Hf in H. unfold opt_rd in H. inversion H. cbn. repeat split.
  - intros Hw. rewrite (N.div_small w 32768) by assumption. rewrite N.mul_0_r. apply N.lor_0_r.
  - intros Hw. replace (w / 32768) with 1 by lia. change (128 * 1) with (2 ^ 7).
    destruct (N.lt_ge_cases dir 128) as [Hd|Hd].
    + rewrite lor_pow2 by assumption. rewrite N.mod_small by assumption. change (2 ^ 7) with 128. lia.
    + replace dir with ((dir - 128) + 2 ^ 7) at 1 by (change (2 ^ 7) with 128; lia).
      rewrite <- lor_pow2 by (change (2 ^ 7) with 128; lia).
      rewrite <- N.lor_assoc, N.lor_diag, lor_pow2 by (change (2 ^ 7) with 128; lia).
      change (2 ^ 7) with 128. lia.
Qed.

Example C32_hyps : exists e, SrPosData_decode SrPosData_zero (pos_wire 1 2 3 17 (605 + 16384) 200 9 0 0 []) = Ok e
  /\ pd_SPD e = 60 /\ pd_ALTS e = 1 /\ pd_DIRH e = 0 /\ pd_DIR e = 200.
Proof. eexists. split; [reflexivity|]. repeat split. Qed.

(** Two different wire directions (300 and 428) decode to the same value. *)
Theorem C32_direction_refuted :
  forall tail, SrPosData_decode SrPosData_zero (pos_wire 1 2 3 17 32768 44 0 0 0 tail)
               = SrPosData_decode SrPosData_zero (pos_wire 1 2 3 17 32768 172 0 0 0 tail).
Proof.
  intros tail. unfold pos_wire. rewrite !pos_decode_raw by lia. reflexivity.
Qed.

(** ** C33 *)
Theorem C33_ext_pos_round_trip : forall e,
  wf_ext e -> abs_ext SrExtPosData_zero e ->
  exists b, SrExtPosData_encode e = Ok b /\ b = lay_ext e /\ SrExtPosData_decode SrExtPosData_zero b = Ok e.
Proof.
  intros e Hw Ha. exists (lay_ext e). split; [apply ext_encode; assumption|split; [reflexivity|]].
  rewrite <- (app_nil_r (lay_ext e)). apply ext_decode; assumption.
Qed.

Example C33_hyps : let e := mkSrExtPosData "0" "1" "1" "0" "0" 0 0 65535 12 0 in
  wf_ext e /\ abs_ext SrExtPosData_zero e.
Proof. split; conc. Qed.

(** ** C34 *)
(** The exact condition under which a value survives. *)
Theorem C34_ad_sensors_round_trip_partial : forall e,
  wf_ad e -> abs_ad SrAdSensorsData_zero e ->
  ((exists b, SrAdSensorsData_encode e = Ok b /\ SrAdSensorsData_decode SrAdSensorsData_zero b = Ok e)
   <-> palin_ad e).
Proof. intros e. apply ad_round_trip_iff. Qed.

(** Decoding follows the layout of the standard for every value. *)
Theorem C34_ad_sensors_decode_layout : forall e,
  wf_ad e -> abs_ad SrAdSensorsData_zero e ->
  SrAdSensorsData_decode SrAdSensorsData_zero (lay_ad e) = Ok e.
Proof. intros e Hw Ha. rewrite <- (app_nil_r (lay_ad e)). apply ad_decode; assumption. Qed.

Definition ad_ex (a1 a8 : string) : SrAdSensorsData :=
  mkSrAdSensorsData "1" "0" "0" "0" "1" "0" "0" "0" 3 a1 "0" "0" "0" "0" "0" "0" a8
    5 0 0 0 6 0 0 0 70000 0 0 0 0 0 0 (if string_dec a8 "1" then 9 else 0).
Example C34_hyps : wf_ad (ad_ex "1" "1") /\ abs_ad SrAdSensorsData_zero (ad_ex "1" "1") /\ palin_ad (ad_ex "1" "1").
Proof. split; [|split]; [conc|conc|repeat split]. Qed.

(** A single analog sensor 1 is read back as sensor 8. *)
Theorem C34_ad_sensors_round_trip_refuted :
  exists e b e', wf_ad e /\ abs_ad SrAdSensorsData_zero e /\ SrAdSensorsData_encode e = Ok b
    /\ SrAdSensorsData_decode SrAdSensorsData_zero b = Ok e'
    /\ ad_ANS1 e = 70000 /\ ad_ANS1 e' = 0 /\ ad_ANS8 e' = 70000.
Proof.
  exists (ad_ex "1" "0"). eexists. eexists. split; [conc|]. split; [conc|].
  split; [reflexivity|]. split; [reflexivity|]. repeat split.
Qed.

(** ** C35 *)
Theorem C35_counters_round_trip_partial : forall e,
  wf_cd e -> abs_cd SrCountersData_zero e ->
  exists b, SrCountersData_encode e = Ok b /\ b = lay_cd e
    /\ (cd_CFE2 e = "0"%string -> SrCountersData_decode SrCountersData_zero b = Ok e)
    /\ (cd_CFE2 e = "1"%string ->
        SrCountersData_decode SrCountersData_zero b
        = Ok (mkSrCountersData (cd_CFE1 e) (cd_CFE2 e) (cd_CFE3 e) (cd_CFE4 e)
                (cd_CFE5 e) (cd_CFE6 e) (cd_CFE7 e) (cd_CFE8 e)
                (cd_CN2 e) 0 (cd_CN3 e) (cd_CN4 e) (cd_CN5 e) (cd_CN6 e) (cd_CN7 e) (cd_CN8 e))).
Proof.
  intros e Hw Ha. exists (lay_cd e). split; [apply cd_encode; assumption|]. split; [reflexivity|].
  split; intros H; rewrite <- (app_nil_r (lay_cd e)); rewrite (cd_decode_full SrCountersData_zero) by assumption;
    unfold cd_clobbered; rewrite H; reflexivity.
Qed.

Definition cd_ex : SrCountersData := mkSrCountersData "1" "1" "0" "0" "0" "0" "0" "1" 11 22 0 0 0 0 0 88.
Example C35_hyps : wf_cd cd_ex /\ abs_cd SrCountersData_zero cd_ex.
Proof. split; conc. Qed.

Theorem C35_counters_round_trip_refuted :
  exists e b e', wf_cd e /\ abs_cd SrCountersData_zero e /\ SrCountersData_encode e = Ok b
    /\ SrCountersData_decode SrCountersData_zero b = Ok e' /\ e' <> e.
Proof.
  exists cd_ex. eexists. eexists. split; [conc|]. split; [conc|].
  split; [reflexivity|]. split; [reflexivity|]. discriminate.
Qed.

(** ** C36 *)
Theorem C36_state_round_trip : forall e,
  wf_sd e ->
  exists b, SrStateData_encode e = Ok b /\ b = lay_sd e /\ SrStateData_decode b = Ok e.
Proof.
  intros e Hw. exists (lay_sd e). split; [apply sd_encode; assumption|split; [reflexivity|]].
  rewrite <- (app_nil_r (lay_sd e)). apply sd_decode; assumption.
Qed.

Example C36_hyps : wf_sd (mkSrStateData 2 127 0 41 "0" "1" "0").
Proof. conc. Qed.

(** ** C37 *)
Theorem C37_liquid_round_trip_partial : forall e,
  wf_ll e ->
  exists b, SrLiquidLevelSensor_encode e = Ok b /\ b = lay_ll e /\ SrLiquidLevelSensor_decode b = Ok e.
Proof.
  intros e Hw. exists (lay_ll e). split; [apply ll_encode; assumption|split; [reflexivity|]].
  rewrite <- (app_nil_r (lay_ll e)). apply ll_decode; assumption.
Qed.

Example C37_hyps : wf_ll (mkSrLiquidLevelSensor "1" "10" "0" 7 65535 4294967295).
Proof. conc. Qed.

(** Sensor number 8 is accepted and turns into sensor 0 with the raw-data flag set. *)
Theorem C37_large_sensor_number_refuted :
  exists e b e', ll_LLSN e = 8 /\ SrLiquidLevelSensor_encode e = Ok b
    /\ SrLiquidLevelSensor_decode b = Ok e' /\ ll_LLSN e' = 0 /\ ll_RDF e = "0"%string /\ ll_RDF e' = "1"%string.
Proof.
  exists (mkSrLiquidLevelSensor "0" "00" "0" 8 0 0). eexists. eexists.
  split; [reflexivity|]. split; [reflexivity|]. split; [reflexivity|]. repeat split.
Qed.

(** ** C38 *)
Theorem C38_abs_cntr_round_trip : forall e,
  wf_ac e ->
  exists b, SrAbsCntrData_encode e = Ok b /\ b = lay_ac e /\ SrAbsCntrData_decode b = Ok e.
Proof.
  intros e Hw. exists (lay_ac e). split; [apply ac_encode|split; [reflexivity|]].
  rewrite <- (app_nil_r (lay_ac e)). apply ac_decode; assumption.
Qed.

Theorem C38_abs_an_sens_round_trip : forall e,
  wf_aa e ->
  exists b, SrAbsAnSensData_encode e = Ok b /\ b = lay_aa e /\ SrAbsAnSensData_decode b = Ok e.
Proof.
  intros e Hw. exists (lay_aa e). split; [apply aa_encode|split; [reflexivity|]].
  rewrite <- (app_nil_r (lay_aa e)). apply aa_decode; assumption.
Qed.

Example C38_hyps : wf_ac (mkSrAbsCntrData 110 16777215) /\ wf_aa (mkSrAbsAnSensData 1 0x10203).
Proof. repeat split; flags; lia. Qed.

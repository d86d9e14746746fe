(** Specification of the subrecord types: well-formed values and their wire layout, after
    the EGTS standard (GOST R 54619) where the code follows it. *)
From Coq Require Import NArith ZArith String Bool List.
From Verif Require Import GoBase GoFloat SubRecords SpecBase.
Import ListNotations.
Open Scope N_scope.

(** ** EGTS_SR_RECORD_RESPONSE *)
Definition wf_response (e : SrResponse) : Prop := is_u16 (sr_CRN e) /\ is_u8 (sr_RST e).
Definition lay_response (e : SrResponse) : list N := le16 (sr_CRN e) ++ [sr_RST e].

(** ** EGTS_SR_RESULT_CODE *)
Definition wf_result (e : SrResultCode) : Prop := is_u8 (rcd_ResultCode e).
Definition lay_result (e : SrResultCode) : list N := [rcd_ResultCode e].

(** ** EGTS_SR_TERM_IDENTITY *)
Record wf_ti (e : SrTermIdentity) : Prop := {
  wti_TID : is_u32 (ti_TID e);
  wti_MNE : is_flag (ti_MNE e);
  wti_BSE : is_flag (ti_BSE e);
  wti_NIDE : is_flag (ti_NIDE e);
  wti_SSRA : is_flag (ti_SSRA e);
  wti_LNGCE : is_flag (ti_LNGCE e);
  wti_IMSIE : is_flag (ti_IMSIE e);
  wti_IMEIE : is_flag (ti_IMEIE e);
  wti_HDIDE : is_flag (ti_HDIDE e);
  wti_HDID : ti_HDIDE e = "1"%string -> is_u16 (ti_HDID e);
  wti_IMEI : ti_IMEIE e = "1"%string -> String.length (ti_IMEI e) = 15%nat;
  wti_IMSI : ti_IMSIE e = "1"%string -> String.length (ti_IMSI e) = 16%nat;
  wti_LNGC : ti_LNGCE e = "1"%string -> String.length (ti_LNGC e) = 3%nat;
  wti_NID : ti_NIDE e = "1"%string -> length (ti_NID e) = 3%nat /\ is_bytes (ti_NID e);
  wti_BS : ti_BSE e = "1"%string -> is_u16 (ti_BS e);
  wti_MSISDN : ti_MNE e = "1"%string -> String.length (ti_MSISDN e) = 15%nat
}.
(** Fields that are not on the wire have the value they have in [e0]. *)
Record abs_ti (e0 e : SrTermIdentity) : Prop := {
  ati_HDID : ti_HDIDE e = "0"%string -> ti_HDID e = ti_HDID e0;
  ati_IMEI : ti_IMEIE e = "0"%string -> ti_IMEI e = ti_IMEI e0;
  ati_IMSI : ti_IMSIE e = "0"%string -> ti_IMSI e = ti_IMSI e0;
  ati_LNGC : ti_LNGCE e = "0"%string -> ti_LNGC e = ti_LNGC e0;
  ati_NID : ti_NIDE e = "0"%string -> ti_NID e = ti_NID e0;
  ati_BS : ti_BSE e = "0"%string -> ti_BS e = ti_BS e0;
  ati_MSISDN : ti_MNE e = "0"%string -> ti_MSISDN e = ti_MSISDN e0
}.
Definition lay_ti (e : SrTermIdentity) : list N :=
  le32 (ti_TID e)
  ++ [128 * fl (ti_MNE e) + 64 * fl (ti_BSE e) + 32 * fl (ti_NIDE e) + 16 * fl (ti_SSRA e)
      + 8 * fl (ti_LNGCE e) + 4 * fl (ti_IMSIE e) + 2 * fl (ti_IMEIE e) + fl (ti_HDIDE e)]
  ++ opt (ti_HDIDE e) (le16 (ti_HDID e))
  ++ opt (ti_IMEIE e) (chars (ti_IMEI e))
  ++ opt (ti_IMSIE e) (chars (ti_IMSI e))
  ++ opt (ti_LNGCE e) (chars (ti_LNGC e))
  ++ opt (ti_NIDE e) (ti_NID e)
  ++ opt (ti_BSE e) (le16 (ti_BS e))
  ++ opt (ti_MNE e) (chars (ti_MSISDN e)).

(** ** EGTS_SR_MODULE_DATA *)
Record wf_md (e : SrModuleData) : Prop := {
  wmd_MT : (-128 <= md_MT e <= 127)%Z;
  wmd_VID : is_u32 (md_VID e);
  wmd_FWV : is_u16 (md_FWV e);
  wmd_SWV : is_u16 (md_SWV e);
  wmd_MD : is_u8 (md_MD e);
  wmd_ST : is_u8 (md_ST e);
  wmd_SRN : no_nul (md_SRN e);
  wmd_DSCR : no_nul (md_DSCR e)
}.
Definition lay_md (e : SrModuleData) : list N :=
  [Z.to_N (if (md_MT e <? 0)%Z then (md_MT e + 256)%Z else md_MT e)] ++ le32 (md_VID e)
  ++ le16 (md_FWV e) ++ le16 (md_SWV e) ++ [md_MD e; md_ST e]
  ++ chars (md_SRN e) ++ [0] ++ chars (md_DSCR e) ++ [0].

(** ** EGTS_SR_DISPATCHER_IDENTITY *)
Definition wf_di (e : SrDispatcherIdentity) : Prop := is_u8 (di_DT e) /\ is_u32 (di_DID e).
Definition lay_di (e : SrDispatcherIdentity) : list N :=
  [di_DT e] ++ le32 (di_DID e) ++ chars (di_DSCR e).

(** ** EGTS_SR_AUTH_INFO *)
Definition wf_ai (e : SrAuthInfo) : Prop := no_nul (ai_UNM e) /\ no_nul (ai_UPSW e) /\ no_nul (ai_SS e).
Definition lay_ai (e : SrAuthInfo) : list N :=
  chars (ai_UNM e) ++ [0] ++ chars (ai_UPSW e) ++ [0]
  ++ (if string_dec (ai_SS e) "" then [] else chars (ai_SS e) ++ [0]).

(** ** EGTS_SR_POS_DATA.  The raw coordinates are given separately. *)
Record wf_pos (e : SrPosData) : Prop := {
  wpd_NTM : exists n, is_u32 n /\ pd_NTM e = ((1262304000 + Z.of_N n) * 1000000000)%Z;
  wpd_ALTE : is_flag (pd_ALTE e);
  wpd_LOHS : is_flag (pd_LOHS e);
  wpd_LAHS : is_flag (pd_LAHS e);
  wpd_MV : is_flag (pd_MV e);
  wpd_BB : is_flag (pd_BB e);
  wpd_CS : is_flag (pd_CS e);
  wpd_FIX : is_flag (pd_FIX e);
  wpd_VLD : is_flag (pd_VLD e);
  wpd_DIRH : pd_DIRH e < 2;
  wpd_ALTS : pd_ALTS e < 2;
  wpd_SPD : pd_SPD e <= 1638;
  wpd_DIR : is_u8 (pd_DIR e);
  wpd_ODM : is_u24 (pd_ODM e);
  wpd_DIN : is_u8 (pd_DIN e);
  wpd_SRC : is_u8 (pd_SRC e);
  wpd_ALT : pd_ALTE e = "1"%string -> is_u24 (pd_ALT e)
}.
Definition abs_pos (e0 e : SrPosData) : Prop := pd_ALTE e = "0"%string -> pd_ALT e = pd_ALT e0.
(** Seconds from 2010-01-01T00:00:00Z. *)
Definition secs2010 (t : Z) : N := Z.to_N (t / 1000000000 - 1262304000).
Definition lay_pos (rawlat rawlong : N) (e : SrPosData) : list N :=
  le32 (secs2010 (pd_NTM e)) ++ le32 rawlat ++ le32 rawlong
  ++ [128 * fl (pd_ALTE e) + 64 * fl (pd_LOHS e) + 32 * fl (pd_LAHS e) + 16 * fl (pd_MV e)
      + 8 * fl (pd_BB e) + 4 * fl (pd_CS e) + 2 * fl (pd_FIX e) + fl (pd_VLD e)]
  ++ le16 (10 * pd_SPD e + 16384 * pd_ALTS e + 32768 * pd_DIRH e)
  ++ [if pd_DIRH e =? 1 then pd_DIR e mod 128 else pd_DIR e] ++ le24 (pd_ODM e) ++ [pd_DIN e; pd_SRC e]
  ++ opt (pd_ALTE e) (le24 (pd_ALT e)).
(** The direction byte carries only seven bits when the ninth direction bit is set. *)
Definition dir_ok (e : SrPosData) : Prop := pd_DIRH e = 1 -> 128 <= pd_DIR e.
(** Replacing the coordinates, the direction. *)
Definition set_coords (lat long : f64) (e : SrPosData) : SrPosData :=
  mkSrPosData (pd_NTM e) lat long (pd_ALTE e) (pd_LOHS e) (pd_LAHS e) (pd_MV e) (pd_BB e)
    (pd_CS e) (pd_FIX e) (pd_VLD e) (pd_DIRH e) (pd_ALTS e) (pd_SPD e) (pd_DIR e) (pd_ODM e)
    (pd_DIN e) (pd_SRC e) (pd_ALT e).
Definition set_dir (d : N) (e : SrPosData) : SrPosData :=
  mkSrPosData (pd_NTM e) (pd_LAT e) (pd_LONG e) (pd_ALTE e) (pd_LOHS e) (pd_LAHS e) (pd_MV e) (pd_BB e)
    (pd_CS e) (pd_FIX e) (pd_VLD e) (pd_DIRH e) (pd_ALTS e) (pd_SPD e) d (pd_ODM e)
    (pd_DIN e) (pd_SRC e) (pd_ALT e).

(** ** EGTS_SR_EXT_POS_DATA *)
Record wf_ext (e : SrExtPosData) : Prop := {
  wep_NSFE : is_flag (ep_NSFE e);
  wep_SFE : is_flag (ep_SFE e);
  wep_PFE : is_flag (ep_PFE e);
  wep_HFE : is_flag (ep_HFE e);
  wep_VFE : is_flag (ep_VFE e);
  wep_VDOP : ep_VFE e = "1"%string -> is_u16 (ep_VDOP e);
  wep_HDOP : ep_HFE e = "1"%string -> is_u16 (ep_HDOP e);
  wep_PDOP : ep_PFE e = "1"%string -> is_u16 (ep_PDOP e);
  wep_SAT : ep_SFE e = "1"%string -> is_u8 (ep_SAT e);
  wep_NS : ep_NSFE e = "1"%string -> is_u16 (ep_NS e)
}.
Record abs_ext (e0 e : SrExtPosData) : Prop := {
  aep_VDOP : ep_VFE e = "0"%string -> ep_VDOP e = ep_VDOP e0;
  aep_HDOP : ep_HFE e = "0"%string -> ep_HDOP e = ep_HDOP e0;
  aep_PDOP : ep_PFE e = "0"%string -> ep_PDOP e = ep_PDOP e0;
  aep_SAT : ep_SFE e = "0"%string -> ep_SAT e = ep_SAT e0;
  aep_NS : ep_NSFE e = "0"%string -> ep_NS e = ep_NS e0
}.
Definition lay_ext (e : SrExtPosData) : list N :=
  [16 * fl (ep_NSFE e) + 8 * fl (ep_SFE e) + 4 * fl (ep_PFE e) + 2 * fl (ep_HFE e) + fl (ep_VFE e)]
  ++ opt (ep_VFE e) (le16 (ep_VDOP e)) ++ opt (ep_HFE e) (le16 (ep_HDOP e))
  ++ opt (ep_PFE e) (le16 (ep_PDOP e)) ++ opt (ep_SFE e) [ep_SAT e]
  ++ opt (ep_NSFE e) (le16 (ep_NS e)).

(** ** EGTS_SR_AD_SENSORS_DATA *)
(** One optional field: flag well-formed, value in range if present. *)
Definition wf_opt (f : string) (bound v : N) : Prop := is_flag f /\ (f = "1"%string -> v < bound).
Definition abs_opt (f : string) (v0 v : N) : Prop := f = "0"%string -> v = v0.

Record wf_ad (e : SrAdSensorsData) : Prop := {
  wad_D1 : wf_opt (ad_DIOE1 e) 256 (ad_ADIO1 e);
  wad_D2 : wf_opt (ad_DIOE2 e) 256 (ad_ADIO2 e);
  wad_D3 : wf_opt (ad_DIOE3 e) 256 (ad_ADIO3 e);
  wad_D4 : wf_opt (ad_DIOE4 e) 256 (ad_ADIO4 e);
  wad_D5 : wf_opt (ad_DIOE5 e) 256 (ad_ADIO5 e);
  wad_D6 : wf_opt (ad_DIOE6 e) 256 (ad_ADIO6 e);
  wad_D7 : wf_opt (ad_DIOE7 e) 256 (ad_ADIO7 e);
  wad_D8 : wf_opt (ad_DIOE8 e) 256 (ad_ADIO8 e);
  wad_DOUT : is_u8 (ad_DOUT e);
  wad_A1 : wf_opt (ad_ASFE1 e) 16777216 (ad_ANS1 e);
  wad_A2 : wf_opt (ad_ASFE2 e) 16777216 (ad_ANS2 e);
  wad_A3 : wf_opt (ad_ASFE3 e) 16777216 (ad_ANS3 e);
  wad_A4 : wf_opt (ad_ASFE4 e) 16777216 (ad_ANS4 e);
  wad_A5 : wf_opt (ad_ASFE5 e) 16777216 (ad_ANS5 e);
  wad_A6 : wf_opt (ad_ASFE6 e) 16777216 (ad_ANS6 e);
  wad_A7 : wf_opt (ad_ASFE7 e) 16777216 (ad_ANS7 e);
  wad_A8 : wf_opt (ad_ASFE8 e) 16777216 (ad_ANS8 e)
}.
Record abs_ad (e0 e : SrAdSensorsData) : Prop := {
  aad_D1 : abs_opt (ad_DIOE1 e) (ad_ADIO1 e0) (ad_ADIO1 e);
  aad_D2 : abs_opt (ad_DIOE2 e) (ad_ADIO2 e0) (ad_ADIO2 e);
  aad_D3 : abs_opt (ad_DIOE3 e) (ad_ADIO3 e0) (ad_ADIO3 e);
  aad_D4 : abs_opt (ad_DIOE4 e) (ad_ADIO4 e0) (ad_ADIO4 e);
  aad_D5 : abs_opt (ad_DIOE5 e) (ad_ADIO5 e0) (ad_ADIO5 e);
  aad_D6 : abs_opt (ad_DIOE6 e) (ad_ADIO6 e0) (ad_ADIO6 e);
  aad_D7 : abs_opt (ad_DIOE7 e) (ad_ADIO7 e0) (ad_ADIO7 e);
  aad_D8 : abs_opt (ad_DIOE8 e) (ad_ADIO8 e0) (ad_ADIO8 e);
  aad_A1 : abs_opt (ad_ASFE1 e) (ad_ANS1 e0) (ad_ANS1 e);
  aad_A2 : abs_opt (ad_ASFE2 e) (ad_ANS2 e0) (ad_ANS2 e);
  aad_A3 : abs_opt (ad_ASFE3 e) (ad_ANS3 e0) (ad_ANS3 e);
  aad_A4 : abs_opt (ad_ASFE4 e) (ad_ANS4 e0) (ad_ANS4 e);
  aad_A5 : abs_opt (ad_ASFE5 e) (ad_ANS5 e0) (ad_ANS5 e);
  aad_A6 : abs_opt (ad_ASFE6 e) (ad_ANS6 e0) (ad_ANS6 e);
  aad_A7 : abs_opt (ad_ASFE7 e) (ad_ANS7 e0) (ad_ANS7 e);
  aad_A8 : abs_opt (ad_ASFE8 e) (ad_ANS8 e0) (ad_ANS8 e)
}.
(** The layout of the standard: bit n-1 of the two flag bytes belongs to sensor n. *)
Definition lay_ad (e : SrAdSensorsData) : list N :=
  [128 * fl (ad_DIOE8 e) + 64 * fl (ad_DIOE7 e) + 32 * fl (ad_DIOE6 e) + 16 * fl (ad_DIOE5 e)
   + 8 * fl (ad_DIOE4 e) + 4 * fl (ad_DIOE3 e) + 2 * fl (ad_DIOE2 e) + fl (ad_DIOE1 e);
   ad_DOUT e;
   128 * fl (ad_ASFE8 e) + 64 * fl (ad_ASFE7 e) + 32 * fl (ad_ASFE6 e) + 16 * fl (ad_ASFE5 e)
   + 8 * fl (ad_ASFE4 e) + 4 * fl (ad_ASFE3 e) + 2 * fl (ad_ASFE2 e) + fl (ad_ASFE1 e)]
  ++ opt (ad_DIOE1 e) [ad_ADIO1 e] ++ opt (ad_DIOE2 e) [ad_ADIO2 e]
  ++ opt (ad_DIOE3 e) [ad_ADIO3 e] ++ opt (ad_DIOE4 e) [ad_ADIO4 e]
  ++ opt (ad_DIOE5 e) [ad_ADIO5 e] ++ opt (ad_DIOE6 e) [ad_ADIO6 e]
  ++ opt (ad_DIOE7 e) [ad_ADIO7 e] ++ opt (ad_DIOE8 e) [ad_ADIO8 e]
  ++ opt (ad_ASFE1 e) (le24 (ad_ANS1 e)) ++ opt (ad_ASFE2 e) (le24 (ad_ANS2 e))
  ++ opt (ad_ASFE3 e) (le24 (ad_ANS3 e)) ++ opt (ad_ASFE4 e) (le24 (ad_ANS4 e))
  ++ opt (ad_ASFE5 e) (le24 (ad_ANS5 e)) ++ opt (ad_ASFE6 e) (le24 (ad_ANS6 e))
  ++ opt (ad_ASFE7 e) (le24 (ad_ANS7 e)) ++ opt (ad_ASFE8 e) (le24 (ad_ANS8 e)).
(** Analog sensor n is present exactly when sensor 9-n is. *)
Definition palin_ad (e : SrAdSensorsData) : Prop :=
  ad_ASFE1 e = ad_ASFE8 e /\ ad_ASFE2 e = ad_ASFE7 e /\ ad_ASFE3 e = ad_ASFE6 e /\ ad_ASFE4 e = ad_ASFE5 e.

(** ** EGTS_SR_COUNTERS_DATA *)
Record wf_cd (e : SrCountersData) : Prop := {
  wcd_1 : wf_opt (cd_CFE1 e) 16777216 (cd_CN1 e);
  wcd_2 : wf_opt (cd_CFE2 e) 16777216 (cd_CN2 e);
  wcd_3 : wf_opt (cd_CFE3 e) 16777216 (cd_CN3 e);
  wcd_4 : wf_opt (cd_CFE4 e) 16777216 (cd_CN4 e);
  wcd_5 : wf_opt (cd_CFE5 e) 16777216 (cd_CN5 e);
  wcd_6 : wf_opt (cd_CFE6 e) 16777216 (cd_CN6 e);
  wcd_7 : wf_opt (cd_CFE7 e) 16777216 (cd_CN7 e);
  wcd_8 : wf_opt (cd_CFE8 e) 16777216 (cd_CN8 e)
}.
Record abs_cd (e0 e : SrCountersData) : Prop := {
  acd_1 : abs_opt (cd_CFE1 e) (cd_CN1 e0) (cd_CN1 e);
  acd_2 : abs_opt (cd_CFE2 e) (cd_CN2 e0) (cd_CN2 e);
  acd_3 : abs_opt (cd_CFE3 e) (cd_CN3 e0) (cd_CN3 e);
  acd_4 : abs_opt (cd_CFE4 e) (cd_CN4 e0) (cd_CN4 e);
  acd_5 : abs_opt (cd_CFE5 e) (cd_CN5 e0) (cd_CN5 e);
  acd_6 : abs_opt (cd_CFE6 e) (cd_CN6 e0) (cd_CN6 e);
  acd_7 : abs_opt (cd_CFE7 e) (cd_CN7 e0) (cd_CN7 e);
  acd_8 : abs_opt (cd_CFE8 e) (cd_CN8 e0) (cd_CN8 e)
}.
Definition lay_cd (e : SrCountersData) : list N :=
  [128 * fl (cd_CFE8 e) + 64 * fl (cd_CFE7 e) + 32 * fl (cd_CFE6 e) + 16 * fl (cd_CFE5 e)
   + 8 * fl (cd_CFE4 e) + 4 * fl (cd_CFE3 e) + 2 * fl (cd_CFE2 e) + fl (cd_CFE1 e)]
  ++ opt (cd_CFE1 e) (le24 (cd_CN1 e)) ++ opt (cd_CFE2 e) (le24 (cd_CN2 e))
  ++ opt (cd_CFE3 e) (le24 (cd_CN3 e)) ++ opt (cd_CFE4 e) (le24 (cd_CN4 e))
  ++ opt (cd_CFE5 e) (le24 (cd_CN5 e)) ++ opt (cd_CFE6 e) (le24 (cd_CN6 e))
  ++ opt (cd_CFE7 e) (le24 (cd_CN7 e)) ++ opt (cd_CFE8 e) (le24 (cd_CN8 e)).

(** ** EGTS_SR_STATE_DATA *)
Record wf_sd (e : SrStateData) : Prop := {
  wsd_ST : is_u8 (sd_ST e);
  wsd_MPSV : is_u8 (sd_MPSV e);
  wsd_BBV : is_u8 (sd_BBV e);
  wsd_IBV : is_u8 (sd_IBV e);
  wsd_NMS : is_flag (sd_NMS e);
  wsd_IBU : is_flag (sd_IBU e);
  wsd_BBU : is_flag (sd_BBU e)
}.
Definition lay_sd (e : SrStateData) : list N :=
  [sd_ST e; sd_MPSV e; sd_BBV e; sd_IBV e; 4 * fl (sd_NMS e) + 2 * fl (sd_IBU e) + fl (sd_BBU e)].

(** ** EGTS_SR_LIQUID_LEVEL_SENSOR *)
Record wf_ll (e : SrLiquidLevelSensor) : Prop := {
  wll_LLSEF : is_flag (ll_LLSEF e);
  wll_LLSVU : is_flag2 (ll_LLSVU e);
  wll_RDF : is_flag (ll_RDF e);
  wll_LLSN : ll_LLSN e < 8;
  wll_MADDR : is_u16 (ll_MADDR e);
  wll_LLSD : is_u32 (ll_LLSD e)
}.
Definition lay_ll (e : SrLiquidLevelSensor) : list N :=
  [64 * fl (ll_LLSEF e) + 16 * fl2 (ll_LLSVU e) + 8 * fl (ll_RDF e) + ll_LLSN e]
  ++ le16 (ll_MADDR e) ++ le32 (ll_LLSD e).

(** ** EGTS_SR_ABS_CNTR_DATA and EGTS_SR_ABS_AN_SENS_DATA *)
Definition wf_ac (e : SrAbsCntrData) : Prop := is_u8 (ac_CN e) /\ is_u24 (ac_CNV e).
Definition lay_ac (e : SrAbsCntrData) : list N := [ac_CN e] ++ le24 (ac_CNV e).
Definition wf_aa (e : SrAbsAnSensData) : Prop := is_u8 (aa_SN e) /\ is_u24 (aa_VAL e).
Definition lay_aa (e : SrAbsAnSensData) : list N := [aa_SN e] ++ le24 (aa_VAL e).

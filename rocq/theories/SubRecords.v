(** Model of the subrecord codecs, libs/egts/egts_sr_*.go.  Definitions only.

    Every Decode takes the previous contents [e0] of its receiver, because fields whose
    presence flag is not set are left as they were.  The partially updated receiver of a
    Decode that returns an error is not modelled (all callers drop it). *)
From Coq Require Import NArith ZArith String List Bool.
From Verif Require Import GoBase GoFloat.
From Flocq Require Import BinarySingleNaN.
Import ListNotations.
Open Scope N_scope.
Open Scope go_scope.

(** Code outside the repository, kept arbitrary: the protobuf codec behind
    egts_sr_egtsplus_data.go:241-247 (proto.Unmarshal resets the message first, so the
    previous contents do not matter), and Go's implementation-defined conversion of a
    float64 outside the range of uint32.  The two side conditions only say that the
    results are values of the Go types []byte and uint32. *)
Class Env : Type := {
  StorageRecord : Type;
  pb_zero : StorageRecord;
  pb_unmarshal : bytes -> option StorageRecord;
  pb_marshal : StorageRecord -> option bytes;
  pb_marshal_ok : forall m b, pb_marshal m = Some b -> bytes_ok b;
  f64_u32_oor : f64 -> N;
  f64_u32_oor_ok : forall x, f64_u32_oor x < 4294967296
}.

(** Go's conversion uint32(x) of a float64: truncation towards zero when the result fits. *)
Definition f64_to_u32 `{Env} (x : f64) : N :=
  if is_finite x && ((0 <=? Btrunc x) && (Btrunc x <? 4294967296))%Z
  then Z.to_N (Btrunc x) else f64_u32_oor x.


(** ** EGTS_SR_RESULT_CODE, egts_sr_result_code.go *)

(** egts_sr_result_code.go:10-12 *)
Record SrResultCode := mkSrResultCode { rcd_ResultCode : N }.

(** egts_sr_result_code.go:15-26 *)
Definition SrResultCode_decode (content : bytes) : res SrResultCode :=
  rd c, _ <- rd_byte content ;; Ok (mkSrResultCode c).

(** egts_sr_result_code.go:29-42 *)
Definition SrResultCode_encode (s : SrResultCode) : res bytes := Ok [rcd_ResultCode s].

(** ** EGTS_SR_TERM_IDENTITY, egts_sr_term_identity.go *)

(** egts_sr_term_identity.go:12-29 *)
Record SrTermIdentity := mkSrTermIdentity {
  ti_TID : N;
  ti_MNE : string; ti_BSE : string; ti_NIDE : string; ti_SSRA : string;
  ti_LNGCE : string; ti_IMSIE : string; ti_IMEIE : string; ti_HDIDE : string;
  ti_HDID : N;
  ti_IMEI : string;
  ti_IMSI : string;
  ti_LNGC : string;
  ti_NID : bytes;
  ti_BS : N;
  ti_MSISDN : string
}.

Definition SrTermIdentity_zero : SrTermIdentity :=
  mkSrTermIdentity 0 "" "" "" "" "" "" "" "" 0 "" "" "" [] 0 "".

(** egts_sr_term_identity.go:32-115 *)
Definition SrTermIdentity_decode (e0 : SrTermIdentity) (content : bytes) : res SrTermIdentity :=
  rd tid, r <- rd_num 4 content ;;
  rd flags, r <- rd_byte r ;;
  let fb := sprintf_b 8 flags in
  let mne := slice 0 1 fb in
  let bse := slice 1 2 fb in
  let nide := slice 2 3 fb in
  let ssra := slice 3 4 fb in
  let lngce := slice 4 5 fb in
  let imsie := slice 5 6 fb in
  let imeie := slice 6 7 fb in
  let hdide := slice 7 8 fb in
  rd hdid, r <- opt_rd (is1 hdide) (ti_HDID e0) (rd_num 2) r ;;
  rd imei, r <- opt_rd (is1 imeie) (ti_IMEI e0) (rd_str 15) r ;;
  rd imsi, r <- opt_rd (is1 imsie) (ti_IMSI e0) (rd_str 16) r ;;
  rd lngc, r <- opt_rd (is1 lngce) (ti_LNGC e0) (rd_str 3) r ;;
  rd nid, r <- opt_rd (is1 nide) (ti_NID e0) (rd_into (zeros 3)) r ;;
  rd bs, r <- opt_rd (is1 bse) (ti_BS e0) (rd_num 2) r ;;
  rd msisdn, r <- opt_rd (is1 mne) (ti_MSISDN e0) (rd_str 15) r ;;
  Ok (mkSrTermIdentity tid mne bse nide ssra lngce imsie imeie hdide hdid imei imsi lngc nid bs msisdn).

(** egts_sr_term_identity.go:118-179.  The error of ParseUint is overwritten by the next
    assignment to err (lines 130-131), so its value part is used even on failure. *)
Definition SrTermIdentity_encode (e : SrTermIdentity) : res bytes :=
  let flags := fst (parse_uint2 255
    (ti_MNE e ++ ti_BSE e ++ ti_NIDE e ++ ti_SSRA e ++ ti_LNGCE e ++ ti_IMSIE e ++ ti_IMEIE e ++ ti_HDIDE e)) in
  Ok (le_bytes 4 (ti_TID e) ++ [u8 flags]
      ++ put (is1 (ti_HDIDE e)) (le_bytes 2 (ti_HDID e))
      ++ put (is1 (ti_IMEIE e)) (bytes_of_string (ti_IMEI e))
      ++ put (is1 (ti_IMSIE e)) (bytes_of_string (ti_IMSI e))
      ++ put (is1 (ti_LNGCE e)) (bytes_of_string (ti_LNGC e))
      ++ put (is1 (ti_NIDE e)) (ti_NID e)
      ++ put (is1 (ti_BSE e)) (le_bytes 2 (ti_BS e))
      ++ put (is1 (ti_MNE e)) (bytes_of_string (ti_MSISDN e)))%list.

(** ** EGTS_SR_MODULE_DATA, egts_sr_module_data.go *)

(** egts_sr_module_data.go:15-26; ModuleType is an int8. *)
Record SrModuleData := mkSrModuleData {
  md_MT : Z;
  md_VID : N;
  md_FWV : N;
  md_SWV : N;
  md_MD : N;
  md_ST : N;
  md_SRN : string;
  md_DSCR : string
}.

(** int8(b) *)
Definition int8_of_byte (b : N) : Z := if b <? 128 then Z.of_N b else (Z.of_N b - 256)%Z.
(** the byte binary.Write emits for an int8 *)
Definition byte_of_int8 (z : Z) : N := Z.to_N (z mod 256).

(** egts_sr_module_data.go:30-95 *)
Definition SrModuleData_decode (content : bytes) : res SrModuleData :=
  rd mt, r <- rd_byte content ;;
  rd vid, r <- rd_num 4 r ;;
  rd fwv, r <- rd_num 2 r ;;
  rd swv, r <- rd_num 2 r ;;
  rd md, r <- rd_byte r ;;
  rd st, r <- rd_byte r ;;
  rd srn, r <- rd_cstr r ;;
  rd dscr, r <- rd_cstr r ;;
  Ok (mkSrModuleData (int8_of_byte mt) vid fwv swv md st srn dscr).

(** egts_sr_module_data.go:98-137 *)
Definition SrModuleData_encode (e : SrModuleData) : res bytes :=
  Ok ([byte_of_int8 (md_MT e)] ++ le_bytes 4 (md_VID e) ++ le_bytes 2 (md_FWV e)
      ++ le_bytes 2 (md_SWV e) ++ [md_MD e] ++ [md_ST e]
      ++ bytes_of_string (md_SRN e) ++ [0] ++ bytes_of_string (md_DSCR e) ++ [0]).

(** ** EGTS_SR_DISPATCHER_IDENTITY, egts_sr_dispatcher_identity.go *)

(** egts_sr_dispatcher_identity.go:12-16 *)
Record SrDispatcherIdentity := mkSrDispatcherIdentity {
  di_DT : N;
  di_DID : N;
  di_DSCR : string
}.

(** egts_sr_dispatcher_identity.go:19-37 *)
Definition SrDispatcherIdentity_decode (content : bytes) : res SrDispatcherIdentity :=
  rd dt, r <- rd_byte content ;;
  rd did, r <- rd_num 4 r ;;
  Ok (mkSrDispatcherIdentity dt did (string_of_bytes r)).

(** egts_sr_dispatcher_identity.go:40-61 *)
Definition SrDispatcherIdentity_encode (d : SrDispatcherIdentity) : res bytes :=
  Ok ([di_DT d] ++ le_bytes 4 (di_DID d) ++ bytes_of_string (di_DSCR d)).

(** ** EGTS_SR_AUTH_INFO, egts_sr_auth_info.go *)

(** egts_sr_auth_info.go:12-16 *)
Record SrAuthInfo := mkSrAuthInfo { ai_UNM : string; ai_UPSW : string; ai_SS : string }.
Definition SrAuthInfo_zero : SrAuthInfo := mkSrAuthInfo "" "" "".

(** egts_sr_auth_info.go:19-49 *)
Definition SrAuthInfo_decode (e0 : SrAuthInfo) (content : bytes) : res SrAuthInfo :=
  rd unm, r <- rd_cstr content ;;
  rd upsw, r <- rd_cstr r ;;
  rd ss, r <- opt_rd (negb (len r =? 0)) (ai_SS e0) rd_cstr r ;;
  Ok (mkSrAuthInfo unm upsw ss).

(** egts_sr_auth_info.go:52-74 *)
Definition SrAuthInfo_encode (e : SrAuthInfo) : res bytes :=
  Ok (bytes_of_string (ai_UNM e) ++ [0] ++ bytes_of_string (ai_UPSW e) ++ [0]
      ++ put (negb (String.eqb (ai_SS e) "")) (bytes_of_string (ai_SS e) ++ [0])).

(** ** EGTS_SR_POS_DATA, egts_sr_pos_data.go *)

(** egts_sr_pos_data.go:13-34.  SourceData (line 33) is neither read nor written by the
    codec and is omitted. *)
Record SrPosData := mkSrPosData {
  pd_NTM : time;
  pd_LAT : f64;
  pd_LONG : f64;
  pd_ALTE : string; pd_LOHS : string; pd_LAHS : string; pd_MV : string;
  pd_BB : string; pd_CS : string; pd_FIX : string; pd_VLD : string;
  pd_DIRH : N;
  pd_ALTS : N;
  pd_SPD : N;
  pd_DIR : N;
  pd_ODM : N;
  pd_DIN : N;
  pd_SRC : N;
  pd_ALT : N
}.
Definition SrPosData_zero : SrPosData :=
  mkSrPosData t_zero f64_zero f64_zero "" "" "" "" "" "" "" "" 0 0 0 0 0 0 0 0.

(** float64(float64(raw) * scale / 0xFFFFFFFF), egts_sr_pos_data.go:60 (90) and :67 (180) *)
Definition coord_decode (scale : Z) (raw : N) : f64 :=
  f64_div (f64_mul (f64_of_Z (Z.of_N raw)) (f64_of_Z scale)) (f64_of_Z max32).

(** uint32(x / scale * 0xFFFFFFFF), egts_sr_pos_data.go:148 (90) and :153 (180) *)
Definition coord_encode `{Env} (scale : Z) (x : f64) : N :=
  f64_to_u32 (f64_mul (f64_div x (f64_of_Z scale)) (f64_of_Z max32)).

(** startDate.Add(time.Duration(n) * time.Second), egts_sr_pos_data.go:52 and
    service_data_records.go:93 *)
Definition time_decode (n : N) : time := t_add_seconds t2010 (Z.of_N n).

(** uint32(t.Sub(startDate).Seconds()), egts_sr_pos_data.go:143 *)
Definition ntm_encode `{Env} (t : time) : N := f64_to_u32 (dur_seconds (t_sub t t2010)).

(** egts_sr_pos_data.go:37-130.  The speed digits speedBits[2:] are always 14 binary
    digits, so the ParseUint of line 93 is the number formed by the low 14 bits. *)
Definition SrPosData_decode (e0 : SrPosData) (content : bytes) : res SrPosData :=
  rd (ntm, tmp), r <- rd_num_tmp (zeros 4) content ;;
  rd (lat, tmp), r <- rd_num_tmp tmp r ;;
  rd (long, tmp), r <- rd_num_tmp tmp r ;;
  rd flags, r <- rd_byte r ;;
  let fb := sprintf_b 8 flags in
  let alte := slice 0 1 fb in
  let lohs := slice 1 2 fb in
  let lahs := slice 2 3 fb in
  let mv := slice 3 4 fb in
  let bb := slice 4 5 fb in
  let cs := slice 5 6 fb in
  let fix_ := slice 6 7 fb in
  let vld := slice 7 8 fb in
  rd spd, r <- rd_num 2 r ;;
  let dirh := u8 (N.land (N.shiftr spd 15) 1) in
  let alts := u8 (N.land (N.shiftr spd 14) 1) in
  let speedBits := sprintf_b 16 spd in
  let (speed, ok) := parse_uint2 65535 (slice 2 16 speedBits) in
  if negb ok then Err else
  rd dir, r <- rd_byte r ;;
  let dir := N.lor dir (u8 (N.shiftl dirh 7)) in
  rd odm, r <- rd_num 3 r ;;
  rd din, r <- rd_byte r ;;
  rd src, r <- rd_byte r ;;
  rd alt, r <- opt_rd (is1 alte) (pd_ALT e0) (rd_num 4) r ;;
  Ok (mkSrPosData (time_decode ntm) (coord_decode 90 lat) (coord_decode 180 long)
        alte lohs lahs mv bb cs fix_ vld dirh alts (u16 speed / 10) dir odm din src alt).

(** egts_sr_pos_data.go:133-206 *)
Definition SrPosData_encode `{Env} (e : SrPosData) : res bytes :=
  do flags <- parse_flags (pd_ALTE e ++ pd_LOHS e ++ pd_LAHS e ++ pd_MV e
                           ++ pd_BB e ++ pd_CS e ++ pd_FIX e ++ pd_VLD e) ;;
  let speed := N.lor (u16 (pd_SPD e * 10)) (u16 (N.shiftl (pd_DIRH e) 15)) in
  let speed := N.lor speed (u16 (N.shiftl (pd_ALTS e) 14)) in
  let dir := N.ldiff (pd_DIR e) (u8 (N.shiftl (pd_DIRH e) 7)) in
  Ok (le_bytes 4 (ntm_encode (pd_NTM e))
      ++ le_bytes 4 (coord_encode 90 (pd_LAT e))
      ++ le_bytes 4 (coord_encode 180 (pd_LONG e))
      ++ [u8 flags] ++ le_bytes 2 speed ++ [dir]
      ++ le_bytes 3 (pd_ODM e) ++ [pd_DIN e] ++ [pd_SRC e]
      ++ put (is1 (pd_ALTE e)) (le_bytes 3 (pd_ALT e)))%list.

(** ** EGTS_SR_EXT_POS_DATA, egts_sr_ext_pos_data.go *)

(** egts_sr_ext_pos_data.go:12-23 *)
Record SrExtPosData := mkSrExtPosData {
  ep_NSFE : string; ep_SFE : string; ep_PFE : string; ep_HFE : string; ep_VFE : string;
  ep_VDOP : N;
  ep_HDOP : N;
  ep_PDOP : N;
  ep_SAT : N;
  ep_NS : N
}.
Definition SrExtPosData_zero : SrExtPosData := mkSrExtPosData "" "" "" "" "" 0 0 0 0 0.

(** egts_sr_ext_pos_data.go:26-81; the two-byte buffer is shared by all reads. *)
Definition SrExtPosData_decode (e0 : SrExtPosData) (content : bytes) : res SrExtPosData :=
  let tmp := zeros 2 in
  rd flags, r <- rd_byte content ;;
  let fb := sprintf_b 8 flags in
  let nsfe := slice 3 4 fb in
  let sfe := slice 4 5 fb in
  let pfe := slice 5 6 fb in
  let hfe := slice 6 7 fb in
  let vfe := slice 7 8 fb in
  rd (vdop, tmp), r <- opt_rd (is1 vfe) (ep_VDOP e0, tmp) (rd_num_tmp tmp) r ;;
  rd (hdop, tmp), r <- opt_rd (is1 hfe) (ep_HDOP e0, tmp) (rd_num_tmp tmp) r ;;
  rd (pdop, tmp), r <- opt_rd (is1 pfe) (ep_PDOP e0, tmp) (rd_num_tmp tmp) r ;;
  rd sat, r <- opt_rd (is1 sfe) (ep_SAT e0) rd_byte r ;;
  rd (ns, tmp), r <- opt_rd (is1 nsfe) (ep_NS e0, tmp) (rd_num_tmp tmp) r ;;
  Ok (mkSrExtPosData nsfe sfe pfe hfe vfe vdop hdop pdop sat ns).

(** egts_sr_ext_pos_data.go:84-136 *)
Definition SrExtPosData_encode (e : SrExtPosData) : res bytes :=
  do flags <- parse_flags ("000" ++ ep_NSFE e ++ ep_SFE e ++ ep_PFE e ++ ep_HFE e ++ ep_VFE e) ;;
  Ok ([u8 flags]
      ++ put (is1 (ep_VFE e)) (le_bytes 2 (ep_VDOP e))
      ++ put (is1 (ep_HFE e)) (le_bytes 2 (ep_HDOP e))
      ++ put (is1 (ep_PFE e)) (le_bytes 2 (ep_PDOP e))
      ++ put (is1 (ep_SFE e)) [ep_SAT e]
      ++ put (is1 (ep_NSFE e)) (le_bytes 2 (ep_NS e)))%list.


(** ** EGTS_SR_AD_SENSORS_DATA, egts_sr_ad_sensors_data.go *)

(** egts_sr_ad_sensors_data.go:13-47 *)
Record SrAdSensorsData := mkSrAdSensorsData {
  ad_DIOE1 : string; ad_DIOE2 : string; ad_DIOE3 : string; ad_DIOE4 : string; ad_DIOE5 : string; ad_DIOE6 : string; ad_DIOE7 : string; ad_DIOE8 : string;
  ad_DOUT : N;
  ad_ASFE1 : string; ad_ASFE2 : string; ad_ASFE3 : string; ad_ASFE4 : string; ad_ASFE5 : string; ad_ASFE6 : string; ad_ASFE7 : string; ad_ASFE8 : string;
  ad_ADIO1 : N; ad_ADIO2 : N; ad_ADIO3 : N; ad_ADIO4 : N; ad_ADIO5 : N; ad_ADIO6 : N; ad_ADIO7 : N; ad_ADIO8 : N;
  ad_ANS1 : N; ad_ANS2 : N; ad_ANS3 : N; ad_ANS4 : N; ad_ANS5 : N; ad_ANS6 : N; ad_ANS7 : N; ad_ANS8 : N
}.
Definition SrAdSensorsData_zero : SrAdSensorsData :=
  mkSrAdSensorsData "" "" "" "" "" "" "" "" 0 "" "" "" "" "" "" "" "" 0 0 0 0 0 0 0 0 0 0 0 0 0 0 0 0.

(** egts_sr_ad_sensors_data.go:50-204; the three-byte buffer is shared by all analog reads. *)
Definition SrAdSensorsData_decode (e0 : SrAdSensorsData) (content : bytes) : res SrAdSensorsData :=
  rd flags, r <- rd_byte content ;;
  let fb := sprintf_b 8 flags in
  let d8 := slice 0 1 fb in
  let d7 := slice 1 2 fb in
  let d6 := slice 2 3 fb in
  let d5 := slice 3 4 fb in
  let d4 := slice 4 5 fb in
  let d3 := slice 5 6 fb in
  let d2 := slice 6 7 fb in
  let d1 := slice 7 8 fb in
  rd dout, r <- rd_byte r ;;
  rd flags, r <- rd_byte r ;;
  let fb := sprintf_b 8 flags in
  let a8 := slice 0 1 fb in
  let a7 := slice 1 2 fb in
  let a6 := slice 2 3 fb in
  let a5 := slice 3 4 fb in
  let a4 := slice 4 5 fb in
  let a3 := slice 5 6 fb in
  let a2 := slice 6 7 fb in
  let a1 := slice 7 8 fb in
  rd o1, r <- opt_rd (is1 d1) (ad_ADIO1 e0) rd_byte r ;;
  rd o2, r <- opt_rd (is1 d2) (ad_ADIO2 e0) rd_byte r ;;
  rd o3, r <- opt_rd (is1 d3) (ad_ADIO3 e0) rd_byte r ;;
  rd o4, r <- opt_rd (is1 d4) (ad_ADIO4 e0) rd_byte r ;;
  rd o5, r <- opt_rd (is1 d5) (ad_ADIO5 e0) rd_byte r ;;
  rd o6, r <- opt_rd (is1 d6) (ad_ADIO6 e0) rd_byte r ;;
  rd o7, r <- opt_rd (is1 d7) (ad_ADIO7 e0) rd_byte r ;;
  rd o8, r <- opt_rd (is1 d8) (ad_ADIO8 e0) rd_byte r ;;
  let tmp := zeros 3 in
  rd (n1, tmp), r <- opt_rd (is1 a1) (ad_ANS1 e0, tmp) (rd_num_tmp tmp) r ;;
  rd (n2, tmp), r <- opt_rd (is1 a2) (ad_ANS2 e0, tmp) (rd_num_tmp tmp) r ;;
  rd (n3, tmp), r <- opt_rd (is1 a3) (ad_ANS3 e0, tmp) (rd_num_tmp tmp) r ;;
  rd (n4, tmp), r <- opt_rd (is1 a4) (ad_ANS4 e0, tmp) (rd_num_tmp tmp) r ;;
  rd (n5, tmp), r <- opt_rd (is1 a5) (ad_ANS5 e0, tmp) (rd_num_tmp tmp) r ;;
  rd (n6, tmp), r <- opt_rd (is1 a6) (ad_ANS6 e0, tmp) (rd_num_tmp tmp) r ;;
  rd (n7, tmp), r <- opt_rd (is1 a7) (ad_ANS7 e0, tmp) (rd_num_tmp tmp) r ;;
  rd (n8, tmp), r <- opt_rd (is1 a8) (ad_ANS8 e0, tmp) (rd_num_tmp tmp) r ;;
  Ok (mkSrAdSensorsData d1 d2 d3 d4 d5 d6 d7 d8 dout
        a1 a2 a3 a4 a5 a6 a7 a8
        o1 o2 o3 o4 o5 o6 o7 o8
        n1 n2 n3 n4 n5 n6 n7 n8).

(** egts_sr_ad_sensors_data.go:207-360.  The analog flags are concatenated 1..8 (lines
    237-244), the digital ones 8..1 (lines 216-223). *)
Definition SrAdSensorsData_encode (e : SrAdSensorsData) : res bytes :=
  do flags <- parse_flags (ad_DIOE8 e ++ ad_DIOE7 e ++ ad_DIOE6 e ++ ad_DIOE5 e ++ ad_DIOE4 e ++ ad_DIOE3 e ++ ad_DIOE2 e ++ ad_DIOE1 e) ;;
  do aflags <- parse_flags (ad_ASFE1 e ++ ad_ASFE2 e ++ ad_ASFE3 e ++ ad_ASFE4 e ++ ad_ASFE5 e ++ ad_ASFE6 e ++ ad_ASFE7 e ++ ad_ASFE8 e) ;;
  Ok ([u8 flags] ++ [ad_DOUT e] ++ [u8 aflags]
      ++ put (is1 (ad_DIOE1 e)) [ad_ADIO1 e]
      ++ put (is1 (ad_DIOE2 e)) [ad_ADIO2 e]
      ++ put (is1 (ad_DIOE3 e)) [ad_ADIO3 e]
      ++ put (is1 (ad_DIOE4 e)) [ad_ADIO4 e]
      ++ put (is1 (ad_DIOE5 e)) [ad_ADIO5 e]
      ++ put (is1 (ad_DIOE6 e)) [ad_ADIO6 e]
      ++ put (is1 (ad_DIOE7 e)) [ad_ADIO7 e]
      ++ put (is1 (ad_DIOE8 e)) [ad_ADIO8 e]
      ++ put (is1 (ad_ASFE1 e)) (le_bytes 3 (ad_ANS1 e))
      ++ put (is1 (ad_ASFE2 e)) (le_bytes 3 (ad_ANS2 e))
      ++ put (is1 (ad_ASFE3 e)) (le_bytes 3 (ad_ANS3 e))
      ++ put (is1 (ad_ASFE4 e)) (le_bytes 3 (ad_ANS4 e))
      ++ put (is1 (ad_ASFE5 e)) (le_bytes 3 (ad_ANS5 e))
      ++ put (is1 (ad_ASFE6 e)) (le_bytes 3 (ad_ANS6 e))
      ++ put (is1 (ad_ASFE7 e)) (le_bytes 3 (ad_ANS7 e))
      ++ put (is1 (ad_ASFE8 e)) (le_bytes 3 (ad_ANS8 e)))%list.

(** ** EGTS_SR_COUNTERS_DATA, egts_sr_counters_data.go *)

(** egts_sr_counters_data.go:12-29 *)
Record SrCountersData := mkSrCountersData {
  cd_CFE1 : string; cd_CFE2 : string; cd_CFE3 : string; cd_CFE4 : string; cd_CFE5 : string; cd_CFE6 : string; cd_CFE7 : string; cd_CFE8 : string;
  cd_CN1 : N; cd_CN2 : N; cd_CN3 : N; cd_CN4 : N; cd_CN5 : N; cd_CN6 : N; cd_CN7 : N; cd_CN8 : N
}.
Definition SrCountersData_zero : SrCountersData :=
  mkSrCountersData "" "" "" "" "" "" "" "" 0 0 0 0 0 0 0 0.

(** egts_sr_counters_data.go:32-119; the three-byte buffer is shared by all reads, and the
    value read for counter 2 is assigned to Counter1 (line 68). *)
Definition SrCountersData_decode (e0 : SrCountersData) (content : bytes) : res SrCountersData :=
  rd flags, r <- rd_byte content ;;
  let fb := sprintf_b 8 flags in
  let f8 := slice 0 1 fb in
  let f7 := slice 1 2 fb in
  let f6 := slice 2 3 fb in
  let f5 := slice 3 4 fb in
  let f4 := slice 4 5 fb in
  let f3 := slice 5 6 fb in
  let f2 := slice 6 7 fb in
  let f1 := slice 7 8 fb in
  let tmp := zeros 3 in
  rd (c1, tmp), r <- opt_rd (is1 f1) (cd_CN1 e0, tmp) (rd_num_tmp tmp) r ;;
  rd (c1, tmp), r <- opt_rd (is1 f2) (c1, tmp) (rd_num_tmp tmp) r ;;
  let c2 := cd_CN2 e0 in
  rd (c3, tmp), r <- opt_rd (is1 f3) (cd_CN3 e0, tmp) (rd_num_tmp tmp) r ;;
  rd (c4, tmp), r <- opt_rd (is1 f4) (cd_CN4 e0, tmp) (rd_num_tmp tmp) r ;;
  rd (c5, tmp), r <- opt_rd (is1 f5) (cd_CN5 e0, tmp) (rd_num_tmp tmp) r ;;
  rd (c6, tmp), r <- opt_rd (is1 f6) (cd_CN6 e0, tmp) (rd_num_tmp tmp) r ;;
  rd (c7, tmp), r <- opt_rd (is1 f7) (cd_CN7 e0, tmp) (rd_num_tmp tmp) r ;;
  rd (c8, tmp), r <- opt_rd (is1 f8) (cd_CN8 e0, tmp) (rd_num_tmp tmp) r ;;
  Ok (mkSrCountersData f1 f2 f3 f4 f5 f6 f7 f8
        c1 c2 c3 c4 c5 c6 c7 c8).

(** egts_sr_counters_data.go:122-205 *)
Definition SrCountersData_encode (e : SrCountersData) : res bytes :=
  do flags <- parse_flags (cd_CFE8 e ++ cd_CFE7 e ++ cd_CFE6 e ++ cd_CFE5 e ++ cd_CFE4 e ++ cd_CFE3 e ++ cd_CFE2 e ++ cd_CFE1 e) ;;
  Ok ([u8 flags]
      ++ put (is1 (cd_CFE1 e)) (le_bytes 3 (cd_CN1 e))
      ++ put (is1 (cd_CFE2 e)) (le_bytes 3 (cd_CN2 e))
      ++ put (is1 (cd_CFE3 e)) (le_bytes 3 (cd_CN3 e))
      ++ put (is1 (cd_CFE4 e)) (le_bytes 3 (cd_CN4 e))
      ++ put (is1 (cd_CFE5 e)) (le_bytes 3 (cd_CN5 e))
      ++ put (is1 (cd_CFE6 e)) (le_bytes 3 (cd_CN6 e))
      ++ put (is1 (cd_CFE7 e)) (le_bytes 3 (cd_CN7 e))
      ++ put (is1 (cd_CFE8 e)) (le_bytes 3 (cd_CN8 e)))%list.

(** ** EGTS_SR_STATE_DATA, egts_sr_state_data.go *)

(** egts_sr_state_data.go:12-20 *)
Record SrStateData := mkSrStateData {
  sd_ST : N; sd_MPSV : N; sd_BBV : N; sd_IBV : N;
  sd_NMS : string; sd_IBU : string; sd_BBU : string
}.

(** egts_sr_state_data.go:23-55 *)
Definition SrStateData_decode (content : bytes) : res SrStateData :=
  rd st, r <- rd_byte content ;;
  rd mpsv, r <- rd_byte r ;;
  rd bbv, r <- rd_byte r ;;
  rd ibv, r <- rd_byte r ;;
  rd flags, r <- rd_byte r ;;
  let fb := sprintf_b 8 flags in
  Ok (mkSrStateData st mpsv bbv ibv (slice 5 6 fb) (slice 6 7 fb) (slice 7 8 fb)).

(** egts_sr_state_data.go:58-93 *)
Definition SrStateData_encode (e : SrStateData) : res bytes :=
  do flags <- parse_flags ("00000" ++ sd_NMS e ++ sd_IBU e ++ sd_BBU e) ;;
  Ok ([sd_ST e] ++ [sd_MPSV e] ++ [sd_BBV e] ++ [sd_IBV e] ++ [u8 flags])%list.

(** ** EGTS_SR_LIQUID_LEVEL_SENSOR, egts_sr_liquid_level_sensor.go *)

(** egts_sr_liquid_level_sensor.go:12-19 *)
Record SrLiquidLevelSensor := mkSrLiquidLevelSensor {
  ll_LLSEF : string;
  ll_LLSVU : string;
  ll_RDF : string;
  ll_LLSN : N;
  ll_MADDR : N;
  ll_LLSD : N
}.

(** egts_sr_liquid_level_sensor.go:22-57 *)
Definition SrLiquidLevelSensor_decode (content : bytes) : res SrLiquidLevelSensor :=
  rd flags, r <- rd_byte content ;;
  let fb := sprintf_b 8 flags in
  let ef := slice 1 2 fb in
  let vu := slice 2 4 fb in
  let rdf := slice 4 5 fb in
  do n <- parse_flags (slice 5 8 fb) ;;
  rd maddr, r <- rd_num 2 r ;;
  rd llsd, r <- rd_num 4 r ;;
  Ok (mkSrLiquidLevelSensor ef vu rdf (u8 n) maddr llsd).

(** egts_sr_liquid_level_sensor.go:60-89 *)
Definition SrLiquidLevelSensor_encode (e : SrLiquidLevelSensor) : res bytes :=
  do flags <- parse_flags ("0" ++ ll_LLSEF e ++ ll_LLSVU e ++ ll_RDF e ++ sprintf_b 3 (ll_LLSN e)) ;;
  Ok ([u8 flags] ++ le_bytes 2 (ll_MADDR e) ++ le_bytes 4 (ll_LLSD e))%list.

(** ** EGTS_SR_ABS_CNTR_DATA, egts_sr_abs_cntr_data.go *)

(** egts_sr_abs_cntr_data.go:12-15 *)
Record SrAbsCntrData := mkSrAbsCntrData { ac_CN : N; ac_CNV : N }.

(** egts_sr_abs_cntr_data.go:18-37 *)
Definition SrAbsCntrData_decode (content : bytes) : res SrAbsCntrData :=
  rd cn, r <- rd_byte content ;;
  rd cnv, r <- rd_num 3 r ;;
  Ok (mkSrAbsCntrData cn cnv).

(** egts_sr_abs_cntr_data.go:40-59 *)
Definition SrAbsCntrData_encode (e : SrAbsCntrData) : res bytes :=
  Ok ([ac_CN e] ++ le_bytes 3 (ac_CNV e)).

(** ** EGTS_SR_ABS_AN_SENS_DATA, egts_sr_abs_an_sensors_data.go *)

(** egts_sr_abs_an_sensors_data.go:10-13 *)
Record SrAbsAnSensData := mkSrAbsAnSensData { aa_SN : N; aa_VAL : N }.

(** egts_sr_abs_an_sensors_data.go:16-23.  LittleEndian.Uint32 panics on fewer than 4 bytes. *)
Definition SrAbsAnSensData_decode (content : bytes) : res SrAbsAnSensData :=
  if len content <? 4 then Err
  else match content with
       | b0 :: _ :: _ :: _ :: _ => Ok (mkSrAbsAnSensData b0 (N.shiftr (le_num (firstn 4 content)) 8))
       | _ => Panic
       end.

(** egts_sr_abs_an_sensors_data.go:26-33 *)
Definition SrAbsAnSensData_encode (e : SrAbsAnSensData) : res bytes :=
  Ok [aa_SN e; u8 (aa_VAL e); u8 (N.shiftr (aa_VAL e) 8); u8 (N.shiftr (aa_VAL e) 16)].

(** ** EGTS_SR_EGTSPLUS_DATA, egts_sr_egtsplus_data.go:241-247 *)
Definition StorageRecord_decode `{Env} (content : bytes) : res StorageRecord :=
  match pb_unmarshal content with Some m => Ok m | None => Err end.
Definition StorageRecord_encode `{Env} (m : StorageRecord) : res bytes :=
  match pb_marshal m with Some b => Ok b | None => Err end.

(** ** EGTS_SR_RECORD_RESPONSE, egts_sr_response.go (Decode is in Records.v) *)

(** egts_sr_response.go:11-14 *)
Record SrResponse := mkSrResponse { sr_CRN : N; sr_RST : N }.

(** egts_sr_response.go:41-58 *)
Definition SrResponse_encode (s : SrResponse) : res bytes :=
  Ok (le_bytes 2 (sr_CRN s) ++ [sr_RST s]).

(** Model of Package.ToBytes, libs/egts/egts_pkg.go:275-278: json.Marshal of a packet.  Definitions
    only.

    encoding/json writes the fields of a struct in the order of their declaration under the names
    of their tags, a nil interface, slice or pointer as null, []byte as base64, time.Time by its
    MarshalJSON (an error unless the year is 0 to 9999), and reports an error for floats that are
    not finite.  SrPosData.SourceData (SRCD) is never set by the package and taken to be 0. *)
From Coq Require Import NArith ZArith String List Bool.
From Flocq Require Import BinarySingleNaN.
From Verif Require Import GoBase GoFloat SubRecords Records Package Json TimeText Protobuf.
Import ListNotations.
Open Scope N_scope.

(** ** Structs, slices; [None] is an error. *)
Fixpoint opt_all {A} (l : list (option A)) : option (list A) :=
  match l with
  | [] => Some []
  | None :: _ => None
  | Some a :: r => match opt_all r with Some r' => Some (a :: r') | None => None end
  end.
Definition j_member (kv : string * option json) : option (bytes * json) :=
  match snd kv with Some v => Some (key (fst kv) v) | None => None end.
Definition j_struct (l : list (string * option json)) : option json :=
  match opt_all (map j_member l) with Some ms => Some (JObj ms) | None => None end.
(** An empty slice is nil or not. *)
Definition j_list (isnil : bool) (l : list (option json)) : option json :=
  match l with
  | [] => Some (if isnil then JNull else JArr [])
  | _ => match opt_all l with Some vs => Some (JArr vs) | None => None end
  end.
Fixpoint mapi {A B} (f : nat -> A -> B) (i : nat) (l : list A) : list B :=
  match l with [] => [] | a :: r => f i a :: mapi f (S i) r end.

Definition o_N (n : N) : option json := Some (j_N n).
Definition o_Z (z : Z) : option json := Some (j_Z z).
Definition o_str (s : string) : option json := Some (JStr (bytes_of_string s)).
Definition o_time (t : time) : option json := match time_text t with Some u => Some (JStr u) | None => None end.
Definition o_bytes (isnil : bool) (b : bytes) : option json :=
  Some (match b, isnil with [], true => JNull | _, _ => JStr (base64 b) end).

(** ** The EGTS+ messages, libs/egts/egts_sr_egtsplus_data.go: the names, numbers and Go types of
    the fields in the order of the structs.  Absent fields, and []byte fields without bytes, are
    omitted (omitempty); unknown fields are not written (json:"-"). *)
Inductive jkind := JkU32 | JkI32 | JkF32 | JkInt | JkBool | JkBytes.
Definition jtable (K : Type) : Type := list (string * N * K).

Definition t_accelerometer : jtable jkind :=
  [("sens_num", 1, JkU32); ("buf", 2, JkBytes); ("atm", 3, JkU32); ("frequency", 4, JkU32); ("range", 5, JkU32);
   ("format", 6, JkU32); ("zlib", 7, JkU32)]%string.
Definition t_ain : jtable jkind := [("sens_num", 1, JkU32); ("mv", 2, JkU32)]%string.
Definition t_buffer : jtable jkind := [("sens_num", 1, JkU32); ("data", 2, JkBytes); ("is_packed", 3, JkBool)]%string.
Definition t_button : jtable jkind := [("sens_num", 1, JkU32); ("state", 2, JkBool)]%string.
Definition t_canlog : jtable jkind :=
  [("sens_num", 1, JkU32); ("flag_security_state", 2, JkU32); ("flag_alarm", 3, JkU32); ("engine_time_all", 4, JkU32);
   ("engine_turn_speed", 5, JkU32); ("engine_temperature", 6, JkInt); ("fuel_consumption_all", 7, JkU32);
   ("fuel_level", 8, JkU32); ("track_all", 9, JkU32); ("speed", 10, JkU32); ("pressure_axis_1", 11, JkU32);
   ("pressure_axis_2", 12, JkU32); ("pressure_axis_3", 13, JkU32); ("pressure_axis_4", 14, JkU32);
   ("pressure_axis_5", 15, JkU32)]%string.
Definition t_canlog_ext : jtable jkind := [("sens_num", 1, JkU32); ("flags_high", 2, JkU32); ("flags_low", 3, JkU32)]%string.
Definition t_counter : jtable jkind := [("sens_num", 1, JkU32); ("value", 2, JkU32)]%string.
Definition t_crash : jtable jkind := [("sens_num", 1, JkU32); ("energy", 2, JkU32); ("is_overturned", 3, JkBool)]%string.
Definition t_dins : jtable jkind := [("sens_num", 1, JkU32); ("device", 2, JkU32); ("external", 3, JkU32)]%string.
Definition t_douts : jtable jkind := [("sens_num", 1, JkU32); ("device", 2, JkU32); ("external", 3, JkU32)]%string.
Definition t_fmeter : jtable jkind := [("sens_num", 1, JkU32); ("value", 2, JkU32)]%string.
Definition t_fuel : jtable jkind :=
  [("sens_num", 1, JkU32); ("value", 2, JkF32); ("parrots", 3, JkU32); ("unit", 4, JkU32); ("t", 5, JkU32);
   ("status", 6, JkU32)]%string.
Definition t_gsm : jtable jkind :=
  [("sens_num", 1, JkU32); ("lac", 4, JkBytes); ("cid", 5, JkBytes); ("rssi", 6, JkBytes); ("time_adv", 7, JkBytes);
   ("mcc", 2, JkU32); ("mnc", 3, JkU32)]%string.
Definition t_nav : jtable jkind :=
  [("sens_num", 1, JkU32); ("longitude", 2, JkI32); ("latitude", 3, JkI32); ("altitude", 4, JkU32); ("speed", 5, JkU32);
   ("course", 6, JkU32); ("sat_count", 7, JkU32); ("pdop", 8, JkU32); ("track", 9, JkU32); ("odometer", 10, JkU32)]%string.
Definition t_stor : jtable jkind :=
  [("sens_num", 1, JkU32); ("id_max", 2, JkU32); ("id_min", 3, JkU32); ("tm_oldest", 4, JkU32);
   ("tm_oldest_unack", 5, JkU32); ("cnt_unack", 6, JkU32); ("cnt_unack_losted", 7, JkU32)]%string.
Definition t_termo : jtable jkind := [("sens_num", 1, JkU32); ("status", 2, JkU32); ("temperature", 3, JkInt)]%string.
Definition t_era : jtable jkind :=
  [("sens_num", 1, JkU32); ("mic_con_failure", 2, JkBool); ("mic_failure", 3, JkBool); ("ignition_failure", 4, JkBool);
   ("uim_failure", 5, JkBool); ("bat_failure", 6, JkBool); ("bat_volt_low", 7, JkBool);
   ("crash_sens_failure", 8, JkBool); ("raim_problem", 9, JkBool); ("gnss_antenna_failure", 10, JkBool);
   ("events_memory_overflow", 11, JkBool)]%string.
Definition t_tracker : jtable jkind :=
  [("sens_num", 1, JkU32); ("cnt_ack", 2, JkU32); ("cnt_ack_realtime", 3, JkU32); ("cnt_noack", 4, JkU32);
   ("cnt_connect", 5, JkU32)]%string.

(** A field of StorageRecord: a pointer to a uint32, a slice of enums, or a slice of messages. *)
Inductive jkind1 := JkNum | JkEnums | JkMsgs (d : list (field kind)) (t : jtable jkind).
(** StorageRecord, lines 193-239 *)
Definition t_storage : jtable jkind1 :=
  [("record_number", 1, JkNum); ("time_stamp", 2, JkNum); ("record_reason", 3, JkEnums); ("status_flags", 4, JkNum);
   ("sens_accelerometer_data", 18, JkMsgs d_accelerometer t_accelerometer); ("sens_ain_ain_value", 9, JkMsgs d_ain t_ain);
   ("sens_buffer_data", 20, JkMsgs d_buffer t_buffer); ("sens_button_press_counter", 14, JkMsgs d_button t_button);
   ("sens_can_log_data", 16, JkMsgs d_canlog t_canlog); ("sens_can_log_tmp_data_ext", 17, JkMsgs d_canlog_ext t_canlog_ext);
   ("sens_counter_count", 11, JkMsgs d_counter t_counter); ("sens_crash_data", 24, JkMsgs d_crash t_crash);
   ("sens_dins_flags", 10, JkMsgs d_dins t_dins); ("sens_douts_flags", 19, JkMsgs d_douts t_douts);
   ("sens_fmeter_frequency", 12, JkMsgs d_fmeter t_fmeter); ("sens_fuel_level", 8, JkMsgs d_fuel t_fuel);
   ("sens_gsm_cell_monotoring_cell_monitoring", 13, JkMsgs d_gsm t_gsm); ("sens_nd_nav_data", 7, JkMsgs d_nav t_nav);
   ("sens_stor_info", 21, JkMsgs d_stor t_stor); ("sens_termo_data", 15, JkMsgs d_termo t_termo);
   ("sens_test_era_tests", 23, JkMsgs d_era t_era); ("sens_tracker_info", 22, JkMsgs d_tracker t_tracker)]%string.

(** The values of the field with a number. *)
Fixpoint vals_of {K V} (d : list (field K)) (vals : list (list V)) (n : N) : list V :=
  match d, vals with
  | f :: d', vs :: vals' => if f_num f =? n then vs else vals_of d' vals' n
  | _, _ => []
  end.

Section Plus.
Definition f32_finite (n : N) : bool := negb (N.land (N.shiftr n 23) 255 =? 255).
Definition j_value (k : jkind) (v : value) : option json :=
  match k, v with
  | JkU32, VU n => o_N n
  | JkI32, VU n => o_Z (int32_of n)
  | JkF32, VU n => if f32_finite n then Some (JNum (text32 n)) else None
  | JkInt, VI z => o_Z z
  | JkBool, VB b => Some (JBool b)
  | JkBytes, VBytes b => Some (JStr (base64 b))
  | _, _ => None
  end.
(** isEmptyValue *)
Definition empty_leaf (vs : list value) : bool := match vs with [] | [VBytes []] => true | _ => false end.

Fixpoint leaf_members (d : list (field kind)) (t : jtable jkind) (m : message value) : option (list (bytes * json)) :=
  match t with
  | [] => Some []
  | (name, num, k) :: t' =>
      let vs := vals_of d (m_vals m) num in
      if empty_leaf vs then leaf_members d t' m
      else match vs with
           | v :: _ =>
               match j_value k v, leaf_members d t' m with
               | Some j, Some ms => Some (key name j :: ms)
               | _, _ => None
               end
           | [] => None
           end
  end.
Definition j_leaf (d : list (field kind)) (t : jtable jkind) (m : message value) : option json :=
  option_map JObj (leaf_members d t m).

Definition j_item (k : jkind1) (v : value1) : option json :=
  match k, v with
  | JkNum, VLeaf (VU n) => o_N n
  | JkEnums, VLeaf (VI z) => o_Z z
  | JkMsgs d t, VMsg m => j_leaf d t m
  | _, _ => None
  end.
Definition j_field (k : jkind1) (vs : list value1) : option json :=
  match k with
  | JkNum => match vs with v :: _ => j_item k v | [] => None end
  | _ => option_map JArr (opt_all (map (j_item k) vs))
  end.
Fixpoint storage_members (t : jtable jkind1) (m : message value1) : option (list (bytes * json)) :=
  match t with
  | [] => Some []
  | (name, num, k) :: t' =>
      let vs := vals_of d_storage (m_vals m) num in
      match vs with
      | [] => storage_members t' m
      | _ :: _ =>
          match j_field k vs, storage_members t' m with
          | Some j, Some ms => Some (key name j :: ms)
          | _, _ => None
          end
      end
  end.
Definition j_storage (m : message value1) : option json := option_map JObj (storage_members t_storage m).
End Plus.

(** ** Packets *)
Section Pkg.
Context {E : Env}.
Variable j_plus : StorageRecord -> option json.

Definition o_float (x : f64) : option json := if is_finite x then Some (JNum (text64 x)) else None.

(** egts_sr_response.go:11-14 *)
Definition j_response (d : SrResponse) := j_struct [("CRN", o_N (sr_CRN d)); ("RST", o_N (sr_RST d))]%string.
(** egts_sr_term_identity.go:12-29 *)
Definition j_term (isnil : bool) (d : SrTermIdentity) := j_struct
  [("TID", o_N (ti_TID d)); ("MNE", o_str (ti_MNE d)); ("BSE", o_str (ti_BSE d)); ("NIDE", o_str (ti_NIDE d));
   ("SSRA", o_str (ti_SSRA d)); ("LNGCE", o_str (ti_LNGCE d)); ("IMSIE", o_str (ti_IMSIE d)); ("IMEIE", o_str (ti_IMEIE d));
   ("HDIDE", o_str (ti_HDIDE d)); ("HDID", o_N (ti_HDID d)); ("IMEI", o_str (ti_IMEI d)); ("IMSI", o_str (ti_IMSI d));
   ("LNGC", o_str (ti_LNGC d)); ("NID", o_bytes isnil (ti_NID d)); ("BS", o_N (ti_BS d)); ("MSISDN", o_str (ti_MSISDN d))]%string.
(** egts_sr_module_data.go:12-23 *)
Definition j_module (d : SrModuleData) := j_struct
  [("MT", o_Z (md_MT d)); ("VID", o_N (md_VID d)); ("FWV", o_N (md_FWV d)); ("SWV", o_N (md_SWV d)); ("MD", o_N (md_MD d));
   ("ST", o_N (md_ST d)); ("SRN", o_str (md_SRN d)); ("DSCR", o_str (md_DSCR d))]%string.
(** egts_sr_dispatcher_identity.go:12-16 *)
Definition j_dispatcher (d : SrDispatcherIdentity) := j_struct
  [("DT", o_N (di_DT d)); ("DID", o_N (di_DID d)); ("DSCR", o_str (di_DSCR d))]%string.
(** egts_sr_auth_info.go:12-16 *)
Definition j_auth (d : SrAuthInfo) := j_struct
  [("UNM", o_str (ai_UNM d)); ("UPSW", o_str (ai_UPSW d)); ("SS", o_str (ai_SS d))]%string.
(** egts_sr_result_code.go:10-12 *)
Definition j_result (d : SrResultCode) := j_struct [("RCD", o_N (rcd_ResultCode d))]%string.
(** egts_sr_pos_data.go:13-34 *)
Definition j_pos (d : SrPosData) := j_struct
  [("NTM", o_time (pd_NTM d)); ("LAT", o_float (pd_LAT d)); ("LONG", o_float (pd_LONG d)); ("ALTE", o_str (pd_ALTE d));
   ("LOHS", o_str (pd_LOHS d)); ("LAHS", o_str (pd_LAHS d)); ("MV", o_str (pd_MV d)); ("BB", o_str (pd_BB d));
   ("CS", o_str (pd_CS d)); ("FIX", o_str (pd_FIX d)); ("VLD", o_str (pd_VLD d)); ("DIRH", o_N (pd_DIRH d));
   ("ALTS", o_N (pd_ALTS d)); ("SPD", o_N (pd_SPD d)); ("DIR", o_N (pd_DIR d)); ("ODM", o_N (pd_ODM d));
   ("DIN", o_N (pd_DIN d)); ("SRC", o_N (pd_SRC d)); ("ALT", o_N (pd_ALT d)); ("SRCD", o_N 0)]%string.
(** egts_sr_ext_pos_data.go:12-23 *)
Definition j_ext (d : SrExtPosData) := j_struct
  [("NSFE", o_str (ep_NSFE d)); ("SFE", o_str (ep_SFE d)); ("PFE", o_str (ep_PFE d)); ("HFE", o_str (ep_HFE d));
   ("VFE", o_str (ep_VFE d)); ("VDOP", o_N (ep_VDOP d)); ("HDOP", o_N (ep_HDOP d)); ("PDOP", o_N (ep_PDOP d));
   ("SAT", o_N (ep_SAT d)); ("NS", o_N (ep_NS d))]%string.
(** egts_sr_ad_sensors_data.go:13-47 *)
Definition j_ad (d : SrAdSensorsData) := j_struct
  [("DIOE1", o_str (ad_DIOE1 d)); ("DIOE2", o_str (ad_DIOE2 d)); ("DIOE3", o_str (ad_DIOE3 d)); ("DIOE4", o_str (ad_DIOE4 d));
   ("DIOE5", o_str (ad_DIOE5 d)); ("DIOE6", o_str (ad_DIOE6 d)); ("DIOE7", o_str (ad_DIOE7 d)); ("DIOE8", o_str (ad_DIOE8 d));
   ("DOUT", o_N (ad_DOUT d));
   ("ASFE1", o_str (ad_ASFE1 d)); ("ASFE2", o_str (ad_ASFE2 d)); ("ASFE3", o_str (ad_ASFE3 d)); ("ASFE4", o_str (ad_ASFE4 d));
   ("ASFE5", o_str (ad_ASFE5 d)); ("ASFE6", o_str (ad_ASFE6 d)); ("ASFE7", o_str (ad_ASFE7 d)); ("ASFE8", o_str (ad_ASFE8 d));
   ("ADIO1", o_N (ad_ADIO1 d)); ("ADIO2", o_N (ad_ADIO2 d)); ("ADIO3", o_N (ad_ADIO3 d)); ("ADIO4", o_N (ad_ADIO4 d));
   ("ADIO5", o_N (ad_ADIO5 d)); ("ADIO6", o_N (ad_ADIO6 d)); ("ADIO7", o_N (ad_ADIO7 d)); ("ADIO8", o_N (ad_ADIO8 d));
   ("ANS1", o_N (ad_ANS1 d)); ("ANS2", o_N (ad_ANS2 d)); ("ANS3", o_N (ad_ANS3 d)); ("ANS4", o_N (ad_ANS4 d));
   ("ANS5", o_N (ad_ANS5 d)); ("ANS6", o_N (ad_ANS6 d)); ("ANS7", o_N (ad_ANS7 d)); ("ANS8", o_N (ad_ANS8 d))]%string.
(** egts_sr_counters_data.go:12-29 *)
Definition j_counters (d : SrCountersData) := j_struct
  [("CFE1", o_str (cd_CFE1 d)); ("CFE2", o_str (cd_CFE2 d)); ("CFE3", o_str (cd_CFE3 d)); ("CFE4", o_str (cd_CFE4 d));
   ("CFE5", o_str (cd_CFE5 d)); ("CFE6", o_str (cd_CFE6 d)); ("CFE7", o_str (cd_CFE7 d)); ("CFE8", o_str (cd_CFE8 d));
   ("CN1", o_N (cd_CN1 d)); ("CN2", o_N (cd_CN2 d)); ("CN3", o_N (cd_CN3 d)); ("CN4", o_N (cd_CN4 d));
   ("CN5", o_N (cd_CN5 d)); ("CN6", o_N (cd_CN6 d)); ("CN7", o_N (cd_CN7 d)); ("CN8", o_N (cd_CN8 d))]%string.
(** egts_sr_state_data.go:12-20 *)
Definition j_state (d : SrStateData) := j_struct
  [("ST", o_N (sd_ST d)); ("MPSV", o_N (sd_MPSV d)); ("BBV", o_N (sd_BBV d)); ("IBV", o_N (sd_IBV d));
   ("NMS", o_str (sd_NMS d)); ("IBU", o_str (sd_IBU d)); ("BBU", o_str (sd_BBU d))]%string.
(** egts_sr_abs_an_sensors_data.go:10-13 *)
Definition j_abs_an (d : SrAbsAnSensData) := j_struct [("SensorNumber", o_N (aa_SN d)); ("Value", o_N (aa_VAL d))]%string.
(** egts_sr_abs_cntr_data.go:12-15 *)
Definition j_abs_cntr (d : SrAbsCntrData) := j_struct [("CN", o_N (ac_CN d)); ("CNV", o_N (ac_CNV d))]%string.
(** egts_sr_liquid_level_sensor.go:12-19 *)
Definition j_liquid_level (d : SrLiquidLevelSensor) := j_struct
  [("LLSEF", o_str (ll_LLSEF d)); ("LLSVU", o_str (ll_LLSVU d)); ("RDF", o_str (ll_RDF d)); ("LLSN", o_N (ll_LLSN d));
   ("MADDR", o_N (ll_MADDR d)); ("LLSD", o_N (ll_LLSD d))]%string.

Definition j_sub (isnil : bool) (d : SubData) : option json :=
  match d with
  | DResponse d => j_response d
  | DTermIdentity d => j_term isnil d
  | DModuleData d => j_module d
  | DDispatcherIdentity d => j_dispatcher d
  | DAuthInfo d => j_auth d
  | DResultCode d => j_result d
  | DEgtsPlus d => j_plus d
  | DPosData d => j_pos d
  | DExtPosData d => j_ext d
  | DAdSensors d => j_ad d
  | DCounters d => j_counters d
  | DState d => j_state d
  | DAbsAnSens d => j_abs_an d
  | DAbsCntr d => j_abs_cntr d
  | DLiquid d => j_liquid_level d
  end.

(** Which of the slices without elements are nil: the set of records, the set of subrecords of the
    i-th record, the network identifier of the j-th subrecord there. *)
Record nils := mkNils { nil_sds : bool; nil_rd : nat -> bool; nil_nid : nat -> nat -> bool }.

(** record_data.go:12-16 *)
Definition j_record_data (isnil : bool) (r : RecordData) : option json := j_struct
  [("SRT", o_N (rd_SRT r)); ("SRL", o_N (rd_SRL r));
   ("SRD", match rd_SRD r with Some d => j_sub isnil d | None => Some JNull end)]%string.
(** service_data_records.go:15-31 *)
Definition j_sdr (ni : nils) (i : nat) (s : ServiceDataRecord) : option json := j_struct
  [("RL", o_N (s_RL s)); ("RN", o_N (s_RN s)); ("SSOD", o_str (s_SSOD s)); ("RSOD", o_str (s_RSOD s)); ("GRP", o_str (s_GRP s));
   ("RPP", o_str (s_RPP s)); ("TMFE", o_str (s_TMFE s)); ("EVFE", o_str (s_EVFE s)); ("OBFE", o_str (s_OBFE s));
   ("OID", o_N (s_OID s)); ("EVID", o_N (s_EVID s)); ("TM", o_time (s_TM s)); ("SST", o_N (s_SST s)); ("RST", o_N (s_RST s));
   ("RD", j_list (nil_rd ni i) (mapi (fun j => j_record_data (nil_nid ni i j)) 0 (s_RD s)))]%string.
Definition j_sds (ni : nils) (l : ServiceDataSet) : option json := j_list (nil_sds ni) (mapi (j_sdr ni) 0 l).
(** egts_pt_response.go:10-14 *)
Definition j_body (ni : nils) (b : Body) : option json :=
  match b with
  | BSds l => j_sds ni l
  | BResp r => j_struct
      [("RPID", o_N (pr_RPID r)); ("PR", o_N (pr_PR r));
       ("SDR", match pr_SDR r with Some l => j_sds ni l | None => Some JNull end)]%string
  end.
(** egts_pkg.go:16-35 *)
Definition j_package (ni : nils) (p : Package) : option json := j_struct
  [("PRV", o_N (p_PRV p)); ("SKID", o_N (p_SKID p)); ("PRF", o_str (p_PRF p)); ("RTE", o_str (p_RTE p)); ("ENA", o_str (p_ENA p));
   ("CMP", o_str (p_CMP p)); ("PR", o_str (p_PR p)); ("HL", o_N (p_HL p)); ("HE", o_N (p_HE p)); ("FDL", o_N (p_FDL p));
   ("PID", o_N (p_PID p)); ("PT", o_N (p_PT p)); ("PRA", o_N (p_PRA p)); ("RCA", o_N (p_RCA p)); ("TTL", o_N (p_TTL p));
   ("HCS", o_N (p_HCS p));
   ("SFRD", match p_SFRD p with Some b => j_body ni b | None => Some JNull end); ("SFRCS", o_N (p_SFRCS p))]%string.

(** egts_pkg.go:275-278 *)
Definition Package_ToBytes (ni : nils) (p : Package) : option bytes := option_map pr (j_package ni p).
End Pkg.

(** The generated methods of the EGTS+ messages: getters, and the names of the reasons for a
    record (libs/egts/egts_sr_egtsplus_data.go).  A message is as in Protobuf.v: for every field
    of its descriptor the list of its values. *)
From Coq Require Import NArith ZArith String List.
From Verif Require Import GoBase NumText Protobuf.
Import ListNotations.
Local Open Scope string_scope.
Open Scope N_scope.

(** ** Getters *)
(** A field of a Go structure: its name and the number in its protobuf tag. *)
Definition tags : Type := list (string * N).
(** A method, the field it returns and what it returns when that is nil: the zero of its type,
    or nil. *)
Record getter := mkGetter { g_name : string; g_field : string; g_zero : option value }.

Section Get.
Context {K V : Type}.
Variable inj : value -> V.

Fixpoint values_at (d : list (field K)) (vals : list (list V)) (num : N) : list V :=
  match d, vals with
  | f :: d', vs :: vals' => if f_num f =? num then vs else values_at d' vals' num
  | _, _ => []
  end.

Definition go_field (d : list (field K)) (ts : tags) (m : message V) (name : string) : list V :=
  match find (fun t => if string_dec (fst t) name then true else false) ts with
  | Some t => values_at d (m_vals m) (snd t)
  | None => []
  end.

Definition zero_value (g : getter) : list V := match g_zero g with Some v => [inj v] | None => [] end.

(** if m != nil && m.Field != nil { return *m.Field }; return 0, and without the pointer for
    slices; e.g. lines 266-271. *)
Definition run_getter (d : list (field K)) (ts : tags) (g : getter) (m : option (message V)) : list V :=
  match m with
  | Some m => match go_field d ts m (g_field g) with [] => zero_value g | vs => vs end
  | None => zero_value g
  end.

(** Calling a method by its name; there may be none. *)
Definition call_getter (d : list (field K)) (ts : tags) (gs : list getter) (name : string) (m : option (message V))
  : option (list V) :=
  option_map (fun g => run_getter d ts g m)
    (find (fun g => if string_dec (g_name g) name then true else false) gs).

(** Reset, e.g. line 261: *m = T{}; every field nil, no unknown bytes. *)
Definition reset (d : list (field K)) (m : message V) : message V := mkMessage (map (fun _ => []) d) [].
End Get.

Definition z32 : option value := Some (VU 0).
Definition zi32 : option value := Some (VI 0).
Definition zbool : option value := Some (VB false).

(** StorageRecord, lines 193-239 and 266-418 *)
Definition t_storage : tags :=
  [("RecordNumber", 1); ("TimeStamp", 2); ("RecordReason", 3); ("StatusFlags", 4);
   ("SensAccelerometerData", 18); ("SensAinAinValue", 9); ("SensBufferData", 20); ("SensButtonPressCounter", 14);
   ("SensCanLogData", 16); ("SensCanLogTmpDataExt", 17); ("SensCounterCount", 11); ("SensCrashData", 24);
   ("SensDinsFlags", 10); ("SensDoutsFlags", 19); ("SensFmeterFrequency", 12); ("SensFuelLevel", 8);
   ("SensGsmCellMonotoringCellMonitoring", 13); ("SensNdNavData", 7); ("SensStorInfo", 21); ("SensTermoData", 15);
   ("SensTestEraTests", 23); ("SensTrackerInfo", 22)].
Definition g_storage : list getter :=
  [mkGetter "GetRecordNumber" "RecordNumber" z32;
   mkGetter "GetTimeStamp" "TimeStamp" z32; mkGetter "GetRecordReason" "RecordReason" None;
   mkGetter "GetStatusFlags" "StatusFlags" z32; mkGetter "GetSensAccelerometerData" "SensAccelerometerData" None;
   mkGetter "GetSensAinAinValue" "SensAinAinValue" None; mkGetter "GetSensBufferData" "SensBufferData" None;
   mkGetter "GetSensButtonPressCounter" "SensButtonPressCounter" None;
   mkGetter "GetSensCanLogData" "SensCanLogData" None;
   mkGetter "GetSensCanLogTmpDataExt" "SensCanLogTmpDataExt" None;
   mkGetter "GetSensCounterCount" "SensCounterCount" None; mkGetter "GetSensCrashData" "SensCrashData" None;
   mkGetter "GetSensDinsFlags" "SensDinsFlags" None; mkGetter "GetSensDoutsFlags" "SensDoutsFlags" None;
   mkGetter "GetSensFmeterFrequency" "SensFmeterFrequency" None; mkGetter "GetSensFuelLevel" "SensFuelLevel" None;
   mkGetter "GetSensGsmCellMonotoringCellMonitoring" "SensGsmCellMonotoringCellMonitoring" None;
   mkGetter "GetSensNdNavData" "SensNdNavData" None; mkGetter "GetSensStorInfo" "SensStorInfo" None;
   mkGetter "GetSensTermoData" "SensTermoData" None; mkGetter "GetSensTestEraTests" "SensTestEraTests" None;
   mkGetter "GetSensTrackerInfo" "SensTrackerInfo" None].
(** SensAccelerometerData, lines 421-430 and 437-484 *)
Definition t_accelerometer : tags :=
  [("SensNum", 1); ("Buf", 2); ("Atm", 3); ("Frequency", 4); ("Range", 5);
   ("Format", 6); ("Zlib", 7)].
Definition g_accelerometer : list getter :=
  [mkGetter "GetSensNum" "SensNum" z32; mkGetter "GetBuf" "Buf" None;
   mkGetter "GetAtm" "Atm" z32; mkGetter "GetFrequency" "Frequency" z32; mkGetter "GetRange" "Range" z32;
   mkGetter "GetFormat" "Format" z32; mkGetter "GetZlib" "Zlib" z32].
(** SensAinAinValue, lines 487-491 and 498-510 *)
Definition t_ain : tags :=
  [("SensNum", 1); ("Mv", 2)].
Definition g_ain : list getter :=
  [mkGetter "GetSensNum" "SensNum" z32; mkGetter "GetMv" "Mv" z32].
(** SensBufferData, lines 513-518 and 525-544 *)
Definition t_buffer : tags :=
  [("SensNum", 1); ("Data", 2); ("IsPacked", 3)].
Definition g_buffer : list getter :=
  [mkGetter "GetSensNum" "SensNum" z32; mkGetter "GetData" "Data" None;
   mkGetter "GetIsPacked" "IsPacked" zbool].
(** SensButtonPressCounter, lines 547-551 and 558-570 *)
Definition t_button : tags :=
  [("SensNum", 1); ("State", 2)].
Definition g_button : list getter :=
  [mkGetter "GetSensNum" "SensNum" z32; mkGetter "GetState" "State" zbool].
(** SensCanLogData, lines 573-590 and 597-700 *)
Definition t_canlog : tags :=
  [("SensNum", 1); ("FlagSecurityState", 2); ("FlagAlarm", 3); ("EngineTimeAll", 4);
   ("EngineTurnSpeed", 5); ("EngineTemperature", 6); ("FuelConsumptionAll", 7); ("FuelLevel", 8); ("TrackAll", 9);
   ("Speed", 10); ("PressureAxis_1", 11); ("PressureAxis_2", 12); ("PressureAxis_3", 13); ("PressureAxis_4", 14);
   ("PressureAxis_5", 15)].
Definition g_canlog : list getter :=
  [mkGetter "GetSensNum" "SensNum" z32;
   mkGetter "GetFlagSecurityState" "FlagSecurityState" z32; mkGetter "GetFlagAlarm" "FlagAlarm" z32;
   mkGetter "GetEngineTimeAll" "EngineTimeAll" z32; mkGetter "GetEngineTurnSpeed" "EngineTurnSpeed" z32;
   mkGetter "GetEngineTemperature" "EngineTemperature" zi32;
   mkGetter "GetFuelConsumptionAll" "FuelConsumptionAll" z32; mkGetter "GetFuelLevel" "FuelLevel" z32;
   mkGetter "GetTrackAll" "TrackAll" z32; mkGetter "GetSpeed" "Speed" z32;
   mkGetter "GetPressureAxis_1" "PressureAxis_1" z32; mkGetter "GetPressureAxis_2" "PressureAxis_2" z32;
   mkGetter "GetPressureAxis_3" "PressureAxis_3" z32; mkGetter "GetPressureAxis_4" "PressureAxis_4" z32;
   mkGetter "GetPressureAxis_5" "PressureAxis_5" z32].
(** SensCanLogTmpDataExt, lines 703-708 and 715-734 *)
Definition t_canlog_ext : tags :=
  [("SensNum", 1); ("FlagsHigh", 2); ("FlagsLow", 3)].
Definition g_canlog_ext : list getter :=
  [mkGetter "GetSensNum" "SensNum" z32;
   mkGetter "GetFlagsHigh" "FlagsHigh" z32; mkGetter "GetFlagsLow" "FlagsLow" z32].
(** SensCounterCount, lines 737-741 and 748-760 *)
Definition t_counter : tags :=
  [("SensNum", 1); ("Value", 2)].
Definition g_counter : list getter :=
  [mkGetter "GetSensNum" "SensNum" z32; mkGetter "GetValue" "Value" z32].
(** SensCrashData, lines 763-768 and 775-794 *)
Definition t_crash : tags :=
  [("SensNum", 1); ("Energy", 2); ("IsOverturned", 3)].
Definition g_crash : list getter :=
  [mkGetter "GetSensNum" "SensNum" z32; mkGetter "GetEnergy" "Energy" z32;
   mkGetter "GetIsOverturned" "IsOverturned" zbool].
(** SensDinsFlags, lines 797-802 and 809-828 *)
Definition t_dins : tags :=
  [("SensNum", 1); ("Device", 2); ("External", 3)].
Definition g_dins : list getter :=
  [mkGetter "GetSensNum" "SensNum" z32; mkGetter "GetDevice" "Device" z32;
   mkGetter "GetExternal" "External" z32].
(** SensDoutsFlags, lines 831-836 and 843-862 *)
Definition t_douts : tags :=
  [("SensNum", 1); ("Device", 2); ("External", 3)].
Definition g_douts : list getter :=
  [mkGetter "GetSensNum" "SensNum" z32; mkGetter "GetDevice" "Device" z32;
   mkGetter "GetExternal" "External" z32].
(** SensFmeterFrequency, lines 865-869 and 876-888 *)
Definition t_fmeter : tags :=
  [("SensNum", 1); ("Value", 2)].
Definition g_fmeter : list getter :=
  [mkGetter "GetSensNum" "SensNum" z32; mkGetter "GetValue" "Value" z32].
(** SensFuelLevel, lines 891-899 and 906-946 *)
Definition t_fuel : tags :=
  [("SensNum", 1); ("Value", 2); ("Parrots", 3); ("Unit", 4); ("T", 5); ("Status", 6)].
Definition g_fuel : list getter :=
  [mkGetter "GetSensNum" "SensNum" z32; mkGetter "GetValue" "Value" z32;
   mkGetter "GetParrots" "Parrots" z32; mkGetter "GetUnit" "Unit" z32; mkGetter "GetT" "T" z32;
   mkGetter "GetStatus" "Status" z32].
(** SensGsmCellMonotoringCellMonitoring, lines 949-958 and 967-1014 *)
Definition t_gsm : tags :=
  [("SensNum", 1); ("Lac", 4); ("Cid", 5); ("Rssi", 6); ("TimeAdv", 7); ("Mcc", 2);
   ("Mnc", 3)].
Definition g_gsm : list getter :=
  [mkGetter "GetSensNum" "SensNum" z32; mkGetter "GetLac" "Lac" None;
   mkGetter "GetCid" "Cid" None; mkGetter "GetRssi" "Rssi" None; mkGetter "GetTimeAdv" "TimeAdv" None;
   mkGetter "GetMcc" "Mcc" z32; mkGetter "GetMnc" "Mnc" z32].
(** SensNdNavData, lines 1017-1029 and 1036-1104 *)
Definition t_nav : tags :=
  [("SensNum", 1); ("Longitude", 2); ("Latitude", 3); ("Altitude", 4); ("Speed", 5);
   ("Course", 6); ("SatCount", 7); ("Pdop", 8); ("Track", 9); ("Odometer", 10)].
Definition g_nav : list getter :=
  [mkGetter "GetSensNum" "SensNum" z32; mkGetter "GetLongitude" "Longitude" z32;
   mkGetter "GetLatitude" "Latitude" z32; mkGetter "GetAltitude" "Altitude" z32; mkGetter "GetSpeed" "Speed" z32;
   mkGetter "GetCourse" "Course" z32; mkGetter "GetSatCount" "SatCount" z32; mkGetter "GetPdop" "Pdop" z32;
   mkGetter "GetTrack" "Track" z32; mkGetter "GetOdometer" "Odometer" z32].
(** SensStorInfo, lines 1107-1116 and 1123-1170 *)
Definition t_stor : tags :=
  [("SensNum", 1); ("IdMax", 2); ("IdMin", 3); ("TmOldest", 4); ("TmOldestUnack", 5);
   ("CntUnack", 6); ("CntUnackLosted", 7)].
Definition g_stor : list getter :=
  [mkGetter "GetSensNum" "SensNum" z32; mkGetter "GetIdMax" "IdMax" z32;
   mkGetter "GetIdMin" "IdMin" z32; mkGetter "GetTmOldest" "TmOldest" z32;
   mkGetter "GetTmOldestUnack" "TmOldestUnack" z32; mkGetter "GetCntUnack" "CntUnack" z32;
   mkGetter "GetCntUnackLosted" "CntUnackLosted" z32].
(** SensTermoData, lines 1173-1178 and 1185-1204 *)
Definition t_termo : tags :=
  [("SensNum", 1); ("Status", 2); ("Temperature", 3)].
Definition g_termo : list getter :=
  [mkGetter "GetSensNum" "SensNum" z32; mkGetter "GetStatus" "Status" z32;
   mkGetter "GetTemperature" "Temperature" zi32].
(** SensTestEraTests, lines 1207-1220 and 1227-1302 *)
Definition t_era : tags :=
  [("SensNum", 1); ("MicConFailure", 2); ("MicFailure", 3); ("IgnitionFailure", 4);
   ("UimFailure", 5); ("BatFailure", 6); ("BatVoltLow", 7); ("CrashSensFailure", 8); ("RaimProblem", 9);
   ("GnssAntennaFailure", 10); ("EventsMemoryOverflow", 11)].
Definition g_era : list getter :=
  [mkGetter "GetSensNum" "SensNum" z32;
   mkGetter "GetMicConFailure" "MicConFailure" zbool; mkGetter "GetMicFailure" "MicFailure" zbool;
   mkGetter "GetIgnitionFailure" "IgnitionFailure" zbool; mkGetter "GetUimFailure" "UimFailure" zbool;
   mkGetter "GetBatFailure" "BatFailure" zbool; mkGetter "GetBatVoltLow" "BatVoltLow" zbool;
   mkGetter "GetCrashSensFailure" "CrashSensFailure" zbool; mkGetter "GetRaimProblem" "RaimProblem" zbool;
   mkGetter "GetGnssAntennaFailure" "GnssAntennaFailure" zbool;
   mkGetter "GetEventsMemoryOverflow" "EventsMemoryOverflow" zbool].
(** SensTrackerInfo, lines 1305-1312 and 1319-1352 *)
Definition t_tracker : tags :=
  [("SensNum", 1); ("CntAck", 2); ("CntAckRealtime", 3); ("CntNoack", 4);
   ("CntConnect", 5)].
Definition g_tracker : list getter :=
  [mkGetter "GetSensNum" "SensNum" z32; mkGetter "GetCntAck" "CntAck" z32;
   mkGetter "GetCntAckRealtime" "CntAckRealtime" z32; mkGetter "GetCntNoack" "CntNoack" z32;
   mkGetter "GetCntConnect" "CntConnect" z32].

(** ** Reasons *)
(** StorageRecordReason_name, lines 92-132 *)
Definition reason_name : list (Z * string) :=
  [(1, "DEVICE_RESET"); (2, "PROFILE_CHANGE"); (3, "IGNITION_ON");
   (4, "IGNITION_OFF"); (5, "TRIP_BEGIN"); (6, "TRIP_END"); (7, "STOP"); (8, "MOVE"); (9, "TOWING_BEGIN");
   (10, "TOWING_END"); (11, "TIMER_MOVE"); (12, "TIMER_STOP"); (13, "ANGLE"); (14, "DISTANCE"); (15, "SOS_BUTTON");
   (16, "SERVICE_BUTTON"); (17, "TAMPER"); (18, "ANTENNA_SWITCH"); (19, "GSM_LOST"); (20, "GSM_RECONNECT");
   (21, "GNSS_LOST"); (22, "GNSS_REAQUISITION"); (23, "JAMMER_GSM"); (24, "JAMMER_GNSS"); (25, "OVER_SPEED");
   (26, "OVER_RPM"); (27, "OVER_TEMPERATURE"); (28, "DANGEROUS_DRIVING"); (29, "ACCIDENT"); (30, "OVERTHROW");
   (31, "ON_BATTERY"); (32, "BATTERY_DISCHARGE"); (33, "RADIO_TAG_REG"); (34, "RADIO_TAG_UNREG");
   (35, "MOVE_WITHOUT_RADIO_TAG"); (36, "ECU_ERROR_CODE"); (37, "EXTERNAL_REQUEST"); (38, "DEVICE_TEST");
   (99, "OTHER_REASON")]%Z.
(** StorageRecordReason_value, lines 133-173 *)
Definition reason_value : list (string * Z) :=
  [("DEVICE_RESET", 1); ("PROFILE_CHANGE", 2); ("IGNITION_ON", 3);
   ("IGNITION_OFF", 4); ("TRIP_BEGIN", 5); ("TRIP_END", 6); ("STOP", 7); ("MOVE", 8); ("TOWING_BEGIN", 9);
   ("TOWING_END", 10); ("TIMER_MOVE", 11); ("TIMER_STOP", 12); ("ANGLE", 13); ("DISTANCE", 14); ("SOS_BUTTON", 15);
   ("SERVICE_BUTTON", 16); ("TAMPER", 17); ("ANTENNA_SWITCH", 18); ("GSM_LOST", 19); ("GSM_RECONNECT", 20);
   ("GNSS_LOST", 21); ("GNSS_REAQUISITION", 22); ("JAMMER_GSM", 23); ("JAMMER_GNSS", 24); ("OVER_SPEED", 25);
   ("OVER_RPM", 26); ("OVER_TEMPERATURE", 27); ("DANGEROUS_DRIVING", 28); ("ACCIDENT", 29); ("OVERTHROW", 30);
   ("ON_BATTERY", 31); ("BATTERY_DISCHARGE", 32); ("RADIO_TAG_REG", 33); ("RADIO_TAG_UNREG", 34);
   ("MOVE_WITHOUT_RADIO_TAG", 35); ("ECU_ERROR_CODE", 36); ("EXTERNAL_REQUEST", 37); ("DEVICE_TEST", 38);
   ("OTHER_REASON", 99)]%Z.

(** proto.EnumName: the name, or the number in decimal; String, lines 180-182. *)
Definition reason_string (v : Z) : bytes :=
  match find (fun e => Z.eqb (fst e) v) reason_name with
  | Some e => bytes_of_string (snd e)
  | None => dec_Z v
  end.

(** proto.UnmarshalJSONEnum and UnmarshalJSON, lines 183-190.  [js] and [ji] stand for
    json.Unmarshal into a string and into an int32; the result is that of the method and the
    value it leaves in the variable, which was [old].  An empty slice is indexed: panic. *)
Inductive reading := RdOk (v : Z) | RdErr (v : Z) | RdPanic.
Definition reason_unmarshal (js : bytes -> option bytes) (ji : bytes -> option Z) (old : Z) (data : bytes) : reading :=
  match data with
  | [] => RdPanic
  | c :: _ =>
      if c =? 34 then
        match js data with
        | None => RdErr old
        | Some s =>
            match find (fun e => if list_eq_dec N.eq_dec (bytes_of_string (fst e)) s then true else false) reason_value with
            | Some e => RdOk (snd e)
            | None => RdErr old
            end
        end
      else match ji data with Some v => RdOk v | None => RdErr old end
  end.

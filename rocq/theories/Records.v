(** Model of libs/egts/record_data.go, service_data_records.go, egts_sr_response.go
    (Decode) and egts_pt_response.go.  Definitions only. *)
From Coq Require Import NArith ZArith String List Bool.
From Verif Require Import GoBase GoFloat SubRecords.
Import ListNotations.
Open Scope N_scope.
Open Scope go_scope.

(** Subrecord type codes, const_types.go:3-58 and :72-73. *)
Definition SrRecordResponseType : N := 0.
Definition SrTermIdentityType : N := 1.
Definition SrModuleDataType : N := 2.
Definition SrDispatcherIdentityType : N := 5.
Definition SrAuthInfoType : N := 7.
Definition SrResultCodeType : N := 9.
Definition SrEgtsPlusDataType : N := 15.
Definition SrPosDataType : N := 16.
Definition SrExtPosDataType : N := 17.
Definition SrAdSensorsDataType : N := 18.
Definition SrCountersDataType : N := 19.
Definition SrType20 : N := 20.
Definition SrStateDataType : N := 21.
Definition SrAbsAnSensDataType : N := 24.
Definition SrAbsCntrDataType : N := 25.
Definition SrLiquidLevelSensorType : N := 27.

Section WithEnv.
Context {E : Env}.

(** The dynamic types a [BinaryData] (binary_data.go:4-8) subrecord can have.  User
    implementations of the interface are not modelled. *)
Inductive SubData : Type :=
| DResponse (d : SrResponse)
| DTermIdentity (d : SrTermIdentity)
| DModuleData (d : SrModuleData)
| DDispatcherIdentity (d : SrDispatcherIdentity)
| DAuthInfo (d : SrAuthInfo)
| DResultCode (d : SrResultCode)
| DEgtsPlus (d : StorageRecord)
| DPosData (d : SrPosData)
| DExtPosData (d : SrExtPosData)
| DAdSensors (d : SrAdSensorsData)
| DCounters (d : SrCountersData)
| DState (d : SrStateData)
| DAbsAnSens (d : SrAbsAnSensData)
| DAbsCntr (d : SrAbsCntrData)
| DLiquid (d : SrLiquidLevelSensor).

(** RecordData, record_data.go:12-16.  [None] is a nil interface. *)
Record RecordData := mkRecordData {
  rd_SRT : N;
  rd_SRL : N;
  rd_SRD : option SubData
}.

(** RecordDataSet, record_data.go:19 *)
Definition RecordDataSet := list RecordData.

(** ServiceDataRecord, service_data_records.go:15-31 *)
Record ServiceDataRecord := mkSDR {
  s_RL : N;
  s_RN : N;
  s_SSOD : string;
  s_RSOD : string;
  s_GRP : string;
  s_RPP : string;
  s_TMFE : string;
  s_EVFE : string;
  s_OBFE : string;
  s_OID : N;
  s_EVID : N;
  s_TM : time;
  s_SST : N;
  s_RST : N;
  s_RD : RecordDataSet
}.

(** ServiceDataSet, service_data_records.go:34 *)
Definition ServiceDataSet := list ServiceDataRecord.

(** PtResponse, egts_pt_response.go:10-14.  The SDR field has interface type; only nil
    and ServiceDataSet values (what Decode produces) are modelled. *)
Record PtResponse := mkPtResponse {
  pr_RPID : N;
  pr_PR : N;
  pr_SDR : option ServiceDataSet
}.

(** Dynamic dispatch of Encode. *)
Definition sub_encode (d : SubData) : res bytes :=
  match d with
  | DResponse d => SrResponse_encode d
  | DTermIdentity d => SrTermIdentity_encode d
  | DModuleData d => SrModuleData_encode d
  | DDispatcherIdentity d => SrDispatcherIdentity_encode d
  | DAuthInfo d => SrAuthInfo_encode d
  | DResultCode d => SrResultCode_encode d
  | DEgtsPlus d => StorageRecord_encode d
  | DPosData d => SrPosData_encode d
  | DExtPosData d => SrExtPosData_encode d
  | DAdSensors d => SrAdSensorsData_encode d
  | DCounters d => SrCountersData_encode d
  | DState d => SrStateData_encode d
  | DAbsAnSens d => SrAbsAnSensData_encode d
  | DAbsCntr d => SrAbsCntrData_encode d
  | DLiquid d => SrLiquidLevelSensor_encode d
  end.

(** Dynamic dispatch of Length: every type encodes and takes the length modulo 65536,
    except SrAbsAnSensData (egts_sr_abs_an_sensors_data.go:36-38), which returns 4. *)
Definition sub_length (d : SubData) : res N :=
  match d with
  | DAbsAnSens _ => Ok 4
  | _ => length_of (sub_encode d)
  end.

(** The type switch of RecordDataSet.Encode, record_data.go:104-135; [None] is the error
    of line 133. *)
Definition auto_type (d : option SubData) : option N :=
  match d with
  | Some (DPosData _) => Some SrPosDataType
  | Some (DTermIdentity _) => Some SrTermIdentityType
  | Some (DResponse _) => Some SrRecordResponseType
  | Some (DResultCode _) => Some SrResultCodeType
  | Some (DExtPosData _) => Some SrExtPosDataType
  | Some (DAdSensors _) => Some SrAdSensorsDataType
  | Some (DState _) => Some SrStateDataType
  | Some (DLiquid _) => Some SrLiquidLevelSensorType
  | Some (DAbsCntr _) => Some SrAbsCntrDataType
  | Some (DAuthInfo _) => Some SrAuthInfoType
  | Some (DCounters _) => Some SrCountersDataType
  | Some (DEgtsPlus _) => Some SrEgtsPlusDataType
  | Some (DAbsAnSens _) => Some SrAbsAnSensDataType
  | Some (DModuleData _) | Some (DDispatcherIdentity _) | None => None
  end.

(** Loop body of RecordDataSet.Encode, record_data.go:103-153.  A nil SubrecordData with an
    explicit type is dereferenced (line 142 or 148) and panics. *)
Definition rd_encode (r : RecordData) : res bytes :=
  do srt <- (if rd_SRT r =? 0
             then match auto_type (rd_SRD r) with Some t => Ok t | None => Err end
             else Ok (rd_SRT r)) ;;
  match rd_SRD r with
  | None => Panic
  | Some d =>
      do srl <- (if rd_SRL r =? 0 then sub_length d else Ok (rd_SRL r)) ;;
      do srd <- sub_encode d ;;
      Ok ([srt] ++ le_bytes 2 srl ++ srd)%list
  end.

(** RecordDataSet.Encode, record_data.go:96-158 *)
Fixpoint rds_encode (l : RecordDataSet) : res bytes :=
  match l with
  | [] => Ok []
  | r :: l' =>
      do b <- rd_encode r ;;
      do b' <- rds_encode l' ;;
      Ok (b ++ b')%list
  end.

(** RecordDataSet.Length, record_data.go:161-171 *)
Definition rds_length (l : RecordDataSet) : res N := length_of (rds_encode l).

(** uint32(sdr.Time.Unix() - timeOffset.Unix()), service_data_records.go:171 *)
Definition tm_encode (t : time) : N := u32_of_Z (t_unix t - t_unix t2010).

(** Loop body of ServiceDataSet.Encode, service_data_records.go:131-186 *)
Definition sdr_encode (s : ServiceDataRecord) : res bytes :=
  do rdb <- rds_encode (s_RD s) ;;
  let rl := if s_RL s =? 0 then u16 (len rdb) else s_RL s in
  do flags <- parse_flags (s_SSOD s ++ s_RSOD s ++ s_GRP s ++ s_RPP s ++ s_TMFE s ++ s_EVFE s ++ s_OBFE s) ;;
  Ok (le_bytes 2 rl ++ le_bytes 2 (s_RN s) ++ [u8 flags]
      ++ put (is1 (s_OBFE s)) (le_bytes 4 (s_OID s))
      ++ put (is1 (s_EVFE s)) (le_bytes 4 (s_EVID s))
      ++ put (is1 (s_TMFE s)) (le_bytes 4 (tm_encode (s_TM s)))
      ++ [s_SST s] ++ [s_RST s] ++ rdb)%list.

(** ServiceDataSet.Encode, service_data_records.go:123-191 *)
Fixpoint sds_encode (l : ServiceDataSet) : res bytes :=
  match l with
  | [] => Ok []
  | s :: l' =>
      do b <- sdr_encode s ;;
      do b' <- sds_encode l' ;;
      Ok (b ++ b')%list
  end.

(** ServiceDataSet.Length, service_data_records.go:194-204 *)
Definition sds_length (l : ServiceDataSet) : res N := length_of (sds_encode l).

(** PtResponse.Encode, egts_pt_response.go:45-70 *)
Definition PtResponse_encode (p : PtResponse) : res bytes :=
  do b <- match pr_SDR p with Some s => sds_encode s | None => Ok [] end ;;
  Ok (le_bytes 2 (pr_RPID p) ++ [pr_PR p] ++ b)%list.

(** PtResponse.Length, egts_pt_response.go:73-83 *)
Definition PtResponse_length (p : PtResponse) : res N := length_of (PtResponse_encode p).

(** ** Decoding.  [rec] is ServiceDataSet.Decode on a fresh set, tied up below. *)

(** SrResponse.Decode, egts_sr_response.go:17-38.  The records decoded from the trailing
    bytes (lines 33-36) are dropped, only their error matters. *)
Definition SrResponse_decode (rec : bytes -> res ServiceDataSet) (content : bytes) : res SrResponse :=
  rd crn, r <- rd_num 2 content ;;
  rd rst, r <- rd_byte r ;;
  do _ <- rec r ;;
  Ok (mkSrResponse crn rst).

(** The switch of RecordDataSet.Decode, record_data.go:41-87: [None] means the type is
    unknown and the subrecord is skipped (lines 80-82). *)
Definition sub_decode (rec : bytes -> res ServiceDataSet) (srt srl : N) (b : bytes) : option (res SubData) :=
  if srt =? SrPosDataType then Some (do d <- SrPosData_decode SrPosData_zero b ;; Ok (DPosData d))
  else if srt =? SrTermIdentityType then Some (do d <- SrTermIdentity_decode SrTermIdentity_zero b ;; Ok (DTermIdentity d))
  else if srt =? SrModuleDataType then Some (do d <- SrModuleData_decode b ;; Ok (DModuleData d))
  else if srt =? SrRecordResponseType then Some (do d <- SrResponse_decode rec b ;; Ok (DResponse d))
  else if srt =? SrResultCodeType then Some (do d <- SrResultCode_decode b ;; Ok (DResultCode d))
  else if srt =? SrExtPosDataType then Some (do d <- SrExtPosData_decode SrExtPosData_zero b ;; Ok (DExtPosData d))
  else if srt =? SrAdSensorsDataType then Some (do d <- SrAdSensorsData_decode SrAdSensorsData_zero b ;; Ok (DAdSensors d))
  else if srt =? SrType20 then
    (if srl =? 5 then Some (do d <- SrStateData_decode b ;; Ok (DState d)) else Some Err)
  else if srt =? SrStateDataType then Some (do d <- SrStateData_decode b ;; Ok (DState d))
  else if srt =? SrLiquidLevelSensorType then Some (do d <- SrLiquidLevelSensor_decode b ;; Ok (DLiquid d))
  else if srt =? SrAbsCntrDataType then Some (do d <- SrAbsCntrData_decode b ;; Ok (DAbsCntr d))
  else if srt =? SrAuthInfoType then Some (do d <- SrAuthInfo_decode SrAuthInfo_zero b ;; Ok (DAuthInfo d))
  else if srt =? SrCountersDataType then Some (do d <- SrCountersData_decode SrCountersData_zero b ;; Ok (DCounters d))
  else if srt =? SrEgtsPlusDataType then Some (do d <- StorageRecord_decode b ;; Ok (DEgtsPlus d))
  else if srt =? SrAbsAnSensDataType then Some (do d <- SrAbsAnSensData_decode b ;; Ok (DAbsAnSens d))
  else if srt =? SrDispatcherIdentityType then Some (do d <- SrDispatcherIdentity_decode b ;; Ok (DDispatcherIdentity d))
  else None.

(** The loop of RecordDataSet.Decode, record_data.go:27-90; returns the appended
    subrecords.  [n] bounds the number of iterations.  buf.Next (line 39) returns at most
    what is left. *)
Fixpoint rds_loop (rec : bytes -> res ServiceDataSet) (n : nat) (buf : bytes) : res RecordDataSet :=
  match buf with
  | [] => Ok []
  | srt :: r =>
      match n with
      | O => Fuel
      | S n' =>
          rd srl, r <- rd_num 2 r ;;
          let b := firstn (N.to_nat srl) r in
          let r' := skipn (N.to_nat srl) r in
          match sub_decode rec srt srl b with
          | None => rds_loop rec n' r'
          | Some d =>
              do d <- d ;;
              do l <- rds_loop rec n' r' ;;
              Ok (mkRecordData srt srl (Some d) :: l)
          end
      end
  end.

(** RecordDataSet.Decode on a fresh set, record_data.go:22-93 *)
Definition rds_decode_with (rec : bytes -> res ServiceDataSet) (b : bytes) : res RecordDataSet :=
  rds_loop rec (length b) b.

(** The loop of ServiceDataSet.Decode, service_data_records.go:45-118; returns the appended
    records.  The two-byte buffer of lines 47-56 is shared by the two reads.  rdsBytes is
    zero-filled when fewer than RecordLength bytes are left (lines 106-107). *)
Fixpoint sds_loop (rec : bytes -> res ServiceDataSet) (n : nat) (buf : bytes) : res ServiceDataSet :=
  match buf with
  | [] => Ok []
  | _ :: _ =>
      match n with
      | O => Fuel
      | S n' =>
          rd (rl, tmp), r <- rd_num_tmp (zeros 2) buf ;;
          rd (rn, tmp), r <- rd_num_tmp tmp r ;;
          rd flags, r <- rd_byte r ;;
          let fb := sprintf_b 8 flags in
          let ssod := slice 0 1 fb in
          let rsod := slice 1 2 fb in
          let grp := slice 2 3 fb in
          let rpp := slice 3 5 fb in
          let tmfe := slice 5 6 fb in
          let evfe := slice 6 7 fb in
          let obfe := slice 7 8 fb in
          rd oid, r <- opt_rd (is1 obfe) 0 (rd_num 4) r ;;
          rd evid, r <- opt_rd (is1 evfe) 0 (rd_num 4) r ;;
          rd tm, r <- opt_rd (is1 tmfe) t_zero
                       (fun r => match rd_num 4 r with
                                 | Some (n, r) => Some (time_decode n, r)
                                 | None => None
                                 end) r ;;
          rd sst, r <- rd_byte r ;;
          rd rst, r <- rd_byte r ;;
          do (rds, r) <-
            (if len r =? 0 then Ok ([], r)
             else rd rdb, r <- rd_into (zeros (N.to_nat rl)) r ;;
                  do l <- rds_decode_with rec rdb ;;
                  Ok (l, r)) ;;
          do l <- sds_loop rec n' r ;;
          Ok (mkSDR rl rn ssod rsod grp rpp tmfe evfe obfe oid evid tm sst rst rds :: l)
      end
  end.

(** ServiceDataSet.Decode on a fresh set with recursion depth bounded by [depth]. *)
Fixpoint sds_decode_fuel (depth : nat) (b : bytes) : res ServiceDataSet :=
  match depth with
  | O => Fuel
  | S d => sds_loop (sds_decode_fuel d) (length b) b
  end.

(** ServiceDataSet.Decode on a fresh set, service_data_records.go:38-120.  The partial
    contents of the set after an error are not modelled. *)
Definition sds_decode (b : bytes) : res ServiceDataSet := sds_decode_fuel (S (length b)) b.

(** RecordDataSet.Decode on a fresh set, record_data.go:22-93. *)
Definition rds_decode (b : bytes) : res RecordDataSet := rds_decode_with (sds_decode_fuel (S (length b))) b.

(** ServiceDataSet.Decode and RecordDataSet.Decode on a set that already has elements:
    they append (service_data_records.go:117, record_data.go:89). *)
Definition sds_decode_into (s0 : ServiceDataSet) (b : bytes) : res ServiceDataSet :=
  do l <- sds_decode b ;; Ok (s0 ++ l)%list.
Definition rds_decode_into (s0 : RecordDataSet) (b : bytes) : res RecordDataSet :=
  do l <- rds_decode b ;; Ok (s0 ++ l)%list.

(** Dynamic dispatch of SrResponse.Decode at top level. *)
Definition SrResponse_decode_top (b : bytes) : res SrResponse := SrResponse_decode sds_decode b.

(** PtResponse.Decode, egts_pt_response.go:17-42, on a receiver [p0]. *)
Definition PtResponse_decode (p0 : PtResponse) (content : bytes) : res PtResponse :=
  rd rpid, r <- rd_num 2 content ;;
  rd prc, r <- rd_byte r ;;
  if len r =? 0 then Ok (mkPtResponse rpid prc (pr_SDR p0))
  else do s <- sds_decode r ;; Ok (mkPtResponse rpid prc (Some s)).

Definition PtResponse_zero : PtResponse := mkPtResponse 0 0 None.

End WithEnv.

(** Specification of the JSON object of a packet: the members in order, what each stands for, and
    which packets have one. *)
From Coq Require Import NArith ZArith String List.
From Flocq Require Import BinarySingleNaN.
From Verif Require Import GoBase GoFloat SubRecords Records Package Json SpecJson SpecTime Protobuf SpecPb.
Import ListNotations.
Open Scope N_scope.

Definition is_time (t : time) (v : json) : Prop := exists u, v = JStr u /\ time_of u t.
Definition is_base64 (b : bytes) (v : json) : Prop := exists u, v = JStr u /\ base64_of u b.
(** Where there is nothing, there may be null. *)
Definition is_blob (b : bytes) (v : json) : Prop := (b = [] /\ v = JNull) \/ is_base64 b v.
Definition is_list {A} (P : A -> json -> Prop) (l : list A) (v : json) : Prop :=
  (l = [] /\ v = JNull) \/ exists vs, v = JArr vs /\ Forall2 P l vs.
Definition is_option {A} (P : A -> json -> Prop) (o : option A) (v : json) : Prop :=
  match o with Some a => P a v | None => v = JNull end.
Definition is_text (s : string) : json -> Prop := is_string (bytes_of_string s).

(** ** EGTS+ records, from the documented schema *)
(** The values of the field with number [n] in a message. *)
Definition field_values {K V} (d : list (field K)) (m : message V) (n : N) (vs : list V) : Prop :=
  exists i f, nth_error d i = Some f /\ f_num f = n /\ nth_error (m_vals m) i = Some vs.

Section Plus.
Definition scalar_json (t : SpecPb.scalar) (v : value) (j : json) : Prop :=
  match t, v with
  | uint32, VU n | fixed32, VU n => is_nat n j
  | sfixed32, VU n => is_int (if n <? 2147483648 then Z.of_N n else (Z.of_N n - 4294967296)%Z) j
  | float, VU n => exists t, j = JNum t /\ reads32 t n
  | sint32, VI z | enum_t, VI z => is_int z j
  | bool_t, VB b => j = JBool b
  | bytes_t, VBytes b => is_base64 b j
  | _, _ => False
  end.

Section Members.
Context {T K V : Type} (d : list (field K)) (m : message V) (blank : V -> Prop) (P : T -> V -> json -> Prop).
(** The fields in the order of the document; absent ones, and blank ones, are left out. *)
Inductive doc_members : doc_message T -> list (bytes * json) -> Prop :=
| dm_nil : doc_members [] []
| dm_absent l t name n doc ms : field_values d m n [] -> doc_members doc ms -> doc_members ((l, t, name, n) :: doc) ms
| dm_blank l t name n v doc ms : field_values d m n [v] -> blank v -> doc_members doc ms ->
    doc_members ((l, t, name, n) :: doc) ms
| dm_one l t name n v j doc ms : l <> repeated -> field_values d m n [v] -> ~ blank v -> P t v j -> doc_members doc ms ->
    doc_members ((l, t, name, n) :: doc) ((bytes_of_string name, j) :: ms)
| dm_many t name n vs js doc ms : field_values d m n vs -> vs <> [] -> Forall2 (P t) vs js -> doc_members doc ms ->
    doc_members ((repeated, t, name, n) :: doc) ((bytes_of_string name, JArr js) :: ms).
End Members.

Definition leaf_json (doc : doc_message SpecPb.scalar) (m : message value) (j : json) : Prop :=
  exists ms, j = JObj ms /\ doc_members (fields_of scalar_kind doc) m (eq (VBytes [])) scalar_json doc ms.
Definition field_json (t : SpecPb.scalar + doc_message SpecPb.scalar) (v : value1) (j : json) : Prop :=
  match t, v with
  | inl s, VLeaf v => scalar_json s v j
  | inr doc, VMsg m => leaf_json doc m j
  | _, _ => False
  end.
Definition storage_json (m : message value1) (j : json) : Prop :=
  exists ms, j = JObj ms /\ doc_members doc_storage m (fun _ => False) field_json doc_storage_record ms.
End Plus.

(** Floats that are numbers. *)
Definition scalar_finite (t : SpecPb.scalar) (v : value) : Prop := match t, v with float, VU n => finite32 n | _, _ => True end.
Definition leaf_finite (doc : doc_message SpecPb.scalar) (m : message value) : Prop :=
  forall l t name n vs v, In (l, t, name, n) doc -> field_values (fields_of scalar_kind doc) m n vs -> In v vs -> scalar_finite t v.
Definition field_finite (t : SpecPb.scalar + doc_message SpecPb.scalar) (v : value1) : Prop :=
  match t, v with
  | inl s, VLeaf v => scalar_finite s v
  | inr doc, VMsg m => leaf_finite doc m
  | _, _ => True
  end.
Definition storage_finite (m : message value1) : Prop :=
  forall l t name n vs v, In (l, t, name, n) doc_storage_record -> field_values doc_storage m n vs -> In v vs -> field_finite t v.

(** ** Packets *)
Section Pkg.
Context {E : Env}.
Variable plus_json : StorageRecord -> json -> Prop.
Variable plus_finite : StorageRecord -> Prop.

Definition sub_json (d : SubData) : json -> Prop :=
  match d with
  | DResponse d => object [member "CRN" (is_nat (sr_CRN d)); member "RST" (is_nat (sr_RST d))]
  | DTermIdentity d => object
      [member "TID" (is_nat (ti_TID d)); member "MNE" (is_text (ti_MNE d)); member "BSE" (is_text (ti_BSE d));
       member "NIDE" (is_text (ti_NIDE d)); member "SSRA" (is_text (ti_SSRA d)); member "LNGCE" (is_text (ti_LNGCE d));
       member "IMSIE" (is_text (ti_IMSIE d)); member "IMEIE" (is_text (ti_IMEIE d)); member "HDIDE" (is_text (ti_HDIDE d));
       member "HDID" (is_nat (ti_HDID d)); member "IMEI" (is_text (ti_IMEI d)); member "IMSI" (is_text (ti_IMSI d));
       member "LNGC" (is_text (ti_LNGC d)); member "NID" (is_blob (ti_NID d)); member "BS" (is_nat (ti_BS d));
       member "MSISDN" (is_text (ti_MSISDN d))]
  | DModuleData d => object
      [member "MT" (is_int (md_MT d)); member "VID" (is_nat (md_VID d)); member "FWV" (is_nat (md_FWV d));
       member "SWV" (is_nat (md_SWV d)); member "MD" (is_nat (md_MD d)); member "ST" (is_nat (md_ST d));
       member "SRN" (is_text (md_SRN d)); member "DSCR" (is_text (md_DSCR d))]
  | DDispatcherIdentity d => object
      [member "DT" (is_nat (di_DT d)); member "DID" (is_nat (di_DID d)); member "DSCR" (is_text (di_DSCR d))]
  | DAuthInfo d => object
      [member "UNM" (is_text (ai_UNM d)); member "UPSW" (is_text (ai_UPSW d)); member "SS" (is_text (ai_SS d))]
  | DResultCode d => object [member "RCD" (is_nat (rcd_ResultCode d))]
  | DEgtsPlus d => plus_json d
  | DPosData d => object
      [member "NTM" (is_time (pd_NTM d)); member "LAT" (is_float (pd_LAT d)); member "LONG" (is_float (pd_LONG d));
       member "ALTE" (is_text (pd_ALTE d)); member "LOHS" (is_text (pd_LOHS d)); member "LAHS" (is_text (pd_LAHS d));
       member "MV" (is_text (pd_MV d)); member "BB" (is_text (pd_BB d)); member "CS" (is_text (pd_CS d));
       member "FIX" (is_text (pd_FIX d)); member "VLD" (is_text (pd_VLD d)); member "DIRH" (is_nat (pd_DIRH d));
       member "ALTS" (is_nat (pd_ALTS d)); member "SPD" (is_nat (pd_SPD d)); member "DIR" (is_nat (pd_DIR d));
       member "ODM" (is_nat (pd_ODM d)); member "DIN" (is_nat (pd_DIN d)); member "SRC" (is_nat (pd_SRC d));
       member "ALT" (is_nat (pd_ALT d)); member "SRCD" (is_nat 0)]
  | DExtPosData d => object
      [member "NSFE" (is_text (ep_NSFE d)); member "SFE" (is_text (ep_SFE d)); member "PFE" (is_text (ep_PFE d));
       member "HFE" (is_text (ep_HFE d)); member "VFE" (is_text (ep_VFE d)); member "VDOP" (is_nat (ep_VDOP d));
       member "HDOP" (is_nat (ep_HDOP d)); member "PDOP" (is_nat (ep_PDOP d)); member "SAT" (is_nat (ep_SAT d));
       member "NS" (is_nat (ep_NS d))]
  | DAdSensors d => object
      [member "DIOE1" (is_text (ad_DIOE1 d)); member "DIOE2" (is_text (ad_DIOE2 d)); member "DIOE3" (is_text (ad_DIOE3 d));
       member "DIOE4" (is_text (ad_DIOE4 d)); member "DIOE5" (is_text (ad_DIOE5 d)); member "DIOE6" (is_text (ad_DIOE6 d));
       member "DIOE7" (is_text (ad_DIOE7 d)); member "DIOE8" (is_text (ad_DIOE8 d)); member "DOUT" (is_nat (ad_DOUT d));
       member "ASFE1" (is_text (ad_ASFE1 d)); member "ASFE2" (is_text (ad_ASFE2 d)); member "ASFE3" (is_text (ad_ASFE3 d));
       member "ASFE4" (is_text (ad_ASFE4 d)); member "ASFE5" (is_text (ad_ASFE5 d)); member "ASFE6" (is_text (ad_ASFE6 d));
       member "ASFE7" (is_text (ad_ASFE7 d)); member "ASFE8" (is_text (ad_ASFE8 d));
       member "ADIO1" (is_nat (ad_ADIO1 d)); member "ADIO2" (is_nat (ad_ADIO2 d)); member "ADIO3" (is_nat (ad_ADIO3 d));
       member "ADIO4" (is_nat (ad_ADIO4 d)); member "ADIO5" (is_nat (ad_ADIO5 d)); member "ADIO6" (is_nat (ad_ADIO6 d));
       member "ADIO7" (is_nat (ad_ADIO7 d)); member "ADIO8" (is_nat (ad_ADIO8 d));
       member "ANS1" (is_nat (ad_ANS1 d)); member "ANS2" (is_nat (ad_ANS2 d)); member "ANS3" (is_nat (ad_ANS3 d));
       member "ANS4" (is_nat (ad_ANS4 d)); member "ANS5" (is_nat (ad_ANS5 d)); member "ANS6" (is_nat (ad_ANS6 d));
       member "ANS7" (is_nat (ad_ANS7 d)); member "ANS8" (is_nat (ad_ANS8 d))]
  | DCounters d => object
      [member "CFE1" (is_text (cd_CFE1 d)); member "CFE2" (is_text (cd_CFE2 d)); member "CFE3" (is_text (cd_CFE3 d));
       member "CFE4" (is_text (cd_CFE4 d)); member "CFE5" (is_text (cd_CFE5 d)); member "CFE6" (is_text (cd_CFE6 d));
       member "CFE7" (is_text (cd_CFE7 d)); member "CFE8" (is_text (cd_CFE8 d));
       member "CN1" (is_nat (cd_CN1 d)); member "CN2" (is_nat (cd_CN2 d)); member "CN3" (is_nat (cd_CN3 d));
       member "CN4" (is_nat (cd_CN4 d)); member "CN5" (is_nat (cd_CN5 d)); member "CN6" (is_nat (cd_CN6 d));
       member "CN7" (is_nat (cd_CN7 d)); member "CN8" (is_nat (cd_CN8 d))]
  | DState d => object
      [member "ST" (is_nat (sd_ST d)); member "MPSV" (is_nat (sd_MPSV d)); member "BBV" (is_nat (sd_BBV d));
       member "IBV" (is_nat (sd_IBV d)); member "NMS" (is_text (sd_NMS d)); member "IBU" (is_text (sd_IBU d));
       member "BBU" (is_text (sd_BBU d))]
  | DAbsAnSens d => object [member "SensorNumber" (is_nat (aa_SN d)); member "Value" (is_nat (aa_VAL d))]
  | DAbsCntr d => object [member "CN" (is_nat (ac_CN d)); member "CNV" (is_nat (ac_CNV d))]
  | DLiquid d => object
      [member "LLSEF" (is_text (ll_LLSEF d)); member "LLSVU" (is_text (ll_LLSVU d)); member "RDF" (is_text (ll_RDF d));
       member "LLSN" (is_nat (ll_LLSN d)); member "MADDR" (is_nat (ll_MADDR d)); member "LLSD" (is_nat (ll_LLSD d))]
  end.
Definition record_data_json (r : RecordData) : json -> Prop := object
  [member "SRT" (is_nat (rd_SRT r)); member "SRL" (is_nat (rd_SRL r)); member "SRD" (is_option sub_json (rd_SRD r))].
Definition sdr_json (s : ServiceDataRecord) : json -> Prop := object
  [member "RL" (is_nat (s_RL s)); member "RN" (is_nat (s_RN s)); member "SSOD" (is_text (s_SSOD s));
   member "RSOD" (is_text (s_RSOD s)); member "GRP" (is_text (s_GRP s)); member "RPP" (is_text (s_RPP s));
   member "TMFE" (is_text (s_TMFE s)); member "EVFE" (is_text (s_EVFE s)); member "OBFE" (is_text (s_OBFE s));
   member "OID" (is_nat (s_OID s)); member "EVID" (is_nat (s_EVID s)); member "TM" (is_time (s_TM s));
   member "SST" (is_nat (s_SST s)); member "RST" (is_nat (s_RST s)); member "RD" (is_list record_data_json (s_RD s))].
Definition body_json (b : Body) : json -> Prop :=
  match b with
  | BSds l => is_list sdr_json l
  | BResp r => object [member "RPID" (is_nat (pr_RPID r)); member "PR" (is_nat (pr_PR r));
                       member "SDR" (is_option (is_list sdr_json) (pr_SDR r))]
  end.
Definition package_json (p : Package) : json -> Prop := object
  [member "PRV" (is_nat (p_PRV p)); member "SKID" (is_nat (p_SKID p)); member "PRF" (is_text (p_PRF p));
   member "RTE" (is_text (p_RTE p)); member "ENA" (is_text (p_ENA p)); member "CMP" (is_text (p_CMP p));
   member "PR" (is_text (p_PR p)); member "HL" (is_nat (p_HL p)); member "HE" (is_nat (p_HE p)); member "FDL" (is_nat (p_FDL p));
   member "PID" (is_nat (p_PID p)); member "PT" (is_nat (p_PT p)); member "PRA" (is_nat (p_PRA p));
   member "RCA" (is_nat (p_RCA p)); member "TTL" (is_nat (p_TTL p)); member "HCS" (is_nat (p_HCS p));
   member "SFRD" (is_option body_json (p_SFRD p)); member "SFRCS" (is_nat (p_SFRCS p))].

(** The records of a packet and the data in them. *)
Definition records_of (p : Package) : list ServiceDataRecord :=
  match p_SFRD p with
  | Some (BSds l) => l
  | Some (BResp r) => match pr_SDR r with Some l => l | None => [] end
  | None => []
  end.
Definition data_in (r : ServiceDataRecord) (d : SubData) : Prop := exists x, In x (s_RD r) /\ rd_SRD x = Some d.

(** What keeps a packet from having a JSON text: times outside the years 0 to 9999 and floats that
    are not numbers. *)
Definition writable_data (d : SubData) : Prop :=
  match d with
  | DPosData x => four_digit_year (pd_NTM x) /\ is_finite (pd_LAT x) = true /\ is_finite (pd_LONG x) = true
  | DEgtsPlus m => plus_finite m
  | _ => True
  end.
Definition writable (p : Package) : Prop :=
  forall r, In r (records_of p) -> four_digit_year (s_TM r) /\ forall d, data_in r d -> writable_data d.

(** What the text cannot tell: strings that are not UTF-8, fields of EGTS+ records that the library
    does not know and those that hold no bytes, and empty sets of records, which may be null. *)
Definition strings_of (d : SubData) : list string :=
  match d with
  | DTermIdentity d => [ti_MNE d; ti_BSE d; ti_NIDE d; ti_SSRA d; ti_LNGCE d; ti_IMSIE d; ti_IMEIE d; ti_HDIDE d; ti_IMEI d;
       ti_IMSI d; ti_LNGC d; ti_MSISDN d]
  | DModuleData d => [md_SRN d; md_DSCR d]
  | DDispatcherIdentity d => [di_DSCR d]
  | DAuthInfo d => [ai_UNM d; ai_UPSW d; ai_SS d]
  | DPosData d => [pd_ALTE d; pd_LOHS d; pd_LAHS d; pd_MV d; pd_BB d; pd_CS d; pd_FIX d; pd_VLD d]
  | DExtPosData d => [ep_NSFE d; ep_SFE d; ep_PFE d; ep_HFE d; ep_VFE d]
  | DAdSensors d => [ad_DIOE1 d; ad_DIOE2 d; ad_DIOE3 d; ad_DIOE4 d; ad_DIOE5 d; ad_DIOE6 d; ad_DIOE7 d; ad_DIOE8 d;
       ad_ASFE1 d; ad_ASFE2 d; ad_ASFE3 d; ad_ASFE4 d; ad_ASFE5 d; ad_ASFE6 d; ad_ASFE7 d; ad_ASFE8 d]
  | DCounters d => [cd_CFE1 d; cd_CFE2 d; cd_CFE3 d; cd_CFE4 d; cd_CFE5 d; cd_CFE6 d; cd_CFE7 d; cd_CFE8 d]
  | DState d => [sd_NMS d; sd_IBU d; sd_BBU d]
  | DLiquid d => [ll_LLSEF d; ll_LLSVU d; ll_RDF d]
  | _ => []
  end.
Definition utf8_text (s : string) : Prop := is_utf8 (bytes_of_string s).
Definition leaf_told (m : message value) : Prop :=
  m_unknown m = [] /\ forall vs v, In vs (m_vals m) -> In v vs -> v <> VBytes [].
Definition storage_told (m : message value1) : Prop :=
  m_unknown m = [] /\ forall vs x, In vs (m_vals m) -> In (VMsg x) vs -> leaf_told x.
Definition data_told (plus_told : StorageRecord -> Prop) (d : SubData) : Prop :=
  Forall utf8_text (strings_of d) /\ match d with DEgtsPlus m => plus_told m | _ => True end.
Definition record_told (plus_told : StorageRecord -> Prop) (s : ServiceDataRecord) : Prop :=
  Forall utf8_text [s_SSOD s; s_RSOD s; s_GRP s; s_RPP s; s_TMFE s; s_EVFE s; s_OBFE s] /\
  forall d, data_in s d -> data_told plus_told d.
Definition told (plus_told : StorageRecord -> Prop) (p : Package) : Prop :=
  Forall utf8_text [p_PRF p; p_RTE p; p_ENA p; p_CMP p; p_PR p] /\
  forall r, In r (records_of p) -> record_told plus_told r.
(** Sets of records are not empty. *)
Definition settled (p : Package) : Prop :=
  p_SFRD p <> Some (BSds []) /\ forall r, p_SFRD p = Some (BResp r) -> pr_SDR r <> Some [].
(** The strings that are not flags. *)
Definition free_strings (d : SubData) : list string :=
  match d with
  | DTermIdentity d => [ti_IMEI d; ti_IMSI d; ti_LNGC d; ti_MSISDN d]
  | DModuleData d => [md_SRN d; md_DSCR d]
  | DDispatcherIdentity d => [di_DSCR d]
  | DAuthInfo d => [ai_UNM d; ai_UPSW d; ai_SS d]
  | _ => []
  end.
End Pkg.

(** Specification of what the encoders do with any value: which values they refuse, and the bytes
    they write for the others, whether or not the value is well-formed. *)
From Coq Require Import NArith ZArith String Bool List.
From Verif Require Import GoBase GoFloat SubRecords Records Package SpecBase SpecCrc SpecRec SpecPkg.
Import ListNotations.
Open Scope N_scope.

(** A byte of flags: the flag strings in a row are a binary number below 256.  Nothing is required
    of the single strings. *)
Definition flag_byte (s : string) (v : N) : Prop := binary s v /\ v < 256.

(** The byte written if errors are ignored: 255 if a number of 256 or more shows up before any
    character that is not a binary digit, 0 for other strings that are not numbers. *)
Inductive loose_byte : string -> N -> Prop :=
| lb_ok s v : flag_byte s v -> loose_byte s v
| lb_large s u n : binary s n -> 256 <= n -> loose_byte (s ++ u) 255
| lb_bad s : (forall v, ~ flag_byte s v) -> (forall a b n, s = (a ++ b)%string -> binary a n -> n < 256) -> loose_byte s 0.

(** The binary digits of [n], at least three. *)
Fixpoint low_digits (k : nat) (n : N) : string :=
  match k with
  | O => ""
  | S k' => low_digits k' (n / 2) ++ (if N.even n then "0" else "1")
  end.
Definition digits3 (n : N) : string := low_digits (Nat.max 3 (N.to_nat (N.size n))) n.

(** Seconds from 2010-01-01T00:00:00Z, modulo 2^32. *)
Definition secs32 (t : Z) : N := Z.to_N ((t / 1000000000 - 1262304000) mod 4294967296).

Section WithEnv.
Context {E : Env}.

(** ** Subrecord data *)
Inductive writes : SubData -> list N -> Prop :=
| ws_response e : writes (DResponse e) (le16 (sr_CRN e) ++ [sr_RST e])
| ws_ti e v : loose_byte (ti_MNE e ++ ti_BSE e ++ ti_NIDE e ++ ti_SSRA e ++ ti_LNGCE e ++ ti_IMSIE e ++ ti_IMEIE e ++ ti_HDIDE e) v ->
    writes (DTermIdentity e)
      (le32 (ti_TID e) ++ [v]
       ++ opt (ti_HDIDE e) (le16 (ti_HDID e)) ++ opt (ti_IMEIE e) (chars (ti_IMEI e)) ++ opt (ti_IMSIE e) (chars (ti_IMSI e))
       ++ opt (ti_LNGCE e) (chars (ti_LNGC e)) ++ opt (ti_NIDE e) (ti_NID e) ++ opt (ti_BSE e) (le16 (ti_BS e))
       ++ opt (ti_MNE e) (chars (ti_MSISDN e)))
| ws_md e : writes (DModuleData e)
    ([Z.to_N (md_MT e mod 256)] ++ le32 (md_VID e) ++ le16 (md_FWV e) ++ le16 (md_SWV e) ++ [md_MD e; md_ST e]
     ++ chars (md_SRN e) ++ [0] ++ chars (md_DSCR e) ++ [0])
| ws_di e : writes (DDispatcherIdentity e) ([di_DT e] ++ le32 (di_DID e) ++ chars (di_DSCR e))
| ws_ai2 e : ai_SS e = ""%string -> writes (DAuthInfo e) (chars (ai_UNM e) ++ [0] ++ chars (ai_UPSW e) ++ [0])
| ws_ai3 e : ai_SS e <> ""%string ->
    writes (DAuthInfo e) (chars (ai_UNM e) ++ [0] ++ chars (ai_UPSW e) ++ [0] ++ chars (ai_SS e) ++ [0])
| ws_result e : writes (DResultCode e) [rcd_ResultCode e]
| ws_plus m b : pb_marshal m = Some b -> writes (DEgtsPlus m) b
| ws_pos e v : flag_byte (pd_ALTE e ++ pd_LOHS e ++ pd_LAHS e ++ pd_MV e ++ pd_BB e ++ pd_CS e ++ pd_FIX e ++ pd_VLD e) v ->
    writes (DPosData e)
      (le32 (ntm_encode (pd_NTM e)) ++ le32 (coord_encode 90 (pd_LAT e)) ++ le32 (coord_encode 180 (pd_LONG e)) ++ [v]
       ++ le16 (N.lor (N.lor (10 * pd_SPD e) (32768 * pd_DIRH e)) (16384 * pd_ALTS e))
       ++ [if N.odd (pd_DIRH e) then N.ldiff (pd_DIR e) 128 else pd_DIR e]
       ++ le24 (pd_ODM e) ++ [pd_DIN e; pd_SRC e] ++ opt (pd_ALTE e) (le24 (pd_ALT e)))
| ws_ext e v : flag_byte ("000" ++ ep_NSFE e ++ ep_SFE e ++ ep_PFE e ++ ep_HFE e ++ ep_VFE e) v ->
    writes (DExtPosData e)
      ([v] ++ opt (ep_VFE e) (le16 (ep_VDOP e)) ++ opt (ep_HFE e) (le16 (ep_HDOP e)) ++ opt (ep_PFE e) (le16 (ep_PDOP e))
       ++ opt (ep_SFE e) [ep_SAT e] ++ opt (ep_NSFE e) (le16 (ep_NS e)))
| ws_ad e d a :
    flag_byte (ad_DIOE8 e ++ ad_DIOE7 e ++ ad_DIOE6 e ++ ad_DIOE5 e ++ ad_DIOE4 e ++ ad_DIOE3 e ++ ad_DIOE2 e ++ ad_DIOE1 e) d ->
    flag_byte (ad_ASFE1 e ++ ad_ASFE2 e ++ ad_ASFE3 e ++ ad_ASFE4 e ++ ad_ASFE5 e ++ ad_ASFE6 e ++ ad_ASFE7 e ++ ad_ASFE8 e) a ->
    writes (DAdSensors e)
      ([d; ad_DOUT e; a]
       ++ opt (ad_DIOE1 e) [ad_ADIO1 e] ++ opt (ad_DIOE2 e) [ad_ADIO2 e] ++ opt (ad_DIOE3 e) [ad_ADIO3 e] ++ opt (ad_DIOE4 e) [ad_ADIO4 e]
       ++ opt (ad_DIOE5 e) [ad_ADIO5 e] ++ opt (ad_DIOE6 e) [ad_ADIO6 e] ++ opt (ad_DIOE7 e) [ad_ADIO7 e] ++ opt (ad_DIOE8 e) [ad_ADIO8 e]
       ++ opt (ad_ASFE1 e) (le24 (ad_ANS1 e)) ++ opt (ad_ASFE2 e) (le24 (ad_ANS2 e)) ++ opt (ad_ASFE3 e) (le24 (ad_ANS3 e))
       ++ opt (ad_ASFE4 e) (le24 (ad_ANS4 e)) ++ opt (ad_ASFE5 e) (le24 (ad_ANS5 e)) ++ opt (ad_ASFE6 e) (le24 (ad_ANS6 e))
       ++ opt (ad_ASFE7 e) (le24 (ad_ANS7 e)) ++ opt (ad_ASFE8 e) (le24 (ad_ANS8 e)))
| ws_cd e v : flag_byte (cd_CFE8 e ++ cd_CFE7 e ++ cd_CFE6 e ++ cd_CFE5 e ++ cd_CFE4 e ++ cd_CFE3 e ++ cd_CFE2 e ++ cd_CFE1 e) v ->
    writes (DCounters e)
      ([v] ++ opt (cd_CFE1 e) (le24 (cd_CN1 e)) ++ opt (cd_CFE2 e) (le24 (cd_CN2 e)) ++ opt (cd_CFE3 e) (le24 (cd_CN3 e))
       ++ opt (cd_CFE4 e) (le24 (cd_CN4 e)) ++ opt (cd_CFE5 e) (le24 (cd_CN5 e)) ++ opt (cd_CFE6 e) (le24 (cd_CN6 e))
       ++ opt (cd_CFE7 e) (le24 (cd_CN7 e)) ++ opt (cd_CFE8 e) (le24 (cd_CN8 e)))
| ws_sd e v : flag_byte ("00000" ++ sd_NMS e ++ sd_IBU e ++ sd_BBU e) v ->
    writes (DState e) [sd_ST e; sd_MPSV e; sd_BBV e; sd_IBV e; v]
| ws_ll e v : flag_byte ("0" ++ ll_LLSEF e ++ ll_LLSVU e ++ ll_RDF e ++ digits3 (ll_LLSN e)) v ->
    writes (DLiquid e) ([v] ++ le16 (ll_MADDR e) ++ le32 (ll_LLSD e))
| ws_ac e : writes (DAbsCntr e) ([ac_CN e] ++ le24 (ac_CNV e))
| ws_aa e : writes (DAbsAnSens e) ([aa_SN e] ++ le24 (aa_VAL e)).

(** The type code of data whose type field is 0. *)
Definition code (d : SubData) : option N :=
  match d with
  | DResponse _ => Some 0 | DTermIdentity _ => Some 1 | DAuthInfo _ => Some 7 | DResultCode _ => Some 9 | DEgtsPlus _ => Some 15
  | DPosData _ => Some 16 | DExtPosData _ => Some 17 | DAdSensors _ => Some 18 | DCounters _ => Some 19 | DState _ => Some 21
  | DAbsAnSens _ => Some 24 | DAbsCntr _ => Some 25 | DLiquid _ => Some 27
  | DModuleData _ | DDispatcherIdentity _ => None
  end.

(** A field that is filled in if it is 0. *)
Definition filled_in (v auto : N) : N := if v =? 0 then auto else v.

(** ** One after the other: the first that is not written decides. *)
Inductive each {A : Type} (P : A -> res (list N) -> Prop) : list A -> res (list N) -> Prop :=
| ea_nil : each P [] (Ok [])
| ea_ok x l b c : P x (Ok b) -> each P l (Ok c) -> each P (x :: l) (Ok (b ++ c))
| ea_stop x l o : P x o -> (forall b, o <> Ok b) -> each P (x :: l) o
| ea_later x l b o : P x (Ok b) -> each P l o -> (forall c, o <> Ok c) -> each P (x :: l) o.

(** ** A subrecord: type, length, data *)
Inductive sub_out : RecordData -> res (list N) -> Prop :=
| so_ok t n d c b : code d = Some c \/ t <> 0 /\ c = 0 -> writes d b ->
    sub_out (mkRecordData t n (Some d)) (Ok ([filled_in t c] ++ le16 (filled_in n (N.of_nat (length b))) ++ b))
| so_no_code n d : code d = None -> sub_out (mkRecordData 0 n (Some d)) Err
| so_bad t n d : (forall b, ~ writes d b) -> sub_out (mkRecordData t n (Some d)) Err
| so_nil n : sub_out (mkRecordData 0 n None) Err
| so_nil_typed t n : t <> 0 -> sub_out (mkRecordData t n None) Panic.

(** ** A record *)
Definition rec_flags (s : ServiceDataRecord) : string :=
  s_SSOD s ++ s_RSOD s ++ s_GRP s ++ s_RPP s ++ s_TMFE s ++ s_EVFE s ++ s_OBFE s.
Inductive rec_out : ServiceDataRecord -> res (list N) -> Prop :=
| ro_ok s w v : each sub_out (s_RD s) (Ok w) -> flag_byte (rec_flags s) v ->
    rec_out s (Ok (le16 (filled_in (s_RL s) (N.of_nat (length w) mod 65536)) ++ le16 (s_RN s) ++ [v]
                   ++ opt (s_OBFE s) (le32 (s_OID s)) ++ opt (s_EVFE s) (le32 (s_EVID s)) ++ opt (s_TMFE s) (le32 (secs32 (s_TM s)))
                   ++ [s_SST s; s_RST s] ++ w))
| ro_subs s o : each sub_out (s_RD s) o -> (forall w, o <> Ok w) -> rec_out s o
| ro_flags s w : each sub_out (s_RD s) (Ok w) -> (forall v, ~ flag_byte (rec_flags s) v) -> rec_out s Err.

(** ** A body *)
Inductive body_out : Body -> res (list N) -> Prop :=
| bo_recs l o : each rec_out l o -> body_out (BSds l) o
| bo_resp r w : each rec_out (match pr_SDR r with Some l => l | None => [] end) (Ok w) ->
    body_out (BResp r) (Ok (le16 (pr_RPID r) ++ [pr_PR r] ++ w))
| bo_resp_bad r o : each rec_out (match pr_SDR r with Some l => l | None => [] end) o -> (forall w, o <> Ok w) -> body_out (BResp r) o.

(** The bytes of the body as they are sent. *)
Inductive sent (key : option SecretKey) (p : Package) : res (list N) -> Prop :=
| se_none : p_SFRD p = None -> sent key p (Ok [])
| se_plain b o : p_SFRD p = Some b -> body_out b o -> p_ENA p = "00"%string \/ (forall w, o <> Ok w) -> sent key p o
| se_secret b w k c : p_SFRD p = Some b -> body_out b (Ok w) -> p_ENA p <> "00"%string -> key = Some k -> sk_encode k w = Some c ->
    sent key p (Ok c)
| se_no_key b w : p_SFRD p = Some b -> body_out b (Ok w) -> p_ENA p <> "00"%string ->
    key = None \/ (exists k, key = Some k /\ sk_encode k w = None) -> sent key p Err.

(** ** A packet *)
Definition pkg_flags (p : Package) : string := p_PRF p ++ p_RTE p ++ p_ENA p ++ p_CMP p ++ p_PR p.
(** The header without its checksum, with flags [v]. *)
Definition head_out (p : Package) (v hl fdl : N) : list N :=
  [p_PRV p; p_SKID p; v; hl; p_HE p] ++ le16 fdl ++ le16 (p_PID p) ++ [p_PT p]
  ++ opt (p_RTE p) (le16 (p_PRA p) ++ le16 (p_RCA p) ++ [p_TTL p]).
(** The packet with other lengths. *)
Definition lengths (p : Package) (hl fdl : N) : Package :=
  mkPackage (p_PRV p) (p_SKID p) (p_PRF p) (p_RTE p) (p_ENA p) (p_CMP p) (p_PR p) hl (p_HE p) fdl (p_PID p) (p_PT p)
    (p_PRA p) (p_RCA p) (p_TTL p) (p_HCS p) (p_SFRD p) (p_SFRCS p).
(** [pkg_out key p o hl fdl]: the outcome is [o]; afterwards the header and body lengths in the
    packet are [hl] and [fdl].  The body is left out if its length is a multiple of 65536. *)
Inductive pkg_out (key : option SecretKey) (p : Package) : res (list N) -> N -> N -> Prop :=
| po_flags : (forall v, ~ flag_byte (pkg_flags p) v) -> pkg_out key p Err (p_HL p) (p_FDL p)
| po_ok v b h : flag_byte (pkg_flags p) v -> sent key p (Ok b) ->
    h = head_out p v (header_length p) (N.of_nat (length b) mod 65536) ->
    pkg_out key p
      (Ok (h ++ [checksum8 h] ++ (if N.of_nat (length b) mod 65536 =? 0 then [] else b ++ le16 (checksum16 b))))
      (header_length p) (N.of_nat (length b) mod 65536)
| po_body v o : flag_byte (pkg_flags p) v -> sent key p o -> (forall b, o <> Ok b) -> pkg_out key p o (header_length p) (p_FDL p).

(** ** Values of the Go types: byte fields hold bytes. *)
Definition go_sub (d : SubData) : Prop :=
  match d with
  | DResponse e => is_u8 (sr_RST e)
  | DTermIdentity e => is_bytes (ti_NID e)
  | DModuleData e => is_u8 (md_MD e) /\ is_u8 (md_ST e)
  | DDispatcherIdentity e => is_u8 (di_DT e)
  | DAuthInfo _ => True
  | DResultCode e => is_u8 (rcd_ResultCode e)
  | DEgtsPlus _ => True
  | DPosData e => is_bytes [pd_DIR e; pd_DIN e; pd_SRC e]
  | DExtPosData e => is_u8 (ep_SAT e)
  | DAdSensors e => is_bytes [ad_DOUT e; ad_ADIO1 e; ad_ADIO2 e; ad_ADIO3 e; ad_ADIO4 e; ad_ADIO5 e; ad_ADIO6 e; ad_ADIO7 e; ad_ADIO8 e]
  | DCounters _ => True
  | DState e => is_bytes [sd_ST e; sd_MPSV e; sd_BBV e; sd_IBV e]
  | DLiquid _ => True
  | DAbsCntr e => is_u8 (ac_CN e)
  | DAbsAnSens e => is_u8 (aa_SN e)
  end.
Definition go_rd (r : RecordData) : Prop := is_u8 (rd_SRT r) /\ forall d, rd_SRD r = Some d -> go_sub d.
Definition go_rec (s : ServiceDataRecord) : Prop := is_bytes [s_SST s; s_RST s] /\ Forall go_rd (s_RD s).
Definition go_body (b : Body) : Prop :=
  match b with
  | BSds l => Forall go_rec l
  | BResp r => is_u8 (pr_PR r) /\ forall l, pr_SDR r = Some l -> Forall go_rec l
  end.
Record go_pkg (p : Package) : Prop := {
  go_nums : is_bytes [p_PRV p; p_SKID p; p_HL p; p_HE p; p_PT p; p_TTL p];
  go_sfrd : forall b, p_SFRD p = Some b -> go_body b
}.
Definition go_key (key : option SecretKey) : Prop :=
  forall k w c, key = Some k -> sk_encode k w = Some c -> is_bytes c.

End WithEnv.

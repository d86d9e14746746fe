(** Specification of what the decoders accept: which byte strings are the wire form of which
    values, including byte strings that end inside the last field. *)
From Coq Require Import NArith ZArith String Bool List.
From Verif Require Import GoBase GoFloat SubRecords SpecBase SpecSub.
Import ListNotations.
Open Scope N_scope.

(** A field on the wire.
    - [Own v]: the bytes [v].  If the input ends inside the field, the missing bytes count as 0.
    - [Shared v]: the bytes [v].  If the input ends inside the field, the missing bytes count
      as those of the previous such field.
    - [Whole v]: the bytes [v], all of which must be there.
    - [Rest v]: all that is left. *)
Inductive item := Own (v : list N) | Shared (v : list N) | Whole (v : list N) | Rest (v : list N).

(** [received old l b]: the fields [l] are at the front of [b]; [old] are the bytes of the
    previous shared field.  Bytes after the fields do not matter.  A field that the input does
    not reach is not received. *)
Inductive received : list N -> list item -> list N -> Prop :=
| rc_end old r : received old [] r
| rc_own old v l r : received old l r -> received old (Own v :: l) (v ++ r)
| rc_own_cut old w m l : w <> [] -> Forall (eq 0) m -> received old l [] ->
    received old (Own (w ++ m) :: l) w
| rc_shared old v l r : received v l r -> received old (Shared v :: l) (v ++ r)
| rc_shared_cut o w m l : w <> [] -> length o = length w -> received (w ++ m) l [] ->
    received (o ++ m) (Shared (w ++ m) :: l) w
| rc_whole old v l r : received old l r -> received old (Whole v :: l) (v ++ r)
| rc_rest old v : received old [Rest v] v.

(** A field that is there if the flag is "1". *)
Definition when (f : string) (x : item) : list item := if string_dec f "1" then [x] else [].

Definition items_ti (e : SrTermIdentity) : list item :=
  [Own (le32 (ti_TID e));
   Own [128 * fl (ti_MNE e) + 64 * fl (ti_BSE e) + 32 * fl (ti_NIDE e) + 16 * fl (ti_SSRA e)
        + 8 * fl (ti_LNGCE e) + 4 * fl (ti_IMSIE e) + 2 * fl (ti_IMEIE e) + fl (ti_HDIDE e)]]
  ++ when (ti_HDIDE e) (Own (le16 (ti_HDID e)))
  ++ when (ti_IMEIE e) (Own (chars (ti_IMEI e)))
  ++ when (ti_IMSIE e) (Own (chars (ti_IMSI e)))
  ++ when (ti_LNGCE e) (Own (chars (ti_LNGC e)))
  ++ when (ti_NIDE e) (Own (ti_NID e))
  ++ when (ti_BSE e) (Own (le16 (ti_BS e)))
  ++ when (ti_MNE e) (Own (chars (ti_MSISDN e))).

Definition items_md (e : SrModuleData) : list item :=
  [Own [Z.to_N (if (md_MT e <? 0)%Z then (md_MT e + 256)%Z else md_MT e)]; Own (le32 (md_VID e));
   Own (le16 (md_FWV e)); Own (le16 (md_SWV e)); Own [md_MD e]; Own [md_ST e];
   Whole (chars (md_SRN e) ++ [0]); Whole (chars (md_DSCR e) ++ [0])].

Definition items_di (e : SrDispatcherIdentity) : list item :=
  [Own [di_DT e]; Own (le32 (di_DID e)); Rest (chars (di_DSCR e))].

(** With and without the third string. *)
Definition items_ai3 (e : SrAuthInfo) : list item :=
  [Whole (chars (ai_UNM e) ++ [0]); Whole (chars (ai_UPSW e) ++ [0]); Whole (chars (ai_SS e) ++ [0])].
Definition items_ai2 (e : SrAuthInfo) : list item :=
  [Whole (chars (ai_UNM e) ++ [0]); Whole (chars (ai_UPSW e) ++ [0]); Rest []].

(** [hi] are unused bits. *)
Definition items_ext (hi : N) (e : SrExtPosData) : list item :=
  [Own [32 * hi + 16 * fl (ep_NSFE e) + 8 * fl (ep_SFE e) + 4 * fl (ep_PFE e) + 2 * fl (ep_HFE e) + fl (ep_VFE e)]]
  ++ when (ep_VFE e) (Shared (le16 (ep_VDOP e))) ++ when (ep_HFE e) (Shared (le16 (ep_HDOP e)))
  ++ when (ep_PFE e) (Shared (le16 (ep_PDOP e))) ++ when (ep_SFE e) (Own [ep_SAT e])
  ++ when (ep_NSFE e) (Shared (le16 (ep_NS e))).

Definition items_ad (e : SrAdSensorsData) : list item :=
  [Own [128 * fl (ad_DIOE8 e) + 64 * fl (ad_DIOE7 e) + 32 * fl (ad_DIOE6 e) + 16 * fl (ad_DIOE5 e)
        + 8 * fl (ad_DIOE4 e) + 4 * fl (ad_DIOE3 e) + 2 * fl (ad_DIOE2 e) + fl (ad_DIOE1 e)];
   Own [ad_DOUT e];
   Own [128 * fl (ad_ASFE8 e) + 64 * fl (ad_ASFE7 e) + 32 * fl (ad_ASFE6 e) + 16 * fl (ad_ASFE5 e)
        + 8 * fl (ad_ASFE4 e) + 4 * fl (ad_ASFE3 e) + 2 * fl (ad_ASFE2 e) + fl (ad_ASFE1 e)]]
  ++ when (ad_DIOE1 e) (Own [ad_ADIO1 e]) ++ when (ad_DIOE2 e) (Own [ad_ADIO2 e])
  ++ when (ad_DIOE3 e) (Own [ad_ADIO3 e]) ++ when (ad_DIOE4 e) (Own [ad_ADIO4 e])
  ++ when (ad_DIOE5 e) (Own [ad_ADIO5 e]) ++ when (ad_DIOE6 e) (Own [ad_ADIO6 e])
  ++ when (ad_DIOE7 e) (Own [ad_ADIO7 e]) ++ when (ad_DIOE8 e) (Own [ad_ADIO8 e])
  ++ when (ad_ASFE1 e) (Shared (le24 (ad_ANS1 e))) ++ when (ad_ASFE2 e) (Shared (le24 (ad_ANS2 e)))
  ++ when (ad_ASFE3 e) (Shared (le24 (ad_ANS3 e))) ++ when (ad_ASFE4 e) (Shared (le24 (ad_ANS4 e)))
  ++ when (ad_ASFE5 e) (Shared (le24 (ad_ANS5 e))) ++ when (ad_ASFE6 e) (Shared (le24 (ad_ANS6 e)))
  ++ when (ad_ASFE7 e) (Shared (le24 (ad_ANS7 e))) ++ when (ad_ASFE8 e) (Shared (le24 (ad_ANS8 e))).

Definition items_cd (e : SrCountersData) : list item :=
  [Own [128 * fl (cd_CFE8 e) + 64 * fl (cd_CFE7 e) + 32 * fl (cd_CFE6 e) + 16 * fl (cd_CFE5 e)
        + 8 * fl (cd_CFE4 e) + 4 * fl (cd_CFE3 e) + 2 * fl (cd_CFE2 e) + fl (cd_CFE1 e)]]
  ++ when (cd_CFE1 e) (Shared (le24 (cd_CN1 e))) ++ when (cd_CFE2 e) (Shared (le24 (cd_CN2 e)))
  ++ when (cd_CFE3 e) (Shared (le24 (cd_CN3 e))) ++ when (cd_CFE4 e) (Shared (le24 (cd_CN4 e)))
  ++ when (cd_CFE5 e) (Shared (le24 (cd_CN5 e))) ++ when (cd_CFE6 e) (Shared (le24 (cd_CN6 e)))
  ++ when (cd_CFE7 e) (Shared (le24 (cd_CN7 e))) ++ when (cd_CFE8 e) (Shared (le24 (cd_CN8 e))).
(** What becomes of the counters [e] on the wire: the second is taken for the first. *)
Definition second_is_first (old : SrCountersData) (e : SrCountersData) : SrCountersData :=
  mkSrCountersData (cd_CFE1 e) (cd_CFE2 e) (cd_CFE3 e) (cd_CFE4 e) (cd_CFE5 e) (cd_CFE6 e) (cd_CFE7 e) (cd_CFE8 e)
    (if string_dec (cd_CFE2 e) "1" then cd_CN2 e else cd_CN1 e) (cd_CN2 old)
    (cd_CN3 e) (cd_CN4 e) (cd_CN5 e) (cd_CN6 e) (cd_CN7 e) (cd_CN8 e).

Definition items_sd (hi : N) (e : SrStateData) : list item :=
  [Own [sd_ST e]; Own [sd_MPSV e]; Own [sd_BBV e]; Own [sd_IBV e];
   Own [8 * hi + 4 * fl (sd_NMS e) + 2 * fl (sd_IBU e) + fl (sd_BBU e)]].

Definition items_ll (hi : N) (e : SrLiquidLevelSensor) : list item :=
  [Own [128 * hi + 64 * fl (ll_LLSEF e) + 16 * fl2 (ll_LLSVU e) + 8 * fl (ll_RDF e) + ll_LLSN e];
   Own (le16 (ll_MADDR e)); Own (le32 (ll_LLSD e))].

Definition items_ac (e : SrAbsCntrData) : list item := [Own [ac_CN e]; Own (le24 (ac_CNV e))].
Definition items_aa (e : SrAbsAnSensData) : list item := [Own [aa_SN e]; Whole (le24 (aa_VAL e))].
Definition items_result (e : SrResultCode) : list item := [Own [rcd_ResultCode e]].

(** A position: [n] seconds since 2010, raw coordinates, the 16 bits with the speed, the
    direction byte.  The altitude is read from four bytes. *)
Definition items_pos (n lat long w dir : N) (e : SrPosData) : list item :=
  [Shared (le32 n); Shared (le32 lat); Shared (le32 long);
   Own [128 * fl (pd_ALTE e) + 64 * fl (pd_LOHS e) + 32 * fl (pd_LAHS e) + 16 * fl (pd_MV e)
        + 8 * fl (pd_BB e) + 4 * fl (pd_CS e) + 2 * fl (pd_FIX e) + fl (pd_VLD e)];
   Own (le16 w); Own [dir]; Own (le24 (pd_ODM e)); Own [pd_DIN e]; Own [pd_SRC e]]
  ++ when (pd_ALTE e) (Own (le32 (pd_ALT e))).
Record pos_of (n lat long w dir : N) (e : SrPosData) : Prop := {
  po_n : is_u32 n;
  po_lat : is_u32 lat;
  po_long : is_u32 long;
  po_w : is_u16 w;
  po_dir : is_u8 dir;
  po_NTM : pd_NTM e = ((1262304000 + Z.of_N n) * 1000000000)%Z;
  po_LAT : pd_LAT e = coord_decode 90 lat;
  po_LONG : pd_LONG e = coord_decode 180 long;
  po_ALTE : is_flag (pd_ALTE e);
  po_LOHS : is_flag (pd_LOHS e);
  po_LAHS : is_flag (pd_LAHS e);
  po_MV : is_flag (pd_MV e);
  po_BB : is_flag (pd_BB e);
  po_CS : is_flag (pd_CS e);
  po_FIX : is_flag (pd_FIX e);
  po_VLD : is_flag (pd_VLD e);
  po_SPD : pd_SPD e = w mod 16384 / 10;
  po_ALTS : pd_ALTS e = w / 16384 mod 2;
  po_DIRH : pd_DIRH e = w / 32768;
  po_DIR : pd_DIR e = if w <? 32768 then dir else 128 + dir mod 128;
  po_ODM : is_u24 (pd_ODM e);
  po_DIN : is_u8 (pd_DIN e);
  po_SRC : is_u8 (pd_SRC e);
  po_ALT : pd_ALTE e = "1"%string -> is_u32 (pd_ALT e)
}.

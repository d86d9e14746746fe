(** Specification of subrecords in a record and of records: what is on the wire and what a
    receiver gets. *)
From Coq Require Import NArith ZArith String Bool List.
From Verif Require Import GoBase GoFloat SubRecords Records SpecBase SpecSub.
Import ListNotations.
Open Scope N_scope.

Section WithEnv.
Context {E : Env}.

(** [travels d t b d']: the subrecord value [d], sent with type code [t], is the bytes [b] on
    the wire and arrives as [d'].  [d'] is [d] except for the rounding of coordinates (see
    C30) and for what the protobuf codec does. *)
Inductive travels : SubData -> N -> list N -> SubData -> Prop :=
| tr_response d : wf_response d -> travels (DResponse d) 0 (lay_response d) (DResponse d)
| tr_ti d : wf_ti d -> abs_ti SrTermIdentity_zero d -> travels (DTermIdentity d) 1 (lay_ti d) (DTermIdentity d)
| tr_md d : wf_md d -> travels (DModuleData d) 2 (lay_md d) (DModuleData d)
| tr_di d : wf_di d -> travels (DDispatcherIdentity d) 5 (lay_di d) (DDispatcherIdentity d)
| tr_ai d : wf_ai d -> travels (DAuthInfo d) 7 (lay_ai d) (DAuthInfo d)
| tr_result d : wf_result d -> travels (DResultCode d) 9 (lay_result d) (DResultCode d)
| tr_plus m b m' : pb_marshal m = Some b -> pb_unmarshal b = Some m' ->
    travels (DEgtsPlus m) 15 b (DEgtsPlus m')
| tr_pos d : wf_pos d -> abs_pos SrPosData_zero d -> dir_ok d ->
    travels (DPosData d) 16
      (lay_pos (coord_encode 90 (pd_LAT d)) (coord_encode 180 (pd_LONG d)) d)
      (DPosData (set_coords (coord_decode 90 (coord_encode 90 (pd_LAT d)))
                            (coord_decode 180 (coord_encode 180 (pd_LONG d))) d))
| tr_ext d : wf_ext d -> abs_ext SrExtPosData_zero d -> travels (DExtPosData d) 17 (lay_ext d) (DExtPosData d)
| tr_ad d : wf_ad d -> abs_ad SrAdSensorsData_zero d -> palin_ad d ->
    travels (DAdSensors d) 18 (lay_ad d) (DAdSensors d)
| tr_cd d : wf_cd d -> abs_cd SrCountersData_zero d -> cd_CFE2 d = "0"%string ->
    travels (DCounters d) 19 (lay_cd d) (DCounters d)
| tr_sd20 d : wf_sd d -> travels (DState d) 20 (lay_sd d) (DState d)
| tr_sd d : wf_sd d -> travels (DState d) 21 (lay_sd d) (DState d)
| tr_aa d : wf_aa d -> travels (DAbsAnSens d) 24 (lay_aa d) (DAbsAnSens d)
| tr_ac d : wf_ac d -> travels (DAbsCntr d) 25 (lay_ac d) (DAbsCntr d)
| tr_ll d : wf_ll d -> travels (DLiquid d) 27 (lay_ll d) (DLiquid d).

(** The type codes that Encode can supply by itself. *)
Definition has_auto_code (t : N) : Prop := t <> 2 /\ t <> 5 /\ t <> 20.

(** A subrecord: the type field may be left 0 if there is an automatic code, the length
    field may be left 0.  On the wire: type, length (16 bits), data. *)
Inductive sub_travels : RecordData -> list N -> RecordData -> Prop :=
| sub_tr srt srl d t b d' :
    travels d t b d' -> N.of_nat (length b) < 65536 ->
    srt = t \/ (srt = 0 /\ has_auto_code t) ->
    srl = 0 \/ srl = N.of_nat (length b) ->
    sub_travels (mkRecordData srt srl (Some d))
      ([t] ++ le16 (N.of_nat (length b)) ++ b)
      (mkRecordData t (N.of_nat (length b)) (Some d')).

Inductive subs_travel : list RecordData -> list N -> list RecordData -> Prop :=
| subs_nil : subs_travel [] [] []
| subs_cons r w r' l wl l' : sub_travels r w r' -> subs_travel l wl l' ->
    subs_travel (r :: l) (w ++ wl) (r' :: l').

(** A record. *)
Record wf_rec (s : ServiceDataRecord) : Prop := {
  wr_RN : is_u16 (s_RN s);
  wr_SSOD : is_flag (s_SSOD s);
  wr_RSOD : is_flag (s_RSOD s);
  wr_GRP : is_flag (s_GRP s);
  wr_RPP : is_flag2 (s_RPP s);
  wr_TMFE : is_flag (s_TMFE s);
  wr_EVFE : is_flag (s_EVFE s);
  wr_OBFE : is_flag (s_OBFE s);
  wr_OID : if string_dec (s_OBFE s) "1" then is_u32 (s_OID s) else s_OID s = 0;
  wr_EVID : if string_dec (s_EVFE s) "1" then is_u32 (s_EVID s) else s_EVID s = 0;
  wr_TM : if string_dec (s_TMFE s) "1"
          then exists n, is_u32 n /\ s_TM s = ((1262304000 + Z.of_N n) * 1000000000)%Z
          else s_TM s = (-62135596800 * 1000000000)%Z; (* the zero time, 0001-01-01 *)
  wr_SST : is_u8 (s_SST s);
  wr_RST : is_u8 (s_RST s)
}.

(** The record with another length and other contents. *)
Definition fill (rl : N) (rds : list RecordData) (s : ServiceDataRecord) : ServiceDataRecord :=
  mkSDR rl (s_RN s) (s_SSOD s) (s_RSOD s) (s_GRP s) (s_RPP s) (s_TMFE s) (s_EVFE s) (s_OBFE s)
    (s_OID s) (s_EVID s) (s_TM s) (s_SST s) (s_RST s) rds.

(** The bytes of a record whose subrecords are [w]. *)
Definition lay_rec (s : ServiceDataRecord) (w : list N) : list N :=
  le16 (N.of_nat (length w)) ++ le16 (s_RN s)
  ++ [128 * fl (s_SSOD s) + 64 * fl (s_RSOD s) + 32 * fl (s_GRP s) + 8 * fl2 (s_RPP s)
      + 4 * fl (s_TMFE s) + 2 * fl (s_EVFE s) + fl (s_OBFE s)]
  ++ opt (s_OBFE s) (le32 (s_OID s)) ++ opt (s_EVFE s) (le32 (s_EVID s))
  ++ opt (s_TMFE s) (le32 (secs2010 (s_TM s))) ++ [s_SST s; s_RST s] ++ w.

Inductive recs_travel : list ServiceDataRecord -> list N -> list ServiceDataRecord -> Prop :=
| recs_nil : recs_travel [] [] []
| recs_cons s w rds' l wl l' :
    wf_rec s -> subs_travel (s_RD s) w rds' -> N.of_nat (length w) < 65536 ->
    s_RL s = 0 \/ s_RL s = N.of_nat (length w) ->
    recs_travel l wl l' ->
    recs_travel (s :: l) (lay_rec s w ++ wl) (fill (N.of_nat (length w)) rds' s :: l').

(** What a receiver gets from wire bytes in which subrecords of types unknown to the library
    are mixed with the known ones: the unknown ones are skipped. *)
Definition known_types : list N := [0; 1; 2; 5; 7; 9; 15; 16; 17; 18; 19; 20; 21; 24; 25; 27].

Inductive subs_arrive : list N -> list RecordData -> Prop :=
| arr_nil : subs_arrive [] []
| arr_known r w r' wl l' : sub_travels r w r' -> subs_arrive wl l' -> subs_arrive (w ++ wl) (r' :: l')
| arr_unknown t b wl l' : ~ In t known_types -> N.of_nat (length b) < 65536 -> subs_arrive wl l' ->
    subs_arrive (([t] ++ le16 (N.of_nat (length b)) ++ b) ++ wl) l'.

Inductive recs_arrive : list N -> list ServiceDataRecord -> Prop :=
| rarr_nil : recs_arrive [] []
| rarr_cons s w rds' wl l' :
    wf_rec s -> subs_arrive w rds' -> N.of_nat (length w) < 65536 -> recs_arrive wl l' ->
    recs_arrive (lay_rec s w ++ wl) (fill (N.of_nat (length w)) rds' s :: l').

End WithEnv.

(** Specification of what the decoders of record sets and subrecord sets accept: which byte
    strings are read as which records, including strings that end too early. *)
From Coq Require Import NArith ZArith String Bool List.
From Verif Require Import GoBase GoFloat SubRecords Records SpecBase SpecSub SpecRec SpecDec.
Import ListNotations.
Open Scope N_scope.

Section WithEnv.
Context {E : Env}.

(** [means t n b d]: data [b] in a subrecord of type [t] that declares [n] bytes is the value
    [d].  All types but the record confirmation. *)
Inductive means : N -> N -> list N -> SubData -> Prop :=
| mn_ti n b e : wf_ti e -> abs_ti SrTermIdentity_zero e -> received [] (items_ti e) b ->
    means 1 n b (DTermIdentity e)
| mn_md n b e : wf_md e -> received [] (items_md e) b -> means 2 n b (DModuleData e)
| mn_di n b e : wf_di e -> received [] (items_di e) b -> means 5 n b (DDispatcherIdentity e)
| mn_ai n b e : wf_ai e -> received [] (items_ai3 e) b \/ ai_SS e = ""%string /\ received [] (items_ai2 e) b ->
    means 7 n b (DAuthInfo e)
| mn_result n b e : wf_result e -> received [] (items_result e) b -> means 9 n b (DResultCode e)
| mn_plus n b m : pb_unmarshal b = Some m -> means 15 n b (DEgtsPlus m)
| mn_pos n b e k lat long w dir : pos_of k lat long w dir e -> abs_pos SrPosData_zero e ->
    received [0; 0; 0; 0] (items_pos k lat long w dir e) b -> means 16 n b (DPosData e)
| mn_ext n b e hi : wf_ext e -> abs_ext SrExtPosData_zero e -> hi < 8 -> received [0; 0] (items_ext hi e) b ->
    means 17 n b (DExtPosData e)
| mn_ad n b e : wf_ad e -> abs_ad SrAdSensorsData_zero e -> received [0; 0; 0] (items_ad e) b ->
    means 18 n b (DAdSensors e)
| mn_cd n b e : wf_cd e -> abs_cd SrCountersData_zero e -> received [0; 0; 0] (items_cd e) b ->
    means 19 n b (DCounters (second_is_first SrCountersData_zero e))
| mn_sd20 b e hi : wf_sd e -> hi < 32 -> received [] (items_sd hi e) b -> means 20 5 b (DState e)
| mn_sd n b e hi : wf_sd e -> hi < 32 -> received [] (items_sd hi e) b -> means 21 n b (DState e)
| mn_aa n b e : wf_aa e -> received [] (items_aa e) b -> means 24 n b (DAbsAnSens e)
| mn_ac n b e : wf_ac e -> received [] (items_ac e) b -> means 25 n b (DAbsCntr e)
| mn_ll n b e hi : wf_ll e -> hi < 2 -> received [] (items_ll hi e) b -> means 27 n b (DLiquid e).

(** The two-byte length of a subrecord in front of [c].  If only one byte is left, it is the
    length. *)
Inductive size_field : N -> list N -> list N -> Prop :=
| sz_full n c : is_u16 n -> size_field n (le16 n ++ c) c
| sz_cut n : is_u8 n -> size_field n [n] [].

(** [next n c b r]: the next [n] bytes of [c], or all if there are fewer, are [b]; [r] is
    what follows. *)
Inductive next : N -> list N -> list N -> list N -> Prop :=
| nx_all n b r : N.of_nat (length b) = n -> next n (b ++ r) b r
| nx_cut n b : N.of_nat (length b) < n -> next n b b [].

(** [content n c w r]: behind the header of a record that declares [n] bytes comes [c], of
    which [w] is taken for its subrecords, and [r] follows.  If nothing follows the header
    there are no subrecords, whatever [n] is; if some but fewer than [n] bytes follow, zero
    bytes are added. *)
Inductive content : N -> list N -> list N -> list N -> Prop :=
| ct_none n : content n [] [] []
| ct_all n w r : w ++ r <> [] -> N.of_nat (length w) = n -> content n (w ++ r) w r
| ct_cut n c m : c <> [] -> Forall (eq 0) m -> m <> [] -> N.of_nat (length (c ++ m)) = n -> content n c (c ++ m) [].

(** The header of a record. *)
Definition lay_head (s : ServiceDataRecord) : list N :=
  le16 (s_RL s) ++ le16 (s_RN s)
  ++ [128 * fl (s_SSOD s) + 64 * fl (s_RSOD s) + 32 * fl (s_GRP s) + 8 * fl2 (s_RPP s)
      + 4 * fl (s_TMFE s) + 2 * fl (s_EVFE s) + fl (s_OBFE s)]
  ++ opt (s_OBFE s) (le32 (s_OID s)) ++ opt (s_EVFE s) (le32 (s_EVID s))
  ++ opt (s_TMFE s) (le32 (secs2010 (s_TM s))) ++ [s_SST s; s_RST s].

(** The bytes [b] are read as the records (subrecords) [l]. *)
Inductive reads_recs : list N -> list ServiceDataRecord -> Prop :=
| rr_nil : reads_recs [] []
| rr_rec s c w r l : wf_rec s -> is_u16 (s_RL s) -> content (s_RL s) c w r ->
    reads_subs w (s_RD s) -> reads_recs r l ->
    reads_recs (lay_head s ++ c) (s :: l)
with reads_subs : list N -> list RecordData -> Prop :=
| rs_nil : reads_subs [] []
| rs_known t n z c b r d l : size_field n z c -> next n c b r -> means t n b d -> reads_subs r l ->
    reads_subs (t :: z) (mkRecordData t n (Some d) :: l)
| rs_response n z c d q k r l : size_field n z c -> next n c (lay_response d ++ q) r ->
    wf_response d -> reads_recs q k -> reads_subs r l ->
    reads_subs (0 :: z) (mkRecordData 0 n (Some (DResponse d)) :: l)
| rs_unknown t n z c b r l : size_field n z c -> next n c b r -> ~ In t known_types -> reads_subs r l ->
    reads_subs (t :: z) l.

End WithEnv.

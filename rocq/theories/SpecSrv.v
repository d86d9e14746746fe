(** Specification of the receiver: how a byte stream is cut into frames, what is to be saved for
    a record and what is to be answered to a packet. *)
From Coq Require Import NArith ZArith String Ascii Bool List.
From Verif Require Import GoBase GoFloat SubRecords Records Package Storage Server SpecBase SpecCrc SpecPkg.
Import ListNotations.
Open Scope N_scope.

(** ** Observations *)
Definition saves (evs : list event) : list (NavRecord * bool) :=
  flat_map (fun e => match e with EvSave r ok => [(r, ok)] | EvWrite _ => [] end) evs.
Definition writes (evs : list event) : list (list N) :=
  flat_map (fun e => match e with EvSave _ _ => [] | EvWrite b => [b] end) evs.

(** What has been observed when the program is stopped at an arbitrary point. *)
Inductive partial_run {A : Type} : prog A -> list event -> Prop :=
| pr_stop p : partial_run p []
| pr_now z k evs : partial_run (k z) evs -> partial_run (Now k) evs
| pr_alloc s k evs : bytes_ok s -> partial_run (k s) evs -> partial_run (Alloc k) evs
| pr_save r ok k evs : partial_run (k ok) evs -> partial_run (Save r k) (EvSave r ok :: evs)
| pr_write b k evs : partial_run k evs -> partial_run (Write b k) (EvWrite b :: evs).

(** ** Cutting a stream into frames *)
(** The length a frame declares, and the number of bytes the receiver takes for it. *)
Definition frame_length (s : list N) : N :=
  byte_at s 3 + if word_at s 5 =? 0 then 0 else word_at s 5 + 2.
Definition taken (s : list N) : nat := N.to_nat (10 + (frame_length s + 65526) mod 65536).

Inductive cuts : list N -> list (list N) -> stop -> Prop :=
| cut_eof : cuts [] [] StopEof
| cut_short s : (0 < length s < 10)%nat -> cuts s [] StopReadErr
| cut_alien s : (10 <= length s)%nat -> byte_at s 0 <> 1 -> cuts s [] StopNotEgts
| cut_truncated s : (10 <= length s < taken s)%nat -> byte_at s 0 = 1 -> cuts s [] StopReadErr
| cut_frame s fs e : (taken s <= length s)%nat -> byte_at s 0 = 1 ->
    cuts (skipn (taken s) s) fs e -> cuts s (firstn (taken s) s :: fs) e.

Section WithEnv.
Context {E : Env}.

(** Handling frames one after another. *)
Fixpoint handle_all (client : N) (frames : list (list N)) : prog N :=
  match frames with
  | [] => Ret client
  | f :: fs => pbind (handle_packet client f) (fun client' => handle_all client' fs)
  end.

(** The runs on one packet in which the slice with the packet has [spare] behind it and the
    clock shows [now]. *)
Definition handled (spare : list N) (now : Z) (client : N) (c : list N) (evs : list event) (o : option N) : Prop :=
  match handle_packet client c with
  | Alloc k => match k spare with Now k' => runs (k' now) evs o | _ => False end
  | _ => False
  end.

(** ** Contents of a record *)
Definition subs (r : ServiceDataRecord) : list SubData :=
  flat_map (fun s => match rd_SRD s with Some d => [d] | None => [] end) (s_RD r).

(** The last element on which [f] is defined. *)
Fixpoint last_of {A B : Type} (f : A -> option B) (l : list A) : option B :=
  match l with
  | [] => None
  | a :: l' => match last_of f l' with Some b => Some b | None => f a end
  end.

Definition the_pos (d : SubData) := match d with DPosData x => Some x | _ => None end.
Definition the_ext (d : SubData) := match d with DExtPosData x => Some x | _ => None end.
Definition the_tid (d : SubData) := match d with DTermIdentity x => Some (ti_TID x) | _ => None end.
Definition is_response (d : SubData) : Prop := match d with DResponse _ => True | _ => False end.
Definition is_auth (d : SubData) : Prop := match d with DTermIdentity _ | DAuthInfo _ => True | _ => False end.

Definition has_position (r : ServiceDataRecord) : Prop := exists x, In (DPosData x) (subs r).
Definition confirms_something (r : ServiceDataRecord) : Prop := exists d, In d (subs r) /\ is_response d.

(** The analog sensors of a subrecord: number and value of those present. *)
Definition analogs (d : SubData) : list AnSensor :=
  match d with
  | DAdSensors x =>
      flat_map (fun t => let '(i, f, v) := t in if string_dec f "1" then [mkAnSensor i v] else [])
        [(1, ad_ASFE1 x, ad_ANS1 x); (2, ad_ASFE2 x, ad_ANS2 x); (3, ad_ASFE3 x, ad_ANS3 x); (4, ad_ASFE4 x, ad_ANS4 x);
         (5, ad_ASFE5 x, ad_ANS5 x); (6, ad_ASFE6 x, ad_ANS6 x); (7, ad_ASFE7 x, ad_ANS7 x); (8, ad_ASFE8 x, ad_ANS8 x)]
  | DAbsAnSens x => [mkAnSensor (aa_SN x) (aa_VAL x)]
  | _ => []
  end.

(** The liquid level sensor in a subrecord: millimetres for units 00 and 01, litres (tenfold)
    for unit 10. *)
Definition liquid_reading (x : SrLiquidLevelSensor) (s : LiquidSensor) : Prop :=
  ls_SensorNumber s = ll_LLSN x /\ ls_ErrorFlag s = ll_LLSEF x
  /\ (ll_LLSVU x = "00"%string \/ ll_LLSVU x = "01"%string -> ls_ValueMm s = ll_LLSD x /\ ls_ValueL s = 0)
  /\ (ll_LLSVU x = "10"%string -> ls_ValueMm s = 0 /\ ls_ValueL s = (10 * ll_LLSD x) mod 4294967296)
  /\ (ll_LLSVU x = "11"%string -> ls_ValueMm s = 0 /\ ls_ValueL s = 0).
Definition the_liquid (d : SubData) : list SrLiquidLevelSensor := match d with DLiquid x => [x] | _ => [] end.

(** The counters with the two parts of the packet number. *)
Definition the_cntr (d : SubData) : list (N * N) :=
  match d with
  | DAbsCntr x => if (ac_CN x =? 110) || (ac_CN x =? 111) then [(ac_CN x, ac_CNV x)] else []
  | _ => []
  end.

(** [saved now client r nav]: [nav] is record [r] of client [client], received at [now]. *)
Record saved (now : Z) (client : N) (r : ServiceDataRecord) (nav : NavRecord) : Prop := {
  sv_client : nr_Client nav = client;
  sv_pos : exists x, last_of the_pos (subs r) = Some x
    /\ nr_NavigationTimestamp nav = (pd_NTM x / 1000000000)%Z
    /\ nr_Latitude nav = pd_LAT x /\ nr_Longitude nav = pd_LONG x
    /\ nr_Speed nav = pd_SPD x /\ nr_Course nav = pd_DIR x;
  sv_received : nr_ReceivedTimestamp nav = now;
  sv_ext : (nr_Vdop nav, nr_Hdop nav, nr_Pdop nav, nr_Nsat nav, nr_Ns nav)
    = match last_of the_ext (subs r) with
      | Some x => (ep_VDOP x, ep_HDOP x, ep_PDOP x, ep_SAT x, ep_NS x)
      | None => (0, 0, 0, 0, 0)
      end;
  sv_analog : nr_AnSensors nav = flat_map analogs (subs r);
  sv_liquid : Forall2 liquid_reading (flat_map the_liquid (subs r)) (nr_LiquidSensors nav)
}.

(** The identity given by record [r] of which the subrecords [ds] have been seen: the last
    terminal identity, otherwise the object id of the record. *)
Definition identity (r : ServiceDataRecord) (ds : list SubData) : option N :=
  match last_of the_tid ds with
  | Some t => Some t
  | None => if string_dec (s_OBFE r) "1" then Some (s_OID r) else None
  end.
Definition or_else (o : option N) (c : N) : N := match o with Some t => t | None => c end.

(** The client after a record, if it was [c] before. *)
Definition client_after (c : N) (r : ServiceDataRecord) : N := or_else (identity r (subs r)) c.

(** The records to be saved, each with its client, and the client at the end. *)
Inductive to_save : N -> list ServiceDataRecord -> list (N * ServiceDataRecord) -> N -> Prop :=
| ts_nil c : to_save c [] [] c
| ts_pos c r l s c' : has_position r -> to_save (client_after c r) l s c' ->
    to_save c (r :: l) ((client_after c r, r) :: s) c'
| ts_other c r l s c' : ~ has_position r -> to_save (client_after c r) l s c' -> to_save c (r :: l) s c'.

(** The same for a whole stream of frames, of which each may be a packet that is rejected, a
    response, a data packet, or a data packet with a record confirmation, which is processed up
    to that confirmation only. *)
Definition decodes (f : list N) (p : Package) (ok : bool) : Prop :=
  exists spare code, is_bytes spare /\ pkg_decode None Package_zero f spare = DRet p code ok.
Definition data_packet (f : list N) (l : list ServiceDataRecord) : Prop :=
  exists p, decodes f p true /\ p_PT p = 1 /\ p_SFRD p = Some (BSds l).
Definition no_confirmation (l : list ServiceDataRecord) : Prop := forall r, In r l -> ~ confirms_something r.

Inductive history : N -> list (list N) -> list (N * ServiceDataRecord) -> N -> Prop :=
| hi_nil c : history c [] [] c
| hi_rejected c f fs p s c' : decodes f p false -> history c fs s c' -> history c (f :: fs) s c'
| hi_response c f fs p s c' : decodes f p true -> p_PT p = 0 -> history c fs s c' -> history c (f :: fs) s c'
| hi_data c f fs l s1 c1 s2 c2 : data_packet f l -> no_confirmation l -> to_save c l s1 c1 ->
    history c1 fs s2 c2 -> history c (f :: fs) (s1 ++ s2) c2
| hi_confirmation c f fs l1 r l2 ds d ds' s1 c1 s2 c2 : data_packet f (l1 ++ r :: l2) -> no_confirmation l1 ->
    subs r = ds ++ d :: ds' -> (forall x, In x ds -> ~ is_response x) -> is_response d -> to_save c l1 s1 c1 ->
    history (or_else (identity r ds) c1) fs s2 c2 -> history c (f :: fs) (s1 ++ s2) c2.

(** One round per frame, each observed on its own; a panic ends everything. *)
Inductive session : N -> list (list N) -> list (list event) -> option N -> Prop :=
| se_end c : session c [] [] (Some c)
| se_panic c f fs evs : runs (handle_packet c f) evs None -> session c (f :: fs) [evs] None
| se_frame c f fs evs c' es o : runs (handle_packet c f) evs (Some c') -> session c' fs es o -> session c (f :: fs) (evs :: es) o.

(** ** Answers *)
(** [b] is a response packet for packet number [pid] with result [code] and a confirmation with
    status 0 for each record of [l]; the library itself decodes it, wherever it is stored. *)
Definition answer (pid code : N) (l : list ServiceDataRecord) (b : list N) : Prop :=
  is_bytes b /\ forall spare, exists p sdr,
    pkg_decode None Package_zero b spare = DRet p 0 true
    /\ p_PT p = 0 /\ p_PID p = (pid + 1) mod 65536
    /\ p_SFRD p = Some (BResp (mkPtResponse pid code sdr))
    /\ match l with
       | [] => sdr = None
       | _ => exists r, sdr = Some [r]
              /\ s_RD r = map (fun x => mkRecordData 0 3 (Some (DResponse (mkSrResponse (s_RN x) 0)))) l
       end.

(** [b] is a packet with a body of one record (service 1) with one result code, [code]. *)
Definition result_code_body (code : N) : list N := [4; 0; 1; 0; 32; 1; 1; 9; 1; 0; code].
Definition result_packet (pid code : N) (b : list N) : Prop :=
  exists h, b = h ++ [checksum8 h] ++ result_code_body code ++ le16 (checksum16 (result_code_body code))
  /\ h = [1; 0; 0; 11; 0; 11; 0] ++ le16 ((pid + 1) mod 65536) ++ [0].

End WithEnv.

(** Model of cli/receiver/server/server.go.  Definitions only. *)
From Coq Require Import NArith ZArith String List Bool.
From Verif Require Import GoBase GoFloat SubRecords Records Package Storage.
Import ListNotations.
Open Scope N_scope.
Open Scope go_scope.

(** ** Effects.  A handler is a program that may ask for the current time, learn how much
    spare capacity a freshly appended slice has, save a record (and learn whether the
    repository returned an error) and write to its connection.  [Crash] is a run-time
    panic, which ends the whole process.  Errors of conn.Write are ignored by the code
    ([_, _ = conn.Write]) and not modelled; logging is not modelled. *)
Inductive prog (A : Type) : Type :=
| Ret (a : A)
| Now (k : Z -> prog A)
| Alloc (k : bytes -> prog A)
| Save (r : NavRecord) (k : bool -> prog A)
| Write (b : bytes) (k : prog A)
| Crash.
Arguments Ret {A} a.
Arguments Now {A} k.
Arguments Alloc {A} k.
Arguments Save {A} r k.
Arguments Write {A} b k.
Arguments Crash {A}.

Fixpoint pbind {A B : Type} (p : prog A) (f : A -> prog B) : prog B :=
  match p with
  | Ret a => f a
  | Now k => Now (fun z => pbind (k z) f)
  | Alloc k => Alloc (fun s => pbind (k s) f)
  | Save r k => Save r (fun ok => pbind (k ok) f)
  | Write b k => Write b (pbind k f)
  | Crash => Crash
  end.

(** Observable events of a connection handler. *)
Inductive event : Type :=
| EvSave (r : NavRecord) (ok : bool)
| EvWrite (b : bytes).

(** Complete runs: the events and the result ([None] for a panic), for arbitrary answers of
    the environment. *)
Inductive runs {A : Type} : prog A -> list event -> option A -> Prop :=
| runs_ret a : runs (Ret a) [] (Some a)
| runs_crash : runs Crash [] None
| runs_now z k evs o : runs (k z) evs o -> runs (Now k) evs o
| runs_alloc s k evs o : bytes_ok s -> runs (k s) evs o -> runs (Alloc k) evs o
| runs_save r ok k evs o : runs (k ok) evs o -> runs (Save r k) (EvSave r ok :: evs) o
| runs_write b k evs o : runs k evs o -> runs (Write b k) (EvWrite b :: evs) o.

Section WithEnv.
Context {E : Env}.

(** createPtResponse, server.go:307-349.  The nil-ness of srResponses (line 313) is the
    emptiness of the list: the caller passes nil or a slice built by append. *)
Definition createPtResponse (pid resultCode serviceType : N) (srResponses : RecordDataSet) : res bytes :=
  do sdr <- match srResponses with
            | [] => Ok None
            | _ :: _ =>
                do rl <- rds_length srResponses ;;
                Ok (Some [mkSDR rl 1 "0" "0" "1" "00" "0" "0" "0" 0 0 t_zero serviceType serviceType srResponses])
            end ;;
  let respSection := mkPtResponse pid resultCode sdr in
  do fdl <- PtResponse_length respSection ;;
  let respPkg := mkPackage 1 0 "00" "0" "00" "0" "00" 11 0 fdl (u16 (pid + 1)) PtResponsePacket
                   0 0 0 0 (Some (BResp respSection)) 0 in
  snd (pkg_encode None respPkg).

(** createSrResultCode, server.go:351-396.  egts.AuthService is 1 (const_types.go:67). *)
Definition createSrResultCode (pid resultCode : N) : res bytes :=
  let rds := [mkRecordData SrResultCodeType 1 (Some (DResultCode (mkSrResultCode resultCode)))] in
  do rl <- rds_length rds ;;
  let sfd := [mkSDR rl 1 "0" "0" "1" "00" "0" "0" "0" 0 0 t_zero 1 1 rds] in
  do fdl <- sds_length sfd ;;
  let respPkg := mkPackage 1 0 "00" "0" "00" "0" "00" 11 0 fdl (u16 (pid + 1)) PtResponsePacket
                   0 0 0 0 (Some (BSds sfd)) 0 in
  snd (pkg_encode None respPkg).

(** The variables of handleConn that the subrecord loop (server.go:163-269) updates. *)
Record recst := mkRecst {
  rs_client : N;
  rs_export : NavRecord;
  rs_save : bool;
  rs_rcp : bytes;       (* srResultCodePkg; nil is [] *)
  rs_pidb : bytes       (* packetIDBytes *)
}.

(** storage.NavRecord{PacketID: uint32(pkg.PacketIdentifier)}, server.go:140-142 *)
Definition nav0 (pid : N) : NavRecord :=
  mkNavRecord 0 pid 0 0 f64_zero f64_zero 0 0 0 0 0 0 0 [] [].

(** Assignments to exportPacket, server.go:186-191, :194-198, :203 etc., :239, :267, :271. *)
Definition nav_pos (now : Z) (d : SrPosData) (n : NavRecord) : NavRecord :=
  mkNavRecord (nr_Client n) (nr_PacketID n) (t_unix (pd_NTM d)) now (pd_LAT d) (pd_LONG d) (pd_SPD d)
    (nr_Pdop n) (nr_Hdop n) (nr_Vdop n) (nr_Nsat n) (nr_Ns n) (pd_DIR d) (nr_AnSensors n) (nr_LiquidSensors n).
Definition nav_ext (d : SrExtPosData) (n : NavRecord) : NavRecord :=
  mkNavRecord (nr_Client n) (nr_PacketID n) (nr_NavigationTimestamp n) (nr_ReceivedTimestamp n)
    (nr_Latitude n) (nr_Longitude n) (nr_Speed n)
    (ep_PDOP d) (ep_HDOP d) (ep_VDOP d) (ep_SAT d) (ep_NS d) (nr_Course n) (nr_AnSensors n) (nr_LiquidSensors n).
Definition nav_an (l : list AnSensor) (n : NavRecord) : NavRecord :=
  mkNavRecord (nr_Client n) (nr_PacketID n) (nr_NavigationTimestamp n) (nr_ReceivedTimestamp n)
    (nr_Latitude n) (nr_Longitude n) (nr_Speed n)
    (nr_Pdop n) (nr_Hdop n) (nr_Vdop n) (nr_Nsat n) (nr_Ns n) (nr_Course n)
    (nr_AnSensors n ++ l)%list (nr_LiquidSensors n).
Definition nav_liquid (l : LiquidSensor) (n : NavRecord) : NavRecord :=
  mkNavRecord (nr_Client n) (nr_PacketID n) (nr_NavigationTimestamp n) (nr_ReceivedTimestamp n)
    (nr_Latitude n) (nr_Longitude n) (nr_Speed n)
    (nr_Pdop n) (nr_Hdop n) (nr_Vdop n) (nr_Nsat n) (nr_Ns n) (nr_Course n)
    (nr_AnSensors n) (nr_LiquidSensors n ++ [l])%list.
Definition nav_pid (v : N) (n : NavRecord) : NavRecord :=
  mkNavRecord (nr_Client n) v (nr_NavigationTimestamp n) (nr_ReceivedTimestamp n)
    (nr_Latitude n) (nr_Longitude n) (nr_Speed n)
    (nr_Pdop n) (nr_Hdop n) (nr_Vdop n) (nr_Nsat n) (nr_Ns n) (nr_Course n) (nr_AnSensors n) (nr_LiquidSensors n).
Definition nav_client (v : N) (n : NavRecord) : NavRecord :=
  mkNavRecord v (nr_PacketID n) (nr_NavigationTimestamp n) (nr_ReceivedTimestamp n)
    (nr_Latitude n) (nr_Longitude n) (nr_Speed n)
    (nr_Pdop n) (nr_Hdop n) (nr_Vdop n) (nr_Nsat n) (nr_Ns n) (nr_Course n) (nr_AnSensors n) (nr_LiquidSensors n).

(** The appends of server.go:202-227. *)
Definition an_of_ad (d : SrAdSensorsData) : list AnSensor :=
  ((if is1 (ad_ASFE1 d) then [mkAnSensor 1 (ad_ANS1 d)] else [])
   ++ (if is1 (ad_ASFE2 d) then [mkAnSensor 2 (ad_ANS2 d)] else [])
   ++ (if is1 (ad_ASFE3 d) then [mkAnSensor 3 (ad_ANS3 d)] else [])
   ++ (if is1 (ad_ASFE4 d) then [mkAnSensor 4 (ad_ANS4 d)] else [])
   ++ (if is1 (ad_ASFE5 d) then [mkAnSensor 5 (ad_ANS5 d)] else [])
   ++ (if is1 (ad_ASFE6 d) then [mkAnSensor 6 (ad_ANS6 d)] else [])
   ++ (if is1 (ad_ASFE7 d) then [mkAnSensor 7 (ad_ANS7 d)] else [])
   ++ (if is1 (ad_ASFE8 d) then [mkAnSensor 8 (ad_ANS8 d)] else []))%list.

(** server.go:255-265; the multiplication is in uint32. *)
Definition liquid_of (d : SrLiquidLevelSensor) : LiquidSensor :=
  if String.eqb (ll_LLSVU d) "00" || String.eqb (ll_LLSVU d) "01"
  then mkLiquidSensor (ll_LLSN d) (ll_LLSEF d) (ll_LLSD d) 0
  else if String.eqb (ll_LLSVU d) "10"
  then mkLiquidSensor (ll_LLSN d) (ll_LLSEF d) 0 (u32 (ll_LLSD d * 10))
  else mkLiquidSensor (ll_LLSN d) (ll_LLSEF d) 0 0.

(** server.go:235-252: packetIDBytes and the packet id.  binary.BigEndian.PutUint32 is the
    reverse of the little-endian one; packetIDBytes always has length 4. *)
Definition cntr_update (d : SrAbsCntrData) (pidb : bytes) (n : NavRecord) : bytes * NavRecord :=
  if ac_CN d =? 110 then (rev (le_bytes 4 (ac_CNV d)), nav_pid (ac_CNV d) n)
  else if ac_CN d =? 111 then
    let pidb := (firstn 3 pidb ++ [u8 (ac_CNV d)])%list in
    (pidb, nav_pid (le_num pidb) n)
  else (pidb, n).

(** One iteration of the subrecord loop, server.go:163-269.  [None] is [goto Received]
    (line 181).  If building the result-code packet fails its bytes are nil. *)
Definition sub_step (pid : N) (now : Z) (sub : RecordData) (st : recst) : option recst :=
  let rcp := match createSrResultCode pid 0 with Ok b => b | _ => [] end in
  match rd_SRD sub with
  | Some (DTermIdentity d) =>
      Some (mkRecst (ti_TID d) (rs_export st) (rs_save st) rcp (rs_pidb st))
  | Some (DAuthInfo _) =>
      Some (mkRecst (rs_client st) (rs_export st) (rs_save st) rcp (rs_pidb st))
  | Some (DResponse _) => None
  | Some (DPosData d) =>
      Some (mkRecst (rs_client st) (nav_pos now d (rs_export st)) true (rs_rcp st) (rs_pidb st))
  | Some (DExtPosData d) =>
      Some (mkRecst (rs_client st) (nav_ext d (rs_export st)) (rs_save st) (rs_rcp st) (rs_pidb st))
  | Some (DAdSensors d) =>
      Some (mkRecst (rs_client st) (nav_an (an_of_ad d) (rs_export st)) (rs_save st) (rs_rcp st) (rs_pidb st))
  | Some (DAbsAnSens d) =>
      Some (mkRecst (rs_client st) (nav_an [mkAnSensor (aa_SN d) (aa_VAL d)] (rs_export st))
              (rs_save st) (rs_rcp st) (rs_pidb st))
  | Some (DAbsCntr d) =>
      let (pidb, n) := cntr_update d (rs_pidb st) (rs_export st) in
      Some (mkRecst (rs_client st) n (rs_save st) (rs_rcp st) pidb)
  | Some (DLiquid d) =>
      Some (mkRecst (rs_client st) (nav_liquid (liquid_of d) (rs_export st)) (rs_save st) (rs_rcp st) (rs_pidb st))
  | _ => Some st
  end.

(** The subrecord loop; the second component is true when it was left by [goto Received]. *)
Fixpoint subs_loop (pid : N) (now : Z) (subs : RecordDataSet) (st : recst) : recst * bool :=
  match subs with
  | [] => (st, false)
  | s :: subs' =>
      match sub_step pid now s st with
      | None => (st, true)
      | Some st' => subs_loop pid now subs' st'
      end
  end.

(** The confirmation appended for a record, server.go:147-154. *)
Definition confirm (rec : ServiceDataRecord) : RecordData :=
  mkRecordData SrRecordResponseType 3 (Some (DResponse (mkSrResponse (s_RN rec) 0))).

(** The record loop and the answer, server.go:139-291.  [resps] is srResponsesRecord, [svc]
    serviceType, [rcp] srResultCodePkg.  Returns the client identifier that the next packet
    starts with. *)
Fixpoint recs_loop (pid : N) (now : Z) (code : N) (recs : ServiceDataSet)
  (client : N) (resps : RecordDataSet) (svc : N) (rcp : bytes) : prog N :=
  match recs with
  | [] =>
      match createPtResponse pid code svc resps with
      | Ok resp =>
          Write resp (if 0 <? len rcp then Write rcp (Ret client) else Ret client)
      | Err => Ret client
      | _ => Crash
      end
  | rec :: recs' =>
      let resps := (resps ++ [confirm rec])%list in
      let svc := s_SST rec in
      let client := if is1 (s_OBFE rec) then s_OID rec else client in
      match subs_loop pid now (s_RD rec) (mkRecst client (nav0 pid) false rcp (zeros 4)) with
      | (st, true) => Ret (rs_client st)
      | (st, false) =>
          let nav := nav_client (rs_client st) (rs_export st) in
          let next := recs_loop pid now code recs' (rs_client st) resps svc (rs_rcp st) in
          if rs_save st
          then Save nav (fun ok => if ok then next else (* only logged, lines 273-275 *) next)
          else next
      end
  end.

(** Handling of one received packet, server.go:118-294.  pkg.Decode gets no secret key.  A
    failed type assertion (line 139) would panic. *)
Definition handle_packet (client : N) (recv : bytes) : prog N :=
  Alloc (fun spare =>
  Now (fun now =>
  match pkg_decode None Package_zero recv spare with
  | DPanic | DFuel => Crash
  | DRet pkg code false =>
      match createPtResponse (p_PID pkg) code 0 [] with
      | Ok resp => Write resp (Ret client)
      | Err => Ret client
      | _ => Crash
      end
  | DRet pkg code true =>
      if p_PT pkg =? PtAppdataPacket then
        match p_SFRD pkg with
        | Some (BSds recs) => recs_loop (p_PID pkg) now code recs client [] 0 []
        | _ => Crash
        end
      else Ret client
  end)).

(** ** Reading from the connection.  The connection delivers a list of chunks, one per
    conn.Read; the end of the list is the end of the stream. *)

(** io.ReadFull(conn, buf) with len(buf) = n: the bytes read and the rest of the stream.
    Fewer than n bytes means an error (EOF if none, unexpected EOF otherwise). *)
Fixpoint read_full (n : nat) (cs : list bytes) : bytes * list bytes :=
  match cs with
  | [] => ([], [])
  | c :: cs' =>
      match n with
      | O => ([], cs)
      | _ =>
          if Nat.leb (length c) n
          then let (g, r) := read_full (n - length c) cs' in (c ++ g, r)%list
          else (firstn n c, skipn n c :: cs')
      end
  end.

(** The result of one round of reading, server.go:80-116. *)
Inductive frame : Type :=
| FPacket (recv : bytes) (rest : list bytes)
| FEof          (* EOF before a header: waits for the timer, then returns (lines 109-112) *)
| FNotEgts      (* first byte is not 1 (lines 89-92) *)
| FReadErr.     (* truncated header or body (lines 102-105, 113-115) *)

(** pkgLen - headerLen in uint16 arithmetic, server.go:95-101 (headerLen is 10). *)
Definition rest_len (headerBuf : bytes) : N :=
  let bodyLen := le_num (firstn 2 (skipn 5 headerBuf)) in
  let pkgLen := nth 3 headerBuf 0 in
  let pkgLen := if 0 <? bodyLen then u16 (pkgLen + u16 (bodyLen + 2)) else pkgLen in
  u16 (pkgLen + 65536 - 10).

(** server.go:80-116 *)
Definition next_frame (cs : list bytes) : frame :=
  let (headerBuf, cs) := read_full 10 cs in
  if (length headerBuf =? 0)%nat then FEof
  else if negb (length headerBuf =? 10)%nat then FReadErr
  else if negb (nth 0 headerBuf 0 =? 1) then FNotEgts
  else
    let n := N.to_nat (rest_len headerBuf) in
    let (buf, cs) := read_full n cs in
    if (length buf =? n)%nat then FPacket (headerBuf ++ buf)%list cs else FReadErr.

(** Why a handler returned. *)
Inductive stop : Type := StopEof | StopNotEgts | StopReadErr | StopFuel.

(** The loop of handleConn, server.go:71-296; [n] bounds the number of packets.  The check
    for a nil repository (lines 65-68) is not modelled: main always passes one. *)
Fixpoint conn_loop (n : nat) (client : N) (cs : list bytes) : prog stop :=
  match n with
  | O => Ret StopFuel
  | S n' =>
      match next_frame cs with
      | FEof => Ret StopEof
      | FNotEgts => Ret StopNotEgts
      | FReadErr => Ret StopReadErr
      | FPacket recv rest =>
          pbind (handle_packet client recv) (fun client' => conn_loop n' client' rest)
      end
  end.

(** handleConn, server.go:53-297, on a whole input stream; every packet takes at least ten
    bytes of it.  [client] starts as 0 (line 62). *)
Definition handle_conn (cs : list bytes) : prog stop := conn_loop (S (length (concat cs))) 0 cs.

End WithEnv.

(** ** The accept loop, server.go:35-42: what Accept returned, and whether Run has returned
    after consuming these results. *)
Inductive accept_result (C : Type) : Type := AcceptConn (c : C) | AcceptErr.
Arguments AcceptConn {C} c.
Arguments AcceptErr {C}.

Inductive run_status := RunReturned | RunLooping.

(** The connections handed to handleConn, and the status of Run. *)
Fixpoint accept_loop {C : Type} (results : list (accept_result C)) : list C * run_status :=
  match results with
  | [] => ([], RunLooping)
  | AcceptErr :: rs => accept_loop rs
  | AcceptConn c :: rs => let (l, s) := accept_loop rs in (c :: l, s)
  end.

(** ** The timer of a connection, server.go:78-112.  What can happen to a handler that is
    waiting in io.ReadFull for a header: bytes arrive, time passes, the peer closes.
    connTimer.C is only received from after EOF (line 110). *)
Inductive conn_phase :=
| PhReading (got : bytes) (elapsed : Z)
| PhWaitTimer (remaining : Z)
| PhPacket (hdr : bytes)
| PhClosed.
Inductive conn_event := CeData (b : N) | CeTime (ns : Z) | CeEof.

Definition conn_step (ttl : Z) (ph : conn_phase) (e : conn_event) : conn_phase :=
  match ph, e with
  | PhReading got el, CeData b =>
      if (length got =? 9)%nat then PhPacket (got ++ [b]) else PhReading (got ++ [b]) el
  | PhReading got el, CeTime ns => PhReading got (el + ns)
  | PhReading [] el, CeEof => if (ttl <=? el)%Z then PhClosed else PhWaitTimer (ttl - el)
  | PhReading _ _, CeEof => PhClosed
  | PhWaitTimer rem, CeTime ns => if (rem <=? ns)%Z then PhClosed else PhWaitTimer (rem - ns)
  | _, _ => ph
  end.

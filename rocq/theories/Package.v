(** Model of libs/egts/egts_pkg.go and the result codes of errors.go.  Definitions only. *)
From Coq Require Import NArith ZArith String List Bool.
From Verif Require Import GoBase GoFloat Crc SubRecords Records.
Import ListNotations.
Open Scope N_scope.
Open Scope go_scope.

(** errors.go:4, :13, :19, :22, :25, :37, :40 *)
Definition egtsPcOk : N := 0.
Definition egtsPcDecryptError : N := 129.
Definition egtsPcIncHeaderform : N := 131.
Definition egtsPcIncDataform : N := 132.
Definition egtsPcUnsType : N := 133.
Definition egtsPcHeaderCrcError : N := 137.
Definition egtsPcDatacrcError : N := 138.

(** const_types.go:61 and :64 *)
Definition PtAppdataPacket : N := 1.
Definition PtResponsePacket : N := 0.

(** egts_pkg.go:11 *)
Definition DEFAULT_HEADER_LEN : N := 11.

(** SecretKey, egts_pkg.go:37-40: arbitrary user code; [None] is an error. *)
Record SecretKey := mkSecretKey {
  sk_decode : bytes -> option bytes;
  sk_encode : bytes -> option bytes
}.

Section WithEnv.
Context {E : Env}.

(** The dynamic types a frame body (BinaryData) can have; other implementations of the
    interface are not modelled. *)
Inductive Body : Type :=
| BSds (s : ServiceDataSet)
| BResp (p : PtResponse).

(** Package, egts_pkg.go:16-35.  [None] is a nil ServicesFrameData. *)
Record Package := mkPackage {
  p_PRV : N;
  p_SKID : N;
  p_PRF : string;
  p_RTE : string;
  p_ENA : string;
  p_CMP : string;
  p_PR : string;
  p_HL : N;
  p_HE : N;
  p_FDL : N;
  p_PID : N;
  p_PT : N;
  p_PRA : N;
  p_RCA : N;
  p_TTL : N;
  p_HCS : N;
  p_SFRD : option Body;
  p_SFRCS : N
}.

Definition Package_zero : Package :=
  mkPackage 0 0 "" "" "" "" "" 0 0 0 0 0 0 0 0 0 None 0.

(** Field assignments [p.X = v]. *)
Definition set_PRV (v : N) (p : Package) : Package :=
  mkPackage v (p_SKID p) (p_PRF p) (p_RTE p) (p_ENA p) (p_CMP p) (p_PR p) (p_HL p) (p_HE p) (p_FDL p) (p_PID p) (p_PT p) (p_PRA p) (p_RCA p) (p_TTL p) (p_HCS p) (p_SFRD p) (p_SFRCS p).
Definition set_SKID (v : N) (p : Package) : Package :=
  mkPackage (p_PRV p) v (p_PRF p) (p_RTE p) (p_ENA p) (p_CMP p) (p_PR p) (p_HL p) (p_HE p) (p_FDL p) (p_PID p) (p_PT p) (p_PRA p) (p_RCA p) (p_TTL p) (p_HCS p) (p_SFRD p) (p_SFRCS p).
Definition set_PRF (v : string) (p : Package) : Package :=
  mkPackage (p_PRV p) (p_SKID p) v (p_RTE p) (p_ENA p) (p_CMP p) (p_PR p) (p_HL p) (p_HE p) (p_FDL p) (p_PID p) (p_PT p) (p_PRA p) (p_RCA p) (p_TTL p) (p_HCS p) (p_SFRD p) (p_SFRCS p).
Definition set_RTE (v : string) (p : Package) : Package :=
  mkPackage (p_PRV p) (p_SKID p) (p_PRF p) v (p_ENA p) (p_CMP p) (p_PR p) (p_HL p) (p_HE p) (p_FDL p) (p_PID p) (p_PT p) (p_PRA p) (p_RCA p) (p_TTL p) (p_HCS p) (p_SFRD p) (p_SFRCS p).
Definition set_ENA (v : string) (p : Package) : Package :=
  mkPackage (p_PRV p) (p_SKID p) (p_PRF p) (p_RTE p) v (p_CMP p) (p_PR p) (p_HL p) (p_HE p) (p_FDL p) (p_PID p) (p_PT p) (p_PRA p) (p_RCA p) (p_TTL p) (p_HCS p) (p_SFRD p) (p_SFRCS p).
Definition set_CMP (v : string) (p : Package) : Package :=
  mkPackage (p_PRV p) (p_SKID p) (p_PRF p) (p_RTE p) (p_ENA p) v (p_PR p) (p_HL p) (p_HE p) (p_FDL p) (p_PID p) (p_PT p) (p_PRA p) (p_RCA p) (p_TTL p) (p_HCS p) (p_SFRD p) (p_SFRCS p).
Definition set_PR (v : string) (p : Package) : Package :=
  mkPackage (p_PRV p) (p_SKID p) (p_PRF p) (p_RTE p) (p_ENA p) (p_CMP p) v (p_HL p) (p_HE p) (p_FDL p) (p_PID p) (p_PT p) (p_PRA p) (p_RCA p) (p_TTL p) (p_HCS p) (p_SFRD p) (p_SFRCS p).
Definition set_HL (v : N) (p : Package) : Package :=
  mkPackage (p_PRV p) (p_SKID p) (p_PRF p) (p_RTE p) (p_ENA p) (p_CMP p) (p_PR p) v (p_HE p) (p_FDL p) (p_PID p) (p_PT p) (p_PRA p) (p_RCA p) (p_TTL p) (p_HCS p) (p_SFRD p) (p_SFRCS p).
Definition set_HE (v : N) (p : Package) : Package :=
  mkPackage (p_PRV p) (p_SKID p) (p_PRF p) (p_RTE p) (p_ENA p) (p_CMP p) (p_PR p) (p_HL p) v (p_FDL p) (p_PID p) (p_PT p) (p_PRA p) (p_RCA p) (p_TTL p) (p_HCS p) (p_SFRD p) (p_SFRCS p).
Definition set_FDL (v : N) (p : Package) : Package :=
  mkPackage (p_PRV p) (p_SKID p) (p_PRF p) (p_RTE p) (p_ENA p) (p_CMP p) (p_PR p) (p_HL p) (p_HE p) v (p_PID p) (p_PT p) (p_PRA p) (p_RCA p) (p_TTL p) (p_HCS p) (p_SFRD p) (p_SFRCS p).
Definition set_PID (v : N) (p : Package) : Package :=
  mkPackage (p_PRV p) (p_SKID p) (p_PRF p) (p_RTE p) (p_ENA p) (p_CMP p) (p_PR p) (p_HL p) (p_HE p) (p_FDL p) v (p_PT p) (p_PRA p) (p_RCA p) (p_TTL p) (p_HCS p) (p_SFRD p) (p_SFRCS p).
Definition set_PT (v : N) (p : Package) : Package :=
  mkPackage (p_PRV p) (p_SKID p) (p_PRF p) (p_RTE p) (p_ENA p) (p_CMP p) (p_PR p) (p_HL p) (p_HE p) (p_FDL p) (p_PID p) v (p_PRA p) (p_RCA p) (p_TTL p) (p_HCS p) (p_SFRD p) (p_SFRCS p).
Definition set_PRA (v : N) (p : Package) : Package :=
  mkPackage (p_PRV p) (p_SKID p) (p_PRF p) (p_RTE p) (p_ENA p) (p_CMP p) (p_PR p) (p_HL p) (p_HE p) (p_FDL p) (p_PID p) (p_PT p) v (p_RCA p) (p_TTL p) (p_HCS p) (p_SFRD p) (p_SFRCS p).
Definition set_RCA (v : N) (p : Package) : Package :=
  mkPackage (p_PRV p) (p_SKID p) (p_PRF p) (p_RTE p) (p_ENA p) (p_CMP p) (p_PR p) (p_HL p) (p_HE p) (p_FDL p) (p_PID p) (p_PT p) (p_PRA p) v (p_TTL p) (p_HCS p) (p_SFRD p) (p_SFRCS p).
Definition set_TTL (v : N) (p : Package) : Package :=
  mkPackage (p_PRV p) (p_SKID p) (p_PRF p) (p_RTE p) (p_ENA p) (p_CMP p) (p_PR p) (p_HL p) (p_HE p) (p_FDL p) (p_PID p) (p_PT p) (p_PRA p) (p_RCA p) v (p_HCS p) (p_SFRD p) (p_SFRCS p).
Definition set_HCS (v : N) (p : Package) : Package :=
  mkPackage (p_PRV p) (p_SKID p) (p_PRF p) (p_RTE p) (p_ENA p) (p_CMP p) (p_PR p) (p_HL p) (p_HE p) (p_FDL p) (p_PID p) (p_PT p) (p_PRA p) (p_RCA p) (p_TTL p) v (p_SFRD p) (p_SFRCS p).
Definition set_SFRD (v : option Body) (p : Package) : Package :=
  mkPackage (p_PRV p) (p_SKID p) (p_PRF p) (p_RTE p) (p_ENA p) (p_CMP p) (p_PR p) (p_HL p) (p_HE p) (p_FDL p) (p_PID p) (p_PT p) (p_PRA p) (p_RCA p) (p_TTL p) (p_HCS p) v (p_SFRCS p).
Definition set_SFRCS (v : N) (p : Package) : Package :=
  mkPackage (p_PRV p) (p_SKID p) (p_PRF p) (p_RTE p) (p_ENA p) (p_CMP p) (p_PR p) (p_HL p) (p_HE p) (p_FDL p) (p_PID p) (p_PT p) (p_PRA p) (p_RCA p) (p_TTL p) (p_HCS p) (p_SFRD p) v.

Definition body_encode (b : Body) : res bytes :=
  match b with
  | BSds s => sds_encode s
  | BResp p => PtResponse_encode p
  end.

(** Result of Package.Decode: the updated receiver, the code and whether err is nil;
    [DPanic] when the call panics, [DFuel] when the recursion bound is exhausted. *)
Inductive dres : Type :=
| DRet (p : Package) (code : N) (ok : bool)
| DPanic
| DFuel.

(** One read of the header: on error the code is returned together with the receiver as it
    is at that point ([pe]; a failed [p.X, err = buf.ReadByte()] stores 0). *)
Definition hdr {A : Type} (x : option (A * bytes)) (pe : Package) (code : N) (f : A -> bytes -> dres) : dres :=
  match x with
  | Some (a, r) => f a r
  | None => DRet pe code false
  end.

(** [s[a:b]] of a slice whose backing array holds [all] (up to its capacity): [None] is a
    run-time panic. *)
Definition go_slice (all : bytes) (a b : N) : option bytes :=
  if (a <=? b) && (b <=? len all)
  then Some (firstn (N.to_nat (b - a)) (skipn (N.to_nat a) all))
  else None.

(** The end of Package.Decode, egts_pkg.go:152-166: body decoded, check the body checksum.
    [r] is what is left of the reader, [all] the backing array of content. *)
Definition pkg_decode_tail (p : Package) (all r : bytes) : dres :=
  match rd_num 2 r with
  | None => DRet p egtsPcDecryptError false
  | Some (crc, _) =>
      let p := set_SFRCS crc p in
      match go_slice all (p_HL p) (u16 (p_HL p + p_FDL p)) with
      | None => DPanic
      | Some b =>
          if crc =? crc16 b then DRet p egtsPcOk true
          else DRet p egtsPcHeaderCrcError false
      end
  end.

(** egts_pkg.go:128-157: read and decode the body.  The partially decoded body left in the
    receiver after a failed body decode is modelled as the empty one. *)
Definition pkg_decode_body (key : option SecretKey) (p : Package) (all r : bytes) : dres :=
  match rd_into (zeros (N.to_nat (p_FDL p))) r with
  | None => DRet p egtsPcIncDataform false
  | Some (frame, r) =>
      match (if p_PT p =? PtAppdataPacket then Some (BSds [])
             else if p_PT p =? PtResponsePacket then Some (BResp PtResponse_zero)
             else None) with
      | None => DRet p egtsPcUnsType false
      | Some empty =>
          let p := set_SFRD (Some empty) p in
          let plain :=
            if String.eqb (p_ENA p) "00" then Some frame
            else match key with
                 | None => None
                 | Some k => sk_decode k frame
                 end in
          match plain with
          | None => DRet p egtsPcDecryptError false
          | Some frame =>
              match (match empty with
                     | BSds _ => do s <- sds_decode frame ;; Ok (BSds s)
                     | BResp p0 => do s <- PtResponse_decode p0 frame ;; Ok (BResp s)
                     end) with
              | Ok b => pkg_decode_tail (set_SFRD (Some b) p) all r
              | Err => DRet p egtsPcDecryptError false
              | Panic => DPanic
              | Fuel => DFuel
              end
          end
      end
  end.

(** egts_pkg.go:120-126: header checksum.  HeaderLength is a byte, so HeaderLength-1 wraps
    to 255 when it is 0. *)
Definition pkg_decode_hcs (key : option SecretKey) (p : Package) (all r : bytes) : dres :=
  hdr (rd_byte r) (set_HCS 0 p) egtsPcIncHeaderform (fun hcs r =>
  let p := set_HCS hcs p in
  match go_slice all 0 (u8 (p_HL p + 255)) with
  | None => DPanic
  | Some h => if hcs =? crc8 h then pkg_decode_body key p all r
              else DRet p egtsPcHeaderCrcError false
  end).

(** Package.Decode, egts_pkg.go:47-167, on receiver [p0].  [content] is the slice, [spare]
    the bytes of its backing array beyond its length (its capacity is
    [len content + len spare]); they matter because slicing may go up to the capacity.
    tmpIntBuf (line 89) is shared by all two-byte reads. *)
Definition pkg_decode (key : option SecretKey) (p0 : Package) (content spare : bytes) : dres :=
  let all := (content ++ spare)%list in
  let p := p0 in
  hdr (rd_byte content) (set_PRV 0 p) egtsPcIncHeaderform (fun prv r =>
  let p := set_PRV prv p in
  hdr (rd_byte r) (set_SKID 0 p) egtsPcIncHeaderform (fun skid r =>
  let p := set_SKID skid p in
  hdr (rd_byte r) p egtsPcIncHeaderform (fun flags r =>
  let fb := sprintf_b 8 flags in
  let p := set_PRF (slice 0 2 fb) p in
  let p := set_RTE (slice 2 3 fb) p in
  let p := set_ENA (slice 3 5 fb) p in
  let p := set_CMP (slice 5 6 fb) p in
  let p := set_PR (slice 6 8 fb) p in
  hdr (rd_byte r) (set_HL 0 p) egtsPcIncHeaderform (fun hl r =>
  let p := set_HL hl p in
  hdr (rd_byte r) (set_HE 0 p) egtsPcIncHeaderform (fun he r =>
  let p := set_HE he p in
  hdr (rd_num_tmp (zeros 2) r) p egtsPcIncHeaderform (fun fdl_tmp r =>
  let (fdl, tmp) := fdl_tmp : N * bytes in
  let p := set_FDL fdl p in
  hdr (rd_num_tmp tmp r) p egtsPcIncHeaderform (fun pid_tmp r =>
  let (pid, tmp) := pid_tmp : N * bytes in
  let p := set_PID pid p in
  hdr (rd_byte r) (set_PT 0 p) egtsPcIncHeaderform (fun pt r =>
  let p := set_PT pt p in
  if is1 (p_RTE p) then
    hdr (rd_num_tmp tmp r) p egtsPcIncHeaderform (fun pra_tmp r =>
    let (pra, tmp) := pra_tmp : N * bytes in
    let p := set_PRA pra p in
    hdr (rd_num_tmp tmp r) p egtsPcIncHeaderform (fun rca_tmp r =>
    let (rca, tmp) := rca_tmp : N * bytes in
    let p := set_RCA rca p in
    hdr (rd_byte r) (set_TTL 0 p) egtsPcIncHeaderform (fun ttl r =>
    let p := set_TTL ttl p in
    pkg_decode_hcs key p all r)))
  else pkg_decode_hcs key p all r)))))))).

(** The header bytes written by Package.Encode before the checksum, egts_pkg.go:186-258. *)
Definition pkg_header (p : Package) (flags : N) : bytes :=
  ([p_PRV p] ++ [p_SKID p] ++ [u8 flags] ++ [p_HL p] ++ [p_HE p]
   ++ le_bytes 2 (p_FDL p) ++ le_bytes 2 (p_PID p) ++ [p_PT p]
   ++ put (is1 (p_RTE p)) (le_bytes 2 (p_PRA p) ++ le_bytes 2 (p_RCA p) ++ [p_TTL p]))%list.

(** Package.Encode, egts_pkg.go:170-273: the updated receiver (HeaderLength lines 203-208,
    FrameDataLength line 235) and the bytes. *)
Definition pkg_encode (key : option SecretKey) (p : Package) : Package * res bytes :=
  match parse_flags (p_PRF p ++ p_RTE p ++ p_ENA p ++ p_CMP p ++ p_PR p) with
  | Ok flags =>
      let p := if p_HL p =? 0
               then set_HL (if is1 (p_RTE p) then DEFAULT_HEADER_LEN + 5 else DEFAULT_HEADER_LEN) p
               else p in
      let sfrd :=
        match p_SFRD p with
        | None => Ok []
        | Some b =>
            do s <- body_encode b ;;
            if String.eqb (p_ENA p) "00" then Ok s
            else match key with
                 | None => Err
                 | Some k => match sk_encode k s with Some c => Ok c | None => Err end
                 end
        end in
      match sfrd with
      | Ok sfrd =>
          let p := set_FDL (u16 (len sfrd)) p in
          let h := pkg_header p flags in
          (p, Ok (h ++ [crc8 h]
                  ++ (if 0 <? p_FDL p then sfrd ++ le_bytes 2 (crc16 sfrd) else []))%list)
      | Err => (p, Err)
      | Panic => (p, Panic)
      | Fuel => (p, Fuel)
      end
  | _ => (p, Err)
  end.

End WithEnv.

(** Model of cli/packet-gen/main.go: the packet built from the command line and the checks
    on the answer.  Time parsing and the network are not modelled; for the command line see Flags.v.
    Definitions only. *)
From Coq Require Import NArith ZArith String List Bool.
From Verif Require Import GoBase GoFloat SubRecords Records Package.
Import ListNotations.
Open Scope N_scope.
Open Scope go_scope.

Section WithEnv.
Context {E : Env}.

(** time.Date(2021, time.February, 20, 0, 30, 40, 0, time.UTC), main.go:116 *)
Definition gen_time : time := (1613781040 * ns_per_s)%Z.

(** The packet of main.go:86-151; pid, oid and liqLvl are ints converted with uint16 and
    uint32; [timestamp] (the parsed -time argument) is not used. *)
Definition gen_packet (pid oid liqLvl : Z) (timestamp : time) (lat lon : f64) : Package :=
  mkPackage 1 0 "00" "0" "00" "0" "10" 11 0 0 (Z.to_N (pid mod 65536)) 1 0 0 0 0
    (Some (BSds
      [mkSDR 0 1 "0" "0" "0" "10" "0" "1" "1" (u32_of_Z oid) 3436 t_zero 2 2
        [mkRecordData 16 0 (Some (DPosData
           (mkSrPosData gen_time lat lon "1" "0" "0" "1" "1" "0" "1" "1" 0 0 34 172 191 144 0 30)));
         mkRecordData 27 0 (Some (DLiquid
           (mkSrLiquidLevelSensor "1" "00" "0" 1 1 (u32_of_Z liqLvl))))]]))
    0.

(** What the program prints at the end. *)
Inductive verdict := VOk | VParseFailed | VNotAck | VBadPid | VBadResult | VBadStatus | VPanic.

(** The loop of main.go:210-221 *)
Definition bad_status (s : ServiceDataSet) : bool :=
  existsb (fun rec => existsb (fun sub =>
    (rd_SRT sub =? SrRecordResponseType)
    && match rd_SRD sub with
       | Some (DResponse d) => negb (sr_RST d =? 0)
       | _ => false
       end) (s_RD rec)) s.

(** main.go:186-224 on the bytes of one conn.Read into a 1024-byte buffer (ackLen of them;
    the rest of the buffer is zero). *)
Definition check_ack (sent_pid : N) (ackbuf : bytes) : verdict :=
  match pkg_decode None Package_zero ackbuf (zeros (1024 - length ackbuf)) with
  | DRet p _ true =>
      match p_SFRD p with
      | Some (BResp ack) =>
          if negb (pr_RPID ack =? sent_pid) then VBadPid
          else if negb (pr_PR ack =? 0) then VBadResult
          else match pr_SDR ack with
               | None => VPanic
               | Some s => if bad_status s then VBadStatus else VOk
               end
      | _ => VNotAck
      end
  | DRet _ _ false => VParseFailed
  | _ => VPanic
  end.

(** ** The whole program *)

(** The command line: for each flag, its value if it was given (main.go:45-63).  Flags.v
    says what a command line gives. *)
Record gen_flags := mkGenFlags {
  gf_pid : option Z;
  gf_oid : option Z;
  gf_time : option string;
  gf_liquid : option Z;
  gf_lat : option f64;
  gf_lon : option f64;
  gf_timeout : option Z;
  gf_server : option string
}.

(** The defaults of main.go:54-61 *)
Definition default_timeout : Z := 0.
Definition default_server : string := "localhost:5555"%string.
Definition get {A} (o : option A) (d : A) : A := match o with Some a => a | None => d end.

(** What the program depends on: time.Parse with time.RFC3339, the resolver, the dialer, whether
    the write succeeds, and the first segment of the answer with the time in nanoseconds, from
    the setting of the deadline, at which it is there to be read. *)
Record gen_world := mkGenWorld {
  gw_parse : string -> option time;
  gw_resolve : string -> option string;
  gw_dial : string -> bool;
  gw_write : bool;
  gw_answer : option (Z * bytes)
}.

Inductive gen_end :=
| GNoPid | GNoOid | GNoTime | GBadTime          (* refused arguments *)
| GEncode | GResolve | GDial | GWrite | GRead   (* failures before there is an answer *)
| GPanic
| GChecked (v : verdict).

(** int64 arithmetic *)
Definition wrap64 (z : Z) : Z := ((z + 9223372036854775808) mod 18446744073709551616 - 9223372036854775808)%Z.

(** conn.Read after SetReadDeadline(now + timeout seconds), main.go:176-179: an operation whose
    deadline is not in the future fails; at most 1024 bytes are read; a closed connection
    (an empty answer) is an error. *)
Definition gen_read (timeout : Z) (answer : option (Z * bytes)) : option bytes :=
  match answer with
  | Some (delay, b) =>
      if (delay <? wrap64 (timeout * ns_per_s))%Z
      then match b with [] => None | _ => Some (firstn 1024 b) end
      else None
  | None => None
  end.

(** main, main.go:43-225: the frame handed to the network successfully, if any, with the address, and how
    the program ends. *)
Definition gen_main (f : gen_flags) (w : gen_world) : option (string * bytes) * gen_end :=
  let pid := get (gf_pid f) 0%Z in
  let oid := get (gf_oid f) 0%Z in
  let ts := get (gf_time f) ""%string in
  if (pid =? 0)%Z then (None, GNoPid)
  else if (oid =? 0)%Z then (None, GNoOid)
  else if string_dec ts ""%string then (None, GNoTime)
  else match gw_parse w ts with
  | None => (None, GBadTime)
  | Some timestamp =>
      let p := gen_packet pid oid (get (gf_liquid f) 0%Z) timestamp (get (gf_lat f) f64_zero) (get (gf_lon f) f64_zero) in
      match snd (pkg_encode None p) with
      | Ok b =>
          match gw_resolve w (get (gf_server f) default_server) with
          | None => (None, GResolve)
          | Some addr =>
              if gw_dial w addr then
                if gw_write w then
                  (Some (addr, b),
                   match gen_read (get (gf_timeout f) default_timeout) (gw_answer w) with
                   | None => GRead
                   | Some ack => GChecked (check_ack (p_PID p) ack)
                   end)
                else (None, GWrite)
              else (None, GDial)
          end
      | Err => (None, GEncode)
      | _ => (None, GPanic)
      end
  end.

(** The exit status: every path ends in os.Exit(1), including success (main.go:223-224); a
    panic exits with 2. *)
Definition exit_code (e : gen_end) : Z :=
  match e with GPanic | GChecked VPanic => 2 | _ => 1 end.
End WithEnv.

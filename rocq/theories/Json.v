(** Model of NavRecord.ToBytes, cli/receiver/storage/packet.go:25-27: encoding/json's compact
    encoding of a NavRecord; and of json.MarshalIndent as called in storage/default.go:21.
    Definitions only.

    Texts are bytes; those of numbers are in [NumText].  AnSensors and LiquidSensors are only
    appended to, so an empty slice is nil. *)
From Coq Require Import NArith ZArith String List Bool.
From Flocq Require Import BinarySingleNaN.
From Verif Require Import GoBase GoFloat Storage.
From Verif Require Export NumText.
Import ListNotations.
Open Scope N_scope.

Inductive json :=
| JNull
| JBool (b : bool)
| JNum (t : bytes)
| JStr (s : bytes)
| JArr (l : list json)
| JObj (l : list (bytes * json)).

(** utf8.DecodeRuneInString: for the first byte of a sequence its size and the range of the
    second byte (the tables [first] and [acceptRanges]); then the rune and its size, or nothing for
    (RuneError, 1). *)
Definition rune_first (c : N) : option (N * N * N) :=
  if c <? 194 then None
  else if c <? 224 then Some (2, 128, 191)
  else if c =? 224 then Some (3, 160, 191)
  else if c =? 237 then Some (3, 128, 159)
  else if c <? 240 then Some (3, 128, 191)
  else if c =? 240 then Some (4, 144, 191)
  else if c <? 244 then Some (4, 128, 191)
  else if c =? 244 then Some (4, 128, 143)
  else None.
Definition in_range (lo hi c : N) : bool := (lo <=? c) && (c <=? hi).
Definition decode_rune (c : N) (r : bytes) : option (N * nat) :=
  match rune_first c with
  | None => None
  | Some (n, lo, hi) =>
      match r with
      | [] => None
      | c1 :: r1 =>
          if negb (in_range lo hi c1) then None
          else if n =? 2 then Some (N.lor (N.shiftl (N.land c 31) 6) (N.land c1 63), 2%nat)
          else match r1 with
          | [] => None
          | c2 :: r2 =>
              if negb (in_range 128 191 c2) then None
              else if n =? 3 then
                Some (N.lor (N.lor (N.shiftl (N.land c 15) 12) (N.shiftl (N.land c1 63) 6)) (N.land c2 63), 3%nat)
              else match r2 with
              | [] => None
              | c3 :: _ =>
                  if negb (in_range 128 191 c3) then None
                  else Some (N.lor (N.lor (N.lor (N.shiftl (N.land c 7) 18) (N.shiftl (N.land c1 63) 12))
                               (N.shiftl (N.land c2 63) 6)) (N.land c3 63), 4%nat)
              end
          end
      end
  end.

(** encodeState.string with HTML escaping: [esc] for bytes below 128; in other places a sequence
    that is not UTF-8 becomes \ufffd byte by byte, and U+2028 and U+2029 are escaped. *)
Definition hex (n : N) : N := if n <? 10 then 48 + n else 87 + n.
Definition esc (c : N) : bytes :=
  if (c =? 34) || (c =? 92) then [92; c]
  else if c =? 10 then [92; 110]
  else if c =? 13 then [92; 114]
  else if c =? 9 then [92; 116]
  else if (c <? 32) || (c =? 60) || (c =? 62) || (c =? 38) then [92; 117; 48; 48; hex (c / 16); hex (c mod 16)]
  else [c].
Fixpoint esc_k (k : nat) (s : bytes) : bytes :=
  match k, s with
  | S k', c :: r =>
      if c <? 128 then esc c ++ esc_k k' r
      else match decode_rune c r with
           | None => bytes_of_string "\ufffd" ++ esc_k k' r
           | Some (u, n) =>
               (if (u =? 8232) || (u =? 8233) then bytes_of_string "\u202" ++ [hex (N.land u 15)] else firstn n s)
               ++ esc_k k' (skipn n s)
           end
  | _, _ => []
  end.
Definition esc_str (s : bytes) : bytes := esc_k (length s) s.
Definition pr_str (s : bytes) : bytes := [34] ++ esc_str s ++ [34].

(** Items separated by commas. *)
Definition sep (l : list bytes) : bytes :=
  match l with [] => [] | x :: r => x ++ flat_map (fun y => [44] ++ y) r end.

Fixpoint pr (v : json) : bytes :=
  match v with
  | JNull => bytes_of_string "null"
  | JBool b => bytes_of_string (if b then "true" else "false")
  | JNum t => t
  | JStr s => pr_str s
  | JArr l => [91] ++ sep (map pr l) ++ [93]
  | JObj l => [123] ++ sep (map (fun kv => pr_str (fst kv) ++ [58] ++ pr (snd kv)) l) ++ [125]
  end.

(** The same with json.Indent's line breaks, prefix "" and four spaces per level: a new line
    after every opening bracket and comma and before every closing bracket, a space after every
    colon, nothing inside an empty array or object.  [d] is the level. *)
Definition nl (d : nat) : bytes := 10 :: repeat 32 (4 * d).
Definition sep_nl (d : nat) (l : list bytes) : bytes :=
  match l with [] => [] | x :: r => nl d ++ x ++ flat_map (fun y => [44] ++ nl d ++ y) r ++ nl (pred d) end.
Fixpoint pr_ind (d : nat) (v : json) : bytes :=
  match v with
  | JNull => bytes_of_string "null"
  | JBool b => bytes_of_string (if b then "true" else "false")
  | JNum t => t
  | JStr s => pr_str s
  | JArr l => [91] ++ sep_nl (S d) (map (pr_ind (S d)) l) ++ [93]
  | JObj l => [123] ++ sep_nl (S d) (map (fun kv => pr_str (fst kv) ++ [58; 32] ++ pr_ind (S d) (snd kv)) l) ++ [125]
  end.

Definition key (s : string) (v : json) : bytes * json := (bytes_of_string s, v).
Definition j_N (n : N) : json := JNum (dec n).
Definition j_Z (z : Z) : json := JNum (dec_Z z).
Definition j_slice (l : list json) : json := match l with [] => JNull | _ => JArr l end.

(** AnSensor, packet.go:36-39 *)
Definition j_an (a : AnSensor) : json :=
  JObj [key "sensor_number" (j_N (as_SensorNumber a)); key "value" (j_N (as_Value a))].
(** LiquidSensor, packet.go:29-34 *)
Definition j_liquid (l : LiquidSensor) : json :=
  JObj [key "sensor_number" (j_N (ls_SensorNumber l)); key "error_flag" (JStr (bytes_of_string (ls_ErrorFlag l)));
        key "value_mm" (j_N (ls_ValueMm l)); key "value_l" (j_N (ls_ValueL l))].
(** NavRecord, packet.go:7-23 *)
Definition j_nav (r : NavRecord) : json :=
  JObj [key "client" (j_N (nr_Client r)); key "packet_id" (j_N (nr_PacketID r));
        key "navigation_unix_time" (j_Z (nr_NavigationTimestamp r));
        key "received_unix_time" (j_Z (nr_ReceivedTimestamp r));
        key "latitude" (JNum (text64 (nr_Latitude r))); key "longitude" (JNum (text64 (nr_Longitude r)));
        key "speed" (j_N (nr_Speed r)); key "pdop" (j_N (nr_Pdop r)); key "hdop" (j_N (nr_Hdop r));
        key "vdop" (j_N (nr_Vdop r)); key "nsat" (j_N (nr_Nsat r)); key "ns" (j_N (nr_Ns r));
        key "course" (j_N (nr_Course r));
        key "an_sensors" (j_slice (map j_an (nr_AnSensors r)));
        key "liquid_sensors" (j_slice (map j_liquid (nr_LiquidSensors r)))].

(** ToBytes, packet.go:25-27: NaN and infinities are an UnsupportedValueError. *)
Definition ToBytes (r : NavRecord) : option bytes :=
  if is_finite (nr_Latitude r) && is_finite (nr_Longitude r) then Some (pr (j_nav r)) else None.

(** json.MarshalIndent(msg, "", "    "), storage/default.go:21, for a record [msg]. *)
Definition MarshalIndent (r : NavRecord) : option bytes :=
  if is_finite (nr_Latitude r) && is_finite (nr_Longitude r) then Some (pr_ind 0 (j_nav r)) else None.

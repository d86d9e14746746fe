(** Specification of JSON texts (RFC 8259), and of the JSON object of a record. *)
From Coq Require Import NArith ZArith String List.
From Verif Require Import GoBase GoFloat Storage Json.
From Verif Require Export SpecNum.
Import ListNotations.
Open Scope N_scope.

Definition hex_digit (c v : N) : Prop :=
  (is_digit c /\ v = c - 48) \/ (97 <= c <= 102 /\ v = c - 87) \/ (65 <= c <= 70 /\ v = c - 55).

(** Unicode: code points that are characters, and their UTF-8 form. *)
Definition scalar (u : N) : Prop := u < 55296 \/ 57344 <= u < 1114112.
Definition utf8 (u : N) : bytes :=
  if u <? 128 then [u]
  else if u <? 2048 then [192 + u / 64; 128 + u mod 64]
  else if u <? 65536 then [224 + u / 4096; 128 + u / 64 mod 64; 128 + u mod 64]
  else [240 + u / 262144; 128 + u / 4096 mod 64; 128 + u / 64 mod 64; 128 + u mod 64].
Definition is_utf8 (s : bytes) : Prop := exists us, Forall scalar us /\ s = flat_map utf8 us.

(** [readable s s']: [s'] is [s], read from left to right, with U+FFFD for every byte at which no
    character begins. *)
Inductive readable : bytes -> bytes -> Prop :=
| rb_nil : readable [] []
| rb_char u s s' : scalar u -> readable s s' -> readable (utf8 u ++ s) (utf8 u ++ s')
| rb_bad c s s' : (forall u r, scalar u -> c :: s <> utf8 u ++ r) -> readable s s' -> readable (c :: s) (utf8 65533 ++ s').

(** The inside of a string and what it stands for.  Characters above U+FFFF may be written as two
    escapes. *)
Definition hex4 (t : bytes) (u : N) : Prop := exists a b c d x y z w,
  t = [a; b; c; d] /\ hex_digit a x /\ hex_digit b y /\ hex_digit c z /\ hex_digit d w /\
  u = 4096 * x + 256 * y + 16 * z + w.
Inductive string_text : bytes -> bytes -> Prop :=
| st_nil : string_text [] []
| st_plain c t s : 32 <= c < 256 -> c <> 34 -> c <> 92 -> string_text t s -> string_text (c :: t) (c :: s)
| st_quote c t s : c = 34 \/ c = 92 \/ c = 47 -> string_text t s -> string_text (92 :: c :: t) (c :: s)
| st_short c d t s : In (c, d) [(98, 8); (102, 12); (110, 10); (114, 13); (116, 9)] -> string_text t s ->
    string_text (92 :: c :: t) (d :: s)
| st_hex h u t s : hex4 h u -> scalar u -> string_text t s -> string_text ([92; 117] ++ h ++ t) (utf8 u ++ s)
| st_pair h h' u v t s : hex4 h (55296 + u) -> hex4 h' (56320 + v) -> u < 1024 -> v < 1024 -> string_text t s ->
    string_text ([92; 117] ++ h ++ [92; 117] ++ h' ++ t) (utf8 (65536 + 1024 * u + v) ++ s).

(** White space. *)
Definition is_ws (c : N) : Prop := c = 32 \/ c = 9 \/ c = 10 \/ c = 13.
Definition ws (t : bytes) : Prop := Forall is_ws t.

(** [json_text t v]: [t] is a JSON value, without white space around it, that stands for [v]. *)
Inductive json_text : bytes -> json -> Prop :=
| jt_null : json_text (bytes_of_string "null") JNull
| jt_bool (b : bool) : json_text (bytes_of_string (if b then "true" else "false")%string) (JBool b)
| jt_num t : number t -> json_text t (JNum t)
| jt_str t s : string_text t s -> json_text ([34] ++ t ++ [34]) (JStr s)
| jt_arr0 w : ws w -> json_text ([91] ++ w ++ [93]) (JArr [])
| jt_arr t l : items t l -> json_text ([91] ++ t ++ [93]) (JArr l)
| jt_obj0 w : ws w -> json_text ([123] ++ w ++ [125]) (JObj [])
| jt_obj t l : members t l -> json_text ([123] ++ t ++ [125]) (JObj l)
with items : bytes -> list json -> Prop :=
| it_one a t b v : ws a -> json_text t v -> ws b -> items (a ++ t ++ b) [v]
| it_more a t b v u l : ws a -> json_text t v -> ws b -> items u l -> items (a ++ t ++ b ++ [44] ++ u) (v :: l)
with members : bytes -> list (bytes * json) -> Prop :=
| me_one a k s b c t d v : ws a -> string_text k s -> ws b -> ws c -> json_text t v -> ws d ->
    members (a ++ [34] ++ k ++ [34] ++ b ++ [58] ++ c ++ t ++ d) [(s, v)]
| me_more a k s b c t d v u l : ws a -> string_text k s -> ws b -> ws c -> json_text t v -> ws d -> members u l ->
    members (a ++ [34] ++ k ++ [34] ++ b ++ [58] ++ c ++ t ++ d ++ [44] ++ u) ((s, v) :: l).

(** A JSON document: a value with white space around it. *)
Definition json_doc (t : bytes) (v : json) : Prop := exists a u b, ws a /\ ws b /\ json_text u v /\ t = a ++ u ++ b.

(** The object of a record. *)
Definition member (name : string) (P : json -> Prop) (kv : bytes * json) : Prop :=
  fst kv = bytes_of_string name /\ P (snd kv).
Definition is_int (z : Z) (v : json) : Prop := exists t, v = JNum t /\ int_text t z.
Definition is_nat (n : N) (v : json) : Prop := is_int (Z.of_N n) v.
(** A number that a reader takes for the float. *)
Definition is_float (x : f64) (v : json) : Prop := exists t, v = JNum t /\ reads64 t x.
Definition is_string (s : bytes) (v : json) : Prop := exists s', v = JStr s' /\ readable s s'.
Definition object (l : list ((bytes * json) -> Prop)) (v : json) : Prop :=
  exists ms, v = JObj ms /\ Forall2 (fun P m => P m) l ms.
Definition slice {A} (P : A -> json -> Prop) (l : list A) (v : json) : Prop :=
  match l with [] => v = JNull | _ => exists vs, v = JArr vs /\ Forall2 P l vs end.
Definition an_json (a : AnSensor) : json -> Prop :=
  object [member "sensor_number" (is_nat (as_SensorNumber a)); member "value" (is_nat (as_Value a))].
Definition liquid_json (l : LiquidSensor) : json -> Prop :=
  object [member "sensor_number" (is_nat (ls_SensorNumber l));
          member "error_flag" (is_string (bytes_of_string (ls_ErrorFlag l)));
          member "value_mm" (is_nat (ls_ValueMm l)); member "value_l" (is_nat (ls_ValueL l))].
Definition nav_json (r : NavRecord) : json -> Prop :=
  object [member "client" (is_nat (nr_Client r)); member "packet_id" (is_nat (nr_PacketID r));
          member "navigation_unix_time" (is_int (nr_NavigationTimestamp r));
          member "received_unix_time" (is_int (nr_ReceivedTimestamp r));
          member "latitude" (is_float (nr_Latitude r)); member "longitude" (is_float (nr_Longitude r));
          member "speed" (is_nat (nr_Speed r)); member "pdop" (is_nat (nr_Pdop r)); member "hdop" (is_nat (nr_Hdop r));
          member "vdop" (is_nat (nr_Vdop r)); member "nsat" (is_nat (nr_Nsat r)); member "ns" (is_nat (nr_Ns r));
          member "course" (is_nat (nr_Course r));
          member "an_sensors" (slice an_json (nr_AnSensors r)); member "liquid_sensors" (slice liquid_json (nr_LiquidSensors r))].

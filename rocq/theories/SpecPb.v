(** Specification of the proto2 wire format, written without the codec: varints as base-128
    numbers, whole values, unknown fields, and what a record that can be sent looks like. *)
From Coq Require Import String NArith ZArith List.
From Verif Require Import GoBase Protobuf.
Import ListNotations.
Open Scope string_scope.
Open Scope list_scope.
Open Scope N_scope.

(** ** The schema of docs/egts_sr_egtsplus_data.proto, line by line: label, type, name and number
    of every field, in the order of the file. *)
Inductive label := required | optional | repeated.
Inductive scalar := uint32 | fixed32 | sfixed32 | float | sint32 | bool_t | bytes_t | enum_t.
Definition doc_message (T : Type) : Type := list (label * T * string * N).

Definition doc_sens_accelerometer_data : doc_message scalar :=
  [(optional, uint32, "sens_num", 1); (optional, bytes_t, "buf", 2); (optional, uint32, "atm", 3);
   (optional, uint32, "frequency", 4); (optional, uint32, "range", 5); (optional, uint32, "format", 6);
   (optional, uint32, "zlib", 7)].
Definition doc_sens_ain_ain_value : doc_message scalar :=
  [(optional, uint32, "sens_num", 1); (optional, uint32, "mv", 2)].
Definition doc_sens_buffer_data : doc_message scalar :=
  [(optional, uint32, "sens_num", 1); (optional, bytes_t, "data", 2); (optional, bool_t, "is_packed", 3)].
Definition doc_sens_button_press_counter : doc_message scalar :=
  [(optional, uint32, "sens_num", 1); (optional, bool_t, "state", 2)].
Definition doc_sens_can_log_data : doc_message scalar :=
  [(optional, uint32, "sens_num", 1); (optional, uint32, "flag_security_state", 2);
   (optional, uint32, "flag_alarm", 3); (optional, uint32, "engine_time_all", 4);
   (optional, uint32, "engine_turn_speed", 5); (optional, sint32, "engine_temperature", 6);
   (optional, uint32, "fuel_consumption_all", 7); (optional, uint32, "fuel_level", 8);
   (optional, uint32, "track_all", 9); (optional, uint32, "speed", 10);
   (optional, uint32, "pressure_axis_1", 11); (optional, uint32, "pressure_axis_2", 12);
   (optional, uint32, "pressure_axis_3", 13); (optional, uint32, "pressure_axis_4", 14);
   (optional, uint32, "pressure_axis_5", 15)].
Definition doc_sens_can_log_tmp_data_ext : doc_message scalar :=
  [(optional, uint32, "sens_num", 1); (optional, uint32, "flags_high", 2);
   (optional, uint32, "flags_low", 3)].
Definition doc_sens_counter_count : doc_message scalar :=
  [(optional, uint32, "sens_num", 1); (optional, uint32, "value", 2)].
Definition doc_sens_crash_data : doc_message scalar :=
  [(optional, uint32, "sens_num", 1); (optional, uint32, "energy", 2);
   (optional, bool_t, "is_overturned", 3)].
Definition doc_sens_dins_flags : doc_message scalar :=
  [(optional, uint32, "sens_num", 1); (optional, uint32, "device", 2); (optional, uint32, "external", 3)].
Definition doc_sens_douts_flags : doc_message scalar :=
  [(optional, uint32, "sens_num", 1); (optional, uint32, "device", 2); (optional, uint32, "external", 3)].
Definition doc_sens_fmeter_frequency : doc_message scalar :=
  [(optional, uint32, "sens_num", 1); (optional, uint32, "value", 2)].
Definition doc_sens_fuel_level : doc_message scalar :=
  [(optional, uint32, "sens_num", 1); (optional, float, "value", 2); (optional, uint32, "parrots", 3);
   (optional, uint32, "unit", 4); (optional, uint32, "t", 5); (optional, uint32, "status", 6)].
Definition doc_sens_gsm_cell_monotoring_cell_monitoring : doc_message scalar :=
  [(optional, uint32, "sens_num", 1); (optional, bytes_t, "lac", 4); (optional, bytes_t, "cid", 5);
   (optional, bytes_t, "rssi", 6); (optional, bytes_t, "time_adv", 7); (optional, uint32, "mcc", 2);
   (optional, uint32, "mnc", 3)].
Definition doc_sens_nd_nav_data : doc_message scalar :=
  [(optional, uint32, "sens_num", 1); (optional, sfixed32, "longitude", 2);
   (optional, sfixed32, "latitude", 3); (optional, uint32, "altitude", 4); (optional, uint32, "speed", 5);
   (optional, uint32, "course", 6); (optional, uint32, "sat_count", 7); (optional, uint32, "pdop", 8);
   (optional, uint32, "track", 9); (optional, uint32, "odometer", 10)].
Definition doc_sens_stor_info : doc_message scalar :=
  [(optional, uint32, "sens_num", 1); (optional, uint32, "id_max", 2); (optional, uint32, "id_min", 3);
   (optional, uint32, "tm_oldest", 4); (optional, uint32, "tm_oldest_unack", 5);
   (optional, uint32, "cnt_unack", 6); (optional, uint32, "cnt_unack_losted", 7)].
Definition doc_sens_termo_data : doc_message scalar :=
  [(optional, uint32, "sens_num", 1); (optional, uint32, "status", 2); (optional, sint32, "temperature", 3)].
Definition doc_sens_test_era_tests : doc_message scalar :=
  [(optional, uint32, "sens_num", 1); (optional, bool_t, "mic_con_failure", 2);
   (optional, bool_t, "mic_failure", 3); (optional, bool_t, "ignition_failure", 4);
   (optional, bool_t, "uim_failure", 5); (optional, bool_t, "bat_failure", 6);
   (optional, bool_t, "bat_volt_low", 7); (optional, bool_t, "crash_sens_failure", 8);
   (optional, bool_t, "raim_problem", 9); (optional, bool_t, "gnss_antenna_failure", 10);
   (optional, bool_t, "events_memory_overflow", 11)].
Definition doc_sens_tracker_info : doc_message scalar :=
  [(optional, uint32, "sens_num", 1); (optional, uint32, "cnt_ack", 2);
   (optional, uint32, "cnt_ack_realtime", 3); (optional, uint32, "cnt_noack", 4);
   (optional, uint32, "cnt_connect", 5)].
Definition doc_storage_record : doc_message (scalar + doc_message scalar) :=
  [(required, inl uint32, "record_number", 1); (required, inl fixed32, "time_stamp", 2);
   (repeated, inl enum_t, "record_reason", 3); (required, inl fixed32, "status_flags", 4);
   (repeated, inr doc_sens_accelerometer_data, "sens_accelerometer_data", 18);
   (repeated, inr doc_sens_ain_ain_value, "sens_ain_ain_value", 9);
   (repeated, inr doc_sens_buffer_data, "sens_buffer_data", 20);
   (repeated, inr doc_sens_button_press_counter, "sens_button_press_counter", 14);
   (repeated, inr doc_sens_can_log_data, "sens_can_log_data", 16);
   (repeated, inr doc_sens_can_log_tmp_data_ext, "sens_can_log_tmp_data_ext", 17);
   (repeated, inr doc_sens_counter_count, "sens_counter_count", 11);
   (repeated, inr doc_sens_crash_data, "sens_crash_data", 24);
   (repeated, inr doc_sens_dins_flags, "sens_dins_flags", 10);
   (repeated, inr doc_sens_douts_flags, "sens_douts_flags", 19);
   (repeated, inr doc_sens_fmeter_frequency, "sens_fmeter_frequency", 12);
   (repeated, inr doc_sens_fuel_level, "sens_fuel_level", 8);
   (repeated, inr doc_sens_gsm_cell_monotoring_cell_monitoring, "sens_gsm_cell_monotoring_cell_monitoring", 13);
   (repeated, inr doc_sens_nd_nav_data, "sens_nd_nav_data", 7);
   (repeated, inr doc_sens_stor_info, "sens_stor_info", 21);
   (repeated, inr doc_sens_termo_data, "sens_termo_data", 15);
   (repeated, inr doc_sens_test_era_tests, "sens_test_era_tests", 23);
   (repeated, inr doc_sens_tracker_info, "sens_tracker_info", 22)].

(** Fields on the wire are in the order of their numbers. *)
Fixpoint by_number {K} (f : field K) (l : list (field K)) : list (field K) :=
  match l with
  | [] => [f]
  | g :: r => if f_num f <? f_num g then f :: l else g :: by_number f r
  end.
Definition to_card (l : label) : card := match l with required => Req | optional => Opt | repeated => Rep end.
Definition fields_of {T K} (ty : T -> K) (m : doc_message T) : list (field K) :=
  fold_right by_number [] (map (fun e => match e with (l, t, _, n) => mkField n (ty t) (to_card l) end) m).
Definition scalar_kind (t : scalar) : kind :=
  match t with
  | uint32 => KU32 | fixed32 | sfixed32 | float => KFix32 | sint32 => KSint32
  | bool_t => KBool | bytes_t => KBytes | enum_t => KEnums
  end.
Definition doc_storage : list (field kind1) :=
  fields_of (fun t => match t with inl s => KLeaf (scalar_kind s) | inr m => KMsg (fields_of scalar_kind m) end)
    doc_storage_record.

(** Base 128, least significant digit first. *)
Fixpoint b128 (l : list N) : N := match l with [] => 0 | c :: r => c + 128 * b128 r end.

(** [p] is a varint for [n]: digits below 128, all but the last with 128 added; at most ten
    bytes, and the number fits 64 bits. *)
Definition is_varint (p : bytes) (n : N) : Prop := exists lo hi,
  p = map (fun c => c + 128) lo ++ [hi] /\ Forall (fun c => c < 128) lo /\ hi < 128 /\
  (length lo <= 9)%nat /\ (length lo = 9%nat -> hi < 2) /\ n = b128 (lo ++ [hi]).

(** [p] is a varint without superfluous bytes. *)
Definition short_varint (p : bytes) (n : N) : Prop :=
  is_varint p n /\ forall q, is_varint q n -> (length p <= length q)%nat.

(** A whole value of wire type [ty] in a field with number [num]: a varint (0), eight bytes (1), a
    length and so many bytes (2), a group up to the end tag with the same number (3), four
    bytes (5). *)
Inductive is_value : N -> N -> bytes -> Prop :=
| iv_varint num p n : is_varint p n -> is_value num 0 p
| iv_64 num p : length p = 8%nat -> is_value num 1 p
| iv_block num p b : is_varint p (len b) -> is_value num 2 (p ++ b)
| iv_group num items p : group_items items -> is_varint p (8 * num + 4) -> is_value num 3 (items ++ p)
| iv_32 num p : length p = 4%nat -> is_value num 5 p
with group_items : bytes -> Prop :=
| gi_nil : group_items []
| gi_cons p num ty v rest : is_varint p (8 * num + ty) -> ty < 8 -> ty <> 4 -> 1 <= num <= 2147483647 ->
    is_value num ty v -> group_items rest -> group_items (p ++ v ++ rest).

(** Whether a field of this type takes values of wire type [ty] (repeated enums also packed). *)
Definition takes (k : kind) (ty : N) : Prop :=
  match k with KU32 | KBool | KSint32 => ty = 0 | KEnums => ty = 0 \/ ty = 2 | KFix32 => ty = 5 | KBytes => ty = 2 end.
Definition takes1 (k : kind1) (ty : N) : Prop := match k with KLeaf k => takes k ty | KMsg _ => ty = 2 end.

(** Bytes made of complete fields that the message does not know (or that have another type there),
    with the shortest tags. *)
Inductive unknown_fields {K} (tk : K -> N -> Prop) (d : list (field K)) : bytes -> Prop :=
| uf_nil : unknown_fields tk d []
| uf_cons p num ty v rest :
    1 <= num <= 536870911 -> ty < 8 -> ty <> 4 -> (forall f, In f d -> f_num f = num -> ~ tk (f_kind f) ty) ->
    short_varint p (8 * num + ty) -> is_value num ty v -> unknown_fields tk d rest ->
    unknown_fields tk d (p ++ v ++ rest).

(** Values of the Go types (and slices that fit in memory). *)
Definition value_ok (k : kind) (v : value) : Prop :=
  match k, v with
  | KU32, VU n | KFix32, VU n => n < 4294967296
  | KBool, VB _ => True
  | KEnums, VI z | KSint32, VI z => (-2147483648 <= z < 2147483648)%Z
  | KBytes, VBytes b => bytes_ok b /\ len b < 18446744073709551616
  | _, _ => False
  end.

(** A message of this descriptor: as many value lists as fields, at most one value unless
    repeated, and kept unknown fields. *)
Definition message_ok {K V} (ok : K -> V -> Prop) (tk : K -> N -> Prop) (d : list (field K)) (m : message V) : Prop :=
  Forall2 (fun f vs => Forall (ok (f_kind f)) vs /\ (f_card f <> Rep -> (length vs <= 1)%nat)) d (m_vals m) /\
  unknown_fields tk d (m_unknown m) /\ bytes_ok (m_unknown m).

(** Nested messages are below 2^64 bytes on the wire. *)
Definition value1_ok (k : kind1) (v : value1) : Prop :=
  match k, v with
  | KLeaf k, VLeaf v => value_ok k v
  | KMsg d, VMsg m => message_ok value_ok takes d m /\ len (leaf_marshal d m) < 18446744073709551616
  | _, _ => False
  end.

Definition storage_ok (m : message value1) : Prop := message_ok value1_ok takes1 doc_storage m.

(** The three required fields (RecordNumber 1, TimeStamp 2 and field 4, the status flags). *)
Definition has_required (m : message value1) : Prop :=
  nth 0 (m_vals m) [] <> [] /\ nth 1 (m_vals m) [] <> [] /\ nth 3 (m_vals m) [] <> [].

(** The wire types of the protobuf encoding: 0 varint, 5 four bytes, 2 length-delimited. *)
Definition tag_type (k : kind) : N :=
  match k with KU32 => 0 | KBool => 0 | KEnums => 0 | KSint32 => 0 | KFix32 => 5 | KBytes => 2 end.
Definition tag_type1 (k : kind1) : N := match k with KLeaf k => tag_type k | KMsg _ => 2 end.

(** What values are on the wire. *)
Definition wire_value (k : kind) (v : value) (p : bytes) : Prop :=
  match k, v with
  | KU32, VU n => short_varint p n
  | KBool, VB b => p = [if b then 1 else 0]
  | KEnums, VI z => exists n, short_varint p n /\ Z.of_N n = (z mod 2 ^ 64)%Z
  | KFix32, VU n => length p = 4%nat /\ le_num p = n
  | KSint32, VI z => exists n, short_varint p n /\ z = (if N.even n then Z.of_N n / 2 else - (Z.of_N n + 1) / 2)%Z
  | KBytes, VBytes b => exists q, p = q ++ b /\ short_varint q (len b)
  | _, _ => False
  end.

Section Wire.
Context {K V : Type} (wt : K -> N) (wv : K -> V -> bytes -> Prop).
(** The values of one field, each after a tag with the number and the wire type. *)
Inductive wire_field (num : N) (k : K) : list V -> bytes -> Prop :=
| wfd_nil : wire_field num k [] []
| wfd_cons p q v vs b : short_varint p (8 * num + wt k) -> wv k v q -> wire_field num k vs b ->
    wire_field num k (v :: vs) (p ++ q ++ b).
(** All fields in the order of the descriptor. *)
Inductive wire_fields : list (field K) -> list (list V) -> bytes -> Prop :=
| wfs_nil : wire_fields [] [] []
| wfs_cons f d vs vals a b : wire_field (f_num f) (f_kind f) vs a -> wire_fields d vals b ->
    wire_fields (f :: d) (vs :: vals) (a ++ b).
Definition wire_message (d : list (field K)) (m : message V) (b : bytes) : Prop :=
  exists a, wire_fields d (m_vals m) a /\ b = a ++ m_unknown m.
End Wire.

Definition wire_value1 (k : kind1) (v : value1) (p : bytes) : Prop :=
  match k, v with
  | KLeaf k, VLeaf v => wire_value k v p
  | KMsg d, VMsg m => exists q b, p = q ++ b /\ short_varint q (len b) /\ wire_message tag_type wire_value d m b
  | _, _ => False
  end.

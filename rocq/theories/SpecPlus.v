(** Specification of the getters of the EGTS+ messages and of the reasons for a record, from
    docs/egts_sr_egtsplus_data.proto. *)
From Coq Require Import NArith ZArith String Ascii List.
From Verif Require Import GoBase Protobuf Json SpecNum SpecJson SpecPb EgtsPlus.
Import ListNotations.
Local Open Scope string_scope.
Open Scope N_scope.

(** The Go name of a field: the words joined, each with a capital; an underscore stays before
    a digit. *)
Definition lower (c : ascii) : bool := (97 <=? N_of_ascii c) && (N_of_ascii c <=? 122).
Definition upper (c : ascii) : ascii := if lower c then ascii_of_N (N_of_ascii c - 32) else c.
Fixpoint words (s : string) : string :=
  match s with
  | String "_" (String c r as t) => if lower c then String (upper c) (words r) else String "_" (words t)
  | String c r => String c (words r)
  | "" => ""
  end.
Definition go_name (s : string) : string := match s with String c r => String (upper c) (words r) | "" => "" end.
Definition getter_name (s : string) : string := "Get" ++ go_name s.

(** What a field is when it is not set (proto2, no defaults given): zero, false, or nothing. *)
Definition unset (t : scalar) : list value :=
  match t with
  | uint32 | fixed32 | sfixed32 | float => [VU 0]
  | sint32 => [VI 0]
  | bool_t => [VB false]
  | bytes_t => []
  | enum_t => [VI 0]
  end.

(** [field_is d m n vs]: in message [m] of descriptor [d], field number [n] has the values [vs]. *)
Definition field_is {K V} (d : list (field K)) (m : message V) (n : N) (vs : list V) : Prop :=
  exists i f, nth_error d i = Some f /\ f_num f = n /\ nth_error (m_vals m) i = Some vs.

(** The getters [gs] of a message with fields [doc]: one for every field, no other; it returns
    the value of the field, or the default if it has none or there is no message. *)
Definition getters_of {T K V} (doc : doc_message T) (dflt : label -> T -> list V)
  (d : list (field K)) (call : string -> option (message V) -> option (list V)) : Prop :=
  (forall l t name n, In (l, t, name, n) doc ->
     call (getter_name name) None = Some (dflt l t)
     /\ forall m vs, field_is d m n vs -> call (getter_name name) (Some m) = Some (match vs with [] => dflt l t | _ => vs end))
  /\ (forall g m r, call g m = Some r -> exists l t name n, In (l, t, name, n) doc /\ g = getter_name name).

Definition scalar_default (l : label) (t : scalar) : list value := match l with repeated => [] | _ => unset t end.
Definition storage_default (l : label) (t : scalar + doc_message scalar) : list value1 :=
  match l, t with
  | repeated, _ => []
  | _, inl s => map VLeaf (unset s)
  | _, inr _ => []
  end.

(** [rs] empties a message with fields [doc]: no value and no unknown byte is left, and the
    getters return the defaults. *)
Definition resets {T V} (doc : doc_message T) (dflt : label -> T -> list V)
  (call : string -> option (message V) -> option (list V)) (rs : message V -> message V) : Prop :=
  forall m, m_unknown (rs m) = [] /\ (forall vs, In vs (m_vals (rs m)) -> vs = [])
  /\ forall l t name n, In (l, t, name, n) doc -> call (getter_name name) (Some (rs m)) = Some (dflt l t).

(** The reasons. *)
Definition doc_reason : list (string * Z) :=
  [("DEVICE_RESET", 1); ("PROFILE_CHANGE", 2); ("IGNITION_ON", 3);
   ("IGNITION_OFF", 4); ("TRIP_BEGIN", 5); ("TRIP_END", 6); ("STOP", 7); ("MOVE", 8); ("TOWING_BEGIN", 9);
   ("TOWING_END", 10); ("TIMER_MOVE", 11); ("TIMER_STOP", 12); ("ANGLE", 13); ("DISTANCE", 14); ("SOS_BUTTON", 15);
   ("SERVICE_BUTTON", 16); ("TAMPER", 17); ("ANTENNA_SWITCH", 18); ("GSM_LOST", 19); ("GSM_RECONNECT", 20);
   ("GNSS_LOST", 21); ("GNSS_REAQUISITION", 22); ("JAMMER_GSM", 23); ("JAMMER_GNSS", 24); ("OVER_SPEED", 25);
   ("OVER_RPM", 26); ("OVER_TEMPERATURE", 27); ("DANGEROUS_DRIVING", 28); ("ACCIDENT", 29); ("OVERTHROW", 30);
   ("ON_BATTERY", 31); ("BATTERY_DISCHARGE", 32); ("RADIO_TAG_REG", 33); ("RADIO_TAG_UNREG", 34);
   ("MOVE_WITHOUT_RADIO_TAG", 35); ("ECU_ERROR_CODE", 36); ("EXTERNAL_REQUEST", 37); ("DEVICE_TEST", 38);
   ("OTHER_REASON", 99)]%Z.
Definition doc_value (name : string) (v : Z) : Prop := In (name, v) doc_reason.

(** What json.Unmarshal reads into an int32 (nothing is written for null) and into a string; of
    the strings only the ASCII ones matter here. *)
Definition reads_int (data : bytes) (v : Z) : Prop :=
  (exists t, json_doc data (JNum t) /\ int_text t v /\ (-2147483648 <= v < 2147483648)%Z) \/ (json_doc data JNull /\ v = 0%Z).
Definition decoders (js : bytes -> option bytes) (ji : bytes -> option Z) (data : bytes) : Prop :=
  (forall s, Forall (fun c => c < 128) s -> (js data = Some s <-> json_doc data (JStr s)))
  /\ (forall v, ji data = Some v <-> reads_int data v).

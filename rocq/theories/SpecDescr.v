(** The FileDescriptorProto of docs/egts_sr_egtsplus_data.proto, as protoc writes it
    (google/protobuf/descriptor.proto). *)
From Coq Require Import NArith ZArith String Ascii List.
From Verif Require Import GoBase SpecPb SpecPlus.
Import ListNotations.
Local Open Scope string_scope.
Open Scope list_scope.
Open Scope N_scope.

(** Numbers below 2^14, texts and messages as fields. *)
Definition number_field (n v : N) : bytes := [8 * n] ++ (if v <? 128 then [v] else [v mod 128 + 128; v / 128]).
Definition bytes_field (n : N) (b : bytes) : bytes :=
  let l := N.of_nat (length b) in [8 * n + 2] ++ (if l <? 128 then [l] else [l mod 128 + 128; l / 128]) ++ b.
Definition text_field (n : N) (s : string) : bytes := bytes_field n (bytes_of_string s).

(** FieldDescriptorProto.Type and .Label; the name of a field in JSON. *)
Definition type_number (t : scalar) : N :=
  match t with
  | float => 2 | fixed32 => 7 | bool_t => 8 | bytes_t => 12 | uint32 => 13 | enum_t => 14 | sfixed32 => 15 | sint32 => 17
  end.
Definition label_number (l : label) : N := match l with optional => 1 | required => 2 | repeated => 3 end.
Fixpoint json_name (s : string) : string :=
  match s with
  | String "_" (String c r) => String (upper c) (json_name r)
  | String c r => String c (json_name r)
  | "" => ""
  end.

Definition field_descr (l : label) (name : string) (n ty : N) (type_name : option string) : bytes :=
  text_field 1 name ++ number_field 3 n ++ number_field 4 (label_number l) ++ number_field 5 ty
  ++ match type_name with Some s => text_field 6 s | None => [] end ++ text_field 10 (json_name name).
Definition enum_name (t : scalar) : option string := match t with enum_t => Some ".nv.storage_record.reason" | _ => None end.
Definition message_descr (name : string) (fields : list bytes) (rest : bytes) : bytes :=
  text_field 1 name ++ flat_map (bytes_field 2) fields ++ rest.
Definition reason_descr : bytes :=
  text_field 1 "reason" ++ flat_map (fun e => bytes_field 2 (text_field 1 (fst e) ++ number_field 2 (Z.to_N (snd e)))) doc_reason.

(** The messages in the order of the file; the fields of storage_record with messages in them are
    named after their types. *)
Definition sensors : list (string * doc_message scalar) :=
  flat_map (fun e => match e with (_, inr m, name, _) => [(name, m)] | _ => [] end) doc_storage_record.
Definition message_names : list string := "storage_record" :: map fst sensors.
Definition storage_descr : bytes :=
  message_descr "storage_record"
    (map (fun e => match e with
                   | (l, inl t, name, n) => field_descr l name n (type_number t) (enum_name t)
                   | (l, inr _, name, n) => field_descr l name n 11 (Some (".nv." ++ name)%string)
                   end) doc_storage_record)
    (bytes_field 4 reason_descr).
Definition sensor_descr (e : string * doc_message scalar) : bytes :=
  message_descr (fst e) (map (fun f => match f with (l, t, name, n) => field_descr l name n (type_number t) (enum_name t) end) (snd e)) [].
Definition file_descr : bytes :=
  text_field 1 "egts_sr_egtsplus_data.proto" ++ text_field 2 "nv" ++ flat_map (bytes_field 4) (storage_descr :: map sensor_descr sensors).

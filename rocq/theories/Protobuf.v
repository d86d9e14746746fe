(** Model of the EGTS+ subrecord: the messages of libs/egts/egts_sr_egtsplus_data.go (field
    numbers, types and cardinalities from the struct tags) and the proto2 wire format that
    github.com/golang/protobuf v1.5.2 (google.golang.org/protobuf v1.26.0) uses for
    proto.Marshal and proto.Unmarshal (lines 241-247).  Definitions only.

    The codec is not in the repository; it is modelled from its documentation and source:
    fields are written in the order of their numbers, then the unknown fields that were kept;
    reading accepts any order, keeps the last value of an optional field, appends to repeated
    ones, accepts packed repeated enums, and keeps unknown fields (with their tags written
    canonically).  nil elements of repeated message fields are not modelled. *)
From Coq Require Import NArith ZArith List Bool.
From Verif Require Import GoBase.
Import ListNotations.
Open Scope N_scope.

(** ** Wire format *)

(** protowire.AppendVarint (at most 10 bytes for a uint64). *)
Fixpoint wr_varint_k (k : nat) (n : N) : bytes :=
  match k with
  | O => []
  | S k' => if n <? 128 then [n] else (n mod 128 + 128) :: wr_varint_k k' (n / 128)
  end.
Definition wr_varint (n : N) : bytes := wr_varint_k 10 n.

(** protowire.ConsumeVarint: the tenth byte must be below 2. *)
Fixpoint rd_varint_k (k : nat) (b : bytes) : option (N * bytes) :=
  match b, k with
  | [], _ => None
  | _, O => None
  | c :: r, S O => if c <? 2 then Some (c, r) else None
  | c :: r, S k' =>
      if c <? 128 then Some (c, r)
      else match rd_varint_k k' r with
           | Some (n, r') => Some (c - 128 + 128 * n, r')
           | None => None
           end
  end.
Definition rd_varint (b : bytes) : option (N * bytes) := rd_varint_k 10 b.

(** protowire.AppendTag *)
Definition tag (num ty : N) : bytes := wr_varint (8 * num + ty).

(** [k] bytes *)
Definition rd_exact (k : nat) (b : bytes) : option (bytes * bytes) :=
  if (k <=? length b)%nat then Some (firstn k b, skipn k b) else None.

(** protowire.ConsumeBytes *)
Definition rd_block (b : bytes) : option (bytes * bytes) :=
  match rd_varint b with
  | None => None
  | Some (n, r) => if n <=? len r then rd_exact (N.to_nat n) r else None
  end.

(** protowire.ConsumeFieldValue: what is left after a value of wire type [ty].  Wire type 3
    starts a group that ends with an end tag (4) with the same number.  [fuel] bounds the
    recursion. *)
Fixpoint skip_value (fuel : nat) (num ty : N) (b : bytes) : option bytes :=
  match fuel with
  | O => None
  | S f =>
      if ty =? 0 then option_map snd (rd_varint b)
      else if ty =? 5 then option_map snd (rd_exact 4 b)
      else if ty =? 1 then option_map snd (rd_exact 8 b)
      else if ty =? 2 then option_map snd (rd_block b)
      else if ty =? 3 then skip_group f num b
      else None
  end
with skip_group (fuel : nat) (num : N) (b : bytes) : option bytes :=
  match fuel with
  | O => None
  | S f =>
      match rd_varint b with
      | None => None
      | Some (t, r) =>
          if (t / 8 =? 0) || (2147483647 <? t / 8) then None
          else if t mod 8 =? 4 then (if t / 8 =? num then Some r else None)
          else match skip_value f (t / 8) (t mod 8) r with
               | None => None
               | Some r' => skip_group f num r'
               end
      end
  end.
Definition skip (num ty : N) (b : bytes) : option bytes := skip_value (S (S (2 * length b))) num ty b.

(** ** Messages.  [K] are the types of fields and [V] their values; a message has for every
    field of its descriptor the list of its values (none for nil, one for a set pointer). *)
Inductive card := Req | Opt | Rep.

Section Message.
Context {K V : Type}.
Variable wt : K -> N.
Variable put_v : K -> V -> bytes.
(** Reading a value of a field when its wire type is the given one: [None] is an error,
    [Some None] means that the wire type does not fit (the field is kept as an unknown one). *)
Variable get_v : K -> N -> bytes -> option (option (list V * bytes)).

Record field := mkField { f_num : N; f_kind : K; f_card : card }.
Record message := mkMessage { m_vals : list (list V); m_unknown : bytes }.

Definition empty_message (d : list field) : message := mkMessage (map (fun _ => []) d) [].

Definition put_field (f : field) (vs : list V) : bytes :=
  flat_map (fun v => tag (f_num f) (wt (f_kind f)) ++ put_v (f_kind f) v) vs.

Fixpoint put_fields (d : list field) (vals : list (list V)) : bytes :=
  match d, vals with
  | f :: d', vs :: vals' => put_field f vs ++ put_fields d' vals'
  | _, _ => []
  end.

Definition marshal (d : list field) (m : message) : bytes := put_fields d (m_vals m) ++ m_unknown m.

Definition find_field (d : list field) (num : N) : option field := find (fun f => f_num f =? num) d.

Fixpoint store (d : list field) (num : N) (vs : list V) (vals : list (list V)) : list (list V) :=
  match d, vals with
  | f :: d', old :: vals' =>
      if f_num f =? num
      then (match f_card f with Rep => old ++ vs | _ => vs end) :: vals'
      else old :: store d' num vs vals'
  | _, _ => vals
  end.

(** impl.MessageInfo.unmarshalPointer *)
Fixpoint unmarshal_loop (fuel : nat) (d : list field) (b : bytes) (m : message) : option message :=
  match b with
  | [] => Some m
  | _ :: _ =>
      match fuel with
      | O => None
      | S f =>
          match rd_varint b with
          | None => None
          | Some (t, r) =>
              let num := t / 8 in
              let ty := t mod 8 in
              if (num =? 0) || (536870911 <? num) then None
              else if ty =? 4 then None
              else
                match (match find_field d num with
                       | Some fd => get_v (f_kind fd) ty r
                       | None => Some None
                       end) with
                | None => None
                | Some (Some (vs, r')) =>
                    unmarshal_loop f d r' (mkMessage (store d num vs (m_vals m)) (m_unknown m))
                | Some None =>
                    match skip num ty r with
                    | None => None
                    | Some r' =>
                        unmarshal_loop f d r'
                          (mkMessage (m_vals m)
                             (m_unknown m ++ tag num ty ++ firstn (length r - length r') r))
                    end
                end
          end
      end
  end.

Definition unmarshal (d : list field) (b : bytes) : option message :=
  unmarshal_loop (length b) d b (empty_message d).

(** checkRequiredNotSet *)
Definition required_set (d : list field) (m : message) : bool :=
  forallb (fun fv => match f_card (fst fv), snd fv with Req, [] => false | _, _ => true end)
    (combine d (m_vals m)).
End Message.
Arguments field K : clear implicits.
Arguments message V : clear implicits.

(** ** Scalar fields: uint32, bool, enum (repeated), fixed32 / sfixed32 / float (the 32 bits),
    sint32, bytes. *)
Inductive kind := KU32 | KBool | KEnums | KFix32 | KSint32 | KBytes.
Inductive value := VU (n : N) | VI (z : Z) | VB (b : bool) | VBytes (b : bytes).

Definition wire_type (k : kind) : N := match k with KFix32 => 5 | KBytes => 2 | _ => 0 end.

(** int32 of the low 32 bits *)
Definition int32_of (n : N) : Z :=
  let m := n mod 4294967296 in
  if m <? 2147483648 then Z.of_N m else (Z.of_N m - 4294967296)%Z.
(** protowire.EncodeZigZag and DecodeZigZag *)
Definition zigzag (z : Z) : N := if (z <? 0)%Z then Z.to_N (- 2 * z - 1) else Z.to_N (2 * z).
Definition unzigzag (n : N) : Z := if N.even n then Z.of_N (n / 2) else (- Z.of_N (n / 2) - 1)%Z.

Definition put_value (k : kind) (v : value) : bytes :=
  match k, v with
  | KU32, VU n => wr_varint n
  | KBool, VB b => [if b then 1 else 0]
  | KEnums, VI z => wr_varint (Z.to_N (z mod 18446744073709551616))
  | KFix32, VU n => le_bytes 4 n
  | KSint32, VI z => wr_varint (zigzag z)
  | KBytes, VBytes b => wr_varint (len b) ++ b
  | _, _ => []
  end.

(** Varints until the end of a packed field. *)
Fixpoint rd_varints (fuel : nat) (b : bytes) : option (list N) :=
  match b with
  | [] => Some []
  | _ :: _ =>
      match fuel with
      | O => None
      | S f =>
          match rd_varint b with
          | None => None
          | Some (n, r) => option_map (cons n) (rd_varints f r)
          end
      end
  end.

Definition get_varint (ty : N) (b : bytes) (f : N -> value) : option (option (list value * bytes)) :=
  if ty =? 0 then match rd_varint b with Some (n, r) => Some (Some ([f n], r)) | None => None end
  else Some None.

Definition get_value (k : kind) (ty : N) (b : bytes) : option (option (list value * bytes)) :=
  match k with
  | KU32 => get_varint ty b (fun n => VU (n mod 4294967296))
  | KBool => get_varint ty b (fun n => VB (negb (n =? 0)))
  | KSint32 => get_varint ty b (fun n => VI (unzigzag (n mod 4294967296)))
  | KEnums =>
      if ty =? 2 then
        match rd_block b with
        | None => None
        | Some (p, r) =>
            match rd_varints (length p) p with
            | None => None
            | Some l => Some (Some (map (fun n => VI (int32_of n)) l, r))
            end
        end
      else get_varint ty b (fun n => VI (int32_of n))
  | KFix32 =>
      if ty =? 5 then match rd_exact 4 b with Some (p, r) => Some (Some ([VU (le_num p)], r)) | None => None end
      else Some None
  | KBytes =>
      if ty =? 2 then match rd_block b with Some (p, r) => Some (Some ([VBytes p], r)) | None => None end
      else Some None
  end.

Definition leaf_marshal (d : list (field kind)) (m : message value) : bytes := marshal wire_type put_value d m.
Definition leaf_unmarshal (d : list (field kind)) (b : bytes) : option (message value) := unmarshal get_value d b.

(** ** Fields of the top message: scalars and messages of scalars. *)
Inductive kind1 := KLeaf (k : kind) | KMsg (d : list (field kind)).
Inductive value1 := VLeaf (v : value) | VMsg (m : message value).

Definition wire_type1 (k : kind1) : N := match k with KLeaf k => wire_type k | KMsg _ => 2 end.
Definition put_value1 (k : kind1) (v : value1) : bytes :=
  match k, v with
  | KLeaf k, VLeaf v => put_value k v
  | KMsg d, VMsg m => let b := leaf_marshal d m in wr_varint (len b) ++ b
  | _, _ => []
  end.
Definition get_value1 (k : kind1) (ty : N) (b : bytes) : option (option (list value1 * bytes)) :=
  match k with
  | KLeaf k =>
      match get_value k ty b with
      | Some (Some (vs, r)) => Some (Some (map VLeaf vs, r))
      | Some None => Some None
      | None => None
      end
  | KMsg d =>
      if ty =? 2 then
        match rd_block b with
        | None => None
        | Some (p, r) => match leaf_unmarshal d p with Some m => Some (Some ([VMsg m], r)) | None => None end
        end
      else Some None
  end.

(** ** Descriptors *)
Definition o (n : N) (k : kind) : field kind := mkField n k Opt.

(** SensAccelerometerData, lines 421-430 *)
Definition d_accelerometer := [o 1 KU32; o 2 KBytes; o 3 KU32; o 4 KU32; o 5 KU32; o 6 KU32; o 7 KU32].
(** SensAinAinValue, lines 487-491 *)
Definition d_ain := [o 1 KU32; o 2 KU32].
(** SensBufferData, lines 513-518 *)
Definition d_buffer := [o 1 KU32; o 2 KBytes; o 3 KBool].
(** SensButtonPressCounter, lines 547-551 *)
Definition d_button := [o 1 KU32; o 2 KBool].
(** SensCanLogData, lines 573-590 *)
Definition d_canlog := [o 1 KU32; o 2 KU32; o 3 KU32; o 4 KU32; o 5 KU32; o 6 KSint32; o 7 KU32; o 8 KU32; o 9 KU32;
  o 10 KU32; o 11 KU32; o 12 KU32; o 13 KU32; o 14 KU32; o 15 KU32].
(** SensCanLogTmpDataExt, lines 703-708 *)
Definition d_canlog_ext := [o 1 KU32; o 2 KU32; o 3 KU32].
(** SensCounterCount, lines 737-741 *)
Definition d_counter := [o 1 KU32; o 2 KU32].
(** SensCrashData, lines 763-768 *)
Definition d_crash := [o 1 KU32; o 2 KU32; o 3 KBool].
(** SensDinsFlags, lines 797-802 *)
Definition d_dins := [o 1 KU32; o 2 KU32; o 3 KU32].
(** SensDoutsFlags, lines 831-836 *)
Definition d_douts := [o 1 KU32; o 2 KU32; o 3 KU32].
(** SensFmeterFrequency, lines 865-869 *)
Definition d_fmeter := [o 1 KU32; o 2 KU32].
(** SensFuelLevel, lines 891-899 *)
Definition d_fuel := [o 1 KU32; o 2 KFix32; o 3 KU32; o 4 KU32; o 5 KU32; o 6 KU32].
(** SensGsmCellMonotoringCellMonitoring, lines 949-958 *)
Definition d_gsm := [o 1 KU32; o 2 KU32; o 3 KU32; o 4 KBytes; o 5 KBytes; o 6 KBytes; o 7 KBytes].
(** SensNdNavData, lines 1017-1029 *)
Definition d_nav := [o 1 KU32; o 2 KFix32; o 3 KFix32; o 4 KU32; o 5 KU32; o 6 KU32; o 7 KU32; o 8 KU32; o 9 KU32; o 10 KU32].
(** SensStorInfo, lines 1107-1116 *)
Definition d_stor := [o 1 KU32; o 2 KU32; o 3 KU32; o 4 KU32; o 5 KU32; o 6 KU32; o 7 KU32].
(** SensTermoData, lines 1173-1178 *)
Definition d_termo := [o 1 KU32; o 2 KU32; o 3 KSint32].
(** SensTestEraTests, lines 1207-1220 *)
Definition d_era := [o 1 KU32; o 2 KBool; o 3 KBool; o 4 KBool; o 5 KBool; o 6 KBool; o 7 KBool; o 8 KBool; o 9 KBool;
  o 10 KBool; o 11 KBool].
(** SensTrackerInfo, lines 1305-1312 *)
Definition d_tracker := [o 1 KU32; o 2 KU32; o 3 KU32; o 4 KU32; o 5 KU32].

(** StorageRecord, lines 193-239, in the order of the field numbers. *)
Definition d_storage : list (field kind1) :=
  [mkField 1 (KLeaf KU32) Req; mkField 2 (KLeaf KFix32) Req; mkField 3 (KLeaf KEnums) Rep; mkField 4 (KLeaf KFix32) Req;
   mkField 7 (KMsg d_nav) Rep; mkField 8 (KMsg d_fuel) Rep; mkField 9 (KMsg d_ain) Rep; mkField 10 (KMsg d_dins) Rep;
   mkField 11 (KMsg d_counter) Rep; mkField 12 (KMsg d_fmeter) Rep; mkField 13 (KMsg d_gsm) Rep;
   mkField 14 (KMsg d_button) Rep; mkField 15 (KMsg d_termo) Rep; mkField 16 (KMsg d_canlog) Rep;
   mkField 17 (KMsg d_canlog_ext) Rep; mkField 18 (KMsg d_accelerometer) Rep; mkField 19 (KMsg d_douts) Rep;
   mkField 20 (KMsg d_buffer) Rep; mkField 21 (KMsg d_stor) Rep; mkField 22 (KMsg d_tracker) Rep;
   mkField 23 (KMsg d_era) Rep; mkField 24 (KMsg d_crash) Rep].

(** proto.Marshal and proto.Unmarshal on a StorageRecord: missing required fields are an
    error. *)
Definition storage_marshal (m : message value1) : option bytes :=
  if required_set d_storage m then Some (marshal wire_type1 put_value1 d_storage m) else None.
Definition storage_unmarshal (b : bytes) : option (message value1) :=
  match unmarshal get_value1 d_storage b with
  | Some m => if required_set d_storage m then Some m else None
  | None => None
  end.

(** Go run-time vocabulary used by the model: bytes, readers, strings, flag parsing.
    Definitions only. *)
From Coq Require Import NArith String Ascii Bool List.
Import ListNotations.
Open Scope N_scope.

(** A Go [[]byte]; every element is meant to be below 256 (see [bytes_ok]). *)
Definition bytes := list N.

Definition byte_ok (b : N) : Prop := b < 256.
Definition bytes_ok (l : bytes) : Prop := Forall byte_ok l.

(** Outcome of a Go call returning [(value, error)].  [Panic] is a run-time panic,
    [Fuel] means that the recursion bound of the model was exhausted (proved
    unreachable); error texts are not modelled. *)
Inductive res (A : Type) : Type :=
| Ok (a : A)
| Err
| Panic
| Fuel.
Arguments Ok {A} a.
Arguments Err {A}.
Arguments Panic {A}.
Arguments Fuel {A}.

Definition bind {A B : Type} (x : res A) (f : A -> res B) : res B :=
  match x with
  | Ok a => f a
  | Err => Err
  | Panic => Panic
  | Fuel => Fuel
  end.

(** Sequencing of a read: [None] is [io.EOF], which every caller turns into an error. *)
Definition rbind {A B : Type} (x : option (A * bytes)) (f : A -> bytes -> res B) : res B :=
  match x with
  | Some (a, r) => f a r
  | None => Err
  end.

Declare Scope go_scope.
Delimit Scope go_scope with go.
Notation "'do' x <- e ;; k" := (bind e (fun x => k))
  (at level 200, x pattern, e at level 100, k at level 200, right associativity) : go_scope.
Notation "'rd' x , r <- e ;; k" := (rbind e (fun x r => k))
  (at level 200, x pattern, r name, e at level 100, k at level 200, right associativity) : go_scope.

(** [make([]byte, k)] *)
Definition zeros (k : nat) : bytes := repeat 0 k.

(** Fixed-width conversions [uint8(x)], [uint16(x)], [uint32(x)]. *)
Definition u8 (n : N) : N := n mod 256.
Definition u16 (n : N) : N := n mod 65536.
Definition u32 (n : N) : N := n mod 4294967296.

Definition len (l : bytes) : N := N.of_nat (length l).

(** A reader is the list of unread bytes. *)

(** [bytes.Reader.ReadByte] / [bytes.Buffer.ReadByte] *)
Definition rd_byte (r : bytes) : option (N * bytes) :=
  match r with
  | [] => None
  | b :: r' => Some (b, r')
  end.

(** [bytes.Reader.Read(buf)] where [buf] holds [old]: EOF when nothing is left (even
    for an empty [buf]); otherwise copies as many bytes as there are, leaving the rest of
    [buf] unchanged, with no error on a short read.  [bytes.Buffer.Read] behaves the same
    for the non-empty targets it is used with. *)
Definition rd_into (old r : bytes) : option (bytes * bytes) :=
  match r with
  | [] => None
  | _ :: _ => Some (firstn (length old) r ++ skipn (length r) old, skipn (length old) r)
  end.

(** [binary.LittleEndian.UintXX] on a buffer. *)
Fixpoint le_num (l : bytes) : N :=
  match l with
  | [] => 0
  | b :: r => b + 256 * le_num r
  end.

(** [binary.LittleEndian.PutUintXX] / [binary.Write(buf, LittleEndian, n)], [k] low bytes. *)
Fixpoint le_bytes (k : nat) (n : N) : bytes :=
  match k with
  | O => []
  | S k' => n mod 256 :: le_bytes k' (n / 256)
  end.

(** Read into a fresh [k]-byte buffer and convert little-endian. *)
Definition rd_num (k : nat) (r : bytes) : option (N * bytes) :=
  match rd_into (zeros k) r with
  | Some (b, r') => Some (le_num b, r')
  | None => None
  end.

(** Read into a buffer that is reused between reads (current contents [tmp]) and convert;
    also returns the new contents of the buffer. *)
Definition rd_num_tmp (tmp r : bytes) : option ((N * bytes) * bytes) :=
  match rd_into tmp r with
  | Some (b, r') => Some ((le_num b, b), r')
  | None => None
  end.

(** [if present { read }], the field keeping its previous value otherwise. *)
Definition opt_rd {A : Type} (present : bool) (stale : A)
  (f : bytes -> option (A * bytes)) (r : bytes) : option (A * bytes) :=
  if present then f r else Some (stale, r).

(** [if present { write }] *)
Definition put (present : bool) (b : bytes) : bytes := if present then b else [].

(** ** Strings *)

(** [x == "1"] *)
Definition is1 (s : string) : bool := String.eqb s "1"%string.

Definition bit_char (b : bool) : ascii := if b then "1"%char else "0"%char.

(** The [k] low binary digits of [n], most significant first. *)
Fixpoint bits_str (k : nat) (n : N) : string :=
  match k with
  | O => EmptyString
  | S k' => String (bit_char (N.testbit n (N.of_nat k'))) (bits_str k' n)
  end.

(** [fmt.Sprintf("%0<w>b", n)]: zero-padded to [w] digits, longer if needed. *)
Definition sprintf_b (w : nat) (n : N) : string := bits_str (Nat.max w (N.size_nat n)) n.

(** [s[a:b]] *)
Definition slice (a b : nat) (s : string) : string := substring a (b - a) s.

(** [strconv.ParseUint(s, 2, bits)] with [maxv = 2^bits - 1]: the returned value and
    whether the error is nil.  Go returns 0 on a syntax error (a character that is not a
    binary digit, or an empty string) and [maxv] on overflow, whichever comes first. *)
Fixpoint pu_loop (maxv n : N) (s : string) : N * bool :=
  match s with
  | EmptyString => (n, true)
  | String c s' =>
      let k (d : N) :=
        let n1 := 2 * n + d in
        if maxv <? n1 then (maxv, false) else pu_loop maxv n1 s' in
      if Ascii.eqb c "0" then k 0
      else if Ascii.eqb c "1" then k 1
      else (0, false)
  end.

Definition parse_uint2 (maxv : N) (s : string) : N * bool :=
  match s with
  | EmptyString => (0, false)
  | _ => pu_loop maxv 0 s
  end.

(** [flags, err = strconv.ParseUint(s, 2, 8); if err != nil { return err }] *)
Definition parse_flags (s : string) : res N :=
  let (v, ok) := parse_uint2 255 s in if ok then Ok v else Err.

(** [[]byte(s)] and [string(b)] *)
Fixpoint bytes_of_string (s : string) : bytes :=
  match s with
  | EmptyString => []
  | String c s' => N_of_ascii c :: bytes_of_string s'
  end.

Fixpoint string_of_bytes (l : bytes) : string :=
  match l with
  | [] => EmptyString
  | b :: r => String (ascii_of_N b) (string_of_bytes r)
  end.

(** Read into a fresh [k]-byte buffer and keep it as a string. *)
Definition rd_str (k : nat) (r : bytes) : option (string * bytes) :=
  match rd_into (zeros k) r with
  | Some (b, r') => Some (string_of_bytes b, r')
  | None => None
  end.

(** Reading bytes up to and including a NUL; the NUL is dropped from the result.  Error if
    there is no NUL.  Models both the byte loops of SrModuleData.Decode and
    [bytes.Buffer.ReadString(0)] followed by [strings.TrimSuffix]. *)
Fixpoint rd_cstr (r : bytes) : option (string * bytes) :=
  match r with
  | [] => None
  | b :: r' =>
      if b =? 0 then Some (EmptyString, r')
      else match rd_cstr r' with
           | Some (s, r'') => Some (String (ascii_of_N b) s, r'')
           | None => None
           end
  end.

(** [Length()] of every BinaryData type that computes it by encoding:
    [uint16(len(recBytes))], 0 on error.  A panic propagates. *)
Definition length_of (e : res bytes) : res N :=
  match e with
  | Ok b => Ok (u16 (len b))
  | Err => Ok 0
  | Panic => Panic
  | Fuel => Fuel
  end.

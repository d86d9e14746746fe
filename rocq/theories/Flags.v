(** Model of the command lines of the two programs: the package flag of the Go library as
    cli/packet-gen/main.go:54-63 and cli/receiver/main.go:12-14 use it (flags of types int,
    float64 and string; FlagSet.parseOne and FlagSet.Parse with ExitOnError), with
    strconv.ParseInt(s, 0, 64), and then the programs themselves.  An argument is a sequence of
    bytes.  int has 64 bits (the Dockerfile builds for amd64).  strconv.ParseFloat is an
    arbitrary function.  No imported package defines further flags.  Definitions only. *)
From Coq Require Import NArith ZArith String List Bool.
From Verif Require Import GoBase GoFloat SubRecords Records Package PacketGen.
Import ListNotations.
Open Scope N_scope.

(** ** strconv.ParseInt(s, 0, 64) *)

(** lower(c) *)
Definition lower (c : N) : N := N.lor c 32.

(** The digit of a character in the loop of ParseUint. *)
Definition digit_of (c : N) : option N :=
  if (48 <=? c) && (c <=? 57) then Some (c - 48)
  else if (97 <=? lower c) && (lower c <=? 122) then Some (lower c - 97 + 10)
  else None.

(** The loop of ParseUint with base argument 0; [None] is an error. *)
Fixpoint uint_digits (base : N) (s : bytes) (n : N) : option N :=
  match s with
  | [] => Some n
  | c :: r =>
      if c =? 95 then uint_digits base r n
      else match digit_of c with
           | None => None
           | Some d =>
               if base <=? d then None
               else let n1 := n * base + d in
                    if 18446744073709551616 <=? n1 then None else uint_digits base r n1
           end
  end.

(** underscoreOK: the class of the last character is '^' (the beginning), '0' (a digit or the base
    prefix), '_' or '!' (something else). *)
Inductive saw := SawNothing | SawDigit | SawUnderscore | SawOther.
Fixpoint underscore_loop (hex : bool) (s : bytes) (w : saw) : bool :=
  match s with
  | [] => match w with SawUnderscore => false | _ => true end
  | c :: r =>
      if ((48 <=? c) && (c <=? 57)) || hex && (97 <=? lower c) && (lower c <=? 102)
      then underscore_loop hex r SawDigit
      else if c =? 95
      then match w with SawDigit => underscore_loop hex r SawUnderscore | _ => false end
      else match w with SawUnderscore => false | _ => underscore_loop hex r SawOther end
  end.
Definition underscore_ok (s : bytes) : bool :=
  let s := match s with c :: r => if (c =? 45) || (c =? 43) then r else s | [] => s end in
  match s with
  | c :: x :: r =>
      if (c =? 48) && ((lower x =? 98) || (lower x =? 111) || (lower x =? 120))
      then underscore_loop (lower x =? 120) r SawDigit
      else underscore_loop false s SawNothing
  | _ => underscore_loop false s SawNothing
  end.

(** ParseUint(s, 0, 64): the base prefix, the digits, the underscores. *)
Definition parse_uint0 (s : bytes) : option N :=
  match s with
  | [] => None
  | c :: r =>
      let '(base, ds) :=
        if c =? 48 then
          match r with
          | x :: ((_ :: _) as t) =>
              if lower x =? 98 then (2, t)
              else if lower x =? 111 then (8, t)
              else if lower x =? 120 then (16, t)
              else (8, r)
          | _ => (8, r)
          end
        else (10, s) in
      match uint_digits base ds 0 with
      | None => None
      | Some n => if existsb (N.eqb 95) ds && negb (underscore_ok s) then None else Some n
      end
  end.

(** ParseInt(s, 0, 64) *)
Definition parse_int0 (s : bytes) : option Z :=
  let '(neg, u) :=
    match s with
    | c :: r => if c =? 43 then (false, r) else if c =? 45 then (true, r) else (false, s)
    | [] => (false, s)
    end in
  match parse_uint0 u with
  | None => None
  | Some n =>
      if negb neg && (9223372036854775808 <=? n) then None
      else if neg && (9223372036854775808 <? n) then None
      else Some (if neg then - Z.of_N n else Z.of_N n)%Z
  end.

(** ** The package flag *)
Inductive kind := KInt | KFloat | KString.
Inductive fval := FInt (z : Z) | FFloat (x : f64) | FString (s : bytes).

(** What becomes of the arguments: the values set, in order, and the remaining arguments; or
    the help text (the program ends with status 0), or an error (status 2). *)
Inductive parsed := POk (sets : list (bytes * fval)) (rest : list bytes) | PHelp | PBad.

(** The first part of parseOne: what kind of argument this is. *)
Inductive shape := ShStop | ShDashes | ShBad | ShFlag (name : bytes) (value : option bytes).

(** The search for "=", which is not the first character of the name. *)
Fixpoint split_eq (s : bytes) : bytes * option bytes :=
  match s with
  | [] => ([], None)
  | c :: r => if c =? 61 then ([], Some r) else let '(n, v) := split_eq r in (c :: n, v)
  end.
Definition shape_of (a : bytes) : shape :=
  match a with
  | c0 :: c1 :: r =>
      if negb (c0 =? 45) then ShStop
      else
        let name := if c1 =? 45 then r else c1 :: r in
        if (c1 =? 45) && (match r with [] => true | _ => false end) then ShDashes
        else match name with
             | [] => ShBad
             | c :: n => if (c =? 45) || (c =? 61) then ShBad
                         else let '(n, v) := split_eq n in ShFlag (c :: n) v
             end
  | _ => ShStop
  end.

Section Parse.
Variable parse_float : bytes -> option f64.
(** The flags defined, by name. *)
Variable flags : bytes -> option kind.

Definition bytes_eqb (a b : bytes) : bool := if list_eq_dec N.eq_dec a b then true else false.

(** Value.Set *)
Definition set_value (k : kind) (v : bytes) : option fval :=
  match k with
  | KInt => option_map FInt (parse_int0 v)
  | KFloat => option_map FFloat (parse_float v)
  | KString => Some (FString v)
  end.

(** "help", "h" *)
Definition is_help (name : bytes) : bool := bytes_eqb name [104; 101; 108; 112] || bytes_eqb name [104].

Definition pset (name : bytes) (o : option fval) (next : parsed) : parsed :=
  match o with
  | None => PBad
  | Some v => match next with POk l rest => POk ((name, v) :: l) rest | p => p end
  end.

(** FlagSet.Parse *)
Fixpoint flags_parse (args : list bytes) : parsed :=
  match args with
  | [] => POk [] []
  | a :: r =>
      match shape_of a with
      | ShStop => POk [] args
      | ShDashes => POk [] r
      | ShBad => PBad
      | ShFlag name value =>
          match flags name with
          | None => if is_help name then PHelp else PBad
          | Some k =>
              match value with
              | Some v => pset name (set_value k v) (flags_parse r)
              | None => match r with
                        | [] => PBad
                        | v :: r' => pset name (set_value k v) (flags_parse r')
                        end
              end
          end
      end
  end.
End Parse.

(** The value of a flag at the end: the last one set. *)
Definition last_set (name : bytes) (sets : list (bytes * fval)) : option fval :=
  fold_left (fun o s => if bytes_eqb (fst s) name then Some (snd s) else o) sets None.

(** ** The packet generator *)
Definition n_pid : bytes := [112; 105; 100].
Definition n_oid : bytes := [111; 105; 100].
Definition n_time : bytes := [116; 105; 109; 101].
Definition n_liquid : bytes := [108; 105; 113; 117; 105; 100].
Definition n_lat : bytes := [108; 97; 116].
Definition n_lon : bytes := [108; 111; 110].
Definition n_timeout : bytes := [116; 105; 109; 101; 111; 117; 116].
Definition n_server : bytes := [115; 101; 114; 118; 101; 114].

(** packet-gen/main.go:54-61 *)
Definition gen_table (name : bytes) : option kind :=
  if bytes_eqb name n_pid then Some KInt
  else if bytes_eqb name n_oid then Some KInt
  else if bytes_eqb name n_time then Some KString
  else if bytes_eqb name n_liquid then Some KInt
  else if bytes_eqb name n_lat then Some KFloat
  else if bytes_eqb name n_lon then Some KFloat
  else if bytes_eqb name n_timeout then Some KInt
  else if bytes_eqb name n_server then Some KString
  else None.

Definition int_set (o : option fval) : option Z := match o with Some (FInt z) => Some z | _ => None end.
Definition float_set (o : option fval) : option f64 := match o with Some (FFloat x) => Some x | _ => None end.
Definition string_set (o : option fval) : option string := match o with Some (FString s) => Some (string_of_bytes s) | _ => None end.

Definition gen_flags_of (l : list (bytes * fval)) : gen_flags :=
  mkGenFlags (int_set (last_set n_pid l)) (int_set (last_set n_oid l)) (string_set (last_set n_time l))
    (int_set (last_set n_liquid l)) (float_set (last_set n_lat l)) (float_set (last_set n_lon l))
    (int_set (last_set n_timeout l)) (string_set (last_set n_server l)).

Section WithEnv.
Context {E : Env}.

(** The program with its arguments (without the program name): what is sent, and the exit
    status.  flag.Parse ends the program with status 0 for help and 2 for an error. *)
Definition gen_program (parse_float : bytes -> option f64) (args : list bytes) (w : gen_world) : option (string * bytes) * Z :=
  match flags_parse parse_float gen_table args with
  | POk l _ => let (sent, e) := gen_main (gen_flags_of l) w in (sent, exit_code e)
  | PHelp => (None, 0%Z)
  | PBad => (None, 2%Z)
  end.
End WithEnv.

(** ** The receiver *)
(** receiver/main.go:13, the flag "c" *)
Definition rcv_table (name : bytes) : option kind := if bytes_eqb name [99] then Some KString else None.

(** receiver/main.go:12-18: the settings file that is read, or the exit status. *)
Definition rcv_config (args : list bytes) : bytes + Z :=
  match flags_parse (fun _ => None) rcv_table args with
  | POk l _ => match last_set [99] l with
               | Some (FString (c :: r)) => inl (c :: r)
               | _ => inr 1%Z
               end
  | PHelp => inr 0%Z
  | PBad => inr 2%Z
  end.

(** Specification of command lines: which texts are integers, and which arguments set which
    options to which values. *)
From Coq Require Import NArith ZArith String List Bool.
From Verif Require Import GoBase GoFloat SubRecords PacketGen Flags.
Import ListNotations.
Open Scope N_scope.

(** ** Integers, as in Go source *)
Inductive digit : N -> N -> Prop :=
| dg_num c : 48 <= c <= 57 -> digit c (c - 48)
| dg_small c : 97 <= c <= 102 -> digit c (c - 87)
| dg_big c : 65 <= c <= 70 -> digit c (c - 55).

(** Further digits behind a number that is [a] so far; one underscore may precede a digit. *)
Inductive more (b : N) : N -> bytes -> N -> Prop :=
| mo_end a : more b a [] a
| mo_digit a c d t n : digit c d -> d < b -> more b (a * b + d) t n -> more b a (c :: t) n
| mo_under a c d t n : digit c d -> d < b -> more b (a * b + d) t n -> more b a (95 :: c :: t) n.

(** Without sign: decimal if there is no leading zero; octal, also if there is; hexadecimal; binary. *)
Inductive magnitude : bytes -> N -> Prop :=
| mg_decimal c t n : 49 <= c <= 57 -> more 10 (c - 48) t n -> magnitude (c :: t) n
| mg_octal t n : more 8 0 t n -> magnitude (48 :: t) n
| mg_prefix x b t n : (x = 98 \/ x = 66) /\ b = 2 \/ (x = 111 \/ x = 79) /\ b = 8 \/ (x = 120 \/ x = 88) /\ b = 16 ->
    t <> [] -> more b 0 t n -> magnitude (48 :: x :: t) n.

Inductive integer : bytes -> Z -> Prop :=
| in_plain t n : magnitude t n -> n < 9223372036854775808 -> integer t (Z.of_N n)
| in_plus t n : magnitude t n -> n < 9223372036854775808 -> integer (43 :: t) (Z.of_N n)
| in_minus t n : magnitude t n -> n <= 9223372036854775808 -> integer (45 :: t) (- Z.of_N n).

(** ** Arguments *)
Section Args.
Variable parse_float : bytes -> option f64.
Variable flags : bytes -> option kind.

Inductive value_of : kind -> bytes -> fval -> Prop :=
| vl_int t z : integer t z -> value_of KInt t (FInt z)
| vl_float t x : parse_float t = Some x -> value_of KFloat t (FFloat x)
| vl_string t : value_of KString t (FString t).

(** One or two dashes, and a name. *)
Definition dashes (d : bytes) : Prop := d = [45] \/ d = [45; 45].
Definition named (name : bytes) : Prop := name <> [] /\ ~ In 61 name /\ hd 0 name <> 45.

(** An argument that is no option: empty, a single dash, or not beginning with a dash. *)
Definition no_option (a : bytes) : Prop := a = [45] \/ hd 0 a <> 45.

(** [sets_all args l rest]: the options in front of [args] set [l], in this order; [rest] are
    the arguments behind them, which are not looked at.  Two dashes alone end the options. *)
Inductive sets_all : list bytes -> list (bytes * fval) -> list bytes -> Prop :=
| sa_none : sets_all [] [] []
| sa_rest a r : no_option a -> sets_all (a :: r) [] (a :: r)
| sa_dashes r : sets_all ([45; 45] :: r) [] r
| sa_joined d name t k v r l rest : dashes d -> named name -> flags name = Some k -> value_of k t v ->
    sets_all r l rest -> sets_all ((d ++ name ++ [61] ++ t) :: r) ((name, v) :: l) rest
| sa_apart d name t k v r l rest : dashes d -> named name -> flags name = Some k -> value_of k t v ->
    sets_all r l rest -> sets_all ((d ++ name) :: t :: r) ((name, v) :: l) rest.

(** The arguments ask for help: behind some options, an option h or help that is not defined. *)
Inductive asks_help : list bytes -> Prop :=
| ah_here d name t r : dashes d -> name = [104] \/ name = [104; 101; 108; 112] -> flags name = None ->
    t = [] \/ hd 0 t = 61 -> asks_help ((d ++ name ++ t) :: r)
| ah_joined d name t k v r : dashes d -> named name -> flags name = Some k -> value_of k t v ->
    asks_help r -> asks_help ((d ++ name ++ [61] ++ t) :: r)
| ah_apart d name t k v r : dashes d -> named name -> flags name = Some k -> value_of k t v ->
    asks_help r -> asks_help ((d ++ name) :: t :: r).
End Args.

(** The last value given to an option. *)
Inductive last_value (name : bytes) : list (bytes * fval) -> fval -> Prop :=
| lv_last l v r : ~ In name (map fst r) -> last_value name (l ++ (name, v) :: r) v.

(** ** The options of the programs, as their usage texts give them *)
Local Open Scope string_scope.
Definition gen_options : list (string * kind) :=
  [("pid", KInt); ("oid", KInt); ("time", KString); ("lat", KFloat); ("liquid", KInt); ("lon", KFloat); ("server", KString); ("timeout", KInt)].
Definition rcv_options : list (string * kind) := [("c", KString)].
Definition kinds (l : list (string * kind)) (name : bytes) : option kind :=
  option_map snd (find (fun o => if list_eq_dec N.eq_dec (bytes_of_string (fst o)) name then true else false) l).

(** [l] gives the option [name] the value [v], or, for [None], does not give it at all. *)
Definition given (name : string) (l : list (bytes * fval)) (v : option fval) : Prop :=
  match v with
  | Some v => last_value (bytes_of_string name) l v
  | None => ~ In (bytes_of_string name) (map fst l)
  end.

(** The arguments of the generator, field by field. *)
Definition options_given (l : list (bytes * fval)) (f : gen_flags) : Prop :=
  given "pid" l (option_map FInt (gf_pid f)) /\ given "oid" l (option_map FInt (gf_oid f)) /\
  given "liquid" l (option_map FInt (gf_liquid f)) /\ given "timeout" l (option_map FInt (gf_timeout f)) /\
  given "lat" l (option_map FFloat (gf_lat f)) /\ given "lon" l (option_map FFloat (gf_lon f)) /\
  given "time" l (option_map (fun s => FString (bytes_of_string s)) (gf_time f)) /\
  given "server" l (option_map (fun s => FString (bytes_of_string s)) (gf_server f)).

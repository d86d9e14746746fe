(** Specification of the storage connectors: what reaches a storage, what a connection string says,
    which settings are usable. *)
From Coq Require Import NArith ZArith String Ascii Bool List.
From Verif Require Import GoBase GoFloat Storage Config Server Connect SpecBase.
Import ListNotations.
Open Scope string_scope.

(** ** Integer settings *)
Definition is_dec (c : ascii) : Prop := (48 <= N_of_ascii c <= 57)%N.
Fixpoint dec_chars (s : string) : Prop := match s with EmptyString => True | String c r => is_dec c /\ dec_chars r end.
(** The value of digits: the last one counts once. *)
Fixpoint weigh (s : string) : Z :=
  match s with
  | EmptyString => 0
  | String c r => (Z.of_N (N_of_ascii c - 48) * 10 ^ Z.of_nat (String.length r) + weigh r)%Z
  end.
Definition int_setting (s : string) (z : Z) : Prop :=
  (- 9223372036854775808 <= z <= 9223372036854775807)%Z
  /\ exists sign u, s = sign ++ u /\ u <> "" /\ dec_chars u
     /\ (((sign = "" \/ sign = "+") /\ z = weigh u) \/ (sign = "-" /\ z = (- weigh u)%Z)).

(** ** What reaches a storage *)
(** The setting that names where records go. *)
Definition place (k : StoreKind) : string :=
  match k with
  | KMysql | KPostgresql => "table"
  | KNats => "topic"
  | KRabbitmq => "exchange"
  | KRedis | KTarantool => "queue"
  | KLog => ""
  end.

(** [delivers k cfg t c]: library call [c] sends [t] to where the settings say. *)
Definition delivers (k : StoreKind) (cfg : settings) (t : list N) (c : call) : Prop :=
  let dest := get cfg (place k) in
  match k, c with
  | KMysql, CSqlExec q a => q = "INSERT INTO " ++ dest ++ " (point) VALUES (?)" /\ a = t
  | KPostgresql, CSqlExec q a => q = "INSERT INTO " ++ dest ++ " (point) VALUES ($1)" /\ a = t
  | KNats, CNatsPublish topic b => topic = dest /\ b = t
  | KRabbitmq, CAmqpPublish ex key m i ct b => ex = dest /\ key = get cfg "key" /\ m = false /\ i = false /\ ct = "text/plain" /\ b = t
  | KRedis, CRedisPublish q b => q = dest /\ b = t
  | KTarantool, CTarantoolPut q b => q = dest /\ b = t
  | KLog, CLogInfo f v m => f = "packet" /\ m = "Export packet" /\ bytes_of_string v = t
  | _, _ => False
  end.

(** ** Library calls that use the network *)
Definition network (c : call) : Prop :=
  match c with CRedisNewClient _ _ _ | CLogInfo _ _ _ => False | _ => True end.

(** ** Usable settings *)
Definition usable (k : StoreKind) (cfg : settings) : Prop :=
  match k with
  | KRedis => cfg "server" <> None /\ cfg "queue" <> None /\ exists z, int_setting (get cfg "db") z
  | KTarantool => (exists z, int_setting (get cfg "max_recons") z) /\ (exists z, int_setting (get cfg "timeout") z)
      /\ exists z, int_setting (get cfg "reconnect") z
  | _ => True
  end.
(** The settings documented at the head of each connector (without user names and passwords). *)
Definition documented (k : StoreKind) : list string :=
  match k with
  | KMysql => ["uri"; "table"]
  | KPostgresql => ["host"; "port"; "database"; "table"]
  | KNats => ["servers"; "topic"]
  | KRabbitmq => ["host"; "port"; "exchange"]
  | KRedis => ["server"; "queue"]
  | KTarantool => ["host"; "port"; "queue"]
  | KLog => []
  end.

(** ** Keyword/value connection strings (PostgreSQL, libpq): keyword = value pairs separated by
    white space, white space around the equals sign optional, values quoted by ' or ended by white
    space, backslash quotes the next character. *)
Definition space (c : ascii) : bool :=
  match N_of_ascii c with 32 | 9 | 10 | 11 | 12 | 13 => true | _ => false end%N.
Inductive dsn_state :=
| AtStart                                       (* before a keyword *)
| InKey (k : string)
| AfterKey (k : string)                         (* white space after a keyword *)
| AfterEq (k : string)                          (* before a value *)
| InVal (k v : string)
| InQuoted (k v : string)
| Escaped (quoted : bool) (k v : string).
Definition snoc (s : string) (c : ascii) : string := s ++ String c "".
(** Reads on in a state; [None] if the string is not well formed. *)
Fixpoint dsn (st : dsn_state) (t : string) : option (list (string * string)) :=
  match t with
  | EmptyString =>
      match st with
      | AtStart => Some []
      | AfterEq k => Some [(k, "")]
      | InVal k v => Some [(k, v)]
      | _ => None
      end
  | String c r =>
      match st with
      | AtStart => if space c then dsn AtStart r else dsn (InKey (snoc "" c)) r
      | InKey k => if space c then dsn (AfterKey k) r else if Ascii.eqb c "=" then dsn (AfterEq k) r else dsn (InKey (snoc k c)) r
      | AfterKey k => if space c then dsn (AfterKey k) r else if Ascii.eqb c "=" then dsn (AfterEq k) r else None
      | AfterEq k => if space c then dsn (AfterEq k) r
          else if Ascii.eqb c "'" then dsn (InQuoted k "") r
          else if Ascii.eqb c "\" then dsn (Escaped false k "") r else dsn (InVal k (snoc "" c)) r
      | InVal k v => if space c then option_map (cons (k, v)) (dsn AtStart r)
          else if Ascii.eqb c "\" then dsn (Escaped false k v) r else dsn (InVal k (snoc v c)) r
      | InQuoted k v => if Ascii.eqb c "'" then option_map (cons (k, v)) (dsn AtStart r)
          else if Ascii.eqb c "\" then dsn (Escaped true k v) r else dsn (InQuoted k (snoc v c)) r
      | Escaped true k v => dsn (InQuoted k (snoc v c)) r
      | Escaped false k v => dsn (InVal k (snoc v c)) r
      end
  end.
(** A value that needs no quoting. *)
Fixpoint chars (P : ascii -> Prop) (s : string) : Prop := match s with EmptyString => True | String c r => P c /\ chars P r end.
Definition plain (c : ascii) : Prop := space c = false /\ c <> "'"%char /\ c <> "\"%char.

(** ** AMQP URIs (RFC 3986: user:password@host:port), the parts without percent-encoding *)
Definition unreserved (c : ascii) : Prop :=
  let n := N_of_ascii c in
  ((48 <= n <= 57) \/ (65 <= n <= 90) \/ (97 <= n <= 122) \/ n = 45 \/ n = 46 \/ n = 95 \/ n = 126)%N.
Definition amqp (t user password host port : string) : Prop :=
  t = "amqp://" ++ user ++ ":" ++ password ++ "@" ++ host ++ ":" ++ port ++ "/"
  /\ chars unreserved user /\ chars unreserved password /\ chars unreserved host /\ chars is_dec port.

(** ** A receiver with storages: the library calls made on the saves of [evs]. *)
Inductive stored (conns : list Conn) : list event -> list (call * bool) -> Prop :=
| st_nil : stored conns [] []
| st_write b evs cs : stored conns evs cs -> stored conns (EvWrite b :: evs) cs
| st_save r ok evs cs cs' : lruns (save_all conns (Some r)) cs ok -> stored conns evs cs' ->
    stored conns (EvSave r ok :: evs) (cs ++ cs').

(** A connector that serves an entry of the configuration. *)
Definition serves (e : string * option settings) (c : Conn) : Prop :=
  In (fst e, cn_kind c) [("rabbitmq", KRabbitmq); ("postgresql", KPostgresql); ("nats", KNats);
                         ("tarantool_queue", KTarantool); ("redis", KRedis); ("mysql", KMysql)]
  /\ snd e = Some (cn_config c).

(** What the log shows at a level (logrus prints entries of the level and of more severe ones). *)
Definition shown (l : Level) (c : call) : Prop :=
  match c with CLogInfo _ _ _ => l = DebugLevel \/ l = InfoLevel | _ => True end.

(** Model of the storage connectors: cli/receiver/storage/store/*/connector.go,
    storage/default.go, and Repository.LoadStorages, Repository.Save and the start of main.go with
    these connectors.  Definitions only.

    What the libraries behind the connectors do is arbitrary: a connector is a program that makes
    library calls ([LCall]) and goes on according to whether the call returned an error.  Error
    texts are dropped.  Close is not modelled (the receiver never calls it on a connector). *)
From Coq Require Import NArith ZArith String Ascii List Bool.
From Verif Require Import GoBase GoFloat Storage Json.
Import ListNotations.

(** The library calls. *)
Inductive call :=
| CSqlOpen (driver dsn : string)                       (* sql.Open *)
| CSqlPing                                             (* DB.Ping *)
| CSqlExec (query : string) (arg : bytes)              (* DB.Exec *)
| CAmqpDial (uri : string)                             (* amqp.Dial *)
| CAmqpChannel                                         (* Connection.Channel *)
| CAmqpPublish (exchange key : string) (mandatory immediate : bool) (content_type : string) (body : bytes)
| CNatsConnect (servers name : string) (user_info : option (string * string))
| CNatsPublish (topic : string) (body : bytes)
| CRedisNewClient (addr password : string) (db : Z)    (* no error result, no network *)
| CRedisPublish (channel : string) (body : bytes)
| CTarantoolConnect (addr : string) (timeout reconnect : Z) (max_reconnects : N) (user pass : string)
| CTarantoolPut (queue : string) (body : bytes)        (* queue.New(conn, queue).Put *)
| CLogInfo (field value : string) (message : string).  (* log.WithField(field, value).Info(message) *)

(** Programs making library calls, and their runs: the calls made, with their outcomes. *)
Inductive lprog (A : Type) :=
| LRet (a : A)
| LTell (c : call) (k : lprog A)
| LCall (c : call) (k : bool -> lprog A).
Arguments LRet {A}. Arguments LTell {A}. Arguments LCall {A}.

Fixpoint lbind {A B} (p : lprog A) (f : A -> lprog B) : lprog B :=
  match p with
  | LRet a => f a
  | LTell c k => LTell c (lbind k f)
  | LCall c k => LCall c (fun ok => lbind (k ok) f)
  end.

Inductive lruns {A} : lprog A -> list (call * bool) -> A -> Prop :=
| lr_ret a : lruns (LRet a) [] a
| lr_tell c k cs a : lruns k cs a -> lruns (LTell c k) ((c, true) :: cs) a
| lr_call c k ok cs a : lruns (k ok) cs a -> lruns (LCall c k) ((c, ok) :: cs) a.

(** ** strconv.Atoi: an optional sign and decimal digits, in the range of int64 *)
Definition digit_val (c : ascii) : option Z :=
  let n := N_of_ascii c in if ((48 <=? n) && (n <=? 57))%N then Some (Z.of_N n - 48)%Z else None.
Fixpoint digits_val (acc : Z) (s : string) : option Z :=
  match s with
  | EmptyString => Some acc
  | String c r => match digit_val c with Some d => digits_val (10 * acc + d)%Z r | None => None end
  end.
Definition Atoi (s : string) : option Z :=
  let '(neg, u) := match s with
    | String "+" r => (false, r)
    | String "-" r => (true, r)
    | _ => (false, s)
    end in
  match u with
  | EmptyString => None
  | _ => match digits_val 0 u with
         | Some n => let z := if neg then (- n)%Z else n in
             if ((- 2 ^ 63 <=? z) && (z <? 2 ^ 63))%Z then Some z else None
         | None => None
         end
  end.

(** ** Settings: a map[string]string; nil is [None].  A missing key reads as "". *)
Definition settings := string -> option string.
Definition get (cfg : settings) (k : string) : string := match cfg k with Some v => v | None => "" end.

(** A connector on which Init succeeded: its type, its config and (redis) its queue. *)
Record Conn := mkConn { cn_kind : StoreKind; cn_config : settings; cn_queue : string }.

Open Scope string_scope.
Section Init.
Context (cfg : settings).
Let c (k : StoreKind) : lprog (option Conn) := LRet (Some (mkConn k cfg "")).
Let err : lprog (option Conn) := LRet None.

(** mysql/connector.go:25-42 *)
Definition mysql_init : lprog (option Conn) :=
  LCall (CSqlOpen "mysql" (get cfg "uri")) (fun ok => if ok then LCall CSqlPing (fun ok => if ok then c KMysql else err) else err).

(** postgresql/connector.go:29-47 *)
Definition pg_dsn : string :=
  "dbname=" ++ get cfg "database" ++ " host=" ++ get cfg "host" ++ " port=" ++ get cfg "port"
  ++ " user=" ++ get cfg "user" ++ " password=" ++ get cfg "password" ++ " sslmode=" ++ get cfg "sslmode".
Definition postgresql_init : lprog (option Conn) :=
  LCall (CSqlOpen "postgres" pg_dsn) (fun ok => if ok then LCall CSqlPing (fun ok => if ok then c KPostgresql else err) else err).

(** nats/connector.go:23-46.  The three nil options are ignored by the library. *)
Definition nats_user : option (string * string) :=
  match cfg "user" with
  | Some u => match cfg "password" with Some p => Some (u, p) | None => None end
  | None => None
  end.
Definition nats_init : lprog (option Conn) :=
  LCall (CNatsConnect (get cfg "servers") ("EGTS handler, topic: " ++ get cfg "topic") nats_user)
    (fun ok => if ok then c KNats else err).

(** rabbitmq/connector.go:27-46 *)
Definition amqp_uri : string :=
  "amqp://" ++ get cfg "user" ++ ":" ++ get cfg "password" ++ "@" ++ get cfg "host" ++ ":" ++ get cfg "port" ++ "/".
Definition rabbitmq_init : lprog (option Conn) :=
  LCall (CAmqpDial amqp_uri) (fun ok => if ok then LCall CAmqpChannel (fun ok => if ok then c KRabbitmq else err) else err).

(** redis/connector.go:28-63.  In line 43 [ok] is still that of "server", so the default of line
    44 is never taken. *)
Definition redis_init : lprog (option Conn) :=
  match cfg "server" with
  | None => err
  | Some addr =>
      let ok := true in
      let config_db := if negb ok then "0" else get cfg "db" in
      match Atoi config_db with
      | None => err
      | Some db =>
          LTell (CRedisNewClient addr (get cfg "password") db)
            match cfg "queue" with
            | None => err
            | Some q => LRet (Some (mkConn KRedis cfg q))
            end
      end
  end.

(** tarantool_queue/connector.go:32-67.  time.Duration(n) * time.Second wraps; uint(n) is n
    modulo 2^64. *)
Definition seconds (n : Z) : Z := wrap64 (n * ns_per_s).
Definition uint (n : Z) : N := Z.to_N (n mod 2 ^ 64).
Definition tarantool_init : lprog (option Conn) :=
  match Atoi (get cfg "max_recons") with
  | None => err
  | Some max_recons =>
      match Atoi (get cfg "timeout") with
      | None => err
      | Some timeout =>
          match Atoi (get cfg "reconnect") with
          | None => err
          | Some reconnect =>
              LCall (CTarantoolConnect (get cfg "host" ++ ":" ++ get cfg "port") (seconds timeout) (seconds reconnect)
                       (uint max_recons) (get cfg "user") (get cfg "password"))
                (fun ok => if ok then c KTarantool else err)
          end
      end
  end.
End Init.

(** Init of each connector: nil settings are refused, except by the log connector
    (default.go:10-12), which looks at nothing. *)
Definition conn_init (k : StoreKind) (cfg : option settings) : lprog (option Conn) :=
  match k, cfg with
  | KLog, _ => LRet (Some (mkConn KLog (match cfg with Some s => s | None => fun _ => None end) ""))
  | _, None => LRet None
  | KMysql, Some s => mysql_init s
  | KPostgresql, Some s => postgresql_init s
  | KNats, Some s => nats_init s
  | KRabbitmq, Some s => rabbitmq_init s
  | KRedis, Some s => redis_init s
  | KTarantool, Some s => tarantool_init s
  end.

(** The request of a Save with serialised packet [body]: mysql/connector.go:54-55,
    postgresql/connector.go:59-60, nats/connector.go:58, rabbitmq/connector.go:58-66,
    redis/connector.go:75, tarantool_queue/connector.go:79. *)
Definition request (c : Conn) (body : bytes) : call :=
  let cfg := cn_config c in
  match cn_kind c with
  | KMysql => CSqlExec ("INSERT INTO " ++ get cfg "table" ++ " (point) VALUES (?)") body
  | KPostgresql => CSqlExec ("INSERT INTO " ++ get cfg "table" ++ " (point) VALUES ($1)") body
  | KNats => CNatsPublish (get cfg "topic") body
  | KRabbitmq => CAmqpPublish (get cfg "exchange") (get cfg "key") false false "text/plain" body
  | KRedis => CRedisPublish (cn_queue c) body
  | KTarantool => CTarantoolPut (get cfg "queue") body
  | KLog => CLogInfo "packet" (string_of_bytes body) "Export packet"
  end.

(** Save of each connector; [None] is a nil message.  The six connectors differ in [request] only
    (e.g. mysql/connector.go:44-59); LogConnector.Save is default.go:14-22: json.MarshalIndent of
    nil is "null". *)
Definition conn_save (c : Conn) (msg : option NavRecord) : lprog bool :=
  match cn_kind c with
  | KLog =>
      match (match msg with None => Some (bytes_of_string "null") | Some r => MarshalIndent r end) with
      | None => LRet false
      | Some t => LTell (request c t) (LRet true)
      end
  | _ =>
      match msg with
      | None => LRet false
      | Some r =>
          match ToBytes r with
          | None => LRet false
          | Some body => LCall (request c body) (fun ok => LRet ok)
          end
      end
  end.

(** Repository.Save, store.go:48-55 *)
Fixpoint save_all (r : list Conn) (msg : option NavRecord) : lprog bool :=
  match r with
  | [] => LRet true
  | c :: r' => lbind (conn_save c msg) (fun ok => if ok then save_all r' msg else LRet false)
  end.

(** Repository.LoadStorages, store.go:58-89.  [cfg]: the entries of the map in iteration order. *)
Fixpoint load_all (r : list Conn) (cfg : list (string * option settings)) : lprog (list Conn * LoadRes) :=
  match cfg with
  | [] => LRet (r, LOk)
  | (name, params) :: cfg' =>
      match store_kind name with
      | None => LRet (r, LUnknown)
      | Some k => lbind (conn_init k params) (fun oc =>
          match oc with
          | None => LRet (r, LInitErr)
          | Some c => load_all (AddStore r c) cfg'
          end)
      end
  end.
Definition load_storages (r : list Conn) (cfg : list (string * option settings)) : lprog (list Conn * LoadRes) :=
  match cfg with [] => LRet (r, LInvalid) | _ => load_all r cfg end.

(** main.go:27-39 *)
Definition start_storages (cfg : list (string * option settings)) : lprog (list Conn) :=
  lbind (load_storages NewRepository cfg) (fun rl =>
    match rl with
    | (r, LOk) => LRet r
    | (r, _) => lbind (conn_init KLog None) (fun oc =>
        match oc with Some c => LRet (AddStore r c) | None => LRet r (* log.Fatal; not reached *) end)
    end).

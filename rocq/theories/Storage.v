(** Model of cli/receiver/storage/store.go, storage/packet.go and the storage part of
    cli/receiver/main.go.  Definitions only. *)
From Coq Require Import NArith ZArith String List Bool.
From Verif Require Import GoBase GoFloat.
Import ListNotations.
Open Scope N_scope.

(** LiquidSensor, packet.go:29-34 *)
Record LiquidSensor := mkLiquidSensor {
  ls_SensorNumber : N;
  ls_ErrorFlag : string;
  ls_ValueMm : N;
  ls_ValueL : N
}.

(** AnSensor, packet.go:36-39 *)
Record AnSensor := mkAnSensor { as_SensorNumber : N; as_Value : N }.

(** NavRecord, packet.go:7-23 *)
Record NavRecord := mkNavRecord {
  nr_Client : N;
  nr_PacketID : N;
  nr_NavigationTimestamp : Z;
  nr_ReceivedTimestamp : Z;
  nr_Latitude : f64;
  nr_Longitude : f64;
  nr_Speed : N;
  nr_Pdop : N;
  nr_Hdop : N;
  nr_Vdop : N;
  nr_Nsat : N;
  nr_Ns : N;
  nr_Course : N;
  nr_AnSensors : list AnSensor;
  nr_LiquidSensors : list LiquidSensor
}.

(** ** Repository.  A storage is an identifier of type [S]; whether its Save succeeds is
    arbitrary. *)
Section Repo.
Context {S : Type}.

(** Repository, store.go:38-40; NewRepository, store.go:92-94 *)
Definition Repository := list S.
Definition NewRepository : Repository := [].

(** AddStore, store.go:43-45 *)
Definition AddStore (r : Repository) (s : S) : Repository := r ++ [s].

(** Repository.Save, store.go:48-55: the storages called, in order, each with its outcome
    (given by [ok]), and whether nil is returned. *)
Fixpoint repo_save (ok : S -> bool) (r : Repository) : list (S * bool) * bool :=
  match r with
  | [] => ([], true)
  | s :: r' =>
      if ok s then let (calls, b) := repo_save ok r' in ((s, true) :: calls, b)
      else ([(s, false)], false)
  end.
End Repo.

(** ** LoadStorages, store.go:58-89 *)

(** The supported connectors, store.go:65-78, and the log connector of main.go:32. *)
Inductive StoreKind := KRabbitmq | KPostgresql | KNats | KTarantool | KRedis | KMysql | KLog.

Definition store_kind (name : string) : option StoreKind :=
  if String.eqb name "rabbitmq" then Some KRabbitmq
  else if String.eqb name "postgresql" then Some KPostgresql
  else if String.eqb name "nats" then Some KNats
  else if String.eqb name "tarantool_queue" then Some KTarantool
  else if String.eqb name "redis" then Some KRedis
  else if String.eqb name "mysql" then Some KMysql
  else None.

(** Result of LoadStorages: nil, InvalidStorage, UnknownStorage or an Init error. *)
Inductive LoadRes := LOk | LInvalid | LUnknown | LInitErr.

Section Load.
(** Parameters of one storage (map[string]string) and the outcome of Init on them. *)
Context {P : Type} (init_ok : StoreKind -> P -> bool).

(** The loop of store.go:64-87 over the configuration in the order in which the map
    iterates.  Returns the repository as it is on return. *)
Fixpoint load_loop (r : list (StoreKind * P)) (cfg : list (string * P)) : list (StoreKind * P) * LoadRes :=
  match cfg with
  | [] => (r, LOk)
  | (name, params) :: cfg' =>
      match store_kind name with
      | None => (r, LUnknown)
      | Some k => if init_ok k params then load_loop (AddStore r (k, params)) cfg' else (r, LInitErr)
      end
  end.

(** LoadStorages, store.go:58-89.  [cfg] lists the entries of the map (distinct keys) in
    iteration order. *)
Definition LoadStorages (r : list (StoreKind * P)) (cfg : list (string * P)) : list (StoreKind * P) * LoadRes :=
  match cfg with
  | [] => (r, LInvalid)
  | _ => load_loop r cfg
  end.

(** The start-up code of main.go:27-39: on any error the log connector is added.
    [nil_params] are the parameters passed to it; its Init never fails
    (storage/default.go). *)
Definition main_storages (nil_params : P) (cfg : list (string * P)) : list (StoreKind * P) :=
  match LoadStorages NewRepository cfg with
  | (r, LOk) => r
  | (r, _) => AddStore r (KLog, nil_params)
  end.
End Load.

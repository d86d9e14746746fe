(** Model of cli/receiver/config/config.go.  YAML parsing is not modelled, only which keys of the
    parsed document are used.  Definitions only. *)
From Coq Require Import ZArith String.
From Verif Require Import GoFloat.
Open Scope Z_scope.

(** Settings, config.go:15-21, without the storage section; ConnTTl is an int (int64). *)
Record Settings := mkSettings {
  c_Host : string;
  c_Port : string;
  c_ConnTTl : Z;
  c_LogLevel : string
}.

(** yaml.Unmarshal into Settings, config.go:15-21 and 58: [str] and [num] are the text and number
    values under the top-level keys of the document.  Missing keys leave the zero value, other keys
    are ignored. *)
Definition from_yaml (str : string -> option string) (num : string -> option Z) : Settings :=
  let text k := match str k with Some s => s | None => ""%string end in
  mkSettings (text "host"%string) (text "port"%string)
    (match num "conn_ttl"%string with Some n => n | None => 0 end) (text "log_level"%string).

Inductive Level := DebugLevel | InfoLevel | WarnLevel | ErrorLevel.

(** GetEmptyConnTTL, config.go:23-25: int64 multiplication wraps. *)
Definition GetEmptyConnTTL (s : Settings) : Z := wrap64 (c_ConnTTl s * ns_per_s).

(** GetListenAddress, config.go:26-28 *)
Definition GetListenAddress (s : Settings) : string := (c_Host s ++ ":" ++ c_Port s)%string.

(** GetLogLevel, config.go:30-50 *)
Definition GetLogLevel (s : Settings) : Level :=
  if String.eqb (c_LogLevel s) "DEBUG" then DebugLevel
  else if String.eqb (c_LogLevel s) "INFO" then InfoLevel
  else if String.eqb (c_LogLevel s) "WARN" then WarnLevel
  else if String.eqb (c_LogLevel s) "ERROR" then ErrorLevel
  else InfoLevel.

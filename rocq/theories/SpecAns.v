(** Specification of the bytes the receiver sends. *)
From Coq Require Import NArith ZArith String Bool List.
From Verif Require Import GoBase SubRecords Records Package Storage Server SpecBase SpecCrc SpecPkg SpecSrv.
Import ListNotations.
Open Scope N_scope.

Section WithEnv.
Context {E : Env}.

(** A packet of type EGTS_PT_RESPONSE with number [pid] and body [b], which is not empty. *)
Definition response_frame (pid : N) (b : list N) : list N :=
  let h := [1; 0; 0; 11; 0] ++ le16 (N.of_nat (length b)) ++ le16 pid ++ [0] in
  h ++ [checksum8 h] ++ b ++ le16 (checksum16 b).

(** The confirmation of a record. *)
Definition confirmation (r : ServiceDataRecord) : list N := [0; 3; 0] ++ le16 (s_RN r) ++ [0].

(** The answer to packet [pid] with result [code]: all records of [l] are confirmed in one
    record, which has number 1 and service [svc]. *)
Definition answer_bytes (pid code svc : N) (l : list ServiceDataRecord) : list N :=
  response_frame ((pid + 1) mod 65536)
    (le16 pid ++ [code]
     ++ match l with
        | [] => []
        | _ => le16 (6 * N.of_nat (length l)) ++ [1; 0; 32; svc; svc] ++ flat_map confirmation l
        end).

(** The second answer, if the packet has a terminal identity or authorization data. *)
Definition authorized_bytes (pid : N) : list N := response_frame ((pid + 1) mod 65536) (result_code_body 0).

Definition wants_authorization (l : list ServiceDataRecord) : Prop := exists r d, In r l /\ In d (subs r) /\ is_auth d.

(** The service of the last record. *)
Definition last_service (l : list ServiceDataRecord) : N := last (map s_SST l) 0.

(** [sent spare f w]: on frame [f], which is followed in memory by [spare], the receiver writes
    [w], one element per write. *)
Inductive sent (spare f : list N) : list (list N) -> Prop :=
| st_crash : pkg_decode None Package_zero f spare = DPanic -> sent spare f []
| st_rejected p code : pkg_decode None Package_zero f spare = DRet p code false ->
    sent spare f [answer_bytes (word_at f 7) code 0 []]
| st_response p code : pkg_decode None Package_zero f spare = DRet p code true -> p_PT p = 0 -> sent spare f []
| st_confirms p code l : pkg_decode None Package_zero f spare = DRet p code true -> p_PT p = 1 ->
    p_SFRD p = Some (BSds l) -> ~ no_confirmation l -> sent spare f []
| st_data p code l : pkg_decode None Package_zero f spare = DRet p code true -> p_PT p = 1 ->
    p_SFRD p = Some (BSds l) -> no_confirmation l -> ~ wants_authorization l ->
    sent spare f [answer_bytes (word_at f 7) 0 (last_service l) l]
| st_authorized p code l : pkg_decode None Package_zero f spare = DRet p code true -> p_PT p = 1 ->
    p_SFRD p = Some (BSds l) -> no_confirmation l -> wants_authorization l ->
    sent spare f [answer_bytes (word_at f 7) 0 (last_service l) l; authorized_bytes (word_at f 7)].

(** What is written on the frames of a connection; nothing after a crash. *)
Inductive sent_all : list (list N) -> list (list N) -> Prop :=
| sa_end : sent_all [] []
| sa_crash spare f fs : is_bytes spare -> pkg_decode None Package_zero f spare = DPanic -> sent_all (f :: fs) []
| sa_frame spare f fs w ws : is_bytes spare -> pkg_decode None Package_zero f spare <> DPanic ->
    sent spare f w -> sent_all fs ws -> sent_all (f :: fs) (w ++ ws).

End WithEnv.

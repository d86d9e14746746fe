(** Specification of the sample sender: the packets in a file, what is done for each. *)
From Coq Require Import NArith Bool List.
From Verif Require Import GoBase GoFloat SubRecords Records Package Storage Server SpecBase SpecCrc SpecPkg SpecSrv SendTool.
Import ListNotations.
Open Scope N_scope.

(** ** Files *)
Definition digit (c v : N) : Prop := (v < 10 /\ c = 48 + v) \/ (10 <= v < 16 /\ (c = 55 + v \/ c = 87 + v)).
Definition blank (c : N) : Prop := c = 32 \/ c = 9 \/ c = 10 \/ c = 11 \/ c = 12 \/ c = 13.

(** [hex_of p t]: text [t] shows the bytes [p] in hexadecimal. *)
Inductive hex_of : list N -> list N -> Prop :=
| ho_nil : hex_of [] []
| ho_blank c p t : blank c -> hex_of p t -> hex_of p (c :: t)
| ho_byte c d x y p t : digit c x -> digit d y -> hex_of p t -> hex_of (16 * x + y :: p) (c :: d :: t).

Definition in_line (b : list N) : Prop := ~ In 10 b /\ ~ In 13 b.
(** [eol e rest]: [e] ends a line when [rest] comes after it. *)
Definition eol (e rest : list N) : Prop := e = [10] \/ e = [13; 10] \/ e = [13] /\ hd 0 rest <> 10.

(** [plays text acts r]: what is done for a file with this text. *)
Inductive plays : list N -> list action -> ending -> Prop :=
| pl_end : plays [] [] Finished
| pl_line b e rest p k r : in_line b -> eol e rest -> hex_of p b -> plays rest k r ->
    plays (b ++ e ++ rest) (ASend p :: ARecv :: k) r
| pl_bad b e rest : in_line b -> eol e rest -> (forall p, ~ hex_of p b) -> plays (b ++ e ++ rest) [] Raised
| pl_last b x p : in_line (b ++ [x]) -> hex_of p b -> plays (b ++ [x]) [ASend p; ARecv] Finished
| pl_last_bad b x : in_line (b ++ [x]) -> (forall p, ~ hex_of p b) -> plays (b ++ [x]) [] Raised.

(** A file with one packet per line. *)
Inductive file_of : list (list N) -> list N -> Prop :=
| fo_nil : file_of [] []
| fo_cons p ps b e rest : in_line b -> hex_of p b -> eol e rest -> file_of ps rest -> file_of (p :: ps) (b ++ e ++ rest).

(** ** Traces *)
Definition sent (ls : list label) : list (list N) := flat_map (fun l => match l with LSend b => [b] | _ => [] end) ls.
Definition received (ls : list label) : list N := flat_map (fun l => match l with LRecv b => b | _ => [] end) ls.
Definition rounds (ls : list label) : list (list event) := flat_map (fun l => match l with LServe e => [e] | _ => [] end) ls.

Section WithEnv.
Context {E : Env}.

(** Nothing more happens. *)
Definition stuck (s : sys) : Prop := forall l s', ~ step s l s'.

(** The receiver takes [f] as one packet. *)
Definition one_frame (f : list N) : Prop := is_bytes f /\ cuts f [f] StopEof.

(** [f] is rejected, or it is a data packet without record confirmations. *)
Definition asks_for_answer (f : list N) : Prop := forall spare, is_bytes spare ->
  (exists p code, pkg_decode None Package_zero f spare = DRet p code false) \/
  (exists p code l, pkg_decode None Package_zero f spare = DRet p code true /\ p_PT p = 1
     /\ p_SFRD p = Some (BSds l) /\ no_confirmation l).

(** [f] is an accepted response packet. *)
Definition response_packet (f : list N) : Prop := forall spare, is_bytes spare ->
  exists p code, pkg_decode None Package_zero f spare = DRet p code true /\ p_PT p = 0.
End WithEnv.

(** Specification of concurrent handlers: any number of programs, any schedule. *)
From Coq Require Import NArith ZArith String List Bool.
From Verif Require Import GoBase Storage Server.
Import ListNotations.

(** One step of a program, with the event it causes, if any. *)
Inductive step {A : Type} : prog A -> list event -> prog A -> Prop :=
| st_now z k : step (Now k) [] (k z)
| st_alloc s k : bytes_ok s -> step (Alloc k) [] (k s)
| st_save r ok k : step (Save r k) [EvSave r ok] (k ok)
| st_write b k : step (Write b k) [EvWrite b] k.

Inductive exec {A : Type} : prog A -> list event -> prog A -> Prop :=
| ex_stop p : exec p [] p
| ex_step p evs p' evs' q : step p evs p' -> exec p' evs' q -> exec p (evs ++ evs') q.

Fixpoint update {A : Type} (i : nat) (a : A) (l : list A) : list A :=
  match l, i with
  | [], _ => []
  | _ :: l', O => a :: l'
  | b :: l', S i' => b :: update i' a l'
  end.

(** Several programs: at each point any of them makes a step.  Events are marked with the
    number of the program. *)
Inductive gexec {A : Type} : list (prog A) -> list (nat * event) -> list (prog A) -> Prop :=
| ge_stop ps : gexec ps [] ps
| ge_step ps i p evs p' tr qs : nth_error ps i = Some p -> step p evs p' -> gexec (update i p' ps) tr qs ->
    gexec ps (map (pair i) evs ++ tr) qs.

(** The events of program [i]. *)
Definition of_program (i : nat) (tr : list (nat * event)) : list event :=
  flat_map (fun ie => if Nat.eqb (fst ie) i then [snd ie] else []) tr.

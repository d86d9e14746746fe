(** Independent specification of the checksums: a serial shift register fed with the bits of
    the message, most significant bit of each byte first. *)
From Coq Require Import NArith Bool List.
Import ListNotations.
Open Scope N_scope.

Definition byte_bits (n : N) : list bool :=
  [N.testbit n 7; N.testbit n 6; N.testbit n 5; N.testbit n 4; N.testbit n 3; N.testbit n 2; N.testbit n 1; N.testbit n 0].
Definition bits_of (data : list N) : list bool := flat_map byte_bits data.

Fixpoint xors (a b : list bool) : list bool :=
  match a, b with
  | x :: a, y :: b => xorb x y :: xors a b
  | _, _ => []
  end.

(** One clock of the register [reg] (leftmost bit first) with feedback polynomial [poly]. *)
Definition lfsr (poly reg : list bool) (b : bool) : list bool :=
  match reg with
  | [] => []
  | t :: r => if xorb t b then xors (r ++ [false]) poly else r ++ [false]
  end.

Definition number (l : list bool) : N := fold_left (fun n (b : bool) => 2 * n + (if b then 1 else 0)) l 0.

Definition T := true.
Definition F := false.

(** CRC-8: polynomial x^8+x^5+x^4+1, initially all ones. *)
Definition checksum8 (data : list N) : N :=
  number (fold_left (lfsr [F;F;T;T;F;F;F;T]) (bits_of data) [T;T;T;T;T;T;T;T]).

(** CRC-16: polynomial x^16+x^12+x^5+1, initially all ones. *)
Definition checksum16 (data : list N) : N :=
  number (fold_left (lfsr [F;F;F;T;F;F;F;F;F;F;T;F;F;F;F;T]) (bits_of data)
                    [T;T;T;T;T;T;T;T;T;T;T;T;T;T;T;T]).

(** Error patterns, as bit strings. *)
Definition nothing (n : nat) : list bool := repeat false n.
(** Errors confined to [w] consecutive bits, at least one wrong. *)
Definition burst (w : nat) (l : list bool) : Prop :=
  exists i m j, l = nothing i ++ m ++ nothing j /\ (length m <= w)%nat /\ In true m.
(** An odd number of wrong bits. *)
Definition odd_errors (l : list bool) : Prop := Nat.odd (length (filter (fun b => b) l)) = true.
(** Two wrong bits at most [d] positions apart. *)
Definition two_errors (d : nat) (l : list bool) : Prop :=
  exists i k j, l = nothing i ++ [true] ++ nothing k ++ [true] ++ nothing j /\ (S k <= d)%nat.

(** Flip the bits of [e] in [data]. *)
Fixpoint flip (data e : list N) : list N :=
  match data, e with
  | x :: data, y :: e => N.lxor x y :: flip data e
  | _, _ => data
  end.

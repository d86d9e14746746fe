(** Model of libs/egts/crc.go.  Definitions only. *)
From Coq Require Import NArith List.
From Verif Require Import GoBase.
Import ListNotations.
Open Scope N_scope.

(** The inner loop body of crc8, crc.go:8-14: shift left by one, xor 0x31 if the top bit
    was set (byte arithmetic). *)
Definition crc8_bit (crc : N) : N :=
  if N.testbit crc 7 then N.lxor (u8 (N.shiftl crc 1)) 0x31 else u8 (N.shiftl crc 1).

Fixpoint iter {A : Type} (n : nat) (f : A -> A) (x : A) : A :=
  match n with
  | O => x
  | S n' => iter n' f (f x)
  end.

(** Outer loop body of crc8, crc.go:5-15. *)
Definition crc8_byte (crc b : N) : N := iter 8 crc8_bit (N.lxor crc b).

(** crc8, crc.go:3-18. *)
Definition crc8 (data : bytes) : N := fold_left crc8_byte data 0xFF.

(** Inner loop body of crc16, crc.go:25-31. *)
Definition crc16_bit (crc : N) : N :=
  if N.testbit crc 15 then N.lxor (u16 (N.shiftl crc 1)) 0x1021 else u16 (N.shiftl crc 1).

(** Outer loop body of crc16, crc.go:22-32. *)
Definition crc16_byte (crc b : N) : N := iter 8 crc16_bit (N.lxor crc (N.shiftl b 8)).

(** crc16, crc.go:20-35. *)
Definition crc16 (data : bytes) : N := fold_left crc16_byte data 0xFFFF.

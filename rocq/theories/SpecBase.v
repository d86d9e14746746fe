(** Vocabulary of the specifications: what a well-formed field is and how it is laid out on
    the wire, in plain arithmetic and without the helpers of the model. *)
From Coq Require Import NArith String Ascii Bool List.
Import ListNotations.
Open Scope N_scope.

(** A one-digit and a two-digit binary flag. *)
Definition is_flag (s : string) : Prop := s = "0"%string \/ s = "1"%string.
Definition is_flag2 (s : string) : Prop :=
  s = "00"%string \/ s = "01"%string \/ s = "10"%string \/ s = "11"%string.

(** The numbers they denote. *)
Definition fl (s : string) : N := if string_dec s "1" then 1 else 0.
Definition fl2 (s : string) : N :=
  if string_dec s "01" then 1 else if string_dec s "10" then 2
  else if string_dec s "11" then 3 else 0.

(** A value that is on the wire only if its flag is "1". *)
Definition opt (flag : string) (b : list N) : list N := if string_dec flag "1" then b else [].

(** Little-endian numbers of 2, 3 and 4 bytes. *)
Definition le16 (n : N) : list N := [n mod 256; n / 256 mod 256].
Definition le24 (n : N) : list N := [n mod 256; n / 256 mod 256; n / 65536 mod 256].
Definition le32 (n : N) : list N :=
  [n mod 256; n / 256 mod 256; n / 65536 mod 256; n / 16777216 mod 256].

(** The bytes of a string. *)
Definition chars (s : string) : list N := map N_of_ascii (list_ascii_of_string s).

(** Strings without NUL characters. *)
Definition no_nul (s : string) : Prop := ~ In 0 (chars s).

(** Unsigned integers of the Go types. *)
Definition is_u8 (n : N) : Prop := n < 256.
Definition is_u16 (n : N) : Prop := n < 65536.
Definition is_u24 (n : N) : Prop := n < 16777216.
Definition is_u32 (n : N) : Prop := n < 4294967296.
Definition is_bytes (l : list N) : Prop := Forall is_u8 l.

(** Binary numerals and the numbers they denote. *)
Inductive binary : string -> N -> Prop :=
| bin_0 : binary "0" 0
| bin_1 : binary "1" 1
| bin_snoc0 s n : binary s n -> binary (s ++ "0") (2 * n)
| bin_snoc1 s n : binary s n -> binary (s ++ "1") (2 * n + 1).

(** A string that is not a binary number of at most eight significant digits. *)
Definition malformed (s : string) : Prop := forall n, binary s n -> 256 <= n.

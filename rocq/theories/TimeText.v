(** Model of the parts of Go's library behind json.Marshal of a packet (libs/egts/egts_pkg.go:275-277)
    that are not in Json.v: time.Time.MarshalJSON and base64.  Definitions only.

    Times are in UTC, as those that Decode makes; the uint64 arithmetic of absDate is modelled
    without wrapping (it wraps for no year between 0 and 9999). *)
From Coq Require Import NArith ZArith String List Bool.
From Verif Require Import GoBase GoFloat.
Import ListNotations.

(** ** time.Time *)
Open Scope Z_scope.

(** Seconds from the "absolute zero", January 1 of the year -292277022399, to 1970. *)
Definition absolute_zero_year : Z := -292277022399.
Definition unix_to_absolute : Z := 292277022400 * 31556952 + 62135596800.
Definition abs_seconds (t : time) : Z := t_unix t + unix_to_absolute.

Definition is_leap (y : Z) : bool := (y mod 4 =? 0) && (negb (y mod 100 =? 0) || (y mod 400 =? 0)).

(** daysBefore *)
Definition days_before : list Z := [0; 31; 59; 90; 120; 151; 181; 212; 243; 273; 304; 334; 365].
Definition days_before_at (m : Z) : Z := nth (Z.to_nat m) days_before 0.

(** absDate: year and day of the year, then month and day. *)
Definition abs_year_day (abs : Z) : Z * Z :=
  let d := abs / 86400 in
  let n := d / 146097 in
  let y := 400 * n in
  let d := d - 146097 * n in
  let n := d / 36524 in
  let n := n - Z.shiftr n 2 in
  let y := y + 100 * n in
  let d := d - 36524 * n in
  let n := d / 1461 in
  let y := y + 4 * n in
  let d := d - 1461 * n in
  let n := d / 365 in
  let n := n - Z.shiftr n 2 in
  let y := y + n in
  let d := d - 365 * n in
  (y + absolute_zero_year, d).
Definition month_day (leap : bool) (yday : Z) : Z * Z :=
  if leap && (yday =? 59) then (2, 29)
  else
    let day := if leap && (59 <? yday) then yday - 1 else yday in
    let month := day / 31 in
    let end_ := days_before_at (month + 1) in
    if end_ <=? day then (month + 2, day - end_ + 1) else (month + 1, day - days_before_at month + 1).

(** appendInt with a width: at least [w] digits. *)
Fixpoint digits_w (w : nat) (n : Z) : bytes :=
  match w with
  | O => []
  | S w' => digits_w w' (n / 10) ++ [Z.to_N (48 + n mod 10)]
  end%list.

(** formatNano with trimming: nothing when there is no fraction. *)
Fixpoint trim (l : bytes) : bytes :=
  match l with
  | [] => []
  | c :: r => match trim r with [] => if (c =? 48)%N then [] else [c] | r' => c :: r' end
  end.
Definition format_nano (ns : Z) : bytes := match trim (digits_w 9 ns) with [] => [] | l => 46%N :: l end.

(** Time.Format(time.RFC3339Nano) for the years 0 to 9999. *)
Definition rfc3339nano (t : time) : bytes :=
  let abs := abs_seconds t in
  let '(year, yday) := abs_year_day abs in
  let '(month, day) := month_day (is_leap year) yday in
  let sec := abs mod 86400 in
  (digits_w 4 year ++ [45%N] ++ digits_w 2 month ++ [45%N] ++ digits_w 2 day ++ [84%N] ++
   digits_w 2 (sec / 3600) ++ [58%N] ++ digits_w 2 (sec mod 3600 / 60) ++ [58%N] ++ digits_w 2 (sec mod 60) ++
   format_nano (t mod ns_per_s) ++ [90%N])%list.

(** Time.MarshalJSON, without the quotation marks: an error for other years. *)
Definition time_text (t : time) : option bytes :=
  let year := fst (abs_year_day (abs_seconds t)) in
  if (year <? 0) || (9999 <? year) then None else Some (rfc3339nano t).

(** ** base64.StdEncoding *)
Open Scope N_scope.
Definition b64_alphabet : bytes :=
  bytes_of_string "ABCDEFGHIJKLMNOPQRSTUVWXYZabcdefghijklmnopqrstuvwxyz0123456789+/".
Definition b64_char (n : N) : N := nth (N.to_nat (N.land n 63)) b64_alphabet 0.
Fixpoint base64 (b : bytes) : bytes :=
  match b with
  | [] => []
  | [x] =>
      let v := N.shiftl x 16 in
      [b64_char (N.shiftr v 18); b64_char (N.shiftr v 12); 61; 61]
  | [x; y] =>
      let v := N.lor (N.shiftl x 16) (N.shiftl y 8) in
      [b64_char (N.shiftr v 18); b64_char (N.shiftr v 12); b64_char (N.shiftr v 6); 61]
  | x :: y :: z :: r =>
      let v := N.lor (N.lor (N.shiftl x 16) (N.shiftl y 8)) z in
      [b64_char (N.shiftr v 18); b64_char (N.shiftr v 12); b64_char (N.shiftr v 6); b64_char v] ++ base64 r
  end.

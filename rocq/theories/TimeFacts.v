(** Facts about the texts of times and of bytes. *)
From Coq Require Import NArith ZArith String List Bool Lia.
From Verif Require Import GoBase BaseFacts GoFloat Json SpecJson Utf8Facts JsonFacts TimeText SpecTime.
Import ListNotations.
Open Scope Z_scope.

(** ** Years *)
Definition year_days (z : Z) : Z := 365 * z + (z + 3) / 4 - (z + 99) / 100 + (z + 399) / 400.
Lemma leap_agree y : leap_year y = is_leap (Z.of_nat y).
Proof.
  unfold leap_year, is_leap. f_equal; [|f_equal; [f_equal|]];
    match goal with |- (?a =? 0)%nat = (?b =? 0) => replace b with (Z.of_nat a) by (rewrite Nat2Z.inj_mod; reflexivity);
      destruct (Nat.eqb_spec a 0) as [E|E]; [rewrite E; reflexivity|symmetry; apply Z.eqb_neq; lia] end.
Qed.
Lemma is_leap_spec y : is_leap y = true <-> y mod 4 = 0 /\ (y mod 100 <> 0 \/ y mod 400 = 0).
Proof. unfold is_leap. rewrite andb_true_iff, orb_true_iff, negb_true_iff, !Z.eqb_eq, Z.eqb_neq. tauto. Qed.
Lemma is_leap_false y : is_leap y = false <-> y mod 4 <> 0 \/ (y mod 100 = 0 /\ y mod 400 <> 0).
Proof.
  rewrite <- not_true_iff_false, is_leap_spec. destruct (Z.eq_dec (y mod 4) 0), (Z.eq_dec (y mod 100) 0), (Z.eq_dec (y mod 400) 0); tauto.
Qed.
Lemma year_days_step z : year_days (z + 1) = year_days z + (if is_leap z then 366 else 365).
Proof.
  unfold year_days. destruct (is_leap z) eqn:E; [apply is_leap_spec in E|apply is_leap_false in E];
    Z.to_euclidean_division_equations; lia.
Qed.
Lemma year_start_closed y : year_start y = year_days (Z.of_nat y).
Proof.
  induction y as [|y IH]; [reflexivity|]. cbn [year_start]. rewrite IH, leap_agree.
  replace (Z.of_nat (S y)) with (Z.of_nat y + 1) by lia. rewrite year_days_step. reflexivity.
Qed.

(** The year and the day in it. *)
Lemma abs_year_day_spec abs : let '(y, yd) := abs_year_day abs in
  0 <= yd /\ yd < (if is_leap y then 366 else 365) /\
  abs / 86400 = (year_days y - year_days 1 + 730692556 * 146097) + yd.
Proof.
  unfold abs_year_day. generalize (abs / 86400). intros d. rewrite !Z.shiftr_div_pow2 by lia. change (2 ^ 2) with 4. cbv zeta.
  remember (d / 146097) as a eqn:Ea.
  remember (d - 146097 * a) as d1 eqn:Ed1. assert (0 <= d1 < 146097) as H1 by (Z.to_euclidean_division_equations; lia).
  remember (d1 / 36524 - d1 / 36524 / 4) as b eqn:Eb.
  remember (d1 - 36524 * b) as d2 eqn:Ed2.
  assert (0 <= b <= 3 /\ 0 <= d2 /\ (d2 < 36524 \/ (b = 3 /\ d2 < 36525))) as (H2 & H2' & H2'').
  { clear Ea Ed1 d a. Z.to_euclidean_division_equations. lia. }
  remember (d2 / 1461) as c eqn:Ec. remember (d2 - 1461 * c) as d3 eqn:Ed3.
  assert (0 <= c <= 24 /\ 0 <= d3 < 1461 /\ (c = 24 -> b <> 3 -> d3 < 1460)) as (H3 & H3' & H3'').
  { clear Ea Eb Ed1 Ed2 d d1 a H1. Z.to_euclidean_division_equations. lia. }
  remember (d3 / 365 - d3 / 365 / 4) as e eqn:Ee. remember (d3 - 365 * e) as d4 eqn:Ed4.
  assert (0 <= e <= 3 /\ 0 <= d4 /\ (d4 < 365 \/ (e = 3 /\ d4 < 366))) as (H4 & H4' & H4'').
  { clear Ea Eb Ec Ed1 Ed2 Ed3 H3'' H2'' d d1 a H1. Z.to_euclidean_division_equations. lia. }
  assert (c = 24 -> b <> 3 -> d4 < 365) as H5 by lia.
  assert (d = 146097 * a + 36524 * b + 1461 * c + 365 * e + d4) as Hd by lia.
  clear Ea Eb Ec Ee Ed1 Ed2 Ed3 Ed4 H1 H2' H2'' H3' H3''.
  unfold absolute_zero_year. set (y := 400 * a + 100 * b + 4 * c + e + -292277022399).
  assert (is_leap y = true <-> e = 3 /\ (c <> 24 \/ b = 3)) as Hl.
  { rewrite is_leap_spec. unfold y.
    assert ((400 * a + 100 * b + 4 * c + e + -292277022399) mod 400 = (100 * b + 4 * c + e + 1) mod 400) as E1.
    { replace (400 * a + 100 * b + 4 * c + e + -292277022399) with (100 * b + 4 * c + e + 1 + (a - 730692556) * 400) by lia.
      apply Z_mod_plus_full. }
    assert ((400 * a + 100 * b + 4 * c + e + -292277022399) mod 100 = (4 * c + e + 1) mod 100) as E2.
    { replace (400 * a + 100 * b + 4 * c + e + -292277022399) with (4 * c + e + 1 + (4 * a + b - 2922770224) * 100) by lia.
      apply Z_mod_plus_full. }
    assert ((400 * a + 100 * b + 4 * c + e + -292277022399) mod 4 = (e + 1) mod 4) as E3.
    { replace (400 * a + 100 * b + 4 * c + e + -292277022399) with (e + 1 + (100 * a + 25 * b + c - 73069255600) * 4) by lia.
      apply Z_mod_plus_full. }
    rewrite E1, E2, E3. clear E1 E2 E3 y Hd. Z.to_euclidean_division_equations. lia. }
  assert (year_days y = 365 * (y - 1) + 366 + (100 * a + 25 * b + c - 73069255600) - (4 * a + b - 2922770224) + (a - 730692556)) as Hy.
  { unfold year_days. assert ((y + 3) / 4 = 100 * a + 25 * b + c - 73069255600 + 1) as ->.
    { unfold y. replace (400 * a + 100 * b + 4 * c + e + -292277022399 + 3) with (e + (100 * a + 25 * b + c - 73069255600 + 1) * 4) by lia.
      rewrite Z_div_plus_full by lia. rewrite (Z.div_small e 4) by lia. lia. }
    assert ((y + 99) / 100 = 4 * a + b - 2922770224 + 1) as ->.
    { unfold y. replace (400 * a + 100 * b + 4 * c + e + -292277022399 + 99) with (4 * c + e + (4 * a + b - 2922770224 + 1) * 100) by lia.
      rewrite Z_div_plus_full by lia. rewrite (Z.div_small (4 * c + e) 100) by lia. lia. }
    assert ((y + 399) / 400 = a - 730692556 + 1) as ->.
    { unfold y. replace (400 * a + 100 * b + 4 * c + e + -292277022399 + 399) with (100 * b + 4 * c + e + (a - 730692556 + 1) * 400) by lia.
      rewrite Z_div_plus_full by lia. rewrite (Z.div_small (100 * b + 4 * c + e) 400) by lia. lia. }
    lia. }
  split; [exact H4'|]. split.
  - destruct (is_leap y) eqn:E; [lia|]. destruct H4'' as [|[He Hd4]]; [assumption|].
    destruct (Z.eq_dec c 24) as [Hc|Hc]; [destruct (Z.eq_dec b 3) as [Hb|Hb]|].
    + exfalso. assert (false = true) by (apply Hl; auto). discriminate.
    + auto.
    + exfalso. assert (false = true) by (apply Hl; auto). discriminate.
  - rewrite Hy. change (year_days 1) with 366. unfold y. lia.
Qed.

(** ** Months *)
Definition month_day_ok (leap : bool) (yd : Z) : bool :=
  let '(m, d) := month_day leap yd in
  let y := if leap then 0%nat else 1%nat in
  (1 <=? m) && (m <=? 12) && (1 <=? d) && (d <=? month_length y (Z.to_nat m)) && (month_start y (Z.to_nat m) + (d - 1) =? yd).
Lemma month_day_table : forallb (fun n => month_day_ok true (Z.of_nat n)) (seq 0 366) = true /\
  forallb (fun n => month_day_ok false (Z.of_nat n)) (seq 0 365) = true.
Proof. split; vm_compute; reflexivity. Qed.
Lemma month_length_leap y y' m : leap_year y = leap_year y' -> month_length y m = month_length y' m.
Proof. intros H. unfold month_length. rewrite H. reflexivity. Qed.
Lemma month_start_leap y y' m : leap_year y = leap_year y' -> month_start y m = month_start y' m.
Proof.
  intros H. induction m as [|m IH]; [reflexivity|]. destruct m; [reflexivity|].
  change (month_start y (S m) + month_length y (S m) = month_start y' (S m) + month_length y' (S m)).
  rewrite IH, (month_length_leap _ _ _ H). reflexivity.
Qed.
Lemma month_day_spec y yd m d : 0 <= yd < (if leap_year y then 366 else 365) -> month_day (leap_year y) yd = (m, d) ->
  1 <= m <= 12 /\ 1 <= d <= month_length y (Z.to_nat m) /\ month_start y (Z.to_nat m) + (d - 1) = yd.
Proof.
  intros H E.
  assert (month_day_ok (leap_year y) yd = true) as K.
  { destruct month_day_table as [T F]. replace yd with (Z.of_nat (Z.to_nat yd)) by lia.
    destruct (leap_year y); [apply (proj1 (forallb_forall _ _) T)|apply (proj1 (forallb_forall _ _) F)]; apply in_seq; lia. }
  unfold month_day_ok in K. rewrite E in K. rewrite !andb_true_iff, !Z.leb_le, Z.eqb_eq in K.
  set (y0 := if leap_year y then 0%nat else 1%nat) in K.
  assert (leap_year y = leap_year y0) as Hy by (unfold y0; destruct (leap_year y); reflexivity).
  rewrite (month_length_leap _ _ _ Hy), (month_start_leap _ _ _ Hy). lia.
Qed.

Lemma month_length_31 y m : month_length y m <= 31.
Proof. unfold month_length. destruct (leap_year y); do 12 (destruct m; [lia|]); lia. Qed.

(** ** Digits *)
Lemma digits_w_spec w : forall n, 0 <= n < 10 ^ Z.of_nat w -> digits_of w (digits_w w n) n.
Proof.
  induction w as [|w IH]; intros n Hn; cbn [digits_w].
  - change (10 ^ Z.of_nat 0) with 1 in Hn. split; [reflexivity|]. split; [constructor|]. cbn. lia.
  - replace (10 ^ Z.of_nat (S w)) with (10 * 10 ^ Z.of_nat w) in Hn by (rewrite Nat2Z.inj_succ, Z.pow_succ_r by lia; lia).
    destruct (IH (n / 10)) as (H1 & H2 & H3); [split; [apply Z.div_pos; lia|apply Z.div_lt_upper_bound; lia]|].
    pose proof (Z.mod_pos_bound n 10 ltac:(lia)) as Hm. split; [|split].
    + rewrite app_length, H1. cbn. lia.
    + apply Forall_app. split; [exact H2|]. constructor; [unfold is_digit; lia|constructor].
    + rewrite value10_snoc. pose proof (Z.div_mod n 10 ltac:(lia)) as Hd. lia.
Qed.

(** Trailing zeros. *)
Lemma trim_spec l : Forall is_digit l -> exists k, l = (trim l ++ repeat 48%N k)%list.
Proof.
  induction 1 as [|c l Hc H [k IH]]; [exists O; reflexivity|]. cbn [trim]. destruct (trim l) as [|c' r] eqn:E.
  - cbn [app] in IH. destruct (N.eqb_spec c 48) as [->|].
    + exists (S k). cbn. f_equal. exact IH.
    + exists k. cbn. f_equal. exact IH.
  - exists k. cbn [app]. f_equal. exact IH.
Qed.
Lemma value10_zeros t k : value10 (t ++ repeat 48%N k) = (value10 t * 10 ^ N.of_nat k)%N.
Proof.
  induction k as [|k IH]; [cbn [repeat]; rewrite app_nil_r; cbn; lia|].
  replace (repeat 48%N (S k)) with (repeat 48%N k ++ [48%N])%list by (rewrite <- repeat_cons; reflexivity).
  rewrite app_assoc, value10_snoc, IH, pow10_S. lia.
Qed.
Lemma format_nano_spec ns : 0 <= ns < 1000000000 -> fraction (format_nano ns) ns.
Proof.
  intros H. destruct (digits_w_spec 9 ns) as (H1 & H2 & H3); [exact H|]. unfold format_nano.
  destruct (trim_spec _ H2) as (k & Hk). set (t := trim (digits_w 9 ns)) in *. rewrite Hk, value10_zeros in H3.
  rewrite Hk, app_length, repeat_length in H1.
  destruct t as [|c r] eqn:Et.
  - left. split; [reflexivity|]. cbn in H3. lia.
  - right. exists (c :: r). split; [reflexivity|]. split; [split; [discriminate|]|].
    + rewrite Hk in H2. apply Forall_app in H2 as [H2 _]. exact H2.
    + split; [lia|]. rewrite <- H3, N2Z.inj_mul, N2Z.inj_pow. f_equal. change (Z.of_N 10) with 10. f_equal. lia.
Qed.

(** ** The text of a time *)
Lemma year_days_mono x y : x <= y -> year_days x <= year_days y.
Proof. intros H. unfold year_days. Z.to_euclidean_division_equations. lia. Qed.

Lemma unix_day t : abs_seconds t / 86400 = t_unix t / 86400 + 719162 + 730692556 * 146097.
Proof.
  unfold abs_seconds, unix_to_absolute. replace (t_unix t + (292277022400 * 31556952 + 62135596800))
    with (t_unix t + (719162 + 730692556 * 146097) * 86400) by lia.
  rewrite Z_div_plus_full by lia. lia.
Qed.
Lemma unix_clock t : abs_seconds t mod 86400 = t_unix t mod 86400.
Proof.
  unfold abs_seconds, unix_to_absolute. replace (t_unix t + (292277022400 * 31556952 + 62135596800))
    with (t_unix t + (719162 + 730692556 * 146097) * 86400) by lia.
  apply Z_mod_plus_full.
Qed.
Lemma day_1970 y m d : day_number y m d = year_days (Z.of_nat y) + month_start y m + (d - 1) - 719528.
Proof. unfold day_number. rewrite !year_start_closed. reflexivity. Qed.

Lemma four_digit_year_bounds ns : four_digit_year ns <-> -719528 <= ns / 1000000000 / 86400 < 2932897.
Proof.
  unfold four_digit_year. rewrite !day_1970. change (year_days (Z.of_nat 0)) with 0.
  replace (year_days (Z.of_nat (100 * 100))) with 3652425 by (vm_compute; reflexivity).
  cbn [month_start].
  rewrite Z.div_div by lia. change (1000000000 * 86400) with 86400000000000.
  split; intros H; Z.to_euclidean_division_equations; lia.
Qed.

Theorem time_text_spec t : match time_text t with
  | Some u => four_digit_year t /\ time_of u t
  | None => ~ four_digit_year t
  end.
Proof.
  unfold time_text, rfc3339nano. pose proof (abs_year_day_spec (abs_seconds t)) as Hy.
  destruct (abs_year_day (abs_seconds t)) as [y yd]. cbn [fst]. destruct Hy as (Hyd & Hyl & Hd).
  rewrite unix_day in Hd. change (year_days 1) with 366 in Hd.
  assert (t_unix t / 86400 = year_days y + yd - 719528) as Hd' by lia. clear Hd.
  assert (four_digit_year t <-> 0 <= y <= 9999) as Hf.
  { rewrite four_digit_year_bounds. unfold t_unix, ns_per_s in Hd'. rewrite Hd'.
    assert (yd < 366) by (destruct (is_leap y); lia).
    split; intros H1; split.
    - destruct (Z_lt_le_dec y 0) as [Hl|]; [|assumption]. pose proof (year_days_mono y (-1) ltac:(lia)) as M. change (year_days (-1)) with (-365) in M.
      destruct (Z.eq_dec y (-1)) as [->|]; [change (is_leap (-1)) with false in Hyl; cbn iota in Hyl; lia|].
      pose proof (year_days_mono y (-2) ltac:(lia)) as M2. change (year_days (-2)) with (-730) in M2. lia.
    - destruct (Z_lt_le_dec 9999 y) as [Hl|]; [|assumption]. pose proof (year_days_mono 10000 y ltac:(lia)) as M.
      change (year_days 10000) with 3652425 in M. lia.
    - pose proof (year_days_mono 0 y ltac:(lia)) as M. change (year_days 0) with 0 in M. lia.
    - pose proof (year_days_mono y 9999 ltac:(lia)) as M. change (year_days 9999) with 3652060 in M.
      destruct (Z.eq_dec y 9999) as [->|]; [change (is_leap 9999) with false in Hyl; cbn iota in Hyl; lia|].
      pose proof (year_days_mono y 9998 ltac:(lia)) as M2. change (year_days 9998) with 3651695 in M2. lia. }
  destruct (Z.ltb_spec y 0) as [H0|H0]; cbn [orb]; [rewrite Hf; lia|]. destruct (Z.ltb_spec 9999 y) as [H1|H1]; [rewrite Hf; lia|].
  split; [apply Hf; lia|]. destruct (month_day (is_leap y) yd) as [m d] eqn:Em.
  assert (exists n, y = Z.of_nat n) as [n ->] by (exists (Z.to_nat y); lia). rewrite <- leap_agree in *.
  destruct (month_day_spec n yd m d) as (M1 & M2 & M3); [lia|exact Em|].
  rewrite unix_clock. set (s := t_unix t mod 86400). assert (0 <= s < 86400) as Hs by (apply Z.mod_pos_bound; lia).
  assert (0 <= t mod ns_per_s < 1000000000) as Hns by (apply Z.mod_pos_bound; reflexivity).
  exists n, (Z.to_nat m), d, (s / 3600), (s mod 3600 / 60), (s mod 60), (t mod ns_per_s). do 7 eexists.
  split; [reflexivity|].
  assert (d <= 31). { assert (month_length n (Z.to_nat m) <= 31); [|lia]. apply month_length_31. }
  split; [apply digits_w_spec; change (10 ^ Z.of_nat 4) with 10000; lia|].
  split; [rewrite Z2Nat.id by lia; apply digits_w_spec; change (10 ^ Z.of_nat 2) with 100; lia|].
  split; [apply digits_w_spec; change (10 ^ Z.of_nat 2) with 100; lia|].
  assert (0 <= s / 3600 < 24) by (Z.to_euclidean_division_equations; lia).
  assert (0 <= s mod 3600 / 60 < 60) by (Z.to_euclidean_division_equations; lia).
  assert (0 <= s mod 60 < 60) by (Z.to_euclidean_division_equations; lia).
  split; [apply digits_w_spec; change (10 ^ Z.of_nat 2) with 100; lia|].
  split; [apply digits_w_spec; change (10 ^ Z.of_nat 2) with 100; lia|].
  split; [apply digits_w_spec; change (10 ^ Z.of_nat 2) with 100; lia|].
  split; [apply format_nano_spec, Hns|].
  split; [lia|]. split; [exact M2|]. split; [assumption|]. split; [assumption|]. split; [assumption|]. split; [assumption|].
  rewrite day_1970.
  assert (t = t_unix t * 1000000000 + t mod ns_per_s) as Ht.
  { unfold t_unix, ns_per_s in *. pose proof (Z.div_mod t 1000000000 ltac:(lia)). lia. }
  assert (t_unix t = (t_unix t / 86400) * 86400 + s) as Hu by (unfold s; pose proof (Z.div_mod (t_unix t) 86400 ltac:(lia)); lia).
  assert (s = (s / 3600) * 3600 + (s mod 3600 / 60) * 60 + s mod 60) as Hc by (Z.to_euclidean_division_equations; lia).
  rewrite Ht at 1. rewrite Hu, Hd'. lia.
Qed.

(** A text is the text of one time. *)
Lemma app_cut {A} (a a' b b' : list A) : length a = length a' -> (a ++ b)%list = (a' ++ b')%list -> a = a' /\ b = b'.
Proof.
  revert a'. induction a as [|x a IH]; intros [|x' a'] L E; try discriminate; [split; [reflexivity|exact E]|].
  injection E as -> E. injection L as L. destruct (IH _ L E) as [-> ->]. split; reflexivity.
Qed.
Lemma time_of_det t a b : time_of t a -> time_of t b -> a = b.
Proof.
  intros (y & m & d & hh & mm & ss & fr & ty & tm & td & th & ti & ts & tf & E & [L1 [_ V1]] & [L2 [_ V2]] & [L3 [_ V3]] & [L4 [_ V4]]
          & [L5 [_ V5]] & [L6 [_ V6]] & F & _ & _ & _ & _ & _ & _ & Ha)
         (y' & m' & d' & hh' & mm' & ss' & fr' & ty' & tm' & td' & th' & ti' & ts' & tf' & E' & [L1' [_ V1']] & [L2' [_ V2']] & [L3' [_ V3']]
          & [L4' [_ V4']] & [L5' [_ V5']] & [L6' [_ V6']] & F' & _ & _ & _ & _ & _ & _ & Hb).
  rewrite E in E'. clear E.
  apply app_cut in E' as [<- E']; [|congruence]. injection E' as E'.
  apply app_cut in E' as [<- E']; [|congruence]. injection E' as E'.
  apply app_cut in E' as [<- E']; [|congruence]. injection E' as E'.
  apply app_cut in E' as [<- E']; [|congruence]. injection E' as E'.
  apply app_cut in E' as [<- E']; [|congruence]. injection E' as E'.
  apply app_cut in E' as [<- E']; [|congruence]. apply app_inj_tail in E' as [<- _].
  assert (fr = fr') as <-.
  { destruct F as [[-> ->]|(u & -> & Hu & _ & ->)], F' as [[E ->]|(u' & E & Hu' & _ & ->)]; try discriminate; [reflexivity|].
    injection E as <-. reflexivity. }
  subst d hh mm ss d' hh' mm' ss'. assert (y = y') as <- by lia. assert (m = m') as <- by lia. congruence.
Qed.

(** The bytes of such a text need no escape. *)
Definition plain (c : N) : Prop := (32 <= c < 127 /\ c <> 34 /\ c <> 60 /\ c <> 62 /\ c <> 38 /\ c <> 92)%N.
Lemma digit_plain c : is_digit c -> plain c.
Proof. unfold is_digit, plain. lia. Qed.
Lemma time_of_plain t ns : time_of t ns -> Forall plain t.
Proof.
  intros (y & m & d & hh & mm & ss & fr & ty & tm & td & th & ti & ts & tf & -> & [_ [V1 _]] & [_ [V2 _]] & [_ [V3 _]] & [_ [V4 _]]
          & [_ [V5 _]] & [_ [V6 _]] & F & _).
  pose proof (Forall_impl plain digit_plain) as I.
  assert (Forall plain tf).
  { destruct F as [[-> _]|(u & -> & [_ Hu] & _)]; [constructor|]. constructor; [unfold plain; lia|auto]. }
  repeat (apply Forall_app; split; auto); repeat constructor; unfold plain; lia.
Qed.

(** ** base64 *)
Open Scope N_scope.
Lemma b64_char_digit v : v < 64 -> b64_digit (b64_char v) v.
Proof.
  intros H. assert (forallb (fun n => let c := b64_char (N.of_nat n) in let v := N.of_nat n in
    ((65 <=? c) && (c <=? 90) && (v =? c - 65)) || ((97 <=? c) && (c <=? 122) && (v =? c - 71)) ||
    ((48 <=? c) && (c <=? 57) && (v =? c + 4)) || ((c =? 43) && (v =? 62)) || ((c =? 47) && (v =? 63))) (seq 0 64) = true) as T
    by (vm_compute; reflexivity).
  pose proof (proj1 (forallb_forall _ _) T (N.to_nat v) ltac:(apply in_seq; lia)) as K. cbv beta zeta in K. rewrite N2Nat.id in K.
  unfold b64_digit. rewrite !orb_true_iff, !andb_true_iff, !N.leb_le, !N.eqb_eq in K. intuition auto.
Qed.
Lemma b64_digit_fun c v w : b64_digit c v -> b64_digit c w -> v = w.
Proof. unfold b64_digit. lia. Qed.
Lemma b64_digit_bound c v : b64_digit c v -> v < 64 /\ c <> 61 /\ plain c.
Proof. unfold b64_digit, plain. lia. Qed.
Lemma b64_char_mod n : b64_digit (b64_char n) (n mod 64).
Proof.
  assert (b64_char n = b64_char (n mod 64)) as ->.
  { unfold b64_char. change 63 with (N.ones 6). rewrite !N.land_ones. change (2 ^ 6) with 64. rewrite N.mod_mod by lia. reflexivity. }
  apply b64_char_digit, N.mod_lt. lia.
Qed.
Lemma lor3 x y z : y < 256 -> z < 256 -> N.lor (N.lor (N.shiftl x 16) (N.shiftl y 8)) z = 65536 * x + 256 * y + z.
Proof.
  intros Hy Hz. replace (N.shiftl x 16) with (N.shiftl (N.shiftl x 8) 8) by (rewrite N.shiftl_shiftl; reflexivity).
  rewrite <- N.shiftl_lor, !lor_shift by assumption. change (2 ^ 8) with 256. lia.
Qed.
Lemma base64_spec : forall b, bytes_ok b -> base64_of (base64 b) b.
Proof.
  fix IH 1. intros [|x [|y [|z r]]] H; cbn [base64].
  - constructor.
  - inversion_clear H as [|? ? Hx _]. red in Hx.
    eapply b64_one; try apply b64_char_mod; [assumption|]. rewrite N.shiftl_mul_pow2, !N.shiftr_div_pow2.
    change (2 ^ 16) with 65536. change (2 ^ 18) with 262144. change (2 ^ 12) with 4096. dlia.
  - inversion_clear H as [|? ? Hx H']. inversion_clear H' as [|? ? Hy _]. red in Hx, Hy.
    eapply b64_two; try apply b64_char_mod; try assumption.
    assert (N.lor (N.shiftl x 16) (N.shiftl y 8) = 65536 * x + 256 * y) as ->.
    { rewrite <- (N.lor_0_r (N.lor _ _)), lor3 by lia. lia. }
    rewrite !N.shiftr_div_pow2. change (2 ^ 18) with 262144. change (2 ^ 12) with 4096. change (2 ^ 6) with 64. dlia.
  - inversion_clear H as [|? ? Hx H']. inversion_clear H' as [|? ? Hy H'']. inversion_clear H'' as [|? ? Hz Hr]. red in Hx, Hy, Hz.
    eapply b64_three; try apply b64_char_mod; try assumption; [|apply IH, Hr].
    rewrite lor3 by assumption.
    rewrite !N.shiftr_div_pow2. change (2 ^ 18) with 262144. change (2 ^ 12) with 4096. change (2 ^ 6) with 64. dlia.
Qed.
Lemma base64_of_det t b : base64_of t b -> forall b', base64_of t b' -> b = b'.
Proof.
  assert (forall c v, b64_digit c v -> c <> 61 /\ v < 64) as P by (intros c v K; pose proof (b64_digit_bound c v K); intuition auto).
  induction 1 as [|? ? ? ? ? ? ? ? ? ? ? ? ? D1 D2 D3 D4 X Y Z E H IH|? ? ? ? ? ? ? ? D1 D2 D3 X Y E|? ? ? ? ? D1 D2 X E]; intros b' K.
  - inversion K. reflexivity.
  - inversion K as [|? ? ? ? ? ? ? ? ? ? ? ? ? D1' D2' D3' D4' X' Y' Z' E' H'|? ? ? ? ? ? ? ? D1' D2' D3' X' Y' E'|? ? ? ? ? D1' D2' X' E']; subst;
      try (apply P in D4; destruct D4 as [[] _]; reflexivity).
    pose proof (b64_digit_fun _ _ _ D1 D1'). pose proof (b64_digit_fun _ _ _ D2 D2'). pose proof (b64_digit_fun _ _ _ D3 D3').
    pose proof (b64_digit_fun _ _ _ D4 D4'). subst. f_equal; [lia|]. f_equal; [lia|]. f_equal; [lia|]. apply IH. assumption.
  - inversion K as [|? ? ? ? ? ? ? ? ? ? ? ? ? D1' D2' D3' D4' X' Y' Z' E' H'|? ? ? ? ? ? ? ? D1' D2' D3' X' Y' E'|? ? ? ? ? D1' D2' X' E']; subst;
      try (apply P in D4'; destruct D4' as [[] _]; reflexivity); try (apply P in D3; destruct D3 as [[] _]; reflexivity).
    pose proof (b64_digit_fun _ _ _ D1 D1'). pose proof (b64_digit_fun _ _ _ D2 D2'). pose proof (b64_digit_fun _ _ _ D3 D3').
    subst. f_equal; [lia|]. f_equal; lia.
  - inversion K as [|? ? ? ? ? ? ? ? ? ? ? ? ? D1' D2' D3' D4' X' Y' Z' E' H'|? ? ? ? ? ? ? ? D1' D2' D3' X' Y' E'|? ? ? ? ? D1' D2' X' E']; subst;
      try (apply P in D4'; destruct D4' as [[] _]; reflexivity); try (apply P in D3'; destruct D3' as [[] _]; reflexivity).
    pose proof (b64_digit_fun _ _ _ D1 D1'). pose proof (b64_digit_fun _ _ _ D2 D2').
    subst. f_equal. lia.
Qed.
Lemma base64_of_plain t b : base64_of t b -> Forall plain t.
Proof.
  assert (forall c v, b64_digit c v -> plain c) as P by (intros c v K; pose proof (b64_digit_bound c v K); intuition auto).
  assert (plain 61) by (unfold plain; lia).
  induction 1; repeat (apply Forall_cons; [eauto|]); auto.
Qed.
Lemma plain_utf8 t : Forall plain t -> is_utf8 t.
Proof.
  intros H. exists t. split; [eapply Forall_impl; [|exact H]; unfold plain, scalar; cbn; lia|].
  induction H as [|c t Hc H IH]; [reflexivity|]. cbn [flat_map]. rewrite <- IH, utf8_1 by (unfold plain in Hc; lia). reflexivity.
Qed.

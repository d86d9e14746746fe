(** C111: what Decode leaves in the packet, whatever it returns. *)
From Coq Require Import NArith ZArith Lia ZifyBool ZifyN String List Bool.
From Verif Require Import GoBase BaseFacts GoFloat Crc SubRecords Records Package SpecBase SpecCrc SpecPkg PackageFacts ConcreteEnv.
Import ListNotations.
Open Scope N_scope.

Section WithEnv.
Context {E : Env}.

(** The packet after decoding [c] into an empty one: the header fields found in [c], zero where
    there is nothing. *)
Definition leaves (c : bytes) (p : Package) : Prop :=
  header_read c p
  /\ (routed c = false -> p_PRA p = 0 /\ p_RCA p = 0 /\ p_TTL p = 0)
  /\ p_HCS p = byte_at c (wire_header_size c - 1).

(** The content does not end in the middle of a two-byte field, except the first one. *)
Definition whole_numbers (c : bytes) : Prop :=
  length c <> 8%nat /\ (routed c = true -> length c <> 11%nat /\ length c <> 13%nat).

(** The number at [i] of which the second byte may be missing. *)
Definition word_or (c : bytes) (i : nat) (b : N) : N :=
  byte_at c i + 256 * (if (length c =? S i)%nat then b else byte_at c (S i)).
Lemma leaves_set_SFRD c b p : leaves c p -> leaves c (set_SFRD b p).
Proof. intros ([] & H & K). split; [constructor; assumption|split; assumption]. Qed.
Lemma leaves_set_SFRCS c n p : leaves c p -> leaves c (set_SFRCS n p).
Proof. intros ([] & H & K). split; [constructor; assumption|split; assumption]. Qed.

Lemma long_header key c spare p code ok : bytes_ok c -> (wire_header_size c <= length c)%nat ->
  pkg_decode key Package_zero c spare = DRet p code ok -> leaves c p.
Proof.
  intros Hb Hl H. rewrite pkg_decode_full in H by assumption. cbv zeta in H.
  assert (leaves c (set_HCS (hcs c) (hdr_of Package_zero c))) as L.
  { pose proof (hdr_of_read Package_zero c) as []. split; [constructor; assumption|]. split; [|reflexivity].
    intros R. cbn [set_HCS hdr_of p_PRA p_RCA p_TTL]. rewrite R. auto. }
  revert H. generalize dependent (set_HCS (hcs c) (hdr_of Package_zero c)). intros q L.
  destruct (go_slice _ _ _); [|discriminate]. destruct (negb _); [intros H; injection H as <- _ _; exact L|].
  destruct (_ =? _)%nat; [intros H; injection H as <- _ _; exact L|].
  destruct (kind_of c); [|intros H; injection H as <- _ _; exact L].
  destruct (opened key c); [|intros H; injection H as <- _ _; apply leaves_set_SFRD; exact L].
  destruct (_ <=? _)%nat; [intros H; injection H as <- _ _; apply leaves_set_SFRD; exact L|].
  destruct (crc_area _ _); [|discriminate].
  destruct (_ =? _); intros H; injection H as <- _ _; apply leaves_set_SFRCS, leaves_set_SFRD; exact L.
Qed.


Record short_read (c : bytes) (p : Package) : Prop := {
  sr_PRV : p_PRV p = byte_at c 0;
  sr_SKID : p_SKID p = byte_at c 1;
  sr_PRF : p_PRF p = digit2 (byte_at c 2) 6;
  sr_RTE : p_RTE p = digit1 (byte_at c 2) 5;
  sr_ENA : p_ENA p = digit2 (byte_at c 2) 3;
  sr_CMP : p_CMP p = digit1 (byte_at c 2) 2;
  sr_PR : p_PR p = digit2 (byte_at c 2) 0;
  sr_HL : p_HL p = byte_at c 3;
  sr_HE : p_HE p = byte_at c 4;
  sr_FDL : p_FDL p = word_at c 5;
  sr_PID : p_PID p = word_or c 7 (byte_at c 6);
  sr_PT : p_PT p = byte_at c 9;
  sr_PRA : p_PRA p = if routed c then word_or c 10 (byte_at c 8) else 0;
  sr_RCA : p_RCA p = if routed c then word_or c 12 (byte_at c 11) else 0;
  sr_TTL : p_TTL p = if routed c then byte_at c 14 else 0;
  sr_HCS : p_HCS p = 0;
  sr_SFRD : p_SFRD p = None;
  sr_SFRCS : p_SFRCS p = 0
}.

Lemma rd_num_tmp_half x y a : rd_num_tmp [x; y] [a] = Some ((a + 256 * y, [a; y]), []).
Proof. unfold rd_num_tmp, rd_into. cbn [length firstn skipn app]. unfold le_num. rewrite N.mul_0_r, N.add_0_r. reflexivity. Qed.

Ltac hb := repeat rewrite hdr_byte; cbv beta zeta.
Ltac hw := repeat (rewrite rd_num_tmp_2 by reflexivity; unfold hdr at 1); cbv beta iota zeta; hb.
Ltac fin := eexists; split; [reflexivity|]; constructor; unfold routed, word_or, word_at; cbn [byte_at nth length Nat.eqb];
  repeat match goal with |- context [N.testbit ?b 5] => destruct (N.testbit b 5) eqn:?; try congruence end; try reflexivity;
  cbn; lia.

Lemma short_header key c spare : bytes_ok c -> (3 <= length c < wire_header_size c)%nat ->
  exists p, pkg_decode key Package_zero c spare = DRet p 131 false /\ short_read c p.
Proof.
  intros Hb [H3 Hl]. unfold pkg_decode. set (all := (_ ++ spare)%list). clearbody all.
  destruct c as [|x0 [|x1 [|x2 c]]]; try (cbn in H3; lia). clear H3. hb.
  assert (x2 < 256) as H2 by (repeat (apply bytes_ok_cons in Hb as [? Hb]); assumption).
  destruct (digits8 x2 H2) as (-> & -> & -> & -> & ->).
  destruct c as [|x3 c]; [fin|]. hb.
  destruct c as [|x4 c]; [fin|]. hb.
  destruct c as [|x5 c]; [fin|].
  destruct c as [|x6 c].
  { change (zeros 2) with [0; 0]. rewrite rd_num_tmp_half. fin. }
  hw.
  destruct c as [|x7 c]; [fin|].
  destruct c as [|x8 c].
  { rewrite rd_num_tmp_half. fin. }
  hw.
  destruct c as [|x9 c]; [fin|]. hb.
  unfold wire_header_size, routed in Hl. cbn [byte_at nth] in Hl.
  cbn [p_RTE set_PRV set_SKID set_PRF set_RTE set_ENA set_CMP set_PR set_HL set_HE set_FDL set_PID set_PT].
  rewrite is1_digit1. destruct (N.testbit x2 5) eqn:T.
  - destruct c as [|x10 c]; [fin|].
    destruct c as [|x11 c].
    { rewrite rd_num_tmp_half. fin. }
    hw.
    destruct c as [|x12 c]; [fin|].
    destruct c as [|x13 c].
    { rewrite rd_num_tmp_half. fin. }
    hw.
    destruct c as [|x14 c]; [fin|]. hb.
    destruct c as [|x15 c]; [fin|]. cbn in Hl. lia.
  - destruct c as [|x10 c]; [fin|]. cbn in Hl. lia.
Qed.

(** Whatever Decode returns, the header fields are those of the content; what is missing is zero,
    if not half of a number is missing. *)
Theorem C111_header_fields_partial : forall key c spare p code ok, bytes_ok c -> (3 <= length c)%nat -> whole_numbers c ->
  pkg_decode key Package_zero c spare = DRet p code ok -> leaves c p.
Proof.
  intros key c spare p code ok Hb H3 [W1 W2] H.
  destruct (le_lt_dec (wire_header_size c) (length c)) as [Hl|Hl]; [exact (long_header _ _ _ _ _ _ Hb Hl H)|].
  destruct (short_header key c spare Hb (conj H3 Hl)) as (q & Hq & R). rewrite Hq in H. injection H as <- _ _.
  assert (forall i b, length c <> S i -> word_or c i b = word_at c i) as W.
  { intros i b Hi. unfold word_or. apply Nat.eqb_neq in Hi. rewrite Hi. reflexivity. }
  destruct R. split; [constructor; try assumption|split].
  - rewrite sr_PID0. apply W. exact W1.
  - intros Hr. destruct (W2 Hr) as [W3 W4]. rewrite sr_PRA0, sr_RCA0, sr_TTL0, Hr. rewrite !W by assumption. auto.
  - intros Hr. rewrite sr_PRA0, sr_RCA0, sr_TTL0, Hr. auto.
  - rewrite sr_HCS0. symmetry. apply nth_overflow. unfold wire_header_size in *. destruct (routed c); lia.
Qed.

(** Fewer than three bytes: the first two fields, all else empty. *)
Theorem C111_two_bytes : forall key c spare p code ok, (length c < 3)%nat ->
  pkg_decode key Package_zero c spare = DRet p code ok ->
  p = mkPackage (byte_at c 0) (byte_at c 1) "" "" "" "" "" 0 0 0 0 0 0 0 0 0 None 0 /\ code = 131 /\ ok = false.
Proof.
  intros key c spare p code ok Hl H. destruct c as [|x0 [|x1 [|x2 c]]]; [..|cbn in Hl; lia].
  all: injection H as <- <- <-; auto.
Qed.

(** Half a number: the other half is the second byte of the number before it. *)
Theorem C111_half_numbers : forall key c spare p code ok, bytes_ok c ->
  pkg_decode key Package_zero c spare = DRet p code ok ->
  (length c = 8%nat -> p_PID p = byte_at c 7 + 256 * byte_at c 6)
  /\ (routed c = true -> length c = 11%nat -> p_PRA p = byte_at c 10 + 256 * byte_at c 8)
  /\ (routed c = true -> length c = 13%nat -> p_RCA p = byte_at c 12 + 256 * byte_at c 11).
Proof.
  intros key c spare p code ok Hb H.
  assert (3 <= length c < wire_header_size c -> short_read c p)%nat as S.
  { intros Hl. destruct (short_header key c spare Hb Hl) as (q & Hq & R). rewrite Hq in H. injection H as <- _ _. exact R. }
  unfold wire_header_size in S. repeat split.
  - intros Hl. destruct S; [destruct (routed c); lia|]. rewrite sr_PID0. unfold word_or. rewrite Hl. reflexivity.
  - intros Hr Hl. rewrite Hr in S. destruct S; [lia|]. rewrite sr_PRA0, Hr. unfold word_or. rewrite Hl. reflexivity.
  - intros Hr Hl. rewrite Hr in S. destruct S; [lia|]. rewrite sr_RCA0, Hr. unfold word_or. rewrite Hl. reflexivity.
Qed.
End WithEnv.

(** So missing bytes do not always count as zero: a packet whose header ends after the first
    byte of the packet number. *)
Theorem C111_header_fields_refuted :
  ~ (forall c p code ok, bytes_ok c -> (3 <= length c)%nat ->
       pkg_decode (E := env0) None Package_zero c [] = DRet p code ok -> leaves c p).
Proof.
  intros H. specialize (H [1; 0; 0; 11; 0; 0; 2; 5] _ _ _ ltac:(repeat constructor) ltac:(cbn; lia) eq_refl) as [[] _]. discriminate.
Qed.

Example C111_example :
  let c := [1; 0; 0; 11; 0; 3; 2; 5; 0] in
  bytes_ok c /\ (3 <= length c)%nat /\ whole_numbers c
  /\ exists p, pkg_decode (E := env0) None Package_zero c [] = DRet p 131 false /\ p_FDL p = 515 /\ p_PID p = 5 /\ p_PT p = 0.
Proof. split; [repeat constructor|]. split; [cbn; lia|]. split; [split; [discriminate|discriminate]|]. eexists. repeat split. Qed.

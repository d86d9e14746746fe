(** C104, C105: the command lines of the packet generator and of the receiver. *)
From Coq Require Import NArith ZArith Lia ZifyBool ZifyNat ZifyN String List Bool.
From Verif Require Import GoBase GoFloat SubRecords Records Package PacketGen SpecBase SpecNum Flags SpecFlags BaseFacts PropGenMain.
Import ListNotations.
Open Scope N_scope.

(** ** Integers *)
Definition digit_fn (c : N) : option N :=
  if (48 <=? c) && (c <=? 57) then Some (c - 48)
  else if (97 <=? c) && (c <=? 102) then Some (c - 87)
  else if (65 <=? c) && (c <=? 70) then Some (c - 55) else None.
Lemma digit_fn_spec c d : digit c d <-> digit_fn c = Some d.
Proof.
  unfold digit_fn. split.
  - intros H. inversion H; subst.
    + replace ((48 <=? c) && (c <=? 57)) with true by lia. reflexivity.
    + replace ((48 <=? c) && (c <=? 57)) with false by lia. replace ((97 <=? c) && (c <=? 102)) with true by lia. reflexivity.
    + replace ((48 <=? c) && (c <=? 57)) with false by lia. replace ((97 <=? c) && (c <=? 102)) with false by lia.
      replace ((65 <=? c) && (c <=? 70)) with true by lia. reflexivity.
  - destruct ((48 <=? c) && (c <=? 57)) eqn:H1; [intros H; injection H as <-; constructor; lia|].
    destruct ((97 <=? c) && (c <=? 102)) eqn:H2; [intros H; injection H as <-; constructor; lia|].
    destruct ((65 <=? c) && (c <=? 70)) eqn:H3; [intros H; injection H as <-; constructor; lia|discriminate].
Qed.

(** Statements on single bytes, by computation. *)
Lemma all_bytes (p : N -> bool) : forallb p (map N.of_nat (seq 0 256)) = true -> forall c, c < 256 -> p c = true.
Proof.
  intros H c Hc. rewrite forallb_forall in H. apply H. apply in_map_iff. exists (N.to_nat c). split; [lia|]. apply in_seq. lia.
Qed.

Definition small (o : option N) : option N := match o with Some d => if d <? 16 then Some d else None | None => None end.
Lemma digit_of_spec c : c < 256 -> small (digit_of c) = digit_fn c.
Proof.
  intros Hc. 
  assert ((match small (digit_of c), digit_fn c with Some a, Some b => a =? b | None, None => true | _, _ => false end) = true) as H.
  { apply (all_bytes (fun c => match small (digit_of c), digit_fn c with Some a, Some b => a =? b | None, None => true | _, _ => false end)); [vm_compute; reflexivity|assumption]. }
  destruct (small (digit_of c)), (digit_fn c); try discriminate; [apply N.eqb_eq in H; congruence|reflexivity].
Qed.
Lemma digit_of_lt b c d : b <= 16 -> c < 256 -> (digit_of c = Some d /\ d < b) <-> (digit c d /\ d < b).
Proof.
  intros Hb Hc. rewrite digit_fn_spec, <- digit_of_spec by assumption. unfold small. split; intros [H Hd].
  - rewrite H. replace (d <? 16) with true by lia. auto.
  - destruct (digit_of c) as [d'|]; [|discriminate]. destruct (d' <? 16); [|discriminate]. auto.
Qed.
Lemma digit_not_under c d : digit c d -> c <> 95.
Proof. intros H. inversion H; lia. Qed.

(** The characters that underscoreOK takes for digits. *)
Definition udigit (hex : bool) (c : N) : bool := ((48 <=? c) && (c <=? 57)) || hex && (97 <=? lower c) && (lower c <=? 102).
Lemma udigit_digit (hex : bool) b c d : c < 256 -> digit c d -> d < b -> b <= (if hex then 16 else 10) -> udigit hex c = true.
Proof.
  intros Hc H Hd Hb. unfold udigit. inversion H; subst.
  - replace ((48 <=? c) && (c <=? 57)) with true by lia. reflexivity.
  - destruct hex; [|lia].
    pose proof (all_bytes (fun c => implb ((97 <=? c) && (c <=? 102)) ((97 <=? lower c) && (lower c <=? 102))) eq_refl c Hc) as Hl. cbv beta in Hl.
    destruct ((97 <=? lower c) && (lower c <=? 102)) eqn:Hq; [cbn [andb]; rewrite Hq; apply orb_true_r|lia].
  - destruct hex; [|lia].
    pose proof (all_bytes (fun c => implb ((65 <=? c) && (c <=? 70)) ((97 <=? lower c) && (lower c <=? 102))) eq_refl c Hc) as Hl. cbv beta in Hl.
    destruct ((97 <=? lower c) && (lower c <=? 102)) eqn:Hq; [cbn [andb]; rewrite Hq; apply orb_true_r|lia].
Qed.
Lemma udigit_under hex : udigit hex 95 = false.
Proof. destruct hex; reflexivity. Qed.
Lemma underscore_loop_cons hex c r w : underscore_loop hex (c :: r) w =
  if udigit hex c then underscore_loop hex r SawDigit
  else if c =? 95 then match w with SawDigit => underscore_loop hex r SawUnderscore | _ => false end
  else match w with SawUnderscore => false | _ => underscore_loop hex r SawOther end.
Proof. reflexivity. Qed.

(** Digits with underscores, read from the state behind a digit or behind an underscore. *)
Lemma uint_digits_cons base c r n : uint_digits base (c :: r) n =
  if c =? 95 then uint_digits base r n
  else match digit_of c with
       | None => None
       | Some d => if base <=? d then None
                   else if 18446744073709551616 <=? n * base + d then None else uint_digits base r (n * base + d)
       end.
Proof. reflexivity. Qed.

Lemma more_le b : 1 <= b -> forall t a n, more b a t n -> a <= n.
Proof. intros Hb t a n H. induction H; nia. Qed.

Lemma digits_read (hex : bool) b : 1 <= b -> b <= (if hex then 16 else 10) -> forall t a n, is_bytes t -> a < 18446744073709551616 ->
  (uint_digits b t a = Some n /\ underscore_loop hex t SawDigit = true <-> more b a t n /\ n < 18446744073709551616)
  /\ (uint_digits b t a = Some n /\ underscore_loop hex t SawUnderscore = true <->
      exists c d t', t = c :: t' /\ digit c d /\ d < b /\ more b (a * b + d) t' n /\ n < 18446744073709551616).
Proof.
  intros H1 Hb. assert (b <= 16) as Hb16 by (destruct hex; lia).
  induction t as [|c t IH]; intros a n Ht Ha.
  { cbn. split; split.
    - intros [H _]. injection H as <-. split; [constructor|assumption].
    - intros [H _]. inversion H; subst. auto.
    - intros [_ H]. discriminate.
    - intros (c & d & t' & H & _). discriminate. }
  apply bytes_ok_cons in Ht as [Hc Ht]. rewrite !underscore_loop_cons, uint_digits_cons.
  destruct (N.eqb_spec c 95) as [->|Hu].
  - rewrite udigit_under. destruct (IH a n Ht Ha) as [_ IH2]. split.
    + rewrite IH2. split.
      * intros (c & d & t' & -> & Hd & Hdb & Hm & Hn). split; [|assumption]. econstructor; eassumption.
      * intros [H Hn]. inversion H; subst; [exfalso; eapply digit_not_under; [eassumption|reflexivity]|]. eauto 10.
    + split; [intros [_ H]; discriminate|]. intros (c & d & t' & H & Hd & _). injection H as <- <-. exfalso; eapply digit_not_under; [eassumption|reflexivity].
  - destruct (digit_of c) as [d|] eqn:Hd.
    2: { split; split; try (intros [H _]; discriminate).
         - intros [H Hn]. exfalso. inversion H; subst.
           + destruct (proj2 (digit_of_lt b c d Hb16 Hc)) as [Hd' _]; [auto|congruence].
           + congruence.
         - intros (c' & d & t' & H & Hdd & Hdb & _). injection H as <- <-. destruct (proj2 (digit_of_lt b c d Hb16 Hc)) as [Hd' _]; [auto|congruence]. }
    destruct (N.leb_spec b d) as [Hdb|Hdb].
    { split; split; try (intros [H _]; discriminate).
         - intros [H Hn]. exfalso. inversion H; subst.
           + destruct (proj2 (digit_of_lt b c d0 Hb16 Hc)) as [Hd' _]; [auto|]. rewrite Hd in Hd'. injection Hd' as ->. lia.
           + congruence.
         - intros (c' & d' & t' & H & Hdd & Hdb' & _). injection H as <- <-. destruct (proj2 (digit_of_lt b c d' Hb16 Hc)) as [Hd' _]; [auto|]. rewrite Hd in Hd'. injection Hd' as ->. lia. }
    assert (digit c d) as Hdd by (apply (digit_of_lt b); auto).
    assert (forall d', digit c d' -> d' = d) as Hfun.
    { intros d' H. apply digit_fn_spec in H, Hdd. congruence. }
    rewrite (udigit_digit hex b c d) by assumption.
    destruct (N.leb_spec 18446744073709551616 (a * b + d)) as [Hbig|Hbig].
    { assert (forall t, more b (a * b + d) t n -> n < 18446744073709551616 -> False) as Hno by (intros t' H Hn; apply more_le in H; lia).
      split; split; try (intros [H _]; discriminate).
      - intros [H Hn]. exfalso. inversion H as [|? ? d' ? ? Hx|]; subst; [|congruence]. apply Hfun in Hx. subst. eapply Hno; eassumption.
      - intros (c' & d' & t' & H & Hd' & _ & Hm & Hn). injection H as <- <-. apply Hfun in Hd'. subst. exfalso. eapply Hno; eassumption. }
    destruct (IH (a * b + d) n Ht Hbig) as [IH1 _]. split; rewrite IH1; split.
    + intros [H Hn]. split; [econstructor; eassumption|assumption].
    + intros [H Hn]. inversion H as [|? ? d' ? ? Hx|]; subst; [|congruence]. apply Hfun in Hx. subst. auto.
    + intros [H Hn]. eauto 10.
    + intros (c' & d' & t' & H & Hd' & _ & Hm & Hn). injection H as <- <-. apply Hfun in Hd'. subst. auto.
Qed.

Lemma no_underscores hex b : b <= (if hex : bool then 16 else 10) -> forall t a n, is_bytes t -> uint_digits b t a = Some n ->
  existsb (N.eqb 95) t = false -> underscore_loop hex t SawDigit = true.
Proof.
  intros Hb. assert (b <= 16) as Hb16 by (destruct hex; lia). induction t as [|c t IH]; intros a n Ht H Hu; [reflexivity|].
  apply bytes_ok_cons in Ht as [Hc Ht]. cbn [existsb] in Hu. apply orb_false_iff in Hu as [Hu Hu'].
  rewrite underscore_loop_cons. rewrite uint_digits_cons in H. replace (c =? 95) with false in * by lia.
  destruct (digit_of c) as [d|] eqn:Hd; [|discriminate]. destruct (N.leb_spec b d) as [|Hdb]; [discriminate|].
  assert (digit c d) as Hdd by (apply (digit_of_lt b); auto). rewrite (udigit_digit hex b c d) by assumption.
  destruct (_ <=? _); [discriminate|]. eapply IH; eassumption.
Qed.

(** Digits with the check of underscores, when something precedes them that counts as a digit. *)
Lemma checked_digits (hex : bool) b t n : 1 <= b -> b <= (if hex then 16 else 10) -> is_bytes t -> forall a, a < 18446744073709551616 ->
  (match uint_digits b t a with
   | None => None
   | Some m => if existsb (N.eqb 95) t && negb (underscore_loop hex t SawDigit) then None else Some m
   end = Some n) <-> more b a t n /\ n < 18446744073709551616.
Proof.
  intros H1 Hb Ht a Ha. rewrite <- (proj1 (digits_read hex b H1 Hb t a n Ht Ha)).
  destruct (uint_digits b t a) as [m|] eqn:Hm; [|split; [discriminate|intros [H _]; discriminate]].
  destruct (existsb (N.eqb 95) t) eqn:Hu; cbn [andb].
  - destruct (underscore_loop hex t SawDigit); cbn [negb]; split; try discriminate; try (intros [? ?]; discriminate || assumption). auto.
  - rewrite (no_underscores hex b Hb t a m Ht Hm Hu). split; [auto|intros [H _]; exact H].
Qed.

Lemma lower_prefix x : x < 256 -> (lower x = 98 <-> x = 98 \/ x = 66) /\ (lower x = 111 <-> x = 111 \/ x = 79) /\ (lower x = 120 <-> x = 120 \/ x = 88).
Proof.
  intros Hx.
  pose proof (all_bytes (fun x => Bool.eqb (lower x =? 98) ((x =? 98) || (x =? 66)) && Bool.eqb (lower x =? 111) ((x =? 111) || (x =? 79))
    && Bool.eqb (lower x =? 120) ((x =? 120) || (x =? 88))) eq_refl x Hx) as H. cbv beta in H.
  apply andb_true_iff in H as [H H3]. apply andb_true_iff in H as [H1 H2]. apply eqb_prop in H1, H2, H3. lia.
Qed.

Lemma magnitude_zero t n : magnitude (48 :: t) n -> more 8 0 t n \/
  exists x b t', t = x :: t' /\ ((x = 98 \/ x = 66) /\ b = 2 \/ (x = 111 \/ x = 79) /\ b = 8 \/ (x = 120 \/ x = 88) /\ b = 16) /\ t' <> [] /\ more b 0 t' n.
Proof. intros H. inversion H; subst; [lia|left; assumption|right; eauto 10]. Qed.
Lemma octal_no_prefix x t n a : more 8 a (x :: t) n -> x <> 98 /\ x <> 66 /\ x <> 111 /\ x <> 79 /\ x <> 120 /\ x <> 88.
Proof. intros H. inversion H as [|? ? d ? ? Hd Hl|]; subst; [|lia]. inversion Hd; subst; lia. Qed.

Lemma parse_uint0_spec s n : is_bytes s -> parse_uint0 s = Some n <-> magnitude s n /\ n < 18446744073709551616.
Proof.
  intros Hs. destruct s as [|c r]; [split; [discriminate|intros [H _]; inversion H]|].
  apply bytes_ok_cons in Hs as [Hc Hr]. unfold parse_uint0. destruct (N.eqb_spec c 48) as [->|Hn].
  - assert (forall b t hex, is_bytes t -> 1 <= b -> b <= (if hex : bool then 16 else 10) -> underscore_ok (48 :: r) = underscore_loop hex t SawDigit ->
      (match uint_digits b t 0 with Some m => if existsb (N.eqb 95) t && negb (underscore_ok (48 :: r)) then None else Some m | None => None end = Some n
       <-> more b 0 t n /\ n < 18446744073709551616)) as Hgen.
    { intros b t hex Ht H1 Hb ->. apply checked_digits; try assumption; lia. }
    destruct r as [|x r].
    { rewrite (Hgen 8 [] false) by (try reflexivity; try assumption; lia). split; [intros [H Hl]; split; [constructor|]; assumption|].
      intros [H Hl]. split; [|assumption]. apply magnitude_zero in H as [H|(x & b & t' & H & _)]; [assumption|discriminate]. }
    apply bytes_ok_cons in Hr as [Hx Hr]. destruct (lower_prefix x Hx) as (L1 & L2 & L3).
    assert (underscore_ok (48 :: x :: r) = if (lower x =? 98) || (lower x =? 111) || (lower x =? 120) then underscore_loop (lower x =? 120) r SawDigit else underscore_loop false (x :: r) SawDigit) as Hu.
    { unfold underscore_ok. change ((48 =? 45) || (48 =? 43)) with false. cbv iota. change (48 =? 48) with true. cbn [andb].
      destruct ((lower x =? 98) || (lower x =? 111) || (lower x =? 120)); reflexivity. }
    assert (forall b, ((x = 98 \/ x = 66) /\ b = 2 \/ (x = 111 \/ x = 79) /\ b = 8 \/ (x = 120 \/ x = 88) /\ b = 16) -> r <> [] ->
       (more b 0 r n /\ n < 18446744073709551616 <-> magnitude (48 :: x :: r) n /\ n < 18446744073709551616)) as Hpre.
    { intros b Hb Hne. split; intros [H Hl]; (split; [|assumption]); [econstructor; eassumption|].
      apply magnitude_zero in H as [H|(x' & b' & t' & H & Hb' & _ & Hm)]; [apply octal_no_prefix in H; lia|]. injection H as <- <-.
      replace b with b' by lia. assumption. }
    assert ((x <> 98 /\ x <> 66 /\ x <> 111 /\ x <> 79 /\ x <> 120 /\ x <> 88) \/ r = [] -> 
       (more 8 0 (x :: r) n /\ n < 18446744073709551616 <-> magnitude (48 :: x :: r) n /\ n < 18446744073709551616)) as Hoct.
    { intros Ho. split; intros [H Hl]; (split; [|assumption]); [constructor; assumption|].
      apply magnitude_zero in H as [H|(x' & b' & t' & H & Hb' & Hne & Hm)]; [assumption|]. injection H as <- <-. destruct Ho as [Ho| ->]; [lia|congruence]. }
    assert (is_bytes (x :: r)) as Hxr by (apply bytes_ok_cons; auto).
    destruct r as [|y r].
    + rewrite <- Hoct by auto. destruct ((lower x =? 98) || (lower x =? 111) || (lower x =? 120)) eqn:Hp.
      * assert (uint_digits 8 [x] 0 = None) as ->.
        { destruct (uint_digits 8 [x] 0) as [m|] eqn:Hm; [|reflexivity]. exfalso. rewrite uint_digits_cons in Hm. replace (x =? 95) with false in Hm by lia.
          destruct (digit_of x) as [d|] eqn:Hd; [|discriminate]. destruct (N.leb_spec 8 d); [discriminate|].
          destruct (proj1 (digit_of_lt 8 x d ltac:(lia) Hx)) as [Hdd _]; [auto|]. inversion Hdd; subst; lia. }
        split; [discriminate|]. intros [H _]. apply octal_no_prefix in H. lia.
      * apply (Hgen 8 [x] false); try assumption; lia.
    + cbv iota beta zeta. destruct (N.eqb_spec (lower x) 98) as [E1|E1]; [|destruct (N.eqb_spec (lower x) 111) as [E2|E2]; [|destruct (N.eqb_spec (lower x) 120) as [E3|E3]]]; cbn [orb tl] in *.
      * rewrite <- (Hpre 2) by (try discriminate; tauto). apply (Hgen 2 (y :: r) false); try assumption; try lia. rewrite Hu. replace (lower x =? 120) with false by lia. reflexivity.
      * rewrite <- (Hpre 8) by (try discriminate; tauto). apply (Hgen 8 (y :: r) false); try assumption; try lia. rewrite Hu. replace (lower x =? 120) with false by lia. reflexivity.
      * rewrite <- (Hpre 16) by (try discriminate; tauto). apply (Hgen 16 (y :: r) true); try assumption; try lia.
      * rewrite <- Hoct by (left; lia). apply (Hgen 8 (x :: y :: r) false); try assumption; lia.
  - destruct (digit_fn c) as [d|] eqn:Hd.
    + apply digit_fn_spec in Hd. rewrite uint_digits_cons. pose proof (digit_not_under _ _ Hd). replace (c =? 95) with false by lia.
      destruct (N.le_gt_cases 10 d) as [Hbig|Hsm].
      * destruct (digit_of_lt 16 c d ltac:(lia) Hc) as [_ Hq]. destruct Hq as [-> _]; [split; [assumption|inversion Hd; subst; lia]|].
        replace (10 <=? d) with true by lia. split; [discriminate|]. intros [H' _]. exfalso. inversion H'; subst; inversion Hd; subst; lia.
      * destruct (digit_of_lt 10 c d ltac:(lia) Hc) as [_ Hq]. destruct Hq as [-> _]; [auto|].
        replace (10 <=? d) with false by lia. replace (18446744073709551616 <=? 0 * 10 + d) with false by lia. cbn [existsb]. replace (95 =? c) with false by lia. cbn [orb].
        assert (d = c - 48 /\ 49 <= c <= 57) as [-> Hcc] by (inversion Hd; subst; lia).
        assert (underscore_ok (c :: r) = underscore_loop false r SawDigit) as ->.
        { unfold underscore_ok. replace ((c =? 45) || (c =? 43)) with false by lia. replace (c =? 48) with false by lia. cbn [andb].
          assert (underscore_loop false (c :: r) SawNothing = underscore_loop false r SawDigit) as <-; [|destruct r; reflexivity].
          rewrite underscore_loop_cons. rewrite (udigit_digit false 10 c (c - 48)) by (try assumption; lia). reflexivity. }
        change (0 * 10 + (c - 48)) with (c - 48). rewrite (checked_digits false 10 r n) by (try assumption; lia).
        split; intros [H' Hl]; (split; [|assumption]); [constructor; assumption|]. inversion H'; subst; [assumption|lia|lia].
    + split.
      * intros H. exfalso. rewrite uint_digits_cons in H. destruct (N.eqb_spec c 95) as [->|Hu].
        { destruct (uint_digits 10 r 0); [|discriminate]. cbn [existsb] in H. change (95 =? 95) with true in H. cbn [orb andb] in H.
          assert (underscore_ok (95 :: r) = false) as Hz by (unfold underscore_ok; destruct r; reflexivity). rewrite Hz in H. discriminate. }
        rewrite <- digit_of_spec in Hd by assumption. destruct (digit_of c) as [d|]; [|discriminate]. cbn [small] in Hd.
        replace (10 <=? d) with true in H; [discriminate|]. destruct (N.ltb_spec d 16); [discriminate|lia].
      * intros [H _]. exfalso. assert (exists d, digit c d) as (d & Hd'); [|apply digit_fn_spec in Hd'; congruence].
        inversion H; subst; try congruence. exists (c - 48). constructor. lia.
Qed.

(** ParseInt(s, 0, 64) reads exactly the integers of Go source in the range of int64. *)
Lemma magnitude_head t n : magnitude t n -> exists c r, t = c :: r /\ 48 <= c <= 57.
Proof. intros H. inversion H; subst; eexists; eexists; (split; [reflexivity|lia]). Qed.
Lemma parse_int0_spec s z : is_bytes s -> parse_int0 s = Some z <-> integer s z.
Proof.
  intros Hs. unfold parse_int0. destruct s as [|c r].
  { split; [discriminate|]. intros H. inversion H; subst. apply magnitude_head in H0 as (? & ? & ? & _). discriminate. }
  pose proof Hs as Hs'. apply bytes_ok_cons in Hs' as [Hc Hr].
  destruct (N.eqb_spec c 43) as [->|Hp]; [|destruct (N.eqb_spec c 45) as [->|Hm]].
  - split.
    + destruct (parse_uint0 r) as [n|] eqn:Hn; [|discriminate]. apply parse_uint0_spec in Hn as [Hn Hl]; [|assumption]. cbn [negb andb].
      destruct (N.leb_spec 9223372036854775808 n); [discriminate|]. intros H'. injection H' as <-. constructor; assumption.
    + intros H. inversion H as [t n Hn Hl|t n Hn Hl|]; subst; [apply magnitude_head in Hn as (c & r' & E & ?); injection E as <- _; lia|].
      rewrite (proj2 (parse_uint0_spec r n Hr)) by (split; [assumption|lia]). cbn [negb andb]. replace (9223372036854775808 <=? n) with false by lia. reflexivity.
  - split.
    + destruct (parse_uint0 r) as [n|] eqn:Hn; [|discriminate]. apply parse_uint0_spec in Hn as [Hn Hl]; [|assumption]. cbn [negb andb].
      destruct (N.ltb_spec 9223372036854775808 n); [discriminate|]. intros H'. injection H' as <-. constructor; assumption.
    + intros H. inversion H as [t n Hn Hl| |t n Hn Hl]; subst; [apply magnitude_head in Hn as (c & r' & E & ?); injection E as <- _; lia|].
      rewrite (proj2 (parse_uint0_spec r n Hr)) by (split; [assumption|lia]). cbn [negb andb]. replace (9223372036854775808 <? n) with false by lia. reflexivity.
  - split.
    + destruct (parse_uint0 (c :: r)) as [n|] eqn:Hn; [|discriminate]. apply parse_uint0_spec in Hn as [Hn Hl]; [|assumption]. cbn [negb andb].
      destruct (N.leb_spec 9223372036854775808 n); [discriminate|]. intros H'. injection H' as <-. constructor; assumption.
    + intros H. inversion H as [t n Hn Hl| |]; subst; try congruence.
      rewrite (proj2 (parse_uint0_spec (c :: r) n Hs)) by (split; [assumption|lia]). cbn [negb andb]. replace (9223372036854775808 <=? n) with false by lia. reflexivity.
Qed.

(** ** Arguments *)
Lemma split_eq_spec s : match split_eq s with
  | (n, None) => s = n /\ ~ In 61 n
  | (n, Some v) => s = n ++ [61] ++ v /\ ~ In 61 n
  end.
Proof.
  induction s as [|c r IH]; cbn [split_eq]; [split; [reflexivity|intros []]|].
  destruct (N.eqb_spec c 61) as [->|Hn]; [split; [reflexivity|intros []]|].
  destruct (split_eq r) as [n [v|]]; destruct IH as [-> H]; (split; [reflexivity|intros [->|]; [congruence|contradiction]]).
Qed.
Lemma split_eq_plain n : ~ In 61 n -> split_eq n = (n, None).
Proof.
  induction n as [|c n IH]; intros H; [reflexivity|]. cbn [split_eq]. destruct (N.eqb_spec c 61) as [->|]; [destruct H; left; reflexivity|].
  rewrite IH; [reflexivity|intros Hi; apply H; right; exact Hi].
Qed.
Lemma split_eq_joined n v : ~ In 61 n -> split_eq (n ++ [61] ++ v) = (n, Some v).
Proof.
  induction n as [|c n IH]; intros H; [reflexivity|]. change ((c :: n) ++ [61] ++ v) with (c :: (n ++ [61] ++ v)). cbn [split_eq].
  destruct (N.eqb_spec c 61) as [->|]; [destruct H; left; reflexivity|].
  rewrite IH; [reflexivity|intros Hi; apply H; right; exact Hi].
Qed.

Lemma shape_flag d name t : dashes d -> named name -> t = [] \/ hd 0 t = 61 ->
  shape_of (d ++ name ++ t) = ShFlag name (match t with [] => None | _ :: v => Some v end).
Proof.
  intros Hd (Hne & Heq & Hh) Ht. destruct name as [|c n]; [congruence|]. cbn [hd] in Hh.
  assert (c <> 61) as Hc by (intros ->; apply Heq; left; reflexivity).
  assert (~ In 61 n) as Hn by (intros Hi; apply Heq; right; exact Hi).
  assert (split_eq (n ++ t) = (n, match t with [] => None | _ :: v => Some v end)) as Hs.
  { destruct t as [|e v]; [rewrite app_nil_r; apply split_eq_plain; exact Hn|]. destruct Ht as [Ht|Ht]; [discriminate|]. cbn [hd] in Ht. subst e. apply (split_eq_joined n v Hn). }
  destruct Hd as [-> | ->].
  - change ([45] ++ (c :: n) ++ t) with (45 :: c :: (n ++ t)). unfold shape_of. change (negb (45 =? 45)) with false. cbv iota.
    replace (c =? 45) with false by lia. cbn [andb]. cbv iota. replace (c =? 45) with false by lia. replace (c =? 61) with false by lia. cbn [orb]. rewrite Hs. reflexivity.
  - change ([45; 45] ++ (c :: n) ++ t) with (45 :: 45 :: c :: (n ++ t)). unfold shape_of. change (negb (45 =? 45)) with false. change (45 =? 45) with true. cbn [andb]. cbv iota.
    replace (c =? 45) with false by lia. replace (c =? 61) with false by lia. cbn [orb]. rewrite Hs. reflexivity.
Qed.

Lemma shape_of_inv a : match shape_of a with
  | ShStop => no_option a
  | ShDashes => a = [45; 45]
  | ShBad => True
  | ShFlag name None => exists d, dashes d /\ named name /\ a = d ++ name
  | ShFlag name (Some v) => exists d, dashes d /\ named name /\ a = d ++ name ++ [61] ++ v
  end.
Proof.
  destruct a as [|c0 [|c1 r]]; cbn [shape_of].
  - right. discriminate.
  - destruct (N.eq_dec c0 45) as [->|H]; [left; reflexivity|right; exact H].
  - unfold shape_of. destruct (N.eqb_spec c0 45) as [->|H]; cbn [negb]; [|right; exact H].
    assert (forall name d, dashes d -> 45 :: c1 :: r = d ++ name ->
      match (match name with [] => ShBad | c :: n => if (c =? 45) || (c =? 61) then ShBad else let '(n, v) := split_eq n in ShFlag (c :: n) v end) with
      | ShStop => no_option (45 :: c1 :: r) | ShDashes => 45 :: c1 :: r = [45; 45] | ShBad => True
      | ShFlag name None => exists d, dashes d /\ named name /\ 45 :: c1 :: r = d ++ name
      | ShFlag name (Some v) => exists d, dashes d /\ named name /\ 45 :: c1 :: r = d ++ name ++ [61] ++ v end) as Hg.
    { intros [|c n] d Hd Hq; [exact I|]. destruct ((c =? 45) || (c =? 61)) eqn:Hc; [exact I|].
      pose proof (split_eq_spec n) as Hs. destruct (split_eq n) as [m [v|]]; destruct Hs as [-> Hs]; exists d; (split; [exact Hd|]);
        (split; [split; [discriminate|]; split; [intros [->|Hi]; [cbn in Hc; discriminate|contradiction]|cbn [hd]; lia]|exact Hq]). }
    destruct (N.eqb_spec c1 45) as [->|H1]; cbn [andb].
    + destruct r as [|c2 r]; [reflexivity|]. apply (Hg (c2 :: r) [45; 45]); [right; reflexivity|reflexivity].
    + apply (Hg (c1 :: r) [45]); [left; reflexivity|reflexivity].
Qed.

Lemma bytes_eqb_spec a b : bytes_eqb a b = true <-> a = b.
Proof. unfold bytes_eqb. destruct (list_eq_dec N.eq_dec a b); split; congruence. Qed.

Section Parse.
Variable pf : bytes -> option f64.
Variable flags : bytes -> option kind.

Lemma set_value_spec k t v : is_bytes t -> set_value pf k t = Some v <-> value_of pf k t v.
Proof.
  intros Ht. destruct k; cbn [set_value].
  - split.
    + destruct (parse_int0 t) as [z|] eqn:Hz; [|discriminate]. intros H. injection H as <-. constructor. apply parse_int0_spec; assumption.
    + intros H. inversion H; subst. rewrite (proj2 (parse_int0_spec t z Ht)) by assumption. reflexivity.
  - split.
    + destruct (pf t) as [z|] eqn:Hz; [|discriminate]. intros H. injection H as <-. constructor. assumption.
    + intros H. inversion H; subst. match goal with E : pf t = _ |- _ => rewrite E end. reflexivity.
  - split; intros H; [injection H as <-; constructor|inversion H; reflexivity].
Qed.

Lemma joined_bytes d name v : is_bytes (d ++ name ++ [61] ++ v) -> is_bytes v.
Proof. intros H. apply bytes_ok_app in H as [_ H]. apply bytes_ok_app in H as [_ H]. apply bytes_ok_app in H as [_ H]. exact H. Qed.

Lemma parse_sound : forall m args, (length args <= m)%nat -> Forall is_bytes args ->
  (forall l rest, flags_parse pf flags args = POk l rest -> sets_all pf flags args l rest) /\
  (flags_parse pf flags args = PHelp -> asks_help pf flags args).
Proof.
  induction m as [|m IH]; intros args Hm Hb.
  { destruct args; [|cbn in Hm; lia]. split; [|discriminate]. intros l rest H. injection H as <- <-. constructor. }
  destruct args as [|a r]; [split; [|discriminate]; intros l rest H; injection H as <- <-; constructor|].
  inversion Hb as [|? ? Ha Hr]; subst. cbn [flags_parse length] in *. pose proof (shape_of_inv a) as Hs.
  destruct (shape_of a) as [| | |name [v|]].
  - split; [|discriminate]. intros l rest H. injection H as <- <-. constructor. exact Hs.
  - split; [|discriminate]. intros l rest H. injection H as <- <-. subst a. constructor.
  - split; discriminate.
  - destruct Hs as (d & Hd & Hn & ->). destruct (flags name) as [k|] eqn:Hk.
    + destruct (set_value pf k v) as [x|] eqn:Hx; cbn [pset]; [|split; discriminate].
      apply set_value_spec in Hx; [|apply (joined_bytes d name v Ha)].
      destruct (IH r ltac:(lia) Hr) as [I1 I2]. destruct (flags_parse pf flags r) as [l' rest'| |]; split; try discriminate.
      * intros l rest H. injection H as <- <-. econstructor; eauto.
      * intros _. eapply ah_joined; eauto.
    + destruct (is_help name) eqn:Hh; split; try discriminate. intros _. apply ah_here; auto.
      * unfold is_help in Hh. apply orb_true_iff in Hh as [Hh|Hh]; apply bytes_eqb_spec in Hh; auto.
  - destruct Hs as (d & Hd & Hn & ->). destruct (flags name) as [k|] eqn:Hk.
    + destruct r as [|v r]; [split; discriminate|]. inversion Hr as [|? ? Hv Hr']; subst. cbn [length] in Hm.
      destruct (set_value pf k v) as [x|] eqn:Hx; cbn [pset]; [|split; discriminate].
      apply set_value_spec in Hx; [|exact Hv].
      destruct (IH r ltac:(lia) Hr') as [I1 I2]. destruct (flags_parse pf flags r) as [l' rest'| |]; split; try discriminate.
      * intros l rest H. injection H as <- <-. eapply sa_apart; eauto.
      * intros _. eapply ah_apart; eauto.
    + destruct (is_help name) eqn:Hh; split; try discriminate. intros _. rewrite <- (app_nil_r name). apply ah_here; auto.
      unfold is_help in Hh. apply orb_true_iff in Hh as [Hh|Hh]; apply bytes_eqb_spec in Hh; auto.
Qed.

Lemma shape_joined d name v : dashes d -> named name -> shape_of (d ++ name ++ [61] ++ v) = ShFlag name (Some v).
Proof. intros. exact (shape_flag d name (61 :: v) H H0 (or_intror eq_refl)). Qed.
Lemma shape_apart d name : dashes d -> named name -> shape_of (d ++ name) = ShFlag name None.
Proof. intros. rewrite <- (app_nil_r name) at 1. exact (shape_flag d name [] H H0 (or_introl eq_refl)). Qed.
Lemma shape_stop a : no_option a -> shape_of a = ShStop.
Proof.
  intros [->|H]; [reflexivity|]. destruct a as [|c [|c1 r]]; try reflexivity. cbn [hd] in H. unfold shape_of. replace (c =? 45) with false by lia. reflexivity.
Qed.

Lemma parse_complete args l rest : Forall is_bytes args -> sets_all pf flags args l rest -> flags_parse pf flags args = POk l rest.
Proof.
  intros Hb H. induction H as [|a r Ha|r|d name t k v r l rest Hd Hn Hk Hv H IH|d name t k v r l rest Hd Hn Hk Hv H IH]; cbn [flags_parse].
  - reflexivity.
  - rewrite shape_stop by exact Ha. reflexivity.
  - reflexivity.
  - rewrite shape_joined by assumption. rewrite Hk. inversion Hb; subst. rewrite (proj2 (set_value_spec k t v (joined_bytes d name t H2)) Hv). rewrite IH by assumption. reflexivity.
  - rewrite shape_apart by assumption. rewrite Hk. inversion Hb as [|? ? _ Hb']; subst. inversion Hb'; subst. rewrite (proj2 (set_value_spec k t v H2) Hv). rewrite IH by assumption. reflexivity.
Qed.
Lemma help_complete args : Forall is_bytes args -> asks_help pf flags args -> flags_parse pf flags args = PHelp.
Proof.
  intros Hb H. induction H as [d name t r Hd Hn Hk Ht|d name t k v r Hd Hn Hk Hv H IH|d name t k v r Hd Hn Hk Hv H IH]; cbn [flags_parse].
  - assert (named name) as Hn' by (destruct Hn as [-> | ->]; (split; [discriminate|]); (split; [cbn; intuition discriminate|discriminate])).
    rewrite shape_flag by assumption. rewrite Hk. destruct Hn as [-> | ->]; reflexivity.
  - rewrite shape_joined by assumption. rewrite Hk. inversion Hb; subst. rewrite (proj2 (set_value_spec k t v (joined_bytes d name t H2)) Hv). rewrite IH by assumption. reflexivity.
  - rewrite shape_apart by assumption. rewrite Hk. inversion Hb as [|? ? _ Hb']; subst. inversion Hb'; subst. rewrite (proj2 (set_value_spec k t v H2) Hv). rewrite IH by assumption. reflexivity.
Qed.
End Parse.

Lemma last_set_fold name l o : fold_left (fun o s => if bytes_eqb (fst s) name then Some (snd s) else o) l o =
  match last_set name l with Some v => Some v | None => o end.
Proof.
  unfold last_set. revert o. induction l as [|[m v] l IH]; intros o; cbn [fold_left fst snd]; [reflexivity|].
  rewrite IH. rewrite (IH (if bytes_eqb m name then Some v else None)). destruct (fold_left _ l None); [reflexivity|]. destruct (bytes_eqb m name); reflexivity.
Qed.
Lemma last_set_cons name m v l : last_set name ((m, v) :: l) = match last_set name l with Some x => Some x | None => if bytes_eqb m name then Some v else None end.
Proof. unfold last_set at 1. cbn [fold_left fst snd]. apply last_set_fold. Qed.
Lemma last_set_none name l : last_set name l = None <-> ~ In name (map fst l).
Proof.
  induction l as [|[m v] l IH]; [split; [intros _ []|reflexivity]|]. rewrite last_set_cons. cbn [map fst In].
  destruct (last_set name l) as [x|].
  - split; [discriminate|]. intros H. assert (Some x = None) as Hx by (apply (proj2 IH); intros Hi; apply H; right; exact Hi). discriminate Hx.
  - destruct (bytes_eqb m name) eqn:Hm; split; try discriminate.
    + intros H. destruct H. left. apply bytes_eqb_spec. exact Hm.
    + intros _ [->|Hi]; [rewrite (proj2 (bytes_eqb_spec name name) eq_refl) in Hm; discriminate|]. apply (proj1 IH eq_refl). exact Hi.
    + reflexivity.
Qed.
Lemma last_set_spec name l v : last_set name l = Some v <-> last_value name l v.
Proof.
  split.
  - revert v. induction l as [|[m x] l IH]; intros v H; [discriminate|]. rewrite last_set_cons in H.
    destruct (last_set name l) as [y|] eqn:Hl.
    + injection H as ->. destruct (IH v eq_refl) as [l' v r Hr]. apply (lv_last name ((m, x) :: l') v r Hr).
    + destruct (bytes_eqb m name) eqn:Hm; [|discriminate]. injection H as ->. apply bytes_eqb_spec in Hm. subst m.
      apply (lv_last name [] v l). apply last_set_none. exact Hl.
  - intros [l' x r Hr]. induction l' as [|[m y] l' IH].
    + cbn [app]. rewrite last_set_cons. rewrite (proj2 (last_set_none name r) Hr). rewrite (proj2 (bytes_eqb_spec name name) eq_refl). reflexivity.
    + cbn [app]. rewrite last_set_cons. rewrite IH. reflexivity.
Qed.

(** ** C104 *)

(** Command lines are read as specified: the same values are set, in the same order, the same
    arguments are left, and help is given exactly when it is asked for. *)
Theorem C104_command_lines : forall pf flags args, Forall is_bytes args ->
  (forall l rest, flags_parse pf flags args = POk l rest <-> sets_all pf flags args l rest)
  /\ (flags_parse pf flags args = PHelp <-> asks_help pf flags args)
  /\ (flags_parse pf flags args = PBad <-> ~ (exists l rest, sets_all pf flags args l rest) /\ ~ asks_help pf flags args).
Proof.
  intros pf flags args Hb. destruct (parse_sound pf flags (length args) args (le_n _) Hb) as [S1 S2].
  pose proof (fun l rest => parse_complete pf flags args l rest Hb) as C1. pose proof (help_complete pf flags args Hb) as C2.
  split; [intros l rest; split; auto|]. split; [split; auto|]. split.
  - intros H. split; [intros (l & rest & Hs); rewrite (C1 _ _ Hs) in H; discriminate|intros Hs; rewrite (C2 Hs) in H; discriminate].
  - intros [H1 H2]. destruct (flags_parse pf flags args) as [l rest| |]; [destruct H1; exists l, rest; auto|destruct (H2 (S2 eq_refl))|reflexivity].
Qed.

(** The integers of the options are those of Go source. *)
Theorem C104_integers : forall t, is_bytes t -> forall z, parse_int0 t = Some z <-> integer t z.
Proof. intros t Ht z. apply parse_int0_spec. exact Ht. Qed.

Lemma gen_kinds name : gen_table name = kinds gen_options name.
Proof.
  unfold gen_table, kinds, gen_options, bytes_eqb. cbn [find fst].
  change (bytes_of_string "pid") with n_pid. change (bytes_of_string "oid") with n_oid. change (bytes_of_string "time") with n_time.
  change (bytes_of_string "liquid") with n_liquid. change (bytes_of_string "lat") with n_lat. change (bytes_of_string "lon") with n_lon.
  change (bytes_of_string "timeout") with n_timeout. change (bytes_of_string "server") with n_server.
  repeat match goal with |- context [list_eq_dec N.eq_dec ?a ?b] => destruct (list_eq_dec N.eq_dec a b) end; try reflexivity; try congruence;
    subst; try discriminate; repeat match goal with H : _ = _ |- _ => discriminate H end.
Qed.
Lemma rcv_kinds name : rcv_table name = kinds rcv_options name.
Proof.
  unfold rcv_table, kinds, rcv_options, bytes_eqb. cbn [find fst]. change (bytes_of_string "c") with [99].
  destruct (list_eq_dec N.eq_dec name [99]), (list_eq_dec N.eq_dec [99] name); try reflexivity; congruence.
Qed.
Lemma sets_all_ext pf f g : (forall n, f n = g n) -> forall args l rest, sets_all pf f args l rest -> sets_all pf g args l rest.
Proof. intros H args l rest Hs. induction Hs; try (constructor; assumption); [eapply sa_joined|eapply sa_apart]; try eassumption; rewrite <- H; assumption. Qed.
Lemma asks_help_ext pf f g : (forall n, f n = g n) -> forall args, asks_help pf f args -> asks_help pf g args.
Proof.
  intros H args Hs. induction Hs; [apply ah_here; try assumption; rewrite <- H; assumption|eapply ah_joined|eapply ah_apart]; try eassumption; rewrite <- H; assumption.
Qed.

(** Values have the type of their option. *)
Lemma sets_typed pf flags args l rest : sets_all pf flags args l rest ->
  forall name v, last_set name l = Some v -> exists k t, flags name = Some k /\ value_of pf k t v /\ (Forall is_bytes args -> is_bytes t).
Proof.
  intros H. induction H as [|a r Ha|r|d name t k v r l rest Hd Hn Hk Hv H IH|d name t k v r l rest Hd Hn Hk Hv H IH]; intros name' v' Hl; try discriminate.
  - rewrite last_set_cons in Hl. destruct (last_set name' l) as [x|] eqn:Hx.
    + injection Hl as ->. destruct (IH _ _ Hx) as (k' & t' & A & B & C). exists k', t'. split; [exact A|]. split; [exact B|]. intros Hf. inversion Hf; auto.
    + destruct (bytes_eqb name name') eqn:He; [|discriminate]. injection Hl as ->. apply bytes_eqb_spec in He. subst name'. exists k, t.
      split; [exact Hk|]. split; [exact Hv|]. intros Hf. inversion Hf; subst. eapply joined_bytes. eassumption.
  - rewrite last_set_cons in Hl. destruct (last_set name' l) as [x|] eqn:Hx.
    + injection Hl as ->. destruct (IH _ _ Hx) as (k' & t' & A & B & C). exists k', t'. split; [exact A|]. split; [exact B|]. intros Hf. inversion Hf as [|? ? _ Hf']; subst. inversion Hf'; auto.
    + destruct (bytes_eqb name name') eqn:He; [|discriminate]. injection Hl as ->. apply bytes_eqb_spec in He. subst name'. exists k, t.
      split; [exact Hk|]. split; [exact Hv|]. intros Hf. inversion Hf as [|? ? _ Hf']; subst. inversion Hf'; auto.
Qed.

Lemma given_set name l v : last_set (bytes_of_string name) l = v -> given name l v.
Proof. destruct v as [v|]; cbn [given]; intros H; [apply last_set_spec|apply last_set_none]; exact H. Qed.

Lemma options_are_given pf args l rest : Forall is_bytes args -> sets_all pf gen_table args l rest -> options_given l (gen_flags_of l).
Proof.
  intros Hb Hs. pose proof (sets_typed pf _ args l rest Hs) as Ht.
  assert (forall name, gen_table (bytes_of_string name) = Some KInt -> given name l (option_map FInt (int_set (last_set (bytes_of_string name) l)))) as HI.
  { intros name Hk. apply given_set. destruct (last_set (bytes_of_string name) l) as [v|] eqn:Hv; [|reflexivity].
    destruct (Ht _ _ Hv) as (k & t & A & B & C). rewrite Hk in A. injection A as <-. inversion B; subst. reflexivity. }
  assert (forall name, gen_table (bytes_of_string name) = Some KFloat -> given name l (option_map FFloat (float_set (last_set (bytes_of_string name) l)))) as HF.
  { intros name Hk. apply given_set. destruct (last_set (bytes_of_string name) l) as [v|] eqn:Hv; [|reflexivity].
    destruct (Ht _ _ Hv) as (k & t & A & B & C). rewrite Hk in A. injection A as <-. inversion B; subst. reflexivity. }
  assert (forall name, gen_table (bytes_of_string name) = Some KString ->
    given name l (option_map (fun s => FString (bytes_of_string s)) (string_set (last_set (bytes_of_string name) l)))) as HS.
  { intros name Hk. apply given_set. destruct (last_set (bytes_of_string name) l) as [v|] eqn:Hv; [|reflexivity].
    destruct (Ht _ _ Hv) as (k & t & A & B & C). rewrite Hk in A. injection A as <-. inversion B; subst. cbn [string_set option_map].
    rewrite bytes_string by (apply C; exact Hb). reflexivity. }
  repeat split; [apply (HI "pid"%string)|apply (HI "oid"%string)|apply (HI "liquid"%string)|apply (HI "timeout"%string)
    |apply (HF "lat"%string)|apply (HF "lon"%string)|apply (HS "time"%string)|apply (HS "server"%string)]; reflexivity.
Qed.

Section WithEnv.
Context {E : Env}.

(** The generator runs with the last value of each documented option; asked for help it ends
    with status 0, and with any other arguments it ends with status 2; it sends nothing then. *)
Theorem C104_generator : forall pf args w, Forall is_bytes args ->
  (forall l rest, sets_all pf (kinds gen_options) args l rest ->
     exists f, options_given l f /\ gen_program pf args w = (fst (gen_main f w), exit_code (snd (gen_main f w))))
  /\ (asks_help pf (kinds gen_options) args -> gen_program pf args w = (None, 0%Z))
  /\ (~ (exists l rest, sets_all pf (kinds gen_options) args l rest) -> ~ asks_help pf (kinds gen_options) args ->
      gen_program pf args w = (None, 2%Z)).
Proof.
  intros pf args w Hb. destruct (C104_command_lines pf gen_table args Hb) as (H1 & H2 & H3). unfold gen_program.
  assert (forall n, kinds gen_options n = gen_table n) as Hk by (intros n; symmetry; apply gen_kinds).
  split; [|split].
  - intros l rest Hs. apply (sets_all_ext pf _ gen_table Hk) in Hs. rewrite (proj2 (H1 l rest) Hs). exists (gen_flags_of l).
    split; [apply (options_are_given pf args l rest Hb Hs)|]. destruct (gen_main (gen_flags_of l) w). reflexivity.
  - intros Hh. rewrite (proj2 H2); [reflexivity|]. apply (asks_help_ext pf _ gen_table Hk args Hh).
  - intros Hn Hh. rewrite (proj2 H3); [reflexivity|]. split.
    + intros (l & rest & Hs). apply Hn. exists l, rest. apply (sets_all_ext pf gen_table _ gen_kinds args l rest Hs).
    + intros Hs. apply Hh. apply (asks_help_ext pf gen_table _ gen_kinds args Hs).
Qed.

(** Status 0 means that help was asked for. *)
Theorem C104_status_zero : forall pf args w, Forall is_bytes args ->
  snd (gen_program pf args w) = 0%Z <-> asks_help pf (kinds gen_options) args.
Proof.
  intros pf args w Hb. split; [|intros H; rewrite (proj1 (proj2 (C104_generator pf args w Hb)) H); reflexivity].
  unfold gen_program. destruct (C104_command_lines pf gen_table args Hb) as (_ & H2 & _).
  destruct (flags_parse pf gen_table args) as [l rest| |].
  - intros H. exfalso. apply (C72_exit_status_refuted (gen_flags_of l) w). destruct (gen_main (gen_flags_of l) w). exact H.
  - intros _. apply (asks_help_ext pf gen_table _ gen_kinds). apply H2. reflexivity.
  - discriminate.
Qed.

(** A packet that is sent carries the last packet and object identifier on the command line. *)
Theorem C104_what_is_sent : forall pf args w addr b st, Forall is_bytes args -> gen_program pf args w = (Some (addr, b), st) ->
  exists l rest pid oid, sets_all pf (kinds gen_options) args l rest
    /\ given "pid" l (Some (FInt pid)) /\ pid <> 0%Z /\ given "oid" l (Some (FInt oid)) /\ oid <> 0%Z
    /\ ((0 <= pid < 65536)%Z -> (0 <= oid < 4294967296)%Z -> ~ In (bytes_of_string "liquid") (map fst l) -> forall spare, exists p r,
          pkg_decode None Package_zero b spare = DRet p 0 true /\ p_PID p = Z.to_N pid /\ p_SFRD p = Some (BSds [r]) /\ s_OID r = Z.to_N oid).
Proof.
  intros pf args w addr b st Hb Hg. destruct (C104_command_lines pf gen_table args Hb) as (H1 & _ & _). unfold gen_program in Hg.
  destruct (flags_parse pf gen_table args) as [l rest| |]; try discriminate. pose proof (proj1 (H1 l rest) eq_refl) as Hs.
  destruct (options_are_given pf args l rest Hb Hs) as (G1 & G2 & G3 & _).
  destruct (gen_main (gen_flags_of l) w) as [o e] eqn:Hm. injection Hg as -> <-.
  destruct (proj1 (C74_when_a_packet_is_sent (gen_flags_of l) w)) as ((pid & Hp & Hp0) & (oid & Ho & Ho0) & _); [exists addr, b; rewrite Hm; reflexivity|].
  exists l, rest, pid, oid. split; [apply (sets_all_ext pf gen_table _ gen_kinds args l rest Hs)|].
  rewrite Hp in G1. rewrite Ho in G2. split; [exact G1|]. split; [exact Hp0|]. split; [exact G2|]. split; [exact Ho0|].
  intros R1 R2 Hl spare. assert (gf_liquid (gen_flags_of l) = None) as Hq.
  { destruct (gf_liquid (gen_flags_of l)) as [z|]; [|reflexivity]. exfalso. cbn [option_map given] in G3. destruct G3 as [l1 v r1 _]. apply Hl.
    rewrite map_app. apply in_or_app. right. left. reflexivity. }
  destruct (C74_what_is_sent _ w addr b e Hm) as (_ & Hd); unfold arg_pid, arg_oid, arg_liquid; rewrite ?Hp, ?Ho, ?Hq; cbn [get]; try lia; try assumption.
  destruct (Hd spare) as (p & r & x & y & d & lv & D & _ & P & S & _ & O & _). exists p, r. unfold arg_pid, arg_oid in P, O. rewrite Hp in P. rewrite Ho in O. auto.
Qed.
End WithEnv.

(** The receiver reads the settings file of the last option c; without one, or with an empty
    one, it ends with status 1. *)
Theorem C104_receiver : forall args, Forall is_bytes args ->
  let sets := sets_all (fun _ => None) (kinds rcv_options) args in
  let help := asks_help (fun _ => None) (kinds rcv_options) args in
  (forall file, rcv_config args = inl file <-> file <> [] /\ exists l rest, sets l rest /\ given "c" l (Some (FString file)))
  /\ (rcv_config args = inr 1%Z <-> exists l rest, sets l rest /\ (given "c" l None \/ given "c" l (Some (FString []))))
  /\ (rcv_config args = inr 0%Z <-> help)
  /\ (rcv_config args = inr 2%Z <-> ~ (exists l rest, sets l rest) /\ ~ help).
Proof.
  intros args Hb sets help. destruct (C104_command_lines (fun _ => None) rcv_table args Hb) as (H1 & H2 & H3). unfold rcv_config.
  assert (forall l rest, sets l rest <-> flags_parse (fun _ => None) rcv_table args = POk l rest) as Es.
  { intros l rest. rewrite H1. split; apply sets_all_ext; intros n; [symmetry|]; apply rcv_kinds. }
  assert (help <-> flags_parse (fun _ => None) rcv_table args = PHelp) as Eh.
  { rewrite H2. split; apply asks_help_ext; intros n; [symmetry|]; apply rcv_kinds. }
  assert (forall l v, given "c" l v <-> last_set [99] l = v) as Eg.
  { intros l [v|]; symmetry; [apply last_set_spec|apply last_set_none]. }
  assert (forall l rest x, sets l rest -> last_set [99] l = Some x -> exists s, x = FString s) as Ek.
  { intros l rest x Hs Hx. destruct (sets_typed _ _ args l rest Hs _ _ Hx) as (k & t & A & B & _). injection A as <-. inversion B; eauto. }
  destruct (flags_parse (fun _ => None) rcv_table args) as [l rest| |].
  - pose proof (proj2 (Es l rest) eq_refl) as Hs. assert (forall l' rest', sets l' rest' -> l' = l) as Hu by (intros l' rest' Q; apply Es in Q; congruence).
    destruct (last_set [99] l) as [x|] eqn:Hx.
    + destruct (Ek l rest x Hs Hx) as ([|c s] & ->).
      * repeat split; try discriminate.
        -- intros (Hne & l' & r' & Q & G). apply Hu in Q as ->. apply Eg in G. congruence.
        -- intros _. exists l, rest. split; [exact Hs|]. right. apply Eg. exact Hx.
        -- intros Q. apply Eh in Q. discriminate.
        -- intros (Q & _). destruct Q. eauto.
      * repeat split; try discriminate.
        -- injection H as <-. discriminate.
        -- injection H as <-. exists l, rest. split; [exact Hs|]. apply Eg. exact Hx.
        -- intros (Hne & l' & r' & Q & G). apply Hu in Q as ->. apply Eg in G. pose proof (eq_trans (eq_sym G) Hx) as Q. injection Q as ->. reflexivity.
        -- intros (l' & r' & Q & G). apply Hu in Q as ->. destruct G as [G|G]; apply Eg in G; pose proof (eq_trans (eq_sym G) Hx) as Q; discriminate Q.
        -- intros Q. apply Eh in Q. discriminate.
        -- intros (Q & _). destruct Q. eauto.
    + repeat split; try discriminate.
      -- intros (Hne & l' & r' & Q & G). apply Hu in Q as ->. apply Eg in G. congruence.
      -- intros _. exists l, rest. split; [exact Hs|]. left. apply Eg. exact Hx.
      -- intros Q. apply Eh in Q. discriminate.
      -- intros (Q & _). destruct Q. eauto.
  - assert (help) as Hh by (apply Eh; reflexivity). repeat split; try discriminate; try assumption.
    + intros (_ & l & rest & Q & _). apply Es in Q. discriminate.
    + intros (l & rest & Q & _). apply Es in Q. discriminate.
    + intros _. exact Hh.
    + intros (_ & Q). contradiction.
  - repeat split; try discriminate.
    + intros (_ & l & rest & Q & _). apply Es in Q. discriminate.
    + intros (l & rest & Q & _). apply Es in Q. discriminate.
    + intros Q. apply Eh in Q. discriminate.
    + intros (l & rest & Q). apply Es in Q. discriminate.
    + intros Q. apply Eh in Q. discriminate.
Qed.

(** ** C105 *)

(** Decimal texts are read as what they say, as long as they have no superfluous zeros. *)
Lemma more_decimal : forall t a, Forall is_digit t -> more 10 a t (fold_left (fun a c => 10 * a + (c - 48)) t a).
Proof.
  induction t as [|c t IH]; intros a H; [constructor|]. inversion H as [|? ? Hc Ht]; subst. cbn [fold_left]. unfold is_digit in Hc.
  apply (mo_digit 10 a c (c - 48)); [constructor; exact Hc|lia|]. replace (a * 10 + (c - 48)) with (10 * a + (c - 48)) by lia. apply IH. exact Ht.
Qed.
Lemma magnitude_decimal t n : nat_text t n -> magnitude t n.
Proof.
  intros (Hne & Hd & Hz & <-). destruct t as [|c t]; [congruence|]. inversion Hd as [|? ? Hc Ht]; subst. cbn [hd] in Hz.
  destruct (N.eq_dec c 48) as [->|Hn].
  - specialize (Hz eq_refl). injection Hz as ->. apply mg_octal. constructor.
  - unfold is_digit in Hc. apply mg_decimal; [lia|]. unfold value10. cbn [fold_left]. replace (10 * 0 + (c - 48)) with (c - 48) by lia. apply more_decimal. exact Ht.
Qed.

Theorem C105_decimal_integers : forall t z, int_text t z -> (-9223372036854775808 <= z < 9223372036854775808)%Z ->
  integer t z /\ (forall z', integer t z' -> z' = z) /\ parse_int0 t = Some z.
Proof.
  intros t z Ht Hr. assert (is_bytes t) as Hb.
  { destruct Ht as [(n & (_ & Hd & _) & _)|(u & n & -> & (_ & Hd & _) & _)]; [|apply bytes_ok_cons; split; [reflexivity|]];
      (eapply Forall_impl; [|exact Hd]; intros c Hc; unfold is_digit in Hc; change (c < 256); lia). }
  assert (integer t z) as Hi.
  { destruct Ht as [(n & Hn & ->)|(u & n & -> & Hn & ->)]; constructor; try (apply magnitude_decimal; exact Hn); lia. }
  split; [exact Hi|]. apply (parse_int0_spec t z Hb) in Hi. split; [|exact Hi]. intros z' Hz. apply (parse_int0_spec t z' Hb) in Hz. congruence.
Qed.

(** With a leading zero they are not: the number is never the decimal one, unless it has only
    one digit. *)
Lemma octal_less : forall t a b n, more 8 a t n -> Forall is_digit t -> a < b -> n < fold_left (fun a c => 10 * a + (c - 48)) t b.
Proof.
  intros t a b n H. revert b. induction H as [a|a c d t n Hd Hl H IH|a c d t n Hd Hl H IH]; intros b Hf Hb.
  - exact Hb.
  - inversion Hf as [|? ? Hc Ht]; subst. cbn [fold_left]. apply IH; [exact Ht|]. unfold is_digit in Hc. inversion Hd; subst; lia.
  - inversion Hf as [|? ? Hc Ht]; subst. unfold is_digit in Hc. lia.
Qed.
Lemma octal_differs t n : more 8 0 t n -> Forall is_digit t -> n = value10 t -> n < 8.
Proof.
  intros H Hf Hv. assert (forall t a n, more 8 a t n -> Forall is_digit t -> (a = 0 \/ t = []) -> n = fold_left (fun a c => 10 * a + (c - 48)) t a -> a < 8 -> n < 8) as G; [|apply (G t 0 n); auto; lia].
  clear. intros t a n H. induction H as [a|a c d t n Hd Hl H IH|a c d t n Hd Hl H IH]; intros Hf Ha Hv Hs.
  - exact Hs.
  - pose proof (Forall_inv Hf) as Hc; pose proof (Forall_inv_tail Hf) as Ht. unfold is_digit in Hc. cbn [fold_left] in Hv. destruct Ha as [->|Ha]; [|discriminate].
    assert (d = c - 48) as -> by (inversion Hd; subst; lia). replace (10 * 0 + (c - 48)) with (0 * 8 + (c - 48)) in Hv by lia.
    apply IH; try assumption; try lia. destruct t as [|c2 t]; [right; reflexivity|]. destruct (N.eq_dec (c - 48) 0) as [E|E]; [left; lia|]. exfalso.
    pose proof (Forall_inv Ht) as Hc2. pose proof (Forall_inv_tail Ht) as Ht2. unfold is_digit in Hc2. clear IH.
    assert (0 * 8 + (c - 48) <> 0) as Ea by lia. remember (0 * 8 + (c - 48)) as a1 eqn:E1. clear E1. remember (c2 :: t) as u eqn:Eu. destruct H as [|a c0 d2 t0 n Hd2 Hl2 H2|]; [discriminate| |injection Eu as Eu _; lia]. injection Eu as -> ->.
    assert (d2 = c2 - 48) as -> by (inversion Hd2; subst; lia). cbn [fold_left] in Hv.
    pose proof (octal_less _ _ (10 * a + (c2 - 48)) _ H2 Ht2 ltac:(lia)). lia.
  - pose proof (Forall_inv Hf) as Hc; pose proof (Forall_inv_tail Hf) as Ht. unfold is_digit in Hc. lia.
Qed.

Theorem C105_leading_zeros_refuted : forall t n, nat_text t n -> 8 <= n ->
  ~ integer (48 :: t) (Z.of_N n) /\ ~ integer (43 :: 48 :: t) (Z.of_N n) /\ ~ integer (45 :: 48 :: t) (- Z.of_N n).
Proof.
  intros t n (Hne & Hd & _ & Hv) Hn. assert (~ magnitude (48 :: t) n) as Hm.
  { intros H. apply magnitude_zero in H as [H|(x & b & t' & -> & Hx & _)].
    - pose proof (octal_differs t n H Hd (eq_sym Hv)). lia.
    - inversion Hd as [|? ? Hc _]; subst. unfold is_digit in Hc. lia. }
  clear Hv Hd. split; [|split]; intros H; inversion H as [u m Hu Hl E1 E2|u m Hu Hl E1 E2|u m Hu Hl E1 E2]; subst; try (inversion Hu; lia);
    apply Hm; (assert (m = n) as -> by lia; exact Hu).
Qed.

(** Examples: -pid 010 is packet 8, -pid 08 is an error. *)
Example C105_ten : parse_int0 [48; 49; 48] = Some 8%Z.
Proof. reflexivity. Qed.
Example C105_eight : parse_int0 [48; 56] = None.
Proof. reflexivity. Qed.
Example C105_hyps : nat_text [49; 48] 10 /\ int_text [45; 49; 48] (-10)%Z.
Proof.
  assert (nat_text [49; 48] 10) as H by (repeat split; try discriminate; repeat constructor; discriminate).
  split; [exact H|]. right. exists [49; 48], 10. auto.
Qed.

(** The documented command line: --pid 1 --oid 12 --time 2021-12-16T09:12:00Z --lat 45
    --lon 60.344 --server localhost:5555; and another, with a help option behind. *)
Definition doc_line : list bytes := map bytes_of_string
  ["--pid"; "1"; "--oid"; "12"; "--time"; "2021-12-16T09:12:00Z"; "--lat"; "45"; "--lon"; "60.344"; "--server"; "localhost:5555"]%string.
Definition pf_ex (t : bytes) : option f64 := if list_eq_dec N.eq_dec t (bytes_of_string "45") then Some (f64_of_Z 45) else Some (f64_of_Z 60).
Example C104_documented : Forall is_bytes doc_line
  /\ sets_all pf_ex (kinds gen_options) doc_line
       [(bytes_of_string "pid", FInt 1); (bytes_of_string "oid", FInt 12); (bytes_of_string "time", FString (bytes_of_string "2021-12-16T09:12:00Z"));
        (bytes_of_string "lat", FFloat (f64_of_Z 45)); (bytes_of_string "lon", FFloat (f64_of_Z 60)); (bytes_of_string "server", FString (bytes_of_string "localhost:5555"))] [].
Proof.
  assert (Forall is_bytes doc_line) as Hb by (repeat constructor). split; [exact Hb|].
  apply (sets_all_ext pf_ex gen_table _ gen_kinds). apply (proj1 (C104_command_lines pf_ex gen_table doc_line Hb)). reflexivity.
Qed.
Example C104_help : asks_help pf_ex (kinds gen_options) (map bytes_of_string ["-pid=0x_1F"; "--help=me"; "x"]%string).
Proof.
  set (l := map bytes_of_string _). assert (Forall is_bytes l) as Hb by (repeat constructor).
  apply (asks_help_ext pf_ex gen_table _ gen_kinds). apply (proj1 (proj2 (C104_command_lines pf_ex gen_table l Hb))). reflexivity.
Qed.
Example C104_bad : ~ (exists l rest, sets_all pf_ex (kinds gen_options) (map bytes_of_string ["-pid"; "08"]%string) l rest).
Proof.
  set (l := map bytes_of_string _). assert (Forall is_bytes l) as Hb by (repeat constructor). intros (s & rest & H).
  apply (sets_all_ext pf_ex _ gen_table (fun n => eq_sym (gen_kinds n))) in H. apply (proj1 (C104_command_lines pf_ex gen_table l Hb)) in H. discriminate H.
Qed.
Example C104_settings : rcv_config (map bytes_of_string ["-c"; "old.yaml"; "-c=new.yaml"; "more"]%string) = inl (bytes_of_string "new.yaml").
Proof. reflexivity. Qed.

(** Facts about the connectors. *)
From Coq Require Import NArith ZArith String Ascii Bool List Lia.
From Verif Require Import GoBase GoFloat Storage Config Server Json Connect SpecBase SpecConn BaseFacts.
Import ListNotations.
Open Scope string_scope.

(** ** Runs *)
Lemma lruns_ret {A} (a b : A) cs : lruns (LRet a) cs b -> cs = [] /\ b = a.
Proof. intros H. inversion H; subst. auto. Qed.
Lemma lruns_tell {A} c (k : lprog A) cs a : lruns (LTell c k) cs a -> exists cs', cs = (c, true) :: cs' /\ lruns k cs' a.
Proof. intros H. inversion H; subst. eauto. Qed.
Lemma lruns_call {A} c (k : bool -> lprog A) cs a : lruns (LCall c k) cs a -> exists ok cs', cs = (c, ok) :: cs' /\ lruns (k ok) cs' a.
Proof. intros H. inversion H; subst. eauto. Qed.
Lemma lruns_bind {A B} (p : lprog A) (f : A -> lprog B) : forall cs b, lruns (lbind p f) cs b ->
  exists cs1 a cs2, lruns p cs1 a /\ lruns (f a) cs2 b /\ cs = (cs1 ++ cs2)%list.
Proof.
  induction p as [a|c k IH|c k IH]; cbn [lbind]; intros cs b H.
  - exists [], a, cs. split; [constructor|]. auto.
  - apply lruns_tell in H as (cs' & -> & H). destruct (IH _ _ H) as (cs1 & a & cs2 & H1 & H2 & ->).
    exists ((c, true) :: cs1), a, cs2. split; [constructor; exact H1|]. auto.
  - apply lruns_call in H as (ok & cs' & -> & H). destruct (IH _ _ _ H) as (cs1 & a & cs2 & H1 & H2 & ->).
    exists ((c, ok) :: cs1), a, cs2. split; [constructor; exact H1|]. auto.
Qed.
Lemma lruns_bind_intro {A B} (p : lprog A) (f : A -> lprog B) cs1 a : lruns p cs1 a -> forall cs2 b, lruns (f a) cs2 b ->
  lruns (lbind p f) (cs1 ++ cs2) b.
Proof. induction 1; intros; cbn [lbind app]; [assumption|constructor; auto|constructor; auto]. Qed.
(** Every program has a run in which all calls succeed. *)
Lemma lruns_total {A} (p : lprog A) : exists cs a, lruns p cs a /\ Forall (fun x => snd x = true) cs.
Proof.
  induction p as [a|c k (cs & a & H & K)|c k IH].
  - exists [], a. split; constructor.
  - exists ((c, true) :: cs), a. split; constructor; auto.
  - destruct (IH true) as (cs & a & H & K). exists ((c, true) :: cs), a. split; constructor; auto.
Qed.

Ltac linv := repeat match goal with
  | H : lruns (LRet _) _ _ |- _ => apply lruns_ret in H; destruct H as [? ?]; subst
  | H : lruns (LTell _ _) _ _ |- _ => apply lruns_tell in H; destruct H as (? & ? & H); subst
  | H : lruns (LCall _ _) _ _ |- _ => apply lruns_call in H; destruct H as ([|] & ? & ? & H); subst
  end.

(** ** Atoi *)
Lemma digit_val_spec c : match digit_val c with
  | Some d => is_dec c /\ d = Z.of_N (N_of_ascii c - 48) | None => ~ is_dec c end.
Proof.
  unfold digit_val, is_dec. destruct (N.leb_spec 48 (N_of_ascii c)); cbn [andb]; [|lia].
  destruct (N.leb_spec (N_of_ascii c) 57); [|lia]. split; lia.
Qed.
Lemma digits_val_spec s : forall acc, match digits_val acc s with
  | Some n => dec_chars s /\ n = (acc * 10 ^ Z.of_nat (String.length s) + weigh s)%Z
  | None => ~ dec_chars s
  end.
Proof.
  induction s as [|c s IH]; intros acc; cbn [digits_val].
  - cbn. split; [exact I|lia].
  - pose proof (digit_val_spec c) as Hd. destruct (digit_val c) as [d|].
    + specialize (IH (10 * acc + d)%Z). destruct (digits_val (10 * acc + d) s) as [n|].
      * destruct Hd as [H1 ->], IH as [H2 ->]. cbn [dec_chars weigh String.length]. split; [auto|].
        rewrite Nat2Z.inj_succ, Z.pow_succ_r by lia. lia.
      * cbn [dec_chars]. tauto.
    + cbn [dec_chars]. tauto.
Qed.

Lemma dec_not_sign c s : dec_chars (String c s) -> c <> "+"%char /\ c <> "-"%char.
Proof. intros [H _]. unfold is_dec in H. split; intros ->; cbn in H; lia. Qed.
Lemma weigh_nonneg s : dec_chars s -> (0 <= weigh s)%Z.
Proof.
  induction s as [|c s IH]; cbn [dec_chars weigh]; [lia|]. intros [_ H]. specialize (IH H).
  pose proof (Z.pow_nonneg 10 (Z.of_nat (String.length s))). nia.
Qed.

(** The sign and the rest. *)
Definition split_sign (s : string) : bool * string :=
  match s with String "+" r => (false, r) | String "-" r => (true, r) | _ => (false, s) end.
Lemma Atoi_eq s : Atoi s = let '(neg, u) := split_sign s in
  match u with
  | EmptyString => None
  | _ => match digits_val 0 u with
         | Some n => let z := if neg then (- n)%Z else n in
             if ((- 2 ^ 63 <=? z) && (z <? 2 ^ 63))%Z then Some z else None
         | None => None
         end
  end.
Proof. reflexivity. Qed.
Lemma split_sign_spec s : let '(neg, u) := split_sign s in
  exists sign, s = sign ++ u /\ (if neg then sign = "-" else sign = "" \/ sign = "+")
  /\ (sign = "" -> forall c r, u = String c r -> c <> "+"%char /\ c <> "-"%char).
Proof.
  destruct s as [|c s]; cbn [split_sign].
  - exists "". split; [reflexivity|]. split; [auto|]. discriminate.
  - destruct (ascii_dec c "+") as [->|H1].
    + exists "+". split; [reflexivity|]. split; [auto|]. discriminate.
    + destruct (ascii_dec c "-") as [->|H2].
      * exists "-". split; [reflexivity|]. split; [auto|]. discriminate.
      * assert (split_sign (String c s) = (false, String c s)) as E.
        { cbn [split_sign]. destruct c as [[|] [|] [|] [|] [|] [|] [|] [|]]; try reflexivity; congruence. }
        cbn [split_sign] in E. rewrite E. exists "". split; [reflexivity|]. split; [auto|]. intros _ c' r Ec. injection Ec as <- _. auto.
Qed.

Theorem Atoi_spec s z : Atoi s = Some z <-> int_setting s z.
Proof.
  rewrite Atoi_eq. pose proof (split_sign_spec s) as Hs. destruct (split_sign s) as [neg u]. destruct Hs as (sign & -> & Hsign & Hn).
  assert (forall sign' u', sign ++ u = sign' ++ u' -> u' <> "" -> dec_chars u' -> sign' = "" \/ sign' = "+" \/ sign' = "-" -> sign = sign' /\ u = u') as Huniq.
  { intros sign' u' E Hne Hd Hs'. destruct u' as [|c' r']; [congruence|]. pose proof (dec_not_sign _ _ Hd) as [D1 D2].
    assert (sign = "" \/ sign = "+" \/ sign = "-") as Hs by (destruct neg; tauto).
    destruct Hs as [Hs|[Hs|Hs]], Hs' as [Hs'|[Hs'|Hs']]; subst sign sign'; cbn [append] in E;
      first [ solve [auto]
            | injection E; intros; subst; solve [auto|congruence]
            | exfalso; destruct (Hn eq_refl _ _ E); congruence ]. }
  destruct u as [|c u].
  - split; [discriminate|]. intros (_ & sign' & u' & E & Hne & Hd & Hv). exfalso.
    destruct (Huniq sign' u' E Hne Hd) as [_ <-]; [tauto|]. congruence.
  - pose proof (digits_val_spec (String c u) 0) as Hd. destruct (digits_val 0 (String c u)) as [n|].
    + destruct Hd as [Hd ->]. replace (0 * 10 ^ Z.of_nat (String.length (String c u)) + weigh (String c u))%Z with (weigh (String c u)) by lia.
      set (w := weigh (String c u)). cbn zeta. set (y := if neg then (- w)%Z else w). change (- 2 ^ 63)%Z with (-9223372036854775808)%Z.
      change (2 ^ 63)%Z with 9223372036854775808%Z.
      assert (forall z, int_setting (sign ++ String c u) z -> z = y) as Hu.
      { intros z' (_ & sign' & u' & E & Hne & Hd' & Hv). destruct (Huniq sign' u' E Hne Hd') as [<- <-]; [tauto|].
        fold w in Hv. unfold y. destruct neg; [subst sign|]; destruct Hv as [[H ->]|[H ->]]; try reflexivity;
          [destruct H; discriminate|subst sign; destruct Hsign; discriminate]. }
      destruct ((-9223372036854775808 <=? y) && (y <? 9223372036854775808))%Z eqn:Er.
      * apply andb_true_iff in Er as [E1 E2]. apply Z.leb_le in E1. apply Z.ltb_lt in E2. split.
        -- intros E. injection E as <-. split; [lia|]. exists sign, (String c u). split; [reflexivity|]. split; [discriminate|]. split; [exact Hd|].
           fold w. unfold y. destruct neg; auto.
        -- intros Hi. rewrite (Hu _ Hi). reflexivity.
      * split; [discriminate|]. intros Hi. exfalso. pose proof (Hu _ Hi) as ->. destruct Hi as [Hr _].
        apply andb_false_iff in Er as [Er|Er]; [apply Z.leb_gt in Er|apply Z.ltb_ge in Er]; lia.
    + split; [discriminate|]. intros (_ & sign' & u' & E & Hne & Hd' & Hv). exfalso. destruct (Huniq sign' u' E Hne Hd') as [_ <-]; tauto.
Qed.
Corollary Atoi_none s : Atoi s = None <-> ~ exists z, int_setting s z.
Proof.
  split.
  - intros H (z & Hz). apply Atoi_spec in Hz. congruence.
  - intros H. destruct (Atoi s) as [z|] eqn:E; [|reflexivity]. exfalso. apply H. exists z. apply Atoi_spec, E.
Qed.

(** ** Init *)
Lemma init_conn k cfg cs c : lruns (conn_init k cfg) cs (Some c) ->
  cn_kind c = k /\ (k = KLog \/ cfg = Some (cn_config c) /\ (k = KRedis -> cn_queue c = get (cn_config c) "queue")).
Proof.
  intros H. destruct k, cfg as [s|]; cbn [conn_init] in H;
    try (linv; discriminate); try (linv; match goal with E : Some _ = Some _ |- _ => injection E as -> end; cbn; auto; fail).
  - unfold rabbitmq_init in H. linv; try discriminate. match goal with E : Some _ = Some _ |- _ => injection E as -> end. cbn. split; [reflexivity|right; split; [reflexivity|discriminate]].
  - unfold postgresql_init in H. linv; try discriminate. match goal with E : Some _ = Some _ |- _ => injection E as -> end. cbn. split; [reflexivity|right; split; [reflexivity|discriminate]].
  - unfold nats_init in H. linv; try discriminate. match goal with E : Some _ = Some _ |- _ => injection E as -> end. cbn. split; [reflexivity|right; split; [reflexivity|discriminate]].
  - unfold tarantool_init in H. destruct (Atoi (get s "max_recons")), (Atoi (get s "timeout")), (Atoi (get s "reconnect")); linv; try discriminate.
    match goal with E : Some _ = Some _ |- _ => injection E as -> end. cbn. split; [reflexivity|right; split; [reflexivity|discriminate]].
  - unfold redis_init in H. destruct (s "server"); [|linv; discriminate]. destruct (Atoi _); [|linv; discriminate].
    destruct (s "queue") as [q|] eqn:Eq; linv; [|discriminate]. match goal with E : Some _ = Some _ |- _ => injection E as -> end. cbn. split; [reflexivity|].
    right. split; [reflexivity|]. intros _. unfold get. rewrite Eq. reflexivity.
  - unfold mysql_init in H. linv; try discriminate. match goal with E : Some _ = Some _ |- _ => injection E as -> end. cbn. split; [reflexivity|right; split; [reflexivity|discriminate]].
Qed.
Definition good_conn (c : Conn) : Prop := cn_kind c = KRedis -> cn_queue c = get (cn_config c) "queue".
Lemma init_good k cfg cs c : lruns (conn_init k cfg) cs (Some c) -> good_conn c.
Proof.
  intros H. destruct (init_conn _ _ _ _ H) as [E [->|[_ Hq]]]; unfold good_conn; rewrite E; [discriminate|exact Hq].
Qed.

(** ** Save *)
Lemma request_delivers c t : good_conn c -> bytes_ok t -> delivers (cn_kind c) (cn_config c) t (request c t).
Proof.
  intros Hg Ht. unfold delivers, request. unfold good_conn in Hg. destruct (cn_kind c); cbn [place]; auto 6.
  repeat split. apply bytes_string, Ht.
Qed.

(** What the encoders do with any value. *)
From Coq Require Import NArith ZArith Lia ZifyBool ZifyNat ZifyN String Ascii Bool List.
From Verif Require Import GoBase GoFloat Crc SubRecords Records Package SpecBase SpecCrc SpecRec SpecPkg SpecEnc.
From Verif Require Import BaseFacts SubFacts SubMore CrcFacts WireFacts.
Import ListNotations.
Open Scope N_scope.
Open Scope go_scope.

(** ** Flags *)
Lemma flag_byte_iff s v : flag_byte s v <-> parse_flags s = Ok v.
Proof. unfold flag_byte. symmetry. apply parse_flags_spec. Qed.

Lemma no_flag_byte s : (forall v, ~ flag_byte s v) <-> parse_flags s = Err.
Proof.
  split.
  - intros H. destruct (parse_flags_total s) as [[n Hn]|Hn]; [|assumption].
    exfalso. apply (H n), flag_byte_iff, Hn.
  - intros H v Hv. apply flag_byte_iff in Hv. congruence.
Qed.

Lemma flags_cases s : (exists v, flag_byte s v) \/ (forall v, ~ flag_byte s v).
Proof.
  destruct (parse_flags_total s) as [[n Hn]|Hn]; [left; exists n; apply flag_byte_iff, Hn|].
  right. apply no_flag_byte, Hn.
Qed.

Lemma flag_byte_lt s v : flag_byte s v -> u8 v = v.
Proof. intros [_ H]. apply N.mod_small. assumption. Qed.

Lemma flag_byte_fun s v w : flag_byte s v -> flag_byte s w -> v = w.
Proof. rewrite !flag_byte_iff. congruence. Qed.

(** ** The ignored error *)
Lemma pu_loop_large s n : binary s n -> 255 < n -> pu_loop 255 0 s = (255, false).
Proof.
  induction 1 as [| |s n H IH|s n H IH]; intros Hn; try lia; rewrite pu_loop_app.
  - destruct (N.le_gt_cases n 255) as [Hc|Hc].
    + destruct (pu_loop_of_binary 255 s n ltac:(lia) H) as (_ & H1 & _). rewrite H1 by assumption.
      rewrite pu_loop_cons; cbn [Ascii.eqb Bool.eqb]. destruct (N.ltb_spec 255 (2 * n + 0)); [reflexivity|lia].
    + rewrite IH by assumption. reflexivity.
  - destruct (N.le_gt_cases n 255) as [Hc|Hc].
    + destruct (pu_loop_of_binary 255 s n ltac:(lia) H) as (_ & H1 & _). rewrite H1 by assumption.
      rewrite pu_loop_cons; cbn [Ascii.eqb Bool.eqb]. destruct (N.ltb_spec 255 (2 * n + 1)); [reflexivity|lia].
    + rewrite IH by assumption. reflexivity.
Qed.

Lemma binary_next0 p a : (p = ""%string /\ a = 0 \/ binary p a) -> binary (p ++ "0") (2 * a + 0).
Proof.
  intros [[-> ->]|H]; [exact bin_0|]. rewrite N.add_0_r. constructor. assumption.
Qed.
Lemma binary_next1 p a : (p = ""%string /\ a = 0 \/ binary p a) -> binary (p ++ "1") (2 * a + 1).
Proof. intros [[-> ->]|H]; [exact bin_1|]. constructor. assumption. Qed.

Lemma pu_loop_fails s : forall p a w, (p = ""%string /\ a = 0 \/ binary p a) -> pu_loop 255 a s = (w, false) ->
  w = 0 \/ w = 255 /\ exists s1 s2 n, (p ++ s)%string = (s1 ++ s2)%string /\ binary s1 n /\ 256 <= n.
Proof.
  induction s as [|c s IH]; intros p a w Hp H; rewrite ?pu_loop_cons, ?pu_loop_nil in H; [discriminate|].
  destruct (Ascii.eqb_spec c "0") as [->|].
  - replace (p ++ String "0" s)%string with ((p ++ "0") ++ s)%string by (rewrite sapp_assoc; reflexivity).
    destruct (N.ltb_spec 255 (2 * a + 0)).
    + inversion H. right. split; [reflexivity|]. exists (p ++ "0")%string, s, (2 * a + 0).
      split; [reflexivity|]. split; [apply binary_next0, Hp|lia].
    + eapply IH; [|exact H]. right. apply binary_next0, Hp.
  - destruct (Ascii.eqb_spec c "1") as [->|].
    + replace (p ++ String "1" s)%string with ((p ++ "1") ++ s)%string by (rewrite sapp_assoc; reflexivity).
      destruct (N.ltb_spec 255 (2 * a + 1)).
      * inversion H. right. split; [reflexivity|]. exists (p ++ "1")%string, s, (2 * a + 1).
        split; [reflexivity|]. split; [apply binary_next1, Hp|lia].
      * eapply IH; [|exact H]. right. apply binary_next1, Hp.
    + inversion H. left. reflexivity.
Qed.

Lemma large_prefix a b n : binary a n -> 256 <= n -> parse_uint2 255 (a ++ b) = (255, false).
Proof.
  intros H Hn. destruct (pu_loop_of_binary 255 a n ltac:(lia) H) as (Hs & _ & _).
  unfold parse_uint2. destruct a as [|c a]; [congruence|]. cbn [append].
  change (String c (a ++ b)) with (String c a ++ b)%string. rewrite pu_loop_app.
  rewrite (pu_loop_large _ _ H) by lia. reflexivity.
Qed.

Lemma loose_byte_iff s v : loose_byte s v <-> u8 (fst (parse_uint2 255 s)) = v.
Proof.
  assert (F : forall w, parse_uint2 255 s = (w, true) -> flag_byte s w).
  { intros w H. apply flag_byte_iff. unfold parse_flags. rewrite H. reflexivity. }
  assert (G : forall w, flag_byte s w -> parse_uint2 255 s = (w, true)).
  { intros w H. apply flag_byte_iff in H. unfold parse_flags in H. destruct (parse_uint2 255 s) as [x [|]]; inversion H; reflexivity. }
  assert (K : forall w, parse_uint2 255 s = (w, false) ->
    w = 0 \/ w = 255 /\ exists s1 s2 n, s = (s1 ++ s2)%string /\ binary s1 n /\ 256 <= n).
  { intros w H. unfold parse_uint2 in H. destruct s as [|c t]; [inversion H; auto|].
    exact (pu_loop_fails (String c t) "" 0 w (or_introl (conj eq_refl eq_refl)) H). }
  split.
  - intros H. destruct H as [s v H|s u n H Hn|s H1 H2].
    + rewrite (G v H). exact (flag_byte_lt _ _ H).
    + rewrite (large_prefix _ _ _ H Hn). reflexivity.
    + destruct (parse_uint2 255 s) as [w [|]] eqn:Ew.
      * exfalso. exact (H1 w (F w eq_refl)).
      * destruct (K w eq_refl) as [->|(_ & s1 & s2 & n & Es & Hb & Hn)]; [reflexivity|].
        specialize (H2 s1 s2 n Es Hb). lia.
  - intros H. destruct (parse_uint2 255 s) as [w [|]] eqn:Ew; cbn [fst] in H.
    + specialize (F w eq_refl). rewrite (flag_byte_lt _ _ F) in H. subst v. apply lb_ok, F.
    + destruct (K w eq_refl) as [->|(-> & s1 & s2 & n & Es & Hb & Hn)]; subst v.
      * apply lb_bad.
        -- intros v Hv. specialize (G v Hv). congruence.
        -- intros a b n Es Hb. destruct (N.lt_ge_cases n 256) as [|Hn]; [assumption|].
           subst s. rewrite (large_prefix _ _ _ Hb Hn) in Ew. inversion Ew.
      * subst s. exact (lb_large s1 s2 n Hb Hn).
Qed.

(** ** Layout *)
Lemma opt_eq f b : opt f b = put (is1 f) b.
Proof.
  unfold opt, put, is1. destruct (string_dec f "1") as [->|H]; [reflexivity|].
  destruct (String.eqb_spec f "1"); [contradiction|reflexivity].
Qed.

Lemma bits_str_snoc k : forall n, bits_str (S k) n = (bits_str k (n / 2) ++ (if N.even n then "0" else "1"))%string.
Proof.
  induction k as [|k IH]; intros n.
  - change (String (bit_char (N.testbit n 0)) "" = (if N.even n then "0" else "1")%string).
    rewrite N.bit0_odd, <- N.negb_even. destruct (N.even n); reflexivity.
  - change (bits_str (S (S k)) n) with (String (bit_char (N.testbit n (N.of_nat (S k)))) (bits_str (S k) n)).
    rewrite IH.
    change (bits_str (S k) (n / 2)) with (String (bit_char (N.testbit (n / 2) (N.of_nat k))) (bits_str k (n / 2))).
    rewrite <- (N.div2_div n). rewrite N.div2_spec, N.shiftr_spec'.
    replace (N.of_nat (S k)) with (N.of_nat k + 1) by lia. reflexivity.
Qed.

Lemma low_digits_eq k : forall n, low_digits k n = bits_str k n.
Proof.
  induction k as [|k IH]; intros n; [reflexivity|]. rewrite bits_str_snoc. cbn [low_digits]. rewrite IH. reflexivity.
Qed.

Lemma size_nat_eq n : N.to_nat (N.size n) = N.size_nat n.
Proof.
  destruct n as [|p]; [reflexivity|]. cbn [N.size N.size_nat]. induction p as [p IH|p IH|]; cbn [Pos.size Pos.size_nat]; [| |reflexivity];
  rewrite <- IH; exact (Pos2Nat.inj_succ _).
Qed.

Lemma digits3_eq n : digits3 n = sprintf_b 3 n.
Proof. unfold digits3, sprintf_b. rewrite low_digits_eq, size_nat_eq. reflexivity. Qed.

Lemma le16_mod n : le16 (n mod 65536) = le16 n.
Proof. unfold le16. f_equal; [|f_equal]; lia. Qed.

Lemma lor_mod a b k : N.lor a b mod 2 ^ k = N.lor (a mod 2 ^ k) (b mod 2 ^ k).
Proof. rewrite <- !N.land_ones. apply N.land_lor_distr_l. Qed.

Lemma speed_eq s d a :
  le_bytes 2 (N.lor (N.lor (u16 (s * 10)) (u16 (N.shiftl d 15))) (u16 (N.shiftl a 14)))
  = le16 (N.lor (N.lor (10 * s) (32768 * d)) (16384 * a)).
Proof.
  rewrite <- le16_eq. rewrite <- (le16_mod (N.lor (N.lor (10 * s) _) _)). f_equal.
  change 65536 with (2 ^ 16). rewrite !lor_mod. unfold u16. change 65536 with (2 ^ 16).
  rewrite !N.shiftl_mul_pow2, (N.mul_comm 10), (N.mul_comm 32768), (N.mul_comm 16384). reflexivity.
Qed.

Lemma dir_eq dir d : N.ldiff dir (u8 (N.shiftl d 7)) = if N.odd d then N.ldiff dir 128 else dir.
Proof.
  assert (H : u8 (N.shiftl d 7) = if N.odd d then 128 else 0).
  { unfold u8. rewrite N.shiftl_mul_pow2. change (2 ^ 7) with 128.
    pose proof (N.bit0_mod d) as Hm. rewrite N.bit0_odd in Hm.
    destruct (N.odd d); cbn [N.b2n] in Hm; lia. }
  rewrite H. destruct (N.odd d); [reflexivity|]. apply N.ldiff_0_r.
Qed.

Section WithEnv.
Context {E : Env}.

Lemma writes_ok d b : writes d b -> sub_encode d = Ok b.
Proof.
  intros H. destruct H; cbn [sub_encode];
    unfold SrResponse_encode, SrTermIdentity_encode, SrModuleData_encode, SrDispatcherIdentity_encode, SrAuthInfo_encode, SrResultCode_encode,
      StorageRecord_encode, SrPosData_encode, SrExtPosData_encode, SrAdSensorsData_encode, SrCountersData_encode, SrStateData_encode,
      SrLiquidLevelSensor_encode, SrAbsCntrData_encode, SrAbsAnSensData_encode, byte_of_int8.
  - reflexivity.
  - apply loose_byte_iff in H. rewrite H. rewrite !opt_eq, le32_eq, !chars_eq. reflexivity.
  - rewrite le32_eq, !chars_eq. reflexivity.
  - rewrite le32_eq, !chars_eq. reflexivity.
  - rewrite H. cbn [String.eqb negb put]. rewrite !chars_eq, app_nil_r. reflexivity.
  - destruct (String.eqb_spec (ai_SS e) ""); [contradiction|]. cbn [negb put]. rewrite !chars_eq. reflexivity.
  - reflexivity.
  - rewrite H. reflexivity.
  - pose proof (flag_byte_lt _ _ H) as Hv. apply flag_byte_iff in H. rewrite H, bind_ok, Hv.
    rewrite speed_eq, dir_eq, !opt_eq, !le32_eq, !le24_eq. reflexivity.
  - pose proof (flag_byte_lt _ _ H) as Hv. apply flag_byte_iff in H. rewrite H, bind_ok, Hv.
    rewrite !opt_eq. reflexivity.
  - pose proof (flag_byte_lt _ _ H) as Hv. pose proof (flag_byte_lt _ _ H0) as Ha. apply flag_byte_iff in H, H0. rewrite H, bind_ok, H0, bind_ok, Hv, Ha.
    rewrite !opt_eq, !le24_eq. reflexivity.
  - pose proof (flag_byte_lt _ _ H) as Hv. apply flag_byte_iff in H. rewrite H, bind_ok, Hv.
    rewrite !opt_eq, !le24_eq. reflexivity.
  - pose proof (flag_byte_lt _ _ H) as Hv. apply flag_byte_iff in H. rewrite H, bind_ok, Hv. reflexivity.
  - pose proof (flag_byte_lt _ _ H) as Hv. rewrite digits3_eq in H. apply flag_byte_iff in H. rewrite H, bind_ok, Hv.
    rewrite le32_eq. reflexivity.
  - rewrite le24_eq. reflexivity.
  - unfold le24, u8. rewrite !N.shiftr_div_pow2. reflexivity.
Qed.

Lemma writes_total d : (exists b, writes d b) \/ sub_encode d = Err.
Proof.
  destruct d as [e|e|e|e|e|e|m|e|e|e|e|e|e|e|e]; cbn [sub_encode];
    try (left; eexists; constructor; fail).
  all: try (left; eexists; constructor; apply loose_byte_iff; reflexivity).
  - destruct (String.eqb_spec (ai_SS e) ""); left; eexists; [apply ws_ai2|apply ws_ai3]; assumption.
  - unfold StorageRecord_encode. destruct (pb_marshal m) as [b|] eqn:Em; [left; eexists; constructor; exact Em|auto].
  - unfold SrPosData_encode. destruct (parse_flags_total (pd_ALTE e ++ pd_LOHS e ++ pd_LAHS e ++ pd_MV e ++ pd_BB e ++ pd_CS e ++ pd_FIX e ++ pd_VLD e)) as [[n Hn]|Hn];
      [left; eexists; econstructor; apply flag_byte_iff; exact Hn|right; rewrite Hn; reflexivity].
  - unfold SrExtPosData_encode. destruct (parse_flags_total ("000" ++ ep_NSFE e ++ ep_SFE e ++ ep_PFE e ++ ep_HFE e ++ ep_VFE e)) as [[n Hn]|Hn];
      [left; eexists; econstructor; apply flag_byte_iff; exact Hn|right; rewrite Hn; reflexivity].
  - unfold SrAdSensorsData_encode.
    destruct (parse_flags_total (ad_DIOE8 e ++ ad_DIOE7 e ++ ad_DIOE6 e ++ ad_DIOE5 e ++ ad_DIOE4 e ++ ad_DIOE3 e ++ ad_DIOE2 e ++ ad_DIOE1 e)) as [[n Hn]|Hn];
      [|right; rewrite Hn; reflexivity].
    destruct (parse_flags_total (ad_ASFE1 e ++ ad_ASFE2 e ++ ad_ASFE3 e ++ ad_ASFE4 e ++ ad_ASFE5 e ++ ad_ASFE6 e ++ ad_ASFE7 e ++ ad_ASFE8 e)) as [[m Hm]|Hm];
      [left; eexists; econstructor; apply flag_byte_iff; eassumption|right; rewrite Hn, bind_ok, Hm; reflexivity].
  - unfold SrCountersData_encode.
    destruct (parse_flags_total (cd_CFE8 e ++ cd_CFE7 e ++ cd_CFE6 e ++ cd_CFE5 e ++ cd_CFE4 e ++ cd_CFE3 e ++ cd_CFE2 e ++ cd_CFE1 e)) as [[n Hn]|Hn];
      [left; eexists; econstructor; apply flag_byte_iff; exact Hn|right; rewrite Hn; reflexivity].
  - unfold SrStateData_encode. destruct (parse_flags_total ("00000" ++ sd_NMS e ++ sd_IBU e ++ sd_BBU e)) as [[n Hn]|Hn];
      [left; eexists; econstructor; apply flag_byte_iff; exact Hn|right; rewrite Hn; reflexivity].
  - unfold SrLiquidLevelSensor_encode. destruct (parse_flags_total ("0" ++ ll_LLSEF e ++ ll_LLSVU e ++ ll_RDF e ++ sprintf_b 3 (ll_LLSN e))) as [[n Hn]|Hn];
      [left; eexists; econstructor; apply flag_byte_iff; rewrite digits3_eq; exact Hn|right; rewrite Hn; reflexivity].
Qed.

Lemma sub_encode_total d : (exists b, sub_encode d = Ok b) \/ sub_encode d = Err.
Proof. destruct (writes_total d) as [[c Hc]|Hc]; [left; exists c; apply writes_ok, Hc|auto]. Qed.

Lemma writes_iff d b : writes d b <-> sub_encode d = Ok b.
Proof.
  split; [apply writes_ok|]. intros H. destruct (writes_total d) as [[c Hc]|Hc]; [|congruence].
  pose proof (writes_ok _ _ Hc) as H'. congruence.
Qed.

Lemma not_writes_iff d : (forall b, ~ writes d b) <-> sub_encode d = Err.
Proof.
  split.
  - intros H. destruct (writes_total d) as [[c Hc]|Hc]; [|assumption]. destruct (H c Hc).
  - intros H b Hb. apply writes_ok in Hb. congruence.
Qed.

(** ** Subrecords *)
Lemma code_auto d : auto_type (Some d) = code d.
Proof. destruct d; reflexivity. Qed.

Lemma sub_length_ok d b : sub_encode d = Ok b -> sub_length d = Ok (u16 (len b)).
Proof.
  intros H. destruct d; unfold sub_length; rewrite ?H; try reflexivity. inversion H. reflexivity.
Qed.
Lemma sub_length_err d : sub_encode d = Err -> sub_length d = Ok 0.
Proof. intros H. destruct d; try (unfold sub_length; rewrite H; reflexivity); discriminate H. Qed.

Lemma rd_encode_ok t n d b : sub_encode d = Ok b -> code d <> None \/ t <> 0 ->
  rd_encode (mkRecordData t n (Some d))
  = Ok ([filled_in t (match code d with Some c => c | None => 0 end)] ++ le16 (filled_in n (N.of_nat (length b))) ++ b).
Proof.
  intros H Hc. unfold rd_encode. cbn [rd_SRT rd_SRL rd_SRD]. rewrite code_auto, (sub_length_ok _ _ H), H.
  assert (L : forall k, (if k =? 0 then Ok (u16 (len b)) else Ok k) = Ok (if k =? 0 then u16 (len b) else k))
    by (intros k; destruct (k =? 0); reflexivity).
  rewrite L. unfold filled_in.
  assert (F : le_bytes 2 (if n =? 0 then u16 (len b) else n) = le16 (if n =? 0 then N.of_nat (length b) else n)).
  { rewrite <- le16_eq. destruct (n =? 0); [|reflexivity]. unfold u16, len. apply le16_mod. }
  destruct (N.eqb_spec t 0) as [->|Ht].
  - destruct (code d) as [c|]; [|destruct Hc as [Hc|Hc]; congruence]. rewrite !bind_ok, F. reflexivity.
  - rewrite !bind_ok, F. reflexivity.
Qed.

Lemma sub_out_ok r o : sub_out r o -> rd_encode r = o.
Proof.
  intros H. destruct H as [t n d c b Hc Hw|n d Hc|t n d Hw|n|t n Ht].
  - apply writes_ok in Hw. rewrite (rd_encode_ok t n d b Hw).
    + destruct Hc as [->|[Ht ->]]; [reflexivity|]. unfold filled_in. destruct (N.eqb_spec t 0); [contradiction|reflexivity].
    + destruct Hc as [->|[Ht _]]; [left; discriminate|right; assumption].
  - unfold rd_encode. cbn [rd_SRT rd_SRD]. rewrite code_auto, Hc. reflexivity.
  - apply not_writes_iff in Hw. unfold rd_encode. cbn [rd_SRT rd_SRL rd_SRD]. rewrite (sub_length_err _ Hw), Hw.
    destruct (t =? 0); [destruct (auto_type (Some d))|]; destruct (n =? 0); reflexivity.
  - reflexivity.
  - unfold rd_encode. cbn [rd_SRT rd_SRD]. destruct (N.eqb_spec t 0); [contradiction|reflexivity].
Qed.

Lemma sub_out_total r : exists o, sub_out r o.
Proof.
  destruct r as [t n [d|]].
  - destruct (writes_total d) as [[b Hb]|Hb].
    + destruct (N.eqb_spec t 0) as [->|Ht].
      * destruct (code d) as [c|] eqn:Hc; eexists; [eapply so_ok; [left; exact Hc|exact Hb]|apply so_no_code; exact Hc].
      * eexists. eapply so_ok; [right; split; [exact Ht|reflexivity]|exact Hb].
    + eexists. apply so_bad, not_writes_iff, Hb.
  - destruct (N.eqb_spec t 0) as [->|Ht]; eexists; [apply so_nil|apply so_nil_typed, Ht].
Qed.

Lemma total_iff {A B : Type} (P : A -> B -> Prop) (f : A -> B) :
  (forall x o, P x o -> f x = o) -> (forall x, exists o, P x o) -> forall x o, P x o <-> f x = o.
Proof.
  intros Hf Ht x o. split; [apply Hf|]. intros <-. destruct (Ht x) as [o Ho]. rewrite (Hf _ _ Ho). exact Ho.
Qed.

Lemma sub_out_iff r o : sub_out r o <-> rd_encode r = o.
Proof. apply total_iff; [apply sub_out_ok|apply sub_out_total]. Qed.

Lemma res_cases {A} (o : res A) : (exists b, o = Ok b) \/ (forall b, o <> Ok b).
Proof. destruct o; [left; eauto|right; discriminate|right; discriminate|right; discriminate]. Qed.

Lemma each_total {A} (P : A -> res (list N) -> Prop) l : (forall x, exists o, P x o) -> exists o, each P l o.
Proof.
  intros H. induction l as [|x l [o IH]]; [eexists; constructor|]. destruct (H x) as [o1 H1].
  destruct (res_cases o1) as [[b ->]|N1]; [|eexists; apply ea_stop; eassumption].
  destruct (res_cases o) as [[c ->]|N2]; eexists; [eapply ea_ok|eapply ea_later]; eassumption.
Qed.

Lemma subs_out_ok l o : each sub_out l o -> rds_encode l = o.
Proof.
  induction 1 as [|x l b c H1 H2 IH|x l o H N1|x l b o H1 H2 IH N2]; cbn [rds_encode]; [reflexivity| | |];
    (apply sub_out_ok in H1 || apply sub_out_ok in H).
  - rewrite H1, IH. reflexivity.
  - rewrite H. destruct o; [destruct (N1 _ eq_refl)|reflexivity..].
  - rewrite H1, IH, bind_ok. destruct o; [destruct (N2 _ eq_refl)|reflexivity..].
Qed.

Lemma subs_out_iff l o : each sub_out l o <-> rds_encode l = o.
Proof. apply total_iff; [apply subs_out_ok|]. intros x. apply each_total, sub_out_total. Qed.

(** ** Records *)
Lemma secs32_eq t : tm_encode t = secs32 t.
Proof. reflexivity. Qed.

Lemma rec_out_ok s o : rec_out s o -> sdr_encode s = o.
Proof.
  intros H. destruct H as [s w v H Hv|s o H No|s w H Hv]; apply subs_out_ok in H; unfold sdr_encode; rewrite H, ?bind_ok.
  - pose proof (flag_byte_lt _ _ Hv) as Lv. apply flag_byte_iff in Hv. unfold rec_flags in Hv. rewrite Hv, bind_ok, Lv.
    rewrite !opt_eq, !le32_eq, secs32_eq. reflexivity.
  - destruct o; [destruct (No _ eq_refl)|reflexivity..].
  - apply no_flag_byte in Hv. unfold rec_flags in Hv. rewrite Hv. reflexivity.
Qed.

Lemma rec_out_total s : exists o, rec_out s o.
Proof.
  destruct (each_total sub_out (s_RD s) sub_out_total) as [o Ho]. destruct (res_cases o) as [[w ->]|No].
  - destruct (flags_cases (rec_flags s)) as [[v Hv]|Hv]; eexists; [eapply ro_ok|eapply ro_flags]; eassumption.
  - eexists. apply ro_subs; eassumption.
Qed.

Lemma rec_out_iff s o : rec_out s o <-> sdr_encode s = o.
Proof. apply total_iff; [apply rec_out_ok|apply rec_out_total]. Qed.

Lemma recs_out_ok l o : each rec_out l o -> sds_encode l = o.
Proof.
  induction 1 as [|x l b c H1 H2 IH|x l o H N1|x l b o H1 H2 IH N2]; cbn [sds_encode]; [reflexivity| | |];
    (apply rec_out_ok in H1 || apply rec_out_ok in H).
  - rewrite H1, IH. reflexivity.
  - rewrite H. destruct o; [destruct (N1 _ eq_refl)|reflexivity..].
  - rewrite H1, IH, bind_ok. destruct o; [destruct (N2 _ eq_refl)|reflexivity..].
Qed.

Lemma recs_out_iff l o : each rec_out l o <-> sds_encode l = o.
Proof. apply total_iff; [apply recs_out_ok|]. intros x. apply each_total, rec_out_total. Qed.

(** ** Bodies *)
Lemma resp_recs r : sds_encode (match pr_SDR r with Some l => l | None => [] end) = match pr_SDR r with Some s => sds_encode s | None => Ok [] end.
Proof. destruct (pr_SDR r); reflexivity. Qed.

Lemma body_out_ok b o : body_out b o -> body_encode b = o.
Proof.
  intros H. destruct H as [l o H|r w H|r o H No]; apply recs_out_ok in H; unfold body_encode; [exact H| |];
    rewrite resp_recs in H; unfold PtResponse_encode; rewrite H, ?bind_ok.
  - reflexivity.
  - destruct o; [destruct (No _ eq_refl)|reflexivity..].
Qed.

Lemma body_out_total b : exists o, body_out b o.
Proof.
  destruct b as [l|r].
  - destruct (each_total rec_out l rec_out_total) as [o Ho]. eexists. constructor. exact Ho.
  - destruct (each_total rec_out (match pr_SDR r with Some l => l | None => [] end) rec_out_total) as [o Ho].
    destruct (res_cases o) as [[w ->]|No]; eexists; [eapply bo_resp; exact Ho|eapply bo_resp_bad; eassumption].
Qed.

Lemma body_out_iff b o : body_out b o <-> body_encode b = o.
Proof. apply total_iff; [apply body_out_ok|apply body_out_total]. Qed.

(** ** Packets *)
Definition sfrd_of (key : option SecretKey) (p : Package) : res (list N) :=
  match p_SFRD p with
  | None => Ok []
  | Some b =>
      do s <- body_encode b ;;
      if String.eqb (p_ENA p) "00" then Ok s
      else match key with
           | None => Err
           | Some k => match sk_encode k s with Some c => Ok c | None => Err end
           end
  end.

Lemma sent_ok key p o : sent key p o -> sfrd_of key p = o.
Proof.
  intros H. unfold sfrd_of. destruct H as [H|b o H Hb Hc|b w k c H Hb He Hk Hs|b w H Hb He Hk]; rewrite H; [reflexivity| | |];
    apply body_out_ok in Hb; rewrite Hb.
  - destruct Hc as [->|Hn]; [destruct o; reflexivity|]. destruct o as [w| | |]; [destruct (Hn w eq_refl)|reflexivity..].
  - rewrite bind_ok. destruct (String.eqb_spec (p_ENA p) "00"); [contradiction|]. rewrite Hk, Hs. reflexivity.
  - rewrite bind_ok. destruct (String.eqb_spec (p_ENA p) "00"); [contradiction|].
    destruct Hk as [->|(k & -> & ->)]; reflexivity.
Qed.

Lemma sent_total key p : exists o, sent key p o.
Proof.
  destruct (p_SFRD p) as [b|] eqn:Eb; [|eexists; apply se_none, Eb].
  destruct (body_out_total b) as [o Ho]. destruct (res_cases o) as [[w ->]|No]; [|eexists; eapply se_plain; eauto].
  destruct (string_dec (p_ENA p) "00") as [Ee|Ee]; [eexists; eapply se_plain; eauto|].
  destruct key as [k|]; [|eexists; eapply se_no_key; eauto].
  destruct (sk_encode k w) as [c|] eqn:Ec; eexists; [eapply se_secret; eauto|eapply se_no_key; eauto].
Qed.

(** ** Everything written is a byte *)
Lemma loose_byte_lt s v : loose_byte s v -> v < 256.
Proof. intros H. apply loose_byte_iff in H. subst v. apply N.mod_lt. lia. Qed.

Lemma ldiff_lt a b : a < 256 -> N.ldiff a b < 256.
Proof.
  intros H. change 256 with (2 ^ 8) in *. apply N.mod_small in H. rewrite <- H, <- N.land_ones.
  replace (N.ldiff (N.land a (N.ones 8)) b) with (N.land (N.ldiff a b) (N.ones 8)).
  - rewrite N.land_ones. apply N.mod_lt. discriminate.
  - apply N.bits_inj. intros i. rewrite !N.land_spec, !N.ldiff_spec, N.land_spec.
    destruct (N.testbit a i), (N.testbit b i), (N.testbit (N.ones 8) i); reflexivity.
Qed.

Ltac bytes_in :=
  repeat match goal with
  | H : is_bytes (_ :: _) |- _ => apply Forall_cons_iff in H; destruct H
  | H : Forall _ (_ :: _) |- _ => apply Forall_cons_iff in H; destruct H
  | H : _ /\ _ |- _ => destruct H
  | H : flag_byte _ _ |- _ => destruct H
  | H : loose_byte _ _ |- _ => apply loose_byte_lt in H
  end.

Lemma writes_bytes d b : writes d b -> go_sub d -> bytes_ok b.
Proof.
  intros H G. destruct H; cbn [go_sub] in G; bytes_in; wire_ok; try lia.
  - eapply pb_marshal_ok; eauto.
  - destruct (N.odd _); [apply ldiff_lt|]; assumption.
Qed.

Lemma sub_out_bytes r b : sub_out r (Ok b) -> go_rd r -> bytes_ok b.
Proof.
  intros H [G1 G2]. inversion H as [t n d c b' Hc Hw| | | |]. subst. cbn [rd_SRT rd_SRD] in *.
  apply writes_bytes in Hw; [|apply G2; reflexivity].
  wire_ok. unfold filled_in. destruct (N.eqb_spec t 0) as [->|]; [|assumption].
  destruct Hc as [Hc|[]]; [|lia]. destruct d; inversion Hc; lia.
Qed.

Lemma each_bytes {A} (P : A -> res (list N) -> Prop) (G : A -> Prop) l b :
  (forall x c, P x (Ok c) -> G x -> bytes_ok c) -> each P l (Ok b) -> Forall G l -> bytes_ok b.
Proof.
  intros HP H. remember (Ok b) as o eqn:Eo. revert b Eo.
  induction H as [|x l b c H1 H2 IH|x l o H N1|x l b o H1 H2 IH N2]; intros d Ed HG.
  - inversion Ed. apply bytes_ok_nil.
  - inversion Ed. inversion HG. subst. apply bytes_ok_app. split; [eapply HP; eauto|apply IH; auto].
  - destruct (N1 _ Ed).
  - destruct (N2 _ Ed).
Qed.

Lemma rec_out_bytes s b : rec_out s (Ok b) -> go_rec s -> bytes_ok b.
Proof.
  intros H [G1 G2]. inversion H as [s' w v Hw Hv|s' o Hw No|]; subst; [|destruct (No _ eq_refl)].
  pose proof (each_bytes _ _ _ _ sub_out_bytes Hw G2) as Bw. bytes_in. wire_ok.
Qed.

Lemma body_out_bytes x b : body_out x (Ok b) -> go_body x -> bytes_ok b.
Proof.
  intros H G. inversion H as [l o Hl|r w Hl|r o Hl No]; subst; cbn [go_body] in G; [| |destruct (No _ eq_refl)].
  - exact (each_bytes _ _ _ _ rec_out_bytes Hl G).
  - destruct G as [G1 G2].
    assert (Forall go_rec (match pr_SDR r with Some l => l | None => [] end)) as G3.
    { destruct (pr_SDR r) as [l|]; [apply G2; reflexivity|constructor]. }
    pose proof (each_bytes _ _ _ _ rec_out_bytes Hl G3) as Bw. wire_ok.
Qed.

Lemma sent_bytes key p b : go_key key -> go_pkg p -> sent key p (Ok b) -> bytes_ok b.
Proof.
  intros Hk [_ G] H. inversion H as [H1|x o H1 H2 H3|x w k c H1 H2 H3 H4 H5|]; subst.
  - apply bytes_ok_nil.
  - eapply body_out_bytes; [exact H2|]. apply G, H1.
  - eapply Hk; [reflexivity|exact H5].
Qed.

Lemma head_out_bytes p v hl fdl : go_pkg p -> v < 256 -> hl < 256 -> bytes_ok (head_out p v hl fdl).
Proof. intros [G _] Hv Hh. bytes_in. unfold head_out. wire_ok. Qed.

Lemma header_length_lt p : go_pkg p -> header_length p < 256.
Proof.
  intros [G _]. bytes_in. unfold header_length, header_size. unfold is_u8 in *.
  destruct (p_HL p =? 0); [destruct (string_dec _ _); lia|assumption].
Qed.

Lemma pkg_encode_eq key p : pkg_encode key p =
  match parse_flags (pkg_flags p) with
  | Ok v =>
      match sfrd_of key p with
      | Ok b =>
          let fdl := N.of_nat (length b) mod 65536 in
          let h := head_out p (u8 v) (header_length p) fdl in
          (lengths p (header_length p) fdl, Ok (h ++ [crc8 h] ++ (if fdl =? 0 then [] else b ++ le16 (crc16 b))))
      | Err => (lengths p (header_length p) (p_FDL p), Err)
      | Panic => (lengths p (header_length p) (p_FDL p), Panic)
      | Fuel => (lengths p (header_length p) (p_FDL p), Fuel)
      end
  | _ => (p, Err)
  end.
Proof.
  unfold pkg_encode, pkg_flags. destruct (parse_flags _) as [v| | |]; [|reflexivity..].
  set (q := if p_HL p =? 0 then _ else p).
  assert (Q : q = lengths p (header_length p) (p_FDL p)).
  { subst q. unfold header_length, header_size. destruct (N.eqb_spec (p_HL p) 0) as [Eh|Eh].
    - unfold set_HL, lengths. f_equal. unfold is1. destruct (string_dec (p_RTE p) "1") as [->|Er]; [reflexivity|].
      destruct (String.eqb_spec (p_RTE p) "1"); [contradiction|reflexivity].
    - destruct p. reflexivity. }
  rewrite Q. clear q Q.
  change (p_SFRD (lengths p (header_length p) (p_FDL p))) with (p_SFRD p).
  change (p_ENA (lengths p (header_length p) (p_FDL p))) with (p_ENA p).
  match goal with |- match ?x with _ => _ end = _ => change x with (sfrd_of key p) end. destruct (sfrd_of key p) as [b| | |]; [|reflexivity..].
  cbv zeta. f_equal.
  assert (H : pkg_header (set_FDL (u16 (len b)) (lengths p (header_length p) (p_FDL p))) v
              = head_out p (u8 v) (header_length p) (N.of_nat (length b) mod 65536)).
  { unfold head_out. rewrite opt_eq. reflexivity. }
  rewrite H. f_equal. f_equal. f_equal. 
  change (p_FDL (set_FDL (u16 (len b)) (lengths p (header_length p) (p_FDL p)))) with (N.of_nat (length b) mod 65536).
  destruct (N.eqb_spec (N.of_nat (length b) mod 65536) 0) as [->|Hn]; [reflexivity|].
  destruct (N.ltb_spec 0 (N.of_nat (length b) mod 65536)); [reflexivity|lia].
Qed.

Lemma lengths_same p : lengths p (p_HL p) (p_FDL p) = p.
Proof. destruct p. reflexivity. Qed.

Lemma pkg_out_ok key p o hl fdl : go_key key -> go_pkg p -> pkg_out key p o hl fdl -> pkg_encode key p = (lengths p hl fdl, o).
Proof.
  intros Gk Gp H. rewrite pkg_encode_eq. destruct H as [Hf|v b h Hf Hs Hh|v o Hf Hs No].
  - apply no_flag_byte in Hf. rewrite Hf, lengths_same. reflexivity.
  - pose proof (sent_bytes _ _ _ Gk Gp Hs) as Bb. apply sent_ok in Hs. pose proof (flag_byte_lt _ _ Hf) as Lv.
    pose proof (proj2 Hf) as Lt. apply flag_byte_iff in Hf. rewrite Hf, Hs, Lv. cbv zeta. rewrite <- Hh.
    rewrite crc8_checksum by (subst h; apply head_out_bytes; [assumption..|apply header_length_lt; assumption]).
    rewrite (crc16_checksum b Bb). reflexivity.
  - apply sent_ok in Hs. apply flag_byte_iff in Hf. rewrite Hf, Hs. destruct o as [b| | |]; [destruct (No b eq_refl)|reflexivity..].
Qed.

Lemma pkg_out_total key p : exists o hl fdl, pkg_out key p o hl fdl.
Proof.
  destruct (flags_cases (pkg_flags p)) as [[v Hv]|Hv]; [|do 3 eexists; apply po_flags, Hv].
  destruct (sent_total key p) as [o Ho]. destruct (res_cases o) as [[b ->]|No];
    do 3 eexists; [eapply po_ok; eauto|eapply po_body; eauto].
Qed.

Lemma pkg_out_iff key p o hl fdl : go_key key -> go_pkg p ->
  (pkg_out key p o hl fdl <-> pkg_encode key p = (lengths p hl fdl, o)).
Proof.
  intros Gk Gp. split; [apply pkg_out_ok; assumption|]. intros H.
  destruct (pkg_out_total key p) as (o' & hl' & fdl' & H'). pose proof (pkg_out_ok _ _ _ _ _ Gk Gp H') as E'.
  rewrite E' in H. pose proof (f_equal (fun x => p_HL (fst x)) H) as X1. pose proof (f_equal (fun x => p_FDL (fst x)) H) as X2.
  pose proof (f_equal snd H) as X3. cbn [fst snd p_HL p_FDL lengths] in X1, X2, X3. subst. exact H'.
Qed.

End WithEnv.

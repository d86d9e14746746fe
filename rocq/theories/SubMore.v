(** Further facts about the subrecord codecs: flag strings, the analog sensor flags and the
    second counter. *)
From Coq Require Import NArith ZArith Lia ZifyBool ZifyNat ZifyN String Ascii Bool List.
From Verif Require Import GoBase GoFloat SubRecords SpecBase SpecSub BaseFacts SubFacts.
Import ListNotations.
Open Scope N_scope.
Open Scope go_scope.

(** ** ParseUint *)

Lemma pu_loop_cons m a c s : pu_loop m a (String c s)
  = if Ascii.eqb c "0" then (if m <? 2 * a + 0 then (m, false) else pu_loop m (2 * a + 0) s)
    else if Ascii.eqb c "1" then (if m <? 2 * a + 1 then (m, false) else pu_loop m (2 * a + 1) s)
    else (0, false).
Proof. reflexivity. Qed.
Lemma pu_loop_nil m a : pu_loop m a "" = (a, true).
Proof. reflexivity. Qed.

Lemma pu_loop_app m s : forall a t,
  pu_loop m a (s ++ t) = let (v, ok) := pu_loop m a s in if ok then pu_loop m v t else (v, false).
Proof.
  induction s as [|c s IH]; intros a t; [reflexivity|].
  change (String c s ++ t)%string with (String c (s ++ t)). rewrite !pu_loop_cons. destruct (Ascii.eqb c "0").
  { destruct (m <? _); [reflexivity|apply IH]. }
  destruct (Ascii.eqb c "1"); [|reflexivity].
  destruct (m <? _); [reflexivity|apply IH].
Qed.

Lemma sapp_assoc (a b c : string) : ((a ++ b) ++ c = a ++ (b ++ c))%string.
Proof. induction a as [|x a IH]; [reflexivity|]. exact (f_equal (String x) IH). Qed.

Lemma sapp_nil (a : string) : (a ++ "" = a)%string.
Proof. induction a as [|x a IH]; [reflexivity|]. exact (f_equal (String x) IH). Qed.

Lemma pu_loop_binary m s : forall p a v, binary p a -> pu_loop m a s = (v, true) -> binary (p ++ s) v.
Proof.
  induction s as [|c s IH]; intros p a v Hp H; rewrite ?pu_loop_cons, ?pu_loop_nil in H.
  - inversion H. subst. rewrite sapp_nil. assumption.
  - destruct (Ascii.eqb_spec c "0") as [->|].
    + destruct (m <? _); [discriminate|].
      replace (p ++ String "0" s)%string with ((p ++ "0") ++ s)%string by (rewrite sapp_assoc; reflexivity).
      eapply IH; [|exact H]. rewrite N.add_0_r. constructor. assumption.
    + destruct (Ascii.eqb_spec c "1") as [->|]; [|discriminate].
      destruct (m <? _); [discriminate|].
      replace (p ++ String "1" s)%string with ((p ++ "1") ++ s)%string by (rewrite sapp_assoc; reflexivity).
      eapply IH; [|exact H]. constructor. assumption.
Qed.

Lemma pu_loop_of_binary m s n : 1 <= m -> binary s n ->
  s <> EmptyString /\ ((n <= m -> pu_loop m 0 s = (n, true)) /\ (m < n -> snd (pu_loop m 0 s) = false)).
Proof.
  intros Hm. induction 1 as [| |s n H [Hn [IH1 IH2]]|s n H [Hn [IH1 IH2]]].
  - split; [discriminate|]. split; [|lia]. intros _. rewrite pu_loop_cons, ?pu_loop_nil; cbn [Ascii.eqb Bool.eqb].
    destruct (N.ltb_spec m (2 * 0 + 0)); [lia|reflexivity].
  - split; [discriminate|]. split; [|lia]. intros _. rewrite pu_loop_cons, ?pu_loop_nil; cbn [Ascii.eqb Bool.eqb].
    destruct (N.ltb_spec m (2 * 0 + 1)); [lia|reflexivity].
  - split; [destruct s; discriminate|]. split; intros Hb; rewrite pu_loop_app.
    + rewrite IH1 by lia. rewrite pu_loop_cons, ?pu_loop_nil; cbn [Ascii.eqb Bool.eqb].
      destruct (N.ltb_spec m (2 * n + 0)); [lia|]. f_equal. lia.
    + destruct (N.le_gt_cases n m) as [Hc|Hc].
      * rewrite IH1 by assumption. rewrite pu_loop_cons, ?pu_loop_nil; cbn [Ascii.eqb Bool.eqb].
        destruct (N.ltb_spec m (2 * n + 0)); [reflexivity|lia].
      * specialize (IH2 Hc). destruct (pu_loop m 0 s) as [v ok]. cbn in IH2. subst ok. reflexivity.
  - split; [destruct s; discriminate|]. split; intros Hb; rewrite pu_loop_app.
    + rewrite IH1 by lia. rewrite pu_loop_cons, ?pu_loop_nil; cbn [Ascii.eqb Bool.eqb].
      destruct (N.ltb_spec m (2 * n + 1)); [lia|]. f_equal.
    + destruct (N.le_gt_cases n m) as [Hc|Hc].
      * rewrite IH1 by assumption. rewrite pu_loop_cons, ?pu_loop_nil; cbn [Ascii.eqb Bool.eqb].
        destruct (N.ltb_spec m (2 * n + 1)); [reflexivity|lia].
      * specialize (IH2 Hc). destruct (pu_loop m 0 s) as [v ok]. cbn in IH2. subst ok. reflexivity.
Qed.

Lemma pu_loop_le m s : forall a v, a <= m -> pu_loop m a s = (v, true) -> v <= m.
Proof.
  induction s as [|c s IH]; intros a v Ha H; rewrite ?pu_loop_cons, ?pu_loop_nil in H.
  - inversion H. subst. assumption.
  - destruct (Ascii.eqb c "0").
    + destruct (N.ltb_spec m (2 * a + 0)); [discriminate|]. eapply IH; eassumption.
    + destruct (Ascii.eqb c "1"); [|discriminate].
      destruct (N.ltb_spec m (2 * a + 1)); [discriminate|]. eapply IH; eassumption.
Qed.

Lemma parse_flags_spec s n : parse_flags s = Ok n <-> binary s n /\ n < 256.
Proof.
  unfold parse_flags, parse_uint2. split.
  - destruct s as [|c s]; [discriminate|]. intros H.
    destruct (pu_loop 255 0 (String c s)) as [v ok] eqn:E. destruct ok; [|discriminate].
    inversion H. subst v. split.
    + rewrite pu_loop_cons in E. destruct (Ascii.eqb_spec c "0") as [->|].
      * destruct (255 <? 2 * 0 + 0); [discriminate|]. apply (pu_loop_binary 255 s "0" _ n bin_0 E).
      * destruct (Ascii.eqb_spec c "1") as [->|]; [|discriminate].
        destruct (255 <? 2 * 0 + 1); [discriminate|]. apply (pu_loop_binary 255 s "1" _ n bin_1 E).
    + apply pu_loop_le in E; lia.
  - intros [H Hn]. destruct (pu_loop_of_binary 255 s n ltac:(lia) H) as (Hs & H1 & _).
    destruct s; [congruence|]. rewrite H1 by lia. reflexivity.
Qed.

Lemma parse_flags_total s : (exists n, parse_flags s = Ok n) \/ parse_flags s = Err.
Proof. unfold parse_flags. destruct (parse_uint2 255 s) as [v [|]]; eauto. Qed.

Lemma parse_flags_malformed s : malformed s -> parse_flags s = Err.
Proof.
  intros H. destruct (parse_flags_total s) as [[n Hn]|Hn]; [|assumption].
  apply parse_flags_spec in Hn. destruct Hn as [Hb Hn]. specialize (H n Hb). lia.
Qed.

(** Uniqueness of the denoted number. *)
Lemma binary_fun s n m : binary s n -> binary s m -> n = m.
Proof.
  intros Hn Hm. pose (k := N.max 1 (N.max n m)).
  destruct (pu_loop_of_binary k s n ltac:(lia) Hn) as (_ & H1 & _).
  destruct (pu_loop_of_binary k s m ltac:(lia) Hm) as (_ & H2 & _).
  specialize (H1 ltac:(lia)). specialize (H2 ltac:(lia)). congruence.
Qed.

(** ** Analog sensors *)

Lemma rbind_inv {A B} (x : option (A * bytes)) (f : A -> bytes -> res B) b :
  rbind x f = Ok b -> exists a r, x = Some (a, r) /\ f a r = Ok b.
Proof. destruct x as [[a r]|]; [|discriminate]. eauto. Qed.

Lemma bind_inv {A B} (x : res A) (f : A -> res B) b : bind x f = Ok b -> exists a, x = Ok a /\ f a = Ok b.
Proof. destruct x; try discriminate. eauto. Qed.

Lemma ad_decode_flags e0 f o a r e : SrAdSensorsData_decode e0 (f :: o :: a :: r) = Ok e ->
  [ad_ASFE8 e; ad_ASFE7 e; ad_ASFE6 e; ad_ASFE5 e; ad_ASFE4 e; ad_ASFE3 e; ad_ASFE2 e; ad_ASFE1 e]
  = map (fun i => slice i (S i) (sprintf_b 8 a)) [0; 1; 2; 3; 4; 5; 6; 7]%nat.
Proof.
  unfold SrAdSensorsData_decode. rewrite rd_byte_cons, rbind_some, rd_byte_cons, rbind_some, rd_byte_cons, rbind_some.
  intros H.
  do 16 (apply rbind_inv in H; destruct H as (? & ? & _ & H);
         try match type of H with context [let (_, _) := ?x in _] => destruct x end).
  inversion H. reflexivity.
Qed.

Lemma ad_round_trip_iff e e0 : wf_ad e -> abs_ad e0 e ->
  (exists b, SrAdSensorsData_encode e = Ok b /\ SrAdSensorsData_decode e0 b = Ok e) <-> palin_ad e.
Proof.
  intros Hw Ha. split.
  - intros (b & He & Hd). destruct e. destruct Hw. cbn in *. unf. split_opts. split_flags.
    unfold SrAdSensorsData_encode in He. cbn in He.
    rewrite !parse_flags_8, !bind_ok, !u8_num8 in He. inversion He. subst b. clear He.
    apply ad_decode_flags in Hd. cbn [map] in Hd.
    rewrite sprintf_num8 in Hd. autorewrite with go in Hd.
    unfold palin_ad. cbn in *. injection Hd; intros; unfold bit_str; repeat split; congruence.
  - intros Hp. exists (lay_ad e). split; [apply ad_encode; assumption|].
    rewrite <- (app_nil_r (lay_ad e)). apply ad_decode; assumption.
Qed.

(** ** Counters: what the second counter does to the first *)

Definition cd_clobbered (e0 e : SrCountersData) : SrCountersData :=
  if is1 (cd_CFE2 e)
  then mkSrCountersData (cd_CFE1 e) (cd_CFE2 e) (cd_CFE3 e) (cd_CFE4 e) (cd_CFE5 e) (cd_CFE6 e) (cd_CFE7 e) (cd_CFE8 e)
         (cd_CN2 e) (cd_CN2 e0) (cd_CN3 e) (cd_CN4 e) (cd_CN5 e) (cd_CN6 e) (cd_CN7 e) (cd_CN8 e)
  else e.

Lemma cd_decode_full e0 e r : wf_cd e -> abs_cd e0 e ->
  SrCountersData_decode e0 (lay_cd e ++ r) = Ok (cd_clobbered e0 e).
Proof.
  intros Hw Ha. unfold cd_clobbered. destruct Hw as [? [H2 ?] ? ? ? ? ? ?] eqn:Ew. clear Ew.
  destruct H2 as [H2|H2].
  - rewrite H2. apply cd_decode; assumption.
  - rewrite H2. change (is1 "1") with true. cbv iota.
    destruct e. destruct Hw as [? ? ? ? ? ? ? ?], Ha as [? ? ? ? ? ? ? ?].
    unfold SrCountersData_decode, lay_cd. cbn in *. unf. split_opts. subst cd_CFE2.
    split_flags. change "1"%string with (bit_str true).
    flag_layout. norm_app.
    rewrite rd_byte_cons, rbind_some. autorewrite with go.
    rewrite opt_num_tmp with (k := 3%nat); [rewrite rbind_some|lia|auto 10 using tmp_length|intros ->; auto].
    rewrite opt_num_tmp with (k := 3%nat); [rewrite rbind_some|lia|auto 10 using tmp_length|intros _; auto].
    do 6 (rewrite opt_num_tmp with (k := 3%nat); [rewrite rbind_some|lia|auto 10 using tmp_length|intros ->; auto]).
    rewrite !if_absent by assumption. reflexivity.
Qed.

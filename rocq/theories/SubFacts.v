(** Layout and round-trip lemmas for the subrecord codecs, except the coordinates and time
    of the position subrecord (see PosFacts). *)
From Coq Require Import NArith ZArith Lia ZifyBool ZifyNat ZifyN String Bool List.
From Verif Require Import GoBase GoFloat SubRecords SpecBase SpecSub BaseFacts.
Import ListNotations.
Open Scope N_scope.
Open Scope go_scope.

Local Opaque le16 le24 le32 le_bytes chars bytes_of_string.

Lemma is_flag_ex s : is_flag s -> exists b, s = bit_str b.
Proof. intros H. eexists. apply is_flag_bit. exact H. Qed.

Ltac split_flags :=
  repeat match goal with
  | H : is_flag ?x |- _ => is_var x; let b := fresh "b" in
      apply is_flag_ex in H; destruct H as [b H]; subst x
  | H : is_flag2 ?x |- _ => is_var x; let b := fresh "b" in let c := fresh "b" in
      apply is_flag2_bits in H; destruct H as [b [c H]]; subst x
  end.

Lemma bit_str_1 b : bit_str b = "1"%string -> b = true.
Proof. destruct b; [reflexivity|discriminate]. Qed.
Lemma bit_str_0 b : bit_str b = "0"%string -> b = false.
Proof. destruct b; [discriminate|reflexivity]. Qed.

Lemma bind_ok {A B} (a : A) (f : A -> res B) : bind (Ok a) f = f a.
Proof. reflexivity. Qed.
Lemma rbind_some {A B} (a : A) r (f : A -> bytes -> res B) : rbind (Some (a, r)) f = f a r.
Proof. reflexivity. Qed.
Lemma rd_byte_cons b r : rd_byte (b :: r) = Some (b, r).
Proof. reflexivity. Qed.
Lemma rd_byte_one b r : rd_byte ([b] ++ r) = Some (b, r).
Proof. reflexivity. Qed.

Lemma parse_uint2_str8 a b c d e f g h :
  parse_uint2 255 (str8 a b c d e f g h) = (num8 a b c d e f g h, true).
Proof.
  rewrite <- bits_num8. rewrite parse_uint2_bits; [|lia|]; change (2 ^ N.of_nat 8) with 256;
  pose proof (num8_lt a b c d e f g h); [f_equal|]; lia.
Qed.

(** The concatenations the encoders parse. *)
Lemma parse_flags_8 a b c d e f g h :
  parse_flags (bit_str a ++ bit_str b ++ bit_str c ++ bit_str d ++ bit_str e ++ bit_str f ++ bit_str g ++ bit_str h)
  = Ok (num8 a b c d e f g h).
Proof. apply parse_flags_str8. Qed.
Lemma parse_uint2_8 a b c d e f g h :
  parse_uint2 255 (bit_str a ++ bit_str b ++ bit_str c ++ bit_str d ++ bit_str e ++ bit_str f ++ bit_str g ++ bit_str h)
  = (num8 a b c d e f g h, true).
Proof. apply parse_uint2_str8. Qed.
Lemma parse_flags_5 a b c d e :
  parse_flags ("000" ++ bit_str a ++ bit_str b ++ bit_str c ++ bit_str d ++ bit_str e)
  = Ok (num8 false false false a b c d e).
Proof. apply (parse_flags_str8 false false false). Qed.
Lemma parse_flags_3 a b c :
  parse_flags ("00000" ++ bit_str a ++ bit_str b ++ bit_str c) = Ok (num8 false false false false false a b c).
Proof. apply (parse_flags_str8 false false false false false). Qed.

(** The flag bytes of the layouts. *)
Lemma sum8 a b c d e f g h : 128 * N.b2n a + 64 * N.b2n b + 32 * N.b2n c + 16 * N.b2n d
  + 8 * N.b2n e + 4 * N.b2n f + 2 * N.b2n g + N.b2n h = num8 a b c d e f g h.
Proof. reflexivity. Qed.
Lemma sum5 d e f g h : 16 * N.b2n d + 8 * N.b2n e + 4 * N.b2n f + 2 * N.b2n g + N.b2n h
  = num8 false false false d e f g h.
Proof. unfold num8; cbn [N.b2n]; lia. Qed.
Lemma sum3 f g h : 4 * N.b2n f + 2 * N.b2n g + N.b2n h = num8 false false false false false f g h.
Proof. unfold num8; cbn [N.b2n]; lia. Qed.

Lemma u8_num8 a b c d e f g h : u8 (num8 a b c d e f g h) = num8 a b c d e f g h.
Proof. apply u8_small, num8_lt. Qed.

Lemma slice_01 a b c d e f g h : slice 0 1 (str8 a b c d e f g h) = bit_str a. Proof. reflexivity. Qed.
Lemma slice_12 a b c d e f g h : slice 1 2 (str8 a b c d e f g h) = bit_str b. Proof. reflexivity. Qed.
Lemma slice_23 a b c d e f g h : slice 2 3 (str8 a b c d e f g h) = bit_str c. Proof. reflexivity. Qed.
Lemma slice_34 a b c d e f g h : slice 3 4 (str8 a b c d e f g h) = bit_str d. Proof. reflexivity. Qed.
Lemma slice_45 a b c d e f g h : slice 4 5 (str8 a b c d e f g h) = bit_str e. Proof. reflexivity. Qed.
Lemma slice_56 a b c d e f g h : slice 5 6 (str8 a b c d e f g h) = bit_str f. Proof. reflexivity. Qed.
Lemma slice_67 a b c d e f g h : slice 6 7 (str8 a b c d e f g h) = bit_str g. Proof. reflexivity. Qed.
Lemma slice_78 a b c d e f g h : slice 7 8 (str8 a b c d e f g h) = bit_str h. Proof. reflexivity. Qed.
#[export] Hint Rewrite slice_01 slice_12 slice_23 slice_34 slice_45 slice_56 slice_67 slice_78
  is1_bit sprintf_num8 : go.

(** Optional numeric fields, fresh or shared buffer. *)
Lemma opt_num (p : bool) stale k v r : (0 < k)%nat -> (p = true -> v < 256 ^ N.of_nat k) ->
  opt_rd p stale (rd_num k) (put p (le_bytes k v) ++ r) = Some (if p then v else stale, r).
Proof. intros Hk Hv. apply opt_rd_put. intros Hp. apply rd_num_app; auto. Qed.

Lemma opt_num_tmp (p : bool) stale tmp k v r : (0 < k)%nat -> length tmp = k -> (p = true -> v < 256 ^ N.of_nat k) ->
  opt_rd p (stale, tmp) (rd_num_tmp tmp) (put p (le_bytes k v) ++ r)
  = Some ((if p then v else stale, if p then le_bytes k v else tmp), r).
Proof.
  intros Hk Ht Hv. destruct p; unfold opt_rd, put; auto.
  rewrite (rd_num_tmp_app k); auto.
Qed.

Lemma opt_byte (p : bool) stale v r :
  opt_rd p stale rd_byte (put p [v] ++ r) = Some (if p then v else stale, r).
Proof. apply opt_rd_put. reflexivity. Qed.

Lemma opt_str (p : bool) stale k v r : (0 < k)%nat -> (p = true -> String.length v = k) ->
  opt_rd p stale (rd_str k) (put p (bytes_of_string v) ++ r) = Some (if p then v else stale, r).
Proof. intros Hk Hv. apply opt_rd_put. intros Hp. apply rd_str_app; auto. Qed.

Lemma opt_raw (p : bool) stale k v r : (0 < k)%nat -> (p = true -> length v = k) ->
  opt_rd p stale (rd_into (zeros k)) (put p v ++ r) = Some (if p then v else stale, r).
Proof.
  intros Hk Hv. apply opt_rd_put. intros Hp. apply rd_into_app.
  - rewrite zeros_length. auto.
  - specialize (Hv Hp). destruct v; simpl in *; [lia|discriminate].
Qed.

Lemma tmp_length (p : bool) k v tmp : length tmp = k -> length (if p then le_bytes k v else tmp) = k.
Proof. destruct p; auto using le_bytes_length. Qed.

Lemma if_absent {A} (b : bool) (v v0 : A) : (bit_str b = "0"%string -> v = v0) ->
  (if b then v else v0) = v.
Proof. destruct b; auto. intros H. symmetry. apply H. reflexivity. Qed.

Ltac norm_app := repeat (first [rewrite <- app_assoc | rewrite <- app_comm_cons | rewrite app_nil_l]).

Ltac reads := repeat (norm_app;
  first [rewrite rd_byte_cons | rewrite rd_num_app by (auto; lia) | rewrite rd_cstr_app by assumption];
  rewrite rbind_some).

Ltac flag_layout :=
  rewrite ?le32_eq, ?le24_eq, ?le16_eq, ?opt_eq, ?fl_eq, ?chars_eq, ?is1_bit, ?fl2_bits;
  rewrite ?sum8, ?sum5, ?sum3.

Ltac unf := unfold is_u8, is_u16, is_u24, is_u32, wf_opt, abs_opt in *.

(** ** Record response, result code *)

Lemma response_encode e : SrResponse_encode e = Ok (lay_response e).
Proof. unfold lay_response. rewrite le16_eq. reflexivity. Qed.

Lemma result_encode e : SrResultCode_encode e = Ok (lay_result e).
Proof. reflexivity. Qed.

Lemma result_decode e r : SrResultCode_decode (lay_result e ++ r) = Ok e.
Proof. destruct e. reflexivity. Qed.

(** ** Terminal identity *)

Lemma ti_encode e : wf_ti e -> SrTermIdentity_encode e = Ok (lay_ti e).
Proof.
  destruct e. intros [? ? ? ? ? ? ? ? ? ? ? ? ? ? ? ?].
  unfold SrTermIdentity_encode, lay_ti. cbn in *. split_flags.
  flag_layout.
  rewrite parse_uint2_8.
  cbn [fst]. rewrite u8_num8. reflexivity.
Qed.

Lemma ti_decode e0 e r : wf_ti e -> abs_ti e0 e -> SrTermIdentity_decode e0 (lay_ti e ++ r) = Ok e.
Proof.
  destruct e. intros [? ? ? ? ? ? ? ? ? ? ? ? ? ? ? ?] [? ? ? ? ? ? ?].
  unfold SrTermIdentity_decode, lay_ti. cbn in *. unf. split_flags.
  flag_layout. norm_app.
  rewrite rd_num_app by (auto; lia). rewrite rbind_some.
  rewrite rd_byte_cons. rewrite rbind_some.
  autorewrite with go.
  rewrite opt_num; [|lia|intros ->; auto]. rewrite rbind_some.
  rewrite opt_str; [|lia|intros ->; auto]. rewrite rbind_some.
  rewrite opt_str; [|lia|intros ->; auto]. rewrite rbind_some.
  rewrite opt_str; [|lia|intros ->; auto]. rewrite rbind_some.
  rewrite opt_raw; [|lia|intros ->; destruct wti_NID; auto]. rewrite rbind_some.
  rewrite opt_num; [|lia|intros ->; auto]. rewrite rbind_some.
  rewrite opt_str; [|lia|intros ->; auto]. rewrite rbind_some.
  rewrite !if_absent by assumption. reflexivity.
Qed.

(** ** Module data *)

Lemma byte_int8 z : (-128 <= z <= 127)%Z ->
  byte_of_int8 z = Z.to_N (if (z <? 0)%Z then (z + 256)%Z else z).
Proof. unfold byte_of_int8. intros H. destruct (Z.ltb_spec z 0); f_equal; lia. Qed.

Lemma int8_byte z : (-128 <= z <= 127)%Z -> int8_of_byte (byte_of_int8 z) = z.
Proof.
  intros H. unfold int8_of_byte, byte_of_int8. destruct (N.ltb_spec (Z.to_N (z mod 256)) 128); lia.
Qed.

Lemma md_encode e : wf_md e -> SrModuleData_encode e = Ok (lay_md e).
Proof.
  destruct e. intros [? ? ? ? ? ? ? ?]. unfold SrModuleData_encode, lay_md. cbn in *.
  flag_layout. rewrite byte_int8 by assumption. reflexivity.
Qed.

Lemma md_decode e r : wf_md e -> SrModuleData_decode (lay_md e ++ r) = Ok e.
Proof.
  destruct e. intros [? ? ? ? ? ? ? ?]. unfold SrModuleData_decode, lay_md. cbn in *. unf.
  flag_layout. norm_app. rewrite <- byte_int8 by assumption. reads.
  rewrite int8_byte by assumption. reflexivity.
Qed.

(** ** Dispatcher identity *)

Lemma di_encode e : SrDispatcherIdentity_encode e = Ok (lay_di e).
Proof. unfold SrDispatcherIdentity_encode, lay_di. flag_layout. reflexivity. Qed.

Lemma di_decode e : wf_di e -> SrDispatcherIdentity_decode (lay_di e) = Ok e.
Proof.
  destruct e. intros [? ?]. unfold SrDispatcherIdentity_decode, lay_di. cbn in *. unf.
  flag_layout. reads. rewrite string_bytes. reflexivity.
Qed.

(** ** Authentication *)

Lemma ai_encode e : SrAuthInfo_encode e = Ok (lay_ai e).
Proof.
  unfold SrAuthInfo_encode, lay_ai. rewrite !chars_eq.
  destruct (string_dec (ai_SS e) "") as [->|H]; [reflexivity|].
  apply String.eqb_neq in H. rewrite H. reflexivity.
Qed.

Lemma ai_decode e0 e : wf_ai e -> (ai_SS e = ""%string -> ai_SS e0 = ""%string) ->
  SrAuthInfo_decode e0 (lay_ai e) = Ok e.
Proof.
  destruct e. intros (? & ? & ?) Ha. unfold SrAuthInfo_decode, lay_ai. cbn in *.
  rewrite !chars_eq. cbn [app].
  rewrite rd_cstr_app by assumption. rewrite rbind_some.
  rewrite rd_cstr_app by assumption. rewrite rbind_some.
  destruct (string_dec ai_SS "") as [->|Hs].
  - cbn. rewrite Ha by reflexivity. reflexivity.
  - replace (len (bytes_of_string ai_SS ++ [0]) =? 0) with false
      by (symmetry; apply N.eqb_neq; rewrite len_app; unfold len at 2; simpl length; lia).
    unfold opt_rd. cbn [negb]. rewrite rd_cstr_app by assumption. reflexivity.
Qed.

(** ** Extended position *)

Lemma ext_encode e : wf_ext e -> SrExtPosData_encode e = Ok (lay_ext e).
Proof.
  destruct e. intros [? ? ? ? ? ? ? ? ? ?]. unfold SrExtPosData_encode, lay_ext.
  cbn in *. split_flags.
  rewrite parse_flags_5. rewrite bind_ok.
  flag_layout. rewrite u8_num8. reflexivity.
Qed.

Lemma ext_decode e0 e r : wf_ext e -> abs_ext e0 e -> SrExtPosData_decode e0 (lay_ext e ++ r) = Ok e.
Proof.
  destruct e. intros [? ? ? ? ? ? ? ? ? ?] [? ? ? ? ?]. unfold SrExtPosData_decode, lay_ext.
  cbn in *. unf. split_flags.
  flag_layout. reads.
  autorewrite with go.
  rewrite opt_num_tmp with (k := 2%nat); [|lia|reflexivity|intros ->; auto]. rewrite rbind_some.
  rewrite opt_num_tmp with (k := 2%nat); [|lia|auto using tmp_length|intros ->; auto]. rewrite rbind_some.
  rewrite opt_num_tmp with (k := 2%nat); [|lia|auto using tmp_length|intros ->; auto]. rewrite rbind_some.
  rewrite opt_byte. rewrite rbind_some.
  rewrite opt_num_tmp with (k := 2%nat); [|lia|auto using tmp_length|intros ->; auto]. rewrite rbind_some.
  rewrite !if_absent by assumption. reflexivity.
Qed.

(** ** Analog and digital sensors *)

(** What Encode really writes: the analog flag byte reversed. *)
Definition rev_ad (e : SrAdSensorsData) : SrAdSensorsData :=
  mkSrAdSensorsData (ad_DIOE1 e) (ad_DIOE2 e) (ad_DIOE3 e) (ad_DIOE4 e) (ad_DIOE5 e) (ad_DIOE6 e) (ad_DIOE7 e) (ad_DIOE8 e)
    (ad_DOUT e)
    (ad_ASFE8 e) (ad_ASFE7 e) (ad_ASFE6 e) (ad_ASFE5 e) (ad_ASFE4 e) (ad_ASFE3 e) (ad_ASFE2 e) (ad_ASFE1 e)
    (ad_ADIO1 e) (ad_ADIO2 e) (ad_ADIO3 e) (ad_ADIO4 e) (ad_ADIO5 e) (ad_ADIO6 e) (ad_ADIO7 e) (ad_ADIO8 e)
    (ad_ANS1 e) (ad_ANS2 e) (ad_ANS3 e) (ad_ANS4 e) (ad_ANS5 e) (ad_ANS6 e) (ad_ANS7 e) (ad_ANS8 e).

Ltac split_opts :=
  repeat match goal with H : is_flag _ /\ _ |- _ => destruct H end.

Lemma ad_encode e : wf_ad e -> palin_ad e -> SrAdSensorsData_encode e = Ok (lay_ad e).
Proof.
  destruct e. intros [? ? ? ? ? ? ? ? ? ? ? ? ? ? ? ? ?] (H1 & H2 & H3 & H4).
  unfold SrAdSensorsData_encode, lay_ad.
  cbn in *. unf. split_opts.
  subst ad_ASFE1 ad_ASFE2 ad_ASFE3 ad_ASFE4.
  split_flags. flag_layout. rewrite !parse_flags_8, !bind_ok, !u8_num8. reflexivity.
Qed.

Lemma ad_decode e0 e r : wf_ad e -> abs_ad e0 e -> SrAdSensorsData_decode e0 (lay_ad e ++ r) = Ok e.
Proof.
  destruct e. intros [? ? ? ? ? ? ? ? ? ? ? ? ? ? ? ? ?] [? ? ? ? ? ? ? ? ? ? ? ? ? ? ? ?].
  unfold SrAdSensorsData_decode, lay_ad. cbn in *. unf. split_opts. split_flags.
  flag_layout. norm_app.
  rewrite rd_byte_cons, rbind_some, rd_byte_cons, rbind_some, rd_byte_cons, rbind_some.
  autorewrite with go.
  do 8 (rewrite opt_byte, rbind_some).
  do 8 (rewrite opt_num_tmp with (k := 3%nat); [rewrite rbind_some|lia|auto 10 using tmp_length|intros ->; auto]).
  rewrite !if_absent by assumption. reflexivity.
Qed.

(** ** Counters *)

Lemma cd_encode e : wf_cd e -> SrCountersData_encode e = Ok (lay_cd e).
Proof.
  destruct e. intros [? ? ? ? ? ? ? ?].
  unfold SrCountersData_encode, lay_cd. cbn in *. unf. split_opts. split_flags.
  flag_layout. rewrite !parse_flags_8, !bind_ok, !u8_num8. reflexivity.
Qed.

Lemma cd_decode e0 e r : wf_cd e -> abs_cd e0 e -> cd_CFE2 e = "0"%string ->
  SrCountersData_decode e0 (lay_cd e ++ r) = Ok e.
Proof.
  destruct e. intros [? ? ? ? ? ? ? ?] [? ? ? ? ? ? ? ?] H2.
  unfold SrCountersData_decode, lay_cd. cbn in *. unf. split_opts. subst cd_CFE2.
  split_flags. change "0"%string with (bit_str false).
  flag_layout. norm_app.
  rewrite rd_byte_cons, rbind_some. autorewrite with go.
  rewrite opt_num_tmp with (k := 3%nat); [rewrite rbind_some|lia|auto 10 using tmp_length|intros ->; auto].
  unfold opt_rd at 1. rewrite rbind_some.
  do 6 (rewrite opt_num_tmp with (k := 3%nat); [rewrite rbind_some|lia|auto 10 using tmp_length|intros ->; auto]).
  rewrite !if_absent by assumption. rewrite <- acd_2 by reflexivity. reflexivity.
Qed.

(** ** State *)

Lemma sd_encode e : wf_sd e -> SrStateData_encode e = Ok (lay_sd e).
Proof.
  destruct e. intros [? ? ? ? ? ? ?]. unfold SrStateData_encode, lay_sd. cbn in *. split_flags.
  flag_layout. rewrite parse_flags_3, bind_ok, u8_num8. reflexivity.
Qed.

Lemma sd_decode e r : wf_sd e -> SrStateData_decode (lay_sd e ++ r) = Ok e.
Proof.
  destruct e. intros [? ? ? ? ? ? ?]. unfold SrStateData_decode, lay_sd. cbn in *. split_flags.
  flag_layout. do 5 rewrite rd_byte_cons, rbind_some.
  autorewrite with go. reflexivity.
Qed.

(** ** Liquid level *)

Lemma small8 n : n < 8 -> n = 4 * N.b2n (N.testbit n 2) + 2 * N.b2n (N.testbit n 1) + N.b2n (N.testbit n 0).
Proof.
  intros H. assert (n = 0 \/ n = 1 \/ n = 2 \/ n = 3 \/ n = 4 \/ n = 5 \/ n = 6 \/ n = 7) as Hn by lia.
  destruct Hn as [->|[->|[->|[->|[->|[->|[->| ->]]]]]]]; reflexivity.
Qed.

Lemma sprintf_3 n : n < 8 -> sprintf_b 3 n
  = String (bit_char (N.testbit n 2)) (String (bit_char (N.testbit n 1)) (String (bit_char (N.testbit n 0)) "")).
Proof. intros H. rewrite sprintf_b_small by assumption. reflexivity. Qed.

Lemma sum_ll a b c d n : n < 8 ->
  64 * N.b2n a + 16 * (2 * N.b2n b + N.b2n c) + 8 * N.b2n d + n
  = num8 false a b c d (N.testbit n 2) (N.testbit n 1) (N.testbit n 0).
Proof.
  intros H. rewrite (small8 n H) at 1. unfold num8. cbn [N.b2n]. lia.
Qed.

Lemma ll_encode e : wf_ll e -> SrLiquidLevelSensor_encode e = Ok (lay_ll e).
Proof.
  destruct e. intros [? ? ? ? ? ?]. unfold SrLiquidLevelSensor_encode, lay_ll. cbn in *. split_flags.
  rewrite sprintf_3 by assumption. flag_layout. rewrite sum_ll by assumption.
  match goal with |- context [num8 ?a ?b ?c ?d ?e ?f ?g ?h] =>
    match goal with |- bind ?x _ = _ => change x with (parse_flags (str8 a b c d e f g h)) end end.
  rewrite parse_flags_str8, bind_ok, u8_num8. reflexivity.
Qed.

Lemma ll_decode e r : wf_ll e -> SrLiquidLevelSensor_decode (lay_ll e ++ r) = Ok e.
Proof.
  destruct e. intros [? ? ? ? ? ?]. unfold SrLiquidLevelSensor_decode, lay_ll. cbn in *. unf. split_flags.
  flag_layout. rewrite sum_ll by assumption. reads. autorewrite with go.
  match goal with |- context [parse_flags (slice 5 8 (str8 _ _ _ _ _ ?f ?g ?h))] =>
    change (parse_flags (slice 5 8 _)) with (parse_flags (bits_str 3 ll_LLSN)) end.
  unfold parse_flags. rewrite parse_uint2_bits; [|lia|change (2 ^ N.of_nat 3) with 8; lia].
  rewrite bind_ok. change (2 ^ N.of_nat 3) with 8. rewrite N.mod_small by assumption.
  reads. rewrite u8_small by lia. reflexivity.
Qed.

(** ** Absolute counters and analog sensors *)

Lemma ac_encode e : SrAbsCntrData_encode e = Ok (lay_ac e).
Proof. unfold SrAbsCntrData_encode, lay_ac. flag_layout. reflexivity. Qed.

Lemma ac_decode e r : wf_ac e -> SrAbsCntrData_decode (lay_ac e ++ r) = Ok e.
Proof.
  destruct e. intros [? ?]. unfold SrAbsCntrData_decode, lay_ac. cbn in *. unf. flag_layout. reads. reflexivity.
Qed.

Local Transparent le24.

Lemma aa_encode e : SrAbsAnSensData_encode e = Ok (lay_aa e).
Proof.
  unfold SrAbsAnSensData_encode, lay_aa, le24. rewrite !N.shiftr_div_pow2. reflexivity.
Qed.

Lemma aa_decode e r : wf_aa e -> SrAbsAnSensData_decode (lay_aa e ++ r) = Ok e.
Proof.
  destruct e as [sn v]. intros [H1 H2]. unfold SrAbsAnSensData_decode, lay_aa, le24. cbn in *. unf.
  rewrite !len_cons. destruct (N.ltb_spec (1 + (1 + (1 + (1 + len r)))) 4) as [H|H]; [lia|].
  do 2 f_equal. rewrite N.shiftr_div_pow2. unfold le_num. change (2 ^ 8) with 256. lia.
Qed.

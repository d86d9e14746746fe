(** Lemmas about the position subrecord. *)
From Coq Require Import NArith ZArith Lia ZifyBool ZifyNat ZifyN String Bool List.
From Verif Require Import GoBase GoFloat SubRecords SpecBase SpecSub BaseFacts SubFacts FloatFacts.
Import ListNotations.
Open Scope N_scope.
Open Scope go_scope.

Ltac Zify.zify_post_hook ::= Z.div_mod_to_equations.
Local Opaque le16 le24 le32 le_bytes chars bytes_of_string.
#[global] Arguments coord_encode : simpl never.
#[global] Arguments coord_decode : simpl never.
#[global] Arguments ntm_encode : simpl never.
#[global] Arguments time_decode : simpl never.
#[global] Arguments secs2010 : simpl never.
#[global] Arguments Z.add : simpl never.
#[global] Arguments Z.mul : simpl never.
#[global] Arguments N.ldiff : simpl never.

Lemma land_pow2_small n k : n < 2 ^ k -> N.land n (2 ^ k) = 0.
Proof.
  intros H. apply N.bits_inj_0. intros i. rewrite N.land_spec, N.pow2_bits_eqb.
  destruct (N.eqb_spec k i) as [->|Hk]; [|apply andb_false_r].
  rewrite andb_true_r. destruct (N.eq_dec n 0) as [->|Hn]; [apply N.bits_0|].
  apply N.bits_above_log2. apply N.log2_lt_pow2; lia.
Qed.

Lemma lor_pow2 n k : n < 2 ^ k -> N.lor n (2 ^ k) = n + 2 ^ k.
Proof.
  intros H. pose proof (land_pow2_small n k H) as Hl.
  rewrite N.add_nocarry_lxor, N.lxor_lor by assumption. reflexivity.
Qed.

Lemma ldiff_pow2 n k : n < 2 ^ k -> N.ldiff (n + 2 ^ k) (2 ^ k) = n.
Proof.
  intros H. rewrite <- lor_pow2 by assumption. apply N.bits_inj. intros i.
  rewrite N.ldiff_spec, N.lor_spec, N.pow2_bits_eqb.
  destruct (N.eqb_spec k i) as [->|Hk].
  - rewrite orb_true_r. cbn. symmetry. destruct (N.eq_dec n 0) as [->|Hn]; [apply N.bits_0|].
    apply N.bits_above_log2. apply N.log2_lt_pow2; lia.
  - rewrite orb_false_r, andb_true_r. reflexivity.
Qed.

Lemma f64_to_u32_lt {E : Env} x : f64_to_u32 x < 4294967296.
Proof.
  unfold f64_to_u32. destruct (_ && _)%bool eqn:H; [|apply f64_u32_oor_ok].
  apply andb_true_iff in H. destruct H as [_ H]. lia.
Qed.

Lemma coord_encode_lt {E : Env} s x : coord_encode s x < 4294967296.
Proof. apply f64_to_u32_lt. Qed.
Lemma ntm_encode_lt {E : Env} t : ntm_encode t < 4294967296.
Proof. apply f64_to_u32_lt. Qed.

Lemma speed_word spd dirh alts : spd <= 1638 -> dirh < 2 -> alts < 2 ->
  N.lor (N.lor (u16 (spd * 10)) (u16 (N.shiftl dirh 15))) (u16 (N.shiftl alts 14))
  = 10 * spd + 16384 * alts + 32768 * dirh.
Proof.
  intros Hs Hd Ha. rewrite (u16_small (spd * 10)) by lia.
  assert (dirh = 0 \/ dirh = 1) as [-> | ->] by lia; assert (alts = 0 \/ alts = 1) as [-> | ->] by lia;
  rewrite ?N.shiftl_0_l; change (u16 0) with 0; change (u16 (N.shiftl 1 15)) with (2 ^ 15);
  change (u16 (N.shiftl 1 14)) with (2 ^ 14); rewrite ?N.lor_0_r.
  - lia.
  - rewrite lor_pow2 by (change (2 ^ 14) with 16384; lia). change (2 ^ 14) with 16384. lia.
  - rewrite lor_pow2 by (change (2 ^ 15) with 32768; lia). change (2 ^ 15) with 32768. lia.
  - rewrite <- N.lor_assoc, (N.lor_comm (2 ^ 15)), N.lor_assoc.
    rewrite (lor_pow2 (spd * 10) 14) by (change (2 ^ 14) with 16384; lia).
    rewrite lor_pow2 by (change (2 ^ 14) with 16384; change (2 ^ 15) with 32768; lia).
    change (2 ^ 14) with 16384; change (2 ^ 15) with 32768. lia.
Qed.

Lemma dir_byte dir dirh : dirh < 2 -> dir < 256 ->
  N.ldiff dir (u8 (N.shiftl dirh 7)) = if dirh =? 1 then dir mod 128 else dir.
Proof.
  intros Hd Hr. assert (dirh = 0 \/ dirh = 1) as [-> | ->] by lia.
  - rewrite N.shiftl_0_l. change (u8 0) with 0. rewrite N.ldiff_0_r. reflexivity.
  - change (u8 (N.shiftl 1 7)) with (2 ^ 7). change (1 =? 1) with true. cbv iota.
    destruct (N.lt_ge_cases dir 128) as [H|H].
    + rewrite N.mod_small by assumption. apply N.bits_inj. intros i.
      rewrite N.ldiff_spec, N.pow2_bits_eqb.
      destruct (N.eqb_spec 7 i) as [<-|Hk]; [|apply andb_true_r].
      rewrite andb_false_r. symmetry. destruct (N.eq_dec dir 0) as [->|Hn]; [apply N.bits_0|].
      apply N.bits_above_log2. apply N.log2_lt_pow2; [lia|]. exact H.
    + replace dir with ((dir - 128) + 2 ^ 7) at 1 by (change (2 ^ 7) with 128; lia).
      rewrite ldiff_pow2 by (change (2 ^ 7) with 128; lia). lia.
Qed.

Lemma pos_encode {E : Env} e : wf_pos e ->
  SrPosData_encode e = Ok (lay_pos (coord_encode 90 (pd_LAT e)) (coord_encode 180 (pd_LONG e)) e).
Proof.
  destruct e. intros [(n & Hn & Hntm) ? ? ? ? ? ? ? ? ? ? ? ? ? ? ? ?].
  unfold SrPosData_encode, lay_pos. cbn in *. unf. split_flags.
  flag_layout. rewrite parse_flags_8, bind_ok, u8_num8.
  rewrite speed_word, dir_byte by assumption.
  subst pd_NTM. rewrite ntm_encode_eq by assumption.
  replace (secs2010 ((1262304000 + Z.of_N n) * 1000000000)) with n
    by (unfold secs2010; rewrite Z.div_mul by lia; lia).
  norm_app. reflexivity.
Qed.

(** Decoding of arbitrary complete wire data. *)
Lemma slice_speed w : slice 2 16 (bits_str 16 w) = bits_str 14 w.
Proof. reflexivity. Qed.

Lemma dirh_div w : w < 65536 -> u8 (N.land (N.shiftr w 15) 1) = w / 32768.
Proof.
  intros H. rewrite N.shiftr_div_pow2. change 1 with (N.ones 1). rewrite N.land_ones.
  change (2 ^ 15) with 32768. change (2 ^ 1) with 2. unfold u8. lia.
Qed.

Lemma alts_div w : w < 65536 -> u8 (N.land (N.shiftr w 14) 1) = w / 16384 mod 2.
Proof.
  intros H. rewrite N.shiftr_div_pow2. change 1 with (N.ones 1). rewrite N.land_ones.
  change (2 ^ 14) with 16384. change (2 ^ 1) with 2. unfold u8. lia.
Qed.

Lemma shl7 d : d < 2 -> u8 (N.shiftl d 7) = 128 * d.
Proof. intros H. assert (d = 0 \/ d = 1) as [-> | ->] by lia; reflexivity. Qed.

Definition pos_of_raw (ntm lat lon flags w dir odm din src alt : N) : SrPosData :=
  mkSrPosData (time_decode ntm) (coord_decode 90 lat) (coord_decode 180 lon)
    (bit_str (N.testbit flags 7)) (bit_str (N.testbit flags 6)) (bit_str (N.testbit flags 5))
    (bit_str (N.testbit flags 4)) (bit_str (N.testbit flags 3)) (bit_str (N.testbit flags 2))
    (bit_str (N.testbit flags 1)) (bit_str (N.testbit flags 0))
    (w / 32768) (w / 16384 mod 2) (w mod 16384 / 10) (N.lor dir (128 * (w / 32768))) odm din src alt.

Lemma pos_decode_raw e0 ntm lat lon flags w dir odm din src t :
  ntm < 4294967296 -> lat < 4294967296 -> lon < 4294967296 -> flags < 256 -> w < 65536 -> dir < 256 ->
  odm < 16777216 ->
  SrPosData_decode e0 (le32 ntm ++ le32 lat ++ le32 lon ++ [flags] ++ le16 w ++ [dir] ++ le24 odm ++ [din; src] ++ t)
  = match opt_rd (N.testbit flags 7) (pd_ALT e0) (rd_num 4) t with
    | Some (alt, _) => Ok (pos_of_raw ntm lat lon flags w dir odm din src alt)
    | None => Err
    end.
Proof.
  intros Hn Hla Hlo Hf Hw Hd Ho. unfold SrPosData_decode. flag_layout.
  rewrite rd_num_tmp_app with (k := 4%nat) by (auto; lia). rewrite rbind_some.
  rewrite rd_num_tmp_app with (k := 4%nat) by (rewrite ?le_bytes_length; auto; lia). rewrite rbind_some.
  rewrite rd_num_tmp_app with (k := 4%nat) by (rewrite ?le_bytes_length; auto; lia). rewrite rbind_some.
  reads. rewrite sprintf_b_8 by assumption. rewrite bits8_str8. autorewrite with go.
  rewrite sprintf_b_small by assumption. rewrite slice_speed.
  rewrite parse_uint2_bits; [|lia|change (2 ^ N.of_nat 14) with 16384; lia].
  change (2 ^ N.of_nat 14) with 16384. cbn [negb]. reads.
  rewrite dirh_div, alts_div, shl7 by lia.
  unfold pos_of_raw. rewrite (u16_small (w mod 16384)) by lia.
  destruct (opt_rd _ _ _ t) as [[alt r]|]; reflexivity.
Qed.

Lemma rd_alt v : v < 16777216 -> rd_num 4 (le_bytes 3 v) = Some (v, []).
Proof.
  intros H. unfold rd_num, rd_into.
  pose proof (le_bytes_length 3 v) as Hl.
  destruct (le_bytes 3 v) as [|a l] eqn:He; [discriminate|]. rewrite <- He in *.
  rewrite zeros_length. rewrite firstn_all2 by lia. rewrite (@skipn_all2 _ 4 (le_bytes 3 v)) by lia.
  rewrite Hl. change (skipn 3 (zeros 4)) with [0]. rewrite le_num_app, le_num_le_bytes by assumption.
  change (le_num [0]) with 0. rewrite N.mul_0_r, N.add_0_r. reflexivity.
Qed.

Lemma num8_bits a b c d e f g h :
  N.testbit (num8 a b c d e f g h) 7 = a /\ N.testbit (num8 a b c d e f g h) 6 = b /\
  N.testbit (num8 a b c d e f g h) 5 = c /\ N.testbit (num8 a b c d e f g h) 4 = d /\
  N.testbit (num8 a b c d e f g h) 3 = e /\ N.testbit (num8 a b c d e f g h) 2 = f /\
  N.testbit (num8 a b c d e f g h) 1 = g /\ N.testbit (num8 a b c d e f g h) 0 = h.
Proof. destruct a, b, c, d, e, f, g, h; repeat split. Qed.

Lemma pos_decode {E : Env} e0 e rlat rlon : wf_pos e -> abs_pos e0 e ->
  rlat < 4294967296 -> rlon < 4294967296 ->
  SrPosData_decode e0 (lay_pos rlat rlon e)
  = Ok (set_coords (coord_decode 90 rlat) (coord_decode 180 rlon)
          (set_dir (if pd_DIRH e =? 1 then 128 + pd_DIR e mod 128 else pd_DIR e) e)).
Proof.
  destruct e. intros [(n & Hn & Hntm) ? ? ? ? ? ? ? ? ? ? ? ? ? ? ? ?] Ha Hla Hlo.
  unfold lay_pos. unfold abs_pos in Ha. cbn [SubRecords.pd_NTM SubRecords.pd_LAT SubRecords.pd_LONG SubRecords.pd_ALTE
    SubRecords.pd_LOHS SubRecords.pd_LAHS SubRecords.pd_MV SubRecords.pd_BB SubRecords.pd_CS SubRecords.pd_FIX
    SubRecords.pd_VLD SubRecords.pd_DIRH SubRecords.pd_ALTS SubRecords.pd_SPD SubRecords.pd_DIR SubRecords.pd_ODM
    SubRecords.pd_DIN SubRecords.pd_SRC SubRecords.pd_ALT] in *. unf. split_flags.
  subst pd_NTM.
  replace (secs2010 ((1262304000 + Z.of_N n) * 1000000000)) with n
    by (unfold secs2010; rewrite Z.div_mul by lia; lia).
  rewrite !fl_eq, !is1_bit, sum8.
  assert ((if pd_DIRH =? 1 then pd_DIR mod 128 else pd_DIR) < 256) by (destruct (pd_DIRH =? 1); lia).
  rewrite pos_decode_raw; auto using num8_lt; try lia.
  match goal with |- context [num8 ?a ?b ?c ?d ?e ?f ?g ?h] =>
    destruct (num8_bits a b c d e f g h) as (B7 & B6 & B5 & B4 & B3 & B2 & B1 & B0) end.
  rewrite B7. rewrite opt_eq, is1_bit, le24_eq.
  match goal with |- match ?x with _ => _ end = _ => replace x with (Some (pd_ALT, @nil N)) end.
  - unfold pos_of_raw, set_coords, set_dir. rewrite B7, B6, B5, B4, B3, B2, B1, B0. cbn.
    rewrite time_decode_eq by assumption.
    replace ((10 * pd_SPD + 16384 * pd_ALTS + 32768 * pd_DIRH) / 32768) with pd_DIRH by lia.
    replace ((10 * pd_SPD + 16384 * pd_ALTS + 32768 * pd_DIRH) / 16384 mod 2) with pd_ALTS by lia.
    replace ((10 * pd_SPD + 16384 * pd_ALTS + 32768 * pd_DIRH) mod 16384 / 10) with pd_SPD by lia.
    match goal with |- Ok (mkSrPosData _ _ _ _ _ _ _ _ _ _ _ _ _ _ ?x _ _ _ _) = Ok (mkSrPosData _ _ _ _ _ _ _ _ _ _ _ _ _ _ ?y _ _ _ _) =>
      replace x with y; [reflexivity|] end.
    assert (pd_DIRH = 0 \/ pd_DIRH = 1) as [-> | ->] by lia.
    + change (0 =? 1) with false. cbv iota. rewrite N.mul_0_r, N.lor_0_r. reflexivity.
    + change (1 =? 1) with true. cbv iota.
      change (128 * 1) with (2 ^ 7). rewrite lor_pow2 by (change (2 ^ 7) with 128; lia).
      change (2 ^ 7) with 128. lia.
  - match goal with |- context [opt_rd ?b] => destruct b end.
    + unfold opt_rd, put. rewrite rd_alt by (apply wpd_ALT; reflexivity). reflexivity.
    + unfold opt_rd, put. rewrite Ha by reflexivity. reflexivity.
Qed.

Lemma pos_dir_ok e : wf_pos e -> dir_ok e ->
  set_dir (if pd_DIRH e =? 1 then 128 + pd_DIR e mod 128 else pd_DIR e) e = e.
Proof.
  destruct e. intros [? ? ? ? ? ? ? ? ? ? ? ? Hd ? ? ? ?] H. unfold dir_ok, set_dir in *. cbn in *.
  f_equal. unf. destruct (N.eqb_spec pd_DIRH 1); [|reflexivity]. specialize (H e). lia.
Qed.

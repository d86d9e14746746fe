(** Round trip lemmas for subrecord sets and record sets. *)
From Coq Require Import NArith ZArith Lia ZifyBool ZifyNat ZifyN String Bool List.
From Verif Require Import GoBase GoFloat SubRecords Records SpecBase SpecSub SpecRec
  BaseFacts SubFacts FloatFacts PosFacts SubMore.
Import ListNotations.
Open Scope N_scope.
Open Scope go_scope.

Ltac Zify.zify_post_hook ::= Z.div_mod_to_equations.
Local Opaque le16 le24 le32 le_bytes chars bytes_of_string.

Lemma len_length (b : bytes) : len b = N.of_nat (length b).
Proof. reflexivity. Qed.

Lemma bind_ext' {A B} (x : res A) (f g : A -> res B) : (forall a, f a = g a) -> bind x f = bind x g.
Proof. intros H. destruct x; [apply H|..]; reflexivity. Qed.

Section WithEnv.
Context {E : Env}.

Lemma nil_r {A} (f : bytes -> A) (b : bytes) x : f (b ++ []) = x -> f b = x.
Proof. rewrite app_nil_r. auto. Qed.

(** ** Encoding of subrecords *)

Lemma travels_encode d t b d' : travels d t b d' -> sub_encode d = Ok b.
Proof.
  intros H. destruct H; cbn [sub_encode];
    auto using response_encode, ti_encode, md_encode, di_encode, ai_encode, result_encode, pos_encode,
      ext_encode, ad_encode, cd_encode, sd_encode, aa_encode, ac_encode, ll_encode.
  unfold StorageRecord_encode. rewrite H. reflexivity.
Qed.

Lemma travels_length d t b d' : travels d t b d' -> N.of_nat (length b) < 65536 ->
  sub_length d = Ok (N.of_nat (length b)).
Proof.
  intros H Hb. pose proof (travels_encode _ _ _ _ H) as He.
  assert (length_of (sub_encode d) = Ok (N.of_nat (length b))) as Hl.
  { rewrite He. unfold length_of. rewrite len_length, u16_small by assumption. reflexivity. }
  destruct H; try exact Hl.
Qed.

Lemma travels_auto d t b d' : travels d t b d' -> has_auto_code t -> auto_type (Some d) = Some t.
Proof.
  intros H (H2 & H5 & H20). destruct H; try reflexivity; congruence.
Qed.

Lemma sub_travels_encode r w r' : sub_travels r w r' -> rd_encode r = Ok w.
Proof.
  intros H. destruct H as [srt srl d t b d' Ht Hb Hsrt Hsrl]. unfold rd_encode. cbn [rd_SRT rd_SRL rd_SRD].
  replace (if srt =? 0 then match auto_type (Some d) with Some t0 => Ok t0 | None => Err end else Ok srt) with (@Ok N t).
  2: { destruct Hsrt as [->|[-> Ha]].
       - destruct (N.eqb_spec t 0) as [->|]; [|reflexivity].
         rewrite (travels_auto _ _ _ _ Ht); [reflexivity|]. repeat split; discriminate.
       - rewrite (travels_auto _ _ _ _ Ht Ha). reflexivity. }
  rewrite bind_ok.
  replace (if srl =? 0 then sub_length d else Ok srl) with (@Ok N (N.of_nat (length b))).
  2: { destruct Hsrl as [->| ->].
       - rewrite (travels_length _ _ _ _ Ht Hb). reflexivity.
       - destruct (N.of_nat (length b) =? 0) eqn:Hz; [|reflexivity].
         rewrite (travels_length _ _ _ _ Ht Hb). reflexivity. }
  cbn [bind]. rewrite (travels_encode _ _ _ _ Ht). cbn [bind]. rewrite le16_eq. reflexivity.
Qed.

Lemma subs_travel_encode l w l' : subs_travel l w l' -> rds_encode l = Ok w.
Proof.
  induction 1 as [|r w r' l wl l' Hr Hl IH]; [reflexivity|].
  cbn [rds_encode]. rewrite (sub_travels_encode _ _ _ Hr), bind_ok, IH. reflexivity.
Qed.

(** ** Decoding of subrecords *)

Lemma travels_decode rec d t b d' srl : rec [] = Ok [] -> travels d t b d' ->
  (t = 20 -> srl = 5) -> sub_decode rec t srl b = Some (Ok d').
Proof.
  intros Hrec H Hsrl. destruct H; unfold sub_decode; cbn [N.eqb Pos.eqb SrPosDataType SrTermIdentityType SrModuleDataType
    SrRecordResponseType SrResultCodeType SrExtPosDataType SrAdSensorsDataType SrType20 SrStateDataType
    SrLiquidLevelSensorType SrAbsCntrDataType SrAuthInfoType SrCountersDataType SrEgtsPlusDataType
    SrAbsAnSensDataType SrDispatcherIdentityType]; f_equal.
  - destruct d as [crn rst], H as [H1 H2]. unfold SrResponse_decode, lay_response. cbn [sr_CRN sr_RST].
    rewrite le16_eq, rd_num_app by (auto; lia). rewrite rbind_some, rd_byte_cons, rbind_some, Hrec. reflexivity.
  - rewrite (nil_r (SrTermIdentity_decode SrTermIdentity_zero) (lay_ti d) (Ok d)); auto using ti_decode.
  - rewrite (nil_r SrModuleData_decode (lay_md d) (Ok d)); auto using md_decode.
  - rewrite di_decode; auto.
  - rewrite (ai_decode SrAuthInfo_zero d); auto.
  - rewrite (nil_r SrResultCode_decode (lay_result d) (Ok d)); auto using result_decode.
  - unfold StorageRecord_decode. rewrite H0. reflexivity.
  - rewrite pos_decode, pos_dir_ok; auto using coord_encode_lt.
  - rewrite (nil_r (SrExtPosData_decode SrExtPosData_zero) (lay_ext d) (Ok d)); auto using ext_decode.
  - rewrite (nil_r (SrAdSensorsData_decode SrAdSensorsData_zero) (lay_ad d) (Ok d)); auto using ad_decode.
  - rewrite (nil_r (SrCountersData_decode SrCountersData_zero) (lay_cd d) (Ok d)); auto using cd_decode.
  - rewrite Hsrl by reflexivity. change (5 =? 5) with true. cbv iota.
    rewrite (nil_r SrStateData_decode (lay_sd d) (Ok d)); auto using sd_decode.
  - rewrite (nil_r SrStateData_decode (lay_sd d) (Ok d)); auto using sd_decode.
  - rewrite (nil_r SrAbsAnSensData_decode (lay_aa d) (Ok d)); auto using aa_decode.
  - rewrite (nil_r SrAbsCntrData_decode (lay_ac d) (Ok d)); auto using ac_decode.
  - rewrite (nil_r SrLiquidLevelSensor_decode (lay_ll d) (Ok d)); auto using ll_decode.
Qed.

Lemma lay_sd_length d : length (lay_sd d) = 5%nat.
Proof. reflexivity. Qed.

Lemma rds_loop_S rec n srt r : rds_loop rec (S n) (srt :: r) =
  rbind (rd_num 2 r) (fun srl r =>
    match sub_decode rec srt srl (firstn (N.to_nat srl) r) with
    | None => rds_loop rec n (skipn (N.to_nat srl) r)
    | Some d => bind d (fun d => bind (rds_loop rec n (skipn (N.to_nat srl) r)) (fun l =>
                  Ok (mkRecordData srt srl (Some d) :: l)))
    end).
Proof. reflexivity. Qed.

Lemma rds_loop_nil rec n : rds_loop rec n [] = Ok [].
Proof. destruct n; reflexivity. Qed.

Lemma rds_loop_step rec n t b wl : N.of_nat (length b) < 65536 ->
  rds_loop rec (S n) (([t] ++ le16 (N.of_nat (length b)) ++ b) ++ wl) =
    match sub_decode rec t (N.of_nat (length b)) b with
    | None => rds_loop rec n wl
    | Some d => bind d (fun d => bind (rds_loop rec n wl) (fun l =>
                  Ok (mkRecordData t (N.of_nat (length b)) (Some d) :: l)))
    end.
Proof.
  intros Hb. rewrite <- !app_assoc. change ([t] ++ ?x) with (t :: x). rewrite rds_loop_S, le16_eq.
  rewrite rd_num_app by (simpl; lia). rewrite rbind_some, Nat2N.id.
  rewrite firstn_app, Nat.sub_diag, firstn_O, app_nil_r, firstn_all.
  rewrite skipn_app, Nat.sub_diag, skipn_all. reflexivity.
Qed.

Lemma sub_travels_decode rec r w r' : rec [] = Ok [] -> sub_travels r w r' ->
  exists t b d', w = [t] ++ le16 (N.of_nat (length b)) ++ b /\ r' = mkRecordData t (N.of_nat (length b)) (Some d')
    /\ N.of_nat (length b) < 65536 /\ sub_decode rec t (N.of_nat (length b)) b = Some (Ok d').
Proof.
  intros Hrec H. destruct H as [srt srl d t b d' Ht Hb _ _]. exists t, b, d'. repeat split; auto.
  apply travels_decode with d; auto. intros ->. inversion Ht. subst. reflexivity.
Qed.

Lemma sub_unknown rec t srl b : ~ In t known_types -> sub_decode rec t srl b = None.
Proof.
  intros H. unfold sub_decode.
  repeat match goal with |- context [if t =? ?c then _ else _] =>
    destruct (N.eqb_spec t c); [subst; exfalso; apply H; cbn; tauto|] end.
  reflexivity.
Qed.

Lemma subs_arrive_decode rec w l' : rec [] = Ok [] -> subs_arrive w l' ->
  forall n, (length w <= n)%nat -> rds_loop rec n w = Ok l'.
Proof.
  intros Hrec. induction 1 as [|r w r' wl l' Hr Hl IH|t b wl l' Ht Hb Hl IH]; intros n Hn.
  - apply rds_loop_nil.
  - destruct (sub_travels_decode rec _ _ _ Hrec Hr) as (t & b & d' & -> & -> & Hb & Hd).
    rewrite !app_length in Hn. cbn [length] in Hn. destruct n; [lia|].
    rewrite rds_loop_step, Hd by assumption. cbn [bind]. rewrite IH by lia. reflexivity.
  - rewrite !app_length in Hn. cbn [length] in Hn. destruct n; [lia|].
    rewrite rds_loop_step, sub_unknown by assumption. apply IH. lia.
Qed.

Lemma subs_travel_arrive l w l' : subs_travel l w l' -> subs_arrive w l'.
Proof. induction 1; [constructor|]. econstructor 2; eauto. Qed.

(** ** Records *)

Lemma parse_flags_rec a b c d e f g h :
  parse_flags (bit_str a ++ bit_str b ++ bit_str c ++ String (bit_char d) (String (bit_char e) "")
     ++ bit_str f ++ bit_str g ++ bit_str h) = Ok (num8 a b c d e f g h).
Proof. rewrite <- parse_flags_str8. f_equal. Qed.

Lemma sum_rec a b c d e f g h :
  128 * N.b2n a + 64 * N.b2n b + 32 * N.b2n c + 8 * (2 * N.b2n d + N.b2n e)
  + 4 * N.b2n f + 2 * N.b2n g + N.b2n h = num8 a b c d e f g h.
Proof. unfold num8. lia. Qed.

Lemma slice_35 a b c d e f g h : slice 3 5 (str8 a b c d e f g h) = String (bit_char d) (String (bit_char e) "").
Proof. reflexivity. Qed.

Lemma if_bit {A} b (P Q : A) : (if string_dec (bit_str b) "1" then P else Q) = if b then P else Q.
Proof. destruct b; reflexivity. Qed.

Lemma secs_exact n : is_u32 n -> secs2010 ((1262304000 + Z.of_N n) * 1000000000) = n.
Proof.
  intros H. unfold is_u32 in H. unfold secs2010. rewrite Z.div_mul by lia. lia.
Qed.

Ltac rw16 := repeat match goal with |- context [le16 ?x] => rewrite (le16_eq x) end.

Lemma rec_encode s w : wf_rec s -> rds_encode (s_RD s) = Ok w -> N.of_nat (length w) < 65536 ->
  s_RL s = 0 \/ s_RL s = N.of_nat (length w) -> sdr_encode s = Ok (lay_rec s w).
Proof.
  intros Hs Hw Hl Hrl. destruct Hs. destruct s as [rl rn ssod rsod grp rpp tmfe evfe obfe oid evid tm sst rst rds].
  cbn [s_RL s_RN s_SSOD s_RSOD s_GRP s_RPP s_TMFE s_EVFE s_OBFE s_OID s_EVID s_TM s_SST s_RST s_RD] in *.
  apply is_flag_ex in wr_SSOD. destruct wr_SSOD as [b1 ->]. apply is_flag_ex in wr_RSOD. destruct wr_RSOD as [b2 ->].
  apply is_flag_ex in wr_GRP. destruct wr_GRP as [b3 ->]. apply is_flag2_bits in wr_RPP. destruct wr_RPP as (b4 & b5 & ->).
  apply is_flag_ex in wr_TMFE. destruct wr_TMFE as [b6 ->]. apply is_flag_ex in wr_EVFE. destruct wr_EVFE as [b7 ->].
  apply is_flag_ex in wr_OBFE. destruct wr_OBFE as [b8 ->].
  unfold sdr_encode, lay_rec.
  cbn [s_RL s_RN s_SSOD s_RSOD s_GRP s_RPP s_TMFE s_EVFE s_OBFE s_OID s_EVID s_TM s_SST s_RST s_RD] in *.
  rewrite Hw, bind_ok, parse_flags_rec, bind_ok, u8_num8, !fl_eq, fl2_bits, !is1_bit, sum_rec.
  rewrite !opt_eq, !is1_bit, !le32_eq. rw16.
  replace (if rl =? 0 then u16 (len w) else rl) with (N.of_nat (length w)).
  2: { rewrite len_length, u16_small by assumption. destruct Hrl as [->| ->]; [reflexivity|].
       destruct (_ =? 0); reflexivity. }
  do 7 f_equal. rewrite if_bit in wr_TM. destruct b6; [|reflexivity].
  destruct wr_TM as (n & Hn & ->). rewrite secs_exact by assumption. cbn [put app]. unfold put.
  unfold tm_encode, t_unix, t2010, ns_per_s, u32_of_Z. unfold is_u32 in Hn. repeat f_equal.
  rewrite !Z.div_mul by lia. rewrite Z.mod_small by lia. lia.
Qed.

Lemma recs_travel_encode l w l' : recs_travel l w l' -> sds_encode l = Ok w.
Proof.
  induction 1 as [|s w rds' l wl l' Hs Hw Hl Hrl Hr IH]; [reflexivity|].
  cbn [sds_encode]. rewrite (rec_encode _ _ Hs (subs_travel_encode _ _ _ Hw) Hl Hrl). cbn [bind]. rewrite IH. reflexivity.
Qed.

Lemma recs_travel_arrive l w l' : recs_travel l w l' -> recs_arrive w l'.
Proof. induction 1; [constructor|]. constructor; eauto using subs_travel_arrive. Qed.

Lemma sds_loop_nil rec n : sds_loop rec n [] = Ok [].
Proof. destruct n; reflexivity. Qed.

Lemma sds_loop_S rec n buf : buf <> [] -> sds_loop rec (S n) buf =
          rbind (rd_num_tmp (zeros 2) buf) (fun '(rl, tmp) r => 
          rbind (rd_num_tmp tmp r) (fun '(rn, tmp) r => 
          rbind (rd_byte r) (fun flags r =>
          let fb := sprintf_b 8 flags in
          let ssod := slice 0 1 fb in
          let rsod := slice 1 2 fb in
          let grp := slice 2 3 fb in
          let rpp := slice 3 5 fb in
          let tmfe := slice 5 6 fb in
          let evfe := slice 6 7 fb in
          let obfe := slice 7 8 fb in
          rbind (opt_rd (is1 obfe) 0 (rd_num 4) r) (fun oid r =>
          rbind (opt_rd (is1 evfe) 0 (rd_num 4) r) (fun evid r =>
          rbind (opt_rd (is1 tmfe) t_zero
                       (fun r => match rd_num 4 r with
                                 | Some (n, r) => Some (time_decode n, r)
                                 | None => None
                                 end) r) (fun tm r =>
          rbind (rd_byte r) (fun sst r =>
          rbind (rd_byte r) (fun rst r =>
          bind
            (if len r =? 0 then Ok ([], r)
             else rbind (rd_into (zeros (N.to_nat rl)) r) (fun rdb r =>
                  bind (rds_decode_with rec rdb) (fun l =>
                  Ok (l, r)))) (fun '(rds, r) =>
          bind (sds_loop rec n r) (fun l =>
          Ok (mkSDR rl rn ssod rsod grp rpp tmfe evfe obfe oid evid tm sst rst rds :: l))))))))))).
Proof. destruct buf; [congruence|reflexivity]. Qed.

Lemma rds_decode_nil rec : rds_decode_with rec [] = Ok [].
Proof. reflexivity. Qed.

Lemma opt_time (p : bool) n r : (p = true -> n < 4294967296) ->
  opt_rd p t_zero (fun r => match rd_num 4 r with
                                 | Some (n, r) => Some (time_decode n, r)
                                 | None => None
                                 end) (put p (le_bytes 4 n) ++ r)
  = Some (if p then time_decode n else t_zero, r).
Proof.
  intros H. destruct p; [|reflexivity]. unfold opt_rd, put. rewrite rd_num_app by (simpl; auto; lia). reflexivity.
Qed.

Lemma lay_rec_length s w : (7 <= length (lay_rec s w))%nat.
Proof. unfold lay_rec. rw16. rewrite !app_length, !le_bytes_length. cbn [length]. lia. Qed.

Lemma rec_decode rec s w rds' wl n : wf_rec s -> rds_decode_with rec w = Ok rds' -> N.of_nat (length w) < 65536 ->
  sds_loop rec (S n) (lay_rec s w ++ wl) =
  bind (sds_loop rec n wl) (fun l => Ok (fill (N.of_nat (length w)) rds' s :: l)).
Proof.
  intros Hs Hw Hl.
  destruct Hs. destruct s as [rl rn ssod rsod grp rpp tmfe evfe obfe oid evid tm sst rst rds].
  cbn [s_RL s_RN s_SSOD s_RSOD s_GRP s_RPP s_TMFE s_EVFE s_OBFE s_OID s_EVID s_TM s_SST s_RST s_RD] in *.
  apply is_flag_ex in wr_SSOD. destruct wr_SSOD as [b1 ->]. apply is_flag_ex in wr_RSOD. destruct wr_RSOD as [b2 ->].
  apply is_flag_ex in wr_GRP. destruct wr_GRP as [b3 ->]. apply is_flag2_bits in wr_RPP. destruct wr_RPP as (b4 & b5 & ->).
  apply is_flag_ex in wr_TMFE. destruct wr_TMFE as [b6 ->]. apply is_flag_ex in wr_EVFE. destruct wr_EVFE as [b7 ->].
  apply is_flag_ex in wr_OBFE. destruct wr_OBFE as [b8 ->].
  unfold lay_rec, fill.
  cbn [s_RL s_RN s_SSOD s_RSOD s_GRP s_RPP s_TMFE s_EVFE s_OBFE s_OID s_EVID s_TM s_SST s_RST s_RD] in *.
  rewrite !fl_eq, fl2_bits, !is1_bit, sum_rec.
  rewrite !opt_eq, !is1_bit, !le32_eq. rw16. rewrite !if_bit in *. unfold is_u8, is_u16, is_u32 in *.
  rewrite sds_loop_S.
  2: { intros Hf. apply (f_equal (@length N)) in Hf. rewrite !app_length, !le_bytes_length in Hf. cbn [length] in Hf. lia. }
  rewrite <- !app_assoc.
  rewrite (rd_num_tmp_app 2) by (rewrite ?zeros_length; auto; simpl; lia). rewrite rbind_some.
  rewrite (rd_num_tmp_app 2) by (rewrite ?le_bytes_length; auto; simpl; lia). rewrite rbind_some.
  rewrite rd_byte_one, rbind_some. rewrite sprintf_num8. cbv zeta.
  rewrite slice_01, slice_12, slice_23, slice_35, slice_56, slice_67, slice_78, !is1_bit.
  rewrite opt_num by (try lia; intros ->; simpl; lia). rewrite rbind_some.
  rewrite opt_num by (try lia; intros ->; simpl; lia). rewrite rbind_some.
  assert (b6 = true -> secs2010 tm < 4294967296) as Ht.
  { intros ->. destruct wr_TM as (k & Hk & ->). rewrite secs_exact; assumption. }
  rewrite opt_time by assumption. rewrite rbind_some.
  change ([sst; rst] ++ w ++ wl) with (sst :: rst :: w ++ wl). rewrite rd_byte_cons, rbind_some, rd_byte_cons, rbind_some.
  match goal with |- bind ?x _ = _ => assert (x = Ok (rds', wl)) as Hd end.
  { rewrite Nat2N.id. destruct (N.eqb_spec (len (w ++ wl)) 0) as [H0|H0].
    - rewrite len_app in H0. destruct w as [|? w]; [|rewrite len_cons in H0; lia].
      rewrite rds_decode_nil in Hw. injection Hw as <-. reflexivity.
    - assert (rd_into (zeros (length w)) (w ++ wl) = Some (w, wl)) as ->.
      { destruct w as [|x w]; [destruct wl; [elim H0|]; reflexivity|].
        apply rd_into_app; [rewrite zeros_length; reflexivity|discriminate]. }
      rewrite rbind_some, Hw. reflexivity.
    }
  rewrite Hd, bind_ok. apply bind_ext'. intros l. 
  replace (if b8 then oid else 0) with oid by (destruct b8; congruence).
  replace (if b7 then evid else 0) with evid by (destruct b7; congruence).
  replace (if b6 then time_decode (secs2010 tm) else t_zero) with tm; [reflexivity|].
  destruct b6; [|assumption]. destruct wr_TM as (k & Hk & ->). rewrite secs_exact by assumption.
  rewrite time_decode_eq by assumption. reflexivity.
Qed.

Lemma recs_arrive_decode rec w l' : rec [] = Ok [] -> recs_arrive w l' ->
  forall n, (length w <= n)%nat -> sds_loop rec n w = Ok l'.
Proof.
  intros Hrec. induction 1 as [|s w rds' wl l' Hs Hw Hl Hr IH]; intros n Hn; [apply sds_loop_nil|].
  rewrite app_length in Hn. pose proof (lay_rec_length s w).
  destruct n; [lia|]. rewrite (rec_decode rec s w rds'); auto.
  - rewrite IH by lia. reflexivity.
  - apply subs_arrive_decode; auto.
Qed.

End WithEnv.

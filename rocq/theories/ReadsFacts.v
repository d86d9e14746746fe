(** Lemmas about what the decoders of record sets and subrecord sets accept. *)
From Coq Require Import NArith ZArith Lia ZifyBool ZifyNat ZifyN String Ascii Bool List.
From Verif Require Import GoBase GoFloat SubRecords Records SpecBase SpecSub SpecRec SpecDec SpecReads
  BaseFacts SubFacts SubMore FloatFacts PosFacts RecordFacts DecodeFacts RangeFacts DecFacts.
Import ListNotations.
Open Scope N_scope.
Open Scope go_scope.

Local Opaque le16 le24 le32 le_bytes chars bytes_of_string.

Scheme reads_recs_min := Minimality for reads_recs Sort Prop
  with reads_subs_min := Minimality for reads_subs Sort Prop.
Combined Scheme reads_min from reads_recs_min, reads_subs_min.

Ltac rw16 := repeat match goal with |- context [le16 ?x] => rewrite (le16_eq x) end.
Ltac rw32 := repeat match goal with |- context [le32 ?x] => rewrite (le32_eq x) end.

Section WithEnv.
Context {E : Env}.

(** ** Fields that are followed by something *)
Lemma rd_into_full t b v r : bytes_ok b -> rd_into t b = Some (v, r) -> r <> [] ->
  b = v ++ r /\ length v = length t /\ bytes_ok v /\ bytes_ok r.
Proof.
  intros Hb H Hr. pose proof (rd_into_length _ _ _ _ H) as Hl. unfold rd_into in H. destruct b as [|x b]; [discriminate|].
  remember (x :: b) as c. injection H as Hv Hc. subst r.
  destruct (Nat.le_gt_cases (length t) (length c)) as [Hle|Hle]; [|elim Hr; apply skipn_all2; lia].
  rewrite (skipn_all2 t), app_nil_r in Hv by assumption. subst v. rewrite firstn_skipn.
  repeat split; try assumption; [apply bytes_ok_firstn|apply bytes_ok_skipn]; assumption.
Qed.
Lemma rd_num_full k b n r : bytes_ok b -> rd_num k b = Some (n, r) -> r <> [] ->
  b = le_bytes k n ++ r /\ n < 256 ^ N.of_nat k /\ bytes_ok r.
Proof.
  intros Hb H Hr. destruct (rd_num_ok _ _ _ _ Hb H) as [H1 H2]. unfold rd_num in H.
  destruct (rd_into (zeros k) b) as [[v q]|] eqn:Ei; [|discriminate]. injection H as <- <-.
  apply rd_into_full in Ei as (-> & Hl & Hv & _); [|assumption|assumption]. rewrite zeros_length in Hl.
  split; [|split; assumption]. rewrite <- Hl, le_bytes_le_num by assumption. reflexivity.
Qed.
Lemma rd_num_tmp_full k t b n t' r : length t = k -> bytes_ok b -> rd_num_tmp t b = Some ((n, t'), r) -> r <> [] ->
  b = le_bytes k n ++ r /\ n < 256 ^ N.of_nat k /\ bytes_ok r /\ length t' = k.
Proof.
  intros Hk Hb H Hr. unfold rd_num_tmp in H.
  destruct (rd_into t b) as [[v q]|] eqn:Ei; [|discriminate]. injection H as <- <- <-.
  apply rd_into_full in Ei as (-> & Hl & Hv & Hq); [|assumption|assumption].
  assert (length v = k) as Hlk by congruence. rewrite <- Hlk, le_bytes_le_num by assumption. repeat split; auto.
  apply le_num_bound. assumption.
Qed.
Lemma opt_rd_none {A} (p : bool) s (f : bytes -> option (A * bytes)) x r : f [] = None -> opt_rd p s f [] = Some (x, r) -> r = [].
Proof. intros Hf H. unfold opt_rd in H. destruct p; congruence. Qed.
Lemma opt_num_full (p : bool) k b n r : bytes_ok b -> opt_rd p 0 (rd_num k) b = Some (n, r) -> r <> [] ->
  b = put p (le_bytes k n) ++ r /\ (p = true -> n < 256 ^ N.of_nat k) /\ (p = false -> n = 0) /\ bytes_ok r.
Proof.
  intros Hb H Hr. destruct p; cbn [opt_rd] in H.
  - apply rd_num_full in H as (H1 & H2 & H3); auto. repeat split; auto. discriminate.
  - injection H as <- <-. repeat split; auto. discriminate.
Qed.
Lemma opt_time_full (p : bool) b t r : bytes_ok b ->
  opt_rd p t_zero (fun r => match rd_num 4 r with Some (n, r) => Some (time_decode n, r) | None => None end) b = Some (t, r) ->
  r <> [] ->
  exists n, b = put p (le_bytes 4 n) ++ r /\ (p = true -> n < 4294967296 /\ t = time_decode n) /\ (p = false -> t = t_zero) /\ bytes_ok r.
Proof.
  intros Hb H Hr. unfold opt_rd in H. destruct p.
  - destruct (rd_num 4 b) as [[n q]|] eqn:En; [|discriminate]. injection H as <- <-.
    apply rd_num_full in En as (H1 & H2 & H3); auto. exists n. repeat split; auto. discriminate.
  - injection H as <- <-. exists 0. repeat split; auto; discriminate.
Qed.

(** ** Records *)
Definition rest_of (rec : bytes -> res ServiceDataSet) (rl : N) (r : bytes) : res (RecordDataSet * bytes) :=
  if len r =? 0 then Ok ([], r)
  else rbind (rd_into (zeros (N.to_nat rl)) r) (fun rdb r => bind (rds_decode_with rec rdb) (fun l => Ok (l, r))).

Lemma content_ex n c : exists w r, content n c w r.
Proof.
  destruct c as [|x c]; [exists [], []; constructor|]. remember (x :: c) as d.
  assert (d <> []) as Hd by (subst; discriminate). clear x c Heqd.
  destruct (N.le_gt_cases n (N.of_nat (length d))) as [H|H].
  - exists (firstn (N.to_nat n) d), (skipn (N.to_nat n) d). rewrite <- (firstn_skipn (N.to_nat n) d) at 1.
    constructor; [rewrite firstn_skipn; assumption|]. rewrite firstn_length. lia.
  - exists (d ++ zeros (N.to_nat n - length d)), []. constructor; [assumption|..].
    + apply Forall_forall. intros y Hy. symmetry. apply repeat_spec in Hy. assumption.
    + intros Hz. apply (f_equal (@length N)) in Hz. rewrite zeros_length in Hz. cbn in Hz. lia.
    + rewrite app_length, zeros_length. lia.
Qed.

Lemma content_rest rec n c w r : content n c w r ->
  rest_of rec n c = bind (rds_decode_with rec w) (fun l => Ok (l, r)).
Proof.
  intros H. unfold rest_of. destruct H as [n|n w r H0 Hn|n c m H0 Hm Hm0 Hn].
  - reflexivity.
  - destruct (N.eqb_spec (len (w ++ r)) 0) as [Hl|Hl].
    { rewrite len_length in Hl. destruct (w ++ r); [congruence|cbn in Hl; lia]. }
    assert (rd_into (zeros (N.to_nat n)) (w ++ r) = Some (w, r)) as ->; [|reflexivity].
    destruct w as [|x w].
    + cbn in Hn. subst n. destruct r; [elim H0; reflexivity|]. reflexivity.
    + apply rd_into_app; [rewrite zeros_length; lia|discriminate].
  - destruct (N.eqb_spec (len c) 0) as [Hl|Hl].
    { rewrite len_length in Hl. destruct c; [congruence|cbn in Hl; lia]. }
    assert (rd_into (zeros (N.to_nat n)) c = Some (c ++ m, [])) as ->; [|reflexivity].
    rewrite app_length in Hn. apply zeros_eq in Hm. unfold rd_into. destruct c as [|x c]; [congruence|]. remember (x :: c) as d.
    rewrite zeros_length, firstn_all2, (skipn_all2 d), skipn_zeros by lia. repeat f_equal. rewrite Hm. f_equal. lia.
Qed.

Lemma content_ok n c w r : content n c w r -> bytes_ok c -> bytes_ok w /\ bytes_ok r.
Proof.
  intros H Hc. destruct H; [split; assumption| |].
  - apply bytes_ok_app in Hc. assumption.
  - split; [|constructor]. apply bytes_ok_app. split; [assumption|]. eapply Forall_impl; [|eassumption]. intros y <-. reflexivity.
Qed.

Lemma content_nz n c w r : content n c w r -> (nz w + nz r = nz c)%nat /\ (length r <= length c)%nat.
Proof.
  intros H. destruct H as [n|n w r H0 Hn|n c m H0 Hm Hm0 Hn]; [cbn; lia|rewrite nz_app, app_length; lia|].
  apply zeros_eq in Hm. rewrite Hm, nz_app.
  rewrite nz_zeros. cbn. lia.
Qed.

Lemma head_back rec s c : wf_rec s -> is_u16 (s_RL s) ->
  sds_head rec (lay_head s ++ c) = bind (rest_of rec (s_RL s) c) (fun '(rds, r) => Ok (fill (s_RL s) rds s, r)).
Proof.
  intros Hs Hrl.
  destruct Hs. destruct s as [rl rn ssod rsod grp rpp tmfe evfe obfe oid evid tm sst rst rds].
  cbn [s_RL s_RN s_SSOD s_RSOD s_GRP s_RPP s_TMFE s_EVFE s_OBFE s_OID s_EVID s_TM s_SST s_RST s_RD] in *.
  apply is_flag_ex in wr_SSOD. destruct wr_SSOD as [b1 ->]. apply is_flag_ex in wr_RSOD. destruct wr_RSOD as [b2 ->].
  apply is_flag_ex in wr_GRP. destruct wr_GRP as [b3 ->]. apply is_flag2_bits in wr_RPP. destruct wr_RPP as (b4 & b5 & ->).
  apply is_flag_ex in wr_TMFE. destruct wr_TMFE as [b6 ->]. apply is_flag_ex in wr_EVFE. destruct wr_EVFE as [b7 ->].
  apply is_flag_ex in wr_OBFE. destruct wr_OBFE as [b8 ->].
  unfold lay_head, fill.
  cbn [s_RL s_RN s_SSOD s_RSOD s_GRP s_RPP s_TMFE s_EVFE s_OBFE s_OID s_EVID s_TM s_SST s_RST s_RD] in *.
  rewrite !fl_eq, fl2_bits, !is1_bit, sum_rec.
  rewrite !opt_eq, !is1_bit. rw32. rw16. rewrite !if_bit in *. unfold is_u8, is_u16, is_u32 in *.
  unfold sds_head. rewrite <- !app_assoc.
  rewrite (rd_num_tmp_app 2) by (rewrite ?zeros_length; auto; simpl; lia). rewrite rbind_some.
  rewrite (rd_num_tmp_app 2) by (rewrite ?le_bytes_length; auto; simpl; lia). rewrite rbind_some.
  rewrite rd_byte_one, rbind_some. rewrite sprintf_num8. cbv zeta.
  rewrite slice_01, slice_12, slice_23, slice_35, slice_56, slice_67, slice_78, !is1_bit.
  rewrite opt_num by (try lia; intros ->; simpl; lia). rewrite rbind_some.
  rewrite opt_num by (try lia; intros ->; simpl; lia). rewrite rbind_some.
  assert (b6 = true -> secs2010 tm < 4294967296) as Ht.
  { intros ->. destruct wr_TM as (k & Hk & ->). rewrite secs_exact; assumption. }
  rewrite opt_time by assumption. rewrite rbind_some.
  change ([sst; rst] ++ c) with (sst :: rst :: c). rewrite rd_byte_cons, rbind_some, rd_byte_cons, rbind_some.
  fold (rest_of rec rl c). apply bind_ext. intros [l r] _. do 3 f_equal.
  - destruct b8; [reflexivity|assumption || symmetry; assumption].
  - destruct b7; [reflexivity|assumption || symmetry; assumption].
  - destruct b6; [|symmetry; assumption]. destruct wr_TM as (k & Hk & ->). rewrite secs_exact by assumption.
    apply time_decode_eq. assumption.
Qed.

Lemma head_forw rec b s r : bytes_ok b -> sds_head rec b = Ok (s, r) ->
  exists c, b = lay_head s ++ c /\ wf_rec s /\ is_u16 (s_RL s) /\ rest_of rec (s_RL s) c = Ok (s_RD s, r).
Proof.
  intros Hb H. unfold sds_head in H. cbv zeta in H.
  apply rbind_inv in H. destruct H as ([rl tmp] & r1 & H1 & H).
  apply rbind_inv in H. destruct H as ([rn tmp2] & r2 & H2 & H).
  apply rbind_inv in H. destruct H as (flags & r3 & H3 & H).
  apply rbind_inv in H. destruct H as (oid & r4 & H4 & H).
  apply rbind_inv in H. destruct H as (evid & r5 & H5 & H).
  apply rbind_inv in H. destruct H as (tm & r6 & H6 & H).
  apply rbind_inv in H. destruct H as (sst & r7 & H7 & H).
  apply rbind_inv in H. destruct H as (rst & r8 & H8 & H).
  apply bind_inv in H. destruct H as ([rds r9] & H9 & H). fold (rest_of rec rl r8) in H9.
  assert (r7 <> []) as N7 by (destruct r7; discriminate).
  assert (r6 <> []) as N6 by (destruct r6; discriminate).
  assert (r5 <> []) as N5.
  { intros ->. apply opt_rd_none in H6; [congruence|reflexivity]. }
  assert (r4 <> []) as N4.
  { intros ->. apply opt_rd_none in H5; [congruence|reflexivity]. }
  assert (r3 <> []) as N3.
  { intros ->. apply opt_rd_none in H4; [congruence|reflexivity]. }
  assert (r2 <> []) as N2 by (destruct r2; discriminate).
  assert (r1 <> []) as N1 by (intros ->; cbn in H2; discriminate).
  apply (rd_num_tmp_full 2) in H1 as (-> & L1 & B1 & T1); [|apply zeros_length|assumption|assumption].
  apply (rd_num_tmp_full 2) in H2 as (-> & L2 & B2 & _); [|assumption|assumption|assumption].
  destruct (rd_byte_ok _ _ _ B2 H3) as [L3 B3]. apply opt_num_full in H4 as (-> & L4 & L4' & B4); [|assumption|assumption].
  apply opt_num_full in H5 as (-> & L5 & L5' & B5); [|assumption|assumption].
  apply opt_time_full in H6 as (n & -> & L6 & L6' & B6); [|assumption|assumption].
  destruct (rd_byte_ok _ _ _ B6 H7) as [L7 B7]. destruct (rd_byte_ok _ _ _ B7 H8) as [L8 B8].
  destruct r2 as [|x2 r2]; [discriminate|]. injection H3 as -> ->.
  destruct r6 as [|x6 r6]; [discriminate|]. injection H7 as -> ->.
  destruct r7 as [|x7 r7]; [discriminate|]. injection H8 as -> ->.
  bits_of flags L3. rewrite sprintf_num8 in *.
  rewrite slice_01, slice_12, slice_23, slice_35, slice_56, slice_67, slice_78, ?is1_bit in *.
  injection H as <- <-. exists r8. unfold lay_head.
  cbn [s_RL s_RN s_SSOD s_RSOD s_GRP s_RPP s_TMFE s_EVFE s_OBFE s_OID s_EVID s_TM s_SST s_RST s_RD].
  split; [|split; [|split; [exact L1|exact H9]]].
  - rewrite !fl_eq, fl2_bits, !is1_bit, sum_rec. rewrite !opt_eq, !is1_bit. rw32. rw16. rewrite <- !app_assoc.
    repeat (f_equal; []). cbn [app]. do 4 f_equal. destruct f4; [|reflexivity]. destruct (L6 eq_refl) as [Hn ->].
    rewrite time_decode_eq, secs_exact by assumption. reflexivity.
  - constructor; cbn [s_RL s_RN s_SSOD s_RSOD s_GRP s_RPP s_TMFE s_EVFE s_OBFE s_OID s_EVID s_TM s_SST s_RST s_RD];
      rewrite ?if_bit; auto using is_flag_bit_str, is_flag2_str.
    + destruct f6; [exact (L4 eq_refl)|auto].
    + destruct f5; [exact (L5 eq_refl)|auto].
    + destruct f4; auto. destruct (L6 eq_refl) as [Hn ->]. exists n. split; [assumption|]. apply time_decode_eq. assumption.
Qed.

(** ** Subrecords *)
Lemma next_ex n c : exists b r, next n c b r.
Proof.
  destruct (N.le_gt_cases n (N.of_nat (length c))) as [H|H].
  - exists (firstn (N.to_nat n) c), (skipn (N.to_nat n) c). rewrite <- (firstn_skipn (N.to_nat n) c) at 1.
    constructor. rewrite firstn_length. lia.
  - exists c, []. constructor. assumption.
Qed.
Lemma next_eq n c b r : next n c b r -> firstn (N.to_nat n) c = b /\ skipn (N.to_nat n) c = r.
Proof.
  intros H. destruct H as [n b r H|n b H].
  - replace (N.to_nat n) with (length b) by lia. rewrite firstn_app, Nat.sub_diag, firstn_O, app_nil_r, firstn_all.
    rewrite skipn_app, Nat.sub_diag, skipn_all. auto.
  - rewrite firstn_all2, skipn_all2 by lia. auto.
Qed.
Lemma next_split n c b r : next n c b r -> c = b ++ r.
Proof. intros H. destruct H; [reflexivity|]. rewrite app_nil_r. reflexivity. Qed.

Lemma rd_one n : rd_num 2 [n] = Some (n, []).
Proof.
  unfold rd_num. change (rd_into (zeros 2) [n]) with (Some ([n; 0], @nil N)). cbv beta iota.
  change (le_num [n; 0]) with (n + 256 * (0 + 256 * 0)). replace (n + 256 * (0 + 256 * 0)) with n by lia. reflexivity.
Qed.
Lemma size_rd n z c : size_field n z c -> rd_num 2 z = Some (n, c).
Proof.
  intros H. destruct H as [n c H|n H].
  - rewrite le16_eq. apply rd_num_app; [lia|exact H].
  - rewrite rd_one. reflexivity.
Qed.
Lemma rd_size n z c : bytes_ok z -> rd_num 2 z = Some (n, c) -> size_field n z c.
Proof.
  intros Hz H. destruct c as [|x c].
  - destruct z as [|a [|b [|d z]]]; try discriminate.
    + rewrite rd_one in H. injection H as <-. apply bytes_ok_cons in Hz as [Ha _]. constructor. assumption.
    + destruct (rd_num_ok _ _ _ _ Hz H) as [Hn _]. unfold rd_num in H. change (rd_into (zeros 2) [a; b]) with (Some ([a; b], @nil N)) in H.
      injection H as <-. rewrite <- (app_nil_r [a; b]). rewrite <- (le_bytes_le_num [a; b]) at 2 by assumption. cbn [length].
      rewrite <- le16_eq. constructor. exact Hn.
  - apply rd_num_full in H as (-> & Hn & _); [|assumption|discriminate]. rewrite <- le16_eq. constructor. exact Hn.
Qed.

Ltac codes := cbn [N.eqb Pos.eqb SrPosDataType SrTermIdentityType SrModuleDataType
    SrRecordResponseType SrResultCodeType SrExtPosDataType SrAdSensorsDataType SrType20 SrStateDataType
    SrLiquidLevelSensorType SrAbsCntrDataType SrAuthInfoType SrCountersDataType SrEgtsPlusDataType
    SrAbsAnSensDataType SrDispatcherIdentityType].

Lemma means_decode rec t n b d : bytes_ok b -> means t n b d -> sub_decode rec t n b = Some (Ok d).
Proof.
  intros Hb H. destruct H; unfold sub_decode; codes; f_equal.
  - rewrite (proj2 (ti_accepts _ b e Hb)); auto.
  - rewrite (proj2 (md_accepts b e Hb)); auto.
  - rewrite (proj2 (di_accepts b e Hb)); auto.
  - rewrite (proj2 (ai_accepts _ b e Hb)); auto. destruct H as (H1 & H2 & H3).
    split; [repeat split; auto; intros []|]. cbn [SrAuthInfo_zero ai_SS]. tauto.
  - rewrite (proj2 (result_accepts b e Hb)); auto.
  - unfold StorageRecord_decode. rewrite H. reflexivity.
  - rewrite (proj2 (pos_accepts _ b e Hb)); [reflexivity|]. exists k, lat, long, w, dir. auto.
  - rewrite (proj2 (ext_accepts _ b e Hb)); [reflexivity|]. eauto.
  - rewrite (proj2 (ad_accepts _ b e Hb)); auto.
  - rewrite (proj2 (cd_accepts SrCountersData_zero b (second_is_first SrCountersData_zero e) Hb)); [reflexivity|]. exists e. auto.
  - change (5 =? 5) with true. cbv iota. rewrite (proj2 (sd_accepts b e Hb)); [reflexivity|]. eauto.
  - rewrite (proj2 (sd_accepts b e Hb)); [reflexivity|]. eauto.
  - rewrite (proj2 (aa_accepts b e Hb)); auto.
  - rewrite (proj2 (ac_accepts b e Hb)); auto.
  - rewrite (proj2 (ll_accepts b e Hb)); [reflexivity|]. eauto.
Qed.

Lemma sub_decode_means rec t n b d : bytes_ok b -> sub_decode rec t n b = Some (Ok d) ->
  means t n b d \/
  t = 0 /\ exists e q l, d = DResponse e /\ b = lay_response e ++ q /\ wf_response e /\ rec q = Ok l.
Proof.
  intros Hb H. unfold sub_decode in H. unfold SrPosDataType, SrTermIdentityType, SrModuleDataType,
    SrRecordResponseType, SrResultCodeType, SrExtPosDataType, SrAdSensorsDataType, SrType20, SrStateDataType,
    SrLiquidLevelSensorType, SrAbsCntrDataType, SrAuthInfoType, SrCountersDataType, SrEgtsPlusDataType,
    SrAbsAnSensDataType, SrDispatcherIdentityType in H.
  repeat match type of H with
  | (if ?t =? ?k then _ else _) = _ => destruct (N.eqb_spec t k) as [->|?]; [
      try (destruct (N.eqb_spec n 5) as [->|?]; [|discriminate]);
      injection H as H; apply bind_inv in H as (x & Hx & H); injection H as <- | ]
  end; [..|discriminate].
  - left. apply (pos_accepts _ _ _ Hb) in Hx as (k & lat & long & w & dir & H1 & H2 & H3). econstructor; eassumption.
  - left. apply (ti_accepts _ _ _ Hb) in Hx as (H1 & H2 & H3). constructor; assumption.
  - left. apply (md_accepts _ _ Hb) in Hx as (H1 & H2). constructor; assumption.
  - right. split; [reflexivity|]. unfold SrResponse_decode in Hx. apply rbind_inv in Hx as (crn & r1 & H1 & Hx).
    apply rbind_inv in Hx as (rst & r2 & H2 & Hx). apply bind_inv in Hx as (l & Hl & Hx). injection Hx as <-.
    exists (mkSrResponse crn rst), r2, l. split; [reflexivity|].
    assert (r1 <> []) as N1 by (destruct r1; discriminate).
    apply rd_num_full in H1 as (-> & L1 & B1); [|assumption|assumption]. destruct (rd_byte_ok _ _ _ B1 H2) as [L2 B2].
    destruct r1 as [|x1 r1]; [discriminate|]. injection H2 as -> ->. unfold lay_response, wf_response. cbn [sr_CRN sr_RST].
    rw16. rewrite <- app_assoc. repeat split; auto.
  - left. apply (result_accepts _ _ Hb) in Hx as (H1 & H2). constructor; assumption.
  - left. apply (ext_accepts _ _ _ Hb) in Hx as (H1 & H2 & hi & H3 & H4). econstructor; eassumption.
  - left. apply (ad_accepts _ _ _ Hb) in Hx as (H1 & H2 & H3). constructor; assumption.
  - left. apply (sd_accepts _ _ Hb) in Hx as (H1 & hi & H2 & H3). econstructor; eassumption.
  - left. apply (sd_accepts _ _ Hb) in Hx as (H1 & hi & H2 & H3). econstructor; eassumption.
  - left. apply (ll_accepts _ _ Hb) in Hx as (H1 & hi & H2 & H3). econstructor; eassumption.
  - left. apply (ac_accepts _ _ Hb) in Hx as (H1 & H2). constructor; assumption.
  - left. apply (ai_accepts _ _ _ Hb) in Hx as ((H1 & H2 & _) & H3). cbn [ai_UNM ai_UPSW ai_SS SrAuthInfo_zero] in *. constructor.
    + repeat split; try assumption. destruct H3 as [[H3 _]|[-> _]]; [assumption|intros []].
    + tauto.
  - left. apply (cd_accepts _ _ _ Hb) in Hx as (e & H1 & H2 & H3 & ->). constructor; assumption.
  - left. unfold StorageRecord_decode in Hx. destruct (pb_unmarshal b) as [m|] eqn:Em; [|discriminate]. injection Hx as <-.
    constructor. assumption.
  - left. apply (aa_accepts _ _ Hb) in Hx as (H1 & H2). constructor; assumption.
  - left. apply (di_accepts _ _ Hb) in Hx as (H1 & H2). constructor; assumption.
Qed.

Lemma sub_decode_none rec t n b : sub_decode rec t n b = None <-> ~ In t known_types.
Proof.
  unfold sub_decode, SrPosDataType, SrTermIdentityType, SrModuleDataType,
    SrRecordResponseType, SrResultCodeType, SrExtPosDataType, SrAdSensorsDataType, SrType20, SrStateDataType,
    SrLiquidLevelSensorType, SrAbsCntrDataType, SrAuthInfoType, SrCountersDataType, SrEgtsPlusDataType,
    SrAbsAnSensDataType, SrDispatcherIdentityType, known_types. cbn [In].
  repeat match goal with
  | |- context [if ?t =? ?k then _ else _] => destruct (N.eqb_spec t k) as [->|?]; [
      try destruct (n =? 5); (split; [discriminate|intros []; tauto])|]
  end.
  split; [intros _|reflexivity]. intros H. repeat (destruct H as [H|H]; [congruence|]). assumption.
Qed.

(** ** Both directions *)
Lemma reads_decode :
  (forall b l, reads_recs b l -> bytes_ok b -> sds_decode b = Ok l) /\
  (forall b l, reads_subs b l -> bytes_ok b -> forall n, (length b <= n)%nat -> rds_loop sds_decode n b = Ok l).
Proof.
  apply (reads_min _ (fun b l => bytes_ok b -> sds_decode b = Ok l)
    (fun b l => bytes_ok b -> forall n, (length b <= n)%nat -> rds_loop sds_decode n b = Ok l)).
  - reflexivity.
  - intros s c w r l Hs Hrl Hc _ IHw _ IHr Hb. apply bytes_ok_app in Hb as [_ Hb].
    destruct (content_ok _ _ _ _ Hc Hb) as [Bw Br].
    rewrite sds_decode_step by (unfold lay_head; rw16; intros Hn; apply (f_equal (@length N)) in Hn;
      rewrite !app_length, !le_bytes_length in Hn; cbn [length] in Hn; lia).
    rewrite head_back, (content_rest _ _ _ _ _ Hc) by assumption. unfold rds_decode_with. rewrite IHw by auto.
    rewrite !bind_ok, IHr, bind_ok by assumption. destruct s. reflexivity.
  - intros _ n _. apply rds_loop_nil.
  - intros t n z c b r d l Hz Hn Hd _ IH Hb [|k] Hk; [cbn in Hk; lia|]. apply bytes_ok_cons in Hb as [_ Hb].
    rewrite rds_loop_S. pose proof (size_rd _ _ _ Hz) as Hz'. rewrite Hz', rbind_some. destruct (rd_num_ok _ _ _ _ Hb Hz') as [_ Hc].
    apply rd_num_nz in Hz'.
    destruct (next_eq _ _ _ _ Hn) as [-> ->]. apply next_split in Hn. subst c. apply bytes_ok_app in Hc as [Hc1 Hc2].
    rewrite app_length in Hz'. cbn [length] in Hk.
    rewrite (means_decode _ _ _ _ _ Hc1 Hd), bind_ok, IH by (auto; lia). reflexivity.
  - intros n z c d q k0 r l Hz Hn Hd _ IHq _ IH Hb [|k] Hk; [cbn in Hk; lia|]. apply bytes_ok_cons in Hb as [_ Hb].
    rewrite rds_loop_S. pose proof (size_rd _ _ _ Hz) as Hz'. rewrite Hz', rbind_some. destruct (rd_num_ok _ _ _ _ Hb Hz') as [_ Hc].
    apply rd_num_nz in Hz'.
    destruct (next_eq _ _ _ _ Hn) as [-> ->]. apply next_split in Hn. subst c. apply bytes_ok_app in Hc as [Hc1 Hc2].
    rewrite app_length in Hz'. cbn [length] in Hk. apply bytes_ok_app in Hc1 as [_ Bq].
    assert (sub_decode sds_decode 0 n (lay_response d ++ q) = Some (Ok (DResponse d))) as ->.
    { unfold sub_decode. codes. f_equal. destruct d as [crn rst], Hd as [H1 H2]. unfold SrResponse_decode, lay_response.
      cbn [sr_CRN sr_RST] in *. rw16. rewrite <- app_assoc, rd_num_app by (auto; lia). rewrite rbind_some.
      change ([rst] ++ q) with (rst :: q). rewrite rd_byte_cons, rbind_some, (IHq Bq). reflexivity. }
    rewrite bind_ok, IH by (auto; lia). reflexivity.
  - intros t n z c b r l Hz Hn Hd _ IH Hb [|k] Hk; [cbn in Hk; lia|]. apply bytes_ok_cons in Hb as [_ Hb].
    rewrite rds_loop_S. pose proof (size_rd _ _ _ Hz) as Hz'. rewrite Hz', rbind_some. destruct (rd_num_ok _ _ _ _ Hb Hz') as [_ Hc].
    apply rd_num_nz in Hz'.
    destruct (next_eq _ _ _ _ Hn) as [-> ->]. apply next_split in Hn. subst c. apply bytes_ok_app in Hc as [Hc1 Hc2].
    rewrite app_length in Hz'. cbn [length] in Hk.
    rewrite (proj2 (sub_decode_none _ _ _ _) Hd). apply IH; [assumption|lia].
Qed.

Lemma loop_reads k : (forall b l, (nz b < k)%nat -> bytes_ok b -> sds_decode b = Ok l -> reads_recs b l) ->
  forall n b l, (nz b < k)%nat -> bytes_ok b -> rds_loop sds_decode n b = Ok l -> reads_subs b l.
Proof.
  intros HR. induction n as [|n IH]; intros [|t z] l Hk Hb H; try discriminate; try (injection H as <-; constructor).
  rewrite rds_loop_S in H. apply rbind_inv in H as (srl & c & Hc & H). apply bytes_ok_cons in Hb as [_ Hb].
  destruct (rd_num_ok _ _ _ _ Hb Hc) as [_ Bc]. pose proof (rd_size _ _ _ Hb Hc) as Hs. apply rd_num_nz in Hc.
  destruct (next_ex srl c) as (b & r & Hn). destruct (next_eq _ _ _ _ Hn) as [E1 E2]. rewrite E1, E2 in H.
  pose proof (next_split _ _ _ _ Hn) as Ec. rewrite Ec in Bc. apply bytes_ok_app in Bc as [B1 B2].
  change (t :: z) with ([t] ++ z) in Hk. rewrite nz_app in Hk. rewrite Ec, nz_app in Hc.
  destruct (sub_decode sds_decode t srl b) as [d|] eqn:Ed.
  - apply bind_inv in H as (d' & -> & H). apply bind_inv in H as (l' & Hl & H). injection H as <-.
    apply IH in Hl; [|lia|assumption].
    destruct (sub_decode_means _ _ _ _ _ B1 Ed) as [Hm|(-> & e & q & k0 & -> & -> & He & Hq)].
    + eapply rs_known; eassumption.
    + eapply rs_response; try eassumption. apply HR; [|apply bytes_ok_app in B1; tauto|exact Hq]. rewrite nz_app in Hc. lia.
  - eapply rs_unknown; try eassumption; [eapply sub_decode_none; eassumption|]. apply IH; [lia|assumption|assumption].
Qed.

Lemma nz_zero_num l : nz l = 0%nat -> le_num l = 0.
Proof. intros H. destruct (N.eq_dec (le_num l) 0) as [?|Hn]; [assumption|]. apply nz_pos in Hn. lia. Qed.
Lemma nz_head s : is_u16 (s_RL s) -> nz (lay_head s) = 0%nat -> s_RL s = 0.
Proof.
  unfold lay_head. rw16. rewrite nz_app. intros H Hz. assert (nz (le_bytes 2 (s_RL s)) = 0%nat) as H2 by lia.
  rewrite <- (le_num_le_bytes 2 (s_RL s)) by exact H. apply nz_zero_num. assumption.
Qed.

Lemma decode_reads : forall b l, bytes_ok b -> sds_decode b = Ok l -> reads_recs b l.
Proof.
  assert (forall k b l, (nz b < k)%nat -> bytes_ok b -> sds_decode b = Ok l -> reads_recs b l) as H.
  2: { intros b l. apply (H (S (nz b))). lia. }
  induction k as [|k IHk]; [lia|]. intros b l Hk Hb Hl. revert Hk Hb.
  apply (sds_decode_ind (fun b l => (nz b < S k)%nat -> bytes_ok b -> reads_recs b l)) with (b := b); [constructor| |exact Hl].
  clear b l Hl. intros b s r l _ Hs _ IH Hk Hb. pose proof (sds_head_rest _ _ _ _ Hs) as Hr.
  destruct (head_forw _ _ _ _ Hb Hs) as (c & -> & Hw & Hrl & Hd).
  destruct (content_ex (s_RL s) c) as (w & r' & Hc). rewrite (content_rest _ _ _ _ _ Hc) in Hd.
  apply bind_inv in Hd as (l' & Hd & E1). injection E1 as -> ->. apply bytes_ok_app in Hb as [_ Hb].
  destruct (content_ok _ _ _ _ Hc Hb) as [Bw Br]. eapply rr_rec; try eassumption; [|apply IH; [lia|assumption]].
  unfold rds_decode_with in Hd. rewrite nz_app in Hk. pose proof (content_nz _ _ _ _ Hc) as [Hz _].
  destruct (Nat.eq_dec (nz (lay_head s)) 0) as [H0|H0].
  - assert (w = []) as ->; [|cbn in Hd; injection Hd as <-; constructor]. apply nz_head in H0; [|assumption]. rewrite H0 in Hc.
    inversion Hc; subst; [reflexivity| |]; match goal with H : N.of_nat (length ?w) = 0 |- _ => destruct w; [reflexivity|cbn in H; lia] end.
  - eapply loop_reads; [exact IHk| |assumption|exact Hd]. lia.
Qed.

Lemma subs_decode_reads b l : bytes_ok b -> rds_decode b = Ok l -> reads_subs b l.
Proof.
  intros Hb H. rewrite rds_decode_eq in H. eapply (loop_reads (S (nz b))); [|lia|assumption|exact H].
  intros b' l' _. apply decode_reads.
Qed.
Lemma reads_subs_decode b l : bytes_ok b -> reads_subs b l -> rds_decode b = Ok l.
Proof.
  intros Hb H. rewrite rds_decode_eq. apply (proj2 reads_decode); auto.
Qed.

End WithEnv.

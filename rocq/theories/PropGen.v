(** Property C62: the packet generator against the receiver. *)
From Coq Require Import NArith ZArith Lia ZifyBool ZifyNat ZifyN String Ascii Bool List.
From Verif Require Import GoBase GoFloat Crc SubRecords Records Package Storage Server PacketGen
  SpecBase SpecCrc SpecPkg SpecSub SpecRec SpecSrv
  BaseFacts SubFacts PosFacts SubMore RecordFacts DecodeFacts CrcFacts WireFacts PackageFacts PropSub PropRec PropPkg PropMore
  SrvFacts SrvLoop SrvPacket SrvConn PropSrv PropSrvMore.
Import ListNotations.
Open Scope N_scope.

Local Opaque le_bytes crc8 crc16.

Section WithEnv.
Context {E : Env}.

(** An answer for one record passes all the checks of the generator. *)
Lemma answer_checked pid r b : answer pid 0 [r] b -> check_ack pid b = VOk.
Proof.
  intros [_ Ha]. unfold check_ack. destruct (Ha (zeros (1024 - length b))) as (p & sdr & -> & _ & _ & -> & r' & -> & Hr).
  cbn [pr_RPID pr_PR pr_SDR]. rewrite N.eqb_refl. cbn [negb N.eqb]. unfold bad_status. cbn [existsb].
  rewrite Hr. reflexivity.
Qed.

Lemma u32_of_Z_lt z : is_u32 (u32_of_Z z).
Proof. unfold is_u32, u32_of_Z. pose proof (Z.mod_pos_bound z 4294967296). lia. Qed.

Definition gen_pos (lat lon : f64) : SrPosData := mkSrPosData gen_time lat lon "1" "0" "0" "1" "1" "0" "1" "1" 0 0 34 172 191 144 0 30.
Definition gen_liquid (liq : Z) : SrLiquidLevelSensor := mkSrLiquidLevelSensor "1" "00" "0" 1 1 (u32_of_Z liq).
Definition gen_record (oid liq : Z) (lat lon : f64) : ServiceDataRecord :=
  mkSDR 0 1 "0" "0" "0" "10" "0" "1" "1" (u32_of_Z oid) 3436 t_zero 2 2
    [mkRecordData 16 0 (Some (DPosData (gen_pos lat lon))); mkRecordData 27 0 (Some (DLiquid (gen_liquid liq)))].


Lemma gen_pos_length lat lon : length (lay_pos (coord_encode 90 lat) (coord_encode 180 lon) (gen_pos lat lon)) = 24%nat.
Proof.
  assert (forall n, length (le16 n) = 2%nat) as H2 by reflexivity. assert (forall n, length (le24 n) = 3%nat) as H3 by reflexivity.
  assert (forall n, length (le32 n) = 4%nat) as H4 by reflexivity.
  unfold lay_pos. rewrite !app_length, !H4, ?H3, ?H2. cbn [pd_ALTE gen_pos]. unfold opt. destruct (string_dec "1" "1"); [|congruence].
  rewrite ?H3. reflexivity.
Qed.

(** The record on the wire: 54 bytes. *)
Lemma gen_travels oid liq lat lon : exists w l1 l2 l3,
  recs_travel [gen_record oid liq lat lon] w
    [fill l1 [mkRecordData 16 l2 (Some (DPosData (set_coords (coord_decode 90 (coord_encode 90 lat)) (coord_decode 180 (coord_encode 180 lon)) (gen_pos lat lon))));
              mkRecordData 27 l3 (Some (DLiquid (gen_liquid liq)))] (gen_record oid liq lat lon)]
  /\ length w = 52%nat.
Proof.
  assert (forall n, length (le16 n) = 2%nat) as H2 by reflexivity. assert (forall n, length (le32 n) = 4%nat) as H4 by reflexivity.
  assert (travels (DPosData (gen_pos lat lon)) 16 (lay_pos (coord_encode 90 lat) (coord_encode 180 lon) (gen_pos lat lon))
     (DPosData (set_coords (coord_decode 90 (coord_encode 90 lat)) (coord_decode 180 (coord_encode 180 lon)) (gen_pos lat lon)))) as Hp.
  { apply (tr_pos (gen_pos lat lon)); [|intros H; discriminate|intros H; discriminate].
    constructor; cbn; unfold is_flag, is_u8, is_u24; auto; try lia. exists 351477040. split; [unfold is_u32; lia|reflexivity]. }
  assert (travels (DLiquid (gen_liquid liq)) 27 (lay_ll (gen_liquid liq)) (DLiquid (gen_liquid liq))) as Hq.
  { apply tr_ll. constructor; cbn -[u32_of_Z]; unfold is_flag, is_flag2, is_u16; auto; try lia. apply u32_of_Z_lt. }
  assert (length (lay_ll (gen_liquid liq)) = 7%nat) as Hlq by (unfold lay_ll; rewrite !app_length, H2, H4; reflexivity).
  pose proof (gen_pos_length lat lon) as Hlp.
  set (bp := lay_pos (coord_encode 90 lat) (coord_encode 180 lon) (gen_pos lat lon)) in *. set (bq := lay_ll (gen_liquid liq)) in *.
  pose proof (sub_tr 16 0 _ 16 bp _ Hp ltac:(rewrite Hlp; reflexivity) (or_introl eq_refl) (or_introl eq_refl)) as Sp.
  pose proof (sub_tr 27 0 _ 27 bq _ Hq ltac:(rewrite Hlq; reflexivity) (or_introl eq_refl) (or_introl eq_refl)) as Sq.
  pose proof (subs_cons _ _ _ _ _ _ Sp (subs_cons _ _ _ _ _ _ Sq subs_nil)) as Ss. clearbody bp bq.
  set (w := (([16] ++ le16 (N.of_nat (length bp)) ++ bp) ++ ([27] ++ le16 (N.of_nat (length bq)) ++ bq) ++ [])%list) in *.
  assert (length w = 37%nat) as Hw by (unfold w; rewrite !app_length, !H2, Hlp, Hlq; reflexivity). clearbody w.
  exists (lay_rec (gen_record oid liq lat lon) w ++ [])%list. eexists. eexists. eexists. split.
  - eapply recs_cons; [|exact Ss|rewrite Hw; reflexivity|left; reflexivity|apply recs_nil].
    constructor; cbn -[u32_of_Z string_dec]; unfold is_flag, is_flag2, is_u8, is_u16, is_u32; auto; try lia.
    + destruct (string_dec "1" "1"); [|congruence]. apply u32_of_Z_lt.
    + destruct (string_dec "1" "1"); [|congruence]. lia.
    + destruct (string_dec "0" "1"); [discriminate|reflexivity].
  - rewrite app_nil_r. unfold lay_rec. cbn [gen_record s_OBFE s_EVFE s_TMFE s_SST s_RST]. rewrite !app_length, Hw, !H2. unfold opt.
    destruct (string_dec "1" "1"); [|congruence]. destruct (string_dec "0" "1"); [discriminate|]. rewrite !H4. reflexivity.
Qed.

(** Every packet of the generator is accepted by the receiver, which saves one record for the
    object given and answers with a packet that passes all the checks of the generator. *)
Theorem C62_generator_and_receiver : forall pid oid liq ts lat lon, (0 <= pid < 65536)%Z -> (0 <= oid < 4294967296)%Z -> (0 <= liq < 4294967296)%Z ->
  exists f, snd (pkg_encode None (gen_packet pid oid liq ts lat lon)) = Ok f /\ N.of_nat (length f) = 65
  /\ forall cs, concat cs = f -> forall evs o, runs (handle_conn cs) evs o ->
     o = Some StopEof /\ exists nav ok ack, evs = [EvSave nav ok; EvWrite ack]
     /\ nr_Client nav = Z.to_N oid /\ nr_PacketID nav = Z.to_N pid /\ nr_NavigationTimestamp nav = 1613781040%Z
     /\ nr_Latitude nav = coord_decode 90 (coord_encode 90 lat) /\ nr_Longitude nav = coord_decode 180 (coord_encode 180 lon)
     /\ nr_LiquidSensors nav = [mkLiquidSensor 1 "1" (Z.to_N liq) 0]
     /\ check_ack (Z.to_N pid) ack = VOk.
Proof.
  intros pid oid liq ts lat lon Hpid Hoid Hliq.
  destruct (gen_travels oid liq lat lon) as (w & l1 & l2 & l3 & Ht & Hw).
  set (p := gen_packet pid oid liq ts lat lon).
  assert (wf_flags p) as Hf by (constructor; cbn; unfold is_flag, is_flag2; auto).
  assert (wf_nums p) as Hn.
  { constructor; cbn -[Z.modulo]; unfold is_u8, is_u16; try lia; try (destruct (string_dec _ _); lia). }
  assert (unrouted_zero p) as Hu by (intros _; cbn; auto).
  assert (header_length_ok p) as Hh by (right; reflexivity).
  assert (header_size p = 11) as Hhs by reflexivity.
  destruct (C01_appdata_packets_partial p [gen_record oid liq lat lon] w _ [] [] Hf Hn Hu Hh eq_refl eq_refl eq_refl Ht ltac:(discriminate) bytes_ok_nil) as [He _].
  { rewrite Hhs, Hw. reflexivity. }
  assert (forall spare, pkg_decode None Package_zero (lay_frame p (header_size p) w) spare = DRet (received p w (BSds [fill l1 [mkRecordData 16 l2 (Some (DPosData (set_coords (coord_decode 90 (coord_encode 90 lat)) (coord_decode 180 (coord_encode 180 lon)) (gen_pos lat lon))));
              mkRecordData 27 l3 (Some (DLiquid (gen_liquid liq)))] (gen_record oid liq lat lon)])) 0 true) as Hd.
  { intros spare. destruct (C01_appdata_packets_partial p [gen_record oid liq lat lon] w _ [] spare Hf Hn Hu Hh eq_refl eq_refl eq_refl Ht ltac:(discriminate) bytes_ok_nil) as [_ Hd].
    { rewrite Hhs, Hw. reflexivity. } rewrite app_nil_r in Hd. exact Hd. }
  assert (is_bytes (lay_frame p (header_size p) w)) as Hb by (apply lay_frame_ok; try assumption; eapply recs_travel_ok; eauto).
  set (f := lay_frame p (header_size p) w) in *. set (r := fill l1 _ (gen_record oid liq lat lon)) in *.
  assert (length f = 65%nat) as Hlen.
  { unfold f. assert (forall n, length (le16 n) = 2%nat) as H2 by reflexivity.
    unfold lay_frame, lay_header, opt. cbv zeta. change (p_RTE p) with "0"%string. destruct (string_dec "0" "1"); [discriminate|].
    rewrite !app_length. destruct w as [|x w]; [discriminate|]. rewrite !app_length, Hw, !H2. reflexivity. }
  assert (sendable f) as Hsend.
  { exists None, p, w. repeat (split; [assumption || reflexivity|]). split.
    - unfold outgoing. exists w. split; [apply (C14_records_of_known_subrecords _ _ _ Ht)|left; split; reflexivity].
    - split; [eapply recs_travel_ok; eauto|]. split; [rewrite Hw; reflexivity|exact He]. }
  exists f. split; [exact He|]. split; [rewrite Hlen; reflexivity|]. intros cs Hcs evs o Hr.
  assert (p_PID (received p w (BSds [r])) = Z.to_N pid) as Hpidn
    by (change (Z.to_N (pid mod 65536) = Z.to_N pid); rewrite Z.mod_small by lia; reflexivity).
  assert (word_at f 7 = Z.to_N pid) as Hw7 by (destruct (decode_accepted _ _ _ _ Hb bytes_ok_nil (Hd [])) as (_ & Hx & _); congruence).
  assert (p_PT (received p w (BSds [r])) = 1 /\ p_SFRD (received p w (BSds [r])) = Some (BSds [r])) as [HPT HSF] by (split; reflexivity).
  set (q := received p w (BSds [r])) in *. clearbody q. clearbody p f.
  destruct (sendable_frame f [] Hsend) as (H0 & H1 & H2). rewrite app_nil_r in H0, H1.
  apply (C40_framing_partial [f] [] [] StopEof cs) in Hr;
    [|repeat constructor; [assumption|rewrite Hlen; discriminate]|constructor|cbn [concat]; rewrite !app_nil_r; assumption].
  destruct Hr as (oc & Hr & ->). change (([f] ++ [])%list) with [f] in Hr. cbn [handle_all] in Hr.
  assert (no_confirmation [r]) as Hnc.
  { intros x [<-|[]] (d & [<-|[<-|[]]] & H); exact H. }
  assert (forall evs o, runs (handle_packet 0 f) evs o -> o = Some (Z.to_N oid) /\ exists nav ok ack, evs = [EvSave nav ok; EvWrite ack]
     /\ nr_Client nav = Z.to_N oid /\ nr_PacketID nav = Z.to_N pid /\ nr_NavigationTimestamp nav = 1613781040%Z
     /\ nr_Latitude nav = coord_decode 90 (coord_encode 90 lat) /\ nr_Longitude nav = coord_decode 180 (coord_encode 180 lon)
     /\ nr_LiquidSensors nav = [mkLiquidSensor 1 "1" (Z.to_N liq) 0]
     /\ check_ack (Z.to_N pid) ack = VOk) as Hone.
  { clear evs oc Hr. intros evs o Hr. apply handled_runs in Hr. destruct Hr as (spare & now & Hs & Hr).
    destruct (handled_data _ _ _ _ _ _ _ _ _ Hb Hs (Hd spare) HPT HSF Hnc Hr) as (s & c' & sv & ack & rest & A1 & A2 & -> & A4 & A5 & ->).
    rewrite Hw7 in *. change (auth_seen [r]) with false in A5. cbv iota in A5. subst rest.
    assert (has_position r) as Hpos by (eexists; left; reflexivity).
    assert (client_after 0 r = Z.to_N oid) as Hcl.
    { change (client_after 0 r) with (or_else (if string_dec "1" "1" then Some (u32_of_Z oid) else None) 0).
      destruct (string_dec "1" "1"); [|congruence]. cbn [or_else]. unfold u32_of_Z. rewrite Z.mod_small by lia. reflexivity. }
    inversion A1 as [|? ? ? ? ? _ A1'|? ? ? ? ? Hno _]; subst; [|contradiction]. inversion A1'; subst. rewrite Hcl in *.
    split; [reflexivity|]. inversion A2 as [|? [nav ok] ? ? [A6 A7] A8]; subst. inversion A8; subst. cbn [fst snd] in *.
    exists nav, ok, ack. split; [reflexivity|]. split; [apply A6|]. split; [exact A7|].
    destruct (sv_pos _ _ _ _ A6) as (x & Hx & T1 & T2 & T3 & _). injection Hx as <-.
    split; [exact T1|]. split; [exact T2|]. split; [exact T3|]. split; [|eapply answer_checked; eassumption].
    pose proof (sv_liquid _ _ _ _ A6) as Hliqs. change (flat_map the_liquid (subs r)) with [gen_liquid liq] in Hliqs.
    inversion Hliqs as [|? ls ? ? (L1 & L2 & L3 & _) L4]; subst. inversion L4; subst.
    destruct (L3 (or_introl eq_refl)) as [L5 L6]. destruct ls as [n ef mm lt]. cbn [ls_SensorNumber ls_ErrorFlag ls_ValueMm ls_ValueL] in *.
    subst. cbn [gen_liquid ll_LLSD ll_LLSN ll_LLSEF]. unfold u32_of_Z. rewrite Z.mod_small by lia. reflexivity. }
  apply runs_pbind in Hr. destruct Hr as [(e1 & a & e2 & -> & R1 & R2)|[R1 ->]]; apply Hone in R1 as [Ho R1]; [|discriminate].
  inversion R2; subst. rewrite app_nil_r. split; [reflexivity|exact R1].
Qed.
End WithEnv.

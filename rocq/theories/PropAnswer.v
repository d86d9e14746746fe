(** C102: the bytes the receiver writes. *)
From Coq Require Import NArith ZArith Lia ZifyBool ZifyNat ZifyN String Ascii Bool List.
From Verif Require Import GoBase GoFloat Crc SubRecords Records Package Storage Server
  SpecBase SpecCrc SpecPkg SpecSub SpecRec SpecSrv SpecAns
  BaseFacts SubFacts SubMore RecordFacts DecodeFacts CrcFacts WireFacts PackageFacts PropRec PropPkg PropMore
  SrvFacts SrvLoop SrvPacket SrvConn.
Import ListNotations.
Open Scope N_scope.

Local Opaque le_bytes crc8 crc16.

Section WithEnv.
Context {E : Env}.

Lemma confirmations l : Forall rec_ranges l -> subs_travel (map confirm l) (flat_map confirmation l) (map confirm l).
Proof.
  induction 1 as [|r l Hr Hl IH]; [constructor|].
  cbn [map flat_map]. constructor; [|exact IH]. unfold confirm at 1.
  change (confirmation r) with ([0] ++ le16 3 ++ lay_response (mkSrResponse (s_RN r) 0))%list.
  apply (sub_tr SrRecordResponseType 3 (DResponse (mkSrResponse (s_RN r) 0)) 0 (lay_response (mkSrResponse (s_RN r) 0)) (DResponse (mkSrResponse (s_RN r) 0))).
  - constructor. constructor; cbn; [apply Hr|unfold is_u8; lia].
  - reflexivity.
  - left. reflexivity.
  - right. reflexivity.
Qed.
Lemma confirmations_length (l : list ServiceDataRecord) : length (flat_map confirmation l) = (6 * length l)%nat.
Proof. induction l as [|r l IH]; [reflexivity|]. cbn [flat_map]. rewrite app_length, IH. unfold confirmation, le16. cbn [app length]. lia. Qed.

Lemma response_frame_lay fdl pid b w : w <> [] ->
  lay_frame (resp_pkg fdl pid b) (header_size (resp_pkg fdl pid b)) w = response_frame ((pid + 1) mod 65536) w.
Proof. intros H. unfold lay_frame, response_frame. cbv zeta. destruct w; [congruence|]. reflexivity. Qed.

Lemma createPtResponse_bytes pid code svc l :
  pid < 65536 -> code < 256 -> svc < 256 -> Forall rec_ranges l -> N.of_nat (length l) <= 9362 ->
  createPtResponse pid code svc (map confirm l) = Ok (answer_bytes pid code svc l).
Proof.
  intros Hp Hc Hs Hl Hn.
  assert (exists rs w rs', recs_travel rs w rs' /\ N.of_nat (length w) < 60000
    /\ createPtResponse pid code svc (map confirm l) =
       (let s := mkPtResponse pid code (match rs with [] => None | _ => Some rs end) in
        do fdl <- PtResponse_length s ;; snd (pkg_encode None (resp_pkg fdl pid (BResp s))))
    /\ w = match l with [] => [] | _ => le16 (6 * N.of_nat (length l)) ++ [1; 0; 32; svc; svc] ++ flat_map confirmation l end)%go
    as (rs & w & rs' & Ht & Hw & -> & Hm).
  { destruct l as [|r l]; [exists [], [], []; split; [constructor|split; [reflexivity|split; reflexivity]]|].
    pose proof (confirmations _ Hl) as Ht. pose proof (subs_travel_encode _ _ _ Ht) as He.
    set (l0 := r :: l) in *. pose proof (confirmations_length l0) as Hw. set (w := flat_map confirmation l0) in *.
    assert (N.of_nat (length w) < 56176) as Hw2 by lia.
    exists [resp_rec (N.of_nat (length w)) svc (map confirm l0)], (lay_rec (resp_rec (N.of_nat (length w)) svc (map confirm l0)) w ++ [])%list.
    eexists. split; [|split; [|split]].
    - econstructor; [apply wf_resp_rec; assumption|exact Ht|lia|right; reflexivity|constructor].
    - rewrite app_nil_r, lay_rec_length_resp. lia.
    - unfold createPtResponse. change (map confirm l0) with (confirm r :: map confirm l). 
      change (confirm r :: map confirm l) with (map confirm l0).
      replace (rds_length (map confirm l0)) with (Ok (N.of_nat (length w))); [reflexivity|].
      destruct C18_length_is_encoded_size as (_ & H & _). rewrite H, He. unfold size_of. rewrite N.mod_small by lia. reflexivity.
    - rewrite app_nil_r. unfold lay_rec. rewrite Hw. replace (N.of_nat (6 * length l0)) with (6 * N.of_nat (length l0)) by lia. reflexivity. }
  cbv zeta. set (s := mkPtResponse pid code (match rs with [] => None | _ => Some rs end)).
  assert (PtResponse_length s = Ok (N.of_nat (length (le16 pid ++ [code] ++ w)))) as Hlen.
  { destruct C18_length_is_encoded_size as (_ & _ & _ & H). rewrite H.
    destruct (C14_records_of_known_subrecords _ _ _ Ht) as [He _].
    assert (PtResponse_encode s = Ok (le16 pid ++ [code] ++ w)%list) as ->.
    { unfold s, PtResponse_encode. cbn [pr_SDR pr_RPID pr_PR]. destruct rs as [|r rs].
      - inversion Ht; subst. rewrite bind_ok. rw16. reflexivity.
      - rewrite He, bind_ok. rw16. reflexivity. }
    unfold size_of. rewrite N.mod_small; [reflexivity|]. rewrite !app_length. unfold le16. cbn [length]. lia. }
  rewrite Hlen, bind_ok. set (fdl := N.of_nat _).
  destruct (resp_pkg_wf fdl pid (BResp s)) as (W1 & W2 & W3 & W4).
  unfold answer_bytes. rewrite <- Hm. rewrite <- (response_frame_lay fdl pid (BResp s)) by discriminate.
  assert (snd (pkg_encode None (resp_pkg fdl pid (BResp s))) = Ok (lay_frame (resp_pkg fdl pid (BResp s)) (header_size (resp_pkg fdl pid (BResp s))) (le16 pid ++ [code] ++ w))
   /\ pkg_decode None Package_zero (lay_frame (resp_pkg fdl pid (BResp s)) (header_size (resp_pkg fdl pid (BResp s))) (le16 pid ++ [code] ++ w)%list ++ []) []
     = DRet (received (resp_pkg fdl pid (BResp s)) (le16 pid ++ [code] ++ w)
               (BResp (mkPtResponse pid code (match rs with [] => None | _ => Some rs' end)))) 0 true) as [He _]; [|exact He].
  apply C01_response_packets_partial with (l := rs) (l' := rs'); try assumption; try reflexivity; [apply bytes_ok_nil|].
  change (header_size (resp_pkg fdl pid (BResp s))) with 11. lia.
Qed.

Lemma result_pkg_bytes pid : result_pkg pid = authorized_bytes pid.
Proof.
  destruct (createSrResultCode_packet pid) as (b & _ & (h & Hb & Hh) & _ & ->). subst h b. unfold authorized_bytes, response_frame. cbv zeta.
  reflexivity.
Qed.

Lemma last_svc_last l : forall svc, last_svc svc l = last (map s_SST l) svc.
Proof.
  induction l as [|r l IH]; intros svc; [reflexivity|]. cbn [last_svc fold_left map]. unfold last_svc in IH. rewrite IH.
  destruct l as [|r' l]; [reflexivity|]. cbn [map]. generalize (map s_SST l) (s_SST r'). clear. intros l. induction l as [|a l IH]; intros x; [reflexivity|].
  cbn [last]. apply IH.
Qed.

(** ** C102 *)
Theorem C102_answer_bytes : forall spare now client f evs o, is_bytes f -> is_bytes spare -> (10 <= length f)%nat ->
  handled spare now client f evs o -> sent spare f (writes evs).
Proof.
  intros spare now client c evs o Hb Hs H10 H.
  destruct (pkg_decode None Package_zero c spare) as [p code ok| |] eqn:Hd.
  2: { destruct (handled_panic _ _ _ _ _ _ Hd H) as [-> _]. constructor. assumption. }
  2: { exfalso. revert Hd. apply C09_packet_decoding_terminates. assumption. }
  destruct ok.
  - destruct (decode_accepted _ _ _ _ Hb Hs Hd) as (Hcode & Hpid & Hpid' & Hpt & Hbody).
    destruct Hpt as [Hpt|Hpt].
    { assert (p_PT p <> 1) as Hpt' by lia. destruct (handled_response _ _ _ _ _ _ _ _ Hb Hs Hd Hpt' H) as [-> ->]. eapply st_response; eauto. }
    destruct (Hbody Hpt) as (l & Hl & Hr & Hlen).
    destruct (first_confirmation l) as [Hn|(l1 & r & l2 & -> & H1 & H2)].
    2: { destruct (handled_confirmation _ _ _ _ _ _ _ _ _ _ _ Hb Hs Hd Hpt Hl H1 H2 H) as (s & c' & sv & ds & d & ds' & A1 & A2 & -> & _).
         rewrite writes_save_events. eapply st_confirms; eauto. intros Hn. apply (Hn r); [apply in_elt|assumption]. }
    unfold handled, handle_packet in H. rewrite Hd, Hpt, Hl, Hpid, Hcode in H. change (1 =? PtAppdataPacket) with true in H. cbv iota in H. rewrite Hpid in Hpid'.
    rewrite <- (app_nil_r l) in H. apply recs_loop_app in H; [|assumption].
    destruct H as (s & c' & sv & evs2 & H1 & H2 & -> & H4). cbn [recs_loop app] in H4.
    rewrite createPtResponse_bytes in H4; [|assumption|reflexivity|apply last_svc_lt; [reflexivity|assumption]|assumption|assumption].
    change (last_svc 0 l) with (last_svc 0 l) in H4. rewrite last_svc_last in H4. fold (last_service l) in H4. rewrite result_pkg_bytes in H4.
    inversion H4 as [| | | | |b' k evs' o' H5]; subst. rewrite writes_app, writes_save_events. cbn [app writes flat_map].
    destruct (auth_seen l) eqn:Hauth.
    + change (0 <? len (authorized_bytes (word_at c 7))) with true in H5. inversion H5 as [| | | | |b' k evs'' o' H6]; subst. inversion H6; subst.
      eapply st_authorized; eauto. apply auth_seen_true. assumption.
    + inversion H5; subst. eapply st_data; eauto. intros Ha. apply auth_seen_true in Ha. congruence.
  - destruct (decode_pid _ _ _ _ _ Hb H10 Hd) as [Hp Hc]. pose proof (word_lt c 7 Hb) as Hw.
    unfold handled, handle_packet in H. rewrite Hd, Hp in H.
    pose proof (createPtResponse_bytes (word_at c 7) code 0 [] Hw Hc eq_refl (Forall_nil _)) as He. cbn [map] in He.
    rewrite He in H by (cbn; lia). inversion H as [| | | | |b' k evs' o' H1]; subst. inversion H1; subst. eapply st_rejected; eauto.
Qed.

Lemma session_sent fs : Forall (fun f => is_bytes f /\ (10 <= length f)%nat /\ byte_at f 0 = 1) fs ->
  forall c es o, session c fs es o -> sent_all fs (writes (concat es)).
Proof.
  induction 1 as [|f fs (Hb & H10 & _) Hfs IH]; intros c es o H.
  - inversion H; subst. constructor.
  - inversion H as [|? ? ? evs H1|? ? ? evs c1 es' ? H1 H2]; subst.
    + apply handled_runs in H1. destruct H1 as (spare & now & Hs & H1).
      pose proof (handled_crash _ _ _ _ _ Hb Hs H10 H1) as Hd. destruct (handled_panic _ _ _ _ _ _ Hd H1) as [-> _].
      econstructor; eassumption.
    + apply handled_runs in H1. destruct H1 as (spare & now & Hs & H1). cbn [concat]. rewrite writes_app.
      apply (sa_frame spare); [assumption| |eapply C102_answer_bytes; eassumption|eapply IH; eassumption].
      intros Hd. destruct (handled_panic _ _ _ _ _ _ Hd H1) as [_ Ho]. discriminate.
Qed.

Theorem C102_whole_connections : forall cs fs e evs o, is_bytes (concat cs) -> cuts (concat cs) fs e ->
  runs (handle_conn cs) evs o -> sent_all fs (writes evs).
Proof.
  intros cs fs e evs o Hb Hc H. apply (conn_session _ _ _ _ _ _ Hc eq_refl) in H. destruct H as (es & oc & H & -> & _).
  eapply session_sent; [|exact H]. eapply cuts_frames; eassumption.
Qed.

End WithEnv.

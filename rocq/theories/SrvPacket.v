(** Facts about the receiver: the packets it builds, and the handling of one packet. *)
From Coq Require Import NArith ZArith Lia ZifyBool ZifyNat ZifyN String Ascii Bool List.
From Verif Require Import GoBase GoFloat Crc SubRecords Records Package Storage Server
  SpecBase SpecCrc SpecPkg SpecSub SpecRec SpecSrv
  BaseFacts SubFacts SubMore RecordFacts DecodeFacts CrcFacts WireFacts PackageFacts PropRec PropPkg PropMore SrvFacts SrvLoop.
Import ListNotations.
Open Scope N_scope.

Local Opaque le_bytes crc8 crc16.

Section WithEnv.
Context {E : Env}.

(** ** Answers *)
Lemma lay_frame_ok p b : wf_flags p -> wf_nums p -> is_bytes b -> is_bytes (lay_frame p (header_size p) b).
Proof.
  intros Hf Hn Hb.
  assert (header_size p < 256) by (unfold header_size; destruct (string_dec _ _); lia).
  pose proof (lay_header_ok p (header_size p) (N.of_nat (length b)) Hf Hn H) as Hh.
  unfold lay_frame. cbv zeta. set (h := lay_header _ _ _) in *.
  apply bytes_ok_app. split; [assumption|]. apply bytes_ok_app. split.
  - apply bytes_ok_cons. split; [|apply bytes_ok_nil]. rewrite <- crc8_checksum by assumption. apply crc8_lt. assumption.
  - destruct b; [apply bytes_ok_nil|]. apply bytes_ok_app. split; [assumption|apply le16_ok].
Qed.

Lemma confirms_travel l : Forall rec_ranges l ->
  exists w, subs_travel (map confirm l) w (map confirm l) /\ length w = (6 * length l)%nat.
Proof.
  induction 1 as [|r l Hr Hl (w & IH & IHl)]; [exists []; split; [constructor|reflexivity]|].
  cbn [map]. eexists. split.
  - constructor; [|exact IH]. unfold confirm at 1. 
    apply (sub_tr SrRecordResponseType 3 (DResponse (mkSrResponse (s_RN r) 0)) 0 (lay_response (mkSrResponse (s_RN r) 0)) (DResponse (mkSrResponse (s_RN r) 0))).
    + constructor. constructor; cbn; [apply Hr|unfold is_u8; lia].
    + reflexivity.
    + left. reflexivity.
    + right. reflexivity.
  - rewrite app_length, IHl. unfold lay_response, le16. cbn [app length]. lia.
Qed.

Definition resp_rec (rl svc : N) (resps : RecordDataSet) : ServiceDataRecord :=
  mkSDR rl 1 "0" "0" "1" "00" "0" "0" "0" 0 0 t_zero svc svc resps.
Lemma wf_resp_rec rl svc resps : svc < 256 -> wf_rec (resp_rec rl svc resps).
Proof.
  intros H. constructor; cbn; unfold is_u8, is_u16, is_flag, is_flag2; auto; try lia;
    destruct (string_dec _ _); try discriminate; reflexivity.
Qed.

Definition resp_pkg (fdl pid : N) (b : Body) : Package :=
  mkPackage 1 0 "00" "0" "00" "0" "00" 11 0 fdl (u16 (pid + 1)) PtResponsePacket 0 0 0 0 (Some b) 0.
Lemma resp_pkg_wf fdl pid b : wf_flags (resp_pkg fdl pid b) /\ wf_nums (resp_pkg fdl pid b) /\ unrouted_zero (resp_pkg fdl pid b)
  /\ header_length_ok (resp_pkg fdl pid b).
Proof.
  split; [|split; [|split]].
  - constructor; cbn; unfold is_flag, is_flag2; auto.
  - constructor; cbn; unfold is_u8, is_u16, u16, PtResponsePacket; try lia.
  - intros _. auto.
  - right. reflexivity.
Qed.

Lemma lay_rec_length_resp rl svc resps w : length (lay_rec (resp_rec rl svc resps) w) = (7 + length w)%nat.
Proof. unfold lay_rec. rewrite !app_length. reflexivity. Qed.

Lemma createPtResponse_answer pid code svc l :
  pid < 65536 -> code < 256 -> svc < 256 -> Forall rec_ranges l -> N.of_nat (length l) <= 9362 ->
  exists b, createPtResponse pid code svc (map confirm l) = Ok b /\ answer pid code l b.
Proof.
  intros Hp Hc Hs Hl Hn.
  assert (exists rs w rs', recs_travel rs w rs' /\ N.of_nat (length w) < 60000
    /\ createPtResponse pid code svc (map confirm l) =
       (let s := mkPtResponse pid code (match rs with [] => None | _ => Some rs end) in
        do fdl <- PtResponse_length s ;; snd (pkg_encode None (resp_pkg fdl pid (BResp s))))
    /\ match l with [] => rs = [] | _ => exists r r', rs = [r] /\ rs' = [r'] /\ s_RD r' = map confirm l end)%go
    as (rs & w & rs' & Ht & Hw & -> & Hm).
  { destruct l as [|r l]; [exists [], [], []; split; [constructor|split; [reflexivity|split; reflexivity]]|].
    destruct (confirms_travel _ Hl) as (w & Ht & Hw). pose proof (subs_travel_encode _ _ _ Ht) as He.
    set (l0 := r :: l) in *.
    assert (N.of_nat (length w) < 56176) as Hw2 by lia.
    exists [resp_rec (N.of_nat (length w)) svc (map confirm l0)], (lay_rec (resp_rec (N.of_nat (length w)) svc (map confirm l0)) w ++ [])%list.
    eexists. split; [|split; [|split]].
    - econstructor; [apply wf_resp_rec; assumption|exact Ht|lia|right; reflexivity|constructor].
    - rewrite app_nil_r, lay_rec_length_resp. lia.
    - unfold createPtResponse. change (map confirm l0) with (confirm r :: map confirm l). 
      change (confirm r :: map confirm l) with (map confirm l0).
      replace (rds_length (map confirm l0)) with (Ok (N.of_nat (length w))); [reflexivity|].
      destruct C18_length_is_encoded_size as (_ & H & _). rewrite H, He. unfold size_of. rewrite N.mod_small by lia. reflexivity.
    - eexists. eexists. split; [reflexivity|]. split; reflexivity. }
  cbv zeta. set (s := mkPtResponse pid code (match rs with [] => None | _ => Some rs end)).
  assert (PtResponse_length s = Ok (N.of_nat (length (le16 pid ++ [code] ++ w)))) as Hlen.
  { destruct C18_length_is_encoded_size as (_ & _ & _ & H). rewrite H.
    destruct (C14_records_of_known_subrecords _ _ _ Ht) as [He _].
    assert (PtResponse_encode s = Ok (le16 pid ++ [code] ++ w)%list) as ->.
    { unfold s, PtResponse_encode. cbn [pr_SDR pr_RPID pr_PR]. destruct rs as [|r rs].
      - inversion Ht; subst. rewrite bind_ok. rw16. reflexivity.
      - rewrite He, bind_ok. rw16. reflexivity. }
    unfold size_of. rewrite N.mod_small; [reflexivity|]. rewrite !app_length. unfold le16. cbn [length]. lia. }
  rewrite Hlen, bind_ok. set (fdl := N.of_nat _).
  destruct (resp_pkg_wf fdl pid (BResp s)) as (W1 & W2 & W3 & W4).
  assert (forall spare, snd (pkg_encode None (resp_pkg fdl pid (BResp s))) = Ok (lay_frame (resp_pkg fdl pid (BResp s)) (header_size (resp_pkg fdl pid (BResp s))) (le16 pid ++ [code] ++ w))
   /\ pkg_decode None Package_zero (lay_frame (resp_pkg fdl pid (BResp s)) (header_size (resp_pkg fdl pid (BResp s))) (le16 pid ++ [code] ++ w)%list ++ []) spare
     = DRet (received (resp_pkg fdl pid (BResp s)) (le16 pid ++ [code] ++ w)
               (BResp (mkPtResponse pid code (match rs with [] => None | _ => Some rs' end)))) 0 true) as Hrt.
  { intros spare. apply C01_response_packets_partial with (l := rs) (l' := rs'); try assumption; try reflexivity; [apply bytes_ok_nil|].
    change (header_size (resp_pkg fdl pid (BResp s))) with 11. lia. }
  destruct (Hrt []) as [-> _]. eexists. split; [reflexivity|]. split.
  - apply lay_frame_ok; try assumption.
    apply bytes_ok_app; split; [apply le16_ok|]. apply bytes_ok_app; split; [|eapply recs_travel_ok; eauto].
    apply bytes_ok_cons; split; [assumption|apply bytes_ok_nil].
  - intros spare. destruct (Hrt spare) as [_ Hd]. rewrite app_nil_r in Hd. eexists. eexists. split; [exact Hd|].
    split; [reflexivity|]. split; [reflexivity|]. split; [reflexivity|].
    destruct l as [|r l]; [rewrite Hm; reflexivity|]. destruct Hm as (r1 & r2 & -> & -> & H). exists r2. split; [reflexivity|]. exact H.
Qed.
Lemma createSrResultCode_packet pid : exists b, createSrResultCode pid 0 = Ok b /\ result_packet pid 0 b /\ b <> [] /\ result_pkg pid = b.
Proof.
  set (rds := [mkRecordData SrResultCodeType 1 (Some (DResultCode (mkSrResultCode 0)))]).
  set (sfd := [resp_rec 4 1 rds]).
  assert (createSrResultCode pid 0 = snd (pkg_encode None (resp_pkg 11 pid (BSds sfd)))) as H by reflexivity.
  destruct (resp_pkg_wf 11 pid (BSds sfd)) as (W1 & W2 & W3 & W4).
  pose proof (C02_wire_layout None (resp_pkg 11 pid (BSds sfd)) (result_code_body 0)) as Hl.
  rewrite header_length_size in Hl by assumption. change (header_size (resp_pkg 11 pid (BSds sfd))) with 11 in Hl.
  eexists. assert (createSrResultCode pid 0 = Ok (lay_frame (resp_pkg 11 pid (BSds sfd)) 11 (result_code_body 0))) as H2.
  { rewrite H. apply Hl; try assumption.
    - unfold outgoing. exists (result_code_body 0). split; [reflexivity|left; split; reflexivity].
    - repeat constructor.
    - reflexivity. }
  split; [exact H2|]. split; [|split; [discriminate|unfold result_pkg; rewrite H2; reflexivity]].
  eexists. split; [|reflexivity]. reflexivity.
Qed.

(** ** Decoding a received packet *)
Ltac hb := repeat rewrite hdr_byte; cbv beta zeta.
Ltac hw := repeat (rewrite rd_num_tmp_2 by reflexivity; unfold hdr at 1); cbv beta iota zeta; hb.

Lemma decode_pid_short c spare : bytes_ok c -> (10 <= length c)%nat -> (length c < wire_header_size c)%nat ->
  exists p, pkg_decode None Package_zero c spare = DRet p 131 false /\ p_PID p = word_at c 7.
Proof.
  intros Hb H10 Hl. unfold pkg_decode. set (all := (_ ++ spare)%list). clearbody all.
  destruct c as [|x0 c]; [cbn [length] in H10; lia|]. hb.
  destruct c as [|x1 c]; [cbn [length] in H10; lia|]. hb.
  destruct c as [|x2 c]; [cbn [length] in H10; lia|]. hb.
  assert (x2 < 256) as H2 by (repeat (apply bytes_ok_cons in Hb as [? Hb]); assumption).
  destruct (digits8 x2 H2) as (-> & -> & -> & -> & ->).
  destruct c as [|x3 c]; [cbn [length] in H10; lia|]. hb.
  destruct c as [|x4 c]; [cbn [length] in H10; lia|]. hb.
  destruct c as [|x5 c]; [cbn [length] in H10; lia|].
  destruct c as [|x6 c]; [cbn [length] in H10; lia|].
  hw.
  destruct c as [|x7 c]; [cbn [length] in H10; lia|].
  destruct c as [|x8 c]; [cbn [length] in H10; lia|].
  hw.
  destruct c as [|x9 c]; [cbn [length] in H10; lia|]. hb.
  unfold wire_header_size, routed in Hl. cbn [byte_at nth] in Hl.
  cbn [p_RTE set_PRV set_SKID set_PRF set_RTE set_ENA set_CMP set_PR set_HL set_HE set_FDL set_PID set_PT].
  rewrite is1_digit1. destruct (N.testbit x2 5).
  - destruct c as [|x10 c]; [eexists; split; reflexivity|].
    destruct c as [|x11 c].
    { destruct (rd_num_tmp_1 [x7; x8] x10 eq_refl) as (n & t & -> & Ht). eexists; split; reflexivity. }
    hw.
    destruct c as [|x12 c]; [eexists; split; reflexivity|].
    destruct c as [|x13 c].
    { destruct (rd_num_tmp_1 [x10; x11] x12 eq_refl) as (n & t & -> & Ht). eexists; split; reflexivity. }
    hw.
    destruct c as [|x14 c]; [eexists; split; reflexivity|]. hb.
    destruct c as [|x15 c]; [eexists; split; reflexivity|]. cbn [length] in Hl. lia.
  - destruct c as [|x10 c]; [eexists; split; reflexivity|]. cbn [length] in Hl. lia.
Qed.

Lemma decode_pid c spare p code ok : bytes_ok c -> (10 <= length c)%nat ->
  pkg_decode None Package_zero c spare = DRet p code ok -> p_PID p = word_at c 7 /\ code < 256.
Proof.
  intros Hb H10 Hd. destruct (Nat.lt_ge_cases (length c) (wire_header_size c)) as [Hl|Hl].
  - destruct (decode_pid_short c spare Hb H10 Hl) as (p' & H1 & H2). rewrite H1 in Hd. injection Hd as -> <- <-.
    split; [assumption|reflexivity].
  - rewrite pkg_decode_full in Hd by assumption. cbv zeta in Hd.
    pose proof (hdr_of_read Package_zero c) as Hr. destruct Hr. set (q := hdr_of Package_zero c) in *. clearbody q.
    destruct (go_slice _ _ _); [|discriminate]. destruct (negb _); [injection Hd as <- <- _; split; [assumption|reflexivity]|].
    destruct (_ =? _)%nat; [injection Hd as <- <- _; split; [assumption|reflexivity]|].
    destruct (kind_of c); [|injection Hd as <- <- _; split; [assumption|reflexivity]].
    destruct (opened None c); [|injection Hd as <- <- _; split; [assumption|reflexivity]].
    destruct (_ <=? _)%nat; [injection Hd as <- <- _; split; [assumption|reflexivity]|].
    destruct (crc_area c (c ++ spare)); [|discriminate].
    destruct (_ =? _); injection Hd as <- <- _; split; try assumption; reflexivity.
Qed.

Lemma word_lt c i : bytes_ok c -> word_at c i < 65536.
Proof. intros Hb. pose proof (byte_at_lt c i Hb). pose proof (byte_at_lt c (S i) Hb). unfold word_at, byte_at in *. lia. Qed.

(** An accepted packet: its code is 0, and an APPDATA packet has records in range, not too many
    of them for the answer. *)
Lemma decode_accepted c spare p code : is_bytes c -> is_bytes spare -> 
  pkg_decode None Package_zero c spare = DRet p code true ->
  code = 0 /\ p_PID p = word_at c 7 /\ p_PID p < 65536 /\ (p_PT p = 0 \/ p_PT p = 1) /\
  (p_PT p = 1 -> exists l, p_SFRD p = Some (BSds l) /\ Forall rec_ranges l /\ N.of_nat (length l) <= 9362).
Proof.
  intros Hb Hs Hd. assert (is_bytes (c ++ spare)) as Hbs by (apply bytes_ok_app; auto).
  apply C11_accepted_frames in Hd; [|assumption].
  destruct Hd as (-> & Hr & _ & _ & _ & Hsp & _ & _ & _ & _ & _ & body & Hbody & plain & Hp & Ha).
  pose proof (word_lt c 7 Hb) as Hw. destruct Hr.
  split; [reflexivity|]. split; [assumption|]. split; [congruence|]. split; [destruct Ha as [(Ha & _)|(Ha & _)]; rewrite hr_PT, Ha; auto|].
  intros Ht. rewrite hr_PT in Ht. destruct Ha as [(_ & l & -> & Hl)|(Ha & _)]; [|congruence].
  exists l. split; [assumption|].
  assert (plain = declared_body c) as ->.
  { destruct Hp as [(_ & Hp)|(_ & k & Hk & _)]; [assumption|discriminate]. }
  assert (bytes_ok (declared_body c)) as Hdb.
  { unfold declared_body. apply bytes_ok_app. split; [apply bytes_ok_firstn; apply bytes_ok_skipn; assumption|]. apply zeros_ok. }
  destruct (recs_ranges _ _ Hdb Hl) as [H1 H2]. split; [assumption|].
  assert (length (declared_body c) = N.to_nat (word_at c 5)) as Hdl.
  { unfold declared_body. rewrite app_length, firstn_length, repeat_length. lia. }
  pose proof (word_lt c 5 Hb). lia.
Qed.

(** ** Handling one packet *)
Lemma handled_runs client c evs o :
  runs (handle_packet client c) evs o <-> exists spare now, is_bytes spare /\ handled spare now client c evs o.
Proof.
  unfold handled, handle_packet. split.
  - intros H. inversion H as [| | |s k evs' o' Hs H1| |]; subst. inversion H1 as [| |z k evs' o' H2| | |]; subst. eauto.
  - intros (spare & now & Hs & H). econstructor; [exact Hs|]. econstructor. exact H.
Qed.

(** A packet that does not decode. *)
Lemma handled_failure spare now client c evs o p code : is_bytes c -> (10 <= length c)%nat ->
  pkg_decode None Package_zero c spare = DRet p code false ->
  handled spare now client c evs o ->
  o = Some client /\ exists b, evs = [EvWrite b] /\ answer (word_at c 7) code [] b.
Proof.
  intros Hb Hl Hd H. unfold handled, handle_packet in H. rewrite Hd in H.
  destruct (decode_pid _ _ _ _ _ Hb Hl Hd) as [Hp Hc]. pose proof (word_lt c 7 Hb) as Hw. rewrite Hp in H.
  destruct (createPtResponse_answer (word_at c 7) code 0 [] Hw Hc) as (b & He & Ha); [reflexivity|constructor|cbn; lia|].
  cbn [map] in He. rewrite He in H. inversion H as [| | | | |b' k evs' o' H1]; subst. inversion H1; subst. eauto.
Qed.

(** A response packet. *)
Lemma handled_response spare now client c evs o p code : is_bytes c -> is_bytes spare ->
  pkg_decode None Package_zero c spare = DRet p code true -> p_PT p <> 1 ->
  handled spare now client c evs o -> evs = [] /\ o = Some client.
Proof.
  intros Hb Hs Hd Hp H. unfold handled, handle_packet in H. rewrite Hd in H.
  destruct (N.eqb_spec (p_PT p) PtAppdataPacket) as [He|He]; [contradiction|]. inversion H; subst. auto.
Qed.

Lemma last_svc_lt svc l : svc < 256 -> Forall rec_ranges l -> last_svc svc l < 256.
Proof.
  intros Hs Hl. revert svc Hs. induction Hl as [|r l Hr Hl IH]; intros svc Hs; [assumption|]. cbn [last_svc fold_left].
  apply IH. apply Hr.
Qed.

(** A data packet without record confirmations. *)
Lemma handled_data spare now client c evs o p code l : is_bytes c -> is_bytes spare ->
  pkg_decode None Package_zero c spare = DRet p code true -> p_PT p = 1 -> p_SFRD p = Some (BSds l) ->
  no_confirmation l ->
  handled spare now client c evs o ->
  exists s c' sv ack rest, to_save client l s c' /\ Forall2 (is_saved (word_at c 7) now) s sv
    /\ evs = (save_events sv ++ map EvWrite (ack :: rest))%list
    /\ answer (word_at c 7) 0 l ack
    /\ (if auth_seen l then exists b, rest = [b] /\ result_packet (word_at c 7) 0 b else rest = [])
    /\ o = Some c'.
Proof.
  intros Hb Hs Hd Hp Hl Hn H.
  destruct (decode_accepted _ _ _ _ Hb Hs Hd) as (Hcode & Hpid & Hpid' & _ & Hbody). destruct (Hbody Hp) as (l' & Hl' & Hr & Hlen).
  rewrite Hl in Hl'. injection Hl' as <-.
  unfold handled, handle_packet in H. rewrite Hd, Hp, Hl, Hpid, Hcode in H. cbn [N.eqb Pos.eqb PtAppdataPacket] in H. change (1 =? PtAppdataPacket) with true in H. cbv iota in H. rewrite Hpid in Hpid'.
  rewrite <- (app_nil_r l) in H. apply recs_loop_app in H; [|assumption].
  destruct H as (s & c' & sv & evs2 & H1 & H2 & H3 & H4). cbn [recs_loop app] in H4.
  destruct (createPtResponse_answer (word_at c 7) 0 (last_svc 0 l) l Hpid') as (ack & He & Ha); [reflexivity|apply last_svc_lt; [reflexivity|assumption]|assumption|assumption|].
  rewrite He in H4. inversion H4 as [| | | | |b' k evs' o' H5]; subst.
  destruct (createSrResultCode_packet (word_at c 7)) as (b & _ & Hb1 & Hb2 & Hb3). rewrite Hb3 in H5.
  destruct (auth_seen l) eqn:Hauth.
  - replace (0 <? len b) with true in H5. 2: { symmetry. apply N.ltb_lt. unfold len. destruct b; [congruence|cbn [length]; lia]. }
    inversion H5 as [| | | | |b' k evs'' o' H6]; subst. inversion H6; subst.
    exists s, c', sv, ack, [result_pkg (word_at c 7)]. repeat split; try assumption; try (eexists; split; [reflexivity|assumption]); apply Ha.
  - inversion H5; subst. exists s, c', sv, ack, []. repeat split; try assumption; apply Ha.
Qed.

(** A data packet with a record confirmation: what comes before it is processed, nothing is
    answered. *)
Lemma handled_confirmation spare now client c evs o p code l1 r l2 : is_bytes c -> is_bytes spare ->
  pkg_decode None Package_zero c spare = DRet p code true -> p_PT p = 1 -> p_SFRD p = Some (BSds (l1 ++ r :: l2)) ->
  no_confirmation l1 -> confirms_something r ->
  handled spare now client c evs o ->
  exists s c' sv ds d ds', to_save client l1 s c' /\ Forall2 (is_saved (word_at c 7) now) s sv
    /\ evs = save_events sv
    /\ subs r = (ds ++ d :: ds')%list /\ (forall x, In x ds -> ~ is_response x) /\ is_response d
    /\ o = Some (or_else (identity r ds) c').
Proof.
  intros Hb Hs Hd Hp Hl Hn Hr H.
  destruct (decode_accepted _ _ _ _ Hb Hs Hd) as (Hcode & Hpid & Hpid' & _ & _).
  unfold handled, handle_packet in H. rewrite Hd, Hp, Hl, Hpid in H. change (1 =? PtAppdataPacket) with true in H. cbv iota in H.
  apply recs_loop_app in H; [|assumption]. destruct H as (s & c' & sv & evs2 & H1 & H2 & H3 & H4).
  cbn [recs_loop] in H4. cbv zeta in H4. rewrite confirms_b, subs_sdata in Hr.
  match type of H4 with context [subs_loop ?a ?b ?d ?e] => destruct (subs_loop_stop a b d e Hr) as (st' & Hst); rewrite Hst in H4 end.
  inversion H4; subst. apply subs_loop_cut in Hst. destruct Hst as (ds & d & ds' & C1 & C2 & C3 & C4).
  exists s, c', sv, ds, d, ds'. rewrite app_nil_r. repeat (split; [assumption || reflexivity|]).
  rewrite C4. cbn [rs_client]. unfold identity, is1, or_else.
  destruct (last_of the_tid ds); [reflexivity|]. destruct (String.eqb_spec (s_OBFE r) "1"), (string_dec (s_OBFE r) "1"); congruence.
Qed.

(** Every list of records is without confirmations, or has a first one. *)
Lemma first_confirmation (l : list ServiceDataRecord) :
  no_confirmation l
  \/ exists l1 r l2, l = (l1 ++ r :: l2)%list /\ no_confirmation l1 /\ confirms_something r.
Proof.
  induction l as [|r l IH]; [left; intros r []|].
  destruct (existsb is_respb (subs r)) eqn:Hr.
  - right. exists [], r, l. split; [reflexivity|]. split; [intros x []|]. apply confirms_b. assumption.
  - assert (~ confirms_something r) as Hr' by (rewrite confirms_b; congruence).
    destruct IH as [IH|(l1 & r' & l2 & -> & H1 & H2)].
    + left. intros x [<-|Hx]; auto.
    + right. exists (r :: l1), r', l2. split; [reflexivity|]. split; [|assumption]. intros x [<-|Hx]; auto.
Qed.

(** The only way to crash is a panic of Decode. *)
Lemma handled_crash spare now client c evs : is_bytes c -> is_bytes spare -> (10 <= length c)%nat ->
  handled spare now client c evs None -> pkg_decode None Package_zero c spare = DPanic.
Proof.
  intros Hb Hs H10 H. destruct (pkg_decode None Package_zero c spare) as [p code ok| |] eqn:Hd; [|reflexivity|].
  - exfalso. destruct ok.
    + destruct (N.eq_dec (p_PT p) 1) as [Hp|Hp].
      * destruct (decode_accepted _ _ _ _ Hb Hs Hd) as (_ & _ & _ & _ & Hbody). destruct (Hbody Hp) as (l & Hl & _).
        destruct (first_confirmation l) as [Hn|(l1 & r & l2 & -> & H1 & H2)].
        -- destruct (handled_data _ _ _ _ _ _ _ _ _ Hb Hs Hd Hp Hl Hn H) as (? & ? & ? & ? & ? & _ & _ & _ & _ & _ & Ho). discriminate.
        -- destruct (handled_confirmation _ _ _ _ _ _ _ _ _ _ _ Hb Hs Hd Hp Hl H1 H2 H) as (? & ? & ? & ? & ? & ? & _ & _ & _ & _ & _ & _ & Ho). discriminate.
      * destruct (handled_response _ _ _ _ _ _ _ _ Hb Hs Hd Hp H) as [_ Ho]. discriminate.
    + destruct (handled_failure _ _ _ _ _ _ _ _ Hb H10 Hd H) as [Ho _]. discriminate.
  - exfalso. revert Hd. apply C09_packet_decoding_terminates. assumption.
Qed.

End WithEnv.

(** Properties C40-C61 of the receiver: packets meeting the hypotheses of PropSrv and PropSrvMore, and
    packets for which the full properties fail. *)
From Coq Require Import NArith ZArith Lia ZifyBool ZifyNat ZifyN String Ascii Bool List.
From Verif Require Import GoBase GoFloat Crc SubRecords Records Package Storage Server
  SpecBase SpecCrc SpecPkg SpecSub SpecRec SpecSrv
  BaseFacts SubFacts SubMore RecordFacts DecodeFacts CrcFacts WireFacts PackageFacts PropSub PropRec PropPkg PropMore PropCrc
  SrvFacts SrvLoop SrvPacket SrvConn PropSrv PropSrvMore ConcreteEnv PropPkgEx.
Import ListNotations.
Open Scope N_scope.

(** Two records: a position of object 5 with a liquid level and both parts of a packet number;
    another counter. *)
Definition frame_pos : list N := [1; 0; 0; 11; 0; 73; 0; 7; 0; 1; 234; 48; 0; 1; 0; 1; 5; 0; 0; 0; 2; 2; 16; 21; 0; 232; 3; 0; 0; 0; 0; 0; 0; 0; 0; 0; 0; 0; 60; 0; 44; 1; 0; 0; 0; 0; 27; 7; 0; 33; 0; 0; 0; 101; 205; 29; 25; 4; 0; 110; 3; 2; 1; 25; 4; 0; 111; 4; 0; 0; 7; 0; 2; 0; 0; 2; 2; 25; 4; 0; 1; 77; 0; 0; 38; 17].
(** The same, in the south and west. *)
Definition frame_west : list N := [1; 0; 0; 11; 0; 73; 0; 7; 0; 1; 234; 48; 0; 1; 0; 1; 5; 0; 0; 0; 2; 2; 16; 21; 0; 232; 3; 0; 0; 0; 0; 0; 0; 0; 0; 0; 0; 96; 60; 0; 44; 1; 0; 0; 0; 0; 27; 7; 0; 33; 0; 0; 0; 101; 205; 29; 25; 4; 0; 110; 3; 2; 1; 25; 4; 0; 111; 4; 0; 0; 7; 0; 2; 0; 0; 2; 2; 25; 4; 0; 1; 77; 0; 0; 206; 80].
(** A terminal identity, then a position. *)
Definition frame_auth : list N := [1; 0; 0; 11; 0; 46; 0; 8; 0; 1; 57; 8; 0; 1; 0; 0; 2; 2; 1; 5; 0; 9; 0; 0; 0; 0; 24; 0; 2; 0; 0; 2; 2; 16; 21; 0; 232; 3; 0; 0; 0; 0; 0; 0; 0; 0; 0; 0; 0; 60; 0; 44; 1; 0; 0; 0; 0; 162; 100].
(** A record confirmation, then a position. *)
Definition frame_conf : list N := [1; 0; 0; 11; 0; 44; 0; 9; 0; 1; 232; 6; 0; 1; 0; 0; 2; 2; 0; 3; 0; 3; 0; 0; 24; 0; 2; 0; 0; 2; 2; 16; 21; 0; 232; 3; 0; 0; 0; 0; 0; 0; 0; 0; 0; 0; 0; 60; 0; 44; 1; 0; 0; 0; 0; 110; 4].

Definition pos0 (lohs lahs : string) : SrPosData :=
  mkSrPosData (1262305000 * 1000000000)%Z f64_zero f64_zero "0" lohs lahs "0" "0" "0" "0" "0" 0 0 6 44 1 0 0 0.
Definition recs_pos (lohs lahs : string) : list ServiceDataRecord :=
  [mkSDR 48 1 "0" "0" "0" "00" "0" "0" "1" 5 0 t_zero 2 2
     [mkRecordData 16 21 (Some (DPosData (pos0 lohs lahs)));
      mkRecordData 27 7 (Some (DLiquid (mkSrLiquidLevelSensor "0" "10" "0" 1 0 500000000)));
      mkRecordData 25 4 (Some (DAbsCntr (mkSrAbsCntrData 110 66051)));
      mkRecordData 25 4 (Some (DAbsCntr (mkSrAbsCntrData 111 4)))];
   mkSDR 7 2 "0" "0" "0" "00" "0" "0" "0" 0 0 t_zero 2 2
     [mkRecordData 25 4 (Some (DAbsCntr (mkSrAbsCntrData 1 77)))]].

(** What there is to see of a decoded packet. *)
Definition seen (d : dres (E := env0)) : option (N * bool * N * N * option Body) :=
  match d with DRet p code ok => Some (code, ok, p_PT p, p_PID p, p_SFRD p) | _ => None end.
Lemma seen_ok d code ok pt pid b : seen d = Some (code, ok, pt, pid, b) ->
  exists p, d = DRet p code ok /\ p_PT p = pt /\ p_PID p = pid /\ p_SFRD p = b.
Proof. destruct d as [p c k| |]; [|discriminate|discriminate]. intros H. injection H as <- <- <- <- <-. exists p. auto. Qed.

Lemma no_confirmation_b (l : list ServiceDataRecord) : forallb (fun r => negb (existsb is_respb (subs (E := env0) r))) l = true -> no_confirmation l.
Proof.
  rewrite forallb_forall. intros H r Hr Hc. apply H in Hr. apply confirms_b in Hc. rewrite Hc in Hr. discriminate.
Qed.

(** C42, C44, C45, C46, C47, C48, C59, C60: *)
Example frame_pos_hyps : is_bytes frame_pos /\ is_bytes [] /\ (10 <= length frame_pos)%nat /\ no_confirmation (recs_pos "0" "0")
  /\ (exists r, In r (recs_pos "0" "0") /\ has_position r /\ flat_map the_cntr (subs r) = [(110, 66051); (111, 4)]
        /\ flat_map the_liquid (subs r) = [mkSrLiquidLevelSensor "0" "10" "0" 1 0 500000000])
  /\ (exists r, In r (recs_pos "0" "0") /\ ~ has_position r)
  /\ to_save 0 (recs_pos "0" "0") [(5, hd rec0 (recs_pos "0" "0"))] 5
  /\ exists p, pkg_decode (E := env0) None Package_zero frame_pos [] = DRet p 0 true /\ p_PT p = 1 /\ p_PID p = 7
     /\ p_SFRD p = Some (BSds (recs_pos "0" "0")).
Proof.
  split; [okb|]. split; [okb|]. split; [vm_compute; lia|]. split; [apply no_confirmation_b; reflexivity|].
  assert (has_position (hd rec0 (recs_pos "0" "0"))) as H1 by (eexists; left; reflexivity).
  assert (~ has_position (hd rec0 (tl (recs_pos "0" "0")))) as H2 by (intros (x & [H|[]]); discriminate).
  split; [exists (hd rec0 (recs_pos "0" "0")); split; [left; reflexivity|]; split; [exact H1|split; reflexivity]|].
  split; [exists (hd rec0 (tl (recs_pos "0" "0"))); split; [right; left; reflexivity|exact H2]|].
  split; [apply (ts_pos 0 _ _ _ _ H1), (ts_other _ _ _ _ _ H2), ts_nil|].
  apply seen_ok. vm_compute. reflexivity.
Qed.

(** With these counters the packet number should be 66051 + 2^24 * 4. *)
Example C59_refuted_hyps : 66051 < 16777216 /\ 4 < 256 /\ ~ (66051 mod 256 = 0 /\ 66051 / 256 mod 256 = 66051 / 65536).
Proof. split; [reflexivity|]. split; [reflexivity|]. intros [H _]. discriminate. Qed.
Example C60_refuted_hyps : 4294967296 <= 10 * 500000000.
Proof. lia. Qed.

(** ** C61 *)
(** North-east and south-west: what is saved is the same. *)
Example C61_refuted_hyps : recs_pos "0" "0" <> recs_pos "1" "1" /\ map blind (recs_pos "0" "0") = map blind (recs_pos "1" "1")
  /\ is_bytes frame_west
  /\ exists p, pkg_decode (E := env0) None Package_zero frame_west [] = DRet p 0 true /\ p_PT p = 1 /\ p_PID p = 7
     /\ p_SFRD p = Some (BSds (recs_pos "1" "1")).
Proof.
  split; [discriminate|]. split; [reflexivity|]. split; [okb|]. apply seen_ok. vm_compute. reflexivity.
Qed.

(** ** C46, C51, C52 *)
Definition recs_auth : list ServiceDataRecord :=
  [mkSDR 8 1 "0" "0" "0" "00" "0" "0" "0" 0 0 t_zero 2 2
     [mkRecordData 1 5 (Some (DTermIdentity (mkSrTermIdentity 9 "0" "0" "0" "0" "0" "0" "0" "0" 0 "" "" "" [] 0 "")))];
   mkSDR 24 2 "0" "0" "0" "00" "0" "0" "0" 0 0 t_zero 2 2 [mkRecordData 16 21 (Some (DPosData (pos0 "0" "0")))]].
Example frame_auth_hyps : is_bytes frame_auth /\ no_confirmation recs_auth
  /\ (exists r d, In r recs_auth /\ In d (subs r) /\ is_auth d)
  /\ to_save 0 recs_auth [(9, hd rec0 (tl recs_auth))] 9
  /\ exists p, pkg_decode (E := env0) None Package_zero frame_auth [] = DRet p 0 true /\ p_PT p = 1 /\ p_PID p = 8
     /\ p_SFRD p = Some (BSds recs_auth).
Proof.
  split; [okb|]. split; [apply no_confirmation_b; reflexivity|].
  split; [eexists; eexists; split; [left; reflexivity|]; split; [left; reflexivity|exact I]|].
  assert (~ has_position (hd rec0 recs_auth)) as H1 by (intros (x & [H|[]]); discriminate).
  assert (has_position (hd rec0 (tl recs_auth))) as H2 by (eexists; left; reflexivity).
  split; [apply (ts_other 0 _ _ _ _ H1), (ts_pos _ _ _ _ _ H2), ts_nil|].
  apply seen_ok. vm_compute. reflexivity.
Qed.

(** ** C44 *)
Definition recs_conf : list ServiceDataRecord :=
  [mkSDR 6 1 "0" "0" "0" "00" "0" "0" "0" 0 0 t_zero 2 2 [mkRecordData 0 3 (Some (DResponse (mkSrResponse 3 0)))];
   mkSDR 24 2 "0" "0" "0" "00" "0" "0" "0" 0 0 t_zero 2 2 [mkRecordData 16 21 (Some (DPosData (pos0 "0" "0")))]].
(** An accepted packet with a position that is not saved in any run. *)
Theorem C44_position_records_saved_refuted : exists (c : list N) (p : Package (E := env0)) l,
  is_bytes c /\ pkg_decode None Package_zero c [] = DRet p 0 true /\ p_PT p = 1 /\ p_SFRD p = Some (BSds l)
  /\ (exists r, In r l /\ has_position r)
  /\ forall now client evs o, handled [] now client c evs o -> evs = [].
Proof.
  assert (exists p, pkg_decode (E := env0) None Package_zero frame_conf [] = DRet p 0 true /\ p_PT p = 1 /\ p_PID p = 9
     /\ p_SFRD p = Some (BSds recs_conf)) as (p & Hd & Hp & _ & Hl) by (apply seen_ok; vm_compute; reflexivity).
  assert (is_bytes frame_conf) as Hb by okb.
  exists frame_conf, p, recs_conf. repeat (split; [assumption|]). split.
  { eexists. split; [right; left; reflexivity|]. eexists. left. reflexivity. }
  intros now client evs o H.
  destruct (C44_records_after_a_confirmation_refuted [] now client frame_conf evs o p 0 [] (hd rec0 recs_conf) (tl recs_conf)) as (H1 & s & c' & H2 & H3);
    try assumption; [apply bytes_ok_nil|intros r []|exists (DResponse (mkSrResponse 3 0)); split; [left; reflexivity|exact I]|].
  inversion H2; subst. assert (saves evs = []) as H4 by (inversion H3; reflexivity). clear -H1 H4. destruct evs as [|[? ?|?] evs]; [reflexivity|discriminate|discriminate].
Qed.

(** ** C43, C53, C54 *)
Example C43_hyps : let c := [1; 0; 0; 11; 0; 3; 0; 7; 0; 0; 179; 7; 0; 0; 12; 74] in is_bytes c /\ (10 <= length c)%nat
  /\ exists p, pkg_decode (E := env0) None Package_zero c [] = DRet p 137 false.
Proof. cbv zeta. split; [okb|]. split; [cbn; lia|]. eexists. vm_compute. reflexivity. Qed.
Lemma cut_next f t fs e : taken (f ++ t) = length f -> byte_at (f ++ t) 0 = 1 -> cuts t fs e -> cuts (f ++ t) (f :: fs) e.
Proof.
  intros Ht Hb Hc. replace f with (firstn (taken (f ++ t)) (f ++ t)) at 2 by (rewrite Ht; apply firstn_exact).
  apply cut_frame; [rewrite Ht, app_length; lia|exact Hb|]. rewrite Ht, skipn_exact. exact Hc.
Qed.
(** Announces routing fields but has no room for them. *)
Example C43_stream_hyps : let f := [1; 0; 32; 11; 0; 0; 0; 7; 0; 0; 5] in
  cuts (concat [f ++ resp_frame]) ([] ++ f :: [resp_frame]) StopEof
  /\ forall spare, is_bytes spare -> exists p code, pkg_decode (E := env0) None Package_zero f spare = DRet p code false.
Proof.
  cbv zeta. split.
  - cbn [concat]. rewrite <- app_assoc. cbn [app]. apply (cut_next [1; 0; 32; 11; 0; 0; 0; 7; 0; 0; 5]); [vm_compute; reflexivity|reflexivity|].
    apply (cut_next resp_frame []); [vm_compute; reflexivity|reflexivity|constructor].
  - intros spare _. destruct (decode_pid_short (E := env0) [1; 0; 32; 11; 0; 0; 0; 7; 0; 0; 5] spare) as (p & Hp & _);
      [change (is_bytes [1; 0; 32; 11; 0; 0; 0; 7; 0; 0; 5]); okb|cbn; lia|vm_compute; lia|]. eauto.
Qed.
Example C53_hyps : is_bytes resp_frame /\ exists p, pkg_decode (E := env0) None Package_zero resp_frame [] = DRet p 0 true /\ p_PT p = 0.
Proof. split; [okb|]. eexists. split; [vm_compute; reflexivity|reflexivity]. Qed.
Example C54_hyps : cuts [71; 69; 84; 32; 47; 32; 72; 84; 84; 80; 47] [] StopNotEgts.
Proof. apply cut_alien; [cbn; lia|discriminate]. Qed.

(** ** C40, C55 *)
Lemma ex_frame_length body (w : list N) : w <> [] -> length (lay_frame (E := env0) (pkg_ex "0" "00" 1 body) 11 w) = (13 + length w)%nat.
Proof.
  intros Hw. assert (forall n, length (le16 n) = 2%nat) as H2 by reflexivity.
  unfold lay_frame. cbv zeta. rewrite !app_length. unfold lay_header. rewrite !app_length. unfold opt.
  change (p_RTE (pkg_ex "0" "00" 1 body)) with "0"%string. destruct (string_dec "0" "1"); [discriminate|].
  rewrite !H2. cbn [length]. destruct w as [|x w]; [congruence|]. rewrite app_length, H2. lia.
Qed.
Lemma sendable_recs0 n w l' : recs_travel (repeat rec0 n) w l' -> N.of_nat (length w) < 65536 ->
  exists f, sendable f /\ f = lay_frame (pkg_ex "0" "00" 1 (Some (BSds (repeat rec0 n)))) 11 w.
Proof.
  intros H Hl. set (l := repeat rec0 n) in *. clearbody l. eexists. split; [|reflexivity].
  destruct (pkg_ex_wf "0" "00" 1 (Some (BSds l))) as (H1 & H2 & H3 & H4); [unfold is_flag; auto|unfold is_flag2; auto|lia|].
  destruct (C14_records_of_known_subrecords _ _ _ H) as [He Hd].
  assert (outgoing None (pkg_ex "0" "00" 1 (Some (BSds l))) w) as Ho.
  { unfold outgoing. exists w. split; [exact He|left; split; reflexivity]. }
  assert (is_bytes w) as Hb by (eapply recs_travel_ok; eauto).
  exists None, (pkg_ex "0" "00" 1 (Some (BSds l))), w.
  repeat (split; [assumption || (cbn; lia)|]). rewrite (C02_wire_layout None _ w H1 H2 Ho Hb) by lia. reflexivity.
Qed.

(** 9362 records give a body of 65534 bytes; the receiver takes 11 bytes for the frame. *)
Theorem C40_framing_refuted : exists f : list N, sendable (E := env0) f
  /\ forall rest fs e, cuts (f ++ rest) fs e -> exists gs, fs = firstn 11 f :: gs.
Proof.
  destruct (recs0_travel (N.to_nat 9362)) as (w & l' & H & Hl).
  assert (N.of_nat (length w) = 65534) as Hw by (rewrite Hl; lia).
  destruct (sendable_recs0 _ w l' H) as (f & Hf & Hff); [lia|]. exists f. split; [exact Hf|].
  intros rest fs e Hc. destruct (sendable_frame f rest Hf) as (H0 & H1 & H2).
  assert (N.of_nat (length f) = 65547) as Hlen.
  { rewrite Hff, ex_frame_length by (intros ->; discriminate). lia. }
  assert (taken (f ++ rest) = 11%nat) as Ht by (unfold taken; rewrite H1, Hlen; reflexivity). clear Hff Hf H Hl.
  inversion Hc as [G|? G|? ? G|? G|? ? ? ? G G']; subst; rewrite ?app_length in *; try lia; try congruence.
  - destruct f; [cbn [length] in H2; lia|discriminate].
  - rewrite Ht, firstn_app. replace (11 - length f)%nat with 0%nat by lia. cbn [firstn]. rewrite app_nil_r. eauto.
Qed.

(** A packet made by Encode that ends the process of the receiver, whatever is sent before the
    next one. *)
Theorem C55_no_crash_refuted : exists f : list N, sendable (E := env0) f /\ is_bytes f
  /\ forall cs rest, concat cs = (f ++ rest)%list -> forall evs o, runs (handle_conn (E := env0) cs) evs o -> evs = [] /\ o = None.
Proof.
  destruct (recs0_travel (N.to_nat 9361)) as (w & l' & H & Hl).
  assert (N.of_nat (length w) = 65527) as Hw by (rewrite Hl; lia).
  destruct (sendable_recs0 _ w l' H) as (f & Hf & Hff); [lia|].
  set (l := repeat rec0 (N.to_nat 9361)) in *. clearbody l.
  destruct (pkg_ex_wf "0" "00" 1 (Some (BSds l))) as (H1 & H2 & H3 & H4); [unfold is_flag; auto|unfold is_flag2; auto|lia|].
  destruct (C14_records_of_known_subrecords _ _ _ H) as [He Hd].
  assert (outgoing None (pkg_ex "0" "00" 1 (Some (BSds l))) w) as Ho.
  { unfold outgoing. exists w. split; [exact He|left; split; reflexivity]. }
  assert (is_bytes w) as Hb by (eapply recs_travel_ok; eauto).
  assert (is_bytes f) as Hbf.
  { rewrite Hff. change 11 with (header_size (pkg_ex "0" "00" 1 (Some (BSds l)))). apply lay_frame_ok; assumption. }
  assert (forall spare, pkg_decode (E := env0) None Package_zero f spare = DPanic) as Hp.
  { intros spare. destruct (C01_long_body_panics None None (pkg_ex "0" "00" 1 (Some (BSds l))) Package_zero w (BSds l') spare) as (f' & Hf' & Hp);
      try assumption; try reflexivity; try lia.
    - left. split; [reflexivity|eauto].
    - change (header_size (pkg_ex "0" "00" 1 (Some (BSds l)))) with 11. lia.
    - rewrite (C02_wire_layout None _ w H1 H2 Ho Hb) in Hf' by lia. injection Hf' as <-. rewrite Hff. exact Hp. }
  exists f. split; [exact Hf|]. split; [exact Hbf|]. intros cs rest Hc evs o Hr.
  destruct (sendable_frame f [] Hf) as (G0 & G1 & G2). rewrite app_nil_r in *.
  assert (N.of_nat (length f) = 65540) as Hlen.
  { rewrite Hff, ex_frame_length by (intros ->; discriminate). lia. }
  apply (C55_panicking_frames_refuted f rest cs) with (6 := Hr); auto.
  unfold taken. rewrite G1, Hlen. lia.
Qed.

(** More properties of the receiver: C48, C59, C60, C61. *)
From Coq Require Import NArith ZArith Lia ZifyBool ZifyNat ZifyN String Ascii Bool List.
From Verif Require Import GoBase GoFloat Crc SubRecords Records Package Storage Server
  SpecBase SpecCrc SpecPkg SpecSub SpecRec SpecSrv
  BaseFacts SubFacts SubMore RecordFacts DecodeFacts CrcFacts WireFacts PackageFacts PropRec PropPkg PropMore
  SrvFacts SrvLoop SrvPacket SrvConn PropSrv PropStore.
Import ListNotations.
Open Scope N_scope.

Section WithEnv.
Context {E : Env}.

(** ** C44 *)
(** A record with a confirmation ends the processing of its packet: nothing in it or after it is
    saved, and nothing is answered. *)
Theorem C44_records_after_a_confirmation_refuted : forall spare now client c evs o p code l1 r l2,
  is_bytes c -> is_bytes spare ->
  pkg_decode None Package_zero c spare = DRet p code true -> p_PT p = 1 -> p_SFRD p = Some (BSds (l1 ++ r :: l2)) ->
  no_confirmation l1 -> confirms_something r -> handled spare now client c evs o ->
  writes evs = [] /\ exists s c', to_save client l1 s c' /\ Forall2 (fun kr nv => saved now (fst kr) (snd kr) (fst nv)) s (saves evs).
Proof.
  intros spare now client c evs o p code l1 r l2 Hb Hs Hd Hp Hl Hn Hr H.
  destruct (handled_confirmation _ _ _ _ _ _ _ _ _ _ _ Hb Hs Hd Hp Hl Hn Hr H) as (s & c' & sv & ds & d & ds' & H1 & H2 & -> & _).
  rewrite writes_save_events, saves_save_events. split; [reflexivity|]. exists s, c'. split; [assumption|].
  eapply Forall2_weaken; [|exact H2]. intros a b [Ha _]. exact Ha.
Qed.

(** ** C55 *)
(** A frame on which Decode panics ends the process, whatever comes after it. *)
Theorem C55_panicking_frames_refuted : forall f rest cs, is_bytes f -> byte_at f 0 = 1 -> length f = taken f -> 
  (forall spare, is_bytes spare -> pkg_decode None Package_zero f spare = DPanic) -> concat cs = (f ++ rest)%list ->
  forall evs o, runs (handle_conn cs) evs o -> evs = [] /\ o = None.
Proof.
  intros f rest cs Hb H1 Hl Hp Hc evs o H. assert (10 <= length f)%nat as H10 by (rewrite Hl; unfold taken; lia).
  assert (forall i, (i < 10)%nat -> nth i (f ++ rest) 0 = nth i f 0) as Hnth by (intros i Hi; apply app_nth1; lia).
  assert (taken (f ++ rest) = length f) as Ht.
  { rewrite Hl. unfold taken, frame_length, byte_at, word_at. rewrite !Hnth by lia. reflexivity. }
  destruct (cuts_total (skipn (taken (f ++ rest)) (f ++ rest))) as (fs & e & Hcut).
  assert (cuts (f ++ rest) (f :: fs) e) as Hcut2.
  { replace f with (firstn (taken (f ++ rest)) (f ++ rest)) at 2; [constructor; [rewrite Ht, app_length; lia| |exact Hcut]|].
    - unfold byte_at. rewrite Hnth by lia. exact H1.
    - rewrite Ht, firstn_app, Nat.sub_diag, firstn_all, app_nil_r. reflexivity. }
  apply (conn_session _ _ _ _ _ _ Hcut2 Hc) in H. destruct H as (es & oc & H & -> & ->).
  assert (forall evs o, runs (handle_packet 0 f) evs o -> evs = [] /\ o = None) as Hone.
  { intros evs o Hr. apply handled_runs in Hr. destruct Hr as (spare & now & Hs & Hr). unfold handled, handle_packet in Hr.
    rewrite (Hp spare Hs) in Hr. inversion Hr; subst. auto. }
  clear -H Hone. inversion H; subst; match goal with K : runs _ _ _ |- _ => apply Hone in K as [-> K] end; [split; reflexivity|discriminate].
Qed.

(** A frame that declares an empty header: the process panics when the buffer that Go allocates
    for it has less than 255 bytes. *)
Theorem C55_empty_headers_refuted : forall c, is_bytes c -> byte_at c 0 = 1 -> byte_at c 3 = 0 -> length c = taken c ->
  (wire_header_size c <= length c < 255)%nat -> runs (handle_conn [c]) [] None.
Proof.
  intros c Hb H1 H3 Hl Hw.
  assert (cuts (concat [c]) [c] StopEof) as Hcut.
  { cbn [concat]. rewrite app_nil_r. replace [c] with [firstn (taken c) c] by (rewrite <- Hl, firstn_all; reflexivity).
    constructor; [lia|assumption|]. rewrite <- Hl, skipn_all. constructor. }
  apply (conn_session _ _ _ _ _ _ Hcut eq_refl). exists [[]], None. split; [|split; reflexivity]. constructor.
  apply handled_runs. exists [], 0%Z. split; [apply bytes_ok_nil|]. unfold handled, handle_packet.
  assert (pkg_decode None Package_zero c [] = DPanic) as Hd.
  { destruct Hw as [Hw Hw2]. rewrite pkg_decode_full by assumption. cbv zeta.
    unfold covered. rewrite H3. change (if 0 =? 0 then 255 else 0 - 1) with 255. unfold go_slice. replace (_ && _) with false; [reflexivity|].
    symmetry. apply andb_false_iff. right. apply N.leb_gt. unfold len. rewrite app_nil_r. lia. }
  rewrite Hd. constructor.
Qed.

(** ** C48 *)
(** A run with given outcomes of Save. *)
Lemma runs_with {A} (p : prog A) (f : NavRecord -> bool) :
  exists evs o, runs p evs o /\ forall nav ok, In (nav, ok) (saves evs) -> ok = f nav.
Proof.
  induction p as [a|k IH|k IH|r k IH|b k (evs & o & IH & IH2)|].
  - exists [], (Some a). split; [constructor|]. intros nav ok [].
  - destruct (IH 0%Z) as (evs & o & H & H2). exists evs, o. split; [econstructor; eassumption|assumption].
  - destruct (IH []) as (evs & o & H & H2). exists evs, o. split; [econstructor; [apply bytes_ok_nil|eassumption]|assumption].
  - destruct (IH (f r)) as (evs & o & H & H2). exists (EvSave r (f r) :: evs), o. split; [constructor; assumption|].
    intros nav ok [Hin|Hin]; [injection Hin as <- <-; reflexivity|auto].
  - exists (EvWrite b :: evs), o. split; [constructor; assumption|exact IH2].
  - exists [], None. split; [constructor|]. intros nav ok [].
Qed.

Lemma handled_with spare now client c (f : NavRecord -> bool) :
  exists evs o, handled spare now client c evs o /\ forall nav ok, In (nav, ok) (saves evs) -> ok = f nav.
Proof. unfold handled, handle_packet. apply runs_with. Qed.

(** Every accepted packet with a position is confirmed in full although no storage took it. *)
Theorem C48_acknowledged_is_stored_refuted : forall spare now client c p code l,
  is_bytes c -> is_bytes spare ->
  pkg_decode None Package_zero c spare = DRet p code true -> p_PT p = 1 -> p_SFRD p = Some (BSds l) -> no_confirmation l ->
  (exists r, In r l /\ has_position r) ->
  exists evs o ack rest, handled spare now client c evs o
    /\ saves evs <> [] /\ (forall nav ok, In (nav, ok) (saves evs) -> ok = false)
    /\ writes evs = ack :: rest /\ answer (p_PID p) 0 l ack.
Proof.
  intros spare now client c p code l Hb Hs Hd Hp Hl Hn (r & Hr & Hpos).
  destruct (handled_with spare now client c (fun _ => false)) as (evs & o & H & Hf).
  destruct (C42_data_packets_are_acknowledged _ _ _ _ _ _ _ _ _ Hb Hs Hd Hp Hl Hn H) as (ack & rest & H1 & H2 & _).
  exists evs, o, ack, rest. split; [assumption|]. split; [|auto].
  destruct (C44_position_records_saved_partial _ _ _ _ _ _ _ _ _ Hb Hs Hd Hp Hl Hn H) as (s & c' & T1 & T2 & _).
  apply to_save_records in T1. intros Hz. rewrite Hz in T2. inversion T2; subst. cbn [map] in T1.
  assert (In r (filter (fun r => existsb is_posb (subs r)) l)) as Hin by (apply filter_In; split; [assumption|apply has_position_b; assumption]).
  rewrite <- T1 in Hin. destruct Hin.
Qed.

(** If the repository reports success for each record, every storage has accepted each. *)
Theorem C48_acknowledged_is_stored_partial : forall (S : Type) (repo : list S) (accepts : NavRecord -> S -> bool)
  spare now client c evs o p code l,
  is_bytes c -> is_bytes spare ->
  pkg_decode None Package_zero c spare = DRet p code true -> p_PT p = 1 -> p_SFRD p = Some (BSds l) -> no_confirmation l ->
  handled spare now client c evs o ->
  (forall nav ok, In (nav, ok) (saves evs) -> ok = snd (repo_save (accepts nav) repo)) ->
  (forall nav ok, In (nav, ok) (saves evs) -> ok = true) ->
  exists s c', to_save client l s c'
    /\ Forall2 (fun kr nv => saved now (fst kr) (snd kr) (fst nv) /\ forall st, In st repo -> accepts (fst nv) st = true) s (saves evs).
Proof.
  intros S repo accepts spare now client c evs o p code l Hb Hs Hd Hp Hl Hn H H1 H2.
  destruct (C44_position_records_saved_partial _ _ _ _ _ _ _ _ _ Hb Hs Hd Hp Hl Hn H) as (s & c' & T1 & T2 & _).
  exists s, c'. split; [assumption|]. clear -T2 H1 H2. induction T2 as [|kr [nav ok] s sv Hk T2 IH]; constructor.
  - split; [assumption|]. cbn [fst]. apply C49_success_means_all_stored.
    rewrite <- (H1 nav ok) by (left; reflexivity). apply (H2 nav ok). left. reflexivity.
  - apply IH; intros; [apply H1|eapply H2]; right; eassumption.
Qed.

(** ** C52 *)
(** The packet with the result code is rejected by the library. *)
Theorem C52_result_code_packets_refuted : forall pid b spare, pid < 65536 -> is_bytes spare -> result_packet pid 0 b ->
  exists p, pkg_decode None Package_zero b spare = DRet p 129 false.
Proof.
  intros pid b spare Hpid Hs (h & -> & ->). set (n := (pid + 1) mod 65536).
  assert (n < 65536) as Hn by (apply N.mod_upper_bound; discriminate). clearbody n.
  set (h := ([1; 0; 0; 11; 0; 11; 0] ++ le16 n ++ [0])%list).
  assert (bytes_ok h) as Hh.
  { unfold h. apply bytes_ok_app. split; [repeat constructor|]. apply bytes_ok_app. split; [apply le16_ok|repeat constructor]. }
  set (x := checksum8 h). set (y := le16 (checksum16 (result_code_body 0))).
  assert (bytes_ok y) as Hy by apply le16_ok.
  assert (x < 256) as Hx by (unfold x; rewrite <- crc8_checksum by assumption; apply crc8_lt; assumption).
  assert (exists y0 y1, y = [y0; y1]) as (y0 & y1 & Hyy) by (unfold y, le16; eauto).
  clearbody y. subst y. assert (exists n0 n1, le16 n = [n0; n1]) as (n0 & n1 & Hnn) by (unfold le16; eauto).
  set (c := (h ++ [x] ++ result_code_body 0 ++ [y0; y1])%list).
  assert (is_bytes (c ++ spare)) as Hc.
  { apply bytes_ok_app. split; [|assumption]. unfold c. apply bytes_ok_app. split; [assumption|]. apply bytes_ok_app. split.
    - apply bytes_ok_cons. split; [exact Hx|apply bytes_ok_nil].
    - apply bytes_ok_app. split; [repeat constructor|assumption]. }
  assert (c = [1; 0; 0; 11; 0; 11; 0; n0; n1; 0; x; 4; 0; 1; 0; 32; 1; 1; 9; 1; 0; 0; y0; y1]) as Hce
    by (unfold c, h; rewrite Hnn; reflexivity).
  destruct (C10_result_codes_partial None Package_zero c spare Hc) as (p & code & Hd & _ & _ & _ & _ & H129 & _).
  1-3: rewrite Hce; unfold covered, byte_at, word_at; cbn [nth length]; change (11 =? 0) with false; cbv iota; lia.
  rewrite H129 in Hd; [exists p; exact Hd| | | | |left].
  - rewrite Hce. unfold header_complete. cbn. lia.
  - unfold header_sum_ok. replace (firstn (N.to_nat (covered c)) (c ++ spare)) with h; [rewrite Hce; reflexivity|].
    rewrite Hce. unfold h. rewrite Hnn. reflexivity.
  - rewrite Hce. unfold body_present. cbn. lia.
  - left. rewrite Hce. reflexivity.
  - rewrite Hce. intros body (plain & [[_ Hp]|[He _]] & Ha); [|apply He; reflexivity].
    subst plain. destruct Ha as [[Ha _]|(_ & r & _ & Ha)]; [discriminate|].
    assert (declared_body c = result_code_body 0) as Hdb by (rewrite Hce; reflexivity). rewrite Hce in Hdb. rewrite Hdb in Ha.
    vm_compute in Ha. discriminate.
Qed.

(** ** C59 *)
Lemma both_counters s0 v w : snd (fold_left cntr_step [(110, v); (111, w)] s0)
  = v / 16777216 mod 256 + 256 * (v / 65536 mod 256) + 65536 * (v / 256 mod 256) + 16777216 * (w mod 256).
Proof.
  change (snd (fold_left cntr_step [(110, v); (111, w)] s0))
    with (v / 256 / 256 / 256 mod 256 + 256 * (v / 256 / 256 mod 256 + 256 * (v / 256 mod 256 + 256 * (w mod 256 + 256 * 0)))).
  rewrite !N.div_div by discriminate. change (256 * 256 * 256) with 16777216. change (256 * 256) with 65536. lia.
Qed.
Lemma high_counter pid w : snd (fold_left cntr_step [(111, w)] (zeros 4, pid)) = 16777216 * (w mod 256).
Proof.
  change (snd (fold_left cntr_step [(111, w)] (zeros 4, pid))) with (0 + 256 * (0 + 256 * (0 + 256 * (w mod 256 + 256 * 0)))). lia.
Qed.

Theorem C59_packet_number_partial : forall spare now client c evs o p code l,
  is_bytes c -> is_bytes spare ->
  pkg_decode None Package_zero c spare = DRet p code true -> p_PT p = 1 -> p_SFRD p = Some (BSds l) -> no_confirmation l ->
  handled spare now client c evs o ->
  exists s c', to_save client l s c' /\ Forall2 (fun kr nv =>
      let counters := flat_map the_cntr (subs (snd kr)) in
      (counters = [] -> nr_PacketID (fst nv) = p_PID p)
      /\ (forall l1 v, counters = (l1 ++ [(110, v)])%list -> nr_PacketID (fst nv) = v)
      /\ (forall v w, counters = [(110, v); (111, w)] ->
            nr_PacketID (fst nv) = v / 16777216 mod 256 + 256 * (v / 65536 mod 256) + 65536 * (v / 256 mod 256) + 16777216 * (w mod 256))
      /\ (forall w, counters = [(111, w)] -> nr_PacketID (fst nv) = 16777216 * (w mod 256))) s (saves evs).
Proof.
  intros spare now client c evs o p code l Hb Hs Hd Hp Hl Hn H.
  destruct (decode_accepted _ _ _ _ Hb Hs Hd) as (_ & Hpid & _). rewrite Hpid.
  destruct (handled_data _ _ _ _ _ _ _ _ _ Hb Hs Hd Hp Hl Hn H) as (s & c' & sv & ack & rest & A1 & A2 & -> & _).
  exists s, c'. split; [assumption|]. rewrite saves_app, saves_save_events, saves_writes, app_nil_r.
  eapply Forall2_weaken; [|exact A2]. intros [k r] [nav ok] [_ Hnum]. cbn [fst snd] in *. unfold number_of in Hnum. cbv zeta.
  split; [|split; [|split]].
  - intros Hc. rewrite Hc in Hnum. exact Hnum.
  - intros l1 v Hc. rewrite Hc, fold_left_app in Hnum. exact Hnum.
  - intros v w Hc. rewrite Hc in Hnum. rewrite Hnum. apply both_counters.
  - intros w Hc. rewrite Hc in Hnum. rewrite Hnum. apply high_counter.
Qed.

(** With both counters the number is wrong unless the low byte is 0 and the other two agree. *)
Theorem C59_packet_number_refuted : forall spare now client c evs o p code l,
  is_bytes c -> is_bytes spare ->
  pkg_decode None Package_zero c spare = DRet p code true -> p_PT p = 1 -> p_SFRD p = Some (BSds l) -> no_confirmation l ->
  handled spare now client c evs o ->
  exists s c', to_save client l s c' /\ Forall2 (fun kr nv =>
      forall v w, flat_map the_cntr (subs (snd kr)) = [(110, v); (111, w)] -> v < 16777216 -> w < 256 ->
      ~ (v mod 256 = 0 /\ v / 256 mod 256 = v / 65536) ->
      nr_PacketID (fst nv) <> v + 16777216 * w) s (saves evs).
Proof.
  intros spare now client c evs o p code l Hb Hs Hd Hp Hl Hn H.
  destruct (C59_packet_number_partial _ _ _ _ _ _ _ _ _ Hb Hs Hd Hp Hl Hn H) as (s & c' & H1 & H2).
  exists s, c'. split; [assumption|]. eapply Forall2_weaken; [|exact H2]. intros [k r] [nav ok] (_ & _ & H3 & _).
  cbn [fst snd] in *. intros v w Hc Hv Hw Hne Heq. rewrite (H3 v w Hc) in Heq. apply Hne. clear -Heq Hv Hw. lia.
Qed.

(** ** C60 *)
Theorem C60_liquid_level_partial : forall spare now client c evs o p code l nav ok,
  is_bytes c -> is_bytes spare ->
  pkg_decode None Package_zero c spare = DRet p code true -> p_PT p = 1 -> p_SFRD p = Some (BSds l) ->
  handled spare now client c evs o -> In (nav, ok) (saves evs) ->
  exists r, In r l /\ Forall2 (fun x s =>
      ls_SensorNumber s = ll_LLSN x /\ ls_ErrorFlag s = ll_LLSEF x
      /\ (ll_LLSVU x = "00"%string \/ ll_LLSVU x = "01"%string -> ls_ValueMm s = ll_LLSD x /\ ls_ValueL s = 0)
      /\ (ll_LLSVU x = "10"%string -> ls_ValueMm s = 0 /\ (10 * ll_LLSD x < 4294967296 -> ls_ValueL s = 10 * ll_LLSD x)))
    (flat_map the_liquid (subs r)) (nr_LiquidSensors nav).
Proof.
  intros spare now client c evs o p code l nav ok Hb Hs Hd Hp Hl H Hin.
  destruct (C45_saved_data _ _ _ _ _ _ _ _ _ _ _ Hb Hs Hd Hp Hl H Hin) as (k & r & Hr & Hsv).
  exists r. split; [assumption|]. eapply Forall2_weaken; [|exact (sv_liquid _ _ _ _ Hsv)].
  intros x s (L1 & L2 & L3 & L4 & _). repeat (split; [assumption|]). intros Hu. destruct (L4 Hu) as [-> ->].
  split; [reflexivity|]. intros Hlt. apply N.mod_small. assumption.
Qed.

(** Larger readings in litres are saved as something else. *)
Theorem C60_liquid_level_refuted : forall spare now client c evs o p code l nav ok,
  is_bytes c -> is_bytes spare ->
  pkg_decode None Package_zero c spare = DRet p code true -> p_PT p = 1 -> p_SFRD p = Some (BSds l) ->
  handled spare now client c evs o -> In (nav, ok) (saves evs) ->
  exists r, In r l /\ Forall2 (fun x s => ll_LLSVU x = "10"%string -> 4294967296 <= 10 * ll_LLSD x -> ls_ValueL s < 10 * ll_LLSD x)
    (flat_map the_liquid (subs r)) (nr_LiquidSensors nav).
Proof.
  intros spare now client c evs o p code l nav ok Hb Hs Hd Hp Hl H Hin.
  destruct (C45_saved_data _ _ _ _ _ _ _ _ _ _ _ Hb Hs Hd Hp Hl H Hin) as (k & r & Hr & Hsv).
  exists r. split; [assumption|]. eapply Forall2_weaken; [|exact (sv_liquid _ _ _ _ Hsv)].
  intros x s (L1 & L2 & L3 & L4 & _) Hu Hge. destruct (L4 Hu) as [_ ->]. lia.
Qed.

(** ** C61 *)
(** The same position with both hemisphere flags set to 0. *)
Definition blind_pos (x : SrPosData) : SrPosData :=
  mkSrPosData (pd_NTM x) (pd_LAT x) (pd_LONG x) (pd_ALTE x) "0" "0" (pd_MV x) (pd_BB x) (pd_CS x) (pd_FIX x) (pd_VLD x)
    (pd_DIRH x) (pd_ALTS x) (pd_SPD x) (pd_DIR x) (pd_ODM x) (pd_DIN x) (pd_SRC x) (pd_ALT x).
Definition blind_sub (s : RecordData) : RecordData :=
  match rd_SRD s with
  | Some (DPosData x) => mkRecordData (rd_SRT s) (rd_SRL s) (Some (DPosData (blind_pos x)))
  | _ => s
  end.
Definition blind (r : ServiceDataRecord) : ServiceDataRecord :=
  mkSDR (s_RL r) (s_RN r) (s_SSOD r) (s_RSOD r) (s_GRP r) (s_RPP r) (s_TMFE r) (s_EVFE r) (s_OBFE r) (s_OID r) (s_EVID r) (s_TM r)
    (s_SST r) (s_RST r) (map blind_sub (s_RD r)).

Lemma blind_step pid now s st : sub_step pid now (blind_sub s) st = sub_step pid now s st.
Proof. unfold sub_step, blind_sub. destruct (rd_SRD s) as [d|] eqn:Hs; [|rewrite Hs; reflexivity]. destruct d; try rewrite Hs; reflexivity. Qed.
Lemma blind_subs pid now l : forall st, subs_loop pid now (map blind_sub l) st = subs_loop pid now l st.
Proof.
  induction l as [|s l IH]; intros st; [reflexivity|]. cbn [map subs_loop]. rewrite blind_step.
  destruct (sub_step pid now s st); [apply IH|reflexivity].
Qed.
Lemma blind_recs pid now code l : forall client resps svc rcp,
  recs_loop pid now code (map blind l) client resps svc rcp = recs_loop pid now code l client resps svc rcp.
Proof.
  induction l as [|r l IH]; intros client resps svc rcp; [reflexivity|]. cbn [map recs_loop]. cbv zeta.
  change (s_RD (blind r)) with (map blind_sub (s_RD r)). change (s_OBFE (blind r)) with (s_OBFE r).
  change (s_OID (blind r)) with (s_OID r). change (s_SST (blind r)) with (s_SST r). change (confirm (blind r)) with (confirm r).
  rewrite blind_subs. destruct (subs_loop _ _ _ _) as [st [|]]; [reflexivity|]. rewrite IH. reflexivity.
Qed.

(** Two packets that differ only in hemisphere flags are handled in exactly the same way: what
    is saved does not tell them apart. *)
Theorem C61_hemisphere_refuted : forall spare now client c c' p p' code code' l l',
  pkg_decode None Package_zero c spare = DRet p code true -> p_PT p = 1 -> p_SFRD p = Some (BSds l) ->
  pkg_decode None Package_zero c' spare = DRet p' code' true -> p_PT p' = 1 -> p_SFRD p' = Some (BSds l') ->
  p_PID p = p_PID p' -> is_bytes c -> is_bytes c' -> is_bytes spare -> map blind l = map blind l' ->
  forall evs o, handled spare now client c evs o <-> handled spare now client c' evs o.
Proof.
  intros spare now client c c' p p' code code' l l' Hd Hp Hl Hd' Hp' Hl' Hpid Hb Hb' Hs Hbl evs o.
  destruct (decode_accepted _ _ _ _ Hb Hs Hd) as (-> & _). destruct (decode_accepted _ _ _ _ Hb' Hs Hd') as (-> & _).
  unfold handled, handle_packet. rewrite Hd, Hd', Hp, Hp', Hl, Hl', Hpid. change (1 =? PtAppdataPacket) with true. cbv iota.
  rewrite <- (blind_recs _ _ _ l), <- (blind_recs _ _ _ l'), Hbl. reflexivity.
Qed.
End WithEnv.

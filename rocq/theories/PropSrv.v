(** Properties of the receiver: C40 - C47, C51 - C55. *)
From Coq Require Import NArith ZArith Lia ZifyBool ZifyNat ZifyN String Ascii Bool List.
From Verif Require Import GoBase GoFloat Crc SubRecords Records Package Storage Server
  SpecBase SpecCrc SpecPkg SpecSub SpecRec SpecSrv
  BaseFacts SubFacts SubMore RecordFacts DecodeFacts CrcFacts WireFacts PackageFacts PropRec PropPkg PropMore
  SrvFacts SrvLoop SrvPacket SrvConn.
Import ListNotations.
Open Scope N_scope.

Local Opaque le_bytes crc8 crc16.

Section WithEnv.
Context {E : Env}.

(** ** C40 *)
(** [f] is what Encode makes of a packet of protocol version 1. *)
Definition sendable (f : list N) : Prop := exists key p b,
  wf_flags p /\ wf_nums p /\ header_length_ok p /\ p_PRV p = 1 /\ outgoing key p b /\ is_bytes b
  /\ N.of_nat (length b) < 65536 /\ snd (pkg_encode key p) = Ok f.

Lemma sendable_frame f rest : sendable f ->
  byte_at (f ++ rest) 0 = 1 /\ frame_length (f ++ rest) = N.of_nat (length f) /\ (11 <= length f)%nat.
Proof.
  intros (key & p & b & Hf & Hn & Hh & Hp & Ho & Hb & Hl & He).
  rewrite (C02_wire_layout key p b) in He by assumption. injection He as <-. rewrite header_length_size by assumption.
  unfold lay_frame. cbv zeta. set (n := N.of_nat (length b)) in *. 
  assert (n = N.of_nat (length b)) as Hnb by reflexivity. clearbody n.
  assert (length (lay_header p (header_size p) n) + 1 = N.to_nat (header_size p))%nat as Hlen.
  { unfold lay_header. rewrite !app_length. unfold header_size, opt. destruct (string_dec _ _); reflexivity. }
  assert (11 <= header_size p) as H11 by (unfold header_size; destruct (string_dec _ _); lia).
  split; [rewrite <- Hp; reflexivity|].
  set (h := lay_header p (header_size p) n) in *.
  assert (forall t, byte_at (h ++ t) 3 = header_size p) as H3 by reflexivity.
  assert (forall t, word_at (h ++ t) 5 = n mod 256 + 256 * (n / 256 mod 256)) as H5 by reflexivity.
  clearbody h. unfold frame_length. rewrite <- !app_assoc. rewrite H3, H5, !app_length. cbn [length].
  assert (n mod 256 + 256 * (n / 256 mod 256) = n) as -> by lia.
  destruct b as [|x b].
  - cbn [length] in Hnb. subst n. cbn [length]. change (N.of_nat 0 =? 0) with true. cbv iota. lia.
  - rewrite app_length. replace (n =? 0) with false by (symmetry; apply N.eqb_neq; cbn [length] in Hnb; lia).
    unfold le16. cbn [length] in *. lia.
Qed.

Lemma cuts_sendable fs : Forall (fun f => sendable f /\ N.of_nat (length f) <= 65545) fs ->
  forall s gs e, cuts s gs e -> cuts (concat fs ++ s) (fs ++ gs) e.
Proof.
  induction 1 as [|f fs [Hf Hl] Hfs IH]; intros s gs e Hc; [exact Hc|].
  cbn [concat app]. rewrite <- app_assoc. set (rest := (concat fs ++ s)%list).
  destruct (sendable_frame f rest Hf) as (H0 & H1 & H2).
  assert (taken (f ++ rest) = length f) as Ht by (unfold taken; rewrite H1; lia).
  assert (firstn (length f) (f ++ rest) = f) as Hft by (rewrite firstn_app, Nat.sub_diag, firstn_all, app_nil_r; reflexivity).
  rewrite <- Hft at 2. rewrite <- Ht. constructor; [rewrite Ht, app_length; lia|assumption|].
  rewrite Ht, skipn_app, Nat.sub_diag, skipn_all. apply IH. assumption.
Qed.

(** Frames of up to 65545 bytes are cut exactly, whatever is sent after them; missing: the
    frames with bodies of up to 65535 bytes that are longer (see C40_framing_refuted). *)
Theorem C40_framing_partial : forall fs s gs e cs, 
  Forall (fun f => sendable f /\ N.of_nat (length f) <= 65545) fs -> cuts s gs e ->
  concat cs = (concat fs ++ s)%list ->
  forall evs o, runs (handle_conn cs) evs o <->
    exists oc, runs (handle_all 0 (fs ++ gs)) evs oc /\ o = option_map (fun _ => e) oc.
Proof.
  intros fs s gs e cs Hf Hc Hs evs o. unfold handle_conn.
  apply conn_loop_cuts with (s := (concat fs ++ s)%list); [apply cuts_sendable; assumption|assumption|]. rewrite Hs. lia.
Qed.

(** A longer frame is never taken as one: what is handled first is shorter. *)
Lemma long_frames_cut : forall f rest fs e, sendable f -> 65545 < N.of_nat (length f) ->
  cuts (f ++ rest) fs e -> exists g gs, fs = g :: gs /\ (length g < length f)%nat /\ exists t, f ++ rest = g ++ t.
Proof.
  intros f rest fs e Hf Hl Hc. destruct (sendable_frame f rest Hf) as (H0 & H1 & H2).
  assert (taken (f ++ rest) < length f)%nat as Ht.
  { unfold taken. rewrite H1. set (n := N.of_nat (length f)) in *. assert (length f = N.to_nat n) as Hn by (unfold n; lia).
    pose proof (N.mod_upper_bound (n + 65526) 65536). lia. }
  inversion Hc as [H|? H|? ? H|? H|? ? ? ? H H']; subst; rewrite ?app_length in *; try lia; try congruence.
  - destruct f; [cbn [length] in H2; lia|discriminate].
  - eexists. eexists. split; [reflexivity|]. rewrite firstn_length. split; [lia|].
    eexists. symmetry. apply firstn_skipn.
Qed.
Theorem C40_long_frames : forall f rest cs evs o, sendable f -> 65545 < N.of_nat (length f) ->
  concat cs = f ++ rest -> runs (handle_conn cs) evs o ->
  exists g gs t e es oc, f ++ rest = g ++ t /\ (length g < length f)%nat
    /\ session 0 (g :: gs) es oc /\ evs = concat es /\ o = option_map (fun _ => e) oc.
Proof.
  intros f rest cs evs o Hf Hl Hcs H. destruct (cuts_total (concat cs)) as (fs & e & Hc).
  pose proof Hc as Hc'. rewrite Hcs in Hc'. destruct (long_frames_cut f rest fs e Hf Hl Hc') as (g & gs & -> & Hg & t & Ht).
  apply (conn_session _ _ _ _ _ _ Hc eq_refl) in H. destruct H as (es & oc & H1 & H2 & H3).
  exists g, gs, t, e, es, oc. auto.
Qed.

(** ** C41 *)
Theorem C41_segmentation_independence : forall cs cs', concat cs = concat cs' ->
  forall evs o, runs (handle_conn cs) evs o <-> runs (handle_conn cs') evs o.
Proof.
  intros cs cs' H evs o. destruct (cuts_total (concat cs)) as (fs & e & Hc).
  unfold handle_conn. rewrite H. rewrite !(conn_loop_cuts (concat cs) fs e Hc) by (auto; rewrite H; lia). reflexivity.
Qed.

(** The handler works frame by frame; what it does depends on the stream alone. *)
Theorem C41_rounds : forall cs evs o, runs (handle_conn cs) evs o <->
  exists fs e es oc, cuts (concat cs) fs e /\ session 0 fs es oc /\ evs = concat es /\ o = option_map (fun _ => e) oc.
Proof.
  intros cs evs o. split.
  - intros H. destruct (cuts_total (concat cs)) as (fs & e & Hc). apply (conn_session _ _ _ _ _ _ Hc eq_refl) in H.
    destruct H as (es & oc & H). exists fs, e, es, oc. auto.
  - intros (fs & e & es & oc & Hc & H). apply (conn_session _ _ _ _ _ _ Hc eq_refl). eauto.
Qed.

(** And the frames are determined by the stream. *)
Lemma frames_are_determined : forall s, exists fs e, cuts s fs e
  /\ forall fs' e', cuts s fs' e' -> fs' = fs /\ e' = e.
Proof. intros s. destruct (cuts_total s) as (fs & e & H). exists fs, e. split; [assumption|]. apply cuts_fun. assumption. Qed.

(** ** C42 *)
Theorem C42_data_packets_are_acknowledged : forall spare now client c evs o p code l,
  is_bytes c -> is_bytes spare ->
  pkg_decode None Package_zero c spare = DRet p code true -> p_PT p = 1 -> p_SFRD p = Some (BSds l) -> no_confirmation l ->
  handled spare now client c evs o ->
  exists ack rest, writes evs = ack :: rest /\ answer (p_PID p) 0 l ack
    /\ (rest = [] \/ exists b, rest = [b] /\ result_packet (p_PID p) 0 b).
Proof.
  intros spare now client c evs o p code l Hb Hs Hd Hp Hl Hn H.
  destruct (decode_accepted _ _ _ _ Hb Hs Hd) as (_ & Hpid & _). rewrite Hpid.
  destruct (handled_data _ _ _ _ _ _ _ _ _ Hb Hs Hd Hp Hl Hn H) as (s & c' & sv & ack & rest & A1 & A2 & -> & A4 & A5 & _).
  exists ack, rest. rewrite writes_app, writes_save_events, writes_writes. split; [reflexivity|]. split; [assumption|].
  destruct (auth_seen l); [right|left]; assumption.
Qed.

(** Every run is one of these. *)
Theorem C42_all_runs : forall client c evs o,
  runs (handle_packet client c) evs o <-> exists spare now, is_bytes spare /\ handled spare now client c evs o.
Proof. exact handled_runs. Qed.

(** ** C43 *)
Theorem C43_rejected_packets : forall spare now client c evs o p code,
  is_bytes c -> (10 <= length c)%nat -> pkg_decode None Package_zero c spare = DRet p code false ->
  handled spare now client c evs o ->
  exists b, evs = [EvWrite b] /\ answer (p_PID p) code [] b /\ p_PID p = word_at c 7 /\ o = Some client.
Proof.
  intros spare now client c evs o p code Hb H10 Hd H. destruct (decode_pid _ _ _ _ _ Hb H10 Hd) as [Hpid _]. rewrite Hpid.
  destruct (handled_failure _ _ _ _ _ _ _ _ Hb H10 Hd H) as (-> & b & -> & Ha). eauto.
Qed.

(** A rejected packet changes nothing for the rest of the stream: if the frames before it do not
    crash the receiver, it is answered and the frames after it are handled as if it had not been there. *)
Lemma session_split fs1 : forall fs2 c es o, session c (fs1 ++ fs2) es o ->
  (session c fs1 es None /\ o = None) \/
  exists es1 c1 es2, session c fs1 es1 (Some c1) /\ session c1 fs2 es2 o /\ es = (es1 ++ es2)%list.
Proof.
  induction fs1 as [|f fs1 IH]; intros fs2 c es o H.
  - right. exists [], c, es. repeat split; [constructor|exact H].
  - cbn [app] in H. inversion H as [|? ? ? evs H1|? ? ? evs c1 es' ? H1 H2]; subst.
    + left. split; [constructor; assumption|reflexivity].
    + destruct (IH _ _ _ _ H2) as [[H3 ->]|(es1 & c2 & es2 & H3 & H4 & ->)].
      * left. split; [econstructor; eassumption|reflexivity].
      * right. exists (evs :: es1), c2, es2. repeat split; [econstructor; eassumption|exact H4].
Qed.
Theorem C43_the_stream_goes_on : forall cs fs1 f fs2 e evs o, is_bytes (concat cs) -> cuts (concat cs) (fs1 ++ f :: fs2) e ->
  (forall spare, is_bytes spare -> exists p code, pkg_decode None Package_zero f spare = DRet p code false) ->
  runs (handle_conn cs) evs o ->
  (exists es1, session 0 fs1 es1 None /\ evs = concat es1 /\ o = None) \/
  exists es1 c b code es2 oc, session 0 fs1 es1 (Some c) /\ answer (word_at f 7) code [] b /\ session c fs2 es2 oc
    /\ evs = (concat es1 ++ EvWrite b :: concat es2)%list /\ o = option_map (fun _ => e) oc.
Proof.
  intros cs fs1 f fs2 e evs o Hb Hc Hd H. apply (conn_session _ _ _ _ _ _ Hc eq_refl) in H. destruct H as (es & oc & H & -> & ->).
  pose proof (cuts_frames _ _ _ Hc Hb) as Hf. apply Forall_app in Hf as [_ Hf]. apply Forall_cons_iff in Hf as [(Hfb & H10 & _) _].
  apply session_split in H. destruct H as [[H ->]|(es1 & c & es2 & H1 & H2 & ->)]; [left; eauto|right].
  inversion H2 as [|? ? ? ev K|? ? ? ev c2 es3 ? K K2]; subst; apply handled_runs in K; destruct K as (spare & now & Hs & K);
    destruct (Hd spare Hs) as (p & code & Hdec); destruct (handled_failure _ _ _ _ _ _ _ _ Hfb H10 Hdec K) as (Ho & b & -> & Ha);
    [discriminate|]. injection Ho as ->.
  exists es1, c, b, code, es3, oc. rewrite concat_app. auto 6.
Qed.

(** ** C44 *)
(** Without record confirmations in the packet. *)
Theorem C44_position_records_saved_partial : forall spare now client c evs o p code l,
  is_bytes c -> is_bytes spare ->
  pkg_decode None Package_zero c spare = DRet p code true -> p_PT p = 1 -> p_SFRD p = Some (BSds l) -> no_confirmation l ->
  handled spare now client c evs o ->
  exists s c', to_save client l s c' /\ Forall2 (fun kr nv => saved now (fst kr) (snd kr) (fst nv)) s (saves evs)
    /\ o = Some c'.
Proof.
  intros spare now client c evs o p code l Hb Hs Hd Hp Hl Hn H.
  destruct (handled_data _ _ _ _ _ _ _ _ _ Hb Hs Hd Hp Hl Hn H) as (s & c' & sv & ack & rest & A1 & A2 & -> & A4 & A5 & ->).
  exists s, c'. rewrite saves_app, saves_save_events, saves_writes, app_nil_r. repeat (split; [assumption|]). split; [|reflexivity].
  eapply Forall2_weaken; [|exact A2]. intros a b Hab. apply Hab.
Qed.

(** Nothing is saved for packets that are rejected or are responses. *)
Theorem C44_nothing_else_saved : forall spare now client c evs o p code ok,
  is_bytes c -> (10 <= length c)%nat -> is_bytes spare -> pkg_decode None Package_zero c spare = DRet p code ok ->
  ok = false \/ p_PT p <> 1 -> handled spare now client c evs o -> saves evs = [].
Proof.
  intros spare now client c evs o p code ok Hb H10 Hs Hd [->|Hp] H.
  - destruct (handled_failure _ _ _ _ _ _ _ _ Hb H10 Hd H) as (_ & b & -> & _). reflexivity.
  - destruct ok.
    + destruct (handled_response _ _ _ _ _ _ _ _ Hb Hs Hd Hp H) as [-> _]. reflexivity.
    + destruct (handled_failure _ _ _ _ _ _ _ _ Hb H10 Hd H) as (_ & b & -> & _). reflexivity.
Qed.

(** Which records those are: the ones with a position, in order. *)
Lemma records_to_save : forall c l, exists s c', to_save c l s c'
  /\ (forall s2 c2, to_save c l s2 c2 -> s2 = s /\ c2 = c')
  /\ (exists keep, map snd s = filter keep l /\ forall r, keep r = true <-> has_position r).
Proof.
  intros c l. destruct (to_save_total l c) as (s & c' & H). exists s, c'. split; [assumption|]. split.
  - clear -H. induction H as [c|c r l s c' Hp H IH|c r l s c' Hp H IH]; intros s2 c2 H2; inversion H2; subst; try contradiction; auto.
    match goal with H : to_save _ l _ _ |- _ => destruct (IH _ _ H) as [-> ->] end. auto.
  - eexists. split; [eapply to_save_records; eassumption|]. intros r. symmetry. apply has_position_b.
Qed.

Theorem C44_records_with_position_saved : forall spare now client c evs o p code l,
  is_bytes c -> is_bytes spare ->
  pkg_decode None Package_zero c spare = DRet p code true -> p_PT p = 1 -> p_SFRD p = Some (BSds l) -> no_confirmation l ->
  handled spare now client c evs o ->
  exists keep, (forall r, keep r = true <-> has_position r)
  /\ Forall2 (fun r nv => exists k, saved now k r (fst nv)) (filter keep l) (saves evs).
Proof.
  intros spare now client c evs o p code l Hb Hs Hd Hp Hl Hn H.
  destruct (C44_position_records_saved_partial _ _ _ _ _ _ _ _ _ Hb Hs Hd Hp Hl Hn H) as (s & c' & H1 & H2 & _).
  destruct (records_to_save client l) as (s2 & c2 & K1 & K2 & keep & K3 & K4). destruct (K2 _ _ H1) as [-> ->].
  exists keep. split; [exact K4|]. rewrite <- K3. clear -H2. induction H2; constructor; eauto.
Qed.

(** A whole stream, packets with confirmations included; if the process panics, the packets
    before the one that made it panic. *)
Theorem C44_streams : forall cs evs o, is_bytes (concat cs) -> runs (handle_conn cs) evs o ->
  exists fs fs' e s c', cuts (concat cs) (fs ++ fs') e /\ history 0 fs s c'
  /\ Forall2 (fun kr nv => exists now, saved now (fst kr) (snd kr) (fst nv)) s (saves evs)
  /\ (o = Some e /\ fs' = [] \/ o = None /\ exists f fs'' spare, fs' = f :: fs'' /\ is_bytes spare
        /\ pkg_decode None Package_zero f spare = DPanic).
Proof.
  intros cs evs o Hb H. destruct (cuts_total (concat cs)) as (fs & e & Hc).
  apply (conn_session _ _ _ _ _ _ Hc eq_refl) in H. destruct H as (es & oc & H & -> & ->).
  apply session_history in H; [|eapply cuts_frames; eassumption].
  destruct H as (fs1 & fs2 & s & c' & -> & H2 & H3 & H4). exists fs1, fs2, e, s, c'. split; [assumption|]. split; [assumption|].
  split.
  - eapply Forall2_weaken; [|exact H3]. intros a b (now & f & _ & Hab). exists now. apply Hab.
  - destruct oc as [c''|]; [left; destruct H4 as [-> _]; auto|right; split; [reflexivity|exact H4]].
Qed.

(** ** C45: [saved] is the claim. *)
Theorem C45_saved_data : forall spare now client c evs o p code l nav ok,
  is_bytes c -> is_bytes spare ->
  pkg_decode None Package_zero c spare = DRet p code true -> p_PT p = 1 -> p_SFRD p = Some (BSds l) ->
  handled spare now client c evs o -> In (nav, ok) (saves evs) ->
  exists k r, In r l /\ saved now k r nav.
Proof.
  intros spare now client c evs o p code l nav ok Hb Hs Hd Hp Hl H Hin.
  assert (forall l0 s c0 c', to_save c0 l0 s c' -> forall kr, In kr s -> In (snd kr) l0) as Hsub.
  { clear. induction 1; intros kr Hk; [destruct Hk| |].
    - destruct Hk as [<-|Hk]; [left; reflexivity|right; auto].
    - right. auto. }
  assert (forall s sv, Forall2 (is_saved (word_at c 7) now) s sv -> In (nav, ok) sv -> exists kr, In kr s /\ saved now (fst kr) (snd kr) nav) as Hf.
  { induction 1 as [|kr nv s sv Hs1 Hs2 IH]; intros Hi; [destruct Hi|]. destruct Hi as [->|Hi].
    - exists kr. split; [left; reflexivity|]. apply Hs1.
    - destruct (IH Hi) as (kr' & Hk1 & Hk2). exists kr'. split; [right; assumption|assumption]. }
  destruct (first_confirmation l) as [Hn|(l1 & r & l2 & -> & H1 & H2)].
  - destruct (handled_data _ _ _ _ _ _ _ _ _ Hb Hs Hd Hp Hl Hn H) as (s & c' & sv & ack & rest & A1 & A2 & -> & _).
    rewrite saves_app, saves_save_events, saves_writes, app_nil_r in Hin.
    destruct (Hf _ _ A2 Hin) as (kr & K1 & K2). exists (fst kr), (snd kr). split; [eapply Hsub; eauto|assumption].
  - destruct (handled_confirmation _ _ _ _ _ _ _ _ _ _ _ Hb Hs Hd Hp Hl H1 H2 H) as (s & c' & sv & ds & d & ds' & A1 & A2 & -> & _).
    rewrite saves_save_events in Hin.
    destruct (Hf _ _ A2 Hin) as (kr & K1 & K2). exists (fst kr), (snd kr). split; [|assumption].
    apply in_or_app. left. eapply Hsub; eauto.
Qed.

(** ** C46 *)
(** In a packet: the last identity given by this record or an earlier one of the packet,
    otherwise the client at its beginning. *)
Lemma client_in_a_packet : forall c l s c', to_save c l s c' ->
  (forall k r, In (k, r) s -> exists l1 l2, l = (l1 ++ r :: l2)%list
     /\ k = or_else (last_of (fun x => identity x (subs x)) (l1 ++ [r])) c)
  /\ c' = or_else (last_of (fun x => identity x (subs x)) l) c.
Proof. intros c l s c' H. split; [eapply to_save_clients; eauto|eapply to_save_end; eauto]. Qed.

Theorem C46_client_in_a_packet : forall spare now client c evs o p code l,
  is_bytes c -> is_bytes spare ->
  pkg_decode None Package_zero c spare = DRet p code true -> p_PT p = 1 -> p_SFRD p = Some (BSds l) -> no_confirmation l ->
  handled spare now client c evs o ->
  (forall nav ok, In (nav, ok) (saves evs) -> exists l1 r l2, l = (l1 ++ r :: l2)%list
     /\ nr_Client nav = or_else (last_of (fun x => identity x (subs x)) (l1 ++ [r])) client
     /\ saved now (nr_Client nav) r nav)
  /\ o = Some (or_else (last_of (fun x => identity x (subs x)) l) client).
Proof.
  intros spare now client c evs o p code l Hb Hs Hd Hp Hl Hn H.
  destruct (C44_position_records_saved_partial _ _ _ _ _ _ _ _ _ Hb Hs Hd Hp Hl Hn H) as (s & c' & H1 & H2 & ->).
  destruct (client_in_a_packet _ _ _ _ H1) as [K1 ->]. split; [|reflexivity]. clear H1 H Hn Hl Hp Hd.
  induction H2 as [|[k r] nv s sv Hk H2 IH]; intros nav ok Hi; [destruct Hi|]. destruct Hi as [->|Hi].
  - cbn [fst snd] in Hk. destruct (K1 k r (or_introl eq_refl)) as (l1 & l2 & El & Ek). exists l1, r, l2.
    split; [exact El|]. rewrite (sv_client _ _ _ _ Hk). split; [exact Ek|exact Hk].
  - eapply IH; [|exact Hi]. intros k' r' Hi'. apply K1. right. exact Hi'.
Qed.

(** Over a connection: the client at the end of a packet is the one the next packet starts
    with, and the first starts with 0. *)
Theorem C46_client_on_a_connection : forall cs evs e, is_bytes (concat cs) -> runs (handle_conn cs) evs (Some e) ->
  exists fs s c', cuts (concat cs) fs e /\ history 0 fs s c'
  /\ Forall2 (fun kr nv => nr_Client (fst nv) = fst kr) s (saves evs).
Proof.
  intros cs evs e Hb H. destruct (C44_streams _ _ _ Hb H) as (fs & fs' & e' & s & c' & H1 & H2 & H3 & [[Ho ->]|[Ho _]]); [|discriminate].
  injection Ho as ->. rewrite app_nil_r in H1. exists fs, s, c'. split; [assumption|]. split; [assumption|].
  eapply Forall2_weaken; [|exact H3]. intros a b (now & Hs). apply Hs.
Qed.

(** ** C47 *)
(** Wherever the handling of a packet is interrupted: if anything has been written, all
    records to be saved have been saved before. *)
Theorem C47_save_before_acknowledge : forall client c evs, is_bytes c -> (10 <= length c)%nat ->
  partial_run (handle_packet client c) evs ->
  exists before after, evs = (before ++ after)%list /\ writes before = [] /\ saves after = []
  /\ (after <> [] ->
      (before = [] /\ exists code b, after = [EvWrite b] /\ answer (word_at c 7) code [] b) \/
      exists l s c' now ack rest, data_packet c l /\ to_save client l s c'
        /\ Forall2 (fun kr nv => saved now (fst kr) (snd kr) (fst nv)) s (saves before)
        /\ after = EvWrite ack :: rest /\ answer (word_at c 7) 0 l ack).
Proof.
  intros client c evs Hb H10 H. apply partial_extends in H. destruct H as (evs' & o & H).
  apply runs_reaction in H; [|assumption|assumption].
  inversion H as [spare A1 A2|spare p code b A1 A2 A3 A4|p A1 A2|now l s c' sv ack rest A1 A2 A3 A4 A5 A6|now l1 r l2 s c' sv ds d ds' A1 A2 A3 A4 A5 A6 A7];
    match goal with H : _ = (evs ++ evs')%list |- _ => rename H into He end.
  - destruct evs; [|discriminate]. exists [], []. repeat split; congruence.
  - exists [], evs. split; [reflexivity|]. split; [reflexivity|]. destruct evs as [|x evs]; [split; [reflexivity|congruence]|].
    injection He as <- He. destruct evs; [|discriminate]. split; [reflexivity|]. intros _. left. eauto.
  - destruct evs; [|discriminate]. exists [], []. repeat split; congruence.
  - destruct (Nat.le_gt_cases (length evs) (length (save_events sv))) as [Hle|Hgt].
    + exists evs, []. rewrite app_nil_r. split; [reflexivity|]. split; [|split; [reflexivity|congruence]].
      assert (evs = firstn (length evs) (save_events sv)) as ->.
      { transitivity (firstn (length evs) (evs ++ evs')).
        - rewrite firstn_app, Nat.sub_diag, firstn_all, app_nil_r. reflexivity.
        - rewrite <- He, firstn_app. replace (_ - _)%nat with 0%nat by lia. rewrite app_nil_r. reflexivity. }
      unfold save_events. rewrite firstn_map. apply writes_save_events.
    + exists (save_events sv), (skipn (length (save_events sv)) evs).
      assert (evs = (save_events sv ++ skipn (length (save_events sv)) evs)%list) as Hev.
      { rewrite <- (firstn_skipn (length (save_events sv)) evs) at 1. f_equal.
        transitivity (firstn (length (save_events sv)) (evs ++ evs')).
        - rewrite firstn_app. replace (_ - _)%nat with 0%nat by lia. rewrite app_nil_r. reflexivity.
        - rewrite <- He, firstn_app, Nat.sub_diag, firstn_all, app_nil_r. reflexivity. }
      split; [assumption|]. split; [apply writes_save_events|]. split.
      * rewrite Hev, <- app_assoc in He. apply app_inv_head in He.
        assert (saves (map EvWrite (ack :: rest)) = []) as Hz by apply saves_writes. cbn [map] in Hz. rewrite He, saves_app in Hz.
        apply app_eq_nil in Hz. apply Hz.
      * intros Hne. right. exists l, s, c', now, ack. rewrite Hev, <- app_assoc in He. apply app_inv_head in He.
        destruct (skipn _ evs) as [|x after]; [congruence|]. injection He as <- _. exists after.
        rewrite saves_save_events. repeat (split; [assumption|]). split; [|split; [reflexivity|assumption]].
        eapply Forall2_weaken; [|exact A4]. intros a b Hab. apply Hab.
  - exists evs, []. rewrite app_nil_r. split; [reflexivity|]. split; [|split; [reflexivity|congruence]].
    assert (writes (evs ++ evs') = []) as Hz by (rewrite <- He; apply writes_save_events).
    rewrite writes_app in Hz. apply app_eq_nil in Hz. apply Hz.
Qed.

Lemma partial_pbind {A B} (p : prog A) (f : A -> prog B) evs : partial_run (pbind p f) evs ->
  partial_run p evs \/ exists e1 a e2, evs = (e1 ++ e2)%list /\ runs p e1 (Some a) /\ partial_run (f a) e2.
Proof.
  revert evs. induction p as [a|k IH|k IH|r k IH|b k IH|]; intros evs H; cbn [pbind] in H.
  - right. exists [], a, evs. repeat split; [constructor|assumption].
  - inversion H; subst; [left; constructor|]. destruct (IH _ _ H1) as [?|(e1 & a & e2 & -> & ? & ?)]; [left; econstructor; eauto|].
    right. exists e1, a, e2. repeat split; [econstructor; eauto|assumption].
  - inversion H; subst; [left; constructor|]. destruct (IH _ _ H2) as [?|(e1 & a & e2 & -> & ? & ?)]; [left; econstructor; eauto|].
    right. exists e1, a, e2. repeat split; [econstructor; eauto|assumption].
  - inversion H; subst; [left; constructor|]. destruct (IH _ _ H3) as [?|(e1 & a & e2 & -> & ? & ?)]; [left; econstructor; eauto|].
    right. exists (EvSave r ok :: e1), a, e2. repeat split; [econstructor; eauto|assumption].
  - inversion H; subst; [left; constructor|]. destruct (IH _ H3) as [?|(e1 & a & e2 & -> & ? & ?)]; [left; econstructor; eauto|].
    right. exists (EvWrite b :: e1), a, e2. repeat split; [econstructor; eauto|assumption].
  - inversion H; subst. left. constructor.
Qed.

(** Wherever a connection is interrupted: some frames have been handled completely, and perhaps
    one more in part. *)
Theorem C47_crash_points : forall cs evs, partial_run (handle_conn cs) evs ->
  exists fs fs' e es client last, cuts (concat cs) (fs ++ fs') e /\ session 0 fs es (Some client)
  /\ evs = (concat es ++ last)%list
  /\ (last = [] \/ exists f fs'', fs' = f :: fs'' /\ partial_run (handle_packet client f) last).
Proof.
  intros cs evs H. destruct (cuts_total (concat cs)) as (fs & e & Hc).
  assert (exists fs1 fs2 es client last, fs = (fs1 ++ fs2)%list /\ session 0 fs1 es (Some client) /\ evs = (concat es ++ last)%list
    /\ (last = [] \/ exists f fs'', fs2 = f :: fs'' /\ partial_run (handle_packet client f) last)) as (fs1 & fs2 & es & client & last & -> & R).
  { assert (exists evs' o, runs (handle_conn cs) (evs ++ evs') o) as (evs' & o & Hr) by (apply partial_extends; assumption).
    apply (conn_session _ _ _ _ _ _ Hc eq_refl) in Hr. destruct Hr as (es & oc & Hs & He & _). clear H Hc.
    revert evs He. induction Hs as [c|c f fs evs0 H0|c f fs evs0 c' es o' H0 Hs IH]; intros evs He; cbn [concat] in He.
    - destruct evs; [|discriminate]. exists [], [], [], c, []. repeat split; [constructor|auto].
    - exists [], (f :: fs), [], c, evs. repeat split; [constructor|]. right. exists f, fs. split; [reflexivity|].
      rewrite app_nil_r in He. eapply runs_partial; [exact H0|]. symmetry. exact He.
    - destruct (Nat.le_gt_cases (length evs) (length evs0)) as [Hle|Hgt].
      + exists [], (f :: fs), [], c, evs. repeat split; [constructor|]. right. exists f, fs. split; [reflexivity|].
        eapply runs_partial with (e2 := skipn (length evs) evs0); [exact H0|].
        rewrite <- (firstn_skipn (length evs) evs0) at 1. f_equal.
        transitivity (firstn (length evs) (evs ++ evs')).
        * rewrite He, firstn_app. replace (_ - _)%nat with 0%nat by lia. rewrite app_nil_r. reflexivity.
        * rewrite firstn_app, Nat.sub_diag, firstn_all, app_nil_r. reflexivity.
      + assert (evs = (evs0 ++ skipn (length evs0) evs)%list) as Hev.
        { rewrite <- (firstn_skipn (length evs0) evs) at 1. f_equal.
          transitivity (firstn (length evs0) (evs ++ evs')).
          - rewrite firstn_app. replace (_ - _)%nat with 0%nat by lia. rewrite app_nil_r. reflexivity.
          - rewrite He, firstn_app, Nat.sub_diag, firstn_all, app_nil_r. reflexivity. }
        rewrite Hev, <- app_assoc in He. apply app_inv_head in He. symmetry in He.
        destruct (IH _ (eq_sym He)) as (fs1 & fs2 & es1 & client & last & -> & I1 & I2 & I3).
        exists (f :: fs1), fs2, (evs0 :: es1), client, last. split; [reflexivity|]. split; [econstructor; eauto|]. split; [|assumption].
        rewrite Hev, I2. cbn [concat]. rewrite app_assoc. reflexivity. }
  exists fs1, fs2, e, es, client, last. split; [assumption|exact R].
Qed.

(** ** C51 *)
Theorem C51_result_code_for_authentication : forall spare now client c evs o p code l,
  is_bytes c -> is_bytes spare ->
  pkg_decode None Package_zero c spare = DRet p code true -> p_PT p = 1 -> p_SFRD p = Some (BSds l) -> no_confirmation l ->
  handled spare now client c evs o ->
  exists ack, answer (p_PID p) 0 l ack /\
  ((exists r d, In r l /\ In d (subs r) /\ is_auth d) -> exists b, writes evs = [ack; b] /\ result_packet (p_PID p) 0 b) /\
  (~ (exists r d, In r l /\ In d (subs r) /\ is_auth d) -> writes evs = [ack]).
Proof.
  intros spare now client c evs o p code l Hb Hs Hd Hp Hl Hn H.
  destruct (decode_accepted _ _ _ _ Hb Hs Hd) as (_ & Hpid & _). rewrite Hpid.
  destruct (handled_data _ _ _ _ _ _ _ _ _ Hb Hs Hd Hp Hl Hn H) as (s & c' & sv & ack & rest & A1 & A2 & -> & A4 & A5 & _).
  exists ack. split; [assumption|]. rewrite writes_app, writes_save_events, writes_writes. cbn [app].
  rewrite <- auth_seen_true. destruct (auth_seen l).
  - split; [|congruence]. intros _. destruct A5 as (b & -> & A5). eauto.
  - split; [congruence|]. intros _. rewrite A5. reflexivity.
Qed.

(** ** C52 *)
(** Everything that is written is a decodable response or a result code packet. *)
Theorem C52_written_packets_partial : forall cs evs o b, is_bytes (concat cs) -> runs (handle_conn cs) evs o -> In b (writes evs) ->
  (forall spare, exists p, pkg_decode None Package_zero b spare = DRet p 0 true) \/ exists pid, pid < 65536 /\ result_packet pid 0 b.
Proof.
  intros cs evs o b Hb H Hin. destruct (cuts_total (concat cs)) as (fs & e & Hc).
  apply (conn_session _ _ _ _ _ _ Hc eq_refl) in H. destruct H as (es & oc & H & -> & _).
  pose proof (cuts_frames _ _ _ Hc Hb) as Hf. clear Hc Hb.
  assert (forall c f evs0 o', is_bytes f -> (10 <= length f)%nat -> runs (handle_packet c f) evs0 o' -> In b (writes evs0) ->
    (forall spare, exists p, pkg_decode None Package_zero b spare = DRet p 0 true) \/ exists pid, pid < 65536 /\ result_packet pid 0 b) as Hone.
  { intros c f evs0 o' Hbf H10 Hr Hi. apply runs_reaction in Hr; [|assumption|assumption].
    assert (forall pid code l b', answer pid code l b' -> forall spare, exists p, pkg_decode None Package_zero b' spare = DRet p 0 true) as Ha.
    { intros pid code l b' [_ Ha] spare. destruct (Ha spare) as (p & sdr & Hp & _). eauto. }
    inversion Hr; subst.
    - destruct Hi.
    - destruct Hi as [<-|[]]. left. eauto.
    - destruct Hi.
    - rewrite writes_app, writes_save_events, writes_writes in Hi. destruct Hi as [<-|Hi]; [left; eauto|].
      right. exists (word_at f 7). split; [apply word_lt; assumption|].
      destruct (auth_seen l); [|subst rest; destruct Hi]. destruct H5 as (b' & -> & Hb'). destruct Hi as [<-|[]]. assumption.
    - rewrite writes_save_events in Hi. destruct Hi. }
  match goal with |- ?G => set (goal := G) in * end. clearbody goal. revert Hin.
  induction H as [c|c f fs evs0 H0|c f fs evs0 c' es o' H0 Hs IH]; intros Hin; inversion Hf as [|? ? (F1 & F2 & _) F3]; subst.
  - destruct Hin.
  - cbn [concat] in Hin. rewrite app_nil_r in Hin. eapply Hone; eauto.
  - cbn [concat] in Hin. rewrite writes_app in Hin. apply in_app_or in Hin as [Hin|Hin]; [eapply Hone; eauto|auto].
Qed.

(** ** C53 *)
Theorem C53_responses_are_not_answered : forall spare now client c evs o p code,
  is_bytes c -> is_bytes spare -> pkg_decode None Package_zero c spare = DRet p code true -> p_PT p = 0 ->
  handled spare now client c evs o -> evs = [] /\ o = Some client.
Proof.
  intros spare now client c evs o p code Hb Hs Hd Hp H.
  apply (handled_response _ _ _ _ _ _ _ _ Hb Hs Hd) with (2 := H). lia.
Qed.

(** Two receivers connected to each other: what one writes makes the other one do nothing, as
    long as it is a response. *)
Theorem C53_no_ping_pong : forall pid code l b client evs o, answer pid code l b ->
  runs (handle_packet client b) evs o -> evs = [] /\ o = Some client.
Proof.
  intros pid code l b client evs o [Hb Ha] H. apply handled_runs in H. destruct H as (spare & now & Hs & H).
  destruct (Ha spare) as (p & sdr & Hd & Hp & _). apply (C53_responses_are_not_answered spare now client b evs o p 0); assumption.
Qed.

(** ** C54 *)
(** After any frames: if what follows does not begin with 1, nothing more is saved or written
    and the connection is closed. *)
Theorem C54_other_traffic_is_dropped : forall fs s cs, 
  Forall (fun f => sendable f /\ N.of_nat (length f) <= 65545) fs -> (0 < length s)%nat -> byte_at s 0 <> 1 ->
  concat cs = (concat fs ++ s)%list ->
  exists e, (e = StopNotEgts \/ e = StopReadErr) /\
  forall evs o, runs (handle_conn cs) evs o <-> exists oc, runs (handle_all 0 fs) evs oc /\ o = option_map (fun _ => e) oc.
Proof.
  intros fs s cs Hf Hs Hb Hc.
  destruct (Nat.lt_ge_cases (length s) 10) as [H10|H10].
  - exists StopReadErr. split; [auto|]. intros evs o.
    rewrite (C40_framing_partial fs s [] StopReadErr cs Hf (cut_short s (conj Hs H10)) Hc), app_nil_r. reflexivity.
  - exists StopNotEgts. split; [auto|]. intros evs o.
    rewrite (C40_framing_partial fs s [] StopNotEgts cs Hf (cut_alien s H10 Hb) Hc), app_nil_r. reflexivity.
Qed.

Theorem C54_any_stream : forall cs, (0 < length (concat cs))%nat -> byte_at (concat cs) 0 <> 1 ->
  forall evs o, runs (handle_conn cs) evs o -> evs = [] /\ (o = Some StopNotEgts \/ o = Some StopReadErr).
Proof.
  intros cs Hs Hb evs o H. destruct (C54_other_traffic_is_dropped [] (concat cs) cs) as (e & He & Hr); auto.
  apply Hr in H. destruct H as (oc & H & ->). inversion H; subst. split; [reflexivity|]. cbn. destruct He as [-> | ->]; auto.
Qed.

(** ** C55 *)
(** No panic when every frame of the stream declares a header of at most its real size and
    fewer than 65536 bytes of header and body; missing: the others (see C55_no_crash_refuted). *)
Theorem C55_no_crash_partial : forall cs evs o, is_bytes (concat cs) ->
  (forall fs e f, cuts (concat cs) fs e -> In f fs ->
     0 < byte_at f 3 <= N.of_nat (wire_header_size f) /\ byte_at f 3 + word_at f 5 < 65536) ->
  runs (handle_conn cs) evs o -> exists e, o = Some e.
Proof.
  intros cs evs o Hb Hf H. destruct (C44_streams _ _ _ Hb H) as (fs & fs' & e & s & c' & H1 & _ & _ & [[-> _]|[-> (f & fs'' & spare & -> & Hs & Hp)]]).
  - eauto.
  - exfalso. destruct (Hf _ _ f H1) as [G1 G2]; [apply in_or_app; right; left; reflexivity|].
    revert Hp. apply C08_no_panic_partial; try assumption.
    pose proof (cuts_frames _ _ _ H1 Hb) as Hk. rewrite Forall_forall in Hk.
    apply (Hk f). apply in_or_app. right. left. reflexivity.
Qed.
End WithEnv.

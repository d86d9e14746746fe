(** C107: receivers that read each other's answers fall silent.  C108: repeated packets. *)
From Coq Require Import NArith ZArith Lia ZifyBool ZifyNat ZifyN String Ascii Bool List.
From Verif Require Import GoBase GoFloat Crc SubRecords Records Package Storage Server
  SpecBase SpecCrc SpecPkg SpecSub SpecRec SpecSrv SpecAns
  BaseFacts SubFacts SubMore RecordFacts DecodeFacts CrcFacts WireFacts PackageFacts PropRec PropPkg PropMore
  SrvFacts SrvLoop SrvPacket SrvConn PropSrv PropSrvMore PropAnswer PropBound PropPkgEx PropSrvEx PropCrc ConcreteEnv.
Import ListNotations.
Open Scope N_scope.

Local Opaque le_bytes crc8 crc16.

Section WithEnv.
Context {E : Env}.

(** What the receiver writes: confirmations, and acceptances of a login. *)
Inductive answering : list N -> Prop :=
| an_confirms pid code svc l : pid < 65536 -> N.of_nat (length l) <= 9362 -> answer pid code l (answer_bytes pid code svc l) ->
    answering (answer_bytes pid code svc l)
| an_login pid : pid < 65536 -> answering (authorized_bytes pid).

Lemma answer_bytes_answer pid code svc l :
  pid < 65536 -> code < 256 -> svc < 256 -> Forall rec_ranges l -> N.of_nat (length l) <= 9362 ->
  answer pid code l (answer_bytes pid code svc l).
Proof.
  intros Hp Hc Hs Hl Hn. destruct (createPtResponse_answer pid code svc l Hp Hc Hs Hl Hn) as (b & Hb & Ha).
  rewrite createPtResponse_bytes in Hb by assumption. injection Hb as <-. exact Ha.
Qed.

Lemma sent_answering spare f w : is_bytes f -> is_bytes spare -> (10 <= length f)%nat -> sent spare f w -> Forall answering w.
Proof.
  intros Hb Hs H10 H. pose proof (word_lt f 7 Hb) as Hw.
  assert (forall p code l, pkg_decode None Package_zero f spare = DRet p code true -> p_PT p = 1 -> p_SFRD p = Some (BSds l) ->
    answering (answer_bytes (word_at f 7) 0 (last_service l) l)) as Hd.
  { intros p code l Hd Hp Hl. destruct (decode_accepted _ _ _ _ Hb Hs Hd) as (_ & _ & _ & _ & Hbody).
    destruct (Hbody Hp) as (l' & Hl' & Hr & Hlen). rewrite Hl in Hl'. injection Hl' as <-.
    constructor; [assumption|assumption|]. apply answer_bytes_answer; try assumption; [reflexivity|].
    unfold last_service. rewrite <- last_svc_last. apply last_svc_lt; [reflexivity|assumption]. }
  destruct H as [H|p code H|p code H H1|p code l H H1 H2 H3|p code l H H1 H2 H3 H4|p code l H H1 H2 H3 H4]; try apply Forall_nil.
  - constructor; [|constructor]. destruct (decode_pid _ _ _ _ _ Hb H10 H) as [_ Hc]. constructor; [assumption|cbn; lia|].
    apply answer_bytes_answer; [assumption|assumption|reflexivity|constructor|cbn; lia].
  - constructor; [eauto|constructor].
  - constructor; [eauto|]. constructor; [constructor; assumption|constructor].
Qed.

Lemma sent_all_answering fs ws : Forall (fun f => is_bytes f /\ (10 <= length f)%nat /\ byte_at f 0 = 1) fs -> sent_all fs ws -> Forall answering ws.
Proof.
  intros Hf H. induction H as [|spare f fs Hs H|spare f fs w ws Hs Hd H Ha IH]; [constructor|constructor|].
  inversion Hf as [|? ? (F1 & F2 & _) F3]; subst. apply Forall_app. split; [exact (sent_answering spare f w F1 Hs F2 H)|auto].
Qed.

(** Such packets are cut as they were written. *)
Lemma response_frame_cut pid b rest fs e : (0 < length b)%nat -> N.of_nat (length b) < 65500 ->
  cuts rest fs e -> cuts (response_frame pid b ++ rest) (response_frame pid b :: fs) e.
Proof.
  intros H0 Hb Hc. set (f := response_frame pid b).
  assert (length f = 13 + length b)%nat as Hl.
  { unfold f, response_frame. cbv zeta. rewrite !app_length. unfold le16. cbn [length]. lia. }
  assert (taken (f ++ rest) = length f) as Ht.
  { rewrite Hl. unfold taken, frame_length.
    assert (byte_at (f ++ rest) 3 = 11) as -> by reflexivity.
    assert (word_at (f ++ rest) 5 = N.of_nat (length b)) as ->.
    { unfold f, response_frame. cbv zeta. unfold word_at, byte_at, le16. cbn [app nth].
      rewrite (N.mod_small (N.of_nat (length b) / 256)) by (apply N.div_lt_upper_bound; lia).
      rewrite (N.div_mod (N.of_nat (length b)) 256) at 3 by discriminate. lia. }
    destruct (N.eqb_spec (N.of_nat (length b)) 0); [lia|].
    replace (11 + (N.of_nat (length b) + 2) + 65526) with (N.of_nat (length b) + 3 + 1 * 65536) by lia.
    rewrite N.mod_add, N.mod_small by lia. lia. }
  pose proof (cut_frame (f ++ rest) fs e) as Hcut. rewrite Ht in Hcut. rewrite app_length in Hcut.
  rewrite firstn_app, Nat.sub_diag, firstn_all, firstn_O, app_nil_r, skipn_app, skipn_all, Nat.sub_diag, skipn_O in Hcut.
  apply Hcut; [lia|reflexivity|exact Hc].
Qed.

Lemma answering_cut b rest fs e : answering b -> cuts rest fs e -> cuts (b ++ rest) (b :: fs) e.
Proof.
  intros [pid code svc l Hp Hl Ha|pid Hp] Hc.
  - unfold answer_bytes. apply response_frame_cut; [rewrite app_length; unfold le16; cbn [length]; lia| |exact Hc].
    destruct l as [|r l]; [unfold le16; cbn; lia|]. rewrite !app_length, confirmations_length. unfold le16. cbn [length] in *. lia.
  - apply response_frame_cut; [cbn; lia|cbn; lia|exact Hc].
Qed.

Lemma answering_cuts ws : Forall answering ws -> cuts (concat ws) ws StopEof.
Proof. induction 1 as [|b ws Hb Hw IH]; [constructor|]. cbn [concat]. apply answering_cut; assumption. Qed.

Lemma answering_bytes b : answering b -> is_bytes b.
Proof.
  intros [pid code svc l Hp Hl Ha|pid Hp]; [apply Ha|].
  unfold authorized_bytes, response_frame. cbv zeta. rewrite !bytes_ok_app.
  assert (forall h, is_bytes h -> is_bytes [checksum8 h]) as Hc.
  { intros h Hh. constructor; [|constructor]. rewrite <- crc8_checksum by assumption. apply crc8_lt; assumption. }
  repeat split; try apply le16_ok; try (apply Hc; rewrite !bytes_ok_app; repeat split; try apply le16_ok); repeat constructor.
Qed.

(** What reading an answer does. *)
Definition login_answer (b : list N) : Prop := exists pid, pid < 65536 /\ b = authorized_bytes pid.

Lemma confirmation_ignored b c evs o : answering b -> ~ login_answer b -> runs (handle_packet c b) evs o -> evs = [] /\ o = Some c.
Proof.
  intros [pid code svc l Hp Hl Ha|pid Hp] Hn; [|destruct Hn; exists pid; auto].
  apply C53_no_ping_pong with (1 := Ha).
Qed.

Lemma login_answered pid c evs o : pid < 65536 -> runs (handle_packet c (authorized_bytes pid)) evs o ->
  evs = [EvWrite (answer_bytes ((pid + 1) mod 65536) 129 0 [])] /\ o = Some c.
Proof.
  intros Hp H. assert (is_bytes (authorized_bytes pid)) as Hb by (apply answering_bytes; constructor; assumption).
  assert (word_at (authorized_bytes pid) 7 = (pid + 1) mod 65536) as Hw.
  { set (n := (pid + 1) mod 65536). assert (n < 65536) as Hn by (apply N.mod_upper_bound; discriminate).
    unfold authorized_bytes, response_frame. fold n. cbv zeta. unfold word_at, byte_at, le16. cbn [app nth].
    rewrite (N.mod_small (n / 256)) by (apply N.div_lt_upper_bound; lia). rewrite (N.div_mod n 256) at 3 by discriminate. lia. }
  apply handled_runs in H. destruct H as (spare & now & Hs & H).
  assert (result_packet pid 0 (authorized_bytes pid)) as Hr.
  { destruct (createSrResultCode_packet pid) as (b & _ & Hr & _ & He). rewrite result_pkg_bytes in He. rewrite He. exact Hr. }
  destruct (C52_result_code_packets_refuted pid _ spare Hp Hs Hr) as (p & Hd).
  assert (10 <= length (authorized_bytes pid))%nat as H10 by (unfold authorized_bytes, response_frame; cbv zeta; rewrite !app_length; unfold le16; cbn [length]; lia).
  destruct (C43_rejected_packets spare now c _ evs o p 129 Hb H10 Hd H) as (b & -> & _ & _ & ->).
  pose proof (C102_answer_bytes _ _ _ _ _ _ Hb Hs H10 H) as Hsent. rewrite <- Hw. split; [|reflexivity].
  inversion Hsent as [G|p' code G|p' code G G1|p' code l G G1 G2 G3|p' code l G G1 G2 G3 G4|p' code l G G1 G2 G3 G4]; subst.
  - rewrite Hd in G. injection G as _ <-. reflexivity.
  - rewrite Hd in G. discriminate.
Qed.

(** The answer to each login acceptance. *)
Inductive complaints : list (list N) -> list (list N) -> Prop :=
| cm_nil : complaints [] []
| cm_skip b ws vs : ~ login_answer b -> complaints ws vs -> complaints (b :: ws) vs
| cm_login pid ws vs : pid < 65536 -> complaints ws vs ->
    complaints (authorized_bytes pid :: ws) (answer_bytes ((pid + 1) mod 65536) 129 0 [] :: vs).

Lemma answers_session ws : Forall answering ws -> forall c es o, session c ws es o ->
  exists vs, concat es = map EvWrite vs /\ complaints ws vs /\ o = Some c.
Proof.
  induction 1 as [|b ws Hb Hws IH]; intros c es o H.
  - inversion H; subst. exists []. split; [reflexivity|]. split; [constructor|reflexivity].
  - assert (login_answer b \/ ~ login_answer b) as Hcase.
    { destruct Hb as [pid code svc l Hp Hl Ha|pid Hp]; [|left; exists pid; auto]. right. intros (q & Hq & He).
      destruct Ha as [_ Ha]. destruct (Ha []) as (p & sdr & Hd & _). rewrite He in Hd.
      destruct (createSrResultCode_packet q) as (b' & _ & Hr & _ & He'). rewrite result_pkg_bytes in He'. subst b'.
      destruct (C52_result_code_packets_refuted q _ [] Hq (Forall_nil _) Hr) as (p' & Hd'). congruence. }
    inversion H as [|? ? ? evs H1|? ? ? evs c1 es' ? H1 H2]; subst; cbn [concat].
    + exfalso. destruct Hcase as [(pid & Hp & ->)|Hn].
      * destruct (login_answered _ _ _ _ Hp H1). discriminate.
      * destruct (confirmation_ignored _ _ _ _ Hb Hn H1). discriminate.
    + destruct Hcase as [(pid & Hp & ->)|Hn].
      * destruct (login_answered _ _ _ _ Hp H1) as [-> Hc]. injection Hc as ->. destruct (IH _ _ _ H2) as (vs & -> & Hv & ->).
        eexists (_ :: vs). split; [reflexivity|]. split; [constructor; assumption|reflexivity].
      * destruct (confirmation_ignored _ _ _ _ Hb Hn H1) as [-> Hc]. injection Hc as ->. destruct (IH _ _ _ H2) as (vs & -> & Hv & ->).
        exists vs. split; [reflexivity|]. split; [constructor; assumption|reflexivity].
Qed.

Lemma complaints_answering ws vs : complaints ws vs -> Forall answering vs /\ Forall (fun b => ~ login_answer b) vs.
Proof.
  induction 1 as [|b ws vs Hn H IH|pid ws vs Hp H IH]; [split; constructor|assumption|]. destruct IH as [IH1 IH2].
  set (n := (pid + 1) mod 65536). assert (n < 65536) as Hn by (apply N.mod_upper_bound; discriminate).
  assert (answer n 129 [] (answer_bytes n 129 0 [])) as Ha by (apply answer_bytes_answer; try assumption; try reflexivity; [constructor|cbn; lia]).
  split; constructor; try assumption.
  - constructor; [assumption|cbn; lia|assumption].
  - intros (q & Hq & He). apply (f_equal (@length N)) in He. revert He. unfold answer_bytes, authorized_bytes, response_frame. cbv zeta.
    unfold le16. cbn [length app]. discriminate.
Qed.

Lemma complaints_none ws vs : complaints ws vs -> Forall (fun b => ~ login_answer b) ws -> vs = [].
Proof.
  induction 1 as [|b ws vs Hn H IH|pid ws vs Hp H IH]; intros Hf; [reflexivity|apply IH; inversion Hf; assumption|].
  inversion Hf as [|? ? Hx _]; subst. destruct Hx. exists pid. auto.
Qed.

Lemma runs_answering cs evs o : is_bytes (concat cs) -> runs (handle_conn cs) evs o -> Forall answering (writes evs).
Proof.
  intros Hb H. destruct (cuts_total (concat cs)) as (fs & e & Hc).
  apply (sent_all_answering fs); [eapply cuts_frames; eassumption|eapply C102_whole_connections; eassumption].
Qed.

(** ** C107 *)
(** Whatever the first receiver has been sent: a second one that reads its answers saves
    nothing, does not crash, reads to the end, and complains exactly about the acceptances of
    logins; a third one that reads these complaints does nothing at all.  Each may get the
    bytes in any segments. *)
Theorem C107_answers_die_out : forall cs evs o, is_bytes (concat cs) -> runs (handle_conn cs) evs o ->
  forall cs2 evs2 o2, concat cs2 = concat (writes evs) -> runs (handle_conn cs2) evs2 o2 ->
  o2 = Some StopEof /\ evs2 = map EvWrite (writes evs2) /\ complaints (writes evs) (writes evs2)
  /\ forall cs3 evs3 o3, concat cs3 = concat (writes evs2) -> runs (handle_conn cs3) evs3 o3 -> evs3 = [] /\ o3 = Some StopEof.
Proof.
  intros cs evs o Hb H cs2 evs2 o2 Hcs2 H2. pose proof (runs_answering _ _ _ Hb H) as Ha.
  apply (conn_session _ _ _ _ _ _ (answering_cuts _ Ha) Hcs2) in H2. destruct H2 as (es & oc & H2 & -> & ->).
  destruct (answers_session _ Ha _ _ _ H2) as (vs & -> & Hv & ->). rewrite writes_writes.
  split; [reflexivity|]. split; [reflexivity|]. split; [exact Hv|].
  intros cs3 evs3 o3 Hcs3 H3. destruct (complaints_answering _ _ Hv) as [Hva Hvn].
  apply (conn_session _ _ _ _ _ _ (answering_cuts _ Hva) Hcs3) in H3. destruct H3 as (es3 & oc3 & H3 & -> & ->).
  destruct (answers_session _ Hva _ _ _ H3) as (us & -> & Hu & ->). rewrite (complaints_none _ _ Hu Hvn). split; reflexivity.
Qed.

(** So a receiver that is shown its own answers is silent at once unless somebody logged in. *)
Theorem C107_without_logins : forall cs evs o, is_bytes (concat cs) -> runs (handle_conn cs) evs o ->
  Forall (fun b => ~ login_answer b) (writes evs) ->
  forall cs2 evs2 o2, concat cs2 = concat (writes evs) -> runs (handle_conn cs2) evs2 o2 -> evs2 = [] /\ o2 = Some StopEof.
Proof.
  intros cs evs o Hb H Hn cs2 evs2 o2 Hcs2 H2.
  destruct (C107_answers_die_out _ _ _ Hb H _ _ _ Hcs2 H2) as (-> & He & Hc & _).
  rewrite (complaints_none _ _ Hc Hn) in He. split; [exact He|reflexivity].
Qed.

(** ** C108 *)
(** [f] is decoded to the records [l], none of which is a confirmation, wherever it is stored. *)
Definition data_frame (f : list N) (l : list ServiceDataRecord) : Prop :=
  is_bytes f /\ (10 <= length f)%nat /\ no_confirmation l
  /\ forall spare, is_bytes spare -> exists p code, pkg_decode None Package_zero f spare = DRet p code true /\ p_PT p = 1 /\ p_SFRD p = Some (BSds l).

Lemma data_frame_handled f l c evs o : data_frame f l -> runs (handle_packet c f) evs o ->
  exists now s c' w, to_save c l s c' /\ Forall2 (is_saved (word_at f 7) now) s (saves evs) /\ o = Some c'
  /\ writes evs = w /\ w = answer_bytes (word_at f 7) 0 (last_service l) l :: (if auth_seen l then [authorized_bytes (word_at f 7)] else []).
Proof.
  intros (Hb & H10 & Hn & Hd) H. apply handled_runs in H. destruct H as (spare & now & Hs & H).
  destruct (Hd spare Hs) as (p & code & Hp & Ht & Hl). pose proof (C102_answer_bytes _ _ _ _ _ _ Hb Hs H10 H) as Hsent.
  destruct (handled_data _ _ _ _ _ _ _ _ _ Hb Hs Hp Ht Hl Hn H) as (s & c' & sv & ack & rest & A1 & A2 & -> & _ & _ & ->).
  eexists now, s, c', _. split; [exact A1|]. rewrite saves_app, saves_save_events, saves_writes, app_nil_r. split; [exact A2|]. split; [reflexivity|].
  split; [reflexivity|].
  inversion Hsent as [G|p' code' G|p' code' G G1|p' code' l' G G1 G2 G3|p' code' l' G G1 G2 G3 G4|p' code' l' G G1 G2 G3 G4];
    rewrite Hp in G; try discriminate; injection G as <- <-; try congruence.
  - rewrite Hl in G2. injection G2 as <-. destruct (auth_seen l) eqn:Ha; [|symmetry; assumption]. exfalso. apply G4, auth_seen_true, Ha.
  - rewrite Hl in G2. injection G2 as <-. apply auth_seen_true in G4. rewrite G4. symmetry. assumption.
Qed.

Lemma to_save_snd c l s c' : to_save c l s c' -> forall d s2 c2, to_save d l s2 c2 -> map snd s = map snd s2.
Proof.
  induction 1 as [c|c r l s c' Hp H IH|c r l s c' Hp H IH]; intros d s2 c2 H2; inversion H2; subst; try contradiction; [reflexivity| |];
    cbn [map snd]; [f_equal|]; eauto.
Qed.
Lemma to_save_named c l s c' : to_save c l s c' -> (forall r, In r l -> identity r (subs r) <> None) ->
  forall d s2 c2, to_save d l s2 c2 -> s = s2.
Proof.
  induction 1 as [c|c r l s c' Hp H IH|c r l s c' Hp H IH]; intros Hr d s2 c2 H2; inversion H2; subst; try contradiction; [reflexivity| |].
  all: assert (client_after c r = client_after d r) as Hc by (specialize (Hr r (or_introl eq_refl)); unfold client_after; destruct (identity r (subs r)); [reflexivity|congruence]).
  - rewrite <- Hc in *. f_equal. eapply IH; [intros; apply Hr; right; assumption|eassumption].
  - eapply IH; [intros; apply Hr; right; assumption|eassumption].
Qed.

(** A packet that comes again, whatever came in between: it gets the same answer. *)
Theorem C108_repeated_packets_are_confirmed_again : forall f l fs c es o, data_frame f l -> session c (f :: fs ++ [f]) es o ->
  (exists es0, session c (f :: fs) es0 None)
  \/ exists e1 c1 es2 c2 e3 c', session c1 fs es2 (Some c2) /\ es = e1 :: es2 ++ [e3] /\ o = Some c' /\ writes e1 <> [] /\ writes e3 = writes e1.
Proof.
  intros f l fs c es o Hf H. change (f :: fs ++ [f]) with ((f :: fs) ++ [f])%list in H.
  apply session_split in H. destruct H as [[H _]|(es1 & c1 & es2 & H1 & H2 & ->)]; [left; eauto|right].
  inversion H1 as [|? ? ? e1 K|? ? ? e1 c2 es' ? K K2]; subst.
  destruct (data_frame_handled _ _ _ _ _ Hf K) as (n1 & s1 & d1 & w1 & _ & _ & _ & W1 & W1').
  inversion H2 as [|? ? ? e3 L|? ? ? e3 c3 es3 ? L L2]; subst; destruct (data_frame_handled _ _ _ _ _ Hf L) as (n2 & s2 & d2 & w2 & _ & _ & D2 & W2 & W2'); [discriminate|].
  inversion L2; subst. exists e1, c2, es', c1, e3, c3. split; [exact K2|]. split; [reflexivity|]. split; [reflexivity|].
  rewrite W1', W2'. split; [discriminate|reflexivity].
Qed.

(** Its records are saved again as well: as many, with the same contents, and for the same
    clients if the records have identifiers. *)
Theorem C108_repeated_packets_are_saved_again : forall f l fs c es o, data_frame f l -> session c (f :: fs ++ [f]) es o ->
  (exists es0, session c (f :: fs) es0 None)
  \/ exists e1 c1 es2 c2 e3 c', session c1 fs es2 (Some c2) /\ es = e1 :: es2 ++ [e3] /\ o = Some c'
      /\ length (saves e1) = npos l
      /\ Forall2 (fun a b => exists r t1 t2 k1 k2, In r l /\ is_saved (word_at f 7) t1 (k1, r) a /\ is_saved (word_at f 7) t2 (k2, r) b
                   /\ ((forall r, In r l -> identity r (subs r) <> None) -> k1 = k2)) (saves e1) (saves e3).
Proof.
  intros f l fs c es o Hf H. change (f :: fs ++ [f]) with ((f :: fs) ++ [f])%list in H.
  apply session_split in H. destruct H as [[H _]|(es1 & c1 & es2 & H1 & H2 & ->)]; [left; eauto|right].
  inversion H1 as [|? ? ? e1 K|? ? ? e1 c2 es' ? K K2]; subst.
  destruct (data_frame_handled _ _ _ _ _ Hf K) as (n1 & s1 & d1 & w1 & T1 & S1 & _).
  inversion H2 as [|? ? ? e3 L|? ? ? e3 c3 es3 ? L L2]; subst; destruct (data_frame_handled _ _ _ _ _ Hf L) as (n2 & s2 & d2 & w2 & T2 & S2 & D2 & _); [discriminate|].
  inversion L2; subst. exists e1, c2, es', c1, e3, c3. split; [exact K2|]. split; [reflexivity|]. split; [reflexivity|].
  split; [rewrite <- (same_length _ _ _ S1); eapply to_save_npos; exact T1|].
  pose proof (to_save_snd _ _ _ _ T1 _ _ _ T2) as Hsnd. pose proof (fun Hr => to_save_named _ _ _ _ T1 Hr _ _ _ T2) as Heq.
  assert (forall r, In r (map snd s1) -> In r l) as Hin.
  { clear -T1. induction T1 as [c|c r l s c' Hp H IH|c r l s c' Hp H IH]; cbn [map snd In]; intros x Hx; [destruct Hx| |]; intuition. }
  clear -S1 S2 Hsnd Heq Hin. revert s2 Hsnd Heq Hin S2. generalize (saves e3). induction S1 as [|[k1 r1] a s1 sv1 Ha S1 IH]; intros sv3 s2 Hsnd Heq Hin S2.
  - destruct s2; [|discriminate]. inversion S2; subst. constructor.
  - destruct s2 as [|[k2 r2] s2]; [discriminate|]. cbn [map snd] in Hsnd. injection Hsnd as <- Hsnd.
    inversion S2 as [|? b ? sv3' Hb S2']; subst. constructor.
    + exists r1, n1, n2, k1, k2. split; [apply Hin; left; reflexivity|]. split; [exact Ha|]. split; [exact Hb|].
      intros Hr. specialize (Heq Hr). congruence.
    + apply (IH _ s2); try assumption; [intros Hr; specialize (Heq Hr); congruence|intros; apply Hin; right; assumption].
Qed.

End WithEnv.

(** C107: an echo of the answers to a packet with a terminal identity. *)
Example C107_hyps : is_bytes (concat [frame_auth]) /\ exists evs o, runs (handle_conn (E := env0) [frame_auth]) evs o.
Proof. split; [okb|apply runs_exists]. Qed.
(** C108: a packet with one position, sent twice, is saved twice. *)
Lemma frame_save_data : data_frame (E := env0) frame_save recs_save.
Proof.
  split; [okb|]. split; [vm_compute; lia|]. split; [apply no_confirmation_b; reflexivity|]. intros spare _.
  destruct (frame_save_decode spare) as (p & Hp & Ht & _ & Hl). exists p, 0. auto.
Qed.
Lemma frame_save_no_crash c es : ~ session (E := env0) c [frame_save] es None.
Proof.
  intros H. inversion H as [|? ? ? evs H1|? ? ? evs c1 es' ? H1 H2]; subst; [|inversion H2].
  destruct (data_frame_handled _ _ _ _ _ frame_save_data H1) as (? & ? & ? & ? & _ & _ & Hx & _). discriminate.
Qed.
Theorem C108_saved_once_refuted : exists f l, data_frame (E := env0) f l
  /\ (exists evs o, runs (handle_all (E := env0) 0 [f]) evs o) /\ (exists evs o, runs (handle_all (E := env0) 0 [f; f]) evs o)
  /\ (forall evs o, runs (handle_all (E := env0) 0 [f]) evs o -> length (saves evs) = 1%nat)
  /\ forall evs o, runs (handle_all (E := env0) 0 [f; f]) evs o -> length (saves evs) = 2%nat.
Proof.
  exists frame_save, recs_save. split; [apply frame_save_data|]. split; [apply runs_exists|]. split; [apply runs_exists|].
  split; intros evs o H; apply session_runs in H; destruct H as (es & H & ->).
  - inversion H as [|? ? ? e1 H1|? ? ? e1 c1 es' ? H1 H2]; subst; destruct (data_frame_handled _ _ _ _ _ frame_save_data H1) as (n & s & c' & w & T & S & D & _); [discriminate|].
    inversion H2; subst. cbn [concat]. rewrite app_nil_r, <- (same_length _ _ _ S), (to_save_npos _ _ _ _ T). reflexivity.
  - change [frame_save; frame_save] with (frame_save :: [] ++ [frame_save]) in H.
    apply (C108_repeated_packets_are_saved_again _ _ _ _ _ _ frame_save_data) in H.
    destruct H as [(es0 & H)|(e1 & c1 & es2 & c2 & e3 & c' & H & -> & _ & Hl & Hs)]; [destruct (frame_save_no_crash _ _ H)|].
    inversion H; subst. cbn [app concat]. rewrite app_nil_r, saves_app, app_length, <- (same_length _ _ _ Hs), Hl. reflexivity.
Qed.

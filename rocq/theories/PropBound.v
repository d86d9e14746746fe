(** C103: the number of bytes the receiver writes, and that of the records it saves, is bounded
    by the number of bytes it receives. *)
From Coq Require Import NArith ZArith Lia ZifyBool ZifyNat ZifyN String Ascii Bool List.
From Verif Require Import GoBase GoFloat Crc SubRecords Records Package Storage Server
  SpecBase SpecCrc SpecPkg SpecSub SpecRec SpecSrv SpecDec SpecReads SpecAns
  BaseFacts SubFacts SubMore RecordFacts DecodeFacts CrcFacts WireFacts PackageFacts PropRec PropPkg PropMore
  SrvFacts SrvLoop SrvPacket SrvConn PropDec PropCrc PropWhole ConcreteEnv PropSrv PropSrvMore PropPkgEx PropSrvEx PropAnswer.
Import ListNotations.
Open Scope N_scope.


Section WithEnv.
Context {E : Env}.

(** ** Sizes *)
Definition isz (i : item) : nat := match i with Own v | Shared v | Whole v => length v | Rest _ => 0 end.

Lemma received_none old a l : (0 < isz a)%nat -> ~ received old (a :: l) [].
Proof.
  intros Ha H. inversion H; subst; cbn [isz] in Ha; try congruence;
    match goal with H : (_ ++ _)%list = [] |- _ => apply app_eq_nil in H as [-> _]; cbn in Ha; lia | _ => idtac end; cbn in Ha; lia.
Qed.
Lemma received_step old a b l c : (0 < isz b)%nat -> received old (a :: b :: l) c ->
  exists r old', (length c = isz a + length r)%nat /\ received old' (b :: l) r.
Proof.
  intros Hb H. inversion H; subst; cbn [isz];
    try (exfalso; eapply received_none; eassumption); eexists; eexists; (split; [rewrite app_length; reflexivity|eassumption]).
Qed.
Lemma received_last old a l c : (0 < isz a)%nat -> received old (a :: l) c -> (0 < length c)%nat.
Proof. intros Ha H. destruct c; [|cbn; lia]. exfalso. eapply received_none; eassumption. Qed.

Lemma received_pos k lat long w dir e b : received [0; 0; 0; 0] (items_pos k lat long w dir e) b -> (21 <= length b)%nat.
Proof.
  unfold items_pos. cbn [app]. intros H.
  do 8 (apply received_step in H as (? & ? & ? & H); [|apply Nat.ltb_lt; reflexivity]).
  apply received_last in H; [|apply Nat.ltb_lt; reflexivity]. cbn [isz length le32 le16 le24] in *. unfold le32, le16, le24 in *. cbn [length] in *. lia.
Qed.

Definition heavy (d : SubData) : Prop := match d with DPosData _ => True | _ => is_auth d end.

Lemma means_heavy t n b d : means t n b d -> heavy d -> b <> [].
Proof.
  intros H Hd. destruct H; cbn in Hd; try contradiction; intros ->.
  - eapply received_none in H1; [assumption|]. apply Nat.ltb_lt; reflexivity.
  - destruct H0 as [H0|[_ H0]]; (eapply received_none in H0; [assumption|]); cbn [isz]; rewrite app_length; cbn [length]; lia.
  - apply received_pos in H1. cbn in H1. lia.
Qed.

Lemma zero_subs c l : Forall (eq 0) c -> reads_subs c l -> l = [].
Proof.
  intros Hc H. inversion H as [|t n z c0 b r d l0 Hz Hn Hm Hr|n z c0 d q k r l0 Hz Hn Hw Hq Hr|t n z c0 b r l0 Hz Hn Ht Hr]; subst; [reflexivity| | |].
  - inversion Hc; subst. inversion Hm.
  - inversion Hc as [|? ? _ Hc']; subst. 
    assert (n = 0) as ->.
    { inversion Hz; subst; [|inversion Hc'; congruence]. unfold le16 in Hc'. cbn [app] in Hc'. inversion Hc' as [|? ? A1 Hc2]; subst.
      inversion Hc2 as [|? ? A2 _]; subst. unfold is_u16 in *. lia. }
    exfalso. inversion Hn; subst; [|lia]. unfold lay_response, le16 in *. cbn [app length] in *. lia.
  - inversion Hc; subst. exfalso. apply Ht. left. reflexivity.
Qed.

Lemma tail_zero t m l : Forall (eq 0) m -> reads_subs (t :: m) l ->
  forall x d, In x l -> rd_SRD x = Some d -> ~ heavy d.
Proof.
  intros Hm H.
  assert (forall n c, size_field n m c -> n = 0 /\ Forall (eq 0) c) as Hsz.
  { intros n c Hz. inversion Hz; subst; [|inversion Hm; subst; split; [reflexivity|constructor]].
    unfold le16 in Hm. cbn [app] in Hm. inversion Hm as [|? ? A1 Hc2]; subst.
    inversion Hc2 as [|? ? A2 A3]; subst. unfold is_u16 in *. split; [lia|assumption]. }
  assert (forall n c b r, size_field n m c -> next n c b r -> b = [] /\ Forall (eq 0) r) as Hnx.
  { intros n c b r Hz Hn. destruct (Hsz _ _ Hz) as [-> Hc]. inversion Hn; subst; [|lia].
    destruct b; [|cbn [length] in *; lia]. split; [reflexivity|assumption]. }
  inversion H as [|t' n z c0 b r d l0 Hz Hn Hme Hr|n z c0 d q k r l0 Hz Hn Hw Hq Hr|t' n z c0 b r l0 Hz Hn Ht Hr]; subst.
  - destruct (Hnx _ _ _ _ Hz Hn) as [-> Hr0]. apply zero_subs in Hr; [|assumption]. subst l0.
    intros x d' [<-|[]] Hx. injection Hx as <-. intros Hh. exact (means_heavy _ _ _ _ Hme Hh eq_refl).
  - destruct (Hnx _ _ _ _ Hz Hn) as [Hb _]. unfold lay_response, le16 in Hb. discriminate.
  - destruct (Hnx _ _ _ _ Hz Hn) as [_ Hr0]. apply zero_subs in Hr; [|assumption]. subst l. intros x d [].
Qed.

Lemma pos_subs w l : reads_subs w l -> forall x e, In x l -> rd_SRD x = Some (DPosData e) -> (24 <= length w)%nat.
Proof.
  assert (forall n z c, size_field n z c -> (length c <= length z)%nat /\ (c <> [] -> length z = 2 + length c)%nat) as Hsz.
  { intros n z c Hz. inversion Hz; subst; unfold le16; cbn [app length]; split; lia || congruence || (intros; lia). }
  assert (forall n c b r, next n c b r -> length c = length b + length r)%nat as Hnx.
  { intros n c b r Hn. inversion Hn; subst; [apply app_length|cbn [length]; lia]. }
  induction 1 as [|t' n z c0 b r d l0 Hz Hn Hme Hr IH|n z c0 d q k r l0 Hz Hn Hw Hq Hr IH|t' n z c0 b r l0 Hz Hn Ht Hr IH]; intros x e Hx He; [destruct Hx| | |];
    destruct (Hsz _ _ _ Hz) as [S1 S2]; pose proof (Hnx _ _ _ _ Hn) as S3; cbn [length].
  - destruct Hx as [<-|Hx].
    + injection He as ->. inversion Hme; subst. match goal with H : received _ (items_pos _ _ _ _ _ _) _ |- _ => apply received_pos in H end.
      rewrite S2 by (intros ->; cbn [length] in S3; lia). lia.
    + specialize (IH _ _ Hx He). lia.
  - destruct Hx as [<-|Hx]; [discriminate|]. specialize (IH _ _ Hx He). lia.
  - specialize (IH _ _ Hx He). lia.
Qed.

Definition npos (l : list ServiceDataRecord) : nat := length (filter (fun r => existsb is_posb (subs r)) l).

Lemma in_subs r d : In d (subs r) -> exists x, In x (s_RD r) /\ rd_SRD x = Some d.
Proof.
  unfold subs. rewrite in_flat_map. intros (x & Hx & H). exists x. split; [assumption|].
  destruct (rd_SRD x); [|destruct H]. destruct H as [->|[]]. reflexivity.
Qed.
Lemma has_posb r : existsb is_posb (subs r) = true <-> has_position r.
Proof.
  rewrite existsb_exists. split.
  - intros (d & Hd & H). destruct d; try discriminate. eexists. exact Hd.
  - intros (e & H). exists (DPosData e). split; [assumption|reflexivity].
Qed.

Lemma head_length s : (7 <= length (lay_head s))%nat.
Proof. unfold lay_head, le16. rewrite !app_length. cbn [length]. lia. Qed.

(** What a record with a heavy subrecord needs: two bytes behind its header. *)
Lemma content_heavy n c w r l d x : content n c w r -> reads_subs w l -> In x l -> rd_SRD x = Some d -> heavy d -> (2 <= length c - length r)%nat.
Proof.
  intros Hc Hw Hx Hd Hh. inversion Hc as [n0|n0 w0 r0 Hne Hn|n0 c0 m Hne Hm Hm0 Hn]; subst.
  - inversion Hw; subst. destruct Hx.
  - rewrite app_length. destruct w as [|t w]; [inversion Hw; subst; destruct Hx|]. destruct w as [|t' w]; [|cbn [length]; lia].
    exfalso. eapply tail_zero; [constructor|exact Hw|exact Hx|exact Hd|exact Hh].
  - destruct c as [|t c]; [congruence|]. destruct c as [|t' c]; [|cbn [length]; lia]. cbn [app] in Hw.
    exfalso. eapply tail_zero; [exact Hm|exact Hw|exact Hx|exact Hd|exact Hh].
Qed.
Lemma content_length n c w r : content n c w r -> (length r <= length c)%nat /\ (r <> [] -> length c = length w + length r)%nat.
Proof.
  intros Hc. inversion Hc; subst; [split; [cbn; lia|congruence]|rewrite app_length; split; intros; lia|split; [cbn; lia|congruence]].
Qed.

Lemma recs_sizes b l : reads_recs b l ->
  (7 * length l <= length b)%nat
  /\ (wants_authorization l -> 7 * length l + 2 <= length b)%nat
  /\ (0 < npos l -> 31 * npos l <= length b + 22)%nat.
Proof.
  induction 1 as [|s c w r l Hs Hu Hc Hw Hr (IH1 & IH2 & IH3)].
  - cbn. split; [lia|]. split; [|lia]. intros (r & d & [] & _).
  - pose proof (head_length s) as Hh. destruct (content_length _ _ _ _ Hc) as [C1 C2]. rewrite app_length. cbn [length].
    split; [lia|]. split.
    + intros (r' & d & [<-|Hin] & Hd & Ha).
      * apply in_subs in Hd as (x & Hx & Hd). assert (heavy d) as Hv by (destruct d; cbn in *; auto).
        pose proof (content_heavy _ _ _ _ _ _ _ Hc Hw Hx Hd Hv). lia.
      * assert (wants_authorization l) as Hw' by (exists r', d; auto). specialize (IH2 Hw'). lia.
    + unfold npos in *. cbn [filter]. destruct (existsb is_posb (subs s)) eqn:Hp; [|intros H; specialize (IH3 H); lia].
      intros _. apply has_posb in Hp as (e & Hp). apply in_subs in Hp as (x & Hx & Hd).
      pose proof (content_heavy _ _ _ _ _ _ _ Hc Hw Hx Hd I) as Hv. cbn [length].
      destruct r as [|r0 r].
      * destruct l; [|cbn [length] in IH1; lia].
        cbn [filter length] in *. lia.
      * pose proof (pos_subs _ _ Hw _ _ Hx Hd). rewrite C2 by discriminate.
        destruct (length (filter _ l)) as [|k]; [cbn [length] in *; lia|]. specialize (IH3 (Nat.lt_0_succ k)). lia.
Qed.

Lemma to_save_npos l : forall c s c', to_save c l s c' -> length s = npos l.
Proof.
  intros c s c' H. induction H as [|c r l s c' Hp H IH|c r l s c' Hp H IH]; [reflexivity| |]; unfold npos in *; cbn [filter length].
  - apply has_posb in Hp. rewrite Hp. cbn [length]. lia.
  - destruct (existsb is_posb (subs r)) eqn:He; [apply has_posb in He; contradiction|assumption].
Qed.
Lemma npos_app l1 l2 : npos (l1 ++ l2) = (npos l1 + npos l2)%nat.
Proof. unfold npos. rewrite filter_app, app_length. reflexivity. Qed.

(** The frame of a data packet. *)
Lemma data_frame f l : is_bytes f -> data_packet f l -> exists b, reads_recs b l /\ (12 + length b <= length f)%nat.
Proof.
  intros Hb (p & (spare & code & Hs & Hd) & Hpt & Hl). assert (is_bytes (f ++ spare)) as Hbs by (apply bytes_ok_app; auto).
  apply C11_accepted_frames in Hd; [|assumption].
  destruct Hd as (_ & Hr & _ & _ & _ & Hsp & _ & _ & _ & _ & _ & body & Hbody & plain & Hp & Ha).
  destruct Hr. rewrite hr_PT in Hpt. destruct Ha as [(_ & l' & -> & Ha)|(Ha & _)]; [|congruence].
  rewrite Hl in Hbody. injection Hbody as <-.
  assert (plain = declared_body f) as ->.
  { destruct Hp as [(_ & Hp)|(_ & k & Hk & _)]; [assumption|discriminate]. }
  assert (bytes_ok (declared_body f)) as Hdb.
  { unfold declared_body. apply bytes_ok_app. split; [apply bytes_ok_firstn; apply bytes_ok_skipn; assumption|]. apply zeros_ok. }
  exists (declared_body f). split; [apply C87_records_accepts; assumption|].
  unfold declared_body. rewrite app_length, firstn_length, repeat_length, skipn_length. unfold sum_present in Hsp.
  unfold wire_header_size in *. destruct (routed f); lia.
Qed.

Lemma answer_length pid code svc l : length (answer_bytes pid code svc l) = (match l with [] => 16 | _ => 23 + 6 * length l end)%nat.
Proof.
  unfold answer_bytes, response_frame, le16. cbv zeta. rewrite !app_length. destruct l as [|r l]; [reflexivity|].
  set (l0 := r :: l). unfold le16. rewrite !app_length, confirmations_length. cbn [length]. lia.
Qed.
Lemma authorized_length pid : length (authorized_bytes pid) = 24%nat.
Proof. reflexivity. Qed.

Lemma data_written f l : is_bytes f -> data_packet f l ->
  (21 * (match l with [] => 16 | _ => 23 + 6 * length l end) <= 53 * length f
  /\ (wants_authorization l -> 21 * ((match l with [] => 16 | _ => 23 + 6 * length l end) + 24) <= 53 * length f)
  /\ 21 * npos l <= length f)%nat.
Proof.
  intros Hb Hd. destruct (data_frame _ _ Hb Hd) as (b & Hr & Hl). apply recs_sizes in Hr as (H1 & H2 & H3).
  split; [destruct l; cbn [length] in *; lia|]. split.
  - intros Hw. specialize (H2 Hw). destruct l as [|r l]; [destruct Hw as (? & ? & [] & _)|]. cbn [length] in *. lia.
  - destruct (npos l) as [|k]; [lia|]. specialize (H3 (Nat.lt_0_succ k)). lia.
Qed.

Lemma sent_bounded spare f w : is_bytes f -> is_bytes spare -> (10 <= length f)%nat -> sent spare f w ->
  (21 * length (concat w) <= 53 * length f)%nat.
Proof.
  intros Hb Hs H10 H. inversion H; subst; cbn [concat]; rewrite ?app_nil_r, ?app_length, ?authorized_length, ?answer_length; try (cbn [length]; lia).
  - destruct (data_written f l Hb) as (B & _ & _); [exists p; split; [exists spare, code; auto|auto]|]. exact B.
  - destruct (data_written f l Hb) as (_ & B & _); [exists p; split; [exists spare, code; auto|auto]|]. apply B. assumption.
Qed.

Lemma same_length {A B} (P : A -> B -> Prop) l l' : Forall2 P l l' -> length l = length l'.
Proof. induction 1; cbn; congruence. Qed.

Lemma reaction_saves client f evs o : is_bytes f -> reaction client f evs o -> (21 * length (saves evs) <= length f)%nat.
Proof.
  intros Hb H. inversion H; subst; try (cbn; lia).
  - rewrite saves_app, saves_save_events, saves_writes, app_nil_r.
    match goal with H : Forall2 _ _ _ |- _ => rewrite <- (same_length _ _ _ H) end.
    match goal with H : to_save _ _ _ _ |- _ => rewrite (to_save_npos _ _ _ _ H) end.
    destruct (data_written f l Hb) as (_ & _ & B); assumption.
  - rewrite saves_save_events.
    match goal with H : Forall2 _ _ _ |- _ => rewrite <- (same_length _ _ _ H) end.
    match goal with H : to_save _ _ _ _ |- _ => rewrite (to_save_npos _ _ _ _ H) end.
    destruct (data_written f (l1 ++ r :: l2) Hb) as (_ & _ & B); [assumption|]. rewrite npos_app in B. lia.
Qed.

Lemma cuts_length s fs e : cuts s fs e -> (length (concat fs) <= length s)%nat.
Proof.
  induction 1 as [| | | |s fs e Hs Hb Hc IH]; try (cbn; lia). cbn [concat]. rewrite app_length, firstn_length. rewrite skipn_length in IH. lia.
Qed.

Lemma sent_all_bounded fs ws : Forall (fun f => is_bytes f /\ (10 <= length f)%nat /\ byte_at f 0 = 1) fs ->
  sent_all fs ws -> (21 * length (concat ws) <= 53 * length (concat fs))%nat.
Proof.
  intros Hf H. induction H as [|spare f fs Hs Hd|spare f fs w ws Hs Hd Hw Hr IH]; try (cbn; lia).
  inversion Hf as [|? ? (Hb & H10 & _) Hf']; subst. specialize (IH Hf'). apply sent_bounded in Hw; [|assumption|assumption|assumption].
  rewrite concat_app. cbn [concat]. rewrite !app_length. lia.
Qed.

Lemma session_saves fs : Forall (fun f => is_bytes f /\ (10 <= length f)%nat /\ byte_at f 0 = 1) fs ->
  forall c es o, session c fs es o -> (21 * length (saves (concat es)) <= length (concat fs))%nat.
Proof.
  induction 1 as [|f fs (Hb & H10 & _) Hfs IH]; intros c es o H.
  - inversion H; subst. cbn. lia.
  - inversion H as [|? ? ? evs H1|? ? ? evs c1 es' ? H1 H2]; subst; cbn [concat]; rewrite saves_app, !app_length;
      apply runs_reaction in H1; try assumption; apply reaction_saves in H1; try assumption.
    + cbn. lia.
    + apply IH in H2. lia.
Qed.

(** ** C103 *)
Theorem C103_bounded_by_traffic : forall cs evs o, is_bytes (concat cs) -> runs (handle_conn cs) evs o ->
  (21 * length (concat (writes evs)) <= 53 * length (concat cs))%nat
  /\ (21 * length (saves evs) <= length (concat cs))%nat.
Proof.
  intros cs evs o Hb H. destruct (cuts_total (concat cs)) as (fs & e & Hc). pose proof (cuts_frames _ _ _ Hc Hb) as Hf.
  pose proof (cuts_length _ _ _ Hc) as Hl. split.
  - pose proof (C102_whole_connections _ _ _ _ _ Hb Hc H) as Hs. apply sent_all_bounded in Hs; [|assumption]. lia.
  - apply (conn_session _ _ _ _ _ _ Hc eq_refl) in H. destruct H as (es & oc & H & -> & _). apply session_saves in H; [|assumption]. lia.
Qed.

End WithEnv.

(** The bounds are reached: 53 bytes are written for 21, and one record saved for 21.  The
    header length is one too small, so one byte of the body checksum is missing; the end of
    the record is filled up with zeros. *)
Definition frame_more : list N := [1; 0; 0; 10; 0; 9; 0; 3; 0; 1; 62; 5; 0; 62; 0; 0; 2; 2; 7; 2; 115].
Definition frame_save : list N := [1; 0; 0; 10; 0; 9; 0; 0; 0; 1; 19; 24; 0; 17; 0; 0; 2; 2; 16; 21; 177].
Definition recs_more : list ServiceDataRecord := [mkSDR 5 62 "0" "0" "0" "00" "0" "0" "0" 0 0 t_zero 2 2
  [mkRecordData 7 2 (Some (DAuthInfo (mkSrAuthInfo "" "" "")))]].
Definition pos_zero : SrPosData :=
  mkSrPosData (1262304000 * 1000000000)%Z f64_zero f64_zero "0" "0" "0" "0" "0" "0" "0" "0" 0 0 0 0 0 0 0 0.
Definition recs_save : list ServiceDataRecord := [mkSDR 24 17 "0" "0" "0" "00" "0" "0" "0" 0 0 t_zero 2 2
  [mkRecordData 16 21 (Some (DPosData pos_zero))]].

Lemma frame_more_decode spare : exists p, pkg_decode (E := env0) None Package_zero frame_more spare = DRet p 0 true /\ p_PT p = 1 /\ p_PID p = 3
     /\ p_SFRD p = Some (BSds recs_more).
Proof.
  rewrite (C99_memory_behind_partial None Package_zero frame_more spare []) by (try okb; split; vm_compute; discriminate || reflexivity).
  apply seen_ok. vm_compute. reflexivity.
Qed.
Lemma frame_save_decode spare : exists p, pkg_decode (E := env0) None Package_zero frame_save spare = DRet p 0 true /\ p_PT p = 1 /\ p_PID p = 0
     /\ p_SFRD p = Some (BSds recs_save).
Proof.
  rewrite (C99_memory_behind_partial None Package_zero frame_save spare []) by (try okb; split; vm_compute; discriminate || reflexivity).
  apply seen_ok. vm_compute. reflexivity.
Qed.
Lemma one_frame f : (taken f = length f)%nat -> byte_at f 0 = 1 -> cuts f [f] StopEof.
Proof.
  intros Ht Hb. rewrite <- (firstn_all f) at 2. rewrite <- Ht. apply cut_frame; [lia|assumption|]. rewrite Ht, skipn_all. constructor.
Qed.

Theorem C103_bounds_are_reached :
  (length frame_more = 21%nat /\ (exists evs o, runs (handle_conn (E := env0) [frame_more]) evs o)
   /\ forall evs o, runs (handle_conn (E := env0) [frame_more]) evs o -> length (concat (writes evs)) = 53%nat)
  /\ (length frame_save = 21%nat /\ (exists evs o, runs (handle_conn (E := env0) [frame_save]) evs o)
   /\ forall evs o, runs (handle_conn (E := env0) [frame_save]) evs o -> length (saves evs) = 1%nat).
Proof.
  split; (split; [reflexivity|]; split; [apply runs_exists|]); intros evs o H.
  - assert (cuts (concat [frame_more]) [frame_more] StopEof) as Hc by (apply one_frame; reflexivity).
    assert (is_bytes (concat [frame_more])) as Hb by okb. apply (C102_whole_connections _ _ _ _ _ Hb Hc) in H.
    inversion H as [|spare f fs Hs Hd|spare f fs w ws Hs Hd Hw Hr]; subst; destruct (frame_more_decode spare) as (p & Hp & Ht & _ & Hl); [congruence|].
    inversion Hr; subst. inversion Hw as [Hq|p' code Hq|p' code Hq Hq1|p' code l Hq Hq1 Hq2 Hq3|p' code l Hq Hq1 Hq2 Hq3 Hq4|p' code l Hq Hq1 Hq2 Hq3 Hq4]; subst; rewrite Hp in Hq; try discriminate;
      injection Hq as <- <-; try congruence; rewrite Hl in Hq2; injection Hq2 as <-.
    + exfalso. apply Hq3. apply no_confirmation_b. reflexivity.
    + exfalso. apply Hq4. apply auth_seen_true. reflexivity.
    + vm_compute. reflexivity.
  - assert (cuts (concat [frame_save]) [frame_save] StopEof) as Hc by (apply one_frame; reflexivity).
    apply (conn_session _ _ _ _ _ _ Hc eq_refl) in H. destruct H as (es & oc & H & -> & _).
    assert (forall l, data_packet (E := env0) frame_save l -> l = recs_save) as Hdp.
    { intros l (p' & (spare & code & _ & Hq) & _ & Hl'). destruct (frame_save_decode spare) as (p & Hp & _ & _ & Hl). rewrite Hp in Hq.
      injection Hq as <- _. congruence. }
    assert (forall evs o', runs (handle_packet (E := env0) 0 frame_save) evs o' -> length (saves evs) = 1%nat) as H1.
    { intros evs o' H1. apply runs_reaction in H1; [|okb|vm_compute; lia].
      inversion H1 as [spare Hs Hq|spare p' code b Hs Hq Hpid Ha|p' (spare & code & Hs & Hq) Hpt|now l s c' sv ack rest Hdd Hn Hts Hf Ha Hrest|now l1 r l2 s c' sv ds d ds' Hdd Hn Hsub Hds Hd Hts Hf]; subst;
        try (destruct (frame_save_decode spare) as (p & Hp & Ht & _); rewrite Hp in Hq; try discriminate; injection Hq as <- _; congruence).
      - apply Hdp in Hdd. subst l. rewrite saves_app, saves_save_events, saves_writes, app_nil_r, <- (same_length _ _ _ Hf), (to_save_npos _ _ _ _ Hts). reflexivity.
      - apply Hdp in Hdd. exfalso. assert (no_confirmation recs_save) as Hnc by (apply no_confirmation_b; reflexivity).
        apply (Hnc r); [rewrite <- Hdd; apply in_elt|]. exists d. split; [rewrite Hsub; apply in_elt|assumption]. }
    inversion H as [|? ? ? evs Hr|? ? ? evs c1 es' ? Hr Hr2]; subst.
    + cbn [concat]. rewrite app_nil_r. eauto.
    + inversion Hr2; subst. cbn [concat]. rewrite app_nil_r. eauto.
Qed.

(** C102: the answers to a packet with a terminal identity and a position. *)
Example C102_hyps : is_bytes frame_auth /\ (10 <= length frame_auth)%nat
  /\ sent (E := env0) [] frame_auth
       [[1; 0; 0; 11; 0; 22; 0; 9; 0; 0; 244; 8; 0; 0; 12; 0; 1; 0; 32; 2; 2; 0; 3; 0; 1; 0; 0; 0; 3; 0; 2; 0; 0; 175; 251];
        [1; 0; 0; 11; 0; 11; 0; 9; 0; 0; 122; 4; 0; 1; 0; 32; 1; 1; 9; 1; 0; 0; 43; 43]].
Proof.
  split; [okb|]. split; [vm_compute; lia|].
  destruct frame_auth_hyps as (_ & Hn & Ha & _ & p & Hd & Ht & _ & Hl).
  pose proof (st_authorized [] frame_auth p 0 recs_auth Hd Ht Hl Hn Ha) as H. vm_compute in H |- *. exact H.
Qed.

(** Facts about a connection: frames of a stream, one round per frame, what each round does. *)
From Coq Require Import NArith ZArith Lia ZifyBool ZifyNat ZifyN String Ascii Bool List.
From Verif Require Import GoBase GoFloat Crc SubRecords Records Package Storage Server
  SpecBase SpecCrc SpecPkg SpecSub SpecRec SpecSrv
  BaseFacts SubFacts SubMore RecordFacts DecodeFacts CrcFacts WireFacts PackageFacts PropRec PropPkg PropMore
  SrvFacts SrvLoop SrvPacket.
Import ListNotations.
Open Scope N_scope.

Section WithEnv.
Context {E : Env}.

(** ** Frames *)
Lemma taken_pos s : (10 <= taken s)%nat.
Proof. unfold taken. lia. Qed.

Lemma cuts_frames s fs e : cuts s fs e -> is_bytes s -> Forall (fun f => is_bytes f /\ (10 <= length f)%nat /\ byte_at f 0 = 1) fs.
Proof.
  induction 1 as [|s Hs|s Hs Hb|s Hs Hb|s fs e Hs Hb Hc IH]; intros Hk; try constructor.
  - split; [apply bytes_ok_firstn; assumption|]. pose proof (taken_pos s). rewrite firstn_length. split; [lia|].
    unfold byte_at in *. rewrite nth_firstn by lia. assumption.
  - apply IH. apply bytes_ok_skipn. assumption.
Qed.

Lemma cuts_fun s fs e : cuts s fs e -> forall fs' e', cuts s fs' e' -> fs' = fs /\ e' = e.
Proof.
  induction 1 as [|s Hs|s Hs Hb|s Hs Hb|s fs e Hs Hb Hc IH]; intros fs' e' H'; pose proof (taken_pos []) as T0.
  - inversion H'; subst; cbn [length] in *; try lia; try (split; reflexivity).
  - inversion H'; subst; cbn [length] in *; try lia; try (split; reflexivity). pose proof (taken_pos s). lia.
  - inversion H'; subst; cbn [length] in *; try lia; try (split; reflexivity); try congruence.
  - inversion H'; subst; cbn [length] in *; try lia; try (split; reflexivity); try congruence.
  - pose proof (taken_pos s). inversion H'; subst; cbn [length] in *; try lia; try congruence.
    match goal with H : cuts (skipn _ _) _ _ |- _ => apply IH in H as [-> ->] end. split; reflexivity.
Qed.

(** ** Rounds *)
Lemma session_runs fs : forall c evs o, runs (handle_all c fs) evs o <-> exists es, session c fs es o /\ evs = concat es.
Proof.
  induction fs as [|f fs IH]; intros c evs o; cbn [handle_all].
  - split.
    + intros H. inversion H; subst. exists []. split; [constructor|reflexivity].
    + intros (es & H & ->). inversion H; subst. constructor.
  - rewrite runs_pbind. split.
    + intros [(e1 & a & e2 & -> & H1 & H2)|[H1 ->]].
      * apply IH in H2. destruct H2 as (es & H2 & ->). exists (e1 :: es). split; [econstructor; eauto|reflexivity].
      * exists [evs]. split; [constructor; assumption|]. cbn. rewrite app_nil_r. reflexivity.
    + intros (es & H & ->). inversion H as [|? ? ? evs' H1|? ? ? evs' c' es' ? H1 H2]; subst.
      * right. cbn. rewrite app_nil_r. auto.
      * left. exists evs', c', (concat es'). split; [reflexivity|]. split; [assumption|]. apply IH. eauto.
Qed.

Lemma conn_session s fs e cs evs o : cuts s fs e -> concat cs = s ->
  runs (handle_conn cs) evs o <->
  exists es oc, session 0 fs es oc /\ evs = concat es /\ o = option_map (fun _ => e) oc.
Proof.
  intros Hc Hs. unfold handle_conn. rewrite (conn_loop_cuts s fs e Hc) by (try assumption; rewrite Hs; lia). split.
  - intros (oc & H & ->). apply session_runs in H. destruct H as (es & H & ->). eauto.
  - intros (es & oc & H & -> & ->). exists oc. split; [|reflexivity]. apply session_runs. eauto.
Qed.

(** What can happen to one frame. *)
Inductive reaction (client : N) (c : list N) : list event -> option N -> Prop :=
| re_panic spare : is_bytes spare -> pkg_decode None Package_zero c spare = DPanic -> reaction client c [] None
| re_rejected spare p code b : is_bytes spare -> pkg_decode None Package_zero c spare = DRet p code false ->
    p_PID p = word_at c 7 -> answer (word_at c 7) code [] b -> reaction client c [EvWrite b] (Some client)
| re_response p : decodes c p true -> p_PT p = 0 -> reaction client c [] (Some client)
| re_data now l s c' sv ack rest : data_packet c l -> no_confirmation l -> to_save client l s c' ->
    Forall2 (is_saved (word_at c 7) now) s sv -> answer (word_at c 7) 0 l ack ->
    (if auth_seen l then exists b, rest = [b] /\ result_packet (word_at c 7) 0 b else rest = []) ->
    reaction client c (save_events sv ++ map EvWrite (ack :: rest)) (Some c')
| re_confirmation now l1 r l2 s c' sv ds d ds' : data_packet c (l1 ++ r :: l2) -> no_confirmation l1 ->
    subs r = (ds ++ d :: ds')%list -> (forall x, In x ds -> ~ is_response x) -> is_response d ->
    to_save client l1 s c' -> Forall2 (is_saved (word_at c 7) now) s sv ->
    reaction client c (save_events sv) (Some (or_else (identity r ds) c')).

Lemma handled_panic spare now client c evs o : pkg_decode None Package_zero c spare = DPanic ->
  handled spare now client c evs o -> evs = [] /\ o = None.
Proof. unfold handled, handle_packet. intros -> H. inversion H; subst. auto. Qed.

Lemma runs_reaction client c evs o : is_bytes c -> (10 <= length c)%nat ->
  runs (handle_packet client c) evs o -> reaction client c evs o.
Proof.
  intros Hb H10 H. apply handled_runs in H. destruct H as (spare & now & Hs & H).
  destruct (pkg_decode None Package_zero c spare) as [p code ok| |] eqn:Hd.
  - destruct ok.
    + destruct (decode_accepted _ _ _ _ Hb Hs Hd) as (Hcode & Hpid & _ & Hpt & Hbody).
      assert (decodes c p true) as Hdec by (exists spare, code; auto).
      destruct Hpt as [Hpt|Hpt].
      * assert (p_PT p <> 1) as Hpt' by lia. destruct (handled_response _ _ _ _ _ _ _ _ Hb Hs Hd Hpt' H) as [-> ->]. econstructor; eauto.
      * destruct (Hbody Hpt) as (l & Hl & _).
        destruct (first_confirmation l) as [Hn|(l1 & r & l2 & -> & H1 & H2)].
        -- destruct (handled_data _ _ _ _ _ _ _ _ _ Hb Hs Hd Hpt Hl Hn H) as (s & c' & sv & ack & rest & A1 & A2 & -> & A4 & A5 & ->).
           econstructor; eauto. exists p. auto.
        -- destruct (handled_confirmation _ _ _ _ _ _ _ _ _ _ _ Hb Hs Hd Hpt Hl H1 H2 H) as (s & c' & sv & ds & d & ds' & A1 & A2 & -> & A4 & A5 & A6 & ->).
           apply (re_confirmation client c now l1 r l2 s c' sv ds d ds'); try assumption. exists p. auto.
    + destruct (handled_failure _ _ _ _ _ _ _ _ Hb H10 Hd H) as (-> & b & -> & Ha).
      econstructor; eauto. eapply decode_pid; eauto.
  - destruct (handled_panic _ _ _ _ _ _ Hd H) as [-> ->]. econstructor; eauto.
  - exfalso. revert Hd. apply C09_packet_decoding_terminates. assumption.
Qed.

(** ** Observations *)
Lemma saves_app a b : saves (a ++ b) = (saves a ++ saves b)%list.
Proof. unfold saves. apply flat_map_app. Qed.
Lemma writes_app a b : writes (a ++ b) = (writes a ++ writes b)%list.
Proof. unfold writes. apply flat_map_app. Qed.
Lemma saves_save_events l : saves (save_events l) = l.
Proof. induction l as [|[r ok] l IH]; [reflexivity|]. cbn. f_equal. exact IH. Qed.
Lemma writes_save_events l : writes (save_events l) = [].
Proof. induction l as [|[r ok] l IH]; [reflexivity|]. cbn. exact IH. Qed.
Lemma saves_writes l : saves (map EvWrite l) = [].
Proof. induction l as [|b l IH]; [reflexivity|]. cbn. exact IH. Qed.
Lemma writes_writes l : writes (map EvWrite l) = l.
Proof. induction l as [|b l IH]; [reflexivity|]. cbn. f_equal. exact IH. Qed.

Lemma auth_seen_true l : auth_seen l = true <-> exists r d, In r l /\ In d (subs r) /\ is_auth d.
Proof.
  unfold auth_seen. rewrite existsb_exists. split.
  - intros (r & Hr & H). apply existsb_exists in H. destruct H as (d & Hd & H). exists r, d. repeat split; try assumption.
    destruct d; try discriminate; exact I.
  - intros (r & d & Hr & Hd & H). exists r. split; [assumption|]. apply existsb_exists. exists d. split; [assumption|].
    destruct d; try destruct H; reflexivity.
Qed.

Lemma Forall2_weaken {A B} (P Q : A -> B -> Prop) l l' : (forall a b, P a b -> Q a b) -> Forall2 P l l' -> Forall2 Q l l'.
Proof. intros H. induction 1; constructor; auto. Qed.

(** Whole streams. *)
Lemma session_history fs : Forall (fun f => is_bytes f /\ (10 <= length f)%nat /\ byte_at f 0 = 1) fs ->
  forall c es o, session c fs es o ->
  exists fs1 fs2 s c', fs = (fs1 ++ fs2)%list /\ history c fs1 s c'
    /\ Forall2 (fun kr nv => exists now f, In f fs1 /\ is_saved (word_at f 7) now kr nv) s (saves (concat es))
    /\ match o with
       | Some c'' => fs2 = [] /\ c'' = c'
       | None => exists f fs3 spare, fs2 = f :: fs3 /\ is_bytes spare /\ pkg_decode None Package_zero f spare = DPanic
       end.
Proof.
  induction 1 as [|f fs (Hb & H10 & _) Hfs IH]; intros c es o H.
  - inversion H; subst. exists [], [], [], c. repeat split; constructor.
  - inversion H as [|? ? ? evs H1|? ? ? evs c1 es' ? H1 H2]; subst.
    + apply runs_reaction in H1; [|assumption|assumption]. inversion H1; subst.
      exists [], (f :: fs), [], c. split; [reflexivity|]. split; [constructor|]. split; [constructor|]. exists f, fs, spare. auto.
    + apply runs_reaction in H1; [|assumption|assumption]. apply IH in H2.
      destruct H2 as (fs1 & fs2 & s2 & c' & -> & I2 & I3 & I4).
      assert (Forall2 (fun kr nv => exists now g, In g (f :: fs1) /\ is_saved (word_at g 7) now kr nv) s2 (saves (concat es'))) as I3'.
      { eapply Forall2_weaken; [|exact I3]. intros a b (now & g & Hg & Hs). exists now, g. split; [right; assumption|assumption]. }
      assert (forall now s sv, Forall2 (is_saved (word_at f 7) now) s sv ->
         Forall2 (fun kr nv => exists now g, In g (f :: fs1) /\ is_saved (word_at g 7) now kr nv) s sv) as I5.
      { intros now s sv. apply Forall2_weaken. intros a b Hs. exists now, f. split; [left; reflexivity|assumption]. }
      exists (f :: fs1), fs2. cbn [concat]. rewrite saves_app.
      inversion H1; subst.
      * exists s2, c'. split; [reflexivity|]. split; [eapply hi_rejected; [exists spare, code; eauto|assumption]|]. split; assumption.
      * exists s2, c'. split; [reflexivity|]. split; [eapply hi_response; eauto|]. split; assumption.
      * exists (s ++ s2)%list, c'. split; [reflexivity|]. split; [eapply hi_data; eauto|]. split; [|assumption].
        rewrite saves_app, saves_save_events, saves_writes, app_nil_r. apply Forall2_app; eauto.
      * exists (s ++ s2)%list, c'. split; [reflexivity|]. split; [eapply hi_confirmation; eauto|]. split; [|assumption].
        rewrite saves_save_events. apply Forall2_app; eauto.
Qed.

(** ** Clients *)
Lemma last_of_app {A B} (f : A -> option B) l1 l2 :
  last_of f (l1 ++ l2) = match last_of f l2 with Some b => Some b | None => last_of f l1 end.
Proof.
  induction l1 as [|a l1 IH]; cbn [app last_of]; [destruct (last_of f l2); reflexivity|]. rewrite IH.
  destruct (last_of f l2); reflexivity.
Qed.

Definition record_identity (r : ServiceDataRecord) : option N := identity r (subs r).

Lemma to_save_end c l s c' : to_save c l s c' -> c' = or_else (last_of record_identity l) c.
Proof.
  induction 1 as [c|c r l s c' Hp H IH|c r l s c' Hp H IH]; [reflexivity| |]; subst c'; cbn [last_of];
    (destruct (last_of record_identity l); [reflexivity|]); reflexivity.
Qed.

Lemma to_save_clients c l s c' : to_save c l s c' ->
  forall k r, In (k, r) s -> exists l1 l2, l = (l1 ++ r :: l2)%list /\ k = or_else (last_of record_identity (l1 ++ [r])) c.
Proof.
  induction 1 as [c|c r l s c' Hp H IH|c r l s c' Hp H IH]; intros k r0 Hin; [destruct Hin| |].
  - destruct Hin as [Hin|Hin].
    + injection Hin as <- <-. exists [], l. split; [reflexivity|]. reflexivity.
    + apply IH in Hin. destruct Hin as (l1 & l2 & -> & ->). exists (r :: l1), l2. split; [reflexivity|].
      cbn [app last_of]. destruct (last_of record_identity (l1 ++ [r0])); reflexivity.
  - apply IH in Hin. destruct Hin as (l1 & l2 & -> & ->). exists (r :: l1), l2. split; [reflexivity|].
    cbn [app last_of]. destruct (last_of record_identity (l1 ++ [r0])); reflexivity.
Qed.

Lemma to_save_records c l s c' : to_save c l s c' ->
  map snd s = filter (fun r => existsb is_posb (subs r)) l.
Proof.
  induction 1 as [c|c r l s c' Hp H IH|c r l s c' Hp H IH]; cbn [map filter snd]; [reflexivity| |].
  - apply has_position_b in Hp. rewrite Hp, IH. reflexivity.
  - rewrite has_position_b in Hp. destruct (existsb _ _); [congruence|assumption].
Qed.

Lemma to_save_total l : forall c, exists s c', to_save c l s c'.
Proof.
  induction l as [|r l IH]; intros c; [exists [], c; constructor|].
  destruct (IH (client_after c r)) as (s & c' & H).
  destruct (existsb is_posb (subs r)) eqn:Hp.
  - exists ((client_after c r, r) :: s), c'. constructor; [apply has_position_b|]; assumption.
  - exists s, c'. constructor; [rewrite has_position_b; congruence|assumption].
Qed.
End WithEnv.

(** Properties of concurrent connections: C56. *)
From Coq Require Import NArith ZArith Lia String Bool List.
From Verif Require Import GoBase GoFloat SubRecords Records Package Storage Server SpecSrv SpecConc SrvFacts.
Import ListNotations.

Lemma nth_error_update {A} (l : list A) i j a :
  nth_error (update i a l) j = if Nat.eqb i j then match nth_error l j with Some _ => Some a | None => None end else nth_error l j.
Proof.
  revert i j. induction l as [|b l IH]; intros i j.
  - cbn. destruct j; destruct (Nat.eqb _ _); destruct i; reflexivity.
  - destruct i, j; cbn [update nth_error Nat.eqb]; try reflexivity. apply IH.
Qed.
Lemma update_length {A} (l : list A) i a : length (update i a l) = length l.
Proof. revert i. induction l as [|b l IH]; intros i; [destruct i; reflexivity|]. destruct i; cbn [update length]; auto. Qed.

Lemma of_program_app i t1 t2 : of_program i (t1 ++ t2) = of_program i t1 ++ of_program i t2.
Proof. apply flat_map_app. Qed.
Lemma of_program_map i j evs : of_program i (map (pair j) evs) = if Nat.eqb j i then evs else [].
Proof.
  induction evs as [|e evs IH]; [destruct (Nat.eqb j i); reflexivity|]. unfold of_program in *. cbn [map flat_map fst snd].
  destruct (Nat.eqb j i); cbn [app]; [f_equal|]; assumption.
Qed.

Section Conc.
Context {A : Type}.

Lemma exec_app (p q r : prog A) e1 e2 : exec p e1 q -> exec q e2 r -> exec p (e1 ++ e2) r.
Proof. induction 1; intros H2; [assumption|]. rewrite <- app_assoc. econstructor; eauto. Qed.

Lemma exec_runs (p : prog A) evs a : exec p evs (Ret a) <-> runs p evs (Some a).
Proof.
  split.
  - remember (Ret a) as q eqn:Hq. induction 1 as [p|p e1 p' e2 q Hs He IH]; subst; [constructor|].
    specialize (IH eq_refl). inversion Hs; subst; cbn [app]; econstructor; eauto.
  - intros H. remember (Some a) as o eqn:Ho. induction H; try discriminate.
    + injection Ho as <-. constructor.
    + apply (ex_step _ [] (k z)); [constructor|auto].
    + apply (ex_step _ [] (k s)); [constructor; assumption|auto].
    + apply (ex_step _ [EvSave r ok] (k ok)); [constructor|auto].
    + apply (ex_step _ [EvWrite b] k); [constructor|auto].
Qed.

Lemma exec_partial (p q : prog A) evs : exec p evs q -> partial_run p evs.
Proof.
  induction 1 as [p|p e1 p' e2 q Hs He IH]; [constructor|]. inversion Hs; subst; cbn [app]; econstructor; eauto.
Qed.

(** What one program does does not depend on the others. *)
Lemma gexec_projects (ps : list (prog A)) tr qs : gexec ps tr qs -> length qs = length ps /\
  forall i p q, nth_error ps i = Some p -> nth_error qs i = Some q -> exec p (of_program i tr) q.
Proof.
  induction 1 as [ps|ps j p evs p' tr qs Hj Hs Hg [IHl IH]].
  - split; [reflexivity|]. intros i p q Hp Hq. rewrite Hp in Hq. injection Hq as <-. constructor.
  - rewrite update_length in IHl. split; [assumption|]. intros i p0 q Hp Hq. rewrite of_program_app, of_program_map.
    destruct (Nat.eqb_spec j i) as [->|Hne].
    + rewrite Hp in Hj. injection Hj as ->. econstructor; [eassumption|]. apply IH; [|assumption].
      rewrite nth_error_update, Nat.eqb_refl, Hp. reflexivity.
    + cbn [app]. apply IH; [|assumption]. rewrite nth_error_update. destruct (Nat.eqb_spec j i); [contradiction|assumption].
Qed.

Lemma gexec_app (ps qs rs : list (prog A)) t1 t2 : gexec ps t1 qs -> gexec qs t2 rs -> gexec ps (t1 ++ t2) rs.
Proof. induction 1; intros H2; [assumption|]. rewrite <- app_assoc. econstructor; eauto. Qed.

Lemma update_update (l : list (prog A)) i a b : update i b (update i a l) = update i b l.
Proof. revert i. induction l as [|c l IH]; intros i; [destruct i; reflexivity|]. destruct i; cbn [update]; [reflexivity|f_equal; auto]. Qed.
Lemma update_same (l : list (prog A)) i a : nth_error l i = Some a -> update i a l = l.
Proof.
  revert i. induction l as [|c l IH]; intros i H; [destruct i; reflexivity|]. destruct i; cbn [update nth_error] in *; [congruence|f_equal; auto].
Qed.

Lemma gexec_one (p q : prog A) evs : exec p evs q -> forall ps i, nth_error ps i = Some p ->
  gexec ps (map (pair i) evs) (update i q ps).
Proof.
  induction 1 as [p|p e1 p' e2 q Hs He IH]; intros ps i Hi.
  - rewrite update_same by assumption. constructor.
  - rewrite map_app. econstructor; [eassumption|eassumption|]. rewrite <- (update_update ps i p' q). apply IH.
    rewrite nth_error_update, Nat.eqb_refl, Hi. reflexivity.
Qed.

(** The first event of an execution. *)
Lemma exec_split (p q : prog A) evs : exec p evs q -> forall e rest, evs = e :: rest ->
  exists p', exec p [e] p' /\ exec p' rest q.
Proof.
  induction 1 as [p|p e1 p' e2 q Hs He IH]; intros e rest H; [discriminate|].
  inversion Hs; subst; cbn [app] in H.
  - destruct (IH _ _ H) as (p2 & H1 & H2). exists p2. split; [|assumption]. apply (ex_step _ [] (k z)); [constructor|assumption].
  - destruct (IH _ _ H) as (p2 & H1 & H2). exists p2. split; [|assumption]. apply (ex_step _ [] (k s)); [constructor; assumption|assumption].
  - injection H as <- <-. exists (k ok). split; [|assumption]. apply (ex_step _ [EvSave r ok] (k ok) []); [constructor|constructor].
  - injection H as <- <-. exists p'. split; [|assumption]. apply (ex_step _ [EvWrite b] p' []); [constructor|constructor].
Qed.

Lemma gexec_silent (qs : list (prog A)) : forall ps done, length ps = length qs ->
  (forall i p q, nth_error ps i = Some p -> nth_error qs i = Some q -> exec p [] q) ->
  gexec (done ++ ps) [] (done ++ qs).
Proof.
  induction qs as [|q qs IH]; intros ps done Hl He.
  - destruct ps; [constructor|discriminate].
  - destruct ps as [|p ps]; [discriminate|].
    change ([] : list (nat * event)) with (map (pair (length done)) ([] : list event) ++ []).
    eapply gexec_app.
    + eapply gexec_one; [apply (He O p q); reflexivity|]. rewrite nth_error_app2, Nat.sub_diag by lia. reflexivity.
    + assert (update (length done) q (done ++ p :: ps) = (done ++ [q]) ++ ps) as ->.
      { clear. induction done as [|d done IH]; [reflexivity|]. cbn. f_equal. exact IH. }
      replace (done ++ q :: qs) with ((done ++ [q]) ++ qs) by (rewrite <- app_assoc; reflexivity).
      apply IH; [cbn in Hl; lia|]. intros i p1 q1 H1 H2. apply (He (S i)); assumption.
Qed.

(** Every interleaving of executions of the programs is an execution of all of them. *)
Lemma gexec_interleaves tr : forall (ps qs : list (prog A)), length ps = length qs ->
  (forall ie, In ie tr -> (fst ie < length ps)%nat) ->
  (forall i p q, nth_error ps i = Some p -> nth_error qs i = Some q -> exec p (of_program i tr) q) ->
  gexec ps tr qs.
Proof.
  induction tr as [|[i e] tr IH]; intros ps qs Hl Hi He.
  - apply (gexec_silent qs ps []); assumption.
  - assert (i < length ps)%nat as Hlt by (apply (Hi (i, e)); left; reflexivity).
    destruct (nth_error ps i) as [p|] eqn:Hp; [|apply nth_error_None in Hp; lia].
    destruct (nth_error qs i) as [q|] eqn:Hq; [|apply nth_error_None in Hq; lia].
    pose proof (He i p q Hp Hq) as H. unfold of_program in H. cbn [flat_map fst snd] in H. rewrite Nat.eqb_refl in H. cbn [app] in H.
    fold (of_program i tr) in H. destruct (exec_split _ _ _ H _ _ eq_refl) as (p' & H1 & H2).
    change ((i, e) :: tr) with (map (pair i) [e] ++ tr). eapply gexec_app; [eapply gexec_one; eassumption|].
    apply IH.
    + rewrite update_length. assumption.
    + intros ie Hie. rewrite update_length. apply Hi. right. assumption.
    + intros j p1 q1 Hp1 Hq1. rewrite nth_error_update in Hp1. destruct (Nat.eqb_spec i j) as [<-|Hne].
      * rewrite Hp in Hp1. injection Hp1 as <-. rewrite Hq in Hq1. injection Hq1 as <-. assumption.
      * pose proof (He j p1 q1 Hp1 Hq1) as Hj. unfold of_program in Hj. cbn [flat_map fst snd] in Hj.
        destruct (Nat.eqb_spec i j); [contradiction|]. exact Hj.
Qed.
End Conc.

Section WithEnv.
Context {E : Env}.

(** ** C56 *)
(** Under any schedule, what is saved and written for a connection is what a run of that
    connection alone does: complete if the handler has returned, and a beginning otherwise. *)
Theorem C56_connections_are_isolated : forall streams tr qs, gexec (map handle_conn streams) tr qs ->
  forall i cs, nth_error streams i = Some cs ->
  partial_run (handle_conn cs) (of_program i tr)
  /\ forall e, nth_error qs i = Some (Ret e) -> runs (handle_conn cs) (of_program i tr) (Some e).
Proof.
  intros streams tr qs H i cs Hi. apply gexec_projects in H. destruct H as [Hl H]. rewrite map_length in Hl.
  assert (nth_error (map handle_conn streams) i = Some (handle_conn cs)) as Hp by (apply map_nth_error; assumption).
  split.
  - destruct (nth_error qs i) as [q|] eqn:Hq.
    + eapply exec_partial. eapply H; eassumption.
    + apply nth_error_None in Hq. assert (i < length streams)%nat by (apply nth_error_Some; congruence). lia.
  - intros e Hq. apply exec_runs. eapply H; eassumption.
Qed.

(** Conversely any runs of the connections alone can happen together, in any interleaving. *)
Theorem C56_every_interleaving : forall streams ends tr, length streams = length ends ->
  (forall ie, In ie tr -> (fst ie < length streams)%nat) ->
  (forall i cs e, nth_error streams i = Some cs -> nth_error ends i = Some e ->
     runs (handle_conn cs) (of_program i tr) (Some e)) ->
  gexec (map handle_conn streams) tr (map Ret ends).
Proof.
  intros streams ends tr Hl Hi H. apply gexec_interleaves.
  - rewrite !map_length. assumption.
  - intros ie Hie. rewrite map_length. auto.
  - intros i p q Hp Hq. rewrite nth_error_map in Hp, Hq.
    destruct (nth_error streams i) as [cs|] eqn:Hs; [|discriminate]. injection Hp as <-.
    destruct (nth_error ends i) as [e|] eqn:He; [|discriminate]. injection Hq as <-.
    apply exec_runs. eauto.
Qed.
End WithEnv.

(** Facts about the receiver: runs, reading from the connection, the loops over records and
    subrecords, the answers. *)
From Coq Require Import NArith ZArith Lia ZifyBool ZifyNat ZifyN String Ascii Bool List.
From Verif Require Import GoBase GoFloat Crc SubRecords Records Package Storage Server
  SpecBase SpecCrc SpecPkg SpecSub SpecRec SpecSrv
  BaseFacts SubFacts SubMore RecordFacts DecodeFacts CrcFacts WireFacts PackageFacts PropRec PropPkg.
Import ListNotations.
Open Scope N_scope.

Local Opaque le_bytes crc8 crc16.

(** ** Runs *)
Lemma runs_pbind {A B} (p : prog A) (f : A -> prog B) : forall evs o,
  runs (pbind p f) evs o <->
  (exists e1 a e2, evs = (e1 ++ e2)%list /\ runs p e1 (Some a) /\ runs (f a) e2 o) \/ (runs p evs None /\ o = None).
Proof.
  intros evs o. split.
  - revert evs. induction p as [a|k IH|k IH|r k IH|b k IH|]; intros evs H; cbn [pbind] in H.
    + left. exists [], a, evs. repeat split; [constructor|assumption].
    + inversion H as [| |z k' evs' o' H1| | |]; subst. apply IH in H1. destruct H1 as [(e1 & a & e2 & H1 & H2 & H3)|(H1 & H2)].
      * left. exists e1, a, e2. repeat split; try assumption. econstructor; eauto.
      * right. split; [econstructor; eauto|assumption].
    + inversion H as [| | |s k' evs' o' Hs H1| |]; subst. apply IH in H1. destruct H1 as [(e1 & a & e2 & H1 & H2 & H3)|(H1 & H2)].
      * left. exists e1, a, e2. repeat split; try assumption. econstructor; eauto.
      * right. split; [econstructor; eauto|assumption].
    + inversion H as [| | | |r' ok k' evs' o' H1|]; subst. apply IH in H1. destruct H1 as [(e1 & a & e2 & -> & H2 & H3)|(H1 & H2)].
      * left. exists (EvSave r ok :: e1), a, e2. repeat split; try assumption. econstructor; eauto.
      * right. split; [econstructor; eauto|assumption].
    + inversion H as [| | | | |b' k' evs' o' H1]; subst. apply IH in H1. destruct H1 as [(e1 & a & e2 & -> & H2 & H3)|(H1 & H2)].
      * left. exists (EvWrite b :: e1), a, e2. repeat split; try assumption. econstructor; eauto.
      * right. split; [econstructor; eauto|assumption].
    + inversion H; subst. right. split; [constructor|reflexivity].
  - intros [(e1 & a & e2 & -> & H1 & H2)|(H1 & ->)].
    + remember (Some a) as oa eqn:Ha. induction H1; cbn [pbind app]; try (injection Ha as ->; assumption);
        try discriminate Ha; econstructor; eauto.
    + remember (@None A) as oa eqn:Ha. induction H1; cbn [pbind]; try discriminate Ha; try constructor; eauto; econstructor; eauto.
Qed.

Lemma runs_exists {A} (p : prog A) : exists evs o, runs p evs o.
Proof.
  induction p as [a|k IH|k IH|r k IH|b k (evs & o & IH)|].
  - exists [], (Some a). constructor.
  - destruct (IH 0%Z) as (evs & o & H). exists evs, o. econstructor; eauto.
  - destruct (IH []) as (evs & o & H). exists evs, o. econstructor; eauto. apply bytes_ok_nil.
  - destruct (IH true) as (evs & o & H). exists (EvSave r true :: evs), o. constructor. assumption.
  - exists (EvWrite b :: evs), o. constructor. assumption.
  - exists [], None. constructor.
Qed.

Lemma partial_extends {A} (p : prog A) evs : partial_run p evs -> exists evs' o, runs p (evs ++ evs') o.
Proof.
  induction 1 as [p|z k evs H (e & o & IH)|s k evs Hs H (e & o & IH)|r ok k evs H (e & o & IH)|b k evs H (e & o & IH)].
  - apply runs_exists.
  - exists e, o. econstructor; eauto.
  - exists e, o. econstructor; eauto.
  - exists e, o. cbn [app]. econstructor; eauto.
  - exists e, o. cbn [app]. econstructor; eauto.
Qed.

Lemma runs_partial {A} (p : prog A) evs o : runs p evs o -> forall e1 e2, evs = (e1 ++ e2)%list -> partial_run p e1.
Proof.
  induction 1 as [a| |z k evs o H IH|s k evs o Hs H IH|r ok k evs o H IH|b k evs o H IH]; intros e1 e2 He.
  - destruct e1; [constructor|discriminate].
  - destruct e1; [constructor|discriminate].
  - econstructor. eapply IH; eauto.
  - econstructor; [eassumption|]. eapply IH; eauto.
  - destruct e1 as [|x e1]; [constructor|]. injection He as <- He. constructor. eapply IH; eauto.
  - destruct e1 as [|x e1]; [constructor|]. injection He as <- He. constructor. eapply IH; eauto.
Qed.

(** Programs with the same runs. *)
Definition peq {A} (p q : prog A) : Prop := forall evs o, runs p evs o <-> runs q evs o.
Lemma peq_pbind {A B} (p : prog A) (f g : A -> prog B) : (forall a, peq (f a) (g a)) -> peq (pbind p f) (pbind p g).
Proof.
  intros H evs o. rewrite !runs_pbind. split; (intros [(e1 & a & e2 & H1 & H2 & H3)|H1]; [left; exists e1, a, e2; repeat split; try assumption; apply H; assumption|auto]).
Qed.

(** ** Reading *)
Lemma read_full_spec : forall cs n, fst (read_full n cs) = firstn n (concat cs) /\ concat (snd (read_full n cs)) = skipn n (concat cs).
Proof.
  induction cs as [|c cs IH]; intros n; [destruct n; split; reflexivity|].
  destruct n as [|n]; [split; reflexivity|]. cbn [read_full concat].
  destruct (Nat.leb_spec (length c) (S n)) as [Hl|Hl].
  - destruct (IH (S n - length c)%nat) as [H1 H2]. destruct (read_full (S n - length c) cs) as [g r]. cbn [fst snd] in *.
    rewrite firstn_app, skipn_app, H1, H2. rewrite (firstn_all2 c Hl), (skipn_all2 c Hl). split; reflexivity.
  - cbn [fst snd concat]. rewrite firstn_app, skipn_app. replace (S n - length c)%nat with 0%nat by lia.
    cbn [firstn skipn]. rewrite app_nil_r. split; reflexivity.
Qed.

Definition same_frame (f f' : frame) : Prop :=
  match f, f' with
  | FPacket a r, FPacket a' r' => a = a' /\ concat r = concat r'
  | FEof, FEof | FNotEgts, FNotEgts | FReadErr, FReadErr => True
  | _, _ => False
  end.

Lemma rest_len_taken (s h : list N) : (10 <= length s)%nat -> h = firstn 10 s -> (N.to_nat (rest_len h) + 10 = taken s)%nat.
Proof.
  intros Hl ->. do 10 (destruct s as [|? s]; [cbn [length] in Hl; lia|]). clear Hl.
  unfold rest_len, taken, frame_length, word_at, byte_at. cbn [firstn skipn nth].
  set (w := n4 + 256 * n5). replace (le_num [n4; n5]) with w by (unfold w; unfold le_num; lia).
  assert (w = n4 + 256 * n5) as Hw by reflexivity. clearbody w.
  unfold u16. destruct (N.eqb_spec w 0) as [H0|H0].
  - rewrite H0. cbn [N.ltb N.compare]. replace (n2 + 65536 - 10) with (n2 + 0 + 65526) by lia. lia.
  - replace (0 <? w) with true by (symmetry; apply N.ltb_lt; lia).
    replace (((n2 + (w + 2) mod 65536) mod 65536 + 65536 - 10) mod 65536) with ((n2 + (w + 2) + 65526) mod 65536); [lia|].
    replace ((n2 + (w + 2) mod 65536) mod 65536 + 65536 - 10) with ((n2 + (w + 2) mod 65536) mod 65536 + 65526) by lia.
    rewrite N.add_mod_idemp_l by lia. rewrite <- (N.add_mod_idemp_l (n2 + (w + 2) mod 65536)) by lia.
    rewrite N.add_mod_idemp_r by lia. rewrite N.add_mod_idemp_l by lia. reflexivity.
Qed.

(** One round of reading, on the stream as a whole. *)
Lemma next_frame_spec cs : let s := concat cs in
  match next_frame cs with
  | FEof => s = []
  | FReadErr => (0 < length s < 10)%nat \/ ((10 <= length s < taken s)%nat /\ byte_at s 0 = 1)
  | FNotEgts => (10 <= length s)%nat /\ byte_at s 0 <> 1
  | FPacket recv rest => (10 <= taken s <= length s)%nat /\ byte_at s 0 = 1 /\ recv = firstn (taken s) s /\ concat rest = skipn (taken s) s
  end.
Proof.
  cbv zeta. unfold next_frame. pose proof (read_full_spec cs 10) as [H1 H2]. destruct (read_full 10 cs) as [h cs1]. cbn [fst snd] in *.
  set (s := concat cs) in *. clearbody s.
  assert (length h = Nat.min 10 (length s)) as Hlh by (rewrite H1; apply firstn_length).
  destruct (Nat.eqb_spec (length h) 0) as [He|He].
  { destruct s; [reflexivity|cbn [length] in *; lia]. }
  destruct (Nat.eqb_spec (length h) 10) as [He2|He2]; cbn [negb]; [|left; lia].
  assert (10 <= length s)%nat as Hls by lia.
  assert (nth 0 h 0 = byte_at s 0) as H0 by (rewrite H1; destruct s; [cbn [length] in *; lia|reflexivity]).
  rewrite H0. destruct (N.eqb_spec (byte_at s 0) 1) as [Hb|Hb]; cbn [negb]; [|auto].
  pose proof (rest_len_taken s h Hls H1) as Hr. set (n := N.to_nat (rest_len h)) in *. clearbody n.
  pose proof (read_full_spec cs1 n) as [H3 H4]. destruct (read_full n cs1) as [buf cs2]. cbn [fst snd] in *. rewrite H2 in *.
  assert (length buf = Nat.min n (length s - 10)) as Hlb by (rewrite H3, firstn_length, skipn_length; reflexivity).
  destruct (Nat.eqb_spec (length buf) n) as [Hn|Hn].
  - split; [lia|]. split; [assumption|]. rewrite <- Hr. split.
    + rewrite H1, H3. replace (n + 10)%nat with (10 + n)%nat by lia.
      rewrite <- (firstn_skipn 10 s) at 3. rewrite firstn_app. rewrite (firstn_all2 (n := 10 + n) (firstn 10 s)) by (rewrite firstn_length; lia).
      f_equal. f_equal. rewrite firstn_length. lia.
    + rewrite H4, skipn_plus. f_equal. lia.
  - right. split; [lia|assumption].
Qed.

Lemma cuts_total s : exists fs e, cuts s fs e.
Proof.
  remember (length s) as n eqn:Hn. revert s Hn. induction n as [n IH] using lt_wf_ind. intros s Hn.
  destruct (Nat.eq_dec (length s) 0) as [H0|H0].
  { destruct s; [|discriminate]. exists [], StopEof. constructor. }
  destruct (Nat.lt_ge_cases (length s) 10) as [H1|H1]; [exists [], StopReadErr; constructor; lia|].
  destruct (N.eq_dec (byte_at s 0) 1) as [Hb|Hb]; [|exists [], StopNotEgts; constructor; assumption].
  destruct (Nat.lt_ge_cases (length s) (taken s)) as [H2|H2]; [exists [], StopReadErr; apply cut_truncated; [lia|assumption]|].
  assert (10 <= taken s)%nat as Ht by (unfold taken; lia).
  destruct (IH (length (skipn (taken s) s))) with (s := skipn (taken s) s) as (fs & e & H); [rewrite skipn_length; lia|reflexivity|].
  exists (firstn (taken s) s :: fs), e. constructor; assumption.
Qed.

Section WithEnv.
Context {E : Env}.

Lemma conn_loop_cuts s fs e : cuts s fs e -> forall n client cs, concat cs = s -> (length s < n)%nat ->
  forall evs o, runs (conn_loop n client cs) evs o <->
    exists oc, runs (handle_all client fs) evs oc /\ o = option_map (fun _ => e) oc.
Proof.
  assert (forall client (e : stop) evs o, runs (Ret e) evs o <->
     exists oc, runs (handle_all client []) evs oc /\ o = option_map (fun _ => e) oc) as Hend.
  { intros client e0 evs o. split.
    - intros H. inversion H; subst. exists (Some client). split; [constructor|reflexivity].
    - intros (oc & H & ->). inversion H; subst. constructor. }
  induction 1 as [|s Hs|s Hs Hb|s Hs Hb|s fs e Hs Hb Hc IH]; intros n client cs Hcs Hn evs o;
    (destruct n as [|n]; [lia|]); cbn [conn_loop]; pose proof (next_frame_spec cs) as Hf; cbv zeta in Hf; rewrite Hcs in Hf;
    destruct (next_frame cs) as [recv rest| | |]; try apply Hend.
  - destruct Hf as (Hf & _). cbn [length] in Hf. lia.
  - destruct Hf as (Hf & _). cbn [length] in Hf. lia.
  - destruct Hf as [Hf|(Hf & _)]; cbn [length] in Hf; lia.
  - destruct Hf as (Hf & _). lia.
  - subst s. rewrite Hf in Hs. cbn [length] in Hs. lia.
  - destruct Hf as (Hf & _). lia.
  - destruct Hf as (_ & Hf & _). congruence.
  - rewrite Hf in Hs. cbn [length] in Hs. lia.
  - destruct Hf as [Hf|(_ & Hf)]; [lia|congruence].
  - destruct Hf as (Hf & _). lia.
  - rewrite Hf in Hs. cbn [length] in Hs. lia.
  - destruct Hf as (_ & Hf). congruence.
  - destruct Hf as (Ht & _ & -> & Hr). cbn [handle_all]. rewrite runs_pbind. 
    assert (length (skipn (taken s) s) < n)%nat as Hn2 by (rewrite skipn_length; lia).
    setoid_rewrite runs_pbind. split.
    + intros [(e1 & a & e2 & -> & H1 & H2)|(H1 & ->)].
      * apply (IH n a rest Hr Hn2) in H2. destruct H2 as (oc & H2 & ->). exists oc. split; [|reflexivity]. left. eauto 8.
      * exists None. split; [right; auto|reflexivity].
    + intros (oc & [(e1 & a & e2 & -> & H1 & H2)|(H1 & ->)] & ->).
      * left. exists e1, a, e2. repeat split; [assumption|]. apply (IH n a rest Hr Hn2). eauto.
      * right. auto.
  - rewrite Hf in *. unfold taken in Hs. cbn [length] in Hs. lia.
  - destruct Hf as (_ & Hf). congruence.
  - destruct Hf as [Hf|(Hf & _)]; [unfold taken in Hs; lia|lia].
Qed.

End WithEnv.

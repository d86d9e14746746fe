(** Facts about the receiver: ranges of decoded records, the loops over subrecords and records,
    the answers. *)
From Coq Require Import NArith ZArith Lia ZifyBool ZifyNat ZifyN String Ascii Bool List.
From Verif Require Import GoBase GoFloat Crc SubRecords Records Package Storage Server
  SpecBase SpecCrc SpecPkg SpecSub SpecRec SpecSrv
  BaseFacts SubFacts SubMore RecordFacts DecodeFacts CrcFacts WireFacts PackageFacts PropRec PropPkg PropMore SrvFacts.
Import ListNotations.
Open Scope N_scope.

Local Opaque le_bytes crc8 crc16.

Section WithEnv.
Context {E : Env}.

(** ** Ranges of decoded records *)
Definition rec_ranges (r : ServiceDataRecord) : Prop := s_RN r < 65536 /\ s_SST r < 256.

Lemma sds_head_ranges rec buf s r : bytes_ok buf -> sds_head rec buf = Ok (s, r) ->
  rec_ranges s /\ bytes_ok r /\ (length r + 7 <= length buf)%nat.
Proof.
  unfold sds_head. cbv zeta. intros Hb H.
  apply rbind_inv in H. destruct H as ([rl tmp] & r1 & H1 & H).
  apply rbind_inv in H. destruct H as ([rn tmp2] & r2 & H2 & H).
  apply rbind_inv in H. destruct H as (flags & r3 & H3 & H).
  apply rbind_inv in H. destruct H as (oid & r4 & H4 & H).
  apply rbind_inv in H. destruct H as (evid & r5 & H5 & H).
  apply rbind_inv in H. destruct H as (tm & r6 & H6 & H).
  apply rbind_inv in H. destruct H as (sst & r7 & H7 & H).
  apply rbind_inv in H. destruct H as (rst & r8 & H8 & H).
  apply bind_inv in H. destruct H as ([rds r9] & H9 & H). injection H as <- <-.
  pose proof (rd_num_tmp_len _ _ _ _ _ H1) as L1. pose proof (rd_num_tmp_len _ _ _ _ _ H2) as L2.
  pose proof (rd_byte_len _ _ _ H3) as L3. pose proof (rd_byte_len _ _ _ H7) as L7. pose proof (rd_byte_len _ _ _ H8) as L8.
  rewrite zeros_length in L1.
  apply rd_num_tmp_ok in H1; [|apply zeros_ok|assumption]. destruct H1 as (_ & T1 & B1 & B1').
  apply rd_num_tmp_ok in H2; [|assumption|assumption]. destruct H2 as (R2 & T2 & _ & B2'). rewrite T1, zeros_length in *.
  apply rd_byte_ok in H3 as [_ B3]; [|assumption].
  assert (forall (A : Type) (old : A) p f ra a rb, (forall x y z, f x = Some (y, z) -> bytes_ok x -> bytes_ok z /\ (length z <= length x)%nat) ->
    opt_rd p old f ra = Some (a, rb) -> bytes_ok ra -> bytes_ok rb /\ (length rb <= length ra)%nat) as Hopt.
  { intros A old p f ra a rb Hf Ho Ha. unfold opt_rd in Ho. destruct p; [eapply Hf; eauto|]. injection Ho as _ <-. auto. }
  assert (forall x y z, rd_num 4 x = Some (y, z) -> bytes_ok x -> bytes_ok z /\ (length z <= length x)%nat) as Hnum.
  { intros x y z Hx Hbx. pose proof (rd_num_len _ _ _ _ Hx). apply rd_num_ok in Hx as [_ ?]; [|assumption]. split; [assumption|lia]. }
  apply Hopt in H4 as [B4 L4]; [|apply Hnum|assumption]. apply Hopt in H5 as [B5 L5]; [|apply Hnum|assumption].
  apply Hopt in H6 as [B6 L6]; [| |assumption].
  2: { intros x y z Hx. destruct (rd_num 4 x) as [[n r']|] eqn:Hr in Hx; [|discriminate]. injection Hx as _ <-. eapply Hnum; eauto. }
  apply rd_byte_ok in H7 as [R7 B7]; [|assumption]. apply rd_byte_ok in H8 as [R8 B8]; [|assumption].
  split; [split; [exact R2|exact R7]|].
  assert (bytes_ok r9 /\ (length r9 <= length r8)%nat) as [B9 L9].
  { destruct (len r8 =? 0); [injection H9 as _ <-; auto|].
    apply rbind_inv in H9. destruct H9 as (rdb & r10 & H9 & H). apply bind_inv in H. destruct H as (l & _ & H). injection H as _ <-.
    pose proof (rd_into_len _ _ _ _ H9). apply rd_into_ok in H9 as [_ ?]; [|apply zeros_ok|assumption]. split; [assumption|lia]. }
  split; [assumption|]. lia.
Qed.

Lemma recs_ranges b l : bytes_ok b -> sds_decode b = Ok l -> Forall rec_ranges l /\ (7 * length l <= length b)%nat.
Proof.
  rewrite sds_decode_eq. generalize (length b) at 1 as n. intros n. revert b l. induction n as [|n IH]; intros b l Hb H.
  { destruct b; [injection H as <-; split; [constructor|cbn; lia]|discriminate]. }
  destruct b as [|x b]; [injection H as <-; split; [constructor|cbn; lia]|].
  rewrite sds_loop_head in H by discriminate. apply bind_inv in H. destruct H as ([s r] & Hh & H).
  apply bind_inv in H. destruct H as (l' & Hl & H). injection H as <-.
  apply sds_head_ranges in Hh; [|assumption]. destruct Hh as (H1 & H2 & H3). apply IH in Hl; [|assumption]. destruct Hl as [Hl1 Hl2].
  split; [constructor; assumption|]. cbn [length] in *. lia.
Qed.

(** ** The loop over the subrecords *)
Definition sdata (l : RecordDataSet) : list SubData :=
  flat_map (fun s => match rd_SRD s with Some d => [d] | None => [] end) l.
Lemma subs_sdata r : subs r = sdata (s_RD r).
Proof. reflexivity. Qed.

Definition pos_fields (n : NavRecord) :=
  (nr_NavigationTimestamp n, nr_ReceivedTimestamp n, nr_Latitude n, nr_Longitude n, nr_Speed n, nr_Course n).
Definition ext_fields (n : NavRecord) := (nr_Vdop n, nr_Hdop n, nr_Pdop n, nr_Nsat n, nr_Ns n).
Definition is_posb (d : SubData) : bool := match d with DPosData _ => true | _ => false end.
Definition is_authb (d : SubData) : bool := match d with DTermIdentity _ | DAuthInfo _ => true | _ => false end.
Definition is_respb (d : SubData) : bool := match d with DResponse _ => true | _ => false end.
Definition result_pkg (pid : N) : bytes := match createSrResultCode pid 0 with Ok b => b | _ => [] end.
(** The packet number as it is put together. *)
Definition cntr_step (s : bytes * N) (c : N * N) : bytes * N :=
  if fst c =? 110 then (rev (le_bytes 4 (snd c)), snd c)
  else let pidb := (firstn 3 (fst s) ++ [u8 (snd c)])%list in (pidb, le_num pidb).

Record loop_done (pid : N) (now : Z) (ds : list SubData) (st st' : recst) : Prop := {
  ld_client : rs_client st' = match last_of the_tid ds with Some t => t | None => rs_client st end;
  ld_save : rs_save st' = rs_save st || existsb is_posb ds;
  ld_rcp : rs_rcp st' = if existsb is_authb ds then result_pkg pid else rs_rcp st;
  ld_pos : pos_fields (rs_export st') = match last_of the_pos ds with
     | Some x => (t_unix (pd_NTM x), now, pd_LAT x, pd_LONG x, pd_SPD x, pd_DIR x)
     | None => pos_fields (rs_export st) end;
  ld_ext : ext_fields (rs_export st') = match last_of the_ext ds with
     | Some x => (ep_VDOP x, ep_HDOP x, ep_PDOP x, ep_SAT x, ep_NS x)
     | None => ext_fields (rs_export st) end;
  ld_an : nr_AnSensors (rs_export st') = (nr_AnSensors (rs_export st) ++ flat_map analogs ds)%list;
  ld_liq : nr_LiquidSensors (rs_export st') = (nr_LiquidSensors (rs_export st) ++ map liquid_of (flat_map the_liquid ds))%list;
  ld_cntr : (rs_pidb st', nr_PacketID (rs_export st'))
     = fold_left cntr_step (flat_map the_cntr ds) (rs_pidb st, nr_PacketID (rs_export st))
}.

Lemma an_of_ad_analogs d : an_of_ad d = analogs (DAdSensors d).
Proof.
  unfold an_of_ad, analogs, is1. cbn [flat_map]. rewrite app_nil_r.
  repeat (match goal with |- context [String.eqb ?f "1"] => destruct (String.eqb_spec f "1"); destruct (string_dec f "1"); try congruence end).
  all: reflexivity.
Qed.

Lemma cntr_update_spec d pb n pb' n' : cntr_update d pb n = (pb', n') ->
  pos_fields n' = pos_fields n /\ ext_fields n' = ext_fields n /\ nr_AnSensors n' = nr_AnSensors n
  /\ nr_LiquidSensors n' = nr_LiquidSensors n
  /\ (pb', nr_PacketID n') = fold_left cntr_step (the_cntr (DAbsCntr d)) (pb, nr_PacketID n).
Proof.
  unfold cntr_update, the_cntr. destruct (N.eqb_spec (ac_CN d) 110) as [H1|H1].
  - intros H. injection H as <- <-. cbn [orb fold_left]. unfold cntr_step. cbn [fst snd]. rewrite H1. repeat split.
  - destruct (N.eqb_spec (ac_CN d) 111) as [H2|H2]; intros H; injection H as <- <-; cbn [orb fold_left]; [|repeat split].
    unfold cntr_step. cbn [fst snd]. rewrite H2. repeat split.
Qed.

Lemma subs_loop_done pid now l : forall st st', subs_loop pid now l st = (st', false) ->
  loop_done pid now (sdata l) st st' /\ existsb is_respb (sdata l) = false.
Proof.
  induction l as [|s l IH]; intros st st' H.
  { injection H as <-. split; [|reflexivity]. constructor; cbn; rewrite ?app_nil_r, ?orb_false_r; reflexivity. }
  cbn [subs_loop] in H. destruct (sub_step pid now s st) as [st1|] eqn:Hs; [|discriminate].
  apply IH in H as [H Hr]. unfold sdata. cbn [flat_map]. fold (sdata l). unfold sub_step in Hs. cbv zeta in Hs. fold (result_pkg pid) in Hs.
  destruct (rd_SRD s) as [d|]; [|injection Hs as <-; split; assumption].
  destruct H as [h1 h2 h3 h4 h5 h6 h7 h8].
  assert (existsb is_respb ([d] ++ sdata l) = is_respb d) as Hrd by (cbn [app existsb]; rewrite Hr, orb_false_r; reflexivity).
  rewrite Hrd.
  destruct d; try discriminate Hs; try (destruct (cntr_update _ _ _) as [pb nv] eqn:Hc in Hs); injection Hs as <-; cbn [is_respb]; (split; [|reflexivity]);
    cbn [rs_client rs_export rs_save rs_rcp rs_pidb] in *; constructor;
    cbn [app last_of existsb the_tid the_pos the_ext is_posb is_authb flat_map analogs the_liquid the_cntr map];
    rewrite ?h1, ?h2, ?h3, ?h4, ?h5, ?h6, ?h7, ?h8;
    repeat match goal with |- context [match last_of ?f ?x with _ => _ end] => destruct (last_of f x) end;
    rewrite ?orb_true_r, ?orb_false_l; try reflexivity.
  - destruct (existsb is_authb (sdata l)); reflexivity.
  - destruct (existsb is_authb (sdata l)); reflexivity.
  - cbn [nr_AnSensors nav_an]. rewrite an_of_ad_analogs, <- app_assoc. reflexivity.
  - cbn [nr_AnSensors nav_an]. rewrite <- app_assoc. reflexivity.
  - apply cntr_update_spec in Hc. apply Hc.
  - apply cntr_update_spec in Hc. apply Hc.
  - apply cntr_update_spec in Hc. destruct Hc as (_ & _ & -> & _). reflexivity.
  - apply cntr_update_spec in Hc. destruct Hc as (_ & _ & _ & -> & _). reflexivity.
  - apply cntr_update_spec in Hc. destruct Hc as (_ & _ & _ & _ & ->). rewrite fold_left_app. reflexivity.
  - cbn [nr_LiquidSensors nav_liquid]. rewrite <- app_assoc. reflexivity.
Qed.

(** A response subrecord stops the loop; without one it goes to the end. *)
Lemma subs_loop_stop pid now l : forall st, existsb is_respb (sdata l) = true -> exists st', subs_loop pid now l st = (st', true).
Proof.
  induction l as [|s l IH]; intros st H; [discriminate|]. cbn [subs_loop]. destruct (sub_step pid now s st) as [st1|] eqn:Hs; [|eauto].
  apply IH. unfold sdata in H. cbn [flat_map] in H. fold (sdata l) in H. unfold sub_step in Hs.
  destruct (rd_SRD s) as [d|]; [|exact H]. destruct d; try exact H. discriminate.
Qed.
Lemma subs_loop_end pid now l st : existsb is_respb (sdata l) = false -> exists st', subs_loop pid now l st = (st', false).
Proof.
  intros H. destruct (subs_loop pid now l st) as [st' b] eqn:Hs. exists st'. destruct b; [|reflexivity]. exfalso.
  revert st H Hs. induction l as [|s l IH]; intros st H Hs; [discriminate|]. cbn [subs_loop] in Hs.
  unfold sdata in H. cbn [flat_map] in H. fold (sdata l) in H.
  destruct (sub_step pid now s st) as [st1|] eqn:H1.
  - eapply IH; [|eassumption]. destruct (rd_SRD s) as [d|]; [|exact H]. cbn [app existsb] in H. apply orb_false_iff in H. apply H.
  - unfold sub_step in H1. destruct (rd_SRD s) as [d|]; [|discriminate]. destruct d; try discriminate H1.
    + cbn in H. discriminate.
    + destruct (cntr_update _ _ _); discriminate.
Qed.

(** ** The saved record *)
Lemma last_of_some {A B} (f : A -> option B) l : (exists x, In x l /\ f x <> None) -> exists b, last_of f l = Some b.
Proof.
  induction l as [|a l IH]; intros (x & Hx & Hf); [destruct Hx|]. cbn [last_of].
  destruct (last_of f l) as [b|] eqn:Hl; [eauto|]. destruct Hx as [->|Hx]; [destruct (f x); [eauto|congruence]|].
  destruct IH as (b & H); [eauto|discriminate].
Qed.
Lemma has_position_b r : has_position r <-> existsb is_posb (subs r) = true.
Proof.
  unfold has_position. rewrite existsb_exists. split.
  - intros (x & H). exists (DPosData x). auto.
  - intros (d & Hd & H). destruct d; try discriminate. eauto.
Qed.
Lemma confirms_b r : confirms_something r <-> existsb is_respb (subs r) = true.
Proof.
  unfold confirms_something. rewrite existsb_exists. split.
  - intros (d & H1 & H2). exists d. split; [assumption|]. destruct d; try destruct H2. reflexivity.
  - intros (d & Hd & H). exists d. split; [assumption|]. destruct d; try discriminate. exact I.
Qed.

Lemma liquid_reading_of x : liquid_reading x (liquid_of x).
Proof.
  unfold liquid_reading, liquid_of.
  destruct (String.eqb_spec (ll_LLSVU x) "00") as [->|H0];
    [|destruct (String.eqb_spec (ll_LLSVU x) "01") as [->|H1]; [|destruct (String.eqb_spec (ll_LLSVU x) "10") as [->|H2]]];
    cbn [orb ls_SensorNumber ls_ErrorFlag ls_ValueMm ls_ValueL];
    (split; [reflexivity|split; [reflexivity|split; [|split]]]); intros H; try discriminate H;
    try (destruct H; discriminate); try (split; reflexivity); try congruence; try (destruct H; congruence).
  split; [reflexivity|]. unfold u32. f_equal. lia.
Qed.

(** The packet number of a record, from its counters. *)
Definition number_of (pid : N) (r : ServiceDataRecord) : N :=
  snd (fold_left cntr_step (flat_map the_cntr (subs r)) (zeros 4, pid)).

Lemma loop_saved pid now c rcp r st' : has_position r ->
  loop_done pid now (subs r) (mkRecst c (nav0 pid) false rcp (zeros 4)) st' ->
  saved now (rs_client st') r (nav_client (rs_client st') (rs_export st'))
  /\ nr_PacketID (nav_client (rs_client st') (rs_export st')) = number_of pid r.
Proof.
  intros Hp [h1 h2 h3 h4 h5 h6 h7 h8]. split.
  - constructor.
    + reflexivity.
    + destruct (last_of_some the_pos (subs r)) as (x & Hx).
      { destruct Hp as (x & Hx). exists (DPosData x). split; [assumption|discriminate]. }
      exists x. rewrite Hx in h4. unfold pos_fields in h4. injection h4 as e1 e2 e3 e4 e5 e6. repeat split; assumption.
    + destruct (last_of_some the_pos (subs r)) as (x & Hx).
      { destruct Hp as (x & Hx). exists (DPosData x). split; [assumption|discriminate]. }
      rewrite Hx in h4. unfold pos_fields in h4. injection h4 as e1 e2 e3 e4 e5 e6. assumption.
    + exact h5.
    + exact h6.
    + cbn [nav_client nr_LiquidSensors]. rewrite h7. cbn [rs_export nav0 nr_LiquidSensors app].
      generalize (flat_map the_liquid (subs r)) as l. induction l; constructor; auto using liquid_reading_of.
  - cbn [nav_client nr_PacketID]. unfold number_of. cbn [rs_pidb rs_export nav0 nr_PacketID] in h8. rewrite <- h8. reflexivity.
Qed.

(** ** The loop over the records *)
Definition is_saved (pid : N) (now : Z) (cr : N * ServiceDataRecord) (nv : NavRecord * bool) : Prop :=
  saved now (fst cr) (snd cr) (fst nv) /\ nr_PacketID (fst nv) = number_of pid (snd cr).
Definition save_events (l : list (NavRecord * bool)) : list event := map (fun x => EvSave (fst x) (snd x)) l.

Lemma client_after_eq c r st' pid now rcp :
  loop_done pid now (subs r) (mkRecst (if is1 (s_OBFE r) then s_OID r else c) (nav0 pid) false rcp (zeros 4)) st' ->
  rs_client st' = client_after c r.
Proof.
  intros [h1 _ _ _ _ _ _ _]. rewrite h1. unfold client_after, identity. destruct (last_of the_tid (subs r)); [reflexivity|].
  cbn [rs_client]. unfold is1, or_else. destruct (String.eqb_spec (s_OBFE r) "1"), (string_dec (s_OBFE r) "1"); congruence.
Qed.

(** Where the loop stops at a response subrecord. *)
Lemma subs_loop_cut pid now l : forall st st', subs_loop pid now l st = (st', true) ->
  exists ds d ds', sdata l = (ds ++ d :: ds')%list /\ (forall x, In x ds -> ~ is_response x) /\ is_response d
    /\ rs_client st' = or_else (last_of the_tid ds) (rs_client st).
Proof.
  induction l as [|s l IH]; intros st st' H; [discriminate|]. cbn [subs_loop] in H.
  destruct (sub_step pid now s st) as [st1|] eqn:Hs.
  - apply IH in H. destruct H as (ds & d & ds' & H1 & H2 & H3 & H4). unfold sdata. cbn [flat_map]. fold (sdata l).
    unfold sub_step in Hs. destruct (rd_SRD s) as [x|].
    + exists (x :: ds), d, ds'. split; [cbn [app]; rewrite H1; reflexivity|].
      assert (~ is_response x /\ rs_client st1 = or_else (the_tid x) (rs_client st)) as [Hx Hc].
      { destruct x; try discriminate; cbn [is_response the_tid or_else];
          try (injection Hs as <-; split; [tauto|reflexivity]).
        destruct (cntr_update _ _ _); injection Hs as <-; split; [tauto|reflexivity]. }
      split; [intros y [<-|Hy]; auto|]. split; [assumption|]. rewrite H4. cbn [last_of].
      destruct (last_of the_tid ds); [reflexivity|]. exact Hc.
    + injection Hs as <-. exists ds, d, ds'. auto.
  - injection H as <-. unfold sdata. cbn [flat_map]. fold (sdata l). unfold sub_step in Hs.
    destruct (rd_SRD s) as [x|]; [|discriminate]. exists [], x, (sdata l). split; [reflexivity|]. split; [intros y []|].
    split; [|reflexivity]. destruct x; try discriminate; [exact I|]. destruct (cntr_update _ _ _); discriminate.
Qed.

Definition last_svc (svc : N) (l : list ServiceDataRecord) : N := fold_left (fun _ r => s_SST r) l svc.
Definition auth_seen (l : list ServiceDataRecord) : bool := existsb (fun r => existsb is_authb (subs r)) l.

Lemma recs_loop_app pid now code l2 : forall l1 client resps svc rcp evs o,
  (forall r, In r l1 -> ~ confirms_something r) ->
  runs (recs_loop pid now code (l1 ++ l2) client resps svc rcp) evs o ->
  exists s c' sv evs2, to_save client l1 s c' /\ Forall2 (is_saved pid now) s sv /\ evs = (save_events sv ++ evs2)%list
    /\ runs (recs_loop pid now code l2 c' (resps ++ map confirm l1) (last_svc svc l1)
              (if auth_seen l1 then result_pkg pid else rcp)) evs2 o.
Proof.
  induction l1 as [|r l1 IH]; intros client resps svc rcp evs o Hn H.
  { exists [], client, [], evs. repeat split; [constructor|constructor|]. cbn [map app] in *. rewrite app_nil_r. exact H. }
  cbn [app recs_loop] in H. cbv zeta in H.
  destruct (subs_loop_end pid now (s_RD r) (mkRecst (if is1 (s_OBFE r) then s_OID r else client) (nav0 pid) false rcp (zeros 4))) as (st' & Hs).
  { specialize (Hn r (or_introl eq_refl)). rewrite confirms_b in Hn. apply not_true_is_false. exact Hn. }
  rewrite Hs in H. apply subs_loop_done in Hs as [Hd _]. rewrite <- subs_sdata in Hd.
  pose proof (client_after_eq client r st' pid now rcp Hd) as Hc.
  assert (rs_rcp st' = if existsb is_authb (subs r) then result_pkg pid else rcp) as Hrcp by apply Hd.
  assert (forall evs', runs (recs_loop pid now code (l1 ++ l2) (rs_client st') (resps ++ [confirm r]) (s_SST r) (rs_rcp st')) evs' o ->
    exists s c' sv evs2, to_save (client_after client r) l1 s c' /\ Forall2 (is_saved pid now) s sv /\ evs' = (save_events sv ++ evs2)%list
    /\ runs (recs_loop pid now code l2 c' (resps ++ map confirm (r :: l1)) (last_svc svc (r :: l1))
              (if auth_seen (r :: l1) then result_pkg pid else rcp)) evs2 o) as Hrest.
  { intros evs' H'. apply IH in H'; [|intros r' Hr'; apply Hn; right; assumption].
    destruct H' as (s & c' & sv & evs2 & H1 & H2 & H3 & H4). exists s, c', sv, evs2. rewrite Hc in H1. repeat split; try assumption.
    rewrite <- app_assoc in H4. cbn [map app last_svc fold_left] in *. unfold auth_seen in *. cbn [existsb].
    rewrite Hrcp in H4. destruct (existsb is_authb (subs r)), (existsb (fun r0 => existsb is_authb (subs r0)) l1); exact H4. }
  assert (rs_save st' = existsb is_posb (subs r)) as Hsv by (destruct Hd as [_ h2 _ _ _ _ _ _]; rewrite h2; reflexivity).
  destruct (rs_save st').
  - assert (has_position r) as Hp by (apply has_position_b; congruence).
    inversion H as [| | | |nv ok k evs' o' H'|]; subst. 
    destruct (Hrest evs') as (s & c' & sv & evs2 & H1 & H2 & H3 & H4); [destruct ok; exact H'|].
    exists ((client_after client r, r) :: s), c', ((nav_client (rs_client st') (rs_export st'), ok) :: sv), evs2.
    split; [constructor; assumption|]. split; [|split; [rewrite H3; reflexivity|assumption]].
    constructor; [|assumption]. unfold is_saved. cbn [fst snd]. rewrite <- Hc. eapply loop_saved; eauto.
  - assert (~ has_position r) as Hp by (rewrite has_position_b; congruence).
    destruct (Hrest evs H) as (s & c' & sv & evs2 & H1 & H2 & H3 & H4). exists s, c', sv, evs2. repeat split; try assumption. constructor; assumption.
Qed.
End WithEnv.

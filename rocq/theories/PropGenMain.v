(** Properties C70-C76: the packet generator as a program. *)
From Coq Require Import NArith ZArith Lia ZifyBool ZifyNat ZifyN String Ascii Bool List.
From Verif Require Import GoBase GoFloat Crc SubRecords Records Package Storage Server PacketGen ConcreteEnv
  SpecBase SpecCrc SpecPkg SpecSub SpecRec SpecSrv
  BaseFacts SubFacts PosFacts SubMore RecordFacts DecodeFacts CrcFacts WireFacts PackageFacts PropSub PropRec PropPkg PropMore
  SrvFacts SrvPacket PropGen.
Import ListNotations.
Open Scope N_scope.

Local Opaque le_bytes crc8 crc16.

Section WithEnv.
Context {E : Env}.

(** The arguments the program works with: those given, or the documented defaults. *)
Definition arg_pid (f : gen_flags) : Z := get (gf_pid f) 0%Z.
Definition arg_oid (f : gen_flags) : Z := get (gf_oid f) 0%Z.
Definition arg_liquid (f : gen_flags) : Z := get (gf_liquid f) 0%Z.

(** The packet sent, in full. *)
Lemma gen_sent pid oid liq ts lat lon : exists w r l2 l3,
  snd (pkg_encode None (gen_packet pid oid liq ts lat lon)) = Ok (lay_frame (gen_packet pid oid liq ts lat lon) 11 w)
  /\ is_bytes w /\ length w = 52%nat
  /\ (forall spare, exists p, pkg_decode None Package_zero (lay_frame (gen_packet pid oid liq ts lat lon) 11 w) spare = DRet p 0 true
       /\ p_PT p = 1 /\ p_PID p = Z.to_N (pid mod 65536) /\ p_SFRD p = Some (BSds [r]))
  /\ s_OBFE r = "1"%string /\ s_OID r = u32_of_Z oid
  /\ s_RD r = [mkRecordData 16 l2 (Some (DPosData (set_coords (coord_decode 90 (coord_encode 90 lat)) (coord_decode 180 (coord_encode 180 lon)) (gen_pos lat lon))));
               mkRecordData 27 l3 (Some (DLiquid (gen_liquid liq)))].
Proof.
  destruct (gen_travels oid liq lat lon) as (w & l1 & l2 & l3 & Ht & Hw).
  set (p := gen_packet pid oid liq ts lat lon).
  assert (wf_flags p) as Hf by (constructor; cbn; unfold is_flag, is_flag2; auto).
  assert (wf_nums p) as Hn.
  { constructor; cbn -[Z.modulo]; unfold is_u8, is_u16; try lia; try (destruct (string_dec _ _); lia). }
  assert (unrouted_zero p) as Hu by (intros _; cbn; auto).
  assert (header_length_ok p) as Hh by (right; reflexivity).
  assert (header_size p = 11) as Hhs by reflexivity.
  assert (header_size p + N.of_nat (length w) < 65536) as Hlen by (rewrite Hhs, Hw; reflexivity).
  exists w. eexists. exists l2, l3. split.
  { destruct (C01_appdata_packets_partial p [gen_record oid liq lat lon] w _ [] [] Hf Hn Hu Hh eq_refl eq_refl eq_refl Ht ltac:(discriminate) bytes_ok_nil Hlen) as [He _].
    rewrite Hhs in He. exact He. }
  split; [eapply recs_travel_ok; eauto|]. split; [assumption|]. split.
  { intros spare. destruct (C01_appdata_packets_partial p [gen_record oid liq lat lon] w _ [] spare Hf Hn Hu Hh eq_refl eq_refl eq_refl Ht ltac:(discriminate) bytes_ok_nil Hlen) as [_ Hd].
    rewrite app_nil_r, Hhs in Hd. eexists. split; [exact Hd|]. repeat split. }
  repeat split.
Qed.

Lemma sent_pid pid oid liq ts lat lon w : word_at (lay_frame (gen_packet pid oid liq ts lat lon) 11 w) 7 = Z.to_N (pid mod 65536).
Proof.
  unfold lay_frame, lay_header. cbv zeta. unfold word_at.
  change (p_PID (gen_packet pid oid liq ts lat lon)) with (Z.to_N (pid mod 65536)).
  assert (Z.to_N (pid mod 65536) < 65536) as Hn by (pose proof (Z.mod_pos_bound pid 65536); lia).
  set (n := Z.to_N (pid mod 65536)) in *. clearbody n.
  unfold le16. cbn [app nth]. rewrite N.add_comm. rewrite (N.mod_small (n / 256)) by (apply N.div_lt_upper_bound; lia).
  rewrite N.add_comm. pose proof (N.div_mod n 256). lia.
Qed.

(** How a run that sends something goes. *)
Lemma gen_main_inv f w addr b e : gen_main f w = (Some (addr, b), e) ->
  exists t, gw_parse w (get (gf_time f) ""%string) = Some t
  /\ gw_resolve w (match gf_server f with Some s => s | None => "localhost:5555"%string end) = Some addr
  /\ snd (pkg_encode None (gen_packet (arg_pid f) (arg_oid f) (arg_liquid f) t (get (gf_lat f) f64_zero) (get (gf_lon f) f64_zero))) = Ok b
  /\ e = match gen_read (get (gf_timeout f) default_timeout) (gw_answer w) with
         | None => GRead
         | Some ack => GChecked (check_ack (Z.to_N (arg_pid f mod 65536)) ack)
         end.
Proof.
  unfold gen_main, arg_pid, arg_oid, arg_liquid. destruct (_ =? 0)%Z; [discriminate|]. destruct (_ =? 0)%Z; [discriminate|].
  destruct (string_dec _ _); [discriminate|]. destruct (gw_parse _ _) as [t|]; [|discriminate]. cbv zeta.
  change (p_PID (gen_packet (get (gf_pid f) 0%Z) (get (gf_oid f) 0%Z) (get (gf_liquid f) 0%Z) t (get (gf_lat f) f64_zero) (get (gf_lon f) f64_zero)))
    with (Z.to_N (get (gf_pid f) 0%Z mod 65536)).
  match goal with |- context [snd ?x] => remember (snd x) as enc eqn:Henc end. symmetry in Henc. destruct enc as [enc| | |]; try discriminate.
  change (get (gf_server f) default_server) with (match gf_server f with Some s => s | None => "localhost:5555"%string end).
  destruct (gw_resolve _ _); [|discriminate]. destruct (gw_dial _ _); [|discriminate]. destruct (gw_write _); [|discriminate].
  intros H. injection H as <- <- <-. exists t. repeat split. exact Henc.
Qed.

Lemma gen_main_sent f w addr b e : gen_main f w = (Some (addr, b), e) ->
  word_at b 7 = Z.to_N (arg_pid f mod 65536)
  /\ e = match gen_read (get (gf_timeout f) default_timeout) (gw_answer w) with
         | None => GRead
         | Some ack => GChecked (check_ack (word_at b 7) ack)
         end.
Proof.
  intros H. apply gen_main_inv in H as (t & _ & _ & Hb & ->).
  destruct (gen_sent (arg_pid f) (arg_oid f) (arg_liquid f) t (get (gf_lat f) f64_zero) (get (gf_lon f) f64_zero)) as (wire & r & l2 & l3 & He & _).
  rewrite He in Hb. injection Hb as <-. rewrite sent_pid. split; reflexivity.
Qed.

(** ** C70 *)

(** No record of [l] confirms anything with a status other than 0. *)
Definition all_positive (l : list ServiceDataRecord) : Prop :=
  forall r x c, In r l -> In x (s_RD r) -> rd_SRD x = Some (DResponse c) -> sr_RST c = 0.

(** The answer is there before the deadline. *)
Definition in_time (f : gen_flags) (delay : Z) : Prop :=
  exists t, gf_timeout f = Some t /\ (0 <= delay < t * 1000000000)%Z /\ (t < 9223372036)%Z.

Lemma wrap64_small z : (-9223372036854775808 <= z < 9223372036854775808)%Z -> wrap64 z = z.
Proof. intros H. unfold wrap64. rewrite Z.mod_small by lia. lia. Qed.

Lemma gen_read_in_time f delay b : in_time f delay -> b <> [] -> (length b <= 1024)%nat ->
  gen_read (get (gf_timeout f) default_timeout) (Some (delay, b)) = Some b.
Proof.
  intros (t & -> & Hd & Ht) Hb Hl. unfold gen_read, get, ns_per_s. rewrite wrap64_small by lia.
  destruct (Z.ltb_spec delay (t * 1000000000)); [|lia]. destruct b; [congruence|]. rewrite firstn_all2 by assumption. reflexivity.
Qed.

Lemma travels_response d t b d' : travels d t b d' -> forall c, d' = DResponse c <-> d = DResponse c.
Proof. intros H c. split; intros ->; inversion H; reflexivity. Qed.
Lemma travels_response_type d t b c : travels d t b (DResponse c) -> t = 0.
Proof. intros H. inversion H; reflexivity. Qed.

Lemma subs_responses l w l' : subs_travel l w l' -> forall c,
  (exists x, In x l /\ rd_SRD x = Some (DResponse c)) <-> (exists x, In x l' /\ rd_SRT x = 0 /\ rd_SRD x = Some (DResponse c)).
Proof.
  induction 1 as [|r w r' l wl l' Hs Hl IH]; intros c; [split; intros (x & [] & _)|].
  inversion Hs as [srt srl d t b d' Ht Hb H1 H2]; subst. split.
  - intros (x & [<-|Hi] & Hx).
    + cbn [rd_SRD] in Hx. injection Hx as ->. pose proof (proj2 (travels_response _ _ _ _ Ht c) eq_refl) as ->.
      eexists. split; [left; reflexivity|]. cbn [rd_SRT rd_SRD]. split; [eapply travels_response_type; eassumption|reflexivity].
    + destruct (proj1 (IH c)) as (y & Hy & Hy'); [eauto|]. exists y. split; [right; assumption|assumption].
  - intros (x & [<-|Hi] & Hx1 & Hx).
    + cbn [rd_SRD] in Hx. injection Hx as ->. pose proof (proj1 (travels_response _ _ _ _ Ht c) eq_refl) as ->.
      eexists. split; [left; reflexivity|reflexivity].
    + destruct (proj2 (IH c)) as (y & Hy & Hy'); [eauto|]. exists y. split; [right; assumption|assumption].
Qed.

Lemma bad_status_spec l : bad_status l = false <->
  forall r x c, In r l -> In x (s_RD r) -> rd_SRT x = 0 -> rd_SRD x = Some (DResponse c) -> sr_RST c = 0.
Proof.
  unfold bad_status. split.
  - intros H r x c Hr Hx Ht Hd. destruct (N.eq_dec (sr_RST c) 0) as [|Hn]; [assumption|exfalso].
    assert (existsb (fun rec => existsb (fun sub => (rd_SRT sub =? SrRecordResponseType)
      && match rd_SRD sub with Some (DResponse d) => negb (sr_RST d =? 0) | _ => false end) (s_RD rec)) l = true) as Hc; [|congruence].
    apply existsb_exists. exists r. split; [assumption|]. apply existsb_exists. exists x. split; [assumption|]. rewrite Ht, Hd.
    apply N.eqb_neq in Hn. rewrite Hn. reflexivity.
  - intros H. apply not_true_iff_false. intros Hc. apply existsb_exists in Hc as (r & Hr & Hc). apply existsb_exists in Hc as (x & Hx & Hc).
    apply andb_true_iff in Hc as [Hc1 Hc2]. apply N.eqb_eq in Hc1. destruct (rd_SRD x) as [[]|] eqn:Hd; try discriminate.
    rewrite (H r x _ Hr Hx Hc1 Hd) in Hc2. discriminate.
Qed.

Lemma recs_responses l w l' : recs_travel l w l' -> (bad_status l' = false <-> all_positive l).
Proof.
  intros H. rewrite bad_status_spec. unfold all_positive. induction H as [|s w rds' l wl l' Hw Hs Hl Hr Ht IH].
  - split; intros _ r x c [].
  - pose proof (subs_responses _ _ _ Hs) as Hc. split; intros H r x c [<-|Hi].
    + intros Hx Hd. destruct (proj1 (Hc c)) as (y & Hy & Hy1 & Hy2); [eauto|]. eapply H; [left; reflexivity| | |]; cbn [fill s_RD]; eauto.
    + apply (proj1 IH); [|assumption]. intros r' x' c' Hi' . apply H. right. assumption.
    + cbn [fill s_RD]. intros Hx Ht' Hd. destruct (proj2 (Hc c)) as (y & Hy & Hy1); [eauto|]. eapply H; [left; reflexivity| |]; eauto.
    + apply (proj2 IH); [|assumption]. intros r' x' c' Hi' . apply H. right. assumption.
Qed.

Lemma lay_frame_long p hl b : (length b <= length (lay_frame p hl b))%nat.
Proof. unfold lay_frame. cbv zeta. rewrite !app_length. destruct b as [|x b]; cbn [length]; [lia|]. rewrite app_length. cbn [length]. lia. Qed.

(** Of the well-formed answers that come in time and in one piece, exactly those that confirm
    the packet sent with result 0 and every record with status 0 are reported as success. *)
Theorem C70_well_formed_answers : forall f w addr b e delay p rpid res l wire l' extra,
  gen_main f w = (Some (addr, b), e) ->
  wf_flags p -> wf_nums p -> unrouted_zero p -> header_length_ok p -> p_ENA p = "00"%string -> p_PT p = 0 ->
  p_SFRD p = Some (BResp (mkPtResponse rpid res (Some l))) -> l <> [] ->
  is_u16 rpid -> is_u8 res -> recs_travel l wire l' -> is_bytes extra ->
  let ack := (lay_frame p (header_size p) (le16 rpid ++ [res] ++ wire) ++ extra)%list in
  gw_answer w = Some (delay, ack) -> in_time f delay -> (length ack <= 1024)%nat ->
  (e = GChecked VOk <-> rpid = word_at b 7 /\ res = 0 /\ all_positive l)
  /\ (rpid <> word_at b 7 -> e = GChecked VBadPid)
  /\ (rpid = word_at b 7 -> res <> 0 -> e = GChecked VBadResult)
  /\ (rpid = word_at b 7 -> res = 0 -> ~ all_positive l -> e = GChecked VBadStatus).
Proof.
  intros f w addr b e delay p rpid res l wire l' extra Hm Hf Hn Hu Hh Hp Ht Hs Hl Hi Hr Htr He ack Ha Hd Hlen.
  apply gen_main_sent in Hm as [_ ->]. rewrite Ha, gen_read_in_time; try assumption.
  2: { unfold ack, lay_frame, lay_header. cbv zeta. discriminate. }
  assert (check_ack (word_at b 7) ack = if negb (rpid =? word_at b 7) then VBadPid else if negb (res =? 0) then VBadResult
          else if bad_status l' then VBadStatus else VOk) as ->.
  { unfold check_ack. assert (header_size p + 3 + N.of_nat (length wire) < 65536) as Hs1.
    { unfold ack in Hlen. rewrite app_length in Hlen.
      assert (length wire <= length (lay_frame p (header_size p) (le16 rpid ++ [res] ++ wire)))%nat as Hw.
      { etransitivity; [|apply lay_frame_long]. rewrite !app_length. lia. }
      assert (header_size p <= 16) by (unfold header_size; destruct (string_dec _ _); lia). lia. }
    destruct l as [|r l]; [congruence|].
    destruct (C01_response_packets_partial p rpid res (r :: l) wire l' extra (zeros (1024 - length ack)) Hf Hn Hu Hh Hp Ht Hs Hi Hr Htr He Hs1) as [_ Hdec].
    unfold ack at 1. rewrite Hdec. reflexivity. }
  pose proof (recs_responses _ _ _ Htr) as Hb.
  destruct (N.eqb_spec rpid (word_at b 7)) as [->|Hne]; cbn [negb].
  2: { split; [split; [discriminate|intros (? & _); congruence]|]. split; [reflexivity|]. split; intros; congruence. }
  destruct (N.eqb_spec res 0) as [->|Hne]; cbn [negb].
  2: { split; [split; [discriminate|intros (_ & ? & _); congruence]|]. split; [congruence|]. split; [reflexivity|]. intros; congruence. }
  destruct (bad_status l').
  - split; [split; [discriminate|intros (_ & _ & H); apply Hb in H; discriminate]|]. split; [congruence|]. split; [congruence|reflexivity].
  - split; [split; [intros _; split; [reflexivity|]; split; [reflexivity|apply Hb; reflexivity]|reflexivity]|]. split; [congruence|]. split; [congruence|].
    intros _ _ H. destruct H. apply Hb. reflexivity.
Qed.

Lemma nth_firstn' (n i : nat) (c : list N) : (i < n)%nat -> nth i (firstn n c) 0 = nth i c 0.
Proof. revert i c. induction n as [|n IH]; intros i c H; [lia|]. destruct c; [destruct i; reflexivity|]. destruct i; [reflexivity|]. cbn. apply IH. lia. Qed.

Lemma nth_skipn' (n i : nat) (c : list N) : nth i (skipn n c) 0 = nth (n + i) c 0.
Proof. revert c. induction n as [|n IH]; intros c; [reflexivity|]. destruct c; [destruct i; reflexivity|]. cbn. apply IH. Qed.

(** Whatever arrives: success is reported only if a response packet with correct checksums
    arrived in time, and it carries the number of the packet sent, result 0 and no confirmation
    with another status. *)
Theorem C70_success_is_deserved : forall f w addr b, gen_main f w = (Some (addr, b), GChecked VOk) ->
  exists delay a, gw_answer w = Some (delay, a) /\ (delay < wrap64 (get (gf_timeout f) 0 * 1000000000))%Z
  /\ (is_bytes a -> let c := firstn 1024 a in let rest := repeat 0 (1024 - length c) in
      byte_at c 9 = 0 /\ header_complete c /\ header_sum_ok c rest /\ sum_present c /\ body_sum_ok c rest
      /\ word_at c (wire_header_size c) = word_at b 7 /\ byte_at c (wire_header_size c + 2) = 0
      /\ exists l, sds_decode (skipn 3 (declared_body c)) = Ok l
         /\ forall r x d, In r l -> In x (s_RD r) -> rd_SRT x = 0 -> rd_SRD x = Some (DResponse d) -> sr_RST d = 0).
Proof.
  intros f w addr b Hm. apply gen_main_sent in Hm as [_ He]. set (pid := word_at b 7) in *. clearbody pid.
  unfold gen_read in He. destruct (gw_answer w) as [[delay a]|]; [|discriminate].
  exists delay, a. split; [reflexivity|]. unfold default_timeout, ns_per_s in He.
  destruct (Z.ltb_spec delay (wrap64 (get (gf_timeout f) 0 * 1000000000)%Z)) as [Hd|]; [|discriminate]. split; [assumption|]. intros Ha c rest.
  assert (check_ack pid c = VOk) as Hc by (destruct a; [discriminate|]; injection He as He; symmetry; exact He). clear He.
  assert (is_bytes c) as Hbc by (apply bytes_ok_firstn; assumption). clearbody c. unfold check_ack in Hc.
  change (zeros (1024 - length c)) with rest in Hc. assert (is_bytes (c ++ rest)) as Hb by (apply bytes_ok_app; split; [assumption|apply zeros_ok]).
  destruct (pkg_decode None Package_zero c rest) as [p code [] | |] eqn:Hdec; try discriminate.
  apply C11_accepted_frames in Hdec; [|assumption].
  destruct Hdec as (_ & _ & H1 & _ & H2 & H3 & _ & _ & H4 & _ & _ & body & H5 & plain & [(_ & ->)|(_ & k & ? & _)] & H6); [|discriminate].
  rewrite H5 in Hc. destruct H6 as [(_ & l & -> & _)|(H6 & r & -> & Hr)]; [discriminate|].
  split; [assumption|]. do 4 (split; [assumption|]).
  destruct (N.eqb_spec (pr_RPID r) pid) as [Hpid|]; [|discriminate]. destruct (N.eqb_spec (pr_PR r) 0) as [Hpr|]; [|discriminate]. cbn [negb] in Hc.
  destruct (pr_SDR r) as [l|] eqn:Hsdr; [|discriminate]. destruct (bad_status l) eqn:Hbad; [discriminate|].
  unfold PtResponse_decode in Hr.
  assert (3 <= length (declared_body c))%nat as Hl3.
  { destruct (Nat.le_gt_cases 3 (length (declared_body c))) as [|Hlt]; [assumption|]. exfalso.
    destruct (declared_body c) as [|x [|y [|z q]]]; [discriminate| | |cbn [length] in Hlt; lia]; unfold rd_num, rd_into in Hr; cbn in Hr; discriminate. }
  assert (declared_body c = firstn (N.to_nat (word_at c 5)) (skipn (wire_header_size c) c)) as Hdb.
  { unfold declared_body. unfold sum_present in H3. rewrite skipn_length. replace (_ - _)%nat with O by lia. apply app_nil_r. }
  assert (forall i, (i < 3)%nat -> nth i (declared_body c) 0 = nth (wire_header_size c + i) c 0) as Hnth.
  { intros i Hi. rewrite Hdb in *. rewrite firstn_length in Hl3. rewrite nth_firstn' by lia. apply nth_skipn'. }
  destruct (declared_body c) as [|x [|y [|z q]]] eqn:Hq; cbn [length] in Hl3; try lia.
  pose proof (Hnth O ltac:(lia)) as N0. pose proof (Hnth 1%nat ltac:(lia)) as N1. pose proof (Hnth 2%nat ltac:(lia)) as N2. cbn [nth] in N0, N1, N2.
  rewrite Nat.add_0_r in N0. replace (wire_header_size c + 1)%nat with (S (wire_header_size c)) in N1 by lia.
  destruct (rd_num_2 (x :: y :: z :: q) ltac:(discriminate)) as (r' & Hr'). pose proof (rd_num_skip _ _ _ _ Hr') as ->. rewrite Hr' in Hr.
  rewrite rbind_some in Hr. change (skipn 2 (x :: y :: z :: q)) with (z :: q) in Hr. rewrite rd_byte_cons, rbind_some in Hr.
  change (word_at (x :: y :: z :: q) 0) with (x + 256 * y) in Hr. change (skipn 3 (x :: y :: z :: q)) with q.
  destruct (len q =? 0); [injection Hr as <-; discriminate|].
  destruct (sds_decode q) as [l'| | |] eqn:Hsds; try discriminate. injection Hr as <-. cbn [pr_RPID pr_PR pr_SDR] in *. injection Hsdr as ->.
  split; [unfold word_at; rewrite <- N0, <- N1; assumption|]. split; [unfold byte_at; rewrite <- N2; assumption|].
  exists l. split; [reflexivity|]. apply bad_status_spec. assumption.
Qed.

(** ** C71 *)

(** The time of the position on the packet sent is always 20 February 2021, 00:30:40 UTC. *)
Theorem C71_requested_time_refuted : forall f w addr b e, gen_main f w = (Some (addr, b), e) ->
  forall spare, exists p r x d, pkg_decode None Package_zero b spare = DRet p 0 true /\ p_SFRD p = Some (BSds [r])
  /\ In x (s_RD r) /\ rd_SRD x = Some (DPosData d) /\ pd_NTM d = (1613781040 * 1000000000)%Z
  /\ (forall t, gw_parse w (get (gf_time f) ""%string) = Some t -> t <> (1613781040 * 1000000000)%Z -> pd_NTM d <> t).
Proof.
  intros f w addr b e Hm spare. apply gen_main_inv in Hm as (t & _ & _ & Hb & _).
  destruct (gen_sent (arg_pid f) (arg_oid f) (arg_liquid f) t (get (gf_lat f) f64_zero) (get (gf_lon f) f64_zero))
    as (wire & r & l2 & l3 & He & _ & _ & Hd & _ & _ & Hr).
  rewrite He in Hb. injection Hb as <-. destruct (Hd spare) as (p & Hp & _ & _ & Hs). rewrite Hp. exists p, r. eexists. eexists.
  split; [reflexivity|]. split; [exact Hs|]. rewrite Hr. split; [left; reflexivity|]. split; [reflexivity|]. split; [reflexivity|].
  intros t' _ Hn. cbn [pd_NTM set_coords gen_pos]. unfold gen_time, ns_per_s. congruence.
Qed.

(** ** C72 *)

(** No run ends with exit status 0. *)
Theorem C72_exit_status_refuted : forall f w, exit_code (snd (gen_main f w)) <> 0%Z.
Proof. intros f w. destruct (snd (gen_main f w)) as [| | | | | | | | | |[]]; discriminate. Qed.

(** ** C73 *)

(** With a timeout given, the answer is looked at if it is there before the timeout, and not
    otherwise. *)
Theorem C73_timeout_given : forall f w addr b e t, gen_main f w = (Some (addr, b), e) ->
  gf_timeout f = Some t -> (0 < t < 9223372036)%Z ->
  (forall delay a, gw_answer w = Some (delay, a) -> (delay < t * 1000000000)%Z -> a <> [] -> exists v, e = GChecked v)
  /\ (forall delay a, gw_answer w = Some (delay, a) -> (t * 1000000000 <= delay)%Z -> e = GRead)
  /\ (gw_answer w = None -> e = GRead).
Proof.
  intros f w addr b e t Hm Hf Ht. apply gen_main_sent in Hm as [_ He]. rewrite Hf in He. cbn [get] in He.
  split; [|split].
  - intros delay a Ha Hd Hn. rewrite Ha in He. unfold gen_read, ns_per_s in He. rewrite wrap64_small in He by lia.
    destruct (Z.ltb_spec delay (t * 1000000000)); [|lia]. destruct a; [congruence|]. eauto.
  - intros delay a Ha Hd. rewrite Ha in He. unfold gen_read, ns_per_s in He. rewrite wrap64_small in He by lia.
    destruct (Z.ltb_spec delay (t * 1000000000)); [lia|]. assumption.
  - intros Ha. rewrite Ha in He. assumption.
Qed.

(** Without the -timeout flag no answer is ever looked at, however soon it comes. *)
Theorem C73_default_timeout_refuted : forall f w addr b e, gen_main f w = (Some (addr, b), e) ->
  gf_timeout f = None -> (forall delay a, gw_answer w = Some (delay, a) -> (0 <= delay)%Z) -> e = GRead.
Proof.
  intros f w addr b e Hm Hf Hd. apply gen_main_sent in Hm as [_ He]. rewrite Hf in He. cbn [get default_timeout] in He.
  unfold gen_read in He. destruct (gw_answer w) as [[delay a]|]; [|assumption]. specialize (Hd _ _ eq_refl).
  change (wrap64 (default_timeout * ns_per_s)) with 0%Z in He. destruct (Z.ltb_spec delay 0); [lia|assumption].
Qed.

(** ** C74 *)

(** A packet goes out exactly when the required arguments are there and valid and the network
    lets it; it goes to the server asked for, and carries the arguments. *)
Theorem C74_when_a_packet_is_sent : forall f w,
  (exists addr b, fst (gen_main f w) = Some (addr, b))
  <-> (exists pid, gf_pid f = Some pid /\ pid <> 0%Z) /\ (exists oid, gf_oid f = Some oid /\ oid <> 0%Z)
      /\ (exists ts t, gf_time f = Some ts /\ ts <> ""%string /\ gw_parse w ts = Some t)
      /\ (exists addr, gw_resolve w (match gf_server f with Some s => s | None => "localhost:5555"%string end) = Some addr /\ gw_dial w addr = true)
      /\ gw_write w = true.
Proof.
  intros f w. unfold gen_main.
  destruct (gf_pid f) as [pid|] eqn:Fp; cbn [get]; [|split; [intros (? & ? & H); discriminate|intros ((? & ? & _) & _); discriminate]].
  destruct (Z.eqb_spec pid 0) as [->|Hp]; [split; [intros (? & ? & H); discriminate|intros ((? & H & ?) & _); congruence]|].
  destruct (gf_oid f) as [oid|] eqn:Fo; cbn [get]; [|split; [intros (? & ? & H); discriminate|intros (_ & (? & ? & _) & _); discriminate]].
  destruct (Z.eqb_spec oid 0) as [->|Ho]; [split; [intros (? & ? & H); discriminate|intros (_ & (? & H & ?) & _); congruence]|].
  destruct (gf_time f) as [ts|] eqn:Ft; cbn [get];
    [|destruct (string_dec "" ""); [|congruence]; split; [intros (? & ? & H); discriminate|intros (_ & _ & (? & ? & ? & _) & _); discriminate]].
  destruct (string_dec ts "") as [->|Hs]; [split; [intros (? & ? & H); discriminate|intros (_ & _ & (? & ? & H & ? & _) & _); congruence]|].
  destruct (gw_parse w ts) as [t|] eqn:Fq; [|split; [intros (? & ? & H); discriminate|intros (_ & _ & (? & ? & H & _ & ?) & _); congruence]].
  destruct (gen_sent pid oid (get (gf_liquid f) 0%Z) t (get (gf_lat f) f64_zero) (get (gf_lon f) f64_zero)) as (wire & r & l2 & l3 & He & _).
  cbv zeta. rewrite He. clear He.
  change (get (gf_server f) default_server) with (match gf_server f with Some s => s | None => "localhost:5555"%string end).
  destruct (gw_resolve w _) as [addr|]; [|split; [intros (? & ? & H); discriminate|intros (_ & _ & _ & (? & ? & _) & _); discriminate]].
  destruct (gw_dial w addr) eqn:Fd; [|split; [intros (? & ? & H); discriminate|intros (_ & _ & _ & (? & ? & ?) & _); congruence]].
  destruct (gw_write w); [|split; [intros (? & ? & H); discriminate|intros (_ & _ & _ & _ & ?); discriminate]].
  split; [intros _|cbn [fst]; eauto]. split; [exists pid; auto|]. split; [exists oid; auto|]. split; [exists ts, t; auto|]. split; [exists addr; auto|reflexivity].
Qed.

Theorem C74_what_is_sent : forall f w addr b e, gen_main f w = (Some (addr, b), e) ->
  (0 <= arg_pid f < 65536)%Z -> (0 <= arg_oid f < 4294967296)%Z -> (0 <= arg_liquid f < 4294967296)%Z ->
  gw_resolve w (match gf_server f with Some s => s | None => "localhost:5555"%string end) = Some addr
  /\ forall spare, exists p r x y d l, pkg_decode None Package_zero b spare = DRet p 0 true
     /\ p_PT p = 1 /\ p_PID p = Z.to_N (arg_pid f) /\ p_SFRD p = Some (BSds [r])
     /\ s_OBFE r = "1"%string /\ s_OID r = Z.to_N (arg_oid f) /\ s_RD r = [x; y]
     /\ rd_SRD x = Some (DPosData d) /\ pd_LAT d = coord_decode 90 (coord_encode 90 (get (gf_lat f) f64_zero))
     /\ pd_LONG d = coord_decode 180 (coord_encode 180 (get (gf_lon f) f64_zero))
     /\ rd_SRD y = Some (DLiquid l) /\ ll_LLSN l = 1 /\ ll_LLSD l = Z.to_N (arg_liquid f).
Proof.
  intros f w addr b e Hm Hp Ho Hl. apply gen_main_inv in Hm as (t & _ & Ha & Hb & _). split; [exact Ha|]. intros spare.
  destruct (gen_sent (arg_pid f) (arg_oid f) (arg_liquid f) t (get (gf_lat f) f64_zero) (get (gf_lon f) f64_zero))
    as (wire & r & l2 & l3 & He & _ & _ & Hd & H1 & H2 & Hr).
  rewrite He in Hb. injection Hb as <-. destruct (Hd spare) as (p & Hpd & H3 & H4 & H5). rewrite Hpd. rewrite Z.mod_small in H4 by lia.
  exists p, r. eexists. eexists. eexists. eexists. split; [reflexivity|]. split; [exact H3|]. split; [exact H4|]. split; [exact H5|]. split; [exact H1|].
  split; [rewrite H2; unfold u32_of_Z; rewrite Z.mod_small by lia; reflexivity|]. split; [exact Hr|]. split; [reflexivity|].
  split; [reflexivity|]. split; [reflexivity|]. split; [reflexivity|]. split; [reflexivity|].
  cbn [gen_liquid ll_LLSD]. unfold u32_of_Z. rewrite Z.mod_small by lia. reflexivity.
Qed.

(** An identifier that does not fit is not refused: it is sent modulo 65536. *)
Theorem C74_identifier_range_refuted : forall f w addr b e, gen_main f w = (Some (addr, b), e) ->
  word_at b 7 = Z.to_N (arg_pid f mod 65536)
  /\ (arg_pid f < 0 \/ 65536 <= arg_pid f -> Z.of_N (word_at b 7) <> arg_pid f)%Z.
Proof.
  intros f w addr b e Hm. apply gen_main_sent in Hm as [Hm _]. split; [exact Hm|]. rewrite Hm. intros H.
  pose proof (Z.mod_pos_bound (arg_pid f) 65536). lia.
Qed.

(** ** C75 *)

(** The answer is read once: if the first segment lacks two or more bytes of it, success is not
    reported, even though the rest follows. *)
Theorem C75_answers_in_pieces_refuted : forall f w addr b e delay p body k,
  gen_main f w = (Some (addr, b), e) -> wf_flags p -> wf_nums p -> is_bytes body -> body <> [] -> N.of_nat (length body) < 65536 ->
  let ack := lay_frame p (header_size p) body in
  (length ack <= 1024)%nat -> (k + 2 <= length ack)%nat -> gw_answer w = Some (delay, firstn k ack) -> e <> GChecked VOk.
Proof.
  intros f w addr b e delay p body k Hm Hf Hn Hb Hne Hlb ack Hl Hk Ha ->.
  apply C70_success_is_deserved in Hm as (delay' & a & Ha' & _ & Hc). rewrite Ha in Ha'. injection Ha' as _ <-.
  assert (header_size p < 256) as Hs by (unfold header_size; destruct (string_dec _ _); lia).
  assert (is_bytes ack) as Hba by (apply lay_frame_ok; assumption).
  specialize (Hc (bytes_ok_firstn _ _ Hba)). cbv zeta in Hc. rewrite firstn_firstn in Hc. replace (Nat.min 1024 k) with k in Hc by lia.
  destruct Hc as (_ & Hc & _ & Hsum & _). unfold header_complete in Hc. unfold sum_present in Hsum.
  assert (11 <= length (firstn k ack))%nat as H11 by (unfold wire_header_size in Hc; destruct (routed _); lia).
  rewrite firstn_length in *.
  assert (wire_header_size (firstn k ack) = N.to_nat (header_size p)) as Hw.
  { unfold wire_header_size, routed, byte_at. rewrite nth_firstn' by lia. 
    change (nth 2 ack 0) with (64 * fl2 (p_PRF p) + 32 * fl (p_RTE p) + 8 * fl2 (p_ENA p) + 4 * fl (p_CMP p) + fl2 (p_PR p)).
    unfold header_size. destruct Hf as [F1 F2 F3 F4 F5].
    destruct F1 as [->|[->|[->| ->]]], F2 as [->| ->], F3 as [->|[->|[->| ->]]], F4 as [->| ->], F5 as [->|[->|[->| ->]]]; reflexivity. }
  assert (word_at (firstn k ack) 5 = N.of_nat (length body)) as Hfd.
  { unfold word_at. rewrite !nth_firstn' by lia. 
    change (nth 5 ack 0) with (N.of_nat (length body) mod 256). change (nth 6 ack 0) with (N.of_nat (length body) / 256 mod 256).
    pose proof (N.div_mod (N.of_nat (length body)) 256). rewrite (N.mod_small (_ / 256)) by (apply N.div_lt_upper_bound; lia). lia. }
  assert (length ack = N.to_nat (header_size p) + length body + 2)%nat as Hlen.
  { unfold ack, lay_frame, lay_header. cbv zeta. destruct body as [|x body]; [congruence|]. rewrite !app_length. unfold header_size, opt. destruct (string_dec _ _); reflexivity. }
  rewrite Hw, Hfd in Hsum. lia.
Qed.

(** ** C76 *)

(** A correct response packet without records, positive and for the packet sent, makes the
    program panic. *)
Theorem C76_no_panic_refuted : forall f w addr b e delay p extra,
  gen_main f w = (Some (addr, b), e) ->
  wf_flags p -> wf_nums p -> unrouted_zero p -> header_length_ok p -> p_ENA p = "00"%string -> p_PT p = 0 ->
  p_SFRD p = Some (BResp (mkPtResponse (word_at b 7) 0 None)) -> is_bytes extra ->
  let ack := (lay_frame p (header_size p) (le16 (word_at b 7) ++ [0]) ++ extra)%list in
  gw_answer w = Some (delay, ack) -> in_time f delay -> (length ack <= 1024)%nat ->
  e = GChecked VPanic /\ exit_code e = 2%Z.
Proof.
  intros f w addr b e delay p extra Hm Hf Hn Hu Hh Hp Ht Hs He ack Ha Hd Hlen.
  pose proof (gen_main_sent _ _ _ _ _ Hm) as [Hpid ->]. rewrite Ha, gen_read_in_time; try assumption.
  2: { unfold ack, lay_frame, lay_header. cbv zeta. discriminate. }
  assert (is_u16 (word_at b 7)) as Hi by (unfold is_u16; rewrite Hpid; pose proof (Z.mod_pos_bound (arg_pid f) 65536); lia).
  assert (check_ack (word_at b 7) ack = VPanic) as ->; [|split; reflexivity].
  set (n := word_at b 7) in *. clearbody n.
  unfold check_ack. assert (header_size p + 3 + 0 < 65536) as Hs1 by (unfold header_size; destruct (string_dec _ _); lia).
  destruct (C01_response_packets_partial p n 0 [] [] [] extra (zeros (1024 - length ack)) Hf Hn Hu Hh Hp Ht Hs Hi ltac:(reflexivity) recs_nil He Hs1) as [_ Hdec].
  rewrite app_nil_r in Hdec. unfold ack at 1. rewrite Hdec. cbn [p_SFRD received filled pr_RPID pr_PR pr_SDR]. rewrite N.eqb_refl. reflexivity.
Qed.
End WithEnv.

(** ** Concrete runs *)
Definition ex_flags (timeout : option Z) : gen_flags :=
  mkGenFlags (Some 7%Z) (Some 5%Z) (Some "2021-12-16T09:12:00Z"%string) (Some 100%Z) None None timeout None.
Definition ex_world (a : option (Z * list N)) : gen_world :=
  mkGenWorld (fun s => if string_dec s "2021-12-16T09:12:00Z" then Some (1639645920 * 1000000000)%Z else None)
    (fun s => Some s) (fun _ => true) true a.
Definition ex_end (timeout : option Z) (a : option (Z * list N)) : gen_end :=
  snd (gen_main (E := env0) (ex_flags timeout) (ex_world a)).

Definition ack_ok : list N := [1; 0; 0; 11; 0; 16; 0; 8; 0; 0; 58; 7; 0; 0; 6; 0; 1; 0; 0; 2; 2; 0; 3; 0; 1; 0; 0; 16; 99].
Definition ack_other : list N := [1; 0; 0; 11; 0; 16; 0; 8; 0; 0; 58; 8; 0; 0; 6; 0; 1; 0; 0; 2; 2; 0; 3; 0; 1; 0; 0; 10; 26].
Definition ack_result : list N := [1; 0; 0; 11; 0; 16; 0; 8; 0; 0; 58; 7; 0; 1; 6; 0; 1; 0; 0; 2; 2; 0; 3; 0; 1; 0; 0; 113; 24].
Definition ack_status : list N := [1; 0; 0; 11; 0; 16; 0; 8; 0; 0; 58; 7; 0; 0; 6; 0; 1; 0; 0; 2; 2; 0; 3; 0; 1; 0; 1; 49; 115].
Definition ack_bare : list N := [1; 0; 0; 11; 0; 3; 0; 8; 0; 0; 2; 7; 0; 0; 12; 73].

Example gen_runs :
  ex_end (Some 5%Z) (Some (1000000%Z, ack_ok)) = GChecked VOk
  /\ ex_end (Some 5%Z) (Some (1000000%Z, ack_other)) = GChecked VBadPid
  /\ ex_end (Some 5%Z) (Some (1000000%Z, ack_result)) = GChecked VBadResult
  /\ ex_end (Some 5%Z) (Some (1000000%Z, ack_status)) = GChecked VBadStatus
  /\ ex_end (Some 5%Z) (Some (1000000%Z, ack_bare)) = GChecked VPanic
  /\ ex_end (Some 5%Z) (Some (1000000%Z, firstn 20 ack_ok)) = GChecked VParseFailed
  /\ ex_end None (Some (0%Z, ack_ok)) = GRead
  /\ ex_end (Some 5%Z) (Some (6000000000%Z, ack_ok)) = GRead.
Proof. vm_compute. repeat split. Qed.

(** The hypotheses of the theorems are met by these runs. *)
Definition ack_rec (st : N) : ServiceDataRecord :=
  mkSDR 0 1 "0" "0" "0" "00" "0" "0" "0" 0 0 t_zero 2 2 [mkRecordData 0 0 (Some (DResponse (mkSrResponse 1 st)))].
Definition ack_pkg (res st : N) : Package :=
  mkPackage 1 0 "00" "0" "00" "0" "00" 11 0 0 8 0 0 0 0 0 (Some (BResp (mkPtResponse 7 res (Some [ack_rec st])))) 0.

Example C70_hyps : let p := ack_pkg 0 1 in exists wire l',
  wf_flags p /\ wf_nums p /\ unrouted_zero p /\ header_length_ok p /\ p_ENA p = "00"%string /\ p_PT p = 0
  /\ p_SFRD p = Some (BResp (mkPtResponse 7 0 (Some [ack_rec 1])))
  /\ recs_travel (E := env0) [ack_rec 1] wire l' /\ ~ all_positive [ack_rec 1]
  /\ lay_frame p (header_size p) (le16 7 ++ [0] ++ wire) = ack_status /\ in_time (ex_flags (Some 5%Z)) 1000000
  /\ exists b, gen_main (E := env0) (ex_flags (Some 5%Z)) (ex_world (Some (1000000%Z, ack_status))) = (Some ("localhost:5555"%string, b), GChecked VBadStatus).
Proof.
  intros p.
  assert (sub_travels (E := env0) (mkRecordData 0 0 (Some (DResponse (mkSrResponse 1 1)))) ([0] ++ le16 3 ++ [1; 0; 1]) (mkRecordData 0 3 (Some (DResponse (mkSrResponse 1 1))))) as Hs.
  { apply (sub_tr 0 0 (DResponse (mkSrResponse 1 1)) 0 [1; 0; 1] (DResponse (mkSrResponse 1 1))); auto; [|reflexivity].
    apply (tr_response (mkSrResponse 1 1)). constructor; reflexivity. }
  eexists. eexists.
  split; [constructor; cbn; unfold is_flag, is_flag2; auto|].
  split; [constructor; cbn; unfold is_u8, is_u16; lia|].
  split; [intros _; cbn; auto|]. split; [right; reflexivity|]. split; [reflexivity|]. split; [reflexivity|]. split; [reflexivity|].
  split.
  { eapply recs_cons; [constructor; cbn; unfold is_flag, is_flag2, is_u8, is_u16; auto; try lia;
      (destruct (string_dec "0" "1"); [discriminate|reflexivity])|eapply subs_cons; [exact Hs|apply subs_nil]|reflexivity|left; reflexivity|apply recs_nil]. }
  split; [intros H; specialize (H (ack_rec 1) _ _ (or_introl eq_refl) (or_introl eq_refl) eq_refl); discriminate|].
  split; [vm_compute; reflexivity|]. split; [exists 5%Z; split; [reflexivity|lia]|].
  eexists. vm_compute. reflexivity.
Qed.

(** Decoding of record sets: it neither panics nor runs out of fuel, its recursive equation, and
    the ranges of decoded fields. *)
From Coq Require Import NArith ZArith Lia ZifyBool ZifyNat ZifyN String Bool List.
From Verif Require Import GoBase GoFloat SubRecords Records SpecBase BaseFacts SubFacts SubMore RecordFacts.
Import ListNotations.
Open Scope N_scope.
Open Scope go_scope.

(** Neither a panic nor lack of fuel. *)
Definition nf {A} (x : res A) : Prop := x <> Panic /\ x <> Fuel.

Lemma nf_ok {A} (a : A) : nf (Ok a). Proof. split; discriminate. Qed.
Lemma nf_err {A} : nf (@Err A). Proof. split; discriminate. Qed.
Lemma nf_bind {A B} (x : res A) (f : A -> res B) : nf x -> (forall a, nf (f a)) -> nf (bind x f).
Proof. intros Hx Hf. destruct x; cbn [bind]; [apply Hf|apply nf_err|destruct Hx; congruence|destruct Hx; congruence]. Qed.
Lemma nf_bind' {A B} (x : res A) (f : A -> res B) : nf x -> (forall a, x = Ok a -> nf (f a)) -> nf (bind x f).
Proof. intros Hx Hf. destruct x; cbn [bind]; [apply Hf; reflexivity|apply nf_err|destruct Hx; congruence|destruct Hx; congruence]. Qed.
Lemma nf_rbind {A B} (x : option (A * bytes)) (f : A -> bytes -> res B) :
  (forall a r, nf (f a r)) -> nf (rbind x f).
Proof. intros Hf. destruct x as [[a r]|]; [apply Hf|apply nf_err]. Qed.
Lemma nf_rbind' {A B} (x : option (A * bytes)) (f : A -> bytes -> res B) :
  (forall a r, x = Some (a, r) -> nf (f a r)) -> nf (rbind x f).
Proof. intros Hf. destruct x as [[a r]|]; [apply Hf; reflexivity|apply nf_err]. Qed.
Lemma nf_parse s : nf (parse_flags s).
Proof. unfold parse_flags. destruct (parse_uint2 255 s) as [v []]; [apply nf_ok|apply nf_err]. Qed.

Ltac nft := repeat first
  [ apply nf_ok | apply nf_err | apply nf_parse
  | apply nf_rbind; intros | apply nf_bind; intros
  | progress cbv beta
  | match goal with
    | |- nf (let (_, _) := ?x in _) => destruct x
    | |- nf ((let (_, _) := ?x in _) _) => destruct x
    | |- nf (match ?x with _ => _ end) => destruct x
    | |- nf (let _ := _ in _) => cbv zeta
    end ].

(** ** Nonzero bytes *)
Definition nz (b : bytes) : nat := length (filter (fun x => negb (x =? 0)) b).

Lemma nz_app a b : nz (a ++ b) = (nz a + nz b)%nat.
Proof. unfold nz. rewrite filter_app, app_length. reflexivity. Qed.
Lemma nz_le b : (nz b <= length b)%nat.
Proof. unfold nz. induction b as [|x b IH]; cbn; [lia|]. destruct (negb (x =? 0)); cbn; lia. Qed.
Lemma nz_split k b : nz b = (nz (firstn k b) + nz (skipn k b))%nat.
Proof. rewrite <- nz_app, firstn_skipn. reflexivity. Qed.
Lemma nz_zeros k : nz (zeros k) = O.
Proof. unfold nz, zeros. induction k; cbn; auto. Qed.
Lemma nz_skipn_zeros k j : nz (skipn j (zeros k)) = O.
Proof. pose proof (nz_split j (zeros k)) as H. rewrite nz_zeros in H. lia. Qed.
Lemma nz_pos b : le_num b <> 0 -> (0 < nz b)%nat.
Proof.
  induction b as [|x b IH]; intros H; [elim H; reflexivity|].
  change (le_num (x :: b)) with (x + 256 * le_num b) in H.
  change (x :: b) with ([x] ++ b). rewrite nz_app.
  destruct (N.eqb_spec x 0) as [->|Hx].
  - assert (le_num b <> 0) by lia. specialize (IH H0). lia.
  - assert (nz [x] = 1)%nat by (unfold nz; cbn; apply N.eqb_neq in Hx; rewrite Hx; reflexivity). lia.
Qed.

Lemma rd_byte_nz r b r' : rd_byte r = Some (b, r') -> (nz r' <= nz r)%nat /\ (S (length r') = length r)%nat.
Proof.
  destruct r as [|x r]; [discriminate|]. rewrite rd_byte_cons. intros H. injection H as <- <-.
  change (x :: r) with ([x] ++ r). rewrite nz_app. cbn [length app]. lia.
Qed.

Lemma rd_into_nz old r b r' : rd_into old r = Some (b, r') ->
  (nz r' <= nz r /\ length r' <= length r)%nat /\ (old <> [] -> length r' < length r)%nat.
Proof.
  intros H. apply rd_into_inv in H. destruct H as (Hr & _ & ->).
  rewrite (nz_split (length old) r), skipn_length. destruct r; [congruence|].
  split; [lia|]. destruct old; [congruence|]. cbn [length]. lia.
Qed.

Lemma rd_num_nz k r n r' : rd_num k r = Some (n, r') -> (nz r' <= nz r /\ length r' <= length r)%nat.
Proof.
  unfold rd_num. destruct (rd_into (zeros k) r) as [[b r2]|] eqn:H; [|discriminate].
  intros H2. injection H2 as <- <-. apply rd_into_nz in H. tauto.
Qed.

Lemma rd_num_tmp_nz tmp r n t r' : rd_num_tmp tmp r = Some ((n, t), r') -> (nz r' <= nz r /\ length r' <= length r)%nat.
Proof.
  unfold rd_num_tmp. destruct (rd_into tmp r) as [[b r2]|] eqn:H; [|discriminate].
  intros H2. injection H2 as <- <- <-. apply rd_into_nz in H. tauto.
Qed.

Lemma rd_num_tmp_zeros_nz k r n t r' : rd_num_tmp (zeros k) r = Some ((n, t), r') ->
  n <> 0 -> (nz r' < nz r)%nat.
Proof.
  unfold rd_num_tmp. destruct (rd_into (zeros k) r) as [[b r2]|] eqn:H; [|discriminate].
  intros H2. injection H2 as <- <- <-. apply rd_into_inv in H. destruct H as (Hr & -> & ->).
  intros Hn. apply nz_pos in Hn. rewrite nz_app, nz_skipn_zeros in Hn.
  rewrite (nz_split (length (zeros k)) r). lia.
Qed.

Lemma opt_rd_nz {A} p (s : A) f r a r' :
  (forall r a r', f r = Some (a, r') -> (nz r' <= nz r /\ length r' <= length r)%nat) ->
  opt_rd p s f r = Some (a, r') -> (nz r' <= nz r /\ length r' <= length r)%nat.
Proof.
  intros Hf. unfold opt_rd. destruct p; [apply Hf|]. intros H. injection H as _ <-. lia.
Qed.

Lemma nf_aa b : nf (SrAbsAnSensData_decode b).
Proof.
  unfold SrAbsAnSensData_decode. destruct (N.ltb_spec (len b) 4) as [H|H]; [apply nf_err|].
  destruct b as [|b0 [|b1 [|b2 [|b3 b]]]]; try apply nf_ok; unfold len in H; cbn [length] in H; lia.
Qed.

Section WithEnv.
Context {E : Env}.

Lemma nf_sub_decode rec t l b : (forall r, (nz r <= nz b)%nat -> nf (rec r)) ->
  match sub_decode rec t l b with Some d => nf d | None => True end.
Proof.
  intros Hrec. unfold sub_decode.
  destruct (N.eqb t _); [unfold SrPosData_decode; nft|].
  destruct (N.eqb t _); [unfold SrTermIdentity_decode; nft|].
  destruct (N.eqb t _); [unfold SrModuleData_decode; nft|].
  destruct (N.eqb t _).
  { apply nf_bind; [|intros; apply nf_ok]. unfold SrResponse_decode.
    apply nf_rbind'; intros crn r H1. apply nf_rbind'; intros rst r2 H2.
    apply nf_bind; [|intros; apply nf_ok]. apply Hrec. apply rd_num_nz in H1. apply rd_byte_nz in H2. lia. }
  destruct (N.eqb t _); [unfold SrResultCode_decode; nft|].
  destruct (N.eqb t _); [unfold SrExtPosData_decode; nft|].
  destruct (N.eqb t _); [unfold SrAdSensorsData_decode; nft|].
  destruct (N.eqb t _); [destruct (l =? 5); unfold SrStateData_decode; nft|].
  destruct (N.eqb t _); [unfold SrStateData_decode; nft|].
  destruct (N.eqb t _); [unfold SrLiquidLevelSensor_decode; nft|].
  destruct (N.eqb t _); [unfold SrAbsCntrData_decode; nft|].
  destruct (N.eqb t _); [unfold SrAuthInfo_decode; nft|].
  destruct (N.eqb t _); [unfold SrCountersData_decode; nft|].
  destruct (N.eqb t _); [unfold StorageRecord_decode; nft|].
  destruct (N.eqb t _); [apply nf_bind; [apply nf_aa|intros; apply nf_ok]|].
  destruct (N.eqb t _); [unfold SrDispatcherIdentity_decode; nft|].
  exact I.
Qed.

Lemma sub_decode_ext rec rec' t l b : (forall r, (nz r <= nz b)%nat -> rec r = rec' r) ->
  sub_decode rec t l b = sub_decode rec' t l b.
Proof.
  intros Hrec. unfold sub_decode.
  replace (SrResponse_decode rec b) with (SrResponse_decode rec' b); [reflexivity|].
  unfold SrResponse_decode. destruct (rd_num 2 b) as [[crn r]|] eqn:H1; [|reflexivity]. rewrite !rbind_some.
  destruct (rd_byte r) as [[rst r2]|] eqn:H2; [|reflexivity]. rewrite !rbind_some.
  apply rd_num_nz in H1. apply rd_byte_nz in H2. rewrite Hrec by lia. reflexivity.
Qed.

Lemma rds_loop_nf rec n : forall b, (length b <= n)%nat -> (forall r, (nz r <= nz b)%nat -> nf (rec r)) ->
  nf (rds_loop rec n b).
Proof.
  induction n as [|n IH]; intros [|t r0] Hn Hrec; cbn [length] in Hn; try lia; try apply nf_ok.
  rewrite rds_loop_S. apply nf_rbind'. intros srl r H1. apply rd_num_nz in H1.
  change (t :: r0) with ([t] ++ r0) in Hrec. rewrite nz_app in Hrec.
  pose proof (nz_split (N.to_nat srl) r) as Hs. pose proof (skipn_length (N.to_nat srl) r) as Hsl.
  pose proof (nf_sub_decode rec t srl (firstn (N.to_nat srl) r)) as Hd.
  assert (nf (rds_loop rec n (skipn (N.to_nat srl) r))) as Hnext.
  { apply IH; [lia|]. intros r' Hr'. apply Hrec. lia. }
  destruct (sub_decode _ _ _ _) as [d|]; [|exact Hnext].
  apply nf_bind; [apply Hd; intros; apply Hrec; lia|]. intros. apply nf_bind; [exact Hnext|]. intros. apply nf_ok.
Qed.

Lemma rds_loop_ext rec rec' n : forall b, (forall r, (nz r <= nz b)%nat -> rec r = rec' r) ->
  rds_loop rec n b = rds_loop rec' n b.
Proof.
  induction n as [|n IH]; intros [|t r0] Hrec; try reflexivity.
  rewrite !rds_loop_S. destruct (rd_num 2 r0) as [[srl r]|] eqn:H1; [|reflexivity]. rewrite !rbind_some.
  apply rd_num_nz in H1.
  change (t :: r0) with ([t] ++ r0) in Hrec. rewrite nz_app in Hrec.
  pose proof (nz_split (N.to_nat srl) r) as Hs.
  rewrite (sub_decode_ext rec rec') by (intros; apply Hrec; lia).
  rewrite (IH (skipn (N.to_nat srl) r)) by (intros; apply Hrec; lia). reflexivity.
Qed.

(** Enough iterations: more do not matter. *)
Lemma rds_loop_more rec n : forall m b, (length b <= n)%nat -> (length b <= m)%nat ->
  rds_loop rec n b = rds_loop rec m b.
Proof.
  induction n as [|n IH]; intros [|m] [|t r0] Hn Hm; cbn [length] in *; try lia; try reflexivity.
  rewrite !rds_loop_S. destruct (rd_num 2 r0) as [[srl r]|] eqn:H1; [|reflexivity]. rewrite !rbind_some.
  apply rd_num_nz in H1. pose proof (skipn_length (N.to_nat srl) r) as Hsl.
  rewrite (IH m) by lia. reflexivity.
Qed.

(** The part of an iteration of the record loop before the next iteration. *)
Definition head_of (ssod rsod grp rpp tmfe evfe obfe : string) rl rn oid evid tm sst rst rds : ServiceDataRecord :=
  mkSDR rl rn ssod rsod grp rpp tmfe evfe obfe oid evid tm sst rst rds.

Definition sds_head (rec : bytes -> res ServiceDataSet) (buf : bytes) : res (ServiceDataRecord * bytes) :=
          rbind (rd_num_tmp (zeros 2) buf) (fun '(rl, tmp) r =>
          rbind (rd_num_tmp tmp r) (fun '(rn, tmp) r =>
          rbind (rd_byte r) (fun flags r =>
          let fb := sprintf_b 8 flags in
          let ssod := slice 0 1 fb in
          let rsod := slice 1 2 fb in
          let grp := slice 2 3 fb in
          let rpp := slice 3 5 fb in
          let tmfe := slice 5 6 fb in
          let evfe := slice 6 7 fb in
          let obfe := slice 7 8 fb in
          rbind (opt_rd (is1 obfe) 0 (rd_num 4) r) (fun oid r =>
          rbind (opt_rd (is1 evfe) 0 (rd_num 4) r) (fun evid r =>
          rbind (opt_rd (is1 tmfe) t_zero
                       (fun r => match rd_num 4 r with
                                 | Some (n, r) => Some (time_decode n, r)
                                 | None => None
                                 end) r) (fun tm r =>
          rbind (rd_byte r) (fun sst r =>
          rbind (rd_byte r) (fun rst r =>
          bind
            (if len r =? 0 then Ok ([], r)
             else rbind (rd_into (zeros (N.to_nat rl)) r) (fun rdb r =>
                  bind (rds_decode_with rec rdb) (fun l =>
                  Ok (l, r)))) (fun '(rds, r) =>
          Ok (mkSDR rl rn ssod rsod grp rpp tmfe evfe obfe oid evid tm sst rst rds, r)))))))))).

Lemma bind_assoc {A B C} (x : res A) (f : A -> res B) (g : B -> res C) :
  bind (bind x f) g = bind x (fun a => bind (f a) g).
Proof. destruct x; reflexivity. Qed.
Lemma rbind_bind {A B C} (x : option (A * bytes)) (f : A -> bytes -> res B) (g : B -> res C) :
  bind (rbind x f) g = rbind x (fun a r => bind (f a r) g).
Proof. destruct x as [[a r]|]; reflexivity. Qed.
Lemma rbind_ext {A B} (x : option (A * bytes)) (f g : A -> bytes -> res B) :
  (forall a r, x = Some (a, r) -> f a r = g a r) -> rbind x f = rbind x g.
Proof. intros H. destruct x as [[a r]|]; [apply H|]; reflexivity. Qed.
Lemma bind_ext {A B} (x : res A) (f g : A -> res B) :
  (forall a, x = Ok a -> f a = g a) -> bind x f = bind x g.
Proof. intros H. destruct x as [a| | |]; [apply H|..]; reflexivity. Qed.

Lemma sds_loop_head rec n buf : buf <> [] ->
  sds_loop rec (S n) buf =
  bind (sds_head rec buf) (fun '(s, r) => bind (sds_loop rec n r) (fun l => Ok (s :: l))).
Proof.
  intros H. rewrite sds_loop_S by assumption. unfold sds_head. cbv zeta.
  rewrite rbind_bind. apply rbind_ext. intros [rl tmp] r _.
  rewrite rbind_bind. apply rbind_ext. intros [rn tmp2] r2 _.
  rewrite rbind_bind. apply rbind_ext. intros flags r3 _.
  rewrite rbind_bind. apply rbind_ext. intros oid r4 _.
  rewrite rbind_bind. apply rbind_ext. intros evid r5 _.
  rewrite rbind_bind. apply rbind_ext. intros tm r6 _.
  rewrite rbind_bind. apply rbind_ext. intros sst r7 _.
  rewrite rbind_bind. apply rbind_ext. intros rst r8 _.
  rewrite bind_assoc. apply bind_ext. intros [rds r9] _. reflexivity.
Qed.

Lemma rd_time_nz r t r' :
  match rd_num 4 r with Some (n, r) => Some (time_decode n, r) | None => None end = Some (t, r') ->
  (nz r' <= nz r /\ length r' <= length r)%nat.
Proof.
  destruct (rd_num 4 r) as [[n r2]|] eqn:H; [|discriminate]. intros H2. injection H2 as _ <-.
  eapply rd_num_nz; eauto.
Qed.

Ltac step H := let a := fresh "a" in let r := fresh "r" in
  apply nf_rbind'; intros a r H.

(** What one iteration does, for all three uses below. *)
Lemma sds_head_ext rec rec' buf : (forall r, (nz r < nz buf)%nat -> rec r = rec' r) ->
  sds_head rec buf = sds_head rec' buf.
Proof.
  intros Hrec. unfold sds_head. cbv zeta.
  apply rbind_ext. intros [rl tmp] r H1.
  apply rbind_ext. intros [rn tmp2] r2 H2.
  apply rbind_ext. intros flags r3 H3.
  apply rbind_ext. intros oid r4 H4.
  apply rbind_ext. intros evid r5 H5.
  apply rbind_ext. intros tm r6 H6.
  apply rbind_ext. intros sst r7 H7.
  apply rbind_ext. intros rst r8 H8.
  pose proof (rd_num_tmp_zeros_nz _ _ _ _ _ H1) as H1'.
  apply rd_num_tmp_nz in H1. apply rd_num_tmp_nz in H2. apply rd_byte_nz in H3.
  apply opt_rd_nz in H4; [|apply rd_num_nz]. apply opt_rd_nz in H5; [|apply rd_num_nz].
  apply opt_rd_nz in H6; [|apply rd_time_nz]. apply rd_byte_nz in H7. apply rd_byte_nz in H8.
  f_equal. destruct (len r8 =? 0); [reflexivity|].
  apply rbind_ext. intros rdb r9 H9. destruct (N.eq_dec rl 0) as [->|Hrl].
  - apply rd_into_length in H9. rewrite zeros_length in H9. destruct rdb; [reflexivity|discriminate].
  - specialize (H1' Hrl). apply rd_into_inv in H9. destruct H9 as (_ & -> & ->).
    unfold rds_decode_with. rewrite (rds_loop_ext rec rec'); [reflexivity|].
    intros q Hq. apply Hrec. rewrite nz_app, nz_skipn_zeros in Hq.
    pose proof (nz_split (length (zeros (N.to_nat rl))) r8). lia.
Qed.

Lemma sds_head_nf rec buf : (forall r, (nz r < nz buf)%nat -> nf (rec r)) -> nf (sds_head rec buf).
Proof.
  intros Hrec. unfold sds_head. cbv zeta.
  apply nf_rbind'. intros [rl tmp] r H1.
  apply nf_rbind'. intros [rn tmp2] r2 H2.
  apply nf_rbind'. intros flags r3 H3.
  apply nf_rbind'. intros oid r4 H4.
  apply nf_rbind'. intros evid r5 H5.
  apply nf_rbind'. intros tm r6 H6.
  apply nf_rbind'. intros sst r7 H7.
  apply nf_rbind'. intros rst r8 H8.
  pose proof (rd_num_tmp_zeros_nz _ _ _ _ _ H1) as H1'.
  apply rd_num_tmp_nz in H1. apply rd_num_tmp_nz in H2. apply rd_byte_nz in H3.
  apply opt_rd_nz in H4; [|apply rd_num_nz]. apply opt_rd_nz in H5; [|apply rd_num_nz].
  apply opt_rd_nz in H6; [|apply rd_time_nz]. apply rd_byte_nz in H7. apply rd_byte_nz in H8.
  apply nf_bind; [|intros [? ?]; apply nf_ok]. destruct (len r8 =? 0); [apply nf_ok|].
  apply nf_rbind'. intros rdb r9 H9. apply nf_bind; [|intros; apply nf_ok]. destruct (N.eq_dec rl 0) as [->|Hrl].
  - apply rd_into_length in H9. rewrite zeros_length in H9. destruct rdb; [apply nf_ok|discriminate].
  - specialize (H1' Hrl). apply rd_into_inv in H9. destruct H9 as (_ & -> & ->).
    apply rds_loop_nf; [reflexivity|].
    intros q Hq. apply Hrec. rewrite nz_app, nz_skipn_zeros in Hq.
    pose proof (nz_split (length (zeros (N.to_nat rl))) r8). lia.
Qed.

Lemma sds_head_rest rec buf s r : sds_head rec buf = Ok (s, r) ->
  (nz r <= nz buf)%nat /\ (length r + 5 <= length buf)%nat.
Proof.
  unfold sds_head. cbv zeta. intros H.
  apply rbind_inv in H. destruct H as ([rl tmp] & r1 & H1 & H).
  apply rbind_inv in H. destruct H as ([rn tmp2] & r2 & H2 & H).
  apply rbind_inv in H. destruct H as (flags & r3 & H3 & H).
  apply rbind_inv in H. destruct H as (oid & r4 & H4 & H).
  apply rbind_inv in H. destruct H as (evid & r5 & H5 & H).
  apply rbind_inv in H. destruct H as (tm & r6 & H6 & H).
  apply rbind_inv in H. destruct H as (sst & r7 & H7 & H).
  apply rbind_inv in H. destruct H as (rst & r8 & H8 & H).
  apply bind_inv in H. destruct H as ([rds r9] & H9 & H). injection H as <- <-.
  assert (length r1 < length buf)%nat.
  { unfold rd_num_tmp in H1. destruct (rd_into (zeros 2) buf) as [[b0 r0]|] eqn:Hi; [|discriminate].
    injection H1 as <- <- <-. apply rd_into_nz in Hi. apply Hi. discriminate. }
  assert (length tmp = 2)%nat as Htmp.
  { unfold rd_num_tmp in H1. destruct (rd_into (zeros 2) buf) as [[b0 r0]|] eqn:Hi; [|discriminate].
    injection H1 as <- <- <-. apply rd_into_length in Hi. rewrite Hi. apply zeros_length. }
  assert (length r2 < length r1)%nat.
  { unfold rd_num_tmp in H2. destruct (rd_into tmp r1) as [[b0 r0]|] eqn:Hi; [|discriminate].
    injection H2 as <- <- <-. apply rd_into_nz in Hi. apply Hi. destruct tmp; discriminate. }
  apply rd_num_tmp_nz in H1. apply rd_num_tmp_nz in H2. apply rd_byte_nz in H3.
  apply opt_rd_nz in H4; [|apply rd_num_nz]. apply opt_rd_nz in H5; [|apply rd_num_nz].
  apply opt_rd_nz in H6; [|apply rd_time_nz]. apply rd_byte_nz in H7. apply rd_byte_nz in H8.
  assert (nz r9 <= nz r8 /\ length r9 <= length r8)%nat.
  { destruct (len r8 =? 0); [injection H9 as _ <-; lia|].
    apply rbind_inv in H9. destruct H9 as (rdb & r10 & H10 & H9).
    apply bind_inv in H9. destruct H9 as (l & _ & H9). injection H9 as _ <-. apply rd_into_nz in H10. tauto. }
  lia.
Qed.

Lemma sds_loop_nf rec n : forall b, (length b <= n)%nat -> (forall r, (nz r < nz b)%nat -> nf (rec r)) ->
  nf (sds_loop rec n b).
Proof.
  induction n as [|n IH]; intros b Hn Hrec; destruct b as [|x b]; cbn [length] in Hn; try lia; try apply nf_ok.
  rewrite sds_loop_head by discriminate. apply nf_bind'; [apply sds_head_nf; assumption|].
  intros [s r] H. apply sds_head_rest in H. cbn [length] in H.
  apply nf_bind; [|intros; apply nf_ok]. apply IH; [lia|]. intros q Hq. apply Hrec. lia.
Qed.

Lemma sds_loop_ext rec rec' n : forall b, (forall r, (nz r < nz b)%nat -> rec r = rec' r) ->
  sds_loop rec n b = sds_loop rec' n b.
Proof.
  induction n as [|n IH]; intros b Hrec; destruct b as [|x b]; try reflexivity.
  rewrite !sds_loop_head by discriminate. rewrite (sds_head_ext rec rec') by assumption.
  apply bind_ext. intros [s r] H. apply sds_head_rest in H.
  rewrite (IH r); [reflexivity|]. intros q Hq. apply Hrec. lia.
Qed.

Lemma sds_loop_more rec n : forall m b, (length b <= n)%nat -> (length b <= m)%nat ->
  sds_loop rec n b = sds_loop rec m b.
Proof.
  induction n as [|n IH]; intros [|m] b Hn Hm; destruct b as [|x b]; cbn [length] in *; try lia; try reflexivity.
  rewrite !sds_loop_head by discriminate. apply bind_ext. intros [s r] H. apply sds_head_rest in H. cbn [length] in H.
  rewrite (IH m) by lia. reflexivity.
Qed.

Lemma sds_fuel d : forall b, (nz b < d)%nat ->
  nf (sds_decode_fuel d b) /\ forall d', (nz b < d')%nat -> sds_decode_fuel d b = sds_decode_fuel d' b.
Proof.
  induction d as [|d IH]; intros b Hb; [lia|]. split.
  - cbn [sds_decode_fuel]. apply sds_loop_nf; [reflexivity|]. intros r Hr. apply IH. lia.
  - intros [|d'] Hd; [lia|]. cbn [sds_decode_fuel]. apply sds_loop_ext. intros r Hr. apply IH; lia.
Qed.

Lemma sds_decode_nf b : nf (sds_decode b).
Proof. apply sds_fuel. pose proof (nz_le b). lia. Qed.

Lemma sds_fuel_decode d b : (nz b < d)%nat -> sds_decode_fuel d b = sds_decode b.
Proof. intros H. apply sds_fuel; [assumption|]. pose proof (nz_le b). lia. Qed.

(** The recursive equation. *)
Lemma sds_decode_eq b : sds_decode b = sds_loop sds_decode (length b) b.
Proof.
  unfold sds_decode at 1. cbn [sds_decode_fuel]. apply sds_loop_ext. intros r Hr. apply sds_fuel_decode.
  pose proof (nz_le b). lia.
Qed.

Lemma rds_decode_eq b : rds_decode b = rds_decode_with sds_decode b.
Proof.
  unfold rds_decode, rds_decode_with. apply rds_loop_ext. intros r Hr. apply sds_fuel_decode.
  pose proof (nz_le b). lia.
Qed.

Lemma rds_decode_nf b : nf (rds_decode b).
Proof. rewrite rds_decode_eq. apply rds_loop_nf; [reflexivity|]. intros. apply sds_decode_nf. Qed.

Lemma sub_decode_nf t l b : match sub_decode sds_decode t l b with Some d => nf d | None => True end.
Proof. apply nf_sub_decode. intros. apply sds_decode_nf. Qed.

(** ServiceDataSet.Decode one record at a time. *)
Lemma sds_decode_nil : sds_decode [] = Ok [].
Proof. reflexivity. Qed.

Lemma sds_decode_step b : b <> [] ->
  sds_decode b = bind (sds_head sds_decode b) (fun '(s, r) => bind (sds_decode r) (fun l => Ok (s :: l))).
Proof.
  intros H. rewrite sds_decode_eq. destruct b as [|x b]; [congruence|]. cbn [length].
  rewrite sds_loop_head by discriminate. apply bind_ext. intros [s r] Hs. apply sds_head_rest in Hs. cbn [length] in Hs.
  rewrite (sds_decode_eq r), (sds_loop_more _ (length b) (length r)) by lia. reflexivity.
Qed.

Lemma sds_decode_ind (P : bytes -> ServiceDataSet -> Prop) :
  P [] [] ->
  (forall b s r l, b <> [] -> sds_head sds_decode b = Ok (s, r) -> sds_decode r = Ok l -> P r l -> P b (s :: l)) ->
  forall b l, sds_decode b = Ok l -> P b l.
Proof.
  intros H0 HS b. remember (length b) as n eqn:Hn. assert (length b <= n)%nat as Hle by lia. clear Hn. revert b Hle.
  induction n as [|n IH]; intros b Hn l Hl; (destruct b as [|x b]; [injection Hl as <-; exact H0|]);
    cbn [length] in Hn; [lia|].
  rewrite sds_decode_step in Hl by discriminate. apply bind_inv in Hl. destruct Hl as ([s r] & Hs & Hl).
  apply bind_inv in Hl. destruct Hl as (l' & Hl' & Hl). injection Hl as <-.
  apply HS with r; auto; try discriminate. apply IH; [|assumption]. apply sds_head_rest in Hs. cbn [length] in Hs. lia.
Qed.

Lemma recs_arrive_sds w l : SpecRec.recs_arrive w l -> sds_decode w = Ok l.
Proof.
  intros H. rewrite sds_decode_eq. apply recs_arrive_decode; auto using sds_decode_nil.
Qed.

Lemma subs_arrive_rds w l : SpecRec.subs_arrive w l -> rds_decode w = Ok l.
Proof.
  intros H. rewrite rds_decode_eq. apply subs_arrive_decode; auto using sds_decode_nil.
Qed.

End WithEnv.

(** What the encoders do with any value: C93-C95. *)
From Coq Require Import String NArith ZArith Lia List Bool.
From Verif Require Import GoBase GoFloat SubRecords Records Package ConcreteEnv SpecBase SpecCrc SpecRec SpecPkg SpecEnc BaseFacts EncFacts.
Import ListNotations.
Open Scope N_scope.

(** ** C93 *)
(** Encode writes [b] exactly if the data is laid out as [b], and reports an error otherwise. *)
Theorem C93_subrecord_encoding `{Env} : forall d,
  (forall b, sub_encode d = Ok b <-> writes d b) /\ (sub_encode d = Err <-> forall b, ~ writes d b).
Proof. intros d. split; [intros b; symmetry; apply writes_iff|symmetry; apply not_writes_iff]. Qed.

Theorem C93_subrecord_no_panic `{Env} : forall d, sub_encode d = Err \/ exists b, sub_encode d = Ok b.
Proof. intros d. destruct (sub_encode_total d); auto. Qed.

(** Values on which all of them succeed whatever the fields are. *)
Theorem C93_term_identity_never_refused `{Env} : forall e, exists b, sub_encode (DTermIdentity e) = Ok b.
Proof. intros e. eexists. reflexivity. Qed.

(** The flag strings are taken together: flags of other widths are accepted if they make up eight
    digits, and end up in the places of other flags. *)
Definition C93_state (nms ibu bbu : string) : SrStateData := mkSrStateData 1 2 3 4 nms ibu bbu.
Theorem C93_flags_can_shift `{Env} : exists e e',
  sd_NMS e <> sd_NMS e' /\ sd_IBU e <> sd_IBU e' /\ exists b, sub_encode (DState e) = Ok b /\ sub_encode (DState e') = Ok b.
Proof.
  exists (C93_state "1" "" "01"), (C93_state "" "1" "01"). repeat split; [discriminate..|].
  exists [1; 2; 3; 4; 5]. split; reflexivity.
Qed.

Example C93_written `{Env} : writes (DState (C93_state "1" "0" "1")) [1; 2; 3; 4; 5].
Proof. apply writes_iff. reflexivity. Qed.
Example C93_not_written `{Env} : forall b, ~ writes (DState (C93_state "1" "x" "1")) b.
Proof. apply not_writes_iff. reflexivity. Qed.
Example C93_ignored_errors :
  loose_byte "00000011" 3 /\ loose_byte "1111111101x" 255 /\ loose_byte "1x111111111" 0 /\ loose_byte "" 0.
Proof. repeat split; apply loose_byte_iff; reflexivity. Qed.

(** ** C94 *)
(** The outcome for a sequence of subrecords, whichever fields are filled in. *)
Theorem C94_subrecord_outcome `{Env} : forall l o, rds_encode l = o <-> each sub_out l o.
Proof. intros l o. symmetry. apply subs_out_iff. Qed.

Theorem C94_record_outcome `{Env} : forall l o, sds_encode l = o <-> each rec_out l o.
Proof. intros l o. symmetry. apply recs_out_iff. Qed.

Theorem C94_response_outcome `{Env} : forall r o, PtResponse_encode r = o <-> body_out (BResp r) o.
Proof. intros r o. symmetry. apply (body_out_iff (BResp r)). Qed.

(** It panics exactly if a subrecord without data has a type, and nothing before it is refused. *)
Definition holds_subs `{Env} (l : list ServiceDataRecord) : list RecordData := concat (map s_RD l).

Lemma each_panic {A} (P : A -> res (list N) -> Prop) l : each P l Panic -> exists x, In x l /\ P x Panic.
Proof.
  intros H. remember Panic as o eqn:Eo. induction H as [|x l b c H1 H2 IH|x l o H N1|x l b o H1 H2 IH N2].
  - discriminate.
  - discriminate.
  - exists x. subst o. split; [left; reflexivity|assumption].
  - destruct (IH Eo) as (y & Hy & Py). exists y. split; [right; assumption|assumption].
Qed.

Theorem C94_no_panic_with_data `{Env} : forall l, (forall r, In r (holds_subs l) -> rd_SRD r <> None) -> sds_encode l <> Panic.
Proof.
  intros l Hl Hp. apply recs_out_iff in Hp. apply each_panic in Hp as (s & Hs & Hp). inversion Hp as [|s' o Ho No|]. subst.
  apply each_panic in Ho as (r & Hr & Hp'). apply (Hl r).
  - unfold holds_subs. apply in_concat. exists (s_RD s). split; [apply in_map; assumption|assumption].
  - inversion Hp'. reflexivity.
Qed.

Definition C94_bad_record `{Env} (t : N) : ServiceDataRecord :=
  mkSDR 0 1 "1" "0" "0" "01" "0" "0" "0" 0 0 0%Z 2 2 [mkRecordData t 0 None].
Theorem C94_nil_data_panics `{Env} : sds_encode [C94_bad_record 16] = Panic /\ sds_encode [C94_bad_record 0] = Err.
Proof. split; reflexivity. Qed.

Definition C94_record `{Env} (flag : string) : ServiceDataRecord :=
  mkSDR 0 258 "1" "0" "0" "01" "1" "0" flag 77 0 1577836805999999999%Z 2 3 [mkRecordData 0 0 (Some (DState (C93_state "1" "0" "1")))].
Example C94_written `{Env} : each rec_out [C94_record "0"]
  (Ok [8; 0; 2; 1; 140; 5; 166; 206; 18; 2; 3; 21; 5; 0; 1; 2; 3; 4; 5]).
Proof. apply recs_out_iff. vm_compute. reflexivity. Qed.
Example C94_refused `{Env} : each rec_out [C94_record "0"; C94_record "2"] Err.
Proof. apply recs_out_iff. vm_compute. reflexivity. Qed.
Example C94_data `{Env} : forall r, In r (holds_subs [C94_record "0"]) -> rd_SRD r <> None.
Proof. intros r [<-|[]]. discriminate. Qed.

(** ** C95 *)
(** The outcome for a packet, and the packet afterwards: only its lengths change. *)
Theorem C95_packet_outcome `{Env} : forall key p o hl fdl, go_key key -> go_pkg p ->
  (pkg_encode key p = (lengths p hl fdl, o) <-> pkg_out key p o hl fdl).
Proof. intros key p o hl fdl Hk Hp. symmetry. apply pkg_out_iff; assumption. Qed.

Theorem C95_packet_always_some_outcome `{Env} : forall key p, go_key key -> go_pkg p ->
  exists o hl fdl, pkg_out key p o hl fdl /\ forall o' hl' fdl', pkg_out key p o' hl' fdl' -> o' = o /\ hl' = hl /\ fdl' = fdl.
Proof.
  intros key p Hk Hp. destruct (pkg_out_total key p) as (o & hl & fdl & Ho). exists o, hl, fdl. split; [assumption|].
  intros o' hl' fdl' Ho'. apply pkg_out_iff in Ho; [|assumption..]. apply pkg_out_iff in Ho'; [|assumption..].
  pose proof (eq_trans (eq_sym Ho') Ho) as H0.
  pose proof (f_equal (fun x => p_HL (fst x)) H0) as X1. pose proof (f_equal (fun x => p_FDL (fst x)) H0) as X2.
  pose proof (f_equal snd H0) as X3. cbn [fst snd p_HL p_FDL lengths] in X1, X2, X3. auto.
Qed.

(** Everything Encode writes is laid out over bytes. *)
Theorem C95_packet_bytes `{Env} : forall key p p' b, go_key key -> go_pkg p -> pkg_encode key p = (p', Ok b) -> is_bytes b.
Proof.
  intros key p p' b Hk Hp Hb. destruct (pkg_out_total key p) as (o & hl & fdl & Ho).
  pose proof (pkg_out_ok _ _ _ _ _ Hk Hp Ho) as X. rewrite Hb in X. inversion X; subst o p'. clear X Hb.
  inversion Ho as [|v c h Hf Hs Hh|v o Hf Hs No]; [|destruct (No _ eq_refl)]. subst fdl hl.
  assert (Bc := sent_bytes _ _ _ Hk Hp Hs).
  assert (Bh : bytes_ok h) by (subst h; apply head_out_bytes; [assumption|apply Hf|apply header_length_lt; assumption]).
  rewrite <- (CrcFacts.crc8_checksum h Bh). apply bytes_ok_app. split; [assumption|].
  apply bytes_ok_cons. split; [apply CrcFacts.crc8_lt; assumption|].
  destruct (_ =? 0); [apply bytes_ok_nil|]. apply bytes_ok_app. split; [assumption|apply WireFacts.le16_ok].
Qed.

Definition C95_packet `{Env} (rte : string) (body : option Body) : Package :=
  mkPackage 1 0 "00" rte "00" "0" "11" 0 0 99 137 1 1 2 3 55 body 66.
Example C95_go `{Env} : forall rte, go_pkg (C95_packet rte (Some (BSds [C94_record "0"]))).
Proof.
  intros rte. split.
  - repeat constructor.
  - intros b [= <-]. repeat constructor. intros d [= <-]. repeat constructor.
Qed.
Example C95_written `{Env} : pkg_out None (C95_packet "1" (Some (BSds [C94_record "0"])))
  (Ok [1; 0; 35; 16; 0; 19; 0; 137; 0; 1; 1; 0; 2; 0; 3; 54; 8; 0; 2; 1; 140; 5; 166; 206; 18; 2; 3; 21; 5; 0; 1; 2; 3; 4; 5; 175; 60]) 16 19.
Proof.
  apply pkg_out_iff; [intros k w c [=]|apply C95_go|]. vm_compute. reflexivity.
Qed.
Example C95_refused `{Env} : pkg_out None (C95_packet "1" (Some (BSds [C94_record "2"]))) Err 16 99.
Proof.
  apply pkg_out_iff; [intros k w c [=]| |vm_compute; reflexivity].
  split; [repeat constructor|]. intros b [= <-]. repeat constructor. intros d [= <-]. repeat constructor.
Qed.

(** Properties of the EGTS+ subrecord (protobuf). *)
From Coq Require Import NArith ZArith List Bool Lia.
From Verif Require Import GoBase GoFloat SubRecords Records BaseFacts SpecBase SpecSub SpecRec RecordFacts.
From Verif Require Import Protobuf SpecPb PbFacts PbLeaf ConcreteEnv.
Import ListNotations.
Open Scope N_scope.

(** ** The codec *)
(** The Go structures are those of the documented schema. *)
Lemma schema : doc_storage = d_storage.
Proof. reflexivity. Qed.

Lemma storage_ok_length m : storage_ok m -> length (m_vals m) = length d_storage.
Proof. unfold storage_ok. rewrite schema. intros [H _]. induction H; cbn [length]; congruence. Qed.

(** C64: a record with its required fields set is encoded, and decoding gives it back. *)
Theorem C64_storage_round_trip : forall m, storage_ok m -> has_required m ->
  exists b, storage_marshal m = Some b /\ bytes_ok b /\ storage_unmarshal b = Some m.
Proof.
  intros m Hm Hr. pose proof (storage_ok_length _ Hm) as Hl.
  apply (required_iff _ Hl) in Hr. unfold storage_marshal, storage_unmarshal. rewrite Hr. eexists. split; [reflexivity|].
  split; [apply top_marshal_bytes, Hm|]. rewrite top_round_trip by exact Hm. rewrite Hr. reflexivity.
Qed.

(** The bytes are the proto2 encoding, field by field. *)
Lemma wire_field_put {K V} (wt : K -> N) (put_v : K -> V -> bytes) (wv : K -> V -> bytes -> Prop) f vs :
  (forall v, In v vs -> wv (f_kind f) v (put_v (f_kind f) v)) -> 8 * f_num f + wt (f_kind f) < 18446744073709551616 ->
  wire_field wt wv (f_num f) (f_kind f) vs (put_field wt put_v f vs).
Proof.
  intros Hv Hn. induction vs as [|v vs IH]; [constructor|]. unfold put_field. cbn [flat_map]. rewrite <- app_assoc.
  constructor; [apply wr_varint_short, Hn|apply Hv; left; reflexivity|]. apply IH. intros v' H. apply Hv. right. exact H.
Qed.

Lemma wire_fields_put {K V} (wt : K -> N) (put_v : K -> V -> bytes) (ok : K -> V -> Prop) (wv : K -> V -> bytes -> Prop) d vals :
  (forall f v, In f d -> ok (f_kind f) v -> wv (f_kind f) v (put_v (f_kind f) v)) ->
  Forall (fun f => 8 * f_num f + wt (f_kind f) < 18446744073709551616) d ->
  Forall2 (fun f vs => Forall (ok (f_kind f)) vs /\ (f_card f <> Rep -> (length vs <= 1)%nat)) d vals ->
  wire_fields wt wv d vals (put_fields wt put_v d vals).
Proof.
  intros Hw Hd H. revert Hw Hd. induction H as [|f vs d vals [Hv _] _ IH]; intros Hw Hd; [constructor|].
  apply Forall_cons_iff in Hd as [Hf Hd]. cbn [put_fields]. constructor.
  - apply wire_field_put; [|exact Hf]. intros v Hi. apply Hw; [left; reflexivity|]. rewrite Forall_forall in Hv. auto.
  - apply IH; [|exact Hd]. intros g v Hi. apply Hw. right. exact Hi.
Qed.

Lemma zigzag_spec z : z = (if N.even (zigzag z) then Z.of_N (zigzag z) / 2 else - (Z.of_N (zigzag z) + 1) / 2)%Z.
Proof.
  unfold zigzag. destruct (Z.ltb_spec z 0).
  - replace (Z.to_N (-2 * z - 1)) with (1 + 2 * Z.to_N (- z - 1)) by lia. rewrite N.even_add_mul_2. cbn [N.even].
    replace (- (Z.of_N (1 + 2 * Z.to_N (- z - 1)) + 1))%Z with (z * 2)%Z by lia. rewrite Z.div_mul; lia.
  - replace (Z.to_N (2 * z)) with (0 + 2 * Z.to_N z) by lia. rewrite N.even_add_mul_2. cbn [N.even].
    replace (Z.of_N (0 + 2 * Z.to_N z)) with (z * 2)%Z by lia. rewrite Z.div_mul; lia.
Qed.

Lemma wire_put_value k v : value_ok k v -> wire_value k v (put_value k v).
Proof.
  destruct k, v; cbn [value_ok wire_value put_value]; try contradiction; intros H.
  - apply wr_varint_short. lia.
  - reflexivity.
  - pose proof (Z.mod_pos_bound z 18446744073709551616 ltac:(lia)). eexists. split; [apply wr_varint_short; lia|].
    rewrite Z2N.id by lia. reflexivity.
  - rewrite le_bytes_length, le_num_le_bytes by exact H. auto.
  - pose proof (zigzag_bound _ H). exists (zigzag z). split; [apply wr_varint_short; lia|apply zigzag_spec].
  - eexists. split; [reflexivity|]. apply wr_varint_short. tauto.
Qed.

Lemma wire_leaf d m : leaf_desc d -> message_ok value_ok takes d m -> wire_message tag_type wire_value d m (leaf_marshal d m).
Proof.
  change tag_type with wire_type.
  intros (_ & Hn & _) (Hv & _). eexists. split; [|reflexivity]. eapply wire_fields_put with (ok := value_ok); [|clear Hv|exact Hv].
  - intros. apply wire_put_value. assumption.
  - eapply Forall_impl; [|exact Hn]. intros f Hf. simpl in Hf. pose proof (wire_type_ok (f_kind f)). lia.
Qed.

Theorem C64_storage_wire_format : forall m b, storage_ok m -> storage_marshal m = Some b ->
  wire_message tag_type1 wire_value1 doc_storage m b.
Proof.
  unfold storage_ok. rewrite schema. change tag_type1 with wire_type1.
  intros m b (Hv & _) H. unfold storage_marshal in H. destruct (required_set d_storage m); [|discriminate]. injection H as <-.
  pose proof storage_desc_ok as (_ & Hn & Hg & _).
  eexists. split; [|reflexivity]. eapply wire_fields_put with (ok := value1_ok); [| |exact Hv].
  - intros f v Hi. rewrite Forall_forall in Hg. specialize (Hg _ Hi).
    destruct (f_kind f) as [k|d], v as [v|m']; cbn [value1_ok wire_value1 put_value1 good1] in *; try contradiction.
    + apply wire_put_value.
    + intros [Hm Hl]. cbv zeta. eexists _, _. split; [reflexivity|]. split; [apply wr_varint_short, Hl|]. apply wire_leaf; assumption.
  - eapply Forall_impl; [|exact Hn]. intros f Hf. simpl in Hf. pose proof (wire_type1_ok (f_kind f)). lia.
Qed.

(** C65: whatever Decode accepts is encoded again, and gives the same record: nothing that was
    read is lost, fields the library does not know included. *)
Theorem C65_decoded_record_is_kept : forall b m, bytes_ok b -> storage_unmarshal b = Some m ->
  storage_ok m /\ has_required m /\ exists b', storage_marshal m = Some b' /\ storage_unmarshal b' = Some m.
Proof.
  intros b m Hb H. unfold storage_unmarshal in H. destruct (unmarshal get_value1 d_storage b) as [m'|] eqn:E; [|discriminate].
  destruct (required_set d_storage m') eqn:Er; [|discriminate]. injection H as ->.
  pose proof (top_unmarshal_ok _ _ Hb E) as Hm.
  pose proof (storage_ok_length _ Hm) as Hl.
  assert (has_required m) as Hr by (apply (required_iff _ Hl), Er). split; [exact Hm|]. split; [exact Hr|].
  destruct (C64_storage_round_trip _ Hm Hr) as (b' & H1 & _ & H2). eauto.
Qed.

(** C66: Encode fails exactly on records that lack a required field, and Decode never returns
    such a record. *)
Theorem C66_encode_needs_required_fields : forall m, storage_ok m -> (storage_marshal m = None <-> ~ has_required m).
Proof.
  intros m Hm. pose proof (storage_ok_length _ Hm) as Hl.
  rewrite <- (required_iff _ Hl). unfold storage_marshal. destruct (required_set d_storage m); split; intros H; try discriminate; auto.
  exfalso. apply H. reflexivity.
Qed.

Theorem C66_decode_needs_required_fields : forall b m, bytes_ok b -> storage_unmarshal b = Some m -> has_required m.
Proof. intros b m Hb H. apply (C65_decoded_record_is_kept _ _ Hb H). Qed.

(** ** The subrecord *)

(** Code left arbitrary in the model, instantiated by this codec. *)
Definition pb_write (m : message value1) : option bytes :=
  match storage_marshal m with Some b => if bytes_okb b then Some b else None | None => None end.
Lemma pb_write_bytes m b : pb_write m = Some b -> bytes_ok b.
Proof.
  unfold pb_write. destruct (storage_marshal m) as [c|]; [|discriminate]. destruct (bytes_okb c) eqn:Hc; [|discriminate].
  intros H. injection H as <-. apply bytes_okb_ok, Hc.
Qed.
Definition env_pb (oor : f64 -> N) (oor_ok : forall x, oor x < 4294967296) : Env :=
  {| StorageRecord := message value1; pb_zero := empty_message d_storage;
     pb_unmarshal := storage_unmarshal; pb_marshal := pb_write; pb_marshal_ok := pb_write_bytes;
     f64_u32_oor := oor; f64_u32_oor_ok := oor_ok |}.

Lemma bytes_okb_true b : bytes_ok b -> bytes_okb b = true.
Proof. intros H. apply forallb_forall. intros x Hx. apply N.ltb_lt. unfold bytes_ok in H. rewrite Forall_forall in H. apply H, Hx. Qed.

(** C64: with this codec an EGTS+ subrecord arrives as it was sent. *)
Theorem C64_egtsplus_travels : forall oor oor_ok (m : message value1), storage_ok m -> has_required m ->
  exists b, storage_marshal m = Some b /\ travels (E := env_pb oor oor_ok) (DEgtsPlus (m : @StorageRecord (env_pb oor oor_ok))) 15 b (DEgtsPlus (m : @StorageRecord (env_pb oor oor_ok))).
Proof.
  intros oor oor_ok m Hm Hr. destruct (C64_storage_round_trip _ Hm Hr) as (b & Hb & Hok & Hu). exists b. split; [exact Hb|].
  constructor; [|exact Hu]. cbn. unfold pb_write. rewrite Hb, bytes_okb_true by exact Hok. reflexivity.
Qed.

(** C65 for subrecords: one that was received can be sent on. *)
Theorem C65_received_egtsplus_travels : forall oor oor_ok b (m : @StorageRecord (env_pb oor oor_ok)), bytes_ok b ->
  @StorageRecord_decode (env_pb oor oor_ok) b = Ok m -> exists b', travels (E := env_pb oor oor_ok) (DEgtsPlus m) 15 b' (DEgtsPlus m).
Proof.
  intros oor oor_ok b m Hb H. unfold StorageRecord_decode in H. cbn in H.
  destruct (storage_unmarshal b) as [m'|] eqn:E; [|discriminate]. injection H as ->.
  destruct (C65_decoded_record_is_kept _ _ Hb E) as (Hm & Hr & _).
  destruct (C64_egtsplus_travels oor oor_ok _ Hm Hr) as (b' & _ & Ht). eauto.
Qed.

(** ** A concrete record: the bytes of egts_sr_egtsplus_data_test.go, with the field 99 and a
    repeated reason added. *)
Definition pb_ex_bytes : bytes :=
  [8; 251; 212; 3; 21; 59; 70; 95; 92; 24; 1; 24; 3; 37; 0; 0; 0; 0; 130; 1; 4; 8; 1; 48; 79; 138; 1; 2; 8; 1; 154; 6; 2; 7; 7].
Definition pb_ex : message value1 :=
  mkMessage
    [[VLeaf (VU 60027)]; [VLeaf (VU 1549747771)]; [VLeaf (VI 1); VLeaf (VI 3)]; [VLeaf (VU 0)]; []; []; []; []; []; []; []; []; [];
     [VMsg (mkMessage [[VU 1]; []; []; []; []; [VI (-40)]; []; []; []; []; []; []; []; []; []] [])];
     [VMsg (mkMessage [[VU 1]; []; []] [])]; []; []; []; []; []; []; []]
    [154; 6; 2; 7; 7].
Example C64_example : storage_ok pb_ex /\ has_required pb_ex /\ storage_marshal pb_ex = Some pb_ex_bytes /\
  storage_unmarshal pb_ex_bytes = Some pb_ex.
Proof.
  assert (storage_unmarshal pb_ex_bytes = Some pb_ex) as E by (vm_compute; reflexivity).
  assert (bytes_ok pb_ex_bytes) as Hb by (apply bytes_okb_ok; reflexivity).
  destruct (C65_decoded_record_is_kept _ _ Hb E) as (H1 & H2 & _). repeat split; try apply H1; try apply H2; auto.
Qed.
(** Packed reasons, fields in another order, and a longer varint give the same record, which is
    encoded shorter. *)
Example C65_example :
  let b := [154; 6; 2; 7; 7; 37; 0; 0; 0; 0; 26; 2; 1; 3; 21; 59; 70; 95; 92; 8; 251; 212; 131; 0; 138; 1; 2; 8; 1; 130; 1; 4; 48; 79; 8; 1] in
  bytes_ok b /\ storage_unmarshal b = Some pb_ex /\ storage_marshal pb_ex = Some pb_ex_bytes.
Proof. split; [apply bytes_okb_ok; reflexivity|]. split; vm_compute; reflexivity. Qed.
(** A record without time stamp. *)
Definition pb_ex_no_time : message value1 := mkMessage ([VLeaf (VU 60027)] :: [] :: skipn 2 (m_vals pb_ex)) (m_unknown pb_ex).
Example C66_example : storage_ok pb_ex_no_time /\ ~ has_required pb_ex_no_time /\
  storage_marshal pb_ex_no_time = None /\ storage_unmarshal [8; 1; 37; 0; 0; 0; 0] = None.
Proof.
  split.
  - apply top_unmarshal_ok with
      [8; 251; 212; 3; 24; 1; 24; 3; 37; 0; 0; 0; 0; 130; 1; 4; 8; 1; 48; 79; 138; 1; 2; 8; 1; 154; 6; 2; 7; 7].
    + apply bytes_okb_ok; reflexivity.
    + vm_compute; reflexivity.
  - split; [intros (_ & H & _); apply H; reflexivity|]. split; vm_compute; reflexivity.
Qed.

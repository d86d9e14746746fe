(** The proto2 codec at the messages of the EGTS+ subrecord. *)
From Coq Require Import NArith ZArith List Bool Lia.
From Verif Require Import GoBase BaseFacts Protobuf SpecPb PbFacts.
Import ListNotations.
Open Scope N_scope.

(** ** Scalars *)
Lemma zigzag_bound z : (-2147483648 <= z < 2147483648)%Z -> zigzag z < 4294967296.
Proof. intros H. unfold zigzag. destruct (Z.ltb_spec z 0); lia. Qed.
Lemma unzigzag_zigzag z : unzigzag (zigzag z) = z.
Proof.
  unfold zigzag, unzigzag. destruct (Z.ltb_spec z 0).
  - replace (Z.to_N (-2 * z - 1)) with (2 * Z.to_N (- z - 1) + 1) by lia.
    rewrite N.add_comm, N.even_add_mul_2. cbn [N.even]. rewrite (N.mul_comm 2), N.div_add by lia.
    change (1 / 2) with 0. lia.
  - replace (Z.to_N (2 * z)) with (2 * Z.to_N z) by lia. rewrite N.even_mul. cbn [N.even orb].
    rewrite N.mul_comm, N.div_mul by lia. lia.
Qed.
Lemma zigzag_unzigzag n : zigzag (unzigzag n) = n.
Proof.
  unfold unzigzag. pose proof (N.div_mod n 2 ltac:(lia)) as Hd. pose proof (N.mod_lt n 2 ltac:(lia)) as Hm.
  destruct (N.even n) eqn:He; unfold zigzag.
  - apply N.even_spec in He as [k ->]. rewrite N.mul_comm, N.div_mul by lia. destruct (Z.ltb_spec (Z.of_N k) 0); lia.
  - assert (N.odd n = true) as Ho by (rewrite <- N.negb_even, He; reflexivity). apply N.odd_spec in Ho as [k ->].
    rewrite N.add_comm, (N.mul_comm 2), N.div_add by lia. change (1 / 2) with 0. rewrite N.add_0_l.
    destruct (Z.ltb_spec (- Z.of_N k - 1) 0); lia.
Qed.
Lemma unzigzag_range n : n < 4294967296 -> (-2147483648 <= unzigzag n < 2147483648)%Z.
Proof.
  intros H. unfold unzigzag. assert (n / 2 < 2147483648) by (apply N.div_lt_upper_bound; lia). destruct (N.even n); lia.
Qed.
Lemma int32_enum z : (-2147483648 <= z < 2147483648)%Z -> int32_of (Z.to_N (z mod 18446744073709551616)) = z.
Proof.
  intros H. unfold int32_of. assert (z < 0 \/ 0 <= z)%Z as [Hn|Hn] by lia.
  - replace (z mod 18446744073709551616)%Z with (z + 18446744073709551616)%Z
      by (rewrite <- (Z.mod_small (z + 18446744073709551616) 18446744073709551616) by lia;
          rewrite <- (Z.mod_add z 1) by lia; f_equal; lia).
    assert (Z.to_N (z + 18446744073709551616) mod 4294967296 = Z.to_N (z + 4294967296)) as ->.
    { symmetry. apply N.mod_unique with 4294967295; lia. }
    destruct (N.ltb_spec (Z.to_N (z + 4294967296)) 2147483648); lia.
  - rewrite Z.mod_small by lia. rewrite N.mod_small by lia. destruct (N.ltb_spec (Z.to_N z) 2147483648); lia.
Qed.
Lemma int32_range n : (-2147483648 <= int32_of n < 2147483648)%Z.
Proof.
  unfold int32_of. pose proof (N.mod_lt n 4294967296 ltac:(lia)). destruct (N.ltb_spec (n mod 4294967296) 2147483648); lia.
Qed.

Lemma wire_type_ok k : wire_type k < 8 /\ wire_type k <> 4.
Proof. destruct k; cbn; lia. Qed.

Lemma leaf_get_put k v r : value_ok k v -> get_value k (wire_type k) (put_value k v ++ r) = Some (Some ([v], r)).
Proof.
  destruct k, v; try contradiction; cbn [value_ok]; intros H; cbn [wire_type put_value get_value]; unfold get_varint; cbn [N.eqb Pos.eqb].
  - rewrite rd_wr_varint by lia. rewrite N.mod_small by exact H. reflexivity.
  - destruct b; reflexivity.
  - rewrite rd_wr_varint by (pose proof (Z.mod_pos_bound z 18446744073709551616); lia). rewrite int32_enum by exact H. reflexivity.
  - rewrite rd_exact_ok by apply le_bytes_length. rewrite le_num_le_bytes by exact H. reflexivity.
  - pose proof (zigzag_bound _ H). rewrite rd_wr_varint by lia. rewrite N.mod_small by assumption. rewrite unzigzag_zigzag. reflexivity.
  - rewrite <- app_assoc, rd_block_ok by (apply wr_varint_is; tauto). reflexivity.
Qed.

Lemma get_varint_inv ty b f vs r : bytes_ok b -> get_varint ty b f = Some (Some (vs, r)) ->
  ty = 0 /\ exists p n, b = p ++ r /\ is_varint p n /\ vs = [f n].
Proof.
  unfold get_varint. intros Hb H. destruct (N.eqb_spec ty 0) as [->|]; [|discriminate]. split; [reflexivity|].
  destruct (rd_varint b) as [[n r']|] eqn:Hr; [|discriminate]. injection H as <- <-.
  destruct (rd_varint_is _ _ _ Hb Hr) as (p & -> & Hp). eauto 10.
Qed.

Lemma leaf_get_inv k ty b vs r : bytes_ok b -> get_value k ty b = Some (Some (vs, r)) ->
  exists p, b = p ++ r /\ Forall (value_ok k) vs.
Proof.
  intros Hb H. destruct k; cbn [get_value] in H.
  - destruct (get_varint_inv _ _ _ _ _ Hb H) as (_ & p & n & -> & _ & ->). exists p. split; auto.
    constructor; [|constructor]. apply N.mod_lt. lia.
  - destruct (get_varint_inv _ _ _ _ _ Hb H) as (_ & p & n & -> & _ & ->). exists p. split; auto.
    constructor; [|constructor]. exact I.
  - destruct (N.eqb_spec ty 2).
    + destruct (rd_block b) as [[x r']|] eqn:Hr; [|discriminate]. destruct (rd_varints (length x) x); [|discriminate].
      injection H as <- <-. destruct (rd_block_inv _ _ _ Hb Hr) as (p & -> & _). exists (p ++ x).
      split; [apply app_assoc|]. apply Forall_map, Forall_forall. intros n _. apply int32_range.
    + destruct (get_varint_inv _ _ _ _ _ Hb H) as (_ & p & m & -> & _ & ->). exists p. split; auto.
      constructor; [|constructor]. apply int32_range.
  - destruct (N.eqb_spec ty 5); [|discriminate]. destruct (rd_exact 4 b) as [[x r']|] eqn:Hr; [|discriminate].
    injection H as <- <-. apply rd_exact_inv in Hr as [-> Hl]. exists x. split; auto. apply bytes_ok_app in Hb as [Hb _].
    constructor; [|constructor]. cbn [value_ok]. pose proof (le_num_bound _ Hb) as Hn. rewrite Hl in Hn. exact Hn.
  - destruct (get_varint_inv _ _ _ _ _ Hb H) as (_ & p & n & -> & _ & ->). exists p. split; auto.
    constructor; [|constructor]. apply unzigzag_range, N.mod_lt. lia.
  - destruct (N.eqb_spec ty 2); [|discriminate]. destruct (rd_block b) as [[x r']|] eqn:Hr; [|discriminate].
    injection H as <- <-. destruct (rd_block_inv _ _ _ Hb Hr) as (p & -> & Hp). exists (p ++ x). split; [apply app_assoc|].
    constructor; [|constructor]. rewrite !bytes_ok_app in Hb. split; [tauto|]. eapply is_varint_64, Hp.
Qed.

Lemma get_varint_no ty b f : ty <> 0 -> get_varint ty b f = Some None.
Proof. intros H. unfold get_varint. apply N.eqb_neq in H. rewrite H. reflexivity. Qed.
Lemma get_varint_no_inv ty b f : get_varint ty b f = Some None -> ty <> 0.
Proof. intros H ->. unfold get_varint in H. cbn [N.eqb] in H. destruct (rd_varint b) as [[? ?]|]; discriminate. Qed.

Lemma leaf_get_no k ty b : ~ takes k ty -> get_value k ty b = Some None.
Proof.
  destruct k; cbn [takes get_value]; intros H; try (apply get_varint_no; exact H).
  - destruct (N.eqb_spec ty 2); [tauto|]. apply get_varint_no. tauto.
  - apply N.eqb_neq in H. rewrite H. reflexivity.
  - apply N.eqb_neq in H. rewrite H. reflexivity.
Qed.
Lemma leaf_get_no_inv k ty b : get_value k ty b = Some None -> ~ takes k ty.
Proof.
  destruct k; cbn [takes get_value]; intros H; try (apply get_varint_no_inv in H; exact H).
  - destruct (N.eqb_spec ty 2).
    + destruct (rd_block b) as [[? ?]|]; [|discriminate]. destruct (rd_varints _ _); discriminate.
    + apply get_varint_no_inv in H. tauto.
  - destruct (N.eqb_spec ty 5); [|assumption]. destruct (rd_exact 4 b) as [[? ?]|]; discriminate.
  - destruct (N.eqb_spec ty 2); [|assumption]. destruct (rd_block b) as [[? ?]|]; discriminate.
Qed.

Lemma leaf_put_ok k v : value_ok k v -> bytes_ok (put_value k v).
Proof.
  destruct k, v; try contradiction; cbn [value_ok put_value]; intros H.
  - eapply is_varint_ok, wr_varint_is. lia.
  - destruct b; repeat constructor.
  - eapply is_varint_ok, wr_varint_is. pose proof (Z.mod_pos_bound z 18446744073709551616). lia.
  - apply le_bytes_ok.
  - pose proof (zigzag_bound _ H). eapply is_varint_ok, wr_varint_is. lia.
  - apply bytes_ok_app. split; [|tauto]. eapply is_varint_ok, wr_varint_is. tauto.
Qed.

(** Everything but packed enums *)
Definition plain (k : kind) : Prop := k <> KEnums.
Lemma leaf_get_size k ty b vs r : plain k -> bytes_ok b -> get_value k ty b = Some (Some (vs, r)) ->
  ty = wire_type k /\ exists v, vs = [v] /\ (length (put_value k v) + length r <= length b)%nat.
Proof.
  intros Hk Hb H. destruct k; try (exfalso; apply Hk; reflexivity); cbn [get_value wire_type] in *.
  - destruct (get_varint_inv _ _ _ _ _ Hb H) as (-> & p & n & -> & Hp & ->). split; auto. eexists. split; auto.
    cbn [put_value]. pose proof (wr_varint_le _ (n mod 4294967296) _ Hp (N.mod_le n 4294967296 ltac:(lia))). rewrite app_length. lia.
  - destruct (get_varint_inv _ _ _ _ _ Hb H) as (-> & p & n & -> & Hp & ->). split; auto. eexists. split; auto.
    cbn [put_value]. pose proof (is_varint_length _ _ Hp). rewrite app_length. simpl. lia.
  - destruct (N.eqb_spec ty 5); [|discriminate]. destruct (rd_exact 4 b) as [[x r']|] eqn:Hr; [|discriminate].
    injection H as <- <-. apply rd_exact_inv in Hr as [-> Hl]. split; auto. eexists. split; auto.
    cbn [put_value]. rewrite le_bytes_length, app_length. lia.
  - destruct (get_varint_inv _ _ _ _ _ Hb H) as (-> & p & n & -> & Hp & ->). split; auto. eexists. split; auto.
    cbn [put_value]. rewrite zigzag_unzigzag.
    pose proof (wr_varint_le _ (n mod 4294967296) _ Hp (N.mod_le n 4294967296 ltac:(lia))). rewrite app_length. lia.
  - destruct (N.eqb_spec ty 2); [|discriminate]. destruct (rd_block b) as [[x r']|] eqn:Hr; [|discriminate].
    injection H as <- <-. destruct (rd_block_inv _ _ _ Hb Hr) as (p & -> & Hp). split; auto. eexists. split; auto.
    cbn [put_value]. pose proof (wr_varint_le _ _ _ Hp (N.le_refl _)). rewrite !app_length. lia.
Qed.

Lemma plain_single k : plain k -> forall ty b vs r, get_value k ty b = Some (Some (vs, r)) -> length vs = 1%nat.
Proof.
  intros Hk ty b vs r H. destruct k; try (exfalso; apply Hk; reflexivity); cbn [get_value] in H; unfold get_varint in H.
  1,2,4: destruct (ty =? 0); [|discriminate]; destruct (rd_varint b) as [[? ?]|]; [|discriminate]; injection H as <- <-; reflexivity.
  - destruct (ty =? 5); [|discriminate]; destruct (rd_exact 4 b) as [[? ?]|]; [|discriminate]; injection H as <- <-; reflexivity.
  - destruct (ty =? 2); [|discriminate]; destruct (rd_block b) as [[? ?]|]; [|discriminate]; injection H as <- <-; reflexivity.
Qed.

(** Descriptors of plain fields with increasing numbers *)
Definition leaf_desc (d : list (field kind)) : Prop :=
  NoDup (map f_num d) /\ Forall (fun f => 1 <= f_num f <= 536870911) d /\ Forall (fun f => plain (f_kind f)) d.
Lemma leaf_desc_ok d : leaf_desc d -> desc_ok get_value (fun _ => True) d.
Proof.
  intros (H1 & H2 & H3). split; [exact H1|]. split; [exact H2|].
  split; [apply Forall_forall; auto|]. eapply Forall_impl; [|exact H3].
  intros f Hf _. apply plain_single, Hf.
Qed.

Ltac leaf_side := intros; eauto using leaf_desc_ok;
  first [eapply wire_type_ok; eassumption | eapply leaf_get_put; eassumption | eapply leaf_get_inv; eassumption
        | eapply leaf_get_no; eassumption | eapply leaf_get_no_inv; eassumption | eapply leaf_put_ok; eassumption
        | eapply leaf_get_size; eassumption].

Lemma leaf_round_trip d m : leaf_desc d -> message_ok value_ok takes d m -> leaf_unmarshal d (leaf_marshal d m) = Some m.
Proof.
  intros Hd Hm. eapply (unmarshal_marshal wire_type put_value get_value value_ok takes (fun _ => True)); leaf_side.
Qed.
Lemma leaf_unmarshal_ok d b m : leaf_desc d -> bytes_ok b -> leaf_unmarshal d b = Some m -> message_ok value_ok takes d m.
Proof.
  intros Hd Hb H. eapply (unmarshal_ok get_value value_ok takes (fun _ => True)); leaf_side.
Qed.
Lemma leaf_marshal_bytes d m : leaf_desc d -> message_ok value_ok takes d m -> bytes_ok (leaf_marshal d m).
Proof.
  intros Hd Hm. eapply (marshal_bytes wire_type put_value get_value value_ok takes (fun _ => True)); leaf_side.
Qed.
Lemma leaf_size d b m : leaf_desc d -> bytes_ok b -> leaf_unmarshal d b = Some m -> (length (leaf_marshal d m) <= length b)%nat.
Proof.
  intros Hd Hb H. assert (Forall (fun f => plain (f_kind f) /\ True) d) as Hp.
  { destruct Hd as (_ & _ & Hd). eapply Forall_impl; [|exact Hd]. cbv beta. auto. }
  eapply (unmarshal_size wire_type put_value get_value value_ok takes (fun _ => True)) with (sized := plain); try eassumption; leaf_side.
Qed.

(** ** The top message *)
Definition good1 (k : kind1) : Prop := match k with KLeaf _ => True | KMsg d => leaf_desc d end.

Lemma top_get_put k v r : good1 k -> value1_ok k v -> get_value1 k (wire_type1 k) (put_value1 k v ++ r) = Some (Some ([v], r)).
Proof.
  destruct k as [k|d], v as [v|m]; cbn [good1 value1_ok]; try contradiction; intros Hd H; cbn [wire_type1 put_value1 get_value1].
  - rewrite leaf_get_put by exact H. reflexivity.
  - cbn [N.eqb Pos.eqb]. cbv zeta. destruct H as [Hm Hl]. rewrite <- app_assoc, rd_block_ok by (apply wr_varint_is, Hl).
    rewrite leaf_round_trip by assumption. reflexivity.
Qed.

Lemma top_get_inv k ty b vs r : good1 k -> bytes_ok b -> get_value1 k ty b = Some (Some (vs, r)) ->
  exists p, b = p ++ r /\ Forall (value1_ok k) vs.
Proof.
  intros Hg Hb H. destruct k as [k|d]; cbn [get_value1 good1] in *.
  - destruct (get_value k ty b) as [[[vs' r']|]|] eqn:E; try discriminate. injection H as <- <-.
    destruct (leaf_get_inv _ _ _ _ _ Hb E) as (p & -> & Hv). exists p. split; auto. apply Forall_map. exact Hv.
  - destruct (N.eqb_spec ty 2); [|discriminate]. destruct (rd_block b) as [[x r']|] eqn:Hr; [|discriminate].
    destruct (leaf_unmarshal d x) as [m|] eqn:E; [|discriminate]. injection H as <- <-.
    destruct (rd_block_inv _ _ _ Hb Hr) as (p & -> & Hp). exists (p ++ x). split; [apply app_assoc|].
    rewrite !bytes_ok_app in Hb. constructor; [|constructor]. cbn [value1_ok]. split.
    + eapply leaf_unmarshal_ok; eauto. tauto.
    + pose proof (is_varint_64 _ _ Hp) as Hx. pose proof (leaf_size d x m Hg ltac:(tauto) E) as Hs. unfold len in *. lia.
Qed.

Lemma top_get_no k ty b : ~ takes1 k ty -> get_value1 k ty b = Some None.
Proof.
  destruct k as [k|d]; cbn [takes1 get_value1]; intros H.
  - rewrite leaf_get_no by exact H. reflexivity.
  - apply N.eqb_neq in H. rewrite H. reflexivity.
Qed.
Lemma top_get_no_inv k ty b : get_value1 k ty b = Some None -> ~ takes1 k ty.
Proof.
  destruct k as [k|d]; cbn [takes1 get_value1]; intros H.
  - destruct (get_value k ty b) as [[[? ?]|]|] eqn:E; try discriminate. eapply leaf_get_no_inv, E.
  - destruct (N.eqb_spec ty 2); [|assumption]. destruct (rd_block b) as [[? ?]|]; [|discriminate].
    destruct (leaf_unmarshal _ _); discriminate.
Qed.

Lemma top_put_ok k v : good1 k -> value1_ok k v -> bytes_ok (put_value1 k v).
Proof.
  destruct k as [k|d], v as [v|m]; cbn [good1 value1_ok]; try contradiction; intros Hd H; cbn [put_value1].
  - apply leaf_put_ok, H.
  - destruct H as [Hm Hl]. cbv zeta. apply bytes_ok_app. split; [|apply leaf_marshal_bytes; assumption].
    eapply is_varint_ok, wr_varint_is, Hl.
Qed.
Lemma wire_type1_ok k : wire_type1 k < 8 /\ wire_type1 k <> 4.
Proof. destruct k; [apply wire_type_ok|cbn; lia]. Qed.

Lemma leaf_descs :
  leaf_desc d_accelerometer /\ leaf_desc d_ain /\ leaf_desc d_buffer /\ leaf_desc d_button /\ leaf_desc d_canlog /\
  leaf_desc d_canlog_ext /\ leaf_desc d_counter /\ leaf_desc d_crash /\ leaf_desc d_dins /\ leaf_desc d_douts /\
  leaf_desc d_fmeter /\ leaf_desc d_fuel /\ leaf_desc d_gsm /\ leaf_desc d_nav /\ leaf_desc d_stor /\ leaf_desc d_termo /\
  leaf_desc d_era /\ leaf_desc d_tracker.
Proof.
  unfold leaf_desc. repeat match goal with |- _ /\ _ => split end;
    try (cbn; repeat constructor; cbn; lia); cbn; repeat constructor; discriminate.
Qed.

Lemma storage_desc_ok : desc_ok get_value1 good1 d_storage.
Proof.
  pose proof leaf_descs as H. repeat match type of H with _ /\ _ => destruct H as [? H] end.
  split; [|split; [|split]].
  - cbn. repeat constructor; cbn; lia.
  - repeat constructor; cbn; lia.
  - unfold d_storage. repeat (apply Forall_cons; [first [assumption | exact I]|]). apply Forall_nil.
  - unfold d_storage. repeat (apply Forall_cons; [|]); [..|apply Forall_nil]; cbn [f_card f_kind]; intros Hc; try (exfalso; apply Hc; reflexivity);
      intros ty b vs r E; cbn [get_value1] in E;
      match type of E with context [get_value ?k ?t ?x] => destruct (get_value k t x) as [[[vs' r']|]|] eqn:Eg; try discriminate end;
      injection E as <- <-; rewrite map_length; (eapply plain_single; [|exact Eg]); discriminate.
Qed.

Ltac top_side := intros; eauto using storage_desc_ok;
  first [eapply wire_type1_ok; eassumption | eapply top_get_put; eassumption | eapply top_get_inv; eassumption
        | eapply top_get_no; eassumption | eapply top_get_no_inv; eassumption | eapply top_put_ok; eassumption].

Lemma top_round_trip m : storage_ok m -> unmarshal get_value1 d_storage (marshal wire_type1 put_value1 d_storage m) = Some m.
Proof. intros Hm. eapply (unmarshal_marshal wire_type1 put_value1 get_value1 value1_ok takes1 good1); top_side. Qed.
Lemma top_unmarshal_ok b m : bytes_ok b -> unmarshal get_value1 d_storage b = Some m -> storage_ok m.
Proof. intros Hb H. eapply (unmarshal_ok get_value1 value1_ok takes1 good1); top_side. Qed.
Lemma top_marshal_bytes m : storage_ok m -> bytes_ok (marshal wire_type1 put_value1 d_storage m).
Proof. intros Hm. eapply (marshal_bytes wire_type1 put_value1 get_value1 value1_ok takes1 good1); top_side. Qed.

Lemma required_iff m : length (m_vals m) = length d_storage -> required_set d_storage m = true <-> has_required m.
Proof.
  destruct m as [vals u]. cbn [m_vals]. intros Hl. unfold has_required, required_set. cbn [m_vals].
  destruct vals as [|v0 [|v1 [|v2 [|v3 vals]]]]; try discriminate Hl. cbn [nth].
  change (combine d_storage (v0 :: v1 :: v2 :: v3 :: vals)) with
    ((mkField 1 (KLeaf KU32) Req, v0) :: (mkField 2 (KLeaf KFix32) Req, v1) :: (mkField 3 (KLeaf KEnums) Rep, v2)
     :: (mkField 4 (KLeaf KFix32) Req, v3) :: combine (skipn 4 d_storage) vals).
  assert (forall (d : list (field kind1)) (l : list (list value1)), Forall (fun f => f_card f = Rep) d ->
    forallb (fun fv => match f_card (fst fv), snd fv with Req, [] => false | _, _ => true end) (combine d l) = true) as Hrep.
  { induction d as [|f d IH]; intros l Hd; [reflexivity|]. destruct l; [reflexivity|]. apply Forall_cons_iff in Hd as [Hf Hd].
    cbn [combine forallb fst snd]. rewrite Hf. apply IH, Hd. }
  cbn [forallb fst snd f_card]. rewrite Hrep by (repeat constructor).
  destruct v0, v1, v3; cbn; split; intros; try discriminate; repeat split; try discriminate; try (exfalso; intuition congruence); auto.
Qed.

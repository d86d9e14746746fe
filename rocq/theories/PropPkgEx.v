(** Properties C01-C22: packets meeting the hypotheses of PropPkg and PropMore, and packets for
    which the full properties fail. *)
From Coq Require Import NArith ZArith Lia ZifyBool ZifyNat ZifyN String Ascii Bool List.
From Verif Require Import GoBase GoFloat Crc SubRecords Records Package SpecBase SpecCrc SpecPkg SpecSub SpecRec
  BaseFacts SubFacts SubMore RecordFacts DecodeFacts CrcFacts WireFacts PackageFacts PropSub PropRec PropPkg PropMore PropCrc ConcreteEnv.
Import ListNotations.
Open Scope N_scope.

Local Opaque le_bytes crc8 crc16.

Lemma pkg_ex_wf rte ena pt body : is_flag rte -> is_flag2 ena -> pt < 256 ->
  wf_flags (pkg_ex rte ena pt body) /\ wf_nums (pkg_ex rte ena pt body) /\ unrouted_zero (pkg_ex rte ena pt body)
  /\ header_length_ok (pkg_ex rte ena pt body).
Proof.
  intros Hr He Hp. split; [|split; [|split]].
  - constructor; cbn; unfold is_flag2, is_flag in *; auto.
  - constructor; cbn; unfold is_u8, is_u16; try lia; destruct (string_dec rte "1"); lia.
  - intros H. cbn in *. destruct (string_dec rte "1"); [congruence|auto].
  - left. reflexivity.
Qed.

Lemma recs_ex_travel : exists w l', recs_travel (E := env0) [rec_ex 0 subs_ex; rec_ex 0 []] w l' /\ N.of_nat (length w) < 2000.
Proof.
  destruct subs_ex_travel as (w & l' & H & Hl). eexists. eexists. split.
  - econstructor; [apply wf_rec_ex|exact H|lia|left; reflexivity|].
    econstructor; [apply wf_rec_ex|constructor|reflexivity|left; reflexivity|constructor].
  - unfold lay_rec. rewrite !app_length. cbn [opt rec_ex s_OBFE s_EVFE s_TMFE]. unfold opt.
    repeat match goal with |- context [string_dec ?a ?b] => destruct (string_dec a b); try discriminate; try congruence end.
    cbn [length le16 le32]. unfold le16, le32. cbn [length]. lia.
Qed.

Example C01_hyps : exists w l', let p := pkg_ex "1" "00" 1 (Some (BSds [rec_ex 0 subs_ex; rec_ex 0 []])) in
  wf_flags p /\ wf_nums p /\ unrouted_zero p /\ header_length_ok p /\ p_ENA p = "00"%string /\ p_PT p = 1
  /\ recs_travel [rec_ex 0 subs_ex; rec_ex 0 []] w l' /\ header_size p + N.of_nat (length w) < 65536
  /\ outgoing None p w /\ is_bytes w /\ w <> [].
Proof.
  destruct recs_ex_travel as (w & l' & H & Hl). exists w, l'. cbv zeta.
  destruct (pkg_ex_wf "1" "00" 1 (Some (BSds [rec_ex 0 subs_ex; rec_ex 0 []]))) as (H1 & H2 & H3 & H4);
    [unfold is_flag; auto|unfold is_flag2; auto|lia|].
  repeat (split; [assumption || reflexivity|]). split.
  { change (header_size (pkg_ex "1" "00" 1 (Some (BSds [rec_ex 0 subs_ex; rec_ex 0 []])))) with 16. lia. }
  split.
  - unfold outgoing. exists w. split; [|left; split; reflexivity]. apply (C14_records_of_known_subrecords _ _ _ H).
  - split; [eapply recs_travel_ok; eauto|]. eapply recs_travel_nonempty; eauto. discriminate.
Qed.

(** ** Long bodies: [n] records without subrecords, seven bytes each *)
Definition rec0 : ServiceDataRecord (E := env0) := mkSDR 0 1 "0" "0" "0" "00" "0" "0" "0" 0 0 t_zero 2 2 [].
Lemma wf_rec0 : wf_rec rec0.
Proof. constructor; cbn; unfold is_u8, is_u16, is_flag, is_flag2; auto; try lia;
  destruct (string_dec _ _); try discriminate; reflexivity. Qed.
Lemma lay_rec0 : lay_rec rec0 [] = [0; 0; 1; 0; 0; 2; 2].
Proof. reflexivity. Qed.

Lemma recs0_travel n : exists w l', recs_travel (repeat rec0 n) w l' /\ length w = (7 * n)%nat.
Proof.
  induction n as [|n (w & l' & H & Hl)]; [exists [], []; split; [constructor|reflexivity]|].
  exists (lay_rec rec0 [] ++ w)%list. eexists. split.
  - cbn [repeat]. econstructor; [apply wf_rec0|constructor|reflexivity|left; reflexivity|exact H].
  - rewrite app_length, Hl, lay_rec0. cbn [length]. lia.
Qed.

(** All hypotheses of the property hold (the body has 65527 bytes), and Decode panics. *)
Theorem C01_packet_round_trip_refuted : exists (p : Package (E := env0)) w l,
  wf_flags p /\ wf_nums p /\ unrouted_zero p /\ p_HL p = 0 /\ p_ENA p = "00"%string /\ p_PT p = 1
  /\ p_SFRD p = Some (BSds l) /\ sds_encode l = Ok w /\ (exists l', sds_decode w = Ok l')
  /\ 0 < N.of_nat (length w) < 65536
  /\ exists frame, snd (pkg_encode None p) = Ok frame
     /\ forall key p0 spare, pkg_decode key p0 frame spare = DPanic.
Proof.
  destruct (recs0_travel (N.to_nat 9361)) as (w & l' & H & Hl).
  assert (N.of_nat (length w) = 65527) as Hw by (rewrite Hl; lia).
  set (l := repeat rec0 (N.to_nat 9361)) in *. clearbody l.
  destruct (C14_records_of_known_subrecords _ _ _ H) as [He Hd].
  destruct (pkg_ex_wf "0" "00" 1 (Some (BSds l))) as (H1 & H2 & H3 & H4); [unfold is_flag; auto|unfold is_flag2; auto|lia|].
  exists (pkg_ex "0" "00" 1 (Some (BSds l))), w, l. repeat (split; [assumption || reflexivity|]). split; [eauto|]. split; [lia|].
  assert (outgoing None (pkg_ex "0" "00" 1 (Some (BSds l))) w) as Ho.
  { unfold outgoing. exists w. split; [exact He|left; split; reflexivity]. }
  assert (is_bytes w) as Hb by (eapply recs_travel_ok; eauto).
  exists (lay_frame (pkg_ex "0" "00" 1 (Some (BSds l))) 11 w). split.
  - rewrite (C02_wire_layout None _ w H1 H2 Ho Hb) by lia. reflexivity.
  - intros key p0 spare.
    destruct (C01_long_body_panics None key (pkg_ex "0" "00" 1 (Some (BSds l))) p0 w (BSds l') spare) as (frame & Hf & Hp);
      try assumption; try reflexivity; try lia.
    + left. split; [reflexivity|eauto].
    + change (header_size (pkg_ex "0" "00" 1 (Some (BSds l)))) with 11. lia.
    + rewrite (C02_wire_layout None _ w H1 H2 Ho Hb) in Hf by lia. injection Hf as <-. exact Hp.
Qed.

(** 10000 records: 70000 bytes are sent, the length field says 4464. *)
Theorem C05_frame_data_length_refuted : exists (p : Package (E := env0)) w frame,
  wf_flags p /\ wf_nums p /\ p_HL p = 0 /\ outgoing None p w /\ N.of_nat (length w) = 70000
  /\ snd (pkg_encode None p) = Ok frame /\ N.of_nat (length frame) = 70013 /\ word_at frame 5 = 4464.
Proof.
  destruct (recs0_travel (N.to_nat 10000)) as (w & l' & H & Hl).
  assert (N.of_nat (length w) = 70000) as Hw by (rewrite Hl; lia).
  set (l := repeat rec0 (N.to_nat 10000)) in *. clearbody l.
  destruct (C14_records_of_known_subrecords _ _ _ H) as [He Hd].
  destruct (pkg_ex_wf "0" "00" 1 (Some (BSds l))) as (H1 & H2 & H3 & H4); [unfold is_flag; auto|unfold is_flag2; auto|lia|].
  assert (outgoing None (pkg_ex "0" "00" 1 (Some (BSds l))) w) as Ho.
  { unfold outgoing. exists w. split; [exact He|left; split; reflexivity]. }
  destruct (C05_long_bodies None _ w H1 H4 Ho) as (frame & Hf & H5 & Hlen); [lia|].
  exists (pkg_ex "0" "00" 1 (Some (BSds l))), w, frame. repeat (split; [assumption || reflexivity|]).
  rewrite Hw in *. change (70000 mod 65536) with 4464 in *. split; [|exact H5].
  rewrite Hlen. reflexivity.
Qed.

(** ** Encryption *)
Definition xor_key : SecretKey :=
  {| sk_decode := fun b => Some (map (N.lxor 90) b); sk_encode := fun b => Some (map (N.lxor 90) b) |}.
Lemma xor_key_inverse x y : sk_encode xor_key x = Some y -> sk_decode xor_key y = Some x.
Proof.
  cbn. intros H. injection H as <-. rewrite map_map. f_equal. rewrite <- (map_id x) at 2. apply map_ext. intros a.
  rewrite <- N.lxor_assoc, N.lxor_nilpotent, N.lxor_0_l. reflexivity.
Qed.
Example C03_hyps : exists ct, let p := pkg_ex "0" "01" 0 (Some (BResp (mkPtResponse 7 0 None))) in
  wf_flags p /\ wf_nums p /\ unrouted_zero p /\ header_length_ok p /\ p_ENA p <> "00"%string
  /\ body_encode (E := env0) (BResp (mkPtResponse 7 0 None)) = Ok [7; 0; 0]
  /\ body_arrives (E := env0) 0 [7; 0; 0] (BResp (mkPtResponse 7 0 None))
  /\ sk_encode xor_key [7; 0; 0] = Some ct /\ is_bytes ct /\ ct <> [] /\ ct <> [7; 0; 0]
  /\ header_size p + N.of_nat (length ct) < 65536.
Proof.
  eexists. cbv zeta.
  destruct (pkg_ex_wf "0" "01" 0 (Some (BResp (mkPtResponse 7 0 None)))) as (H1 & H2 & H3 & H4); [unfold is_flag; auto|unfold is_flag2; auto|lia|].
  repeat (split; [assumption|]). split; [discriminate|]. split; [reflexivity|]. split; [right; split; [reflexivity|eexists; split; reflexivity]|].
  split; [vm_compute; reflexivity|]. split; [okb|]. split; [discriminate|]. split; [discriminate|]. reflexivity.
Qed.
Example C04_hyps : p_ENA (pkg_ex "0" "10" 1 (Some (BSds []))) <> "00"%string
  /\ encryption_bits [1; 0; 16; 11] = "10"%string
  /\ exists c p, is_bytes c /\ encryption_bits c <> "00"%string
     /\ pkg_decode (E := env0) (Some xor_key) Package_zero c [] = DRet p 0 true
     /\ exists p', pkg_decode (E := env0) None Package_zero c [] = DRet p' 129 false.
Proof.
  split; [discriminate|]. split; [reflexivity|].
  exists [1; 0; 8; 11; 0; 3; 0; 255; 255; 0; 176; 93; 90; 90; 200; 202]. eexists. split; [okb|]. split; [vm_compute; discriminate|].
  split; [vm_compute; reflexivity|]. eexists. vm_compute. reflexivity.
Qed.

(** ** C08 *)
(** A length byte of 0 is enough, in any buffer with less than 255 bytes. *)
Theorem C08_no_panic_refuted : forall (E : Env) key p0 c spare,
  is_bytes c -> (wire_header_size c <= length c)%nat -> byte_at c 3 = 0 -> (length c + length spare < 255)%nat ->
  pkg_decode key p0 c spare = DPanic.
Proof.
  intros E key p0 c spare Hb Hl H3 Hs. rewrite pkg_decode_full by assumption. cbv zeta.
  unfold covered. rewrite H3. change (if 0 =? 0 then 255 else 0 - 1) with 255. unfold go_slice. replace (_ && _) with false; [reflexivity|].
  symmetry. apply andb_false_iff. right. apply N.leb_gt. unfold len. rewrite app_length. lia.
Qed.
Example C08_refuted_hyps : let c := [1; 0; 0; 0; 0; 9; 0; 0; 0; 1; 0] in
  is_bytes c /\ (wire_header_size c <= length c)%nat /\ byte_at c 3 = 0.
Proof. cbv zeta. split; [okb|]. split; [cbn; lia|reflexivity]. Qed.
Example C08_hyps : 0 < byte_at resp_frame 3 <= N.of_nat (wire_header_size resp_frame)
  /\ byte_at resp_frame 3 + word_at resp_frame 5 < 65536.
Proof. vm_compute. repeat split; discriminate. Qed.

(** ** C10: one input for each code *)
Example C10_codes : Forall2 (fun c code => is_bytes (c ++ []) /\ covered c <= N.of_nat (length c + length (A := N) [])
      /\ byte_at c 3 + word_at c 5 <= N.of_nat (length c + length (A := N) [])
      /\ exists p, pkg_decode (E := env0) None Package_zero c [] = DRet p code (code =? 0))
  [[1; 0; 0; 10; 0; 0; 0; 1; 0; 0];
   [1; 0; 0; 11; 0; 0; 0; 1; 0; 0; 0];
   [1; 0; 0; 11; 0; 0; 0; 1; 0; 0; 82];
   [1; 0; 0; 11; 0; 1; 0; 1; 0; 2; 227; 0];
   [1; 0; 0; 11; 0; 1; 0; 1; 0; 0; 129; 0];
   resp_frame;
   [1; 0; 0; 11; 0; 3; 0; 7; 0; 0; 179; 7; 0; 0; 12; 74]]
  [131; 137; 132; 133; 129; 0; 137].
Proof.
  repeat (constructor; [split; [okb|]; split; [vm_compute; discriminate|]; split; [vm_compute; discriminate|];
    eexists; vm_compute; reflexivity|]). constructor.
Qed.

Example C11_hyps : is_bytes (resp_frame ++ [9; 9])
  /\ exists p, pkg_decode (E := env0) None Package_zero resp_frame [9; 9] = DRet p 0 true.
Proof. split; [okb|]. eexists. vm_compute. reflexivity. Qed.
Example C12_hyps : exists p' b, pkg_encode (E := env0) None (pkg_ex "0" "00" 0 (Some (BResp (mkPtResponse 7 0 None)))) = (p', Ok b)
  /\ p_HL p' = 11 /\ p_FDL p' = 3.
Proof. eexists. eexists. split; [vm_compute; reflexivity|]. split; reflexivity. Qed.
Example C13_hyps : let p := pkg_ex "1" "00" 1 None in wf_flags p /\ wf_nums p /\ header_length_ok p /\ p_SFRD p = None.
Proof.
  cbv zeta. destruct (pkg_ex_wf "1" "00" 1 None) as (H1 & H2 & H3 & H4); [unfold is_flag; auto|unfold is_flag2; auto|lia|]. auto.
Qed.

(** ** C20 *)
Example C20_hyps : let c := [1; 0; 0; 11; 0; 11; 0; 7; 0; 1; 188; 4; 0; 9; 0; 0; 1; 2; 9; 1; 0; 153; 96; 144] in
  exists p body, is_bytes c /\ pkg_decode (E := env0) None Package_zero c [] = DRet p 0 true
    /\ byte_at c 3 = N.of_nat (wire_header_size c) /\ 0 < word_at c 5
    /\ length c = (wire_header_size c + N.to_nat (word_at c 5) + 2)%nat /\ encryption_bits c = "00"%string
    /\ p_SFRD p = Some body /\ body_encode body = Ok (declared_body c).
Proof.
  cbv zeta. eexists. eexists. split; [okb|]. split; [vm_compute; reflexivity|]. repeat (split; [vm_compute; reflexivity|]). vm_compute. reflexivity.
Qed.

(** An accepted frame with a subrecord of an unknown type: encoding what was decoded gives
    another frame: the record keeps its length field 4 but has no contents. *)
Theorem C20_unknown_subrecord_refuted :
  let c := [1; 0; 0; 11; 0; 11; 0; 7; 0; 1; 188; 4; 0; 9; 0; 0; 1; 2; 99; 1; 0; 5; 44; 227] in
  exists p w, pkg_decode (E := env0) None Package_zero c [] = DRet p 0 true
    /\ snd (pkg_encode None p) = Ok w /\ w <> c
    /\ exists q, pkg_decode (E := env0) None Package_zero w [] = DRet q 0 true
       /\ p_SFRD q = Some (BSds [mkSDR 4 9 "0" "0" "0" "00" "0" "0" "0" 0 0 t_zero 1 2 []]).
Proof.
  cbv zeta. eexists. eexists. split; [vm_compute; reflexivity|]. split; [vm_compute; reflexivity|]. split; [discriminate|].
  eexists. split; vm_compute; reflexivity.
Qed.

(** Bytes after the checksum are accepted and not encoded again. *)
Theorem C20_trailing_bytes_refuted : exists c p w,
  pkg_decode (E := env0) None Package_zero (c ++ [1; 2; 3]) [] = DRet p 0 true /\ snd (pkg_encode None p) = Ok w /\ w = c.
Proof. exists resp_frame. eexists. eexists. split; [vm_compute; reflexivity|]. split; vm_compute; reflexivity. Qed.

(** ** C21 *)
Example C21_hyps : is_bytes (resp_frame ++ []) /\ is_bytes []
  /\ (exists p, pkg_decode (E := env0) None Package_zero resp_frame [] = DRet p 0 true)
  /\ (13 <= wire_header_size resp_frame + N.to_nat (word_at resp_frame 5))%nat.
Proof. split; [okb|]. split; [okb|]. split; [eexists; vm_compute; reflexivity|]. vm_compute. repeat constructor. Qed.

(** Proper prefixes that are accepted: a packet without the high byte of its checksum, a record
    without the result code it declares, short last fields. *)
Theorem C21_prefixes_refuted :
  (exists c, (forall k, (k < length c)%nat -> firstn k c <> c)
     /\ (exists p, pkg_decode (E := env0) None Package_zero c [] = DRet p 0 true)
     /\ exists p, pkg_decode (E := env0) None Package_zero (firstn (length c - 1) c) [] = DRet p 0 true)
  /\ (exists c l l', sds_decode (E := env0) c = Ok l /\ sds_decode (E := env0) (firstn (length c - 1) c) = Ok l'
       /\ l = [mkSDR 4 7 "0" "0" "0" "00" "0" "0" "0" 0 0 t_zero 1 2 [mkRecordData 9 1 (Some (DResultCode (mkSrResultCode 153)))]]
       /\ l' = [mkSDR 4 7 "0" "0" "0" "00" "0" "0" "0" 0 0 t_zero 1 2 [mkRecordData 9 1 (Some (DResultCode (mkSrResultCode 0)))]])
  /\ (exists c e e', SrLiquidLevelSensor_decode c = Ok e /\ SrLiquidLevelSensor_decode (firstn (length c - 1) c) = Ok e' /\ e <> e')
  /\ (exists c e e', SrAbsCntrData_decode c = Ok e /\ SrAbsCntrData_decode (firstn (length c - 1) c) = Ok e' /\ e <> e').
Proof.
  split; [|split; [|split]].
  - exists [1; 0; 0; 11; 0; 3; 0; 7; 0; 0; 179; 216; 0; 0; 169; 0]. split; [|split].
    + intros k Hk H. apply (f_equal (@length N)) in H. rewrite firstn_length in H. cbn [length] in *. lia.
    + eexists. vm_compute. reflexivity.
    + eexists. vm_compute. reflexivity.
  - exists [4; 0; 7; 0; 0; 1; 2; 9; 1; 0; 153]. eexists. eexists. split; [vm_compute; reflexivity|]. split; [vm_compute; reflexivity|].
    split; reflexivity.
  - exists [0; 1; 0; 1; 2; 3; 4]. eexists. eexists. split; [vm_compute; reflexivity|]. split; [vm_compute; reflexivity|]. discriminate.
  - exists [1; 2; 3; 4]. eexists. eexists. split; [vm_compute; reflexivity|]. split; [vm_compute; reflexivity|]. discriminate.
Qed.

(** ** C22 *)
(** A stale altitude and stale routing addresses. *)
Theorem C22_receiver_independence_refuted :
  (exists b e0 e1 e e', SrPosData_decode e0 b = Ok e /\ SrPosData_decode e1 b = Ok e' /\ pd_ALT e <> pd_ALT e' /\ pd_ALTE e = "0"%string)
  /\ (exists p0 p p', pkg_decode (E := env0) None p0 resp_frame [] = DRet p 0 true
       /\ pkg_decode (E := env0) None Package_zero resp_frame [] = DRet p' 0 true
       /\ p_RTE p = "0"%string /\ p_PRA p = 513 /\ p_PRA p' = 0)
  /\ (exists b l, sds_decode_into (E := env0) [] b = Ok l /\ sds_decode_into l b = Ok (l ++ l) /\ l <> []).
Proof.
  split; [|split].
  - exists (zeros 21), SrPosData_zero, (mkSrPosData t_zero f64_zero f64_zero "" "" "" "" "" "" "" "" 0 0 0 0 0 0 0 77). eexists. eexists.
    split; [vm_compute; reflexivity|]. split; [vm_compute; reflexivity|]. split; [vm_compute; discriminate|reflexivity].
  - exists (pkg_ex "1" "00" 1 None). eexists. eexists. split; [vm_compute; reflexivity|]. split; [vm_compute; reflexivity|]. repeat split.
  - exists [0; 0; 1; 0; 0; 2; 2]. eexists. split; [vm_compute; reflexivity|]. split; [vm_compute; reflexivity|discriminate].
Qed.

Example C39_packet_hyps : exists p : Package (E := env0), malformed (p_PRF p ++ p_RTE p ++ p_ENA p ++ p_CMP p ++ p_PR p).
Proof.
  exists (pkg_ex "2" "00" 1 None). intros n H. destruct (N.lt_ge_cases n 256) as [Hn|]; auto. exfalso.
  match type of H with binary ?s _ => assert (parse_flags s = Ok n) as Hp by (apply parse_flags_spec; auto) end. vm_compute in Hp. discriminate.
Qed.

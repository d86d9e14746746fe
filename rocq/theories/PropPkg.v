(** Properties C01-C05, C08-C13, C20-C22, C39: packets. *)
From Coq Require Import NArith ZArith Lia ZifyBool ZifyNat ZifyN String Ascii Bool List.
From Verif Require Import GoBase GoFloat Crc SubRecords Records Package SpecBase SpecCrc SpecPkg SpecSub SpecRec
  BaseFacts SubFacts RecordFacts DecodeFacts CrcFacts WireFacts PackageFacts PropSub PropRec ConcreteEnv.
Import ListNotations.
Open Scope N_scope.

Local Opaque le_bytes crc8 crc16.
Ltac rw16 := repeat match goal with |- context [le16 ?x] => rewrite (le16_eq x) end.

Section WithEnv.
Context {E : Env}.

Lemma outgoing_out key p b : outgoing key p b -> out_body key p = Ok b.
Proof.
  unfold outgoing, out_body, cipher. destruct (p_SFRD p) as [body|]; [|intros ->; reflexivity].
  intros (s & -> & [(-> & ->)|(Hn & k & -> & Hk)]); [reflexivity|].
  destruct (String.eqb_spec (p_ENA p) "00"); [congruence|]. rewrite Hk. reflexivity.
Qed.

Lemma u16_len (b : bytes) : N.of_nat (length b) < 65536 -> u16 (len b) = N.of_nat (length b).
Proof. intros H. unfold len. apply u16_small. assumption. Qed.

(** ** C02 *)
Theorem C02_wire_layout : forall key p b,
  wf_flags p -> wf_nums p -> outgoing key p b -> is_bytes b -> N.of_nat (length b) < 65536 ->
  snd (pkg_encode key p) = Ok (lay_frame p (header_length p) b).
Proof.
  intros key p b Hf Hn Ho Hb Hl. rewrite (pkg_encode_ok key p b Hf (outgoing_out _ _ _ Ho)). cbn [snd].
  assert (header_length p < 256) as Hh.
  { destruct Hn. unfold header_length, header_size, is_u8 in *. destruct (_ =? 0); [destruct (string_dec _ _)|]; lia. }
  unfold lay_frame. rewrite u16_len by assumption. cbv zeta.
  rewrite <- crc8_checksum by (apply lay_header_ok; assumption). rewrite <- crc16_checksum by assumption.
  rw16. destruct b as [|x b]; [reflexivity|].
  replace (0 <? N.of_nat (length (x :: b))) with true by (symmetry; apply N.ltb_lt; cbn [length]; lia). reflexivity.
Qed.

(** ** C01 *)
Definition header_length_ok (p : Package) : Prop := p_HL p = 0 \/ p_HL p = header_size p.

Lemma header_length_size p : header_length_ok p -> header_length p = header_size p.
Proof.
  unfold header_length. intros [->| ->]; [reflexivity|]. destruct (header_size p =? 0); reflexivity.
Qed.

Lemma routing_zero p : unrouted_zero p -> is_flag (p_RTE p) -> routing Package_zero p = p.
Proof.
  intros H Hr. unfold routing. destruct (header_size_cases p Hr) as [(R1 & R2 & _)|(R1 & R2 & _)]; rewrite R2; [|reflexivity].
  destruct H as (H1 & H2 & H3); [rewrite R1; discriminate|].
  assert (p = set_PRA (p_PRA p) (set_RCA (p_RCA p) (set_TTL (p_TTL p) p))) as Hp by (destruct p; reflexivity).
  rewrite Hp at 2. rewrite H1, H2, H3. reflexivity.
Qed.

Lemma received_eq p b body : wf_flags p -> wf_nums p -> is_bytes b ->
  filled p (N.of_nat (length b)) (crc8 (lay_header p (header_size p) (N.of_nat (length b)))) (Some body) (crc16 b)
  = received p b body.
Proof.
  intros Hf Hn Hb. unfold received. rewrite <- crc8_checksum.
  - rewrite <- crc16_checksum by assumption. reflexivity.
  - apply lay_header_ok; try assumption. unfold header_size. destruct (string_dec _ _); lia.
Qed.

Lemma decode_received key p b extra spare plain body :
  wf_flags p -> wf_nums p -> unrouted_zero p -> is_bytes b -> is_bytes extra -> b <> [] ->
  header_size p + N.of_nat (length b) < 65536 ->
  decipher p key b = Some plain -> body_arrives (p_PT p) plain body ->
  pkg_decode key Package_zero (lay_frame p (header_size p) b ++ extra) spare = DRet (received p b body) 0 true.
Proof.
  intros Hf Hn Hu Hb He Hne Hl Hd Ha.
  rewrite (decode_frame p Package_zero b extra spare Hf Hn Hb He Hne) with (plain := plain) (body := body);
    try assumption; [|unfold header_size in Hl; destruct (string_dec _ _) in Hl; lia].
  rewrite routing_zero by (destruct Hf; assumption). rewrite received_eq by assumption. reflexivity.
Qed.

(** The bytes after the frame ([extra]) and the capacity beyond them do not matter; the key
    is not used. *)
Theorem C01_packet_round_trip_partial : forall key key' p b body extra spare,
  wf_flags p -> wf_nums p -> unrouted_zero p -> header_length_ok p -> p_ENA p = "00"%string ->
  outgoing key p b -> body_arrives (p_PT p) b body -> is_bytes b -> is_bytes extra ->
  b <> [] -> header_size p + N.of_nat (length b) < 65536 ->
  snd (pkg_encode key p) = Ok (lay_frame p (header_size p) b)
  /\ pkg_decode key' Package_zero (lay_frame p (header_size p) b ++ extra) spare = DRet (received p b body) 0 true.
Proof.
  intros key key' p b body extra spare Hf Hn Hu Hh Hp Ho Ha Hb He Hne Hl. split.
  - rewrite (C02_wire_layout key p b); try assumption; [|lia]. rewrite header_length_size by assumption. reflexivity.
  - apply decode_received with (plain := b); try assumption. unfold decipher. rewrite Hp. reflexivity.
Qed.

Corollary C01_appdata_packets_partial : forall p l w l' extra spare,
  wf_flags p -> wf_nums p -> unrouted_zero p -> header_length_ok p -> p_ENA p = "00"%string ->
  p_PT p = 1 -> p_SFRD p = Some (BSds l) -> recs_travel l w l' -> l <> [] -> is_bytes extra ->
  header_size p + N.of_nat (length w) < 65536 ->
  snd (pkg_encode None p) = Ok (lay_frame p (header_size p) w)
  /\ pkg_decode None Package_zero (lay_frame p (header_size p) w ++ extra) spare
     = DRet (received p w (BSds l')) 0 true.
Proof.
  intros p l w l' extra spare Hf Hn Hu Hh Hp Ht Hs Hr Hne He Hl.
  destruct (C14_records_of_known_subrecords _ _ _ Hr) as [H1 H2].
  apply C01_packet_round_trip_partial; try assumption.
  - unfold outgoing. rewrite Hs. exists w. cbn [body_encode]. auto.
  - left. rewrite Ht. split; [reflexivity|]. exists l'. auto.
  - eapply recs_travel_ok; eauto.
  - eapply recs_travel_nonempty; eauto.
Qed.

Corollary C01_response_packets_partial : forall p rpid res l w l' extra spare,
  wf_flags p -> wf_nums p -> unrouted_zero p -> header_length_ok p -> p_ENA p = "00"%string ->
  p_PT p = 0 -> p_SFRD p = Some (BResp (mkPtResponse rpid res (match l with [] => None | _ => Some l end))) ->
  is_u16 rpid -> is_u8 res -> recs_travel l w l' -> is_bytes extra ->
  header_size p + 3 + N.of_nat (length w) < 65536 ->
  snd (pkg_encode None p) = Ok (lay_frame p (header_size p) (le16 rpid ++ [res] ++ w))
  /\ pkg_decode None Package_zero (lay_frame p (header_size p) (le16 rpid ++ [res] ++ w) ++ extra) spare
     = DRet (received p (le16 rpid ++ [res] ++ w)
               (BResp (mkPtResponse rpid res (match l with [] => None | _ => Some l' end)))) 0 true.
Proof.
  intros p rpid res l w l' extra spare Hf Hn Hu Hh Hp Ht Hs Hi Hr Htr He Hl.
  destruct (C14_records_of_known_subrecords _ _ _ Htr) as [H1 H2].
  apply C01_packet_round_trip_partial; try assumption.
  - unfold outgoing. rewrite Hs. exists (le16 rpid ++ [res] ++ w)%list. split; [|auto]. cbn [body_encode]. unfold PtResponse_encode.
    cbn [pr_SDR pr_RPID pr_PR]. destruct l as [|r l].
    + inversion Htr; subst. rewrite bind_ok. rw16. reflexivity.
    + rewrite H1, bind_ok. rw16. reflexivity.
  - right. rewrite Ht. split; [reflexivity|]. eexists. split; [reflexivity|].
    unfold PtResponse_decode. rw16. rewrite rd_num_app by (unfold is_u16 in Hi; cbn; lia). rewrite rbind_some. change ([res] ++ w)%list with (res :: w). rewrite rd_byte_cons, rbind_some.
    destruct l as [|r l].
    + inversion Htr; subst. reflexivity.
    + assert (w <> []) by (eapply recs_travel_nonempty; eauto; discriminate).
      replace (len w =? 0) with false by (symmetry; apply N.eqb_neq; unfold len; destruct w; [congruence|cbn [length]; lia]).
      rewrite H2, bind_ok. reflexivity.
  - apply bytes_ok_app; split; [apply le16_ok|]. apply bytes_ok_app; split; [|eapply recs_travel_ok; eauto].
    apply bytes_ok_cons; split; [assumption|apply bytes_ok_nil].
  - discriminate.
  - unfold le16. cbn [app length]. lia.
Qed.

(** Every packet whose body is at least 65536-HL bytes long (65525 for an unrouted packet) makes
    Decode panic: the end of the body is computed in 16 bits. *)
Theorem C01_long_body_panics : forall key key' p p0 b body spare,
  wf_flags p -> wf_nums p -> header_length_ok p -> p_ENA p = "00"%string ->
  outgoing key p b -> body_arrives (p_PT p) b body -> is_bytes b ->
  N.of_nat (length b) < 65536 -> 65536 <= header_size p + N.of_nat (length b) ->
  exists frame, snd (pkg_encode key p) = Ok frame /\ pkg_decode key' p0 frame spare = DPanic.
Proof.
  intros key key' p p0 b body spare Hf Hn Hh Hp Ho Ha Hb Hl Hl2.
  exists (lay_frame p (header_size p) b). split.
  - rewrite (C02_wire_layout key p b) by assumption. rewrite header_length_size by assumption. reflexivity.
  - rewrite <- (app_nil_r (lay_frame p (header_size p) b)).
    apply decode_frame_panic with (plain := b) (body := body); try assumption.
    + apply bytes_ok_nil.
    + intros ->. unfold header_size in Hl2. cbn in Hl2. destruct (string_dec _ _) in Hl2; lia.
    + unfold decipher. rewrite Hp. reflexivity.
Qed.

(** ** C03 *)
(** [plain] is the encoding of the body, [ct] its encryption. *)
Theorem C03_encrypted_round_trip : forall k p s ct body body' extra spare,
  wf_flags p -> wf_nums p -> unrouted_zero p -> header_length_ok p -> p_ENA p <> "00"%string ->
  (forall x y, sk_encode k x = Some y -> sk_decode k y = Some x) ->
  p_SFRD p = Some body -> body_encode body = Ok s -> body_arrives (p_PT p) s body' ->
  sk_encode k s = Some ct -> is_bytes ct -> is_bytes extra -> ct <> [] ->
  header_size p + N.of_nat (length ct) < 65536 ->
  snd (pkg_encode (Some k) p) = Ok (lay_frame p (header_size p) ct)
  /\ skipn (N.to_nat (header_size p)) (lay_frame p (header_size p) ct) = ct ++ le16 (checksum16 ct)
  /\ pkg_decode (Some k) Package_zero (lay_frame p (header_size p) ct ++ extra) spare
     = DRet (received p ct body') 0 true.
Proof.
  intros k p s ct body body' extra spare Hf Hn Hu Hh Hp Hk Hs He Ha Hct Hb Hx Hne Hl. split; [|split].
  - rewrite (C02_wire_layout (Some k) p ct); try assumption; [|unfold outgoing; rewrite Hs; eauto 9|lia].
    rewrite header_length_size by assumption. reflexivity.
  - unfold lay_frame. destruct ct as [|x ct]; [congruence|]. set (b := x :: ct) in *.
    set (h := lay_header p (header_size p) (N.of_nat (length b))).
    rewrite app_assoc. replace (N.to_nat (header_size p)) with (length (h ++ [checksum8 h])); [apply skipn_exact|].
    rewrite app_length. pose proof (lay_header_length p (header_size p) (N.of_nat (length b))). fold h in H. cbn [length].
    unfold header_size in *. destruct (string_dec _ _); lia.
  - apply decode_received with (plain := s); try assumption. unfold decipher.
    destruct (String.eqb_spec (p_ENA p) "00"); [congruence|]. apply Hk. assumption.
Qed.

(** ** C04 *)
Definition encryption_bits (c : list N) : string := digit2 (byte_at c 2) 3.

Theorem C04_encode_refuses_without_key : forall p body,
  p_ENA p <> "00"%string -> p_SFRD p = Some body ->
  (forall b, snd (pkg_encode None p) <> Ok b)
  /\ ((exists s, body_encode body = Ok s) -> snd (pkg_encode None p) = Err).
Proof.
  intros p body He Hb. split.
  - apply pkg_encode_fail. intros c. unfold out_body, cipher. rewrite Hb. destruct (body_encode body); try discriminate.
    destruct (String.eqb_spec (p_ENA p) "00"); [congruence|discriminate].
  - intros (s & Hs). unfold pkg_encode. destruct (parse_flags _); try reflexivity.
    set (p1 := if p_HL p =? 0 then _ else p).
    assert (p_SFRD p1 = p_SFRD p /\ p_ENA p1 = p_ENA p) as [-> ->] by (unfold p1; destruct (p_HL p =? 0); split; reflexivity).
    rewrite Hb, Hs, bind_ok. destruct (String.eqb_spec (p_ENA p) "00"); [congruence|reflexivity].
Qed.

Lemma kind_of_cases c : kind_of (E := E) c = Some (BSds []) \/ kind_of c = Some (BResp PtResponse_zero) \/ kind_of c = None.
Proof. unfold kind_of. destruct (_ =? 1); [auto|]. destruct (_ =? 0); auto. Qed.

(** The body left in the packet is the receiver's old one or an empty one: nothing of the
    encrypted body has been parsed. *)
Theorem C04_decode_refuses_without_key : forall p0 c spare p code ok,
  is_bytes c -> encryption_bits c <> "00"%string ->
  pkg_decode None p0 c spare = DRet p code ok ->
  ok = false /\ code <> 0 /\
  (length c < wire_header_size c \/ p_SFRD p = p_SFRD p0 \/ p_SFRD p = Some (BSds []) \/ p_SFRD p = Some (BResp PtResponse_zero))%nat.
Proof.
  intros p0 c spare p code ok Hb He Hd. destruct (Nat.lt_ge_cases (length c) (wire_header_size c)) as [Hl|Hl].
  - destruct (pkg_decode_short None p0 c spare Hb Hl) as (p' & H). rewrite H in Hd. injection Hd as <- <- <-.
    split; [reflexivity|]. split; [discriminate|]. auto.
  - rewrite pkg_decode_full in Hd by assumption. cbv zeta in Hd. destruct (go_slice _ _ _); [|discriminate].
    destruct (negb _); [injection Hd as <- <- <-; repeat split; [discriminate|auto]|].
    destruct (_ =? _)%nat; [injection Hd as <- <- <-; repeat split; [discriminate|auto]|].
    assert (opened None c = None) as Ho.
    { unfold opened, plain_of. unfold encryption_bits in He. destruct (String.eqb_spec (digit2 (byte_at c 2) 3) "00"); [congruence|reflexivity]. }
    rewrite Ho in Hd.
    destruct (kind_of_cases c) as [Hk|[Hk|Hk]]; rewrite Hk in Hd; injection Hd as <- <- <-; repeat split; (discriminate || auto).
Qed.

(** ** C05 *)
Theorem C05_frame_data_length_partial : forall key p b,
  wf_flags p -> header_length_ok p -> outgoing key p b -> N.of_nat (length b) < 65536 ->
  exists frame, snd (pkg_encode key p) = Ok frame
    /\ word_at frame 5 = N.of_nat (length b)
    /\ N.of_nat (length frame) = header_size p + (if N.of_nat (length b) =? 0 then 0 else N.of_nat (length b) + 2).
Proof.
  intros key p b Hf Hh Ho Hl. rewrite (pkg_encode_ok key p b Hf (outgoing_out _ _ _ Ho)). cbn [snd]. eexists. split; [reflexivity|].
  cbv zeta. rewrite header_length_size by assumption. rewrite u16_len by assumption.
  set (h := lay_header p (header_size p) (N.of_nat (length b))).
  assert (N.of_nat (length h) = header_size p - 1) as Hlh by apply lay_header_length.
  assert (11 <= header_size p) by (unfold header_size; destruct (string_dec _ _); lia).
  split.
  - unfold word_at, h, lay_header, le16. cbn [app nth]. apply word_mod. assumption.
  - rewrite !app_length. cbn [length]. destruct (N.ltb_spec 0 (N.of_nat (length b))) as [Hp|Hp].
    + destruct (N.eqb_spec (N.of_nat (length b)) 0); [lia|]. rewrite app_length, le_bytes_length. lia.
    + destruct (N.eqb_spec (N.of_nat (length b)) 0); [|lia]. cbn [length]. lia.
Qed.

(** For longer bodies the length field is the length modulo 65536, whatever the body; if that
    is 0 the body is not sent at all. *)
Theorem C05_long_bodies : forall key p b,
  wf_flags p -> header_length_ok p -> outgoing key p b -> 65536 <= N.of_nat (length b) ->
  exists frame, snd (pkg_encode key p) = Ok frame
    /\ word_at frame 5 = N.of_nat (length b) mod 65536
    /\ N.of_nat (length frame) = (if N.of_nat (length b) mod 65536 =? 0 then header_size p else header_size p + N.of_nat (length b) + 2).
Proof.
  intros key p b Hf Hh Ho Hl. rewrite (pkg_encode_ok key p b Hf (outgoing_out _ _ _ Ho)). cbn [snd]. eexists. split; [reflexivity|].
  cbv zeta. rewrite header_length_size by assumption. change (u16 (len b)) with (N.of_nat (length b) mod 65536).
  set (n := N.of_nat (length b)) in *. assert (n mod 65536 < 65536) by (apply N.mod_lt; lia).
  set (h := lay_header p (header_size p) (n mod 65536)).
  assert (N.of_nat (length h) = header_size p - 1) as Hlh by apply lay_header_length.
  assert (11 <= header_size p) by (unfold header_size; destruct (string_dec _ _); lia).
  split.
  - unfold word_at, h, lay_header, le16. cbn [app nth]. apply word_mod. assumption.
  - rewrite !app_length. cbn [length]. destruct (N.ltb_spec 0 (n mod 65536)) as [Hp|Hp].
    + destruct (N.eqb_spec (n mod 65536) 0); [lia|]. rewrite app_length, le_bytes_length. unfold n. lia.
    + destruct (N.eqb_spec (n mod 65536) 0); [|lia]. cbn [length]. lia.
Qed.

(** ** C08 *)
(** The only ways to panic: the header length byte points beyond the capacity, or so does the
    end of the body it implies (or that end is at 65536 or more). *)
Theorem C08_panics_only_partial : forall key p0 c spare, is_bytes c ->
  pkg_decode key p0 c spare = DPanic ->
  (wire_header_size c <= length c)%nat /\
  (N.of_nat (length c + length spare) < covered c
   \/ N.of_nat (length c + length spare) < byte_at c 3 + word_at c 5
   \/ 65536 <= byte_at c 3 + word_at c 5).
Proof.
  intros key p0 c spare Hb Hd. destruct (Nat.lt_ge_cases (length c) (wire_header_size c)) as [Hl|Hl].
  { destruct (pkg_decode_short key p0 c spare Hb Hl) as (p' & H). rewrite H in Hd. discriminate. }
  split; [assumption|]. rewrite pkg_decode_full in Hd by assumption. cbv zeta in Hd.
  destruct (go_slice _ _ _) as [h|] eqn:Hg.
  2: { left. unfold go_slice in Hg. destruct (_ && _) eqn:Ha; [discriminate|]. apply andb_false_iff in Ha as [Ha|Ha].
       - apply N.leb_gt in Ha. lia.
       - apply N.leb_gt in Ha. unfold len in Ha. rewrite app_length in Ha. lia. }
  destruct (negb _); [discriminate|]. destruct (_ =? _)%nat; [discriminate|]. destruct (kind_of c); [|discriminate].
  destruct (opened key c); [|discriminate]. destruct (_ <=? _)%nat; [discriminate|].
  destruct (crc_area c (c ++ spare)) eqn:Ha; [destruct (_ =? _); discriminate|].
  unfold crc_area in Ha. destruct (_ && _) eqn:Hc; [discriminate|]. apply andb_false_iff in Hc as [Hc|Hc].
  - apply N.ltb_ge in Hc. auto.
  - apply N.leb_gt in Hc. unfold len in Hc. rewrite app_length in Hc. auto.
Qed.

(** Hence no panic when the length byte is the header size and the lengths fit into 16 bits. *)
Theorem C08_no_panic_partial : forall key p0 c spare, is_bytes c ->
  0 < byte_at c 3 <= N.of_nat (wire_header_size c) -> byte_at c 3 + word_at c 5 < 65536 ->
  pkg_decode key p0 c spare <> DPanic.
Proof.
  intros key p0 c spare Hb Hh Hf Hd. destruct (Nat.lt_ge_cases (length c) (wire_header_size c)) as [Hl|Hl].
  { destruct (pkg_decode_short key p0 c spare Hb Hl) as (p' & H). rewrite H in Hd. discriminate. }
  rewrite pkg_decode_full in Hd by assumption. cbv zeta in Hd.
  destruct (go_slice _ _ _) as [h|] eqn:Hg.
  2: { unfold go_slice in Hg. replace (_ && _) with true in Hg; [discriminate|]. symmetry. apply andb_true_iff. split; apply N.leb_le; [lia|].
       unfold len. rewrite app_length. unfold covered. destruct (N.eqb_spec (byte_at c 3) 0); lia. }
  destruct (negb _); [discriminate|]. destruct (_ =? _)%nat; [discriminate|]. destruct (kind_of c); [|discriminate].
  destruct (opened key c); [|discriminate]. destruct (Nat.leb_spec (length c) (hn c + fdl c)); [discriminate|].
  destruct (crc_area c (c ++ spare)) eqn:Ha; [destruct (_ =? _); discriminate|].
  unfold crc_area in Ha. replace (_ && _) with true in Ha; [discriminate|]. symmetry. apply andb_true_iff. split.
  - apply N.ltb_lt. assumption.
  - apply N.leb_le. unfold len. rewrite app_length. unfold fdl, hn in *. lia.
Qed.

(** ** C09 *)
Theorem C09_packet_decoding_terminates : forall key p0 c spare, is_bytes c -> pkg_decode key p0 c spare <> DFuel.
Proof.
  intros key p0 c spare Hb Hd. destruct (Nat.lt_ge_cases (length c) (wire_header_size c)) as [Hl|Hl].
  { destruct (pkg_decode_short key p0 c spare Hb Hl) as (p' & H). rewrite H in Hd. discriminate. }
  rewrite pkg_decode_full in Hd by assumption. cbv zeta in Hd. destruct (go_slice _ _ _); [|discriminate].
  destruct (negb _); [discriminate|]. destruct (_ =? _)%nat; [discriminate|]. destruct (kind_of c); [|discriminate].
  destruct (opened key c); [|discriminate]. destruct (_ <=? _)%nat; [discriminate|].
  destruct (crc_area c (c ++ spare)); [|discriminate]. destruct (_ =? _); discriminate.
Qed.

(** ** C10 *)
(** The checks of a frame, in the order of the frame. *)
Definition header_complete (c : list N) : Prop := (wire_header_size c <= length c)%nat.
Definition header_sum_ok (c spare : list N) : Prop :=
  byte_at c (wire_header_size c - 1) = checksum8 (firstn (N.to_nat (covered c)) (c ++ spare)).
Definition body_present (c : list N) : Prop := (wire_header_size c < length c)%nat.
Definition type_known (c : list N) : Prop := byte_at c 9 = 0 \/ byte_at c 9 = 1.
(** The declared body, missing bytes taken as zero. *)
Definition declared_body (c : list N) : list N :=
  let n := N.to_nat (word_at c 5) in let r := skipn (wire_header_size c) c in
  firstn n r ++ repeat 0 (n - length r).
Definition body_readable (key : option SecretKey) (c : list N) (body : Body) : Prop :=
  exists plain,
    ((encryption_bits c = "00"%string /\ plain = declared_body c)
     \/ (encryption_bits c <> "00"%string /\ exists k, key = Some k /\ sk_decode k (declared_body c) = Some plain))
    /\ body_arrives (byte_at c 9) plain body.
Definition sum_present (c : list N) : Prop := (wire_header_size c + N.to_nat (word_at c 5) < length c)%nat.
Definition body_sum_ok (c spare : list N) : Prop :=
  word_at c (wire_header_size c + N.to_nat (word_at c 5))
  = checksum16 (firstn (N.to_nat (word_at c 5)) (skipn (N.to_nat (byte_at c 3)) (c ++ spare))).

Lemma skipn_repeat (n k : nat) : skipn k (zeros n) = repeat 0 (n - k).
Proof. revert k. induction n as [|n IH]; intros [|k]; cbn; try reflexivity. apply IH. Qed.

Lemma frame_of_declared c : frame_of c = declared_body c.
Proof. unfold frame_of, declared_body, fdl, hn. rewrite skipn_repeat. reflexivity. Qed.

Lemma opened_readable key c body : type_known c -> (opened key c = Some body <-> body_readable key c body).
Proof.
  intros Ht. unfold opened, plain_of, body_readable, body_arrives, encryption_bits. rewrite frame_of_declared. split.
  - destruct (String.eqb_spec (digit2 (byte_at c 2) 3) "00") as [He|He].
    + intros H. exists (declared_body c). split; [auto|]. destruct (N.eqb_spec (byte_at c 9) 1) as [H1|H1].
      * left. split; [assumption|]. destruct (sds_decode _) as [l| | |] eqn:Hd; try discriminate. injection H as <-. eauto.
      * right. destruct Ht as [Ht|]; [|congruence]. split; [assumption|].
        destruct (PtResponse_decode _ _) as [l| | |] eqn:Hd; try discriminate. injection H as <-. eauto.
    + destruct key as [k|]; [|discriminate]. destruct (sk_decode k (declared_body c)) as [f|] eqn:Hk; [|discriminate].
      intros H. exists f. split; [eauto|]. destruct (N.eqb_spec (byte_at c 9) 1) as [H1|H1].
      * left. split; [assumption|]. destruct (sds_decode _) as [l| | |] eqn:Hd; try discriminate. injection H as <-. eauto.
      * right. destruct Ht as [Ht|]; [|congruence]. split; [assumption|].
        destruct (PtResponse_decode _ _) as [l| | |] eqn:Hd; try discriminate. injection H as <-. eauto.
  - intros (plain & Hp & Hb).
    set (o := if String.eqb (digit2 (byte_at c 2) 3) "00" then _ else _). assert (o = Some plain) as ->.
    { unfold o. destruct Hp as [(-> & ->)|(Hn & k & -> & Hk)]; [reflexivity|].
      destruct (String.eqb_spec (digit2 (byte_at c 2) 3) "00"); [congruence|assumption]. }
    destruct Hb as [(-> & l & -> & ->)|(-> & l & -> & ->)]; reflexivity.
Qed.

Lemma go_slice_0 all b : b <= len all -> go_slice all 0 b = Some (firstn (N.to_nat b) all).
Proof.
  intros H. unfold go_slice. replace (_ && _) with true by (symmetry; apply andb_true_iff; split; apply N.leb_le; lia).
  rewrite N.sub_0_r. reflexivity.
Qed.

(** One equation for all of Decode on a frame whose lengths do not exceed the capacity. *)
Lemma decode_codes key p0 c spare : is_bytes (c ++ spare) -> header_complete c ->
  covered c <= N.of_nat (length c + length spare) ->
  byte_at c 3 + word_at c 5 < 65536 -> byte_at c 3 + word_at c 5 <= N.of_nat (length c + length spare) ->
  exists p, pkg_decode key p0 c spare =
  if negb (hcs c =? checksum8 (firstn (N.to_nat (covered c)) (c ++ spare))) then DRet p 137 false
  else if (length c =? hn c)%nat then DRet p 132 false
  else match kind_of c with
       | None => DRet p 133 false
       | Some e =>
           match opened key c with
           | None => DRet p 129 false
           | Some b =>
               if (length c <=? hn c + fdl c)%nat then DRet p 129 false
               else if stored_crc c =? checksum16 (firstn (fdl c) (skipn (N.to_nat (byte_at c 3)) (c ++ spare)))
                    then DRet p 0 true else DRet p 137 false
           end
       end.
Proof.
  intros Hb Hh Hc H1 H2. pose proof Hb as Hb'. apply bytes_ok_app in Hb' as [Hbc _].
  rewrite pkg_decode_full by assumption. cbv zeta.
  rewrite go_slice_0 by (unfold len; rewrite app_length; lia).
  rewrite crc8_checksum by (apply bytes_ok_firstn; assumption).
  destruct (negb _); [eauto|]. destruct (_ =? _)%nat; [eauto|]. destruct (kind_of c); [|eauto].
  destruct (opened key c); [|eauto]. destruct (_ <=? _)%nat; [eauto|].
  unfold crc_area. replace (_ && _) with true.
  2: { symmetry. apply andb_true_iff. split; [apply N.ltb_lt; assumption|]. apply N.leb_le. unfold len. rewrite app_length. lia. }
  rewrite crc16_checksum by (apply bytes_ok_firstn, bytes_ok_skipn; assumption).
  eexists. destruct (_ =? _); reflexivity.
Qed.

Theorem C10_result_codes_partial : forall key p0 c spare, is_bytes (c ++ spare) ->
  covered c <= N.of_nat (length c + length spare) ->
  byte_at c 3 + word_at c 5 < 65536 -> byte_at c 3 + word_at c 5 <= N.of_nat (length c + length spare) ->
  exists p code, pkg_decode key p0 c spare = DRet p code (code =? 0) /\
  (~ header_complete c -> code = 131) /\
  (header_complete c -> ~ header_sum_ok c spare -> code = 137) /\
  (header_complete c -> header_sum_ok c spare -> ~ body_present c -> code = 132) /\
  (header_complete c -> header_sum_ok c spare -> body_present c -> ~ type_known c -> code = 133) /\
  (header_complete c -> header_sum_ok c spare -> body_present c -> type_known c ->
     (forall body, ~ body_readable key c body) \/ ~ sum_present c -> code = 129) /\
  (header_complete c -> header_sum_ok c spare -> type_known c -> (exists body, body_readable key c body) ->
     sum_present c -> body_sum_ok c spare -> code = 0) /\
  (code = 0 -> header_complete c /\ header_sum_ok c spare /\ type_known c
     /\ (exists body, body_readable key c body) /\ sum_present c /\ body_sum_ok c spare).
Proof.
  intros key p0 c spare Hb Hc H1 H2.
  destruct (Nat.lt_ge_cases (length c) (wire_header_size c)) as [Hl|Hl].
  { pose proof Hb as Hb'. apply bytes_ok_app in Hb' as [Hbc _].
    destruct (pkg_decode_short key p0 c spare Hbc Hl) as (p & ->). exists p, 131. unfold header_complete. split; [reflexivity|].
    split; [reflexivity|]. repeat (split; [intros; lia|]). intros; discriminate. }
  destruct (decode_codes key p0 c spare Hb Hl Hc H1 H2) as (p & ->). exists p.
  unfold header_sum_ok, body_present, sum_present, body_sum_ok, header_complete.
  fold (hn c) in *. fold (fdl c) in *. fold (hcs c). fold (stored_crc c).
  destruct (N.eqb_spec (hcs c) (checksum8 (firstn (N.to_nat (covered c)) (c ++ spare)))) as [Hs|Hs]; cbn [negb].
  2: { exists 137. split; [reflexivity|]. repeat split; intros; (contradiction || lia || congruence). }
  destruct (Nat.eqb_spec (length c) (hn c)) as [He|He].
  { exists 132. split; [reflexivity|]. repeat split; intros; (lia || contradiction || congruence). }
  unfold kind_of. assert (type_known c \/ ~ type_known c) as Ht by (unfold type_known; lia).
  destruct Ht as [Ht|Ht].
  2: { destruct (N.eqb_spec (byte_at c 9) 1); [unfold type_known in Ht; tauto|].
       destruct (N.eqb_spec (byte_at c 9) 0); [unfold type_known in Ht; tauto|].
       exists 133. split; [reflexivity|]. repeat split; intros; (contradiction || lia || congruence). }
  set (k := if _ =? 1 then _ else _). assert (k <> None) as Hk.
  { unfold k. destruct Ht as [-> | ->]; discriminate. }
  destruct k as [e|]; [clear Hk|congruence].
  destruct (opened key c) as [body|] eqn:Ho.
  2: { exists 129. split; [reflexivity|].
       assert (forall body, ~ body_readable key c body) as Hn by (intros body Hr; apply opened_readable in Hr; congruence).
       repeat split; intros; try (contradiction || lia || congruence);
         match goal with H : exists _, _ |- _ => destruct H as (bb & Hbb); apply Hn in Hbb; contradiction end. }
  apply opened_readable in Ho; [|assumption].
  destruct (Nat.leb_spec (length c) (hn c + fdl c)) as [Hp|Hp].
  { exists 129. split; [reflexivity|]. repeat split; intros; (contradiction || lia || congruence). }
  destruct (N.eqb_spec (stored_crc c) (checksum16 (firstn (fdl c) (skipn (N.to_nat (byte_at c 3)) (c ++ spare))))) as [Hq|Hq].
  - exists 0. split; [reflexivity|]. repeat split; intros; try (contradiction || lia || congruence); eauto.
    destruct H5 as [H5|H5]; [|lia]. destruct (H5 _ Ho).
  - exists 137. split; [reflexivity|]. repeat split; intros; try (contradiction || lia || congruence).
    destruct H5 as [H5|H5]; [|lia]. destruct (H5 _ Ho).
Qed.

(** A wrong body checksum is reported as 137 (header checksum), never as 138. *)
Theorem C10_body_sum_code_refuted : forall key p0 c spare, is_bytes (c ++ spare) ->
  covered c <= N.of_nat (length c + length spare) ->
  byte_at c 3 + word_at c 5 < 65536 -> byte_at c 3 + word_at c 5 <= N.of_nat (length c + length spare) ->
  header_complete c -> header_sum_ok c spare -> type_known c -> (exists body, body_readable key c body) ->
  sum_present c -> ~ body_sum_ok c spare ->
  exists p, pkg_decode key p0 c spare = DRet p 137 false.
Proof.
  intros key p0 c spare Hb Hc H1 H2 Hh Hs Ht (body & Hr) Hp Hq.
  destruct (decode_codes key p0 c spare Hb Hh Hc H1 H2) as (p & ->). exists p.
  unfold header_sum_ok, body_present, sum_present, body_sum_ok, header_complete in *.
  fold (hn c) in *. fold (fdl c) in *. fold (hcs c) in *. fold (stored_crc c) in *.
  rewrite <- Hs, N.eqb_refl. cbn [negb]. destruct (Nat.eqb_spec (length c) (hn c)); [lia|].
  apply opened_readable in Hr; [|assumption]. rewrite Hr. 
  destruct (Nat.leb_spec (length c) (hn c + fdl c)); [lia|].
  destruct (N.eqb_spec (stored_crc c) (checksum16 (firstn (fdl c) (skipn (N.to_nat (byte_at c 3)) (c ++ spare))))); [contradiction|].
  unfold kind_of. destruct Ht as [-> | ->]; reflexivity.
Qed.

(** ** C11 *)
Theorem C11_accepted_frames : forall key p0 c spare p code, is_bytes (c ++ spare) ->
  pkg_decode key p0 c spare = DRet p code true ->
  code = 0 /\ header_read c p
  /\ header_complete c /\ covered c <= N.of_nat (length c + length spare) /\ header_sum_ok c spare
  /\ sum_present c /\ byte_at c 3 + word_at c 5 < 65536 /\ byte_at c 3 + word_at c 5 <= N.of_nat (length c + length spare)
  /\ body_sum_ok c spare
  /\ p_HCS p = byte_at c (wire_header_size c - 1)
  /\ p_SFRCS p = word_at c (wire_header_size c + N.to_nat (word_at c 5))
  /\ exists body, p_SFRD p = Some body /\ body_readable key c body.
Proof.
  intros key p0 c spare p code Hb Hd. pose proof Hb as Hb'. apply bytes_ok_app in Hb' as [Hbc _].
  destruct (Nat.lt_ge_cases (length c) (wire_header_size c)) as [Hl|Hl].
  { destruct (pkg_decode_short key p0 c spare Hbc Hl) as (p' & H). rewrite H in Hd. discriminate. }
  rewrite pkg_decode_full in Hd by assumption. cbv zeta in Hd.
  destruct (go_slice _ _ _) as [h|] eqn:Hg; [|discriminate].
  destruct (N.eqb_spec (hcs c) (crc8 h)) as [Hs|]; [|discriminate]. cbn [negb] in Hd.
  destruct (_ =? _)%nat; [discriminate|].
  destruct (kind_of c) as [e|] eqn:Hk; [|discriminate]. destruct (opened key c) as [body|] eqn:Ho; [|discriminate].
  destruct (Nat.leb_spec (length c) (hn c + fdl c)) as [|Hp]; [discriminate|].
  destruct (crc_area c (c ++ spare)) as [a|] eqn:Ha; [|discriminate].
  destruct (N.eqb_spec (stored_crc c) (crc16 a)) as [Hq|]; [|discriminate]. injection Hd as <- <-.
  unfold go_slice in Hg. destruct (_ && _) eqn:Hg1; [|discriminate]. injection Hg as <-. apply andb_true_iff in Hg1 as [_ Hg1].
  apply N.leb_le in Hg1. unfold len in Hg1. rewrite app_length in Hg1.
  unfold crc_area in Ha. destruct (_ && _) eqn:Ha1; [|discriminate]. injection Ha as <-. apply andb_true_iff in Ha1 as [Ha1 Ha2].
  apply N.ltb_lt in Ha1. apply N.leb_le in Ha2. unfold len in Ha2. rewrite app_length in Ha2.
  rewrite N.sub_0_r in Hs. change (N.to_nat 0) with O in Hs. cbn [skipn] in Hs.
  rewrite crc8_checksum in Hs by (apply bytes_ok_firstn; assumption).
  rewrite crc16_checksum in Hq by (apply bytes_ok_firstn, bytes_ok_skipn; assumption).
  split; [reflexivity|]. split.
  { pose proof (hdr_of_read p0 c) as []. constructor; assumption. }
  repeat (split; [assumption|]).
  split; [reflexivity|]. split; [reflexivity|]. exists body. split; [reflexivity|].
  apply opened_readable; [|assumption]. unfold kind_of in Hk. unfold type_known.
  destruct (N.eqb_spec (byte_at c 9) 1); [auto|]. destruct (N.eqb_spec (byte_at c 9) 0); [auto|discriminate].
Qed.

(** ** C12 *)
Theorem C12_encode_twice : forall key p p' r, pkg_encode key p = (p', r) ->
  pkg_encode key p' = (p', r)
  /\ (exists hl fdl, p' = set_FDL fdl (set_HL hl p)) /\ p_SFRD p' = p_SFRD p.
Proof.
  intros key p p' r H.
  assert (exists hl fdl, p' = set_FDL fdl (set_HL hl p)) as (hl & fd & Hp).
  { unfold pkg_encode in H. destruct (parse_flags _).
    2-4: injection H as <- <-; exists (p_HL p), (p_FDL p); destruct p; reflexivity.
    assert (forall q, (q = p \/ exists h, q = set_HL h p) -> exists hl fdl, q = set_FDL fdl (set_HL hl p)) as Hq.
    { intros q [->|(h & ->)]; [exists (p_HL p), (p_FDL p)|exists h, (p_FDL p)]; destruct p; reflexivity. }
    destruct (p_HL p =? 0).
    - destruct (match p_SFRD _ with Some _ => _ | None => _ end) in H; injection H as <- <-; eauto.
    - destruct (match p_SFRD _ with Some _ => _ | None => _ end) in H; injection H as <- <-; eauto.
      exists (p_HL p). eexists. rewrite set_HL_id. reflexivity. }
  split; [|split; [eauto|rewrite Hp; reflexivity]].
  pose proof H as H0. unfold pkg_encode in H |- *.
  assert (p_PRF p' = p_PRF p /\ p_RTE p' = p_RTE p /\ p_ENA p' = p_ENA p /\ p_CMP p' = p_CMP p /\ p_PR p' = p_PR p
          /\ p_SFRD p' = p_SFRD p) as (-> & R2 & R3 & -> & -> & R6) by (rewrite Hp; repeat split).
  rewrite R2, R3. destruct (parse_flags _) as [flags| | |]; [|congruence..].
  set (p1 := if p_HL p =? 0 then _ else p) in *.
  assert (p_HL p1 <> 0) as Hp1.
  { unfold p1. destruct (N.eqb_spec (p_HL p) 0); [|assumption]. destruct (is1 _); discriminate. }
  assert (p_SFRD p1 = p_SFRD p /\ p_ENA p1 = p_ENA p) as [R7 R8] by (unfold p1; destruct (p_HL p =? 0); split; reflexivity).
  rewrite R7, R8 in H.
  set (sfrd := match p_SFRD p with Some _ => _ | None => _ end) in H.
  assert (p_HL p' = p_HL p1) as Hhl by (destruct sfrd; injection H as <- _; reflexivity).
  replace (p_HL p' =? 0) with false by (symmetry; apply N.eqb_neq; congruence).
  rewrite R6, R3. fold sfrd. destruct sfrd; injection H as H1 H2; [|congruence..].
  rewrite <- H1, <- H2. reflexivity.
Qed.

(** ** C13 *)
(** Decode never accepts a packet without a body. *)
Theorem C13_header_only_packets_refuted : forall p key p0 spare,
  wf_flags p -> wf_nums p -> header_length_ok p -> p_SFRD p = None ->
  exists frame, snd (pkg_encode key p) = Ok frame
    /\ frame = lay_frame p (header_size p) []
    /\ exists p', pkg_decode key p0 frame spare = DRet p' 132 false.
Proof.
  intros p key p0 spare Hf Hn Hh Hs. exists (lay_frame p (header_size p) []). split; [|split; [reflexivity|]].
  { rewrite (C02_wire_layout key p []); try assumption; [rewrite header_length_size by assumption; reflexivity| | |cbn; lia].
    - unfold outgoing. rewrite Hs. reflexivity.
    - constructor. }
  assert (header_size p < 256) by (unfold header_size; destruct (string_dec _ _); lia).
  unfold lay_frame. cbn [length]. change (N.of_nat 0) with 0. rewrite app_nil_r. cbv zeta.
  set (h := lay_header p (header_size p) 0). rewrite <- crc8_checksum by (apply lay_header_ok; assumption).
  assert (length h = N.to_nat (header_size p - 1)) as Hlh by (pose proof (lay_header_length p (header_size p) 0); fold h in H0; lia).
  assert (11 <= header_size p) by (unfold header_size; destruct (string_dec _ _); lia).
  set (c := (h ++ [crc8 h])%list).
  assert (bytes_ok h) as Hbh by (apply lay_header_ok; assumption).
  assert (bytes_ok c) as Hbc.
  { apply bytes_ok_app; split; [assumption|]. apply bytes_ok_cons; split; [apply crc8_lt; assumption|apply bytes_ok_nil]. }
  assert (byte_at c 3 = header_size p /\ hn c = N.to_nat (header_size p)) as [H3 Hc].
  { destruct (flag_byte_digits p Hf) as (_ & _ & _ & _ & _ & D6 & _).
    unfold c, h, lay_header, hn, wire_header_size, routed, byte_at, le16. cbn [app nth]. split; [reflexivity|].
    fold (flag_byte p). rewrite D6. destruct (header_size_cases p) as [(_ & -> & ->)|(_ & -> & ->)]; [destruct Hf; assumption|reflexivity..]. }
  assert (length c = N.to_nat (header_size p)) as Hlc by (unfold c; rewrite app_length, Hlh; cbn [length]; lia).
  fold h. fold c. rewrite pkg_decode_full by (try assumption; lia). cbv zeta.
  rewrite go_slice_0.
  2: { unfold covered, len. rewrite H3, app_length, Hlc. destruct (N.eqb_spec (header_size p) 0); lia. }
  assert (firstn (N.to_nat (covered c)) (c ++ spare) = h) as ->.
  { unfold covered. rewrite H3. destruct (N.eqb_spec (header_size p) 0); [lia|]. rewrite <- Hlh. unfold c. rewrite <- app_assoc. apply firstn_exact. }
  assert (hcs c = crc8 h) as ->.
  { unfold hcs, byte_at. rewrite Hc. unfold c. rewrite app_nth2 by lia. replace (_ - _)%nat with 0%nat by lia. reflexivity. }
  rewrite N.eqb_refl. cbn [negb]. rewrite Hlc, Hc, Nat.eqb_refl. eauto.
Qed.

End WithEnv.

(** Lemmas about Package.Encode and Package.Decode. *)
From Coq Require Import NArith ZArith Lia ZifyBool ZifyNat ZifyN String Ascii Bool List.
From Verif Require Import GoBase GoFloat Crc SubRecords Records Package SpecBase SpecCrc SpecPkg SpecSub SpecRec
  BaseFacts SubFacts RecordFacts DecodeFacts CrcFacts.
Import ListNotations.
Open Scope N_scope.

Local Opaque le_bytes crc8 crc16.

Ltac rw16 := repeat match goal with |- context [le16 ?x] => rewrite (le16_eq x) end.

Section WithEnv.
Context {E : Env}.

(** ** Encode *)

Lemma flags_parse (p : Package) : wf_flags p ->
  parse_flags (p_PRF p ++ p_RTE p ++ p_ENA p ++ p_CMP p ++ p_PR p)
  = Ok (64 * fl2 (p_PRF p) + 32 * fl (p_RTE p) + 8 * fl2 (p_ENA p) + 4 * fl (p_CMP p) + fl2 (p_PR p))
  /\ 64 * fl2 (p_PRF p) + 32 * fl (p_RTE p) + 8 * fl2 (p_ENA p) + 4 * fl (p_CMP p) + fl2 (p_PR p) < 256.
Proof.
  intros []. destruct (is_flag2_bits _ wf_PRF) as (a & b & ->). rewrite (is_flag_bit _ wf_RTE).
  destruct (is_flag2_bits _ wf_ENA) as (d & e & ->). rewrite (is_flag_bit _ wf_CMP).
  destruct (is_flag2_bits _ wf_PR) as (g & h & ->).
  rewrite !fl2_bits, !fl_eq, !is1_bit.
  set (c := is1 (p_RTE p)). set (f := is1 (p_CMP p)). clearbody c f. split.
  - change (_ ++ _)%string with (str8 a b c d e f g h). rewrite parse_flags_str8. unfold num8. f_equal. lia.
  - destruct a, b, c, d, e, f, g, h; reflexivity.
Qed.

Lemma header_length_eq (p : Package) : 
  p_HL (if p_HL p =? 0 then set_HL (if is1 (p_RTE p) then DEFAULT_HEADER_LEN + 5 else DEFAULT_HEADER_LEN) p else p)
  = header_length p.
Proof.
  unfold header_length, header_size, is1. destruct (p_HL p =? 0); [|reflexivity].
  destruct (string_dec (p_RTE p) "1") as [->|H]; [reflexivity|]. apply String.eqb_neq in H. rewrite H. reflexivity.
Qed.

Lemma pkg_header_lay (p q : Package) fl0 : 
  wf_flags p -> fl0 = 64 * fl2 (p_PRF p) + 32 * fl (p_RTE p) + 8 * fl2 (p_ENA p) + 4 * fl (p_CMP p) + fl2 (p_PR p) ->
  p_PRV q = p_PRV p -> p_SKID q = p_SKID p -> p_HE q = p_HE p -> p_PID q = p_PID p -> p_PT q = p_PT p ->
  p_RTE q = p_RTE p -> p_PRA q = p_PRA p -> p_RCA q = p_RCA p -> p_TTL q = p_TTL p ->
  pkg_header q fl0 = lay_header p (p_HL q) (p_FDL q).
Proof.
  intros Hf -> H1 H2 H3 H4 H5 H6 H7 H8 H9. destruct (flags_parse p Hf) as [_ Hl].
  unfold pkg_header, lay_header. rewrite H1, H2, H3, H4, H5, H6, H7, H8, H9, u8_small by assumption.
  rewrite opt_eq. rw16. reflexivity.
Qed.

Lemma set_HL_id p : set_HL (p_HL p) p = p. Proof. destruct p; reflexivity. Qed.

(** What is encrypted, as Encode does it. *)
Definition cipher (key : option SecretKey) (p : Package) (s : bytes) : option bytes :=
  if String.eqb (p_ENA p) "00" then Some s else match key with None => None | Some k => sk_encode k s end.

Definition out_body (key : option SecretKey) (p : Package) : res bytes :=
  match p_SFRD p with
  | None => Ok []
  | Some b => match body_encode b with
              | Ok s => match cipher key p s with Some c => Ok c | None => Err end
              | Err => Err | Panic => Panic | Fuel => Fuel
              end
  end.

Definition after_encode (p : Package) (c : bytes) : Package := set_FDL (u16 (len c)) (set_HL (header_length p) p).

Lemma pkg_encode_ok key p c : wf_flags p -> out_body key p = Ok c ->
  pkg_encode key p = (after_encode p c,
    Ok (let h := lay_header p (header_length p) (u16 (len c)) in
        h ++ [crc8 h] ++ (if 0 <? u16 (len c) then c ++ le_bytes 2 (crc16 c) else []))%list).
Proof.
  intros Hf Hc. unfold pkg_encode. rewrite (proj1 (flags_parse p Hf)).
  set (p1 := if p_HL p =? 0 then _ else p).
  assert (p1 = set_HL (header_length p) p) as Hp1.
  { unfold p1. rewrite <- header_length_eq. destruct (p_HL p =? 0); [reflexivity|symmetry; apply set_HL_id]. }
  rewrite Hp1.
  assert ((match p_SFRD (set_HL (header_length p) p) with
        | None => Ok []
        | Some b =>
            bind (body_encode b) (fun s =>
            if String.eqb (p_ENA (set_HL (header_length p) p)) "00" then Ok s
            else match key with
                 | None => Err
                 | Some k => match sk_encode k s with Some c => Ok c | None => Err end
                 end)
        end) = Ok c) as Hs.
  { rewrite <- Hc. unfold out_body, cipher. cbn [p_SFRD set_HL p_ENA]. destruct (p_SFRD p) as [b|]; [|reflexivity].
    unfold bind. destruct (body_encode b); try reflexivity. destruct (String.eqb _ _); [reflexivity|].
    destruct key as [k|]; [|reflexivity]. reflexivity. }
  rewrite Hs. cbv zeta. unfold after_encode.
  rewrite (pkg_header_lay p) by (assumption || reflexivity). reflexivity.
Qed.

Lemma pkg_encode_fail key p : (forall c, out_body key p <> Ok c) -> forall b, snd (pkg_encode key p) <> Ok b.
Proof.
  intros Hc b. unfold pkg_encode. destruct (parse_flags _); try discriminate.
  set (p1 := if p_HL p =? 0 then _ else p).
  assert (p_SFRD p1 = p_SFRD p /\ p_ENA p1 = p_ENA p) as [H1 H2] by (unfold p1; destruct (p_HL p =? 0); split; reflexivity).
  unfold out_body, cipher in Hc. rewrite <- H1, <- H2 in Hc. destruct (p_SFRD p1) as [bd|]; [|destruct (Hc [] eq_refl)].
  unfold bind. destruct (body_encode bd); try discriminate.
  destruct (String.eqb _ _); [destruct (Hc _ eq_refl)|]. destruct key as [k|]; [|discriminate].
  destruct (sk_encode k a0) eqn:Hk; [destruct (Hc _ eq_refl)|discriminate].
Qed.

Lemma lay_header_ok p hl fdl : wf_flags p -> wf_nums p -> hl < 256 -> bytes_ok (lay_header p hl fdl).
Proof.
  intros Hf [] Hh. destruct (flags_parse p Hf) as [_ Hl]. unfold lay_header. rewrite opt_eq. rw16.
  repeat first [apply bytes_ok_cons; split; [assumption|] | apply bytes_ok_nil | apply bytes_ok_put | apply le_bytes_ok
               | apply bytes_ok_app; split].
Qed.

Lemma lay_header_length p hl fdl : N.of_nat (length (lay_header p hl fdl)) = header_size p - 1.
Proof.
  unfold lay_header, header_size, opt. rewrite !app_length. cbn [length].
  destruct (string_dec _ _); cbn [length app]; reflexivity.
Qed.

(** ** Decode *)

Definition hdr_of (p0 : Package) (c : bytes) : Package :=
  let f := byte_at c 2 in
  mkPackage (byte_at c 0) (byte_at c 1) (digit2 f 6) (digit1 f 5) (digit2 f 3) (digit1 f 2) (digit2 f 0)
    (byte_at c 3) (byte_at c 4) (word_at c 5) (word_at c 7) (byte_at c 9)
    (if routed c then word_at c 10 else p_PRA p0)
    (if routed c then word_at c 12 else p_RCA p0)
    (if routed c then byte_at c 14 else p_TTL p0) (p_HCS p0) (p_SFRD p0) (p_SFRCS p0).

Lemma hdr_of_read p0 c : header_read c (hdr_of p0 c).
Proof. constructor; try reflexivity. intros H. cbn [hdr_of p_PRA p_RCA p_TTL]. rewrite H. auto. Qed.

Lemma digits8 n : n < 256 ->
  slice 0 2 (sprintf_b 8 n) = digit2 n 6 /\ slice 2 3 (sprintf_b 8 n) = digit1 n 5 /\
  slice 3 5 (sprintf_b 8 n) = digit2 n 3 /\ slice 5 6 (sprintf_b 8 n) = digit1 n 2 /\
  slice 6 8 (sprintf_b 8 n) = digit2 n 0.
Proof. intros H. rewrite sprintf_b_8 by assumption. repeat split; reflexivity. Qed.

Lemma is1_digit1 n i : is1 (digit1 n i) = N.testbit n i.
Proof. unfold digit1. destruct (N.testbit n i); reflexivity. Qed.

Lemma rd_num_tmp_2 tmp a b r : length tmp = 2%nat ->
  rd_num_tmp tmp (a :: b :: r) = Some ((a + 256 * b, [a; b]), r).
Proof.
  intros H. destruct tmp as [|x [|y [|]]]; try discriminate. unfold rd_num_tmp, rd_into.
  cbn [length firstn skipn].
  replace (skipn (length r) []) with (@nil N) by (destruct (length r); reflexivity).
  change (le_num ([a; b] ++ [])) with (a + 256 * (b + 256 * 0)). rewrite N.mul_0_r, N.add_0_r. reflexivity.
Qed.
Lemma rd_num_tmp_1 tmp a : length tmp = 2%nat -> exists n t, rd_num_tmp tmp [a] = Some ((n, t), []) /\ length t = 2%nat.
Proof.
  intros H. destruct tmp as [|x [|y [|]]]; try discriminate. unfold rd_num_tmp, rd_into. cbn. eauto.
Qed.
Lemma rd_num_tmp_0 tmp : rd_num_tmp tmp [] = None.
Proof. reflexivity. Qed.

Lemma hdr_byte (x : N) r (pe : Package) code (f : N -> bytes -> dres) : hdr (rd_byte (x :: r)) pe code f = f x r.
Proof. reflexivity. Qed.
Ltac hb := repeat rewrite hdr_byte; cbv beta zeta.
Ltac hw := repeat (rewrite rd_num_tmp_2 by reflexivity; unfold hdr at 1); cbv beta iota zeta; hb.

Lemma pkg_decode_long key p0 c spare : bytes_ok c -> (wire_header_size c <= length c)%nat ->
  pkg_decode key p0 c spare = pkg_decode_hcs key (hdr_of p0 c) (c ++ spare) (skipn (wire_header_size c - 1) c).
Proof.
  intros Hb Hl.
  do 11 (destruct c as [|? c]; [unfold wire_header_size, routed in Hl; cbn in Hl; try (destruct (N.testbit _ _) in Hl); cbn in Hl; lia|]).
  assert (n1 < 256) as H2 by (repeat (apply bytes_ok_cons in Hb as [? Hb]); assumption).
  unfold pkg_decode. set (all := (_ ++ spare)%list). hb.
  destruct (digits8 n1 H2) as (-> & -> & -> & -> & ->).
  hw.
  unfold hdr_of, wire_header_size, routed in *. cbn [byte_at word_at nth] in *.
  cbn [p_RTE set_PRV set_SKID set_PRF set_RTE set_ENA set_CMP set_PR set_HL set_HE set_FDL set_PID set_PT].
  rewrite is1_digit1. destruct (N.testbit n1 5).
  - do 5 (destruct c as [|? c]; [cbn in Hl; lia|]).
    hw.
    reflexivity.
  - reflexivity.
Qed.

Lemma pkg_decode_short key p0 c spare : bytes_ok c -> (length c < wire_header_size c)%nat ->
  exists p, pkg_decode key p0 c spare = DRet p 131 false.
Proof.
  intros Hb Hl. unfold pkg_decode. set (all := (_ ++ spare)%list). clearbody all.
  destruct c as [|x0 c]; [eexists; reflexivity|]. hb.
  destruct c as [|x1 c]; [eexists; reflexivity|]. hb.
  destruct c as [|x2 c]; [eexists; reflexivity|]. hb.
  assert (x2 < 256) as H2 by (repeat (apply bytes_ok_cons in Hb as [? Hb]); assumption).
  destruct (digits8 x2 H2) as (-> & -> & -> & -> & ->).
  destruct c as [|x3 c]; [eexists; reflexivity|]. hb.
  destruct c as [|x4 c]; [eexists; reflexivity|]. hb.
  destruct c as [|x5 c]; [eexists; reflexivity|].
  destruct c as [|x6 c].
  { destruct (rd_num_tmp_1 (zeros 2) x5 eq_refl) as (n & t & -> & Ht). eexists; reflexivity. }
  hw.
  destruct c as [|x7 c]; [eexists; reflexivity|].
  destruct c as [|x8 c].
  { destruct (rd_num_tmp_1 [x5; x6] x7 eq_refl) as (n & t & -> & Ht). eexists; reflexivity. }
  hw.
  destruct c as [|x9 c]; [eexists; reflexivity|]. hb.
  unfold wire_header_size, routed in Hl. cbn [byte_at nth] in Hl.
  cbn [p_RTE set_PRV set_SKID set_PRF set_RTE set_ENA set_CMP set_PR set_HL set_HE set_FDL set_PID set_PT].
  rewrite is1_digit1. destruct (N.testbit x2 5).
  - destruct c as [|x10 c]; [eexists; reflexivity|].
    destruct c as [|x11 c].
    { destruct (rd_num_tmp_1 [x7; x8] x10 eq_refl) as (n & t & -> & Ht). eexists; reflexivity. }
    hw.
    destruct c as [|x12 c]; [eexists; reflexivity|].
    destruct c as [|x13 c].
    { destruct (rd_num_tmp_1 [x10; x11] x12 eq_refl) as (n & t & -> & Ht). eexists; reflexivity. }
    hw.
    destruct c as [|x14 c]; [eexists; reflexivity|]. hb.
    destruct c as [|x15 c]; [eexists; reflexivity|]. cbn in Hl. lia.
  - destruct c as [|x10 c]; [eexists; reflexivity|]. cbn in Hl. lia.
Qed.

(** The parts of a frame. *)
Definition hn (c : bytes) : nat := wire_header_size c.
Definition fdl (c : bytes) : nat := N.to_nat (word_at c 5).
Definition hcs (c : bytes) : N := byte_at c (hn c - 1).
Definition frame_of (c : bytes) : bytes :=
  (firstn (fdl c) (skipn (hn c) c) ++ skipn (length (skipn (hn c) c)) (zeros (fdl c)))%list.
Definition kind_of (c : bytes) : option Body :=
  if byte_at c 9 =? 1 then Some (BSds []) else if byte_at c 9 =? 0 then Some (BResp PtResponse_zero) else None.
Definition plain_of (key : option SecretKey) (c : bytes) : option bytes :=
  if String.eqb (digit2 (byte_at c 2) 3) "00" then Some (frame_of c)
  else match key with None => None | Some k => sk_decode k (frame_of c) end.
Definition opened (key : option SecretKey) (c : bytes) : option Body :=
  match plain_of key c with
  | None => None
  | Some f => if byte_at c 9 =? 1
              then match sds_decode f with Ok s => Some (BSds s) | _ => None end
              else match PtResponse_decode PtResponse_zero f with Ok s => Some (BResp s) | _ => None end
  end.

Lemma PtResponse_decode_nf p b : nf (PtResponse_decode p b).
Proof.
  unfold PtResponse_decode. apply nf_rbind; intros. apply nf_rbind; intros. destruct (_ =? 0); [apply nf_ok|].
  apply nf_bind; [apply sds_decode_nf|intros; apply nf_ok].
Qed.

Lemma skipn_at (c : bytes) n : (S n <= length c)%nat -> skipn n c = nth n c 0 :: skipn (S n) c.
Proof.
  revert c. induction n as [|n IH]; intros [|x c] H; cbn in H; try lia; [reflexivity|]. cbn [skipn nth].
  rewrite (IH c) by lia. reflexivity.
Qed.

Lemma skipn_plus (c : bytes) n m : skipn m (skipn n c) = skipn (n + m) c.
Proof. revert c. induction n as [|n IH]; intros [|x c]; cbn [skipn plus]; [reflexivity..| |apply IH]. destruct m; reflexivity. Qed.

Lemma byte_at_lt c i : bytes_ok c -> byte_at c i < 256.
Proof.
  intros H. unfold byte_at. destruct (Nat.lt_ge_cases i (length c)) as [Hi|Hi].
  - unfold bytes_ok in H. rewrite Forall_forall in H. apply (H _ (nth_In _ 0 Hi)).
  - rewrite nth_overflow by assumption. lia.
Qed.
Lemma word_at_lt c i : bytes_ok c -> word_at c i < 65536.
Proof. intros H. unfold word_at. pose proof (byte_at_lt c i H). pose proof (byte_at_lt c (S i) H). unfold byte_at in *. lia. Qed.

Lemma covered_eq c : bytes_ok c -> u8 (byte_at c 3 + 255) = covered c.
Proof.
  intros H. pose proof (byte_at_lt c 3 H) as H3. unfold covered, u8. destruct (N.eqb_spec (byte_at c 3) 0) as [->|]; [reflexivity|].
  replace (byte_at c 3 + 255) with (byte_at c 3 - 1 + 1 * 256) by lia. rewrite N.mod_add by lia. apply N.mod_small. lia.
Qed.

Lemma hn_pos c : (11 <= hn c)%nat.
Proof. unfold hn, wire_header_size. destruct (routed c); lia. Qed.

Lemma pkg_decode_eq key p0 c spare : bytes_ok c -> (hn c <= length c)%nat ->
  pkg_decode key p0 c spare =
  let p1 := set_HCS (hcs c) (hdr_of p0 c) in
  match go_slice (c ++ spare) 0 (covered c) with
  | None => DPanic
  | Some h =>
      if negb (hcs c =? crc8 h) then DRet p1 137 false
      else if (length c =? hn c)%nat then DRet p1 132 false
      else match kind_of c with
           | None => DRet p1 133 false
           | Some e =>
               match opened key c with
               | None => DRet (set_SFRD (Some e) p1) 129 false
               | Some b => pkg_decode_tail (set_SFRD (Some b) p1) (c ++ spare) (skipn (hn c + fdl c) c)
               end
           end
  end.
Proof.
  intros Hb Hl. rewrite pkg_decode_long by assumption. fold (hn c). pose proof (hn_pos c).
  unfold pkg_decode_hcs. rewrite skipn_at by lia. replace (S (hn c - 1)) with (hn c) by lia.
  fold (byte_at c (hn c - 1)). fold (hcs c). rewrite hdr_byte. cbv zeta.
  change (p_HL (set_HCS (hcs c) (hdr_of p0 c))) with (byte_at c 3). rewrite covered_eq by assumption.
  destruct (go_slice _ _ _) as [h|]; [|reflexivity]. destruct (hcs c =? crc8 h); [|reflexivity]. cbn [negb].
  unfold pkg_decode_body.
  change (p_FDL (set_HCS (hcs c) (hdr_of p0 c))) with (word_at c 5). fold (fdl c).
  change (p_PT (set_HCS (hcs c) (hdr_of p0 c))) with (byte_at c 9).
  destruct (Nat.eqb_spec (length c) (hn c)) as [He|He].
  { rewrite <- He, skipn_all. reflexivity. }
  assert (rd_into (zeros (fdl c)) (skipn (hn c) c) = Some (frame_of c, skipn (hn c + fdl c) c)) as Hr.
  { unfold rd_into, frame_of. rewrite zeros_length. destruct (skipn (hn c) c) as [|x r] eqn:Hs.
    - apply (f_equal (@length N)) in Hs. rewrite skipn_length in Hs. cbn in Hs. lia.
    - rewrite <- Hs, skipn_plus. reflexivity. }
  rewrite Hr. unfold kind_of. change PtAppdataPacket with 1. change PtResponsePacket with 0.
  unfold opened, plain_of.
  destruct (byte_at c 9 =? 1).
  - change (p_ENA (set_SFRD (Some (BSds [])) (set_HCS (hcs c) (hdr_of p0 c)))) with (digit2 (byte_at c 2) 3).
    destruct (String.eqb _ _); [|destruct key as [k|]; [|reflexivity]; destruct (sk_decode k (frame_of c)) as [f|]; [|reflexivity]].
    + destruct (sds_decode_nf (frame_of c)) as [H1 H2]. unfold bind. destruct (sds_decode (frame_of c)); try reflexivity; congruence.
    + destruct (sds_decode_nf f) as [H1 H2]. unfold bind. destruct (sds_decode f); try reflexivity; congruence.
  - destruct (byte_at c 9 =? 0); [|reflexivity].
    change (p_ENA (set_SFRD (Some (BResp PtResponse_zero)) (set_HCS (hcs c) (hdr_of p0 c)))) with (digit2 (byte_at c 2) 3).
    destruct (String.eqb _ _); [|destruct key as [k|]; [|reflexivity]; destruct (sk_decode k (frame_of c)) as [f|]; [|reflexivity]].
    + destruct (PtResponse_decode_nf PtResponse_zero (frame_of c)) as [H1 H2]. unfold bind. destruct (PtResponse_decode _ (frame_of c)); try reflexivity; congruence.
    + destruct (PtResponse_decode_nf PtResponse_zero f) as [H1 H2]. unfold bind. destruct (PtResponse_decode _ f); try reflexivity; congruence.
Qed.

Lemma rd_num_2 r : r <> [] -> exists r', rd_num 2 r = Some (word_at r 0, r').
Proof.
  intros H. destruct r as [|x [|y r]]; [congruence| |]; unfold rd_num, rd_into, word_at.
  - eexists. cbn [length zeros repeat firstn skipn app nth le_num]. f_equal.
  - eexists. change (zeros 2) with [0; 0]. cbn [length firstn skipn]. replace (skipn (length r) []) with (@nil N) by (destruct (length r); reflexivity).
    change (le_num ([x; y] ++ [])) with (x + 256 * (y + 256 * 0)). rewrite N.mul_0_r, N.add_0_r. cbn [nth]. reflexivity.
Qed.

Lemma nth_skip (c : bytes) n i : nth i (skipn n c) 0 = nth (n + i) c 0.
Proof.
  revert c. induction n as [|n IH]; intros [|x c]; cbn [skipn]; [reflexivity..| |apply IH].
  destruct i; reflexivity.
Qed.

(** The body checksum in the frame and the bytes it is compared with. *)
Definition stored_crc (c : bytes) : N := word_at c (hn c + fdl c).
Definition crc_area (c all : bytes) : option bytes :=
  let a := byte_at c 3 in let b := a + word_at c 5 in
  if (b <? 65536) && (b <=? len all) then Some (firstn (fdl c) (skipn (N.to_nat a) all)) else None.

Lemma crc_area_eq c all : bytes_ok c ->
  go_slice all (byte_at c 3) (u16 (byte_at c 3 + word_at c 5)) = crc_area c all.
Proof.
  intros H. pose proof (byte_at_lt c 3 H). pose proof (word_at_lt c 5 H). unfold go_slice, crc_area. cbv zeta.
  destruct (N.ltb_spec (byte_at c 3 + word_at c 5) 65536) as [Hw|Hw].
  - rewrite u16_small by assumption. replace (byte_at c 3 <=? byte_at c 3 + word_at c 5) with true by (symmetry; apply N.leb_le; lia).
    cbn [andb]. destruct (_ <=? _); [|reflexivity]. unfold fdl. do 3 f_equal. lia.
  - replace (u16 (byte_at c 3 + word_at c 5)) with (byte_at c 3 + word_at c 5 - 65536) by (unfold u16; lia).
    replace (byte_at c 3 <=? byte_at c 3 + word_at c 5 - 65536) with false by (symmetry; apply N.leb_gt; lia). reflexivity.
Qed.

Lemma pkg_decode_tail_eq p c all : bytes_ok c -> p_HL p = byte_at c 3 -> p_FDL p = word_at c 5 ->
  pkg_decode_tail p all (skipn (hn c + fdl c) c) =
  if (length c <=? hn c + fdl c)%nat then DRet p 129 false
  else let p := set_SFRCS (stored_crc c) p in
       match crc_area c all with
       | None => DPanic
       | Some b => if stored_crc c =? crc16 b then DRet p 0 true else DRet p 137 false
       end.
Proof.
  intros Hb Hh Hf. unfold pkg_decode_tail. destruct (Nat.leb_spec (length c) (hn c + fdl c)) as [Hl|Hl].
  - rewrite skipn_all2 by assumption. reflexivity.
  - destruct (rd_num_2 (skipn (hn c + fdl c) c)) as (r' & ->).
    { intros H. apply (f_equal (@length N)) in H. rewrite skipn_length in H. cbn in H. lia. }
    replace (word_at (skipn (hn c + fdl c) c) 0) with (stored_crc c).
    2: { unfold stored_crc, word_at. rewrite !nth_skip, Nat.add_0_r, Nat.add_1_r. reflexivity. }
    cbv zeta. change (p_HL (set_SFRCS (stored_crc c) p)) with (p_HL p). change (p_FDL (set_SFRCS (stored_crc c) p)) with (p_FDL p).
    rewrite Hh, Hf, crc_area_eq by assumption. reflexivity.
Qed.

(** The whole of Decode on a frame with a complete header. *)
Lemma pkg_decode_full key p0 c spare : bytes_ok c -> (hn c <= length c)%nat ->
  pkg_decode key p0 c spare =
  let p1 := set_HCS (hcs c) (hdr_of p0 c) in
  match go_slice (c ++ spare) 0 (covered c) with
  | None => DPanic
  | Some h =>
      if negb (hcs c =? crc8 h) then DRet p1 137 false
      else if (length c =? hn c)%nat then DRet p1 132 false
      else match kind_of c with
           | None => DRet p1 133 false
           | Some e =>
               match opened key c with
               | None => DRet (set_SFRD (Some e) p1) 129 false
               | Some b => 
                   if (length c <=? hn c + fdl c)%nat then DRet (set_SFRD (Some b) p1) 129 false
                   else let p := set_SFRCS (stored_crc c) (set_SFRD (Some b) p1) in
                        match crc_area c (c ++ spare) with
                        | None => DPanic
                        | Some b => if stored_crc c =? crc16 b then DRet p 0 true else DRet p 137 false
                        end
               end
           end
  end.
Proof.
  intros Hb Hl. rewrite pkg_decode_eq by assumption. cbv zeta. destruct (go_slice _ _ _); [|reflexivity].
  destruct (negb _); [reflexivity|]. destruct (_ =? _)%nat; [reflexivity|]. destruct (kind_of c); [|reflexivity].
  destruct (opened key c); [|reflexivity]. apply pkg_decode_tail_eq; [assumption|reflexivity|reflexivity].
Qed.

(** ** Decoding an encoded frame *)

Lemma testbits_num8 a b c d e f g h : let n := num8 a b c d e f g h in
  N.testbit n 7 = a /\ N.testbit n 6 = b /\ N.testbit n 5 = c /\ N.testbit n 4 = d /\
  N.testbit n 3 = e /\ N.testbit n 2 = f /\ N.testbit n 1 = g /\ N.testbit n 0 = h.
Proof. destruct a, b, c, d, e, f, g, h; repeat split; reflexivity. Qed.

Definition flag_byte (p : Package) : N :=
  64 * fl2 (p_PRF p) + 32 * fl (p_RTE p) + 8 * fl2 (p_ENA p) + 4 * fl (p_CMP p) + fl2 (p_PR p).

Lemma flag_byte_digits p : wf_flags p ->
  digit2 (flag_byte p) 6 = p_PRF p /\ digit1 (flag_byte p) 5 = p_RTE p /\ digit2 (flag_byte p) 3 = p_ENA p /\
  digit1 (flag_byte p) 2 = p_CMP p /\ digit2 (flag_byte p) 0 = p_PR p /\
  N.testbit (flag_byte p) 5 = is1 (p_RTE p) /\ flag_byte p < 256.
Proof.
  intros Hf. pose proof (proj2 (flags_parse p Hf)) as Hlt. fold (flag_byte p) in Hlt. destruct Hf.
  assert (exists a b c d e f g h, flag_byte p = num8 a b c d e f g h /\
    p_PRF p = String (bit_char a) (String (bit_char b) EmptyString) /\ p_RTE p = bit_str c /\
    p_ENA p = String (bit_char d) (String (bit_char e) EmptyString) /\ p_CMP p = bit_str f /\
    p_PR p = String (bit_char g) (String (bit_char h) EmptyString)) as (a & b & c & d & e & f & g & h & Hn & -> & -> & -> & -> & ->).
  { destruct (is_flag2_bits _ wf_PRF) as (a & b & Ha). destruct (is_flag2_bits _ wf_ENA) as (d & e & Hd).
    destruct (is_flag2_bits _ wf_PR) as (g & h & Hg).
    exists a, b, (is1 (p_RTE p)), d, e, (is1 (p_CMP p)), g, h. split.
    - unfold flag_byte. rewrite Ha, Hd, Hg, !fl2_bits, !fl_eq. unfold num8. lia.
    - repeat split; auto using is_flag_bit. }
  destruct (testbits_num8 a b c d e f g h) as (H7 & H6 & H5 & H4 & H3 & H2 & H1 & H0). rewrite <- Hn in *.
  unfold digit2, digit1. change (6 + 1) with 7. change (3 + 1) with 4. change (0 + 1) with 1.
  rewrite H7, H6, H5, H4, H3, H2, H1, H0, is1_bit. repeat split; try reflexivity. assumption.
Qed.

Lemma word_mod n : n < 65536 -> n mod 256 + 256 * (n / 256 mod 256) = n.
Proof. intros H. rewrite (N.mod_small (n / 256)) by (apply N.div_lt_upper_bound; lia). pose proof (N.div_mod n 256). lia. Qed.

(** The receiver's routing fields survive when the packet has none. *)
Definition routing (p0 p : Package) : Package :=
  if is1 (p_RTE p) then p else set_PRA (p_PRA p0) (set_RCA (p_RCA p0) (set_TTL (p_TTL p0) p)).

Lemma header_size_cases p : is_flag (p_RTE p) ->
  (p_RTE p = "0"%string /\ is1 (p_RTE p) = false /\ header_size p = 11) \/
  (p_RTE p = "1"%string /\ is1 (p_RTE p) = true /\ header_size p = 16).
Proof. unfold header_size. intros [-> | ->]; [left|right]; repeat split; reflexivity. Qed.

Lemma firstn_exact (x y : bytes) : firstn (length x) (x ++ y) = x.
Proof. rewrite firstn_app, firstn_all, Nat.sub_diag. cbn [firstn]. apply app_nil_r. Qed.
Lemma skipn_exact (x y : bytes) : skipn (length x) (x ++ y) = y.
Proof. rewrite skipn_app, skipn_all, Nat.sub_diag. reflexivity. Qed.

Section Frame.
Variables (p p0 : Package) (b extra spare : bytes).
Hypothesis Hf : wf_flags p.
Hypothesis Hn : wf_nums p.
Hypothesis Hb : bytes_ok b.
Hypothesis He : bytes_ok extra.
Hypothesis Hbn : b <> [].
Hypothesis Hlen : N.of_nat (length b) < 65536.

Let n := N.of_nat (length b).
Let h := lay_header p (header_size p) n.
Let c := (lay_frame p (header_size p) b ++ extra)%list.

Lemma frame_split : c = (h ++ [crc8 h] ++ b ++ le_bytes 2 (crc16 b) ++ extra)%list.
Proof.
  unfold c, lay_frame. fold n. fold h. rewrite <- crc8_checksum. 2: { apply lay_header_ok; try assumption. unfold header_size. destruct (string_dec _ _); lia. }
  rewrite <- crc16_checksum by assumption. rw16. destruct b; [congruence|]. rewrite <- !app_assoc. reflexivity.
Qed.

Lemma frame_ok : bytes_ok c.
Proof.
  rewrite frame_split. assert (header_size p < 256) by (unfold header_size; destruct (string_dec _ _); lia).
  assert (bytes_ok h) by (apply lay_header_ok; assumption).
  apply bytes_ok_app. split; [assumption|]. apply bytes_ok_app. split.
  - apply bytes_ok_cons. split; [apply crc8_lt; assumption|apply bytes_ok_nil].
  - apply bytes_ok_app. split; [assumption|]. apply bytes_ok_app. split; [apply le_bytes_ok|assumption].
Qed.

Lemma h_length : length h = N.to_nat (header_size p - 1).
Proof. pose proof (lay_header_length p (header_size p) n) as H. fold h in H. lia. Qed.

Lemma frame_fields :
  hn c = N.to_nat (header_size p) /\ fdl c = length b /\ hcs c = crc8 h /\ byte_at c 3 = header_size p /\ word_at c 5 = n /\
  hdr_of p0 c = set_HCS (p_HCS p0) (set_SFRD (p_SFRD p0) (set_SFRCS (p_SFRCS p0) (set_FDL n (set_HL (header_size p) (routing p0 p))))) /\
  byte_at c 2 = flag_byte p /\ byte_at c 9 = p_PT p.
Proof.
  rewrite frame_split. pose proof h_length as Hh.
  assert (n < 65536) as Hn16 by (unfold n; lia).
  set (crc := crc8 h) in *. clearbody crc. set (rest := (b ++ le_bytes 2 (crc16 b) ++ extra)%list).
  assert (fdl (h ++ [crc] ++ rest) = N.to_nat n -> fdl (h ++ [crc] ++ rest) = length b) as Hfd by (unfold n; lia).
  destruct (flag_byte_digits p Hf) as (D1 & D2 & D3 & D4 & D5 & D6 & D7).
  destruct Hn. unfold is_u8, is_u16 in *.
  unfold hn, fdl, hcs, hn, hdr_of, wire_header_size, routed in *.
  unfold h, lay_header in *. unfold opt in *. fold (flag_byte p) in *.
  destruct (header_size_cases p) as [(R1 & R2 & R3)|(R1 & R2 & R3)]; [destruct Hf; assumption| |];
    rewrite R3 in *; rewrite R1 in *; cbn [string_dec] in *.
  - destruct (string_dec "0" "1"); [discriminate|].
    unfold byte_at, word_at in *. unfold le16 in *. cbn [app nth] in *.
    rewrite D6, D1, D2, D3, D4, D5, R2. rewrite !word_mod in * by assumption. unfold routing. rewrite ?R1, ?R2.
    repeat split; [auto|].
    rewrite <- R1. reflexivity.
  - destruct (string_dec "1" "1"); [|congruence].
    unfold byte_at, word_at in *. unfold le16 in *. cbn [app nth] in *.
    rewrite D6, D1, D2, D3, D4, D5, R2. rewrite !word_mod in * by assumption. unfold routing. rewrite ?R1, ?R2.
    repeat split; [auto|].
    rewrite <- R1. reflexivity.
Qed.

Lemma hs_pos : 11 <= header_size p < 256.
Proof. unfold header_size. destruct (string_dec _ _); lia. Qed.

Lemma frame_covered : go_slice (c ++ spare) 0 (covered c) = Some h.
Proof.
  destruct frame_fields as (_ & _ & _ & H3 & _). unfold covered. rewrite H3. pose proof hs_pos as Hp.
  destruct (N.eqb_spec (header_size p) 0); [lia|]. unfold go_slice. pose proof h_length as Hh.
  rewrite frame_split, <- !app_assoc. replace (_ && _) with true.
  2: { symmetry. apply andb_true_intro. split; apply N.leb_le; [lia|]. rewrite len_app. unfold len. lia. }
  rewrite N.sub_0_r, <- Hh. change (N.to_nat 0) with O. cbn [skipn]. rewrite firstn_exact. reflexivity.
Qed.


Lemma h_crc_length : length (h ++ [crc8 h]) = N.to_nat (header_size p).
Proof. rewrite app_length, h_length. cbn [length]. pose proof hs_pos. lia. Qed.

Lemma frame_frame : frame_of c = b.
Proof.
  destruct frame_fields as (H1 & H2 & _). unfold frame_of. rewrite H1, H2, frame_split.
  rewrite app_assoc, <- h_crc_length, skipn_exact, firstn_exact.
  rewrite skipn_all2, app_nil_r; [reflexivity|]. rewrite zeros_length, app_length. lia.
Qed.

Lemma frame_len : (hn c + fdl c < length c)%nat.
Proof.
  destruct frame_fields as (-> & -> & _). rewrite frame_split, app_assoc, app_length, h_crc_length, app_length, app_length, le_bytes_length. lia.
Qed.

Lemma frame_stored : stored_crc c = crc16 b.
Proof.
  destruct frame_fields as (H1 & H2 & _). unfold stored_crc, word_at. rewrite H1, H2, frame_split.
  replace (h ++ [crc8 h] ++ b ++ le_bytes 2 (crc16 b) ++ extra)%list with (((h ++ [crc8 h]) ++ b) ++ le_bytes 2 (crc16 b) ++ extra)%list
    by (rewrite <- !app_assoc; reflexivity).
  assert (N.to_nat (header_size p) + length b = length ((h ++ [crc8 h]) ++ b))%nat as Hl by (rewrite app_length, h_crc_length; reflexivity).
  rewrite Hl. set (x := ((h ++ [crc8 h]) ++ b)%list).
  rewrite (app_nth2 x _ 0 (n := length x)), (app_nth2 x _ 0 (n := S (length x))) by lia.
  rewrite Nat.sub_diag. replace (S (length x) - length x)%nat with 1%nat by lia.
  rewrite <- le16_eq. unfold le16. cbn [app nth]. apply word_mod, crc16_lt. assumption.
Qed.

Lemma frame_area : header_size p + N.of_nat (length b) < 65536 -> crc_area c (c ++ spare) = Some b.
Proof.
  intros Hfit. destruct frame_fields as (H1 & H2 & _ & H3 & H5 & _). unfold crc_area. rewrite H3, H5, H2. pose proof hs_pos.
  replace (_ <? 65536) with true by (symmetry; apply N.ltb_lt; unfold n; lia).
  replace (_ <=? len (c ++ spare)) with true.
  2: { symmetry. apply N.leb_le. rewrite len_app. unfold len at 1. pose proof frame_len as Hl. rewrite H1, H2 in Hl. unfold n. lia. }
  cbn [andb]. rewrite frame_split, <- !app_assoc, app_assoc, <- h_crc_length, skipn_exact, firstn_exact. reflexivity.
Qed.

(** Decryption of the body, as Decode does it. *)
Definition decipher (key : option SecretKey) (s : bytes) : option bytes :=
  if String.eqb (p_ENA p) "00" then Some s else match key with None => None | Some k => sk_decode k s end.

Lemma decode_frame_pre key plain body :
  decipher key b = Some plain ->
  (p_PT p = 1 /\ exists l, body = BSds l /\ sds_decode plain = Ok l)
  \/ (p_PT p = 0 /\ exists r, body = BResp r /\ PtResponse_decode PtResponse_zero plain = Ok r) ->
  pkg_decode key p0 c spare =
  match crc_area c (c ++ spare) with
  | None => DPanic
  | Some x =>
      if crc16 b =? crc16 x then DRet (filled (routing p0 p) n (crc8 h) (Some body) (crc16 b)) 0 true
      else DRet (filled (routing p0 p) n (crc8 h) (Some body) (crc16 b)) 137 false
  end.
Proof.
  intros Hd Hbody. destruct frame_fields as (H1 & H2 & H3 & H4 & H5 & H6 & H7 & H8).
  rewrite pkg_decode_full; [|exact frame_ok|pose proof frame_len; lia]. cbv zeta.
  rewrite frame_covered, H3, N.eqb_refl. cbn [negb].
  pose proof frame_len as Hl.
  replace (length c =? hn c)%nat with false.
  2: { symmetry. apply Nat.eqb_neq. lia. }
  replace (length c <=? hn c + fdl c)%nat with false by (symmetry; apply Nat.leb_gt; assumption).
  assert (opened key c = Some body) as Ho.
  { unfold opened, plain_of. rewrite H7, H8, frame_frame. destruct (flag_byte_digits p Hf) as (_ & _ & -> & _).
    unfold decipher in Hd. rewrite Hd. destruct Hbody as [(-> & l & -> & ->)|(-> & l & -> & ->)]; reflexivity. }
  rewrite Ho, frame_stored, H6.
  unfold kind_of. rewrite H8.
  assert (header_size (routing p0 p) = header_size p) as Hs by (unfold routing; destruct (is1 (p_RTE p)); reflexivity).
  unfold filled. rewrite Hs.
  destruct Hbody as [(-> & _)|(-> & _)]; reflexivity.
Qed.

Lemma decode_frame key plain body :
  header_size p + N.of_nat (length b) < 65536 ->
  decipher key b = Some plain ->
  (p_PT p = 1 /\ exists l, body = BSds l /\ sds_decode plain = Ok l)
  \/ (p_PT p = 0 /\ exists r, body = BResp r /\ PtResponse_decode PtResponse_zero plain = Ok r) ->
  pkg_decode key p0 c spare =
  DRet (filled (routing p0 p) n (crc8 h) (Some body) (crc16 b)) 0 true.
Proof.
  intros Hfit Hd Hbody. rewrite (decode_frame_pre key plain body) by assumption.
  rewrite frame_area, N.eqb_refl by assumption. reflexivity.
Qed.

Lemma decode_frame_panic key plain body :
  65536 <= header_size p + N.of_nat (length b) ->
  decipher key b = Some plain ->
  (p_PT p = 1 /\ exists l, body = BSds l /\ sds_decode plain = Ok l)
  \/ (p_PT p = 0 /\ exists r, body = BResp r /\ PtResponse_decode PtResponse_zero plain = Ok r) ->
  pkg_decode key p0 c spare = DPanic.
Proof.
  intros Hfit Hd Hbody. rewrite (decode_frame_pre key plain body) by assumption.
  destruct frame_fields as (H1 & H2 & _ & H3 & H5 & _). unfold crc_area. rewrite H3, H5.
  replace (_ <? 65536) with false by (symmetry; apply N.ltb_ge; exact Hfit). reflexivity.
Qed.

End Frame.

End WithEnv.

(** Properties C06 and C07: corrupted frames. *)
From Coq Require Import NArith ZArith Lia ZifyBool ZifyNat ZifyN String Ascii Bool List.
From Verif Require Import GoBase GoFloat Crc SubRecords Records Package SpecBase SpecCrc SpecPkg SpecSub SpecRec
  BaseFacts SubFacts SubMore RecordFacts DecodeFacts CrcFacts WireFacts PackageFacts PropSub PropRec PropPkg PropMore ConcreteEnv.
Import ListNotations.
Open Scope N_scope.

Local Opaque le_bytes crc8 crc16.

Section WithEnv.
Context {E : Env}.

Lemma flip_nil data : flip data [] = data.
Proof. destruct data; reflexivity. Qed.

Lemma nth_flip data : forall e i, (i < length data)%nat -> nth i (flip data e) 0 = N.lxor (nth i data 0) (nth i e 0).
Proof.
  induction data as [|x data IH]; intros e i Hi; [cbn in Hi; lia|]. destruct e as [|y e].
  - cbn [flip]. destruct i; rewrite N.lxor_0_r; reflexivity.
  - destruct i; cbn [flip nth]; [reflexivity|]. apply IH. cbn in Hi. lia.
Qed.

Lemma flip_len data e : length (flip data e) = length data.
Proof. revert e. induction data as [|x data IH]; intros [|y e]; cbn [flip length]; auto. Qed.

Lemma flip_firstn data : forall e n, length e = n -> (n <= length data)%nat ->
  flip data e = (flip (firstn n data) e ++ skipn n data)%list.
Proof.
  induction data as [|x data IH]; intros [|y e] n Hn Hl; cbn in Hn, Hl; subst n; try reflexivity.
  cbn [length firstn skipn flip app]. f_equal. apply IH; [reflexivity|lia].
Qed.

Lemma lxor_byte a b : a < 256 -> b < 256 -> N.lxor a b < 256.
Proof.
  intros Ha Hb. destruct (N.eq_dec (N.lxor a b) 0) as [->|Hx]; [lia|].
  change 256 with (2 ^ 8). apply N.log2_lt_pow2; [lia|].
  pose proof (N.log2_lxor a b).
  assert (N.log2 a < 8) by (destruct (N.eq_dec a 0) as [->|]; [cbn; lia|apply N.log2_lt_pow2; [lia|exact Ha]]).
  assert (N.log2 b < 8) by (destruct (N.eq_dec b 0) as [->|]; [cbn; lia|apply N.log2_lt_pow2; [lia|exact Hb]]).
  lia.
Qed.

Lemma flip_bytes data e : bytes_ok data -> bytes_ok e -> bytes_ok (flip data e).
Proof.
  intros Hd. revert e. induction Hd as [|x data Hx Hd IH]; intros e He; [constructor|]. destruct He as [|y e Hy He]; cbn [flip].
  - constructor; assumption.
  - constructor; [apply lxor_byte; assumption|apply IH; assumption].
Qed.

(** ** C06 *)
(** The errors [e] cover exactly the bytes under the header checksum; they leave alone the
    length byte, the routing flag and the checksum byte itself. *)
Theorem C06_header_corruption_partial : forall key p0 c spare p code e,
  is_bytes (c ++ spare) -> pkg_decode key p0 c spare = DRet p code true ->
  is_bytes e -> N.of_nat (length e) = covered c -> covered c <= N.of_nat (length c) ->
  byte_at e 3 = 0 -> N.testbit (byte_at e 2) 5 = false -> byte_at e (wire_header_size c - 1) = 0 ->
  burst 8 (bits_of e) \/ odd_errors (bits_of e) \/ two_errors 126 (bits_of e) ->
  forall key' p0' spare', exists p', pkg_decode key' p0' (flip c e) spare' = DRet p' 137 false.
Proof.
  intros key p0 c spare p code e Hb Hd He Hle Hcl H3 H5 Hh Herr key' p0' spare'.
  apply C11_accepted_frames in Hd; [|assumption]. destruct Hd as (_ & _ & Hc & _ & Hs & _).
  apply bytes_ok_app in Hb as [Hb _]. unfold header_complete, header_sum_ok in *. fold (hn c) in *.
  pose proof (hn_pos c) as Hp.
  set (n := N.to_nat (covered c)) in *. assert (length e = n) as Hen by lia.
  rewrite firstn_app in Hs. replace (n - length c)%nat with 0%nat in Hs by lia. cbn [firstn] in Hs. rewrite app_nil_r in Hs.
  assert (forall i, (i < length c)%nat -> byte_at (flip c e) i = N.lxor (byte_at c i) (byte_at e i)) as Hby
    by (intros; unfold byte_at; apply nth_flip; assumption).
  assert (routed (flip c e) = routed c) as Hr.
  { unfold routed. rewrite Hby by lia. rewrite N.lxor_spec, H5. apply xorb_false_r. }
  assert (hn (flip c e) = hn c) as Hhn by (unfold hn, wire_header_size; rewrite Hr; reflexivity).
  assert (covered (flip c e) = covered c) as Hcov.
  { unfold covered. rewrite Hby, H3, N.lxor_0_r by lia. reflexivity. }
  rewrite pkg_decode_full; [|apply flip_bytes; assumption|rewrite Hhn, flip_len; assumption].
  cbv zeta. rewrite Hcov. rewrite go_slice_0 by (unfold len; rewrite app_length, flip_len; lia).
  assert (firstn n (flip c e ++ spare') = flip (firstn n c) e) as Hf.
  { rewrite firstn_app, flip_len. replace (n - length c)%nat with 0%nat by lia. cbn [firstn]. rewrite app_nil_r.
    rewrite (flip_firstn c e n) by lia. replace n with (length (flip (firstn n c) e)) at 1 by (rewrite flip_len, firstn_length; lia).
    apply firstn_exact. }
  fold n. rewrite Hf.
  assert (hcs (flip c e) = crc8 (firstn n c)) as Hhcs.
  { unfold hcs. rewrite Hhn, Hby by lia. rewrite Hh, N.lxor_0_r. rewrite Hs. symmetry. apply crc8_checksum. apply bytes_ok_firstn. assumption. }
  rewrite Hhcs.
  assert (crc8 (flip (firstn n c) e) <> crc8 (firstn n c)) as Hne.
  { apply detect8; [apply bytes_ok_firstn; assumption|assumption|rewrite firstn_length; lia|exact Herr]. }
  destruct (N.eqb_spec (crc8 (firstn n c)) (crc8 (flip (firstn n c) e))) as [Hx|]; [congruence|]. cbn [negb]. eauto.
Qed.

(** ** C07 *)
(** The errors [e] cover exactly the body; the frame's length byte is its header size. *)
Theorem C07_body_corruption_partial : forall key p0 c spare p code e,
  is_bytes (c ++ spare) -> pkg_decode key p0 c spare = DRet p code true ->
  byte_at c 3 = N.of_nat (wire_header_size c) ->
  is_bytes e -> N.of_nat (length e) = word_at c 5 ->
  burst 16 (bits_of e) \/ odd_errors (bits_of e) \/ two_errors (N.to_nat 32766) (bits_of e) ->
  forall key' p0' spare', exists p' code',
    pkg_decode key' p0' (flip_at (wire_header_size c) c e) spare' = DRet p' code' false /\ (code' = 129 \/ code' = 137).
Proof.
  intros key p0 c spare p code e Hb Hd Hhl He Hle Herr key' p0' spare'.
  apply C11_accepted_frames in Hd; [|assumption].
  destruct Hd as (_ & _ & Hc & _ & Hs & Hsp & Hlt & _ & Hbs & _ & _ & body & _ & Hbody).
  apply bytes_ok_app in Hb as [Hb _]. unfold header_complete, header_sum_ok, sum_present, body_sum_ok, flip_at in *.
  fold (hn c) in *. pose proof (hn_pos c) as Hp.
  set (n := hn c) in *. set (f := N.to_nat (word_at c 5)) in *. assert (length e = f) as Hef by lia.
  assert (covered c = N.of_nat (n - 1)) as Hcv.
  { unfold covered. destruct (N.eqb_spec (byte_at c 3) 0); lia. }
  rewrite Hcv, Nat2N.id in Hs. rewrite firstn_app in Hs. replace (n - 1 - length c)%nat with 0%nat in Hs by lia. cbn [firstn] in Hs. rewrite app_nil_r in Hs.
  assert (N.to_nat (byte_at c 3) = n) as HN by lia. rewrite HN in Hbs.
  rewrite skipn_app in Hbs. replace (n - length c)%nat with 0%nat in Hbs by lia. cbn [skipn] in Hbs.
  rewrite firstn_app in Hbs. rewrite skipn_length in Hbs. replace (f - (length c - n))%nat with 0%nat in Hbs by lia. cbn [firstn] in Hbs. rewrite app_nil_r in Hbs.
  set (c' := (firstn n c ++ flip (skipn n c) e)%list).
  assert (length c' = length c) as Hlc by (unfold c'; rewrite app_length, flip_len, firstn_length, skipn_length; lia).
  assert (bytes_ok c') as Hb' by (unfold c'; apply bytes_ok_app; split; [apply bytes_ok_firstn|apply flip_bytes; [apply bytes_ok_skipn|]]; assumption).
  assert (forall i, (i < n)%nat -> byte_at c' i = byte_at c i) as Hlow.
  { intros i Hi. unfold byte_at, c'. rewrite app_nth1 by (rewrite firstn_length; lia). apply nth_firstn. assumption. }
  assert (forall i, (n + f <= i < length c)%nat -> byte_at c' i = byte_at c i) as Hhigh.
  { intros i Hi. unfold byte_at, c'. rewrite app_nth2 by (rewrite firstn_length; lia). rewrite firstn_length.
    rewrite nth_flip by (rewrite skipn_length; lia). rewrite (nth_overflow e) by lia. rewrite N.lxor_0_r, nth_skip. f_equal. lia. }
  assert (hn c' = n) as Hhn.
  { unfold hn, wire_header_size, routed. rewrite Hlow by lia. reflexivity. }
  assert (word_at c' 5 = word_at c 5) as Hw5.
  { pose proof (Hlow 5%nat). pose proof (Hlow 6%nat). unfold word_at, byte_at in *. rewrite H, H0 by lia. reflexivity. }
  assert (byte_at c' 3 = byte_at c 3) as Hb3 by (apply Hlow; lia).
  assert (covered c' = covered c) as Hcv' by (unfold covered; rewrite Hb3; reflexivity).
  assert (firstn (n - 1) c' = firstn (n - 1) c) as Hfn.
  { unfold c'. rewrite firstn_app, firstn_firstn, firstn_length. replace (n - 1 - min n (length c))%nat with 0%nat by lia.
    cbn [firstn]. rewrite app_nil_r. f_equal. lia. }
  assert (hcs c' = crc8 (firstn (n - 1) c')) as Hhcs.
  { unfold hcs. rewrite Hhn, Hlow by lia. rewrite Hs, Hfn. symmetry. apply crc8_checksum. apply bytes_ok_firstn. assumption. }
  assert (crc_area c' (c' ++ spare') = Some (flip (firstn f (skipn n c)) e)) as Harea.
  { unfold crc_area, fdl. rewrite Hb3, Hw5. fold f.
    replace (_ && _) with true.
    2: { symmetry. apply andb_true_iff. split; [apply N.ltb_lt; assumption|]. apply N.leb_le. unfold len. rewrite app_length, Hlc. lia. }
    rewrite HN. f_equal. rewrite skipn_app, Hlc. replace (n - length c)%nat with 0%nat by lia. cbn [skipn].
    rewrite firstn_app, skipn_length, Hlc. replace (f - (length c - n))%nat with 0%nat by lia. cbn [firstn]. rewrite app_nil_r.
    unfold c'. rewrite skipn_app, firstn_length, skipn_all2 by (rewrite firstn_length; lia).
    replace (n - min n (length c))%nat with 0%nat by lia. cbn [skipn app].
    rewrite (flip_firstn _ e f) by (rewrite ?skipn_length; lia).
    rewrite firstn_app, flip_len, firstn_length, skipn_length. replace (f - min f (length c - n))%nat with 0%nat by lia. cbn [firstn]. rewrite app_nil_r.
    apply firstn_all2. rewrite flip_len, firstn_length. lia. }
  assert (crc16 (flip (firstn f (skipn n c)) e) <> crc16 (firstn f (skipn n c))) as Hne.
  { apply detect16; [apply bytes_ok_firstn, bytes_ok_skipn; assumption|assumption|rewrite firstn_length, skipn_length; lia|exact Herr]. }
  assert (stored_crc c' = crc16 (firstn f (skipn n c)) \/ (S (n + f) = length c)) as Hst.
  { destruct (Nat.eq_dec (S (n + f)) (length c)); [auto|left]. unfold stored_crc, fdl. rewrite Hhn, Hw5. fold f.
    rewrite crc16_checksum by (apply bytes_ok_firstn, bytes_ok_skipn; assumption). rewrite <- Hbs.
    pose proof (Hhigh (n + f)%nat). pose proof (Hhigh (S (n + f))). unfold word_at, byte_at in *. rewrite H, H0 by lia. reflexivity. }
  assert (stored_crc c' = crc16 (firstn f (skipn n c))) as Hst'.
  { destruct Hst as [Hst|Hst]; [exact Hst|]. unfold stored_crc, fdl. rewrite Hhn, Hw5. fold f.
    rewrite crc16_checksum by (apply bytes_ok_firstn, bytes_ok_skipn; assumption). rewrite <- Hbs.
    pose proof (Hhigh (n + f)%nat). unfold word_at, byte_at in *. rewrite H by lia.
    rewrite !(nth_overflow _ _ (n := S (n + f))) by lia. reflexivity. }
  rewrite pkg_decode_full by (try assumption; rewrite Hhn, Hlc; assumption). cbv zeta.
  rewrite go_slice_0 by (rewrite Hcv', Hcv; unfold len; rewrite app_length, Hlc; lia).
  rewrite Hcv', Hcv, Nat2N.id. rewrite firstn_app. rewrite Hlc. replace (n - 1 - length c)%nat with 0%nat by lia. cbn [firstn]. rewrite app_nil_r.
  rewrite <- Hhcs, N.eqb_refl. cbn [negb].
  destruct (Nat.eqb_spec (length c) (hn c')) as [Hx|_]; [rewrite Hhn in Hx; lia|].
  destruct (kind_of c') as [k|] eqn:Hk.
  2: { exfalso. assert (byte_at c' 9 = byte_at c 9) as H9 by (apply Hlow; lia). unfold kind_of in Hk. rewrite H9 in Hk.
       destruct Hbody as (plain & _ & [(H & _)|(H & _)]); rewrite H in Hk; discriminate. }
  destruct (opened key' c'); [|eauto 6]. destruct (_ <=? _)%nat; [eauto 6|].
  rewrite Harea, Hst'. destruct (N.eqb_spec (crc16 (firstn f (skipn n c))) (crc16 (flip (firstn f (skipn n c)) e))); [congruence|eauto 6].
Qed.

End WithEnv.

(** ** Concrete frames *)
(** A response frame: 11 header bytes, 3 body bytes, checksum. *)
Definition resp_frame : list N := [1; 0; 0; 11; 0; 3; 0; 7; 0; 0; 179; 7; 0; 0; 12; 73].
Ltac okb := match goal with |- is_bytes ?b => change (bytes_ok b) end; apply bytes_okb_ok; vm_compute; reflexivity.

Example C06_hyps : let e := [0; 0; 0; 0; 0; 0; 0; 5; 160; 0] in
  (exists p, pkg_decode (E := env0) None Package_zero resp_frame [] = DRet p 0 true)
  /\ is_bytes (resp_frame ++ []) /\ is_bytes e /\ N.of_nat (length e) = covered resp_frame
  /\ covered resp_frame <= N.of_nat (length resp_frame) /\ byte_at e 3 = 0 /\ N.testbit (byte_at e 2) 5 = false
  /\ byte_at e (wire_header_size resp_frame - 1) = 0 /\ burst 8 (bits_of e) /\ ~ odd_errors (bits_of e)
  /\ odd_errors (bits_of [0; 0; 0; 0; 0; 0; 0; 1; 255; 0]) /\ two_errors 126 (bits_of [128; 0; 0; 0; 0; 0; 0; 0; 0; 1]).
Proof.
  cbv zeta. split; [eexists; vm_compute; reflexivity|]. split; [okb|]. split; [okb|].
  repeat (split; [vm_compute; (reflexivity || discriminate)|]). split.
  { exists 61%nat, [true; false; true; true; false; true], 13%nat. split; [reflexivity|]. split; [cbn; lia|cbn; auto]. }
  split; [vm_compute; discriminate|]. split; [vm_compute; reflexivity|].
  exists 0%nat, 78%nat, 0%nat. split; [reflexivity|lia].
Qed.

Example C07_hyps : let e := [5; 160; 0] in
  byte_at resp_frame 3 = N.of_nat (wire_header_size resp_frame) /\ is_bytes e /\ N.of_nat (length e) = word_at resp_frame 5
  /\ burst 16 (bits_of e) /\ odd_errors (bits_of [1; 0; 255; 0]) /\ two_errors (N.to_nat 32766) (bits_of [128; 0; 1]).
Proof.
  cbv zeta. split; [reflexivity|]. split; [okb|]. split; [reflexivity|]. split; [|split; [vm_compute; reflexivity|]].
  - exists 5%nat, [true; false; true; true; false; true], 13%nat. split; [reflexivity|]. split; [cbn; lia|cbn; auto].
  - exists 0%nat, 22%nat, 0%nat. split; [reflexivity|lia].
Qed.

(** One flipped bit, the routing flag, in a frame followed by five more bytes: accepted, with
    another body. *)
Theorem C06_routing_bit_refuted :
  let c := [1; 0; 0; 11; 0; 3; 0; 7; 0; 0; 179; 214; 0; 0; 168; 27; 5; 0; 0; 168; 27] in
  let e := [0; 0; 32; 0; 0; 0; 0; 0; 0; 0] in
  (exists p, pkg_decode (E := env0) None Package_zero c [] = DRet p 0 true /\ p_SFRD p = Some (BResp (mkPtResponse 214 0 None)))
  /\ N.of_nat (length e) = covered c /\ byte_at e 3 = 0 /\ odd_errors (bits_of e)
  /\ (exists p, pkg_decode (E := env0) None Package_zero (flip c e) [] = DRet p 0 true /\ p_SFRD p = Some (BResp (mkPtResponse 5 0 None))).
Proof.
  cbv zeta. split; [eexists; split; vm_compute; reflexivity|].
  repeat (split; [vm_compute; reflexivity|]). eexists; split; vm_compute; reflexivity.
Qed.

(** Three flipped bits in a frame without anything after it: accepted. *)
Theorem C06_header_corruption_refuted :
  let c := [1; 0; 0; 11; 0; 14; 0; 186; 0; 1; 69; 7; 0; 9; 0; 0; 0; 0; 99; 4; 0; 1; 2; 246; 64; 255; 69] in
  let e := [0; 0; 32; 0; 0; 9; 0; 0; 0; 0] in
  length c = (wire_header_size c + N.to_nat (word_at c 5) + 2)%nat /\ byte_at c 3 = N.of_nat (wire_header_size c)
  /\ (exists p, pkg_decode (E := env0) None Package_zero c [] = DRet p 0 true)
  /\ N.of_nat (length e) = covered c /\ byte_at e 3 = 0 /\ odd_errors (bits_of e)
  /\ (exists p, pkg_decode (E := env0) None Package_zero (flip c e) [] = DRet p 0 true).
Proof.
  cbv zeta. repeat (split; [vm_compute; reflexivity|]). split; [eexists; vm_compute; reflexivity|].
  repeat (split; [vm_compute; reflexivity|]). eexists; vm_compute; reflexivity.
Qed.

(** A frame whose length byte is one more than its header: the first body byte is under
    neither checksum, so a flipped bit in it is accepted, and it is part of the decoded body. *)
Theorem C07_body_corruption_refuted :
  let c := [1; 0; 0; 12; 0; 3; 0; 1; 0; 0; 101; 5; 1; 0; 193; 50] in
  let e := [2; 0; 0] in
  (exists p, pkg_decode (E := env0) None Package_zero c [] = DRet p 0 true
    /\ p_SFRD p = Some (BResp (mkPtResponse 261 0 None)))
  /\ N.of_nat (length e) = word_at c 5 /\ odd_errors (bits_of e)
  /\ (exists p, pkg_decode (E := env0) None Package_zero (flip_at (wire_header_size c) c e) [] = DRet p 0 true
    /\ p_SFRD p = Some (BResp (mkPtResponse 263 0 None))).
Proof.
  cbv zeta. split; [eexists; split; vm_compute; reflexivity|]. repeat (split; [vm_compute; reflexivity|]).
  eexists; split; vm_compute; reflexivity.
Qed.

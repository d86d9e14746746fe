(** Property C99: decoding a packet depends on the bytes of the packet only. *)
From Coq Require Import NArith ZArith Lia ZifyBool ZifyNat ZifyN String Ascii Bool List.
From Verif Require Import GoBase GoFloat Crc SubRecords Records Package
  SpecBase SpecCrc SpecPkg SpecSub SpecRec
  BaseFacts SubFacts SubMore RecordFacts DecodeFacts CrcFacts WireFacts PackageFacts PropRec PropPkg ConcreteEnv.
Import ListNotations.
Open Scope N_scope.

Section WithEnv.
Context {E : Env}.

(** Too short for a header. *)
Lemma hdr_some {A} (x : A) (r : bytes) (pe : Package) code (f : A -> bytes -> dres) : hdr (Some (x, r)) pe code f = f x r.
Proof. reflexivity. Qed.
Ltac hb := repeat rewrite hdr_byte; cbv beta zeta.
Ltac hw := repeat (rewrite rd_num_tmp_2 by reflexivity; rewrite ?hdr_some); cbv beta iota zeta; hb.
Lemma pkg_decode_short2 key p0 c spare spare' : bytes_ok c -> (length c < wire_header_size c)%nat ->
  exists p, pkg_decode key p0 c spare = DRet p 131 false /\ pkg_decode key p0 c spare' = DRet p 131 false.
Proof.
  intros Hb Hl. unfold pkg_decode. set (all := (_ ++ spare)%list). clearbody all. set (all' := (_ ++ spare')%list). clearbody all'.
  destruct c as [|x0 c]; [eexists; split; reflexivity|]. hb.
  destruct c as [|x1 c]; [eexists; split; reflexivity|]. hb.
  destruct c as [|x2 c]; [eexists; split; reflexivity|]. hb.
  assert (x2 < 256) as H2 by (repeat (apply bytes_ok_cons in Hb as [? Hb]); assumption).
  destruct (digits8 x2 H2) as (-> & -> & -> & -> & ->).
  destruct c as [|x3 c]; [eexists; split; reflexivity|]. hb.
  destruct c as [|x4 c]; [eexists; split; reflexivity|]. hb.
  destruct c as [|x5 c]; [eexists; split; reflexivity|].
  destruct c as [|x6 c].
  { destruct (rd_num_tmp_1 (zeros 2) x5 eq_refl) as (n & t & -> & Ht). eexists; split; reflexivity. }
  hw.
  destruct c as [|x7 c]; [eexists; split; reflexivity|].
  destruct c as [|x8 c].
  { destruct (rd_num_tmp_1 [x5; x6] x7 eq_refl) as (n & t & -> & Ht). eexists; split; reflexivity. }
  hw.
  destruct c as [|x9 c]; [eexists; split; reflexivity|]. hb.
  unfold wire_header_size, routed in Hl. cbn [byte_at nth] in Hl.
  cbn [p_RTE set_PRV set_SKID set_PRF set_RTE set_ENA set_CMP set_PR set_HL set_HE set_FDL set_PID set_PT].
  rewrite is1_digit1. destruct (N.testbit x2 5).
  - destruct c as [|x10 c]; [eexists; split; reflexivity|].
    destruct c as [|x11 c].
    { destruct (rd_num_tmp_1 [x7; x8] x10 eq_refl) as (n & t & -> & Ht). eexists; split; reflexivity. }
    hw.
    destruct c as [|x12 c]; [eexists; split; reflexivity|].
    destruct c as [|x13 c].
    { destruct (rd_num_tmp_1 [x10; x11] x12 eq_refl) as (n & t & -> & Ht). eexists; split; reflexivity. }
    hw.
    destruct c as [|x14 c]; [eexists; split; reflexivity|]. hb.
    destruct c as [|x15 c]; [eexists; split; reflexivity|]. cbn in Hl. lia.
  - destruct c as [|x10 c]; [eexists; split; reflexivity|]. cbn in Hl. lia.
Qed.

(** The header length declared is that of a header within [c], and so is the end of the body. *)
Definition ends_inside (c : list N) : Prop := 0 < byte_at c 3 /\ byte_at c 3 + word_at c 5 <= N.of_nat (length c).

Lemma slice_inside (c t : list N) i j : j <= N.of_nat (length c) -> go_slice (c ++ t) i j = go_slice c i j.
Proof.
  intros H. unfold go_slice, len. rewrite app_length. 
  replace (j <=? N.of_nat (length c + length t)) with (j <=? N.of_nat (length c)) by lia.
  destruct (N.leb_spec i j) as [Hij|]; cbn [andb]; [|reflexivity]. destruct (j <=? _); [|reflexivity].
  f_equal. rewrite skipn_app, firstn_app, skipn_length.
  replace (N.to_nat (j - i) - (length c - N.to_nat i))%nat with 0%nat by lia. cbn [firstn]. apply app_nil_r.
Qed.
Lemma area_inside (c t : list N) : is_bytes c -> ends_inside c -> crc_area c (c ++ t) = crc_area c c.
Proof.
  intros Hb [_ H]. rewrite <- !crc_area_eq by assumption. pose proof (word_at_lt c 5 Hb). pose proof (byte_at_lt c 3 Hb).
  apply slice_inside. unfold u16. lia.
Qed.
Lemma covered_inside c : is_bytes c -> ends_inside c -> covered c <= N.of_nat (length c).
Proof. intros Hb [H1 H2]. unfold covered. replace (byte_at c 3 =? 0) with false by lia. lia. Qed.

(** What lies behind the packet in memory does not matter, if the header and the body end
    inside; missing: packets that declare to be longer than they are, or a header length of 0. *)
Theorem C99_memory_behind_partial : forall key p0 c spare spare', is_bytes c -> ends_inside c ->
  pkg_decode key p0 c spare = pkg_decode key p0 c spare'.
Proof.
  intros key p0 c spare spare' Hb Hi. destruct (Nat.le_gt_cases (wire_header_size c) (length c)) as [Hh|Hh].
  - rewrite !pkg_decode_full by assumption. cbv zeta. rewrite !area_inside, !slice_inside by (assumption || apply covered_inside; assumption).
    reflexivity.
  - destruct (pkg_decode_short2 key p0 c spare spare' Hb Hh) as (p & -> & ->). reflexivity.
Qed.

(** Bytes after the packet do not matter either, if there is a body checksum. Missing: packets
    that end with their header. *)
Theorem C99_bytes_after_partial : forall key p0 c t spare, is_bytes (c ++ t) -> ends_inside c ->
  N.of_nat (wire_header_size c) + word_at c 5 + 2 <= N.of_nat (length c) ->
  pkg_decode key p0 (c ++ t) spare = pkg_decode key p0 c spare.
Proof.
  intros key p0 c t spare Hbt Hi Hl. pose proof (proj1 (proj1 (bytes_ok_app c t) Hbt)) as Hb.
  assert (forall i, (i < length c)%nat -> byte_at (c ++ t) i = byte_at c i) as Hn.
  { intros i Hlt. unfold byte_at. rewrite app_nth1; [reflexivity|lia]. }
  assert (forall i, (S i < length c)%nat -> word_at (c ++ t) i = word_at c i) as Hw.
  { intros i Hlt. unfold word_at. fold (byte_at (c ++ t) i) (byte_at c i) (byte_at (c ++ t) (S i)) (byte_at c (S i)). rewrite !Hn by lia. reflexivity. }
  pose proof (hn_pos c) as H11. unfold hn in H11.
  assert (routed (c ++ t) = routed c) as Hr by (unfold routed; rewrite Hn by lia; reflexivity).
  assert (hn (c ++ t) = hn c) as Hhn by (unfold hn, wire_header_size; rewrite Hr; reflexivity).
  assert (fdl (c ++ t) = fdl c) as Hf by (unfold fdl; rewrite Hw by lia; reflexivity).
  assert (hcs (c ++ t) = hcs c) as Hh by (unfold hcs; rewrite Hhn; apply Hn; unfold hn; lia).
  assert (hdr_of p0 (c ++ t) = hdr_of p0 c) as Hd.
  { unfold hdr_of. rewrite Hr, !Hn, !Hw by lia. unfold wire_header_size in Hl. destruct (routed c); [rewrite !Hn, !Hw by lia|]; reflexivity. }
  assert (kind_of (c ++ t) = kind_of c) as Hk by (unfold kind_of; rewrite Hn by lia; reflexivity).
  assert (hn c + fdl c + 2 <= length c)%nat as Hlen by (unfold hn, fdl; lia).
  assert (frame_of (c ++ t) = frame_of c) as Hfr.
  { unfold frame_of. rewrite Hf, Hhn, skipn_app, firstn_app, app_length, skipn_length.
    replace (fdl c - (length c - hn c))%nat with 0%nat by lia. cbn [firstn]. rewrite app_nil_r.
    pose proof (zeros_length (fdl c)) as Hz. f_equal. rewrite (skipn_all2 (zeros (fdl c))) by lia. rewrite skipn_all2 by lia. reflexivity. }
  assert (opened key (c ++ t) = opened key c) as Ho.
  { unfold opened, plain_of. rewrite Hfr, !Hn by lia. reflexivity. }
  assert (ends_inside (c ++ t)) as Hi2.
  { destruct Hi as [I1 I2]. unfold ends_inside. rewrite Hn, Hw, app_length by lia. lia. }
  assert (stored_crc (c ++ t) = stored_crc c) as Hsc by (unfold stored_crc; rewrite Hhn, Hf; apply Hw; lia).
  rewrite !pkg_decode_full by (try assumption; unfold hn in *; rewrite ?app_length; lia). cbv zeta.
  rewrite Hh, Hd, Hk, Ho, Hsc, Hhn, Hf.
  assert (covered (c ++ t) = covered c) as Hcov by (unfold covered; rewrite Hn by lia; reflexivity). rewrite Hcov.
  rewrite (area_inside (c ++ t)), <- app_assoc, !slice_inside by (assumption || apply covered_inside; assumption).
  replace (crc_area (c ++ t) (c ++ t)) with (crc_area c (c ++ spare)).
  2: { rewrite area_inside by assumption. rewrite <- (area_inside c t) by assumption. unfold crc_area. rewrite Hf, Hn, Hw by lia. reflexivity. }
  rewrite app_length.
  replace (length c + length t =? hn c)%nat with (length c =? hn c)%nat by lia.
  replace (length c + length t <=? hn c + fdl c)%nat with (length c <=? hn c + fdl c)%nat by lia.
  reflexivity.
Qed.
End WithEnv.

(** A packet that declares a header three bytes too long: accepted, refused or a panic, as there is 0, 1
    or nothing behind it in memory. *)
Definition long_header : list N := [1; 0; 0; 14; 0; 7; 0; 0; 0; 1; 122; 0; 0; 1; 0; 0; 2; 2; 6; 104].
Theorem C99_memory_behind_refuted : 
  (exists p, pkg_decode (E := env0) None Package_zero long_header [0] = DRet p 0 true)
  /\ (exists p, pkg_decode (E := env0) None Package_zero long_header [1] = DRet p 137 false)
  /\ pkg_decode (E := env0) None Package_zero long_header [] = DPanic.
Proof. split; [eexists; vm_compute; reflexivity|]. split; [eexists; vm_compute; reflexivity|]. vm_compute. reflexivity. Qed.

(** A packet that ends with its header is refused, and accepted with two bytes more. *)
Definition header_only : list N := [1; 0; 0; 11; 0; 0; 0; 7; 0; 1; 198].
Theorem C99_bytes_after_refuted : forall spare,
  (exists p, pkg_decode (E := env0) None Package_zero header_only spare = DRet p 132 false)
  /\ (exists p, pkg_decode (E := env0) None Package_zero (header_only ++ [255; 255]) spare = DRet p 0 true).
Proof.
  intros spare.
  assert (is_bytes header_only /\ is_bytes (header_only ++ [255; 255])) as [H1 H2] by (split; apply bytes_okb_ok; reflexivity).
  split.
  - rewrite (C99_memory_behind_partial None Package_zero header_only spare []) by (try assumption; split; vm_compute; discriminate || reflexivity).
    eexists. vm_compute. reflexivity.
  - rewrite (C99_memory_behind_partial None Package_zero (header_only ++ [255; 255]) spare []) by (try assumption; split; vm_compute; discriminate || reflexivity).
    eexists. vm_compute. reflexivity.
Qed.

(** The hypotheses hold for a packet with a record. *)
Example C99_hyps : let c := [1; 0; 0; 11; 0; 7; 0; 0; 0; 1; 50; 0; 0; 1; 0; 0; 2; 2; 6; 104] in
  is_bytes c /\ ends_inside c /\ N.of_nat (wire_header_size c) + word_at c 5 + 2 <= N.of_nat (length c).
Proof. cbv zeta. split; [apply bytes_okb_ok; reflexivity|]. split; [split; vm_compute; discriminate || reflexivity|vm_compute; discriminate]. Qed.

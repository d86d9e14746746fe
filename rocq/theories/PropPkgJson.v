(** The JSON text of packets: C89, of received packets: C90, and what it leaves out: C91. *)
From Coq Require Import String NArith ZArith Reals List Bool Lia.
From Flocq Require Import BinarySingleNaN.
From Verif Require Import GoBase GoFloat SubRecords Records Package SpecBase BaseFacts SpecSub SpecRec SpecCrc SpecPkg PropPkg SpecSrv RangeFacts
  SpecDec SpecReads ReadsFacts PropDec FloatFacts Json SpecJson Utf8Facts JsonFacts PropJson TimeText SpecTime TimeFacts
  Protobuf SpecPb PropPb PkgJson SpecPkgJson PkgJsonFacts PkgJsonDet ConcreteEnv.
Import ListNotations.
Open Scope N_scope.

Section Pb.
Context (oor : f64 -> N) (oor_ok : forall x, oor x < 4294967296).
Local Instance E : Env := env_pb oor oor_ok.

(** ** C89 *)
(** The text of a packet is JSON for the object of that packet; there is none exactly when a time
    is outside the years 0 to 9999 or a float is not a number. *)
Theorem C89_packet_json : forall ni p, typed storage_ok p ->
  match Package_ToBytes j_storage ni p with
  | Some t => writable storage_finite p /\ exists v, json_text t v /\ package_json storage_json p v
  | None => ~ writable storage_finite p
  end.
Proof.
  intros ni p Hp. pose proof (built_package _ _ _ _ built_storage ni p Hp) as H.
  unfold Package_ToBytes. destruct (j_package _ ni p) as [v|]; cbn [built option_map] in *; [|exact H].
  destruct H as (H1 & H2 & H3). split; [exact H1|]. exists (cleanj v). split; [apply pr_text, H2|exact H3].
Qed.

(** Whoever reads the text as JSON gets the object of the packet. *)
Theorem C89_packet_json_is_read_back : forall ni p t v, typed storage_ok p ->
  Package_ToBytes j_storage ni p = Some t -> json_doc t v -> package_json storage_json p v.
Proof.
  intros ni p t v Hp Ht Hv. pose proof (C89_packet_json ni p Hp) as H. rewrite Ht in H. destruct H as (_ & w & Hw & Hn).
  rewrite (json_doc_det _ _ _ Hv (json_doc_text _ _ Hw)). exact Hn.
Qed.

(** ** C90 *)
Lemma data_in_subs r d : data_in r d <-> In d (subs r).
Proof.
  unfold data_in, subs. rewrite in_flat_map. split.
  - intros (x & H1 & H2). exists x. split; [exact H1|]. rewrite H2. left. reflexivity.
  - intros (x & H1 & H2). exists x. split; [exact H1|]. destruct (rd_SRD x) as [d'|]; [|destruct H2]. destruct H2 as [<-|[]]. reflexivity.
Qed.

(** The records of a packet that was read come from some bytes. *)
Lemma read_records key p0 c spare p : is_bytes (c ++ spare) -> gives_bytes key -> pkg_decode key p0 c spare = DRet p 0 true ->
  exists b, bytes_ok b /\ reads_recs b (records_of p).
Proof.
  intros Hb Hk H. destruct (C11_accepted_frames key p0 c spare p 0 Hb H) as (_ & _ & _ & _ & _ & _ & _ & _ & _ & _ & _ & body & Hp & plain & Hpl & Ha).
  assert (bytes_ok plain) as Hpb.
  { destruct Hpl as [(_ & ->)|(_ & k & -> & Hd)]; [apply declared_bytes, (proj1 (proj1 (bytes_ok_app _ _) Hb))|]. eapply Hk; [reflexivity|exact Hd]. }
  unfold records_of. rewrite Hp. destruct Ha as [(_ & l & -> & Hl)|(_ & r & -> & Hr)].
  - exists plain. split; [exact Hpb|]. apply C87_records_accepts; assumption.
  - apply C87_response_body_accepts in Hr; [|exact Hpb]. destruct Hr as (_ & _ & q & -> & Hq).
    destruct Hq as [[_ ->]|(_ & l & Hl & ->)]; [exists []; split; constructor|]. exists q. split; [|exact Hl].
    apply bytes_ok_app in Hpb as [_ Hpb]. apply bytes_ok_app in Hpb as [_ Hpb]. exact Hpb.
Qed.

(** What is known of records that were read. *)
Definition read_data (d : SubData) : Prop := (exists t n b, means t n b d) \/ exists x, d = DResponse x.
Lemma reads_all :
  (forall b l, reads_recs b l -> forall r, In r l -> wf_rec r /\ forall d, data_in r d -> read_data d) /\
  (forall b l, reads_subs b l -> forall x d, In x l -> rd_SRD x = Some d -> read_data d).
Proof.
  apply (reads_min _ (fun b l => forall r, In r l -> wf_rec r /\ forall d, data_in r d -> read_data d)
    (fun b l => forall x d, In x l -> rd_SRD x = Some d -> read_data d)).
  - intros r [].
  - intros s c w r l Hs _ _ _ IH1 _ IH2 r' [<-|Hr]; [|apply IH2, Hr]. split; [exact Hs|]. intros d (x & Hx & Hd). eapply IH1; eassumption.
  - intros x d [].
  - intros t n z c b r d l _ _ Hm _ IH x d' [<-|Hx]; [|apply IH, Hx]. cbn [rd_SRD]. intros H. injection H as <-. left. eauto.
  - intros n z c d q k r l _ _ _ _ _ _ IH x d' [<-|Hx]; [|apply IH, Hx]. cbn [rd_SRD]. intros H. injection H as <-. right. eauto.
  - intros t n z c b r l _ _ _ _ IH. exact IH.
Qed.
Lemma read_storage b l : bytes_ok b -> sds_decode b = Ok l -> forall r m, In r l -> data_in r (DEgtsPlus m) -> storage_ok m.
Proof.
  intros Hb H r m Hr Hd. rewrite data_in_subs in Hd.
  refine (sds_decode_all (fun d => match d with DEgtsPlus m => storage_ok m | _ => True end) _ b l Hb H r (DEgtsPlus m) Hr Hd).
  clear. intros t l b d Hb H. unfold sub_decode in H.
  repeat match type of H with (if ?c then _ else _) = _ => destruct c end; try discriminate;
    injection H as H; apply SubMore.bind_inv in H; destruct H as (x & Hx & H); injection H as <-; try exact I.
  unfold StorageRecord_decode in Hx. cbn in Hx. destruct (storage_unmarshal b) as [m|] eqn:Em; [|discriminate]. injection Hx as <-.
  apply (C65_decoded_record_is_kept b m Hb Em).
Qed.

Lemma zero_time_year : four_digit_year (-62135596800 * 1000000000).
Proof. rewrite four_digit_year_bounds, Z.div_mul by discriminate. vm_compute. split; [discriminate|reflexivity]. Qed.
Lemma wire_time_year n : is_u32 n -> four_digit_year ((1262304000 + Z.of_N n) * 1000000000).
Proof.
  unfold is_u32. intros H. rewrite four_digit_year_bounds, Z.div_mul by discriminate. split.
  - apply Z.le_trans with (1262304000 / 86400)%Z; [vm_compute; discriminate|]. apply Z.div_le_mono; lia.
  - apply Z.le_lt_trans with ((1262304000 + 4294967295) / 86400)%Z; [|reflexivity]. apply Z.div_le_mono; lia.
Qed.
Lemma rec_year s : wf_rec s -> four_digit_year (s_TM s).
Proof.
  intros H. pose proof (wr_TM _ H) as K. destruct (string_dec (s_TMFE s) "1").
  - destruct K as (n & Hn & ->). apply wire_time_year, Hn.
  - rewrite K. apply zero_time_year.
Qed.

Lemma read_typed key p0 c spare p : is_bytes (c ++ spare) -> gives_bytes key -> pkg_decode key p0 c spare = DRet p 0 true -> typed storage_ok p.
Proof.
  intros Hb Hk H. destruct (read_records key p0 c spare p Hb Hk H) as (b & Hbb & Hr). intros r Hi d Hd.
  destruct (proj1 reads_all _ _ Hr r Hi) as [_ Ha]. specialize (Ha d Hd). destruct d; try exact I.
  - destruct Ha as [(t & n & b' & Hm)|(x & E)]; [|discriminate E]. cbn [data_bytes_ok]. inversion Hm as [? ? ? Hw Ha _| | | | | | | | | | | | | |]; subst.
    destruct (wti_NIDE _ Hw) as [E0|E1]; [rewrite (ati_NID _ _ Ha E0); constructor|apply (wti_NID _ Hw E1)].
  - cbn [data_bytes_ok]. eapply read_storage; [exact Hbb|apply C87_records_accepts; eassumption|exact Hi|exact Hd].
Qed.

(** A packet that was read has a text unless it holds an EGTS+ float that is not a number. *)
Theorem C90_received_packet_json : forall key p0 c spare p ni, is_bytes (c ++ spare) -> gives_bytes key ->
  pkg_decode key p0 c spare = DRet p 0 true ->
  ((exists t v, Package_ToBytes j_storage ni p = Some t /\ json_text t v /\ package_json storage_json p v) <->
   forall r m, In r (records_of p) -> data_in r (DEgtsPlus m) -> storage_finite m).
Proof.
  intros key p0 c spare p ni Hb Hk H. pose proof (read_typed key p0 c spare p Hb Hk H) as Ht.
  assert ((forall r m, In r (records_of p) -> data_in r (DEgtsPlus m) -> storage_finite m) <-> writable storage_finite p) as ->.
  { destruct (read_records key p0 c spare p Hb Hk H) as (b & Hbb & Hr). split.
    - intros K r Hi. destruct (proj1 reads_all _ _ Hr r Hi) as [Hw Ha]. split; [apply rec_year, Hw|]. intros d Hd. specialize (Ha d Hd).
      destruct d; try exact I; [eapply K; eassumption|]. destruct Ha as [(t & n & b' & Hm)|(x & E)]; [|discriminate E].
      inversion Hm as [| | | | | |? ? ? k lat long w dir Hp _ _| | | | | | | |]; subst. cbn [writable_data].
      rewrite (po_NTM _ _ _ _ _ _ Hp), (po_LAT _ _ _ _ _ _ Hp), (po_LONG _ _ _ _ _ _ Hp).
      split; [apply wire_time_year, Hp|]. split; apply PropSub.C30_coordinate_decode; auto; apply Hp.
    - intros K r m Hi Hd. destruct (K r Hi) as [_ Kd]. exact (Kd _ Hd). }
  pose proof (C89_packet_json ni p Ht) as K. destruct (Package_ToBytes _ ni p) as [t|].
  - destruct K as (Hw & v & H1 & H2). split; [intros _; exact Hw|intros _; exists t, v; auto].
  - split; [intros (t & v & E & _); discriminate E|intros Hw; contradiction].
Qed.

(** A packet without such a value has a text. *)
Theorem C90_packets_without_plus : forall key p0 c spare p ni, is_bytes (c ++ spare) -> gives_bytes key ->
  pkg_decode key p0 c spare = DRet p 0 true -> (forall r m, In r (records_of p) -> ~ data_in r (DEgtsPlus m)) ->
  exists t v, Package_ToBytes j_storage ni p = Some t /\ json_text t v /\ package_json storage_json p v.
Proof.
  intros key p0 c spare p ni Hb Hk H Hn. apply (C90_received_packet_json key p0 c spare p ni Hb Hk H). intros r m Hr Hd. destruct (Hn r m Hr Hd).
Qed.

(** ** C91 *)
(** Different packets have different texts, as far as they can be told. *)
Theorem C91_packet_json_loses_nothing : forall ni ni' p p' t, typed storage_ok p -> typed storage_ok p' ->
  told storage_told p -> told storage_told p' -> settled p -> settled p' ->
  Package_ToBytes j_storage ni p = Some t -> Package_ToBytes j_storage ni' p' = Some t -> p = p'.
Proof.
  intros ni ni' p p' t O O' T T' (S1 & S2) (S1' & S2') H H'.
  pose proof (C89_packet_json ni p O) as K. pose proof (C89_packet_json ni' p' O') as K'. rewrite H in K. rewrite H' in K'.
  destruct K as (W & v & V1 & V2), K' as (W' & v' & V1' & V2'). rewrite (json_text_det _ _ _ V1' V1) in V2'.
  eapply (package_det oor oor_ok p p' v); try eassumption.
  - split; [intros _; exact S1'|intros r r' _ Hr _; apply S2', Hr].
  - split; [intros _; exact S1|intros r r' _ Hr _; apply S2, Hr].
Qed.

Lemma flag_utf8 s : is_flag s -> utf8_text s.
Proof. intros [-> | ->]; [exists [48]|exists [49]]; (split; [constructor; [left; reflexivity|constructor]|reflexivity]). Qed.
Lemma flag2_utf8 s : is_flag2 s -> utf8_text s.
Proof.
  intros [-> |[-> |[-> | ->]]]; [exists [48; 48]|exists [48; 49]|exists [49; 48]|exists [49; 49]];
    (split; [constructor; [left; reflexivity|constructor; [left; reflexivity|constructor]]|reflexivity]).
Qed.
Lemma read_strings d : read_data d -> Forall utf8_text (free_strings d) -> Forall utf8_text (strings_of d).
Proof.
  intros [(t & n & b & Hm)|(x & ->)] F; [|constructor]. destruct Hm; cbn [strings_of free_strings] in *; try exact F;
    repeat match goal with H : Forall _ (_ :: _) |- _ => apply Forall_cons_iff in H as [? H] end;
    repeat (constructor; [first [assumption|apply flag_utf8; first [apply H|apply H0]|apply flag2_utf8; apply H]|]); try constructor.
Qed.

Lemma read_told key p0 c spare p : is_bytes (c ++ spare) -> gives_bytes key -> pkg_decode key p0 c spare = DRet p 0 true ->
  (forall r d, In r (records_of p) -> data_in r d -> Forall utf8_text (free_strings d)) ->
  (forall r m, In r (records_of p) -> data_in r (DEgtsPlus m) -> storage_told m) ->
  told storage_told p /\ (exists b, p_SFRD p = Some b) /\ forall r, p_SFRD p = Some (BResp r) -> pr_SDR r <> Some [].
Proof.
  intros Hb Hk H Hs Hp. destruct (C11_accepted_frames key p0 c spare p 0 Hb H) as (_ & Hh & _ & _ & _ & _ & _ & _ & _ & _ & _ & body & Hbody & plain & Hpl & Ha).
  destruct (read_records key p0 c spare p Hb Hk H) as (b & Hbb & Hr). split; [|split].
  - split.
    + pose proof (PropMore.read_wf_flags c p Hh) as [].
      repeat (constructor; [first [apply flag_utf8; assumption|apply flag2_utf8; assumption]|]). constructor.
    + intros r Hi. destruct (proj1 reads_all _ _ Hr r Hi) as [Hw Hd]. split.
      * destruct Hw. repeat (constructor; [first [apply flag_utf8; assumption|apply flag2_utf8; assumption]|]). constructor.
      * intros d Hdi. split; [apply read_strings; [apply Hd, Hdi|eapply Hs; eassumption]|]. destruct d; try exact I. eapply Hp; eassumption.
  - exists body. exact Hbody.
  - intros r Er. rewrite Er in Hbody. injection Hbody as <-. destruct Ha as [(_ & l & E1 & _)|(_ & r' & E1 & Hd)]; [discriminate E1|].
    injection E1 as <-. apply C87_response_body_accepts in Hd.
    + destruct Hd as (_ & _ & q & _ & [(_ & ->)|(Hq & l & Hl & ->)]); [discriminate|]. inversion Hl; subst; [congruence|discriminate].
    + destruct Hpl as [(_ & ->)|(_ & k & -> & Hd')]; [apply declared_bytes, (proj1 (proj1 (bytes_ok_app _ _) Hb))|]. eapply Hk; [reflexivity|exact Hd'].
Qed.

(** Packets that were read are told apart if the names and descriptions in them are UTF-8 and
    nothing in their EGTS+ records is unknown or empty. *)
Theorem C91_received_packets_told_apart : forall key p0 c spare p key' p0' c' spare' p' ni ni' t,
  is_bytes (c ++ spare) -> gives_bytes key -> pkg_decode key p0 c spare = DRet p 0 true ->
  is_bytes (c' ++ spare') -> gives_bytes key' -> pkg_decode key' p0' c' spare' = DRet p' 0 true ->
  (forall r d, In r (records_of p ++ records_of p') -> data_in r d -> Forall utf8_text (free_strings d)) ->
  (forall r m, In r (records_of p ++ records_of p') -> data_in r (DEgtsPlus m) -> storage_told m) ->
  Package_ToBytes j_storage ni p = Some t -> Package_ToBytes j_storage ni' p' = Some t -> p = p'.
Proof.
  intros key p0 c spare p key' p0' c' spare' p' ni ni' t Hb Hk H Hb' Hk' H' Hs Hp Ht Ht'.
  destruct (read_told key p0 c spare p Hb Hk H) as (T & (b & Eb) & N);
    [intros r d Hr; apply Hs, in_or_app; left; exact Hr|intros r m Hr; apply Hp, in_or_app; left; exact Hr|].
  destruct (read_told key' p0' c' spare' p' Hb' Hk' H') as (T' & (b' & Eb') & N');
    [intros r d Hr; apply Hs, in_or_app; right; exact Hr|intros r m Hr; apply Hp, in_or_app; right; exact Hr|].
  pose proof (read_typed _ _ _ _ _ Hb Hk H) as O. pose proof (read_typed _ _ _ _ _ Hb' Hk' H') as O'.
  pose proof (C89_packet_json ni p O) as K. pose proof (C89_packet_json ni' p' O') as K'. rewrite Ht in K. rewrite Ht' in K'.
  destruct K as (W & v & V1 & V2), K' as (W' & v' & V1' & V2'). rewrite (json_text_det _ _ _ V1' V1) in V2'.
  eapply (package_det oor oor_ok p p' v); try eassumption.
  - split; [intros E0; pose proof (eq_trans (eq_sym Eb) E0) as X; discriminate X|intros r r' _ Hr _; apply N', Hr].
  - split; [intros E0; pose proof (eq_trans (eq_sym Eb') E0) as X; discriminate X|intros r r' _ Hr _; apply N, Hr].
Qed.
End Pb.

(** ** Concrete cases *)
Definition ni_ex : nils := mkNils false (fun _ => false) (fun _ _ => true).
Definition oor_ex : f64 -> N := fun _ => 0.
Lemma oor_ex_ok : forall x, oor_ex x < 4294967296. Proof. reflexivity. Qed.

(** Frames: an EGTS+ fuel value that is not a number; a packet with several records; user names that
    are not UTF-8; EGTS+ fields that the library does not know.  The last two pairs have the same
    checksums. *)
Definition frame_nan : list N := [1; 0; 0; 11; 0; 33; 0; 5; 0; 1; 97; 26; 0; 1; 0; 0; 2; 2; 15; 23; 0; 8; 5; 21; 88; 195; 72;
  95; 24; 1; 37; 3; 0; 0; 0; 66; 7; 8; 1; 21; 0; 0; 192; 127; 194; 241].
Definition frame_full : list N := [1; 0; 0; 11; 0; 111; 0; 7; 0; 1; 154; 41; 0; 1; 0; 1; 5; 0; 0; 0; 2; 2; 16; 21; 0; 232; 3;
  0; 0; 0; 0; 0; 0; 0; 0; 0; 0; 97; 60; 0; 44; 1; 0; 0; 0; 0; 27; 7; 0; 33; 0; 0; 0; 101; 205; 29; 25; 4; 0; 110; 3; 2; 1; 26;
  0; 2; 0; 0; 2; 2; 15; 23; 0; 8; 5; 21; 88; 195; 72; 95; 24; 1; 37; 3; 0; 0; 0; 66; 7; 8; 1; 21; 0; 0; 72; 65; 19; 0; 3; 0; 0;
  2; 2; 7; 5; 0; 208; 175; 0; 97; 0; 1; 8; 0; 9; 0; 0; 0; 32; 1; 2; 3; 27; 84].
Definition frame_user1 : list N := [1; 0; 0; 11; 0; 17; 0; 6; 0; 1; 47; 10; 0; 1; 0; 0; 2; 2; 7; 7; 0; 128; 144; 161; 0; 65;
  66; 0; 151; 96].
Definition frame_user2 : list N := [1; 0; 0; 11; 0; 17; 0; 6; 0; 1; 47; 10; 0; 1; 0; 0; 2; 2; 7; 7; 0; 129; 128; 128; 0; 65;
  66; 0; 151; 96].
Definition frame_unk1 : list N := [1; 0; 0; 11; 0; 39; 0; 5; 0; 1; 233; 32; 0; 1; 0; 0; 2; 2; 15; 29; 0; 8; 5; 21; 88; 195;
  72; 95; 24; 1; 37; 3; 0; 0; 0; 66; 7; 8; 1; 21; 0; 0; 72; 65; 154; 6; 3; 0; 16; 33; 10; 136].
Definition frame_unk2 : list N := [1; 0; 0; 11; 0; 39; 0; 5; 0; 1; 233; 32; 0; 1; 0; 0; 2; 2; 15; 29; 0; 8; 5; 21; 88; 195;
  72; 95; 24; 1; 37; 3; 0; 0; 0; 66; 7; 8; 1; 21; 0; 0; 72; 65; 154; 6; 3; 1; 0; 0; 10; 136].

Section Examples.
Local Instance Eex : Env := env_pb oor_ex oor_ex_ok.

(** The packet that a frame is read as. *)
Definition got (c : bytes) : Package := match pkg_decode None Package_zero c [] with DRet p _ _ => p | _ => Package_zero end.
Definition taken (c : bytes) : bool :=
  bytes_okb c && match pkg_decode None Package_zero c [] with DRet _ 0 true => true | _ => false end.
Lemma taken_ok c : taken c = true -> is_bytes (c ++ []) /\ pkg_decode None Package_zero c [] = DRet (got c) 0 true.
Proof.
  unfold taken, got. intros H. apply andb_prop in H as [Hb H]. rewrite app_nil_r. split; [apply bytes_okb_ok, Hb|].
  destruct (pkg_decode _ _ _ _) as [p n b| |]; try discriminate H. destruct n; [destruct b|]; try discriminate H. reflexivity.
Qed.

(** The second frame meets the hypotheses of C89 and C90; its text is long. *)
Example C90_example : is_bytes (frame_full ++ []) /\ pkg_decode None Package_zero frame_full [] = DRet (got frame_full) 0 true /\
  length (records_of (got frame_full)) = 3%nat /\
  match Package_ToBytes j_storage ni_ex (got frame_full) with Some t => (1000 <= length t)%nat | None => False end.
Proof.
  destruct (taken_ok frame_full) as [H1 H2]; [vm_compute; reflexivity|]. split; [exact H1|]. split; [exact H2|].
  split; [vm_compute; reflexivity|]. vm_compute. lia.
Qed.

(** The first frame is accepted, yet its packet has no text. *)
Theorem C90_every_received_packet_has_a_text_refuted : is_bytes frame_nan /\ exists p,
  pkg_decode None Package_zero frame_nan [] = DRet p 0 true /\
  forall ni, Package_ToBytes j_storage ni p = None.
Proof.
  split; [apply bytes_okb_ok; reflexivity|]. exists (got frame_nan). split; [apply taken_ok; vm_compute; reflexivity|].
  intros ni. vm_compute. reflexivity.
Qed.

(** It also meets those of C91: the names are UTF-8 and the EGTS+ record has nothing that is lost. *)
Definition plus_of (d : SubData) : list StorageRecord := match d with DEgtsPlus m => [m] | _ => [] end.
Definition utf8b (s : string) : bool := forallb (fun c => c <? 256) (bytes_of_string s) && (if list_eq_dec N.eq_dec (clean (bytes_of_string s)) (bytes_of_string s) then true else false).
Definition toldb (m : message value1) : bool :=
  (length (m_unknown m) =? 0)%nat &&
  forallb (forallb (fun v => match v with
                             | VMsg x => (length (m_unknown x) =? 0)%nat && forallb (forallb (fun w => match w with VBytes [] => false | _ => true end)) (m_vals x)
                             | _ => true
                             end)) (m_vals m).
Lemma utf8b_ok s : utf8b s = true -> utf8_text s.
Proof.
  unfold utf8b. intros H. apply andb_prop in H as [H1 H2]. destruct (list_eq_dec _ _ _) as [E|]; [|discriminate H2]. unfold utf8_text. rewrite <- E.
  eapply readable_utf8, clean_readable. apply Forall_forall. intros x Hx. eapply forallb_forall in H1; [|exact Hx]. apply N.ltb_lt, H1.
Qed.
Lemma toldb_ok m : toldb m = true -> storage_told m.
Proof.
  unfold toldb. intros H. apply andb_prop in H as [H1 H2]. rewrite Nat.eqb_eq in H1. split; [destruct (m_unknown m); [reflexivity|discriminate H1]|].
  intros vs x Hvs Hx. rewrite forallb_forall in H2. specialize (H2 vs Hvs). rewrite forallb_forall in H2. specialize (H2 _ Hx). cbn beta iota in H2.
  apply andb_prop in H2 as [K1 K2]. rewrite Nat.eqb_eq in K1. split; [destruct (m_unknown x); [reflexivity|discriminate K1]|].
  intros ws w Hws Hw. rewrite forallb_forall in K2. specialize (K2 ws Hws). rewrite forallb_forall in K2. specialize (K2 _ Hw). cbn beta iota in K2.
  intros ->. discriminate K2.
Qed.
Lemma told_check p : forallb utf8b (flat_map free_strings (flat_map subs (records_of p))) = true ->
  forallb toldb (flat_map plus_of (flat_map subs (records_of p))) = true ->
  (forall r d, In r (records_of p) -> data_in r d -> Forall utf8_text (free_strings d)) /\
  (forall r m, In r (records_of p) -> data_in r (DEgtsPlus m) -> storage_told m).
Proof.
  intros H1 H2. rewrite forallb_forall in H1, H2. split.
  - intros r d Hr Hd. apply Forall_forall. intros x Hx. apply utf8b_ok, H1, in_flat_map. exists d. split; [|exact Hx].
    apply in_flat_map. exists r. split; [exact Hr|]. apply data_in_subs, Hd.
  - intros r m Hr Hd. apply toldb_ok, H2, in_flat_map. exists (DEgtsPlus m). split; [|left; reflexivity].
    apply in_flat_map. exists r. split; [exact Hr|]. apply data_in_subs, Hd.
Qed.
Example C91_example :
  (forall r d, In r (records_of (got frame_full)) -> data_in r d -> Forall utf8_text (free_strings d)) /\
  (forall r m, In r (records_of (got frame_full)) -> data_in r (DEgtsPlus m) -> storage_told m) /\
  length (flat_map free_strings (flat_map subs (records_of (got frame_full)))) = 7%nat /\
  length (flat_map plus_of (flat_map subs (records_of (got frame_full)))) = 1%nat.
Proof.
  destruct (told_check (got frame_full)) as [K1 K2]; [vm_compute; reflexivity|vm_compute; reflexivity|].
  split; [exact K1|]. split; [exact K2|]. split; vm_compute; reflexivity.
Qed.
Example C91_typed_example : typed storage_ok (got frame_full) /\ told storage_told (got frame_full) /\ settled (got frame_full).
Proof.
  destruct (taken_ok frame_full) as [H1 H2]; [vm_compute; reflexivity|]. destruct C91_example as (K1 & K2 & _ & _).
  assert (gives_bytes None) as Hk by (intros k; discriminate).
  split; [exact (read_typed oor_ex oor_ex_ok _ _ _ _ _ H1 Hk H2)|].
  destruct (read_told oor_ex oor_ex_ok _ _ _ _ _ H1 Hk H2 K1 K2) as (T & _ & N). split; [exact T|]. split; [|exact N].
  intros K. apply (f_equal (fun b => match b with Some (BSds l) => length l | _ => 9%nat end)) in K. vm_compute in K. discriminate K.
Qed.

(** User names that are not UTF-8: two packets, one text. *)
Theorem C91_any_names_refuted : is_bytes frame_user1 /\ is_bytes frame_user2 /\ exists p p' t,
  pkg_decode None Package_zero frame_user1 [] = DRet p 0 true /\ pkg_decode None Package_zero frame_user2 [] = DRet p' 0 true /\
  p <> p' /\ Package_ToBytes j_storage ni_ex p = Some t /\ Package_ToBytes j_storage ni_ex p' = Some t.
Proof.
  split; [apply bytes_okb_ok; reflexivity|]. split; [apply bytes_okb_ok; reflexivity|]. exists (got frame_user1), (got frame_user2).
  eexists. split; [apply taken_ok; vm_compute; reflexivity|]. split; [apply taken_ok; vm_compute; reflexivity|].
  split; [|split; vm_compute; reflexivity]. intros H.
  apply (f_equal (fun p => flat_map free_strings (flat_map subs (records_of p)))) in H. vm_compute in H. discriminate H.
Qed.

(** Unknown fields of an EGTS+ record: two packets, one text. *)
Theorem C91_unknown_fields_refuted : is_bytes frame_unk1 /\ is_bytes frame_unk2 /\ exists p p' t,
  pkg_decode None Package_zero frame_unk1 [] = DRet p 0 true /\ pkg_decode None Package_zero frame_unk2 [] = DRet p' 0 true /\
  p <> p' /\ Package_ToBytes j_storage ni_ex p = Some t /\ Package_ToBytes j_storage ni_ex p' = Some t.
Proof.
  split; [apply bytes_okb_ok; reflexivity|]. split; [apply bytes_okb_ok; reflexivity|]. exists (got frame_unk1), (got frame_unk2).
  eexists. split; [apply taken_ok; vm_compute; reflexivity|]. split; [apply taken_ok; vm_compute; reflexivity|].
  split; [|split; vm_compute; reflexivity]. intros H.
  apply (f_equal (fun p => map (@m_unknown _) (flat_map plus_of (flat_map subs (records_of p))))) in H. vm_compute in H. discriminate H.
Qed.
End Examples.

(** What the JSON object of a packet determines. *)
From Coq Require Import String NArith ZArith List Bool Lia.
From Flocq Require Import BinarySingleNaN.
From Verif Require Import GoBase GoFloat SubRecords Records Package BaseFacts Json SpecJson Utf8Facts JsonFacts NumTextFacts PropJson PropDec SpecTime TimeFacts
  Protobuf SpecPb PropPb PkgJson SpecPkgJson PkgJsonFacts.
Import ListNotations.
Open Scope N_scope.

(** ** Values *)
Lemma is_text_det s t v : utf8_text s -> utf8_text t -> is_text s v -> is_text t v -> s = t.
Proof. intros Hs Ht H K. apply bytes_of_string_inj. eapply is_string_det; eassumption. Qed.
Lemma is_time_det s t v : is_time s v -> is_time t v -> s = t.
Proof. intros (u & -> & H) (u' & Eu & K). injection Eu as <-. eapply time_of_det; eassumption. Qed.
Lemma is_base64_det s t v : is_base64 s v -> is_base64 t v -> s = t.
Proof. intros (u & -> & H) (u' & Eu & K). injection Eu as <-. eapply base64_of_det; eassumption. Qed.
Lemma is_blob_det s t v : is_blob s v -> is_blob t v -> s = t.
Proof.
  intros [[-> ->]|H] [[-> K]|K]; try reflexivity.
  - destruct K as (u & E & _). discriminate.
  - subst v. destruct H as (u & E & _). discriminate.
  - eapply is_base64_det; eassumption.
Qed.
Lemma is_list_det {A} (P : A -> json -> Prop) l l' v :
  (forall a b w, In a l -> In b l' -> P a w -> P b w -> a = b) -> is_list P l v -> is_list P l' v -> l = l'.
Proof.
  intros HP [[-> ->]|(vs & -> & H)] [[-> K]|(ws & E & K)]; try reflexivity; try discriminate.
  injection E as <-. revert l' HP K. induction H as [|a w l vs H1 H2 IH]; intros l' HP K; inversion K as [|b ? m ? K1 K2]; subst; [reflexivity|].
  f_equal; [apply (HP a b w); auto; left; reflexivity|]. apply IH; [|exact K2]. intros x y z Hx Hy. apply HP; right; assumption.
Qed.

(** ** EGTS+ records *)
Section Members.
Context {T K V : Type} (d : list (field K)) (m m' : message V) (blank : V -> Prop) (P : T -> V -> json -> Prop).
Definition entry_name (e : label * T * string * N) : string := match e with (_, _, name, _) => name end.
Lemma doc_members_names doc ms : doc_members d m blank P doc ms -> forall k j, In (k, j) ms -> exists name, In name (map entry_name doc) /\ k = bytes_of_string name.
Proof.
  induction 1 as [|? ? ? ? ? ? _ _ IH|? ? ? ? ? ? ? _ _ _ IH|? ? name ? ? j0 ? ? _ _ _ _ _ IH|? name ? ? js ? ? _ _ _ _ IH]; intros k j Hi; cbn [map entry_name].
  - destruct Hi.
  - destruct (IH _ _ Hi) as (nm & H1 & H2). exists nm. split; [right; exact H1|exact H2].
  - destruct (IH _ _ Hi) as (nm & H1 & H2). exists nm. split; [right; exact H1|exact H2].
  - destruct Hi as [E|Hi]; [injection E as <- _; exists name; split; [left; reflexivity|reflexivity]|].
    destruct (IH _ _ Hi) as (nm & H1 & H2). exists nm. split; [right; exact H1|exact H2].
  - destruct Hi as [E|Hi]; [injection E as <- _; exists name; split; [left; reflexivity|reflexivity]|].
    destruct (IH _ _ Hi) as (nm & H1 & H2). exists nm. split; [right; exact H1|exact H2].
Qed.
End Members.
Lemma doc_members_det {T K V : Type} (d : list (field K)) (m m' : message V) (blank : V -> Prop) (P : T -> V -> json -> Prop) doc :
  NoDup (map entry_name doc) ->
  (forall l t name n v v' j vs vs', In (l, t, name, n) doc -> field_values d m n vs -> In v vs -> field_values d m' n vs' -> In v' vs' ->
     P t v j -> P t v' j -> v = v') ->
  (forall l t name n v, In (l, t, name, n) doc -> field_values d m n [v] \/ field_values d m' n [v] -> ~ blank v) ->
  forall ms, doc_members d m blank P doc ms -> doc_members d m' blank P doc ms ->
  forall l t name n, In (l, t, name, n) doc -> exists vs, field_values d m n vs /\ field_values d m' n vs.
Proof.
  induction doc as [|[[[l0 t0] name0] n0] doc IH]; intros Hn HP Hb ms H H' l t name n Hi; [destruct Hi|].
  cbn [map entry_name] in Hn. inversion_clear Hn as [|? ? Hnot Hn'].
  assert (forall ms', doc_members d m blank P doc ms' -> doc_members d m' blank P doc ms' -> In (l, t, name, n) doc ->
    exists vs, field_values d m n vs /\ field_values d m' n vs) as Hrest.
  { intros ms' Q Q' Hi'. eapply IH; [exact Hn'| | |exact Q|exact Q'|exact Hi'].
    - intros ? ? ? ? ? ? ? ? ? Hin. eapply HP. right. exact Hin.
    - intros ? ? ? ? ? Hin. eapply Hb. right. exact Hin. }
  assert (forall x j ms', doc_members d x blank P doc ((bytes_of_string name0, j) :: ms') -> False) as Hfree.
  { intros x j ms' Q. destruct (doc_members_names _ _ _ _ _ _ Q _ j (or_introl eq_refl)) as (nm & H1 & H2). apply bytes_of_string_inj in H2. subst. contradiction. }
  assert (forall v, field_values d m n0 [v] \/ field_values d m' n0 [v] -> blank v -> False) as Hblank.
  { intros v Hv Hbv. eapply Hb; [left; reflexivity|exact Hv|exact Hbv]. }
  inversion H as [|? ? ? ? ? ? F1 D1|? ? ? ? ? ? ? F1 B1 D1|? ? ? ? ? ? ? ? L1 F1 B1 P1 D1|? ? ? ? ? ? ? F1 N1 P1 D1]; subst;
    try (exfalso; eapply Hblank; [left; eassumption|eassumption]);
  inversion H' as [|? ? ? ? ? ? F2 D2|? ? ? ? ? ? ? F2 B2 D2|? ? ? ? ? ? ? ? L2 F2 B2 P2 D2|? ? ? ? ? ? ? F2 N2 P2 D2]; subst;
    try (exfalso; eapply Hblank; [right; eassumption|eassumption]);
    try (exfalso; eapply Hfree; eassumption); try congruence.
  - destruct Hi as [E|Hi]; [injection E as <- <- <- <-; exists []; auto|]. eapply Hrest; eassumption.
  - destruct Hi as [E|Hi]; [injection E as <- <- <- <-|eapply Hrest; eassumption].
    assert (v = v0) as <-.
    { eapply HP; [left; reflexivity|exact F1|left; reflexivity|exact F2|left; reflexivity|exact P1|exact P2]. }
    exists [v]. auto.
  - destruct Hi as [E|Hi]; [injection E as <- <- <- <-|eapply Hrest; eassumption].
    assert (vs = vs0) as <-; [|exists vs; auto].
    assert (forall a b w, In a vs -> In b vs0 -> P t0 a w -> P t0 b w -> a = b) as Hab.
    { intros a b w Ha Hb'. eapply HP; [left; reflexivity|exact F1|exact Ha|exact F2|exact Hb']. }
    apply (is_list_det (P t0) vs vs0 (JArr js) Hab); right; eauto.
Qed.

Lemma forall2_len {A B} (R : A -> B -> Prop) l l' : Forall2 R l l' -> length l = length l'.
Proof. induction 1; cbn [length]; congruence. Qed.
Lemma message_det {K V} (ok : K -> V -> Prop) tk (d : list (field K)) (m m' : message V) : NoDup (map f_num d) ->
  message_ok ok tk d m -> message_ok ok tk d m' -> m_unknown m = [] -> m_unknown m' = [] ->
  (forall f, In f d -> exists vs, field_values d m (f_num f) vs /\ field_values d m' (f_num f) vs) -> m = m'.
Proof.
  intros Hn Hm Hm' U U' H. destruct m as [vals u], m' as [vals' u']. cbn [m_unknown] in U, U'. subst. f_equal.
  pose proof (proj1 Hm) as F. pose proof (proj1 Hm') as F'. cbn [m_vals] in F, F'. apply forall2_len in F, F'.
  apply nth_ext with (d := []) (d' := []); [congruence|]. intros i Hi. destruct (nth_error d i) as [f|] eqn:Ef.
  2:{ apply nth_error_None in Ef. lia. }
  destruct (H f (nth_error_In _ _ Ef)) as (vs & (j & g & E1 & E2 & E3) & (j' & g' & E1' & E2' & E3')). cbn [m_vals] in E3, E3'.
  assert (forall k h, nth_error d k = Some h -> f_num h = f_num f -> k = i) as Hk.
  { intros k h Ek En. apply (proj1 (NoDup_nth_error _) Hn).
    - rewrite map_length. apply nth_error_Some. congruence.
    - rewrite !nth_error_map, Ek, Ef. cbn. congruence. }
  rewrite (Hk _ _ E1 E2) in E3. rewrite (Hk _ _ E1' E2') in E3'.
  rewrite (nth_error_nth _ _ [] E3), (nth_error_nth _ _ [] E3'). reflexivity.
Qed.

Section Plus.

Lemma scalar_json_det t v v' j : value_ok (scalar_kind t) v -> value_ok (scalar_kind t) v' -> scalar_finite t v -> scalar_finite t v' ->
  scalar_json t v j -> scalar_json t v' j -> v = v'.
Proof.
  intros K K' F F' H H'. destruct t, v; try contradiction H; destruct v'; try contradiction H'; cbn [scalar_json scalar_kind value_ok scalar_finite] in *; f_equal.
  - eapply is_nat_det; eassumption.
  - eapply is_nat_det; eassumption.
  - pose proof (is_int_det _ _ _ H H') as E. destruct (N.ltb_spec n 2147483648), (N.ltb_spec n0 2147483648); lia.
  - destruct H as (t & -> & H), H' as (u & E & H'). injection E as <-. eapply reads32_det; eassumption.
  - eapply is_int_det; eassumption.
  - congruence.
  - eapply is_base64_det; eassumption.
  - eapply is_int_det; eassumption.
Qed.

(** Every field of the wire form is in the document. *)
Definition covers {T K} (doc : doc_message T) (d : list (field K)) : Prop :=
  forall f, In f d -> exists l t name, In (l, t, name, f_num f) doc.
Lemma covers_by {T K} (doc : doc_message T) (d : list (field K)) :
  forallb (fun f => existsb (fun e => N.eqb (snd e) (f_num f)) doc) d = true -> covers doc d.
Proof.
  intros H f Hf. rewrite forallb_forall in H. specialize (H f Hf). apply existsb_exists in H as ([[[l t] name] n] & H1 & H2).
  apply N.eqb_eq in H2. cbn in H2. subst. eauto.
Qed.
Definition leaf_doc_names (doc : doc_message SpecPb.scalar) : Prop := NoDup (map entry_name doc) /\ covers doc (fields_of scalar_kind doc).

Lemma field_values_in {K V} (d : list (field K)) (m : message V) n vs : field_values d m n vs -> In vs (m_vals m).
Proof. intros (i & f & _ & _ & H). apply (nth_error_In _ _ H). Qed.

Lemma leaf_json_det doc m m' j : leaf_doc_ok doc -> leaf_doc_names doc ->
  message_ok value_ok takes (fields_of scalar_kind doc) m -> message_ok value_ok takes (fields_of scalar_kind doc) m' ->
  leaf_finite doc m -> leaf_finite doc m' -> leaf_told m -> leaf_told m' ->
  leaf_json doc m j -> leaf_json doc m' j -> m = m'.
Proof.
  intros [Hn Hdoc] [Hnames Hcov] Hm Hm' Hf Hf' (U & B) (U' & B') (ms & -> & H) (ms' & E & H'). injection E as <-.
  apply (message_det value_ok takes (fields_of scalar_kind doc)); try assumption. intros f Hfd. destruct (Hcov f Hfd) as (l & t & name & Hi).
  eapply doc_members_det; [exact Hnames| | |exact H|exact H'|exact Hi].
  - intros l1 t1 name1 n1 v v' j1 vs vs' Hin Hv Hvi Hv' Hvi' HP HP'. rewrite Forall_forall in Hdoc. destruct (Hdoc _ Hin) as (_ & _ & Hfi).
    destruct (field_values_spec value_ok takes _ m _ Hm Hn Hfi) as (_ & F2 & _ & F4).
    destruct (field_values_spec value_ok takes _ m' _ Hm' Hn Hfi) as (_ & G2 & _ & G4). cbn [f_num f_kind] in *.
    rewrite Forall_forall in F2, G2. eapply scalar_json_det; [| | | |exact HP|exact HP'].
    + apply F2. rewrite <- (F4 _ Hv). exact Hvi.
    + apply G2. rewrite <- (G4 _ Hv'). exact Hvi'.
    + eapply Hf; eassumption.
    + eapply Hf'; eassumption.
  - intros l1 t1 name1 n1 v Hin [Hv|Hv] Ev; apply field_values_in in Hv; [eapply B|eapply B']; try exact Hv; try (left; reflexivity); symmetry; exact Ev.
Qed.

Lemma doc_storage_names : NoDup (map entry_name doc_storage_record) /\ covers doc_storage_record doc_storage /\
  Forall (fun e => match e with (_, inr doc, _, _) => leaf_doc_names doc | _ => True end) doc_storage_record.
Proof.
  split; [nodup|]. split; [apply covers_by; vm_compute; reflexivity|].
  repeat (constructor; [first [exact I|split; [nodup|apply covers_by; vm_compute; reflexivity]]|]). constructor.
Qed.

Lemma storage_json_det m m' j : storage_ok m -> storage_ok m' -> storage_finite m -> storage_finite m' -> storage_told m -> storage_told m' ->
  storage_json m j -> storage_json m' j -> m = m'.
Proof.
  intros Hm Hm' Hf Hf' (U & B) (U' & B') (ms & -> & H) (ms' & E & H'). injection E as <-.
  pose proof doc_storage_nodup as Hn. pose proof doc_storage_record_ok as Hdoc. destruct doc_storage_names as (Hnames & Hcov & Hleaf).
  apply (message_det value1_ok takes1 doc_storage); try assumption. intros f Hfd. destruct (Hcov f Hfd) as (l & t & name & Hi).
  eapply doc_members_det; [exact Hnames| | |exact H|exact H'|exact Hi].
  - intros l1 t1 name1 n1 v v' j1 vs vs' Hin Hv Hvi Hv' Hvi' HP HP'. rewrite Forall_forall in Hdoc, Hleaf. destruct (Hdoc _ Hin) as (_ & Hfi & Ht).
    specialize (Hleaf _ Hin).
    destruct (field_values_spec value1_ok takes1 _ m _ Hm Hn Hfi) as (_ & F2 & _ & F4).
    destruct (field_values_spec value1_ok takes1 _ m' _ Hm' Hn Hfi) as (_ & G2 & _ & G4). cbn [f_num f_kind] in *.
    rewrite Forall_forall in F2, G2. rewrite <- (F4 _ Hv) in F2. rewrite <- (G4 _ Hv') in G2. specialize (F2 _ Hvi). specialize (G2 _ Hvi').
    pose proof (Hf _ _ _ _ _ _ Hin Hv Hvi) as Ff. pose proof (Hf' _ _ _ _ _ _ Hin Hv' Hvi') as Gf.
    pose proof (field_values_in _ _ _ _ Hv) as Iv. pose proof (field_values_in _ _ _ _ Hv') as Iv'.
    destruct t1 as [s|doc], v as [w|x], v' as [w'|x']; try contradiction; cbn [field_json value1_ok field_finite] in *; f_equal.
    + eapply scalar_json_det; eassumption.
    + destruct Ht as [Hd _]. destruct F2 as [F2 _], G2 as [G2 _]. eapply leaf_json_det; try eassumption; [eapply B|eapply B']; eassumption.
  - intros l1 t1 name1 n1 v _ _ [].
Qed.
End Plus.

(** ** Packets *)
(** The first member tells the kinds of subrecord apart. *)
Definition kinds : list string :=
  ["CRN"; "TID"; "MT"; "DT"; "UNM"; "RCD"; "NTM"; "NSFE"; "DIOE1"; "CFE1"; "ST"; "SensorNumber"; "CN"; "LLSEF"]%string.
Definition kind_name {E : Env} (d : SubData) : option string :=
  match d with
  | DResponse _ => Some "CRN" | DTermIdentity _ => Some "TID" | DModuleData _ => Some "MT" | DDispatcherIdentity _ => Some "DT"
  | DAuthInfo _ => Some "UNM" | DResultCode _ => Some "RCD" | DEgtsPlus _ => None | DPosData _ => Some "NTM" | DExtPosData _ => Some "NSFE"
  | DAdSensors _ => Some "DIOE1" | DCounters _ => Some "CFE1" | DState _ => Some "ST" | DAbsAnSens _ => Some "SensorNumber"
  | DAbsCntr _ => Some "CN" | DLiquid _ => Some "LLSEF"
  end%string.
Definition first_name (v : json) : option string :=
  match v with
  | JObj ((k, _) :: _) => find (fun s => if list_eq_dec N.eq_dec (bytes_of_string s) k then true else false) kinds
  | _ => None
  end.
Lemma first_of {n P l v} : object (member n P :: l) v -> first_name v = find (fun s => if list_eq_dec N.eq_dec (bytes_of_string s) (bytes_of_string n) then true else false) kinds.
Proof. intros (ms & -> & H). inversion H as [|x kw y z H1 H2]; subst. destruct kw as [k w], H1 as [H1 _]. cbn in H1. subst. reflexivity. Qed.
Lemma doc_names_free : Forall (fun e => find (fun s => if list_eq_dec N.eq_dec (bytes_of_string s) (bytes_of_string (entry_name e)) then true else false) kinds = None) doc_storage_record.
Proof. repeat (constructor; [vm_compute; reflexivity|]). constructor. Qed.
Lemma storage_first m v : storage_json m v -> first_name v = None.
Proof.
  intros (ms & -> & H). destruct ms as [|[k j] ms]; [reflexivity|]. destruct (doc_members_names _ _ _ _ _ _ H k j (or_introl eq_refl)) as (name & Hn & ->).
  apply in_map_iff in Hn as (e & <- & He). pose proof doc_names_free as F. rewrite Forall_forall in F. exact (F e He).
Qed.

Section Pkg.
Context (oor : f64 -> N) (oor_ok : forall x, oor x < 4294967296).
Local Instance E : Env := env_pb oor oor_ok.

Lemma sub_first d v : sub_json storage_json d v -> first_name v = kind_name d.
Proof.
  destruct d; cbn [sub_json kind_name]; intros H; try (rewrite (first_of H); vm_compute; reflexivity).
  eapply storage_first; exact H.
Qed.

Lemma sub_object d : ~ sub_json storage_json d JNull.
Proof. destruct d; cbn [sub_json]; intros (ms & E & _); discriminate E. Qed.

Ltac dets := repeat match goal with
  | H : is_nat _ ?v, K : is_nat _ ?v |- _ => pose proof (is_nat_det _ _ _ H K); clear H K
  | H : is_int _ ?v, K : is_int _ ?v |- _ => pose proof (is_int_det _ _ _ H K); clear H K
  | H : is_time _ ?v, K : is_time _ ?v |- _ => pose proof (is_time_det _ _ _ H K); clear H K
  | H : is_blob _ ?v, K : is_blob _ ?v |- _ => pose proof (is_blob_det _ _ _ H K); clear H K
  | H : is_text ?s ?v, K : is_text ?t ?v, Hs : utf8_text ?s, Ht : utf8_text ?t |- _ => pose proof (is_text_det _ _ _ Hs Ht H K); clear H K
  | H : is_float _ ?v, K : is_float _ ?v |- _ => pose proof (is_float_det _ _ _ H K); clear H K
  end.
Ltac foralls := repeat match goal with H : Forall _ (_ :: _) |- _ => apply Forall_cons_iff in H as [? H] end.

Lemma sub_json_det d d' v : data_bytes_ok storage_ok d -> data_bytes_ok storage_ok d' -> writable_data storage_finite d -> writable_data storage_finite d' ->
  data_told storage_told d -> data_told storage_told d' ->
  sub_json storage_json d v -> sub_json storage_json d' v -> d = d'.
Proof.
  intros O O' W W' [T P] [T' P'] H H'. pose proof (sub_first d v H) as F. rewrite (sub_first d' v H') in F.
  destruct d as [d|d|d|d|d|d|d|d|d|d|d|d|d|d|d], d' as [d'|d'|d'|d'|d'|d'|d'|d'|d'|d'|d'|d'|d'|d'|d']; try discriminate F; clear F; f_equal;
    cbn [sub_json strings_of writable_data data_bytes_ok] in *;
    try (destruct H as (ms & -> & H); destruct H' as (ns & En & H'); injection En as <-; foralls; pops; try destruct W as (_ & ? & ?), W' as (_ & ? & ?); dets;
         destruct d, d'; cbn in *; subst; reflexivity).
  eapply storage_json_det; eassumption.
Qed.

Definition good_data (d : SubData) : Prop := data_bytes_ok storage_ok d /\ writable_data storage_finite d /\ data_told storage_told d.
Lemma record_data_det r r' v : (forall d, rd_SRD r = Some d -> good_data d) -> (forall d, rd_SRD r' = Some d -> good_data d) ->
  record_data_json storage_json r v -> record_data_json storage_json r' v -> r = r'.
Proof.
  intros G G' (ms & -> & H) (ns & En & H'). injection En as <-. pops. dets. destruct r as [a b c], r' as [a' b' c']. cbn in *. subst. f_equal.
  destruct c as [d|], c' as [d'|]; cbn [is_option] in *; try reflexivity.
  - destruct (G d eq_refl) as (? & ? & ?), (G' d' eq_refl) as (? & ? & ?). f_equal. eapply sub_json_det; eassumption.
  - subst. pose proof (sub_object d) as K. exfalso. eapply K; eassumption.
  - subst. pose proof (sub_object d') as K. exfalso. eapply K; eassumption.
Qed.
Definition good_record (r : ServiceDataRecord) : Prop :=
  Forall utf8_text [s_SSOD r; s_RSOD r; s_GRP r; s_RPP r; s_TMFE r; s_EVFE r; s_OBFE r] /\ forall d, data_in r d -> good_data d.
Lemma sdr_det r r' v : good_record r -> good_record r' ->
  sdr_json storage_json r v -> sdr_json storage_json r' v -> r = r'.
Proof.
  intros [T G] [T' G'] (ms & -> & H) (ns & En & H'). injection En as <-. foralls. pops. dets.
  assert (s_RD r = s_RD r') as Erd.
  { eapply is_list_det; [|eassumption|eassumption]. intros ra rb w Hx Hy. apply record_data_det; intros d Hd; [apply G|apply G']; [exists ra|exists rb]; auto. }
  destruct r, r'. cbn in *. subst. reflexivity.
Qed.
Lemma sds_det l l' v : (forall r, In r l -> good_record r) -> (forall r, In r l' -> good_record r) ->
  is_list (sdr_json storage_json) l v -> is_list (sdr_json storage_json) l' v -> l = l'.
Proof. intros G G'. apply is_list_det. intros a b w Ha Hb. apply sdr_det; auto. Qed.

(** What is missing in one packet is not empty in the other. *)
Definition apart (p p' : Package) : Prop :=
  (p_SFRD p = None -> p_SFRD p' <> Some (BSds [])) /\
  (forall r r', p_SFRD p = Some (BResp r) -> p_SFRD p' = Some (BResp r') -> pr_SDR r = None -> pr_SDR r' <> Some []).
Lemma null_empty {A} (P : A -> json -> Prop) l : is_list P l JNull -> l = [].
Proof. intros [[H _]|(? & H & _)]; [exact H|discriminate H]. Qed.
Lemma package_det p p' v : typed storage_ok p -> typed storage_ok p' -> writable storage_finite p -> writable storage_finite p' ->
  told storage_told p -> told storage_told p' -> apart p p' -> apart p' p ->
  package_json storage_json p v -> package_json storage_json p' v -> p = p'.
Proof.
  intros O O' W W' (T & L) (T' & L') (N1 & N2) (N1' & N2') (ms & -> & H) (ns & En & H'). injection En as <-. foralls. pops. dets.
  assert (forall r, In r (records_of p) -> good_record r) as G.
  { intros r Hr. destruct (L r Hr) as [L1 L2]. split; [exact L1|]. intros d Hd. split; [eapply O; eassumption|]. split; [eapply W; eassumption|apply L2, Hd]. }
  assert (forall r, In r (records_of p') -> good_record r) as G'.
  { intros r Hr. destruct (L' r Hr) as [L1 L2]. split; [exact L1|]. intros d Hd. split; [eapply O'; eassumption|]. split; [eapply W'; eassumption|apply L2, Hd]. }
  clear O O' W W' L L'.
  assert (p_SFRD p = p_SFRD p') as Es.
  { unfold records_of in G, G'. destruct (p_SFRD p) as [[l|r]|], (p_SFRD p') as [[l'|r']|]; cbn [is_option body_json] in *; try reflexivity.
    - do 2 f_equal. eapply sds_det; eassumption.
    - exfalso. match goal with A : is_list _ _ ?v, B : object _ ?v |- _ => destruct B as (? & -> & _); destruct A as [[_ A]|(? & A & _)]; discriminate A end.
    - exfalso. subst. match goal with A : is_list _ _ JNull |- _ => apply null_empty in A end. apply N1'; [reflexivity|]. do 2 f_equal. assumption.
    - exfalso. match goal with A : is_list _ _ ?v, B : object _ ?v |- _ => destruct B as (? & -> & _); destruct A as [[_ A]|(? & A & _)]; discriminate A end.
    - do 2 f_equal. match goal with A : object _ ?v, B : object _ ?v |- _ => destruct A as (ms2 & -> & A); destruct B as (ns2 & En2 & B); injection En2 as <- end.
      pops. dets. assert (pr_SDR r = pr_SDR r') as Ed.
      { specialize (N2 r r' eq_refl eq_refl). specialize (N2' r' r eq_refl eq_refl).
        destruct (pr_SDR r) as [l|], (pr_SDR r') as [l'|]; cbn [is_option] in *; try reflexivity.
        - f_equal. eapply sds_det; eassumption.
        - exfalso. subst. match goal with A : is_list _ _ JNull |- _ => apply null_empty in A end. apply N2'; [reflexivity|]. f_equal. assumption.
        - exfalso. subst. match goal with A : is_list _ _ JNull |- _ => apply null_empty in A end. apply N2; [reflexivity|]. f_equal. assumption. }
      destruct r, r'. cbn in *. subst. reflexivity.
    - exfalso. subst. match goal with A : object _ JNull |- _ => destruct A as (? & A & _); discriminate A end.
    - exfalso. subst. match goal with A : is_list _ _ JNull |- _ => apply null_empty in A end. apply N1; [reflexivity|]. do 2 f_equal. assumption.
    - exfalso. subst. match goal with A : object _ JNull |- _ => destruct A as (? & A & _); discriminate A end. }
  apply PropDec.pkg_ext; assumption.
Qed.
End Pkg.

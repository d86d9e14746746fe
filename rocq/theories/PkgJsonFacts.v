(** Facts about the JSON text of packets. *)
From Coq Require Import NArith ZArith String List Bool Lia.
From Flocq Require Import BinarySingleNaN.
From Verif Require Import GoBase BaseFacts GoFloat SubRecords Records Package Json SpecJson Utf8Facts JsonFacts TimeText SpecTime TimeFacts
  Protobuf SpecPb NumTextFacts PropJson PkgJson SpecPkgJson.
Import ListNotations.
Open Scope N_scope.

(** ** Builders *)
(** [o] is an error unless [ok], and else a value that is printed as one with [P]. *)
Definition built (o : option json) (P : json -> Prop) (ok : Prop) : Prop :=
  match o with Some v => ok /\ json_ok v /\ P (cleanj v) | None => ~ ok end.
Lemma built_iff o (P P' : json -> Prop) (ok ok' : Prop) : built o P ok -> (forall v, P v -> P' v) -> (ok <-> ok') -> built o P' ok'.
Proof. unfold built. destruct o as [v|]; [|tauto]. intros (H1 & H2 & H3) HP Hok. repeat split; auto; tauto. Qed.

Lemma built_N n : built (o_N n) (is_nat n) True.
Proof. split; [exact I|]. split; [apply number_N|apply j_N_is]. Qed.
Lemma built_Z z : built (o_Z z) (is_int z) True.
Proof. split; [exact I|]. split; [apply number_Z|apply j_Z_is]. Qed.
Lemma built_str s : built (o_str s) (is_text s) True.
Proof.
  split; [exact I|]. split; [apply bytes_of_string_ok|]. eexists. split; [reflexivity|]. apply clean_readable, bytes_of_string_ok.
Qed.
Lemma plain_ok t : Forall plain t -> bytes_ok t.
Proof. apply Forall_impl. intros c H. unfold plain in H. unfold byte_ok. lia. Qed.
Lemma plain_clean t : Forall plain t -> clean t = t.
Proof. intros H. apply clean_same; [apply plain_ok, H|apply plain_utf8, H]. Qed.
Lemma built_time t : built (o_time t) (is_time t) (four_digit_year t).
Proof.
  unfold o_time. pose proof (time_text_spec t) as H. destruct (time_text t) as [u|]; [|exact H]. destruct H as [H1 H2].
  split; [exact H1|]. pose proof (time_of_plain _ _ H2) as Hp. split; [apply plain_ok, Hp|]. exists u. split; [|exact H2].
  cbn [cleanj]. rewrite plain_clean by exact Hp. reflexivity.
Qed.
Lemma base64_is b : bytes_ok b -> json_ok (JStr (base64 b)) /\ is_base64 b (cleanj (JStr (base64 b))).
Proof.
  intros Hb. pose proof (base64_spec b Hb) as H. pose proof (base64_of_plain _ _ H) as Hp.
  split; [apply plain_ok, Hp|]. exists (base64 b). split; [|exact H]. cbn [cleanj]. rewrite plain_clean by exact Hp. reflexivity.
Qed.
Lemma built_bytes isnil b : bytes_ok b -> built (o_bytes isnil b) (is_blob b) True.
Proof.
  intros Hb. destruct (base64_is b Hb) as [H1 H2]. split; [exact I|]. destruct b as [|c b]; [destruct isnil|].
  - split; [exact I|]. left. split; reflexivity.
  - split; [exact H1|]. right. exact H2.
  - split; [exact H1|]. right. exact H2.
Qed.

(** Structs. *)
Lemma built_struct_nil : built (j_struct []) (object []) True.
Proof. split; [exact I|]. split; [exact I|]. eexists. split; [reflexivity|]. constructor. Qed.
Lemma built_struct_cons n o l P (ok ok' : Prop) Ps : clean (bytes_of_string n) = bytes_of_string n -> built o P ok ->
  built (j_struct l) (object Ps) ok' -> built (j_struct ((n, o) :: l)) (object (member n P :: Ps)) (ok /\ ok').
Proof.
  intros Hn. unfold built, j_struct. cbn [map opt_all]. change (j_member (n, o)) with (match o with Some v => Some (key n v) | None => None end).
  destruct o as [v|]; [|intros H _ [K _]; exact (H K)]. intros (H1 & H2 & H3). destruct (opt_all (map j_member l)) as [ms|]; [|tauto].
  intros (K1 & K2 & ms' & E & K3). split; [tauto|]. cbn [json_ok key]. split; [split; [split; [apply bytes_of_string_ok|exact H2]|exact K2]|].
  cbn [cleanj] in *. injection E as <-. eexists. split; [reflexivity|]. cbn [map]. constructor; [|exact K3].
  split; [exact Hn|exact H3].
Qed.

(** Slices. *)
Lemma built_list {A} isnil (f : nat -> A -> option json) (P : A -> json -> Prop) (ok : A -> Prop) (l : list A) :
  (forall i a, In a l -> built (f i a) (P a) (ok a)) ->
  built (j_list isnil (mapi f 0 l)) (is_list P l) (forall a, In a l -> ok a).
Proof.
  intros H. assert (forall i, match opt_all (mapi f i l) with
    | Some vs => (forall a, In a l -> ok a) /\ json_ok (JArr vs) /\ Forall2 P l (map cleanj vs)
    | None => ~ forall a, In a l -> ok a end) as K.
  { induction l as [|a l IH]; intros i; cbn [mapi opt_all].
    - split; [intros a []|]. split; [exact I|constructor].
    - pose proof (H i a (or_introl eq_refl)) as Ha. destruct (f i a) as [v|]; cbn [built] in Ha; [|intros K; apply Ha, K; left; reflexivity].
      specialize (IH (fun j b Hb => H j b (or_intror Hb)) (S i)). destruct (opt_all (mapi f (S i) l)) as [vs|].
      + destruct IH as (I1 & I2 & I3), Ha as (A1 & A2 & A3). split; [intros b [<-|Hb]; auto|]. split; [split; assumption|]. constructor; assumption.
      + intros K. apply IH. intros b Hb. apply K. right. exact Hb. }
  specialize (K O). destruct l as [|a l].
  - split; [intros a []|]. destruct isnil.
    + split; [exact I|]. left. split; reflexivity.
    + split; [exact I|]. right. exists []. split; [reflexivity|constructor].
  - unfold j_list. cbn [mapi] in *. destruct (opt_all (f O a :: mapi f 1 l)) as [vs|].
    + destruct K as (K1 & K2 & K3). split; [exact K1|]. split; [exact K2|]. right. eexists. split; [reflexivity|exact K3].
    + exact K.
Qed.
Lemma built_null {A} (P : A -> json -> Prop) (ok : Prop) : ok -> built (Some JNull) (is_option P None) ok.
Proof. intros H. split; [exact H|]. split; [exact I|reflexivity]. Qed.

(** ** Packets *)
Definition data_bytes_ok {E : Env} (plus_ok : StorageRecord -> Prop) (d : SubData) : Prop :=
  match d with DTermIdentity x => bytes_ok (ti_NID x) | DEgtsPlus m => plus_ok m | _ => True end.
(** Elements of []byte fields are bytes, EGTS+ records are as their types say. *)
Definition typed {E : Env} (plus_ok : StorageRecord -> Prop) (p : Package) : Prop :=
  forall r, In r (records_of p) -> forall d, data_in r d -> data_bytes_ok plus_ok d.

Section Pkg.
Context {E : Env}.
Variable j_plus : StorageRecord -> option json.
Variable plus_json : StorageRecord -> json -> Prop.
Variable plus_finite plus_ok : StorageRecord -> Prop.
Hypothesis plus_built : forall m, plus_ok m -> built (j_plus m) (plus_json m) (plus_finite m).

Lemma built_float x : built (o_float x) (is_float x) (is_finite x = true).
Proof.
  unfold o_float. destruct (is_finite x) eqn:Ef; [|discriminate]. split; [reflexivity|]. split; [eapply reads64_number, text64_reads, Ef|]. exists (text64 x). split; [reflexivity|]. apply text64_reads, Ef.
Qed.

Ltac fields := repeat (apply built_struct_cons; [vm_compute; reflexivity|
  first [apply built_N|apply built_Z|apply built_str|apply built_time|apply built_float|apply built_bytes; assumption|idtac]|]);
  try apply built_struct_nil.

Lemma built_sub isnil d : data_bytes_ok plus_ok d -> built (j_sub j_plus isnil d) (sub_json plus_json d) (writable_data plus_finite d).
Proof.
  intros Hd. destruct d; cbn [j_sub sub_json writable_data data_bytes_ok] in *;
    try (eapply built_iff; [|intros v Hv; exact Hv|]; [fields|tauto]).
  apply plus_built, Hd.
Qed.
Lemma built_record_data isnil r : (forall d, rd_SRD r = Some d -> data_bytes_ok plus_ok d) ->
  built (j_record_data j_plus isnil r) (record_data_json plus_json r) (forall d, rd_SRD r = Some d -> writable_data plus_finite d).
Proof.
  intros H. eapply built_iff; [|intros v Hv; exact Hv|].
  - unfold j_record_data, record_data_json. apply built_struct_cons; [reflexivity|apply built_N|]. apply built_struct_cons; [reflexivity|apply built_N|].
    apply built_struct_cons with (ok := forall d, rd_SRD r = Some d -> writable_data plus_finite d); [reflexivity| |apply built_struct_nil].
    destruct (rd_SRD r) as [d|].
    + eapply built_iff; [apply built_sub, H; reflexivity|intros v Hv; exact Hv|]. split; [intros Hw d' Ed; injection Ed as <-; exact Hw|auto].
    + apply built_null. discriminate.
  - tauto.
Qed.
Lemma built_sdr ni i s : (forall d, data_in s d -> data_bytes_ok plus_ok d) ->
  built (j_sdr j_plus ni i s) (sdr_json plus_json s) (four_digit_year (s_TM s) /\ forall d, data_in s d -> writable_data plus_finite d).
Proof.
  intros H. eapply built_iff; [|intros v Hv; exact Hv|].
  - unfold j_sdr, sdr_json. do 14 (apply built_struct_cons; [vm_compute; reflexivity|first [apply built_N|apply built_str|apply built_time]|]).
    apply built_struct_cons; [reflexivity| |apply built_struct_nil].
    apply built_list with (ok := fun x => forall d, rd_SRD x = Some d -> writable_data plus_finite d).
    intros j x Hx. apply built_record_data. intros d Ed. apply H. exists x. auto.
  - unfold data_in. split.
    + intros K. split; [tauto|]. intros d (x & Hx & Ed). eapply (proj1 (proj2 (proj2 (proj2 (proj2 (proj2 (proj2 (proj2 (proj2 (proj2 (proj2 (proj2 (proj2 (proj2 (proj2 K))))))))))))))); eassumption.
    + intros [K1 K2]. repeat (split; [exact I|]). split; [exact K1|]. repeat (split; [exact I|]). split; [|exact I]. intros x Hx d Ed. apply K2. exists x. auto.
Qed.
Lemma built_sds ni l : (forall r, In r l -> forall d, data_in r d -> data_bytes_ok plus_ok d) ->
  built (j_sds j_plus ni l) (is_list (sdr_json plus_json) l)
    (forall r, In r l -> four_digit_year (s_TM r) /\ forall d, data_in r d -> writable_data plus_finite d).
Proof.
  intros H. unfold j_sds. apply built_list with (ok := fun r => four_digit_year (s_TM r) /\ forall d, data_in r d -> writable_data plus_finite d).
  intros i r Hr. apply built_sdr, H, Hr.
Qed.
Lemma built_package ni p : typed plus_ok p ->
  built (j_package j_plus ni p) (package_json plus_json p) (writable plus_finite p).
Proof.
  unfold typed, writable, records_of. intros H.
  eapply built_iff; [|intros v Hv; exact Hv|].
  - unfold j_package, package_json. do 16 (apply built_struct_cons; [vm_compute; reflexivity|first [apply built_N|apply built_str]|]).
    apply built_struct_cons with (ok := forall r, In r (records_of p) -> four_digit_year (s_TM r) /\ forall d, data_in r d -> writable_data plus_finite d);
      [reflexivity| |apply built_struct_cons; [reflexivity|apply built_N|apply built_struct_nil]].
    unfold records_of. destruct (p_SFRD p) as [[l|r]|].
    + apply built_sds, H.
    + cbn [is_option body_json j_body]. eapply built_iff; [|intros v Hv; exact Hv|].
      * do 2 (apply built_struct_cons; [reflexivity|apply built_N|]).
        apply built_struct_cons with (ok := forall x, In x (match pr_SDR r with Some l => l | None => [] end) ->
          four_digit_year (s_TM x) /\ forall d, data_in x d -> writable_data plus_finite d); [reflexivity| |apply built_struct_nil].
        destruct (pr_SDR r) as [l|]; [apply built_sds, H|]. apply built_null. intros x [].
      * tauto.
    + apply built_null. intros x [].
  - unfold records_of. tauto.
Qed.
End Pkg.

(** ** EGTS+ records *)
Section Values.
Context {K V : Type} (ok : K -> V -> Prop) (tk : K -> N -> Prop).
Lemma vals_of_spec (d : list (field K)) vals f :
  Forall2 (fun f vs => Forall (ok (f_kind f)) vs /\ (f_card f <> Rep -> (length vs <= 1)%nat)) d vals ->
  NoDup (map f_num d) -> In f d ->
  (exists i, nth_error d i = Some f /\ nth_error vals i = Some (vals_of d vals (f_num f))) /\
  Forall (ok (f_kind f)) (vals_of d vals (f_num f)) /\ (f_card f <> Rep -> (length (vals_of d vals (f_num f)) <= 1)%nat) /\
  (forall i g, nth_error d i = Some g -> f_num g = f_num f -> nth_error vals i = Some (vals_of d vals (f_num f))).
Proof.
  intros H. induction H as [|g vs d vals [H1 H2] H IH]; intros Hn Hf; [destruct Hf|]. cbn [map] in Hn. inversion_clear Hn as [|? ? Hg Hd].
  cbn [vals_of]. destruct (N.eqb_spec (f_num g) (f_num f)) as [En|En].
  - destruct Hf as [->|Hf]; [|exfalso; apply Hg; rewrite En; apply in_map, Hf]. split; [exists O; split; reflexivity|]. split; [exact H1|].
    split; [exact H2|]. intros [|i] g' E1 E2; [reflexivity|]. exfalso. apply Hg. cbn in E1. rewrite <- E2. apply in_map, (nth_error_In _ _ E1).
  - destruct Hf as [->|Hf]; [congruence|]. destruct (IH Hd Hf) as ((i & A1 & A2) & A3 & A4 & A5). split; [exists (S i); split; assumption|].
    split; [exact A3|]. split; [exact A4|]. intros [|j] g' E1 E2; [injection E1 as <-; congruence|]. apply (A5 j g'); assumption.
Qed.
Lemma field_values_spec (d : list (field K)) (m : message V) f : message_ok ok tk d m -> NoDup (map f_num d) -> In f d ->
  let vs := vals_of d (m_vals m) (f_num f) in
  field_values d m (f_num f) vs /\ Forall (ok (f_kind f)) vs /\ (f_card f <> Rep -> (length vs <= 1)%nat) /\
  (forall vs', field_values d m (f_num f) vs' -> vs' = vs).
Proof.
  intros (H & _) Hn Hf vs. destruct (vals_of_spec d (m_vals m) f H Hn Hf) as ((i & A1 & A2) & A3 & A4 & A5).
  split; [exists i, f; auto|]. split; [exact A3|]. split; [exact A4|]. intros vs' (j & g & E1 & E2 & E3).
  pose proof (A5 j g E1 E2) as E4. rewrite E3 in E4. injection E4 as ->. reflexivity.
Qed.
End Values.

Lemma opt_all_built {A} (f : A -> option json) (P : A -> json -> Prop) (ok : A -> Prop) l :
  (forall a, In a l -> built (f a) (P a) (ok a)) ->
  match opt_all (map f l) with
  | Some vs => (forall a, In a l -> ok a) /\ json_ok (JArr vs) /\ Forall2 P l (map cleanj vs)
  | None => ~ forall a, In a l -> ok a end.
Proof.
  induction l as [|a l IH]; intros H; cbn [map opt_all].
  - split; [intros a []|]. split; [exact I|constructor].
  - pose proof (H a (or_introl eq_refl)) as Ha. destruct (f a) as [v|]; cbn [built] in Ha; [|intros K; apply Ha, K; left; reflexivity].
    specialize (IH (fun b Hb => H b (or_intror Hb))). destruct (opt_all (map f l)) as [vs|].
    + destruct IH as (I1 & I2 & I3), Ha as (A1 & A2 & A3). split; [intros b [<-|Hb]; auto|]. split; [split; assumption|]. constructor; assumption.
    + intros K. apply IH. intros b Hb. apply K. right. exact Hb.
Qed.

(** The tables are those of the document. *)
Definition scalar_jk (t : SpecPb.scalar) : jkind :=
  match t with
  | uint32 | fixed32 => JkU32 | sfixed32 => JkI32 | float => JkF32 | sint32 | enum_t => JkInt | bool_t => JkBool | bytes_t => JkBytes
  end.
Definition table_of (doc : doc_message SpecPb.scalar) : jtable jkind :=
  map (fun e => match e with (l, t, name, n) => (name, n, scalar_jk t) end) doc.
Definition conv1 (t : SpecPb.scalar + doc_message SpecPb.scalar) : jkind1 :=
  match t with inl enum_t => JkEnums | inl _ => JkNum | inr doc => JkMsgs (fields_of scalar_kind doc) (table_of doc) end.
Lemma t_storage_doc : t_storage = map (fun e => match e with (l, t, name, n) => (name, n, conv1 t) end) doc_storage_record.
Proof. reflexivity. Qed.
Lemma d_storage_doc : d_storage = doc_storage.
Proof. reflexivity. Qed.

Definition name_ok (name : string) : Prop := clean (bytes_of_string name) = bytes_of_string name.
Definition leaf_doc_ok (doc : doc_message SpecPb.scalar) : Prop :=
  NoDup (map f_num (fields_of scalar_kind doc)) /\
  Forall (fun e => match e with (l, t, name, n) => l = optional /\ name_ok name /\ In (mkField n (scalar_kind t) Opt) (fields_of scalar_kind doc) end) doc.
Definition top_entry_ok (e : label * (SpecPb.scalar + doc_message SpecPb.scalar) * string * N) : Prop :=
  match e with (l, t, name, n) =>
    name_ok name /\
    In (mkField n (match t with inl s => KLeaf (scalar_kind s) | inr m => KMsg (fields_of scalar_kind m) end) (to_card l)) doc_storage /\
    match t with
    | inl s => (s = enum_t /\ l = repeated) \/ ((s = uint32 \/ s = fixed32) /\ l = required)
    | inr doc => leaf_doc_ok doc /\ l = repeated
    end
  end.
Ltac nodup := repeat (constructor; [cbn; intuition discriminate|]); constructor.
Ltac leafdoc := split; [nodup|repeat (constructor; [split; [reflexivity|split; [vm_compute; reflexivity|cbn; tauto]]|]); constructor].
Lemma doc_storage_nodup : NoDup (map f_num doc_storage).
Proof. nodup. Qed.
Lemma doc_storage_record_ok : Forall top_entry_ok doc_storage_record.
Proof.
  repeat (constructor; [split; [vm_compute; reflexivity|split; [cbn; tauto|first [split; [leafdoc|reflexivity]|tauto]]]|]). constructor.
Qed.

Section Plus.

Lemma f32_finite_spec n : f32_finite n = true <-> finite32 n.
Proof.
  unfold f32_finite, finite32. rewrite negb_true_iff, N.eqb_neq. change 255 with (N.ones 8) at 1. rewrite N.land_ones, N.shiftr_div_pow2.
  change (2 ^ 23) with 8388608. change (2 ^ 8) with 256. reflexivity.
Qed.
Lemma built_value t v : value_ok (scalar_kind t) v -> built (j_value (scalar_jk t) v) (scalar_json t v) (scalar_finite t v).
Proof.
  intros H. destruct t, v; try contradiction H; cbn [scalar_jk j_value scalar_finite scalar_json].
  - apply built_N.
  - apply built_N.
  - cbn in H. eapply built_iff; [apply built_Z|intros v Hv; unfold int32_of in Hv; rewrite N.mod_small in Hv by lia; exact Hv|tauto].
  - destruct (f32_finite n) eqn:Ef.
    + apply f32_finite_spec in Ef. cbn in H. pose proof (text32_reads n H Ef) as Hr. split; [exact Ef|]. split; [eapply reads32_number, Hr|].
      exists (text32 n). split; [reflexivity|exact Hr].
    + intros Hf. apply f32_finite_spec in Hf. congruence.
  - apply built_Z.
  - split; [exact I|]. split; [exact I|reflexivity].
  - destruct H as [H _]. split; [exact I|]. apply base64_is, H.
  - apply built_Z.
Qed.

Definition clean_members (ms : list (bytes * json)) : list (bytes * json) := map (fun kv => (clean (fst kv), cleanj (snd kv))) ms.

Lemma built_leaf doc m : leaf_doc_ok doc -> message_ok value_ok takes (fields_of scalar_kind doc) m ->
  built (j_leaf (fields_of scalar_kind doc) (table_of doc) m) (leaf_json doc m) (leaf_finite doc m).
Proof.
  intros [Hn Hdoc] Hm. set (d := fields_of scalar_kind doc) in *.
  assert (forall doc', incl doc' doc ->
    match leaf_members d (table_of doc') m with
    | Some ms => (forall l t name n vs v, In (l, t, name, n) doc' -> field_values d m n vs -> In v vs -> scalar_finite t v) /\
                 json_ok (JObj ms) /\ doc_members d m (eq (VBytes [])) (scalar_json) doc' (clean_members ms)
    | None => ~ (forall l t name n vs v, In (l, t, name, n) doc' -> field_values d m n vs -> In v vs -> scalar_finite t v)
    end) as K.
  { induction doc' as [|[[[l t] name] n] doc' IH]; intros Hi.
    - split; [intros l t name n vs v []|]. split; [exact I|constructor].
    - rewrite Forall_forall in Hdoc. pose proof (Hdoc _ (Hi _ (or_introl eq_refl))) as (-> & Hname & Hin).
      destruct (field_values_spec value_ok takes d m _ Hm Hn Hin) as (F1 & F2 & F3 & F4). cbn [f_num f_kind f_card] in F1, F2, F3, F4.
      assert (length (vals_of d (m_vals m) n) <= 1)%nat as Hl by (apply F3; discriminate). clear F3.
      specialize (IH (fun e He => Hi e (or_intror He))).
      change (table_of ((optional, t, name, n) :: doc')) with ((name, n, scalar_jk t) :: table_of doc'). cbn [leaf_members].
      destruct (vals_of d (m_vals m) n) as [|v [|v' vs]]; [| |cbn in Hl; lia].
      + cbn [empty_leaf]. destruct (leaf_members d (table_of doc') m) as [ms|].
        * destruct IH as (I1 & I2 & I3). split; [|split; [exact I2|apply dm_absent; assumption]].
          intros l0 t0 n0 k vs v [E|Hin'] Hv Hv'; [injection E as <- <- <- <-; rewrite (F4 _ Hv) in Hv'; destruct Hv'|]. eapply I1; eassumption.
        * intros K. apply IH. intros l0 t0 n0 k vs v Hin'. apply (K l0 t0 n0). right. exact Hin'.
      + apply Forall_cons_iff in F2 as [F2 _]. destruct (empty_leaf [v]) eqn:Ee.
        * assert (VBytes [] = v) as <- by (destruct v as [?|?|?|[|? ?]]; try discriminate; reflexivity).
          destruct (leaf_members d (table_of doc') m) as [ms|].
          -- destruct IH as (I1 & I2 & I3). split; [|split; [exact I2|eapply dm_blank; [exact F1|reflexivity|exact I3]]].
             intros l0 t0 n0 k vs v [E|Hin'] Hv Hv'; [|eapply I1; eassumption]. injection E as <- <- <- <-. rewrite (F4 _ Hv) in Hv'.
             destruct Hv' as [<-|[]]. destruct t; exact I.
          -- intros K. apply IH. intros l0 t0 n0 k vs v Hin'. apply (K l0 t0 n0). right. exact Hin'.
        * assert (VBytes [] <> v) as Hne by (intros <-; discriminate).
          pose proof (built_value t v F2) as Hb. destruct (j_value (scalar_jk t) v) as [j|]; cbn [built] in Hb.
          -- destruct Hb as (B1 & B2 & B3). destruct (leaf_members d (table_of doc') m) as [ms|].
             ++ destruct IH as (I1 & I2 & I3). split; [|split].
                ** intros l0 t0 n0 k vs w [E|Hin'] Hv Hv'; [|eapply I1; eassumption]. injection E as <- <- <- <-. rewrite (F4 _ Hv) in Hv'.
                   destruct Hv' as [<-|[]]. exact B1.
                ** cbn [json_ok key]. split; [split; [apply bytes_of_string_ok|exact B2]|exact I2].
                ** cbn [clean_members map key fst snd]. unfold key. cbn [fst snd]. rewrite Hname. eapply dm_one; [discriminate|exact F1|exact Hne|exact B3|exact I3].
             ++ intros K. apply IH. intros l0 t0 n0 k vs w Hin'. apply (K l0 t0 n0). right. exact Hin'.
          -- intros K. apply Hb. eapply K; [left; reflexivity|exact F1|left; reflexivity]. }
  specialize (K doc (fun e He => He)). unfold j_leaf. destruct (leaf_members d (table_of doc) m) as [ms|]; [|exact K].
  destruct K as (K1 & K2 & K3). split; [exact K1|]. split; [exact K2|]. eexists. split; [reflexivity|exact K3].
Qed.

Lemma built_item l t name n v : top_entry_ok (l, t, name, n) ->
  value1_ok (match t with inl s => KLeaf (scalar_kind s) | inr m => KMsg (fields_of scalar_kind m) end) v ->
  built (j_item (conv1 t) v) (field_json t v) (field_finite t v).
Proof.
  intros (_ & _ & Ht) Hv. destruct t as [s|doc], v as [w|m]; try contradiction Hv.
  - cbn [value1_ok] in Hv. destruct Ht as [[-> _]|[[-> | ->] _]]; destruct w; try contradiction Hv; first [apply built_N|apply built_Z].
  - destruct Ht as [Hd _]. destruct Hv as [Hv _]. apply built_leaf; assumption.
Qed.

Lemma built_storage m : storage_ok m -> built (j_storage m) (storage_json m) (storage_finite m).
Proof.
  intros Hm. pose proof doc_storage_nodup as Hn. pose proof doc_storage_record_ok as Hdoc. unfold j_storage. rewrite t_storage_doc.
  unfold storage_ok in Hm.
  assert (forall doc', incl doc' doc_storage_record ->
    match storage_members (map (fun e => match e with (l, t, name, n) => (name, n, conv1 t) end) doc') m with
    | Some ms => (forall l t name n vs v, In (l, t, name, n) doc' -> field_values doc_storage m n vs -> In v vs -> field_finite t v) /\
                 json_ok (JObj ms) /\ doc_members doc_storage m (fun _ => False) (field_json) doc' (clean_members ms)
    | None => ~ (forall l t name n vs v, In (l, t, name, n) doc' -> field_values doc_storage m n vs -> In v vs -> field_finite t v)
    end) as K.
  { induction doc' as [|[[[l t] name] n] doc' IH]; intros Hi.
    - split; [intros l t name n vs v []|]. split; [exact I|constructor].
    - rewrite Forall_forall in Hdoc. pose proof (Hdoc _ (Hi _ (or_introl eq_refl))) as Htop. pose proof Htop as (Hname & Hin & Ht).
      destruct (field_values_spec value1_ok takes1 doc_storage m _ Hm Hn Hin) as (F1 & F2 & F3 & F4). cbn [f_num f_kind f_card] in F1, F2, F3, F4.
      specialize (IH (fun e He => Hi e (or_intror He))). cbn [map storage_members]. rewrite d_storage_doc.
      set (vs := vals_of doc_storage (m_vals m) n) in *. destruct vs as [|v vs].
      + match goal with |- context [match ?x with Some _ => _ | None => _ end] => destruct x as [ms|] end.
        * destruct IH as (I1 & I2 & I3). split; [|split; [exact I2|apply dm_absent; assumption]].
          intros l0 t0 n0 k vs v [E|Hin'] Hv Hv'; [injection E as <- <- <- <-; rewrite (F4 _ Hv) in Hv'; destruct Hv'|]. eapply I1; eassumption.
        * intros K. apply IH. intros l0 t0 n0 k vs v Hin'. apply (K l0 t0 n0). right. exact Hin'.
      + assert (match j_field (conv1 t) (v :: vs) with
                | Some j => (forall w, In w (v :: vs) -> field_finite t w) /\ json_ok j /\
                    (forall ms, doc_members doc_storage m (fun _ => False) (field_json) doc' ms ->
                       doc_members doc_storage m (fun _ => False) (field_json) ((l, t, name, n) :: doc') ((bytes_of_string name, cleanj j) :: ms))
                | None => ~ forall w, In w (v :: vs) -> field_finite t w end) as Hb.
        { assert (conv1 t = JkNum \/ (l = repeated /\ conv1 t <> JkNum)) as [Ek|[-> Ek]].
          { destruct t as [s|doc]; [destruct Ht as [[-> ->]|[[-> | ->] ->]]; cbn; auto; right; split; [reflexivity|discriminate]|].
            destruct Ht as [_ ->]. right. split; [reflexivity|discriminate]. }
          - assert (l = required) as ->.
            { destruct t as [s|doc]; [destruct Ht as [[-> ->]|[_ ->]]; [discriminate|reflexivity]|discriminate]. }
            assert (vs = []) as ->. { specialize (F3 ltac:(discriminate)). destruct vs; [reflexivity|cbn in F3; lia]. }
            rewrite Ek. cbn [j_field]. rewrite <- Ek. apply Forall_cons_iff in F2 as [F2 _].
            pose proof (built_item _ _ _ _ v Htop F2) as Hb. destruct (j_item (conv1 t) v) as [j|]; cbn [built] in Hb.
            + destruct Hb as (B1 & B2 & B3). split; [intros w [<-|[]]; exact B1|]. split; [exact B2|]. intros ms Hms.
              eapply dm_one; [discriminate|exact F1|tauto|exact B3|exact Hms].
            + intros K. apply Hb, K. left. reflexivity.
          - assert (j_field (conv1 t) (v :: vs) = option_map JArr (opt_all (map (j_item (conv1 t)) (v :: vs)))) as ->
              by (destruct (conv1 t); [congruence|reflexivity..]).
            pose proof (opt_all_built (j_item (conv1 t)) (field_json t) (field_finite t) (v :: vs)) as Hb.
            destruct (opt_all (map (j_item (conv1 t)) (v :: vs))) as [js|]; cbn [option_map].
            + destruct Hb as (B1 & B2 & B3). { intros w Hw. rewrite Forall_forall in F2. apply (built_item _ _ _ _ w Htop), F2, Hw. }
              split; [exact B1|]. split; [exact B2|]. intros ms Hms. cbn [cleanj]. eapply dm_many; [exact F1|discriminate|exact B3|exact Hms].
            + apply Hb. intros w Hw. rewrite Forall_forall in F2. apply (built_item _ _ _ _ w Htop), F2, Hw. }
        destruct (j_field (conv1 t) (v :: vs)) as [j|].
        * destruct Hb as (B1 & B2 & B3). match goal with |- context [match ?x with Some _ => Some _ | None => None end] => destruct x as [ms|] end.
          -- destruct IH as (I1 & I2 & I3). split; [|split].
             ++ intros l0 t0 n0 k ws w [E|Hin'] Hv Hv'; [|eapply I1; eassumption]. injection E as <- <- <- <-. rewrite (F4 _ Hv) in Hv'. apply B1, Hv'.
             ++ cbn [json_ok key]. split; [split; [apply bytes_of_string_ok|exact B2]|exact I2].
             ++ cbn [clean_members map]. unfold key. cbn [fst snd]. rewrite Hname. apply B3, I3.
          -- intros K. apply IH. intros l0 t0 n0 k ws w Hin'. apply (K l0 t0 n0). right. exact Hin'.
        * intros K. apply Hb. intros w Hw. eapply K; [left; reflexivity|exact F1|exact Hw]. }
  specialize (K doc_storage_record (fun e He => He)).
  destruct (storage_members (map _ doc_storage_record) m) as [ms|]; [|exact K].
  destruct K as (K1 & K2 & K3). split; [exact K1|]. split; [exact K2|]. eexists. split; [reflexivity|exact K3].
Qed.
End Plus.

(** The JSON text of saved records: C67, C68, and the ranges of saved values: C69. *)
From Coq Require Import NArith ZArith Reals String List Bool Lia.
From Flocq Require Import BinarySingleNaN.
From Verif Require Import GoBase GoFloat SubRecords Records Package Storage Server SpecBase BaseFacts SpecRec SpecCrc SpecPkg SpecSrv
  SrvFacts SrvLoop SrvPacket SrvConn RangeFacts Json SpecJson NumTextFacts Utf8Facts JsonFacts ConcreteEnv.
Import ListNotations.
Open Scope N_scope.

(** ** C67 *)
Lemma j_N_is n : is_nat n (j_N n).
Proof. exists (dec n). split; [reflexivity|]. left. exists n. split; [apply dec_text|reflexivity]. Qed.
Lemma j_Z_is z : is_int z (j_Z z).
Proof. exists (dec_Z z). split; [reflexivity|]. apply dec_Z_text. Qed.
Lemma number_N n : json_ok (j_N n).
Proof. cbn. eapply int_number. apply dec_Z_text with (z := Z.of_N n) || (left; exists n; split; [apply dec_text|reflexivity]). Qed.
Lemma number_Z z : json_ok (j_Z z).
Proof. cbn. eapply int_number. apply dec_Z_text. Qed.

Ltac membs := repeat (apply Forall2_cons; [split; [reflexivity|]; cbn [snd key]|]); try apply Forall2_nil.

Lemma j_an_is a : an_json a (cleanj (j_an a)).
Proof. eexists. split; [reflexivity|]. membs; apply j_N_is. Qed.
Lemma j_liquid_is l : liquid_json l (cleanj (j_liquid l)).
Proof.
  eexists. split; [reflexivity|]. membs; try apply j_N_is. eexists. split; [reflexivity|]. apply clean_readable, bytes_of_string_ok.
Qed.
Lemma j_slice_is {A} (P : A -> json -> Prop) f (l : list A) : (forall a, P a (cleanj (f a))) -> slice P l (cleanj (j_slice (map f l))).
Proof.
  intros H. destruct l as [|a l]; [reflexivity|]. eexists. split; [reflexivity|]. cbn [map]. constructor; [apply H|].
  induction l; constructor; auto.
Qed.
Lemma text64_is_float x : is_finite x = true -> is_float x (JNum (text64 x)).
Proof. intros H. exists (text64 x). split; [reflexivity|]. apply text64_reads, H. Qed.
Lemma text64_number x : is_finite x = true -> number (text64 x).
Proof. intros H. eapply reads64_number, text64_reads, H. Qed.
Lemma j_nav_is r : is_finite (nr_Latitude r) = true -> is_finite (nr_Longitude r) = true -> nav_json r (cleanj (j_nav r)).
Proof.
  intros H1 H2. eexists. split; [reflexivity|]. membs; try apply j_N_is; try apply j_Z_is; try (apply text64_is_float; assumption);
    apply j_slice_is; [apply j_an_is|apply j_liquid_is].
Qed.

Lemma json_ok_key s : bytes_ok (bytes_of_string s). Proof. apply bytes_of_string_ok. Qed.
Ltac oks := cbn [json_ok key]; repeat (split; [split; [apply bytes_of_string_ok|]|]); try exact I.
Lemma j_an_ok a : json_ok (j_an a).
Proof. unfold j_an. oks; apply number_N. Qed.
Lemma j_liquid_ok l : json_ok (j_liquid l).
Proof. unfold j_liquid. oks; try apply number_N. apply bytes_of_string_ok. Qed.
Lemma j_slice_ok {A} (f : A -> json) l : (forall a, json_ok (f a)) -> json_ok (j_slice (map f l)).
Proof.
  intros H. destruct l as [|a l]; [exact I|]. cbn [map j_slice json_ok]. split; [apply H|]. induction l; cbn [map]; auto.
Qed.
Lemma j_nav_ok r : is_finite (nr_Latitude r) = true -> is_finite (nr_Longitude r) = true -> json_ok (j_nav r).
Proof.
  intros H1 H2. unfold j_nav. oks; try apply number_N; try apply number_Z; try (apply text64_number; assumption);
    apply j_slice_ok; [apply j_an_ok|apply j_liquid_ok].
Qed.

(** The text of a record is JSON for the object of that record; there is none exactly when a
    coordinate is not a finite number. *)
Theorem C67_json_text : forall r,
  match ToBytes r with
  | Some t => exists v, json_text t v /\ nav_json r v
  | None => is_finite (nr_Latitude r) = false \/ is_finite (nr_Longitude r) = false
  end.
Proof.
  intros r. unfold ToBytes. destruct (is_finite (nr_Latitude r)) eqn:E1; [|left; reflexivity].
  destruct (is_finite (nr_Longitude r)) eqn:E2; [|right; reflexivity]. cbn [andb].
  exists (cleanj (j_nav r)). split; [|apply j_nav_is; assumption]. apply pr_text, j_nav_ok; assumption.
Qed.
Theorem C67_json_error : forall r, is_finite (nr_Latitude r) = false \/ is_finite (nr_Longitude r) = false ->
  ToBytes r = None.
Proof. intros r [H|H]; unfold ToBytes; rewrite H; [reflexivity|]. rewrite andb_false_r. reflexivity. Qed.

(** ** C69 *)
Definition plausible (nav : NavRecord) : Prop :=
  is_finite (nr_Latitude nav) = true /\ (0 <= B2R (nr_Latitude nav) <= 90)%R /\
  is_finite (nr_Longitude nav) = true /\ (0 <= B2R (nr_Longitude nav) <= 180)%R /\
  nr_Speed nav <= 1638 /\ nr_Course nav <= 255 /\
  (1262304000 <= nr_NavigationTimestamp nav <= 1262304000 + 4294967295)%Z /\
  nr_Vdop nav < 65536 /\ nr_Hdop nav < 65536 /\ nr_Pdop nav < 65536 /\ nr_Nsat nav < 256 /\ nr_Ns nav < 65536 /\
  (forall a, In a (nr_AnSensors nav) -> as_SensorNumber a < 256 /\ as_Value a < 16777216) /\
  (forall l, In l (nr_LiquidSensors nav) -> ls_SensorNumber l < 8 /\ ls_ValueMm l < 4294967296 /\ ls_ValueL l < 4294967296
     /\ (ls_ErrorFlag l = "0"%string \/ ls_ErrorFlag l = "1"%string)).

Section WithEnv.
Context {E : Env}.

Lemma last_of_in {A B} (f : A -> option B) l b : last_of f l = Some b -> exists a, In a l /\ f a = Some b.
Proof.
  induction l as [|a l IH]; cbn [last_of]; [discriminate|]. destruct (last_of f l) as [b'|].
  - intros H. injection H as ->. destruct (IH eq_refl) as (a' & H1 & H2). exists a'. split; [right; assumption|assumption].
  - intros H. exists a. split; [left; reflexivity|assumption].
Qed.

Lemma saved_plausible now k r nav : (forall d, In d (subs r) -> sub_range d) -> saved now k r nav -> plausible nav.
Proof.
  intros Hr [h1 (x & Hx & h2 & h3 & h4 & h5 & h6) h7 h8 h9 h10].
  apply last_of_in in Hx. destruct Hx as (d & Hd & Hx). destruct d; try discriminate. injection Hx as ->.
  destruct (Hr _ Hd) as [(p1 & p2 & p3 & p4 & p5 & p6 & p7) _].
  unfold plausible. rewrite h2, h3, h4, h5, h6.
  assert (nr_Vdop nav < 65536 /\ nr_Hdop nav < 65536 /\ nr_Pdop nav < 65536 /\ nr_Nsat nav < 256 /\ nr_Ns nav < 65536) as (e1 & e2 & e3 & e4 & e5).
  { destruct (last_of the_ext (subs r)) as [e|] eqn:Ee.
    - apply last_of_in in Ee. destruct Ee as (d & Hd' & He). destruct d; try discriminate. injection He as ->.
      destruct (Hr _ Hd') as [(q1 & q2 & q3 & q4 & q5) _]. injection h8 as -> -> -> -> ->. auto.
    - injection h8 as -> -> -> -> ->. repeat split; reflexivity. }
  repeat (split; [first [assumption|lia]|]). split.
  - intros a Ha. rewrite h9, in_flat_map in Ha. destruct Ha as (d & Hd' & Ha). destruct (Hr _ Hd') as [_ Hf].
    rewrite Forall_forall in Hf. apply Hf, Ha.
  - intros l Hl. assert (exists x, In x (flat_map the_liquid (subs r)) /\ liquid_reading x l) as (y & Hy & Hll).
    { clear -h10 Hl. induction h10 as [|x0 s0 xs ss H0 H1 IH]; [destruct Hl|]. destruct Hl as [->|Hl].
      - exists x0. split; [left; reflexivity|assumption].
      - destruct (IH Hl) as (y & H2 & H3). exists y. split; [right; assumption|assumption]. }
    rewrite in_flat_map in Hy. destruct Hy as (d & Hd' & Hy). destruct d; try contradiction. destruct Hy as [->|[]].
    destruct (Hr _ Hd') as [(q1 & q2 & q3 & Hu) _]. destruct Hll as (l1 & l2 & l3 & l4 & l5). rewrite l1, l2.
    split; [exact q1|].
    assert (ls_ValueMm l < 4294967296 /\ ls_ValueL l < 4294967296) as [v1 v2].
    { destruct Hu as [Hu|[Hu|[Hu|Hu]]].
      - destruct l3 as [-> ->]; [auto|]. split; [exact q2|reflexivity].
      - destruct l3 as [-> ->]; [auto|]. split; [exact q2|reflexivity].
      - destruct l4 as [-> ->]; [auto|]. split; [reflexivity|]. apply N.mod_lt. discriminate.
      - destruct l5 as [-> ->]; [auto|]. split; reflexivity. }
    auto.
Qed.

Lemma to_save_in c l s c' : to_save c l s c' -> forall kr, In kr s -> In (snd kr) l.
Proof. induction 1; intros kr Hk; [destruct Hk| |]; [destruct Hk as [<-|Hk]; [left; reflexivity|]|]; right; auto. Qed.

Lemma history_records fs : Forall (fun f => is_bytes f /\ (10 <= length f)%nat /\ byte_at f 0 = 1) fs ->
  forall c s c', history c fs s c' -> forall kr, In kr s -> exists f l, is_bytes f /\ data_packet f l /\ In (snd kr) l.
Proof.
  intros Hf c s c' H. induction H as [c|c f fs p s c' Hd H IH|c f fs p s c' Hd Hp H IH|c f fs l s1 c1 s2 c2 Hd Hn Ht H IH
    |c f fs l1 r l2 ds d ds' s1 c1 s2 c2 Hd Hn Hs Hds Hr Ht H IH]; intros kr Hk; [destruct Hk|..];
    apply Forall_cons_iff in Hf as [(Hb & _) Hf].
  - auto.
  - auto.
  - apply in_app_or in Hk. destruct Hk as [Hk|Hk]; [|auto]. exists f, l. split; [assumption|]. split; [assumption|].
    eapply to_save_in; eassumption.
  - apply in_app_or in Hk. destruct Hk as [Hk|Hk]; [|auto]. exists f, (l1 ++ r :: l2)%list. split; [assumption|]. split; [assumption|].
    apply in_or_app. left. eapply to_save_in; eassumption.
Qed.

(** Whatever is received, what is handed to the storages is in range. *)
Theorem C69_saved_values : forall cs evs o nav ok, is_bytes (concat cs) -> runs (handle_conn cs) evs o ->
  In (nav, ok) (saves evs) -> plausible nav.
Proof.
  intros cs evs o nav ok Hb H Hin. destruct (cuts_total (concat cs)) as (fs & e & Hc).
  apply (conn_session _ _ _ _ _ _ Hc eq_refl) in H. destruct H as (es & oc & H & -> & ->).
  pose proof (cuts_frames _ _ _ Hc Hb) as Hf. apply session_history in H; [|assumption].
  destruct H as (fs1 & fs2 & s & c' & -> & H2 & H3 & _). apply Forall_app in Hf as [Hf _].
  assert (exists kr now f, In kr s /\ is_saved (word_at f 7) now kr (nav, ok)) as (kr & now & f & Hk & Hs & _).
  { clear H2. induction H3 as [|kr nv s sv (now & f & _ & K) H3 IH]; [destruct Hin|]. destruct Hin as [->|Hin].
    - exists kr, now, f. split; [left; reflexivity|assumption].
    - destruct (IH Hin) as (kr' & now' & f' & K1 & K2). exists kr', now', f'. split; [right; assumption|assumption]. }
  destruct (history_records _ Hf _ _ _ H2 _ Hk) as (g & l & Hg & Hd & Hl).
  eapply saved_plausible; [|exact Hs]. intros d Hdin. eapply data_packet_range; eassumption.
Qed.

(** So every saved record has a JSON text. *)
Theorem C67_saved_records_have_json : forall cs evs o nav ok, is_bytes (concat cs) ->
  runs (handle_conn cs) evs o -> In (nav, ok) (saves evs) ->
  exists t v, ToBytes nav = Some t /\ json_text t v /\ nav_json nav v.
Proof.
  intros cs evs o nav ok Hb H Hin. destruct (C69_saved_values _ _ _ _ _ Hb H Hin) as (F1 & _ & F2 & _).
  pose proof (C67_json_text nav) as Ht. destruct (ToBytes nav) as [t|].
  - destruct Ht as (v & H1 & H2). exists t, v. auto.
  - destruct Ht; congruence.
Qed.
End WithEnv.

(** ** C68 *)
(** Whoever reads the text as JSON gets the object of the record, and nothing else. *)
Theorem C68_json_is_read_back : forall r t v, ToBytes r = Some t -> json_doc t v -> nav_json r v.
Proof.
  intros r t v Ht Hv. pose proof (C67_json_text r) as H. rewrite Ht in H. destruct H as (w & Hw & Hn).
  rewrite (json_doc_det _ _ _ Hv (json_doc_text _ _ Hw)). exact Hn.
Qed.

Lemma bytes_of_string_inj s t : bytes_of_string s = bytes_of_string t -> s = t.
Proof. intros H. rewrite <- (string_bytes s), <- (string_bytes t), H. reflexivity. Qed.
Lemma is_int_det y z v : is_int y v -> is_int z v -> y = z.
Proof. intros (t & -> & H) (u & E & K). injection E as <-. eapply int_text_det; eassumption. Qed.
Lemma is_nat_det m n v : is_nat m v -> is_nat n v -> m = n.
Proof. intros H K. apply N2Z.inj. eapply is_int_det; eassumption. Qed.

Lemma pop2 n P Q l l' ms : Forall2 (fun (P : bytes * json -> Prop) m => P m) (member n P :: l) ms ->
  Forall2 (fun (P : bytes * json -> Prop) m => P m) (member n Q :: l') ms ->
  exists v ms', P v /\ Q v /\ Forall2 (fun (P : bytes * json -> Prop) m => P m) l ms' /\ Forall2 (fun (P : bytes * json -> Prop) m => P m) l' ms'.
Proof.
  intros H K. inversion H as [|? m ? ms' H1 H2]; subst. inversion K as [|? ? ? ? K1 K2]; subst. destruct H1 as [_ H1], K1 as [_ K1].
  exists (snd m), ms'. auto.
Qed.
Ltac pops := repeat match goal with
  H : Forall2 _ (_ :: _) ?ms, K : Forall2 _ (_ :: _) ?ms |- _ => destruct (pop2 _ _ _ _ _ _ H K) as (? & ? & ? & ? & ? & ?); clear H K end.
Lemma an_json_det a b v : an_json a v -> an_json b v -> a = b.
Proof.
  intros (ms & -> & H) (ns & En & K). injection En as <-. pops. destruct a, b. cbn in *. f_equal; eapply is_nat_det; eassumption.
Qed.
(** Text flags are valid UTF-8. *)
Definition proper_liquid (l : LiquidSensor) : Prop := is_utf8 (bytes_of_string (ls_ErrorFlag l)).
Definition proper (r : NavRecord) : Prop := Forall proper_liquid (nr_LiquidSensors r).
Lemma is_string_det s t v : is_utf8 s -> is_utf8 t -> is_string s v -> is_string t v -> s = t.
Proof.
  intros Hs Ht (s' & -> & H) (t' & E & K). injection E as <-. rewrite <- (readable_same _ _ Hs H). apply readable_same; assumption.
Qed.
Lemma liquid_json_det a b v : proper_liquid a -> proper_liquid b -> liquid_json a v -> liquid_json b v -> a = b.
Proof.
  unfold proper_liquid. intros Pa Pb (ms & -> & H) (ns & En & K). injection En as <-. pops. destruct a as [a1 a2 a3 a4], b as [b1 b2 b3 b4]. cbn [ls_SensorNumber ls_ErrorFlag ls_ValueMm ls_ValueL] in *.
  f_equal; try (eapply is_nat_det; eassumption). apply bytes_of_string_inj. eapply is_string_det; eassumption.
Qed.
Lemma slice_det {A} (Q : A -> Prop) (P : A -> json -> Prop) : (forall a b v, Q a -> Q b -> P a v -> P b v -> a = b) ->
  forall l m v, Forall Q l -> Forall Q m -> slice P l v -> slice P m v -> l = m.
Proof.
  intros HP l m v Ql Qm Hl Hm. destruct l as [|a l], m as [|b m]; cbn [slice] in *.
  - reflexivity.
  - destruct Hm as (vs & E & _). congruence.
  - destruct Hl as (vs & E & _). congruence.
  - destruct Hl as (vs & -> & Hl). destruct Hm as (ws & E & Hm). injection E as <-.
    remember (a :: l) as x. remember (b :: m) as y. clear Heqx Heqy a l b m. revert y Qm Hm.
    induction Hl as [|a v l vs H1 H2 IH]; intros y Qm Hm; inversion Hm as [|b ? m ? K1 K2]; subst; [reflexivity|].
    apply Forall_cons_iff in Ql as [Qa Ql], Qm as [Qb Qm]. f_equal; [eapply HP; eassumption|]. apply IH; assumption.
Qed.

Lemma Forall_true {A} (l : list A) : Forall (fun _ => True) l.
Proof. induction l; constructor; auto. Qed.
Lemma is_float_det x y v : is_float x v -> is_float y v -> x = y.
Proof. intros (t & -> & H) (u & E & K). injection E as <-. eapply reads64_det; eassumption. Qed.
Lemma nav_json_det r r' v : proper r -> proper r' -> is_finite (nr_Latitude r) = true -> is_finite (nr_Longitude r) = true ->
  is_finite (nr_Latitude r') = true -> is_finite (nr_Longitude r') = true -> nav_json r v -> nav_json r' v -> r = r'.
Proof.
  unfold proper. intros P1 P2 F1 F2 F3 F4 (ms & -> & H) (ns & En & K). injection En as <-. pops.
  destruct r as [r0 r1 r2 r3 r4 r5 r6 r7 r8 r9 r10 r11 r12 r13 r14], r' as [q0 q1 q2 q3 q4 q5 q6 q7 q8 q9 q10 q11 q12 q13 q14].
  cbn [nr_Client nr_PacketID nr_NavigationTimestamp nr_ReceivedTimestamp nr_Latitude nr_Longitude nr_Speed nr_Pdop nr_Hdop
    nr_Vdop nr_Nsat nr_Ns nr_Course nr_AnSensors nr_LiquidSensors] in *.
  repeat match goal with
  | H : is_nat _ ?v, K : is_nat _ ?v |- _ => pose proof (is_nat_det _ _ _ H K); clear H K
  | H : is_int _ ?v, K : is_int _ ?v |- _ => pose proof (is_int_det _ _ _ H K); clear H K
  | H : slice an_json _ ?v, K : slice an_json _ ?v |- _ => pose proof (slice_det (fun _ => True) _ (fun a b v _ _ => an_json_det a b v) _ _ _ (Forall_true _) (Forall_true _) H K); clear H K
  | H : slice liquid_json _ ?v, K : slice liquid_json _ ?v |- _ => pose proof (slice_det proper_liquid _ liquid_json_det _ _ _ P1 P2 H K); clear H K
  | H : is_float _ ?v, K : is_float _ ?v |- _ => pose proof (is_float_det _ _ _ H K); clear H K
  end.
  subst. reflexivity.
Qed.

(** Different records have different texts, if their flags are UTF-8. *)
Theorem C68_json_loses_nothing : forall r r' t, proper r -> proper r' -> ToBytes r = Some t -> ToBytes r' = Some t -> r = r'.
Proof.
  intros r r' t P P' H H'.
  pose proof (C67_json_text r) as Hr. pose proof (C67_json_text r') as Hr'. rewrite H in Hr. rewrite H' in Hr'.
  destruct Hr as (v & V1 & V2). destruct Hr' as (w & W1 & W2). rewrite (json_text_det _ _ _ W1 V1) in W2.
  unfold ToBytes in H, H'.
  destruct (is_finite (nr_Latitude r)) eqn:E1; [|discriminate]. destruct (is_finite (nr_Longitude r)) eqn:E2; [|discriminate].
  destruct (is_finite (nr_Latitude r')) eqn:E3; [|discriminate]. destruct (is_finite (nr_Longitude r')) eqn:E4; [|discriminate].
  eapply nav_json_det; eassumption.
Qed.

(** Not so otherwise: flags that are not UTF-8 are not told apart. *)
Theorem C68_json_loses_nothing_refuted : exists r r' t, r <> r' /\ ToBytes r = Some t /\ ToBytes r' = Some t.
Proof.
  set (rec b := mkNavRecord 1 2 3 4 (f64_of_Z 55) (f64_of_Z 37) 0 0 0 0 0 0 0 [] [mkLiquidSensor 1 (string_of_bytes [b]) 0 40]).
  exists (rec 254), (rec 255). eexists. split; [discriminate|]. split; reflexivity.
Qed.

Lemma saved_proper nav : plausible nav -> proper nav.
Proof.
  intros (_ & _ & _ & _ & _ & _ & _ & _ & _ & _ & _ & _ & _ & H). apply Forall_forall. intros l Hl. destruct (H l Hl) as (_ & _ & _ & K).
  unfold proper_liquid. destruct K as [-> | ->]; [exists [48]|exists [49]]; (split; [constructor; [left; reflexivity|constructor]|reflexivity]).
Qed.
(** What the receiver saves is always told apart. *)
Theorem C68_saved_records_told_apart : forall {E : Env} cs evs o nav ok cs' evs' o' nav' ok' t, is_bytes (concat cs) -> runs (handle_conn cs) evs o -> In (nav, ok) (saves evs) ->
  is_bytes (concat cs') -> runs (handle_conn cs') evs' o' -> In (nav', ok') (saves evs') ->
  ToBytes nav = Some t -> ToBytes nav' = Some t -> nav = nav'.
Proof.
  intros E cs evs o nav ok cs' evs' o' nav' ok' t H1 H2 H3 K1 K2 K3 Ht Ht'.
  pose proof (saved_proper _ (C69_saved_values _ _ _ _ _ H1 H2 H3)) as P. pose proof (saved_proper _ (C69_saved_values _ _ _ _ _ K1 K2 K3)) as P'.
  exact (C68_json_loses_nothing _ _ _ P P' Ht Ht').
Qed.

(** ** Float texts as assumed exist *)

(** ** Concrete cases *)
Definition nav_ex : NavRecord :=
  mkNavRecord 133552 5 1598604120 1598604127 (f64_of_Z 55) (f64_of_Z 37) 34 0 2 1 9 3 172 [mkAnSensor 1 7] [mkLiquidSensor 1 "0" 0 40].
Example C67_example : option_map string_of_bytes (ToBytes nav_ex) = Some
  "{""client"":133552,""packet_id"":5,""navigation_unix_time"":1598604120,""received_unix_time"":1598604127,""latitude"":55,""longitude"":37,""speed"":34,""pdop"":0,""hdop"":2,""vdop"":1,""nsat"":9,""ns"":3,""course"":172,""an_sensors"":[{""sensor_number"":1,""value"":7}],""liquid_sensors"":[{""sensor_number"":1,""error_flag"":""0"",""value_mm"":0,""value_l"":40}]}"%string.
Proof. vm_compute. reflexivity. Qed.
Example C67_error_example : is_finite (nr_Latitude (mkNavRecord 0 0 0 0 B754_nan (f64_of_Z 1) 0 0 0 0 0 0 0 [] [])) = false.
Proof. reflexivity. Qed.
Example C68_proper_example : proper nav_ex.
Proof. constructor; [exists [48]; split; [constructor; [left; reflexivity|constructor]|reflexivity]|constructor]. Qed.
Example C68_example : exists t u, ToBytes nav_ex = Some t /\ ToBytes (mkNavRecord 133552 5 1598604120 1598604127 (f64_of_Z 55)
  (f64_of_Z 37) 34 0 2 1 9 3 172 [mkAnSensor 1 7] []) = Some u /\ t <> u.
Proof. do 2 eexists. split; [reflexivity|]. split; [reflexivity|]. vm_compute. discriminate. Qed.

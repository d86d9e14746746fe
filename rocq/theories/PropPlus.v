(** C109, C110: the generated methods of the EGTS+ messages. *)
From Coq Require Import NArith ZArith Lia ZifyBool ZifyN String List Bool.
From Verif Require Import GoBase BaseFacts NumText NumFacts Json SpecNum SpecJson JsonFacts Protobuf SpecPb EgtsPlus SpecPlus.
Import ListNotations.
Open Scope N_scope.

(** ** C109 *)
Lemma values_at_field {K V} (d : list (field K)) : NoDup (map f_num d) -> forall (vals : list (list V)) i f vs,
  nth_error d i = Some f -> nth_error vals i = Some vs -> values_at d vals (f_num f) = vs.
Proof.
  induction d as [|g d IH]; intros Hd vals i f vs H1 H2; [destruct i; discriminate|].
  cbn [map] in Hd. inversion Hd as [|? ? Hn Hd']; subst. destruct vals as [|w vals]; [destruct i; discriminate|].
  destruct i as [|i]; cbn [nth_error] in H1, H2.
  - injection H1 as ->. injection H2 as ->. cbn [values_at]. rewrite N.eqb_refl. reflexivity.
  - cbn [values_at]. destruct (N.eqb_spec (f_num g) (f_num f)) as [He|_]; [|eauto].
    exfalso. apply Hn. rewrite He. apply in_map. eapply nth_error_In. exact H1.
Qed.

Definition entry_ok {T V} (inj : value -> V) (dflt : label -> T -> list V) (ts : tags) (gs : list getter) (e : label * T * string * N) : Prop :=
  match e with (l, t, name, n) => exists g tg,
    find (fun g => if string_dec (g_name g) (getter_name name) then true else false) gs = Some g
    /\ zero_value inj g = dflt l t
    /\ find (fun t => if string_dec (fst t) (g_field g) then true else false) ts = Some tg /\ snd tg = n end.

Lemma getters_ok {T K V} (inj : value -> V) (doc : doc_message T) dflt (d : list (field K)) ts gs :
  NoDup (map f_num d) -> Forall (entry_ok inj dflt ts gs) doc ->
  Forall (fun g => In (g_name g) (map (fun e => match e with (_, _, name, _) => getter_name name end) doc)) gs ->
  getters_of doc dflt d (call_getter inj d ts gs).
Proof.
  intros Hd Hdoc Hgs. split.
  - intros l t name n Hin. rewrite Forall_forall in Hdoc. specialize (Hdoc _ Hin) as (g & tg & H1 & H2 & H3 & H4).
    unfold call_getter. rewrite H1. cbn [option_map run_getter]. split; [rewrite H2; reflexivity|].
    intros m vs (i & f & F1 & F2 & F3). unfold go_field. rewrite H3, H4, <- F2, (values_at_field d Hd _ i f vs F1 F3), H2. destruct vs; reflexivity.
  - intros g m r H. unfold call_getter in H. destruct (find _ gs) as [x|] eqn:Hf; [|discriminate].
    apply find_some in Hf as [Hin Hx]. destruct (string_dec (g_name x) g) as [<-|]; [|discriminate].
    rewrite Forall_forall in Hgs. specialize (Hgs _ Hin). apply in_map_iff in Hgs as ([[[l t] name] n] & He & Hd'). eauto 8.
Qed.

Definition leaf_getters (doc : doc_message scalar) (d : list (field kind)) (ts : tags) (gs : list getter) : Prop :=
  getters_of doc scalar_default d (call_getter (fun v => v) d ts gs).

Ltac nodup := repeat constructor; cbn; intuition discriminate.
Ltac getters := try unfold leaf_getters; eapply (@getters_ok _ _ _ _ _ _ _ _ _); [vm_compute; nodup|repeat (constructor; [eexists; eexists; split; [reflexivity|split; [reflexivity|split; reflexivity]]|]); constructor
  |repeat (constructor; [vm_compute; intuition|]); constructor].

(** Every message of the schema has exactly the getters for its fields, and they return them. *)
Theorem C109_getters :
  getters_of doc_storage_record storage_default d_storage (call_getter VLeaf d_storage t_storage g_storage)
  /\ leaf_getters doc_sens_accelerometer_data d_accelerometer t_accelerometer g_accelerometer
  /\ leaf_getters doc_sens_ain_ain_value d_ain t_ain g_ain
  /\ leaf_getters doc_sens_buffer_data d_buffer t_buffer g_buffer
  /\ leaf_getters doc_sens_button_press_counter d_button t_button g_button
  /\ leaf_getters doc_sens_can_log_data d_canlog t_canlog g_canlog
  /\ leaf_getters doc_sens_can_log_tmp_data_ext d_canlog_ext t_canlog_ext g_canlog_ext
  /\ leaf_getters doc_sens_counter_count d_counter t_counter g_counter
  /\ leaf_getters doc_sens_crash_data d_crash t_crash g_crash
  /\ leaf_getters doc_sens_dins_flags d_dins t_dins g_dins
  /\ leaf_getters doc_sens_douts_flags d_douts t_douts g_douts
  /\ leaf_getters doc_sens_fmeter_frequency d_fmeter t_fmeter g_fmeter
  /\ leaf_getters doc_sens_fuel_level d_fuel t_fuel g_fuel
  /\ leaf_getters doc_sens_gsm_cell_monotoring_cell_monitoring d_gsm t_gsm g_gsm
  /\ leaf_getters doc_sens_nd_nav_data d_nav t_nav g_nav
  /\ leaf_getters doc_sens_stor_info d_stor t_stor g_stor
  /\ leaf_getters doc_sens_termo_data d_termo t_termo g_termo
  /\ leaf_getters doc_sens_test_era_tests d_era t_era g_era
  /\ leaf_getters doc_sens_tracker_info d_tracker t_tracker g_tracker.
Proof. do 18 (split; [getters|]). getters. Qed.

(** A message with one field set and one not. *)
Example C109_example :
  let m := mkMessage [[VU 5]; []; [VI (-7)]] [] in
  call_getter (fun v => v) d_termo t_termo g_termo "GetTemperature" (Some m) = Some [VI (-7)]
  /\ call_getter (fun v => v) d_termo t_termo g_termo "GetStatus" (Some m) = Some [VU 0]
  /\ call_getter (fun v => v) d_termo t_termo g_termo "GetPressure" (Some m) = None.
Proof. repeat split. Qed.

(** ** C113 *)
Lemma resets_ok {T K V} (doc : doc_message T) dflt (d : list (field K)) (call : string -> option (message V) -> option (list V)) :
  getters_of doc dflt d call -> Forall (fun e => match e with (_, _, _, n) => In n (map f_num d) end) doc -> resets doc dflt call (reset d).
Proof.
  intros [H _] Hd m. split; [reflexivity|]. split.
  - intros vs Hv. cbn [reset m_vals] in Hv. apply in_map_iff in Hv as (f & <- & _). reflexivity.
  - intros l t name n Hin. rewrite Forall_forall in Hd. specialize (Hd _ Hin). cbn beta iota in Hd. apply in_map_iff in Hd as (f & Hn & Hf).
    apply In_nth_error in Hf as [i Hi]. apply (proj2 (H l t name n Hin) (reset d m) []). exists i, f. split; [exact Hi|]. split; [exact Hn|].
    cbn [reset m_vals]. apply (map_nth_error (fun _ => @nil V) _ _ Hi).
Qed.
Definition leaf_resets (doc : doc_message scalar) (d : list (field kind)) (ts : tags) (gs : list getter) : Prop :=
  resets doc scalar_default (call_getter (fun v => v) d ts gs) (reset d).

Theorem C113_reset :
  resets doc_storage_record storage_default (call_getter VLeaf d_storage t_storage g_storage) (reset d_storage)
  /\ leaf_resets doc_sens_accelerometer_data d_accelerometer t_accelerometer g_accelerometer
  /\ leaf_resets doc_sens_ain_ain_value d_ain t_ain g_ain
  /\ leaf_resets doc_sens_buffer_data d_buffer t_buffer g_buffer
  /\ leaf_resets doc_sens_button_press_counter d_button t_button g_button
  /\ leaf_resets doc_sens_can_log_data d_canlog t_canlog g_canlog
  /\ leaf_resets doc_sens_can_log_tmp_data_ext d_canlog_ext t_canlog_ext g_canlog_ext
  /\ leaf_resets doc_sens_counter_count d_counter t_counter g_counter
  /\ leaf_resets doc_sens_crash_data d_crash t_crash g_crash
  /\ leaf_resets doc_sens_dins_flags d_dins t_dins g_dins
  /\ leaf_resets doc_sens_douts_flags d_douts t_douts g_douts
  /\ leaf_resets doc_sens_fmeter_frequency d_fmeter t_fmeter g_fmeter
  /\ leaf_resets doc_sens_fuel_level d_fuel t_fuel g_fuel
  /\ leaf_resets doc_sens_gsm_cell_monotoring_cell_monitoring d_gsm t_gsm g_gsm
  /\ leaf_resets doc_sens_nd_nav_data d_nav t_nav g_nav
  /\ leaf_resets doc_sens_stor_info d_stor t_stor g_stor
  /\ leaf_resets doc_sens_termo_data d_termo t_termo g_termo
  /\ leaf_resets doc_sens_test_era_tests d_era t_era g_era
  /\ leaf_resets doc_sens_tracker_info d_tracker t_tracker g_tracker.
Proof.
  destruct C109_getters as (H0 & H1 & H2 & H3 & H4 & H5 & H6 & H7 & H8 & H9 & H10 & H11 & H12 & H13 & H14 & H15 & H16 & H17 & H18).
  do 18 (split; [apply resets_ok; [assumption|repeat (constructor; [vm_compute; intuition|]); constructor]|]).
  apply resets_ok; [assumption|repeat (constructor; [vm_compute; intuition|]); constructor].
Qed.

(** A message with values and an unknown byte before Reset. *)
Example C113_example :
  let m := mkMessage [[VU 5]; []; [VI (-7)]] [9] in
  call_getter (fun v => v) d_termo t_termo g_termo "GetTemperature" (Some m) = Some [VI (-7)]
  /\ call_getter (fun v => v) d_termo t_termo g_termo "GetTemperature" (Some (reset d_termo m)) = Some [VI 0].
Proof. repeat split. Qed.

(** ** C110 *)
Lemma name_table v name : doc_value name v <-> In (v, name) reason_name.
Proof.
  unfold doc_value. change doc_reason with (map (fun e => (snd e, fst e)) reason_name). rewrite in_map_iff. split.
  - intros ([x y] & E & H). injection E as <- <-. exact H.
  - intros H. exists (v, name). auto.
Qed.
Lemma value_table name v : doc_value name v <-> In (name, v) reason_value.
Proof. reflexivity. Qed.

Lemma key_unique {A B} (l : list (A * B)) : NoDup (map fst l) -> forall k x y, In (k, x) l -> In (k, y) l -> x = y.
Proof.
  induction l as [|[k0 x0] l IH]; cbn [map fst In]; intros Hd k x y H K; [destruct H|].
  inversion Hd as [|? ? Hn Hd']; subst.
  destruct H as [H|H], K as [K|K].
  - congruence.
  - injection H as -> ->. exfalso. apply Hn, in_map_iff. exists (k, y). auto.
  - injection K as -> ->. exfalso. apply Hn, in_map_iff. exists (k, x). auto.
  - eauto.
Qed.
Lemma value_unique name v w : doc_value name v -> doc_value name w -> v = w.
Proof. apply key_unique. vm_compute. nodup. Qed.
Lemma name_unique v a b : doc_value a v -> doc_value b v -> a = b.
Proof. rewrite !name_table. apply key_unique. vm_compute. nodup. Qed.

(** The name of a reason, or its number if it has none: String. *)
Theorem C110_names : forall v,
  (forall name, doc_value name v -> reason_string v = bytes_of_string name)
  /\ ((forall name, ~ doc_value name v) -> int_text (reason_string v) v).
Proof.
  intros v. unfold reason_string. destruct (find _ reason_name) as [[w n]|] eqn:Hf.
  - apply find_some in Hf as [Hin Hv]. cbn [fst] in Hv. apply Z.eqb_eq in Hv as ->. apply name_table in Hin. split.
    + intros name H. cbn [snd]. f_equal. exact (name_unique _ _ _ Hin H).
    + intros H. exfalso. exact (H _ Hin).
  - split; [|intros _; apply dec_Z_text]. intros name H. apply name_table in H.
    apply (find_none _ _ Hf) in H. cbn [fst] in H. rewrite Z.eqb_refl in H. discriminate.
Qed.

Lemma name_letter name v : doc_value name v -> exists c t, bytes_of_string name = c :: t /\ 65 <= c <= 90.
Proof.
  intros H.
  assert (Forall (fun e => exists c t, bytes_of_string (fst e) = c :: t /\ 65 <= c <= 90) doc_reason) as F.
  { unfold doc_reason. repeat (constructor; [eexists; eexists; split; [reflexivity|cbn; lia]|]). constructor. }
  rewrite Forall_forall in F. exact (F _ H).
Qed.
Lemma int_head t v : int_text t v -> exists c u, t = c :: u /\ c < 65.
Proof.
  intros [(n & (H & F & _) & _)|(u & n & -> & _)].
  - destruct t as [|c t]; [congruence|]. inversion F as [|? ? D]; subst. unfold is_digit in D. exists c, t. split; [reflexivity|lia].
  - exists 45, u. split; [reflexivity|lia].
Qed.

(** Different reasons print differently. *)
Theorem C110_distinct : forall v w, reason_string v = reason_string w -> v = w.
Proof.
  intros v w E.
  assert (forall x, (exists n, doc_value n x) \/ (forall n, ~ doc_value n x)) as D.
  { intros x. destruct (find (fun e => Z.eqb (fst e) x) reason_name) as [[y n]|] eqn:Hf.
    - apply find_some in Hf as [Hin Hv]. cbn [fst] in Hv. apply Z.eqb_eq in Hv as ->. left. exists n. apply name_table. exact Hin.
    - right. intros n H. apply name_table in H. apply (find_none _ _ Hf) in H. cbn [fst] in H. rewrite Z.eqb_refl in H. discriminate. }
  destruct (C110_names v) as [V1 V2], (C110_names w) as [W1 W2].
  destruct (D v) as [[a Ha]|Ha], (D w) as [[b Hb]|Hb].
  - rewrite (V1 _ Ha), (W1 _ Hb) in E. assert (a = b) as -> by (rewrite <- (string_bytes a), <- (string_bytes b), E; reflexivity).
    exact (value_unique _ _ _ Ha Hb).
  - exfalso. specialize (W2 Hb). rewrite <- E, (V1 _ Ha) in W2. destruct (name_letter _ _ Ha) as (c & t & Hc & ?), (int_head _ _ W2) as (d & u & Hd & ?).
    rewrite Hc in Hd. injection Hd as -> ->. lia.
  - exfalso. specialize (V2 Ha). rewrite E, (W1 _ Hb) in V2. destruct (name_letter _ _ Hb) as (c & t & Hc & ?), (int_head _ _ V2) as (d & u & Hd & ?).
    rewrite Hc in Hd. injection Hd as -> ->. lia.
  - specialize (V2 Ha). specialize (W2 Hb). rewrite E in V2. exact (int_text_det _ _ _ V2 W2).
Qed.

Lemma name_ascii name v : doc_value name v -> Forall (fun c => c < 128) (bytes_of_string name).
Proof.
  intros H.
  assert (Forall (fun e => forallb (fun c => c <? 128) (bytes_of_string (fst e)) = true) doc_reason) as F.
  { unfold doc_reason. repeat (constructor; [reflexivity|]). constructor. }
  rewrite Forall_forall in F. specialize (F _ H). cbn [fst] in F. rewrite forallb_forall in F. apply Forall_forall.
  intros x Hx. specialize (F x Hx). lia.
Qed.

(** How a JSON text without white space in front begins. *)
Definition begins (v : json) (c : N) : Prop :=
  match v with JStr _ => c = 34 | JNum _ => c = 45 \/ is_digit c | JNull => c = 110 | _ => True end.
Lemma doc_head data v : json_doc data v -> match data with [] => False | c :: _ => is_ws c \/ begins v c end.
Proof.
  intros (a & u & b & Ha & _ & Hu & ->). destruct a as [|c a].
  2:{ left. inversion Ha. assumption. }
  cbn [app]. destruct Hu; cbn; auto.
  - right. reflexivity.
  - destruct b0; right; exact I.
  - destruct H as (s & i & f & e & -> & [->| ->] & (n & Hi & Fi & _) & _); cbn; auto.
    destruct i as [|c i]; [congruence|]. inversion Fi; subst. cbn. auto.
Qed.

(** Reading: a name gives its reason, a number itself; nothing else is taken; an empty slice
    panics; an error leaves the variable alone. *)
Theorem C110_reading : forall js ji data old, decoders js ji data -> (forall c r, data = c :: r -> ~ is_ws c) ->
  (forall v, reason_unmarshal js ji old data = RdOk v <->
     (exists name, doc_value name v /\ json_doc data (JStr (bytes_of_string name))) \/ reads_int data v)
  /\ (reason_unmarshal js ji old data = RdPanic <-> data = [])
  /\ (forall w, reason_unmarshal js ji old data = RdErr w -> w = old).
Proof.
  intros js ji data old [Hs Hi] Hw.
  destruct data as [|c r].
  { cbn [reason_unmarshal]. split; [|split; [tauto|discriminate]]. intros v. split; [discriminate|].
    intros [(n & _ & H)|[(t & H & _)|[H _]]]; destruct (doc_head _ _ H). }
  specialize (Hw c r eq_refl). cbn [reason_unmarshal]. destruct (N.eqb_spec c 34) as [->|Hc].
  - assert (forall v, ~ reads_int (34 :: r) v) as Hno.
    { intros v [(t & H & _)|[H _]]; destruct (doc_head _ _ H) as [|B]; auto; cbn in B; unfold is_digit in B; lia. }
    destruct (js (34 :: r)) as [s|] eqn:Es.
    + destruct (find _ reason_value) as [[n v0]|] eqn:Hf.
      * apply find_some in Hf as [Hin Hn]. cbn [fst] in Hn. destruct (list_eq_dec _ _ s) as [<-|]; [|discriminate].
        apply value_table in Hin. pose proof (proj1 (Hs _ (name_ascii _ _ Hin)) eq_refl) as Hj.
        split; [|split; [split; discriminate|intros; discriminate]]. intros v. cbn [snd]. split.
        -- intros E. injection E as <-. left. eauto.
        -- intros [(m & Hm & Km)|H]; [|destruct (Hno _ H)]. f_equal.
           assert (bytes_of_string m = bytes_of_string n) as E.
           { pose proof (json_doc_det _ _ _ Km Hj) as E. injection E as E. exact E. }
           assert (m = n) as -> by (rewrite <- (string_bytes m), <- (string_bytes n), E; reflexivity).
           exact (value_unique _ _ _ Hin Hm).
      * split; [|split; [split; discriminate|intros w E; injection E as <-; reflexivity]].
        intros v. split; [discriminate|]. intros [(m & Hm & Km)|H]; [|destruct (Hno _ H)]. exfalso.
        apply (Hs _ (name_ascii _ _ Hm)) in Km. injection Km as ->. apply (find_none _ _ Hf) in Hm. cbn [fst] in Hm.
        destruct (list_eq_dec _ _ _); congruence.
    + split; [|split; [split; discriminate|intros w E; injection E as <-; reflexivity]].
      intros v. split; [discriminate|]. intros [(m & Hm & Km)|H]; [|destruct (Hno _ H)]. exfalso.
      apply (Hs _ (name_ascii _ _ Hm)) in Km. discriminate.
  - assert (forall s, ~ json_doc (c :: r) (JStr s)) as Hno.
    { intros s H. destruct (doc_head _ _ H) as [|B]; auto. }
    destruct (ji (c :: r)) as [v0|] eqn:Ei.
    + split; [|split; [split; discriminate|intros; discriminate]]. intros v. rewrite <- Hi. split.
      * intros E. injection E as <-. right. reflexivity.
      * intros [(m & _ & H)|H]; [destruct (Hno _ H)|]. congruence.
    + split; [|split; [split; discriminate|intros w E; injection E as <-; reflexivity]].
      intros v. rewrite <- Hi. split; [discriminate|]. intros [(m & _ & H)|H]; [destruct (Hno _ H)|discriminate].
Qed.

(** The text "STOP" in quotes, and the numbers 7 and 4000, which is no reason. *)
Lemma text_doc t v : json_text t v -> json_doc t v.
Proof. intros H. exists [], t, []. rewrite app_nil_r. repeat split; auto; constructor. Qed.
Example C110_example_decoders :
  let stop := [34; 83; 84; 79; 80; 34] in
  decoders (fun _ => Some [83; 84; 79; 80]) (fun _ => None) stop
  /\ (forall c r, stop = c :: r -> ~ is_ws c)
  /\ decoders (fun _ => None) (fun _ => Some 4000%Z) [52; 48; 48; 48].
Proof.
  assert (json_doc [34; 83; 84; 79; 80; 34] (JStr [83; 84; 79; 80])) as J.
  { apply text_doc, (jt_str [83; 84; 79; 80]). repeat (apply st_plain; [lia|discriminate|discriminate|]). constructor. }
  assert (int_text [52; 48; 48; 48] 4000) as T.
  { left. exists 4000. split; [|reflexivity]. repeat split; try discriminate. repeat (constructor; [unfold is_digit; lia|]). constructor. }
  assert (json_doc [52; 48; 48; 48] (JNum [52; 48; 48; 48])) as K by (apply text_doc, jt_num, (int_number _ _ T)).
  split; [split|split; [|split]].
  - intros s _. split; [intros E; injection E as <-; exact J|]. intros H. pose proof (json_doc_det _ _ _ J H) as E. congruence.
  - intros v. split; [discriminate|]. intros [(t & H & _)|[H _]]; pose proof (json_doc_det _ _ _ J H); discriminate.
  - intros c r E. injection E as <- _. unfold is_ws. lia.
  - intros s _. split; [discriminate|]. intros H. pose proof (json_doc_det _ _ _ K H). discriminate.
  - intros v. split.
    + intros E. injection E as <-. left. exists [52; 48; 48; 48]. split; [exact K|split; [exact T|lia]].
    + intros [(t & H & It & _)|[H _]]; pose proof (json_doc_det _ _ _ K H) as E; [|discriminate]. injection E as <-.
      rewrite (int_text_det _ _ _ It T). reflexivity.
Qed.
Example C110_example :
  reason_string 7 = [83; 84; 79; 80] /\ reason_string 4000 = [52; 48; 48; 48]
  /\ reason_unmarshal (fun _ => Some [83; 84; 79; 80]) (fun _ => None) 3 [34; 83; 84; 79; 80; 34] = RdOk 7
  /\ reason_unmarshal (fun _ => None) (fun _ => Some 4000%Z) 3 [52; 48; 48; 48] = RdOk 4000
  /\ reason_unmarshal (fun _ => Some [83; 84; 79; 112]) (fun _ => None) 3 [34; 83; 84; 79; 112; 34] = RdErr 3.
Proof. repeat split. Qed.

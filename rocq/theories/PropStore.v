(** Properties of storages, settings, the accept loop and concurrency: C48 - C50, C56 - C61, C63. *)
From Coq Require Import NArith ZArith Lia ZifyBool ZifyNat ZifyN String Ascii Bool List Permutation.
From Verif Require Import GoBase GoFloat Crc SubRecords Records Package Storage Config Server
  SpecBase SpecCrc SpecPkg SpecSub SpecRec SpecSrv SpecConc
  BaseFacts SubFacts SubMore RecordFacts DecodeFacts CrcFacts WireFacts PackageFacts PropRec PropPkg PropMore
  SrvFacts SrvLoop SrvPacket SrvConn PropSrv.
Import ListNotations.
Open Scope N_scope.

(** ** C49 *)
Theorem C49_storage_fan_out : forall (S : Type) (ok : S -> bool) (r : list S) calls res,
  repo_save ok r = (calls, res) ->
  (res = true /\ (forall s, In s r -> ok s = true) /\ calls = map (fun s => (s, true)) r)
  \/ (res = false /\ exists r1 s r2, r = (r1 ++ s :: r2)%list /\ (forall x, In x r1 -> ok x = true) /\ ok s = false
      /\ calls = (map (fun x => (x, true)) r1 ++ [(s, false)])%list).
Proof.
  intros S ok r. induction r as [|s r IH]; intros calls res H; cbn [repo_save] in H.
  - injection H as <- <-. left. repeat split. intros s [].
  - destruct (ok s) eqn:Hs.
    + destruct (repo_save ok r) as [calls' res'] eqn:Hr. injection H as <- <-.
      destruct (IH _ _ eq_refl) as [(-> & H1 & ->)|(-> & r1 & x & r2 & -> & H1 & H2 & ->)].
      * left. split; [reflexivity|]. split; [|reflexivity]. intros y [<-|Hy]; auto.
      * right. split; [reflexivity|]. exists (s :: r1), x, r2. repeat split; try assumption.
        intros y [<-|Hy]; auto.
    + injection H as <- <-. right. split; [reflexivity|]. exists [], s, r. repeat split; try assumption. intros x [].
Qed.

Corollary C49_success_means_all_stored : forall (S : Type) (ok : S -> bool) (r : list S),
  snd (repo_save ok r) = true <-> forall s, In s r -> ok s = true.
Proof.
  intros S ok r. destruct (repo_save ok r) as [calls res] eqn:H. cbn [snd].
  destruct (C49_storage_fan_out _ _ _ _ _ H) as [(-> & H1 & _)|(-> & r1 & s & r2 & -> & _ & H2 & _)].
  - split; auto.
  - split; [discriminate|]. intros Ha. rewrite Ha in H2; [discriminate|]. apply in_or_app. right. left. reflexivity.
Qed.

Example C49_ex : repo_save (fun n => negb (n =? 3)) [1; 2; 3; 4] = ([(1, true); (2, true); (3, false)], false).
Proof. reflexivity. Qed.

(** ** C50 *)
Section Load.
Context {P : Type} (init_ok : StoreKind -> P -> bool).

(** The storage an entry of the configuration asks for. *)
Definition supported (name : string) (k : StoreKind) : Prop :=
  In (name, k) [("rabbitmq", KRabbitmq); ("postgresql", KPostgresql); ("nats", KNats);
                ("tarantool_queue", KTarantool); ("redis", KRedis); ("mysql", KMysql)]%string.
Definition starts (e : string * P) (s : StoreKind * P) : Prop :=
  supported (fst e) (fst s) /\ snd s = snd e /\ init_ok (fst s) (snd e) = true.

Lemma store_kind_supported name k : store_kind name = Some k <-> supported name k.
Proof.
  unfold store_kind, supported. split.
  - cbn [In]. repeat (match goal with |- (if String.eqb name ?s then _ else _) = _ -> _ =>
      destruct (String.eqb_spec name s) as [->|_]; [intros H; injection H as <-; tauto|] end). discriminate.
  - cbn [In]. intros H. repeat (destruct H as [H|H]; [injection H as <- <-; reflexivity|]). destruct H.
Qed.

Lemma load_loop_spec cfg : forall r r' res, load_loop init_ok r cfg = (r', res) ->
  (res = LOk /\ exists new, r' = (r ++ new)%list /\ Forall2 starts cfg new)
  \/ (res <> LOk /\ exists e new cfg1 cfg2, cfg = (cfg1 ++ e :: cfg2)%list /\ r' = (r ++ new)%list /\ Forall2 starts cfg1 new
      /\ ~ exists s, starts e s).
Proof.
  induction cfg as [|[name params] cfg IH]; intros r r' res H; cbn [load_loop] in H.
  - injection H as <- <-. left. split; [reflexivity|]. exists []. rewrite app_nil_r. split; [reflexivity|constructor].
  - destruct (store_kind name) as [k|] eqn:Hk.
    + destruct (init_ok k params) eqn:Hi.
      * unfold AddStore in H. apply IH in H.
        assert (starts (name, params) (k, params)) as Hst by (split; [apply store_kind_supported; assumption|split; [reflexivity|assumption]]).
        destruct H as [(-> & new & -> & Hf)|(Hr & e & new & cfg1 & cfg2 & -> & -> & Hf & He)].
        -- left. split; [reflexivity|]. exists ((k, params) :: new). rewrite <- app_assoc. split; [reflexivity|]. constructor; assumption.
        -- right. split; [assumption|]. exists e, ((k, params) :: new), ((name, params) :: cfg1), cfg2.
           rewrite <- app_assoc. repeat split; try assumption. constructor; assumption.
      * injection H as <- <-. right. split; [discriminate|]. exists (name, params), [], [], cfg. rewrite app_nil_r.
        repeat split; [constructor|]. intros ([k' p'] & H1 & H2 & H3). cbn [fst snd] in *.
        apply store_kind_supported in H1. congruence.
    + injection H as <- <-. right. split; [discriminate|]. exists (name, params), [], [], cfg. rewrite app_nil_r.
      repeat split; [constructor|]. intros ([k' p'] & H1 & H2 & H3). cbn [fst snd] in *.
      apply store_kind_supported in H1. congruence.
Qed.

Theorem C50_storage_loading : forall r cfg,
  (snd (LoadStorages init_ok r cfg) = LOk <-> cfg <> [] /\ forall e, In e cfg -> exists s, starts e s)
  /\ (snd (LoadStorages init_ok r cfg) = LOk -> exists new, fst (LoadStorages init_ok r cfg) = (r ++ new)%list /\ Forall2 starts cfg new).
Proof.
  intros r cfg. unfold LoadStorages. destruct cfg as [|e0 cfg].
  { cbn [fst snd]. split; [|discriminate]. split; [discriminate|]. intros [H _]. congruence. }
  destruct (load_loop init_ok r (e0 :: cfg)) as [r' res] eqn:H. cbn [fst snd].
  apply load_loop_spec in H. destruct H as [(-> & new & -> & Hf)|(Hr & e & new & cfg1 & cfg2 & Hc & -> & Hf & He)].
  - split; [|eauto]. split; [|reflexivity]. intros _. split; [discriminate|]. intros e He. clear -Hf He.
    induction Hf as [|a b l l' Hab Hf IH]; [destruct He|]. destruct He as [<-|He]; eauto.
  - split; [|congruence]. split; [congruence|]. intros [_ Hall]. exfalso. apply He, Hall. rewrite Hc. apply in_or_app. right. left. reflexivity.
Qed.

(** The order in which the map is iterated matters neither for success nor (up to order) for
    what is installed. *)
Theorem C50_any_iteration_order : forall r cfg cfg', Permutation cfg cfg' ->
  snd (LoadStorages init_ok r cfg) = LOk ->
  snd (LoadStorages init_ok r cfg') = LOk /\ Permutation (fst (LoadStorages init_ok r cfg)) (fst (LoadStorages init_ok r cfg')).
Proof.
  intros r cfg cfg' Hp Hok. pose proof (C50_storage_loading r cfg) as [H1 H2]. pose proof (C50_storage_loading r cfg') as [H1' H2'].
  assert (snd (LoadStorages init_ok r cfg') = LOk) as Hok'.
  { apply H1'. apply H1 in Hok as [Ha Hb]. split.
    - intros ->. apply Permutation_sym, Permutation_nil in Hp. congruence.
    - intros e He. apply Hb. eapply Permutation_in; [apply Permutation_sym; eassumption|assumption]. }
  split; [assumption|]. destruct (H2 Hok) as (new & -> & Hf). destruct (H2' Hok') as (new' & -> & Hf').
  apply Permutation_app_head. clear -Hp Hf Hf'.
  destruct (Permutation_Forall2 Hp Hf) as (new2 & Hpn & Hf2).
  assert (new2 = new') as ->; [|assumption]. clear -Hf2 Hf'. revert new' Hf'.
  induction Hf2 as [|e s cfg' new2 H Hf2 IH]; intros new' Hf'; inversion Hf' as [|? s' ? n' H' Hf'']; subst; [reflexivity|].
  f_equal; [|auto]. destruct H as (A1 & A2 & _), H' as (B1 & B2 & _). destruct s, s'. cbn [fst snd] in *.
  apply store_kind_supported in A1. apply store_kind_supported in B1. congruence.
Qed.

(** The receiver always has a storage: the configured ones, or at least the log. *)
Theorem C50_there_is_a_storage : forall nil_params cfg,
  main_storages init_ok nil_params cfg <> []
  /\ (snd (LoadStorages init_ok NewRepository cfg) <> LOk -> In (KLog, nil_params) (main_storages init_ok nil_params cfg))
  /\ (snd (LoadStorages init_ok NewRepository cfg) = LOk -> Forall2 starts cfg (main_storages init_ok nil_params cfg)).
Proof.
  intros nil_params cfg. pose proof (C50_storage_loading NewRepository cfg) as [H1 H2]. unfold main_storages.
  destruct (LoadStorages init_ok NewRepository cfg) as [r res]. cbn [fst snd] in *.
  destruct res; [|split; [unfold AddStore; destruct r; discriminate|split; [intros _; unfold AddStore; apply in_or_app; right; left; reflexivity|discriminate]]..].
  destruct (H2 eq_refl) as (new & -> & Hf). destruct H1 as [H1 _]. destruct (H1 eq_refl) as [Hne _].
  change (NewRepository ++ new)%list with new. split; [|split; [congruence|auto]].
  intros ->. inversion Hf; subst. congruence.
Qed.
End Load.

Example C50_ex : main_storages (P := N) (fun k _ => match k with KRedis => false | _ => true end) 0
  [("nats", 1); ("redis", 2); ("mysql", 3)]%string = [(KNats, 1); (KLog, 0)]
  /\ LoadStorages (fun _ _ => true) [] [("nats", 1); ("redis", 2)]%string = ([(KNats, 1); (KRedis, 2)], LOk).
Proof. split; reflexivity. Qed.

(** ** C58 *)
Theorem C58_stop_ends_run_refuted : forall (C : Type) (results : list (accept_result C)),
  snd (accept_loop results) = RunLooping.
Proof.
  intros C results. induction results as [|[c|] rs IH]; cbn [accept_loop]; [reflexivity| |assumption].
  destruct (accept_loop rs). assumption.
Qed.

(** What the loop does do: every accepted connection gets a handler. *)
Theorem C58_connections_are_served_partial : forall (C : Type) (results : list (accept_result C)),
  fst (accept_loop results) = flat_map (fun r => match r with AcceptConn c => [c] | AcceptErr => [] end) results.
Proof.
  intros C results. induction results as [|[c|] rs IH]; cbn [accept_loop flat_map]; [reflexivity| |assumption].
  destruct (accept_loop rs). cbn [fst] in *. rewrite IH. reflexivity.
Qed.

(** ** C57 *)
Definition total (l : list Z) : Z := fold_right Z.add 0%Z l.

(** A peer that sends nothing, or a part of a header, is never disconnected, however long it
    is silent. *)
Theorem C57_idle_connections_refuted : forall ttl got elapsed times,
  fold_left (conn_step ttl) (map CeTime times) (PhReading got elapsed) = PhReading got (elapsed + total times).
Proof.
  intros ttl got elapsed times. revert elapsed. induction times as [|t times IH]; intros elapsed; cbn [map fold_left total fold_right].
  - f_equal. lia.
  - assert (conn_step ttl (PhReading got elapsed) (CeTime t) = PhReading got (elapsed + t)) as -> by (destruct got; reflexivity).
    rewrite IH. f_equal. unfold total. lia.
Qed.

Corollary C57_no_deadline_refuted : forall ttl, exists times, (ttl < total times)%Z /\ (forall t, In t times -> 0 <= t)%Z /\
  fold_left (conn_step ttl) (map CeTime times) (PhReading [] 0) <> PhClosed.
Proof.
  intros ttl. exists [Z.max ttl 0 + 1]%Z. split; [cbn; lia|]. split; [intros t [<-|[]]; lia|].
  rewrite C57_idle_connections_refuted. discriminate.
Qed.

(** Only after the peer has closed its side does the timer matter. *)
Theorem C57_after_eof_partial : forall ttl before after, (forall t, In t after -> 0 <= t)%Z -> (ttl <= total before + total after)%Z ->
  fold_left (conn_step ttl) (map CeTime before ++ [CeEof] ++ map CeTime after) (PhReading [] 0) = PhClosed.
Proof.
  intros ttl before after Hpos Hle. rewrite fold_left_app, C57_idle_connections_refuted. cbn [app fold_left].
  assert (forall l, fold_left (conn_step ttl) (map CeTime l) PhClosed = PhClosed) as Hclosed
    by (induction l; [reflexivity|assumption]).
  cbn [conn_step]. destruct (Z.leb_spec ttl (0 + total before)); [apply Hclosed|].
  assert (forall l rem, (forall t, In t l -> 0 <= t)%Z -> (0 < rem)%Z -> (rem <= total l)%Z ->
    fold_left (conn_step ttl) (map CeTime l) (PhWaitTimer rem) = PhClosed) as Hw.
  { clear -Hclosed. induction l as [|t l IH]; intros rem Hp Hr Hl; [cbn in Hl; lia|].
    cbn [map fold_left conn_step]. destruct (Z.leb_spec rem t); [apply Hclosed|].
    apply IH; [intros x Hx; apply Hp; right; assumption|lia|]. change (total (t :: l)) with (t + total l)%Z in Hl. lia. }
  apply Hw; [assumption|lia|lia].
Qed.

(** ** C63 *)
Open Scope Z_scope.
Theorem C63_settings_partial : forall s,
  (- 2 ^ 63 <= c_ConnTTl s * 1000000000 < 2 ^ 63 -> GetEmptyConnTTL s = c_ConnTTl s * 1000000000)
  /\ GetListenAddress s = (c_Host s ++ ":" ++ c_Port s)%string
  /\ (c_LogLevel s = "DEBUG"%string -> GetLogLevel s = DebugLevel)
  /\ (c_LogLevel s = "WARN"%string -> GetLogLevel s = WarnLevel)
  /\ (c_LogLevel s = "ERROR"%string -> GetLogLevel s = ErrorLevel)
  /\ (~ In (c_LogLevel s) ["DEBUG"; "WARN"; "ERROR"]%string -> GetLogLevel s = InfoLevel).
Proof.
  intros s. split; [|split; [reflexivity|]].
  - intros H0. unfold GetEmptyConnTTL, wrap64, ns_per_s in *. change (2 ^ 63) with 9223372036854775808 in *. 
    rewrite ?Z.mod_small; lia.
  - unfold GetLogLevel. repeat split; [intros ->; reflexivity..|]. intros Hn. cbn [In] in Hn.
    destruct (String.eqb_spec (c_LogLevel s) "DEBUG"); [exfalso; auto|]. destruct (String.eqb (c_LogLevel s) "INFO"); [reflexivity|].
    destruct (String.eqb_spec (c_LogLevel s) "WARN"); [exfalso; auto|]. destruct (String.eqb_spec (c_LogLevel s) "ERROR"); [exfalso; auto|].
    reflexivity.
Qed.

(** 9223372037 seconds (292 years) become a negative duration. *)
Theorem C63_ttl_refuted : exists s, c_ConnTTl s = 9223372037 /\ GetEmptyConnTTL s < 0.
Proof. exists (mkSettings "" "" 9223372037 ""). split; [reflexivity|]. vm_compute. reflexivity. Qed.

(** In general the product is cut to 64 bits. *)
Theorem C63_ttl_in_general : forall s, (exists k, GetEmptyConnTTL s = c_ConnTTl s * 1000000000 + k * 2 ^ 64) /\ - 2 ^ 63 <= GetEmptyConnTTL s < 2 ^ 63.
Proof.
  intros s. unfold GetEmptyConnTTL, wrap64, ns_per_s. change (2 ^ 63) with 9223372036854775808. change (2 ^ 64) with 18446744073709551616.
  set (z := c_ConnTTl s * 1000000000). pose proof (Z.mod_pos_bound (z + 9223372036854775808) 18446744073709551616 eq_refl).
  pose proof (Z.div_mod (z + 9223372036854775808) 18446744073709551616 ltac:(discriminate)). split; [|lia].
  exists (- ((z + 9223372036854775808) / 18446744073709551616)). lia.
Qed.

Example C63_ex : GetEmptyConnTTL (mkSettings "127.0.0.1" "6000" 10 "DEBUG") = 10000000000
  /\ GetListenAddress (mkSettings "127.0.0.1" "6000" 10 "DEBUG") = "127.0.0.1:6000"%string.
Proof. split; reflexivity. Qed.

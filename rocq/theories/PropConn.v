(** The storage connectors: C77 - C81, C83, C84, and the settings file: C85. *)
From Coq Require Import NArith ZArith String Ascii Bool List Lia.
From Flocq Require Import BinarySingleNaN.
From Verif Require Import GoBase GoFloat SubRecords Records Package Storage Config Server SpecBase BaseFacts SpecRec SpecCrc SpecPkg SpecSrv
  SrvFacts SrvLoop SrvPacket SrvConn PropSrv Json SpecJson JsonFacts PropJson Connect SpecConn ConnFacts ConcreteEnv.
Import ListNotations.
Open Scope string_scope.
#[local] Arguments String.append !s1 s2 /.

(** ** C77 *)
Definition finite_pos (r : NavRecord) : Prop := is_finite (nr_Latitude r) = true /\ is_finite (nr_Longitude r) = true.

Lemma finite_cases r : finite_pos r \/ (is_finite (nr_Latitude r) && is_finite (nr_Longitude r))%bool = false.
Proof. unfold finite_pos. destruct (is_finite (nr_Latitude r)), (is_finite (nr_Longitude r)); auto. Qed.

(** A Save of a connector set up by Init: exactly one request, with the record as JSON, to the
    place in the settings; it is successful exactly when the request is.  If the record has no
    JSON form there is no request and Save fails. *)
Theorem C77_one_request : forall k cfg calls0 c r calls ok, k <> KLog ->
  lruns (conn_init k (Some cfg)) calls0 (Some c) -> lruns (conn_save c (Some r)) calls ok ->
  (finite_pos r /\ exists t v q, calls = [(q, ok)] /\ delivers k cfg t q /\ json_text t v /\ nav_json r v)
  \/ (~ finite_pos r /\ calls = [] /\ ok = false).
Proof.
  intros k cfg calls0 c r calls ok Hk Hi Hs. pose proof (init_good _ _ _ _ Hi) as Hg.
  destruct (init_conn _ _ _ _ Hi) as [<- [E|[E _]]]; [congruence|]. injection E as ->.
  assert (conn_save c (Some r) = match ToBytes r with None => LRet false | Some body => LCall (request c body) (fun ok => LRet ok) end) as Hc
    by (unfold conn_save; destruct (cn_kind c); congruence).
  rewrite Hc in Hs. pose proof (C67_json_text r) as Ht. destruct (ToBytes r) as [t|] eqn:Et.
  - left. destruct Ht as (v & H1 & H2). split.
    { unfold ToBytes in Et. destruct (finite_cases r) as [H|H]; [exact H|]. rewrite H in Et. discriminate. }
    apply lruns_call in Hs as (b & cs & -> & Hs). apply lruns_ret in Hs as [-> ->]. exists t, v, (request c t). split; [reflexivity|].
    split; [|auto]. destruct (cn_kind c) eqn:Ek; try congruence; unfold delivers, request; rewrite Ek; cbn [place]; auto 7.
  - right. apply lruns_ret in Hs as [-> ->]. split; [|auto]. unfold finite_pos. intros [A B]. destruct Ht; congruence.
Qed.
(** A nil record is refused without a request. *)
Theorem C77_nil_record : forall k cfg calls0 c calls ok, k <> KLog ->
  lruns (conn_init k (Some cfg)) calls0 (Some c) -> lruns (conn_save c None) calls ok -> calls = [] /\ ok = false.
Proof.
  intros k cfg calls0 c calls ok Hk Hi Hs. destruct (init_conn _ _ _ _ Hi) as [<- _].
  assert (conn_save c None = LRet false) as Hc by (unfold conn_save; destruct (cn_kind c); congruence).
  rewrite Hc in Hs. apply lruns_ret in Hs as [-> ->]. auto.
Qed.


(** ** C78 *)
(** One statement per connector, whatever is saved; the record is only a parameter of it. *)
Theorem C78_statement_is_fixed : forall k cfg calls0 c, k = KMysql \/ k = KPostgresql ->
  lruns (conn_init k (Some cfg)) calls0 (Some c) ->
  exists q, forall r calls ok, lruns (conn_save c r) calls ok -> forall x, In x calls -> exists t, fst x = CSqlExec q t.
Proof.
  intros k cfg calls0 c Hk Hi. destruct (init_conn _ _ _ _ Hi) as [<- _].
  exists (match request c [] with CSqlExec q _ => q | _ => "" end). intros r calls ok H x Hx.
  unfold conn_save in H. destruct Hk as [Hk|Hk]; rewrite Hk in H; (destruct r as [r|]; [|linv; destruct Hx]);
    (destruct (ToBytes r) as [t|]; linv; [| |destruct Hx]); (destruct Hx as [<-|[]]); exists t; unfold request; rewrite Hk; reflexivity.
Qed.

(** ** C79 *)
(** The data base number documented for Redis has no default: without it Init always fails. *)
Theorem C79_redis_default_refuted : forall cfg calls o, cfg "db" = None -> lruns (conn_init KRedis (Some cfg)) calls o -> o = None.
Proof.
  intros cfg calls o Hd H. cbn [conn_init] in H. unfold redis_init in H. destruct (cfg "server"); [|linv; reflexivity].
  cbn [negb] in H. unfold get in H. rewrite Hd in H. change (Atoi "") with (@None Z) in H. cbv iota in H. linv. reflexivity.
Qed.
(** What is needed, and what is done then. *)
Theorem C79_redis_init : forall cfg calls o, lruns (conn_init KRedis (Some cfg)) calls o ->
  (usable KRedis cfg <-> o <> None)
  /\ (o <> None -> exists addr z, cfg "server" = Some addr /\ int_setting (get cfg "db") z
       /\ calls = [(CRedisNewClient addr (get cfg "password") z, true)]).
Proof.
  intros cfg calls o H. cbn [conn_init] in H. unfold redis_init in H. cbn [usable].
  destruct (cfg "server") as [addr|] eqn:Es; [|linv; split; [split; [intros [A _]; congruence|congruence]|congruence]].
  cbn [negb] in H. destruct (Atoi (get cfg "db")) as [z|] eqn:Ed.
  - destruct (cfg "queue") as [q|] eqn:Eq; linv.
    + apply Atoi_spec in Ed. split; [split; [discriminate|]|].
      * intros _. split; [discriminate|]. split; [discriminate|]. eauto.
      * intros _. exists addr, z. auto.
    + split; [|congruence]. split; [intros (_ & A & _); congruence|congruence].
  - linv. split; [|congruence]. split; [|congruence]. intros (_ & _ & A). apply Atoi_none in Ed. contradiction.
Qed.

(** ** C80 *)
Ltac failing := apply Exists_exists; repeat first [apply Exists_cons_hd; reflexivity|apply Exists_cons_tl].
Theorem C80_nil_settings_refused : forall k calls o, k <> KLog -> lruns (conn_init k None) calls o -> o = None /\ calls = [].
Proof. intros k calls o Hk H. destruct k; cbn [conn_init] in H; linv; auto; congruence. Qed.

(** Init fails only because a library call failed, or because of the settings and then nothing has
    been contacted. *)
Theorem C80_bad_settings_no_contact : forall k cfg calls, lruns (conn_init k (Some cfg)) calls None ->
  (exists x, In x calls /\ snd x = false) \/ (~ usable k cfg /\ forall x, In x calls -> ~ network (fst x)).
Proof.
  intros k cfg calls H. destruct k; cbn [conn_init] in H.
  - unfold rabbitmq_init in H. linv; try discriminate; left; failing.
  - unfold postgresql_init in H. linv; try discriminate; left; failing.
  - unfold nats_init in H. linv; try discriminate; left; failing.
  - unfold tarantool_init in H. cbn [usable]. destruct (Atoi (get cfg "max_recons")) eqn:E1; [destruct (Atoi (get cfg "timeout")) eqn:E2; [destruct (Atoi (get cfg "reconnect")) eqn:E3|]|].
    + linv; [discriminate|]. left; failing.
    + linv. right. split; [|intros x []]. apply Atoi_none in E3. tauto.
    + linv. right. split; [|intros x []]. apply Atoi_none in E2. tauto.
    + linv. right. split; [|intros x []]. apply Atoi_none in E1. tauto.
  - destruct (C79_redis_init cfg calls None H) as [[Hu _] _]. right. split; [intros K; exact (Hu K eq_refl)|].
    unfold redis_init in H. destruct (cfg "server"); [|linv; intros x []]. destruct (Atoi _); [|linv; intros x []].
    destruct (cfg "queue"); linv; [discriminate|]. intros x [<-|[]] [].
  - unfold mysql_init in H. linv; try discriminate; left; failing.
  - linv. discriminate.
Qed.
(** Init succeeds only if all library calls did and the settings are usable. *)
Theorem C80_init_success : forall k cfg calls c, lruns (conn_init k (Some cfg)) calls (Some c) ->
  usable k cfg /\ (forall x, In x calls -> snd x = true) /\ cn_kind c = k /\ (k = KLog \/ cn_config c = cfg).
Proof.
  intros k cfg calls c H. destruct (init_conn _ _ _ _ H) as [Ek Ec].
  assert (k = KLog \/ cn_config c = cfg) as Ec' by (destruct Ec as [Ec|[Ec _]]; [left; exact Ec|right; congruence]). clear Ec.
  assert (usable k cfg /\ (forall x, In x calls -> snd x = true)); [|tauto].
  assert (forall (x y : call * bool), snd x = true -> In y [x] -> snd y = true) as H1 by (intros x y Hx [<-|[]]; exact Hx).
  assert (forall (x x2 y : call * bool), snd x = true -> snd x2 = true -> In y [x; x2] -> snd y = true) as H2
    by (intros x x2 y Hx Hx2 [<-|[<-|[]]]; assumption).
  destruct k; cbn [conn_init] in H.
  - unfold rabbitmq_init in H. linv; try discriminate. split; [exact I|]. intros x. apply H2; reflexivity.
  - unfold postgresql_init in H. linv; try discriminate. split; [exact I|]. intros x. apply H2; reflexivity.
  - unfold nats_init in H. linv; try discriminate. split; [exact I|]. intros x. apply H1; reflexivity.
  - unfold tarantool_init in H. cbn [usable]. destruct (Atoi (get cfg "max_recons")) eqn:E1; [|linv; discriminate]. destruct (Atoi (get cfg "timeout")) eqn:E2; [|linv; discriminate].
    destruct (Atoi (get cfg "reconnect")) eqn:E3; [|linv; discriminate]. linv; [|discriminate].
    apply Atoi_spec in E1, E2, E3. split; [split; [exists z; exact E1|split; [exists z0; exact E2|exists z1; exact E3]]|]. intros x. apply H1; reflexivity.
  - destruct (C79_redis_init cfg calls (Some c) H) as [[_ Hu] Hc]. split; [apply Hu; discriminate|]. destruct Hc as (a & z & _ & _ & ->); [discriminate|].
    intros x. apply H1. reflexivity.
  - unfold mysql_init in H. linv; try discriminate. split; [exact I|]. intros x. apply H2; reflexivity.
  - linv. split; [exact I|]. intros x [].
Qed.
(** But the settings may lack what the documentation asks for: four of the connectors take
    settings with nothing in them. *)
Theorem C80_incomplete_settings_refuted : forall k, In k [KMysql; KPostgresql; KNats; KRabbitmq] ->
  exists calls c, lruns (conn_init k (Some (fun _ => None))) calls (Some c) /\ documented k <> []
  /\ forall s, In s (documented k) -> cn_config c s = None.
Proof.
  intros k Hk.
  assert (exists calls c, lruns (conn_init k (Some (fun _ => None))) calls (Some c)) as (calls & c & H).
  { destruct Hk as [<-|[<-|[<-|[<-|[]]]]]; cbn [conn_init].
    - exists [(CSqlOpen "mysql" "", true); (CSqlPing, true)], (mkConn KMysql (fun _ => None) ""). do 3 constructor.
    - exists [(CSqlOpen "postgres" (pg_dsn (fun _ => None)), true); (CSqlPing, true)], (mkConn KPostgresql (fun _ => None) ""). do 3 constructor.
    - exists [(CNatsConnect "" "EGTS handler, topic: " None, true)], (mkConn KNats (fun _ => None) ""). do 2 constructor.
    - exists [(CAmqpDial "amqp://:@:/", true); (CAmqpChannel, true)], (mkConn KRabbitmq (fun _ => None) ""). do 3 constructor. }
  exists calls, c. split; [exact H|]. split; [destruct Hk as [<-|[<-|[<-|[<-|[]]]]]; discriminate|].
  destruct (C80_init_success _ _ _ _ H) as (_ & _ & _ & [E|E]); [subst k; destruct Hk as [?|[?|[?|[?|[]]]]]; discriminate|].
  intros s _. rewrite E. reflexivity.
Qed.

(** ** C81 *)
Lemma app_assoc_s a b c : (a ++ b) ++ c = a ++ (b ++ c).
Proof. induction a as [|x a IH]; [reflexivity|]. change (String x ((a ++ b) ++ c) = String x (a ++ (b ++ c))). rewrite IH. reflexivity. Qed.
Lemma app_nil_s a : a ++ "" = a.
Proof. induction a as [|x a IH]; [reflexivity|]. change (String x (a ++ "") = String x a). rewrite IH. reflexivity. Qed.

Lemma dsn_val s : forall k v t, chars plain s -> dsn (InVal k v) (s ++ t) = dsn (InVal k (v ++ s)) t.
Proof.
  induction s as [|c s IH]; intros k v t H; cbn [append].
  - rewrite app_nil_s. reflexivity.
  - destruct H as [(H1 & H2 & H3) H]. cbn [dsn]. rewrite H1. apply Ascii.eqb_neq in H3. rewrite H3, (IH _ _ _ H). unfold snoc.
    rewrite app_assoc_s. reflexivity.
Qed.
Lemma dsn_aftereq s k t : chars plain s -> s <> "" -> dsn (AfterEq k) (s ++ t) = dsn (InVal k s) t.
Proof.
  intros H Hn. destruct s as [|c s]; [congruence|]. destruct H as [(H1 & H2 & H3) H]. cbn [append dsn]. rewrite H1.
  apply Ascii.eqb_neq in H2, H3. rewrite H2, H3, (dsn_val _ _ _ _ H). reflexivity.
Qed.
Lemma dsn_pair s k t : chars plain s -> s <> "" -> dsn (AfterEq k) (s ++ " " ++ t) = option_map (cons (k, s)) (dsn AtStart t).
Proof. intros H Hn. rewrite (dsn_aftereq _ _ _ H Hn). reflexivity. Qed.
Lemma dsn_end s k : chars plain s -> dsn (AfterEq k) s = Some [(k, s)].
Proof.
  intros H. destruct s as [|c s]; [reflexivity|]. rewrite <- (app_nil_s (String c s)) at 1. rewrite dsn_aftereq; [reflexivity|exact H|discriminate].
Qed.

Lemma dsn_host x : dsn AtStart ("host=" ++ x) = dsn (AfterEq "host") x.
Proof. reflexivity. Qed.
Lemma dsn_port x : dsn AtStart ("port=" ++ x) = dsn (AfterEq "port") x.
Proof. reflexivity. Qed.
Lemma dsn_user x : dsn AtStart ("user=" ++ x) = dsn (AfterEq "user") x.
Proof. reflexivity. Qed.
Lemma dsn_password x : dsn AtStart ("password=" ++ x) = dsn (AfterEq "password") x.
Proof. reflexivity. Qed.
Lemma dsn_sslmode x : dsn AtStart ("sslmode=" ++ x) = dsn (AfterEq "sslmode") x.
Proof. reflexivity. Qed.

(** The six settings in a PostgreSQL connection string are read as they are, if they are not empty
    (except the last) and without white space, quotes and backslashes. *)
Theorem C81_postgresql_string_partial : forall cfg,
  (forall k, In k ["database"; "host"; "port"; "user"; "password"] -> chars plain (get cfg k) /\ get cfg k <> "") ->
  chars plain (get cfg "sslmode") ->
  dsn AtStart (pg_dsn cfg) = Some [("dbname", get cfg "database"); ("host", get cfg "host"); ("port", get cfg "port");
    ("user", get cfg "user"); ("password", get cfg "password"); ("sslmode", get cfg "sslmode")].
Proof.
  intros cfg H Hs. unfold pg_dsn.
  destruct (H "database") as [P1 N1]; [cbn; tauto|]. destruct (H "host") as [P2 N2]; [cbn; tauto|].
  destruct (H "port") as [P3 N3]; [cbn; tauto|]. destruct (H "user") as [P4 N4]; [cbn; tauto|].
  destruct (H "password") as [P5 N5]; [cbn; tauto|]. clear H.
  revert P1 N1 P2 N2 P3 N3 P4 N4 P5 N5 Hs. generalize (get cfg "database") (get cfg "host") (get cfg "port") (get cfg "user") (get cfg "password") (get cfg "sslmode").
  intros a b c d e f P1 N1 P2 N2 P3 N3 P4 N4 P5 N5 Hs.
  change (dsn AtStart ("dbname=" ++ a ++ " host=" ++ b ++ " port=" ++ c ++ " user=" ++ d ++ " password=" ++ e ++ " sslmode=" ++ f))
    with (dsn (AfterEq "dbname") (a ++ " " ++ "host=" ++ b ++ " " ++ "port=" ++ c ++ " " ++ "user=" ++ d ++ " " ++ "password=" ++ e ++ " " ++ "sslmode=" ++ f)).
  rewrite (dsn_pair _ _ _ P1 N1).
  rewrite (dsn_host _). rewrite (dsn_pair _ _ _ P2 N2).
  rewrite (dsn_port _). rewrite (dsn_pair _ _ _ P3 N3).
  rewrite (dsn_user _). rewrite (dsn_pair _ _ _ P4 N4).
  rewrite (dsn_password _). rewrite (dsn_pair _ _ _ P5 N5).
  rewrite (dsn_sslmode _). rewrite (dsn_end _ _ Hs). reflexivity.
Qed.

(** Otherwise not: an empty password swallows what follows it, and a setting with a space can
    bring others. *)
Definition pg_settings (user password sslmode : string) : settings := fun k =>
  if String.eqb k "database" then Some "receiver" else if String.eqb k "host" then Some "localhost"
  else if String.eqb k "port" then Some "5432" else if String.eqb k "user" then Some user
  else if String.eqb k "password" then Some password else if String.eqb k "sslmode" then Some sslmode else None.
Theorem C81_empty_password_refuted : exists cfg kvs, get cfg "password" = "" /\ get cfg "sslmode" = "disable"
  /\ dsn AtStart (pg_dsn cfg) = Some kvs /\ In ("password", "sslmode=disable") kvs /\ ~ In "sslmode" (map fst kvs).
Proof.
  exists (pg_settings "postgres" "" "disable"). eexists. split; [reflexivity|]. split; [reflexivity|]. split; [reflexivity|].
  split; [cbn; tauto|]. cbn. intros [H|[H|[H|[H|[H|[]]]]]]; discriminate.
Qed.
Theorem C81_postgresql_string_refuted : exists cfg cfg', get cfg "user" <> get cfg' "user" /\ get cfg "password" <> get cfg' "password"
  /\ pg_dsn cfg = pg_dsn cfg'.
Proof.
  exists (pg_settings "a password=b" "c" "disable"), (pg_settings "a" "b password=c" "disable").
  split; [discriminate|]. split; [discriminate|reflexivity].
Qed.

Lemma split_at (P : ascii -> Prop) c : ~ P c -> forall s s' r r', chars P s -> chars P s' ->
  s ++ String c r = s' ++ String c r' -> s = s' /\ r = r'.
Proof.
  intros Hc s. induction s as [|d s IH]; intros [|d' s'] r r' H H' E; cbn [append] in E.
  - injection E as ->. auto.
  - injection E as -> _. destruct H' as [H' _]. contradiction.
  - injection E as -> _. destruct H as [H _]. contradiction.
  - injection E as -> E. destruct H as [_ H], H' as [_ H']. destruct (IH _ _ _ H H' E) as [-> ->]. auto.
Qed.

(** The AMQP URI is one that says user, password, host and port, if these consist of unreserved
    characters; and it says nothing else. *)
Theorem C81_rabbitmq_uri_partial : forall cfg, chars unreserved (get cfg "user") -> chars unreserved (get cfg "password") ->
  chars unreserved (get cfg "host") -> chars is_dec (get cfg "port") ->
  amqp (amqp_uri cfg) (get cfg "user") (get cfg "password") (get cfg "host") (get cfg "port")
  /\ forall u p h n, amqp (amqp_uri cfg) u p h n -> u = get cfg "user" /\ p = get cfg "password" /\ h = get cfg "host" /\ n = get cfg "port".
Proof.
  intros cfg H1 H2 H3 H4. split; [split; [reflexivity|auto]|]. intros u p h n (E & K1 & K2 & K3 & K4). unfold amqp_uri in E.
  assert (~ unreserved ":"%char) as N1 by (unfold unreserved; cbn; lia).
  assert (~ unreserved "@"%char) as N2 by (unfold unreserved; cbn; lia).
  assert (~ is_dec "/"%char) as N3 by (unfold is_dec; cbn; lia).
  cbn [append] in E. injection E as E.
  apply (split_at _ _ N1) in E as [<- E]; [|assumption|assumption]. apply (split_at _ _ N2) in E as [<- E]; [|assumption|assumption].
  apply (split_at _ _ N1) in E as [<- E]; [|assumption|assumption]. apply (split_at _ _ N3) in E as [<- _]; auto.
Qed.
(** Nothing is percent-encoded: with a password such as [a/b] it is no such URI at all. *)
Definition amqp_settings (password : string) : settings := fun k =>
  if String.eqb k "user" then Some "guest" else if String.eqb k "password" then Some password
  else if String.eqb k "host" then Some "localhost" else if String.eqb k "port" then Some "5672" else None.
Theorem C81_rabbitmq_uri_refuted : exists cfg, get cfg "password" = "a/b" /\ forall u p h n, ~ amqp (amqp_uri cfg) u p h n.
Proof.
  exists (amqp_settings "a/b"). split; [reflexivity|]. intros u p h n (E & K1 & K2 & K3 & K4).
  assert (~ unreserved ":"%char) as N1 by (unfold unreserved; cbn; lia).
  change (amqp_uri (amqp_settings "a/b")) with ("amqp://" ++ "guest" ++ String ":" ("a/b@localhost:5672/")) in E.
  change ("amqp://" ++ u ++ ":" ++ p ++ "@" ++ h ++ ":" ++ n ++ "/") with ("amqp://" ++ u ++ String ":" (p ++ String "@" (h ++ ":" ++ n ++ "/"))) in E.
  cbn [append] in E. injection E as E. change (String "g" (String "u" (String "e" (String "s" (String "t" ?x))))) with ("guest" ++ x) in E.
  apply (split_at _ _ N1 "guest") in E as [_ E]; [|repeat split; unfold unreserved; cbn; lia|assumption].
  destruct p as [|c1 [|c2 p]]; cbn [append] in E.
  - discriminate.
  - injection E as E. discriminate.
  - injection E as _ E _. subst c2. destruct K2 as (_ & K2 & _). unfold unreserved in K2. cbn in K2. lia.
Qed.

(** What is dialled and opened. *)
Theorem C81_connections : forall k cfg calls o c ok, lruns (conn_init k (Some cfg)) calls o -> In (c, ok) calls ->
  match c with
  | CSqlOpen d s => (d = "mysql" /\ k = KMysql /\ s = get cfg "uri") \/ (d = "postgres" /\ k = KPostgresql /\ s = pg_dsn cfg)
  | CAmqpDial u => k = KRabbitmq /\ u = amqp_uri cfg
  | CNatsConnect s _ u => k = KNats /\ s = get cfg "servers"
      /\ (forall x y, u = Some (x, y) <-> cfg "user" = Some x /\ cfg "password" = Some y)
  | CRedisNewClient a p db => k = KRedis /\ cfg "server" = Some a /\ p = get cfg "password" /\ int_setting (get cfg "db") db
  | CTarantoolConnect a t r m u p => k = KTarantool /\ a = get cfg "host" ++ ":" ++ get cfg "port"
      /\ u = get cfg "user" /\ p = get cfg "password"
  | CSqlPing => k = KMysql \/ k = KPostgresql
  | CAmqpChannel => k = KRabbitmq
  | _ => False
  end.
Proof.
  intros k cfg calls o c ok H Hin. destruct k; cbn [conn_init] in H.
  - unfold rabbitmq_init in H. linv; repeat (destruct Hin as [Hin|Hin]; [injection Hin as <- <-; auto|]); destruct Hin.
  - unfold postgresql_init in H. linv; repeat (destruct Hin as [Hin|Hin]; [injection Hin as <- <-; auto|]); destruct Hin.
  - unfold nats_init in H. assert (c = CNatsConnect (get cfg "servers") ("EGTS handler, topic: " ++ get cfg "topic") (nats_user cfg)) as ->
      by (linv; destruct Hin as [Hin|[]]; congruence).
    split; [reflexivity|]. split; [reflexivity|]. intros x y. unfold nats_user. destruct (cfg "user"), (cfg "password"); split; intros E; try discriminate; try tauto;
      try (injection E as -> ->; auto); try (destruct E as [E1 E2]; try discriminate; injection E1 as ->; injection E2 as ->; reflexivity).
  - unfold tarantool_init in H. destruct (Atoi (get cfg "max_recons")), (Atoi (get cfg "timeout")), (Atoi (get cfg "reconnect")); linv;
      repeat (destruct Hin as [Hin|Hin]; [injection Hin as <- <-; auto|]); destruct Hin.
  - unfold redis_init in H. destruct (cfg "server") as [a|] eqn:Ea; [|linv; destruct Hin]. destruct (Atoi _) as [z|] eqn:Ez; [|linv; destruct Hin].
    apply Atoi_spec in Ez. cbn [negb] in Ez.
    destruct (cfg "queue"); linv; (destruct Hin as [Hin|[]]; injection Hin as <- <-; auto).
  - unfold mysql_init in H. linv; repeat (destruct Hin as [Hin|Hin]; [injection Hin as <- <-; auto|]); destruct Hin.
  - linv. destruct Hin.
Qed.

(** ** C84: the numbers of the Tarantool settings *)
Lemma wrap64_small z : (- 9223372036854775808 <= z < 9223372036854775808)%Z -> wrap64 z = z.
Proof. intros H. unfold wrap64. rewrite Z.mod_small by lia. lia. Qed.
Theorem C84_tarantool_numbers_partial : forall cfg calls o a t r m u p ok, lruns (conn_init KTarantool (Some cfg)) calls o ->
  In (CTarantoolConnect a t r m u p, ok) calls ->
  exists zm zt zr, int_setting (get cfg "max_recons") zm /\ int_setting (get cfg "timeout") zt /\ int_setting (get cfg "reconnect") zr
  /\ ((0 <= zm)%Z -> Z.of_N m = zm)
  /\ ((Z.abs zt <= 9223372036)%Z -> t = (zt * 1000000000)%Z)
  /\ ((Z.abs zr <= 9223372036)%Z -> r = (zr * 1000000000)%Z).
Proof.
  intros cfg calls o a t r m u p ok H Hin. cbn [conn_init] in H. unfold tarantool_init in H.
  destruct (Atoi (get cfg "max_recons")) as [zm|] eqn:E1; [|linv; destruct Hin]. destruct (Atoi (get cfg "timeout")) as [zt|] eqn:E2; [|linv; destruct Hin].
  destruct (Atoi (get cfg "reconnect")) as [zr|] eqn:E3; [|linv; destruct Hin]. apply Atoi_spec in E1, E2, E3.
  assert (t = seconds zt /\ r = seconds zr /\ m = uint zm) as (-> & -> & ->)
    by (linv; destruct Hin as [Hin|[]]; injection Hin; intros; subst; auto).
  exists zm, zt, zr. do 3 (split; [assumption|]). unfold seconds, uint, ns_per_s. split; [|split].
  - intros H0. destruct E1 as [Hr _]. rewrite Z2N.id by (apply Z.mod_pos_bound; reflexivity). apply Z.mod_small. change (2 ^ 64)%Z with 18446744073709551616%Z. lia.
  - intros Ht. apply wrap64_small. lia.
  - intros Ht. apply wrap64_small. lia.
Qed.
(** In general they are cut to 64 bits. *)
Theorem C84_numbers_in_general : forall cfg calls o a t r m u p ok, lruns (conn_init KTarantool (Some cfg)) calls o ->
  In (CTarantoolConnect a t r m u p, ok) calls ->
  exists zm zt zr, int_setting (get cfg "max_recons") zm /\ int_setting (get cfg "timeout") zt /\ int_setting (get cfg "reconnect") zr
  /\ Z.of_N m = (zm mod 2 ^ 64)%Z
  /\ (exists k, t = zt * 1000000000 + k * 2 ^ 64)%Z /\ (- 2 ^ 63 <= t < 2 ^ 63)%Z
  /\ (exists k, r = zr * 1000000000 + k * 2 ^ 64)%Z /\ (- 2 ^ 63 <= r < 2 ^ 63)%Z.
Proof.
  intros cfg calls o a t r m u p ok H Hin. cbn [conn_init] in H. unfold tarantool_init in H.
  destruct (Atoi (get cfg "max_recons")) as [zm|] eqn:E1; [|linv; destruct Hin]. destruct (Atoi (get cfg "timeout")) as [zt|] eqn:E2; [|linv; destruct Hin].
  destruct (Atoi (get cfg "reconnect")) as [zr|] eqn:E3; [|linv; destruct Hin]. apply Atoi_spec in E1, E2, E3.
  assert (t = seconds zt /\ r = seconds zr /\ m = uint zm) as (-> & -> & ->)
    by (linv; destruct Hin as [Hin|[]]; injection Hin; intros; subst; auto).
  assert (forall n, (exists k, seconds n = n * 1000000000 + k * 2 ^ 64)%Z /\ (- 2 ^ 63 <= seconds n < 2 ^ 63)%Z) as W.
  { intros n. unfold seconds, wrap64, ns_per_s. change (2 ^ 63)%Z with 9223372036854775808%Z. change (2 ^ 64)%Z with 18446744073709551616%Z.
    set (z := (n * 1000000000)%Z). pose proof (Z.mod_pos_bound (z + 9223372036854775808) 18446744073709551616 eq_refl).
    pose proof (Z.div_mod (z + 9223372036854775808) 18446744073709551616 ltac:(discriminate)). split; [|lia].
    exists (- ((z + 9223372036854775808) / 18446744073709551616))%Z. lia. }
  exists zm, zt, zr. do 3 (split; [assumption|]). split; [unfold uint; rewrite Z2N.id by (apply Z.mod_pos_bound; reflexivity); reflexivity|].
  destruct (W zt), (W zr). auto.
Qed.

(** A negative number of reconnects is taken for an enormous one. *)
Definition tar_settings (m : string) : settings := fun k =>
  if String.eqb k "max_recons" then Some m else if String.eqb k "timeout" then Some "1"
  else if String.eqb k "reconnect" then Some "1" else if String.eqb k "queue" then Some "points"
  else if String.eqb k "host" then Some "localhost" else if String.eqb k "port" then Some "3301" else None.
Theorem C84_negative_reconnects_refuted : exists cfg calls c a t r u p,
  int_setting (get cfg "max_recons") (-1) /\ lruns (conn_init KTarantool (Some cfg)) calls (Some c)
  /\ In (CTarantoolConnect a t r 18446744073709551615 u p, true) calls.
Proof.
  exists (tar_settings "-1"), [(CTarantoolConnect "localhost:3301" 1000000000 1000000000 18446744073709551615 "" "", true)],
    (mkConn KTarantool (tar_settings "-1") ""), "localhost:3301", 1000000000%Z, 1000000000%Z, "", "".
  split; [apply Atoi_spec; reflexivity|]. split; [|left; reflexivity]. cbn [conn_init]. unfold tarantool_init.
  change (Atoi (get (tar_settings "-1") "max_recons")) with (Some (-1)%Z). change (Atoi (get (tar_settings "-1") "timeout")) with (Some 1%Z).
  change (Atoi (get (tar_settings "-1") "reconnect")) with (Some 1%Z). cbv beta iota.
  change (uint (-1)) with 18446744073709551615%N. apply lr_call with (ok := true). constructor.
Qed.

(** ** C83: the log connector *)
Theorem C83_log_text : forall cfg calls0 c r calls ok, lruns (conn_init KLog cfg) calls0 (Some c) ->
  lruns (conn_save c (Some r)) calls ok ->
  calls0 = [] /\
  ((finite_pos r /\ ok = true /\ exists t v q, calls = [(q, true)] /\ delivers KLog (cn_config c) t q /\ json_doc t v /\ nav_json r v)
   \/ (~ finite_pos r /\ calls = [] /\ ok = false)).
Proof.
  intros cfg calls0 c r calls ok Hi Hs. pose proof (init_good _ _ _ _ Hi) as Hg. destruct (init_conn _ _ _ _ Hi) as [Ek _].
  split; [cbn [conn_init] in Hi; linv; reflexivity|].
  unfold conn_save in Hs. rewrite Ek in Hs. unfold MarshalIndent in Hs. destruct (finite_cases r) as [Hfin|Hfin].
  - left. destruct Hfin as [F1 F2]. rewrite F1, F2 in Hs. cbn [andb] in Hs. linv. split; [split; assumption|]. split; [reflexivity|].
    assert (json_text (pr_ind 0 (j_nav r)) (cleanj (j_nav r))) as Ht by (apply pr_ind_text, j_nav_ok; assumption).
    exists (pr_ind 0 (j_nav r)), (cleanj (j_nav r)), (request c (pr_ind 0 (j_nav r))). split; [reflexivity|]. split.
    + rewrite <- Ek. apply request_delivers; [exact Hg|]. eapply json_text_bytes, Ht.
    + split; [apply json_doc_text, Ht|apply j_nav_is; assumption].
  - right. rewrite Hfin in Hs. linv. split; [|auto]. intros [A B]. rewrite A, B in Hfin. discriminate.
Qed.
(** The record is shown only at the log levels DEBUG and INFO: with others nothing is printed although
    Save reports success. *)
Theorem C83_printed_partial : forall s cfg calls0 c r calls, c_LogLevel s <> "WARN" -> c_LogLevel s <> "ERROR" ->
  lruns (conn_init KLog cfg) calls0 (Some c) -> lruns (conn_save c (Some r)) calls true ->
  exists t v q, calls = [(q, true)] /\ shown (GetLogLevel s) q /\ delivers KLog (cn_config c) t q /\ json_doc t v /\ nav_json r v.
Proof.
  intros s cfg calls0 c r calls Hw He Hi Hs. destruct (C83_log_text _ _ _ _ _ _ Hi Hs) as [_ [H|H]]; [|destruct H as (_ & _ & H); discriminate].
  destruct H as (_ & _ & t & v & q & -> & H1 & H2 & H3). exists t, v, q. split; [reflexivity|]. split; [|auto].
  destruct q; try exact I. unfold GetLogLevel, shown. apply String.eqb_neq in Hw, He. rewrite Hw, He.
  destruct (String.eqb (c_LogLevel s) "DEBUG"); [auto|]. destruct (String.eqb (c_LogLevel s) "INFO"); auto.
Qed.
Theorem C83_printed_refuted : forall s cfg calls0 c r calls, c_LogLevel s = "WARN" \/ c_LogLevel s = "ERROR" ->
  lruns (conn_init KLog cfg) calls0 (Some c) -> lruns (conn_save c (Some r)) calls true ->
  calls <> [] /\ forall q b, In (q, b) calls -> ~ shown (GetLogLevel s) q.
Proof.
  intros s cfg calls0 c r calls Hl Hi Hs. destruct (init_conn _ _ _ _ Hi) as [Ek _]. unfold conn_save in Hs. rewrite Ek in Hs.
  destruct (MarshalIndent r) as [t|]; linv; [|discriminate]. split; [discriminate|]. intros q b [E|[]]. injection E as <- <-.
  unfold request. rewrite Ek. unfold GetLogLevel. destruct Hl as [->| ->]; cbn; intros [A|A]; discriminate.
Qed.

(** ** C85: the settings file *)
Theorem C85_settings_file_partial : forall str num, (forall n, num "conn_ttl" = Some n -> Z.abs n <= 9223372036)%Z ->
  GetEmptyConnTTL (from_yaml str num) = (match num "conn_ttl" with Some n => n | None => 0 end * 1000000000)%Z
  /\ GetListenAddress (from_yaml str num) = (match str "host" with Some s => s | None => "" end ++ ":" ++ match str "port" with Some s => s | None => "" end)
  /\ (forall l, In (str "log_level", l) [(Some "DEBUG", DebugLevel); (Some "INFO", InfoLevel); (Some "WARN", WarnLevel); (Some "ERROR", ErrorLevel)] ->
        GetLogLevel (from_yaml str num) = l).
Proof.
  intros str num H. split; [|split].
  - unfold GetEmptyConnTTL, from_yaml, ns_per_s. cbn [c_ConnTTl]. apply wrap64_small. destruct (num "conn_ttl") as [n|]; [specialize (H n eq_refl)|]; lia.
  - reflexivity.
  - intros l Hl. unfold GetLogLevel, from_yaml. cbn [c_LogLevel]. cbn [In] in Hl.
    destruct Hl as [Hl|[Hl|[Hl|[Hl|[]]]]]; apply pair_equal_spec in Hl as [<- <-]; reflexivity.
Qed.
(** The key of the shipped configuration file and of the README, con_live_sec, is not the one read. *)
Theorem C85_documented_key_refuted : forall str num n, num "con_live_sec" = Some n -> num "conn_ttl" = None ->
  GetEmptyConnTTL (from_yaml str num) = 0%Z.
Proof. intros str num n _ H. unfold GetEmptyConnTTL, from_yaml. cbn [c_ConnTTl]. rewrite H. reflexivity. Qed.

(** ** Concrete cases *)
Definition ten_seconds (k : string) : option Z := if String.eqb k "con_live_sec" then Some 10%Z else None.
Example C85_hyps : ten_seconds "con_live_sec" = Some 10%Z /\ ten_seconds "conn_ttl" = None.
Proof. split; reflexivity. Qed.

Definition redis_settings : settings := fun k =>
  if String.eqb k "server" then Some "redis:6379" else if String.eqb k "queue" then Some "egts" else if String.eqb k "db" then Some "0" else None.
Example C77_hyps : exists c, lruns (conn_init KRedis (Some redis_settings)) [(CRedisNewClient "redis:6379" "" 0, true)] (Some c)
  /\ finite_pos nav_ex /\ exists calls, lruns (conn_save c (Some nav_ex)) calls false /\ length calls = 1%nat.
Proof.
  exists (mkConn KRedis redis_settings "egts"). split; [do 2 constructor|]. split; [split; reflexivity|].
  destruct (ToBytes nav_ex) as [t|] eqn:E; [|discriminate].
  exists [(CRedisPublish "egts" t, false)]. split; [|reflexivity]. unfold conn_save. cbn [cn_kind]. rewrite E. apply lr_call with (ok := false). constructor.
Qed.
Example C78_hyps : exists c, lruns (conn_init KPostgresql (Some (pg_settings "postgres" "postgres" "disable")))
  [(CSqlOpen "postgres" "dbname=receiver host=localhost port=5432 user=postgres password=postgres sslmode=disable", true); (CSqlPing, true)] (Some c).
Proof. eexists. do 3 constructor. Qed.
Example C79_hyps : let cfg := fun k => if String.eqb k "server" then Some "redis:6379" else if String.eqb k "queue" then Some "egts" else None in
  cfg "db" = None /\ exists calls o, lruns (conn_init KRedis (Some cfg)) calls o.
Proof. split; [reflexivity|]. exists [], None. constructor. Qed.
Example C80_hyps : exists calls, lruns (conn_init KTarantool (Some (tar_settings "many"))) calls None.
Proof. exists []. constructor. Qed.
Example C81_postgresql_hyps : let cfg := pg_settings "postgres" "postgres" "disable" in
  (forall k, In k ["database"; "host"; "port"; "user"; "password"] -> chars plain (get cfg k) /\ get cfg k <> "") /\ chars plain (get cfg "sslmode").
Proof.
  split.
  - intros k Hk. repeat (destruct Hk as [<-|Hk]; [split; [repeat split; discriminate|discriminate]|]). destruct Hk.
  - repeat split; discriminate.
Qed.
Example C81_rabbitmq_hyps : let cfg := amqp_settings "guest" in chars unreserved (get cfg "user") /\ chars unreserved (get cfg "password")
  /\ chars unreserved (get cfg "host") /\ chars is_dec (get cfg "port").
Proof. repeat split; unfold unreserved, is_dec; cbn; lia. Qed.
Example C83_hyps : exists c t, lruns (conn_init KLog None) [] (Some c) /\ lruns (conn_save c (Some nav_ex)) [(request c t, true)] true.
Proof.
  exists (mkConn KLog (fun _ => None) ""). destruct (MarshalIndent nav_ex) as [t|] eqn:E; [|discriminate]. exists t. split; [constructor|].
  unfold conn_save. cbn [cn_kind]. rewrite E. do 2 constructor.
Qed.
Example C84_hyps : exists calls c, lruns (conn_init KTarantool (Some (tar_settings "5"))) calls (Some c)
  /\ calls = [(CTarantoolConnect "localhost:3301" 1000000000 1000000000 5 "" "", true)].
Proof. eexists _, (mkConn KTarantool (tar_settings "5") ""). split; [|reflexivity]. apply (@lr_call (option Conn) _ (fun ok => if ok then _ else _) true). constructor. Qed.

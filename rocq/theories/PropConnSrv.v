(** From the bytes received to the storages: C82. *)
From Coq Require Import NArith ZArith String Ascii Bool List Lia.
From Verif Require Import GoBase GoFloat SubRecords Records Package Storage Config Server SpecBase BaseFacts SpecRec SpecCrc SpecPkg SpecSrv
  SrvFacts SrvLoop SrvPacket SrvConn PropSrv Json SpecJson JsonFacts PropJson Connect SpecConn ConnFacts PropConn ConcreteEnv PropSrvEx.
Import ListNotations.
Open Scope list_scope.

(** Call [q] sends record [r], as JSON, to the storage of [c]. *)
Definition sends (r : NavRecord) (c : Conn) (q : call) : Prop :=
  exists t v, json_doc t v /\ nav_json r v /\ delivers (cn_kind c) (cn_config c) t q.

(** The calls [g] made for record [r], of which [ok] is the outcome: the storages in order, up to
    the first that fails. *)
Definition fanned_out (conns : list Conn) (r : NavRecord) (ok : bool) (g : list (call * bool)) : Prop :=
  exists conns1 conns2, conns = conns1 ++ conns2 /\ Forall2 (fun c x => sends r c (fst x)) conns1 g
  /\ ((ok = true /\ conns2 = [] /\ Forall (fun x => snd x = true) g)
      \/ (ok = false /\ exists g' q, g = g' ++ [(q, false)] /\ Forall (fun x => snd x = true) g')).

Lemma conn_save_finite c r calls ok : good_conn c -> finite_pos r -> lruns (conn_save c (Some r)) calls ok ->
  exists q, calls = [(q, ok)] /\ sends r c q.
Proof.
  intros Hg [F1 F2] H. unfold conn_save in H.
  assert (json_ok (j_nav r)) as Hok by (apply j_nav_ok; assumption).
  assert (ToBytes r = Some (pr (j_nav r))) as E1 by (unfold ToBytes; rewrite F1, F2; reflexivity).
  assert (MarshalIndent r = Some (pr_ind 0 (j_nav r))) as E2 by (unfold MarshalIndent; rewrite F1, F2; reflexivity).
  rewrite E1, E2 in H.
  assert (json_text (pr (j_nav r)) (cleanj (j_nav r))) as T1 by (apply pr_text, Hok).
  assert (json_text (pr_ind 0 (j_nav r)) (cleanj (j_nav r))) as T2 by (apply pr_ind_text, Hok).
  assert (forall t, json_text t (cleanj (j_nav r)) -> sends r c (request c t)) as Hs.
  { intros t Ht. exists t, (cleanj (j_nav r)). split; [apply json_doc_text, Ht|]. split; [apply j_nav_is; assumption|].
    apply request_delivers; [exact Hg|eapply json_text_bytes, Ht]. }
  destruct (cn_kind c); try (apply lruns_call in H as (b & cs & -> & H); apply lruns_ret in H as [-> ->]; eexists; split; [reflexivity|apply Hs, T1]).
  apply lruns_tell in H as (cs & -> & H). apply lruns_ret in H as [-> ->]. eexists. split; [reflexivity|apply Hs, T2].
Qed.

Lemma save_all_fans_out r : finite_pos r -> forall conns calls ok, Forall good_conn conns ->
  lruns (save_all conns (Some r)) calls ok -> fanned_out conns r ok calls.
Proof.
  intros Hr. induction conns as [|c conns IH]; intros calls ok Hg H; cbn [save_all] in H.
  - apply lruns_ret in H as [-> ->]. exists [], []. split; [reflexivity|]. split; [constructor|]. left. auto.
  - apply Forall_cons_iff in Hg as [Hg1 Hg2]. apply lruns_bind in H as (cs1 & b & cs2 & H1 & H2 & ->).
    destruct (conn_save_finite _ _ _ _ Hg1 Hr H1) as (q & -> & Hq). destruct b.
    + destruct (IH _ _ Hg2 H2) as (k1 & k2 & -> & K1 & K2). exists (c :: k1), k2. split; [reflexivity|].
      split; [constructor; assumption|]. destruct K2 as [(-> & -> & K2)|(-> & g' & x & -> & K2)].
      * left. repeat split. constructor; [reflexivity|exact K2].
      * right. split; [reflexivity|]. exists ((q, true) :: g'), x. split; [reflexivity|]. constructor; [reflexivity|exact K2].
    + apply lruns_ret in H2 as [-> ->]. exists [c], conns. split; [reflexivity|]. split; [constructor; [exact Hq|constructor]|].
      right. split; [reflexivity|]. exists [], q. split; [reflexivity|constructor].
Qed.

(** ** Start *)
Lemma store_kind_in name k : store_kind name = Some k -> In (name, k) [("rabbitmq", KRabbitmq); ("postgresql", KPostgresql); ("nats", KNats);
                         ("tarantool_queue", KTarantool); ("redis", KRedis); ("mysql", KMysql)]%string.
Proof.
  unfold store_kind. cbn [In]. repeat (match goal with |- (if String.eqb name ?s then _ else _) = _ -> _ =>
      destruct (String.eqb_spec name s) as [->|_]; [intros H; injection H as <-; tauto|] end). discriminate.
Qed.
Lemma init_serves name k params cs c : store_kind name = Some k -> lruns (conn_init k params) cs (Some c) -> serves (name, params) c.
Proof.
  intros Hk H. apply store_kind_in in Hk. destruct (init_conn _ _ _ _ H) as [E [->|[Ec _]]].
  - exfalso. cbn in Hk. repeat (destruct Hk as [Hk|Hk]; [discriminate|]). destruct Hk.
  - split; cbn [fst snd]; [rewrite E; exact Hk|exact Ec].
Qed.
Lemma load_all_runs cfg : forall r calls r' res, Forall good_conn r -> lruns (load_all r cfg) calls (r', res) ->
  exists cfg1 cfg2 new, cfg = cfg1 ++ cfg2 /\ r' = r ++ new /\ Forall2 serves cfg1 new /\ Forall good_conn r'
  /\ (res = LOk <-> cfg2 = []) /\ (Forall (fun x => snd x = true) calls -> res <> LOk -> exists name params cfg3, cfg2 = (name, params) :: cfg3
      /\ forall k, store_kind name = Some k -> match params with Some s => ~ usable k s | None => True end).
Proof.
  induction cfg as [|[name params] cfg IH]; intros r calls r' res Hr H; cbn [load_all] in H.
  - apply lruns_ret in H as [-> H]. injection H as -> ->. exists [], [], []. split; [reflexivity|]. split; [symmetry; apply app_nil_r|]. split; [constructor|]. split; [exact Hr|].
    split; [split; reflexivity|congruence].
  - destruct (store_kind name) as [k|] eqn:Ek.
    + apply lruns_bind in H as (cs1 & [c|] & cs2 & H1 & H2 & ->).
      * destruct (IH (AddStore r c) _ _ _ ltac:(apply Forall_app; split; [exact Hr|constructor; [eapply init_good; exact H1|constructor]]) H2)
          as (cfg1 & cfg2 & new & -> & -> & K1 & K2 & K3 & K4).
        exists ((name, params) :: cfg1), cfg2, (c :: new). unfold AddStore in *. rewrite <- app_assoc in *. split; [reflexivity|]. split; [reflexivity|].
        split; [constructor; [eapply init_serves; eassumption|exact K1]|]. split; [exact K2|]. split; [exact K3|].
        intros Hall. apply K4. apply Forall_app in Hall. tauto.
      * apply lruns_ret in H2 as [-> H2]. injection H2 as -> ->. exists [], ((name, params) :: cfg), []. split; [reflexivity|]. split; [symmetry; apply app_nil_r|]. split; [constructor|]. split; [exact Hr|].
        split; [split; discriminate|]. intros Hall _. exists name, params, cfg. split; [reflexivity|]. intros k' Ek'. rewrite Ek' in Ek. injection Ek as ->.
        destruct params as [s|]; [|exact I]. destruct (C80_bad_settings_no_contact _ _ _ H1) as [(x & Hx & Hx2)|[Hu _]]; [|exact Hu].
        rewrite app_nil_r, Forall_forall in Hall. rewrite (Hall _ Hx) in Hx2. discriminate.
    + apply lruns_ret in H as [-> H]. injection H as -> ->. exists [], ((name, params) :: cfg), []. split; [reflexivity|]. split; [symmetry; apply app_nil_r|]. split; [constructor|]. split; [exact Hr|].
      split; [split; discriminate|]. intros _ _. exists name, params, cfg. split; [reflexivity|]. congruence.
Qed.

(** An entry of the configuration with a known name and settings that can be used. *)
Definition servable (e : string * option settings) : Prop :=
  exists k s, store_kind (fst e) = Some k /\ snd e = Some s /\ usable k s.

(** What the receiver starts with: a connector for each entry of the configuration; or connectors for
    the entries before one that could not be served, and the log. *)
Theorem C82_start : forall cfg calls conns, lruns (start_storages cfg) calls conns ->
  (cfg <> [] /\ Forall2 serves cfg conns)
  \/ exists cfg1 cfg2 conns' log, cfg = cfg1 ++ cfg2 /\ conns = conns' ++ [log] /\ Forall2 serves cfg1 conns' /\ cn_kind log = KLog
     /\ (cfg = [] \/ exists e cfg3, cfg2 = e :: cfg3 /\ ((exists x, In x calls /\ snd x = false) \/ ~ servable e)).
Proof.
  intros cfg calls conns H. unfold start_storages in H. apply lruns_bind in H as (cs1 & [r res] & cs2 & H1 & H2 & ->).
  assert (r = [] /\ res = LInvalid /\ cfg = [] \/ cfg <> [] /\ lruns (load_all [] cfg) cs1 (r, res)) as [(-> & -> & ->)|[Hc H]].
  { unfold load_storages in H1. destruct cfg; [|right; split; [discriminate|exact H1]]. apply lruns_ret in H1 as [-> H1]. injection H1 as -> ->. left. auto. }
  - cbn [conn_init lbind] in H2. apply lruns_ret in H2 as [-> ->]. right. eexists [], [], [], _. repeat (split; [reflexivity|]).
    split; [constructor|]. split; [reflexivity|left; reflexivity].
  - destruct (load_all_runs _ _ _ _ _ (Forall_nil _) H) as (cfg1 & cfg2 & new & Ec & -> & K1 & K2 & K3 & K4).
    assert (res <> LOk -> exists e cfg3, cfg2 = e :: cfg3 /\ ((exists x, In x cs1 /\ snd x = false) \/ ~ servable e)) as Hbad.
    { intros Hres. destruct (Forall_dec (fun x : call * bool => snd x = true) (fun x => bool_dec (snd x) true) cs1) as [Hall|Hex].
      - destruct (K4 Hall Hres) as (name & params & cfg3 & -> & K5). exists (name, params), cfg3. split; [reflexivity|]. right.
        intros (k & s & E1 & E2 & Hu). cbn [fst snd] in *. specialize (K5 _ E1). rewrite E2 in K5. contradiction.
      - assert (cfg2 <> []) as Hne by (intros E; apply Hres, K3, E). destruct cfg2 as [|e cfg3]; [congruence|]. exists e, cfg3. split; [reflexivity|]. left.
        apply neg_Forall_Exists_neg in Hex; [|intros x; apply bool_dec]. apply Exists_exists in Hex as (x & Hx & Hb). exists x. split; [exact Hx|].
        destruct (snd x); congruence. }
    destruct res; cbn [conn_init lbind app] in H2; apply lruns_ret in H2 as [-> ->]; rewrite app_nil_r.
    + left. split; [exact Hc|]. rewrite (proj1 K3 eq_refl), app_nil_r in Ec. subst. exact K1.
    + right. eexists cfg1, cfg2, new, _. split; [exact Ec|]. split; [reflexivity|]. split; [exact K1|]. split; [reflexivity|]. right. apply Hbad. discriminate.
    + right. eexists cfg1, cfg2, new, _. split; [exact Ec|]. split; [reflexivity|]. split; [exact K1|]. split; [reflexivity|]. right. apply Hbad. discriminate.
    + right. eexists cfg1, cfg2, new, _. split; [exact Ec|]. split; [reflexivity|]. split; [exact K1|]. split; [reflexivity|]. right. apply Hbad. discriminate.
Qed.
Lemma start_good cfg calls conns : lruns (start_storages cfg) calls conns -> Forall good_conn conns.
Proof.
  intros H. unfold start_storages in H. apply lruns_bind in H as (cs1 & [r res] & cs2 & H1 & H2 & ->).
  assert (Forall good_conn r) as Hr.
  { unfold load_storages in H1. destruct cfg as [|e cfg]; [apply lruns_ret in H1 as [_ H1]; injection H1 as -> _; constructor|].
    destruct (load_all_runs _ _ _ _ _ (Forall_nil _) H1) as (cfg1 & cfg2 & new & _ & _ & _ & K & _). exact K. }
  assert (forall s, good_conn (mkConn KLog s "")) as Hl by (intros s; unfold good_conn; discriminate).
  destruct res; cbn [conn_init lbind] in H2; apply lruns_ret in H2 as [-> ->]; try exact Hr; apply Forall_app; split; try exact Hr; constructor; auto.
Qed.

Section WithEnv.
Context {E : Env}.

(** Each record saved goes to the storages in order, up to the first that fails. *)
Theorem C82_fan_out : forall cfg calls0 conns cs evs o calls, lruns (start_storages cfg) calls0 conns -> is_bytes (concat cs) -> runs (handle_conn cs) evs o -> stored conns evs calls ->
  exists groups, calls = concat groups /\ Forall2 (fun nv g => fanned_out conns (fst nv) (snd nv) g) (saves evs) groups.
Proof.
  intros cfg calls0 conns cs evs o calls H0 Hb H Hs. apply start_good in H0.
  assert (forall nv, In nv (saves evs) -> finite_pos (fst nv)) as Hp.
  { intros [nav ok] Hi. destruct (C69_saved_values _ _ _ _ _ Hb H Hi) as (F1 & _ & F2 & _). split; assumption. }
  clear H. revert Hp. induction Hs as [|b evs calls Hs IH|r ok evs c1 c2 Hr Hs IH]; intros Hp.
  - exists []. split; [reflexivity|constructor].
  - apply IH, Hp.
  - destruct IH as (g & -> & Hg). { intros nv Hi. apply Hp. right. exact Hi. }
    exists (c1 :: g). split; [reflexivity|]. constructor; [|exact Hg]. apply save_all_fans_out; auto. apply (Hp (r, ok)). left. reflexivity.
Qed.

(** If no library call fails, every record with a position goes to every storage, in the order
    received: the calls made are those. *)
Theorem C82_every_record_to_every_storage_partial : forall cfg calls0 conns cs evs e calls, lruns (start_storages cfg) calls0 conns -> is_bytes (concat cs) -> runs (handle_conn cs) evs (Some e) -> stored conns evs calls ->
  Forall (fun x => snd x = true) calls ->
  exists fs s c' groups, cuts (concat cs) fs e /\ history 0 fs s c' /\ map fst calls = concat groups
  /\ Forall2 (fun kr g => exists now nav, saved now (fst kr) (snd kr) nav /\ Forall2 (sends nav) conns g) s groups.
Proof.
  intros cfg calls0 conns cs evs e calls H0 Hb H Hs Hall.
  destruct (C82_fan_out _ _ _ _ _ _ _ H0 Hb H Hs) as (groups & -> & Hg).
  destruct (C44_streams _ _ _ Hb H) as (fs & fs' & e' & s & c' & H1 & H2 & H3 & [[Ho ->]|[Ho _]]); [|discriminate].
  injection Ho as ->. rewrite app_nil_r in H1. exists fs, s, c', (map (map fst) groups). split; [exact H1|]. split; [exact H2|].
  split; [apply concat_map|]. clear H1 H2 H Hs.
  revert s H3. induction Hg as [|nv g svs groups Hg1 Hg IH]; intros s H3; inversion H3 as [|kr nv' s' sv' K1 K2]; subst; [constructor|].
  cbn [concat] in Hall. apply Forall_app in Hall as [A1 A2]. cbn [map]. constructor; [|apply IH; assumption].
  destruct K1 as (now & K1). exists now, (fst nv). split; [exact K1|]. destruct Hg1 as (conns1 & conns2 & -> & F & [(_ & -> & _)|(_ & g' & q & -> & _)]).
  - rewrite app_nil_r. clear -F. induction F; constructor; auto.
  - apply Forall_app in A1 as [_ A1]. inversion A1. discriminate.
Qed.
End WithEnv.

(** With a storage that fails the others behind it get nothing, working or not. *)
Theorem C82_working_storages_refuted : forall r, finite_pos r ->
  exists cfg calls0 conns calls, lruns (start_storages cfg) calls0 conns /\ Forall2 serves cfg conns /\ length conns = 2%nat
  /\ lruns (save_all conns (Some r)) calls false
  /\ forall c, nth_error conns 1 = Some c -> forall x, In x calls -> ~ sends r c (fst x).
Proof.
  intros r Hr. set (m := fun _ : string => @None string). set (n := fun _ : string => @None string).
  exists [("mysql", Some m); ("nats", Some n)]%string,
    [(CSqlOpen "mysql" "", true); (CSqlPing, true); (CNatsConnect "" "EGTS handler, topic: " None, true)]%string, [mkConn KMysql m ""; mkConn KNats n ""].
  destruct (ToBytes r) as [t|] eqn:Et; [|exfalso; destruct Hr as [F1 F2]; unfold ToBytes in Et; rewrite F1, F2 in Et; discriminate].
  exists [(request (mkConn KMysql m "") t, false)]. split; [|split; [|split; [reflexivity|split]]].
  - unfold start_storages. change (load_storages NewRepository ?x) with (load_all [] x). cbn [load_all store_kind String.eqb Ascii.eqb Bool.eqb conn_init].
    unfold mysql_init, nats_init. cbn [lbind]. do 4 constructor.
  - constructor; [split; [cbn; tauto|reflexivity]|]. constructor; [split; [cbn; tauto|reflexivity]|constructor].
  - cbn [save_all]. unfold conn_save at 1. cbn [cn_kind]. rewrite Et. cbn [lbind]. apply lr_call with (ok := false). constructor.
  - intros c Ec x [<-|[]] (t' & v & _ & _ & H). injection Ec as <-. exact H.
Qed.

(** Which storages are set up when one cannot be depends on the order in which Go iterates over the
    configuration. *)
Theorem C82_start_order_refuted : exists cfg cfg', Permutation.Permutation cfg cfg'
  /\ (forall calls conns, lruns (start_storages cfg) calls conns -> length conns = 1%nat)
  /\ exists calls conns, lruns (start_storages cfg') calls conns /\ length conns = 2%nat /\ Forall (fun x => snd x = true) calls.
Proof.
  set (n := fun _ : string => @None string).
  exists [("kafka", Some n); ("nats", Some n)]%string, [("nats", Some n); ("kafka", Some n)]%string.
  split; [apply Permutation.perm_swap|]. split.
  - intros calls conns H. unfold start_storages in H. change (load_storages NewRepository ?x) with (load_all [] x) in H.
    cbn [load_all store_kind String.eqb Ascii.eqb Bool.eqb lbind conn_init] in H. apply lruns_ret in H as [_ ->]. reflexivity.
  - exists [(CNatsConnect "" "EGTS handler, topic: " None, true)]%string, [mkConn KNats n ""; mkConn KLog (fun _ => None) ""].
    split; [|split; [reflexivity|repeat constructor]].
    unfold start_storages. change (load_storages NewRepository ?x) with (load_all [] x). cbn [load_all store_kind String.eqb Ascii.eqb Bool.eqb conn_init].
    unfold nats_init. cbn [lbind]. do 2 constructor.
Qed.

(** ** Concrete cases *)
(** The run in which the clock shows 0, all storages accept, and nothing is behind the buffers. *)
Fixpoint run_ok {A} (p : prog A) : list event * option A :=
  match p with
  | Ret a => ([], Some a)
  | Crash => ([], None)
  | Now k => run_ok (k 0%Z)
  | Alloc k => run_ok (k [])
  | Save r k => let '(e, o) := run_ok (k true) in (EvSave r true :: e, o)
  | Write b k => let '(e, o) := run_ok k in (EvWrite b :: e, o)
  end.
Lemma run_ok_runs {A} (p : prog A) : runs p (fst (run_ok p)) (snd (run_ok p)).
Proof.
  induction p as [a|k IH|k IH|r k IH|b k IH|]; cbn [run_ok]; try (constructor; auto; fail).
  - apply runs_now with (z := 0%Z), IH.
  - apply runs_alloc with (s := []); [constructor|apply IH].
  - specialize (IH true). destruct (run_ok (k true)) as [e o]. constructor. exact IH.
  - destruct (run_ok k) as [e o]. constructor. exact IH.
Qed.

Lemma stored_ok conns evs : Forall good_conn conns -> (forall nv, In nv (saves evs) -> finite_pos (fst nv) /\ snd nv = true) ->
  exists calls, stored conns evs calls /\ Forall (fun x => snd x = true) calls.
Proof.
  intros Hg. induction evs as [|[r ok|b] evs IH]; intros Hp.
  - exists []. split; constructor.
  - destruct IH as (calls & H1 & H2). { intros nv Hi. apply Hp. right. exact Hi. }
    destruct (Hp (r, ok) (or_introl eq_refl)) as [Hr Hok]. cbn [fst snd] in *. subst ok.
    destruct (lruns_total (save_all conns (Some r))) as (cs & ok & K1 & K2). pose proof (save_all_fans_out _ Hr _ _ _ Hg K1) as (c1 & c2 & _ & _ & [(-> & _)|(_ & g & q & -> & _)]).
    + exists (cs ++ calls). split; [constructor; assumption|]. apply Forall_app. auto.
    + apply Forall_app in K2 as [_ K2]. inversion K2. discriminate.
  - destruct (IH Hp) as (calls & H1 & H2). exists calls. split; [constructor; exact H1|exact H2].
Qed.

Lemma Forall2_len {A B} (P : A -> B -> Prop) l l' : Forall2 P l l' -> length l = length l'.
Proof. induction 1; cbn; congruence. Qed.

(** C69, C77, C82: a receiver with two storages gets a packet with a position. *)
Definition two_storages : list (string * option settings) :=
  [("redis", Some (fun k => if String.eqb k "server" then Some "redis:6379" else if String.eqb k "queue" then Some "egts"
                            else if String.eqb k "db" then Some "0" else None));
   ("nats", Some (fun k => if String.eqb k "topic" then Some "receiver" else None))]%string.
Example C82_hyps : exists calls0 conns evs calls, lruns (start_storages two_storages) calls0 conns /\ length conns = 2%nat
  /\ is_bytes (concat [frame_pos]) /\ runs (handle_conn (E := env0) [frame_pos]) evs (Some StopEof) /\ length (saves evs) = 1%nat
  /\ stored conns evs calls /\ Forall (fun x => snd x = true) calls /\ length calls = 2%nat.
Proof.
  destruct (lruns_total (start_storages two_storages)) as (calls0 & conns & H0 & Hall).
  assert (length conns = 2%nat) as Hl.
  { destruct (C82_start _ _ _ H0) as [[_ H]|(c1 & c2 & conns' & log & E1 & _ & _ & _ & [E|(e & c3 & -> & [(x & Hx & Hb)|Hn])])].
    - apply Forall2_len in H. rewrite <- H. reflexivity.
    - discriminate.
    - rewrite Forall_forall in Hall. rewrite (Hall _ Hx) in Hb. discriminate.
    - exfalso. apply Hn. assert (In e two_storages) as [<-|[<-|[]]] by (rewrite E1; apply in_or_app; right; left; reflexivity).
      + eexists KRedis, _. split; [reflexivity|]. split; [reflexivity|]. split; [discriminate|]. split; [discriminate|]. exists 0%Z. apply Atoi_spec. reflexivity.
      + eexists KNats, _. split; [reflexivity|]. split; [reflexivity|]. exact I. }
  assert (is_bytes (concat [frame_pos])) as Hb by (change (concat [frame_pos]) with frame_pos; apply frame_pos_hyps).
  pose proof (run_ok_runs (handle_conn (E := env0) [frame_pos])) as Hr.
  set (evs := fst (run_ok (handle_conn (E := env0) [frame_pos]))) in *.
  assert (snd (run_ok (handle_conn (E := env0) [frame_pos])) = Some StopEof) as Ho by (vm_compute; reflexivity). rewrite Ho in Hr. clear Ho.
  assert (length (saves evs) = 1%nat) as Hs by (vm_compute; reflexivity).
  assert (Forall (fun nv => snd nv = true) (saves evs)) as Ht by (vm_compute; repeat constructor).
  clearbody evs. rewrite Forall_forall in Ht. pose proof (start_good _ _ _ H0) as Hg.
  destruct (stored_ok conns evs Hg) as (calls & K1 & K2).
  { intros [nav ok] Hi. split; [|apply (Ht _ Hi)]. destruct (C69_saved_values _ _ _ _ _ Hb Hr Hi) as (F1 & _ & F2 & _). split; assumption. }
  exists calls0, conns, evs, calls. repeat (split; [assumption|]).
  destruct (C82_fan_out _ _ _ _ _ _ _ H0 Hb Hr K1) as (groups & -> & Hgr).
  destruct (saves evs) as [|nv [|]]; try discriminate. inversion Hgr as [|? g ? gs G1 G2]; subst. inversion G2; subst. cbn [concat]. rewrite app_nil_r.
  destruct G1 as (c1 & c2 & -> & F & [(_ & -> & _)|(_ & g' & q & -> & _)]).
  - apply Forall2_len in F. rewrite app_nil_r in Hl. congruence.
  - cbn [concat] in K2. rewrite app_nil_r in K2. apply Forall_app in K2 as [_ K2]. inversion K2. discriminate.
Qed.

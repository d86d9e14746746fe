(** C106: from the command line of the generator to the record the receiver saves. *)
From Coq Require Import NArith ZArith Reals Lia ZifyBool ZifyNat ZifyN String List Bool.
From Flocq Require Import Core BinarySingleNaN.
From Verif Require Import GoBase GoFloat SubRecords Records Package Storage Server PacketGen SpecBase SpecPkg SpecSrv Flags SpecFlags
  BaseFacts WireFacts PackageFacts SrvFacts SrvPacket PropSub PropGen PropGenMain PropFlags PropBound ConcreteEnv.
Import ListNotations.
Open Scope N_scope.

Lemma given_set_iff name l v : given name l v <-> last_set (bytes_of_string name) l = v.
Proof. destruct v as [v|]; cbn [given]; symmetry; [apply last_set_spec|apply last_set_none]. Qed.
Lemma given_det name l v v' : given name l v -> given name l v' -> v = v'.
Proof. rewrite !given_set_iff. congruence. Qed.

Section WithEnv.
Context {E : Env}.

Lemma gen_bytes pid oid liq ts lat lon fr : snd (pkg_encode None (gen_packet pid oid liq ts lat lon)) = Ok fr -> is_bytes fr.
Proof.
  destruct (gen_sent pid oid liq ts lat lon) as (w & _ & _ & _ & He & Hb & Hw & _). rewrite He. intros H. injection H as <-.
  change 11 with (header_size (gen_packet pid oid liq ts lat lon)). apply lay_frame_ok; try assumption.
  - constructor; cbn; unfold is_flag, is_flag2; auto.
  - constructor; cbn -[Z.modulo]; unfold is_u8, is_u16; try lia; try (destruct (string_dec _ _); lia).
Qed.

Lemma gen_main_runs f w pid oid ts t addr fr : gf_pid f = Some pid -> pid <> 0%Z -> gf_oid f = Some oid -> oid <> 0%Z ->
  gf_time f = Some ts -> ts <> ""%string -> gw_parse w ts = Some t ->
  gw_resolve w (match gf_server f with Some s => s | None => "localhost:5555"%string end) = Some addr -> gw_dial w addr = true -> gw_write w = true ->
  snd (pkg_encode None (gen_packet pid oid (arg_liquid f) t (get (gf_lat f) f64_zero) (get (gf_lon f) f64_zero))) = Ok fr ->
  gen_main f w = (Some (addr, fr), match gen_read (get (gf_timeout f) default_timeout) (gw_answer w) with
    | None => GRead | Some ack => GChecked (check_ack (Z.to_N (pid mod 65536)) ack) end).
Proof.
  intros Hp Hp0 Ho Ho0 Ht Ht0 Hw Hr Hd Hwr He. unfold gen_main. rewrite Hp, Ho, Ht. cbn [get].
  replace (pid =? 0)%Z with false by lia. replace (oid =? 0)%Z with false by lia. destruct (string_dec ts ""); [contradiction|].
  rewrite Hw. cbv zeta. change (get (gf_liquid f) 0%Z) with (arg_liquid f). rewrite He.
  change (get (gf_server f) default_server) with (match gf_server f with Some s => s | None => "localhost:5555"%string end).
  rewrite Hr, Hd, Hwr. reflexivity.
Qed.

(** A command line with identifiers that fit and a time, in a working network: one packet is sent;
    the receiver, whatever the segments it arrives in, saves one record with the object, the
    packet number and the liquid level of the command line, at the coordinates of the command
    line up to the resolution of the format, and writes one answer; when it arrives in time, the
    generator reports success. *)
Theorem C106_from_command_line_to_storage : forall pf args w l rest pid oid liq ts t0 addr,
  Forall is_bytes args -> sets_all pf (kinds gen_options) args l rest ->
  given "pid" l (Some (FInt pid)) -> (0 < pid < 65536)%Z -> given "oid" l (Some (FInt oid)) -> (0 < oid < 4294967296)%Z ->
  given "liquid" l (Some (FInt liq)) \/ given "liquid" l None /\ liq = 0%Z -> (0 <= liq < 4294967296)%Z ->
  given "time" l (Some (FString (bytes_of_string ts))) -> ts <> ""%string -> gw_parse w ts = Some t0 ->
  (exists s, gw_resolve w s = Some addr /\ (given "server" l (Some (FString (bytes_of_string s))) \/ given "server" l None /\ s = "localhost:5555"%string)) ->
  gw_dial w addr = true -> gw_write w = true ->
  exists fr st, gen_program pf args w = (Some (addr, fr), st)
  /\ forall cs, concat cs = fr -> forall evs o, runs (handle_conn cs) evs o ->
     exists nav ok ack, evs = [EvSave nav ok; EvWrite ack]
     /\ nr_Client nav = Z.to_N oid /\ nr_PacketID nav = Z.to_N pid
     /\ (forall x, given "lat" l (Some (FFloat x)) -> is_finite x = true -> (0 <= B2R x <= 90)%R ->
           (B2R x - (1 + / 131072) * (90 / 4294967295) < B2R (nr_Latitude nav) < B2R x + / 131072 * (90 / 4294967295))%R)
     /\ (forall x, given "lon" l (Some (FFloat x)) -> is_finite x = true -> (0 <= B2R x <= 180)%R ->
           (B2R x - (1 + / 131072) * (180 / 4294967295) < B2R (nr_Longitude nav) < B2R x + / 131072 * (180 / 4294967295))%R)
     /\ nr_LiquidSensors nav = [mkLiquidSensor 1 "1" (Z.to_N liq) 0]
     /\ (forall sec delay, given "timeout" l (Some (FInt sec)) -> (0 <= delay < sec * 1000000000)%Z -> (sec < 9223372036)%Z ->
           gw_answer w = Some (delay, ack) -> exists f, options_given l f /\ snd (gen_main f w) = GChecked VOk).
Proof.
  intros pf args w l rest pid oid liq ts t0 addr Hb Hs Gp Rp Go Ro Gl Rl Gt Ht Hw (srv & Hr & Gs) Hd Hwr.
  destruct (proj1 (C104_generator pf args w Hb) l rest Hs) as (f & Hf & Hg).
  pose proof Hf as (F1 & F2 & F3 & F4 & F5 & F6 & F7 & F8).
  assert (gf_pid f = Some pid) as Ep by (pose proof (given_det _ _ _ _ F1 Gp) as Q; destruct (gf_pid f); [injection Q as ->; reflexivity|discriminate]).
  assert (gf_oid f = Some oid) as Eo by (pose proof (given_det _ _ _ _ F2 Go) as Q; destruct (gf_oid f); [injection Q as ->; reflexivity|discriminate]).
  assert (arg_liquid f = liq) as El.
  { unfold arg_liquid. destruct Gl as [Gl|[Gl ->]]; pose proof (given_det _ _ _ _ F3 Gl) as Q; destruct (gf_liquid f); try discriminate; [injection Q as ->|]; reflexivity. }
  assert (gf_time f = Some ts) as Et.
  { pose proof (given_det _ _ _ _ F7 Gt) as Q. destruct (gf_time f) as [s|]; [|discriminate]. cbn [option_map] in Q. injection Q as Q.
    apply (f_equal string_of_bytes) in Q. rewrite !string_bytes in Q. congruence. }
  assert (gw_resolve w (match gf_server f with Some s => s | None => "localhost:5555"%string end) = Some addr) as Er.
  { destruct Gs as [Gs|[Gs ->]]; pose proof (given_det _ _ _ _ F8 Gs) as Q; destruct (gf_server f) as [s|]; try discriminate; [|exact Hr].
    cbn [option_map] in Q. injection Q as Q. apply (f_equal string_of_bytes) in Q. rewrite !string_bytes in Q. congruence. }
  destruct (C62_generator_and_receiver pid oid liq t0 (get (gf_lat f) f64_zero) (get (gf_lon f) f64_zero) ltac:(lia) ltac:(lia) Rl) as (fr & He & Hlen & Hrun).
  pose proof (gen_main_runs f w pid oid ts t0 addr fr Ep ltac:(lia) Eo ltac:(lia) Et Ht Hw Er Hd Hwr) as Hm. rewrite El in Hm. specialize (Hm He).
  exists fr. eexists. split; [rewrite Hg, Hm; reflexivity|].
  intros cs Hcs evs o Ho. destruct (Hrun cs Hcs evs o Ho) as (_ & nav & ok & ack & -> & N1 & N2 & _ & N4 & N5 & N6 & N7).
  exists nav, ok, ack. split; [reflexivity|]. split; [exact N1|]. split; [exact N2|].
  split; [|split; [|split; [exact N6|]]].
  - intros x Gx Hx Hxr. pose proof (given_det _ _ _ _ F5 Gx) as Q. destruct (gf_lat f) as [y|]; [|discriminate]. injection Q as ->.
    rewrite N4. apply C30_coordinate_encode_decode; auto.
  - intros x Gx Hx Hxr. pose proof (given_det _ _ _ _ F6 Gx) as Q. destruct (gf_lon f) as [y|]; [|discriminate]. injection Q as ->.
    rewrite N5. apply C30_coordinate_encode_decode; auto.
  - intros sec delay Gx Hde Hse Ha. exists f. split; [exact Hf|]. rewrite Hm. cbn [snd]. rewrite Ha.
    assert (in_time f delay) as Hin.
    { exists sec. pose proof (given_det _ _ _ _ F4 Gx) as Q. destruct (gf_timeout f) as [y|]; [|discriminate]. injection Q as ->. auto. }
    assert (is_bytes fr) as Hfb by (apply (gen_bytes _ _ _ _ _ _ _ He)).
    assert (length ack <= 1024)%nat as Hal.
    { rewrite <- Hcs in Hfb, Hlen. destruct (C103_bounded_by_traffic cs _ o Hfb Ho) as [Hbd _]. cbn [writes flat_map app concat] in Hbd. rewrite app_nil_r in Hbd. lia. }
    rewrite gen_read_in_time; [|exact Hin| |exact Hal].
    + rewrite Z.mod_small by lia. rewrite N7. reflexivity.
    + intros ->. vm_compute in N7. discriminate.
Qed.
End WithEnv.

(** The documented command line with a timeout meets the hypotheses. *)
Definition end_line : list bytes := (doc_line ++ map bytes_of_string ["--timeout=5"; "-liquid=0x1F"]%string)%list.
Definition end_world : gen_world := mkGenWorld (fun _ => Some 0%Z) (fun s => Some s) (fun _ => true) true None.
Example C106_hyps : Forall is_bytes end_line /\ exists l, sets_all pf_ex (kinds gen_options) end_line l []
  /\ given "pid" l (Some (FInt 1)) /\ given "oid" l (Some (FInt 12)) /\ given "liquid" l (Some (FInt 31))
  /\ given "time" l (Some (FString (bytes_of_string "2021-12-16T09:12:00Z")))
  /\ gw_resolve end_world "localhost:5555" = Some "localhost:5555"%string /\ given "server" l (Some (FString (bytes_of_string "localhost:5555")))
  /\ given "lat" l (Some (FFloat (f64_of_Z 45))) /\ given "timeout" l (Some (FInt 5)).
Proof.
  assert (Forall is_bytes end_line) as Hb by (repeat constructor). split; [exact Hb|].
  exists [(bytes_of_string "pid", FInt 1); (bytes_of_string "oid", FInt 12); (bytes_of_string "time", FString (bytes_of_string "2021-12-16T09:12:00Z"));
        (bytes_of_string "lat", FFloat (f64_of_Z 45)); (bytes_of_string "lon", FFloat (f64_of_Z 60)); (bytes_of_string "server", FString (bytes_of_string "localhost:5555"));
        (bytes_of_string "timeout", FInt 5); (bytes_of_string "liquid", FInt 31)]. split.
  - apply (sets_all_ext pf_ex gen_table _ gen_kinds). apply (proj1 (C104_command_lines pf_ex gen_table end_line Hb)). reflexivity.
  - rewrite !given_set_iff. repeat split.
Qed.

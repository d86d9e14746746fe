(** C08, C10 and C55 without restriction on the input: the outcome of Decode on every byte
    string, and when the receiver crashes. *)
From Coq Require Import NArith ZArith String Bool List Lia.
From Verif Require Import GoBase GoFloat Crc SubRecords Records Package Storage Server.
From Verif Require Import SpecBase SpecCrc SpecPkg SpecSrv BaseFacts CrcFacts PackageFacts PropPkg SrvFacts SrvPacket SrvConn ConcreteEnv PropCrc.
Import ListNotations.
Open Scope N_scope.

Section WithEnv.
Context {E : Env}.

(** What Decode does with the frame [c] in a slice with the bytes [spare] behind it: it panics,
    or returns a code.  The checks are made in the order of the frame; lengths beyond the slice's
    capacity are noticed only when the slice is cut. *)
Inductive outcome := Panics | Returns (code : N).

Definition capacity (c spare : list N) : N := N.of_nat (length c + length spare).
Definition body_end (c : list N) : N := byte_at c 3 + word_at c 5.
Definition readable (key : option SecretKey) (c : list N) : Prop := exists body, body_readable key c body.

Inductive verdict (key : option SecretKey) (c spare : list N) : outcome -> Prop :=
| v_header_short : ~ header_complete c -> verdict key c spare (Returns 131)
| v_header_beyond : header_complete c -> capacity c spare < covered c -> verdict key c spare Panics
| v_header_sum : header_complete c -> covered c <= capacity c spare -> ~ header_sum_ok c spare ->
    verdict key c spare (Returns 137)
| v_no_body : header_complete c -> covered c <= capacity c spare -> header_sum_ok c spare -> ~ body_present c ->
    verdict key c spare (Returns 132)
| v_type : header_complete c -> covered c <= capacity c spare -> header_sum_ok c spare -> body_present c ->
    ~ type_known c -> verdict key c spare (Returns 133)
| v_body : header_complete c -> covered c <= capacity c spare -> header_sum_ok c spare -> body_present c ->
    type_known c -> ~ readable key c -> verdict key c spare (Returns 129)
| v_no_sum : header_complete c -> covered c <= capacity c spare -> header_sum_ok c spare -> body_present c ->
    type_known c -> readable key c -> ~ sum_present c -> verdict key c spare (Returns 129)
| v_body_beyond : header_complete c -> covered c <= capacity c spare -> header_sum_ok c spare -> body_present c ->
    type_known c -> readable key c -> sum_present c -> 65536 <= body_end c \/ capacity c spare < body_end c ->
    verdict key c spare Panics
| v_body_sum : header_complete c -> covered c <= capacity c spare -> header_sum_ok c spare -> body_present c ->
    type_known c -> readable key c -> sum_present c -> body_end c < 65536 -> body_end c <= capacity c spare ->
    ~ body_sum_ok c spare -> verdict key c spare (Returns 137)
| v_ok : header_complete c -> covered c <= capacity c spare -> header_sum_ok c spare -> body_present c ->
    type_known c -> readable key c -> sum_present c -> body_end c < 65536 -> body_end c <= capacity c spare ->
    body_sum_ok c spare -> verdict key c spare (Returns 0).

Lemma verdict_fun key c spare v v' : verdict key c spare v -> verdict key c spare v' -> v = v'.
Proof. intros H H'; destruct H, H'; try reflexivity; exfalso; try contradiction; lia. Qed.

Definition shows (d : dres) (v : outcome) : Prop :=
  match v with Panics => d = DPanic | Returns code => exists p, d = DRet p code (code =? 0) end.

Lemma decode_verdict key p0 c spare : is_bytes (c ++ spare) ->
  exists v, verdict key c spare v /\ shows (pkg_decode key p0 c spare) v.
Proof.
  intros Hb. pose proof Hb as Hb'. apply bytes_ok_app in Hb' as [Hbc _].
  destruct (Nat.lt_ge_cases (length c) (wire_header_size c)) as [Hl|Hl].
  { destruct (pkg_decode_short key p0 c spare Hbc Hl) as (p & ->). exists (Returns 131). split; [|exists p; reflexivity].
    constructor. unfold header_complete. lia. }
  rewrite pkg_decode_full by assumption. cbv zeta.
  destruct (N.lt_ge_cases (capacity c spare) (covered c)) as [Hc|Hc].
  { exists Panics. split; [constructor; assumption|]. unfold go_slice. replace (_ && _) with false; [reflexivity|].
    symmetry. apply andb_false_iff. right. apply N.leb_gt. unfold len. rewrite app_length. exact Hc. }
  rewrite go_slice_0 by (unfold len; rewrite app_length; exact Hc).
  rewrite crc8_checksum by (apply bytes_ok_firstn; assumption).
  destruct (N.eqb_spec (hcs c) (checksum8 (firstn (N.to_nat (covered c)) (c ++ spare)))) as [Hs|Hs]; cbn [negb].
  2: { exists (Returns 137). split; [|eexists; reflexivity]. apply v_header_sum; assumption. }
  destruct (Nat.eqb_spec (length c) (hn c)) as [He|He].
  { exists (Returns 132). split; [|eexists; reflexivity]. apply v_no_body; try assumption. unfold body_present. unfold hn in He. lia. }
  assert (body_present c) as Hp by (unfold body_present; unfold hn in He; lia).
  destruct (kind_of c) as [e|] eqn:Hk.
  2: { exists (Returns 133). split; [|eexists; reflexivity]. apply v_type; try assumption.
       unfold type_known. unfold kind_of in Hk. destruct (N.eqb_spec (byte_at c 9) 1); [discriminate|].
       destruct (N.eqb_spec (byte_at c 9) 0); [discriminate|]. tauto. }
  assert (type_known c) as Ht.
  { unfold type_known. unfold kind_of in Hk. destruct (N.eqb_spec (byte_at c 9) 1); [tauto|].
    destruct (N.eqb_spec (byte_at c 9) 0); [tauto|discriminate]. }
  destruct (opened key c) as [body|] eqn:Ho.
  2: { exists (Returns 129). split; [|eexists; reflexivity]. apply v_body; try assumption.
       intros (b & Hr). apply opened_readable in Hr; [congruence|assumption]. }
  assert (readable key c) as Hr by (exists body; apply opened_readable; assumption).
  destruct (Nat.leb_spec (length c) (hn c + fdl c)) as [Hq|Hq].
  { exists (Returns 129). split; [|eexists; reflexivity]. apply v_no_sum; try assumption. unfold sum_present. unfold hn, fdl in Hq. lia. }
  assert (sum_present c) as Hm by (unfold sum_present; unfold hn, fdl in Hq; lia).
  unfold crc_area. destruct (_ && _) eqn:Ha.
  - apply andb_true_iff in Ha as [H1 H2]. apply N.ltb_lt in H1. apply N.leb_le in H2. unfold len in H2. rewrite app_length in H2.
    rewrite crc16_checksum by (apply bytes_ok_firstn, bytes_ok_skipn; assumption).
    destruct (N.eqb_spec (stored_crc c) (checksum16 (firstn (fdl c) (skipn (N.to_nat (byte_at c 3)) (c ++ spare))))) as [Hx|Hx].
    + exists (Returns 0). split; [|eexists; reflexivity]. apply v_ok; assumption.
    + exists (Returns 137). split; [|eexists; reflexivity]. apply v_body_sum; assumption.
  - exists Panics. split; [|reflexivity]. apply v_body_beyond; try assumption.
    apply andb_false_iff in Ha as [Ha|Ha]; [left; apply N.ltb_ge; exact Ha|right].
    apply N.leb_gt in Ha. unfold len in Ha. rewrite app_length in Ha. exact Ha.
Qed.

(** ** C10 *)
(** Every outcome of Decode, on every byte string. *)
Theorem C10_every_outcome : forall key p0 c spare, is_bytes (c ++ spare) ->
  (pkg_decode key p0 c spare = DPanic <-> verdict key c spare Panics) /\
  (forall code, (exists p ok, pkg_decode key p0 c spare = DRet p code ok) <-> verdict key c spare (Returns code)) /\
  (forall p code ok, pkg_decode key p0 c spare = DRet p code ok -> ok = (code =? 0)).
Proof.
  intros key p0 c spare Hb. destruct (decode_verdict key p0 c spare Hb) as (v & Hv & Hs). split; [|split].
  - split; intros H.
    + destruct v as [|code]; [exact Hv|]. destruct Hs as (p & Hs). congruence.
    + pose proof (verdict_fun _ _ _ _ _ H Hv) as <-. exact Hs.
  - intros code. split.
    + intros (p & ok & H). destruct v as [|code']; cbn in Hs; [congruence|]. destruct Hs as (p' & Hs).
      rewrite Hs in H. injection H as _ -> _. exact Hv.
    + intros H. pose proof (verdict_fun _ _ _ _ _ H Hv) as <-. destruct Hs as (p & Hs). eauto.
  - intros p code ok H. destruct v as [|code']; cbn in Hs; [congruence|]. destruct Hs as (p' & Hs). congruence.
Qed.

(** ** C08 *)
(** Exactly when Decode panics. *)
Theorem C08_panics_exactly : forall key p0 c spare, is_bytes (c ++ spare) ->
  (pkg_decode key p0 c spare = DPanic <->
   header_complete c /\
   (capacity c spare < covered c
    \/ covered c <= capacity c spare /\ header_sum_ok c spare /\ type_known c /\ readable key c /\ sum_present c
       /\ (65536 <= body_end c \/ capacity c spare < body_end c))).
Proof.
  intros key p0 c spare Hb. rewrite (proj1 (C10_every_outcome key p0 c spare Hb)). split.
  - intros H. inversion H; subst; tauto.
  - intros (H1 & [H2|(H2 & H3 & H4 & H5 & H6 & H7)]); [apply v_header_beyond; assumption|].
    apply v_body_beyond; try assumption. unfold body_present. unfold sum_present in H6. lia.
Qed.

(** ** C55 *)
Lemma packet_returns client f : is_bytes f -> (10 <= length f)%nat ->
  (exists spare code, is_bytes spare /\ verdict None f spare (Returns code)) ->
  exists evs c', runs (handle_packet client f) evs (Some c').
Proof.
  intros Hb H10 (spare & code & Hs & Hv).
  assert (is_bytes (f ++ spare)) as Hfs by (apply bytes_ok_app; auto).
  destruct (C10_every_outcome None Package_zero f spare Hfs) as (_ & H & _). destruct (proj2 (H code) Hv) as (p & ok & Hd).
  assert (exists evs o, handled spare 0 client f evs o) as (evs & o & Hh).
  { unfold handled, handle_packet. apply runs_exists. }
  destruct o as [c'|].
  - exists evs, c'. apply handled_runs. eauto.
  - apply handled_crash in Hh; try assumption. congruence.
Qed.

Lemma packet_crashes client f : is_bytes f -> (10 <= length f)%nat ->
  (exists evs, runs (handle_packet client f) evs None) <-> exists spare, is_bytes spare /\ verdict None f spare Panics.
Proof.
  intros Hb H10. split.
  - intros (evs & H). apply handled_runs in H. destruct H as (spare & now & Hs & H). apply handled_crash in H; try assumption.
    exists spare. split; [assumption|]. apply (C10_every_outcome None Package_zero f spare); [apply bytes_ok_app; auto|exact H].
  - intros (spare & Hs & Hv). apply (C10_every_outcome None Package_zero f spare) in Hv; [|apply bytes_ok_app; auto].
    exists []. apply handled_runs. exists spare, 0%Z. split; [assumption|]. unfold handled, handle_packet. rewrite Hv. constructor.
Qed.

(** The receiver can crash on a stream exactly when it contains a frame on which Decode panics,
    for some capacity of the slice, and no frame before it makes it crash for certain. *)
Theorem C55_crash_exactly : forall cs, is_bytes (concat cs) ->
  ((exists evs, runs (handle_conn cs) evs None) <->
   exists fs f fs' e, cuts (concat cs) (fs ++ f :: fs')%list e
     /\ (exists spare, is_bytes spare /\ verdict None f spare Panics)
     /\ Forall (fun g => exists spare code, is_bytes spare /\ verdict None g spare (Returns code)) fs).
Proof.
  intros cs Hb. destruct (cuts_total (concat cs)) as (all & e & Hc).
  pose proof (cuts_frames _ _ _ Hc Hb) as Hf. split.
  - intros (evs & H). apply (conn_session _ _ _ _ _ _ Hc eq_refl) in H. destruct H as (es & oc & H & _ & Ho).
    assert (oc = None) as -> by (destruct oc; [discriminate|reflexivity]). clear Ho.
    assert (exists fs f fs', all = (fs ++ f :: fs')%list /\ (exists spare, is_bytes spare /\ verdict None f spare Panics)
      /\ Forall (fun g => exists spare code, is_bytes spare /\ verdict None g spare (Returns code)) fs) as (fs & f & fs' & -> & Hp & Hr).
    { clear Hc. revert Hf. remember None as o eqn:Ho. induction H as [c|c f fs evs0 H|c f fs evs0 c' es o H _ IH]; intros Hf; [discriminate| |].
      - apply Forall_cons_iff in Hf as [(H1 & H2 & _) _]. exists [], f, fs. split; [reflexivity|]. split; [|constructor].
        apply (packet_crashes c f H1 H2). eauto.
      - apply Forall_cons_iff in Hf as [(H1 & H2 & _) Hf]. destruct (IH Ho Hf) as (fs0 & g & fs' & -> & Hp & Hr).
        exists (f :: fs0), g, fs'. split; [reflexivity|]. split; [exact Hp|]. constructor; [|exact Hr].
        apply handled_runs in H. destruct H as (spare & now & Hs & H).
        assert (is_bytes (f ++ spare)) as Hfs by (apply bytes_ok_app; auto).
        destruct (decode_verdict None Package_zero f spare Hfs) as ([|code] & Hv & Hsh); [|exists spare, code; auto].
        destruct (handled_panic _ _ _ _ _ _ Hsh H) as [_ Hx]. discriminate. }
    exists fs, f, fs', e. auto.
  - intros (fs & f & fs' & e' & Hc' & Hp & Hr). destruct (cuts_fun _ _ _ Hc' _ _ Hc) as [-> ->]. clear Hc'.
    assert (forall client, exists es, session client (fs ++ f :: fs') es None) as Hs.
    { clear Hc. induction fs as [|g fs IH]; intros client; cbn [app] in *; apply Forall_cons_iff in Hf as [(H1 & H2 & _) Hf].
      - destruct (proj2 (packet_crashes client f H1 H2) Hp) as (evs & H). exists [evs]. constructor. exact H.
      - apply Forall_cons_iff in Hr as [Hg Hr]. destruct (packet_returns client g H1 H2 Hg) as (evs & c' & H).
        destruct (IH Hf Hr c') as (es & Hes). exists (evs :: es). econstructor; eassumption. }
    destruct (Hs 0) as (es & Hes). exists (concat es). apply (conn_session _ _ _ _ _ _ Hc eq_refl). exists es, None. auto.
Qed.
End WithEnv.

(** Frames for every outcome. *)
Example C10_every_outcome_ex : Forall2 (fun c v => is_bytes (c ++ []) /\ verdict (E := env0) None c [] v)
  [[1; 0; 0; 10; 0; 0; 0; 1; 0; 0];
   [1; 0; 0; 0; 0; 9; 0; 0; 0; 1; 0];
   [1; 0; 0; 11; 0; 0; 0; 1; 0; 0; 0];
   [1; 0; 0; 11; 0; 0; 0; 1; 0; 0; 82];
   [1; 0; 0; 11; 0; 1; 0; 1; 0; 2; 227; 0];
   [1; 0; 0; 11; 0; 1; 0; 1; 0; 0; 129; 0];
   [1; 0; 0; 11; 0; 3; 0; 7; 0; 0; 179; 7; 0; 0];
   [1; 0; 0; 14; 0; 3; 0; 1; 0; 0; 118; 7; 0; 0; 12; 73];
   [1; 0; 0; 11; 0; 3; 0; 7; 0; 0; 179; 7; 0; 0; 12; 74];
   resp_frame]
  [Returns 131; Panics; Returns 137; Returns 132; Returns 133; Returns 129; Returns 129; Panics; Returns 137; Returns 0].
Proof.
  repeat (constructor; [split; [okb|]; apply (C10_every_outcome None Package_zero _ []); [okb|]; first [vm_compute; reflexivity | eexists; eexists; vm_compute; reflexivity]|]).
  constructor.
Qed.
(** One frame with an empty header makes the receiver crash. *)
Example C55_crash_ex : exists evs, runs (handle_conn (E := env0) [[1; 0; 0; 0; 0]; [9; 0; 0; 0; 1; 0]]) evs None.
Proof.
  apply C55_crash_exactly; [okb|]. exists [], [1; 0; 0; 0; 0; 9; 0; 0; 0; 1; 0], [], StopEof. split; [|split; [|constructor]].
  - cbn [concat app]. change [1; 0; 0; 0; 0; 9; 0; 0; 0; 1; 0] with (firstn (taken [1; 0; 0; 0; 0; 9; 0; 0; 0; 1; 0]) [1; 0; 0; 0; 0; 9; 0; 0; 0; 1; 0]) at 2.
    constructor; [vm_compute; lia|reflexivity|]. change (skipn _ _) with (@nil N). constructor.
  - exists []. split; [okb|]. apply (C10_every_outcome None Package_zero); [okb|vm_compute; reflexivity].
Qed.

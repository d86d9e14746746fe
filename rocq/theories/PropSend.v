(** Properties of the sample sender (tools/send_egts.py), alone and with the receiver: C97, C98. *)
From Coq Require Import NArith ZArith Lia ZifyBool ZifyNat ZifyN String Ascii Bool List.
From Verif Require Import GoBase GoFloat Crc SubRecords Records Package Storage Server SendTool
  SpecBase SpecCrc SpecPkg SpecSub SpecRec SpecSrv SpecSend
  BaseFacts SubFacts SubMore RecordFacts DecodeFacts CrcFacts WireFacts PackageFacts PropRec PropPkg PropMore PropCrc
  SrvFacts SrvLoop SrvPacket SrvConn PropSrv PropSrvMore PropSrvEx ConcreteEnv PropPkgEx PropWhole.
Import ListNotations.
Open Scope N_scope.

(** ** Hexadecimal text *)
Lemma is_space_iff c : is_space c = true <-> blank c.
Proof. unfold is_space, blank. lia. Qed.
Lemma hex_digit_iff c v : hex_digit c = Some v <-> digit c v.
Proof.
  unfold hex_digit, digit. split.
  - destruct ((48 <=? c) && _) eqn:H1; [intros H; injection H as <-; lia|]. destruct ((65 <=? c) && _) eqn:H2; [intros H; injection H as <-; lia|].
    destruct ((97 <=? c) && _) eqn:H3; [intros H; injection H as <-; lia|discriminate].
  - intros [[H ->]|[H [-> | ->]]].
    + replace ((48 <=? 48 + v) && (48 + v <=? 57)) with true by lia. f_equal. lia.
    + replace ((48 <=? 55 + v) && (55 + v <=? 57)) with false by lia.
      replace ((65 <=? 55 + v) && (55 + v <=? 70)) with true by lia. f_equal. lia.
    + replace ((48 <=? 87 + v) && (87 + v <=? 57)) with false by lia.
      replace ((65 <=? 87 + v) && (87 + v <=? 70)) with false by lia.
      replace ((97 <=? 87 + v) && (87 + v <=? 102)) with true by lia. f_equal. lia.
Qed.
Lemma digit_not_blank c v : digit c v -> is_space c = false.
Proof. unfold digit, is_space. lia. Qed.

Lemma fromhex_complete p t : hex_of p t -> fromhex t = Some p.
Proof.
  induction 1 as [|c p t Hc H IH|c d x y p t Hc Hd H IH]; [reflexivity| |]; cbn [fromhex].
  - apply is_space_iff in Hc. rewrite Hc. exact IH.
  - rewrite (digit_not_blank _ _ Hc). apply hex_digit_iff in Hc, Hd. rewrite Hc, Hd, IH. reflexivity.
Qed.
Lemma fromhex_sound n : forall t p, (length t <= n)%nat -> fromhex t = Some p -> hex_of p t.
Proof.
  induction n as [|n IH]; intros [|c t] p Hn H; cbn [length] in Hn; try lia.
  - injection H as <-. constructor.
  - injection H as <-. constructor.
  - cbn [fromhex] in H. destruct (is_space c) eqn:Hc.
    + apply is_space_iff in Hc. constructor; [assumption|]. apply IH; [lia|assumption].
    + destruct t as [|d t]; [discriminate|]. destruct (hex_digit c) as [x|] eqn:Hx; [|discriminate].
      destruct (hex_digit d) as [y|] eqn:Hy; [|discriminate]. destruct (fromhex t) as [q|] eqn:Hq; [|discriminate].
      injection H as <-. apply hex_digit_iff in Hx, Hy. apply ho_byte; try assumption. apply IH; [cbn [length] in Hn; lia|assumption].
Qed.
Lemma fromhex_iff p t : fromhex t = Some p <-> hex_of p t.
Proof. split; [apply (fromhex_sound (length t)); lia|apply fromhex_complete]. Qed.
Lemma fromhex_none t : fromhex t = None <-> forall p, ~ hex_of p t.
Proof.
  split.
  - intros H p Hp. apply fromhex_iff in Hp. congruence.
  - intros H. destruct (fromhex t) as [p|] eqn:Hp; [|reflexivity]. apply fromhex_iff in Hp. destruct (H p Hp).
Qed.

(** ** Lines *)
Lemma newlines_line b e rest : in_line b -> eol e rest ->
  universal_newlines (b ++ e ++ rest) = (b ++ 10 :: universal_newlines rest)%list.
Proof.
  intros [_ Hb] He. induction b as [|c b IH].
  - destruct He as [-> |[-> |[-> He]]]; cbn [app universal_newlines]; try reflexivity.
    change (13 =? 13) with true. cbv iota. destruct rest as [|d rest]; [reflexivity|]. cbn [hd] in He.
    replace (d =? 10) with false by lia. reflexivity.
  - cbn [app universal_newlines]. replace (c =? 13) with false by (cbn [In] in Hb; symmetry; apply N.eqb_neq; intros ->; apply Hb; auto).
    f_equal. apply IH. intros Hi. apply Hb. right. exact Hi.
Qed.
Lemma newlines_last b : ~ In 13 b -> universal_newlines b = b.
Proof.
  induction b as [|c b IH]; intros Hb; [reflexivity|]. cbn [universal_newlines].
  replace (c =? 13) with false by (symmetry; apply N.eqb_neq; intros ->; apply Hb; left; reflexivity).
  f_equal. apply IH. intros Hi. apply Hb. right. exact Hi.
Qed.
Lemma readlines_line b rest : ~ In 10 b -> readlines (b ++ 10 :: rest) = (b ++ [10])%list :: readlines rest.
Proof.
  induction b as [|c b IH]; intros Hb; [reflexivity|]. cbn [app readlines].
  replace (c =? 10) with false by (symmetry; apply N.eqb_neq; intros ->; apply Hb; left; reflexivity).
  rewrite IH; [reflexivity|]. intros Hi. apply Hb. right. exact Hi.
Qed.
Lemma readlines_last b : ~ In 10 b -> b <> [] -> readlines b = [b].
Proof.
  induction b as [|c b IH]; intros Hb Hn; [destruct (Hn eq_refl)|]. cbn [readlines].
  replace (c =? 10) with false by (symmetry; apply N.eqb_neq; intros ->; apply Hb; left; reflexivity).
  destruct b as [|d b]; [reflexivity|]. rewrite IH; [reflexivity| |discriminate]. intros Hi. apply Hb. right. exact Hi.
Qed.

Lemma first_line t : t = [] \/ (exists b x, t = (b ++ [x])%list /\ in_line t) \/
  (exists b e rest, t = (b ++ e ++ rest)%list /\ in_line b /\ eol e rest).
Proof.
  induction t as [|c t IH]; [auto|right].
  destruct (N.eq_dec c 10) as [->|H10]; [right; exists [], [10], t; split; [reflexivity|]; split; [split; intros []|left; reflexivity]|].
  destruct (N.eq_dec c 13) as [->|H13].
  { right. destruct t as [|d t].
    - exists [], [13], []. split; [reflexivity|]. split; [split; intros []|]. right. right. split; [reflexivity|discriminate].
    - destruct (N.eq_dec d 10) as [->|Hd].
      + exists [], [13; 10], t. split; [reflexivity|]. split; [split; intros []|]. right. left. reflexivity.
      + exists [], [13], (d :: t). split; [reflexivity|]. split; [split; intros []|]. right. right. split; [reflexivity|exact Hd]. }
  assert (forall b, in_line b -> in_line (c :: b)) as Hc.
  { intros b [K1 K2]. split; intros [K|K]; auto. }
  destruct IH as [->|[(b & x & -> & Hi)|(b & e & rest & -> & Hi & He)]].
  - left. exists [], c. split; [reflexivity|]. apply Hc. split; intros [].
  - left. exists (c :: b), x. split; [reflexivity|]. apply (Hc _ Hi).
  - right. exists (c :: b), e, rest. split; [reflexivity|]. split; [apply Hc; exact Hi|exact He].
Qed.

Lemma plays_sound t k r : plays t k r -> send_tool t = (k, r).
Proof.
  unfold send_tool. induction 1 as [|b e rest p k r Hb He Hp H IH|b e rest Hb He Hp|b x p Hb Hp|b x Hb Hp]; [reflexivity| | | |].
  - rewrite newlines_line, readlines_line by (assumption || apply Hb). cbn [play]. rewrite removelast_last.
    apply fromhex_iff in Hp. rewrite Hp, IH. reflexivity.
  - rewrite newlines_line, readlines_line by (assumption || apply Hb). cbn [play]. rewrite removelast_last.
    rewrite (proj2 (fromhex_none b) Hp). reflexivity.
  - rewrite newlines_last by apply Hb. rewrite readlines_last; [|apply Hb|destruct b; discriminate]. cbn [play].
    rewrite removelast_last. apply fromhex_iff in Hp. rewrite Hp. reflexivity.
  - rewrite newlines_last by apply Hb. rewrite readlines_last; [|apply Hb|destruct b; discriminate]. cbn [play].
    rewrite removelast_last. rewrite (proj2 (fromhex_none b) Hp). reflexivity.
Qed.
Lemma plays_total n : forall t, (length t <= n)%nat -> exists k r, plays t k r.
Proof.
  induction n as [|n IH]; intros t Hn; (destruct (first_line t) as [->|[(b & x & -> & Hi)|(b & e & rest & -> & Hi & He)]];
    [exists [], Finished; constructor| |]).
  1, 3: destruct (fromhex b) as [p|] eqn:Hp; [apply fromhex_iff in Hp|pose proof (proj1 (fromhex_none b) Hp) as Hp']; do 2 eexists;
    [eapply pl_last|eapply pl_last_bad]; eassumption.
  all: destruct (fromhex b) as [p|] eqn:Hp; [apply fromhex_iff in Hp|pose proof (proj1 (fromhex_none b) Hp) as Hp'; do 2 eexists; apply pl_bad; assumption].
  all: assert (length rest < length (b ++ e ++ rest))%nat as Hl
    by (rewrite !app_length; destruct He as [-> |[-> |[-> _]]]; cbn [length]; lia).
  - lia.
  - destruct (IH rest) as (k & r & Hk); [lia|]. exists (ASend p :: ARecv :: k), r. econstructor; eassumption.
Qed.

(** ** C97 *)
(** What the tool does, for every text. *)
Theorem C97_tool_outcome : forall t k r, send_tool t = (k, r) <-> plays t k r.
Proof.
  intros t k r. split; [|apply plays_sound]. intros H. destruct (plays_total (length t) t) as (k' & r' & H'); [lia|].
  pose proof (plays_sound _ _ _ H') as H2. rewrite H in H2. injection H2 as -> ->. exact H'.
Qed.

(** Every packet of the file is sent, in order, each followed by one recv, when every line is ended; missing: a
    last line that is not. *)
Lemma file_plays ps t : file_of ps t -> plays t (flat_map (fun p => [ASend p; ARecv]) ps) Finished.
Proof. induction 1; [constructor|]. cbn [flat_map app]. econstructor; eassumption. Qed.
Theorem C97_file_is_sent_partial : forall ps t, file_of ps t ->
  send_tool t = (flat_map (fun p => [ASend p; ARecv]) ps, Finished).
Proof. intros ps t H. apply plays_sound, file_plays, H. Qed.

(** A last line that is not ended loses its last digit: its packet is not sent, and the tool
    fails. *)
Lemma hex_even p t : hex_of p t -> (length (filter (fun c => negb (is_space c)) t) = 2 * length p)%nat.
Proof.
  induction 1 as [|c p t Hc H IH|c d x y p t Hc Hd H IH]; [reflexivity| |]; cbn [filter].
  - apply is_space_iff in Hc. rewrite Hc. exact IH.
  - rewrite (digit_not_blank _ _ Hc), (digit_not_blank _ _ Hd). cbn [negb length]. rewrite IH. lia.
Qed.
Theorem C97_unended_line_refuted : forall ps t p b x v, file_of ps t -> in_line (b ++ [x]) -> digit x v -> hex_of p (b ++ [x]) ->
  send_tool (t ++ b ++ [x]) = (flat_map (fun q => [ASend q; ARecv]) ps, Raised).
Proof.
  intros ps t p b x v Ht Hi Hx Hp. apply plays_sound.
  assert (plays (b ++ [x]) [] Raised) as Hl.
  { apply pl_last_bad; [exact Hi|]. intros q Hq. apply hex_even in Hq, Hp. rewrite filter_app, app_length in Hp.
    cbn [filter] in Hp. rewrite (digit_not_blank _ _ Hx) in Hp. cbn [negb length] in Hp. lia. }
  assert (hd 0 (b ++ [x]) <> 10) as Hh.
  { destruct b as [|c b]; cbn [app hd]; intros ->; apply (proj1 Hi); left; reflexivity. }
  clear Hp Hx. induction Ht as [|q ps b' e rest Hb' Hq He Ht IH]; [exact Hl|].
  rewrite <- !app_assoc. cbn [flat_map app]. apply pl_line; try assumption.
  destruct He as [-> |[-> |[-> He]]]; [left; reflexivity|right; left; reflexivity|right; right].
  split; [reflexivity|]. destruct rest as [|c rest]; [exact Hh|exact He].
Qed.

Example C97_example_file : file_of [[1; 171]; []; [255]] [48; 49; 97; 66; 13; 10; 10; 32; 70; 102; 10].
Proof.
  assert (forall b, Forall (fun c => c <> 10 /\ c <> 13) b -> in_line b) as Hl.
  { intros b Hb. rewrite Forall_forall in Hb. split; intros Hi; apply Hb in Hi; lia. }
  apply (fo_cons [1; 171] _ [48; 49; 97; 66] [13; 10]);
    [apply Hl; repeat constructor; lia| |right; left; reflexivity|].
  { apply (ho_byte 48 49 0 1); [left; lia|left; lia|]. apply (ho_byte 97 66 10 11); [right; lia|right; lia|constructor]. }
  apply (fo_cons [] _ [] [10]); [apply Hl; constructor|constructor|left; reflexivity|].
  apply (fo_cons [255] _ [32; 70; 102] [10] []); [apply Hl; repeat constructor; lia| |left; reflexivity|constructor].
  apply ho_blank; [left; reflexivity|]. apply (ho_byte 70 102 15 15); [right; lia|right; lia|constructor].
Qed.
Example C97_example_run : send_tool [48; 49; 97; 66; 13; 10; 10; 32; 70; 102; 10]
  = ([ASend [1; 171]; ARecv; ASend []; ARecv; ASend [255]; ARecv], Finished).
Proof. reflexivity. Qed.
Example C97_example_unended : send_tool [48; 49; 10; 48; 50] = ([ASend [1]; ARecv], Raised)
  /\ send_tool [48; 49; 32] = ([ASend [1]; ARecv], Finished).
Proof. split; reflexivity. Qed.

Section WithEnv.
Context {E : Env}.

(** ** Frames and rounds *)
Lemma written_writes evs : written evs = concat (writes evs).
Proof. reflexivity. Qed.
Lemma written_app a b : written (a ++ b) = (written a ++ written b)%list.
Proof. unfold written. rewrite flat_map_app, concat_app. reflexivity. Qed.
Lemma flat_map_snoc {A B} (f : A -> list B) l x : flat_map f (l ++ [x]) = (flat_map f l ++ f x)%list.
Proof. rewrite flat_map_app. cbn [flat_map]. rewrite app_nil_r. reflexivity. Qed.

Lemma one_frame_facts g rest : one_frame g ->
  (10 <= length g)%nat /\ byte_at (g ++ rest) 0 = 1 /\ taken (g ++ rest) = length g.
Proof.
  intros [Hb Hc]. inversion Hc as [|?|?|?|s fs e Ht H0 Hr H1 H2 H3]; subst.
  pose proof (taken_pos g) as H10. rewrite H2 in *.
  assert (length g <= taken g)%nat as Hl by (rewrite <- H2 at 1; rewrite firstn_length; lia).
  split; [lia|].
  assert (forall i, (i < 10)%nat -> byte_at (g ++ rest) i = byte_at g i) as Hn.
  { intros i Hi. unfold byte_at. rewrite app_nth1; [reflexivity|lia]. }
  split; [rewrite Hn by lia; assumption|].
  assert (taken (g ++ rest) = taken g) as ->; [|lia].
  unfold byte_at in Hn. unfold taken, frame_length, word_at, byte_at. rewrite !Hn by lia. reflexivity.
Qed.
Lemma one_frame_next g rest : one_frame g -> exists r, next_frame [(g ++ rest)%list] = FPacket g r /\ concat r = rest.
Proof.
  intros Hg. destruct (one_frame_facts g rest Hg) as (H1 & H2 & H3).
  pose proof (next_frame_spec [(g ++ rest)%list]) as Hn. cbv zeta in Hn. cbn [concat] in Hn. rewrite app_nil_r in Hn.
  destruct (next_frame [(g ++ rest)%list]) as [f r| | |].
  - destruct Hn as (_ & _ & -> & Hr). rewrite H3 in *. exists r. split.
    + f_equal. rewrite firstn_app, Nat.sub_diag, firstn_all. apply app_nil_r.
    + rewrite Hr, skipn_app, Nat.sub_diag, skipn_all. reflexivity.
  - apply (f_equal (@length N)) in Hn. rewrite app_length in Hn. cbn [length] in Hn. lia.
  - destruct Hn as [_ Hn]. congruence.
  - rewrite H3, app_length in Hn. lia.
Qed.

Lemma session_snoc c fs es c' : session c fs es (Some c') -> forall f evs o, runs (handle_packet c' f) evs o ->
  session c (fs ++ [f]) (es ++ [evs]) o.
Proof.
  intros H. remember (Some c') as oc eqn:Hc. induction H as [c|c f fs evs H|c f fs evs c1 es o1 H Hs IH]; intros g ev o Hr.
  - injection Hc as ->. cbn [app]. destruct o as [c2|]; econstructor; try eassumption. constructor.
  - discriminate.
  - cbn [app]. econstructor; [eassumption|]. apply IH; assumption.
Qed.

Lemma answer_nonempty pid code l b : answer pid code l b -> b <> [].
Proof.
  intros [_ Ha] ->. destruct (Ha []) as (p & sdr & Hd & _).
  vm_compute in Hd. discriminate.
Qed.

Lemma answered g c evs o : one_frame g -> asks_for_answer g -> runs (handle_packet c g) evs o ->
  exists c', o = Some c' /\ written evs <> [].
Proof.
  intros Hg Ha Hr. destruct (one_frame_facts g [] Hg) as (H10 & _). destruct Hg as [Hb _].
  apply handled_runs in Hr. destruct Hr as (spare & now & Hs & Hr). rewrite written_writes.
  assert (forall b r, b <> [] -> concat (b :: r : list (list N)) <> []) as Hne.
  { intros [|x b] r Hx; [destruct (Hx eq_refl)|discriminate]. }
  destruct (Ha spare Hs) as [(p & code & Hd)|(p & code & l & Hd & Hp & Hl & Hn)].
  - destruct (C43_rejected_packets _ _ _ _ _ _ _ _ Hb H10 Hd Hr) as (b & -> & Hans & _ & ->). exists c. split; [reflexivity|].
    apply (Hne b []). eapply answer_nonempty; eassumption.
  - destruct (C44_position_records_saved_partial _ _ _ _ _ _ _ _ _ Hb Hs Hd Hp Hl Hn Hr) as (s & c' & _ & _ & ->).
    exists c'. split; [reflexivity|].
    destruct (C42_data_packets_are_acknowledged _ _ _ _ _ _ _ _ _ Hb Hs Hd Hp Hl Hn Hr) as (ack & rest & -> & Hans & _).
    apply Hne. eapply answer_nonempty; eassumption.
Qed.

(** ** C98 *)
(** For every file, at every moment: the receiver has handled the packets at the front of what was
    sent, and what was received is what it wrote, without what is still on the way. *)
Theorem C98_in_order : forall text ls s, reaches (sys_start text) ls s ->
  exists fs rest o, concat (sent ls) = (concat fs ++ rest)%list
  /\ session 0 fs (rounds ls) o
  /\ (forall c, sy_srv s = Some c -> o = Some c /\ rest = sy_up s)
  /\ written (concat (rounds ls)) = (received ls ++ sy_down s)%list.
Proof.
  intros text ls s H. remember (sys_start text) as s0 eqn:Hs. induction H as [s|s ls s' l s'' H IH St]; subst s.
  - exists [], [], (Some 0). split; [reflexivity|]. split; [constructor|]. split; [|reflexivity].
    intros c Hc. injection Hc as <-. split; reflexivity.
  - destruct (IH eq_refl) as (fs & rest & o & H1 & H2 & H3 & H4). clear IH. unfold sent, received, rounds in *. rewrite !flat_map_snoc.
    inversion St as [b k up srv down|b k up srv down Hb Hl|k up|b k up down|acts c f r up down evs c' Hn Hr|acts c f r up down evs Hn Hr|acts c up down Hn];
      subst; cbn [sy_srv sy_up sy_down] in *; rewrite ?app_nil_r.
    + exists fs, (rest ++ b)%list, o. rewrite concat_app, H1, <- app_assoc. cbn [concat]. rewrite app_nil_r. split; [reflexivity|].
      split; [assumption|]. split; [|assumption]. intros c Hc. destruct (H3 c Hc) as [-> ->]. split; reflexivity.
    + exists fs, rest, o. rewrite <- app_assoc. auto.
    + exists fs, rest, o. rewrite app_nil_r in *. auto.
    + exists fs, rest, o. auto.
    + destruct (H3 c eq_refl) as [-> ->]. pose proof (next_frame_spec [up]) as Hs. cbv zeta in Hs. rewrite Hn in Hs.
      cbn [concat] in Hs. rewrite app_nil_r in Hs. destruct Hs as (_ & _ & -> & Hc).
      exists (fs ++ [firstn (taken up) up])%list, (concat r), (Some c'). rewrite H1, !concat_app. cbn [concat]. rewrite !app_nil_r, Hc, <- app_assoc, firstn_skipn.
      split; [reflexivity|]. split; [eapply session_snoc; eassumption|]. split; [intros c2 E2; injection E2 as <-; auto|].
      rewrite written_app, H4, app_assoc. reflexivity.
    + destruct (H3 c eq_refl) as [-> ->]. pose proof (next_frame_spec [up]) as Hs. cbv zeta in Hs. rewrite Hn in Hs.
      cbn [concat] in Hs. rewrite app_nil_r in Hs. destruct Hs as (_ & _ & -> & Hc).
      exists (fs ++ [firstn (taken up) up])%list, (concat r), None. rewrite H1, !concat_app. cbn [concat]. rewrite !app_nil_r, Hc, <- app_assoc, firstn_skipn.
      split; [reflexivity|]. split; [eapply session_snoc; eassumption|]. split; [intros c2 E2; discriminate|].
      rewrite written_app, H4, app_assoc. reflexivity.
    + exists fs, rest, o. split; [assumption|]. split; [assumption|]. split; [intros c2 E2; discriminate|assumption].
Qed.

(** A file of packets that all are to be answered. *)
Definition todo (fs : list (list N)) : list action := flat_map (fun p => [ASend p; ARecv]) fs.
Inductive good (fs : list (list N)) (ls : list label) : sys -> Prop :=
| gd_free fs1 fs2 fs3 c down : fs = (fs1 ++ fs2 ++ fs3)%list -> session 0 fs1 (rounds ls) (Some c) -> sent ls = (fs1 ++ fs2)%list ->
    length ls = (2 * length (fs1 ++ fs2) + length fs1)%nat ->
    good fs ls (mkSys (todo fs3) (concat fs2) (Some c) down)
| gd_wait fs1 fs2 fs3 c down : fs = (fs1 ++ fs2 ++ fs3)%list -> session 0 fs1 (rounds ls) (Some c) -> sent ls = (fs1 ++ fs2)%list ->
    S (length ls) = (2 * length (fs1 ++ fs2) + length fs1)%nat -> fs2 <> [] \/ down <> [] ->
    good fs ls (mkSys (ARecv :: todo fs3) (concat fs2) (Some c) down).

Lemma good_step fs ls s l s' : Forall (fun f => one_frame f /\ asks_for_answer f) fs ->
  good fs ls s -> step s l s' -> good fs (ls ++ [l]) s'.
Proof.
  intros Hf Hg St.
  assert (forall fs1 fs2 fs3 f r, fs = (fs1 ++ fs2 ++ fs3)%list -> next_frame [concat fs2] = FPacket f r ->
    exists fs2', fs2 = f :: fs2' /\ concat r = concat fs2' /\ one_frame f /\ asks_for_answer f) as Hnext.
  { intros fs1 fs2 fs3 f r -> Hn. destruct fs2 as [|g fs2].
    - discriminate Hn.
    - apply Forall_app in Hf as [_ Hf]. apply Forall_app in Hf as [Hf _]. apply Forall_cons_iff in Hf as [[Hg1 Hg2] _].
      cbn [concat] in Hn. destruct (one_frame_next g (concat fs2) Hg1) as (r' & E1 & E2). rewrite E1 in Hn. injection Hn as -> ->.
      exists fs2. auto. }
  assert (forall fs1 fs2 fs3, fs = (fs1 ++ fs2 ++ fs3)%list -> next_frame [concat fs2] <> FNotEgts) as Halien.
  { intros fs1 fs2 fs3 -> Hn. destruct fs2 as [|g fs2]; [discriminate Hn|].
    apply Forall_app in Hf as [_ Hf]. apply Forall_app in Hf as [Hf _]. apply Forall_cons_iff in Hf as [[Hg1 Hg2] _].
    cbn [concat] in Hn. destruct (one_frame_next g (concat fs2) Hg1) as (r' & E1 & E2). rewrite E1 in Hn. discriminate. }
  assert (sent (ls ++ [l]) = (sent ls ++ sent [l])%list) as Hsent by apply flat_map_app.
  assert (rounds (ls ++ [l]) = (rounds ls ++ rounds [l])%list) as Hrounds by apply flat_map_app.
  destruct Hg as [fs1 fs2 fs3 c down E1 E2 E3 E4|fs1 fs2 fs3 c down E1 E2 E3 E4 E5].
  - inversion St as [b k up srv d Hk|b k up srv d Hb Hl Hk|k up|b k up d|acts c0 f r up d evs c' Hn Hr|acts c0 f r up d evs Hn Hr|acts c0 up d Hn]; subst.
    + destruct fs3 as [|g fs3]; [discriminate|]. change (ASend b :: k = ASend g :: ARecv :: todo fs3) in Hk. injection Hk as -> ->.
      replace (concat fs2 ++ g)%list with (concat (fs2 ++ [g])) by (rewrite concat_app; cbn [concat]; rewrite app_nil_r; reflexivity).
      apply (gd_wait _ _ fs1 (fs2 ++ [g]) fs3 c down).
      * rewrite <- !app_assoc. reflexivity.
      * rewrite Hrounds. cbn [rounds flat_map app]. rewrite app_nil_r. exact E2.
      * rewrite Hsent, E3. cbn [sent flat_map app]. rewrite app_assoc. reflexivity.
      * rewrite !app_length in *. cbn [length]. lia.
      * left. destruct fs2; discriminate.
    + destruct fs3; discriminate.
    + destruct (Hnext fs1 fs2 fs3 f r eq_refl Hn) as (fs2' & -> & Hc & Hf1 & Hf2). rewrite Hc.
      apply (gd_free _ _ (fs1 ++ [f]) fs2' fs3).
      * rewrite <- app_assoc. reflexivity.
      * rewrite Hrounds. cbn [rounds flat_map]. rewrite app_nil_r. eapply session_snoc; eassumption.
      * rewrite Hsent, E3. cbn [sent flat_map app]. rewrite app_nil_r, <- app_assoc. reflexivity.
      * rewrite !app_length in *. cbn [length] in *. lia.
    + destruct (Hnext fs1 fs2 fs3 f r eq_refl Hn) as (fs2' & -> & Hc & Hf1 & Hf2).
      destruct (answered _ _ _ _ Hf1 Hf2 Hr) as (c' & Hno & _). discriminate.
    + destruct (Halien fs1 fs2 fs3 eq_refl Hn).
  - inversion St as [b k up srv d Hk|b k up srv d Hb Hl Hk|k up|b k up d|acts c0 f r up d evs c' Hn Hr|acts c0 f r up d evs Hn Hr|acts c0 up d Hn]; subst.
    + apply (gd_free _ _ fs1 fs2 fs3).
      * reflexivity.
      * rewrite Hrounds. cbn [rounds flat_map app]. rewrite app_nil_r. exact E2.
      * rewrite Hsent, E3. cbn [sent flat_map app]. rewrite app_nil_r. reflexivity.
      * rewrite !app_length in *. cbn [length]. lia.
    + destruct (Hnext fs1 fs2 fs3 f r eq_refl Hn) as (fs2' & -> & Hc & Hf1 & Hf2). rewrite Hc.
      apply (gd_wait _ _ (fs1 ++ [f]) fs2' fs3).
      * rewrite <- app_assoc. reflexivity.
      * rewrite Hrounds. cbn [rounds flat_map]. rewrite app_nil_r. eapply session_snoc; eassumption.
      * rewrite Hsent, E3. cbn [sent flat_map app]. rewrite app_nil_r, <- app_assoc. reflexivity.
      * rewrite !app_length in *. cbn [length] in *. lia.
      * right. destruct (answered _ _ _ _ Hf1 Hf2 Hr) as (c2 & _ & Hw). intros Hd. apply app_eq_nil in Hd. tauto.
    + destruct (Hnext fs1 fs2 fs3 f r eq_refl Hn) as (fs2' & -> & Hc & Hf1 & Hf2).
      destruct (answered _ _ _ _ Hf1 Hf2 Hr) as (c' & Hno & _). discriminate.
    + destruct (Halien fs1 fs2 fs3 eq_refl Hn).
Qed.

Lemma good_reaches fs text ls s : Forall (fun f => one_frame f /\ asks_for_answer f) fs -> file_of fs text ->
  reaches (sys_start text) ls s -> good fs ls s.
Proof.
  intros Hf Ht H. remember (sys_start text) as s0 eqn:Hs. induction H as [s|s ls s' l s'' H IH St]; subst s.
  - unfold sys_start. rewrite (C97_file_is_sent_partial _ _ Ht). cbn [fst].
    apply (gd_free fs [] [] [] fs 0 []); [reflexivity|constructor|reflexivity|reflexivity].
  - eapply good_step; [eassumption|apply IH; reflexivity|eassumption].
Qed.

Lemma good_stuck fs ls s : Forall (fun f => one_frame f /\ asks_for_answer f) fs -> good fs ls s -> stuck s ->
  sy_acts s = [] /\ sent ls = fs /\ exists c, session 0 fs (rounds ls) (Some c).
Proof.
  intros Hf Hg Hst.
  assert (forall acts fs1 fs2 fs3 c down, s = mkSys acts (concat fs2) (Some c) down -> fs = (fs1 ++ fs2 ++ fs3)%list -> fs2 = []) as H2.
  { intros acts fs1 [|g fs2] fs3 c down -> ->; [reflexivity|exfalso].
    apply Forall_app in Hf as [_ Hf]. apply Forall_app in Hf as [Hf _]. apply Forall_cons_iff in Hf as [[Hg1 Hg2] _].
    destruct (one_frame_next g (concat fs2) Hg1) as (r & E1 & E2). destruct (runs_exists (handle_packet c g)) as (evs & o & Hr).
    destruct (answered _ _ _ _ Hg1 Hg2 Hr) as (c' & -> & _). eapply Hst. eapply st_serve; eassumption. }
  destruct Hg as [fs1 fs2 fs3 c down E1 E2 E3 E4|fs1 fs2 fs3 c down E1 E2 E3 E4 E5].
  - pose proof (H2 _ _ _ _ _ _ eq_refl E1) as ->. destruct fs3 as [|g fs3].
    + cbn [app] in E1. rewrite app_nil_r in E1, E3. subst fs. split; [reflexivity|]. split; [assumption|]. eauto.
    + exfalso. eapply Hst. apply st_send.
  - pose proof (H2 _ _ _ _ _ _ eq_refl E1) as ->. exfalso. destruct E5 as [E5|E5]; [destruct (E5 eq_refl)|].
    destruct down as [|x down]; [destruct (E5 eq_refl)|]. eapply Hst. apply (st_recv [x]); [discriminate|]. cbn [length]. lia.
Qed.

(** When every packet of the file is one that the receiver answers, nothing goes wrong: however the
    two sides and the network are scheduled, at most three steps per packet can be made, and when no
    step is left, the tool is at the end of the file, and the receiver has done what it does
    on a connection with these packets. Missing: the packets that are not answered. *)
Theorem C98_everything_arrives_partial : forall fs text, Forall (fun f => one_frame f /\ asks_for_answer f) fs -> file_of fs text ->
  forall ls s, reaches (sys_start text) ls s ->
  (length ls <= 3 * length fs)%nat
  /\ (exists later, fs = (sent ls ++ later)%list)
  /\ (stuck s -> sy_acts s = [] /\ sent ls = fs
      /\ forall cs, concat cs = concat fs -> runs (handle_conn cs) (concat (rounds ls)) (Some StopEof)).
Proof.
  intros fs text Hf Ht ls s H. pose proof (good_reaches _ _ _ _ Hf Ht H) as Hg. split; [|split].
  - destruct Hg as [fs1 fs2 fs3 c down -> E2 E3 E4|fs1 fs2 fs3 c down -> E2 E3 E4 E5]; rewrite !app_length in *; lia.
  - destruct Hg as [fs1 fs2 fs3 c down -> E2 E3 E4|fs1 fs2 fs3 c down -> E2 E3 E4 E5]; exists fs3; rewrite E3, app_assoc; reflexivity.
  - intros Hs. destruct (good_stuck _ _ _ Hf Hg Hs) as (H1 & H2 & c & H3). split; [assumption|]. split; [assumption|].
    intros cs Hcs. apply (conn_session (concat fs) fs StopEof); [|assumption|exists (rounds ls), (Some c); auto].
    clear -Hf. induction Hf as [|f fs [Hf _] _ IH]; [constructor|]. cbn [concat].
    destruct (one_frame_facts f (concat fs) Hf) as (K1 & K2 & K3).
    rewrite <- (firstn_all f) at 2. replace (firstn (length f) f) with (firstn (taken (f ++ concat fs)) (f ++ concat fs)).
    2: { rewrite K3, firstn_app, Nat.sub_diag, app_nil_r. reflexivity. }
    constructor; [rewrite K3, app_length; lia|assumption|]. rewrite K3, skipn_app, Nat.sub_diag, skipn_all. exact IH.
Qed.

(** The tool waits for ever after a packet that is not answered: of a file that begins with a
    response packet, nothing else is ever sent. *)
Theorem C98_response_packet_refuted : forall f fs text, one_frame f -> response_packet f -> file_of (f :: fs) text ->
  forall ls s, reaches (sys_start text) ls s ->
  (length ls <= 2)%nat /\ (sent ls = [] \/ sent ls = [f]) /\ sy_acts s <> [] /\ concat (rounds ls) = []
  /\ (stuck s -> sent ls = [f] /\ sy_acts s = ARecv :: todo fs).
Proof.
  intros f fs text Hf Hp Ht.
  assert (forall ls s, reaches (sys_start text) ls s ->
    (ls = [] /\ s = mkSys (todo (f :: fs)) [] (Some 0) []) \/
    (ls = [LSend f] /\ s = mkSys (ARecv :: todo fs) f (Some 0) []) \/
    (ls = [LSend f; LServe []] /\ s = mkSys (ARecv :: todo fs) [] (Some 0) [])) as Hinv.
  { intros ls s H. remember (sys_start text) as s0 eqn:Hs. induction H as [s|s ls s' l s'' H IH St]; subst s.
    - left. unfold sys_start. rewrite (C97_file_is_sent_partial _ _ Ht). auto.
    - destruct (IH eq_refl) as [[-> ->]|[[-> ->]|[-> ->]]].
      + inversion St as [b k up srv d Hk|b k up srv d Hb Hl Hk|k up|b k up d|acts c0 g r up d evs c' Hn Hr|acts c0 g r up d evs Hn Hr|acts c0 up d Hn]; subst;
          try discriminate. right. left. auto.
      + destruct (one_frame_next f [] Hf) as (r' & E1 & E2). rewrite app_nil_r in E1.
        inversion St as [b k up srv d Hk|b k up srv d Hb Hl Hk|k up|b k up d|acts c0 g r up d evs c' Hn Hr|acts c0 g r up d evs Hn Hr|acts c0 up d Hn]; subst.
        * exfalso. match goal with K : (b ++ d)%list = [] |- _ => apply app_eq_nil in K; destruct K as [-> ->]; apply Hb; reflexivity end.
        * pose proof (eq_trans (eq_sym E1) Hn) as K. injection K as <- <-. apply handled_runs in Hr. destruct Hr as (spare & now & Hsp & Hr).
          destruct (Hp spare Hsp) as (p & code & Hd & Hpt).
          destruct (C53_responses_are_not_answered _ _ _ _ _ _ _ _ (proj1 Hf) Hsp Hd Hpt Hr) as [-> Hc]. injection Hc as ->.
          right. right. rewrite E2. auto.
        * pose proof (eq_trans (eq_sym E1) Hn) as K. injection K as <- <-. apply handled_runs in Hr. destruct Hr as (spare & now & Hsp & Hr).
          destruct (Hp spare Hsp) as (p & code & Hd & Hpt).
          destruct (C53_responses_are_not_answered _ _ _ _ _ _ _ _ (proj1 Hf) Hsp Hd Hpt Hr) as [_ Hc]. discriminate.
        * pose proof (eq_trans (eq_sym E1) Hn) as K. discriminate K.
      + inversion St as [b k up srv d Hk|b k up srv d Hb Hl Hk|k up|b k up d|acts c0 g r up d evs c' Hn Hr|acts c0 g r up d evs Hn Hr|acts c0 up d Hn]; subst;
          try discriminate. exfalso. match goal with K : (b ++ d)%list = [] |- _ => apply app_eq_nil in K; destruct K as [-> ->]; apply Hb; reflexivity end. }
  intros ls s H. destruct (Hinv _ _ H) as [[-> ->]|[[-> ->]|[-> ->]]]; cbn [length].
  - split; [lia|]. split; [auto|]. split; [discriminate|]. split; [reflexivity|]. intros Hs. exfalso. eapply Hs. apply st_send.
  - split; [lia|]. split; [auto|]. split; [discriminate|]. split; [reflexivity|]. intros _. auto.
  - split; [lia|]. split; [auto|]. split; [discriminate|]. split; [reflexivity|]. intros _. auto.
Qed.
End WithEnv.

(** Every list of packets has a file, and files of packets that are to be answered exist, and so do response
    packets. *)
Definition hexd (v : N) : N := if v <? 10 then 48 + v else 55 + v.
Definition file_text (ps : list (list N)) : list N := flat_map (fun p => flat_map (fun b => [hexd (b / 16); hexd (b mod 16)]) p ++ [10])%list ps.
Lemma hexd_digit v : v < 16 -> digit (hexd v) v.
Proof. intros H. unfold hexd, digit. destruct (N.ltb_spec v 10); lia. Qed.
Lemma hexd_line v : hexd v <> 10 /\ hexd v <> 13.
Proof. unfold hexd. destruct (N.ltb_spec v 10); lia. Qed.
Lemma file_text_ok ps : Forall is_bytes ps -> file_of ps (file_text ps).
Proof.
  induction 1 as [|p ps Hp Hps IH]; [constructor|]. unfold file_text. cbn [flat_map]. fold (file_text ps). rewrite <- app_assoc.
  apply fo_cons; [| |left; reflexivity|exact IH].
  - split; intros Hi; apply in_flat_map in Hi; destruct Hi as (b & _ & [Hi|[Hi|[]]]);
      [pose proof (hexd_line (b / 16))|pose proof (hexd_line (b mod 16))|pose proof (hexd_line (b / 16))|pose proof (hexd_line (b mod 16))]; lia.
  - induction Hp as [|b p Hb Hp IHp]; [constructor|]. cbn [flat_map app].
    replace b with (16 * (b / 16) + b mod 16) at 1 by (symmetry; apply N.div_mod'). 
    apply ho_byte; [apply hexd_digit| |exact IHp].
    + unfold is_u8 in Hb. lia.
    + apply hexd_digit. lia.
Qed.

Lemma one_frame_b f : bytes_okb f = true -> (taken f =? length f)%nat && (byte_at f 0 =? 1) = true -> one_frame f.
Proof.
  intros Hb H. split; [apply bytes_okb_ok; assumption|]. assert (taken f = length f /\ byte_at f 0 = 1) as [H1 H2] by lia.
  rewrite <- (firstn_all f) at 2. rewrite <- H1 at 1. apply cut_frame; [lia|assumption|]. rewrite H1, skipn_all. constructor.
Qed.
Example C98_hyps : let fs := [frame_pos; frame_auth; frame_pos] in
  Forall (fun f => one_frame f /\ asks_for_answer (E := env0) f) fs /\ file_of fs (file_text fs).
Proof.
  cbv zeta.
  assert (forall f l, bytes_okb f = true -> ends_inside f -> no_confirmation (E := env0) l ->
    (exists p, pkg_decode (E := env0) None Package_zero f [] = DRet p 0 true /\ p_PT p = 1 /\ p_SFRD p = Some (BSds l)) ->
    asks_for_answer (E := env0) f) as Ha.
  { intros f l Hb Hi Hn (p & Hd & Hp & Hl) spare Hs. right. exists p, 0, l.
    rewrite (C99_memory_behind_partial (E := env0) None Package_zero f spare []) by (try apply bytes_okb_ok; assumption). auto. }
  assert (one_frame frame_pos /\ asks_for_answer (E := env0) frame_pos) as Hp.
  { split; [apply one_frame_b; vm_compute; reflexivity|]. apply (Ha _ (recs_pos "0" "0")); [vm_compute; reflexivity|split; vm_compute; discriminate || reflexivity| |].
    - apply frame_pos_hyps.
    - destruct frame_pos_hyps as (_ & _ & _ & _ & _ & _ & _ & p & H1 & H2 & _ & H4). eauto. }
  assert (one_frame frame_auth /\ asks_for_answer (E := env0) frame_auth) as Hq.
  { split; [apply one_frame_b; vm_compute; reflexivity|]. apply (Ha _ recs_auth); [vm_compute; reflexivity|split; vm_compute; discriminate || reflexivity| |].
    - apply frame_auth_hyps.
    - destruct frame_auth_hyps as (_ & _ & _ & _ & p & H1 & H2 & _ & H4). eauto. }
  split; [apply Forall_cons; [exact Hp|]; apply Forall_cons; [exact Hq|]; apply Forall_cons; [exact Hp|constructor]|]. apply file_text_ok.
  repeat (apply Forall_cons; [okb|]). constructor.
Qed.
Example C98_response_hyps : one_frame resp_frame /\ response_packet (E := env0) resp_frame
  /\ file_of [resp_frame; frame_pos] (file_text [resp_frame; frame_pos]).
Proof.
  split; [apply one_frame_b; vm_compute; reflexivity|]. split.
  - intros spare Hs. rewrite (C99_memory_behind_partial (E := env0) None Package_zero resp_frame spare []);
      [|apply bytes_okb_ok; reflexivity|split; vm_compute; discriminate || reflexivity].
    destruct C53_hyps as (_ & p & H1 & H2). eauto.
  - apply file_text_ok. repeat (apply Forall_cons; [okb|]). constructor.
Qed.

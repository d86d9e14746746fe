(** Lemmas about what the decoders accept. *)
From Coq Require Import NArith ZArith Lia ZifyBool ZifyNat ZifyN String Ascii Bool List.
From Verif Require Import GoBase GoFloat SubRecords SpecBase SpecSub SpecDec BaseFacts SubFacts SubMore FloatFacts RangeFacts PosFacts.
Import ListNotations.
Open Scope N_scope.
Open Scope go_scope.

Local Opaque le16 le24 le32 le_bytes chars bytes_of_string.

Definition whenb (p : bool) (x : item) : list item := if p then [x] else [].
Lemma when_bit p x : when (bit_str p) x = whenb p x.
Proof. destruct p; reflexivity. Qed.

(** ** Single fields *)
Lemma zeros_eq m : Forall (eq 0) m -> m = zeros (length m).
Proof.
  induction 1 as [|x m Hx _ IH]; [reflexivity|]. cbn [length zeros repeat]. rewrite IH at 1. rewrite <- Hx. reflexivity.
Qed.
Lemma skipn_zeros j k : skipn j (zeros k) = zeros (k - j).
Proof. revert j. induction k; intros [|j]; cbn; try reflexivity. apply IHk. Qed.

Lemma rd_into_own k b v r : (0 < k)%nat -> rd_into (zeros k) b = Some (v, r) ->
  length v = k /\ forall old l, received old l r -> received old (Own v :: l) b.
Proof.
  intros Hk H. assert (length v = k) as Hl by (apply rd_into_length in H; rewrite zeros_length in H; assumption).
  split; [assumption|]. intros old l Hr. destruct b as [|x b]; [discriminate|]. unfold rd_into in H. rewrite zeros_length in H.
  remember (x :: b) as c eqn:Ec. injection H as <- <-.
  destruct (Nat.le_gt_cases k (length c)) as [Hc|Hc].
  - rewrite skipn_all2 by (rewrite zeros_length; assumption). rewrite app_nil_r.
    rewrite <- (firstn_skipn k c) at 2. apply rc_own. assumption.
  - rewrite firstn_all2 by lia. rewrite skipn_all2 in Hr by lia. apply rc_own_cut; [subst; discriminate| |assumption].
    rewrite skipn_zeros. apply Forall_forall. intros y Hy. symmetry. apply repeat_spec in Hy. assumption.
Qed.

Lemma rd_into_whole b w m : w <> [] -> rd_into (b ++ m) w = Some (w ++ m, []) \/ length b <> length w.
Proof.
  intros Hw. destruct (Nat.eq_dec (length b) (length w)) as [E|E]; [left|right; assumption].
  unfold rd_into. destruct w as [|x w]; [congruence|]. remember (x :: w) as c.
  rewrite firstn_all2 by (rewrite app_length; lia). rewrite (skipn_all2 c) by (rewrite app_length; lia).
  rewrite <- E, skipn_app, skipn_all, Nat.sub_diag. reflexivity.
Qed.

Lemma own_rd_into old v l b : v <> [] -> received old (Own v :: l) b ->
  exists r, rd_into (zeros (length v)) b = Some (v, r) /\ received old l r.
Proof.
  intros Hv H. inversion H; subst.
  - exists r. split; [|assumption]. apply rd_into_app; [symmetry; apply zeros_length|assumption].
  - exists []. split; [|assumption]. match goal with H : Forall (eq 0) _ |- _ => apply zeros_eq in H as E end.
    destruct (rd_into_whole (zeros (length b)) b m) as [R|R]; [assumption| |rewrite zeros_length in R; congruence].
    rewrite E in R at 1. rewrite app_length. unfold zeros in *. rewrite repeat_app. assumption.
Qed.

Lemma rd_into_shared old b v r : old <> [] -> rd_into old b = Some (v, r) ->
  length v = length old /\ forall l, received v l r -> received old (Shared v :: l) b.
Proof.
  intros Hk H. assert (length v = length old) as Hl by (apply rd_into_length in H; assumption).
  split; [assumption|]. intros l Hr. destruct b as [|x b]; [discriminate|]. unfold rd_into in H.
  remember (x :: b) as c eqn:Ec. injection H as <- <-.
  destruct (Nat.le_gt_cases (length old) (length c)) as [Hc|Hc].
  - rewrite skipn_all2 in * by assumption. rewrite app_nil_r in *.
    rewrite <- (firstn_skipn (length old) c) at 2. apply rc_shared. assumption.
  - rewrite firstn_all2 in * by lia. rewrite (skipn_all2 c) in Hr by lia.
    rewrite <- (firstn_skipn (length c) old) at 1. apply rc_shared_cut; [subst; discriminate| |assumption].
    rewrite firstn_length. lia.
Qed.

Lemma shared_rd_into old v l b : v <> [] -> length old = length v -> received old (Shared v :: l) b ->
  exists r, rd_into old b = Some (v, r) /\ received v l r.
Proof.
  intros Hv Hl H. inversion H; subst.
  - exists r. split; [|assumption]. apply rd_into_app; auto.
  - exists []. split; [|assumption]. destruct (rd_into_whole o b m) as [R|R]; [assumption|assumption|congruence].
Qed.

Lemma own_byte old x l b : received old (Own [x] :: l) b -> exists r, rd_byte b = Some (x, r) /\ received old l r.
Proof.
  intros H. inversion H; subst; [exists r; auto|].
  destruct b as [|y [|]]; [congruence| |discriminate]. cbn in *. match goal with H : _ :: _ = _ |- _ => injection H as -> -> end.
  exists []. auto.
Qed.
Lemma byte_own b x r : rd_byte b = Some (x, r) -> forall old l, received old l r -> received old (Own [x] :: l) b.
Proof. destruct b; [discriminate|]. intros H. injection H as <- <-. intros old l Hr. apply (rc_own old [_] l). assumption. Qed.

(** ** Reading forwards *)
Definition goes (b : bytes) (its : list item) (r : bytes) : Prop :=
  forall old l, received old l r -> received old (its ++ l) b.

Lemma F_byte b n r : bytes_ok b -> rd_byte b = Some (n, r) -> n < 256 /\ bytes_ok r /\ goes b [Own [n]] r.
Proof. intros Hb H. pose proof (rd_byte_ok _ _ _ Hb H). repeat split; try tauto. intros old l. apply byte_own. assumption. Qed.

Lemma F_num k b n r : (0 < k)%nat -> bytes_ok b -> rd_num k b = Some (n, r) ->
  n < 256 ^ N.of_nat k /\ bytes_ok r /\ goes b [Own (le_bytes k n)] r.
Proof.
  intros Hk Hb H. destruct (rd_num_ok _ _ _ _ Hb H) as [H1 H2]. split; [assumption|]. split; [assumption|].
  unfold rd_num in H. destruct (rd_into (zeros k) b) as [[v q]|] eqn:E; [|discriminate]. injection H as <- <-.
  destruct (rd_into_own _ _ _ _ Hk E) as [Hl Hg]. intros old l Hr.
  assert (bytes_ok v) by (apply rd_into_ok in E; [tauto|apply zeros_ok|assumption]).
  rewrite <- Hl, le_bytes_le_num by assumption. apply Hg. assumption.
Qed.

Lemma F_str k b s r : (0 < k)%nat -> bytes_ok b -> rd_str k b = Some (s, r) ->
  String.length s = k /\ bytes_ok r /\ goes b [Own (bytes_of_string s)] r.
Proof.
  intros Hk Hb H. unfold rd_str in H. destruct (rd_into (zeros k) b) as [[v q]|] eqn:E; [|discriminate]. injection H as <- <-.
  destruct (rd_into_own _ _ _ _ Hk E) as [Hl Hg].
  assert (bytes_ok v /\ bytes_ok q) as [Hv Hq] by (apply rd_into_ok in E; [tauto|apply zeros_ok|assumption]).
  split; [rewrite <- bytes_of_string_length, bytes_string by assumption; assumption|]. split; [assumption|].
  intros old l Hr. rewrite bytes_string by assumption. apply Hg. assumption.
Qed.

Lemma F_raw k b v r : (0 < k)%nat -> bytes_ok b -> rd_into (zeros k) b = Some (v, r) ->
  (length v = k /\ bytes_ok v) /\ bytes_ok r /\ goes b [Own v] r.
Proof.
  intros Hk Hb E. destruct (rd_into_own _ _ _ _ Hk E) as [Hl Hg].
  assert (bytes_ok v /\ bytes_ok r) as [Hv Hq] by (apply rd_into_ok in E; [tauto|apply zeros_ok|assumption]).
  split; [split; assumption|]. split; [assumption|]. intros old l. apply Hg.
Qed.

Lemma F_cstr b s r : bytes_ok b -> rd_cstr b = Some (s, r) ->
  no_nul s /\ bytes_ok r /\ goes b [Whole (bytes_of_string s ++ [0])] r.
Proof.
  intros Hb H. assert (no_nul s /\ bytes_ok r /\ b = (bytes_of_string s ++ [0]) ++ r) as (H1 & H2 & ->).
  { revert s H. induction b as [|x b IH]; intros s H; [discriminate|]. 
    change (rd_cstr (x :: b)) with (if x =? 0 then Some (EmptyString, b) else match rd_cstr b with
      Some (s0, r0) => Some (String (ascii_of_N x) s0, r0) | None => None end) in H.
    apply bytes_ok_cons in Hb as [Hx Hb]. destruct (N.eqb_spec x 0) as [->|Hx0].
    - injection H as <- <-. split; [intros []|]. split; [assumption|]. Local Transparent bytes_of_string. reflexivity. Local Opaque bytes_of_string.
    - destruct (rd_cstr b) as [[s2 r2]|] eqn:E in H; [|discriminate H]. injection H as <- <-. destruct (IH Hb _ E) as (H1 & H2 & ->).
      Local Transparent chars bytes_of_string. unfold no_nul in *. rewrite !chars_eq in *. cbn [bytes_of_string list_ascii_of_string map].
      split; [|split; [assumption|]].
      + intros [E2|E2]; [|auto]. rewrite N_ascii_embedding in E2 by assumption. congruence.
      + change (bytes_of_string (String (ascii_of_N x) s2)) with (N_of_ascii (ascii_of_N x) :: bytes_of_string s2). rewrite N_ascii_embedding by assumption. reflexivity. Local Opaque chars bytes_of_string. }
  split; [assumption|]. split; [assumption|]. intros old l Hr. apply rc_whole. assumption.
Qed.

Lemma F_opt {A} (Q : A -> Prop) (it : A -> item) (p : bool) s (f : bytes -> option (A * bytes)) b n r :
  (f b = Some (n, r) -> Q n /\ bytes_ok r /\ goes b [it n] r) -> bytes_ok b ->
  opt_rd p s f b = Some (n, r) ->
  (p = true -> Q n) /\ (p = false -> n = s) /\ bytes_ok r /\ goes b (whenb p (it n)) r.
Proof.
  intros Hf Hb H. destruct p; cbn [opt_rd] in H.
  - destruct (Hf H) as (H1 & H2 & H3). repeat split; auto. discriminate.
  - injection H as <- <-. repeat split; auto; try discriminate. intros old l Hr. exact Hr.
Qed.

Definition shares (tmp b : bytes) (its : list item) (tmp' r : bytes) : Prop :=
  forall l, received tmp' l r -> received tmp (its ++ l) b.
Lemma F_tmp k tmp b n t r : (0 < k)%nat -> bytes_ok tmp -> length tmp = k -> bytes_ok b -> rd_num_tmp tmp b = Some ((n, t), r) ->
  n < 256 ^ N.of_nat k /\ bytes_ok r /\ bytes_ok t /\ length t = k /\ shares tmp b [Shared (le_bytes k n)] t r.
Proof.
  intros Hk Ht Hl Hb H. destruct (rd_num_tmp_ok _ _ _ _ _ Ht Hb H) as (H1 & H2 & H4 & H5). rewrite Hl in H1.
  unfold rd_num_tmp in H. destruct (rd_into tmp b) as [[v q]|] eqn:E; [|discriminate]. injection H as <- <- <-.
  destruct (rd_into_shared tmp b v q) as [Hlv Hg]; [intros ->; cbn in *; lia|assumption|].
  assert (le_bytes k (le_num v) = v) as Ev by (rewrite <- Hl, <- Hlv; apply le_bytes_le_num; assumption).
  split; [assumption|]. split; [assumption|]. split; [assumption|]. split; [congruence|].
  intros l Hr. rewrite Ev. apply Hg. assumption.
Qed.
Lemma F_opt_tmp k (p : bool) s tmp b n t r : (0 < k)%nat -> bytes_ok tmp -> length tmp = k -> bytes_ok b ->
  opt_rd p (s, tmp) (rd_num_tmp tmp) b = Some ((n, t), r) ->
  (p = true -> n < 256 ^ N.of_nat k) /\ (p = false -> n = s) /\ bytes_ok r /\ bytes_ok t /\ length t = k
  /\ shares tmp b (whenb p (Shared (le_bytes k n))) t r.
Proof.
  intros Hk Ht Hl Hb H. destruct p; cbn [opt_rd] in H.
  - destruct (F_tmp k _ _ _ _ _ Hk Ht Hl Hb H) as (H1 & H2 & H3 & H4 & H5). repeat split; auto. discriminate.
  - injection H as <- <- <-. repeat split; auto; try discriminate. intros l Hr. exact Hr.
Qed.

(** ** And backwards *)
Lemma le_bytes_ne k n : (0 < k)%nat -> le_bytes k n <> [].
Proof. intros Hk E. pose proof (le_bytes_length k n) as H. rewrite E in H. cbn in H. lia. Qed.
Lemma B_num k old n l b : (0 < k)%nat -> n < 256 ^ N.of_nat k -> received old (Own (le_bytes k n) :: l) b ->
  exists r, rd_num k b = Some (n, r) /\ received old l r.
Proof.
  intros Hk Hn H. apply own_rd_into in H as (r & H & Hr); [|apply le_bytes_ne; assumption]. rewrite le_bytes_length in H.
  exists r. split; [|assumption]. unfold rd_num. rewrite H, le_num_le_bytes by assumption. reflexivity.
Qed.
Lemma B_str k old s l b : (0 < k)%nat -> String.length s = k -> received old (Own (bytes_of_string s) :: l) b ->
  exists r, rd_str k b = Some (s, r) /\ received old l r.
Proof.
  intros Hk Hn H. apply own_rd_into in H as (r & H & Hr).
  - rewrite bytes_of_string_length, Hn in H. exists r. split; [|assumption]. unfold rd_str. rewrite H, string_bytes. reflexivity.
  - intros E. pose proof (bytes_of_string_length s) as H2. rewrite E in H2. cbn in H2. lia.
Qed.
Lemma B_raw k old v l b : (0 < k)%nat -> length v = k -> received old (Own v :: l) b ->
  exists r, rd_into (zeros k) b = Some (v, r) /\ received old l r.
Proof. intros Hk Hn H. apply own_rd_into in H; [rewrite Hn in H; assumption|]. intros ->. cbn in Hn. lia. Qed.
Lemma B_cstr old s l b : no_nul s -> received old (Whole (bytes_of_string s ++ [0]) :: l) b ->
  exists r, rd_cstr b = Some (s, r) /\ received old l r.
Proof.
  intros Hs H. inversion H; subst. exists r. split; [|assumption]. rewrite <- app_assoc. apply rd_cstr_app. assumption.
Qed.
Lemma B_opt {A} (Q : A -> Prop) (it : A -> item) (p : bool) s (f : bytes -> option (A * bytes)) old n l b :
  (Q n -> received old (it n :: l) b -> exists r, f b = Some (n, r) /\ received old l r) ->
  (p = true -> Q n) -> received old (whenb p (it n) ++ l) b ->
  exists r, opt_rd p s f b = Some (if p then n else s, r) /\ received old l r.
Proof. intros Hf Hq H. destruct p; cbn [whenb app opt_rd] in *; [apply Hf; auto|exists b; auto]. Qed.
Lemma B_tmp k tmp n l b : (0 < k)%nat -> length tmp = k -> n < 256 ^ N.of_nat k ->
  received tmp (Shared (le_bytes k n) :: l) b ->
  exists t r, rd_num_tmp tmp b = Some ((n, t), r) /\ length t = k /\ received t l r.
Proof.
  intros Hk Hl Hn H. apply shared_rd_into in H as (r & H & Hr); [|apply le_bytes_ne; assumption|rewrite le_bytes_length; assumption].
  exists (le_bytes k n), r. split; [|rewrite le_bytes_length; auto].
  unfold rd_num_tmp. rewrite H, le_num_le_bytes by assumption. reflexivity.
Qed.
Lemma B_opt_tmp k (p : bool) s tmp n l b : (0 < k)%nat -> length tmp = k -> (p = true -> n < 256 ^ N.of_nat k) ->
  received tmp (whenb p (Shared (le_bytes k n)) ++ l) b ->
  exists t r, opt_rd p (s, tmp) (rd_num_tmp tmp) b = Some ((if p then n else s, t), r) /\ length t = k /\ received t l r.
Proof.
  intros Hk Hl Hn H. destruct p; cbn [opt_rd whenb app] in *; [apply (B_tmp k); auto|exists tmp, b; auto].
Qed.

Lemma goes_end b its r old : goes b its r -> received old its b.
Proof. intros H. rewrite <- (app_nil_r its). apply H. constructor. Qed.
Lemma shares_end tmp b its t r : shares tmp b its t r -> received tmp its b.
Proof. intros H. rewrite <- (app_nil_r its). apply H. constructor. Qed.
Lemma received_end old its b : received old its b -> received old (its ++ []) b.
Proof. rewrite app_nil_r. auto. Qed.

(** ** Decoders *)

(** A byte as its bits. *)
Lemma byte_bits n : n < 256 -> exists a b c d e f g h, n = num8 a b c d e f g h.
Proof. intros H. rewrite <- (num8_testbits n H). eauto 10. Qed.

Ltac nums R := repeat match type of R with
  | context [le16 ?n] => rewrite (le16_eq n) in R
  | context [le24 ?n] => rewrite (le24_eq n) in R
  | context [le32 ?n] => rewrite (le32_eq n) in R
  | context [chars ?n] => rewrite (chars_eq n) in R end.

Ltac lay := repeat match goal with
  | |- context [le16 ?n] => rewrite (le16_eq n)
  | |- context [le24 ?n] => rewrite (le24_eq n)
  | |- context [le32 ?n] => rewrite (le32_eq n)
  | |- context [chars ?n] => rewrite (chars_eq n) end; rewrite ?fl_eq, ?is1_bit, ?fl2_bits.

Ltac bits_of n H :=
  let a := fresh "f" in let b := fresh "f" in let c := fresh "f" in let d := fresh "f" in
  let e := fresh "f" in let g := fresh "f" in let h := fresh "f" in let i := fresh "f" in
  destruct (byte_bits n H) as (a & b & c & d & e & g & h & i & ->).

Lemma rbind_eq {A B} (x : option (A * bytes)) a r (f : A -> bytes -> res B) : x = Some (a, r) -> rbind x f = f a r.
Proof. intros ->. reflexivity. Qed.
Ltac bw Q it R t1 t2 :=
  match goal with |- rbind (opt_rd ?p ?s ?f ?b) _ = _ =>
    let r := fresh "r" in let E := fresh "E" in
    apply (B_opt Q it p s f) in R as (r & E & R); [rewrite E, rbind_some; clear E|t1|t2] end.
Ltac bw_num k R := bw (fun n => n < 256 ^ N.of_nat k) (fun n => Own (le_bytes k n)) R ltac:(apply B_num; lia) ltac:(intros ->; auto).
Ltac bw_str k R := bw (fun s : string => String.length s = k) (fun s => Own (bytes_of_string s)) R ltac:(apply B_str; lia) ltac:(intros ->; auto).
Ltac bw_byte R := bw (fun n => n < 256) (fun n => Own [n]) R ltac:(intros _; apply own_byte) ltac:(intros ->; auto).
Ltac bw_tmp k R :=
  match goal with |- rbind (opt_rd ?p (?s, ?t) ?f ?b) _ = _ =>
    let r := fresh "r" in let u := fresh "t" in let E := fresh "E" in
    apply (B_opt_tmp k p s) in R as (u & r & E & ? & R); [etransitivity; [exact (rbind_eq _ _ _ _ E)|]; clear E; cbv beta iota|lia|assumption|intros ->; auto] end.

(** Undo one read of the decoder. *)
Ltac step H := apply rbind_inv in H; destruct H as (? & ? & ? & H).

Lemma flag_absent (b : bool) {A} (x y : A) : (b = false -> x = y) -> bit_str b = "0"%string -> x = y.
Proof. intros H E. apply H. apply bit_str_0. assumption. Qed.
Lemma flag_present (b : bool) (P : Prop) : (b = true -> P) -> bit_str b = "1"%string -> P.
Proof. intros H E. apply H. apply bit_str_1. assumption. Qed.

Lemma result_accepts b e : is_bytes b ->
  (SrResultCode_decode b = Ok e <-> wf_result e /\ received [] (items_result e) b).
Proof.
  intros Hb. unfold SrResultCode_decode, wf_result, items_result. split.
  - intros H. apply rbind_inv in H as (c & r & H & E). injection E as <-. apply F_byte in H as (H1 & H2 & H3); [|assumption].
    split; [assumption|]. apply H3. constructor.
  - intros [H1 H2]. apply own_byte in H2 as (r & H2 & _). rewrite H2. destruct e. reflexivity.
Qed.

Lemma ti_accepts e0 b e : is_bytes b ->
  (SrTermIdentity_decode e0 b = Ok e <-> wf_ti e /\ abs_ti e0 e /\ received [] (items_ti e) b).
Proof.
  intros Hb. unfold SrTermIdentity_decode. split.
  - intros H. apply rbind_inv in H as (tid & r1 & R & H). apply F_num in R as (H1 & B1 & G1); [|lia|assumption].
    apply rbind_inv in H as (fb & r2 & R & H). apply F_byte in R as (H2 & B2 & G2); [|assumption].
    bits_of fb H2. autorewrite with go in H. cbv zeta in H. autorewrite with go in H.
    apply rbind_inv in H as (hdid & r3 & R & H). apply (F_opt (fun n => n < 256 ^ N.of_nat 2) (fun n => Own (le_bytes 2 n))) in R as (P3 & S3 & B3 & G3); [|apply F_num; [lia|assumption]|assumption].
    apply rbind_inv in H as (imei & r4 & R & H). apply (F_opt (fun n => String.length n = 15%nat) (fun n => Own (bytes_of_string n))) in R as (P4 & S4 & B4 & G4); [|apply F_str; [lia|assumption]|assumption].
    apply rbind_inv in H as (imsi & r5 & R & H). apply (F_opt (fun n => String.length n = 16%nat) (fun n => Own (bytes_of_string n))) in R as (P5 & S5 & B5 & G5); [|apply F_str; [lia|assumption]|assumption].
    apply rbind_inv in H as (lngc & r6 & R & H). apply (F_opt (fun n => String.length n = 3%nat) (fun n => Own (bytes_of_string n))) in R as (P6 & S6 & B6 & G6); [|apply F_str; [lia|assumption]|assumption].
    apply rbind_inv in H as (nid & r7 & R & H). apply (F_opt (fun n => length n = 3%nat /\ bytes_ok n) Own) in R as (P7 & S7 & B7 & G7); [|apply F_raw; [lia|assumption]|assumption].
    apply rbind_inv in H as (bs & r8 & R & H). apply (F_opt (fun n => n < 256 ^ N.of_nat 2) (fun n => Own (le_bytes 2 n))) in R as (P8 & S8 & B8 & G8); [|apply F_num; [lia|assumption]|assumption].
    apply rbind_inv in H as (ms & r9 & R & H). apply (F_opt (fun n => String.length n = 15%nat) (fun n => Own (bytes_of_string n))) in R as (P9 & S9 & B9 & G9); [|apply F_str; [lia|assumption]|assumption].
    injection H as <-. split; [|split].
    + constructor; cbn; try apply is_flag_bit_str; try (apply flag_present; assumption). assumption.
    + constructor; cbn; apply flag_absent; assumption.
    + unfold items_ti. cbn [ti_TID ti_MNE ti_BSE ti_NIDE ti_SSRA ti_LNGCE ti_IMSIE ti_IMEIE ti_HDIDE ti_HDID ti_IMEI ti_IMSI ti_LNGC ti_NID ti_BS ti_MSISDN].
      rewrite !when_bit. flag_layout. cbn [app].
      apply G1, G2, G3, G4, G5, G6, G7, G8. eapply goes_end, G9.
  - intros (Hw & Ha & R). destruct e. destruct Hw. destruct Ha. cbn in *. unf. split_flags.
    rewrite !when_bit in R. nums R. rewrite ?fl_eq, ?chars_eq, ?is1_bit, sum8 in R. cbn [app] in R.
    apply B_num in R as (r1 & -> & R); [|lia|assumption]. rewrite rbind_some.
    apply own_byte in R as (r2 & -> & R). rewrite rbind_some. autorewrite with go.
    bw_num 2%nat R. bw_str 15%nat R. bw_str 16%nat R. bw_str 3%nat R.
    bw (fun v : bytes => length v = 3%nat) Own R ltac:(apply B_raw; lia) ltac:(intros ->; apply wti_NID; reflexivity).
    bw_num 2%nat R. apply received_end in R. bw_str 15%nat R.
    rewrite !if_absent by assumption. reflexivity.
Qed.

Ltac fw_num k R P S B G := apply (F_opt (fun n => n < 256 ^ N.of_nat k) (fun n => Own (le_bytes k n))) in R as (P & S & B & G);
  [|apply F_num; [lia|assumption]|assumption].
Ltac fw_byte R P S B G := apply (F_opt (fun n => n < 256) (fun n => Own [n])) in R as (P & S & B & G);
  [|apply F_byte; assumption|assumption].
Ltac fw_tmp k R P S B G := apply (F_opt_tmp k) in R as (P & S & B & ?BT & ?LT & G); [|lia|assumption|assumption|assumption].

Lemma md_accepts b e : is_bytes b -> (SrModuleData_decode b = Ok e <-> wf_md e /\ received [] (items_md e) b).
Proof.
  intros Hb. unfold SrModuleData_decode, items_md. split.
  - intros H. apply rbind_inv in H as (mt & r1 & R & H). apply F_byte in R as (H1 & B1 & G1); [|assumption].
    apply rbind_inv in H as (vid & r2 & R & H). apply F_num in R as (H2 & B2 & G2); [|lia|assumption].
    apply rbind_inv in H as (fw & r3 & R & H). apply F_num in R as (H3 & B3 & G3); [|lia|assumption].
    apply rbind_inv in H as (sw & r4 & R & H). apply F_num in R as (H4 & B4 & G4); [|lia|assumption].
    apply rbind_inv in H as (md & r5 & R & H). apply F_byte in R as (H5 & B5 & G5); [|assumption].
    apply rbind_inv in H as (st & r6 & R & H). apply F_byte in R as (H6 & B6 & G6); [|assumption].
    apply rbind_inv in H as (srn & r7 & R & H). apply F_cstr in R as (H7 & B7 & G7); [|assumption].
    apply rbind_inv in H as (dscr & r8 & R & H). apply F_cstr in R as (H8 & B8 & G8); [|assumption].
    injection H as <-. cbn [md_MT md_VID md_FWV md_SWV md_MD md_ST md_SRN md_DSCR].
    assert (-128 <= int8_of_byte mt <= 127)%Z as Hi by (unfold int8_of_byte; destruct (N.ltb_spec mt 128); lia).
    split; [constructor; cbn; assumption|].
    replace (Z.to_N _) with mt.
    2: { clear - H1. unfold int8_of_byte. destruct (N.ltb_spec mt 128) as [Hm|Hm]; match goal with |- context [(?x <? ?y)%Z] => destruct (Z.ltb_spec x y) end; lia. }
    flag_layout. apply G1, G2, G3, G4, G5, G6, G7, G8. constructor.
  - intros (Hw & R). destruct e. destruct Hw. cbn in *. unf. rewrite <- byte_int8 in R by assumption.
    nums R. nums R.
    apply own_byte in R as (r1 & -> & R). rewrite rbind_some.
    apply B_num in R as (r2 & -> & R); [|lia|assumption]. rewrite rbind_some.
    apply B_num in R as (r3 & -> & R); [|lia|assumption]. rewrite rbind_some.
    apply B_num in R as (r4 & -> & R); [|lia|assumption]. rewrite rbind_some.
    apply own_byte in R as (r5 & -> & R). rewrite rbind_some.
    apply own_byte in R as (r6 & -> & R). rewrite rbind_some.
    apply B_cstr in R as (r7 & -> & R); [|assumption]. rewrite rbind_some.
    apply B_cstr in R as (r8 & -> & R); [|assumption]. rewrite rbind_some.
    rewrite int8_byte by assumption. reflexivity.
Qed.

Lemma di_accepts b e : is_bytes b -> (SrDispatcherIdentity_decode b = Ok e <-> wf_di e /\ received [] (items_di e) b).
Proof.
  intros Hb. unfold SrDispatcherIdentity_decode, items_di. split.
  - intros H. apply rbind_inv in H as (dt & r1 & R & H). apply F_byte in R as (H1 & B1 & G1); [|assumption].
    apply rbind_inv in H as (did & r2 & R & H). apply F_num in R as (H2 & B2 & G2); [|lia|assumption].
    injection H as <-. cbn [di_DT di_DID di_DSCR]. split; [split; assumption|]. flag_layout.
    rewrite bytes_string by assumption. apply G1, G2. constructor.
  - intros ((H1 & H2) & R). destruct e. cbn in *. unf. nums R. nums R.
    apply own_byte in R as (r1 & -> & R). rewrite rbind_some.
    apply B_num in R as (r2 & -> & R); [|lia|assumption]. rewrite rbind_some.
    inversion R; subst. rewrite string_bytes. reflexivity.
Qed.

Lemma ai_accepts e0 b e : is_bytes b ->
  (SrAuthInfo_decode e0 b = Ok e <->
   wf_ai (mkSrAuthInfo (ai_UNM e) (ai_UPSW e) "")
   /\ (no_nul (ai_SS e) /\ received [] (items_ai3 e) b \/ ai_SS e = ai_SS e0 /\ received [] (items_ai2 e) b)).
Proof.
  intros Hb. unfold SrAuthInfo_decode, items_ai3, items_ai2, wf_ai. cbn [ai_UNM ai_UPSW ai_SS].
  assert (no_nul "") as Hn by (intros []). split.
  - intros H. apply rbind_inv in H as (u & r1 & R & H). apply F_cstr in R as (H1 & B1 & G1); [|assumption].
    apply rbind_inv in H as (p & r2 & R & H). apply F_cstr in R as (H2 & B2 & G2); [|assumption].
    apply rbind_inv in H as (ss & r3 & R & H). injection H as <-. cbn [ai_UNM ai_UPSW ai_SS]. split; [auto|].
    flag_layout. destruct r2 as [|x r2]; cbn [len length N.of_nat N.eqb negb opt_rd] in R.
    + injection R as <- <-. right. split; [reflexivity|]. apply G1, G2. constructor.
    + left. change (negb _) with true in R. cbn [opt_rd] in R. apply F_cstr in R as (H3 & B3 & G3); [|assumption].
      split; [assumption|]. apply G1, G2, G3. constructor.
  - intros ((H1 & H2 & _) & [(H3 & R)|(H3 & R)]); destruct e; cbn in *; rewrite ?chars_eq in R;
      (apply B_cstr in R as (r1 & -> & R); [|assumption]); rewrite rbind_some;
      (apply B_cstr in R as (r2 & -> & R); [|assumption]); rewrite rbind_some.
    + apply B_cstr in R as (r3 & E & R); [|assumption]. destruct r2 as [|x r2]; [discriminate|].
      replace (negb _) with true by (symmetry; unfold len; cbn [length]; lia). unfold opt_rd. rewrite E. reflexivity.
    + inversion R; subst. reflexivity.
Qed.

Lemma sum8hi5 d e f g h a b c : 32 * (4 * N.b2n a + 2 * N.b2n b + N.b2n c) + 16 * N.b2n d + 8 * N.b2n e + 4 * N.b2n f + 2 * N.b2n g + N.b2n h
  = num8 a b c d e f g h.
Proof. unfold num8. lia. Qed.
Lemma hi3 hi : hi < 8 -> exists a b c, hi = 4 * N.b2n a + 2 * N.b2n b + N.b2n c.
Proof. intros H. rewrite (small8 hi H). eauto. Qed.

Lemma ext_accepts e0 b e : is_bytes b ->
  (SrExtPosData_decode e0 b = Ok e <->
   wf_ext e /\ abs_ext e0 e /\ exists hi, hi < 8 /\ received [0; 0] (items_ext hi e) b).
Proof.
  intros Hb. unfold SrExtPosData_decode, items_ext. cbv zeta. change (zeros 2) with [0; 0]. split.
  - intros H. assert (bytes_ok [0; 0]) as B0 by (repeat constructor). assert (length [0; 0] = 2%nat) as L0 by reflexivity.
    apply rbind_inv in H as (fb & r2 & R & H). apply F_byte in R as (H2 & B2 & G2); [|assumption].
    bits_of fb H2. autorewrite with go in H.
    apply rbind_inv in H as ([v3 t3] & r3 & R & H). fw_tmp 2%nat R P3 S3 B3 G3.
    apply rbind_inv in H as ([v4 t4] & r4 & R & H). fw_tmp 2%nat R P4 S4 B4 G4.
    apply rbind_inv in H as ([v5 t5] & r5 & R & H). fw_tmp 2%nat R P5 S5 B5 G5.
    apply rbind_inv in H as (v6 & r6 & R & H). fw_byte R P6 S6 B6 G6.
    apply rbind_inv in H as ([v7 t7] & r7 & R & H). fw_tmp 2%nat R P7 S7 B7 G7.
    injection H as <-. split; [|split; [|exists (4 * N.b2n f + 2 * N.b2n f0 + N.b2n f1); split]].
    + constructor; cbn; try apply is_flag_bit_str; try (apply flag_present; assumption).
    + constructor; cbn; apply flag_absent; assumption.
    + destruct f, f0, f1; cbn; lia.
    + cbn [ep_NSFE ep_SFE ep_PFE ep_HFE ep_VFE ep_VDOP ep_HDOP ep_PDOP ep_SAT ep_NS].
      rewrite !when_bit. lay. rewrite sum8hi5.
      apply G2, G3, G4, G5, G6. eapply shares_end, G7.
  - intros (Hw & Ha & hi & Hh & R). destruct e. destruct Hw. destruct Ha. cbn in *. unf. split_flags.
    destruct (hi3 hi Hh) as (x & y & z & ->).
    rewrite !when_bit in R. nums R. rewrite ?fl_eq, ?chars_eq, ?is1_bit, sum8hi5 in R.
    apply own_byte in R as (r2 & -> & R). rewrite rbind_some. autorewrite with go.
    assert (length [0; 0] = 2%nat) as L0 by reflexivity.
    bw_tmp 2%nat R. bw_tmp 2%nat R. bw_tmp 2%nat R. bw_byte R. apply received_end in R. bw_tmp 2%nat R.
    rewrite !if_absent by assumption. reflexivity.
Qed.

Lemma ad_accepts e0 b e : is_bytes b ->
  (SrAdSensorsData_decode e0 b = Ok e <-> wf_ad e /\ abs_ad e0 e /\ received [0; 0; 0] (items_ad e) b).
Proof.
  intros Hb. unfold SrAdSensorsData_decode. cbv zeta. change (zeros 3) with [0; 0; 0]. split.
  - intros H. assert (bytes_ok [0; 0; 0]) as B0 by (repeat constructor). assert (length [0; 0; 0] = 3%nat) as L0 by reflexivity.
    apply rbind_inv in H as (fb & r1 & R & H). apply F_byte in R as (H1 & B1 & G1); [|assumption].
    bits_of fb H1.
    apply rbind_inv in H as (dout & r2 & R & H). apply F_byte in R as (H2 & B2 & G2); [|assumption].
    apply rbind_inv in H as (fa & r3 & R & H). apply F_byte in R as (H3 & B3 & G3); [|assumption].
    bits_of fa H3. autorewrite with go in H.
    apply rbind_inv in H as (o1 & or1 & R & H). fw_byte R oP1 oS1 oB1 oG1.
    apply rbind_inv in H as (o2 & or2 & R & H). fw_byte R oP2 oS2 oB2 oG2.
    apply rbind_inv in H as (o3 & or3 & R & H). fw_byte R oP3 oS3 oB3 oG3.
    apply rbind_inv in H as (o4 & or4 & R & H). fw_byte R oP4 oS4 oB4 oG4.
    apply rbind_inv in H as (o5 & or5 & R & H). fw_byte R oP5 oS5 oB5 oG5.
    apply rbind_inv in H as (o6 & or6 & R & H). fw_byte R oP6 oS6 oB6 oG6.
    apply rbind_inv in H as (o7 & or7 & R & H). fw_byte R oP7 oS7 oB7 oG7.
    apply rbind_inv in H as (o8 & or8 & R & H). fw_byte R oP8 oS8 oB8 oG8.
    apply rbind_inv in H as ([n1 nt1] & nr1 & R & H). fw_tmp 3%nat R nP1 nS1 nB1 nG1.
    apply rbind_inv in H as ([n2 nt2] & nr2 & R & H). fw_tmp 3%nat R nP2 nS2 nB2 nG2.
    apply rbind_inv in H as ([n3 nt3] & nr3 & R & H). fw_tmp 3%nat R nP3 nS3 nB3 nG3.
    apply rbind_inv in H as ([n4 nt4] & nr4 & R & H). fw_tmp 3%nat R nP4 nS4 nB4 nG4.
    apply rbind_inv in H as ([n5 nt5] & nr5 & R & H). fw_tmp 3%nat R nP5 nS5 nB5 nG5.
    apply rbind_inv in H as ([n6 nt6] & nr6 & R & H). fw_tmp 3%nat R nP6 nS6 nB6 nG6.
    apply rbind_inv in H as ([n7 nt7] & nr7 & R & H). fw_tmp 3%nat R nP7 nS7 nB7 nG7.
    apply rbind_inv in H as ([n8 nt8] & nr8 & R & H). fw_tmp 3%nat R nP8 nS8 nB8 nG8.
    injection H as <-. split; [|split].
    + constructor; cbn; try (split; [apply is_flag_bit_str|apply flag_present; assumption]). assumption.
    + constructor; cbn; unfold abs_opt; apply flag_absent; assumption.
    + unfold items_ad. cbn [ad_DIOE1 ad_DIOE2 ad_DIOE3 ad_DIOE4 ad_DIOE5 ad_DIOE6 ad_DIOE7 ad_DIOE8 ad_DOUT ad_ASFE1 ad_ASFE2 ad_ASFE3 ad_ASFE4 ad_ASFE5 ad_ASFE6 ad_ASFE7 ad_ASFE8 ad_ADIO1 ad_ADIO2 ad_ADIO3 ad_ADIO4 ad_ADIO5 ad_ADIO6 ad_ADIO7 ad_ADIO8 ad_ANS1 ad_ANS2 ad_ANS3 ad_ANS4 ad_ANS5 ad_ANS6 ad_ANS7 ad_ANS8].
      rewrite !when_bit. flag_layout. cbn [app].
      apply G1, G2, G3, oG1, oG2, oG3, oG4, oG5, oG6, oG7, oG8, nG1, nG2, nG3, nG4, nG5, nG6, nG7. eapply shares_end, nG8.
  - intros (Hw & Ha & R). destruct e. destruct Hw. destruct Ha. cbn in *. unf. split_opts. split_flags.
    rewrite !when_bit in R. nums R. rewrite ?fl_eq, ?is1_bit, !sum8 in R.
    apply own_byte in R as (r1 & -> & R). rewrite rbind_some.
    apply own_byte in R as (r2 & -> & R). rewrite rbind_some.
    apply own_byte in R as (r3 & -> & R). rewrite rbind_some. autorewrite with go.
    do 8 bw_byte R. assert (length [0; 0; 0] = 3%nat) as L0 by reflexivity.
    do 7 bw_tmp 3%nat R. apply received_end in R. bw_tmp 3%nat R.
    rewrite !if_absent by assumption. reflexivity.
Qed.

Lemma cd_accepts e0 b e : is_bytes b ->
  (SrCountersData_decode e0 b = Ok e <->
   exists e', wf_cd e' /\ abs_cd e0 e' /\ received [0; 0; 0] (items_cd e') b /\ e = second_is_first e0 e').
Proof.
  intros Hb. unfold SrCountersData_decode. cbv zeta. change (zeros 3) with [0; 0; 0]. split.
  - intros H. assert (bytes_ok [0; 0; 0]) as B0 by (repeat constructor). assert (length [0; 0; 0] = 3%nat) as L0 by reflexivity.
    apply rbind_inv in H as (fb & r1 & R & H). apply F_byte in R as (H1 & B1 & G1); [|assumption].
    bits_of fb H1. autorewrite with go in H.
    apply rbind_inv in H as ([n1 nt1] & nr1 & R & H). fw_tmp 3%nat R nP1 nS1 nB1 nG1.
    apply rbind_inv in H as ([n2 nt2] & nr2 & R & H). fw_tmp 3%nat R nP2 nS2 nB2 nG2.
    apply rbind_inv in H as ([n3 nt3] & nr3 & R & H). fw_tmp 3%nat R nP3 nS3 nB3 nG3.
    apply rbind_inv in H as ([n4 nt4] & nr4 & R & H). fw_tmp 3%nat R nP4 nS4 nB4 nG4.
    apply rbind_inv in H as ([n5 nt5] & nr5 & R & H). fw_tmp 3%nat R nP5 nS5 nB5 nG5.
    apply rbind_inv in H as ([n6 nt6] & nr6 & R & H). fw_tmp 3%nat R nP6 nS6 nB6 nG6.
    apply rbind_inv in H as ([n7 nt7] & nr7 & R & H). fw_tmp 3%nat R nP7 nS7 nB7 nG7.
    apply rbind_inv in H as ([n8 nt8] & nr8 & R & H). fw_tmp 3%nat R nP8 nS8 nB8 nG8.
    injection H as <-.
    exists (mkSrCountersData (bit_str f6) (bit_str f5) (bit_str f4) (bit_str f3) (bit_str f2) (bit_str f1) (bit_str f0) (bit_str f)
      n1 (if f5 then n2 else cd_CN2 e0) n3 n4 n5 n6 n7 n8). split; [|split; [|split]].
    + constructor; cbn; (split; [apply is_flag_bit_str|apply flag_present; try assumption]). intros ->. apply nP2. reflexivity.
    + constructor; cbn; unfold abs_opt; apply flag_absent; try assumption. intros ->. reflexivity.
    + unfold items_cd. cbn [cd_CFE1 cd_CFE2 cd_CFE3 cd_CFE4 cd_CFE5 cd_CFE6 cd_CFE7 cd_CFE8 cd_CN1 cd_CN2 cd_CN3 cd_CN4 cd_CN5 cd_CN6 cd_CN7 cd_CN8].
      rewrite !when_bit. flag_layout. cbn [app].
      replace (whenb f5 (Shared (le_bytes 3 (if f5 then n2 else cd_CN2 e0)))) with (whenb f5 (Shared (le_bytes 3 n2))) by (destruct f5; reflexivity).
      apply G1, nG1, nG2, nG3, nG4, nG5, nG6, nG7. eapply shares_end, nG8.
    + unfold second_is_first. cbn [cd_CFE1 cd_CFE2 cd_CFE3 cd_CFE4 cd_CFE5 cd_CFE6 cd_CFE7 cd_CFE8 cd_CN1 cd_CN2 cd_CN3 cd_CN4 cd_CN5 cd_CN6 cd_CN7 cd_CN8]. f_equal.
      destruct f5; cbn; [reflexivity|]. apply nS2. reflexivity.
  - intros (e' & Hw & Ha & R & ->). destruct e'. destruct Hw. destruct Ha. cbn in *. unf. split_opts. split_flags.
    rewrite !when_bit in R. nums R. rewrite ?fl_eq, ?is1_bit, !sum8 in R.
    apply own_byte in R as (r1 & -> & R). rewrite rbind_some. autorewrite with go.
    assert (length [0; 0; 0] = 3%nat) as L0 by reflexivity.
    do 7 bw_tmp 3%nat R. apply received_end in R. bw_tmp 3%nat R.
    repeat match goal with H : bit_str ?c = "0"%string -> ?v = ?v0 |- _ => rewrite (if_absent c v v0 H) end.
    unfold second_is_first. cbn. match goal with |- context [if ?c then _ else _] => destruct c; reflexivity end.
Qed.

Lemma sum8hi3 a b c d e f g h : 8 * (16 * N.b2n a + 8 * N.b2n b + 4 * N.b2n c + 2 * N.b2n d + N.b2n e) + 4 * N.b2n f + 2 * N.b2n g + N.b2n h
  = num8 a b c d e f g h.
Proof. unfold num8. lia. Qed.
Lemma hi5 hi : hi < 32 -> exists a b c d e, hi = 16 * N.b2n a + 8 * N.b2n b + 4 * N.b2n c + 2 * N.b2n d + N.b2n e.
Proof.
  intros H. destruct (byte_bits hi ltac:(lia)) as (a & b & c & d & e & f & g & h & ->). unfold num8 in *.
  destruct a, b, c; cbn [N.b2n] in *; try lia. exists d, e, f, g, h. lia.
Qed.

Lemma sd_accepts b e : is_bytes b ->
  (SrStateData_decode b = Ok e <-> wf_sd e /\ exists hi, hi < 32 /\ received [] (items_sd hi e) b).
Proof.
  intros Hb. unfold SrStateData_decode, items_sd. split.
  - intros H. apply rbind_inv in H as (st & r1 & R & H). apply F_byte in R as (H1 & B1 & G1); [|assumption].
    apply rbind_inv in H as (v2 & r2 & R & H). apply F_byte in R as (H2 & B2 & G2); [|assumption].
    apply rbind_inv in H as (v3 & r3 & R & H). apply F_byte in R as (H3 & B3 & G3); [|assumption].
    apply rbind_inv in H as (v4 & r4 & R & H). apply F_byte in R as (H4 & B4 & G4); [|assumption].
    apply rbind_inv in H as (fb & r5 & R & H). apply F_byte in R as (H5 & B5 & G5); [|assumption].
    bits_of fb H5. cbv zeta in H. autorewrite with go in H. injection H as <-. split.
    + constructor; cbn; try apply is_flag_bit_str; assumption.
    + exists (16 * N.b2n f + 8 * N.b2n f0 + 4 * N.b2n f1 + 2 * N.b2n f2 + N.b2n f3). split; [destruct f, f0, f1, f2, f3; cbn; lia|].
      cbn [sd_ST sd_MPSV sd_BBV sd_IBV sd_NMS sd_IBU sd_BBU]. lay. rewrite sum8hi3. apply G1, G2, G3, G4, G5. constructor.
  - intros (Hw & hi & Hh & R). destruct e. destruct Hw. cbn in *. split_flags. destruct (hi5 hi Hh) as (x & y & z & w & v & ->).
    rewrite ?fl_eq, ?is1_bit, sum8hi3 in R.
    apply own_byte in R as (r1 & -> & R). rewrite rbind_some. apply own_byte in R as (r2 & -> & R). rewrite rbind_some.
    apply own_byte in R as (r3 & -> & R). rewrite rbind_some. apply own_byte in R as (r4 & -> & R). rewrite rbind_some.
    apply own_byte in R as (r5 & -> & R). rewrite rbind_some. autorewrite with go. reflexivity.
Qed.

Lemma ll_number f g h a b c d e : parse_flags (slice 5 8 (str8 a b c d e f g h)) = Ok (4 * N.b2n f + 2 * N.b2n g + N.b2n h).
Proof. destruct f, g, h; reflexivity. Qed.
Lemma sum8ll hi a b c d f g h : 
  128 * N.b2n hi + 64 * N.b2n a + 16 * (2 * N.b2n b + N.b2n c) + 8 * N.b2n d + (4 * N.b2n f + 2 * N.b2n g + N.b2n h) = num8 hi a b c d f g h.
Proof. unfold num8. lia. Qed.

Lemma ll_accepts b e : is_bytes b ->
  (SrLiquidLevelSensor_decode b = Ok e <-> wf_ll e /\ exists hi, hi < 2 /\ received [] (items_ll hi e) b).
Proof.
  intros Hb. unfold SrLiquidLevelSensor_decode, items_ll. split.
  - intros H. apply rbind_inv in H as (fb & r1 & R & H). apply F_byte in R as (H1 & B1 & G1); [|assumption].
    bits_of fb H1. cbv zeta in H. autorewrite with go in H. rewrite ll_number, bind_ok in H.
    apply rbind_inv in H as (v2 & r2 & R & H). apply F_num in R as (H2 & B2 & G2); [|lia|assumption].
    apply rbind_inv in H as (v3 & r3 & R & H). apply F_num in R as (H3 & B3 & G3); [|lia|assumption].
    rewrite u8_small in H by (destruct f4, f5, f6; cbn; lia). change (slice 2 4 _) with (String (bit_char f1) (String (bit_char f2) EmptyString)) in H.
    injection H as <-. split.
    + constructor; cbn; try apply is_flag_bit_str; try apply is_flag2_str; try assumption. destruct f4, f5, f6; cbn; lia.
    + exists (N.b2n f). split; [destruct f; cbn; lia|].
      cbn [ll_LLSEF ll_LLSVU ll_RDF ll_LLSN ll_MADDR ll_LLSD]. lay. rewrite sum8ll. apply G1, G2, G3. constructor.
  - intros (Hw & hi & Hh & R). destruct e. destruct Hw. cbn in *. unf. split_flags.
    assert (hi = N.b2n (N.testbit hi 0)) as Eh by (assert (hi = 0 \/ hi = 1) as [-> | ->] by lia; reflexivity). rewrite Eh in R.
    destruct (hi3 _ wll_LLSN) as (x & y & z & ->).
    rewrite ?fl_eq, ?is1_bit, ?fl2_bits, sum8ll in R. nums R.
    apply own_byte in R as (r1 & -> & R). rewrite rbind_some. autorewrite with go. rewrite ll_number, bind_ok.
    apply B_num in R as (r2 & -> & R); [|lia|assumption]. rewrite rbind_some.
    apply B_num in R as (r3 & -> & R); [|lia|assumption]. rewrite rbind_some.
    rewrite u8_small by lia. reflexivity.
Qed.

Lemma ac_accepts b e : is_bytes b -> (SrAbsCntrData_decode b = Ok e <-> wf_ac e /\ received [] (items_ac e) b).
Proof.
  intros Hb. unfold SrAbsCntrData_decode, items_ac. split.
  - intros H. apply rbind_inv in H as (cn & r1 & R & H). apply F_byte in R as (H1 & B1 & G1); [|assumption].
    apply rbind_inv in H as (v2 & r2 & R & H). apply F_num in R as (H2 & B2 & G2); [|lia|assumption].
    injection H as <-. cbn [ac_CN ac_CNV]. split; [split; assumption|]. flag_layout. apply G1, G2. constructor.
  - intros ((H1 & H2) & R). destruct e. cbn in *. unf. nums R.
    apply own_byte in R as (r1 & -> & R). rewrite rbind_some.
    apply B_num in R as (r2 & -> & R); [|lia|assumption]. rewrite rbind_some. reflexivity.
Qed.

Lemma aa_accepts b e : is_bytes b -> (SrAbsAnSensData_decode b = Ok e <-> wf_aa e /\ received [] (items_aa e) b).
Proof.
  intros Hb. unfold items_aa. split.
  - intros H. unfold SrAbsAnSensData_decode in H. destruct (N.ltb_spec (len b) 4) as [Hl|Hl]; [discriminate|].
    destruct b as [|b0 [|b1 [|b2 [|b3 r]]]]; try discriminate. injection H as <-. cbn [aa_SN aa_VAL].
    do 4 (apply Forall_cons_iff in Hb as [? Hb]). unfold is_u8 in *.
    assert (N.shiftr (le_num [b0; b1; b2; b3]) 8 = b1 + 256 * b2 + 65536 * b3) as ->.
    { rewrite N.shiftr_div_pow2. unfold le_num. change (2 ^ 8) with 256. lia. }
    split; [split; cbn [aa_SN aa_VAL]; unfold is_u8, is_u24; lia|]. Local Transparent le24.
    apply (rc_own [] [b0]). assert (le24 (b1 + 256 * b2 + 65536 * b3) = [b1; b2; b3]) as ->.
    { unfold le24. repeat f_equal; lia. }
    apply (rc_whole [] [b1; b2; b3]). constructor. Local Opaque le24.
  - intros (Hw & R). destruct e as [sn v]. destruct Hw as [H1 H2]. cbn [aa_SN aa_VAL] in *. 
    apply own_byte in R as (r1 & E & R). inversion R; subst. destruct b; [discriminate|]. injection E as -> ->.
    apply (aa_decode (mkSrAbsAnSensData sn v) r). split; assumption.
Qed.

Lemma pos_accepts e0 b e : is_bytes b ->
  (SrPosData_decode e0 b = Ok e <->
   exists n lat long w dir, pos_of n lat long w dir e /\ abs_pos e0 e /\ received [0; 0; 0; 0] (items_pos n lat long w dir e) b).
Proof.
  intros Hb. unfold SrPosData_decode, items_pos. change (zeros 4) with [0; 0; 0; 0].
  assert (forall w dir, w < 65536 -> dir < 256 -> N.lor dir (u8 (N.shiftl (u8 (N.land (N.shiftr w 15) 1)) 7)) = if w <? 32768 then dir else 128 + dir mod 128) as Hdir.
  { intros w dir Hw Hd. rewrite dirh_div, shl7 by lia. destruct (N.ltb_spec w 32768) as [H|H].
    - rewrite (N.div_small w 32768) by assumption. rewrite N.mul_0_r. apply N.lor_0_r.
    - replace (w / 32768) with 1 by lia. change (128 * 1) with (2 ^ 7).
      destruct (N.lt_ge_cases dir 128) as [Hd2|Hd2].
      + rewrite lor_pow2 by assumption. rewrite N.mod_small by assumption. change (2 ^ 7) with 128. lia.
      + replace dir with ((dir - 128) + 2 ^ 7) at 1 by (change (2 ^ 7) with 128; lia).
        rewrite <- lor_pow2 by (change (2 ^ 7) with 128; lia).
        rewrite <- N.lor_assoc, N.lor_diag, lor_pow2 by (change (2 ^ 7) with 128; lia).
        change (2 ^ 7) with 128. lia. }
  assert (forall w, w < 65536 -> parse_uint2 65535 (slice 2 16 (sprintf_b 16 w)) = (w mod 16384, true)) as Hspd.
  { intros w Hw. rewrite sprintf_b_small by assumption. rewrite slice_speed.
    rewrite parse_uint2_bits; [|lia|change (2 ^ N.of_nat 14) with 16384; lia]. reflexivity. }
  split.
  - intros H. assert (bytes_ok [0; 0; 0; 0]) as B0 by (repeat constructor). assert (length [0; 0; 0; 0] = 4%nat) as L0 by reflexivity.
    apply rbind_inv in H as ([n t1] & r1 & R & H). apply (F_tmp 4) in R as (H1 & B1 & BT1 & L1 & G1); [|lia|assumption|assumption|assumption].
    apply rbind_inv in H as ([lat t2] & r2 & R & H). apply (F_tmp 4) in R as (H2 & B2 & BT2 & L2 & G2); [|lia|assumption|assumption|assumption].
    apply rbind_inv in H as ([long t3] & r3 & R & H). apply (F_tmp 4) in R as (H3 & B3 & BT3 & L3 & G3); [|lia|assumption|assumption|assumption].
    apply rbind_inv in H as (fb & r4 & R & H). apply F_byte in R as (H4 & B4 & G4); [|assumption].
    bits_of fb H4. cbv zeta in H. autorewrite with go in H.
    apply rbind_inv in H as (w & r5 & R & H). apply F_num in R as (H5 & B5 & G5); [|lia|assumption].
    rewrite Hspd in H by assumption. cbn [negb] in H.
    apply rbind_inv in H as (dir & r6 & R & H). apply F_byte in R as (H6 & B6 & G6); [|assumption].
    apply rbind_inv in H as (odm & r7 & R & H). apply F_num in R as (H7 & B7 & G7); [|lia|assumption].
    apply rbind_inv in H as (din & r8 & R & H). apply F_byte in R as (H8 & B8 & G8); [|assumption].
    apply rbind_inv in H as (src & r9 & R & H). apply F_byte in R as (H9 & B9 & G9); [|assumption].
    apply rbind_inv in H as (alt & r10 & R & H). fw_num 4%nat R P10 S10 B10 G10.
    rewrite Hdir, dirh_div, alts_div, time_decode_eq in H by assumption. injection H as <-.
    exists n, lat, long, w, dir. split; [|split].
    + constructor; cbn; try apply is_flag_bit_str; try assumption; try reflexivity.
      * f_equal. apply u16_small. change (256 ^ N.of_nat 2) with 65536 in H5. lia.
      * apply flag_present. assumption.
    + unfold abs_pos. cbn. apply flag_absent. assumption.
    + cbn [pd_NTM pd_ALTE pd_LOHS pd_LAHS pd_MV pd_BB pd_CS pd_FIX pd_VLD pd_ODM pd_DIN pd_SRC pd_ALT].
      rewrite !when_bit. flag_layout. cbn [app]. apply G1, G2, G3, G4, G5, G6, G7, G8, G9. eapply goes_end, G10.
  - intros (n & lat & long & w & dir & Hp & Ha & R). destruct e. destruct Hp. unfold abs_pos in Ha. cbn in *. unf. split_flags.
    rewrite !when_bit in R. nums R. rewrite ?fl_eq, ?is1_bit, !sum8 in R.
    apply (B_tmp 4) in R as (t1 & r1 & -> & L1 & R); [|lia|reflexivity|assumption]. rewrite rbind_some.
    apply (B_tmp 4) in R as (t2 & r2 & -> & L2 & R); [|lia|assumption|assumption]. rewrite rbind_some.
    apply (B_tmp 4) in R as (t3 & r3 & -> & L3 & R); [|lia|assumption|assumption]. rewrite rbind_some.
    apply own_byte in R as (r4 & -> & R). rewrite rbind_some. cbv zeta. autorewrite with go.
    apply B_num in R as (r5 & -> & R); [|lia|assumption]. rewrite rbind_some. rewrite Hspd by assumption. cbn [negb].
    apply own_byte in R as (r6 & -> & R). rewrite rbind_some.
    apply B_num in R as (r7 & -> & R); [|lia|assumption]. rewrite rbind_some.
    apply own_byte in R as (r8 & -> & R). rewrite rbind_some.
    apply own_byte in R as (r9 & -> & R). rewrite rbind_some. apply received_end in R. bw_num 4%nat R.
    rewrite Hdir, dirh_div, alts_div, time_decode_eq by assumption.
    match goal with H : bit_str ?c = "0"%string -> ?v = ?v0 |- _ => rewrite (if_absent c v v0 H) end. subst.
    rewrite (u16_small (w mod 16384)) by lia. reflexivity.
Qed.

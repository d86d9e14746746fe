(** Lemmas about GoBase. *)
From Coq Require Import NArith ZArith Lia ZifyBool ZifyNat ZifyN String Ascii Bool List.
From Verif Require Import GoBase SpecBase.
Import ListNotations.
Open Scope N_scope.

Ltac Zify.zify_post_hook ::= Z.div_mod_to_equations.

(** ** Little-endian numbers *)

Lemma le_bytes_length k : forall n, length (le_bytes k n) = k.
Proof. induction k; simpl; intros; auto. Qed.

Lemma le_bytes_ok k : forall n, bytes_ok (le_bytes k n).
Proof.
  induction k; simpl; intros; constructor; [|apply IHk].
  unfold byte_ok. apply N.mod_lt. discriminate.
Qed.

Lemma pow256_S k : 256 ^ N.of_nat (S k) = 256 * 256 ^ N.of_nat k.
Proof. rewrite Nat2N.inj_succ, N.pow_succ_r'. reflexivity. Qed.

Lemma le_num_le_bytes k : forall n, n < 256 ^ N.of_nat k -> le_num (le_bytes k n) = n.
Proof.
  induction k; intros n H.
  - simpl in *. lia.
  - rewrite pow256_S in H. cbn [le_bytes le_num]. rewrite IHk.
    + lia.
    + apply N.div_lt_upper_bound; lia.
Qed.

Lemma le_num_le_bytes_mod k : forall n, le_num (le_bytes k n) = n mod 256 ^ N.of_nat k.
Proof.
  induction k; intros n.
  - simpl. rewrite N.mod_1_r. reflexivity.
  - rewrite pow256_S. cbn [le_bytes le_num]. rewrite IHk.
    rewrite N.mod_mul_r by (try discriminate; apply N.pow_nonzero; discriminate).
    reflexivity.
Qed.

Lemma le_num_bound l : bytes_ok l -> le_num l < 256 ^ N.of_nat (length l).
Proof.
  induction 1 as [|b l Hb Hl IH].
  - simpl. lia.
  - cbn [length le_num]. rewrite pow256_S. unfold byte_ok in Hb. lia.
Qed.

Lemma le_bytes_le_num l : bytes_ok l -> le_bytes (length l) (le_num l) = l.
Proof.
  induction 1 as [|b l Hb Hl IH]; [reflexivity|].
  cbn [length le_num le_bytes]. unfold byte_ok in Hb.
  replace ((b + 256 * le_num l) mod 256) with b by lia.
  replace ((b + 256 * le_num l) / 256) with (le_num l) by lia.
  rewrite IH. reflexivity.
Qed.

Lemma le_num_app a b : le_num (a ++ b) = le_num a + 256 ^ N.of_nat (length a) * le_num b.
Proof.
  induction a as [|x a IH].
  - cbn [app length le_num N.of_nat]. rewrite N.pow_0_r. lia.
  - cbn [app le_num length]. rewrite IH, pow256_S. lia.
Qed.

Lemma le_num_zeros k : le_num (zeros k) = 0.
Proof. induction k; simpl; [reflexivity|]. unfold zeros in IHk. rewrite IHk. reflexivity. Qed.

Lemma zeros_ok k : bytes_ok (zeros k).
Proof. induction k; simpl; constructor; auto. unfold byte_ok; lia. Qed.

Lemma zeros_length k : length (zeros k) = k.
Proof. apply repeat_length. Qed.

(** ** bytes_ok *)

Lemma bytes_ok_app a b : bytes_ok (a ++ b) <-> bytes_ok a /\ bytes_ok b.
Proof. apply Forall_app. Qed.

Lemma bytes_ok_cons a b : bytes_ok (a :: b) <-> a < 256 /\ bytes_ok b.
Proof. unfold bytes_ok. rewrite Forall_cons_iff. reflexivity. Qed.

Lemma bytes_ok_nil : bytes_ok [].
Proof. constructor. Qed.

Lemma bytes_ok_firstn n l : bytes_ok l -> bytes_ok (firstn n l).
Proof.
  intros H. rewrite <- (firstn_skipn n l) in H. apply bytes_ok_app in H. tauto.
Qed.

Lemma bytes_ok_skipn n l : bytes_ok l -> bytes_ok (skipn n l).
Proof.
  intros H. rewrite <- (firstn_skipn n l) in H. apply bytes_ok_app in H. tauto.
Qed.

Lemma bytes_ok_put p b : bytes_ok b -> bytes_ok (put p b).
Proof. destruct p; simpl; auto using bytes_ok_nil. Qed.

Lemma u8_lt n : u8 n < 256. Proof. unfold u8. lia. Qed.
Lemma u16_lt n : u16 n < 65536. Proof. unfold u16. lia. Qed.
Lemma u32_lt n : u32 n < 4294967296. Proof. unfold u32. lia. Qed.
Lemma u8_small n : n < 256 -> u8 n = n. Proof. unfold u8. lia. Qed.
Lemma u16_small n : n < 65536 -> u16 n = n. Proof. unfold u16. lia. Qed.
Lemma u32_small n : n < 4294967296 -> u32 n = n. Proof. unfold u32. lia. Qed.

Lemma len_app a b : len (a ++ b) = len a + len b.
Proof. unfold len. rewrite app_length. lia. Qed.

Lemma len_cons a b : len (a :: b) = 1 + len b.
Proof. unfold len. simpl length. lia. Qed.

Lemma len_nil : len [] = 0. Proof. reflexivity. Qed.

Lemma len_le_bytes k n : len (le_bytes k n) = N.of_nat k.
Proof. unfold len. rewrite le_bytes_length. reflexivity. Qed.

(** ** Readers *)

Lemma rd_into_app old b r :
  length b = length old -> b <> [] -> rd_into old (b ++ r) = Some (b, r).
Proof.
  intros Hl Hb. unfold rd_into.
  destruct (b ++ r) as [|x y] eqn:Hbr.
  - destruct b; [congruence|discriminate].
  - rewrite <- Hbr, <- Hl.
    rewrite firstn_app, Nat.sub_diag, firstn_all, firstn_O, app_nil_r.
    rewrite skipn_app, Nat.sub_diag, skipn_all.
    rewrite (@skipn_all2 _ (length (b ++ r)) old) by (rewrite app_length; lia).
    rewrite app_nil_r. reflexivity.
Qed.

Lemma rd_num_app k n r :
  (0 < k)%nat -> n < 256 ^ N.of_nat k -> rd_num k (le_bytes k n ++ r) = Some (n, r).
Proof.
  intros Hk Hn. unfold rd_num.
  rewrite rd_into_app.
  - rewrite le_num_le_bytes by assumption. reflexivity.
  - rewrite le_bytes_length, zeros_length. reflexivity.
  - destruct k; [lia|]. discriminate.
Qed.

Lemma rd_num_tmp_app k tmp n r :
  (0 < k)%nat -> length tmp = k -> n < 256 ^ N.of_nat k ->
  rd_num_tmp tmp (le_bytes k n ++ r) = Some ((n, le_bytes k n), r).
Proof.
  intros Hk Ht Hn. unfold rd_num_tmp.
  rewrite rd_into_app.
  - rewrite le_num_le_bytes by assumption. reflexivity.
  - rewrite le_bytes_length. auto.
  - destruct k; [lia|]. discriminate.
Qed.

Lemma opt_rd_put {A} (p : bool) (stale v : A) f b r :
  (p = true -> f (b ++ r) = Some (v, r)) ->
  opt_rd p stale f (put p b ++ r) = Some (if p then v else stale, r).
Proof. intros H. destruct p; simpl; auto. Qed.

Lemma rd_into_inv old r b r' : rd_into old r = Some (b, r') ->
  r <> [] /\ b = firstn (length old) r ++ skipn (length r) old /\ r' = skipn (length old) r.
Proof.
  destruct r as [|x r0]; [discriminate|]. unfold rd_into.
  set (r := x :: r0). assert (r <> []) by discriminate. clearbody r.
  intros H1. injection H1 as <- <-. auto.
Qed.

Lemma rd_into_length old r b r' : rd_into old r = Some (b, r') -> length b = length old.
Proof.
  intros H. apply rd_into_inv in H. destruct H as (_ & -> & _).
  rewrite app_length, firstn_length, skipn_length. lia.
Qed.

Lemma rd_into_ok old r b r' :
  bytes_ok old -> bytes_ok r -> rd_into old r = Some (b, r') -> bytes_ok b /\ bytes_ok r'.
Proof.
  intros Ho Hr H. apply rd_into_inv in H. destruct H as (_ & -> & ->). split.
  - apply bytes_ok_app. split; [apply bytes_ok_firstn | apply bytes_ok_skipn]; auto.
  - apply bytes_ok_skipn; auto.
Qed.

Lemma rd_byte_ok r b r' : bytes_ok r -> rd_byte r = Some (b, r') -> b < 256 /\ bytes_ok r'.
Proof.
  intros Hr. destruct r; [discriminate|]. intros H; inversion H; subst.
  apply bytes_ok_cons in Hr. auto.
Qed.

Lemma rd_num_ok k r n r' : bytes_ok r -> rd_num k r = Some (n, r') ->
  n < 256 ^ N.of_nat k /\ bytes_ok r'.
Proof.
  intros Hr. unfold rd_num. destruct (rd_into (zeros k) r) as [[b r2]|] eqn:H; [|discriminate].
  intros H2; inversion H2; subst.
  pose proof (rd_into_length _ _ _ _ H) as Hl. rewrite zeros_length in Hl.
  apply rd_into_ok in H; auto using zeros_ok. destruct H as [H ?].
  split; auto. rewrite <- Hl. apply le_num_bound; auto.
Qed.

Lemma rd_num_tmp_ok tmp r n t r' : bytes_ok tmp -> bytes_ok r -> rd_num_tmp tmp r = Some ((n, t), r') ->
  n < 256 ^ N.of_nat (length tmp) /\ length t = length tmp /\ bytes_ok t /\ bytes_ok r'.
Proof.
  intros Ht Hr. unfold rd_num_tmp. destruct (rd_into tmp r) as [[b r2]|] eqn:H; [|discriminate].
  intros H2; inversion H2; subst.
  pose proof (rd_into_length _ _ _ _ H) as Hl.
  apply rd_into_ok in H; auto. destruct H as [H ?].
  repeat split; auto. rewrite <- Hl. apply le_num_bound; auto.
Qed.

(** ** Binary digits *)

(** The one-character string of a bit. *)
Definition bit_str (b : bool) : string := String (bit_char b) EmptyString.

Lemma is1_bit b : is1 (bit_str b) = b.
Proof. destruct b; reflexivity. Qed.

Lemma is_flag_bit s : is_flag s -> s = bit_str (is1 s).
Proof. intros [-> | ->]; reflexivity. Qed.

Lemma is_flag_bit_str b : is_flag (bit_str b).
Proof. destruct b; [right|left]; reflexivity. Qed.

Lemma is_flag2_bits s : is_flag2 s ->
  exists a b, s = String (bit_char a) (String (bit_char b) EmptyString).
Proof.
  intros [-> | [-> | [-> | ->]]];
    [exists false, false | exists false, true | exists true, false | exists true, true]; reflexivity.
Qed.

Lemma is_flag2_str a b : is_flag2 (String (bit_char a) (String (bit_char b) EmptyString)).
Proof. destruct a, b; unfold is_flag2; simpl; tauto. Qed.

Lemma size_nat_le n k : n < 2 ^ N.of_nat k -> (N.size_nat n <= k)%nat.
Proof.
  intros H. destruct n as [|p]; [simpl; lia|].
  assert (2 ^ (N.of_nat (N.size_nat (N.pos p)) - 1) <= N.pos p) as Hs.
  { clear H. simpl. induction p; simpl Pos.size_nat.
    - rewrite Nat2N.inj_succ.
      assert (Pos.size_nat p <> 0)%nat by (destruct p; discriminate).
      replace (N.succ (N.of_nat (Pos.size_nat p)) - 1) with (N.succ (N.of_nat (Pos.size_nat p) - 1)) by lia.
      rewrite N.pow_succ_r'. lia.
    - rewrite Nat2N.inj_succ.
      assert (Pos.size_nat p <> 0)%nat by (destruct p; discriminate).
      replace (N.succ (N.of_nat (Pos.size_nat p)) - 1) with (N.succ (N.of_nat (Pos.size_nat p) - 1)) by lia.
      rewrite N.pow_succ_r'. lia.
    - simpl. lia. }
  assert (N.of_nat (N.size_nat (N.pos p)) - 1 < N.of_nat k).
  { apply (N.pow_lt_mono_r_iff 2); lia. }
  lia.
Qed.

Lemma sprintf_b_small k n : n < 2 ^ N.of_nat k -> sprintf_b k n = bits_str k n.
Proof.
  intros H. unfold sprintf_b. apply size_nat_le in H. rewrite Nat.max_l by lia. reflexivity.
Qed.

Lemma sprintf_b_8 n : n < 256 -> sprintf_b 8 n = bits_str 8 n.
Proof. intros. apply sprintf_b_small. assumption. Qed.

Lemma bits_mod_S n k : n mod 2 ^ N.of_nat (S k)
  = (if N.testbit n (N.of_nat k) then 2 ^ N.of_nat k else 0) + n mod 2 ^ N.of_nat k.
Proof.
  rewrite Nat2N.inj_succ, N.pow_succ_r'.
  rewrite (N.mul_comm 2), N.mod_mul_r by (try discriminate; apply N.pow_nonzero; discriminate).
  rewrite <- N.testbit_spec'.
  destruct (N.testbit n (N.of_nat k)); cbn [N.b2n]; lia.
Qed.

Lemma pu_loop_bits maxv k : forall n acc,
  acc * 2 ^ N.of_nat k + n mod 2 ^ N.of_nat k <= maxv ->
  pu_loop maxv acc (bits_str k n) = (acc * 2 ^ N.of_nat k + n mod 2 ^ N.of_nat k, true).
Proof.
  induction k as [|k IH]; intros n acc H.
  - simpl. rewrite N.mod_1_r. f_equal. lia.
  - rewrite bits_mod_S in *. cbn [bits_str].
    rewrite Nat2N.inj_succ, N.pow_succ_r' in *.
    set (w := 2 ^ N.of_nat k) in *.
    assert (1 <= w) by (pose proof (N.pow_nonzero 2 (N.of_nat k)); lia).
    destruct (N.testbit n (N.of_nat k)); cbn [bit_char pu_loop].
    + replace (Ascii.eqb "1" "0") with false by reflexivity.
      replace (Ascii.eqb "1" "1") with true by reflexivity. cbv iota zeta.
      destruct (N.ltb_spec maxv (2 * acc + 1)) as [Hc|Hc].
      * exfalso. nia.
      * rewrite IH by nia. f_equal. nia.
    + replace (Ascii.eqb "0" "0") with true by reflexivity. cbv iota zeta.
      destruct (N.ltb_spec maxv (2 * acc + 0)) as [Hc|Hc].
      * exfalso. nia.
      * rewrite IH by nia. f_equal. nia.
Qed.

Lemma parse_uint2_bits maxv k n :
  (0 < k)%nat -> n mod 2 ^ N.of_nat k <= maxv ->
  parse_uint2 maxv (bits_str k n) = (n mod 2 ^ N.of_nat k, true).
Proof.
  intros Hk H. unfold parse_uint2. destruct (bits_str k n) eqn:He.
  - destruct k; [lia|discriminate].
  - rewrite <- He, pu_loop_bits; [f_equal|]; lia.
Qed.

Lemma parse_flags_bits8 n : n < 256 -> parse_flags (bits_str 8 n) = Ok n.
Proof.
  intros H. unfold parse_flags. rewrite parse_uint2_bits; [|lia|]; change (2 ^ N.of_nat 8) with 256.
  - rewrite N.mod_small by assumption. reflexivity.
  - rewrite N.mod_small by assumption. lia.
Qed.

(** Number of eight bits, most significant first. *)
Definition num8 (a b c d e f g h : bool) : N :=
  128 * N.b2n a + 64 * N.b2n b + 32 * N.b2n c + 16 * N.b2n d
  + 8 * N.b2n e + 4 * N.b2n f + 2 * N.b2n g + N.b2n h.

Definition str8 (a b c d e f g h : bool) : string :=
  String (bit_char a) (String (bit_char b) (String (bit_char c) (String (bit_char d)
  (String (bit_char e) (String (bit_char f) (String (bit_char g) (String (bit_char h) EmptyString))))))).

Lemma num8_lt a b c d e f g h : num8 a b c d e f g h < 256.
Proof. unfold num8. destruct a, b, c, d, e, f, g, h; reflexivity. Qed.

Lemma bits_num8 a b c d e f g h : bits_str 8 (num8 a b c d e f g h) = str8 a b c d e f g h.
Proof. destruct a, b, c, d, e, f, g, h; reflexivity. Qed.

Lemma sprintf_num8 a b c d e f g h : sprintf_b 8 (num8 a b c d e f g h) = str8 a b c d e f g h.
Proof. rewrite sprintf_b_8 by apply num8_lt. apply bits_num8. Qed.

Lemma parse_flags_str8 a b c d e f g h : parse_flags (str8 a b c d e f g h) = Ok (num8 a b c d e f g h).
Proof. rewrite <- bits_num8. apply parse_flags_bits8. apply num8_lt. Qed.

Lemma bits8_str8 n : bits_str 8 n =
  str8 (N.testbit n 7) (N.testbit n 6) (N.testbit n 5) (N.testbit n 4)
       (N.testbit n 3) (N.testbit n 2) (N.testbit n 1) (N.testbit n 0).
Proof. reflexivity. Qed.

(** Every byte is the number of its bits. *)
Lemma num8_testbits n : n < 256 ->
  num8 (N.testbit n 7) (N.testbit n 6) (N.testbit n 5) (N.testbit n 4)
       (N.testbit n 3) (N.testbit n 2) (N.testbit n 1) (N.testbit n 0) = n.
Proof.
  intros H. pose proof (parse_flags_bits8 n H) as H1.
  rewrite bits8_str8, parse_flags_str8 in H1. congruence.
Qed.

(** ** Strings of bytes *)

Lemma string_bytes s : string_of_bytes (bytes_of_string s) = s.
Proof. induction s; simpl; [reflexivity|]. rewrite ascii_N_embedding, IHs. reflexivity. Qed.

Lemma bytes_string l : bytes_ok l -> bytes_of_string (string_of_bytes l) = l.
Proof.
  induction 1; simpl; [reflexivity|]. rewrite N_ascii_embedding by assumption. congruence.
Qed.

Lemma bytes_of_string_ok s : bytes_ok (bytes_of_string s).
Proof.
  induction s; simpl; constructor; auto. unfold byte_ok. apply N_ascii_bounded.
Qed.

Lemma bytes_of_string_length s : length (bytes_of_string s) = String.length s.
Proof. induction s; simpl; auto. Qed.

Lemma rd_str_app k s r : (0 < k)%nat -> String.length s = k ->
  rd_str k (bytes_of_string s ++ r) = Some (s, r).
Proof.
  intros Hk Hs. unfold rd_str. rewrite rd_into_app.
  - rewrite string_bytes. reflexivity.
  - rewrite bytes_of_string_length, zeros_length. assumption.
  - destruct s; simpl in *; [lia|discriminate].
Qed.

Lemma chars_eq s : chars s = bytes_of_string s.
Proof. induction s; unfold chars in *; simpl in *; congruence. Qed.

Lemma rd_cstr_app s r : no_nul s -> rd_cstr (bytes_of_string s ++ 0 :: r) = Some (s, r).
Proof.
  unfold no_nul. rewrite chars_eq. induction s as [|c s IH]; simpl.
  - reflexivity.
  - intros H. destruct (N.eqb_spec (N_of_ascii c) 0) as [He|He]; [tauto|].
    rewrite IH by tauto. rewrite ascii_N_embedding. reflexivity.
Qed.

(** ** The specification's notation in terms of the model's *)

Lemma le16_eq n : le16 n = le_bytes 2 n.
Proof. reflexivity. Qed.

Lemma le24_eq n : le24 n = le_bytes 3 n.
Proof.
  unfold le24. cbn [le_bytes]. rewrite !N.div_div by discriminate. reflexivity.
Qed.

Lemma le32_eq n : le32 n = le_bytes 4 n.
Proof.
  unfold le32. cbn [le_bytes]. rewrite !N.div_div by discriminate. reflexivity.
Qed.

Lemma opt_eq f b : opt f b = put (is1 f) b.
Proof.
  unfold opt, put, is1. destruct (string_dec f "1") as [->|H]; [reflexivity|].
  apply String.eqb_neq in H. rewrite H. reflexivity.
Qed.

Lemma fl_eq f : fl f = N.b2n (is1 f).
Proof.
  unfold fl, is1. destruct (string_dec f "1") as [->|H]; [reflexivity|].
  apply String.eqb_neq in H. rewrite H. reflexivity.
Qed.

Lemma fl2_bits a b : fl2 (String (bit_char a) (String (bit_char b) EmptyString)) = 2 * N.b2n a + N.b2n b.
Proof. destruct a, b; reflexivity. Qed.

(** ** Slices of known strings *)
Lemma slice_str8 a b c d e f g h :
  slice 0 1 (str8 a b c d e f g h) = bit_str a /\
  slice 1 2 (str8 a b c d e f g h) = bit_str b /\
  slice 2 3 (str8 a b c d e f g h) = bit_str c /\
  slice 3 4 (str8 a b c d e f g h) = bit_str d /\
  slice 4 5 (str8 a b c d e f g h) = bit_str e /\
  slice 5 6 (str8 a b c d e f g h) = bit_str f /\
  slice 6 7 (str8 a b c d e f g h) = bit_str g /\
  slice 7 8 (str8 a b c d e f g h) = bit_str h.
Proof. repeat split; reflexivity. Qed.

(** Keep these folded when simplifying. *)
#[global] Arguments u8 : simpl never.
#[global] Arguments u16 : simpl never.
#[global] Arguments u32 : simpl never.
#[global] Arguments le_bytes : simpl never.
#[global] Arguments le_num : simpl never.
#[global] Arguments le16 : simpl never.
#[global] Arguments le24 : simpl never.
#[global] Arguments le32 : simpl never.
#[global] Arguments N.mul : simpl never.
#[global] Arguments N.add : simpl never.
#[global] Arguments N.sub : simpl never.
#[global] Arguments N.pow : simpl never.
#[global] Arguments N.div : simpl never.
#[global] Arguments N.modulo : simpl never.
#[global] Arguments N.lor : simpl never.
#[global] Arguments N.land : simpl never.
#[global] Arguments N.ldiff : simpl never.
#[global] Arguments N.shiftl : simpl never.
#[global] Arguments N.shiftr : simpl never.
#[global] Arguments N.of_nat : simpl never.
#[global] Arguments N.to_nat : simpl never.
#[global] Arguments parse_flags : simpl never.
#[global] Arguments parse_uint2 : simpl never.
#[global] Arguments sprintf_b : simpl never.
#[global] Arguments bits_str : simpl never.
#[global] Arguments slice : simpl never.
#[global] Arguments put : simpl never.
#[global] Arguments opt : simpl never.
#[global] Arguments fl : simpl never.
#[global] Arguments fl2 : simpl never.
#[global] Arguments is1 : simpl never.
#[global] Arguments rd_num : simpl never.
#[global] Arguments rd_num_tmp : simpl never.
#[global] Arguments rd_str : simpl never.
#[global] Arguments rd_cstr : simpl never.
#[global] Arguments rd_into : simpl never.
#[global] Arguments rd_byte : simpl never.
#[global] Arguments opt_rd : simpl never.
#[global] Arguments rbind : simpl never.
#[global] Arguments bind : simpl never.
#[global] Arguments bit_str : simpl never.
#[global] Arguments String.append : simpl never.
#[global] Arguments bytes_of_string : simpl never.
#[global] Arguments chars : simpl never.
#[global] Arguments zeros : simpl never.
#[global] Arguments num8 : simpl never.
#[global] Arguments str8 : simpl never.
#[global] Arguments len : simpl never.
#[global] Arguments string_dec : simpl never.

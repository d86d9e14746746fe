(** C112: the descriptor in the library is that of the documented schema. *)
From Coq Require Import NArith ZArith String List Arith Lia.
From Verif Require Import GoBase Descriptor SpecPb SpecPlus SpecDescr.
Import ListNotations.
Open Scope N_scope.

(** The compressed bytes unpack to the descriptor of the documented file. *)
Theorem C112_descriptor : gunzip fileDescriptor0 = Some file_descr.
Proof. vm_compute. reflexivity. Qed.

(** Descriptor of a type names the place of its message in the file, and every message has a
    type; EnumDescriptor names the first enum of the first message. *)
Theorem C112_index :
  (forall ty idx, In (ty, idx) descriptor_index <->
     exists k name, idx = [k] /\ nth_error message_names k = Some name /\ ty = go_name name)
  /\ enum_index = [0; 0]%nat /\ nth_error message_names 0 = Some "storage_record"%string.
Proof.
  split; [|split; reflexivity]. intros ty idx.
  assert (descriptor_index = map (fun e => (go_name (snd e), [fst e])) (combine (seq 0 19) message_names)) as -> by reflexivity.
  rewrite in_map_iff. split.
  - intros ([k name] & E & H). injection E as <- <-. exists k, name. split; [reflexivity|]. split; [|reflexivity].
    vm_compute in H. repeat (destruct H as [H|H]; [injection H as <- <-; reflexivity|]). destruct H.
  - intros (k & name & -> & H & ->). exists (k, name). split; [reflexivity|].
    assert (k < 19)%nat as Hk by (apply (nth_error_Some message_names k); rewrite H; discriminate).
    do 19 (destruct k as [|k]; [vm_compute in H; injection H as <-; vm_compute; tauto|]).
    exfalso. apply (Nat.lt_irrefl 19). eapply Nat.le_lt_trans; [|exact Hk]. do 19 apply le_n_S. apply Nat.le_0_l.
Qed.

(** The types are registered under the names of their messages. *)
Theorem C112_registered :
  forall ty full, In (ty, full) registered <-> exists name, In name message_names /\ ty = go_name name /\ full = ("nv." ++ name)%string.
Proof.
  intros ty full.
  assert (registered = map (fun name => (go_name name, ("nv." ++ name)%string)) message_names) as -> by reflexivity.
  rewrite in_map_iff. split.
  - intros (name & E & H). injection E as <- <-. exists name. auto.
  - intros (name & H & -> & ->). exists name. auto.
Qed.

(** [gunzip] on files whose data are stored as they are. *)
Lemma take_bits n : forall b r, take n (byte_bits n b ++ r) = Some (b mod 2 ^ N.of_nat n, r).
Proof.
  induction n as [|n IH]; intros b r; [cbn; rewrite N.mod_1_r; reflexivity|].
  cbn [byte_bits app take]. rewrite IH. do 2 f_equal.
  rewrite Nat2N.inj_succ, N.pow_succ_r', N.mod_mul_r by (try discriminate; apply N.pow_nonzero; discriminate).
  rewrite N.div2_div. f_equal. rewrite <- N.bit0_mod, N.bit0_odd. destruct (N.odd b); reflexivity.
Qed.
Lemma take_bytes_of l : forall r, Forall (fun b => b < 256) l -> take_bytes (length l) (bits_of l ++ r) = Some (l, r).
Proof.
  induction l as [|b l IH]; intros r H; [reflexivity|]. inversion H as [|? ? Hb Hl]; subst.
  change (bits_of (b :: l)) with (byte_bits 8 b ++ bits_of l). rewrite <- app_assoc. cbn [length take_bytes].
  rewrite take_bits. change (2 ^ N.of_nat 8) with 256. rewrite (N.mod_small _ _ Hb), (IH r Hl). reflexivity.
Qed.
Lemma bits_length l : length (bits_of l) = (length l * 8)%nat.
Proof. induction l as [|b l IH]; [reflexivity|]. change (bits_of (b :: l)) with (byte_bits 8 b ++ bits_of l). rewrite app_length, IH. reflexivity. Qed.
Lemma align_whole pre l : (length pre < 8)%nat -> align (pre ++ bits_of l) = bits_of l.
Proof.
  intros H. unfold align. rewrite app_length, bits_length, Nat.mod_add, Nat.mod_small by (discriminate || exact H).
  rewrite skipn_app, Nat.sub_diag, skipn_all. reflexivity.
Qed.
Lemma bits_app x y : bits_of (x ++ y) = bits_of x ++ bits_of y.
Proof. apply flat_map_app. Qed.

Lemma gunzip_stored : forall data a b c n t0 t1 t2 t3 xfl os,
  let whole l := Forall (fun x => x < 256) l in
  whole data -> whole c -> whole n -> a < 256 -> b < 256 -> N.of_nat (length data) = a + 256 * b ->
  length c = 4%nat -> length n = 4%nat -> le_num c = crc32 data -> le_num n = N.of_nat (length data) ->
  gunzip ([31; 139; 8; 0; t0; t1; t2; t3; xfl; os] ++ [1; a; b; 255 - a; 255 - b] ++ data ++ c ++ n) = Some data.
Proof.
  intros data a b c n t0 t1 t2 t3 xfl os whole Hd Hc Hn Ha Hb Hlen Lc Ln Ec En. subst whole.
  cbn [app]. unfold gunzip. cbn [N.eqb Pos.eqb andb].
  set (r := 1 :: a :: b :: (255 - a) :: (255 - b) :: data ++ c ++ n).
  assert (blocks (8 * length r) (bits_of r) [] = Some (rev data, bits_of (c ++ n))) as ->.
  { replace (8 * length r)%nat with (S (8 * length r - 1)) by (subst r; cbn [length]; lia).
    set (f := (8 * length r - 1)%nat).
    change (bits_of r) with (byte_bits 1 1 ++ byte_bits 2 0 ++ [false; false; false; false; false] ++ bits_of ([a; b; 255 - a; 255 - b] ++ data ++ c ++ n)).
    cbn [blocks]. rewrite take_bits, take_bits. change (0 mod 2 ^ N.of_nat 2) with 0. change (1 mod 2 ^ N.of_nat 1) with 1. cbn [N.eqb].
    rewrite align_whole by (cbn; lia). rewrite bits_app.
    change 4%nat with (length [a; b; 255 - a; 255 - b]). rewrite take_bytes_of by (repeat constructor; lia).
    rewrite !N.eqb_refl. cbn [andb]. rewrite <- Hlen, Nat2N.id, bits_app, take_bytes_of by exact Hd. rewrite app_nil_r. reflexivity. }
  change (bits_of (c ++ n)) with ([] ++ bits_of (c ++ n)). rewrite align_whole by (cbn; lia).
  replace 8%nat with (length (c ++ n)) by (rewrite app_length; lia).
  rewrite <- (app_nil_r (bits_of (c ++ n))), take_bytes_of by (apply Forall_app; auto).
  rewrite rev_involutive, <- Lc, firstn_app, firstn_all, Nat.sub_diag, skipn_app, skipn_all, Nat.sub_diag. cbn [firstn skipn app].
  rewrite app_nil_r, Ec, En, N.eqb_refl, N.mod_small, N.eqb_refl by lia. reflexivity.
Qed.

(** Tests of [gunzip]: the text "egts egts egts!" stored and with the fixed code; a wrong check sum. *)
Example C112_example_gunzip :
  let text := bytes_of_string "egts egts egts!" in
  gunzip [31; 139; 8; 0; 0; 0; 0; 0; 0; 255; 1; 15; 0; 240; 255; 101; 103; 116; 115; 32; 101; 103; 116; 115; 32; 101; 103; 116; 115; 33; 116; 169; 37; 241; 15; 0; 0; 0]
  = Some text
  /\ gunzip [31; 139; 8; 0; 0; 0; 0; 0; 0; 255; 75; 77; 47; 41; 86; 72; 133; 17; 138; 0; 116; 169; 37; 241; 15; 0; 0; 0] = Some text
  /\ gunzip [31; 139; 8; 0; 0; 0; 0; 0; 0; 255; 75; 77; 47; 41; 86; 72; 133; 17; 138; 0; 116; 169; 37; 240; 15; 0; 0; 0] = None
  /\ N.of_nat (length file_descr) = 5388 /\ length message_names = 19%nat.
Proof. vm_compute. auto. Qed.

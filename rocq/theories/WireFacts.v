(** The wire layouts of well-formed values consist of bytes. *)
From Coq Require Import NArith ZArith Lia ZifyBool ZifyNat ZifyN String Ascii Bool List.
From Verif Require Import GoBase GoFloat SubRecords Records SpecBase SpecSub SpecRec BaseFacts SubFacts.
Import ListNotations.
Open Scope N_scope.

Lemma le16_ok n : bytes_ok (le16 n). Proof. rewrite le16_eq. apply le_bytes_ok. Qed.
Lemma le24_ok n : bytes_ok (le24 n). Proof. rewrite le24_eq. apply le_bytes_ok. Qed.
Lemma le32_ok n : bytes_ok (le32 n). Proof. rewrite le32_eq. apply le_bytes_ok. Qed.
Lemma chars_ok s : bytes_ok (chars s). Proof. rewrite chars_eq. apply bytes_of_string_ok. Qed.
Lemma opt_ok f b : (f = "1"%string -> bytes_ok b) -> bytes_ok (opt f b).
Proof. unfold opt. intros H. destruct (string_dec f "1"); [auto|apply bytes_ok_nil]. Qed.
Lemma fl_le f : fl f <= 1. Proof. unfold fl. destruct (string_dec f "1"); lia. Qed.
Lemma fl2_le f : fl2 f <= 3.
Proof. unfold fl2. destruct (string_dec f "01"); [lia|]. destruct (string_dec f "10"); [lia|]. destruct (string_dec f "11"); lia. Qed.

Ltac flags_lt :=
  repeat match goal with
  | |- context [fl ?x] => pose proof (fl_le x); generalize dependent (fl x); intros
  | |- context [fl2 ?x] => pose proof (fl2_le x); generalize dependent (fl2 x); intros
  end.
Ltac wire_ok :=
  repeat first
  [ apply le16_ok | apply le24_ok | apply le32_ok | apply chars_ok | apply bytes_ok_nil
  | apply opt_ok; intros ?
  | apply bytes_ok_cons; split
  | apply bytes_ok_app; split ];
  unfold is_u8 in *; auto; try (flags_lt; lia).

Section WithEnv.
Context {E : Env}.

Lemma travels_ok d t b d' : travels d t b d' -> bytes_ok b /\ t < 256.
Proof.
  intros H. split; [|inversion H; lia]. destruct H.
  - destruct H. unfold lay_response. wire_ok.
  - destruct H. unfold lay_ti. wire_ok. apply wti_NID. assumption.
  - destruct H. unfold lay_md. wire_ok. destruct (Z.ltb_spec (md_MT d) 0); lia.
  - destruct H. unfold lay_di. wire_ok.
  - unfold lay_ai. wire_ok. destruct (string_dec _ _); wire_ok.
  - unfold lay_result. wire_ok.
  - eapply pb_marshal_ok; eauto.
  - destruct H. unfold lay_pos. wire_ok.
    destruct (_ =? 1); unfold is_u8 in *; [|assumption]. apply N.lt_trans with 128; [apply N.mod_lt|]; lia.
  - destruct H. unfold lay_ext. wire_ok.
  - destruct H. unfold lay_ad, wf_opt in *. wire_ok; intuition.
  - destruct H. unfold lay_cd. wire_ok.
  - destruct H. unfold lay_sd. wire_ok.
  - destruct H. unfold lay_sd. wire_ok.
  - destruct H. unfold lay_aa. wire_ok.
  - destruct H. unfold lay_ac. wire_ok.
  - destruct H. unfold lay_ll. wire_ok.
Qed.

Lemma sub_travels_ok r w r' : sub_travels r w r' -> bytes_ok w.
Proof. intros [srt srl d t b d' H _ _ _]. apply travels_ok in H as [H Ht]. wire_ok. Qed.
Lemma subs_travel_ok l w l' : subs_travel l w l' -> bytes_ok w.
Proof. induction 1; [apply bytes_ok_nil|]. apply bytes_ok_app. split; [eapply sub_travels_ok; eauto|assumption]. Qed.
Lemma lay_rec_ok s w : wf_rec s -> bytes_ok w -> bytes_ok (lay_rec s w).
Proof. intros [] Hw. unfold lay_rec. wire_ok. Qed.
Lemma recs_travel_ok l w l' : recs_travel l w l' -> bytes_ok w.
Proof.
  induction 1; [apply bytes_ok_nil|]. apply bytes_ok_app. split; [|assumption]. apply lay_rec_ok; [assumption|].
  eapply subs_travel_ok; eauto.
Qed.
Lemma recs_travel_nonempty l w l' : recs_travel l w l' -> l <> [] -> w <> [].
Proof. intros H. destruct H; [congruence|]. intros _ Hw. apply app_eq_nil in Hw as [Hw _]. unfold lay_rec in Hw. discriminate. Qed.

End WithEnv.

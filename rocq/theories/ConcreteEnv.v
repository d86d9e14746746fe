(** A concrete instance of the code kept arbitrary in the model, used only in examples:
    a storage record is its own encoding, and out-of-range conversions give 0. *)
From Coq Require Import NArith List Bool.
From Verif Require Import GoBase GoFloat SubRecords.
Open Scope N_scope.

Definition bytes_okb (b : bytes) : bool := forallb (fun x => x <? 256) b.

Lemma bytes_okb_ok b : bytes_okb b = true -> bytes_ok b.
Proof.
  unfold bytes_okb, bytes_ok. rewrite forallb_forall, Forall_forall.
  intros H x Hx. apply N.ltb_lt. auto.
Qed.

Lemma env0_marshal_bytes (m b : bytes) : (if bytes_okb m then Some m else None) = Some b -> bytes_ok b.
Proof. destruct (bytes_okb m) eqn:Hm; inversion 1; subst. apply bytes_okb_ok; assumption. Qed.
Lemma env0_oor_range : forall x : f64, 0 < 4294967296.
Proof. intros _. reflexivity. Qed.

#[export] Instance env0 : Env :=
  {| StorageRecord := bytes; pb_zero := nil;
     pb_unmarshal := fun b => Some b;
     pb_marshal := fun b => if bytes_okb b then Some b else None;
     pb_marshal_ok := env0_marshal_bytes;
     f64_u32_oor := fun _ => 0;
     f64_u32_oor_ok := env0_oor_range |}.

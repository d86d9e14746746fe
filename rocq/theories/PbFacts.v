(** Facts about the proto2 codec. *)
From Coq Require Import NArith ZArith List Bool Lia.
From Verif Require Import GoBase BaseFacts Protobuf SpecPb.
Import ListNotations.
Open Scope N_scope.

(** ** Varints *)
Lemma pow128_S k : 128 ^ N.of_nat (S k) = 128 * 128 ^ N.of_nat k.
Proof. rewrite Nat2N.inj_succ, N.pow_succ_r'. reflexivity. Qed.

Lemma rd_varint_k_SS k c r : rd_varint_k (S (S k)) (c :: r) =
  if c <? 128 then Some (c, r)
  else match rd_varint_k (S k) r with Some (n, r') => Some (c - 128 + 128 * n, r') | None => None end.
Proof. reflexivity. Qed.

Lemma rd_is_varint_k k : forall lo hi r, Forall (fun c => c < 128) lo -> hi < 128 -> (length lo <= k)%nat ->
  (length lo = k -> hi < 2) ->
  rd_varint_k (S k) (map (fun c => c + 128) lo ++ [hi] ++ r) = Some (b128 (lo ++ [hi]), r).
Proof.
  induction k; intros lo hi r Hlo Hhi Hk H9.
  - destruct lo; [|simpl in Hk; lia]. simpl. specialize (H9 eq_refl). apply N.ltb_lt in H9. rewrite H9.
    repeat f_equal. lia.
  - destruct lo as [|c lo].
    + cbn [map app rd_varint_k b128]. apply N.ltb_lt in Hhi. rewrite Hhi. repeat f_equal. lia.
    + apply Forall_cons_iff in Hlo as [Hc Hlo]. cbn [length] in *.
      change (map (fun c0 => c0 + 128) (c :: lo) ++ [hi] ++ r) with ((c + 128) :: (map (fun c0 => c0 + 128) lo ++ [hi] ++ r)).
      rewrite rd_varint_k_SS. destruct (N.ltb_spec (c + 128) 128); [lia|].
      rewrite IHk by (auto; lia). cbn [app b128]. repeat f_equal. lia.
Qed.

Lemma rd_is_varint p n r : is_varint p n -> rd_varint (p ++ r) = Some (n, r).
Proof.
  intros (lo & hi & -> & Hlo & Hhi & Hl & H9 & ->). unfold rd_varint. rewrite <- app_assoc.
  apply rd_is_varint_k; auto.
Qed.

Lemma rd_varint_k_is k : forall b n r, bytes_ok b -> rd_varint_k (S k) b = Some (n, r) ->
  exists lo hi, b = (map (fun c => c + 128) lo ++ [hi]) ++ r /\ Forall (fun c => c < 128) lo /\ hi < 128 /\
    (length lo <= k)%nat /\ (length lo = k -> hi < 2) /\ n = b128 (lo ++ [hi]).
Proof.
  induction k; intros b n r Hb H; destruct b as [|c b]; try discriminate; apply bytes_ok_cons in Hb as [Hc Hb].
  - cbn [rd_varint_k] in H. destruct (N.ltb_spec c 2); [|discriminate]. injection H as <- <-.
    exists [], c. simpl. repeat split; auto; lia.
  - rewrite rd_varint_k_SS in H. destruct (N.ltb_spec c 128).
    + injection H as <- <-. exists [], c. simpl. repeat split; auto; lia.
    + destruct (rd_varint_k (S k) b) as [[n' r']|] eqn:Hr; [|discriminate]. injection H as <- <-.
      destruct (IHk _ _ _ Hb Hr) as (lo & hi & -> & Hlo & Hhi & Hl & H9 & ->).
      exists (c - 128 :: lo), hi. cbn [map app length b128]. replace (c - 128 + 128) with c by lia.
      repeat split; auto; try lia. constructor; auto. lia.
Qed.

Lemma rd_varint_is b n r : bytes_ok b -> rd_varint b = Some (n, r) -> exists p, b = p ++ r /\ is_varint p n.
Proof.
  intros Hb H. destruct (rd_varint_k_is _ _ _ _ Hb H) as (lo & hi & -> & Hlo & Hhi & Hl & H9 & ->).
  eexists. split; [reflexivity|]. exists lo, hi. auto 10.
Qed.

Lemma is_varint_length p n : is_varint p n -> (1 <= length p <= 10)%nat.
Proof. intros (lo & hi & -> & _ & _ & Hl & _). rewrite app_length, map_length. simpl. lia. Qed.

Lemma b128_bound l : Forall (fun c => c < 128) l -> b128 l < 128 ^ N.of_nat (length l).
Proof.
  induction 1; [reflexivity|]. cbn [b128 length]. rewrite pow128_S. lia.
Qed.

Lemma is_varint_bound p n : is_varint p n -> n < 128 ^ N.of_nat (length p).
Proof.
  intros (lo & hi & -> & Hlo & Hhi & _ & _ & ->).
  replace (length (map (fun c => c + 128) lo ++ [hi])) with (length (lo ++ [hi])) by (rewrite !app_length, map_length; reflexivity).
  apply b128_bound. apply Forall_app. auto.
Qed.

Lemma b128_app a b : b128 (a ++ b) = b128 a + 128 ^ N.of_nat (length a) * b128 b.
Proof.
  induction a; [cbn; lia|]. cbn [app b128 length]. rewrite pow128_S, IHa. lia.
Qed.

Lemma is_varint_64 p n : is_varint p n -> n < 18446744073709551616.
Proof.
  intros (lo & hi & -> & Hlo & Hhi & Hl & H9 & ->). rewrite b128_app. pose proof (b128_bound lo Hlo) as Hb.
  cbn [b128]. destruct (Nat.eq_dec (length lo) 9) as [E|E].
  - rewrite E in *. specialize (H9 eq_refl). change (128 ^ N.of_nat 9) with 9223372036854775808 in *. lia.
  - assert (128 ^ N.of_nat (length lo) <= 128 ^ N.of_nat 8) as Hp by (apply N.pow_le_mono_r; lia).
    change (128 ^ N.of_nat 8) with 72057594037927936 in Hp. nia.
Qed.

Lemma is_varint_ok p n : is_varint p n -> bytes_ok p.
Proof.
  intros (lo & hi & -> & Hlo & Hhi & _). apply bytes_ok_app. split.
  - apply Forall_map. eapply Forall_impl; [|exact Hlo]. intros a Ha. unfold byte_ok. simpl in Ha. lia.
  - apply bytes_ok_cons. split; [lia|constructor].
Qed.

(** Written varints *)
Lemma wr_varint_k_is k : forall n, n < 2 * 128 ^ N.of_nat k ->
  exists lo hi, wr_varint_k (S k) n = map (fun c => c + 128) lo ++ [hi] /\ Forall (fun c => c < 128) lo /\ hi < 128 /\
    (length lo <= k)%nat /\ (length lo = k -> hi < 2) /\ n = b128 (lo ++ [hi]).
Proof.
  induction k; intros n Hn.
  - change (2 * 128 ^ N.of_nat 0) with 2 in Hn. exists [], n. cbn [wr_varint_k].
    destruct (N.ltb_spec n 128); [|lia]. simpl. repeat split; auto; lia.
  - change (wr_varint_k (S (S k)) n) with (if n <? 128 then [n] else (n mod 128 + 128) :: wr_varint_k (S k) (n / 128)).
    destruct (N.ltb_spec n 128).
    + exists [], n. simpl. repeat split; auto; lia.
    + rewrite pow128_S in Hn. destruct (IHk (n / 128)) as (lo & hi & -> & Hlo & Hhi & Hl & H9 & Hd).
      { apply N.div_lt_upper_bound; lia. }
      exists (n mod 128 :: lo), hi. cbn [map app length b128]. repeat split; auto; try lia.
      constructor; auto. apply N.mod_lt. lia.
Qed.

Lemma wr_varint_is n : n < 18446744073709551616 -> is_varint (wr_varint n) n.
Proof. intros H. apply (wr_varint_k_is 9). exact H. Qed.

Lemma rd_wr_varint n r : n < 18446744073709551616 -> rd_varint (wr_varint n ++ r) = Some (n, r).
Proof. intros H. apply rd_is_varint, wr_varint_is, H. Qed.

Lemma wr_varint_k_length k : forall n j, (1 <= j)%nat -> n < 128 ^ N.of_nat j -> (length (wr_varint_k k n) <= j)%nat.
Proof.
  induction k; intros n j Hj Hn; [simpl; lia|]. cbn [wr_varint_k]. destruct (N.ltb_spec n 128); [simpl; lia|].
  destruct j; [lia|]. rewrite pow128_S in Hn. cbn [length].
  assert (length (wr_varint_k k (n / 128)) <= j)%nat; [|lia].
  destruct j; [change (128 ^ N.of_nat 0) with 1 in Hn; lia|]. apply IHk; [lia|]. apply N.div_lt_upper_bound; lia.
Qed.

Lemma wr_varint_le n n' p : is_varint p n -> n' <= n -> (length (wr_varint n') <= length p)%nat.
Proof.
  intros H Hle. pose proof (is_varint_bound _ _ H). pose proof (is_varint_length _ _ H).
  apply wr_varint_k_length; lia.
Qed.

Lemma wr_varint_short n : n < 18446744073709551616 -> short_varint (wr_varint n) n.
Proof. intros H. split; [apply wr_varint_is, H|]. intros q Hq. eapply wr_varint_le; eauto. lia. Qed.

Lemma b128_inj : forall a b, length a = length b -> Forall (fun c => c < 128) a -> Forall (fun c => c < 128) b ->
  b128 a = b128 b -> a = b.
Proof.
  induction a; intros [|y b] Hl Ha Hb He; try discriminate; [reflexivity|].
  apply Forall_cons_iff in Ha as [Ha1 Ha], Hb as [Hb1 Hb]. cbn [b128] in He. injection Hl as Hl.
  assert (a = y) by lia. subst. f_equal. apply IHa; auto. lia.
Qed.

Lemma short_varint_wr p n : short_varint p n -> p = wr_varint n.
Proof.
  intros [Hp Hs]. pose proof (is_varint_64 _ _ Hp) as Hn. pose proof (wr_varint_is _ Hn) as Hw.
  assert (length p = length (wr_varint n)) as Hl.
  { specialize (Hs _ Hw). pose proof (wr_varint_le _ n _ Hp (N.le_refl n)). lia. }
  destruct Hp as (lo & hi & Ep & Hlo & Hhi & _ & _ & E). destruct Hw as (lo' & hi' & Ew & Hlo' & Hhi' & _ & _ & E').
  rewrite Ep, Ew in *. rewrite !app_length, !map_length in Hl. simpl in Hl.
  assert (lo ++ [hi] = lo' ++ [hi']) as He.
  { apply b128_inj; [rewrite !app_length; simpl; lia| | |congruence]; apply Forall_app; auto. }
  apply app_inj_tail in He as [-> ->]. reflexivity.
Qed.

(** ** Blocks *)
Lemma rd_exact_ok k p r : length p = k -> rd_exact k (p ++ r) = Some (p, r).
Proof.
  intros <-. unfold rd_exact. rewrite app_length. destruct (Nat.leb_spec (length p) (length p + length r)); [|lia].
  rewrite firstn_app, skipn_app, Nat.sub_diag, firstn_all, skipn_all. simpl. rewrite app_nil_r. reflexivity.
Qed.
Lemma rd_exact_inv k b p r : rd_exact k b = Some (p, r) -> b = p ++ r /\ length p = k.
Proof.
  unfold rd_exact. destruct (Nat.leb_spec k (length b)); [|discriminate]. intros E. injection E as <- <-.
  rewrite firstn_skipn, firstn_length. split; [reflexivity|lia].
Qed.
Lemma rd_block_ok p b r : is_varint p (len b) -> rd_block (p ++ b ++ r) = Some (b, r).
Proof.
  intros H. unfold rd_block. rewrite (rd_is_varint _ _ _ H). unfold len in *. rewrite app_length.
  destruct (N.leb_spec (N.of_nat (length b)) (N.of_nat (length b + length r))); [|lia].
  rewrite Nat2N.id. apply rd_exact_ok. reflexivity.
Qed.
Lemma rd_block_inv b x r : bytes_ok b -> rd_block b = Some (x, r) -> exists p, b = p ++ x ++ r /\ is_varint p (len x).
Proof.
  unfold rd_block. intros Hb H. destruct (rd_varint b) as [[n r']|] eqn:Hr; [|discriminate].
  destruct (rd_varint_is _ _ _ Hb Hr) as (p & -> & Hp). destruct (n <=? len r') eqn:Hn; [|discriminate].
  apply rd_exact_inv in H as [-> Hl]. exists p. split; [reflexivity|]. unfold len. rewrite Hl, N2Nat.id. exact Hp.
Qed.

(** ** Skipping whole values *)
Scheme is_value_mut := Induction for is_value Sort Prop
  with group_items_mut := Induction for group_items Sort Prop.

Lemma is_value_nonempty num ty v : is_value num ty v -> (1 <= length v)%nat.
Proof.
  destruct 1; try lia; rewrite ?app_length;
    match goal with H : is_varint _ _ |- _ => pose proof (is_varint_length _ _ H); lia end.
Qed.

Lemma div8 num ty : ty < 8 -> (8 * num + ty) / 8 = num /\ (8 * num + ty) mod 8 = ty.
Proof. intros. lia. Qed.

Lemma skip_value_whole num ty v : is_value num ty v -> num <= 2147483647 -> 1 <= num -> forall fuel r,
  (2 * length v + 1 <= fuel)%nat -> skip_value fuel num ty (v ++ r) = Some r.
Proof.
  revert num ty v.
  apply (is_value_mut
    (fun num ty v _ => num <= 2147483647 -> 1 <= num -> forall fuel r,
       (2 * length v + 1 <= fuel)%nat -> skip_value fuel num ty (v ++ r) = Some r)
    (fun items _ => forall num p fuel r, num <= 2147483647 -> 1 <= num -> is_varint p (8 * num + 4) ->
       (2 * (length items + length p) <= fuel)%nat -> skip_group fuel num (items ++ p ++ r) = Some r)).
  - intros num p n Hp _ _ [|f] r Hf; [lia|]. cbn [skip_value N.eqb]. rewrite (rd_is_varint _ _ _ Hp). reflexivity.
  - intros num p Hp _ _ [|f] r Hf; [lia|]. cbn [skip_value N.eqb Pos.eqb]. rewrite (rd_exact_ok _ _ _ Hp). reflexivity.
  - intros num p b Hp _ _ [|f] r Hf; [lia|]. cbn [skip_value N.eqb Pos.eqb]. rewrite <- app_assoc, (rd_block_ok _ _ _ Hp). reflexivity.
  - intros num items p Hi IH Hp H1 H2 [|f] r Hf; [lia|]. cbn [skip_value N.eqb Pos.eqb]. rewrite <- app_assoc.
    apply IH; auto. rewrite app_length in Hf. lia.
  - intros num p Hp _ _ [|f] r Hf; [lia|]. cbn [skip_value N.eqb Pos.eqb]. rewrite (rd_exact_ok _ _ _ Hp). reflexivity.
  - intros num p fuel r H1 H2 Hp Hf. pose proof (is_varint_length _ _ Hp). destruct fuel as [|f]; [lia|].
    cbn [skip_group app]. rewrite (rd_is_varint _ _ _ Hp). destruct (div8 num 4) as [-> ->]; [lia|].
    destruct (N.eqb_spec num 0); [lia|]. destruct (N.ltb_spec 2147483647 num); [lia|]. cbn [orb].
    rewrite !N.eqb_refl. reflexivity.
  - intros p num ty v rest Hp Hty H4 [Hn1 Hn2] Hv IHv Hr IHr num' p' fuel r H1 H2 Hp' Hf.
    pose proof (is_varint_length _ _ Hp). pose proof (is_value_nonempty _ _ _ Hv). rewrite !app_length in Hf.
    destruct fuel as [|f]; [lia|]. cbn [skip_group]. rewrite <- !app_assoc, (rd_is_varint _ _ _ Hp).
    destruct (div8 num ty) as [-> ->]; [lia|].
    destruct (N.eqb_spec num 0); [lia|]. destruct (N.ltb_spec 2147483647 num); [lia|]. cbn [orb].
    destruct (N.eqb_spec ty 4); [lia|]. rewrite IHv by (auto; lia). apply IHr; auto. lia.
Qed.

Lemma skip_whole num ty v r : is_value num ty v -> 1 <= num <= 2147483647 -> skip num ty (v ++ r) = Some r.
Proof.
  intros H [H1 H2]. unfold skip. apply skip_value_whole; auto. rewrite app_length. lia.
Qed.

Lemma skip_inv fuel :
  (forall num ty b r, bytes_ok b -> skip_value fuel num ty b = Some r -> exists v, b = v ++ r /\ is_value num ty v) /\
  (forall num b r, bytes_ok b -> skip_group fuel num b = Some r ->
     exists items p, b = items ++ p ++ r /\ group_items items /\ is_varint p (8 * num + 4)).
Proof.
  induction fuel as [|f [IHv IHg]]; [split; discriminate|]. split.
  - intros num ty b r Hb H. cbn [skip_value] in H.
    destruct (N.eqb_spec ty 0) as [->|_].
    { destruct (rd_varint b) as [[n r']|] eqn:Hr; [|discriminate]. injection H as <-.
      destruct (rd_varint_is _ _ _ Hb Hr) as (p & -> & Hp). exists p. split; auto. econstructor; eauto. }
    destruct (N.eqb_spec ty 5) as [->|_].
    { destruct (rd_exact 4 b) as [[p r']|] eqn:Hr; [|discriminate]. injection H as <-.
      apply rd_exact_inv in Hr as [-> Hl]. exists p. split; auto. constructor; auto. }
    destruct (N.eqb_spec ty 1) as [->|_].
    { destruct (rd_exact 8 b) as [[p r']|] eqn:Hr; [|discriminate]. injection H as <-.
      apply rd_exact_inv in Hr as [-> Hl]. exists p. split; auto. constructor; auto. }
    destruct (N.eqb_spec ty 2) as [->|_].
    { destruct (rd_block b) as [[x r']|] eqn:Hr; [|discriminate]. injection H as <-.
      destruct (rd_block_inv _ _ _ Hb Hr) as (p & -> & Hp). exists (p ++ x). split; [apply app_assoc|]. constructor; auto. }
    destruct (N.eqb_spec ty 3) as [->|_]; [|discriminate].
    destruct (IHg _ _ _ Hb H) as (items & p & -> & Hi & Hp). exists (items ++ p). split; [apply app_assoc|]. constructor; auto.
  - intros num b r Hb H. cbn [skip_group] in H. destruct (rd_varint b) as [[t r']|] eqn:Hr; [|discriminate].
    destruct (rd_varint_is _ _ _ Hb Hr) as (p & -> & Hp). apply bytes_ok_app in Hb as [_ Hb].
    destruct (N.eqb_spec (t / 8) 0); [discriminate|]. destruct (N.ltb_spec 2147483647 (t / 8)); [discriminate|]. cbn [orb] in H.
    destruct (N.eqb_spec (t mod 8) 4).
    + destruct (N.eqb_spec (t / 8) num); [|discriminate]. injection H as <-. exists [], p. split; [reflexivity|].
      split; [constructor|]. replace (8 * num + 4) with t by lia. exact Hp.
    + destruct (skip_value f (t / 8) (t mod 8) r') as [r2|] eqn:Hv; [|discriminate].
      destruct (IHv _ _ _ _ Hb Hv) as (v & -> & Hv'). apply bytes_ok_app in Hb as [_ Hb].
      destruct (IHg _ _ _ Hb H) as (items & p' & -> & Hi & Hp').
      exists (p ++ v ++ items), p'. split; [rewrite <- !app_assoc; reflexivity|]. split; [|exact Hp'].
      econstructor; eauto; try lia. replace (8 * (t / 8) + t mod 8) with t by lia. exact Hp.
Qed.

Lemma skip_is num ty b r : bytes_ok b -> skip num ty b = Some r -> exists v, b = v ++ r /\ is_value num ty v.
Proof. intros. eapply (proj1 (skip_inv _)); eauto. Qed.

(** ** Messages *)
Section Message.
Context {K V : Type}.
Variable wt : K -> N.
Variable put_v : K -> V -> bytes.
Variable get_v : K -> N -> bytes -> option (option (list V * bytes)).
Variable ok : K -> V -> Prop.
Variable tk : K -> N -> Prop.
Variable good : K -> Prop.

Hypothesis wt_ok : forall k, wt k < 8 /\ wt k <> 4.
Hypothesis get_put : forall k v r, good k -> ok k v -> get_v k (wt k) (put_v k v ++ r) = Some (Some ([v], r)).
Hypothesis get_inv : forall k ty b vs r, good k -> bytes_ok b -> get_v k ty b = Some (Some (vs, r)) ->
  exists p, b = p ++ r /\ Forall (ok k) vs.
Hypothesis get_no : forall k ty b, ~ tk k ty -> get_v k ty b = Some None.
Hypothesis get_no_inv : forall k ty b, get_v k ty b = Some None -> ~ tk k ty.

(** Numbers are distinct and in range, and only repeated fields take several values at once. *)
Definition desc_ok (d : list (field K)) : Prop :=
  NoDup (map f_num d) /\ Forall (fun f => 1 <= f_num f <= 536870911) d /\ Forall (fun f => good (f_kind f)) d /\
  Forall (fun f => f_card f <> Rep -> forall ty b vs r, get_v (f_kind f) ty b = Some (Some (vs, r)) -> length vs = 1%nat) d.

Local Notation marshal := (marshal wt put_v).
Local Notation put_fields := (put_fields wt put_v).
Local Notation put_field := (put_field wt put_v).
Local Notation unmarshal_loop := (unmarshal_loop get_v).
Local Notation unmarshal := (unmarshal get_v).
Local Notation message_ok := (message_ok ok tk).

Lemma tag_is num ty : num <= 536870911 -> ty < 8 -> is_varint (tag num ty) (8 * num + ty).
Proof. intros. apply wr_varint_is. lia. Qed.

Lemma find_field_in d1 (f : field K) d2 : NoDup (map f_num (d1 ++ f :: d2)) -> find_field (d1 ++ f :: d2) (f_num f) = Some f.
Proof.
  unfold find_field. induction d1 as [|g d1 IH]; cbn [app find map].
  - rewrite N.eqb_refl. reflexivity.
  - intros H. apply NoDup_cons_iff in H as [Hn H]. destruct (N.eqb_spec (f_num g) (f_num f)) as [E|E]; [|auto].
    exfalso. apply Hn. rewrite E. apply in_map. apply in_elt.
Qed.

Lemma store_at d1 (f : field K) d2 vs done (old : list V) rest : NoDup (map f_num (d1 ++ f :: d2)) -> length done = length d1 ->
  store (d1 ++ f :: d2) (f_num f) vs (done ++ old :: rest) =
  done ++ (match f_card f with Rep => old ++ vs | _ => vs end) :: rest.
Proof.
  revert done. induction d1 as [|g d1 IH]; intros [|x done] Hn Hl; try discriminate; cbn [app store].
  - rewrite N.eqb_refl. reflexivity.
  - cbn [map app] in Hn. apply NoDup_cons_iff in Hn as [Hg Hn]. destruct (N.eqb_spec (f_num g) (f_num f)) as [E|E].
    + exfalso. apply Hg. rewrite E. apply in_map. apply in_elt.
    + f_equal. apply IH; auto.
Qed.

(** One field read *)
Lemma loop_field fuel d p num ty v r m : is_varint p (8 * num + ty) -> 1 <= num <= 536870911 -> ty < 8 -> ty <> 4 ->
  unmarshal_loop (S fuel) d (p ++ v ++ r) m =
  match (match find_field d num with Some fd => get_v (f_kind fd) ty (v ++ r) | None => Some None end) with
  | None => None
  | Some (Some (vs, r')) => unmarshal_loop fuel d r' (mkMessage (store d num vs (m_vals m)) (m_unknown m))
  | Some None =>
      match skip num ty (v ++ r) with
      | None => None
      | Some r' => unmarshal_loop fuel d r' (mkMessage (m_vals m)
            (m_unknown m ++ tag num ty ++ firstn (length (v ++ r) - length r') (v ++ r)))
      end
  end.
Proof.
  intros Hp Hn Ht H4. pose proof (is_varint_length _ _ Hp) as Hl. pose proof (rd_is_varint _ _ (v ++ r) Hp) as Hr.
  destruct (p ++ v ++ r) as [|c b] eqn:Eb.
  { apply (f_equal (@length N)) in Eb. rewrite app_length in Eb. simpl in Eb. lia. }
  cbn [Protobuf.unmarshal_loop]. rewrite Hr. cbv zeta. destruct (div8 num ty) as [-> ->]; [lia|].
  destruct (N.eqb_spec num 0); [lia|]. destruct (N.ltb_spec 536870911 num); [lia|]. cbn [orb].
  destruct (N.eqb_spec ty 4); [lia|]. reflexivity.
Qed.

Lemma loop_values d1 f d2 : desc_ok (d1 ++ f :: d2) -> forall vs fuel done old rest u r,
  Forall (ok (f_kind f)) vs -> (f_card f <> Rep -> (length (old ++ vs) <= 1)%nat) -> length done = length d1 ->
  (length (put_field f vs ++ r) <= fuel)%nat ->
  exists fuel', (length r <= fuel')%nat /\
  unmarshal_loop fuel (d1 ++ f :: d2) (put_field f vs ++ r) (mkMessage (done ++ old :: rest) u) =
  unmarshal_loop fuel' (d1 ++ f :: d2) r (mkMessage (done ++ (old ++ vs) :: rest) u).
Proof.
  intros (Hn & Hr & Hg & _). assert (1 <= f_num f <= 536870911) as Hf.
  { rewrite Forall_forall in Hr. apply Hr, in_elt. }
  assert (good (f_kind f)) as Hgf.
  { rewrite Forall_forall in Hg. apply Hg, in_elt. }
  induction vs as [|v vs IH]; intros fuel done old rest u r Hv Hc Hl Hfuel.
  - exists fuel. rewrite app_nil_r. split; [exact Hfuel|reflexivity].
  - apply Forall_cons_iff in Hv as [Hv Hvs]. destruct (wt_ok (f_kind f)) as [Hw1 Hw2].
    pose proof (tag_is (f_num f) (wt (f_kind f)) (proj2 Hf) Hw1) as Ht. pose proof (is_varint_length _ _ Ht).
    unfold Protobuf.put_field in *. cbn [flat_map] in *. rewrite <- !app_assoc in *. rewrite !app_length in Hfuel.
    destruct fuel as [|fuel]; [lia|]. rewrite (loop_field _ _ _ _ _ _ _ _ Ht Hf Hw1 Hw2).
    rewrite (find_field_in _ _ _ Hn), (get_put _ _ _ Hgf Hv). cbn [m_vals m_unknown]. rewrite (store_at _ _ _ _ _ _ _ Hn Hl).
    replace (match f_card f with Rep => old ++ [v] | _ => [v] end) with (old ++ [v]).
    2:{ destruct (f_card f); try reflexivity; (destruct old; [reflexivity|]); rewrite !app_length in Hc; simpl in Hc;
        (lapply Hc; [lia|discriminate]). }
    edestruct (IH fuel done (old ++ [v]) rest u r) as (fuel' & Hf' & E); auto.
    + rewrite <- app_assoc. exact Hc.
    + rewrite app_length. lia.
    + exists fuel'. split; [exact Hf'|]. rewrite E. rewrite <- app_assoc. reflexivity.
Qed.

Lemma loop_fields : forall d2 vals d1 done fuel u r, desc_ok (d1 ++ d2) ->
  Forall2 (fun f vs => Forall (ok (f_kind f)) vs /\ (f_card f <> Rep -> (length vs <= 1)%nat)) d2 vals -> length done = length d1 ->
  (length (put_fields d2 vals ++ r) <= fuel)%nat ->
  exists fuel', (length r <= fuel')%nat /\
  unmarshal_loop fuel (d1 ++ d2) (put_fields d2 vals ++ r) (mkMessage (done ++ map (fun _ => []) d2) u) =
  unmarshal_loop fuel' (d1 ++ d2) r (mkMessage (done ++ vals) u).
Proof.
  induction d2 as [|f d2 IH]; intros vals d1 done fuel u r Hd Hv Hl Hf; inversion Hv as [|? vs ? vals' [Hv1 Hv2] Hv']; subst.
  - exists fuel. split; [exact Hf|reflexivity].
  - cbn [Protobuf.put_fields map] in *. rewrite <- app_assoc in *.
    destruct (loop_values _ _ _ Hd vs fuel done [] (map (fun _ => []) d2) u (put_fields d2 vals' ++ r)) as (f1 & Hf1 & E1); auto.
    rewrite E1. cbn [app]. destruct (IH vals' (d1 ++ [f]) (done ++ [vs]) f1 u r) as (f2 & Hf2 & E2); auto.
    + rewrite <- app_assoc. exact Hd.
    + rewrite !app_length, Hl. reflexivity.
    + rewrite <- !app_assoc in E2. cbn [app] in E2. exists f2. split; auto.
Qed.

Lemma find_field_some (d : list (field K)) num f : find_field d num = Some f -> In f d /\ f_num f = num.
Proof. unfold find_field. intros H. apply find_some in H as [H1 H2]. apply N.eqb_eq in H2. auto. Qed.

Lemma loop_unknown d uk : unknown_fields tk d uk -> forall fuel vals u, (length uk <= fuel)%nat ->
  unmarshal_loop fuel d uk (mkMessage vals u) = Some (mkMessage vals (u ++ uk)).
Proof.
  induction 1 as [|p num ty v rest Hn Ht H4 Hd Hp Hv Hr IH]; intros fuel vals u Hf.
  - rewrite app_nil_r. destruct fuel; reflexivity.
  - destruct Hp as [Hp Hs]. pose proof (is_varint_length _ _ Hp). rewrite !app_length in Hf. destruct fuel as [|fuel]; [lia|].
    rewrite (loop_field _ _ _ _ _ _ _ _ Hp Hn Ht H4).
    replace (match find_field d num with Some fd => get_v (f_kind fd) ty (v ++ rest) | None => Some None end)
      with (@Some (option (list V * bytes)) None).
    2:{ destruct (find_field d num) as [f|] eqn:Ef; [|reflexivity]. apply find_field_some in Ef as [Hi He].
        symmetry. apply get_no, (Hd _ Hi He). }
    rewrite (skip_whole _ _ _ _ Hv) by lia. cbn [m_vals m_unknown]. rewrite IH by lia.
    rewrite app_length, Nat.add_sub, firstn_app, Nat.sub_diag, firstn_all. cbn [firstn]. rewrite app_nil_r.
    assert (tag num ty = p) as ->; [|rewrite <- !app_assoc; reflexivity].
    symmetry. apply short_varint_wr. split; [exact Hp|exact Hs].
Qed.

(** Round trip *)
Theorem unmarshal_marshal d m : desc_ok d -> message_ok d m -> unmarshal d (marshal d m) = Some m.
Proof.
  intros Hd (Hv & Hu & _). unfold Protobuf.unmarshal, Protobuf.marshal, empty_message.
  destruct (loop_fields d (m_vals m) [] [] (length (put_fields d (m_vals m) ++ m_unknown m)) [] (m_unknown m)) as (f & Hf & E); auto.
  cbn [app] in E. rewrite E. rewrite (loop_unknown _ _ Hu) by exact Hf. destruct m. reflexivity.
Qed.

(** ** What is read is well formed *)
Lemma unknown_app d a b : unknown_fields tk d a -> unknown_fields tk d b -> unknown_fields tk d (a ++ b).
Proof.
  induction 1; intros Hb; [exact Hb|]. rewrite <- !app_assoc. econstructor; eauto.
Qed.

Lemma store_ok : forall (d : list (field K)) num vs vals,
  Forall2 (fun f vs => Forall (ok (f_kind f)) vs /\ (f_card f <> Rep -> (length vs <= 1)%nat)) d vals ->
  (forall f, find_field d num = Some f -> Forall (ok (f_kind f)) vs /\ (f_card f <> Rep -> length vs = 1%nat)) ->
  Forall2 (fun f vs => Forall (ok (f_kind f)) vs /\ (f_card f <> Rep -> (length vs <= 1)%nat)) d (store d num vs vals).
Proof.
  induction d as [|f d IH]; intros num vs vals Hv Hf; inversion Hv as [|? old ? vals' [H1 H2] Hv']; subst; [constructor|].
  cbn [store]. unfold find_field in *. cbn [find] in Hf. destruct (N.eqb_spec (f_num f) num) as [E|E].
  - constructor; [|exact Hv']. destruct (Hf f eq_refl) as [Hf1 Hf2]. destruct (f_card f); (split; [|intros Hc]).
    + exact Hf1.
    + rewrite Hf2; [lia|discriminate].
    + exact Hf1.
    + rewrite Hf2; [lia|discriminate].
    + apply Forall_app; auto.
    + congruence.
  - constructor; [auto|]. apply IH; auto.
Qed.

Lemma empty_ok d : message_ok d (empty_message d).
Proof.
  split; [|split; [constructor|constructor]]. cbn [m_vals empty_message].
  induction d; constructor; auto. 
Qed.

Lemma loop_ok fuel : forall d b m m', desc_ok d -> bytes_ok b -> message_ok d m -> unmarshal_loop fuel d b m = Some m' -> message_ok d m'.
Proof.
  induction fuel as [|fuel IH]; intros d b m m' Hd Hb Hm H.
  - destruct b; [|discriminate]. injection H as <-. exact Hm.
  - destruct b as [|c b0] eqn:Eb; [injection H as <-; exact Hm|]. rewrite <- Eb in *.
    replace (unmarshal_loop (S fuel) d b m) with
      (match rd_varint b with
          | None => None
          | Some (t, r) =>
              let num := t / 8 in
              let ty := t mod 8 in
              if (num =? 0) || (536870911 <? num) then None
              else if ty =? 4 then None
              else
                match (match find_field d num with
                       | Some fd => get_v (f_kind fd) ty r
                       | None => Some None
                       end) with
                | None => None
                | Some (Some (vs, r')) =>
                    unmarshal_loop fuel d r' (mkMessage (store d num vs (m_vals m)) (m_unknown m))
                | Some None =>
                    match skip num ty r with
                    | None => None
                    | Some r' =>
                        unmarshal_loop fuel d r'
                          (mkMessage (m_vals m)
                             (m_unknown m ++ tag num ty ++ firstn (length r - length r') r))
                    end
                end
          end) in H by (rewrite Eb; reflexivity).
    clear Eb b0 c. destruct (rd_varint b) as [[t r]|] eqn:Hr; [|discriminate].
    destruct (rd_varint_is _ _ _ Hb Hr) as (p & -> & Hp). apply bytes_ok_app in Hb as [_ Hb]. cbv zeta in H.
    destruct (N.eqb_spec (t / 8) 0); [discriminate|]. destruct (N.ltb_spec 536870911 (t / 8)); [discriminate|]. cbn [orb] in H.
    destruct (N.eqb_spec (t mod 8) 4); [discriminate|].
    assert (t mod 8 < 8) as H8 by (apply N.mod_lt; lia).
    set (num := t / 8) in *. set (ty := t mod 8) in *. destruct Hm as (Hv & Hu & Hub).
    assert ((exists f vs r', find_field d num = Some f /\ get_v (f_kind f) ty r = Some (Some (vs, r')) /\
               unmarshal_loop fuel d r' (mkMessage (store d num vs (m_vals m)) (m_unknown m)) = Some m') \/
            ((forall f, In f d -> f_num f = num -> ~ tk (f_kind f) ty) /\ exists r', skip num ty r = Some r' /\
               unmarshal_loop fuel d r' (mkMessage (m_vals m) (m_unknown m ++ tag num ty ++ firstn (length r - length r') r)) = Some m')) as [Hc|Hc].
    { destruct (find_field d num) as [f|] eqn:Ef.
      - destruct (get_v (f_kind f) ty r) as [[[vs r']|]|] eqn:Eg; [left; eauto 10| |discriminate].
        right. split.
        + intros g Hg Hgn. destruct Hd as (Hnd & _). apply in_split in Hg as (d1 & d2 & ->).
          pose proof (find_field_in _ _ _ Hnd) as Eg'. rewrite Hgn, Ef in Eg'. injection Eg' as ->. eapply get_no_inv, Eg.
        + destruct (skip num ty r) as [r'|] eqn:Es; [eauto|discriminate].
      - right. split.
        + intros g Hg Hgn. destruct Hd as (Hnd & _). apply in_split in Hg as (d1 & d2 & ->).
          pose proof (find_field_in _ _ _ Hnd) as Eg'. rewrite Hgn, Ef in Eg'. discriminate.
        + destruct (skip num ty r) as [r'|] eqn:Es; [eauto|discriminate]. }
    + destruct Hc as (f & vs & r' & Ef & Eg & E). pose proof (find_field_some _ _ _ Ef) as [Hi _].
      assert (good (f_kind f)) as Hgf by (destruct Hd as (_ & _ & Hg & _); rewrite Forall_forall in Hg; auto).
      destruct (get_inv _ _ _ _ _ Hgf Hb Eg) as (q & -> & Hq).
      apply bytes_ok_app in Hb as [_ Hb]. eapply IH; [exact Hd|exact Hb| |exact E].
      split; [|split; assumption]. cbn [m_vals]. apply store_ok; [exact Hv|]. intros f' Ef'. rewrite Ef in Ef'. injection Ef' as <-.
      split; [exact Hq|]. intros Hc. destruct Hd as (_ & _ & _ & Hs). rewrite Forall_forall in Hs.
      eapply Hs; eauto.
    + destruct Hc as (Hno & r' & Es & E). destruct (skip_is _ _ _ _ Hb Es) as (v & -> & Hval).
      apply bytes_ok_app in Hb as [Hbv Hb].
      rewrite app_length, Nat.add_sub, firstn_app, Nat.sub_diag, firstn_all in E. cbn [firstn] in E. rewrite app_nil_r in E.
      eapply IH; [exact Hd|exact Hb| |exact E]. split; [exact Hv|]. cbn [m_unknown]. split.
      * apply unknown_app; [exact Hu|]. rewrite <- (app_nil_r v). apply uf_cons with num ty; auto; try lia; [|constructor].
        apply wr_varint_short. lia.
      * apply bytes_ok_app. split; [exact Hub|]. apply bytes_ok_app. split; [|exact Hbv].
        eapply is_varint_ok, wr_varint_is. lia.
Qed.

Theorem unmarshal_ok d b m : desc_ok d -> bytes_ok b -> unmarshal d b = Some m -> message_ok d m.
Proof. intros Hd Hb H. eapply loop_ok; eauto using empty_ok. Qed.

(** ** Written bytes are bytes, when values are *)
Hypothesis put_ok : forall k v, good k -> ok k v -> bytes_ok (put_v k v).
Lemma put_fields_ok : forall d vals, Forall (fun f => 1 <= f_num f <= 536870911) d -> Forall (fun f => good (f_kind f)) d ->
  Forall2 (fun f vs => Forall (ok (f_kind f)) vs /\ (f_card f <> Rep -> (length vs <= 1)%nat)) d vals -> bytes_ok (put_fields d vals).
Proof.
  intros d vals Hd Hg H. induction H as [|f vs d vals [Hv _] _ IH]; [constructor|]. apply Forall_cons_iff in Hd as [Hf Hd], Hg as [Hgf Hg].
  cbn [Protobuf.put_fields]. apply bytes_ok_app. split; [|auto]. unfold Protobuf.put_field.
  induction Hv as [|v vs Hv _ IHv]; [constructor|]. cbn [flat_map]. rewrite !bytes_ok_app. repeat split; auto.
  destruct (wt_ok (f_kind f)). eapply is_varint_ok, tag_is; lia.
Qed.
Lemma marshal_bytes d m : desc_ok d -> message_ok d m -> bytes_ok (marshal d m).
Proof.
  intros (_ & Hd & Hg & _) (Hv & _ & Hu). apply bytes_ok_app. split; [|exact Hu]. apply put_fields_ok; auto.
Qed.

(** ** Reading and writing again does not make a message longer *)
Variable sized : K -> Prop.
Hypothesis get_size : forall k ty b vs r, sized k -> good k -> bytes_ok b -> get_v k ty b = Some (Some (vs, r)) ->
  ty = wt k /\ exists v, vs = [v] /\ (length (put_v k v) + length r <= length b)%nat.

Lemma put_fields_store : forall d num vs vals,
  (length (put_fields d (store d num vs vals)) <=
   length (put_fields d vals) + match find_field d num with Some f => length (put_field f vs) | None => 0 end)%nat.
Proof.
  induction d as [|f d IH]; intros num vs [|old vals]; cbn [store Protobuf.put_fields]; try (simpl; lia).
  unfold find_field. cbn [find]. destruct (f_num f =? num).
  - cbn [Protobuf.put_fields]. rewrite !app_length. destruct (f_card f); try lia.
    unfold Protobuf.put_field. rewrite flat_map_app, app_length. lia.
  - cbn [Protobuf.put_fields]. rewrite !app_length. specialize (IH num vs vals). unfold find_field in IH. lia.
Qed.

Lemma loop_size fuel : forall d b m m', Forall (fun f => sized (f_kind f) /\ good (f_kind f)) d -> bytes_ok b -> unmarshal_loop fuel d b m = Some m' ->
  (length (marshal d m') <= length (marshal d m) + length b)%nat.
Proof.
  induction fuel as [|fuel IH]; intros d b m m' Hd Hb H.
  - destruct b; [|discriminate]. injection H as <-. lia.
  - destruct b as [|c b0] eqn:Eb; [injection H as <-; lia|]. rewrite <- Eb in *.
    replace (unmarshal_loop (S fuel) d b m) with
      (match rd_varint b with
          | None => None
          | Some (t, r) =>
              let num := t / 8 in
              let ty := t mod 8 in
              if (num =? 0) || (536870911 <? num) then None
              else if ty =? 4 then None
              else
                match (match find_field d num with
                       | Some fd => get_v (f_kind fd) ty r
                       | None => Some None
                       end) with
                | None => None
                | Some (Some (vs, r')) =>
                    unmarshal_loop fuel d r' (mkMessage (store d num vs (m_vals m)) (m_unknown m))
                | Some None =>
                    match skip num ty r with
                    | None => None
                    | Some r' =>
                        unmarshal_loop fuel d r'
                          (mkMessage (m_vals m)
                             (m_unknown m ++ tag num ty ++ firstn (length r - length r') r))
                    end
                end
          end) in H by (rewrite Eb; reflexivity).
    clear Eb b0 c. destruct (rd_varint b) as [[t r]|] eqn:Hr; [|discriminate].
    destruct (rd_varint_is _ _ _ Hb Hr) as (p & -> & Hp). apply bytes_ok_app in Hb as [_ Hb]. cbv zeta in H.
    destruct (N.eqb_spec (t / 8) 0); [discriminate|]. destruct (N.ltb_spec 536870911 (t / 8)); [discriminate|]. cbn [orb] in H.
    destruct (N.eqb_spec (t mod 8) 4); [discriminate|].
    assert (length (tag (t / 8) (t mod 8)) <= length p)%nat as Ht by (eapply wr_varint_le; [exact Hp|lia]).
    set (num := t / 8) in *. set (ty := t mod 8) in *. clearbody num ty.
    rewrite app_length.
    assert ((exists f vs r', find_field d num = Some f /\ get_v (f_kind f) ty r = Some (Some (vs, r')) /\
               unmarshal_loop fuel d r' (mkMessage (store d num vs (m_vals m)) (m_unknown m)) = Some m') \/
            (exists r', skip num ty r = Some r' /\
               unmarshal_loop fuel d r' (mkMessage (m_vals m) (m_unknown m ++ tag num ty ++ firstn (length r - length r') r)) = Some m')) as [Hc|Hc].
    { destruct (find_field d num) as [f|] eqn:Ef.
      - destruct (get_v (f_kind f) ty r) as [[[vs r']|]|] eqn:Eg; [left; eauto 10| |discriminate].
        right. destruct (skip num ty r) as [r'|] eqn:Es; [eauto|discriminate].
      - right. destruct (skip num ty r) as [r'|] eqn:Es; [eauto|discriminate]. }
    + destruct Hc as (f & vs & r' & Ef & Eg & E). pose proof (find_field_some _ _ _ Ef) as [Hi Hnum].
      rewrite Forall_forall in Hd. pose proof (Hd _ Hi) as [Hs Hgf].
      destruct (get_inv _ _ _ _ _ Hgf Hb Eg) as (q & Eq & Hq). destruct (get_size _ _ _ _ _ Hs Hgf Hb Eg) as (Hty & v & -> & Hlen). rewrite <- Forall_forall in Hd.
      rewrite Eq in Hb. apply bytes_ok_app in Hb as [_ Hb]. specialize (IH _ _ _ _ Hd Hb E).
      pose proof (put_fields_store d num [v] (m_vals m)) as Hst. rewrite Ef in Hst. unfold Protobuf.marshal in *.
      cbn [m_vals m_unknown] in IH. rewrite !app_length in *. unfold Protobuf.put_field in Hst. cbn [flat_map] in Hst.
      rewrite !app_length, Hnum, <- Hty in Hst. simpl in Hst. lia.
    + destruct Hc as (r' & Es & E). destruct (skip_is _ _ _ _ Hb Es) as (v & -> & Hval).
      apply bytes_ok_app in Hb as [_ Hb]. specialize (IH _ _ _ _ Hd Hb E). unfold Protobuf.marshal in *.
      cbn [m_vals m_unknown] in IH. rewrite !app_length in *. rewrite Nat.add_sub in IH.
      rewrite firstn_length, app_length in IH. lia.
Qed.

Lemma unmarshal_size d b m : Forall (fun f => sized (f_kind f) /\ good (f_kind f)) d -> bytes_ok b -> unmarshal d b = Some m ->
  (length (marshal d m) <= length b)%nat.
Proof.
  intros Hd Hb H. pose proof (loop_size _ _ _ _ _ Hd Hb H) as Hl. enough (marshal d (empty_message d) = []) as E by (rewrite E in Hl; exact Hl).
  unfold Protobuf.marshal, empty_message. cbn [m_vals m_unknown]. rewrite app_nil_r.
  clear. induction d; [reflexivity|]. exact IHd.
Qed.
End Message.

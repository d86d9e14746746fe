(** Facts about JSON texts. *)
From Coq Require Import NArith ZArith String List Bool Lia.
From Flocq Require Import BinarySingleNaN.
From Verif Require Import GoBase BaseFacts GoFloat Storage Json SpecJson Utf8Facts.
From Verif Require Export NumFacts.
Import ListNotations.
Open Scope N_scope.

(** ** Strings *)
Lemma hex_ok n : n < 16 -> hex_digit (hex n) n.
Proof. intros H. unfold hex, hex_digit, is_digit. destruct (N.ltb_spec n 10); [left|right; left]; lia. Qed.

Lemma hex4_low c : c < 128 -> hex4 [48; 48; hex (c / 16); hex (c mod 16)] c.
Proof.
  intros H. exists 48, 48, (hex (c / 16)), (hex (c mod 16)), 0, 0, (c / 16), (c mod 16). split; [reflexivity|].
  split; [left; unfold is_digit; lia|]. split; [left; unfold is_digit; lia|].
  split; [apply hex_ok; apply N.div_lt_upper_bound; lia|]. split; [apply hex_ok; apply N.mod_lt; lia|]. dlia.
Qed.
Lemma string_text_plain l t s : bytes_ok l -> Forall (fun c => 128 <= c) l -> string_text t s -> string_text (l ++ t) (l ++ s).
Proof.
  intros Hl H K. induction H as [|c l Hc H IH]; [exact K|]. apply bytes_ok_cons in Hl as [Hb Hl]. cbn [app]. apply st_plain; [lia|lia|lia|auto].
Qed.
Lemma utf8_high u : 128 <= u -> Forall (fun c => 128 <= c) (utf8 u).
Proof.
  intros H. destruct (N.lt_ge_cases u 2048); [rewrite utf8_2 by lia|destruct (N.lt_ge_cases u 65536); [rewrite utf8_3 by lia|rewrite utf8_4 by lia]];
    repeat (constructor; [lia|]); constructor.
Qed.

Lemma esc_low c t s : c < 128 -> string_text t s -> string_text (esc c ++ t) (c :: s).
Proof.
  intros Hc IH. unfold esc.
  destruct (N.eqb_spec c 34); [constructor; auto|]. destruct (N.eqb_spec c 92); [constructor; auto|]. cbn [orb].
  destruct (N.eqb_spec c 10) as [->|]; [apply st_short with (c := 110); cbn; auto 10|].
  destruct (N.eqb_spec c 13) as [->|]; [apply st_short with (c := 114); cbn; auto 10|].
  destruct (N.eqb_spec c 9) as [->|]; [apply st_short with (c := 116); cbn; auto 10|].
  assert (string_text ([92; 117; 48; 48; hex (c / 16); hex (c mod 16)] ++ t) (c :: s)) as Hhex.
  { change (c :: s) with ([c] ++ s). rewrite <- (utf8_1 c Hc).
    apply (st_hex [48; 48; hex (c / 16); hex (c mod 16)]); [apply hex4_low, Hc|unfold scalar; lia|exact IH]. }
  destruct (N.ltb_spec c 32); [exact Hhex|]. cbn [orb].
  destruct (N.eqb_spec c 60); [exact Hhex|]. destruct (N.eqb_spec c 62); [exact Hhex|].
  destruct (N.eqb_spec c 38); [exact Hhex|]. cbn [orb app]. apply st_plain; [lia|assumption|assumption|exact IH].
Qed.

Lemma esc_k_text k : forall s, bytes_ok s -> (length s <= k)%nat -> string_text (esc_k k s) (clean_k k s).
Proof.
  induction k as [|k IH]; intros [|c r] Hs Hk; cbn [esc_k clean_k]; try constructor.
  apply bytes_ok_cons in Hs as Hcr. destruct Hcr as [Hc Hr]. cbn [length] in Hk.
  destruct (N.ltb_spec c 128) as [H|H]; [apply esc_low; [exact H|apply IH; [exact Hr|lia]]|].
  destruct (decode_rune c r) as [[u n]|] eqn:E.
  - apply decode_rune_sound in E as (H1 & H2 & H3). rewrite H3.
    assert (string_text (esc_k k (skipn n (c :: r))) (clean_k k (skipn n (c :: r)))) as Hk'.
    { apply IH; [apply bytes_ok_skipn, Hs|]. eapply skip_length; [exact H3|cbn [length]; lia]. }
    assert (forall w, (w = 8232 \/ w = 8233) -> string_text ((bytes_of_string "\u202" ++ [hex (N.land w 15)]) ++ esc_k k (skipn n (c :: r)))
      (utf8 w ++ clean_k k (skipn n (c :: r)))) as Hsep.
    { intros w Hw. apply (st_hex [50; 48; 50; hex (N.land w 15)]); [|unfold scalar; lia|exact Hk'].
      exists 50, 48, 50, (hex (N.land w 15)), 2, 0, 2, (w - 8224). split; [reflexivity|]. unfold hex_digit, is_digit.
      destruct Hw as [->| ->]; (split; [left; lia|]; split; [left; lia|]; split; [left; lia|]; split; [left; vm_compute; repeat split; discriminate|lia]). }
    destruct (N.eqb_spec u 8232) as [Hu|]; [apply Hsep; auto|]. destruct (N.eqb_spec u 8233); [apply Hsep; auto|]. cbn [orb].
    apply string_text_plain; [apply utf8_bytes, H1|apply utf8_high, H2|exact Hk'].
  - apply (st_hex [102; 102; 102; 100]); [|unfold scalar; lia|apply IH; [exact Hr|lia]].
    exists 102, 102, 102, 100, 15, 15, 15, 13. split; [reflexivity|]. unfold hex_digit, is_digit.
    repeat (split; [right; left; lia|]). lia.
Qed.
Lemma esc_text s : bytes_ok s -> string_text (esc_str s) (clean s).
Proof. intros H. apply esc_k_text; [exact H|lia]. Qed.

Lemma hex_det a x y : hex_digit a x -> hex_digit a y -> x = y.
Proof. unfold hex_digit, is_digit. lia. Qed.
Lemma hex4_det h u v : hex4 h u -> hex4 h v -> u = v.
Proof.
  intros (a & b & c & d & x & y & z & w & -> & H1 & H2 & H3 & H4 & ->) (a' & b' & c' & d' & x' & y' & z' & w' & E & K1 & K2 & K3 & K4 & ->).
  injection E as <- <- <- <-.
  rewrite (hex_det _ _ _ H1 K1), (hex_det _ _ _ H2 K2), (hex_det _ _ _ H3 K3), (hex_det _ _ _ H4 K4). reflexivity.
Qed.
Lemma hex4_app h h' u v (x y : bytes) : hex4 h u -> hex4 h' v -> h ++ x = h' ++ y -> h = h' /\ x = y.
Proof.
  intros (a & b & c & d & ? & ? & ? & ? & -> & _) (a' & b' & c' & d' & ? & ? & ? & ? & -> & _) E. cbn [app] in E.
  injection E as <- <- <- <- ->. auto.
Qed.
Lemma hex4_bytes h u : hex4 h u -> bytes_ok h.
Proof.
  intros (a & b & c & d & x & y & z & w & -> & H1 & H2 & H3 & H4 & _). unfold hex_digit, is_digit in *.
  repeat (apply bytes_ok_cons; split; [lia|]). apply bytes_ok_nil.
Qed.
Lemma hex4_bound h u : hex4 h u -> u < 65536.
Proof. intros (a & b & c & d & x & y & z & w & -> & H1 & H2 & H3 & H4 & ->). unfold hex_digit, is_digit in *. lia. Qed.

Lemma string_unamb t s : string_text t s -> forall t' s' x y, string_text t' s' -> t ++ 34 :: x = t' ++ 34 :: y ->
  s = s' /\ x = y.
Proof.
  induction 1 as [|c t s H1 H2 H3 H IH|c t s Hc H IH|c d t s Hc H IH|h u t s Hh Hu H IH|h1 h2 u v t s Hh1 Hh2 Hu Hv H IH]; intros t' s' x y H' E;
    inversion H' as [|c' t2 s2 K1 K2 K3 K|c' t2 s2 Kc K|c' d' t2 s2 Kc K|g u' t2 s2 Kg Ku K|g1 g2 u' v' t2 s2 Kg1 Kg2 Ku Kv K]; subst; cbn [app] in E;
    try (injection E; intros; subst; try congruence; try lia; fail).
  - injection E as ->. auto.
  - injection E as <- E. destruct (IH _ _ _ _ K E) as [-> ->]. auto.
  - injection E as <- E. destruct (IH _ _ _ _ K E) as [-> ->]. auto.
  - injection E as <- E. exfalso. cbn in Kc. repeat (destruct Kc as [Kc|Kc]; [injection Kc as <- <-; lia|]). destruct Kc.
  - injection E as <- E. exfalso. cbn in Hc. repeat (destruct Hc as [Hc|Hc]; [injection Hc as <- <-; lia|]). destruct Hc.
  - injection E as <- E. destruct (IH _ _ _ _ K E) as [-> ->]. split; [|reflexivity]. f_equal. cbn in Hc, Kc.
    repeat (destruct Hc as [Hc|Hc]; [injection Hc as <- <-; repeat (destruct Kc as [Kc|Kc]; [injection Kc; intros; subst; try congruence|]); destruct Kc|]).
    destruct Hc.
  - injection E as Ec E. exfalso. cbn in Hc. subst. repeat (destruct Hc as [Hc|Hc]; [discriminate|]). destruct Hc.
  - injection E as Ec E. exfalso. cbn in Hc. subst. repeat (destruct Hc as [Hc|Hc]; [discriminate|]). destruct Hc.
  - injection E as Ec E. exfalso. cbn in Kc. subst. repeat (destruct Kc as [Kc|Kc]; [discriminate|]). destruct Kc.
  - injection E as E. rewrite <- !app_assoc in E. destruct (hex4_app _ _ _ _ _ _ Hh Kg E) as [<- E2].
    destruct (IH _ _ _ _ K E2) as [-> ->]. rewrite (hex4_det _ _ _ Hh Kg). auto.
  - exfalso. injection E as E. rewrite <- !app_assoc in E. destruct (hex4_app _ _ _ _ _ _ Hh Kg1 E) as [<- _].
    pose proof (hex4_det _ _ _ Hh Kg1). unfold scalar in Hu. lia.
  - injection E as Ec E. exfalso. cbn in Kc. subst. repeat (destruct Kc as [Kc|Kc]; [discriminate|]). destruct Kc.
  - exfalso. injection E as E. rewrite <- !app_assoc in E. destruct (hex4_app _ _ _ _ _ _ Hh1 Kg E) as [<- _].
    pose proof (hex4_det _ _ _ Hh1 Kg). unfold scalar in Ku. lia.
  - injection E as E. rewrite <- !app_assoc in E. destruct (hex4_app _ _ _ _ _ _ Hh1 Kg1 E) as [<- E2].
    cbn [app] in E2. injection E2 as E2. rewrite <- !app_assoc in E2. destruct (hex4_app _ _ _ _ _ _ Hh2 Kg2 E2) as [<- E3].
    destruct (IH _ _ _ _ K E3) as [-> ->]. pose proof (hex4_det _ _ _ Hh1 Kg1). pose proof (hex4_det _ _ _ Hh2 Kg2).
    assert (u = u') as -> by lia. assert (v = v') as -> by lia. auto.
Qed.

(** ** Numbers *)
Definition num_char (c : N) : Prop := is_digit c \/ c = 45 \/ c = 43 \/ c = 46 \/ c = 101 \/ c = 69.
Lemma number_chars t : number t -> Forall num_char t /\ exists c r, t = c :: r /\ (is_digit c \/ c = 45).
Proof.
  intros (s & i & f & e & -> & Hs & (n & Hi1 & Hi2 & _) & Hf & He).
  assert (forall u, Forall is_digit u -> Forall num_char u) as Hd.
  { intros u. apply Forall_impl. intros c Hc. left. exact Hc. }
  split.
  - rewrite !Forall_app. split; [|split; [|split]].
    + destruct Hs as [->| ->]; [constructor|]. constructor; [unfold num_char; auto|constructor].
    + auto.
    + destruct Hf as [->|(u & -> & _ & Hu)]; constructor; [|auto]. unfold num_char. auto.
    + destruct He as [->|(x & y & u & -> & Hx & Hy & _ & Hu)]; [constructor|]. rewrite !Forall_app. split; [|split; [|auto]].
      * constructor; [|constructor]. unfold num_char. tauto.
      * destruct Hy as [->|[->| ->]]; [constructor| |]; (constructor; [unfold num_char; tauto|constructor]).
  - destruct Hs as [->| ->]; [|eexists _, _; split; [reflexivity|auto]].
    destruct i as [|c i]; [congruence|]. apply Forall_cons_iff in Hi2 as [Hc _]. eexists _, _. split; [reflexivity|auto].
Qed.


(** ** Unambiguity *)
Definition delim (x : bytes) : Prop := match x with [] => True | c :: _ => c = 44 \/ c = 93 \/ c = 125 \/ is_ws c end.
Lemma delim_not_num x : delim x -> forall c r, x = c :: r -> ~ num_char c.
Proof. intros H c r ->. cbn in H. unfold num_char, is_digit, is_ws in *. lia. Qed.
Lemma delim_ws b x : ws b -> delim x -> delim (b ++ x).
Proof. destruct 1 as [|c b Hc Hb]; [auto|]. intros _. cbn. auto. Qed.

Lemma ws_unamb a b x y : ws a -> ws b -> (forall c r, x = c :: r -> ~ is_ws c) -> (forall c r, y = c :: r -> ~ is_ws c) ->
  a ++ x = b ++ y -> x = y.
Proof. intros Ha Hb Hx Hy H. eapply prefix_unamb in H as [_ H]; eassumption. Qed.
Lemma not_ws c x : ~ is_ws c -> forall c' r, c :: x = c' :: r -> ~ is_ws c'.
Proof. intros H c' r E. injection E as <- _. exact H. Qed.
Ltac nws := apply not_ws; unfold is_ws; lia.

Lemma json_lead t v : json_text t v -> exists c r, t = c :: r /\
  match v with JNull => c = 110 | JBool b => c = (if b then 116 else 102) | JNum _ => is_digit c \/ c = 45 | JStr _ => c = 34 | JArr _ => c = 91 | JObj _ => c = 123 end.
Proof.
  destruct 1; try (eexists _, _; split; reflexivity).
  - destruct b; eexists _, _; split; reflexivity.
  - apply number_chars in H as [_ (c & r & -> & Hc)]. eauto.
Qed.
Lemma json_lead2 t v x : json_text t v -> exists c r, t ++ x = c :: r /\ c <> 93 /\ c <> 125 /\ c <> 44 /\ ~ is_ws c.
Proof.
  intros H. apply json_lead in H as (c & r & -> & H). eexists _, _. split; [reflexivity|]. unfold is_ws.
  destruct v as [|[]| | | |]; unfold is_digit in H; lia.
Qed.
Lemma json_nws t v x : json_text t v -> forall c r, t ++ x = c :: r -> ~ is_ws c.
Proof. intros H c r E. destruct (json_lead2 _ _ x H) as (c' & r' & E' & H'). rewrite E in E'. injection E' as <- <-. tauto. Qed.

Scheme json_text_mut := Induction for json_text Sort Prop
  with items_mut := Induction for items Sort Prop
  with members_mut := Induction for members Sort Prop.

(** White space and then the closing character is not the beginning of items or members. *)
Lemma items_not_empty t l x w y : items t l -> ws w -> w ++ 93 :: y <> t ++ x.
Proof.
  intros H Hw E. destruct H as [a t b v Ha Hv Hb|a t b v u l Ha Hv Hb Hu]; rewrite <- !app_assoc in E;
    (destruct (json_lead2 _ _ (b ++ x) Hv) as (c & r & E1 & H1) || idtac).
  - apply ws_unamb in E; [|assumption|assumption|nws|apply (json_nws _ _ _ Hv)]. rewrite E1 in E. injection E as <- _. tauto.
  - destruct (json_lead2 _ _ (b ++ [44] ++ u ++ x) Hv) as (c' & r' & E2 & H2).
    apply ws_unamb in E; [|assumption|assumption|nws|apply (json_nws _ _ _ Hv)]. rewrite E2 in E. injection E as <- _. tauto.
Qed.
Lemma members_not_empty t l x w y : members t l -> ws w -> w ++ 125 :: y <> t ++ x.
Proof.
  intros H Hw E. destruct H; rewrite <- !app_assoc in E; cbn [app] in E;
    (apply ws_unamb in E; [discriminate|assumption|assumption|nws|nws]).
Qed.

Theorem json_unamb : forall t v, json_text t v -> forall t' v' x y, json_text t' v' -> delim x -> delim y -> t ++ x = t' ++ y ->
  v = v' /\ x = y.
Proof.
  apply (json_text_mut
    (fun t v _ => forall t' v' x y, json_text t' v' -> delim x -> delim y -> t ++ x = t' ++ y -> v = v' /\ x = y)
    (fun t l _ => forall t' l' x y, items t' l' -> t ++ 93 :: x = t' ++ 93 :: y -> l = l' /\ x = y)
    (fun t l _ => forall t' l' x y, members t' l' -> t ++ 125 :: x = t' ++ 125 :: y -> l = l' /\ x = y)).
  - (* null *) intros t' v' x y H Hx Hy E. pose proof (json_lead _ _ H) as (c & r & -> & Hc). cbn [app] in E.
    injection E as <- E. destruct v' as [|[]| | | |]; unfold is_digit in Hc; try (exfalso; lia). inversion H; subst. injection E as E. auto.
  - (* true, false *) intros b t' v' x y H Hx Hy E. pose proof (json_lead _ _ H) as (c & r & -> & Hc).
    assert (v' = JBool b) as ->.
    { destruct b; cbn [bytes_of_string app] in E; injection E as <- E;
        (destruct v' as [|[]| | | |]; unfold is_digit in Hc; try (exfalso; lia); reflexivity). }
    inversion H as [|b0 E0| | | | | |]; subst. rewrite <- E0 in E. split; [reflexivity|]. eapply app_inv_head, E.
  - (* number *) intros t Ht t' v' x y H Hx Hy E. pose proof (number_chars _ Ht) as [Hn (c & r & -> & Hc)].
    pose proof (json_lead _ _ H) as (c' & r' & -> & Hc'). assert (c = c') by (cbn [app] in E; congruence). subst c'.
    destruct v' as [|[]| | | |]; unfold is_digit in *; try (exfalso; lia). inversion H as [| |t00 Hn'| | | | |]; subst.
    pose proof (number_chars _ Hn') as [Hn2 _].
    destruct (prefix_unamb _ _ _ _ _ Hn Hn2 (delim_not_num _ Hx) (delim_not_num _ Hy) E) as [-> ->]. auto.
  - (* string *) intros t s Ht t' v' x y H Hx Hy E. pose proof (json_lead _ _ H) as (c & r & -> & Hc). cbn [app] in E.
    injection E as <- E. destruct v' as [|[]| | | |]; unfold is_digit in *; try (exfalso; lia). inversion H as [| | |t00 s00 Ht0 Ht1 Ht2| | | |]; subst.
    rewrite <- !app_assoc in E. cbn [app] in E. destruct (string_unamb _ _ Ht _ _ _ _ Ht0 E) as [-> ->]. auto.
  - (* empty array *) intros w Hw t' v' x y H Hx Hy E. pose proof (json_lead _ _ H) as (c & r & -> & Hc). cbn [app] in E.
    injection E as <- E. destruct v' as [|[]| | | |]; unfold is_digit in *; try (exfalso; lia). rewrite <- app_assoc in E. cbn [app] in E.
    inversion H as [| | | |w0 Hw0 E1|t00 l00 Hi E1| |]; subst; rewrite <- app_assoc in E; cbn [app] in E.
    + apply ws_unamb in E; [|assumption|assumption|nws|nws]. injection E as E. auto.
    + exfalso. exact (items_not_empty _ _ _ _ _ Hi Hw E).
  - (* array *) intros t l Hi IH t' v' x y H Hx Hy E. pose proof (json_lead _ _ H) as (c & r & -> & Hc). cbn [app] in E.
    injection E as <- E. destruct v' as [|[]| | | |]; unfold is_digit in *; try (exfalso; lia). rewrite <- app_assoc in E. cbn [app] in E.
    inversion H as [| | | |w0 Hw0 E1|t00 l00 Hi0 E1| |]; subst; rewrite <- app_assoc in E; cbn [app] in E.
    + exfalso. exact (items_not_empty _ _ _ _ _ Hi Hw0 (eq_sym E)).
    + destruct (IH _ _ _ _ Hi0 E) as [-> ->]. auto.
  - (* empty object *) intros w Hw t' v' x y H Hx Hy E. pose proof (json_lead _ _ H) as (c & r & -> & Hc). cbn [app] in E.
    injection E as <- E. destruct v' as [|[]| | | |]; unfold is_digit in *; try (exfalso; lia). rewrite <- app_assoc in E. cbn [app] in E.
    inversion H as [| | | | | |w0 Hw0 E1|t00 l00 Hi E1]; subst; rewrite <- app_assoc in E; cbn [app] in E.
    + apply ws_unamb in E; [|assumption|assumption|nws|nws]. injection E as E. auto.
    + exfalso. exact (members_not_empty _ _ _ _ _ Hi Hw E).
  - (* object *) intros t l Hi IH t' v' x y H Hx Hy E. pose proof (json_lead _ _ H) as (c & r & -> & Hc). cbn [app] in E.
    injection E as <- E. destruct v' as [|[]| | | |]; unfold is_digit in *; try (exfalso; lia). rewrite <- app_assoc in E. cbn [app] in E.
    inversion H as [| | | | | |w0 Hw0 E1|t00 l00 Hi0 E1]; subst; rewrite <- app_assoc in E; cbn [app] in E.
    + exfalso. exact (members_not_empty _ _ _ _ _ Hi Hw0 (eq_sym E)).
    + destruct (IH _ _ _ _ Hi0 E) as [-> ->]. auto.
  - (* one item *) intros a t b v Ha Hv IH Hb t' l' x y H E. rewrite <- !app_assoc in E.
    destruct H as [a' t' b' v' Ha' Hv' Hb'|a' t' b' v' u l' Ha' Hv' Hb' Hl']; rewrite <- !app_assoc in E;
      (apply ws_unamb in E; [|assumption|assumption|apply (json_nws _ _ _ Hv)|apply (json_nws _ _ _ Hv')]).
    + destruct (IH t' v' (b ++ 93 :: x) (b' ++ 93 :: y) Hv') as [-> Ex]; [apply delim_ws; cbn; auto|apply delim_ws; cbn; auto|exact E|].
      apply ws_unamb in Ex; [|assumption|assumption|nws|nws]. injection Ex as ->. auto.
    + destruct (IH t' v' (b ++ 93 :: x) (b' ++ 44 :: u ++ 93 :: y) Hv') as [-> Ex]; [apply delim_ws; cbn; auto|apply delim_ws; cbn; auto|exact E|].
      apply ws_unamb in Ex; [discriminate|assumption|assumption|nws|nws].
  - (* more items *) intros a t b v u l Ha Hv IHv Hb Hl IHl t' l' x y H E. rewrite <- !app_assoc in E.
    destruct H as [a' t' b' v' Ha' Hv' Hb'|a' t' b' v' u' l' Ha' Hv' Hb' Hl']; rewrite <- !app_assoc in E;
      (apply ws_unamb in E; [|assumption|assumption|apply (json_nws _ _ _ Hv)|apply (json_nws _ _ _ Hv')]).
    + destruct (IHv t' v' (b ++ 44 :: u ++ 93 :: x) (b' ++ 93 :: y) Hv') as [-> Ex]; [apply delim_ws; cbn; auto|apply delim_ws; cbn; auto|exact E|].
      apply ws_unamb in Ex; [discriminate|assumption|assumption|nws|nws].
    + destruct (IHv t' v' (b ++ 44 :: u ++ 93 :: x) (b' ++ 44 :: u' ++ 93 :: y) Hv') as [-> Ex]; [apply delim_ws; cbn; auto|apply delim_ws; cbn; auto|exact E|].
      apply ws_unamb in Ex; [|assumption|assumption|nws|nws]. injection Ex as Ex. destruct (IHl _ _ _ _ Hl' Ex) as [-> ->]. auto.
  - (* one member *) intros a k s b c t d v Ha Hk Hb Hc Hv IH Hd t' l' x y H E. rewrite <- !app_assoc in E. cbn [app] in E.
    destruct H as [a' k' s' b' c' t' d' v' Ha' Hk' Hb' Hc' Hv' Hd'|a' k' s' b' c' t' d' v' u l' Ha' Hk' Hb' Hc' Hv' Hd' Hl'];
      rewrite <- !app_assoc in E; cbn [app] in E;
      (apply ws_unamb in E; [|assumption|assumption|nws|nws]); injection E as E;
      destruct (string_unamb _ _ Hk _ _ _ _ Hk' E) as [-> E2];
      (apply ws_unamb in E2; [|assumption|assumption|nws|nws]); injection E2 as E2;
      (apply ws_unamb in E2; [|assumption|assumption|apply (json_nws _ _ _ Hv)|apply (json_nws _ _ _ Hv')]).
    + destruct (IH t' v' (d ++ 125 :: x) (d' ++ 125 :: y) Hv') as [-> Ex]; [apply delim_ws; cbn; auto|apply delim_ws; cbn; auto|exact E2|].
      apply ws_unamb in Ex; [|assumption|assumption|nws|nws]. injection Ex as ->. auto.
    + destruct (IH t' v' (d ++ 125 :: x) (d' ++ 44 :: u ++ 125 :: y) Hv') as [-> Ex]; [apply delim_ws; cbn; auto|apply delim_ws; cbn; auto|exact E2|].
      apply ws_unamb in Ex; [discriminate|assumption|assumption|nws|nws].
  - (* more members *) intros a k s b c t d v u l Ha Hk Hb Hc Hv IHv Hd Hl IHl t' l' x y H E. rewrite <- !app_assoc in E. cbn [app] in E.
    destruct H as [a' k' s' b' c' t' d' v' Ha' Hk' Hb' Hc' Hv' Hd'|a' k' s' b' c' t' d' v' u' l' Ha' Hk' Hb' Hc' Hv' Hd' Hl'];
      rewrite <- !app_assoc in E; cbn [app] in E;
      (apply ws_unamb in E; [|assumption|assumption|nws|nws]); injection E as E;
      destruct (string_unamb _ _ Hk _ _ _ _ Hk' E) as [-> E2];
      (apply ws_unamb in E2; [|assumption|assumption|nws|nws]); injection E2 as E2;
      (apply ws_unamb in E2; [|assumption|assumption|apply (json_nws _ _ _ Hv)|apply (json_nws _ _ _ Hv')]).
    + destruct (IHv t' v' (d ++ 44 :: u ++ 125 :: x) (d' ++ 125 :: y) Hv') as [-> Ex]; [apply delim_ws; cbn; auto|apply delim_ws; cbn; auto|exact E2|].
      apply ws_unamb in Ex; [discriminate|assumption|assumption|nws|nws].
    + destruct (IHv t' v' (d ++ 44 :: u ++ 125 :: x) (d' ++ 44 :: u' ++ 125 :: y) Hv') as [-> Ex]; [apply delim_ws; cbn; auto|apply delim_ws; cbn; auto|exact E2|].
      apply ws_unamb in Ex; [|assumption|assumption|nws|nws]. injection Ex as Ex. destruct (IHl _ _ _ _ Hl' Ex) as [-> ->]. auto.
Qed.

(** A text stands for at most one value. *)
Corollary json_text_det t v v' : json_text t v -> json_text t v' -> v = v'.
Proof. intros H H'. apply (json_unamb _ _ H _ _ [] [] H'); cbn; auto. Qed.
Corollary json_doc_det t v v' : json_doc t v -> json_doc t v' -> v = v'.
Proof.
  intros (a & u & b & Ha & Hb & Hu & ->) (a' & u' & b' & Ha' & Hb' & Hu' & E).
  apply ws_unamb in E; [|assumption|assumption|apply (json_nws _ _ _ Hu)|apply (json_nws _ _ _ Hu')].
  assert (forall w, ws w -> delim w) as Hd by (intros w Hw; rewrite <- (app_nil_r w); apply delim_ws; [exact Hw|exact I]).
  apply (json_unamb _ _ Hu _ _ b b' Hu'); auto.
Qed.
Lemma json_doc_text t v : json_text t v -> json_doc t v.
Proof. intros H. exists [], t, []. split; [constructor|]. split; [constructor|]. split; [exact H|]. rewrite app_nil_r. reflexivity. Qed.

(** ** The encoder writes JSON *)
Fixpoint json_ok (v : json) : Prop :=
  match v with
  | JNull | JBool _ => True
  | JNum t => number t
  | JStr s => bytes_ok s
  | JArr l => (fix all l := match l with [] => True | v :: r => json_ok v /\ all r end) l
  | JObj l => (fix all l := match l with [] => True | (k, v) :: r => (bytes_ok k /\ json_ok v) /\ all r end) l
  end.

(** What the text stands for. *)
Fixpoint cleanj (v : json) : json :=
  match v with
  | JStr s => JStr (clean s)
  | JArr l => JArr (map cleanj l)
  | JObj l => JObj (map (fun kv => (clean (fst kv), cleanj (snd kv))) l)
  | v => v
  end.

Lemma ws_nil : ws []. Proof. constructor. Qed.
Global Hint Resolve ws_nil : core.
Lemma it_one0 t v : json_text t v -> items t [v].
Proof. intros H. pose proof (it_one [] t [] v ws_nil H ws_nil) as K. cbn [app] in K. rewrite app_nil_r in K. exact K. Qed.

Lemma pr_text_arr l : (forall v, In v l -> json_text (pr v) (cleanj v)) -> json_text (pr (JArr l)) (cleanj (JArr l)).
Proof.
  intros H. destruct l as [|v l]; [apply (jt_arr0 []); constructor|]. change (pr (JArr (v :: l))) with ([91] ++ sep (map pr (v :: l)) ++ [93]).
  cbn [cleanj]. apply jt_arr. revert v H. induction l as [|w l IH]; intros v H.
  - cbn [map sep flat_map]. rewrite app_nil_r. apply it_one0, H. left. reflexivity.
  - cbn [map sep flat_map] in *. rewrite <- app_assoc. apply (it_more [] (pr v) []); auto; [apply H; left; reflexivity|]. apply IH.
    intros x Hx. apply H. right. exact Hx.
Qed.

Lemma sep_cons x y l : sep (x :: y :: l) = x ++ [44] ++ sep (y :: l).
Proof. unfold sep. cbn [flat_map]. rewrite <- app_assoc. reflexivity. Qed.

Lemma pr_text_obj l : (forall k v, In (k, v) l -> bytes_ok k /\ json_text (pr v) (cleanj v)) -> json_text (pr (JObj l)) (cleanj (JObj l)).
Proof.
  intros H. destruct l as [|[k v] l]; [apply (jt_obj0 []); constructor|].
  change (pr (JObj ((k, v) :: l))) with ([123] ++ sep (map (fun kv => pr_str (fst kv) ++ [58] ++ pr (snd kv)) ((k, v) :: l)) ++ [125]).
  cbn [cleanj]. apply jt_obj. set (f := fun kv : bytes * json => pr_str (fst kv) ++ [58] ++ pr (snd kv)).
  assert (forall k v, f (k, v) = [34] ++ esc_str k ++ [34; 58] ++ pr v) as Hf.
  { intros a b. unfold f, pr_str. cbn [fst snd]. rewrite <- !app_assoc. reflexivity. }
  clearbody f. revert k v H. induction l as [|[k2 v2] l IH]; intros k v H; destruct (H k v (or_introl eq_refl)) as [Hk Hv].
  - change (sep (map f [(k, v)])) with (f (k, v) ++ []). rewrite app_nil_r, Hf.
    pose proof (me_one [] _ _ [] [] _ [] _ ws_nil (esc_text _ Hk) ws_nil ws_nil Hv ws_nil) as K. cbn [app] in K. rewrite app_nil_r in K. exact K.
  - change (sep (map f ((k, v) :: (k2, v2) :: l))) with (sep (f (k, v) :: f (k2, v2) :: map f l)). rewrite sep_cons, Hf, <- !app_assoc.
    apply (me_more [] _ _ [] [] _ []); auto; [apply esc_text, Hk|]. apply IH. intros k' v' Hx. apply H. right. exact Hx.
Qed.

Fixpoint jsize (v : json) : nat :=
  match v with
  | JArr l => S (list_sum (map jsize l))
  | JObj l => S (list_sum (map (fun kv => jsize (snd kv)) l))
  | _ => O
  end.
Lemma in_sum (f : json -> nat) v l : In v l -> (f v <= list_sum (map f l))%nat.
Proof. induction l; [intros []|]. intros [->|H]; cbn; [lia|]. specialize (IHl H). unfold list_sum in IHl. lia. Qed.
Lemma in_sum2 (f : bytes * json -> nat) v l : In v l -> (f v <= list_sum (map f l))%nat.
Proof. induction l; [intros []|]. intros [->|H]; cbn; [lia|]. specialize (IHl H). unfold list_sum in IHl. lia. Qed.

Lemma pr_text v : json_ok v -> json_text (pr v) (cleanj v).
Proof.
  remember (jsize v) as n eqn:En. assert (jsize v <= n)%nat as Hn by lia. clear En. revert v Hn.
  induction n as [n IH] using (well_founded_induction Wf_nat.lt_wf). intros v Hn Hv. destruct v as [|b|t|s|l|l].
  - apply jt_null.
  - apply jt_bool.
  - apply jt_num, Hv.
  - apply jt_str, esc_text, Hv.
  - apply pr_text_arr. intros v Hi. cbn [jsize] in Hn. pose proof (in_sum jsize _ _ Hi) as Hs.
    apply (IH (jsize v)); [lia|lia|]. cbn [json_ok] in Hv. clear -Hv Hi. induction l; [destruct Hi|].
    destruct Hv as [H1 H2]. destruct Hi as [->|Hi]; auto.
  - apply pr_text_obj. intros k v Hi. cbn [jsize] in Hn. pose proof (in_sum2 (fun kv => jsize (snd kv)) _ _ Hi) as Hs. cbn [snd] in Hs.
    cbn [json_ok] in Hv.
    assert (bytes_ok k /\ json_ok v) as [Hk Hv'].
    { clear -Hv Hi. induction l as [|[k' v'] l IHl]; [destruct Hi|]. destruct Hv as [H1 H2].
      destruct Hi as [E|Hi]; [injection E as -> ->; exact H1|auto]. }
    split; [exact Hk|]. apply (IH (jsize v)); [lia|lia|exact Hv'].
Qed.

(** ** The indented form *)
Lemma ws_nl d : ws (nl d).
Proof.
  unfold ws, nl. constructor; [unfold is_ws; auto|]. generalize (4 * d)%nat. induction n; constructor; [unfold is_ws; auto|assumption].
Qed.
Global Hint Resolve ws_nl : core.

Lemma sep_nl_one d x : sep_nl d [x] = nl d ++ x ++ nl (pred d).
Proof. reflexivity. Qed.
Lemma sep_nl_cons d x y l : sep_nl d (x :: y :: l) = nl d ++ x ++ [] ++ [44] ++ sep_nl d (y :: l).
Proof. unfold sep_nl. cbn [flat_map]. rewrite <- !app_assoc. reflexivity. Qed.

Lemma pr_ind_arr d l : (forall v, In v l -> json_text (pr_ind (S d) v) (cleanj v)) -> json_text (pr_ind d (JArr l)) (cleanj (JArr l)).
Proof.
  intros H. destruct l as [|v l]; [apply (jt_arr0 []); constructor|].
  change (pr_ind d (JArr (v :: l))) with ([91] ++ sep_nl (S d) (map (pr_ind (S d)) (v :: l)) ++ [93]).
  cbn [cleanj]. apply jt_arr. revert v H. induction l as [|w l IH]; intros v H.
  - cbn [map]. rewrite sep_nl_one. apply it_one; auto. apply H. left. reflexivity.
  - cbn [map]. rewrite sep_nl_cons. apply it_more; auto; [apply H; left; reflexivity|]. apply IH. intros x Hx. apply H. right. exact Hx.
Qed.

Lemma pr_ind_obj d l : (forall k v, In (k, v) l -> bytes_ok k /\ json_text (pr_ind (S d) v) (cleanj v)) -> json_text (pr_ind d (JObj l)) (cleanj (JObj l)).
Proof.
  intros H. destruct l as [|[k v] l]; [apply (jt_obj0 []); constructor|].
  change (pr_ind d (JObj ((k, v) :: l))) with
    ([123] ++ sep_nl (S d) (map (fun kv => pr_str (fst kv) ++ [58; 32] ++ pr_ind (S d) (snd kv)) ((k, v) :: l)) ++ [125]).
  cbn [cleanj]. apply jt_obj. set (f := fun kv : bytes * json => pr_str (fst kv) ++ [58; 32] ++ pr_ind (S d) (snd kv)).
  assert (forall k v, f (k, v) = [34] ++ esc_str k ++ [34] ++ [] ++ [58] ++ [32] ++ pr_ind (S d) v) as Hf.
  { intros a b. unfold f, pr_str. cbn [fst snd]. rewrite <- !app_assoc. reflexivity. }
  clearbody f. assert (ws [32]) as Hsp by (repeat constructor).
  revert k v H. induction l as [|[k2 v2] l IH]; intros k v H; destruct (H k v (or_introl eq_refl)) as [Hk Hv].
  - cbn [map]. rewrite sep_nl_one, Hf, <- !app_assoc. apply me_one; auto. apply esc_text, Hk.
  - cbn [map]. rewrite sep_nl_cons, Hf, <- !app_assoc. apply me_more; auto; [apply esc_text, Hk|]. apply IH.
    intros k' v' Hx. apply H. right. exact Hx.
Qed.

Lemma pr_ind_text v : json_ok v -> forall d, json_text (pr_ind d v) (cleanj v).
Proof.
  remember (jsize v) as n eqn:En. assert (jsize v <= n)%nat as Hn by lia. clear En. revert v Hn.
  induction n as [n IH] using (well_founded_induction Wf_nat.lt_wf). intros v Hn Hv d. destruct v as [|b|t|s|l|l].
  - apply jt_null.
  - apply jt_bool.
  - apply jt_num, Hv.
  - apply jt_str, esc_text, Hv.
  - apply pr_ind_arr. intros v Hi. cbn [jsize] in Hn. pose proof (in_sum jsize _ _ Hi) as Hs.
    apply (IH (jsize v)); [lia|lia|]. cbn [json_ok] in Hv. clear -Hv Hi. induction l; [destruct Hi|].
    destruct Hv as [H1 H2]. destruct Hi as [->|Hi]; auto.
  - apply pr_ind_obj. intros k v Hi. cbn [jsize] in Hn. pose proof (in_sum2 (fun kv => jsize (snd kv)) _ _ Hi) as Hs. cbn [snd] in Hs.
    cbn [json_ok] in Hv.
    assert (bytes_ok k /\ json_ok v) as [Hk Hv'].
    { clear -Hv Hi. induction l as [|[k' v'] l IHl]; [destruct Hi|]. destruct Hv as [H1 H2].
      destruct Hi as [E|Hi]; [injection E as -> ->; exact H1|auto]. }
    split; [exact Hk|]. apply (IH (jsize v)); [lia|lia|exact Hv'].
Qed.

(** ** JSON texts are bytes *)
Lemma ws_bytes w : ws w -> bytes_ok w.
Proof. intros H. eapply Forall_impl; [|exact H]. intros c Hc. unfold is_ws in Hc. unfold byte_ok. lia. Qed.
Lemma digits_bytes t : Forall is_digit t -> bytes_ok t.
Proof. intros H. eapply Forall_impl; [|exact H]. intros c Hc. unfold is_digit in Hc. unfold byte_ok. lia. Qed.
Lemma number_bytes t : number t -> bytes_ok t.
Proof.
  intros H. apply number_chars in H as [H _]. eapply Forall_impl; [|exact H]. intros c Hc. unfold num_char, is_digit in Hc. unfold byte_ok. lia.
Qed.
Lemma string_text_bytes t s : string_text t s -> bytes_ok t.
Proof.
  induction 1 as [|c t s H|c t s H|c d t s H|h u t s Hh|h h' u v t s Hh Hh']; cbn [app]; repeat (apply bytes_ok_cons; split); try assumption; try lia;
    try apply bytes_ok_nil.
  - cbn in H. repeat (destruct H as [H|H]; [injection H as <- <-; lia|]). destruct H.
  - apply bytes_ok_app. split; [eapply hex4_bytes, Hh|assumption].
  - apply bytes_ok_app. split; [eapply hex4_bytes, Hh|]. cbn [app]. repeat (apply bytes_ok_cons; split; [lia|]).
    apply bytes_ok_app. split; [eapply hex4_bytes, Hh'|assumption].
Qed.
Lemma json_text_bytes t v : json_text t v -> bytes_ok t.
Proof.
  revert t v. apply (json_text_mut (fun t v _ => bytes_ok t) (fun t l _ => bytes_ok t) (fun t l _ => bytes_ok t)); intros;
    try apply bytes_of_string_ok; try (apply number_bytes; assumption);
    rewrite ?bytes_ok_app; repeat split; try assumption; try (apply ws_bytes; assumption); try (eapply string_text_bytes; eassumption);
    repeat (apply bytes_ok_cons; split); try lia; try apply bytes_ok_nil.
Qed.

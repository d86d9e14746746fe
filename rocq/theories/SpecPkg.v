(** Specification of packets: what is on the wire, what a receiver reads at which offset. *)
From Coq Require Import NArith ZArith String Ascii Bool List.
From Verif Require Import GoBase GoFloat SubRecords Records Package SpecBase SpecCrc.
Import ListNotations.
Open Scope N_scope.

Section WithEnv.
Context {E : Env}.

(** Flag fields of the right width. *)
Record wf_flags (p : Package) : Prop := {
  wf_PRF : is_flag2 (p_PRF p);
  wf_RTE : is_flag (p_RTE p);
  wf_ENA : is_flag2 (p_ENA p);
  wf_CMP : is_flag (p_CMP p);
  wf_PR : is_flag2 (p_PR p)
}.

(** Numeric fields in the range of their Go types. *)
Record wf_nums (p : Package) : Prop := {
  wn_PRV : is_u8 (p_PRV p);
  wn_SKID : is_u8 (p_SKID p);
  wn_HL : is_u8 (p_HL p);
  wn_HE : is_u8 (p_HE p);
  wn_PID : is_u16 (p_PID p);
  wn_PT : is_u8 (p_PT p);
  wn_PRA : is_u16 (p_PRA p);
  wn_RCA : is_u16 (p_RCA p);
  wn_TTL : is_u8 (p_TTL p)
}.

(** Routing fields that are not sent have their zero values. *)
Definition unrouted_zero (p : Package) : Prop :=
  p_RTE p <> "1"%string -> p_PRA p = 0 /\ p_RCA p = 0 /\ p_TTL p = 0.

(** The size of the header. *)
Definition header_size (p : Package) : N := if string_dec (p_RTE p) "1" then 16 else 11.
(** The header length byte that Encode writes. *)
Definition header_length (p : Package) : N := if p_HL p =? 0 then header_size p else p_HL p.

(** The header without its checksum; [hl] and [fdl] are the header and body lengths. *)
Definition lay_header (p : Package) (hl fdl : N) : list N :=
  [p_PRV p; p_SKID p;
   64 * fl2 (p_PRF p) + 32 * fl (p_RTE p) + 8 * fl2 (p_ENA p) + 4 * fl (p_CMP p) + fl2 (p_PR p);
   hl; p_HE p] ++ le16 fdl ++ le16 (p_PID p) ++ [p_PT p]
  ++ opt (p_RTE p) (le16 (p_PRA p) ++ le16 (p_RCA p) ++ [p_TTL p]).

(** The frame with body [b] (an absent body is the empty one). *)
Definition lay_frame (p : Package) (hl : N) (b : list N) : list N :=
  let h := lay_header p hl (N.of_nat (length b)) in
  h ++ [checksum8 h] ++ match b with [] => [] | _ => b ++ le16 (checksum16 b) end.

(** The packet with the computed fields filled in and another body. *)
Definition filled (p : Package) (fdl hcs : N) (body : option Body) (crc : N) : Package :=
  mkPackage (p_PRV p) (p_SKID p) (p_PRF p) (p_RTE p) (p_ENA p) (p_CMP p) (p_PR p) (header_size p)
    (p_HE p) fdl (p_PID p) (p_PT p) (p_PRA p) (p_RCA p) (p_TTL p) hcs body crc.

Definition received (p : Package) (b : list N) (body : Body) : Package :=
  let fdl := N.of_nat (length b) in
  filled p fdl (checksum8 (lay_header p (header_size p) fdl)) (Some body) (checksum16 b).

(** [outgoing key p b]: [b] are the bytes of the body of [p] as they are sent: its encoding,
    encrypted with the key if the encryption flag asks for it. *)
Definition outgoing (key : option SecretKey) (p : Package) (b : list N) : Prop :=
  match p_SFRD p with
  | None => b = []
  | Some body =>
      exists s, body_encode body = Ok s /\
        ((p_ENA p = "00"%string /\ b = s)
         \/ (p_ENA p <> "00"%string /\ exists k, key = Some k /\ sk_encode k s = Some b))
  end.

(** [body_arrives pt b body]: the plain body bytes [b] of a packet of type [pt] mean [body]. *)
Definition body_arrives (pt : N) (b : list N) (body : Body) : Prop :=
  (pt = 1 /\ exists l, body = BSds l /\ sds_decode b = Ok l)
  \/ (pt = 0 /\ exists r, body = BResp r /\ PtResponse_decode PtResponse_zero b = Ok r).

(** ** Reading a frame by offsets *)

Definition byte_at (c : list N) (i : nat) : N := nth i c 0.
Definition word_at (c : list N) (i : nat) : N := nth i c 0 + 256 * nth (S i) c 0.

(** The routing bit and the size of the header it implies. *)
Definition routed (c : list N) : bool := N.testbit (byte_at c 2) 5.
Definition wire_header_size (c : list N) : nat := if routed c then 16%nat else 11%nat.

Definition digit (b : bool) : ascii := if b then "1" else "0".
Definition digit1 (n i : N) : string := String (digit (N.testbit n i)) EmptyString.
Definition digit2 (n i : N) : string := String (digit (N.testbit n (i + 1))) (digit1 n i).

(** [p] has the header fields found in [c]. *)
Record header_read (c : list N) (p : Package) : Prop := {
  hr_PRV : p_PRV p = byte_at c 0;
  hr_SKID : p_SKID p = byte_at c 1;
  hr_PRF : p_PRF p = digit2 (byte_at c 2) 6;
  hr_RTE : p_RTE p = digit1 (byte_at c 2) 5;
  hr_ENA : p_ENA p = digit2 (byte_at c 2) 3;
  hr_CMP : p_CMP p = digit1 (byte_at c 2) 2;
  hr_PR : p_PR p = digit2 (byte_at c 2) 0;
  hr_HL : p_HL p = byte_at c 3;
  hr_HE : p_HE p = byte_at c 4;
  hr_FDL : p_FDL p = word_at c 5;
  hr_PID : p_PID p = word_at c 7;
  hr_PT : p_PT p = byte_at c 9;
  hr_route : routed c = true -> p_PRA p = word_at c 10 /\ p_RCA p = word_at c 12 /\ p_TTL p = byte_at c 14
}.

(** Changing bytes: flip the bits of [e] from position [i] on. *)
Definition flip_at (i : nat) (c e : list N) : list N := firstn i c ++ flip (skipn i c) e.

(** How many leading bytes the header checksum covers: HL-1, in the arithmetic of a byte. *)
Definition covered (c : list N) : N := if byte_at c 3 =? 0 then 255 else byte_at c 3 - 1.

End WithEnv.

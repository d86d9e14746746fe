(** The sample sender, tools/send_egts.py, alone and connected to the receiver. Text is a list of
    character codes. *)
From Coq Require Import NArith String Bool List.
From Verif Require Import GoBase SubRecords Package Storage Server.
Import ListNotations.
Open Scope N_scope.

(** open(args.file) reads text with universal newlines: "\r\n" and "\r" become "\n"
    (tools/send_egts.py:22). *)
Fixpoint universal_newlines (t : list N) : list N :=
  match t with
  | [] => []
  | c :: r =>
      if c =? 13 then
        match r with
        | d :: r' => if d =? 10 then 10 :: universal_newlines r' else 10 :: universal_newlines r
        | [] => [10]
        end
      else c :: universal_newlines r
  end.

(** f.readlines(): the lines with their "\n"; the last one may lack it (tools/send_egts.py:23). *)
Fixpoint readlines (t : list N) : list (list N) :=
  match t with
  | [] => []
  | c :: r =>
      if c =? 10 then [10] :: readlines r
      else match readlines r with
           | [] => [[c]]
           | l :: ls => (c :: l) :: ls
           end
  end.

(** bytes.fromhex: pairs of hexadecimal digits, with ASCII white space allowed between pairs;
    None is the ValueError (tools/send_egts.py:25). *)
Definition hex_digit (c : N) : option N :=
  if (48 <=? c) && (c <=? 57) then Some (c - 48)
  else if (65 <=? c) && (c <=? 70) then Some (c - 55)
  else if (97 <=? c) && (c <=? 102) then Some (c - 87)
  else None.
Definition is_space (c : N) : bool := (c =? 32) || ((9 <=? c) && (c <=? 13)).
Fixpoint fromhex (t : list N) : option (list N) :=
  match t with
  | [] => Some []
  | c :: r =>
      if is_space c then fromhex r
      else match r with
           | [] => None
           | d :: r' =>
               match hex_digit c, hex_digit d, fromhex r' with
               | Some a, Some b, Some p => Some (16 * a + b :: p)
               | _, _, _ => None
               end
           end
  end.

(** What the tool does on its connection: client.send(package), client.recv(2048); it ends by
    closing the connection or by the ValueError, which ends the process. print and sleep(1) do
    not touch the connection (tools/send_egts.py:23-32). rec[:-1] is [removelast]. *)
Inductive action :=
| ASend (b : list N)
| ARecv.
Inductive ending := Finished | Raised.
Fixpoint play (ls : list (list N)) : list action * ending :=
  match ls with
  | [] => ([], Finished)
  | l :: ls' =>
      match fromhex (removelast l) with
      | None => ([], Raised)
      | Some p => let '(k, e) := play ls' in (ASend p :: ARecv :: k, e)
      end
  end.
Definition send_tool (text : list N) : list action * ending := play (readlines (universal_newlines text)).

(** The tool connected to the receiver. [sy_acts] is what the tool has still to do; [sy_up] the
    bytes sent and not yet taken by the receiver; [sy_srv] the client number the receiver keeps
    for the connection, None if it closed the connection or died; [sy_down] the bytes written by the
    receiver and not yet received.
    Simplifications: send passes on all bytes (Python's socket.send may pass on fewer); the
    receiver handles a packet in one step (what it writes can be received in pieces, so that
    the order of what the two sides do is not restricted by this); no connection is lost.
    While the tool is connected, a receiver that misses bytes of a packet waits. *)
Record sys := mkSys {
  sy_acts : list action;
  sy_up : list N;
  sy_srv : option N;
  sy_down : list N
}.
Inductive label :=
| LSend (b : list N)
| LRecv (b : list N)
| LServe (evs : list event)
| LClosed.

Definition written (evs : list event) : list N :=
  concat (flat_map (fun e => match e with EvWrite b => [b] | EvSave _ _ => [] end) evs).

Section WithEnv.
Context {E : Env}.

Inductive step : sys -> label -> sys -> Prop :=
| st_send b k up srv down :
    step (mkSys (ASend b :: k) up srv down) (LSend b) (mkSys k (up ++ b) srv down)
| st_recv b k up srv down : b <> [] -> (length b <= 2048)%nat ->
    step (mkSys (ARecv :: k) up srv (b ++ down)) (LRecv b) (mkSys k up srv down)
| st_recv_closed k up :
    step (mkSys (ARecv :: k) up None []) (LRecv []) (mkSys k up None [])
| st_send_broken b k up down :
    step (mkSys (ASend b :: k) up None down) LClosed (mkSys [] up None down)
| st_serve acts c f rest up down evs c' : next_frame [up] = FPacket f rest ->
    runs (handle_packet c f) evs (Some c') ->
    step (mkSys acts up (Some c) down) (LServe evs) (mkSys acts (concat rest) (Some c') (down ++ written evs))
| st_crash acts c f rest up down evs : next_frame [up] = FPacket f rest ->
    runs (handle_packet c f) evs None ->
    step (mkSys acts up (Some c) down) (LServe evs) (mkSys acts (concat rest) None (down ++ written evs))
| st_alien acts c up down : next_frame [up] = FNotEgts ->
    step (mkSys acts up (Some c) down) LClosed (mkSys acts up None down).

Inductive reaches : sys -> list label -> sys -> Prop :=
| re_here s : reaches s [] s
| re_more s ls s' l s'' : reaches s ls s' -> step s' l s'' -> reaches s (ls ++ [l]) s''.

(** client.connect, then the file is played (tools/send_egts.py:17-32). *)
Definition sys_start (text : list N) : sys := mkSys (fst (send_tool text)) [] (Some 0) [].
End WithEnv.

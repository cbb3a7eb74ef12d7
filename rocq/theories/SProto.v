(** Specification vocabulary for the master's procedures. *)
From Verif Require Import CBase MFrame SWire SFrame MRecv SRecv MProto.

Section Line.
  Variable B : Type.
  Variable wret : B -> Z -> Z.
  Variable react : B -> list Z -> B * list ev.
  (** The line after one write of these bytes: nothing read, one more entry in the history. *)
  Definition after_write (w : world B) (bs : list Z) : world B :=
    mkW (fst (react (w_bus w) bs)) (w_evs w ++ snd (react (w_bus w) bs)) (w_log w ++ [Sent bs]).
  (** write() takes all of it. *)
  Definition accepted (w : world B) (bs : list Z) : Prop :=
    wret (w_bus w) (Z.of_nat (length bs)) = Z.of_nat (length bs).
  (** The procedure puts exactly the telegram [t] on the wire and returns [ok], or [fail] if write() did not take it. *)
  Definition emits (x : out (Z * world B)) (w : world B) (t : telegram) : Prop :=
    valid t /\ exists r, x = Done (r, after_write w (wire t)) /\ (r = 0 <-> accepted w (wire t)) /\ (r = 0 \/ r = -1).
  (** The procedure fails without touching the line. *)
  Definition refuses (x : out (Z * world B)) (w : world B) : Prop := exists r, x = Done (r, w) /\ r <> 0.
End Line.
Arguments after_write {B}.
Arguments accepted {B}.
Arguments emits {B}.
Arguments refuses {B}.

(** Telegrams sent by a master: requests and commands. *)
Definition from_master (t : telegram) : Prop :=
  match t with
  | Ack => False
  | Short _ _ => True
  | Control c _ _ | Long c _ _ _ => c = 0x53 \/ c = 0x73
  end.

(** The telegram is one the purge mode skips. *)
Definition skipped (mode : Z) (t : telegram) : Prop :=
  (mode = PURGE_M2S /\ from_master t) \/ (mode = PURGE_S2M /\ ~ from_master t).

(** The next telegram in the input of the transport is [t], cut into reads in any way the transport puts together
    again; [rest] is what follows it. *)
Definition next_telegram (h : handle) (evs : list ev) (t : telegram) (rest : list ev) : Prop :=
  if is_serial h then arrives 2 evs (wire t) rest /\ exists l es, evs = Data l :: es
  else arrives_tcp evs (wire t) rest.

(** Baud rates and their CI codes. *)
Definition baud_codes : list (Z * Z) :=
  [(300, 0xB8); (600, 0xB9); (1200, 0xBA); (2400, 0xBB); (4800, 0xBC); (9600, 0xBD); (19200, 0xBE); (38400, 0xBF)].

(** The requests in a history, each with the result of the first receive call after it and the bytes received (None if
    there is none before the next request). *)
Fixpoint exchanges (l : list action) : list (list Z * option (Z * list Z)) :=
  match l with
  | [] => []
  | Sent bs :: l' =>
      (bs, match l' with Received c got :: _ => Some (c, got) | _ => None end) :: exchanges l'
  | _ :: l' => exchanges l'
  end.
(** The exchange ended with a telegram accepted by the receive call. *)
Definition answered (x : list Z * option (Z * list Z)) : bool :=
  match snd x with Some (c, _) => c =? 0 | None => false end.
(** The accepted telegrams. *)
Definition replies (xs : list (list Z * option (Z * list Z))) : list (list Z) :=
  flat_map (fun x => match snd x with Some (c, got) => if c =? 0 then [got] else [] | None => [] end) xs.
(** The request for class 2 data with the frame count bit set or not. *)
Definition data_request (fcb : bool) (a : Z) : list Z := wire (Short (if fcb then 0x7B else 0x5B) a).
(** Frame count bit discipline: the first request has the bit as given, the bit changes after an accepted reply and
    only then. *)
Fixpoint alternating (fcb : bool) (a : Z) (xs : list (list Z * option (Z * list Z))) : Prop :=
  match xs with
  | [] => True
  | x :: xs' => fst x = data_request fcb a /\ alternating (if answered x then negb fcb else fcb) a xs'
  end.

(** Specification vocabulary for monitoring: reading a list of actions. *)
From Verif Require Import CBase MRecv MMon.

(** The action is a read(). *)
Definition is_read (a : act) : Prop := match a with Read _ _ => True | _ => False end.
(** It is a call of a registered function. *)
Definition is_callback (a : act) : bool := match a with OnSend _ _ | OnRecv _ _ => true | _ => false end.
(** The bytes taken from the line. *)
Definition taken (tr : list act) : list Z := flat_map (fun a => match a with Read _ (RBytes l) => l | _ => [] end) tr.
(** The byte sequences given to the receive function, to the send function; the complete writes. *)
Definition heard (tr : list act) : list (list Z) := flat_map (fun a => match a with OnRecv _ l => [l] | _ => [] end) tr.
Definition told (tr : list act) : list (list Z) := flat_map (fun a => match a with OnSend _ l => [l] | _ => [] end) tr.
Definition complete (tr : list act) : list (list Z) :=
  flat_map (fun a => match a with Write l r => if r =? Z.of_nat (length l) then [l] else [] | _ => [] end) tr.

(** What one call of a transport function may look like to an observer of a handle of this type:
    nothing happens; a telegram is written completely and, if a function is registered, reported at once with exactly
    those bytes; a write that is not complete is not reported; bytes are read and then reported all together; something is
    read and nothing reported. *)
Inductive step (serial : bool) (m : monitor) : list act -> Prop :=
| st_none : step serial m []
| st_sent l : step serial m (Write l (Z.of_nat (length l)) :: (if send_event m then [OnSend serial l] else []))
| st_cut l r : r <> Z.of_nat (length l) -> step serial m [Write l r]
| st_heard rs : Forall is_read rs -> taken rs <> [] ->
    step serial m (rs ++ (if recv_event m then [OnRecv serial (taken rs)] else []))
| st_unheard rs : Forall is_read rs -> step serial m rs.

(** No read() on this schedule fails. *)
Definition no_errors (evs : list ev) : Prop := Forall (fun e => match e with EIntr | EAgain | EOther => False | _ => True end) evs.

(** The calls of a history make sense: frames to send have one of the four types and a size that fits; frames to
    receive into are frame objects. *)
From Verif Require Import MFrame SFrame SRecv.
Definition proper (c : call) : Prop :=
  match c with
  | ASend f _ es => frame_obj f /\ (ftype f = 4 -> 0 <= data_size f <= 252) /\ In (ftype f) [1; 2; 3; 4] /\ ev_bytes es
  | ARecv f => frame_obj f
  | APurge => True
  end.
(** What arrives during a history. *)
Definition arriving (cs : list call) : list ev := flat_map (fun c => match c with ASend _ _ es => es | _ => [] end) cs.

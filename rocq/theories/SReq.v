(** Specification vocabulary for readouts. *)
From Verif Require Import CBase MFrame SWire MVar SVar.

(** A variable data reply on the wire. *)
Definition var_wire (bs : list Z) (more : bool) : Prop :=
  exists c a h its t, (c / 64) mod 2 = 0 /\ length h = 12%nat /\ Forall wf_item its /\ wf_tail t /\
    valid (Long c a 0x72 (h ++ enc_body its t)) /\ bs = wire (Long c a 0x72 (h ++ enc_body its t)) /\
    more = match t with Some (true, _) => true | _ => false end.

(** [goes_on limit n ms]: after [n] telegrams the further telegrams announce more as in [ms]; each but the last
    announces more and stays below the limit, the last announces no more or is the [limit]-th (a limit that is not
    positive allows a single telegram). *)
Fixpoint goes_on (limit n : Z) (ms : list bool) : Prop :=
  match ms with
  | [] => False
  | [m] => m = false \/ limit <= n + 1
  | m :: ms' => m = true /\ n + 1 < limit /\ goes_on limit (n + 1) ms'
  end.

(** Specification of a network of slaves with primary and secondary addresses whose primary addresses can be changed
    (EN 13757-2/-3). *)
From Verif Require Import CBase MFrame SWire MVar SVar SText SSecond MRecv SRecv MProto SProto SBus.

(** The primary address of a slave is the address its telegrams carry. A member of the network: a slave, and whether it
    is selected by secondary address. *)
Definition readdress (n : Z) (s : slave) : slave := mkSlave (sl_c s) n (sl_header s) (sl_items s) (sl_tail s).
Definition members := list (slave * bool).
Definition wf_net (l : members) : Prop := Forall (fun p => wf_slave (fst p) /\ sl_a (fst p) < 253) l.

(** Who listens to an address: 253 the selected slaves, 254 and 255 all, any other address its holder. *)
Definition listens (a : Z) (p : slave * bool) : bool :=
  if a =? 253 then snd p else if (a =? 254) || (a =? 255) then true else sl_a (fst p) =? a.
(** Who answers: nobody answers to 255. *)
Definition answering (a : Z) (l : members) : list slave := if a =? 255 then [] else map fst (filter (listens a) l).
(** The slaves that hold a primary address. *)
Definition holders (a : Z) (l : members) : list slave := filter (fun s => sl_a s =? a) (map fst l).
(** The slaves that match a mask. *)
Definition matching_members (m : list Z) (l : members) : list slave := filter (matches m) (map fst l).

(** Telegrams to an address: reset, request for data, assignment of the primary address [n]. *)
Definition reset_to (a : Z) : telegram := Short 0x40 a.
Definition request_to (a : Z) : telegram := Short 0x5B a.
Definition assign_to (a n : Z) : telegram := Long 0x53 a 0x51 [0x01; 0x7A; n].

(** A network: [st b] are its members in the state [b]. A selection selects those that match and deselects the others,
    a reset of the address 253 deselects, an assignment changes the addresses of those that listen. Selections, resets
    and assignments are acknowledged, requests answered with data. *)
Record net_of (h : handle) (B : Type) (wret : B -> Z -> Z) (react : B -> list Z -> B * list ev) (st : B -> members) : Prop := mkNet {
  net_writes : forall b n, wret b n = n;
  net_select : forall b m, wf_net (st b) -> length m = 8%nat -> bytes m ->
    st (fst (react b (wire (selection m)))) = map (fun p => (fst p, matches m (fst p))) (st b) /\
    exists body, heard h (selection m) (snd (react b (wire (selection m)))) body /\ ack_phase h (matching_members m (st b)) body;
  net_reset : forall b a, wf_net (st b) -> 0 <= a <= 255 ->
    st (fst (react b (wire (reset_to a)))) = (if a =? 253 then map (fun p => (fst p, false)) (st b) else st b) /\
    exists body, heard h (reset_to a) (snd (react b (wire (reset_to a)))) body /\ ack_phase h (answering a (st b)) body;
  net_request : forall b a, wf_net (st b) -> 0 <= a <= 255 ->
    st (fst (react b (wire (request_to a)))) = st b /\
    exists body, heard h (request_to a) (snd (react b (wire (request_to a)))) body /\ data_phase h (answering a (st b)) body;
  net_assign : forall b a n, wf_net (st b) -> 0 <= a <= 255 -> 0 <= n <= 252 ->
    st (fst (react b (wire (assign_to a n)))) = map (fun p => if listens a p then (readdress n (fst p), snd p) else p) (st b) /\
    exists body, heard h (assign_to a n) (snd (react b (wire (assign_to a n)))) body /\ ack_phase h (answering a (st b)) body }.

(** The part of it that selection and reset rely on. *)
Record shared_of (h : handle) (B : Type) (wret : B -> Z -> Z) (react : B -> list Z -> B * list ev) (st : B -> members) : Prop := mkShared {
  sh_writes : forall b n, wret b n = n;
  sh_select : forall b m, wf_net (st b) -> length m = 8%nat -> bytes m ->
    st (fst (react b (wire (selection m)))) = map (fun p => (fst p, matches m (fst p))) (st b) /\
    exists body, heard h (selection m) (snd (react b (wire (selection m)))) body /\ ack_phase h (matching_members m (st b)) body;
  sh_reset : forall b a, wf_net (st b) -> 0 <= a <= 255 ->
    st (fst (react b (wire (reset_to a)))) = (if a =? 253 then map (fun p => (fst p, false)) (st b) else st b) /\
    exists body, heard h (reset_to a) (snd (react b (wire (reset_to a)))) body /\ ack_phase h (answering a (st b)) body }.

(** No two slaves hold the same primary address. *)
Definition distinct_addresses (l : members) : Prop := NoDup (map (fun p => sl_a (fst p)) l).
(** The slaves after an assignment of [n] to those of [who]. *)
Definition moved (who : slave -> bool) (n : Z) (l : list slave) : list slave := map (fun s => if who s then readdress n s else s) l.

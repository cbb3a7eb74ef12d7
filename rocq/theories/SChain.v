(** Specification of a network of meters that answer in several telegrams, at the end of a line that loses and damages
    answers (EN 13757-2/-3). *)
From Verif Require Import CBase MFrame SWire MVar SVar SText SSecond MRecv SRecv MProto SProto SReq SBus SLine SNet.

(** A meter: the telegrams of its message; how far it has served it to requests to its primary address and to requests
    to the address 253; whether it is selected. *)
Record meter := mkMeter { m_parts : list slave; m_home : station; m_away : station; m_chosen : bool }.
Definition start_station : station := mkSt 0 None.
(** It shows its addresses in its first telegram. *)
Definition front (x : meter) : slave := hd (mkSlave 0 0 [] [] None) (m_parts x).
Definition crowd (l : list meter) : members := map (fun x => (front x, m_chosen x)) l.
Definition hearing (a : Z) (l : list meter) : list meter := filter (fun x => listens a (front x, m_chosen x)) l.

(** Selection: those that match are selected and begin their message for the address 253. Reset: of the address 253
    deselects; of the primary address (or a broadcast) the message for that address begins again. *)
Definition select_meter (m : list Z) (x : meter) : meter :=
  mkMeter (m_parts x) (m_home x) (if matches m (front x) then start_station else m_away x) (matches m (front x)).
Definition reset_meter (a : Z) (x : meter) : meter :=
  if a =? 253 then mkMeter (m_parts x) (m_home x) (m_away x) false
  else mkMeter (m_parts x) (if listens a (front x, m_chosen x) then start_station else m_home x) (m_away x) (m_chosen x).
(** A request for data with the frame count bit [fcb]. *)
Definition request_meter (fcb : bool) (a : Z) (x : meter) : meter :=
  if listens a (front x, m_chosen x) then
    if a =? 253 then mkMeter (m_parts x) (m_home x) (serve fcb (m_away x)) (m_chosen x)
    else mkMeter (m_parts x) (serve fcb (m_home x)) (m_away x) (m_chosen x)
  else x.
Definition station_at (a : Z) (x : meter) : station := if a =? 253 then m_away x else m_home x.

(** The network: [st b] are the meters, [fates i] happens in the i-th request for data. Nothing is said about the answers of
    several meters to the same address. *)
Record chain_of (echo : bool) (h : handle) (fates : nat -> fate) (B : Type) (wret : B -> Z -> Z) (react : B -> list Z -> B * list ev)
    (turn : B -> nat) (st : B -> list meter) : Prop := mkChain {
  ch_writes : forall b n, wret b n = n;
  ch_select : forall b m, wf_net (crowd (st b)) -> length m = 8%nat -> bytes m ->
    st (fst (react b (wire (selection m)))) = map (select_meter m) (st b) /\
    exists body, heard h (selection m) (snd (react b (wire (selection m)))) body /\ ack_phase h (matching_members m (crowd (st b))) body;
  ch_reset : forall b a, wf_net (crowd (st b)) -> 0 <= a <= 255 ->
    st (fst (react b (wire (reset_to a)))) = map (reset_meter a) (st b) /\
    exists body, heard h (reset_to a) (snd (react b (wire (reset_to a)))) body /\ ack_phase h (answering a (crowd (st b))) body;
  ch_turn : forall b fcb a, wf_net (crowd (st b)) -> 0 <= a <= 253 -> turn (fst (react b (data_request fcb a))) = S (turn b);
  ch_request : forall b fcb a, wf_net (crowd (st b)) -> 0 <= a <= 253 -> exists body,
    hears echo h (Short (if fcb : bool then 0x7B else 0x5B) a) (snd (react b (data_request fcb a))) body /\
    match hearing a (st b) with
    | [] => st (fst (react b (data_request fcb a))) = st b /\ body = []
    | [x] =>
        st (fst (react b (data_request fcb a))) = match fates (turn b) with RequestLost => st b | _ => map (request_meter fcb a) (st b) end /\
        match fates (turn b) with
        | RequestLost | ReplyLost => body = []
        | ReplyDamaged => burst body /\ damaged h body
        | Fine => forall p, nth_error (m_parts x) (served (serve fcb (station_at a x)) - 1) = Some p -> next_telegram h body (sl_telegram p) []
        end
    | _ => True
    end }.

(** The meters that hold a primary address, and those that match a mask. *)
Definition meters_at (a : Z) (l : list meter) : list meter := filter (fun x => sl_a (front x) =? a) l.
Definition meters_matching (m : list Z) (l : list meter) : list meter := filter (fun x => matches m (front x)) l.

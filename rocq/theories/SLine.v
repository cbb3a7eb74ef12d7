(** Specification of a slave that follows the frame count bit, at the end of a line that loses and damages telegrams. *)
From Verif Require Import CBase MFrame SWire MVar SVar SText SSecond MRecv SRecv MProto SProto SBus.

(** A message in several telegrams: each announces more, except the last. *)
Definition announces (s : slave) : bool := match sl_tail s with Some (true, _) => true | _ => false end.
Fixpoint chained (ps : list slave) : Prop :=
  match ps with
  | [] => False
  | [p] => announces p = false
  | p :: ps' => announces p = true /\ chained ps'
  end.
Definition message (ps : list slave) : Prop := Forall wf_slave ps /\ chained ps.

(** The slave: number of the telegrams of its message it has served, and the frame count bit of the last request (None
    before the first). A request with another bit is served with the next telegram, one with the same bit with the
    same telegram again. *)
Record station := mkSt { served : nat; last_bit : option bool }.
Definition serve (fcb : bool) (s : station) : station :=
  match last_bit s with
  | Some b => if Bool.eqb b fcb then s else mkSt (S (served s)) (Some fcb)
  | None => mkSt (S (served s)) (Some fcb)
  end.
(** At the beginning: nothing served, the next request has the bit set (as after a reset). *)
Definition fresh (s : station) : Prop := served s = 0%nat /\ last_bit s <> Some true.

(** What happens to an exchange. *)
Inductive fate := Fine | RequestLost | ReplyLost | ReplyDamaged.

(** What the master hears after sending [t]: on an echoing line its own telegram first. *)
Definition hears (echo : bool) (h : handle) (t : telegram) (es body : list ev) : Prop :=
  if echo then purge_first_frame h = PURGE_M2S /\ next_telegram h es t body else es = body.

(** The line: [fates i] happens in the i-th exchange; [ok]: the states in which the address belongs to the slave alone. *)
Record line_of (echo : bool) (h : handle) (a : Z) (ps : list slave) (fates : nat -> fate) (B : Type) (wret : B -> Z -> Z)
    (react : B -> list Z -> B * list ev) (turn : B -> nat) (st : B -> station) (ok : B -> Prop) : Prop := mkLine {
  line_writes : forall b n, wret b n = n;
  line_ok : forall b fcb, ok b -> ok (fst (react b (data_request fcb a)));
  line_turn : forall b fcb, ok b -> turn (fst (react b (data_request fcb a))) = S (turn b);
  line_react : forall b fcb, ok b -> exists body,
    hears echo h (Short (if fcb : bool then 0x7B else 0x5B) a) (snd (react b (data_request fcb a))) body /\
    st (fst (react b (data_request fcb a))) = match fates (turn b) with RequestLost => st b | _ => serve fcb (st b) end /\
    match fates (turn b) with
    | RequestLost | ReplyLost => body = []
    | ReplyDamaged => burst body /\ damaged h body
    | Fine => forall p, nth_error ps (served (serve fcb (st b)) - 1) = Some p -> next_telegram h body (sl_telegram p) []
    end }.

(** No more than [k] consecutive exchanges fail. *)
Definition recovers (k : Z) (fates : nat -> fate) : Prop :=
  forall i, exists j, (i <= j)%nat /\ Z.of_nat j <= Z.of_nat i + k /\ fates j = Fine.

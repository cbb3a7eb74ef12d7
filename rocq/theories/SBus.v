(** Specification of a bus of slaves with secondary addresses (EN 13757-3, selection with wildcards). *)
From Verif Require Import CBase MFrame SWire MVar SVar SText SSecond MRecv SRecv MProto SProto.

(** A slave answers with a variable data telegram; its address is the first eight bytes of the header: identification
    number, manufacturer, version, medium. *)
Record slave := mkSlave { sl_c : Z; sl_a : Z; sl_header : list Z; sl_items : list item; sl_tail : tail }.
Definition sl_telegram (s : slave) : telegram := Long (sl_c s) (sl_a s) 0x72 (sl_header s ++ enc_body (sl_items s) (sl_tail s)).
Definition sl_addr (s : slave) : list Z := firstn 8 (sl_header s).
Definition wf_slave (s : slave) : Prop :=
  valid (sl_telegram s) /\ (sl_c s / 64) mod 2 = 0 /\ length (sl_header s) = 12%nat /\ Forall wf_item (sl_items s) /\ wf_tail (sl_tail s).

(** Wildcards: the digit F in the identification number, the byte FF in the rest. *)
Definition digit_matches (m a : Z) : bool := (m =? 15) || (m =? a).
Definition id_byte_matches (m a : Z) : bool := digit_matches (m / 16) (a / 16) && digit_matches (m mod 16) (a mod 16).
Definition byte_matches (m a : Z) : bool := (m =? 255) || (m =? a).
Definition matches (m : list Z) (s : slave) : bool :=
  match m, sl_addr s with
  | [m0; m1; m2; m3; m4; m5; m6; m7], [a0; a1; a2; a3; a4; a5; a6; a7] =>
      id_byte_matches m0 a0 && id_byte_matches m1 a1 && id_byte_matches m2 a2 && id_byte_matches m3 a3 &&
      byte_matches m4 a4 && byte_matches m5 a5 && byte_matches m6 a6 && byte_matches m7 a7
  | _, _ => false
  end.

(** What the master hears after sending [t]: [body], on an echoing line (echo cancellation on) after its own telegram. *)
Definition heard (h : handle) (t : telegram) (es body : list ev) : Prop :=
  es = body \/ (purge_first_frame h = PURGE_M2S /\ next_telegram h es t body).

(** Overlapping answers that are visible as such: input that begins with a byte no telegram begins with; on a serial
    line also a damaged or truncated telegram in the slaves' direction. *)
Definition damaged (h : handle) (es : list ev) : Prop :=
  (exists b l rest, es = Data (b :: l) :: rest /\ b <> 0xE5 /\ b <> 0x10 /\ b <> 0x68) \/
  (is_serial h = true /\ stream es <> [] /\ (forall n, ~ well_formed (firstn n (stream es))) /\
   ((length (stream es) < 5)%nat \/ (hd 0 (stream es) = 0x68 /\ (nth 4 (stream es) 0 / 64) mod 2 = 0) \/ purge_first_frame h = PURGE_NONE)).
(** Something is still there: a damaged telegram or another one from a slave. *)
Definition something (h : handle) (es : list ev) : Prop :=
  damaged h es \/ exists t rest, valid t /\ ~ from_master t /\ next_telegram h es t rest.
(** Input that ends in silence. *)
Definition burst (es : list ev) : Prop := all_data es /\ ev_bytes es.

(** Answers to a selection: none, an acknowledgement, or - if several slaves answer - the overlapped
    acknowledgements, which may look like one. *)
Definition ack_phase (h : handle) (selected : list slave) (body : list ev) : Prop :=
  match selected with
  | [] => body = []
  | [_] => next_telegram h body Ack []
  | _ => next_telegram h body Ack [] \/
         (burst body /\ (damaged h body \/ exists rest, next_telegram h body Ack rest /\ something h rest))
  end.
(** Answers to a request for data: of several slaves, visibly overlapped. *)
Definition data_phase (h : handle) (selected : list slave) (body : list ev) : Prop :=
  match selected with
  | [] => body = []
  | [s] => next_telegram h body (sl_telegram s) []
  | _ => burst body /\ (damaged h body \/ exists t rest, valid t /\ ~ from_master t /\ next_telegram h body t rest /\ something h rest)
  end.

Definition selection (m : list Z) : telegram := Long 0x73 0xFD 0x52 m.
Definition request : telegram := Short 0x5B 0xFD.

(** A bus with these slaves: [selected b] are the slaves selected in the state [b]. A selection selects those that
    match and deselects the others; each acknowledges; the selected slaves answer a request to the address FD. *)
Record bus_of (h : handle) (slaves : list slave) (B : Type) (wret : B -> Z -> Z) (react : B -> list Z -> B * list ev)
    (selected : B -> list slave) : Prop := mkBus {
  bus_slaves : Forall wf_slave slaves;
  bus_writes : forall b n, wret b n = n;
  bus_select : forall b m, length m = 8%nat -> bytes m ->
    selected (fst (react b (wire (selection m)))) = filter (matches m) slaves /\
    exists body, heard h (selection m) (snd (react b (wire (selection m)))) body /\ ack_phase h (filter (matches m) slaves) body;
  bus_request : forall b,
    selected (fst (react b (wire request))) = selected b /\
    exists body, heard h request (snd (react b (wire request))) body /\ data_phase h (selected b) body }.

(** Modes in which answers of slaves are not skipped. *)
Definition hears_slaves (h : handle) : Prop := purge_first_frame h = PURGE_NONE \/ purge_first_frame h = PURGE_M2S.

(** Number of telegrams sent and texts reported in a history. *)
Definition sends (l : list action) : nat := length (filter (fun a => match a with Sent _ => true | _ => false end) l).
Definition reports (l : list action) : list (list Z) := flat_map (fun a => match a with Found s => [s] | _ => [] end) l.

(** Masks: 16 characters, hexadecimal digits, decimal digits or the wildcard F in the identification number. *)
Definition wf_mask (s : list Z) : Prop := hex16 s /\ Forall mask_digit (firstn 8 s).
Definition wildcard (c : Z) : Prop := c = 70 \/ c = 102.
(** Identification number in decimal digits. *)
Definition decimal_id (s : slave) : Prop := Forall (fun b => b / 16 <= 9 /\ b mod 16 <= 9) (firstn 4 (sl_addr s)).

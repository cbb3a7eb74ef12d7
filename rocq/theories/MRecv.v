(** Model of the transport layers: mbus/mbus-serial.c and mbus/mbus-tcp.c (send and receive).
    No proofs here. *)
From Verif Require Import CBase MFrame.

(** What the next read() on the descriptor will give.
    [Data l]: the bytes [l] are available (a read of n bytes returns up to n of them, the rest stays);
    [Zero]: read returns 0 (serial line: inter-character timeout; TCP: connection closed);
    [EIntr], [EAgain], [EOther]: read returns -1 with that errno. *)
Inductive ev := Data (l : list Z) | Zero | EIntr | EAgain | EOther.

(** Result of one read(). *)
Inductive rres := RBytes (l : list Z) | RErr (e : ev).

(** POSIX read(fd, buf, n) on the event list; [dflt] is what the descriptor gives when the list is
    exhausted (silence). *)
Definition read_ev (dflt : rres) (evs : list ev) (n : nat) : rres * list ev :=
  match evs with
  | [] => (dflt, [])
  | Data l :: es =>
      if (length l <=? n)%nat then (RBytes l, es)
      else (RBytes (firstn n l), Data (skipn n l) :: es)
  | Zero :: es => (RBytes [], es)
  | e :: es => (RErr e, es)
  end.

(** mbus-protocol.h 118-122: result codes of the receive functions. *)
Definition RECV_OK := 0.
Definition RECV_ERROR := -1.
Definition RECV_INVALID := -2.
Definition RECV_TIMEOUT := -3.
Definition RECV_RESET := -4.

(** mbus-serial.c 28, mbus-tcp.c 26 [PACKET_BUFF_SIZE]. *)
Definition PACKET_BUFF_SIZE := 2048.

(** Outcome of a receive call: C return value, frame object, unread events, bytes received (what
    the recv_event callback is given). [None] = the loop ran out of fuel (excluded by theorem). *)
Definition recv_res := res (option (Z * frame * list ev * list Z)).

(** mbus-serial.c 357-381: after the loop. *)
Definition serial_finish (f : frame) (evs : list ev) (got : list Z) (remaining : Z) : recv_res :=
  if (length got =? 0)%nat then Ok (Some (RECV_TIMEOUT, f, evs, got))
  else if negb (remaining =? 0) then Ok (Some (RECV_INVALID, f, evs, got))
  else Ok (Some (RECV_OK, f, evs, got)).

(** mbus-serial.c 315-355: the do/while loop of [mbus_serial_recv_frame]. [got] is buff[0..len).
    A silent line gives Zero for ever. Simplified: the SSIZE_MAX test (333-337) cannot trigger with
    len < 2048 and is omitted; debug output omitted. *)
Fixpoint serial_loop (fuel : nat) (f : frame) (evs : list ev) (got : list Z)
         (remaining : Z) (timeouts : Z) : recv_res :=
  match fuel with
  | O => Ok None
  | S fuel' =>
      let len := Z.of_nat (length got) in
      if len + remaining >? PACKET_BUFF_SIZE then Ok (Some (RECV_ERROR, f, evs, got))
      else
        match read_ev (RBytes []) evs (Z.to_nat remaining) with
        | (RErr _, es) => Ok (Some (RECV_ERROR, f, es, got))
        | (RBytes bs, es) =>
            let nread := Z.of_nat (length bs) in
            let timeouts' := if nread =? 0 then timeouts + 1 else timeouts in
            if (nread =? 0) && (timeouts' >=? 3) then serial_finish f es got remaining
            else if len + nread >? PACKET_BUFF_SIZE then UB
            else
              let got' := got ++ bs in
              let* (r, f') := mbus_parse f got' in
              if r >? 0 then serial_loop fuel' f' es got' r timeouts'
              else serial_finish f' es got' r
        end
  end.

(** Fuel that suffices: one unit per event and byte, plus the final empty reads. *)
Fixpoint ev_size (evs : list ev) : nat :=
  match evs with
  | [] => 0
  | Data l :: es => S (length l) + ev_size es
  | _ :: es => S (ev_size es)
  end.

(** mbus-serial.c 287-382 [mbus_serial_recv_frame] (handle open, pointers not NULL). *)
Definition mbus_serial_recv_frame (f : frame) (evs : list ev) : recv_res :=
  serial_loop (ev_size evs + 4) f evs [] 1 0.

(** mbus-tcp.c 208-247: the do/while loop of [mbus_tcp_recv_frame]. A silent connection gives
    EAGAIN (receive timeout) for ever. *)
Fixpoint tcp_loop (fuel : nat) (f : frame) (evs : list ev) (got : list Z) (remaining : Z) : recv_res :=
  match fuel with
  | O => Ok None
  | S fuel' =>
      let len := Z.of_nat (length got) in
      if len + remaining >? PACKET_BUFF_SIZE then Ok (Some (RECV_ERROR, f, evs, got))
      else
        match read_ev (RErr EAgain) evs (Z.to_nat remaining) with
        | (RErr EIntr, es) => tcp_loop fuel' f es got remaining
        | (RErr EAgain, es) => Ok (Some (RECV_TIMEOUT, f, es, got))
        | (RErr _, es) => Ok (Some (RECV_ERROR, f, es, got))
        | (RBytes bs, es) =>
            if (length bs =? 0)%nat then Ok (Some (RECV_RESET, f, es, got))
            else
              let nread := Z.of_nat (length bs) in
              if len + nread >? PACKET_BUFF_SIZE then UB
              else
                let got' := got ++ bs in
                let* (r, f') := mbus_parse f got' in
                if r >? 0 then tcp_loop fuel' f' es got' r
                else if r <? 0 then Ok (Some (RECV_INVALID, f', es, got'))
                else Ok (Some (RECV_OK, f', es, got'))
        end
  end.

(** mbus-tcp.c 190-256 [mbus_tcp_recv_frame] (pointers not NULL). *)
Definition mbus_tcp_recv_frame (f : frame) (evs : list ev) : recv_res :=
  tcp_loop (ev_size evs + 4) f evs [] 1.

(** mbus-serial.c 228-282 [mbus_serial_send_frame] and mbus-tcp.c 150-185 [mbus_tcp_send_frame]
    (handle open, pointers not NULL; the two bodies agree up to tcdrain and diagnostics).
    [wret n] is the value write(fd, buff, n) returns for a count of n bytes. Result: the C return
    value, the frame (length and checksum updated by packing) and the bytes handed to write().
    write() with a negative length becomes a huge size_t count reading far beyond the 2048-byte
    buffer: undefined behaviour. *)
Definition transport_send_frame (wret : Z -> Z) (f : frame) : res (Z * frame * option (list Z)) :=
  let buff := repeat 0 (Z.to_nat PACKET_BUFF_SIZE) in
  let* (len, f', buff') := mbus_frame_pack f buff PACKET_BUFF_SIZE in
  if len =? -1 then Ok (-1, f', None)
  else if len <? 0 then UB
  else if wret len =? len then Ok (0, f', Some (firstn (Z.to_nat len) buff'))
  else Ok (-1, f', Some (firstn (Z.to_nat len) buff')).

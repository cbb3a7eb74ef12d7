(** Model of the transport functions with what an observer sees: the system calls made and the calls of the registered
    monitoring functions. mbus-serial.c, mbus-tcp.c, mbus-protocol-aux.c. No proofs here. *)
From Verif Require Import CBase MFrame MRecv MProto.

(** What happens, in order. [Write l r]: write() was given the bytes [l] and returned [r]; [Read n r]: read() was asked
    for n bytes; [OnSend], [OnRecv]: the registered function is called with the type of the handle (true: serial) and
    these bytes. *)
Inductive act := Write (l : list Z) (r : Z) | Read (n : Z) (r : rres) | OnSend (serial : bool) (l : list Z) | OnRecv (serial : bool) (l : list Z).

(** mbus-protocol-aux.h 95-96: send_event and recv_event of the handle, each NULL (false) or a function.
    mbus-protocol-aux.c 750-766 [mbus_register_send_event], [mbus_register_recv_event] set them. *)
Record monitor := mkMon { send_event : bool; recv_event : bool }.
Definition mbus_register_recv_event (m : monitor) (present : bool) : monitor := mkMon (send_event m) present.
Definition mbus_register_send_event (m : monitor) (present : bool) : monitor := mkMon present (recv_event m).

Section Monitor.
  Variable serial : bool.
  Variable m : monitor.

  (** mbus-serial.c 228-282 [mbus_serial_send_frame], mbus-tcp.c 150-185 [mbus_tcp_send_frame] (pointers not NULL);
      [tty]: isatty(fd), tested by the serial function only. See MRecv.transport_send_frame. *)
  Definition send_mon (tty : bool) (wret : Z -> Z) (f : frame) : res (Z * frame * list act) :=
    if serial && negb tty then Ok (-1, f, [])
    else
      let* (len, f', buff) := mbus_frame_pack f (repeat 0 (Z.to_nat PACKET_BUFF_SIZE)) PACKET_BUFF_SIZE in
      if len =? -1 then Ok (-1, f', [])
      else if len <? 0 then UB
      else
        let bs := firstn (Z.to_nat len) buff in
        if wret len =? len
        then Ok (0, f', Write bs (wret len) :: (if send_event m then [OnSend serial bs] else []))
        else Ok (-1, f', [Write bs (wret len)]).

  (** Outcome of a receive call: code, frame, unread events, what happened; None: out of fuel. *)
  Definition mon_res := res (option (Z * frame * list ev * list act)).
  Definition report (got : list Z) : list act := if recv_event m then [OnRecv serial got] else [].

  (** mbus-serial.c 357-381. *)
  Definition serial_finish_mon (f : frame) (evs : list ev) (got : list Z) (remaining : Z) (tr : list act) : mon_res :=
    if (length got =? 0)%nat then Ok (Some (RECV_TIMEOUT, f, evs, tr))
    else
      let tr := tr ++ report got in
      if negb (remaining =? 0) then Ok (Some (RECV_INVALID, f, evs, tr)) else Ok (Some (RECV_OK, f, evs, tr)).
  (** mbus-serial.c 315-355: the loop (see MRecv.serial_loop). *)
  Fixpoint serial_loop_mon (fuel : nat) (f : frame) (evs : list ev) (got : list Z) (remaining timeouts : Z) (tr : list act) : mon_res :=
    match fuel with
    | O => Ok None
    | S fuel' =>
        let len := Z.of_nat (length got) in
        if len + remaining >? PACKET_BUFF_SIZE then Ok (Some (RECV_ERROR, f, evs, tr))
        else
          let (r, es) := read_ev (RBytes []) evs (Z.to_nat remaining) in
          let tr := tr ++ [Read remaining r] in
          match r with
          | RErr _ => Ok (Some (RECV_ERROR, f, es, tr))
          | RBytes bs =>
              let nread := Z.of_nat (length bs) in
              let timeouts' := if nread =? 0 then timeouts + 1 else timeouts in
              if (nread =? 0) && (timeouts' >=? 3) then serial_finish_mon f es got remaining tr
              else if len + nread >? PACKET_BUFF_SIZE then UB
              else
                let got' := got ++ bs in
                let* (r, f') := mbus_parse f got' in
                if r >? 0 then serial_loop_mon fuel' f' es got' r timeouts' tr
                else serial_finish_mon f' es got' r tr
          end
    end.
  (** mbus-tcp.c 208-256: the loop (see MRecv.tcp_loop) and what follows it. *)
  Fixpoint tcp_loop_mon (fuel : nat) (f : frame) (evs : list ev) (got : list Z) (remaining : Z) (tr : list act) : mon_res :=
    match fuel with
    | O => Ok None
    | S fuel' =>
        let len := Z.of_nat (length got) in
        if len + remaining >? PACKET_BUFF_SIZE then Ok (Some (RECV_ERROR, f, evs, tr))
        else
          let (r, es) := read_ev (RErr EAgain) evs (Z.to_nat remaining) in
          let tr := tr ++ [Read remaining r] in
          match r with
          | RErr EIntr => tcp_loop_mon fuel' f es got remaining tr
          | RErr EAgain => Ok (Some (RECV_TIMEOUT, f, es, tr))
          | RErr _ => Ok (Some (RECV_ERROR, f, es, tr))
          | RBytes bs =>
              if (length bs =? 0)%nat then Ok (Some (RECV_RESET, f, es, tr))
              else
                let nread := Z.of_nat (length bs) in
                if len + nread >? PACKET_BUFF_SIZE then UB
                else
                  let got' := got ++ bs in
                  let* (r, f') := mbus_parse f got' in
                  if r >? 0 then tcp_loop_mon fuel' f' es got' r tr
                  else
                    let tr := tr ++ report got' in
                    if r <? 0 then Ok (Some (RECV_INVALID, f', es, tr)) else Ok (Some (RECV_OK, f', es, tr))
          end
    end.
  (** mbus-serial.c 287-382 [mbus_serial_recv_frame], mbus-tcp.c 190-256 [mbus_tcp_recv_frame] (pointers not NULL). *)
  Definition recv_mon (tty : bool) (f : frame) (evs : list ev) : mon_res :=
    if serial then
      if negb tty then Ok (Some (RECV_ERROR, f, evs, [])) else serial_loop_mon (ev_size evs + 4) f evs [] 1 0 []
    else tcp_loop_mon (ev_size evs + 4) f evs [] 1 [].

  (** mbus-protocol-aux.c 1674-1712 [mbus_recv_frame] (see MProto.mbus_recv_frame); [purge]: the purge option. *)
  Definition mbus_recv_frame_mon (tty : bool) (purge : Z) (f : frame) (evs : list ev) : out (Z * frame * list ev * list act) :=
    do o <- lift (recv_mon tty f evs) ;;
    match o with
    | None => Endless
    | Some (c, f1, evs1, tr1) =>
        let dir := mbus_frame_direction f1 in
        if ((dir =? DIR_M2S) && (purge =? PURGE_M2S)) || ((dir =? DIR_S2M) && (purge =? PURGE_S2M))
        then
          do o <- lift (recv_mon tty f1 evs1) ;;
          match o with
          | None => Endless
          | Some (c2, f2, evs2, tr2) => Done (c2, f2, evs2, tr1 ++ tr2)
          end
        else Done (c, f1, evs1, tr1)
    end.
  (** mbus-protocol-aux.c 1714-1733 [mbus_purge_frames]. *)
  Fixpoint purge_loop_mon (fuel : nat) (tty : bool) (purge : Z) (f : frame) (evs : list ev) (received : Z) (tr : list act)
    : out (Z * list ev * list act) :=
    match fuel with
    | O => Endless
    | S fuel' =>
        do (c, f, evs, tr') <- mbus_recv_frame_mon tty purge f evs ;;
        let tr := tr ++ tr' in
        if negb (c =? RECV_OK) && negb (c =? RECV_INVALID) then Done (received, evs, tr)
        else purge_loop_mon fuel' tty purge f evs 1 tr
    end.
  Definition mbus_purge_frames_mon (tty : bool) (purge : Z) (evs : list ev) : out (Z * list ev * list act) :=
    purge_loop_mon (S (ev_size evs)) tty purge frame_zero evs 0 [].

  (** One call by the application (or by a procedure of the library, all of which use the line only through these
      three): send this frame, write() behaving as [wret], after which [es] arrives; receive into this frame; purge. *)
  Inductive call := ASend (f : frame) (wret : Z -> Z) (es : list ev) | ARecv (f : frame) | APurge.
  (** A history of calls: the results, what is left unread, what happened. *)
  Fixpoint history (tty : bool) (purge : Z) (cs : list call) (evs : list ev) : out (list Z * list ev * list act) :=
    match cs with
    | [] => Done ([], evs, [])
    | c :: cs =>
        do (r, evs, tr) <-
          match c with
          | ASend f wret es => do (r, _, tr) <- lift (send_mon tty wret f) ;; Done (r, evs ++ es, tr)
          | ARecv f => do (r, _, evs, tr) <- mbus_recv_frame_mon tty purge f evs ;; Done (r, evs, tr)
          | APurge => mbus_purge_frames_mon tty purge evs
          end ;;
        do (rs, evs, tr') <- history tty purge cs evs ;;
        Done (r :: rs, evs, tr ++ tr')
    end.
End Monitor.

(** Model of the programs in bin/: what they do between connecting and disconnecting. No proofs here.
    Simplified: reading the command line (MCmd), connecting and the debug output are omitted; an address on the command line
    is given as [Primary n] (the number atoi yields) or [Secondary (Some s)] (a text mbus_is_secondary_address
    accepts). *)
From Verif Require Import CBase CStr MFrame MCodec MVar MText MXml MRecv MSecond MProto.

Section Tools.
  Variable B : Type.
  Variable wret : B -> Z -> Z.
  Variable react : B -> list Z -> B * list ev.
  Notation W := (world B).

  (** bin/mbus-serial-set-address.c 21-45 [init_slaves]; the same in bin/mbus-serial-request-data.c 21-46,
      bin/mbus-serial-request-data-multi-reply.c, bin/mbus-tcp-request-data-multi-reply.c. *)
  Definition init_slaves (h : handle) (w : W) : out (Z * W) :=
    do (r, w) <- mbus_send_ping_frame B wret react (Some h) 0xFD true w ;;
    if r =? -1 then Done (0, w)
    else
      do (r, w) <- mbus_send_ping_frame B wret react (Some h) 0xFD true w ;;
      if r =? -1 then Done (0, w) else Done (1, w).

  (** bin/mbus-serial-scan.c 24-44 (bin/mbus-tcp-scan.c the same): the retry loop of [ping_address]; [n] rounds are
      left, [ret] the result so far. *)
  Fixpoint ping_loop (n : nat) (h : handle) (reply : frame) (addr ret : Z) (w : W) : out (Z * frame * W) :=
    match n with
    | O => Done (ret, reply, w)
    | S n' =>
        do (r, w) <- mbus_send_ping_frame B wret react (Some h) addr false w ;;
        if r =? -1 then Done (RECV_ERROR, reply, w)
        else
          do (c, reply, w) <- mbus_recv_frame B (Some h) reply w ;;
          if negb (c =? RECV_TIMEOUT) then Done (c, reply, w) else ping_loop n' h reply addr c w
    end.
  (** bin/mbus-serial-scan.c 18-47 [ping_address]: the reply is zeroed once. *)
  Definition ping_address (h : handle) (addr : Z) (w : W) : out (Z * frame * W) :=
    ping_loop (Z.to_nat (max_search_retry h + 1)) h frame_zero addr RECV_ERROR w.

  (** The lines printed by the scan. *)
  Inductive line := DeviceAt (a : Z) | CollisionAt (a : Z).
  (** bin/mbus-serial-scan.c 149-182: one round of the scan. *)
  Definition scan_address (h : handle) (addr : Z) (w : W) : out (list line * W) :=
    do (ret, reply, w) <- ping_address h addr w ;;
    if ret =? RECV_TIMEOUT then Done ([], w)
    else if ret =? RECV_INVALID then do (_, w) <- mbus_purge_frames B (Some h) w ;; Done ([CollisionAt addr], w)
    else if mbus_frame_type reply =? T_ACK then
      do (p, w) <- mbus_purge_frames B (Some h) w ;;
      if negb (p =? 0) then Done ([CollisionAt addr], w) else Done ([DeviceAt addr], w)
    else Done ([], w).
  Fixpoint scan_addresses (h : handle) (addrs : list Z) (w : W) : out (list line * W) :=
    match addrs with
    | [] => Done ([], w)
    | a :: addrs' => do (l, w) <- scan_address h a w ;; do (l', w) <- scan_addresses h addrs' w ;; Done (l ++ l', w)
    end.
  (** bin/mbus-serial-scan.c 147-183: addresses 0 to MBUS_MAX_PRIMARY_SLAVES = 250. *)
  Definition scan_main (h : handle) (w : W) : out (list line * W) := scan_addresses h (map Z.of_nat (seq 0 251)) w.

  (** The common selection of the addressed slave: bin/mbus-serial-set-address.c 162-197,
      bin/mbus-serial-request-data.c 128-166, bin/mbus-serial-request-data-multi-reply.c 140-177. None: exit with 1. *)
  Definition address_slave (h : handle) (a : mbus_address) (w : W) : out (option Z * W) :=
    match a with
    | Primary n => Done (Some n, w)
    | Secondary None => Undef
    | Secondary (Some s) =>
        do (ret, w) <- mbus_select_secondary_address B wret react (Some h) s w ;;
        if (ret =? PROBE_COLLISION) || (ret =? PROBE_NOTHING) || (ret =? PROBE_ERROR) then Done (None, w) else Done (Some 0xFD, w)
    end.

  (** bin/mbus-serial-set-address.c 96-228: exit code, whether the success message is printed. [junk] is the
      uninitialised object [reply] (54) the first receive call gets (153). *)
  Definition set_address_main (h : handle) (junk : frame) (old : mbus_address) (new : Z) (w : W) : out (Z * bool * W) :=
    if negb (mbus_is_primary_address new) then Done (-1, false, w)
    else if (new =? 0xFD) || (new =? 0xFE) || (new =? 0xFF) then Done (-1, false, w)
    else
      do (r, w) <- init_slaves h w ;;
      if r =? 0 then Done (1, false, w)
      else
        do (r, w) <- mbus_send_ping_frame B wret react (Some h) new false w ;;
        if r =? -1 then Done (1, false, w)
        else
          do (c, _, w) <- mbus_recv_frame B (Some h) junk w ;;
          if negb (c =? RECV_TIMEOUT) then Done (1, false, w)
          else
            do (a, w) <- address_slave h old w ;;
            match a with
            | None => Done (1, false, w)
            | Some a =>
                do (r, w) <- mbus_set_primary_address B wret react (Some h) a new w ;;
                if r =? -1 then Done (1, false, w)
                else
                  do (c, reply, w) <- mbus_recv_frame B (Some h) frame_zero w ;;
                  if c =? RECV_TIMEOUT then Done (1, false, w)
                  else if negb (mbus_frame_type reply =? T_ACK) then Done (0, false, w)
                  else Done (0, true, w)
            end.

  (** bin/mbus-serial-request-data.c 121-226 and bin/mbus-tcp-request-data.c 79-165 (which has no [init_slaves]): exit
      code and the document printed. Simplified: the final release of the record list is omitted. *)
  Definition request_data_main (stamp : Z -> option (list Z)) (h : handle) (a : mbus_address) (w : W) : out (Z * option (list Z) * W) :=
    do (r, w) <- (if is_serial h then init_slaves h w else Done (1, w)) ;;
    if r =? 0 then Done (1, None, w)
    else
      do (a, w) <- address_slave h a w ;;
      match a with
      | None => Done (1, None, w)
      | Some a =>
          do (r, w) <- mbus_send_request_frame B wret react (Some h) a w ;;
          if r =? -1 then Done (1, None, w)
          else
            do (c, reply, w) <- mbus_recv_frame B (Some h) frame_zero w ;;
            if negb (c =? RECV_OK) then Done (1, None, w)
            else
              do (p, fd) <- lift (mbus_frame_data_parse reply fd_zero) ;;
              if p =? -1 then Done (1, None, w)
              else
                do x <- lift (mbus_frame_data_xml stamp fd) ;;
                match x with None => Done (1, None, w) | Some text => Done (0, Some text, w) end
      end.

  (** bin/mbus-serial-request-data-multi-reply.c 133-215, bin/mbus-tcp-request-data-multi-reply.c: exit code and the
      document printed. *)
  Definition request_multi_main (stamp : Z -> option (list Z)) (h : handle) (a : mbus_address) (max_frames : Z) (w : W) : out (Z * option (list Z) * W) :=
    do (r, w) <- init_slaves h w ;;
    if r =? 0 then Done (1, None, w)
    else
      do (a, w) <- address_slave h a w ;;
      match a with
      | None => Done (1, None, w)
      | Some a =>
          do (q, w) <- mbus_sendrecv_request B wret react (Some h) a frame_zero max_frames w ;;
          if negb (q_ret q =? 0) then Done (1, None, w)
          else
            match q_frames q with
            | [] => Undef
            | f :: fs =>
                do o <- lift (mbus_frame_xml stamp f fs) ;;
                match o_text o with None => Done (1, None, w) | Some text => Done (0, Some text, w) end
            end
      end.
End Tools.

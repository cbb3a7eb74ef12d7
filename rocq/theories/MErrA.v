(** Model of the diagnostics of the master's protocol procedures, mbus-protocol-aux.c 1674-2534: the error text (see MErr)
    and what is written to stderr by MBUS_ERROR (line 24) and by the transports (MErrT). The same functions without
    diagnostics are in MProto. Simplified as there; the texts of failed allocations are omitted. GCC: __PRETTY_FUNCTION__
    is the function's name in C. No proofs here. *)
From Coq Require Import String.
From Coq Require Import List.
From Verif Require Import CBase CStr MFrame MCodec MVar MText MXml MRecv MSecond MProto MErr MErrT.
Local Open Scope Z_scope.

(** The error text and the output on stderr so far. *)
Record diag := mkDg { dg_text : list Z; dg_err : list Z }.
(** [MBUS_ERROR(...)]: mbus-protocol-aux.c 24; [m] without the newline it ends with. *)
Definition tell (d : diag) (m : list Z) : diag := mkDg (dg_text d) (dg_err d ++ m ++ nl).
Notation "a '+++' b" := (cstr a ++ b) (at level 60, right associativity).

Section Diag.
  Variable B : Type.
  Variable wret : B -> Z -> Z.
  Variable react : B -> list Z -> B * list ev.
  (** strerror(errno) after a failed write(). *)
  Variable why : list Z.
  Notation W := (world B).

  (** mbus-protocol-aux.c 1735-1745 [mbus_send_frame]; [handle->send] is mbus_serial_send_frame or mbus_tcp_send_frame. *)
  Definition mbus_send_frame_d (hp : option handle) (f : frame) (w : W) (d : diag) : out (Z * frame * W * diag) :=
    match hp with
    | None => Done (0, f, w, tell d (cstr "mbus_send_frame: Invalid M-Bus handle for send."))
    | Some h =>
        do (r, f', o, d) <- lift (if is_serial h
             then let* (r, f', o, e, err) := mbus_serial_send_frame_e true (wret (w_bus w)) why (dg_text d) f in Ok (r, f', o, mkDg e (dg_err d ++ err))
             else let* (r, f', o, e) := mbus_tcp_send_frame_e (wret (w_bus w)) (dg_text d) f in Ok (r, f', o, mkDg e (dg_err d))) ;;
        match o with
        | None => Done (r, f', w, d)
        | Some bs => let (b, es) := react (w_bus w) bs in Done (r, f', mkW b (w_evs w ++ es) (w_log w ++ [Sent bs]), d)
        end
    end.

  (** [handle->recv]: mbus-protocol-aux.c 1535, 1582. *)
  Definition handle_recv_d (h : handle) (f : frame) (evs : list ev) (d : diag) : out (Z * frame * list ev * list Z * diag) :=
    do o <- lift (handle_recv_e (is_serial h) (dg_text d) f evs) ;;
    match o with
    | Some (c, f', evs', got, e, err) => Done (c, f', evs', got, mkDg e (dg_err d ++ err))
    | None => Endless
    end.
  (** mbus-protocol-aux.c 1674-1712 [mbus_recv_frame] (frame not NULL). *)
  Definition mbus_recv_frame_d (hp : option handle) (f : frame) (w : W) (d : diag) : out (Z * frame * W * diag) :=
    match hp with
    | None => Done (RECV_ERROR, f, w, tell d (cstr "mbus_recv_frame: Invalid M-Bus handle for receive."))
    | Some h =>
        do (c, f1, evs1, got1, d) <- handle_recv_d h f (w_evs w) d ;;
        let dir := mbus_frame_direction f1 in
        if ((dir =? DIR_M2S) && (purge_first_frame h =? PURGE_M2S)) || ((dir =? DIR_S2M) && (purge_first_frame h =? PURGE_S2M))
        then do (c2, f2, evs2, got2, d) <- handle_recv_d h f1 evs1 d ;;
             Done (c2, f2, mkW (w_bus w) evs2 (w_log w ++ [Received c2 got2]), d)
        else Done (c, f1, mkW (w_bus w) evs1 (w_log w ++ [Received c got1]), d)
    end.
  (** mbus-protocol-aux.c 1714-1733 [mbus_purge_frames]. *)
  Fixpoint purge_loop_d (fuel : nat) (hp : option handle) (f : frame) (w : W) (received : Z) (d : diag) : out (Z * W * diag) :=
    match fuel with
    | O => Endless
    | S fuel' =>
        do (c, f', w', d) <- mbus_recv_frame_d hp f w d ;;
        if negb (c =? RECV_OK) && negb (c =? RECV_INVALID) then Done (received, w', d)
        else purge_loop_d fuel' hp f' w' 1 d
    end.
  Definition mbus_purge_frames_d (hp : option handle) (w : W) (d : diag) : out (Z * W * diag) :=
    purge_loop_d (S (ev_size (w_evs w))) hp frame_zero w 0 d.

  (** mbus-protocol-aux.c 1752-1775 [mbus_send_select_frame]. *)
  Definition mbus_send_select_frame_d (hp : option handle) (s : list Z) (w : W) (d : diag) : out (Z * W * diag) :=
    do (r, fo, e) <- lift (mbus_frame_select_secondary_pack_e (dg_text d) (Some (mbus_frame_new T_LONG)) (Some s)) ;;
    let d := mkDg e (dg_err d) in
    if r =? -1 then Done (-1, w, tell d (cstr "mbus_send_select_frame: Failed to pack selection mbus frame."))
    else
      match fo with
      | None => Undef
      | Some f =>
          do (r, _, w, d) <- mbus_send_frame_d hp f w d ;;
          if r =? -1 then Done (-1, w, tell d (cstr "mbus_send_select_frame: Failed to send mbus frame.")) else Done (0, w, d)
      end.

  (** [mbus_send_frame] at the end of the functions that send one telegram and report a failure in the same way:
      mbus-protocol-aux.c 1837-1844, 1891-1898, 1928-1935, 1979-1986. *)
  Definition send_or_tell (name : string) (hp : option handle) (f : frame) (w : W) (d : diag) : out (Z * W * diag) :=
    do (r, _, w, d) <- mbus_send_frame_d hp f w d ;;
    if r =? -1 then Done (-1, w, tell d (cstr name ++ cstr ": failed to send mbus frame.")) else Done (0, w, d).

  (** mbus-protocol-aux.c 1781-1845 [mbus_send_switch_baudrate_frame]. *)
  Definition mbus_send_switch_baudrate_frame_d (hp : option handle) (addr baudrate : Z) (w : W) (d : diag) : out (Z * W * diag) :=
    if negb (mbus_is_primary_address addr) then Done (-1, w, tell d ("mbus_send_switch_baudrate_frame: invalid address " +++ fmt_d addr))
    else match baud_ci baudrate with
    | None => Done (-1, w, tell d ("mbus_send_switch_baudrate_frame: invalid baudrate " +++ fmt_d baudrate))
    | Some ci =>
        send_or_tell "mbus_send_switch_baudrate_frame" hp
          (set_ci (set_address (set_control (mbus_frame_new T_CONTROL) (Z.lor 0x53 0x40)) addr) ci) w d
    end.

  (** mbus-protocol-aux.c 1851-1899 [mbus_send_application_reset_frame]. *)
  Definition mbus_send_application_reset_frame_d (hp : option handle) (addr subcode : Z) (w : W) (d : diag) : out (Z * W * diag) :=
    if negb (mbus_is_primary_address addr) then Done (-1, w, tell d ("mbus_send_application_reset_frame: invalid address " +++ fmt_d addr))
    else if subcode >? 0xFF then Done (-1, w, tell d ("mbus_send_application_reset_frame: invalid subcode " +++ fmt_d subcode))
    else
      let f := set_ci (set_address (set_control (mbus_frame_new T_LONG) (Z.lor 0x53 0x40)) addr) 0x50 in
      do f <- lift (if subcode >=? 0
                    then let* dt := wr (fdata f) 0 (Z.land subcode 0xFF) in Ok (set_data f dt 1)
                    else Ok (set_data f (fdata f) 0)) ;;
      send_or_tell "mbus_send_application_reset_frame" hp f w d.

  (** mbus-protocol-aux.c 1905-1936 [mbus_send_request_frame]. *)
  Definition mbus_send_request_frame_d (hp : option handle) (addr : Z) (w : W) (d : diag) : out (Z * W * diag) :=
    if negb (mbus_is_primary_address addr) then Done (-1, w, tell d ("mbus_send_request_frame: invalid address " +++ fmt_d addr))
    else send_or_tell "mbus_send_request_frame" hp (set_address (set_control (mbus_frame_new T_SHORT) (Z.lor 0x5B 0x40)) addr) w d.

  (** mbus-protocol-aux.c 1941-1987 [mbus_send_user_data_frame]; [%zu] of a size_t. *)
  Definition mbus_send_user_data_frame_d (hp : option handle) (addr : Z) (data : option (list Z)) (size : Z) (w : W) (d : diag)
    : out (Z * W * diag) :=
    if negb (mbus_is_primary_address addr) then Done (-1, w, tell d ("mbus_send_user_data_frame: invalid address " +++ fmt_d addr))
    else match data with
    | None => Done (-1, w, tell d (cstr "mbus_send_user_data_frame: Invalid data"))
    | Some data =>
        if (size >? 252) || (size =? 0) then Done (-1, w, tell d ("mbus_send_user_data_frame: illegal data_size " +++ fmt_d size))
        else
          let f := set_ci (set_address (set_control (mbus_frame_new T_LONG) (Z.lor 0x53 0x40)) addr) 0x51 in
          do dt <- lift (copy_loop (Z.to_nat size) (fdata f) 0 data 0) ;;
          send_or_tell "mbus_send_user_data_frame" hp (set_data f dt size) w d
    end.

  (** mbus-protocol-aux.c 1992-2014 [mbus_set_primary_address]. *)
  Definition mbus_set_primary_address_d (hp : option handle) (old new : Z) (w : W) (d : diag) : out (Z * W * diag) :=
    let buffer := [0x01; 0x7A; u8 new] in
    if negb (mbus_is_primary_address new) then Done (-1, w, tell d ("mbus_set_primary_address: invalid address " +++ fmt_d new))
    else if (new =? 0xFD) || (new =? 0xFE) || (new =? 0xFF) then Done (-1, w, tell d ("mbus_set_primary_address: invalid address " +++ fmt_d new))
    else mbus_send_user_data_frame_d hp old (Some buffer) 3 w d.

  (** mbus-protocol-aux.c 2185-2222 [mbus_send_ping_frame]. *)
  Definition mbus_send_ping_frame_d (hp : option handle) (addr : Z) (purge_response : bool) (w : W) (d : diag) : out (Z * W * diag) :=
    if negb (mbus_is_primary_address addr) then Done (1, w, tell d ("mbus_send_ping_frame: invalid address " +++ fmt_d addr))
    else
      let f := set_address (set_control (mbus_frame_new T_SHORT) (Z.lor 0x40 0x40)) addr in
      do (r, _, w, d) <- mbus_send_frame_d hp f w d ;;
      if r =? -1 then Done (-1, w, tell d (cstr "mbus_send_ping_frame: failed to send mbus frame."))
      else if purge_response then do (_, w, d) <- mbus_purge_frames_d hp w d ;; Done (0, w, d)
      else Done (0, w, d).

  (** mbus-protocol-aux.c 2066-2175: the loop of [mbus_sendrecv_request] (see MProto.request_loop). *)
  Fixpoint request_loop_d (fuel : nat) (h : handle) (req cur : frame) (got : list frame) (fd : fdat) (hp0 : heap) (p : option nat)
           (retry count max_frames : Z) (w : W) (d : diag) : out (reqout * W * diag) :=
    match fuel with
    | O => Endless
    | S fuel' =>
        if retry >? max_data_retry h then Done (mkRq 1 (got ++ [cur]) hp0, w, d)
        else
          do (r, req, w, d) <- mbus_send_frame_d (Some h) req w d ;;
          if r =? -1 then Done (mkRq (-1) (got ++ [cur]) hp0, w, tell d (cstr "mbus_sendrecv_request: failed to send mbus frame."))
          else
            do (c, cur, w, d) <- mbus_recv_frame_d (Some h) cur w d ;;
            if c =? RECV_OK then
              do (_, w, d) <- mbus_purge_frames_d (Some h) w d ;;
              let count := count + 1 in
              do (pr, fd, hp0, p, e) <- lift (parse_heap_e (dg_text d) cur fd hp0 p) ;;
              let d := mkDg e (dg_err d) in
              if pr =? -1 then Done (mkRq 1 (got ++ [cur]) hp0, w, tell d (cstr "mbus_sendrecv_request: M-bus data parse error."))
              else
                let more := (d_type fd =? DT_VARIABLE) && negb (v_more (d_var fd) =? 0)
                            && (max_frames >? 0) && (count <? max_frames) in
                do hp0 <- lift (free_list hp0 p) ;;
                if more
                then request_loop_d fuel' h (set_control req (Z.lxor (control req) 0x20)) (mbus_frame_new T_ANY) (got ++ [cur])
                       fd hp0 p 0 count max_frames w d
                else Done (mkRq 0 (got ++ [cur]) hp0, w, d)
            else if c =? RECV_TIMEOUT then
              request_loop_d fuel' h req cur got fd hp0 p (retry + 1) count max_frames w
                (tell d (cstr "mbus_sendrecv_request: No M-Bus response frame received."))
            else if c =? RECV_INVALID then
              do (_, w, d) <- mbus_purge_frames_d (Some h) w (tell d (cstr "mbus_sendrecv_request: Received invalid M-Bus response frame.")) ;;
              request_loop_d fuel' h req cur got fd hp0 p (retry + 1) count max_frames w d
            else Done (mkRq 1 (got ++ [cur]) hp0, w, tell d (cstr "mbus_sendrecv_request: Failed to receive M-Bus response frame."))
    end.
  (** mbus-protocol-aux.c 2020-2179 [mbus_sendrecv_request]. *)
  Definition mbus_sendrecv_request_d (hp : option handle) (addr : Z) (reply : frame) (max_frames : Z) (w : W) (d : diag) : out (reqout * W * diag) :=
    match hp with
    | None => Done (mkRq 1 [reply] [], w, tell d (cstr "mbus_sendrecv_request: Invalid M-Bus handle for request."))
    | Some h =>
        if negb (mbus_is_primary_address addr)
        then Done (mkRq 1 [reply] [], w, tell d ("mbus_sendrecv_request: invalid address " +++ fmt_d addr))
        else
          let req := set_address (set_control (mbus_frame_new T_SHORT) (Z.lor (Z.lor (Z.lor 0x5B 0x40) 0x10) 0x20)) addr in
          request_loop_d (Z.to_nat ((max_data_retry h + 2) * (Z.max 1 max_frames))) h req reply [] fd_zero [] None 0 0 max_frames w d
    end.

  (** mbus-protocol-aux.c 2227-2277 [mbus_select_secondary_address]; [%s] of the error text. *)
  Definition mbus_select_secondary_address_d (hp : option handle) (mask : list Z) (w : W) (d : diag) : out (Z * W * diag) :=
    if negb (List.length mask =? 16)%nat then Done (PROBE_ERROR, w, tell d (cstr "mbus_select_secondary_address: Invalid address masks."))
    else
      do (r, w, d) <- mbus_send_select_frame_d hp mask w d ;;
      if r =? -1 then Done (PROBE_ERROR, w, tell d ("mbus_select_secondary_address: Failed to send selection frame: " +++ c_text (dg_text d) ++ cstr "."))
      else
        do (c, reply, w, d) <- mbus_recv_frame_d hp frame_zero w d ;;
        if c =? RECV_TIMEOUT then Done (PROBE_NOTHING, w, d)
        else if c =? RECV_INVALID then do (_, w, d) <- mbus_purge_frames_d hp w d ;; Done (PROBE_COLLISION, w, d)
        else if mbus_frame_type reply =? T_ACK then
          do (p, w, d) <- mbus_purge_frames_d hp w d ;;
          if negb (p =? 0) then Done (PROBE_COLLISION, w, d) else Done (PROBE_SINGLE, w, d)
        else Done (PROBE_NOTHING, w, tell d ("mbus_select_secondary_address: Unexpected reply for address [" +++ mask ++ cstr "].")).

  (** mbus-protocol-aux.c 2301-2359 (see MProto.probe_selected). *)
  Definition probe_selected_d (h : handle) (mask buf : list Z) (w : W) (d : diag) : out (Z * list Z * W * diag) :=
    do (r, w, d) <- mbus_send_request_frame_d (Some h) 0xFD w d ;;
    if r =? -1 then Done (PROBE_ERROR, buf, w, tell d ("mbus_probe_secondary_address: Failed to send request to selected secondary device [mask " +++
                                                       mask ++ cstr "]: " ++ c_text (dg_text d) ++ cstr "."))
    else
      do (c, reply, w, d) <- mbus_recv_frame_d (Some h) frame_zero w d ;;
      if c =? RECV_TIMEOUT then Done (PROBE_NOTHING, buf, w, d)
      else if c =? RECV_INVALID then do (_, w, d) <- mbus_purge_frames_d (Some h) w d ;; Done (PROBE_COLLISION, buf, w, d)
      else
        do (p, w, d) <- mbus_purge_frames_d (Some h) w d ;;
        if negb (p =? 0) then Done (PROBE_COLLISION, buf, w, d)
        else if mbus_frame_type reply =? T_LONG then
          do (a, e) <- lift (mbus_frame_get_secondary_address_e (dg_text d) reply) ;;
          let d := mkDg e (dg_err d) in
          match a with
          | None => Done (PROBE_NOTHING, buf, w, tell d ("Failed to generate secondary address from M-Bus reply frame: " +++ c_text (dg_text d)))
          | Some addr => do buf <- lift (snprintf_s buf 0 17 addr) ;; Done (PROBE_SINGLE, buf, w, d)
          end
        else Done (PROBE_NOTHING, buf, w, tell d ("mbus_probe_secondary_address: Unexpected reply for address [mask " +++ mask ++ cstr "]. Expected long frame.")).
  (** mbus-protocol-aux.c 2295-2367. *)
  Fixpoint probe_loop_d (n : nat) (h : handle) (mask buf : list Z) (ret : Z) (w : W) (d : diag) : out (Z * list Z * W * diag) :=
    match n with
    | O => Done (ret, buf, w, d)
    | S n' =>
        do (ret, w, d) <- mbus_select_secondary_address_d (Some h) mask w d ;;
        if ret =? PROBE_SINGLE then probe_selected_d h mask buf w d
        else if (ret =? PROBE_ERROR) || (ret =? PROBE_COLLISION) then Done (ret, buf, w, d)
        else probe_loop_d n' h mask buf ret w d
    end.
  (** mbus-protocol-aux.c 2283-2368 [mbus_probe_secondary_address]. *)
  Definition mbus_probe_secondary_address_d (hp : option handle) (mask buf : list Z) (w : W) (d : diag) : out (Z * list Z * W * diag) :=
    if negb (List.length mask =? 16)%nat then Done (PROBE_ERROR, buf, w, tell d (cstr "mbus_probe_secondary_address: Invalid address masks."))
    else match hp with
    | None => Undef
    | Some h => if max_search_retry h <? 0 then Undef else probe_loop_d (Z.to_nat (max_search_retry h + 1)) h mask buf 0 w d
    end.

  (** mbus-protocol-aux.c 2371-2441 [mbus_read_slave]. *)
  Definition mbus_read_slave_d (hp : option handle) (a : mbus_address) (reply : frame) (w : W) (d : diag) : out (Z * frame * W * diag) :=
    match hp with
    | None => Done (-1, reply, w, tell d (cstr "mbus_read_slave: Invalid handle or address."))
    | Some h =>
        do (r, w, d) <-
          match a with
          | Primary n =>
              do (r, w, d) <- mbus_send_request_frame_d hp n w d ;;
              if r =? -1 then Done (-1, w, tell d (cstr "mbus_read_slave: Failed to send M-Bus request frame.")) else Done (0, w, d)
          | Secondary None => Done (-1, w, tell d (cstr "mbus_read_slave: Secondary address not set."))
          | Secondary (Some s) =>
              do (p, w, d) <- mbus_select_secondary_address_d hp s w d ;;
              if p =? PROBE_COLLISION then Done (-1, w, tell d ("mbus_read_slave: The address mask [" +++ s ++ cstr "] matches more than one device."))
              else if p =? PROBE_NOTHING then Done (-1, w, tell d ("mbus_read_slave: The selected secondary address [" +++ s ++ cstr "] does not match any device."))
              else if p =? PROBE_ERROR then Done (-1, w, tell d ("mbus_read_slave: Failed to probe secondary address [" +++ s ++ cstr "]."))
              else
                do (r, w, d) <- mbus_send_request_frame_d hp 0xFD w d ;;
                if r =? -1 then Done (-1, w, tell d (cstr "mbus_read_slave: Failed to send M-Bus request frame.")) else Done (0, w, d)
          end ;;
        if r =? -1 then Done (-1, reply, w, d)
        else
          do (c, reply, w, d) <- mbus_recv_frame_d hp reply w d ;;
          if negb (c =? 0) then Done (-1, reply, w, tell d (cstr "mbus_read_slave: Failed to receive M-Bus response frame.")) else Done (0, reply, w, d)
    end.

  (** mbus-protocol-aux.c 2495-2529 (see MProto.scan_digits). *)
  Fixpoint scan_digits_d (deeper : list Z -> W -> diag -> out (Z * W * diag)) (h : handle) (mask : list Z) (pos : nat) (cs : list Z) (w : W) (d : diag)
    : out (Z * W * diag) :=
    match cs with
    | [] => Done (0, w, d)
    | c :: cs' =>
        let m := upd mask pos c in
        do (r, buf, w, d) <- mbus_probe_secondary_address_d (Some h) m (repeat 0 17) w d ;;
        if r =? PROBE_SINGLE then scan_digits_d deeper h m pos cs' (log w (Found (c_text buf))) d
        else if r =? PROBE_COLLISION then do (_, w, d) <- deeper m w d ;; scan_digits_d deeper h m pos cs' w d
        else if r =? PROBE_NOTHING then scan_digits_d deeper h m pos cs' w d
        else Done (-1, w, tell d ("mbus_scan_2nd_address_range: Failed to probe secondary address [" +++ m ++ cstr "]."))
    end.
  (** mbus-protocol-aux.c 2446-2534 [mbus_scan_2nd_address_range] (see MProto.scan_from). *)
  Definition illegal_mask (mask : list Z) : list Z :=
    "mbus_scan_2nd_address_range: Illegal address mask [" +++ mask ++ cstr "]. Not 16 characters long.".
  Fixpoint scan_from_d (n : nat) (h : handle) (mask : list Z) (w : W) (d : diag) : out (Z * W * diag) :=
    if negb (List.length mask =? 16)%nat then Done (-1, w, tell d (illegal_mask mask))
    else match n with
    | O => Done (0, w, d)
    | S n' =>
        let pos := (16 - n)%nat in
        let c := nth pos mask 0 in
        if (c =? 102) || (c =? 70)
        then scan_digits_d (scan_from_d n' h) h mask pos [48; 49; 50; 51; 52; 53; 54; 55; 56; 57] w d
        else if (pos <? 15)%nat then do (_, w, d) <- scan_from_d n' h mask w d ;; Done (0, w, d)
        else scan_digits_d (scan_from_d n' h) h mask pos [c] w d
    end.
  Definition mbus_scan_2nd_address_range_d (hp : option handle) (pos : Z) (mask : list Z) (w : W) (d : diag) : out (Z * W * diag) :=
    match hp with
    | None => Done (-1, w, tell d (cstr "mbus_scan_2nd_address_range: Invalid handle or address mask."))
    | Some h =>
        if negb (List.length mask =? 16)%nat then Done (-1, w, tell d (illegal_mask mask))
        else if (pos <? 0) || (pos >=? 16) then Done (0, w, d)
        else scan_from_d (16 - Z.to_nat pos) h mask w d
    end.
End Diag.

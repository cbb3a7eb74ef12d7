(** Model of what the programs in bin/ and test/ write to stderr during the conversation. No proofs here.
    The functions of MTools, MProg and MMain with the error text and stderr carried along (MErrA). Simplified as there;
    after "Unknown reply:" what mbus_frame_print does to the error text is omitted (nothing reads it any more).
    GCC: __PRETTY_FUNCTION__ in main is main. *)
From Coq Require Import String.
From Coq Require Import List.
From Verif Require Import CBase CStr MFrame MCodec MVar MText MXml MXmlN MRecv MSecond MProto MHex MTools MProg MConn MErr MErrT MMem MScan MCmd MMain MErrA.
Local Open Scope Z_scope.

(** fprintf(stderr, "...%s\n", mbus_error_str()). *)
Definition tell_why (d : diag) (m : list Z) : diag := tell d (m ++ c_text (dg_text d)).

(** bin/mbus-serial-set-address.c 167-184, bin/mbus-serial-request-data.c 138-155, bin/mbus-tcp-request-data.c 88-102,
    bin/mbus-*-request-data-multi-reply.c 148-165 / 142-159, bin/mbus-tcp-raw-send.c 107-121: "main: Error: ";
    bin/mbus-tcp-application-reset.c 98-115: nothing. *)
Definition error_prefix (p : prog) : list Z := match p with ApplicationReset => [] | _ => cstr "main: Error: " end.

Section MainE.
  Variable B : Type.
  Variable wret : B -> Z -> Z.
  Variable react : B -> list Z -> B * list ev.
  Variable why : list Z.
  Notation W := (world B).

  (** bin/mbus-serial-set-address.c 21-45 [init_slaves] (see MTools.init_slaves), bin/mbus-serial-scan-secondary.c 22-45
      (see MProg.init_all): [last] is the address of the second ping. *)
  Definition init_d (last : Z) (h : handle) (w : W) (d : diag) : out (Z * W * diag) :=
    do (r, w, d) <- mbus_send_ping_frame_d B wret react why (Some h) 0xFD true w d ;;
    if r =? -1 then Done (0, w, d)
    else
      do (r, w, d) <- mbus_send_ping_frame_d B wret react why (Some h) last true w d ;;
      if r =? -1 then Done (0, w, d) else Done (1, w, d).

  (** bin/mbus-serial-scan.c 24-44, bin/mbus-tcp-scan.c 24-44 (see MTools.ping_loop): the message 34. *)
  Fixpoint ping_loop_d (n : nat) (h : handle) (reply : frame) (addr ret : Z) (w : W) (d : diag) : out (Z * frame * W * diag) :=
    match n with
    | O => Done (ret, reply, w, d)
    | S n' =>
        do (r, w, d) <- mbus_send_ping_frame_d B wret react why (Some h) addr false w d ;;
        if r =? -1 then Done (RECV_ERROR, reply, w, tell_why d (cstr "Scan failed. Could not send ping frame: "))
        else
          do (c, reply, w, d) <- mbus_recv_frame_d B (Some h) reply w d ;;
          if negb (c =? RECV_TIMEOUT) then Done (c, reply, w, d) else ping_loop_d n' h reply addr c w d
    end.
  Definition ping_address_d (h : handle) (addr : Z) (w : W) (d : diag) : out (Z * frame * W * diag) :=
    ping_loop_d (Z.to_nat (max_search_retry h + 1)) h frame_zero addr RECV_ERROR w d.
  (** bin/mbus-serial-scan.c 149-182 (see MTools.scan_address). *)
  Definition scan_address_d (h : handle) (addr : Z) (w : W) (d : diag) : out (list line * W * diag) :=
    do (ret, reply, w, d) <- ping_address_d h addr w d ;;
    if ret =? RECV_TIMEOUT then Done ([], w, d)
    else if ret =? RECV_INVALID then do (_, w, d) <- mbus_purge_frames_d B (Some h) w d ;; Done ([CollisionAt addr], w, d)
    else if mbus_frame_type reply =? T_ACK then
      do (p, w, d) <- mbus_purge_frames_d B (Some h) w d ;;
      if negb (p =? 0) then Done ([CollisionAt addr], w, d) else Done ([DeviceAt addr], w, d)
    else Done ([], w, d).
  Fixpoint scan_addresses_d (h : handle) (addrs : list Z) (w : W) (d : diag) : out (list line * W * diag) :=
    match addrs with
    | [] => Done ([], w, d)
    | a :: addrs' => do (l, w, d) <- scan_address_d h a w d ;; do (l', w, d) <- scan_addresses_d h addrs' w d ;; Done (l ++ l', w, d)
    end.
  (** bin/mbus-serial-scan.c 147-183. *)
  Definition scan_main_d (h : handle) (w : W) (d : diag) : out (list line * W * diag) := scan_addresses_d h (map Z.of_nat (seq 0 251)) w d.

  (** The selection of the addressed slave (see MTools.address_slave) with its messages (see [error_prefix]). *)
  Definition address_slave_d (p : prog) (h : handle) (a : mbus_address) (w : W) (d : diag) : out (option Z * W * diag) :=
    match a with
    | Primary n => Done (Some n, w, d)
    | Secondary None => Undef
    | Secondary (Some s) =>
        do (ret, w, d) <- mbus_select_secondary_address_d B wret react why (Some h) s w d ;;
        if ret =? PROBE_COLLISION then Done (None, w, tell d (error_prefix p ++ cstr "The address mask [" ++ s ++ cstr "] matches more than one device."))
        else if ret =? PROBE_NOTHING then Done (None, w, tell d (error_prefix p ++ cstr "The selected secondary address does not match any device [" ++ s ++ cstr "]."))
        else if ret =? PROBE_ERROR then Done (None, w, tell d (error_prefix p ++ cstr "Failed to select secondary address [" ++ s ++ cstr "]."))
        else Done (Some 0xFD, w, d)
    end.

  (** bin/mbus-serial-set-address.c 96-228 (see MTools.set_address_main); 98, 107: the messages of an address that cannot be
      given come before the connection (MCmd). *)
  Definition set_address_main_d (h : handle) (junk : frame) (old : mbus_address) (new : Z) (w : W) (d : diag) : out (Z * bool * W * diag) :=
    if negb (mbus_is_primary_address new) then Done (-1, false, w, d)
    else if (new =? 0xFD) || (new =? 0xFE) || (new =? 0xFF) then Done (-1, false, w, d)
    else
      do (r, w, d) <- init_d 0xFD h w d ;;
      if r =? 0 then Done (1, false, w, d)
      else
        do (r, w, d) <- mbus_send_ping_frame_d B wret react why (Some h) new false w d ;;
        if r =? -1 then Done (1, false, w, tell_why d (cstr "Verification failed. Could not send ping frame: "))
        else
          do (c, _, w, d) <- mbus_recv_frame_d B (Some h) junk w d ;;
          if negb (c =? RECV_TIMEOUT) then Done (1, false, w, tell d (cstr "Verification failed. Got a response from new address"))
          else
            do (a, w, d) <- address_slave_d SetAddress h old w d ;;
            match a with
            | None => Done (1, false, w, d)
            | Some a =>
                do (r, w, d) <- mbus_set_primary_address_d B wret react why (Some h) a new w d ;;
                if r =? -1 then Done (1, false, w, tell_why d (cstr "Failed to send set primary address frame: "))
                else
                  do (c, reply, w, d) <- mbus_recv_frame_d B (Some h) frame_zero w d ;;
                  if c =? RECV_TIMEOUT then Done (1, false, w, tell d (cstr "No reply from device"))
                  else if negb (mbus_frame_type reply =? T_ACK) then Done (0, false, w, tell d (cstr "Unknown reply:"))
                  else Done (0, true, w, d)
            end.

  (** bin/mbus-serial-request-data.c 121-226, bin/mbus-tcp-request-data.c 79-165 (see MTools.request_data_main). The serial
      program does not say why no telegram was received. *)
  Definition request_data_main_d (stamp : Z -> option (list Z)) (h : handle) (a : mbus_address) (w : W) (d : diag) : out (Z * option (list Z) * W * diag) :=
    do (r, w, d) <- (if is_serial h then init_d 0xFD h w d else Done (1, w, d)) ;;
    if r =? 0 then Done (1, None, w, d)
    else
      do (a, w, d) <- address_slave_d SerialRequest h a w d ;;
      match a with
      | None => Done (1, None, w, d)
      | Some a =>
          do (r, w, d) <- mbus_send_request_frame_d B wret react why (Some h) a w d ;;
          if r =? -1 then Done (1, None, w, tell d (cstr "Failed to send M-Bus request frame."))
          else
            do (c, reply, w, d) <- mbus_recv_frame_d B (Some h) frame_zero w d ;;
            if negb (c =? RECV_OK)
            then Done (1, None, w, if is_serial h then tell d (cstr "Failed to receive M-Bus response frame.")
                                   else tell_why d (cstr "Failed to receive M-Bus response frame: "))
            else
              do (p, fdo, e) <- lift (mbus_frame_data_parse_e (dg_text d) (Some reply) (Some fd_zero)) ;;
              let d := mkDg e (dg_err d) in
              if p =? -1 then Done (1, None, w, tell_why d (cstr "M-bus data parse error: "))
              else
                match fdo with
                | None => Undef
                | Some fd =>
                    do x <- lift (mbus_frame_data_xml stamp fd) ;;
                    match x with
                    | None => Done (1, None, w, tell_why d (cstr "Failed to generate XML representation of MBUS frame: "))
                    | Some text => Done (0, Some text, w, d)
                    end
                end
      end.

  (** bin/mbus-serial-request-data-multi-reply.c 133-215, bin/mbus-tcp-request-data-multi-reply.c 127-209 (see
      MTools.request_multi_main). *)
  Definition request_multi_main_d (stamp : Z -> option (list Z)) (h : handle) (a : mbus_address) (max_frames : Z) (w : W) (d : diag) : out (Z * option (list Z) * W * diag) :=
    do (r, w, d) <- init_d 0xFD h w d ;;
    if r =? 0 then Done (1, None, w, d)
    else
      do (a, w, d) <- address_slave_d SerialMulti h a w d ;;
      match a with
      | None => Done (1, None, w, d)
      | Some a =>
          do (q, w, d) <- mbus_sendrecv_request_d B wret react why (Some h) a frame_zero max_frames w d ;;
          if negb (q_ret q =? 0) then Done (1, None, w, tell d (cstr "Failed to send/receive M-Bus request."))
          else
            match q_frames q with
            | [] => Undef
            | f :: fs =>
                do (o, e) <- lift (mbus_frame_xml_e stamp (dg_text d) f fs) ;;
                let d := mkDg e (dg_err d) in
                match o_text o with
                | None => Done (1, None, w, tell_why d (cstr "Failed to generate XML representation of MBUS frames: "))
                | Some text => Done (0, Some text, w, d)
                end
            end
      end.

  (** bin/mbus-tcp-raw-send.c 100-192 (see MProg.raw_send_main); no content: 133-139, the file cannot be opened. *)
  Definition raw_send_main_d (h : handle) (junk : frame) (a : mbus_address) (name : list Z) (content : option (list Z)) (w : W) (d : diag) : out (Z * W * diag) :=
    do (a, w, d) <- address_slave_d RawSend h a w d ;;
    match a with
    | None => Done (1, w, d)
    | Some _ =>
        match content with
        | None => Done (1, w, tell d ("main: failed to open '" +++ name ++ cstr "'"))
        | Some file =>
            do bs <- lift (file_bytes file) ;;
            do (r, fo, e) <- lift (mbus_parse_e (dg_text d) (Some junk) (Some bs)) ;;
            let d := mkDg e (dg_err d) in
            if r <? 0 then Done (1, w, tell_why d (cstr "mbus_parse: "))
            else if r >? 0 then Done (1, w, tell d ("mbus_parse: need " +++ fmt_d r ++ cstr " more bytes"))
            else
              match fo with
              | None => Undef
              | Some request =>
                  do (r, _, w, d) <- mbus_send_frame_d B wret react why (Some h) request w d ;;
                  if r =? -1 then Done (1, w, tell_why d (cstr "Failed to send mbus frame: "))
                  else
                    do (c, _, w, d) <- mbus_recv_frame_d B (Some h) frame_zero w d ;;
                    if negb (c =? RECV_OK) then Done (1, w, tell_why d (cstr "Failed to receive M-Bus response frame: ")) else Done (0, w, d)
              end
        end
    end.

  (** bin/mbus-serial-switch-baudrate.c 69-94 (see MProg.switch_baudrate_main). *)
  Definition switch_baudrate_main_d (h : handle) (junk : frame) (addr baudrate : Z) (w : W) (d : diag) : out (Z * bool * W * diag) :=
    do (r, w, d) <- mbus_send_switch_baudrate_frame_d B wret react why (Some h) addr baudrate w d ;;
    if r =? -1 then Done (1, false, w, tell_why d (cstr "Failed to send switch baudrate frame: "))
    else
      do (c, reply, w, d) <- mbus_recv_frame_d B (Some h) junk w d ;;
      if c =? RECV_TIMEOUT then Done (1, false, w, tell d (cstr "No reply from device"))
      else if negb (mbus_frame_type reply =? T_ACK) then Done (0, false, w, tell d (cstr "Unknown reply:"))
      else Done (0, true, w, d).

  (** bin/mbus-tcp-application-reset.c 90-166 (see MProg.application_reset_main). *)
  Definition application_reset_main_d (h : handle) (junk : frame) (a : mbus_address) (subcode : Z) (w : W) (d : diag) : out (Z * bool * W * diag) :=
    do (a, w, d) <- address_slave_d ApplicationReset h a w d ;;
    match a with
    | None => Done (1, false, w, d)
    | Some a =>
        do (r, w, d) <- mbus_send_application_reset_frame_d B wret react why (Some h) a subcode w d ;;
        if r =? -1 then Done (1, false, w, tell_why d (cstr "Failed to send reset frame: "))
        else
          do (c, reply, w, d) <- mbus_recv_frame_d B (Some h) junk w d ;;
          if c =? RECV_TIMEOUT then Done (1, false, w, tell d (cstr "No reply from device"))
          else if negb (mbus_frame_type reply =? T_ACK) then Done (0, false, w, tell d (cstr "Unknown reply:"))
          else Done (0, true, w, d)
    end.

  (** bin/mbus-serial-select-secondary.c 53-126, bin/mbus-tcp-select-secondary.c 50-117 (see MProg.select_secondary_main);
      [shown] is the argument, [s] its copy. A misformatted address is rejected before the connection (MCmd). *)
  Definition select_secondary_main_d (h : handle) (junk : frame) (s shown : list Z) (w : W) (d : diag) : out (Z * option (list Z) * W * diag) :=
    if negb (mbus_is_secondary_address s) then Done (1, None, w, d)
    else
      do (r, w, d) <- mbus_send_select_frame_d B wret react why (Some h) s w d ;;
      if r =? -1 then Done (1, None, w, tell_why d (cstr "Failed to send selection frame: "))
      else
        do (c, reply, w, d) <- mbus_recv_frame_d B (Some h) junk w d ;;
        if c =? RECV_TIMEOUT then Done (1, None, w, tell_why d ("No reply from device with secondary address " +++ shown ++ cstr ": "))
        else if c =? RECV_INVALID
        then Done (1, None, w, tell_why d ("Invalid reply from " +++ shown ++ cstr ": The address address probably match more than one device: "))
        else if mbus_frame_type reply =? T_ACK then
          do (r, w, d) <- mbus_send_request_frame_d B wret react why (Some h) 0xFD w d ;;
          if r =? -1 then Done (1, None, w, tell_why d (cstr "Failed to send request to selected secondary device: "))
          else
            do (c, reply, w, d) <- mbus_recv_frame_d B (Some h) reply w d ;;
            if negb (c =? RECV_OK) then Done (1, None, w, tell_why d (cstr "Failed to recieve reply from selected secondary device: "))
            else if negb (mbus_frame_type reply =? T_ACK) then
              do (x, e) <- lift (mbus_frame_get_secondary_address_e (dg_text d) reply) ;;
              match x with None => Undef | Some t => Done (0, Some t, w, mkDg e (dg_err d)) end
            else Done (0, None, w, d)
        else Done (0, None, w, tell d (cstr "Unknown reply:")).

  (** The conversation (see MMain.conversation) with stderr. The scan for secondary addresses: there is memory enough. *)
  Definition conversation_d (p : prog) (o : opts) (v : env) (h : handle) (w : W) (d : diag) : out (Z * list Z * W * diag) :=
    match p with
    | SerialScan | TcpScan => do (ls, w, d) <- scan_main_d h w d ;; Done (0, flat_map line_text ls, w, d)
    | SerialScanSecondary | TcpScanSecondary =>
        do (r, w, d) <- init_d 0xFF h w d ;;
        if r =? 0 then Done (1, [], w, d)
        else
          do (_, _, calls) <- scan_w B wret react (mkWatch false false) (Some h) 0 (o_addr o) (w, v_mem v) ;;
          do (_, w, d) <- mbus_scan_2nd_address_range_d B wret react why (Some h) 0 (o_addr o) w d ;;
          Done (0, flat_map call_text calls, w, d)
    | SerialRequest | TcpRequest =>
        do a <- lift (address_arg (o_addr o)) ;;
        do (r, t, w, d) <- request_data_main_d (v_stamp v) h a w d ;; Done (r, opt_text t, w, d)
    | SerialMulti | TcpMulti =>
        do a <- lift (address_arg (o_addr o)) ;;
        do (r, t, w, d) <- request_multi_main_d (v_stamp v) h a (o_frames o) w d ;; Done (r, opt_text t, w, d)
    | SetAddress =>
        do a <- lift (address_arg (o_addr o)) ;;
        do (r, ok, w, d) <- set_address_main_d h (v_junk v) a (o_num o) w d ;;
        Done (r, if ok : bool then cstr "Set primary address of device to " ++ fmt_d (o_num o) ++ nl else [], w, d)
    | SwitchBaudrate =>
        do a <- lift (atoi (o_addr o)) ;;
        do (r, ok, w, d) <- switch_baudrate_main_d h (v_junk v) a (o_num o) w d ;;
        Done (r, if ok : bool then cstr "Switched baud rate of device to " ++ fmt_d (o_num o) ++ nl else [], w, d)
    | ApplicationReset =>
        do a <- lift (address_arg (o_addr o)) ;;
        do (r, ok, w, d) <- application_reset_main_d h (v_junk v) a (o_num o) w d ;;
        Done (r, if ok : bool then cstr "Successful reset device" ++ (if o_num o >? -1 then cstr " (Subcode: " ++ fmt_d (o_num o) ++ cstr ")" else []) ++ nl else [], w, d)
    | RawSend =>
        do a <- lift (address_arg (o_addr o)) ;;
        do (r, w, d) <- raw_send_main_d h (v_junk v) a (opt_text (o_file o)) (match o_file o with None => Some (v_stdin v) | Some f => v_file v f end) w d ;;
        Done (r, [], w, d)
    | SerialSelect | TcpSelect =>
        do (r, t, w, d) <- select_secondary_main_d h (v_junk v) (o_addr o) (o_shown o) w d ;;
        Done (r, match t with
                 | Some t => cstr "Recieved a reply from secondarily addressed device: Searched for [" ++ o_shown o ++ cstr "] and found [" ++ t ++ cstr "]." ++ nl
                 | None => []
                 end, w, d)
    | ParseHex | ParseBinary => Done (1, [], w, d)
    end.

  (** test/mbus_parse_hex.c 69-106, from the bytes read on, without -n (see MProg.parse_hex_main). *)
  Definition parse_hex_bytes_d (stamp : Z -> option (list Z)) (bs : list Z) (d : diag) : res (Z * option (list Z) * diag) :=
    let* (r, fo, e) := mbus_parse_e (dg_text d) (Some frame_zero) (Some bs) in
    let d := mkDg e (dg_err d) in
    if r <? 0 then Ok (1, None, tell_why d (cstr "mbus_parse: "))
    else if r >? 0 then Ok (1, None, tell d ("mbus_parse: need " +++ fmt_d r ++ cstr " more bytes"))
    else
      match fo with
      | None => UB
      | Some reply =>
          let* (p, fdo, e) := mbus_frame_data_parse_e (dg_text d) (Some reply) (Some fd_zero) in
          let d := mkDg e (dg_err d) in
          if negb (p =? 0) then Ok (1, None, tell_why d (cstr "mbus_frame_data_parse: "))
          else
            match fdo with
            | None => UB
            | Some fd =>
                let* x := mbus_frame_data_xml stamp fd in
                match x with
                | None => Ok (1, None, tell_why d (cstr "Failed to generate XML representation of MBUS frame: "))
                | Some text => Ok (0, Some text, d)
                end
            end
      end.
  (** test/mbus_parse_hex.c 50-106 without -n. *)
  Definition parse_hex_main_d (stamp : Z -> option (list Z)) (file : list Z) (d : diag) : res (Z * option (list Z) * diag) :=
    let* bs := file_bytes file in parse_hex_bytes_d stamp bs d.

  (** The error text when the conversation begins: what mbus_context_serial or mbus_context_tcp and mbus_connect leave. *)
  Definition text_at_start (p : prog) (o : opts) (v : env) (e : list Z) (pr : proc) : res (list Z) :=
    let* (h, pr, e, _) := mbus_context_e (over_serial p) (v_m1 v) (v_m2 v) (v_m3 v) e pr in
    let* (_, _, e, _) := mbus_connect_e (v_sys v) (o_target o) (o_port o) (v_why v) h e pr in
    Ok e.
  (** main of a program that talks to the bus (see MMain.run_main), with all it writes to stderr. *)
  Definition run_main_d (p : prog) (name : list Z) (args : list (list Z)) (v : env) (e : list Z) (pr : proc) (w : W) : out (ran W) :=
    do c <- lift (command p name args) ;;
    match c with
    | Refused code err => Done (mkRan code [] err None None pr w)
    | Run o =>
        let where_to := if over_serial p then Device (o_target o) else Gateway (o_target o) (o_port o) in
        do s <- lift (startup p o v e pr) ;;
        match s with
        | Stopped asked err pr => Done (mkRan 1 [] err (if asked then Some where_to else None) None pr w)
        | Started h hd err pr1 =>
            do e1 <- lift (text_at_start p o v e pr) ;;
            do (r, text, w, d) <- conversation_d p o v hd w (mkDg e1 err) ;;
            if r =? 0 then
              do (_, pr') <- lift (mbus_disconnect h pr1) ;;
              do pr' <- lift (mbus_context_free h pr') ;;
              Done (mkRan r text (dg_err d) (Some where_to) (Some (pr1, hd)) pr' w)
            else Done (mkRan r text (dg_err d) (Some where_to) (Some (pr1, hd)) pr1 w)
        end
    end.
End MainE.

(** Model of the programs in bin/ and test/ not in MTools. No proofs here. Simplified as there: reading the command
    line, opening files, connecting and the debug output are omitted; so is what goes to stderr, and the output of
    mbus_frame_print. *)
From Verif Require Import CBase CStr MFrame MCodec MVar MText MXml MXmlN MRecv MSecond MProto MHex MTools.

(** The array [raw_buff] after fread: test/mbus_parse_hex.c 50-51, bin/mbus-tcp-raw-send.c 146-147. *)
Definition raw_buff (file : list Z) : list Z := firstn 4096 file ++ repeat 0 (4096 - length file).
(** test/mbus_parse_hex.c 62, bin/mbus-tcp-raw-send.c 154: the bytes converted. *)
Definition file_bytes (file : list Z) : res (list Z) :=
  let* (n, buff) := mbus_hex2bin (repeat 0 4096) 4096 (raw_buff file) in Ok (firstn n buff).

(** test/mbus_parse_hex.c 50-106: exit code and the document printed. [normalized]: the option -n. Simplified: the
    final release of the record list is omitted. *)
Definition parse_hex_main (stamp : Z -> option (list Z)) (normalized : bool) (file : list Z) : res (Z * option (list Z)) :=
  let* bs := file_bytes file in
  let* (r, reply) := mbus_parse frame_zero bs in
  if negb (r =? 0) then Ok (1, None)
  else
    let* (p, fd) := mbus_frame_data_parse reply fd_zero in
    if negb (p =? 0) then Ok (1, None)
    else
      let* x := (if normalized then let* (t, _) := mbus_frame_data_xml_normalized fd in Ok t else mbus_frame_data_xml stamp fd) in
      match x with None => Ok (1, None) | Some text => Ok (0, Some text) end.

(** test/mbus_parse.c 50-79: the same for a file of bytes; the results of parsing are ignored. *)
Definition parse_main (stamp : Z -> option (list Z)) (normalized : bool) (file : list Z) : res (Z * option (list Z)) :=
  let* (_, reply) := mbus_parse frame_zero (firstn 1024 file) in
  let* (_, fd) := mbus_frame_data_parse reply fd_zero in
  let* x := (if normalized then let* (t, _) := mbus_frame_data_xml_normalized fd in Ok t else mbus_frame_data_xml stamp fd) in
  match x with None => Ok (1, None) | Some text => Ok (0, Some text) end.

Section Programs.
  Variable B : Type.
  Variable wret : B -> Z -> Z.
  Variable react : B -> list Z -> B * list ev.
  Notation W := (world B).

  (** bin/mbus-tcp-raw-send.c 100-192: exit code. [junk] is the uninitialised object [request] (24). The number given
      as a primary address is not used. *)
  Definition raw_send_main (h : handle) (junk : frame) (a : mbus_address) (file : list Z) (w : W) : out (Z * W) :=
    do (a, w) <- address_slave B wret react h a w ;;
    match a with
    | None => Done (1, w)
    | Some _ =>
        do bs <- lift (file_bytes file) ;;
        do (r, request) <- lift (mbus_parse junk bs) ;;
        if negb (r =? 0) then Done (1, w)
        else
          do (r, _, w) <- mbus_send_frame B wret react (Some h) request w ;;
          if r =? -1 then Done (1, w)
          else
            do (c, _, w) <- mbus_recv_frame B (Some h) frame_zero w ;;
            Done (if negb (c =? RECV_OK) then 1 else 0, w)
    end.

  (** bin/mbus-serial-switch-baudrate.c 69-94: exit code, whether the success message is printed. [junk] is the
      uninitialised object [reply] (27). *)
  Definition switch_baudrate_main (h : handle) (junk : frame) (addr baudrate : Z) (w : W) : out (Z * bool * W) :=
    do (r, w) <- mbus_send_switch_baudrate_frame B wret react (Some h) addr baudrate w ;;
    if r =? -1 then Done (1, false, w)
    else
      do (c, reply, w) <- mbus_recv_frame B (Some h) junk w ;;
      if c =? RECV_TIMEOUT then Done (1, false, w)
      else if negb (mbus_frame_type reply =? T_ACK) then Done (0, false, w)
      else Done (0, true, w).

  (** bin/mbus-tcp-application-reset.c 90-166: exit code, whether the success message is printed. [junk] is the
      uninitialised object [reply] (25). *)
  Definition application_reset_main (h : handle) (junk : frame) (a : mbus_address) (subcode : Z) (w : W) : out (Z * bool * W) :=
    do (a, w) <- address_slave B wret react h a w ;;
    match a with
    | None => Done (1, false, w)
    | Some a =>
        do (r, w) <- mbus_send_application_reset_frame B wret react (Some h) a subcode w ;;
        if r =? -1 then Done (1, false, w)
        else
          do (c, reply, w) <- mbus_recv_frame B (Some h) junk w ;;
          if c =? RECV_TIMEOUT then Done (1, false, w)
          else if negb (mbus_frame_type reply =? T_ACK) then Done (0, false, w)
          else Done (0, true, w)
    end.

  (** bin/mbus-serial-select-secondary.c 53-126 and bin/mbus-tcp-select-secondary.c 50-117: exit code and the address
      printed as found. [junk] is the uninitialised object [reply] (24). printf gets NULL for %s if the reply has no
      address: undefined behaviour. *)
  Definition select_secondary_main (h : handle) (junk : frame) (s : list Z) (w : W) : out (Z * option (list Z) * W) :=
    if negb (mbus_is_secondary_address s) then Done (1, None, w)
    else
      do (r, w) <- mbus_send_select_frame B wret react (Some h) s w ;;
      if r =? -1 then Done (1, None, w)
      else
        do (c, reply, w) <- mbus_recv_frame B (Some h) junk w ;;
        if c =? RECV_TIMEOUT then Done (1, None, w)
        else if c =? RECV_INVALID then Done (1, None, w)
        else if mbus_frame_type reply =? T_ACK then
          do (r, w) <- mbus_send_request_frame B wret react (Some h) 0xFD w ;;
          if r =? -1 then Done (1, None, w)
          else
            do (c, reply, w) <- mbus_recv_frame B (Some h) reply w ;;
            if negb (c =? RECV_OK) then Done (1, None, w)
            else if negb (mbus_frame_type reply =? T_ACK) then
              do x <- lift (mbus_frame_get_secondary_address reply) ;;
              match x with None => Undef | Some t => Done (0, Some t, w) end
            else Done (0, None, w)
        else Done (0, None, w).

  (** bin/mbus-serial-scan-secondary.c 22-45 [init_slaves]; bin/mbus-tcp-scan-secondary.c 83-102 the same in main. *)
  Definition init_all (h : handle) (w : W) : out (Z * W) :=
    do (r, w) <- mbus_send_ping_frame B wret react (Some h) 0xFD true w ;;
    if r =? -1 then Done (0, w)
    else
      do (r, w) <- mbus_send_ping_frame B wret react (Some h) 0xFF true w ;;
      if r =? -1 then Done (0, w) else Done (1, w).
  (** bin/mbus-serial-scan-secondary.c 125-184, bin/mbus-tcp-scan-secondary.c 62-115: exit code; the addresses printed
      are the reports in the log. *)
  Definition scan_secondary_main (h : handle) (mask : list Z) (w : W) : out (Z * W) :=
    if negb (mbus_is_secondary_address mask) then Done (1, w)
    else
      do (r, w) <- init_all h w ;;
      if r =? 0 then Done (1, w)
      else do (_, w) <- mbus_scan_2nd_address_range B wret react (Some h) 0 mask w ;; Done (0, w).
End Programs.

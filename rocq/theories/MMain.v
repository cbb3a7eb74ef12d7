(** Model of the programs in bin/ and test/ as a whole: main from the command line to the exit code. No proofs here.
    The parts: the command line (MCmd), handle and line (MConn, MErrT), the conversation (MTools, MProg, MScan).
    Simplified: what -d adds to stdout, the messages on stderr during the conversation and the output of
    mbus_frame_print are omitted; atoi of the address is done before the conversation; strdup succeeds; memory other
    than the handle's is not accounted for here (C79 to C85); what a program gives back when it fails is not modelled
    (some do on most paths): the system takes everything back. *)
From Coq Require Import String.
From Coq Require Import List.
From Verif Require Import CBase CStr MFrame MCodec MVar MText MXml MXmlN MRecv MSecond MProto MHex MTools MProg MConn MErr MErrT MMem MScan MCmd.
Local Open Scope Z_scope.

(** What a program asks the system to open. *)
Inductive place := Device (name : list Z) | Gateway (host : list Z) (port : Z).
(** The system: memory for the handle, result of opening the line, reason of a failed name lookup, success of
    tcsetattr for the baud rate, memory for the frame of serial-scan-secondary; contents of uninitialised objects; clock;
    files and standard input; failed allocations during the scan. *)
Record env := mkEnv { v_m1 : bool; v_m2 : bool; v_m3 : bool; v_sys : system; v_why : list Z; v_attr : bool; v_frame : bool; v_junk : frame;
                      v_stamp : Z -> option (list Z); v_file : list Z -> option (list Z); v_stdin : list Z; v_mem : mem }.
(** A finished run: exit code, stdout, stderr, what was opened, the process when the conversation began and at the end. *)
Record ran (W : Type) := mkRan { x_code : Z; x_out : list Z; x_err : list Z; x_place : option place; x_talk : option (proc * handle); x_end : proc; x_world : W }.
Arguments mkRan {W}. Arguments x_code {W}. Arguments x_out {W}. Arguments x_err {W}. Arguments x_place {W}. Arguments x_talk {W}. Arguments x_end {W}. Arguments x_world {W}.

(** Which programs talk over a serial line, over TCP, or only read a file. *)
Definition over_serial (p : prog) : bool :=
  match p with SerialScan | SerialScanSecondary | SerialRequest | SerialMulti | SetAddress | SwitchBaudrate | SerialSelect => true | _ => false end.
Definition reads_file (p : prog) : bool := match p with ParseHex | ParseBinary => true | _ => false end.
Definition is_scan (p : prog) : bool := match p with SerialScan | TcpScan => true | _ => false end.

(** The error text as printed with %s. *)
Definition shown_text (e : list Z) : list Z := c_text e.
(** The message if mbus_context_serial or mbus_context_tcp returns NULL: bin/mbus-serial-scan.c 111-115,
    bin/mbus-tcp-scan.c 97-101; bin/mbus-serial-request-data.c 96-100 and the others. *)
Definition no_context (p : prog) (e : list Z) : list Z :=
  (if is_scan p then cstr "Scan failed: " else []) ++ cstr "Could not initialize M-Bus context: " ++ shown_text e ++ nl.
(** The message if mbus_connect fails: bin/mbus-serial-scan.c 123-127, bin/mbus-tcp-scan.c 109-113;
    bin/mbus-tcp-raw-send.c 94-98; bin/mbus-serial-request-data.c 108-113 and the others. *)
Definition no_line (p : prog) (e : list Z) : list Z :=
  if is_scan p then cstr "Scan failed: Could not setup connection to M-bus gateway: " ++ shown_text e ++ nl
  else cstr "Failed to setup connection to M-bus gateway" ++ nl ++ match p with RawSend => shown_text e ++ nl | _ => [] end.

(** mbus-protocol-aux.c 1611-1621 [mbus_connect] with texts: result, process, error text, stderr. *)
Definition mbus_connect_e (y : system) (host : list Z) (port : Z) (why : list Z) (h : Z) (e : list Z) (p : proc) : res (Z * proc * list Z * list Z) :=
  if h =? 0 then Ok (-1, p, e, [])
  else match find h (p_handles p) with
  | None => UB
  | Some o =>
      if ob_serial o then let '(r, p, err) := mbus_serial_connect_e (s_open y) (s_attr y) h o p in Ok (r, p, e, err)
      else let* (r, p, e) := mbus_tcp_connect_e (s_info y) host port why h o e p in Ok (r, p, e, [])
  end.

(** The result of everything before the conversation: stopped with a message (before or after
    mbus_connect was called), or connected. *)
Inductive started := Stopped (asked : bool) (err : list Z) (p : proc) | Started (h : Z) (o : handle) (err : list Z) (p : proc).
(** bin/mbus-serial-scan.c 111-140, bin/mbus-tcp-scan.c 97-120, bin/mbus-serial-request-data.c 96-123,
    bin/mbus-tcp-request-data.c 62-78, bin/mbus-serial-scan-secondary.c 132-160, bin/mbus-tcp-scan-secondary.c 68-80,
    bin/mbus-serial-set-address.c 111-138, bin/mbus-serial-switch-baudrate.c 51-67, bin/mbus-tcp-application-reset.c 71-90,
    bin/mbus-tcp-raw-send.c 82-98, bin/mbus-*-select-secondary.c, bin/mbus-*-request-data-multi-reply.c 106-132: handle,
    connection, search retries (scan only), baud rate (serial only). *)
Definition startup (p : prog) (o : opts) (v : env) (e : list Z) (pr : proc) : res started :=
  let* (h, pr, e, err) := mbus_context_e (over_serial p) (v_m1 v) (v_m2 v) (v_m3 v) e pr in
  if h =? 0 then Ok (Stopped false (err ++ no_context p e) pr)
  else
    let* (r, pr, e, err2) := mbus_connect_e (v_sys v) (o_target o) (o_port o) (v_why v) h e pr in
    let err := err ++ err2 in
    if r =? -1 then Ok (Stopped true (err ++ no_line p e) pr)
    else
      let hd := if over_serial p then mbus_context_serial else mbus_context_tcp in
      let (r, hd) := (if is_scan p then mbus_context_set_option hd 1 (o_retries o) else (0, hd)) in
      if r =? -1 then Ok (Stopped true (err ++ cstr "Failed to set retry count" ++ nl) pr)
      else
        let* (r, pr) := (if over_serial p then mbus_serial_set_baudrate (v_attr v) h (o_baud o) pr else Ok (0, pr)) in
        if r =? -1 then Ok (Stopped true (err ++ cstr "Failed to set baud rate." ++ nl) pr)
        else match p with
        | SerialScanSecondary => if v_frame v then Ok (Started h hd err pr) else Ok (Stopped true (err ++ cstr "Failed to allocate mbus frame." ++ nl) pr)
        | _ => Ok (Started h hd err pr)
        end.

(** The lines of the scan: bin/mbus-serial-scan.c 165, 176, 180. *)
Definition line_text (l : line) : list Z :=
  match l with
  | DeviceAt a => cstr "Found a M-Bus device at address " ++ fmt_d a ++ nl
  | CollisionAt a => cstr "Collision at address " ++ fmt_d a ++ nl
  end.
(** The lines of the scan for secondary addresses: mbus-protocol-aux.c 2512. *)
Definition call_text (c : MScan.call) : list Z :=
  match c with
  | Printed addr mask => cstr "Found a device on secondary address " ++ addr ++ cstr " [using address mask " ++ mask ++ cstr "]" ++ nl
  | _ => []
  end.
(** An address on the command line: for instance bin/mbus-serial-request-data.c 131, 159. *)
Definition address_arg (s : list Z) : res mbus_address :=
  if mbus_is_secondary_address s then Ok (Secondary (Some s)) else let* n := atoi s in Ok (Primary n).
Definition opt_text (o : option (list Z)) : list Z := match o with Some t => t | None => [] end.

Section Main.
  Variable B : Type.
  Variable wret : B -> Z -> Z.
  Variable react : B -> list Z -> B * list ev.
  Notation W := (world B).

  (** The conversation of each program (see MTools, MProg): exit code, stdout. The success messages:
      bin/mbus-serial-set-address.c 222, bin/mbus-serial-switch-baudrate.c 91, bin/mbus-tcp-application-reset.c 154-161,
      bin/mbus-*-select-secondary.c 114, 105. No callback is registered for the scan: C84. *)
  Definition conversation (p : prog) (o : opts) (v : env) (h : handle) (w : W) : out (Z * list Z * W) :=
    match p with
    | SerialScan | TcpScan => do (ls, w) <- scan_main B wret react h w ;; Done (0, flat_map line_text ls, w)
    | SerialScanSecondary | TcpScanSecondary =>
        do (r, w) <- init_all B wret react h w ;;
        if r =? 0 then Done (1, [], w)
        else
          do (_, (w, _), calls) <- scan_w B wret react (mkWatch false false) (Some h) 0 (o_addr o) (w, v_mem v) ;;
          Done (0, flat_map call_text calls, w)
    | SerialRequest | TcpRequest =>
        do a <- lift (address_arg (o_addr o)) ;;
        do (r, t, w) <- request_data_main B wret react (v_stamp v) h a w ;; Done (r, opt_text t, w)
    | SerialMulti | TcpMulti =>
        do a <- lift (address_arg (o_addr o)) ;;
        do (r, t, w) <- request_multi_main B wret react (v_stamp v) h a (o_frames o) w ;; Done (r, opt_text t, w)
    | SetAddress =>
        do a <- lift (address_arg (o_addr o)) ;;
        do (r, ok, w) <- set_address_main B wret react h (v_junk v) a (o_num o) w ;;
        Done (r, if ok then cstr "Set primary address of device to " ++ fmt_d (o_num o) ++ nl else [], w)
    | SwitchBaudrate =>
        do a <- lift (atoi (o_addr o)) ;;
        do (r, ok, w) <- switch_baudrate_main B wret react h (v_junk v) a (o_num o) w ;;
        Done (r, if ok then cstr "Switched baud rate of device to " ++ fmt_d (o_num o) ++ nl else [], w)
    | ApplicationReset =>
        do a <- lift (address_arg (o_addr o)) ;;
        do (r, ok, w) <- application_reset_main B wret react h (v_junk v) a (o_num o) w ;;
        Done (r, if ok then cstr "Successful reset device" ++ (if o_num o >? -1 then cstr " (Subcode: " ++ fmt_d (o_num o) ++ cstr ")" else []) ++ nl else [], w)
    | RawSend =>
        do a <- lift (address_arg (o_addr o)) ;;
        match (match o_file o with None => Some (v_stdin v) | Some f => v_file v f end) with
        | None => do (_, w) <- address_slave B wret react h a w ;; Done (1, [], w)
        | Some content => do (r, w) <- raw_send_main B wret react h (v_junk v) a content w ;; Done (r, [], w)
        end
    | SerialSelect | TcpSelect =>
        do (r, t, w) <- select_secondary_main B wret react h (v_junk v) (o_addr o) w ;;
        Done (r, match t with
                 | Some t => cstr "Recieved a reply from secondarily addressed device: Searched for [" ++ o_shown o ++ cstr "] and found [" ++ t ++ cstr "]." ++ nl
                 | None => []
                 end, w)
    | ParseHex | ParseBinary => Done (1, [], w)
    end.

  (** test/mbus_parse_hex.c 44-106, test/mbus_parse.c 44-79: a file that cannot be opened. *)
  Definition file_main (p : prog) (name : list Z) (o : opts) (v : env) (pr : proc) (w : W) : out (ran W) :=
    match v_file v (o_target o) with
    | None => Done (mkRan 1 [] (name ++ cstr ": failed to open '" ++ o_target o ++ cstr "'" ++ nl) None None pr w)
    | Some content =>
        do (r, t) <- lift (match p with ParseHex => parse_hex_main | _ => parse_main end (v_stamp v) (o_norm o) content) ;;
        Done (mkRan r (opt_text t) [] None None pr w)
    end.

  (** main. [e] is the library's error text at the start (empty). *)
  Definition run_main (p : prog) (name : list Z) (args : list (list Z)) (v : env) (e : list Z) (pr : proc) (w : W) : out (ran W) :=
    do c <- lift (command p name args) ;;
    match c with
    | Refused code err => Done (mkRan code [] err None None pr w)
    | Run o =>
        if reads_file p then file_main p name o v pr w
        else
          let where_to := if over_serial p then Device (o_target o) else Gateway (o_target o) (o_port o) in
          do s <- lift (startup p o v e pr) ;;
          match s with
          | Stopped asked err pr => Done (mkRan 1 [] err (if asked then Some where_to else None) None pr w)
          | Started h hd err pr =>
              do (r, text, w) <- conversation p o v hd w ;;
              if r =? 0 then
                do (_, pr') <- lift (mbus_disconnect h pr) ;;
                do pr' <- lift (mbus_context_free h pr') ;;
                Done (mkRan r text err (Some where_to) (Some (pr, hd)) pr' w)
              else Done (mkRan r text err (Some where_to) (Some (pr, hd)) pr w)
          end
    end.
End Main.

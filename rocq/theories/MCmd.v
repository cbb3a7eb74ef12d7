(** Model of the command lines of the programs in bin/ and test/: what main does with argc and argv before it creates a
    handle. No proofs here. An argument is its characters without the terminator; [args] is argv[1..], so argc is
    one more than its length (argc is at least 1); [name] is argv[0]. Simplified: strdup succeeds. *)
From Coq Require Import String.
From Coq Require Import List.
From Verif Require Import CBase CStr MFrame MText MXml MSecond MHex.
Local Open Scope Z_scope.

(** C library: [strtol(s, NULL, 10)] before the range check. *)
Fixpoint skip_space (s : list Z) : list Z := match s with c :: t => if isspace c then skip_space t else s | [] => [] end.
Fixpoint leading_value (s : list Z) (v : Z) : Z :=
  match s with c :: t => if (48 <=? c) && (c <=? 57) then leading_value t (10 * v + (c - 48)) else v | [] => v end.
Definition strtol10 (s : list Z) : Z :=
  match skip_space s with
  | c :: t => if c =? 45 then - leading_value t 0 else if c =? 43 then leading_value t 0 else leading_value (c :: t) 0
  | [] => 0
  end.
(** C library: [atol], [atoi]: undefined if the value is not representable. *)
Definition atol (s : list Z) : res Z := llong_op (strtol10 s).
Definition atoi (s : list Z) : res Z := int_op (strtol10 s).
(** C library: [strcmp(s, t) == 0]. *)
Fixpoint same_str (s t : list Z) : bool :=
  match s, t with [], [] => true | c :: s', d :: t' => (c =? d) && same_str s' t' | _, _ => false end.
Definition is (s : list Z) (t : string) : bool := same_str s (cstr t).

(** The local variables of main set from the command line: debug, normalized, baudrate, retries, maxframes; device, host
    or file; port; the address argument; the number after it (new address, target baud rate, subcode); the file of
    raw-send; the argument printed as the address searched for. *)
Record opts := mkOpts { o_debug : bool; o_norm : bool; o_baud : Z; o_retries : Z; o_frames : Z; o_target : list Z; o_port : Z;
                        o_addr : list Z; o_num : Z; o_file : option (list Z); o_shown : list Z }.
(** The initial values (baudrate 9600, retries 0, maxframes 16 = MAXFRAMES, subcode -1). *)
Definition opts0 : opts := mkOpts false false 9600 0 16 [] 0 [] (-1) None [].
Definition set_debug (o : opts) := mkOpts true (o_norm o) (o_baud o) (o_retries o) (o_frames o) (o_target o) (o_port o) (o_addr o) (o_num o) (o_file o) (o_shown o).
Definition set_norm (o : opts) := mkOpts (o_debug o) true (o_baud o) (o_retries o) (o_frames o) (o_target o) (o_port o) (o_addr o) (o_num o) (o_file o) (o_shown o).
Definition set_baud (v : Z) (o : opts) := mkOpts (o_debug o) (o_norm o) v (o_retries o) (o_frames o) (o_target o) (o_port o) (o_addr o) (o_num o) (o_file o) (o_shown o).
Definition set_retries (v : Z) (o : opts) := mkOpts (o_debug o) (o_norm o) (o_baud o) v (o_frames o) (o_target o) (o_port o) (o_addr o) (o_num o) (o_file o) (o_shown o).
Definition set_frames (v : Z) (o : opts) := mkOpts (o_debug o) (o_norm o) (o_baud o) (o_retries o) v (o_target o) (o_port o) (o_addr o) (o_num o) (o_file o) (o_shown o).
Definition set_target (s : list Z) (o : opts) := mkOpts (o_debug o) (o_norm o) (o_baud o) (o_retries o) (o_frames o) s (o_port o) (o_addr o) (o_num o) (o_file o) (o_shown o).
Definition set_port (v : Z) (o : opts) := mkOpts (o_debug o) (o_norm o) (o_baud o) (o_retries o) (o_frames o) (o_target o) v (o_addr o) (o_num o) (o_file o) (o_shown o).
Definition set_addr (s : list Z) (o : opts) := mkOpts (o_debug o) (o_norm o) (o_baud o) (o_retries o) (o_frames o) (o_target o) (o_port o) s (o_num o) (o_file o) (o_shown o).
Definition set_num (v : Z) (o : opts) := mkOpts (o_debug o) (o_norm o) (o_baud o) (o_retries o) (o_frames o) (o_target o) (o_port o) (o_addr o) v (o_file o) (o_shown o).
Definition set_file (s : list Z) (o : opts) := mkOpts (o_debug o) (o_norm o) (o_baud o) (o_retries o) (o_frames o) (o_target o) (o_port o) (o_addr o) (o_num o) (Some s) (o_shown o).
Definition set_shown (s : list Z) (o : opts) := mkOpts (o_debug o) (o_norm o) (o_baud o) (o_retries o) (o_frames o) (o_target o) (o_port o) (o_addr o) (o_num o) (o_file o) s.

(** main ends with this exit code and this on stderr, nothing else done; or goes on. *)
Inductive cmd := Refused (code : Z) (err : list Z) | Run (o : opts).
(** The usage message. *)
Definition usage (code : Z) (name : list Z) (text : string) (more : list Z) : res cmd :=
  Ok (Refused code (cstr "usage: " ++ name ++ cstr " " ++ cstr text ++ nl ++ more)).
Definition more_d := cstr "    optional flag -d for debug printout" ++ nl.
Definition more_b := cstr "    optional flag -b for selecting baudrate" ++ nl.
Definition more_f := cstr "    optional flag -f for selecting the maximal number of frames" ++ nl.
Definition more_n := cstr "    optional flag -n for normalized values" ++ nl.
Definition more_mask := [9] ++ cstr "restrict the search by supplying an optional address mask on the form" ++ nl ++
  [9] ++ cstr "'FFFFFFFFFFFFFFFF' where F is a wildcard character" ++ nl.
Definition all_mask := cstr "FFFFFFFFFFFFFFFF".

(** if ((port < 0) || (port > 0xFFFF)): bin/mbus-tcp-*.c, for instance mbus-tcp-request-data.c 56-60. *)
Definition port_check (o : opts) (k : res cmd) : res cmd :=
  if (o_port o <? 0) || (o_port o >? 0xFFFF) then Ok (Refused 1 (cstr "Invalid port: " ++ fmt_d (o_port o) ++ nl)) else k.
(** bin/mbus-serial-scan-secondary.c 125-130, bin/mbus-tcp-scan-secondary.c 62-66. *)
Definition mask_check (o : opts) : res cmd :=
  if negb (mbus_is_secondary_address (o_addr o))
  then Ok (Refused 1 (cstr "Misformatted secondary address mask. Must be 16 character HEX number." ++ nl)) else Ok (Run o).
(** bin/mbus-serial-select-secondary.c 53-57, bin/mbus-tcp-select-secondary.c 50-54. *)
Definition second_check (o : opts) : res cmd :=
  if negb (mbus_is_secondary_address (o_addr o))
  then Ok (Refused 1 (cstr "Misformatted secondary address. Must be 16 character HEX number." ++ nl)) else Ok (Run o).

(** bin/mbus-serial-scan.c 61-109. *)
Definition serial_scan_args (name : list Z) (args : list (list Z)) : res cmd :=
  let use := usage 0 name "[-d] [-b BAUDRATE] [-r RETRIES] device" [] in
  match args with
  | [d] => Ok (Run (set_target d opts0))
  | [a; d] => if is a "-d" then Ok (Run (set_debug (set_target d opts0))) else use
  | [a; n; d] =>
      if is a "-b" then let* v := atol n in Ok (Run (set_baud v (set_target d opts0)))
      else if is a "-r" then let* v := atoi n in Ok (Run (set_retries v (set_target d opts0)))
      else use
  | [a; b; n; d] =>
      if is a "-d" && is b "-b" then let* v := atol n in Ok (Run (set_debug (set_baud v (set_target d opts0))))
      else if is a "-d" && is b "-r" then let* v := atoi n in Ok (Run (set_debug (set_retries v (set_target d opts0))))
      else use
  | [a; n; b; m; d] =>
      if is a "-b" && is b "-r" then let* v := atol n in let* w := atoi m in Ok (Run (set_baud v (set_retries w (set_target d opts0))))
      else use
  | [a; b; n; c; m; d] =>
      if is a "-d" && is b "-b" && is c "-r"
      then let* v := atol n in let* w := atoi m in Ok (Run (set_debug (set_baud v (set_retries w (set_target d opts0)))))
      else use
  | _ => use
  end.
(** bin/mbus-tcp-scan.c 61-95. *)
Definition tcp_scan_args (name : list Z) (args : list (list Z)) : res cmd :=
  let use := usage 0 name "[-d] [-r RETRIES] host port" [] in
  let* r := (match args with
    | [h; p] => let* v := atol p in Ok (Some (set_target h (set_port v opts0)))
    | [a; h; p] => if is a "-d" then let* v := atol p in Ok (Some (set_debug (set_target h (set_port v opts0)))) else Ok None
    | [a; n; h; p] =>
        if is a "-r" then let* w := atoi n in let* v := atol p in Ok (Some (set_retries w (set_target h (set_port v opts0)))) else Ok None
    | [a; b; n; h; p] =>
        if is a "-d" && is b "-r"
        then let* w := atoi n in let* v := atol p in Ok (Some (set_debug (set_retries w (set_target h (set_port v opts0))))) else Ok None
    | _ => Ok None
    end) in
  match r with None => use | Some o => port_check o (Ok (Run o)) end.
(** bin/mbus-serial-scan-secondary.c 61-130. *)
Definition serial_scan_secondary_args (name : list Z) (args : list (list Z)) : res cmd :=
  let use := usage 0 name "[-d] [-b BAUDRATE] device [address-mask]"
    ([9] ++ cstr "optional flag -d for debug printout" ++ nl ++ [9] ++ cstr "optional flag -b for selecting baudrate" ++ nl ++ more_mask) in
  let* r := (match args with
    | [d] => Ok (Some (set_target d (set_addr all_mask opts0)))
    | [a; d] => if is a "-d" then Ok (Some (set_debug (set_target d (set_addr all_mask opts0)))) else Ok (Some (set_target a (set_addr d opts0)))
    | [a; b; c] =>
        if is a "-d" then Ok (Some (set_debug (set_target b (set_addr c opts0))))
        else if is a "-b" then let* v := atol b in Ok (Some (set_baud v (set_target c (set_addr all_mask opts0))))
        else Ok None
    | [a; b; c; d] =>
        if is a "-d" && is b "-b" then let* v := atol c in Ok (Some (set_debug (set_baud v (set_target d (set_addr all_mask opts0)))))
        else if is a "-b" then let* v := atol b in Ok (Some (set_baud v (set_target c (set_addr d opts0))))
        else Ok None
    | [a; b; c; d; e] =>
        if is a "-d" then let* v := atol c in Ok (Some (set_debug (set_baud v (set_target d (set_addr e opts0))))) else Ok None
    | _ => Ok None
    end) in
  match r with None => use | Some o => mask_check o end.
(** bin/mbus-tcp-scan-secondary.c 31-66. *)
Definition tcp_scan_secondary_args (name : list Z) (args : list (list Z)) : res cmd :=
  let use := usage 0 name "host port [address-mask]" more_mask in
  let* r := (match args with
    | [h; p] => let* v := atol p in Ok (Some (set_target h (set_port v (set_addr all_mask opts0))))
    | [h; p; m] => let* v := atol p in Ok (Some (set_target h (set_port v (set_addr m opts0))))
    | _ => Ok None
    end) in
  match r with None => use | Some o => port_check o (mask_check o) end.
(** bin/mbus-serial-request-data.c 64-94. *)
Definition serial_request_args (name : list Z) (args : list (list Z)) : res cmd :=
  let use := usage 0 name "[-d] [-b BAUDRATE] device mbus-address" (more_d ++ more_b) in
  match args with
  | [d; x] => Ok (Run (set_target d (set_addr x opts0)))
  | [a; d; x] => if is a "-d" then Ok (Run (set_debug (set_target d (set_addr x opts0)))) else use
  | [a; n; d; x] => if is a "-b" then let* v := atol n in Ok (Run (set_baud v (set_target d (set_addr x opts0)))) else use
  | [a; b; n; d; x] =>
      if is a "-d" && is b "-b" then let* v := atol n in Ok (Run (set_debug (set_baud v (set_target d (set_addr x opts0))))) else use
  | _ => use
  end.
(** bin/mbus-tcp-request-data.c 35-60. *)
Definition tcp_request_args (name : list Z) (args : list (list Z)) : res cmd :=
  let use := usage 0 name "[-d] host port mbus-address" more_d in
  let* r := (match args with
    | [h; p; x] => let* v := atol p in Ok (Some (set_target h (set_port v (set_addr x opts0))))
    | [a; h; p; x] => if is a "-d" then let* v := atol p in Ok (Some (set_debug (set_target h (set_port v (set_addr x opts0))))) else Ok None
    | _ => Ok None
    end) in
  match r with None => use | Some o => port_check o (Ok (Run o)) end.
(** bin/mbus-serial-request-data-multi-reply.c 78-98 (with [serial]) and bin/mbus-tcp-request-data-multi-reply.c 78-93:
    the loop over the options; [rest] is argv[c..], [k] arguments stay for the positions. None: parse_abort. The pointer
    argv[argc] read if nothing followed is NULL: undefined for atol (not reachable). *)
Fixpoint multi_loop (serial : bool) (k : nat) (rest : list (list Z)) (o : opts) : res (option (list (list Z) * opts)) :=
  if (List.length rest <=? k)%nat then Ok (Some (rest, o))
  else match rest with
  | [] => UB
  | a :: l =>
      if is a "-d" then multi_loop serial k l (set_debug o)
      else if serial && is a "-b" then match l with [] => UB | n :: l => let* v := atol n in multi_loop serial k l (set_baud v o) end
      else if is a "-f" then match l with [] => UB | n :: l => let* v := atoi n in multi_loop serial k l (set_frames v o) end
      else Ok None
  end.
(** bin/mbus-serial-request-data-multi-reply.c 53-104. *)
Definition serial_multi_args (name : list Z) (args : list (list Z)) : res cmd :=
  let use := usage 1 name "[-d] [-b BAUDRATE] [-f FRAMES] device mbus-address" (more_d ++ more_b ++ more_f) in
  let* r := multi_loop true 2 args opts0 in
  match r with Some ([d; x], o) => Ok (Run (set_target d (set_addr x o))) | _ => use end.
(** bin/mbus-tcp-request-data-multi-reply.c 52-106. *)
Definition tcp_multi_args (name : list Z) (args : list (list Z)) : res cmd :=
  let use := usage 1 name "[-d] [-f FRAMES] host port mbus-address" (more_d ++ more_f) in
  let* r := multi_loop false 3 args opts0 in
  match r with
  | Some ([h; p; x], o) => let* v := atol p in let o := set_target h (set_port v (set_addr x o)) in port_check o (Ok (Run o))
  | _ => use
  end.
(** bin/mbus-serial-set-address.c 60-109. *)
Definition set_address_args (name : list Z) (args : list (list Z)) : res cmd :=
  let use := usage 0 name "[-d] [-b BAUDRATE] device mbus-address new-primary-address" (more_d ++ more_b) in
  let* r := (match args with
    | [d; x; n] => let* w := atoi n in Ok (Some (set_target d (set_addr x (set_num w opts0))))
    | [a; d; x; n] => if is a "-d" then let* w := atoi n in Ok (Some (set_debug (set_target d (set_addr x (set_num w opts0))))) else Ok None
    | [a; b; d; x; n] =>
        if is a "-b" then let* v := atol b in let* w := atoi n in Ok (Some (set_baud v (set_target d (set_addr x (set_num w opts0))))) else Ok None
    | [a; c; b; d; x; n] =>
        if is a "-d" && is c "-b"
        then let* v := atol b in let* w := atoi n in Ok (Some (set_debug (set_baud v (set_target d (set_addr x (set_num w opts0)))))) else Ok None
    | _ => Ok None
    end) in
  match r with
  | None => use
  | Some o =>
      if negb (mbus_is_primary_address (o_num o)) then Ok (Refused (-1) (cstr "Invalid new primary address" ++ nl))
      else if (o_num o =? 0xFD) || (o_num o =? 0xFE) || (o_num o =? 0xFF) then Ok (Refused (-1) (cstr "Invalid new primary address" ++ nl))
      else Ok (Run o)
  end.
(** bin/mbus-serial-switch-baudrate.c 32-49; the address is a number here. *)
Definition switch_baudrate_args (name : list Z) (args : list (list Z)) : res cmd :=
  let use := usage 0 name "[-b BAUDRATE] device address target-baudrate" [] in
  match args with
  | [d; x; n] => let* _ := atoi x in let* w := atol n in Ok (Run (set_target d (set_addr x (set_num w opts0))))
  | [a; b; d; x; n] =>
      if is a "-b" then let* v := atol b in let* _ := atoi x in let* w := atol n in Ok (Run (set_baud v (set_target d (set_addr x (set_num w opts0))))) else use
  | _ => use
  end.
(** bin/mbus-tcp-application-reset.c 31-69. *)
Definition application_reset_args (name : list Z) (args : list (list Z)) : res cmd :=
  let use := usage 0 name "[-d] host port mbus-address [subcode]" [] in
  let* r := (match args with
    | [h; p; x] => let* v := atol p in Ok (Some (set_target h (set_port v (set_addr x opts0))))
    | [a; b; c; d] =>
        if is a "-d" then let* v := atol c in Ok (Some (set_debug (set_target b (set_port v (set_addr d opts0)))))
        else let* v := atol b in let* w := atoi d in Ok (Some (set_target a (set_port v (set_addr c (set_num w opts0)))))
    | [a; h; p; x; n] =>
        if is a "-d" then let* v := atol p in let* w := atoi n in Ok (Some (set_debug (set_target h (set_port v (set_addr x (set_num w opts0)))))) else Ok None
    | _ => Ok None
    end) in
  match r with None => use | Some o => port_check o (Ok (Run o)) end.
(** bin/mbus-tcp-raw-send.c 38-80. *)
Definition raw_send_args (name : list Z) (args : list (list Z)) : res cmd :=
  let use := usage 0 name "[-d] host port mbus-address [file]" (more_d ++ cstr "    optional argument file for file. if omitted read from stdin" ++ nl) in
  let* r := (match args with
    | [h; p; x] => let* v := atol p in Ok (Some (set_target h (set_port v (set_addr x opts0))))
    | [a; b; c; d] =>
        if is a "-d" then let* v := atol c in Ok (Some (set_debug (set_target b (set_port v (set_addr d opts0)))))
        else let* v := atol b in Ok (Some (set_target a (set_port v (set_addr c (set_file d opts0)))))
    | [a; h; p; x; f] =>
        if is a "-d" then let* v := atol p in Ok (Some (set_debug (set_target h (set_port v (set_addr x (set_file f opts0)))))) else Ok None
    | _ => Ok None
    end) in
  match r with None => use | Some o => port_check o (Ok (Run o)) end.
(** bin/mbus-serial-select-secondary.c 29-57; argv[2] is printed as the address (89, 95, 115). *)
Definition serial_select_args (name : list Z) (args : list (list Z)) : res cmd :=
  let use := usage 0 name "[-b BAUDRATE] device secondary-mbus-address" more_b in
  match args with
  | [d; x] => second_check (set_target d (set_addr x (set_shown x opts0)))
  | [a; n; d; x] => if is a "-b" then let* v := atol n in second_check (set_baud v (set_target d (set_addr x (set_shown n opts0)))) else use
  | _ => use
  end.
(** bin/mbus-tcp-select-secondary.c 29-54; argv[3] is printed as the address. *)
Definition tcp_select_args (name : list Z) (args : list (list Z)) : res cmd :=
  let use := usage 0 name "host port secondary-mbus-address" [] in
  match args with
  | [h; p; x] => let* v := atol p in let o := set_target h (set_port v (set_addr x (set_shown x opts0))) in port_check o (second_check o)
  | _ => use
  end.
(** test/mbus_parse_hex.c 28-42, test/mbus_parse.c 28-42. *)
Definition parse_args (what : string) (name : list Z) (args : list (list Z)) : res cmd :=
  let use := usage 1 name what more_n in
  match args with
  | [f] => Ok (Run (set_target f opts0))
  | [a; f] => if is a "-n" then Ok (Run (set_norm (set_target f opts0))) else use
  | _ => use
  end.

Inductive prog :=
  SerialScan | TcpScan | SerialScanSecondary | TcpScanSecondary | SerialRequest | TcpRequest | SerialMulti | TcpMulti |
  SetAddress | SwitchBaudrate | ApplicationReset | RawSend | SerialSelect | TcpSelect | ParseHex | ParseBinary.
Definition command (p : prog) : list Z -> list (list Z) -> res cmd :=
  match p with
  | SerialScan => serial_scan_args | TcpScan => tcp_scan_args
  | SerialScanSecondary => serial_scan_secondary_args | TcpScanSecondary => tcp_scan_secondary_args
  | SerialRequest => serial_request_args | TcpRequest => tcp_request_args
  | SerialMulti => serial_multi_args | TcpMulti => tcp_multi_args
  | SetAddress => set_address_args | SwitchBaudrate => switch_baudrate_args
  | ApplicationReset => application_reset_args | RawSend => raw_send_args
  | SerialSelect => serial_select_args | TcpSelect => tcp_select_args
  | ParseHex => parse_args "[-n] hex-file" | ParseBinary => parse_args "[-n] binary-file"
  end.

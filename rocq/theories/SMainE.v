(** Specification: what the programs write to stderr while they talk to the bus, and with which exit code they end. *)
From Coq Require Import String.
From Coq Require Import List.
From Verif Require Import CBase CStr MText MFrame SHex MRecv SProto MProto SSecond MCmd SCmd SMain MMain SErr MErrA SErrA.
Local Open Scope Z_scope.

(** The slave named on the command line: 16 hexadecimal digits are a secondary address, anything else is read as a number. *)
Definition names_slave (s : list Z) (a : mbus_address) : Prop :=
  hex16 s /\ a = Secondary (Some s) \/ ~ hex16 s /\ exists n, SCmd.reads s n /\ - 2 ^ 31 <= n < 2 ^ 31 /\ a = Primary n.
(** The address the telegram for it carries: after a selection it is 253. *)
Definition address_used (a : mbus_address) (n : Z) : Prop := match a with Primary x => n = x | Secondary _ => n = 253 end.

(** The result of the last receive call, if that was the last thing that happened on the bus. *)
Definition heard (l : list action) : option Z := match rev l with Received c _ :: _ => Some c | _ => None end.
(** How many telegrams could not be written: no receive call follows them. *)
Definition unwritten (l : list action) : nat := List.length (filter (fun x => match snd x with None => true | _ => false end) (exchanges l)).

(** The programs that first send a ping twice; that select a slave by its secondary address; that send it one order. *)
Definition pings_first (p : prog) : bool :=
  match p with SerialRequest | SerialMulti | TcpMulti | SetAddress | SerialScanSecondary | TcpScanSecondary => true | _ => false end.
Definition selects (p : prog) : bool :=
  match p with SerialRequest | TcpRequest | SerialMulti | TcpMulti | SetAddress | ApplicationReset | RawSend => true | _ => false end.
Definition commands (p : prog) : bool := match p with SetAddress | SwitchBaudrate | ApplicationReset => true | _ => false end.
Definition requests (p : prog) : bool := match p with SerialRequest | TcpRequest => true | _ => false end.
Definition order_of (p : prog) (o : opts) (n : Z) : option order :=
  match p with
  | SerialRequest | TcpRequest => Some (ORequest n)
  | SetAddress => Some (OAddress n (o_num o))
  | SwitchBaudrate => Some (OBaud n (o_num o))
  | ApplicationReset => Some (OReset n (o_num o))
  | _ => None
  end.

(** The library's line when an order is not sent: its argument, or write(). *)
Definition not_sent (x : order) : list Z := match rejected x with Some m => m | None => cstr (order_name x) ++ cstr ": failed to send mbus frame." end.
Definition ping_failed : list Z := cstr "mbus_send_ping_frame: failed to send mbus frame.".
Definition select_unsent : list Z := cstr "mbus_send_select_frame: Failed to send mbus frame.".
(** The programs' own lines. *)
Definition main_error (p : prog) : list Z := match p with ApplicationReset => [] | _ => cstr "main: Error: " end.
Definition several (p : prog) (s : list Z) : list Z := main_error p ++ cstr "The address mask [" ++ s ++ cstr "] matches more than one device.".
Definition nobody (p : prog) (s : list Z) : list Z := main_error p ++ cstr "The selected secondary address does not match any device [" ++ s ++ cstr "].".
Definition unselected (p : prog) (s : list Z) : list Z := main_error p ++ cstr "Failed to select secondary address [" ++ s ++ cstr "].".
Definition order_failed (p : prog) (text : list Z) : list Z :=
  match p with
  | SetAddress => cstr "Failed to send set primary address frame: " ++ text
  | SwitchBaudrate => cstr "Failed to send switch baudrate frame: " ++ text
  | ApplicationReset => cstr "Failed to send reset frame: " ++ text
  | _ => cstr "Failed to send M-Bus request frame."
  end.

(** [bs] is the beginning of a telegram that needs [n] bytes more: a short one has 5 bytes; the length of a long one
    is given by its second byte once its first three are known. *)
Definition lacks (bs : list Z) (n : Z) : Prop :=
  0 < n /\
  (hd 0 bs = 0x10 /\ n = 5 - Z.of_nat (List.length bs) \/
   hd 0 bs = 0x68 /\ ((List.length bs < 3)%nat /\ n = 3 - Z.of_nat (List.length bs) \/ (3 <= List.length bs)%nat /\ n = 6 + nth 1 bs 0 - Z.of_nat (List.length bs))).
(** [bs] are the bytes dumped in the file raw-send reads, its standard input without one. *)
Definition dumped (o : opts) (v : env) (bs : list Z) : Prop :=
  forall file bs', match o_file o with None => Some (v_stdin v) | Some f => v_file v f end = Some file -> hex_dump file bs' -> (List.length file <= 4096)%nat -> bs = bs'.

(** How a program ends that has its slave named by [a]: exit code, stdout, what happened on the bus, lines on stderr.
    [text] is the library's error text at the end. *)
Inductive ended (p : prog) (o : opts) (v : env) (a : mbus_address) (text : list Z) : Z -> list Z -> list action -> list (list Z) -> Prop :=
(* the first pings cannot be written: no line of the program's own *)
| E_pings l : pings_first p = true -> heard l = None -> ended p o v a text 1 [] l [ping_failed]
(* the selection by secondary address *)
| E_several s l : selects p = true -> a = Secondary (Some s) -> ended p o v a text 1 [] l [several p s]
| E_nobody s l : selects p = true -> a = Secondary (Some s) -> heard l = Some RECV_TIMEOUT -> ended p o v a text 1 [] l [nobody p s]
| E_other s c l : selects p = true -> a = Secondary (Some s) -> heard l = Some c -> c <> RECV_TIMEOUT -> ended p o v a text 1 [] l [unexpected s; nobody p s]
| E_unselected s l : selects p = true -> a = Secondary (Some s) -> heard l = None -> ended p o v a text 1 [] l [select_unsent; not_selected text; unselected p s]
(* the order *)
| E_order n x l : address_used a n -> order_of p o n = Some x -> (rejected x = None -> heard l = None) ->
    ended p o v a text 1 [] l [not_sent x; order_failed p text]
| E_silence l : commands p = true -> heard l = Some RECV_TIMEOUT -> ended p o v a text 1 [] l [cstr "No reply from device"]
| E_unknown c l : commands p = true -> heard l = Some c -> c <> RECV_TIMEOUT -> ended p o v a text 0 [] l [cstr "Unknown reply:"]
| E_obeyed c out l : commands p = true -> heard l = Some c -> c <> RECV_TIMEOUT -> out <> [] -> ended p o v a text 0 out l []
(* set-address: nobody may have the new address *)
| E_check_unsent l : p = SetAddress -> heard l = None -> ended p o v a text 1 [] l [ping_failed; cstr "Verification failed. Could not send ping frame: " ++ text]
| E_check_heard c l : p = SetAddress -> heard l = Some c -> c <> RECV_TIMEOUT -> ended p o v a text 1 [] l [cstr "Verification failed. Got a response from new address"]
(* request-data *)
| E_no_data c l : requests p = true -> heard l = Some c -> c <> RECV_OK ->
    ended p o v a text 1 [] l [cstr "Failed to receive M-Bus response frame" ++ (if SCmd.serial p then cstr "." else cstr ": " ++ text)]
| E_bad_data l : requests p = true -> heard l = Some RECV_OK -> ended p o v a text 1 [] l [cstr "M-bus data parse error: " ++ text]
| E_data out l : requests p = true -> heard l = Some RECV_OK -> ended p o v a text 0 out l []
(* request-data-multi-reply; [l2]: the requests *)
| E_multi_address n l : p = SerialMulti \/ p = TcpMulti -> address_used a n -> one_byte n = false ->
    ended p o v a text 1 [] l [cstr "mbus_sendrecv_request: invalid address " ++ fmt_d n; cstr "Failed to send/receive M-Bus request."]
| E_multi_failed r l1 l2 : p = SerialMulti \/ p = TcpMulti -> r <> 0 -> exchanges l2 <> [] ->
    ended p o v a text 1 [] (l1 ++ l2) (request_lines r (exchanges l2) ++ [cstr "Failed to send/receive M-Bus request."])
| E_multi_xml l1 l2 : p = SerialMulti \/ p = TcpMulti -> exchanges l2 <> [] ->
    ended p o v a text 1 [] (l1 ++ l2) (request_lines 0 (exchanges l2) ++ [cstr "Failed to generate XML representation of MBUS frames: " ++ text])
| E_multi out l1 l2 : p = SerialMulti \/ p = TcpMulti -> exchanges l2 <> [] -> ended p o v a text 0 out (l1 ++ l2) (request_lines 0 (exchanges l2))
(* raw-send *)
| E_no_file f l : p = RawSend -> o_file o = Some f -> v_file v f = None -> ended p o v a text 1 [] l [cstr "main: failed to open '" ++ f ++ cstr "'"]
| E_no_telegram l : p = RawSend -> (exists got n m, dumped o v got /\ telegram_fault got n m /\ text = firstn 511 m) -> ended p o v a text 1 [] l [cstr "mbus_parse: " ++ text]
| E_too_short got n l : p = RawSend -> dumped o v got -> lacks got n -> ended p o v a text 1 [] l [cstr "mbus_parse: need " ++ fmt_d n ++ cstr " more bytes"]
| E_raw_unsent l : p = RawSend -> heard l = None -> ended p o v a text 1 [] l [cstr "Failed to send mbus frame: " ++ text]
| E_raw_lost c l : p = RawSend -> heard l = Some c -> c <> RECV_OK -> ended p o v a text 1 [] l [cstr "Failed to receive M-Bus response frame: " ++ text]
| E_raw l : p = RawSend -> heard l = Some RECV_OK -> ended p o v a text 0 [] l [].

(** select-secondary. *)
Inductive select_ended (o : opts) (text : list Z) : Z -> list Z -> list action -> list (list Z) -> Prop :=
| L_unsent l : heard l = None -> select_ended o text 1 [] l [select_unsent; cstr "Failed to send selection frame: " ++ text]
| L_silence l : heard l = Some RECV_TIMEOUT -> select_ended o text 1 [] l [cstr "No reply from device with secondary address " ++ o_shown o ++ cstr ": " ++ text]
| L_garbled l : heard l = Some RECV_INVALID ->
    select_ended o text 1 [] l [cstr "Invalid reply from " ++ o_shown o ++ cstr ": The address address probably match more than one device: " ++ text]
| L_unknown c l : heard l = Some c -> c <> RECV_TIMEOUT -> c <> RECV_INVALID -> List.length (exchanges l) = 1%nat -> select_ended o text 0 [] l [cstr "Unknown reply:"]
| L_request l : heard l = None -> select_ended o text 1 [] l [not_sent (ORequest 253); cstr "Failed to send request to selected secondary device: " ++ text]
| L_no_data c l : heard l = Some c -> c <> RECV_OK -> List.length (exchanges l) = 2%nat ->
    select_ended o text 1 [] l [cstr "Failed to recieve reply from selected secondary device: " ++ text]
| L_found out l : heard l = Some RECV_OK -> List.length (exchanges l) = 2%nat -> select_ended o text 0 out l [].

(** scan: always 0; two lines for each ping that could not be written. *)
Definition ping_lines (text : list Z) : list (list Z) := [ping_failed; cstr "Scan failed. Could not send ping frame: " ++ text].
Definition scan_ended (code : Z) (l : list action) (ls : list (list Z)) : Prop :=
  code = 0 /\ exists texts, ls = flat_map ping_lines texts /\ List.length texts = unwritten l.
(** scan-secondary: always 0 once the pings are written; [r] the result of the scan, which the program ignores. *)
Definition scan_secondary_ended (o : opts) (code : Z) (out : list Z) (l : list action) (ls : list (list Z)) : Prop :=
  code = 1 /\ out = [] /\ heard l = None /\ ls = [ping_failed] \/ code = 0 /\ exists r, scan_lines (o_addr o) r ls.

(** What is known when a program talks: see SCmd.means and MCmd. *)
Definition checked (p : prog) (o : opts) : Prop :=
  (p = SetAddress -> 0 <= o_num o <= 252) /\
  (p = SerialSelect \/ p = TcpSelect -> hex16 (o_addr o)) /\
  (p = SerialScanSecondary \/ p = TcpScanSecondary -> hex16 (o_addr o)).
(** The end of a program's conversation. *)
Definition conversation_ended (p : prog) (o : opts) (v : env) (text : list Z) (code : Z) (out : list Z) (l : list action) (ls : list (list Z)) : Prop :=
  match p with
  | SerialScan | TcpScan => scan_ended code l ls
  | SerialScanSecondary | TcpScanSecondary => scan_secondary_ended o code out l ls
  | SerialSelect | TcpSelect => select_ended o text code out l ls
  | SwitchBaudrate => exists n, SCmd.reads (o_addr o) n /\ ended p o v (Primary n) text code out l ls
  | _ => exists a, names_slave (o_addr o) a /\ ended p o v a text code out l ls
  end.

(** mbus_parse_hex with the bytes [bs] dumped in the file: no telegram, a telegram cut short, no data, or a document. *)
Inductive converted (bs : list Z) (text : list Z) : Z -> option (list Z) -> list (list Z) -> Prop :=
| V_no_telegram n m : telegram_fault bs n m -> text = firstn 511 m -> converted bs text 1 None [cstr "mbus_parse: " ++ text]
| V_too_short n : lacks bs n -> (forall r m, ~ telegram_fault bs r m) -> converted bs text 1 None [cstr "mbus_parse: need " ++ fmt_d n ++ cstr " more bytes"]
| V_no_data c ci p m : data_fault c ci p m -> text = firstn 511 m -> (forall r m, ~ telegram_fault bs r m) -> converted bs text 1 None [cstr "mbus_frame_data_parse: " ++ text]
| V_document t : (forall r m, ~ telegram_fault bs r m) -> converted bs text 0 (Some t) [].

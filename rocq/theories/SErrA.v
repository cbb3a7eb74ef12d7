(** Specification: what the calls of the library that talk to the bus say on stderr and leave as error text. *)
From Coq Require Import String.
From Coq Require Import List.
From Verif Require Import CBase CStr MText MFrame SFrame MRecv SRecv MProto SProto SErr MErrA.
Local Open Scope Z_scope.

(** The lines [ls] have been added to the output on stderr. *)
Definition wrote (d d' : diag) (ls : list (list Z)) : Prop := dg_err d' = dg_err d ++ concat (map (fun m => m ++ [10]) ls).

(** On a serial line a telegram that stops in the middle is remarked on; a TCP connection writes nothing to stderr. *)
Definition cut_short : list Z := cstr "mbus_serial_recv_frame: Timeout".
Definition remark (serial : bool) (m : list Z) : Prop := serial = true /\ m = cut_short.

(** A telegram of [len] bytes of which write() takes [n]: result, error text before and after, lines. [why]: the reason
    the system gives. *)
Definition failed_write (why : list Z) (n : Z) : list Z :=
  cstr "mbus_serial_send_frame: Failed to write frame to socket (ret = " ++ fmt_d n ++ cstr ": " ++ why ++ cstr ")".
Inductive write_told (serial : bool) (why : list Z) (n len : Z) (e : list Z) : Z -> list Z -> list (list Z) -> Prop :=
| WT_all : n = len -> write_told serial why n len e 0 e []
| WT_serial : n <> len -> serial = true -> write_told serial why n len e (-1) e [failed_write why n]
| WT_tcp e' : n <> len -> serial = false ->
    says e' (cstr "mbus_tcp_send_frame: Failed to write frame to socket (ret = " ++ fmt_d n ++ cstr ")" ++ [10]) ->
    write_told serial why n len e (-1) e' [].

(** The calls that send one telegram, and the line with which they reject their arguments. *)
Inductive order :=
| ORequest (a : Z) | OBaud (a baud : Z) | OReset (a sub : Z) | OData (a : Z) (data : list Z) | OAddress (a new : Z) | OPing (a : Z).
Definition order_name (o : order) : string :=
  match o with
  | ORequest _ => "mbus_send_request_frame" | OBaud _ _ => "mbus_send_switch_baudrate_frame" | OReset _ _ => "mbus_send_application_reset_frame"
  | OData _ _ | OAddress _ _ => "mbus_send_user_data_frame" | OPing _ => "mbus_send_ping_frame"
  end.
Definition one_byte (a : Z) : bool := (0 <=? a) && (a <=? 255).
Definition rejected (o : order) : option (list Z) :=
  let at_ n a := cstr n ++ cstr ": invalid address " ++ fmt_d a in
  match o with
  | ORequest a | OPing a => if one_byte a then None else Some (at_ (order_name o) a)
  | OBaud a baud =>
      if negb (one_byte a) then Some (at_ (order_name o) a)
      else if existsb (Z.eqb baud) [300; 600; 1200; 2400; 4800; 9600; 19200; 38400] then None
      else Some (cstr (order_name o) ++ cstr ": invalid baudrate " ++ fmt_d baud)
  | OReset a sub =>
      if negb (one_byte a) then Some (at_ (order_name o) a)
      else if 255 <? sub then Some (cstr (order_name o) ++ cstr ": invalid subcode " ++ fmt_d sub) else None
  | OData a data =>
      if negb (one_byte a) then Some (at_ (order_name o) a)
      else if (List.length data =? 0)%nat || (252 <? List.length data)%nat
      then Some (cstr (order_name o) ++ cstr ": illegal data_size " ++ fmt_d (Z.of_nat (List.length data))) else None
  | OAddress a new =>
      if negb ((0 <=? new) && (new <=? 252)) then Some (at_ "mbus_set_primary_address"%string new)
      else if one_byte a then None else Some (at_ (order_name o) a)
  end.

(** Requests for data: one line for each exchange that fails, one for a reply that cannot be understood. *)
Definition request_line (x : list Z * option (Z * list Z)) : list (list Z) :=
  match snd x with
  | None => [cstr "mbus_sendrecv_request: failed to send mbus frame."]
  | Some (c, _) =>
      if c =? RECV_OK then []
      else if c =? RECV_TIMEOUT then [cstr "mbus_sendrecv_request: No M-Bus response frame received."]
      else if c =? RECV_INVALID then [cstr "mbus_sendrecv_request: Received invalid M-Bus response frame."]
      else [cstr "mbus_sendrecv_request: Failed to receive M-Bus response frame."]
  end.
Definition request_lines (ret : Z) (xs : list (list Z * option (Z * list Z))) : list (list Z) :=
  flat_map request_line xs ++
  (if (ret =? 1) && match rev xs with x :: _ => answered x | [] => false end
   then [cstr "mbus_sendrecv_request: M-bus data parse error."] else []).
(** The lines of the transport, and the others. *)
Fixpoint starts (p m : list Z) : bool :=
  match p, m with [], _ => true | x :: p', y :: m' => if x =? y then starts p' m' else false | _, [] => false end.
Definition transport_line (m : list Z) : bool := starts (cstr "mbus_serial_") m.
Definition own_lines (ls : list (list Z)) : list (list Z) := filter (fun m => negb (transport_line m)) ls.

(** What has been said: the lines [own] of the library's calls, and besides them, on a serial line, those of the transport. *)
Definition transport_ok (serial : bool) (why m : list Z) : Prop := serial = true /\ (m = cut_short \/ exists n, m = failed_write why n).
Definition said (serial : bool) (why : list Z) (d d' : diag) (own : list (list Z)) : Prop :=
  exists ls, wrote d d' ls /\ own_lines ls = own /\ Forall (fun m => transport_line m = true -> transport_ok serial why m) ls.

(** Selection of a slave by the mask [m]: result, the telegram with the result of the receive call after it, the error text. *)
Definition unexpected (m : list Z) : list Z := cstr "mbus_select_secondary_address: Unexpected reply for address [" ++ m ++ cstr "].".
Definition not_selected (text : list Z) : list Z := cstr "mbus_select_secondary_address: Failed to send selection frame: " ++ text ++ cstr ".".
Definition select_lines (m : list Z) (r : Z) (xs : list (list Z * option (Z * list Z))) (text : list Z) : list (list Z) :=
  if negb (List.length m =? 16)%nat then [cstr "mbus_select_secondary_address: Invalid address masks."]
  else
    match xs with
    | [] => [cstr "mbus_send_select_frame: Failed to pack selection mbus frame."; not_selected text]
    | (_, None) :: _ => [cstr "mbus_send_select_frame: Failed to send mbus frame."; not_selected text]
    | (_, Some (c, _)) :: _ => if (r =? PROBE_NOTHING) && negb (c =? RECV_TIMEOUT) then [unexpected m] else []
    end.

(** Search for a slave: passing remarks of the rounds in which nothing was found, and the end. *)
Definition probe_end (m : list Z) (r : Z) (text : list Z) (last : list (list Z)) : Prop :=
  let failed := cstr "mbus_probe_secondary_address: Failed to send request to selected secondary device [mask " ++ m ++ cstr "]: " ++ text ++ cstr "." in
  if r =? PROBE_ERROR then
    last = [cstr "mbus_probe_secondary_address: Invalid address masks."] \/
    last = [cstr "mbus_send_select_frame: Failed to pack selection mbus frame."; not_selected text] \/
    last = [cstr "mbus_send_select_frame: Failed to send mbus frame."; not_selected text] \/
    last = [cstr "mbus_send_request_frame: failed to send mbus frame."; failed]
  else if r =? PROBE_NOTHING then
    last = [] \/ last = [cstr "mbus_probe_secondary_address: Unexpected reply for address [mask " ++ m ++ cstr "]. Expected long frame."] \/
    last = [cstr "Failed to generate secondary address from M-Bus reply frame: " ++ text]
  else last = [].
Definition probe_lines (m : list Z) (r : Z) (text : list Z) (ls : list (list Z)) : Prop :=
  exists k last, ls = repeat (unexpected m) k ++ last /\ probe_end m r text last.

(** Reading a slave that was selected with the result [p], or by its primary address (None); the request with the result of
    the receive call after it. *)
Definition read_name (x : list Z) : list Z := cstr "mbus_read_slave: " ++ x.
Definition reading (xs : list (list Z * option (Z * list Z))) : list (list Z) :=
  match xs with
  | [] => []
  | (_, None) :: _ => [cstr "mbus_send_request_frame: failed to send mbus frame."; read_name (cstr "Failed to send M-Bus request frame.")]
  | (_, Some (c, _)) :: _ => if c =? RECV_OK then [] else [read_name (cstr "Failed to receive M-Bus response frame.")]
  end.
Definition read_lines (s : list Z) (p : Z) (xs : list (list Z * option (Z * list Z))) : list (list Z) :=
  if p =? PROBE_SINGLE then reading xs
  else if p =? PROBE_COLLISION then [read_name (cstr "The address mask [" ++ s ++ cstr "] matches more than one device.")]
  else if p =? PROBE_NOTHING then [read_name (cstr "The selected secondary address [" ++ s ++ cstr "] does not match any device.")]
  else [read_name (cstr "Failed to probe secondary address [" ++ s ++ cstr "].")].

(** The scan: what its searches say; after one that failed, for which mask it failed. A scan of a mask probes masks that
    have digits in some places where that mask has a wildcard. A scan that returns -1 ends with that line. *)
Definition narrows (mask m : list Z) : Prop :=
  Forall2 (fun a b => b = a \/ ((a = 70 \/ a = 102) /\ 48 <= b <= 57)) mask m.
Definition scan_failed (m : list Z) : list Z := cstr "mbus_scan_2nd_address_range: Failed to probe secondary address [" ++ m ++ cstr "].".
Definition searched (mask : list Z) (ls : list (list Z)) : Prop :=
  exists m r text b, narrows mask m /\ probe_lines m r text b /\ ls = b ++ (if r =? PROBE_ERROR then [scan_failed m] else []).
Definition scan_lines (mask : list Z) (ret : Z) (ls : list (list Z)) : Prop :=
  (exists bs, ls = concat bs /\ Forall (searched mask) bs) /\
  (ret = 0 \/ ret = -1 /\ exists m rest, narrows mask m /\ ls = rest ++ [scan_failed m]).

(** A frame object that a caller of these functions provides: zeroed, made by mbus_frame_new, or the reply of an earlier call. *)
Definition reply_object (f : frame) : Prop := frame_obj f /\ frame_bytes f /\ 0 <= data_size f <= 252.

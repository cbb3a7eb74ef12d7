(** Specification: starting a program, what it prints, what it leaves behind. *)
From Coq Require Import String.
From Coq Require Import List.
From Verif Require Import CBase CStr MFrame SText SXml SBus MRecv MProto MTools MConn SConn MCmd SCmd MMain.
From Verif Require PropConn.
Local Open Scope Z_scope.

(** The programs that scan primary addresses. *)
Definition scans (p : prog) : Prop := p = SerialScan \/ p = TcpScan.
Definition talks (p : prog) : Prop := SCmd.serial p = true \/ SCmd.tcp p = true.
(** Nothing hinders the conversation: memory, an open line, for the scan at most nine retries, for a serial line a baud
    rate of the M-Bus that the device takes. *)
Definition ready (p : prog) (o : opts) (v : env) : Prop :=
  v_m1 v = true /\ v_m2 v = true /\ v_m3 v = true /\
  line_opened (SCmd.serial p) (v_sys v) <> None /\
  (scans p -> 0 <= o_retries o <= 9) /\
  (SCmd.serial p = true -> In (o_baud o) rates /\ v_attr v = true) /\
  (p = SerialScanSecondary -> v_frame v = true).

(** The messages of a program that does not get that far. *)
Definition library_name (p : prog) : list Z := cstr (if SCmd.serial p then "mbus_context_serial" else "mbus_context_tcp").
Definition no_handle (p : prog) (why : list Z) : list Z :=
  match p with SerialScan | TcpScan => cstr "Scan failed: " | _ => [] end ++ cstr "Could not initialize M-Bus context: " ++ why ++ [10].
Definition no_connection (p : prog) (why : list Z) : list Z :=
  match p with
  | SerialScan | TcpScan => cstr "Scan failed: Could not setup connection to M-bus gateway: " ++ why ++ [10]
  | RawSend => cstr "Failed to setup connection to M-bus gateway" ++ [10] ++ why ++ [10]
  | _ => cstr "Failed to setup connection to M-bus gateway" ++ [10]
  end.
(** The first hindrance with its message; whether the line was asked for. *)
Inductive stops (p : prog) (o : opts) (v : env) : bool -> list Z -> Prop :=
  | no_memory_1 : v_m1 v = false -> stops p o v false (library_name p ++ cstr ": Failed to allocate handle." ++ [10] ++ no_handle p [])
  | no_memory_2 : v_m1 v = true -> v_m2 v = false ->
      stops p o v false (no_handle p (library_name p ++ cstr ": failed to allocate memory for handle" ++ [10]))
  | no_memory_3 : v_m1 v = true -> v_m2 v = true -> v_m3 v = false ->
      stops p o v false (no_handle p (library_name p ++ cstr ": failed to allocate memory for " ++ cstr (if SCmd.serial p then "device" else "host") ++ [10]))
  | no_device : SCmd.serial p = true -> v_m1 v = true -> v_m2 v = true -> v_m3 v = true -> s_open (v_sys v) = None ->
      stops p o v true (cstr "mbus_serial_connect: failed to open tty." ++ no_connection p [])
  | no_host : SCmd.tcp p = true -> v_m1 v = true -> v_m2 v = true -> v_m3 v = true -> s_info (v_sys v) = None ->
      stops p o v true (no_connection p (firstn 127 (cstr "mbus_tcp_connect: getaddrinfo: " ++ v_why v)))
  | no_answer l t : SCmd.tcp p = true -> v_m1 v = true -> v_m2 v = true -> v_m3 v = true -> s_info (v_sys v) = Some l -> accepts l = None -> decimal (o_port o) t ->
      stops p o v true (no_connection p (firstn 127 (cstr "mbus_tcp_connect: Failed to establish connection to " ++ o_target o ++ cstr ":" ++ t)))
  | bad_retries : v_m1 v = true -> v_m2 v = true -> v_m3 v = true -> line_opened (SCmd.serial p) (v_sys v) <> None -> scans p -> ~ 0 <= o_retries o <= 9 ->
      stops p o v true (cstr "Failed to set retry count" ++ [10])
  | bad_rate : v_m1 v = true -> v_m2 v = true -> v_m3 v = true -> line_opened (SCmd.serial p) (v_sys v) <> None -> (scans p -> 0 <= o_retries o <= 9) ->
      SCmd.serial p = true -> ~ (In (o_baud o) rates /\ v_attr v = true) -> stops p o v true (cstr "Failed to set baud rate." ++ [10])
  | no_frame : v_m1 v = true -> v_m2 v = true -> v_m3 v = true -> line_opened (SCmd.serial p) (v_sys v) <> None -> In (o_baud o) rates -> v_attr v = true ->
      p = SerialScanSecondary -> v_frame v = false -> stops p o v true (cstr "Failed to allocate mbus frame." ++ [10]).

(** Where the conversation takes place. *)
Definition where_to (p : prog) (o : opts) : place := if SCmd.serial p then Device (o_target o) else Gateway (o_target o) (o_port o).
(** The options of the handle: three retries for data, one search retry unless given, the first telegram from a slave
    counts. *)
Definition program_handle (p : prog) (o : opts) : handle :=
  mkH 3 (match p with SerialScan | TcpScan => o_retries o | _ => 1 end) PURGE_M2S (SCmd.serial p).
(** The line when the conversation begins: the device opened, with the parameters of the M-Bus at the given rate; or the
    connection, with timeouts of four seconds. *)
Definition prepared (p : prog) (o : opts) (v : env) (pr : proc) : Prop :=
  exists h fd, line_opened (SCmd.serial p) (v_sys v) = Some fd /\
    if SCmd.serial p then exists t tenths, file_of pr h fd (Tty (Some t)) /\ mbus_line (o_baud o) tenths t /\ PropConn.right_wait (o_baud o) tenths
    else file_of pr h fd (Sock (Some (4, 0)) (Some (4, 0))).
(** All memory and all descriptors of the library have been given back, and nothing else. *)
Definition nothing_left (initial : list Z) (pr : proc) : Prop := p_blocks pr = [] /\ own_files pr = [] /\ foreign_files pr = initial.
(** The system hands out descriptors that are not in use. *)
Definition fresh_fds (initial : list Z) (y : system) : Prop :=
  (forall fd, s_open y = Some fd -> 0 <= fd /\ ~ In fd initial) /\
  (forall l fd b, s_info y = Some l -> In (Some fd, b) l -> 0 <= fd /\ ~ In fd initial).
(** The error text when a program starts. *)
Definition no_text : list Z := repeat 0 512.
(** C strings do not contain the character 0. *)
Definition strings (l : list (list Z)) : Prop := forall s, In s l -> ~ In 0 s.
(** A program started with a documented command line in a system without hindrances. *)
Record launch (p : prog) (name : list Z) (g : given) (o : opts) (v : env) (initial : list Z) : Prop := mkLaunch {
  l_line : documented_line p g;
  l_taken : command p name (SCmd.line p g) = Ok (Run o);
  l_chars : strings (SCmd.line p g);
  l_why : ~ In 0 (v_why v);
  l_fds : fresh_fds initial (v_sys v);
  l_initial : NoDup initial;
  l_ready : ready p o v }.
(** It has come to its end: exit code, standard output; nothing on stderr before the conversation; the line was that of the command
    line, and after success everything is given back. *)
Definition ends {W} (p : prog) (o : opts) (v : env) (initial : list Z) (code : Z) (out : list Z) (w : W) (x : ran W) : Prop :=
  x_code x = code /\ x_out x = out /\ x_err x = [] /\ x_world x = w /\ x_place x = Some (where_to p o) /\
  (exists pr, x_talk x = Some (pr, program_handle p o) /\ prepared p o v pr) /\
  (code = 0 -> nothing_left initial (x_end x)).

(** ** Output *)
Definition scan_line (l : MTools.line) (t : list Z) : Prop :=
  match l with
  | DeviceAt a => exists d, decimal a d /\ t = cstr "Found a M-Bus device at address " ++ d ++ [10]
  | CollisionAt a => exists d, decimal a d /\ t = cstr "Collision at address " ++ d ++ [10]
  end.
(** A line of the scan of secondary addresses: the address of a slave and a mask. *)
Definition found_line (addr t : list Z) : Prop :=
  exists mask, wf_mask mask /\ t = cstr "Found a device on secondary address " ++ addr ++ cstr " [using address mask " ++ mask ++ cstr "]" ++ [10].

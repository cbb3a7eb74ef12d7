(** Specification: the documented command lines of the programs. *)
From Coq Require Import String.
From Coq Require Import List.
From Verif Require Import CBase CStr SText SSecond SXml MCmd.
Local Open Scope Z_scope.

(** ** Numbers on a command line *)
Definition white (c : Z) : Prop := c = 32 \/ 9 <= c <= 13.
Definition digit (c : Z) : Prop := 48 <= c <= 57.
Definition begins (P : Z -> Prop) (s : list Z) : Prop := match s with [] => False | c :: _ => P c end.
(** The number a text stands for: white space, a sign and decimal digits at its beginning, all three optional; without
    digits it is 0. What follows is ignored. *)
Definition reads (s : list Z) (n : Z) : Prop :=
  exists space sign ds rest m, s = space ++ sign ++ ds ++ rest /\ Forall white space /\
    (ds = [] /\ m = 0 \/ read_nat 10 ds = Some m) /\ ~ begins digit rest /\
    (sign = [] /\ n = m /\ ~ begins (fun c => white c \/ c = 43 \/ c = 45) (ds ++ rest) \/ sign = [43] /\ n = m \/ sign = [45] /\ n = - m).
(** It fits a C int. *)
Definition fits (s : list Z) : Prop := exists n, reads s n /\ - 2^31 <= n < 2^31.

(** ** The documented options *)
Inductive kind := D | N | B | R | F.
(** An option as given: -d, -n, or -b, -r, -f with the text after it. *)
Inductive flag := Switch (k : kind) | Value (k : kind) (s : list Z).
Definition kind_of (f : flag) : kind := match f with Switch k => k | Value k _ => k end.
Definition wants_value (k : kind) : bool := match k with D | N => false | B | R | F => true end.
Definition well (f : flag) : Prop := match f with Switch k => wants_value k = false | Value k _ => wants_value k = true end.
Definition letter (k : kind) : list Z := cstr (match k with D => "-d" | N => "-n" | B => "-b" | R => "-r" | F => "-f" end).
Definition flag_text (f : flag) : list (list Z) := match f with Switch k => [letter k] | Value k s => [letter k; s] end.
(** The options of the usage message, in its order. *)
Definition documented (p : prog) : list kind :=
  match p with
  | SerialScan => [D; B; R] | TcpScan => [D; R]
  | SerialScanSecondary => [D; B] | TcpScanSecondary => []
  | SerialRequest => [D; B] | TcpRequest => [D]
  | SerialMulti => [D; B; F] | TcpMulti => [D; F]
  | SetAddress => [D; B] | SwitchBaudrate => [B]
  | ApplicationReset => [D] | RawSend => [D]
  | SerialSelect => [B] | TcpSelect => []
  | ParseHex | ParseBinary => [N]
  end.
(** Some of them, in this order; the two programs for several telegrams take them in any order and repeatedly. *)
Inductive chosen : list kind -> list kind -> Prop :=
  | c_nil : chosen [] []
  | c_take k ks l : chosen ks l -> chosen (k :: ks) (k :: l)
  | c_skip k ks l : chosen ks l -> chosen (k :: ks) l.
Definition allowed (p : prog) (fs : list flag) : Prop :=
  Forall well fs /\
  match p with
  | SerialMulti | TcpMulti => Forall (fun f => In (kind_of f) (documented p)) fs
  | _ => chosen (documented p) (map kind_of fs)
  end.

(** What the user gives: options; device, host or file; port; address; the number after it; the optional last argument. *)
Record given := mkG { g_flags : list flag; g_target : list Z; g_port : list Z; g_addr : list Z; g_num : list Z; g_last : option (list Z) }.
Definition opt_list {A} (o : option A) : list A := match o with Some a => [a] | None => [] end.
(** The arguments after the options. *)
Definition places (p : prog) (g : given) : list (list Z) :=
  match p with
  | SerialScan => [g_target g] | TcpScan => [g_target g; g_port g]
  | SerialScanSecondary => g_target g :: opt_list (g_last g) | TcpScanSecondary => g_target g :: g_port g :: opt_list (g_last g)
  | SerialRequest | SerialMulti | SerialSelect => [g_target g; g_addr g]
  | TcpRequest | TcpMulti | TcpSelect => [g_target g; g_port g; g_addr g]
  | SetAddress | SwitchBaudrate => [g_target g; g_addr g; g_num g]
  | ApplicationReset | RawSend => g_target g :: g_port g :: g_addr g :: opt_list (g_last g)
  | ParseHex | ParseBinary => [g_target g]
  end.
Definition line (p : prog) (g : given) : list (list Z) := flat_map flag_text (g_flags g) ++ places p g.
(** Without options and with the last argument, a device or host called -d would be taken for the option. *)
Definition clear_target (p : prog) (g : given) : Prop := g_last g <> None -> g_flags g = [] -> In D (documented p) -> g_target g <> letter D.
Definition documented_line (p : prog) (g : given) : Prop := allowed p (g_flags g) /\ clear_target p g.
Definition serial (p : prog) : bool :=
  match p with SerialScan | SerialScanSecondary | SerialRequest | SerialMulti | SetAddress | SwitchBaudrate | SerialSelect => true | _ => false end.
Definition tcp (p : prog) : bool :=
  match p with TcpScan | TcpScanSecondary | TcpRequest | TcpMulti | ApplicationReset | RawSend | TcpSelect => true | _ => false end.
(** The numbers on it fit. *)
Definition numbers_fit (p : prog) (g : given) : Prop :=
  (forall k s, In (Value k s) (g_flags g) -> fits s) /\ (tcp p = true -> fits (g_port g)) /\
  match p with
  | SetAddress => fits (g_num g)
  | SwitchBaudrate => fits (g_addr g) /\ fits (g_num g)
  | ApplicationReset => forall s, g_last g = Some s -> fits s
  | _ => True
  end.

(** ** What it means *)
(** The value of an option: that given last, or the default. *)
Definition chose (k : kind) (fs : list flag) (default n : Z) : Prop :=
  (exists l s r, fs = l ++ Value k s :: r /\ ~ In k (map kind_of r) /\ reads s n) \/ ~ In k (map kind_of fs) /\ n = default.
Definition all_slaves := cstr "FFFFFFFFFFFFFFFF".
(** The settings of a run: baud rate 9600, no retries, 16 telegrams, all slaves, no subcode and standard input unless
    given. *)
Definition means (p : prog) (g : given) (o : opts) : Prop :=
  (o_debug o = true <-> In D (map kind_of (g_flags g))) /\ (o_norm o = true <-> In N (map kind_of (g_flags g))) /\
  chose B (g_flags g) 9600 (o_baud o) /\ chose R (g_flags g) 0 (o_retries o) /\ chose F (g_flags g) 16 (o_frames o) /\
  o_target o = g_target g /\ (tcp p = true -> reads (g_port g) (o_port o)) /\
  match p with
  | SerialScanSecondary | TcpScanSecondary => o_addr o = match g_last g with Some m => m | None => all_slaves end
  | SerialRequest | TcpRequest | SerialMulti | TcpMulti | SerialSelect | TcpSelect => o_addr o = g_addr g
  | SetAddress | SwitchBaudrate => o_addr o = g_addr g /\ reads (g_num g) (o_num o)
  | ApplicationReset => o_addr o = g_addr g /\ match g_last g with Some s => reads s (o_num o) | None => o_num o = -1 end
  | RawSend => o_addr o = g_addr g /\ o_file o = g_last g
  | _ => True
  end.
(** The values refused. *)
Definition bad_port (p : prog) (o : opts) : Prop := tcp p = true /\ ~ 0 <= o_port o <= 65535.
Definition bad_address (p : prog) (o : opts) : Prop :=
  match p with
  | SerialScanSecondary | TcpScanSecondary | SerialSelect | TcpSelect => ~ hex16 (o_addr o)
  | SetAddress => ~ 0 <= o_num o <= 252
  | _ => False
  end.
Definition complaint (p : prog) (code : Z) (text : list Z) : Prop :=
  match p with
  | SetAddress => code = -1 /\ text = cstr "Invalid new primary address" ++ [10]
  | SerialSelect | TcpSelect => code = 1 /\ text = cstr "Misformatted secondary address. Must be 16 character HEX number." ++ [10]
  | _ => code = 1 /\ text = cstr "Misformatted secondary address mask. Must be 16 character HEX number." ++ [10]
  end.
(** What the program does on the settings: a value is refused, or they are taken. *)
Definition verdict (p : prog) (o : opts) (c : cmd) : Prop :=
  (bad_port p o /\ exists t, decimal (o_port o) t /\ c = Refused 1 (cstr "Invalid port: " ++ t ++ [10])) \/
  (~ bad_port p o /\ bad_address p o /\ exists code t, complaint p code t /\ c = Refused code t) \/
  (~ bad_port p o /\ ~ bad_address p o /\ c = Run o).
(** The line is read as documented. *)
Definition taken (p : prog) (g : given) (c : cmd) : Prop := exists o, means p g o /\ verdict p o c.
(** The usage message names the options and arguments; exit code 0, 1 for the programs for several telegrams and files. *)
Definition option_text (k : kind) : string :=
  match k with D => "[-d] " | N => "[-n] " | B => "[-b BAUDRATE] " | R => "[-r RETRIES] " | F => "[-f FRAMES] " end.
Definition place_text (p : prog) : string :=
  match p with
  | SerialScan => "device" | TcpScan => "host port"
  | SerialScanSecondary => "device [address-mask]" | TcpScanSecondary => "host port [address-mask]"
  | SerialRequest | SerialMulti => "device mbus-address" | TcpRequest | TcpMulti => "host port mbus-address"
  | SetAddress => "device mbus-address new-primary-address" | SwitchBaudrate => "device address target-baudrate"
  | ApplicationReset => "host port mbus-address [subcode]" | RawSend => "host port mbus-address [file]"
  | SerialSelect => "device secondary-mbus-address" | TcpSelect => "host port secondary-mbus-address"
  | ParseHex => "hex-file" | ParseBinary => "binary-file"
  end.
(** One line explains each of these options (four programs explain none); the scan programs describe the mask, the raw send program the file. *)
Definition help_text (k : kind) : list Z :=
  cstr "optional flag " ++ letter k ++ cstr " for " ++
  cstr (match k with D => "debug printout" | N => "normalized values" | B => "selecting baudrate" | R => "selecting retries" | F => "selecting the maximal number of frames" end).
Definition explained (p : prog) : list kind := match p with SerialScan | TcpScan | SwitchBaudrate | ApplicationReset => [] | _ => documented p end.
Definition indent (p : prog) : list Z := match p with SerialScanSecondary | TcpScanSecondary => [9] | _ => cstr "    " end.
Definition place_help (p : prog) : list string :=
  match p with
  | SerialScanSecondary | TcpScanSecondary =>
      ["restrict the search by supplying an optional address mask on the form"; "'FFFFFFFFFFFFFFFF' where F is a wildcard character"]%string
  | RawSend => ["optional argument file for file. if omitted read from stdin"]%string
  | _ => []
  end.
Definition usage_shown (p : prog) (name : list Z) (c : cmd) : Prop :=
  c = Refused (match p with SerialMulti | TcpMulti | ParseHex | ParseBinary => 1 | _ => 0 end)
    (cstr "usage: " ++ name ++ cstr " " ++ flat_map (fun k => cstr (option_text k)) (documented p) ++ cstr (place_text p) ++ [10] ++
     flat_map (fun l => indent p ++ l ++ [10]) (map help_text (explained p) ++ map cstr (place_help p))).

(** Specification of the life of handles: what a program may call, judged by the results it got, and which descriptors
    it must not lose. *)
From Verif Require Import CBase MDouble MConn.

(** Phase of a handle as the program sees it. *)
Inductive phase := New | Failed | Up | Down.
(** The calls so far, the latest first, with their results. *)
Definition history := list (call * Z).

Fixpoint kind_of (log : history) (h : Z) : option bool :=
  match log with
  | [] => None
  | (Create serial _ _ _, r) :: log' => if r =? h then Some serial else kind_of log' h
  | _ :: log' => kind_of log' h
  end.
(** The phase of the handle [h]; None: no live handle. *)
Fixpoint phase_of (log : history) (h : Z) : option phase :=
  match log with
  | [] => None
  | (c, r) :: log' =>
      let was := phase_of log' h in
      match c with
      | Create _ _ _ _ => if (r =? h) && negb (r =? 0) then Some New else was
      | Connect _ h' => if h' =? h then (if r =? 0 then Some Up else Some Failed) else was
      | Disconnect h' => if h' =? h then Some Down else was
      | FreeHandle h' => if h' =? h then None else was
      | _ => was
      end
  end.
(** Descriptors of the rest of the process. *)
Fixpoint others (initial : list Z) (log : history) : list Z :=
  match log with
  | [] => initial
  | (OtherOpens fd, _) :: log' => fd :: others initial log'
  | (OtherCloses fd, _) :: log' => filter (fun x => negb (x =? fd)) (others initial log')
  | _ :: log' => others initial log'
  end.

(** The non-negative doubles below 2^53. *)
Definition double (q : Q) : Prop := exists m k, 0 <= m < 2 ^ 53 /\ 0 <= k /\ (q == m # Z.to_pos (2 ^ k))%Q.
(** A call that follows the rules: connect a handle that is not connected; set the baud rate of a connected serial
    handle; disconnect a connected or disconnected handle, a serial one also after a failed connect; free a handle that
    is not connected. Timeouts below 2^31 seconds. The rest of the process closes only its own descriptors. *)
Definition allowed (initial : list Z) (log : history) (c : call) : Prop :=
  match c with
  | Create _ _ _ _ => True
  | Connect _ h => h <> 0 /\ exists ph, phase_of log h = Some ph /\ ph <> Up
  | SetBaudrate _ h _ => h <> 0 /\ phase_of log h = Some Up /\ kind_of log h = Some true
  | SetTimeout s => exists q, s = Num q /\ ((q < 0)%Q \/ (double q /\ (q < inject_Z (2 ^ 31))%Q))
  | Disconnect h => h <> 0 /\ (phase_of log h = Some Up \/ phase_of log h = Some Down \/ (phase_of log h = Some Failed /\ kind_of log h = Some true))
  | FreeHandle h => h <> 0 /\ exists ph, phase_of log h = Some ph /\ ph <> Up
  | OtherOpens _ => True
  | OtherCloses fd => In fd (others initial log)
  end.

(** The system hands out descriptors that are not open. *)
Definition unused (p : proc) (fd : Z) : Prop := 0 <= fd /\ ~ In fd (map fst (p_files p)).
Definition system_ok (c : call) (p : proc) : Prop :=
  match c with
  | Connect y _ => (forall fd, s_open y = Some fd -> unused p fd) /\ (forall l fd b, s_info y = Some l -> In (Some fd, b) l -> unused p fd)
  | OtherOpens fd => unused p fd
  | _ => True
  end.

(** Histories of programs that follow the rules, from a process with the descriptors [initial]. *)
Inductive reached (initial : list Z) : history -> proc -> Prop :=
| reached_start : reached initial [] (start initial)
| reached_step log p c r p' : reached initial log p -> allowed initial log c -> system_ok c p -> step c p = Ok (r, p') -> reached initial ((c, r) :: log) p'.

(** Descriptors opened by the library and still open. *)
Definition own_files (p : proc) : list (Z * file) := filter (fun x => match snd x with Foreign => false | _ => true end) (p_files p).
Definition foreign_files (p : proc) : list Z := map fst (filter (fun x => match snd x with Foreign => true | _ => false end) (p_files p)).
(** The descriptor a call of mbus_connect should yield: that of open, that of the first address that accepts. *)
Fixpoint accepts (l : list (option Z * bool)) : option Z :=
  match l with [] => None | (Some fd, true) :: _ => Some fd | _ :: l' => accepts l' end.
Definition line_opened (serial : bool) (y : system) : option Z :=
  if serial then s_open y else match s_info y with None => None | Some l => accepts l end.

(** A line as the M-Bus needs it: 8 data bits, even parity, one stop bit, raw bytes, both directions at the same
    rate; a read that gets nothing ends after [tenths] tenths of a second. *)
Definition mbus_line (rate tenths : Z) (t : term) : Prop :=
  c_iflag t = 0 /\ c_oflag t = 0 /\ c_lflag t = 0 /\
  Z.land (c_cflag t) 0x30 = CS8 /\ Z.land (c_cflag t) 0x40 = 0 (* CSTOPB *) /\ Z.land (c_cflag t) PARENB = PARENB /\ Z.land (c_cflag t) 0x200 = 0 (* PARODD *) /\
  Z.land (c_cflag t) CREAD = CREAD /\ Z.land (c_cflag t) CLOCAL = CLOCAL /\
  c_vmin t = 0 /\ c_vtime t = tenths /\ c_ispeed t = rate /\ c_ospeed t = rate.
(** EN 60870-5-1 as quoted in mbus-serial.c: an answer begins at the latest 330 bit times + 50 ms after the request; 11 bit
    times for its first byte, 100 ms for a USB adapter: in seconds 341 / rate + 0.15. *)
Definition long_enough (rate tenths : Z) : Prop := (inject_Z 341 / inject_Z rate + (15 # 100) <= inject_Z tenths / inject_Z 10)%Q.

(** The baud rates of the M-Bus. *)
Definition rates : list Z := [300; 600; 1200; 2400; 4800; 9600; 19200; 38400].
(** The rate last set on a handle since it was connected (2400 at first). *)
Fixpoint rate_of (log : history) (h : Z) : Z :=
  match log with
  | [] => 2400
  | (Connect _ h', 0) :: log' => if h' =? h then 2400 else rate_of log' h
  | (SetBaudrate _ h' b, 0) :: log' => if h' =? h then b else rate_of log' h
  | _ :: log' => rate_of log' h
  end.
(** Every connect could set the parameters of the terminal. *)
Definition configured (log : history) : Prop := Forall (fun x => match fst x with Connect y _ => s_attr y = true | _ => True end) log.
(** The timeout last set (None: never). *)
Fixpoint timeout_of (log : history) : option Q :=
  match log with
  | [] => None
  | (SetTimeout (Num q), 0) :: _ => Some q
  | _ :: log' => timeout_of log'
  end.
(** The timeout in force when the handle was connected the last time. *)
Fixpoint timeout_at (log : history) (h : Z) : option Q :=
  match log with
  | [] => None
  | (Connect _ h', 0) :: log' => if h' =? h then timeout_of log' else timeout_at log' h
  | _ :: log' => timeout_at log' h
  end.
(** A time value as setsockopt takes it, within a microsecond of [q] seconds. *)
Definition time_value (q : Q) (t : Z * Z) : Prop :=
  0 <= fst t < 2 ^ 31 /\ 0 <= snd t <= 999999 /\
  (inject_Z (fst t) + inject_Z (snd t) / inject_Z 1000000 <= q + (1 # 1000000000))%Q /\
  (q < inject_Z (fst t) + inject_Z (snd t + 1) / inject_Z 1000000 + (1 # 1000000000))%Q.

(** The time value for a requested timeout; 4 seconds if none was requested. *)
Definition timeout_is (q : option Q) (t : Z * Z) : Prop := match q with None => t = (4, 0) | Some q => time_value q t end.
(** The open file behind a live handle. *)
Definition file_of (p : proc) (h : Z) (fd : Z) (f : file) : Prop := exists o, find h (p_handles p) = Some o /\ ob_fd o = Some fd /\ find fd (p_files p) = Some f.

(** Model of handles, connections and their resources: mbus-protocol-aux.c (contexts), mbus-serial.c, mbus-tcp.c.
    No proofs here.
    The operating system is a list of open descriptors; the results of system calls and of malloc are given with each
    call, so that every behaviour of the system is covered. *)
From Verif Require Import CBase MDouble MProto.

(** struct termios as far as it is used. Simplified: the speed constants B300.. are represented by the numbers they
    stand for, and kept apart from c_cflag; of c_cc only VMIN and VTIME. *)
Record term := mkT { c_iflag : Z; c_oflag : Z; c_cflag : Z; c_lflag : Z; c_vmin : Z; c_vtime : Z; c_ispeed : Z; c_ospeed : Z }.
(** Linux: bits of c_cflag. *)
Definition CS8 := 0x30.
Definition CREAD := 0x80.
Definition PARENB := 0x100.
Definition CLOCAL := 0x800.

(** What an open descriptor refers to: a terminal with the parameters set by the library (None: not set), a socket with
    its send and receive timeouts (seconds, microseconds), anything opened by the rest of the process. *)
Inductive file := Tty (t : option term) | Sock (snd_timeout rcv_timeout : option (Z * Z)) | Foreign.

(** mbus-protocol-aux.h 86-102, mbus-serial.h 30-34, mbus-tcp.h 29-33: a handle. None: not initialised ([ob_fd],
    [ob_term]) or NULL ([ob_aux]). [ob_aux]: the blocks of the auxiliary data and of the device or host name. *)
Record obj := mkO { ob_serial : bool; ob_fd : option Z; ob_aux : option (Z * Z); ob_term : option term }.

(** The process: open descriptors, allocated blocks, next block, live handles (by their block), the static variables
    tcp_timeout_sec and tcp_timeout_usec (mbus-tcp.c 29-30). *)
Record proc := mkP { p_files : list (Z * file); p_blocks : list Z; p_next : Z; p_handles : list (Z * obj); p_timeout : Z * Z }.

Definition set_files p l := mkP l (p_blocks p) (p_next p) (p_handles p) (p_timeout p).
Definition set_handles p l := mkP (p_files p) (p_blocks p) (p_next p) l (p_timeout p).

(** Entry of a table. *)
Fixpoint find {A} (k : Z) (l : list (Z * A)) : option A :=
  match l with [] => None | (k', a) :: l' => if k =? k' then Some a else find k l' end.
Definition remove {A} (k : Z) (l : list (Z * A)) : list (Z * A) := filter (fun x => negb (fst x =? k)) l.
Definition replace {A} (k : Z) (a : A) (l : list (Z * A)) : list (Z * A) := map (fun x => if fst x =? k then (k, a) else x) l.

(** malloc: the new block, or NULL (None) if [ok] is false. Simplified: addresses are not used again. *)
Definition malloc (ok : bool) (p : proc) : option Z * proc :=
  if ok then (Some (p_next p), mkP (p_files p) (p_next p :: p_blocks p) (p_next p + 1) (p_handles p) (p_timeout p)) else (None, p).
(** free: undefined for a block that is not allocated. *)
Definition free (b : Z) (p : proc) : res proc :=
  if existsb (Z.eqb b) (p_blocks p) then Ok (mkP (p_files p) (filter (fun x => negb (x =? b)) (p_blocks p)) (p_next p) (p_handles p) (p_timeout p)) else UB.
(** close: an error for a descriptor that is not open (its result is never used). *)
Definition close (fd : Z) (p : proc) : proc := set_files p (remove fd (p_files p)).

(** mbus-protocol-aux.c 1504-1549 [mbus_context_serial], 1551-1597 [mbus_context_tcp] (the same but for the kind).
    [m1], [m2], [m3]: success of the three allocations. Result: the handle, 0 for NULL. The options are not part of
    this model (see MProto). *)
Definition mbus_context (serial m1 m2 m3 : bool) (p : proc) : res (Z * proc) :=
  match malloc m1 p with
  | (None, p) => Ok (0, p)
  | (Some h, p) =>
      match malloc m2 p with
      | (None, p) => let* p := free h p in Ok (0, p)
      | (Some a, p) =>
          match malloc m3 p with
          | (None, p) => let* p := free a p in let* p := free h p in Ok (0, p)
          | (Some s, p) => Ok (h, set_handles p ((h, mkO serial None (Some (a, s)) None) :: p_handles p))
          end
      end
  end.

(** mbus-serial.c 205-223 [mbus_serial_data_free], mbus-tcp.c 105-122 [mbus_tcp_data_free]. *)
Definition data_free (h : Z) (p : proc) : res proc :=
  match find h (p_handles p) with
  | None => UB
  | Some o =>
      match ob_aux o with
      | None => Ok p
      | Some (a, s) =>
          let* p := free s p in
          let* p := free a p in
          Ok (set_handles p (replace h (mkO (ob_serial o) (ob_fd o) None None) (p_handles p)))
      end
  end.
(** mbus-protocol-aux.c 1599-1607 [mbus_context_free]; [h] = 0: NULL. *)
Definition mbus_context_free (h : Z) (p : proc) : res proc :=
  if h =? 0 then Ok p
  else
    let* p := data_free h p in
    let* p := free h p in
    Ok (set_handles p (remove h (p_handles p))).

(** The parameters mbus-serial.c 60-84 sets: 8 data bits, even parity, raw, VMIN 0, VTIME 3, 2400 baud. *)
Definition connect_term : term := mkT 0 0 (Z.lor (Z.lor (Z.lor CS8 CREAD) CLOCAL) PARENB) 0 0 3 2400 2400.
(** mbus-serial.c 33-96 [mbus_serial_connect]. [fd]: result of open (None: error); [attr]: success of tcsetattr, which
    is not tested. *)
Definition mbus_serial_connect (fd : option Z) (attr : bool) (h : Z) (o : obj) (p : proc) : Z * proc :=
  match ob_aux o with
  | None => (-1, p)
  | Some _ =>
      match fd with
      | None => (-1, set_handles p (replace h (mkO true (Some (-1)) (ob_aux o) (ob_term o)) (p_handles p)))
      | Some fd =>
          (0, mkP ((fd, Tty (if attr then Some connect_term else None)) :: p_files p) (p_blocks p) (p_next p)
                (replace h (mkO true (Some fd) (ob_aux o) (Some connect_term)) (p_handles p)) (p_timeout p))
      end
  end.

(** mbus-tcp.c 66-81: the loop over the addresses; each with the result of socket (None: error) and whether connect
    succeeds. Result: success, the value of handle->fd, the descriptors. *)
Fixpoint connect_loop (l : list (option Z * bool)) (fd : option Z) (p : proc) : bool * option Z * proc :=
  match l with
  | [] => (false, fd, p)
  | (None, _) :: l' => connect_loop l' (Some (-1)) p
  | (Some s, up) :: l' =>
      let p := set_files p ((s, Sock None None) :: p_files p) in
      if up then (true, Some s, p) else connect_loop l' (Some s) (close s p)
  end.
(** mbus-tcp.c 35-100 [mbus_tcp_connect]. [info]: the result of getaddrinfo (None: error). Simplified: setsockopt
    succeeds. *)
Definition mbus_tcp_connect (info : option (list (option Z * bool))) (h : Z) (o : obj) (p : proc) : Z * proc :=
  match ob_aux o with
  | None => (-1, p)
  | Some _ =>
      match info with
      | None => (-1, p)
      | Some l =>
          let '(up, fd, p) := connect_loop l (ob_fd o) p in
          let p := set_handles p (replace h (mkO false fd (ob_aux o) (ob_term o)) (p_handles p)) in
          match up, fd with
          | true, Some s => (0, set_files p (replace s (Sock (Some (p_timeout p)) (Some (p_timeout p))) (p_files p)))
          | _, _ => (-1, p)
          end
      end
  end.

(** Results of the system calls of mbus_connect. *)
Record system := mkSys { s_open : option Z; s_attr : bool; s_info : option (list (option Z * bool)) }.
(** mbus-protocol-aux.c 1611-1621 [mbus_connect]; a handle that is not live: undefined. *)
Definition mbus_connect (y : system) (h : Z) (p : proc) : res (Z * proc) :=
  if h =? 0 then Ok (-1, p)
  else match find h (p_handles p) with
  | None => UB
  | Some o => Ok (if ob_serial o then mbus_serial_connect (s_open y) (s_attr y) h o p else mbus_tcp_connect (s_info y) h o p)
  end.

(** mbus-protocol-aux.c 1621-1631 [mbus_disconnect], mbus-serial.c 186-201 [mbus_serial_disconnect], mbus-tcp.c 128-145
    [mbus_tcp_disconnect]: reading an uninitialised descriptor is undefined. *)
Definition mbus_disconnect (h : Z) (p : proc) : res (Z * proc) :=
  if h =? 0 then Ok (-1, p)
  else match find h (p_handles p) with
  | None => UB
  | Some o =>
      match ob_fd o with
      | None => UB
      | Some fd =>
          if fd <? 0 then Ok (-1, p)
          else let p := close fd p in Ok (0, set_handles p (replace h (mkO (ob_serial o) (Some (-1)) (ob_aux o) (ob_term o)) (p_handles p)))
      end
  end.

(** mbus-serial.c 115-159: VTIME for a baud rate (None: not supported). *)
Definition baud_vtime (baudrate : Z) : option Z :=
  if baudrate =? 300 then Some 13
  else if baudrate =? 600 then Some 8
  else if baudrate =? 1200 then Some 5
  else if baudrate =? 2400 then Some 3
  else if baudrate =? 4800 then Some 3
  else if baudrate =? 9600 then Some 2
  else if baudrate =? 19200 then Some 2
  else if baudrate =? 38400 then Some 2
  else None.
(** mbus-serial.c 101-180 [mbus_serial_set_baudrate]; [attr]: success of tcsetattr. Undefined for a TCP handle, whose
    auxiliary data has another type, and for a handle that was never connected (descriptor and parameters not
    initialised). Simplified: cfsetispeed and cfsetospeed succeed for the eight rates. *)
Definition mbus_serial_set_baudrate (attr : bool) (h baudrate : Z) (p : proc) : res (Z * proc) :=
  if h =? 0 then Ok (-1, p)
  else match find h (p_handles p) with
  | None => UB
  | Some o =>
      if negb (ob_serial o) then UB
      else match ob_aux o with
      | None => Ok (-1, p)
      | Some _ =>
          match baud_vtime baudrate with
          | None => Ok (-1, p)
          | Some v =>
              match ob_term o, ob_fd o with
              | Some t, Some fd =>
                  let t := mkT (c_iflag t) (c_oflag t) (c_cflag t) (c_lflag t) (c_vmin t) v baudrate baudrate in
                  let p := set_handles p (replace h (mkO (ob_serial o) (ob_fd o) (ob_aux o) (Some t)) (p_handles p)) in
                  match find fd (p_files p) with
                  | Some (Tty _) => if attr then Ok (0, set_files p (replace fd (Tty (Some t)) (p_files p))) else Ok (-1, p)
                  | _ => Ok (-1, p)
                  end
              | _, _ => UB
              end
          end
      end
  end.

(** mbus-tcp.c 258-276 [mbus_tcp_set_timeout_set]. The conversion of a double outside the range of int is undefined; so is
    that of NaN and infinity. The difference to the integer part is exact. *)
Definition Qtrunc (q : Q) : Z := Z.quot (Qnum q) (Z.pos (Qden q)).
Definition double_to_int (x : real) : res Z := match x with Num q => int_op (Qtrunc q) | NonFinite _ _ => UB end.
Definition mbus_tcp_set_timeout_set (seconds : real) (p : proc) : res (Z * proc) :=
  let negative := match seconds with Num q => Qnum q <? 0 | NonFinite neg nan => neg && negb nan end in
  if negative then Ok (-1, p)
  else
    let* sec := double_to_int seconds in
    let* usec := double_to_int (rmul (radd seconds (inject_Z (- sec))) (inject_Z 1000000)) in
    Ok (0, mkP (p_files p) (p_blocks p) (p_next p) (p_handles p) (sec, usec)).

(** The calls of a program; [OtherOpens], [OtherCloses]: what the rest of the process does with its descriptors. *)
Inductive call :=
| Create (serial m1 m2 m3 : bool)
| Connect (y : system) (h : Z)
| SetBaudrate (attr : bool) (h baudrate : Z)
| SetTimeout (seconds : real)
| Disconnect (h : Z)
| FreeHandle (h : Z)
| OtherOpens (fd : Z)
| OtherCloses (fd : Z).
Definition step (c : call) (p : proc) : res (Z * proc) :=
  match c with
  | Create serial m1 m2 m3 => mbus_context serial m1 m2 m3 p
  | Connect y h => mbus_connect y h p
  | SetBaudrate attr h b => mbus_serial_set_baudrate attr h b p
  | SetTimeout s => mbus_tcp_set_timeout_set s p
  | Disconnect h => mbus_disconnect h p
  | FreeHandle h => let* p := mbus_context_free h p in Ok (0, p)
  | OtherOpens fd => Ok (0, set_files p ((fd, Foreign) :: p_files p))
  | OtherCloses fd => Ok (0, close fd p)
  end.
(** A process before the first call, with the descriptors [fds]. *)
Definition start (fds : list Z) : proc := mkP (map (fun fd => (fd, Foreign)) fds) [] 1 [] (4, 0).

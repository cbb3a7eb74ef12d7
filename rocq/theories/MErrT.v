(** Model of the diagnostics of the transport layers: the error text (see MErr) and what is written to stderr by
    mbus-serial.c, mbus-tcp.c and the functions of mbus-protocol-aux.c that create handles and use them.
    The same functions without diagnostics are in MRecv, MProto and MConn. No proofs here. *)
From Coq Require Import String.
From Coq Require Import List.
From Verif Require Import CBase CStr MFrame MText MXml MRecv MProto MDouble MConn MErr.
Local Open Scope Z_scope.

(** A local buffer [char error_str[128]] filled by snprintf and given to mbus_error_str_set
    (mbus-protocol-aux.c 1509-1520, mbus-tcp.c 38-62 and so on): at most 127 characters get through. *)
Definition set128 (e m : list Z) : res (list Z) := mbus_error_str_set e (Some (firstn 127 m)).

(** Outcome of a receive call: code, frame, unread events, bytes received; the error text; what was written to stderr. *)
Definition recv_res_e := res (option (Z * frame * list ev * list Z * list Z * list Z)).

(** mbus-tcp.c 208-256 (see MRecv.tcp_loop). Nothing is written to stderr. *)
Fixpoint tcp_loop_e (fuel : nat) (e : list Z) (f : frame) (evs : list ev) (got : list Z) (remaining : Z) : recv_res_e :=
  match fuel with
  | O => Ok None
  | S fuel' =>
      let len := Z.of_nat (List.length got) in
      if len + remaining >? PACKET_BUFF_SIZE then Ok (Some (RECV_ERROR, f, evs, got, e, []))
      else
        match read_ev (RErr EAgain) evs (Z.to_nat remaining) with
        | (RErr EIntr, es) => tcp_loop_e fuel' e f es got remaining
        | (RErr EAgain, es) =>
            let* e := mbus_error_str_set e (Some (cstr "M-Bus tcp transport layer response timeout has been reached.")) in
            Ok (Some (RECV_TIMEOUT, f, es, got, e, []))
        | (RErr _, es) =>
            let* e := mbus_error_str_set e (Some (cstr "M-Bus tcp transport layer failed to read data.")) in
            Ok (Some (RECV_ERROR, f, es, got, e, []))
        | (RBytes bs, es) =>
            if (List.length bs =? 0)%nat then
              let* e := mbus_error_str_set e (Some (cstr "M-Bus tcp transport layer connection closed by remote host.")) in
              Ok (Some (RECV_RESET, f, es, got, e, []))
            else
              let nread := Z.of_nat (List.length bs) in
              if len + nread >? PACKET_BUFF_SIZE then UB
              else
                let got' := got ++ bs in
                let* (r, fo, e) := mbus_parse_e e (Some f) (Some got') in
                match fo with
                | None => UB
                | Some f' =>
                    if r >? 0 then tcp_loop_e fuel' e f' es got' r
                    else if r <? 0 then
                      let* e := mbus_error_str_set e (Some (cstr "M-Bus layer failed to parse data.")) in
                      Ok (Some (RECV_INVALID, f', es, got', e, []))
                    else Ok (Some (RECV_OK, f', es, got', e, []))
                end
        end
  end.
(** mbus-tcp.c 190-256 [mbus_tcp_recv_frame] (pointers not NULL). *)
Definition mbus_tcp_recv_frame_e (e : list Z) (f : frame) (evs : list ev) : recv_res_e := tcp_loop_e (ev_size evs + 4) e f evs [] 1.

(** mbus-serial.c 357-381. *)
Definition serial_finish_e (e err : list Z) (f : frame) (evs : list ev) (got : list Z) (remaining : Z) : recv_res_e :=
  if (List.length got =? 0)%nat then Ok (Some (RECV_TIMEOUT, f, evs, got, e, err))
  else if negb (remaining =? 0) then Ok (Some (RECV_INVALID, f, evs, got, e, err))
  else Ok (Some (RECV_OK, f, evs, got, e, err)).
(** mbus-serial.c 315-355 (see MRecv.serial_loop). *)
Fixpoint serial_loop_e (fuel : nat) (e : list Z) (f : frame) (evs : list ev) (got : list Z) (remaining timeouts : Z) : recv_res_e :=
  match fuel with
  | O => Ok None
  | S fuel' =>
      let len := Z.of_nat (List.length got) in
      if len + remaining >? PACKET_BUFF_SIZE then Ok (Some (RECV_ERROR, f, evs, got, e, []))
      else
        match read_ev (RBytes []) evs (Z.to_nat remaining) with
        | (RErr _, es) => Ok (Some (RECV_ERROR, f, es, got, e, []))
        | (RBytes bs, es) =>
            let nread := Z.of_nat (List.length bs) in
            let timeouts' := if nread =? 0 then timeouts + 1 else timeouts in
            if (nread =? 0) && (timeouts' >=? 3)
            then serial_finish_e e (cstr "mbus_serial_recv_frame: Timeout" ++ nl) f es got remaining
            else if len + nread >? PACKET_BUFF_SIZE then UB
            else
              let got' := got ++ bs in
              let* (r, fo, e) := mbus_parse_e e (Some f) (Some got') in
              match fo with
              | None => UB
              | Some f' => if r >? 0 then serial_loop_e fuel' e f' es got' r timeouts' else serial_finish_e e [] f' es got' r
              end
        end
  end.
(** mbus-serial.c 287-382 [mbus_serial_recv_frame] (pointers not NULL); [tty]: isatty(fd). *)
Definition mbus_serial_recv_frame_e (tty : bool) (e : list Z) (f : frame) (evs : list ev) : recv_res_e :=
  if negb tty then Ok (Some (RECV_ERROR, f, evs, [], e, cstr "mbus_serial_recv_frame: Serial connection is not available." ++ nl))
  else serial_loop_e (ev_size evs + 4) e f evs [] 1 0.

(** mbus-tcp.c 150-185 [mbus_tcp_send_frame] (pointers not NULL; see MRecv.transport_send_frame). *)
Definition mbus_tcp_send_frame_e (wret : Z -> Z) (e : list Z) (f : frame) : res (Z * frame * option (list Z) * list Z) :=
  let buff := repeat 0 (Z.to_nat PACKET_BUFF_SIZE) in
  let* (len, f', buff') := mbus_frame_pack f buff PACKET_BUFF_SIZE in
  if len =? -1 then let* e := set128 e (cstr "mbus_tcp_send_frame: mbus_frame_pack failed" ++ nl) in Ok (-1, f', None, e)
  else if len <? 0 then UB
  else if wret len =? len then Ok (0, f', Some (firstn (Z.to_nat len) buff'), e)
  else
    let* e := set128 e (cstr "mbus_tcp_send_frame: Failed to write frame to socket (ret = " ++ fmt_d (wret len) ++ cstr ")" ++ nl) in
    Ok (-1, f', Some (firstn (Z.to_nat len) buff'), e).
(** mbus-serial.c 228-282 [mbus_serial_send_frame] (pointers not NULL): the error text is not touched; what is written to
    stderr. [why]: strerror(errno). *)
Definition mbus_serial_send_frame_e (tty : bool) (wret : Z -> Z) (why : list Z) (e : list Z) (f : frame)
  : res (Z * frame * option (list Z) * list Z * list Z) :=
  if negb tty then Ok (-1, f, None, e, [])
  else
    let buff := repeat 0 (Z.to_nat PACKET_BUFF_SIZE) in
    let* (len, f', buff') := mbus_frame_pack f buff PACKET_BUFF_SIZE in
    if len =? -1 then Ok (-1, f', None, e, cstr "mbus_serial_send_frame: mbus_frame_pack failed" ++ nl)
    else if len <? 0 then UB
    else if wret len =? len then Ok (0, f', Some (firstn (Z.to_nat len) buff'), e, [])
    else Ok (-1, f', Some (firstn (Z.to_nat len) buff'), e,
             cstr "mbus_serial_send_frame: Failed to write frame to socket (ret = " ++ fmt_d (wret len) ++ cstr ": " ++ why ++ cstr ")" ++ nl).

(** mbus-protocol-aux.c 1674-1712 [mbus_recv_frame] with a handle of either kind (serial with an open terminal); [purge]: the
    purge option. *)
Definition handle_recv_e (serial : bool) (e : list Z) (f : frame) (evs : list ev) : recv_res_e :=
  if serial then mbus_serial_recv_frame_e true e f evs else mbus_tcp_recv_frame_e e f evs.
Definition mbus_recv_frame_e (serial : bool) (purge : Z) (e : list Z) (f : frame) (evs : list ev) : out (Z * frame * list ev * list Z * list Z) :=
  do o <- lift (handle_recv_e serial e f evs) ;;
  match o with
  | None => Endless
  | Some (c, f1, evs1, _, e, err) =>
      let dir := mbus_frame_direction f1 in
      if ((dir =? DIR_M2S) && (purge =? PURGE_M2S)) || ((dir =? DIR_S2M) && (purge =? PURGE_S2M))
      then
        do o <- lift (handle_recv_e serial e f1 evs1) ;;
        match o with
        | None => Endless
        | Some (c2, f2, evs2, _, e, err2) => Done (c2, f2, evs2, e, err ++ err2)
        end
      else Done (c, f1, evs1, e, err)
  end.
(** mbus-protocol-aux.c 1714-1733 [mbus_purge_frames]. *)
Fixpoint purge_loop_e (fuel : nat) (serial : bool) (purge : Z) (e : list Z) (f : frame) (evs : list ev) (received : Z) (err : list Z)
  : out (Z * list ev * list Z * list Z) :=
  match fuel with
  | O => Endless
  | S fuel' =>
      do (c, f, evs, e, err') <- mbus_recv_frame_e serial purge e f evs ;;
      if negb (c =? RECV_OK) && negb (c =? RECV_INVALID) then Done (received, evs, e, err ++ err')
      else purge_loop_e fuel' serial purge e f evs 1 (err ++ err')
  end.
Definition mbus_purge_frames_e (serial : bool) (purge : Z) (e : list Z) (evs : list ev) : out (Z * list ev * list Z * list Z) :=
  purge_loop_e (S (ev_size evs)) serial purge e frame_zero evs 0 [].

(** mbus-protocol-aux.c 1504-1549 [mbus_context_serial], 1551-1597 [mbus_context_tcp] (see MConn.mbus_context); also what is
    written to stderr. *)
Definition context_name (serial : bool) : list Z := if serial then cstr "mbus_context_serial" else cstr "mbus_context_tcp".
Definition mbus_context_e (serial m1 m2 m3 : bool) (e : list Z) (p : proc) : res (Z * proc * list Z * list Z) :=
  match malloc m1 p with
  | (None, p) => Ok (0, p, e, context_name serial ++ cstr ": Failed to allocate handle." ++ nl)
  | (Some h, p) =>
      match malloc m2 p with
      | (None, p) =>
          let* e := set128 e (context_name serial ++ cstr ": failed to allocate memory for handle" ++ nl) in
          let* p := free h p in Ok (0, p, e, [])
      | (Some a, p) =>
          match malloc m3 p with
          | (None, p) =>
              let* e := set128 e (context_name serial ++ cstr ": failed to allocate memory for " ++
                                  (if serial then cstr "device" else cstr "host") ++ nl) in
              let* p := free a p in let* p := free h p in Ok (0, p, e, [])
          | (Some s, p) => Ok (h, set_handles p ((h, mkO serial None (Some (a, s)) None) :: p_handles p), e, [])
          end
      end
  end.

(** mbus-tcp.c 35-100 [mbus_tcp_connect] (see MConn.mbus_tcp_connect); [host], [port] (uint16_t) of the handle; [why]:
    gai_strerror(status). *)
Definition mbus_tcp_connect_e (info : option (list (option Z * bool))) (host : list Z) (port : Z) (why : list Z) (h : Z) (o : obj) (e : list Z) (p : proc)
  : res (Z * proc * list Z) :=
  match ob_aux o with
  | None => Ok (-1, p, e)
  | Some _ =>
      match info with
      | None => let* e := set128 e (cstr "mbus_tcp_connect: getaddrinfo: " ++ why) in Ok (-1, p, e)
      | Some l =>
          let '(up, fd, p) := connect_loop l (ob_fd o) p in
          let p := set_handles p (replace h (mkO false fd (ob_aux o) (ob_term o)) (p_handles p)) in
          match up, fd with
          | true, Some s => Ok (0, set_files p (replace s (Sock (Some (p_timeout p)) (Some (p_timeout p))) (p_files p)), e)
          | _, _ =>
              let* e := set128 e (cstr "mbus_tcp_connect: Failed to establish connection to " ++ host ++ cstr ":" ++ firstn 5 (fmt_d port)) in
              Ok (-1, p, e)
          end
      end
  end.
(** mbus-serial.c 33-96 [mbus_serial_connect]: no error text; what is written to stderr. *)
Definition mbus_serial_connect_e (fd : option Z) (attr : bool) (h : Z) (o : obj) (p : proc) : Z * proc * list Z :=
  let (r, p') := mbus_serial_connect fd attr h o p in
  (r, p', match ob_aux o, fd with Some _, None => cstr "mbus_serial_connect: failed to open tty." | _, _ => [] end).
(** mbus-tcp.c 258-276 [mbus_tcp_set_timeout_set] (see MConn). *)
Definition mbus_tcp_set_timeout_set_e (seconds : real) (e : list Z) (p : proc) : res (Z * proc * list Z) :=
  let* (r, p) := mbus_tcp_set_timeout_set seconds p in
  if r =? -1 then let* e := mbus_error_str_set e (Some (cstr "Invalid timeout (must be positive).")) in Ok (r, p, e) else Ok (r, p, e).

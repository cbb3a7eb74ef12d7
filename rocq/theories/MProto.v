(** Model of the master's protocol procedures: mbus/mbus-protocol-aux.c 1504-2534. No proofs here.
    The other end of the line is an arbitrary machine: it gets the bytes of each write() and determines what the
    following reads will see. *)
From Verif Require Import CBase CStr MFrame MCodec MVar MText MXml MRecv MSecond.

(** Outcome of a procedure: a value, undefined behaviour, or still running after the given number of loop rounds. *)
Inductive out (A : Type) : Type := Done (a : A) | Undef | Endless.
Arguments Done {A} a.
Arguments Undef {A}.
Arguments Endless {A}.
Definition obind {A B} (x : out A) (k : A -> out B) : out B :=
  match x with Done a => k a | Undef => Undef | Endless => Endless end.
Declare Scope out_scope.
Delimit Scope out_scope with out.
Notation "'do' x '<-' e ';;' k" := (obind e (fun x => k))
  (at level 200, x pattern, e at level 100, k at level 200, right associativity) : out_scope.
Global Open Scope out_scope.
Definition lift {A} (x : res A) : out A := match x with Ok a => Done a | UB => Undef end.

(** mbus-protocol-aux.h 86-102 [mbus_handle]: the options; the function pointers are those of the serial or of the
    TCP transport. Simplified: callbacks, file descriptor and auxdata are omitted. *)
Record handle := mkH { max_data_retry : Z; max_search_retry : Z; purge_first_frame : Z; is_serial : bool }.
(** mbus-protocol-aux.h 79-81. *)
Definition PURGE_NONE := 0.
Definition PURGE_M2S := 1.
Definition PURGE_S2M := 2.
(** mbus-protocol-aux.h 74-77. *)
Definition PROBE_NOTHING := 0.
Definition PROBE_SINGLE := 1.
Definition PROBE_COLLISION := 2.
Definition PROBE_ERROR := -1.

(** mbus-protocol-aux.c 1504-1549 [mbus_context_serial], 1551-1597 [mbus_context_tcp]: initial options. *)
Definition mbus_context_serial : handle := mkH 3 1 PURGE_M2S true.
Definition mbus_context_tcp : handle := mkH 3 1 PURGE_M2S false.

(** mbus-protocol-aux.c 1635-1672 [mbus_context_set_option]; options 0, 1, 2 (mbus-protocol-aux.h 154-158); a NULL
    handle gives -1. *)
Definition mbus_context_set_option (h : handle) (option value : Z) : Z * handle :=
  if option =? 0 then
    if (value >=? 0) && (value <=? 9)
    then (0, mkH value (max_search_retry h) (purge_first_frame h) (is_serial h)) else (-1, h)
  else if option =? 1 then
    if (value >=? 0) && (value <=? 9)
    then (0, mkH (max_data_retry h) value (purge_first_frame h) (is_serial h)) else (-1, h)
  else if option =? 2 then
    if (value =? PURGE_NONE) || (value =? PURGE_M2S) || (value =? PURGE_S2M)
    then (0, mkH (max_data_retry h) (max_search_retry h) value (is_serial h)) else (-1, h)
  else (-1, h).

(** What happened so far: telegrams handed to write(), results of mbus_recv_frame with the bytes received last (as
    given to the recv_event callback, mbus-serial.c 365-366, mbus-tcp.c 247-248), slaves reported by the scan. *)
Inductive action := Sent (l : list Z) | Received (code : Z) (l : list Z) | Found (addr : list Z).

Section Bus.
  (** The other end: its state, the value write() returns for a count of bytes, its reaction to the bytes written. *)
  Variable B : Type.
  Variable wret : B -> Z -> Z.
  Variable react : B -> list Z -> B * list ev.
  Record world := mkW { w_bus : B; w_evs : list ev; w_log : list action }.
  Definition log (w : world) (a : action) : world := mkW (w_bus w) (w_evs w) (w_log w ++ [a]).

  (** mbus-protocol-aux.c 1735-1745 [mbus_send_frame]: 0 for a NULL handle, else the transport's send. *)
  Definition mbus_send_frame (hp : option handle) (f : frame) (w : world) : out (Z * frame * world) :=
    match hp with
    | None => Done (0, f, w)
    | Some _ =>
        do (r, f', o) <- lift (transport_send_frame (wret (w_bus w)) f) ;;
        match o with
        | None => Done (r, f', w)
        | Some bs => let (b, es) := react (w_bus w) bs in Done (r, f', mkW b (w_evs w ++ es) (w_log w ++ [Sent bs]))
        end
    end.

  (** [handle->recv(handle, frame)]: mbus-protocol-aux.c 1535, 1582. *)
  Definition handle_recv (h : handle) (f : frame) (evs : list ev) : out (Z * frame * list ev * list Z) :=
    do o <- lift (if is_serial h then mbus_serial_recv_frame f evs else mbus_tcp_recv_frame f evs) ;;
    match o with Some r => Done r | None => Endless end.

  (** mbus-protocol-aux.c 1674-1712 [mbus_recv_frame] (frame not NULL). Simplified: the timestamp is omitted. *)
  Definition mbus_recv_frame (hp : option handle) (f : frame) (w : world) : out (Z * frame * world) :=
    match hp with
    | None => Done (RECV_ERROR, f, w)
    | Some h =>
        do (c, f1, evs1, got1) <- handle_recv h f (w_evs w) ;;
        let dir := mbus_frame_direction f1 in
        if ((dir =? DIR_M2S) && (purge_first_frame h =? PURGE_M2S)) || ((dir =? DIR_S2M) && (purge_first_frame h =? PURGE_S2M))
        then do (c2, f2, evs2, got2) <- handle_recv h f1 evs1 ;;
             Done (c2, f2, mkW (w_bus w) evs2 (w_log w ++ [Received c2 got2]))
        else Done (c, f1, mkW (w_bus w) evs1 (w_log w ++ [Received c got1]))
    end.

  (** mbus-protocol-aux.c 1721-1730: the loop of [mbus_purge_frames]. *)
  Fixpoint purge_loop (fuel : nat) (hp : option handle) (f : frame) (w : world) (received : Z) : out (Z * world) :=
    match fuel with
    | O => Endless
    | S fuel' =>
        do (c, f', w') <- mbus_recv_frame hp f w ;;
        if negb (c =? RECV_OK) && negb (c =? RECV_INVALID) then Done (received, w')
        else purge_loop fuel' hp f' w' 1
    end.
  (** mbus-protocol-aux.c 1714-1733 [mbus_purge_frames]; the number of rounds allowed is one per pending event and
      byte (never exhausted, theorem). *)
  Definition mbus_purge_frames (hp : option handle) (w : world) : out (Z * world) :=
    purge_loop (S (ev_size (w_evs w))) hp frame_zero w 0.

  (** mbus-protocol-aux.c 1752-1775 [mbus_send_select_frame]. *)
  Definition mbus_send_select_frame (hp : option handle) (s : list Z) (w : world) : out (Z * world) :=
    do (r, f) <- lift (mbus_frame_select_secondary_pack (mbus_frame_new T_LONG) s) ;;
    if r =? -1 then Done (-1, w)
    else do (r, _, w) <- mbus_send_frame hp f w ;; if r =? -1 then Done (-1, w) else Done (0, w).

  (** mbus-protocol-aux.c 1793-1821: the switch over baud rates, None = default. *)
  Definition baud_ci (baudrate : Z) : option Z :=
    if baudrate =? 300 then Some 0xB8 else if baudrate =? 600 then Some 0xB9
    else if baudrate =? 1200 then Some 0xBA else if baudrate =? 2400 then Some 0xBB
    else if baudrate =? 4800 then Some 0xBC else if baudrate =? 9600 then Some 0xBD
    else if baudrate =? 19200 then Some 0xBE else if baudrate =? 38400 then Some 0xBF else None.
  (** mbus-protocol-aux.c 1781-1845 [mbus_send_switch_baudrate_frame]. *)
  Definition mbus_send_switch_baudrate_frame (hp : option handle) (addr baudrate : Z) (w : world) : out (Z * world) :=
    if negb (mbus_is_primary_address addr) then Done (-1, w)
    else match baud_ci baudrate with
    | None => Done (-1, w)
    | Some ci =>
        let f := set_ci (set_address (set_control (mbus_frame_new T_CONTROL) (Z.lor 0x53 0x40)) addr) ci in
        do (r, _, w) <- mbus_send_frame hp f w ;; Done (if r =? -1 then -1 else 0, w)
    end.

  (** mbus-protocol-aux.c 1851-1899 [mbus_send_application_reset_frame]. *)
  Definition mbus_send_application_reset_frame (hp : option handle) (addr subcode : Z) (w : world) : out (Z * world) :=
    if negb (mbus_is_primary_address addr) then Done (-1, w)
    else if subcode >? 0xFF then Done (-1, w)
    else
      let f := set_ci (set_address (set_control (mbus_frame_new T_LONG) (Z.lor 0x53 0x40)) addr) 0x50 in
      do f <- lift (if subcode >=? 0
                    then let* d := wr (fdata f) 0 (Z.land subcode 0xFF) in Ok (set_data f d 1)
                    else Ok (set_data f (fdata f) 0)) ;;
      do (r, _, w) <- mbus_send_frame hp f w ;; Done (if r =? -1 then -1 else 0, w).

  (** mbus-protocol-aux.c 1905-1936 [mbus_send_request_frame]. *)
  Definition mbus_send_request_frame (hp : option handle) (addr : Z) (w : world) : out (Z * world) :=
    if negb (mbus_is_primary_address addr) then Done (-1, w)
    else
      let f := set_address (set_control (mbus_frame_new T_SHORT) (Z.lor 0x5B 0x40)) addr in
      do (r, _, w) <- mbus_send_frame hp f w ;; Done (if r =? -1 then -1 else 0, w).

  (** mbus-protocol-aux.c 1941-1987 [mbus_send_user_data_frame]; [data] the caller's array (None = NULL). *)
  Definition mbus_send_user_data_frame (hp : option handle) (addr : Z) (data : option (list Z)) (size : Z) (w : world)
    : out (Z * world) :=
    if negb (mbus_is_primary_address addr) then Done (-1, w)
    else match data with
    | None => Done (-1, w)
    | Some data =>
        if (size >? 252) || (size =? 0) then Done (-1, w)
        else
          let f := set_ci (set_address (set_control (mbus_frame_new T_LONG) (Z.lor 0x53 0x40)) addr) 0x51 in
          do d <- lift (copy_loop (Z.to_nat size) (fdata f) 0 data 0) ;;
          do (r, _, w) <- mbus_send_frame hp (set_data f d size) w ;; Done (if r =? -1 then -1 else 0, w)
    end.

  (** mbus-protocol-aux.c 1992-2014 [mbus_set_primary_address]. *)
  Definition mbus_set_primary_address (hp : option handle) (old new : Z) (w : world) : out (Z * world) :=
    let buffer := [0x01; 0x7A; u8 new] in
    if negb (mbus_is_primary_address new) then Done (-1, w)
    else if (new =? 0xFD) || (new =? 0xFE) || (new =? 0xFF) then Done (-1, w)
    else mbus_send_user_data_frame hp old (Some buffer) 3 w.

  (** mbus-protocol-aux.c 2185-2222 [mbus_send_ping_frame]. *)
  Definition mbus_send_ping_frame (hp : option handle) (addr : Z) (purge_response : bool) (w : world) : out (Z * world) :=
    if negb (mbus_is_primary_address addr) then Done (1, w)
    else
      let f := set_address (set_control (mbus_frame_new T_SHORT) (Z.lor 0x40 0x40)) addr in
      do (r, _, w) <- mbus_send_frame hp f w ;;
      if r =? -1 then Done (-1, w)
      else if purge_response then do (_, w) <- mbus_purge_frames hp w ;; Done (0, w)
      else Done (0, w).

  (** What [mbus_sendrecv_request] leaves: return value, the chain of frames hanging on [reply] (first is [reply]
      itself), the heap of record lists. *)
  Record reqout := mkRq { q_ret : Z; q_frames : list frame; q_heap : heap }.

  (** mbus-protocol-aux.c 2066-2175: the loop. [req] the request frame, [cur] the object next_frame points to,
      [got] the frames before it in the chain, [fd]/[hp0]/[p] reply_data with its record pointer. *)
  Fixpoint request_loop (fuel : nat) (h : handle) (req cur : frame) (got : list frame) (fd : fdat) (hp0 : heap) (p : option nat)
           (retry count max_frames : Z) (w : world) : out (reqout * world) :=
    match fuel with
    | O => Endless
    | S fuel' =>
        if retry >? max_data_retry h then Done (mkRq 1 (got ++ [cur]) hp0, w)
        else
          do (r, req, w) <- mbus_send_frame (Some h) req w ;;
          if r =? -1 then Done (mkRq (-1) (got ++ [cur]) hp0, w)
          else
            do (c, cur, w) <- mbus_recv_frame (Some h) cur w ;;
            if c =? RECV_OK then
              do (_, w) <- mbus_purge_frames (Some h) w ;;
              let count := count + 1 in
              do (pr, fd, hp0, p) <- lift (parse_heap cur fd hp0 p) ;;
              if pr =? -1 then Done (mkRq 1 (got ++ [cur]) hp0, w)
              else
                let more := (d_type fd =? DT_VARIABLE) && negb (v_more (d_var fd) =? 0)
                            && (max_frames >? 0) && (count <? max_frames) in
                do hp0 <- lift (free_list hp0 p) ;;
                if more
                then request_loop fuel' h (set_control req (Z.lxor (control req) 0x20)) (mbus_frame_new T_ANY) (got ++ [cur])
                       fd hp0 p 0 count max_frames w
                else Done (mkRq 0 (got ++ [cur]) hp0, w)
            else if c =? RECV_TIMEOUT then
              request_loop fuel' h req cur got fd hp0 p (retry + 1) count max_frames w
            else if c =? RECV_INVALID then
              do (_, w) <- mbus_purge_frames (Some h) w ;;
              request_loop fuel' h req cur got fd hp0 p (retry + 1) count max_frames w
            else Done (mkRq 1 (got ++ [cur]) hp0, w)
    end.
  (** mbus-protocol-aux.c 2020-2179 [mbus_sendrecv_request] (allocation succeeds). [reply_data] is zeroed (2064). The
      number of rounds allowed is never exhausted (theorem). *)
  Definition mbus_sendrecv_request (hp : option handle) (addr : Z) (reply : frame) (max_frames : Z) (w : world) : out (reqout * world) :=
    match hp with
    | None => Done (mkRq 1 [reply] [], w)
    | Some h =>
        if negb (mbus_is_primary_address addr) then Done (mkRq 1 [reply] [], w)
        else
          let req := set_address (set_control (mbus_frame_new T_SHORT) (Z.lor (Z.lor (Z.lor 0x5B 0x40) 0x10) 0x20)) addr in
          request_loop (Z.to_nat ((max_data_retry h + 2) * (Z.max 1 max_frames))) h req reply [] fd_zero [] None 0 0 max_frames w
    end.

  (** mbus-protocol-aux.c 2227-2277 [mbus_select_secondary_address]; [mask] a string (not NULL). *)
  Definition mbus_select_secondary_address (hp : option handle) (mask : list Z) (w : world) : out (Z * world) :=
    if negb (length mask =? 16)%nat then Done (PROBE_ERROR, w)
    else
      do (r, w) <- mbus_send_select_frame hp mask w ;;
      if r =? -1 then Done (PROBE_ERROR, w)
      else
        do (c, reply, w) <- mbus_recv_frame hp frame_zero w ;;
        if c =? RECV_TIMEOUT then Done (PROBE_NOTHING, w)
        else if c =? RECV_INVALID then do (_, w) <- mbus_purge_frames hp w ;; Done (PROBE_COLLISION, w)
        else if mbus_frame_type reply =? T_ACK then
          do (p, w) <- mbus_purge_frames hp w ;;
          if negb (p =? 0) then Done (PROBE_COLLISION, w) else Done (PROBE_SINGLE, w)
        else Done (PROBE_NOTHING, w).

  (** mbus-protocol-aux.c 2301-2359: one round of the loop for a mask that selected a single slave. [buf] is the
      caller's buffer [matching_addr]. *)
  Definition probe_selected (h : handle) (buf : list Z) (w : world) : out (Z * list Z * world) :=
    do (r, w) <- mbus_send_request_frame (Some h) 0xFD w ;;
    if r =? -1 then Done (PROBE_ERROR, buf, w)
    else
      do (c, reply, w) <- mbus_recv_frame (Some h) frame_zero w ;;
      if c =? RECV_TIMEOUT then Done (PROBE_NOTHING, buf, w)
      else if c =? RECV_INVALID then do (_, w) <- mbus_purge_frames (Some h) w ;; Done (PROBE_COLLISION, buf, w)
      else
        do (p, w) <- mbus_purge_frames (Some h) w ;;
        if negb (p =? 0) then Done (PROBE_COLLISION, buf, w)
        else if mbus_frame_type reply =? T_LONG then
          do a <- lift (mbus_frame_get_secondary_address reply) ;;
          match a with
          | None => Done (PROBE_NOTHING, buf, w)
          | Some addr => do buf <- lift (snprintf_s buf 0 17 addr) ;; Done (PROBE_SINGLE, buf, w)
          end
        else Done (PROBE_NOTHING, buf, w).
  (** mbus-protocol-aux.c 2295-2367: the retry loop; [n] rounds are left, [ret] the result of the last one. *)
  Fixpoint probe_loop (n : nat) (h : handle) (mask buf : list Z) (ret : Z) (w : world) : out (Z * list Z * world) :=
    match n with
    | O => Done (ret, buf, w)
    | S n' =>
        do (ret, w) <- mbus_select_secondary_address (Some h) mask w ;;
        if ret =? PROBE_SINGLE then probe_selected h buf w
        else if (ret =? PROBE_ERROR) || (ret =? PROBE_COLLISION) then Done (ret, buf, w)
        else probe_loop n' h mask buf ret w
    end.
  (** mbus-protocol-aux.c 2283-2368 [mbus_probe_secondary_address] (pointers not NULL). A negative max_search_retry
      would return an uninitialised value; mbus_context_set_option excludes it. *)
  Definition mbus_probe_secondary_address (hp : option handle) (mask buf : list Z) (w : world) : out (Z * list Z * world) :=
    if negb (length mask =? 16)%nat then Done (PROBE_ERROR, buf, w)
    else match hp with
    | None => Undef
    | Some h => if max_search_retry h <? 0 then Undef else probe_loop (Z.to_nat (max_search_retry h + 1)) h mask buf 0 w
    end.

  (** mbus-protocol-aux.h 107-113 [mbus_address]. *)
  Inductive mbus_address := Primary (a : Z) | Secondary (s : option (list Z)).
  (** mbus-protocol-aux.c 2371-2441 [mbus_read_slave] (address not NULL). *)
  Definition mbus_read_slave (hp : option handle) (a : mbus_address) (reply : frame) (w : world) : out (Z * frame * world) :=
    match hp with
    | None => Done (-1, reply, w)
    | Some h =>
        do (r, w) <-
          match a with
          | Primary n => do (r, w) <- mbus_send_request_frame hp n w ;; Done (if r =? -1 then -1 else 0, w)
          | Secondary None => Done (-1, w)
          | Secondary (Some s) =>
              do (p, w) <- mbus_select_secondary_address hp s w ;;
              if (p =? PROBE_COLLISION) || (p =? PROBE_NOTHING) || (p =? PROBE_ERROR) then Done (-1, w)
              else do (r, w) <- mbus_send_request_frame hp 0xFD w ;; Done (if r =? -1 then -1 else 0, w)
          end ;;
        if r =? -1 then Done (-1, reply, w)
        else
          do (c, reply, w) <- mbus_recv_frame hp reply w ;;
          if negb (c =? 0) then Done (-1, reply, w) else Done (0, reply, w)
    end.

  (** mbus-protocol-aux.c 2495-2529: the loop over the characters of one position; [deeper] is the recursive call.
      Simplified: a report is one [Found] entry, whether made by the found_event callback inside the probe or by
      printf; scan_progress is omitted; -1 stops the loop. *)
  Fixpoint scan_digits (deeper : list Z -> world -> out (Z * world)) (h : handle) (mask : list Z) (pos : nat) (cs : list Z) (w : world)
    : out (Z * world) :=
    match cs with
    | [] => Done (0, w)
    | c :: cs' =>
        let m := upd mask pos c in
        do (r, buf, w) <- mbus_probe_secondary_address (Some h) m (repeat 0 17) w ;;
        if r =? PROBE_SINGLE then scan_digits deeper h m pos cs' (log w (Found (c_text buf)))
        else if r =? PROBE_COLLISION then do (_, w) <- deeper m w ;; scan_digits deeper h m pos cs' w
        else if r =? PROBE_NOTHING then scan_digits deeper h m pos cs' w
        else Done (-1, w)
    end.
  (** mbus-protocol-aux.c 2446-2534 [mbus_scan_2nd_address_range] at position 16 - n (n <= 16). A recursive call's
      result is ignored. Simplified: strdup always succeeds, its copy is not tracked (it leaks on the -1 path). *)
  Fixpoint scan_from (n : nat) (h : handle) (mask : list Z) (w : world) : out (Z * world) :=
    if negb (length mask =? 16)%nat then Done (-1, w)
    else match n with
    | O => Done (0, w)
    | S n' =>
        let pos := (16 - n)%nat in
        let c := nth pos mask 0 in
        if (c =? 102) || (c =? 70)
        then scan_digits (scan_from n' h) h mask pos [48; 49; 50; 51; 52; 53; 54; 55; 56; 57] w
        else if (pos <? 15)%nat then do (_, w) <- scan_from n' h mask w ;; Done (0, w)
        else scan_digits (scan_from n' h) h mask pos [c] w
    end.
  Definition mbus_scan_2nd_address_range (hp : option handle) (pos : Z) (mask : list Z) (w : world) : out (Z * world) :=
    match hp with
    | None => Done (-1, w)
    | Some h =>
        if negb (length mask =? 16)%nat then Done (-1, w)
        else if (pos <? 0) || (pos >=? 16) then Done (0, w)
        else scan_from (16 - Z.to_nat pos) h mask w
    end.
End Bus.
Arguments mkW {B}.
Arguments w_bus {B}.
Arguments w_evs {B}.
Arguments w_log {B}.
Arguments log {B}.

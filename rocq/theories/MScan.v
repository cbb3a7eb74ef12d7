(** Model of probing and scanning with the registered callbacks, the output and the memory of the copies of the mask:
    mbus/mbus-protocol-aux.c 771-784, 2283-2534. No proofs here. *)
From Coq Require Import List.
From Verif Require Import CBase CStr MFrame MCodec MVar MText MXml MRecv MSecond MProto MMem.
Local Open Scope Z_scope.

(** mbus-protocol-aux.h 99-100: scan_progress and found_event of the handle, each NULL (false) or a function.
    mbus-protocol-aux.c 771-775 [mbus_register_scan_progress], 780-784 [mbus_register_found_event] set them.
    Simplified: the functions only take note of what they are given. *)
Record watcher := mkWatch { scan_progress : bool; found_event : bool }.
Definition mbus_register_scan_progress (c : watcher) (present : bool) : watcher := mkWatch present (found_event c).
Definition mbus_register_found_event (c : watcher) (present : bool) : watcher := mkWatch (scan_progress c) present.
(** A call of scan_progress with the mask, of found_event with the frame, or a line printed: address and mask. *)
Inductive call := OnProgress (mask : list Z) | OnFound (f : frame) | Printed (addr mask : list Z).

Section Scan.
  Variable B : Type.
  Variable wret : B -> Z -> Z.
  Variable react : B -> list Z -> B * list ev.
  Variable c : watcher.
  Notation W := (world B).

  (** mbus-protocol-aux.c 2301-2359 (see MProto.probe_selected), with the calls made. *)
  Definition probe_selected_w (h : handle) (buf : list Z) (w : W) : out (Z * list Z * W * list call) :=
    do (r, w) <- mbus_send_request_frame B wret react (Some h) 0xFD w ;;
    if r =? -1 then Done (PROBE_ERROR, buf, w, [])
    else
      do (c1, reply, w) <- mbus_recv_frame B (Some h) frame_zero w ;;
      if c1 =? RECV_TIMEOUT then Done (PROBE_NOTHING, buf, w, [])
      else if c1 =? RECV_INVALID then do (_, w) <- mbus_purge_frames B (Some h) w ;; Done (PROBE_COLLISION, buf, w, [])
      else
        do (p, w) <- mbus_purge_frames B (Some h) w ;;
        if negb (p =? 0) then Done (PROBE_COLLISION, buf, w, [])
        else if mbus_frame_type reply =? T_LONG then
          do a <- lift (mbus_frame_get_secondary_address reply) ;;
          match a with
          | None => Done (PROBE_NOTHING, buf, w, [])
          | Some addr => do buf <- lift (snprintf_s buf 0 17 addr) ;; Done (PROBE_SINGLE, buf, w, if found_event c then [OnFound reply] else [])
          end
        else Done (PROBE_NOTHING, buf, w, []).
  (** mbus-protocol-aux.c 2295-2367. *)
  Fixpoint probe_loop_w (n : nat) (h : handle) (mask buf : list Z) (ret : Z) (w : W) : out (Z * list Z * W * list call) :=
    match n with
    | O => Done (ret, buf, w, [])
    | S n' =>
        do (ret, w) <- mbus_select_secondary_address B wret react (Some h) mask w ;;
        if ret =? PROBE_SINGLE then probe_selected_w h buf w
        else if (ret =? PROBE_ERROR) || (ret =? PROBE_COLLISION) then Done (ret, buf, w, [])
        else probe_loop_w n' h mask buf ret w
    end.
  (** mbus-protocol-aux.c 2283-2368 [mbus_probe_secondary_address] (pointers not NULL). *)
  Definition probe_w (hp : option handle) (mask buf : list Z) (w : W) : out (Z * list Z * W * list call) :=
    if negb (length mask =? 16)%nat then Done (PROBE_ERROR, buf, w, [])
    else match hp with
    | None => Undef
    | Some h => if max_search_retry h <? 0 then Undef else probe_loop_w (Z.to_nat (max_search_retry h + 1)) h mask buf 0 w
    end.

  (** mbus-protocol-aux.c 2495-2529; [a] is the address of the copy of the mask, not released on the way out with -1. *)
  Fixpoint scan_digits_w (deeper : list Z -> W * mem -> out (Z * (W * mem) * list call)) (h : handle) (mask : list Z) (pos : nat) (cs : list Z) (s : W * mem)
    : out (Z * (W * mem) * list call) :=
    match cs with
    | [] => Done (0, s, [])
    | x :: cs' =>
        let m := upd mask pos x in
        let l0 := if scan_progress c then [OnProgress m] else [] in
        do (r, buf, w, l1) <- probe_w (Some h) m (repeat 0 17) (fst s) ;;
        if r =? PROBE_SINGLE then
          do (r, s, l2) <- scan_digits_w deeper h m pos cs' (log w (Found (c_text buf)), snd s) ;;
          Done (r, s, l0 ++ l1 ++ (if found_event c then [] else [Printed (c_text buf) m]) ++ l2)
        else if r =? PROBE_COLLISION then
          do (_, s, l2) <- deeper m (w, snd s) ;;
          do (r, s, l3) <- scan_digits_w deeper h m pos cs' s ;; Done (r, s, l0 ++ l1 ++ l2 ++ l3)
        else if r =? PROBE_NOTHING then
          do (r, s, l2) <- scan_digits_w deeper h m pos cs' (w, snd s) ;; Done (r, s, l0 ++ l1 ++ l2)
        else Done (-1, (w, snd s), l0 ++ l1)
    end.
  (** mbus-protocol-aux.c 2446-2534 at position 16 - n. *)
  Fixpoint scan_from_w (n : nat) (h : handle) (mask : list Z) (s : W * mem) : out (Z * (W * mem) * list call) :=
    if negb (length mask =? 16)%nat then Done (-1, s, [])
    else match n with
    | O => Done (0, s, [])
    | S n' =>
        match malloc CBlock (snd s) with
        | (None, m) => Done (-1, (fst s, m), [])
        | (Some a, m) =>
            let pos := (16 - n)%nat in
            let x := nth pos mask 0 in
            do (r, s, l) <-
              (if (x =? 102) || (x =? 70) then scan_digits_w (scan_from_w n' h) h mask pos [48; 49; 50; 51; 52; 53; 54; 55; 56; 57] (fst s, m)
               else if (pos <? 15)%nat then do (_, s, l) <- scan_from_w n' h mask (fst s, m) ;; Done (0, s, l)
               else scan_digits_w (scan_from_w n' h) h mask pos [x] (fst s, m)) ;;
            if r =? 0 then do m <- lift (free (Some a) (snd s)) ;; Done (0, (fst s, m), l) else Done (r, s, l)
        end
    end.
  Definition scan_w (hp : option handle) (pos : Z) (mask : list Z) (s : W * mem) : out (Z * (W * mem) * list call) :=
    match hp with
    | None => Done (-1, s, [])
    | Some h =>
        if negb (length mask =? 16)%nat then Done (-1, s, [])
        else if (pos <? 0) || (pos >=? 16) then Done (0, s, [])
        else scan_from_w (16 - Z.to_nat pos) h mask s
    end.
End Scan.

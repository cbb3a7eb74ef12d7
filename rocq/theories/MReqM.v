(** Model of mbus_sendrecv_request with its memory: mbus/mbus-protocol-aux.c 2020-2179. No proofs here. *)
From Coq Require Import List.
From Verif Require Import CBase CStr MFrame MCodec MVar MText MXml MRecv MSecond MProto MMem.
Local Open Scope Z_scope.

(** The frame at an address, and changes of its contents (the next pointer apart) or of its next pointer only. *)
Definition frame_at (a : nat) (m : mem) : res frame := match look m a with Some (CFrame f _) => Ok f | _ => UB end.
Definition frame_put (a : nat) (f : frame) (m : mem) : res mem := match look m a with Some (CFrame _ next) => store a (CFrame f next) m | _ => UB end.
Definition frame_link (a : nat) (p : option nat) (m : mem) : res mem := match look m a with Some (CFrame f _) => store a (CFrame f p) m | _ => UB end.

Section Request.
  Variable B : Type.
  Variable wret : B -> Z -> Z.
  Variable react : B -> list Z -> B * list ev.
  Notation W := (world B).
  (** mbus-protocol-aux.c 2066-2175 (see MProto.request_loop): [q] the address of the request frame, [cur] next_frame, [fd] reply_data. *)
  Fixpoint request_loop_mem (fuel : nat) (h : handle) (q cur : nat) (fd : pdat) (retry count max_frames : Z) (w : W) (m : mem) : out (Z * W * mem) :=
    match fuel with
    | O => Endless
    | S fuel' =>
        if retry >? max_data_retry h then Done (1, w, m)
        else
          do req <- lift (frame_at q m) ;;
          do (r, req, w) <- mbus_send_frame B wret react (Some h) req w ;;
          do m <- lift (frame_put q req m) ;;
          if r =? -1 then Done (-1, w, m)
          else
            do f <- lift (frame_at cur m) ;;
            do (c, f, w) <- mbus_recv_frame B (Some h) f w ;;
            do m <- lift (frame_put cur f m) ;;
            if c =? RECV_OK then
              do (_, w) <- mbus_purge_frames B (Some h) w ;;
              let count := count + 1 in
              do (pr, fd, m) <- lift (data_parse_mem f fd m) ;;
              if pr =? -1 then Done (1, w, m)
              else if (p_type fd =? DT_VARIABLE) && negb (pv_more (p_var fd) =? 0) && (max_frames >? 0) && (count <? max_frames) then
                let (p, m) := frame_alloc T_ANY m in
                do m <- lift (frame_link cur p m) ;;
                do m <- lift (frame_put q (set_control req (Z.lxor (control req) 0x20)) m) ;;
                do m <- lift (mbus_data_record_free (pv_record (p_var fd)) m) ;;
                match p with
                | None => Done (-1, w, m)
                | Some b => request_loop_mem fuel' h q b fd 0 count max_frames w m
                end
              else
                do m <- lift (mbus_data_record_free (pv_record (p_var fd)) m) ;; Done (0, w, m)
            else if c =? RECV_TIMEOUT then request_loop_mem fuel' h q cur fd (retry + 1) count max_frames w m
            else if c =? RECV_INVALID then
              do (_, w) <- mbus_purge_frames B (Some h) w ;;
              request_loop_mem fuel' h q cur fd (retry + 1) count max_frames w m
            else Done (1, w, m)
    end.
  (** mbus-protocol-aux.c 2020-2179 [mbus_sendrecv_request]; [reply] the address of the caller's frame. *)
  Definition sendrecv_mem (hp : option handle) (addr : Z) (reply : nat) (max_frames : Z) (w : W) (m : mem) : out (Z * W * mem) :=
    match hp with
    | None => Done (1, w, m)
    | Some h =>
        if negb (mbus_is_primary_address addr) then Done (1, w, m)
        else
          match frame_alloc T_SHORT m with
          | (None, m) => Done (-1, w, m)
          | (Some q, m) =>
              do f <- lift (frame_at q m) ;;
              do m <- lift (frame_put q (set_address (set_control f (Z.lor (Z.lor (Z.lor 0x5B 0x40) 0x10) 0x20)) addr) m) ;;
              do (r, w, m) <- request_loop_mem (Z.to_nat ((max_data_retry h + 2) * (Z.max 1 max_frames))) h q reply pd_zero 0 0 max_frames w m ;;
              do (_, m) <- lift (mbus_frame_free (Some q) m) ;;
              Done (r, w, m)
          end
    end.
End Request.

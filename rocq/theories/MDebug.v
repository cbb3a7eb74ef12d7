(** Model: parse debugging (mbus_parse_set_debug): mbus_parse, the receive functions and mbus_frame_internal_pack with
    what they write to stdout. [on]: the static variable parse_debug is not 0 (mbus-protocol.c 18; 0 at the start). *)
From Coq Require Import String.
From Coq Require Import List.
From Verif Require Import CBase CStr MFrame MRecv MCodec MVar MText.
Local Open Scope Z_scope.

(** mbus-protocol.c 4305-4311 [mbus_parse_set_debug]. *)
Definition mbus_parse_set_debug (debug : Z) : bool := negb (debug =? 0).

(** mbus-protocol.c 3596-3608: the text written before parsing; __PRETTY_FUNCTION__ is the name of the function. *)
Definition parse_text (data : list Z) : list Z :=
  cstr "mbus_parse: Attempting to parse binary data [size = " ++ fmt_u (Z.of_nat (List.length data)) ++ cstr "]" ++ [10] ++
  cstr "mbus_parse: " ++ flat_map (fun b => fmt_X2 b ++ cstr " ") data ++
  [10] ++ cstr "mbus_parse: done." ++ [10].
(** mbus-protocol.c 3588-3745 [mbus_parse] with debug output: result, frame, text. *)
Definition mbus_parse_d (on : bool) (f : frame) (data : list Z) : res (Z * frame * list Z) :=
  let out := if (Z.of_nat (List.length data) >? 0) && on then parse_text data else [] in
  let* (r, f) := mbus_parse f data in Ok (r, f, out).

Definition recv_res_d := res (option (Z * frame * list ev * list Z * list Z)).
(** mbus-serial.c 357-381. *)
Definition serial_finish_d (out : list Z) (f : frame) (evs : list ev) (got : list Z) (remaining : Z) : recv_res_d :=
  if (List.length got =? 0)%nat then Ok (Some (RECV_TIMEOUT, f, evs, got, out))
  else if negb (remaining =? 0) then Ok (Some (RECV_INVALID, f, evs, got, out))
  else Ok (Some (RECV_OK, f, evs, got, out)).
(** mbus-serial.c 315-355; [out]: written so far. Simplified as [serial_loop]. *)
Fixpoint serial_loop_d (fuel : nat) (on : bool) (out : list Z) (f : frame) (evs : list ev) (got : list Z) (remaining timeouts : Z) : recv_res_d :=
  match fuel with
  | O => Ok None
  | S fuel' =>
      let len := Z.of_nat (List.length got) in
      if len + remaining >? PACKET_BUFF_SIZE then Ok (Some (RECV_ERROR, f, evs, got, out))
      else
        match read_ev (RBytes []) evs (Z.to_nat remaining) with
        | (RErr _, es) => Ok (Some (RECV_ERROR, f, es, got, out))
        | (RBytes bs, es) =>
            let nread := Z.of_nat (List.length bs) in
            let timeouts' := if nread =? 0 then timeouts + 1 else timeouts in
            if (nread =? 0) && (timeouts' >=? 3) then serial_finish_d out f es got remaining
            else if len + nread >? PACKET_BUFF_SIZE then UB
            else
              let got' := got ++ bs in
              let* (r, f', o) := mbus_parse_d on f got' in
              if r >? 0 then serial_loop_d fuel' on (out ++ o) f' es got' r timeouts'
              else serial_finish_d (out ++ o) f' es got' r
        end
  end.
(** mbus-serial.c 287-382 [mbus_serial_recv_frame]. *)
Definition mbus_serial_recv_frame_d (on : bool) (f : frame) (evs : list ev) : recv_res_d :=
  serial_loop_d (ev_size evs + 4) on [] f evs [] 1 0.
(** mbus-tcp.c 208-247. *)
Fixpoint tcp_loop_d (fuel : nat) (on : bool) (out : list Z) (f : frame) (evs : list ev) (got : list Z) (remaining : Z) : recv_res_d :=
  match fuel with
  | O => Ok None
  | S fuel' =>
      let len := Z.of_nat (List.length got) in
      if len + remaining >? PACKET_BUFF_SIZE then Ok (Some (RECV_ERROR, f, evs, got, out))
      else
        match read_ev (RErr EAgain) evs (Z.to_nat remaining) with
        | (RErr EIntr, es) => tcp_loop_d fuel' on out f es got remaining
        | (RErr EAgain, es) => Ok (Some (RECV_TIMEOUT, f, es, got, out))
        | (RErr _, es) => Ok (Some (RECV_ERROR, f, es, got, out))
        | (RBytes bs, es) =>
            if (List.length bs =? 0)%nat then Ok (Some (RECV_RESET, f, es, got, out))
            else
              let nread := Z.of_nat (List.length bs) in
              if len + nread >? PACKET_BUFF_SIZE then UB
              else
                let got' := got ++ bs in
                let* (r, f', o) := mbus_parse_d on f got' in
                if r >? 0 then tcp_loop_d fuel' on (out ++ o) f' es got' r
                else if r <? 0 then Ok (Some (RECV_INVALID, f', es, got', out ++ o))
                else Ok (Some (RECV_OK, f', es, got', out ++ o))
        end
  end.
(** mbus-tcp.c 190-256 [mbus_tcp_recv_frame]. *)
Definition mbus_tcp_recv_frame_d (on : bool) (f : frame) (evs : list ev) : recv_res_d :=
  tcp_loop_d (ev_size evs + 4) on [] f evs [] 1.

(** mbus-protocol.c 4260-4289: packing one record; [n]: the payload bytes packed before. *)
Definition pack_record_d (on : bool) (d : list Z) (n : nat) (r : rec) : res (list Z * nat * list Z) :=
  let name := cstr "mbus_frame_internal_pack: " in
  let o1 := if on then name ++ cstr "packing DIF [" ++ fmt_u (Z.of_nat n) ++ cstr "]" else [] in
  let* d := wr d n (r_dif r) in
  let* d := copy_loop (r_ndife r) d (n + 1) (r_dife r) 0 in
  let n := (n + 1 + r_ndife r)%nat in
  let o2 := if on then name ++ cstr "packing VIF [" ++ fmt_u (Z.of_nat n) ++ cstr "]" else [] in
  let* d := wr d n (r_vif r) in
  let* d := copy_loop (r_nvife r) d (n + 1) (r_vife r) 0 in
  let n := (n + 1 + r_nvife r)%nat in
  let o3 := if on then name ++ cstr "packing data [" ++ fmt_u (Z.of_nat n) ++ cstr " : " ++ fmt_u (Z.of_nat (r_len r)) ++ cstr "]" else [] in
  let* d := copy_loop (r_len r) d n (r_data r) 0 in
  Ok (d, (n + r_len r)%nat, o1 ++ o2 ++ o3).
Fixpoint pack_records_d (on : bool) (d : list Z) (n : nat) (rs : list rec) : res (list Z * nat * list Z) :=
  match rs with
  | [] => Ok (d, n, [])
  | r :: rs' => let* (d, n, o) := pack_record_d on d n r in let* (d, n, o') := pack_records_d on d n rs' in Ok (d, n, o ++ o')
  end.
(** mbus-protocol.c 4196-4296 [mbus_frame_internal_pack] with debug output. *)
Definition mbus_frame_internal_pack_d (on : bool) (f : frame) (fd : fdat) : res (Z * frame * list Z) :=
  if d_type fd =? DT_ERROR then
    let* d := wr (fdata f) 0 (u8 (d_error fd)) in Ok (0, set_data f d 1, [])
  else if d_type fd =? DT_FIXED then
    let x := d_fix fd in
    let* d := put_list (fdata f) 0 (x_id x ++ [x_tx_cnt x; x_status x; x_type1 x; x_type2 x] ++ x_val1 x ++ x_val2 x) in
    Ok (0, set_data f d 16, [])
  else if d_type fd =? DT_VARIABLE then
    let* d := put_list (fdata f) 0 (v_header (d_var fd)) in
    let* (d, n, o) := pack_records_d on d 12 (v_records (d_var fd)) in
    Ok (0, set_data f d (Z.of_nat n), o)
  else Ok (-2, set_data f (fdata f) 0, []).

(** A process that calls these functions one after another. *)
Inductive dcall := DSet (debug : Z) | DParse (f : frame) (data : list Z) | DPack (f : frame) (fd : fdat).
Definition dcall_run (on : bool) (c : dcall) : res (bool * option (Z * frame) * list Z) :=
  match c with
  | DSet d => Ok (mbus_parse_set_debug d, None, [])
  | DParse f data => let* (r, f', o) := mbus_parse_d on f data in Ok (on, Some (r, f'), o)
  | DPack f fd => let* (r, f', o) := mbus_frame_internal_pack_d on f fd in Ok (on, Some (r, f'), o)
  end.
(** Results of all calls, and everything written. *)
Fixpoint dcalls_run (on : bool) (cs : list dcall) : res (list (option (Z * frame)) * list Z) :=
  match cs with
  | [] => Ok ([], [])
  | c :: cs' => let* (on', r, o) := dcall_run on c in let* (rs, o') := dcalls_run on' cs' in Ok (r :: rs, o ++ o')
  end.

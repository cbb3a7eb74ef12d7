(** Model of the printing functions of mbus/mbus-protocol.c: what they write to stdout or stderr. No proofs here. *)
From Coq Require Import String Ascii.
From Verif Require Import CBase CStr MFrame MCodec MVar MText MXml MMon.
Local Open Scope string_scope.
Local Open Scope list_scope.
Local Open Scope Z_scope.

(** %03zu *)
Definition fmt_03u (n : Z) : list Z := zpad 3 (fmt_u n).

(** mbus-protocol.c 4518-4541 [mbus_hex_dump]; [label], [buff] None: NULL. [stamp]: the formatted time. *)
Definition mbus_hex_dump (stamp : list Z) (label : option (list Z)) (buff : option (list Z)) (len : nat) : res (list Z) :=
  match label, buff with
  | Some label, Some buff =>
      if (List.length buff <? len)%nat then UB
      else Ok (cstr "[" ++ stamp ++ cstr "] " ++ label ++ cstr " (" ++ fmt_03u (Z.of_nat len) ++ cstr "):" ++
               flat_map (fun b => cstr " " ++ fmt_X2 b) (firstn len buff) ++ nl)
  | _, _ => Ok []
  end.
(** mbus-protocol.c 66-76 [mbus_dump_recv_event], [mbus_dump_send_event]; the type of the handle is not used. *)
Definition mbus_dump_recv_event (stamp : list Z) (src_type : Z) (buff : list Z) : res (list Z) :=
  mbus_hex_dump stamp (Some (cstr "RECV")) (Some buff) (List.length buff).
Definition mbus_dump_send_event (stamp : list Z) (src_type : Z) (buff : list Z) : res (list Z) :=
  mbus_hex_dump stamp (Some (cstr "SEND")) (Some buff) (List.length buff).
(** What the programs write to stderr with option -d (for example bin/mbus-tcp-scan.c 103-107: both functions registered)
    during these actions; [clock i] is the time text of the i-th line. *)
Fixpoint dump_log (clock : nat -> list Z) (i : nat) (tr : list act) : res (list Z) :=
  match tr with
  | [] => Ok []
  | OnSend serial l :: tr' => let* x := mbus_dump_send_event (clock i) (if serial then 1 else 0) l in let* y := dump_log clock (S i) tr' in Ok (x ++ y)
  | OnRecv serial l :: tr' => let* x := mbus_dump_recv_event (clock i) (if serial then 1 else 0) l in let* y := dump_log clock (S i) tr' in Ok (x ++ y)
  | _ :: tr' => dump_log clock i tr'
  end.

(** mbus-protocol.c 4316-4342 [mbus_frame_print]; the chain of frames as a list (none: NULL). Result: value, text, the
    frames (packing sets length and checksum fields). Only the packed length -1 is treated as an error. *)
Definition PRINT_BUFF := 256.
Fixpoint print_loop (fs : list frame) : res (Z * list Z * list frame) :=
  match fs with
  | [] => Ok (0, [], [])
  | f :: fs' =>
      let* (len, f', buff) := mbus_frame_pack f (repeat 0 (Z.to_nat PRINT_BUFF)) PRINT_BUFF in
      if len =? -1 then Ok (-2, [], f' :: fs')
      else
        let line := cstr "mbus_frame_print: Dumping M-Bus frame [type " ++ fmt_d (ftype f) ++ cstr ", " ++ fmt_d len ++ cstr " bytes]: " ++
                    flat_map (fun b => fmt_X2 b ++ cstr " ") (firstn (Z.to_nat len) buff) ++ nl in
        let* (r, t, fs'') := print_loop fs' in
        Ok (r, line ++ t, f' :: fs'')
  end.
Definition mbus_frame_print (fs : list frame) : res (Z * list Z * list frame) :=
  match fs with [] => Ok (-1, [], []) | _ => print_loop fs end.

(** mbus-protocol.c 4376-4400 [mbus_data_variable_header_print] on the 12 header bytes: the text; the value is always -1. *)
Definition mbus_data_variable_header_print (h : list Z) : res (list Z) :=
  let p := cstr "mbus_data_variable_header_print: " in
  let* id := mbus_data_bcd_decode_hex h 4 in
  let* m0 := rd h 4 in let* m1 := rd h 5 in let* version := rd h 6 in let* medium := rd h 7 in
  let* acc := rd h 8 in let* status := rd h 9 in let* s0 := rd h 10 in let* s1 := rd h 11 in
  let* man := mbus_decode_manufacturer m0 m1 in
  Ok (p ++ cstr "ID           = " ++ fmt_X id ++ nl ++
      p ++ cstr "Manufacturer = 0x" ++ fmt_X2 m1 ++ fmt_X2 m0 ++ nl ++
      p ++ cstr "Manufacturer = " ++ c_text man ++ nl ++
      p ++ cstr "Version      = 0x" ++ fmt_X2 version ++ nl ++
      p ++ cstr "Medium       = " ++ mbus_data_variable_medium_lookup medium ++ cstr " (0x" ++ fmt_X2 medium ++ cstr ")" ++ nl ++
      p ++ cstr "Access #     = 0x" ++ fmt_X2 acc ++ nl ++
      p ++ cstr "Status       = 0x" ++ fmt_X2 status ++ nl ++
      p ++ cstr "Signature    = 0x" ++ fmt_X2 s1 ++ fmt_X2 s0 ++ nl).

Definition yes_no (b : bool) : list Z := if b then cstr "Yes" else cstr "No".

(** mbus-protocol.c 4445-4454: the DIFE loop; [j] counts up, [k] are left. *)
Fixpoint print_difes (r : rec) (j k : nat) : res (list Z) :=
  match k with
  | O => Ok []
  | S k' =>
      let* d := rd (r_dife r) j in
      let i := fmt_u (Z.of_nat j) in
      let* t := print_difes r (S j) k' in
      Ok (cstr "DIFE[" ++ i ++ cstr "]               = " ++ fmt_X2 d ++ nl ++
          cstr "DIFE[" ++ i ++ cstr "].Extension     = " ++ yes_no (negb (Z.land d 0x80 =? 0)) ++ nl ++
          cstr "DIFE[" ++ i ++ cstr "].Device        = " ++ fmt_d (Z.shiftr (Z.land d 0x40) 6) ++ nl ++
          cstr "DIFE[" ++ i ++ cstr "].Tariff        = " ++ fmt_d (Z.shiftr (Z.land d 0x30) 4) ++ nl ++
          cstr "DIFE[" ++ i ++ cstr "].StorageNumber = " ++ fmt_X2 (Z.land d 0x0F) ++ nl ++ t)
  end.
(** mbus-protocol.c 4462-4469: the VIFE loop. *)
Fixpoint print_vifes (r : rec) (j k : nat) : res (list Z) :=
  match k with
  | O => Ok []
  | S k' =>
      let* v := rd (r_vife r) j in
      let i := fmt_u (Z.of_nat j) in
      let* t := print_vifes r (S j) k' in
      Ok (cstr "VIFE[" ++ i ++ cstr "]           = " ++ fmt_X2 v ++ nl ++
          cstr "VIFE[" ++ i ++ cstr "].Extension = " ++ yes_no (negb (Z.land v 0x80 =? 0)) ++ nl ++
          cstr "VIFE[" ++ i ++ cstr "].Value     = " ++ fmt_X2 (Z.land v 0x7F) ++ nl ++ t)
  end.
(** mbus-protocol.c 4427-4430: the bytes of a manufacturer block. *)
Fixpoint print_block (r : rec) (j k : nat) : res (list Z) :=
  match k with
  | O => Ok []
  | S k' => let* b := rd (r_data r) j in let* t := print_block r (S j) k' in Ok (fmt_X2 b ++ cstr " " ++ t)
  end.
(** mbus-protocol.c 4411-4471: one record, number [i]. *)
Definition print_record (r : rec) (i : Z) : res (list Z) :=
  let head :=
    cstr "Record ID         = " ++ fmt_d i ++ nl ++
    cstr "DIF               = " ++ fmt_X2 (r_dif r) ++ nl ++
    cstr "DIF.Extension     = " ++ yes_no (negb (Z.land (r_dif r) 0x80 =? 0)) ++ nl ++
    cstr "DIF.StorageNumber = " ++ fmt_d (Z.shiftr (Z.land (r_dif r) 0x40) 6) ++ nl ++
    cstr "DIF.Function      = " ++ (if negb (Z.land (r_dif r) 0x30 =? 0) then cstr "Value during error state" else cstr "Instantaneous value") ++ nl ++
    cstr "DIF.Data          = " ++ fmt_X2 (Z.land (r_dif r) 0x0F) ++ nl in
  if (r_dif r =? 0x0F) || (r_dif r =? 0x1F) then
    let* b := print_block r 0 (r_len r) in
    Ok (head ++ cstr "mbus_data_variable_print: VENDOR DATA [size=" ++ fmt_u (Z.of_nat (r_len r)) ++ cstr "] = " ++ b ++ nl ++
        (if r_dif r =? 0x1F then cstr "mbus_data_variable_print: More records follow in next telegram" ++ nl else []))
  else
    let* ds := print_difes r 0 (r_ndife r) in
    let* vs := print_vifes r 0 (r_nvife r) in
    Ok (head ++ cstr "DATA LENGTH = " ++ fmt_u (Z.of_nat (r_len r)) ++ nl ++ ds ++
        cstr "VIF           = " ++ fmt_X2 (r_vif r) ++ nl ++
        cstr "VIF.Extension = " ++ yes_no (negb (Z.land (r_vif r) 0x80 =? 0)) ++ nl ++
        cstr "VIF.Value     = " ++ fmt_X2 (Z.land (r_vif r) 0x7F) ++ nl ++ vs ++ nl).
Fixpoint print_records (rs : list rec) (i : Z) : res (list Z) :=
  match rs with
  | [] => Ok []
  | r :: rs' => let* t := print_record r i in let* t' := print_records rs' (i + 1) in Ok (t ++ t')
  end.
(** mbus-protocol.c 4402-4476 [mbus_data_variable_print]: the text; the value is always -1. *)
Definition mbus_data_variable_print (dv : dvar) : res (Z * list Z) :=
  let* h := mbus_data_variable_header_print (v_header dv) in
  let* t := print_records (v_records dv) 0 in
  Ok (-1, h ++ t).

(** mbus-protocol.c 4488-4498, 4500-4510: one counter of [mbus_data_fixed_print]. *)
Definition print_counter (p n : list Z) (x : dfix) (type : Z) (val : list Z) : res (list Z) :=
  let* v := if Z.land (x_status x) 0x80 =? 0 then let* c := mbus_data_bcd_decode_hex val 4 in Ok (fmt_X c)
            else let* (_, v) := mbus_data_int_decode val 4 in Ok (fmt_d v) in
  Ok (p ++ cstr "Medium" ++ n ++ cstr "  = " ++ mbus_data_fixed_medium x ++ nl ++
      p ++ cstr "Unit" ++ n ++ cstr "    = " ++ mbus_data_fixed_unit type ++ nl ++
      p ++ cstr "Counter" ++ n ++ cstr " = " ++ v ++ nl).
(** mbus-protocol.c 4478-4515 [mbus_data_fixed_print]. *)
Definition mbus_data_fixed_print (x : dfix) : res (Z * list Z) :=
  let p := cstr "mbus_data_fixed_print: " in
  let* id := mbus_data_bcd_decode_hex (x_id x) 4 in
  let* c1 := print_counter p (cstr "1") x (x_type1 x) (x_val1 x) in
  let* c2 := print_counter p (cstr "2") x (x_type2 x) (x_val2 x) in
  Ok (-1, p ++ cstr "ID       = " ++ fmt_X id ++ nl ++
          p ++ cstr "Access # = 0x" ++ fmt_X2 (x_tx_cnt x) ++ nl ++
          p ++ cstr "Status   = 0x" ++ fmt_X2 (x_status x) ++ nl ++
          p ++ cstr "Function = " ++ mbus_data_fixed_function (x_status x) ++ nl ++ c1 ++ c2).
(** mbus-protocol.c 4543-4549 [mbus_data_error_print]. *)
Definition mbus_data_error_print (error : Z) : Z * list Z :=
  (-1, cstr "mbus_data_error_print: Error = " ++ fmt_d error ++ nl).
(** mbus-protocol.c 4349-4371 [mbus_frame_data_print] (data not NULL). *)
Definition mbus_frame_data_print (fd : fdat) : res (Z * list Z) :=
  if d_type fd =? DT_ERROR then Ok (mbus_data_error_print (d_error fd))
  else if d_type fd =? DT_FIXED then mbus_data_fixed_print (d_fix fd)
  else if d_type fd =? DT_VARIABLE then mbus_data_variable_print (d_var fd)
  else Ok (-1, []).

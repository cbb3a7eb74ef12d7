(** Model of the telegram layer of mbus/mbus-protocol.c. No proofs here. *)
From Verif Require Import CBase.

(** mbus-protocol.h 75-98 [mbus_frame]. [f_data] is the 252-byte array, [f_next] the
    address of the next frame (0 = NULL). Simplified: the [timestamp] field is omitted
    (it is only written with the current time and never read by the library's logic
    except for XML output). *)
Record frame := mkF {
  start1 : Z; length1 : Z; length2 : Z; start2 : Z;
  control : Z; address : Z; ctrl_info : Z; checksum : Z; stop : Z;
  fdata : list Z; data_size : Z; ftype : Z; fnext : Z }.

(** mbus-protocol.h 300-304: frame types. *)
Definition T_ANY := 0.
Definition T_ACK := 1.
Definition T_SHORT := 2.
Definition T_CONTROL := 3.
Definition T_LONG := 4.

(** Field assignments [frame->x = v] (C struct member writes; values are already bytes). *)
Definition set_lengths (f : frame) (v : Z) : frame :=
  mkF (start1 f) v v (start2 f) (control f) (address f) (ctrl_info f) (checksum f) (stop f)
      (fdata f) (data_size f) (ftype f) (fnext f).
Definition set_checksum (f : frame) (v : Z) : frame :=
  mkF (start1 f) (length1 f) (length2 f) (start2 f) (control f) (address f) (ctrl_info f) v (stop f)
      (fdata f) (data_size f) (ftype f) (fnext f).
Definition set_next (f : frame) (v : Z) : frame :=
  mkF (start1 f) (length1 f) (length2 f) (start2 f) (control f) (address f) (ctrl_info f)
      (checksum f) (stop f) (fdata f) (data_size f) (ftype f) v.
Definition set_control (f : frame) (v : Z) : frame :=
  mkF (start1 f) (length1 f) (length2 f) (start2 f) v (address f) (ctrl_info f)
      (checksum f) (stop f) (fdata f) (data_size f) (ftype f) (fnext f).
Definition set_address (f : frame) (v : Z) : frame :=
  mkF (start1 f) (length1 f) (length2 f) (start2 f) (control f) v (ctrl_info f)
      (checksum f) (stop f) (fdata f) (data_size f) (ftype f) (fnext f).
Definition set_ci (f : frame) (v : Z) : frame :=
  mkF (start1 f) (length1 f) (length2 f) (start2 f) (control f) (address f) v
      (checksum f) (stop f) (fdata f) (data_size f) (ftype f) (fnext f).
Definition set_data (f : frame) (d : list Z) (n : Z) : frame :=
  mkF (start1 f) (length1 f) (length2 f) (start2 f) (control f) (address f) (ctrl_info f)
      (checksum f) (stop f) d n (ftype f) (fnext f).

(** mbus-protocol.h 73 MBUS_FRAME_DATA_LENGTH. *)
Definition DATA_LEN : nat := 252.

(** A zeroed frame object: [memset(frame, 0, sizeof(mbus_frame))], e.g.
    mbus-protocol.c 130, mbus-protocol-aux.c 2244. *)
Definition frame_zero : frame :=
  mkF 0 0 0 0 0 0 0 0 0 (repeat 0 DATA_LEN) 0 0 0.

(** mbus-protocol.c 124-166 [mbus_frame_new] (successful allocation). *)
Definition mbus_frame_new (ty : Z) : frame :=
  let z := repeat 0 DATA_LEN in
  if ty =? T_ACK then mkF 0xE5 0 0 0 0 0 0 0 0 z 0 ty 0
  else if ty =? T_SHORT then mkF 0x10 0 0 0 0 0 0 0 0x16 z 0 ty 0
  else if ty =? T_CONTROL then mkF 0x68 3 3 0x68 0 0 0 0 0x16 z 0 ty 0
  else if ty =? T_LONG then mkF 0x68 0 0 0x68 0 0 0 0 0x16 z 0 ty 0
  else mkF 0 0 0 0 0 0 0 0 0 z 0 ty 0.

(** mbus-protocol.c 216-219: [for (i = 0; i < n; i++) cksum += data[i];] on unsigned char. *)
Fixpoint sum_loop (n : nat) (d : list Z) (i : nat) (ck : Z) : res Z :=
  match n with
  | O => Ok ck
  | S n' => let* b := rd d i in sum_loop n' d (S i) (u8 (ck + b))
  end.

(** mbus-protocol.c 189-233 [calc_checksum]. *)
Definition calc_checksum (f : frame) : res Z :=
  if ftype f =? T_SHORT then Ok (u8 (u8 (control f) + address f))
  else if ftype f =? T_CONTROL then
    Ok (u8 (u8 (u8 (control f) + address f) + ctrl_info f))
  else if ftype f =? T_LONG then
    sum_loop (Z.to_nat (data_size f)) (fdata f) 0
      (u8 (u8 (u8 (control f) + address f) + ctrl_info f))
  else Ok 0.

(** mbus-protocol.c 240-262 [mbus_frame_calc_checksum] (frame not NULL). *)
Definition mbus_frame_calc_checksum (f : frame) : res (Z * frame) :=
  if (ftype f =? T_ACK) || (ftype f =? T_SHORT) || (ftype f =? T_CONTROL) || (ftype f =? T_LONG)
  then let* c := calc_checksum f in Ok (0, set_checksum f c)
  else Ok (-1, f).

(** mbus-protocol.c 267-279 [calc_length] (result converted to unsigned char). *)
Definition calc_length (f : frame) : Z :=
  if ftype f =? T_CONTROL then 3
  else if ftype f =? T_LONG then u8 (data_size f + 3)
  else 0.

(** mbus-protocol.c 284-293 [mbus_frame_calc_length] (frame not NULL). *)
Definition mbus_frame_calc_length (f : frame) : Z * frame := (0, set_lengths f (calc_length f)).

(** mbus-protocol.c 298-306 [mbus_frame_type] (frame not NULL). *)
Definition mbus_frame_type (f : frame) : Z := ftype f.

(** mbus-protocol.h 360-362: DIR bit of the control field. *)
Definition DIR_M2S := 0x40.
Definition DIR_S2M := 0x00.

(** mbus-protocol.c 311-328 [mbus_frame_direction] (frame not NULL). *)
Definition mbus_frame_direction (f : frame) : Z :=
  if ftype f =? T_ACK then DIR_S2M else Z.land (control f) 0x40.

(** mbus-protocol.c 362-366: control codes accepted in a short frame. *)
Definition ctrl_short_ok (c : Z) : bool :=
  (c =? 0x40) || (c =? 0x5A) || (c =? Z.lor 0x5A 0x20) || (c =? 0x5B) || (c =? Z.lor 0x5B 0x20).

(** mbus-protocol.c 385-390: control codes accepted in a control or long frame. *)
Definition ctrl_long_ok (c : Z) : bool :=
  (c =? 0x53) || (c =? Z.lor 0x53 0x20) || (c =? 0x08) || (c =? Z.lor 0x08 0x10) ||
  (c =? Z.lor 0x08 0x20) || (c =? Z.lor (Z.lor 0x08 0x10) 0x20).

(** mbus-protocol.c 416-430: the stop byte and checksum tests shared by the non-ACK types. *)
Definition verify_tail (f : frame) : res Z :=
  if negb (stop f =? 0x16) then Ok (-1)
  else let* c := calc_checksum f in
       if negb (checksum f =? c) then Ok (-1) else Ok 0.

(** mbus-protocol.c 343-438 [mbus_frame_verify] (frame not NULL). The ACK case returns the
    value of the C comparison, 1 for equal. Simplified: the error string is not modelled. *)
Definition mbus_frame_verify (f : frame) : res Z :=
  if ftype f =? T_ACK then Ok (if start1 f =? 0xE5 then 1 else 0)
  else if ftype f =? T_SHORT then
    if negb (start1 f =? 0x10) then Ok (-1)
    else if negb (ctrl_short_ok (control f)) then Ok (-1)
    else verify_tail f
  else if (ftype f =? T_CONTROL) || (ftype f =? T_LONG) then
    if negb (start1 f =? 0x68) || negb (start2 f =? 0x68) then Ok (-1)
    else if negb (ctrl_long_ok (control f)) then Ok (-1)
    else if negb (length1 f =? length2 f) then Ok (-1)
    else if negb (length1 f =? calc_length f) then Ok (-1)
    else verify_tail f
  else Ok (-1).

(** mbus-protocol.c 3587-3745 [mbus_parse] (frame and data not NULL; [data] is the buffer of
    exactly [data_size] bytes). Returns the C return value and the updated frame object.
    Simplified: debug output and the error string are not modelled. *)
Definition mbus_parse (f : frame) (data : list Z) : res (Z * frame) :=
  let n := Z.of_nat (length data) in
  if n >? 0 then
    let f0 := set_next f 0 in
    let* b0 := rd data 0 in
    if b0 =? 0xE5 then
      Ok (0, mkF b0 (length1 f0) (length2 f0) (start2 f0) (control f0) (address f0) (ctrl_info f0)
               (checksum f0) (stop f0) (fdata f0) (data_size f0) T_ACK (fnext f0))
    else if b0 =? 0x10 then
      if n <? 5 then Ok (5 - n, f0)
      else if negb (n =? 5) then Ok (-2, f0)
      else
        let* b1 := rd data 1 in
        let* b2 := rd data 2 in
        let* b3 := rd data 3 in
        let* b4 := rd data 4 in
        let f1 := mkF b0 (length1 f0) (length2 f0) (start2 f0) b1 b2 (ctrl_info f0)
                      b3 b4 (fdata f0) (data_size f0) T_SHORT (fnext f0) in
        let* v := mbus_frame_verify f1 in
        if negb (v =? 0) then Ok (-3, f1) else Ok (0, f1)
    else if b0 =? 0x68 then
      if n <? 3 then Ok (3 - n, f0)
      else
        let* b1 := rd data 1 in
        let* b2 := rd data 2 in
        let f1 := mkF b0 b1 b2 (start2 f0) (control f0) (address f0) (ctrl_info f0)
                      (checksum f0) (stop f0) (fdata f0) (data_size f0) (ftype f0) (fnext f0) in
        if b1 <? 3 then Ok (-2, f1)
        else if negb (b1 =? b2) then Ok (-2, f1)
        else
          let len := b1 in
          if n <? 6 + len then Ok (6 + len - n, f1)
          else if n >? 6 + len then Ok (-2, f1)
          else
            let* b3 := rd data 3 in
            let* b4 := rd data 4 in
            let* b5 := rd data 5 in
            let* b6 := rd data 6 in
            let ds := len - 3 in
            let* d' := copy_loop (Z.to_nat ds) (fdata f1) 0 data 7 in
            let* ck := rd data (length data - 2) in
            let* st := rd data (length data - 1) in
            let ty := if ds =? 0 then T_CONTROL else T_LONG in
            let f2 := mkF b0 b1 b2 b3 b4 b5 b6 ck st d' ds ty (fnext f1) in
            let* v := mbus_frame_verify f2 in
            if negb (v =? 0) then Ok (-3, f2) else Ok (0, f2)
    else Ok (-4, f0)
  else Ok (-1, f).

(** mbus-protocol.c 4092-4190 [mbus_frame_pack] (frame and data not NULL; [buf] is the caller's
    buffer, [dsize] the size passed for it). Returns the C return value, the frame (length and
    checksum fields updated) and the buffer. *)
Definition mbus_frame_pack (f : frame) (buf : list Z) (dsize : Z) : res (Z * frame * list Z) :=
  let (r1, f1) := mbus_frame_calc_length f in
  if r1 =? -1 then Ok (-2, f1, buf)
  else
    let* (r2, f2) := mbus_frame_calc_checksum f1 in
    if r2 =? -1 then Ok (-3, f2, buf)
    else if ftype f2 =? T_ACK then
      if dsize <? 1 then Ok (-4, f2, buf)
      else let* b := put_list buf 0 [start1 f2] in Ok (1, f2, b)
    else if ftype f2 =? T_SHORT then
      if dsize <? 5 then Ok (-4, f2, buf)
      else let* b := put_list buf 0 [start1 f2; control f2; address f2; checksum f2; stop f2] in
           Ok (5, f2, b)
    else if ftype f2 =? T_CONTROL then
      if dsize <? 9 then Ok (-4, f2, buf)
      else let* b := put_list buf 0 [start1 f2; length1 f2; length2 f2; start2 f2;
                                     control f2; address f2; ctrl_info f2;
                                     checksum f2; stop f2] in
           Ok (9, f2, b)
    else if ftype f2 =? T_LONG then
      if dsize <? data_size f2 + 9 then Ok (-4, f2, buf)
      else
        let n := Z.to_nat (data_size f2) in
        let* b1 := put_list buf 0 [start1 f2; length1 f2; length2 f2; start2 f2;
                                   control f2; address f2; ctrl_info f2] in
        let* b2 := copy_loop n b1 7 (fdata f2) 0 in
        let* b3 := put_list b2 (7 + n) [checksum f2; stop f2] in
        Ok (data_size f2 + 9, f2, b3)
    else Ok (-5, f2, buf).

(** mbus-protocol.c 105-113 [mbus_slave_data_get]: the index of the returned slot, or None for
    NULL; the table has MBUS_MAX_PRIMARY_SLAVES = 250 slots (mbus-protocol.h 333). *)
Definition mbus_slave_data_get (i : Z) : option Z := if i <? 250 then Some i else None.

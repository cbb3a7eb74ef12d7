(** Model of the value codecs of mbus/mbus-protocol.c. No proofs here.
    Pointers are assumed not NULL (a NULL argument returns -1 or does nothing before any access). *)
From Verif Require Import CBase.

(** C signed shift [x << 8] of type [op]: undefined for negative [x] or if the result overflows. *)
Definition shl8 (op : Z -> res Z) (x : Z) : res Z := if x <? 0 then UB else op (x * 256).

(** mbus-protocol.c 570-581 (and 604-615, 638-649):
    [for (i = size; i > 0; i--) *value = ( *value << 8) + (neg ? d[i-1] ^ 0xFF : d[i-1]);] *)
Fixpoint int_loop (op : Z -> res Z) (i : nat) (d : list Z) (neg : bool) (v : Z) : res Z :=
  match i with
  | O => Ok v
  | S i' =>
      let* b := rd d i' in
      let* s := shl8 op v in
      let* v' := op (s + (if neg then Z.lxor b 0xFF else b)) in
      int_loop op i' d neg v'
  end.

(** The common body; result: return code and *value. *)
Definition int_decode_gen (op : Z -> res Z) (d : list Z) (size : nat) : res (Z * Z) :=
  if (size <? 1)%nat then Ok (-1, 0)
  else
    let* top := rd d (size - 1) in
    let neg := negb (Z.land top 0x80 =? 0) in
    let* v := int_loop op size d neg 0 in
    if neg then
      let* m := op (v * -1) in
      let* r := op (m - 1) in Ok (0, r)
    else Ok (0, v).

(** mbus-protocol.c 557-589 [mbus_data_int_decode]: value of type int (32 bit). *)
Definition mbus_data_int_decode := int_decode_gen int_op.
(** mbus-protocol.c 591-623 [mbus_data_long_decode]: value of type long (64 bit, LP64). *)
Definition mbus_data_long_decode := int_decode_gen llong_op.
(** mbus-protocol.c 625-657 [mbus_data_long_long_decode]: value of type long long (64 bit). *)
Definition mbus_data_long_long_decode := int_decode_gen llong_op.

(** mbus-protocol.c 664-680 [mbus_data_int_encode]: [d[i] = (value >> (i*8)) & 0xFF].
    Right shift of a negative int is arithmetic (implementation-defined, as on all usual targets);
    a shift by 32 or more is undefined. *)
Fixpoint int_encode_loop (n : nat) (i : nat) (d : list Z) (value : Z) : res (list Z) :=
  match n with
  | O => Ok d
  | S n' =>
      if (4 <=? i)%nat then UB
      else
        let* d' := wr d i (Z.land (Z.shiftr value (Z.of_nat i * 8)) 0xFF) in
        int_encode_loop n' (S i) d' value
  end.
Definition mbus_data_int_encode (d : list Z) (size : nat) (value : Z) : res (list Z) :=
  int_encode_loop size 0 d value.

(** mbus-protocol.c 463-474: the digit loop of [mbus_data_bcd_encode]. C int division truncates;
    the operands are not negative. *)
Fixpoint bcd_encode_loop (n : nat) (i : nat) (d : list Z) (size : nat) (v2 : Z) : res (list Z) :=
  match n with
  | O => Ok d
  | S n' =>
      let v0 := v2 in
      let v1 := Z.quot v0 10 in
      let v2' := Z.quot v1 10 in
      let x1 := v0 - v1 * 10 in
      let x2 := v1 - v2' * 10 in
      let* d' := wr d (size - 1 - i) (u8 (Z.lor (Z.shiftl x2 4) x1)) in
      bcd_encode_loop n' (S i) d' size v2'
  end.
(** mbus-protocol.c 453-487 [mbus_data_bcd_encode]; result: return code and array.
    abs(INT_MIN) is undefined. *)
Definition mbus_data_bcd_encode (d : list Z) (size : nat) (value : Z) : res (Z * list Z) :=
  if (size =? 0)%nat then Ok (-1, d)
  else
    let* a := int_op (Z.abs value) in
    let* d1 := bcd_encode_loop size 0 d size a in
    if value <? 0 then
      let* b := rd d1 (size - 1) in
      let* d2 := wr d1 (size - 1) (Z.lor b 0xF0) in
      Ok (0, d2)
    else Ok (0, d1).

(** mbus-protocol.c 502-512: the loop of [mbus_data_bcd_decode]. *)
Fixpoint bcd_decode_loop (i : nat) (d : list Z) (v : Z) : res Z :=
  match i with
  | O => Ok v
  | S i' =>
      let* b := rd d i' in
      let* v1 := llong_op (v * 10) in
      let* v2 := (if Z.shiftr b 4 <? 0xA then llong_op (v1 + Z.land (Z.shiftr b 4) 0xF) else Ok v1) in
      let* v3 := llong_op (v2 * 10) in
      let* v4 := llong_op (v3 + Z.land b 0xF) in
      bcd_decode_loop i' d v4
  end.
(** mbus-protocol.c 494-526 [mbus_data_bcd_decode]. With size 0 the sign test reads d[-1]. *)
Definition mbus_data_bcd_decode (d : list Z) (size : nat) : res Z :=
  let* v := bcd_decode_loop size d 0 in
  match size with
  | O => UB
  | S k =>
      let* top := rd d k in
      if Z.shiftr top 4 =? 0xF then llong_op (v * -1) else Ok v
  end.

(** mbus-protocol.c 533-550 [mbus_data_bcd_decode_hex]. *)
Fixpoint bcd_hex_loop (i : nat) (d : list Z) (v : Z) : res Z :=
  match i with
  | O => Ok v
  | S i' =>
      let* b := rd d i' in
      let* s := shl8 llong_op v in
      bcd_hex_loop i' d (Z.lor s b)
  end.
Definition mbus_data_bcd_decode_hex (d : list Z) (size : nat) : res Z := bcd_hex_loop size d 0.

(** mbus-protocol.c 689-739 [mbus_data_float_decode], #else branch (724-735): memcpy into a
    uint32_t whose bits are reinterpreted as a float. Result: the 32 bits as a number; [le] says
    whether the host is little-endian. The IEEE interpretation of the bits is the FPU's. *)
Definition float_bits (le : bool) (d : list Z) : res Z :=
  let* b0 := rd d 0 in let* b1 := rd d 1 in let* b2 := rd d 2 in let* b3 := rd d 3 in
  if le then Ok (b0 + 256 * b1 + 65536 * b2 + 16777216 * b3)
  else Ok (b3 + 256 * b2 + 65536 * b1 + 16777216 * b0).

(** mbus-protocol.c 700-721: the _HAS_NON_IEEE754_FLOAT branch. Result (n, e): the product
    sign * fraction * 2^(exponent - 23) as integer n times 2^e; the double arithmetic is exact
    (24-bit fraction, power of two), the final conversion to float of an out-of-range value is not modelled. *)
Definition float_portable (d : list Z) : res (Z * Z) :=
  let* b3 := rd d 3 in let* b2 := rd d 2 in let* b1 := rd d 1 in let* b0 := rd d 0 in
  let temp := ((b3 * 256 + b2) * 256 + b1) * 256 + b0 in
  let sign := if Z.shiftr temp 31 =? 0 then 1 else -1 in
  let exponent := Z.shiftr (Z.land temp 0x7F800000) 23 - 127 in
  let fraction := Z.land temp 0x007FFFFF in
  let fraction' := if negb (exponent =? -127) && negb (exponent =? 128)
                   then Z.lor fraction 0x800000 else fraction in
  Ok (sign * fraction', -23 + exponent).

(** mbus-protocol.c 755-757: [while (len > 0) dst[i++] = src[--len];] *)
Fixpoint str_loop (len : nat) (i : nat) (dst src : list Z) : res (list Z) :=
  match len with
  | O => Ok dst
  | S len' =>
      let* b := rd src len' in
      let* dst' := wr dst i b in
      str_loop len' (S i) dst' src
  end.
(** mbus-protocol.c 746-760 [mbus_data_str_decode]; source and destination do not overlap. *)
Definition mbus_data_str_decode (dst src : list Z) (len : nat) : res (list Z) :=
  let* dst' := wr dst len 0 in str_loop len 0 dst' src.

(** One digit of the printf conversion %X. *)
Definition hex_upper (n : Z) : Z := if n <? 10 then 48 + n else 55 + n.
(** snprintf(&dst[pos], n, "%.2X ", b) for n >= 4: three characters and the terminator. *)
Definition put_hex (dst : list Z) (pos : nat) (b : Z) : res (list Z) :=
  put_list dst pos [hex_upper (Z.shiftr b 4); hex_upper (Z.land b 0xF); 32; 0].

(** mbus-protocol.c 776-779: the loop of [mbus_data_bin_decode]; [k] = len - i. *)
Fixpoint bin_loop (k : nat) (dst src : list Z) (pos : nat) (max_len : nat) : res (list Z * nat) :=
  match k with
  | O => Ok (dst, pos)
  | S k' =>
      if (pos + 3 <? max_len)%nat then
        let* b := rd src k' in
        let* dst' := put_hex dst pos b in
        bin_loop k' dst' src (pos + 3) max_len
      else Ok (dst, pos)
  end.
(** mbus-protocol.c 767-791 [mbus_data_bin_decode]. *)
Definition mbus_data_bin_decode (dst src : list Z) (len max_len : nat) : res (list Z) :=
  let* (dst', pos) := bin_loop len dst src 0 max_len in
  wr dst' (if (0 <? pos)%nat then pos - 1 else pos)%nat 0.

(** struct tm (the members set by [mbus_data_tm_decode]; tm_wday and tm_yday are always 0). *)
Record tm := mkTm { tm_sec : Z; tm_min : Z; tm_hour : Z; tm_mday : Z; tm_mon : Z; tm_year : Z; tm_isdst : Z }.
Definition tm_zero := mkTm 0 0 0 0 0 0 0.

(** mbus-protocol.c 807-868 [mbus_data_tm_decode]. *)
Definition mbus_data_tm_decode (d : list Z) (size : nat) : res tm :=
  if (size =? 6)%nat then
    let* b1 := rd d 1 in
    if Z.land b1 0x80 =? 0 then
      let* b0 := rd d 0 in let* b2 := rd d 2 in let* b3 := rd d 3 in let* b4 := rd d 4 in
      Ok (mkTm (Z.land b0 0x3F) (Z.land b1 0x3F) (Z.land b2 0x1F) (Z.land b3 0x1F)
               (Z.land b4 0x0F - 1)
               (100 + Z.lor (Z.shiftr (Z.land b3 0xE0) 5) (Z.shiftr (Z.land b4 0xF0) 1))
               (if Z.land b0 0x40 =? 0 then 0 else 1))
    else Ok tm_zero
  else if (size =? 4)%nat then
    let* b0 := rd d 0 in
    if Z.land b0 0x80 =? 0 then
      let* b1 := rd d 1 in let* b2 := rd d 2 in let* b3 := rd d 3 in
      let year := Z.lor (Z.shiftr (Z.land b2 0xE0) 5) (Z.shiftr (Z.land b3 0xF0) 1) in
      let hundred_year := Z.shiftr (Z.land b1 0x60) 5 in
      let hundred_year := if (hundred_year =? 0) && (year <=? 80) then 1 else hundred_year in
      Ok (mkTm 0 (Z.land b0 0x3F) (Z.land b1 0x1F) (Z.land b2 0x1F) (Z.land b3 0x0F - 1)
               (100 * hundred_year + year) (if Z.land b1 0x80 =? 0 then 0 else 1))
    else Ok tm_zero
  else if (size =? 2)%nat then
    let* b0 := rd d 0 in let* b1 := rd d 1 in
    Ok (mkTm 0 0 0 (Z.land b0 0x1F) (Z.land b1 0x0F - 1)
             (100 + Z.lor (Z.shiftr (Z.land b0 0xE0) 5) (Z.shiftr (Z.land b1 0xF0) 1)) 0)
  else Ok tm_zero.

(** mbus-protocol.c 875-890 [mbus_data_manufacturer_encode]: writes m_data[0..1]. *)
Definition mbus_data_manufacturer_encode (m_data code : list Z) : res (Z * list Z) :=
  let* c0 := rd code 0 in let* c1 := rd code 1 in let* c2 := rd code 2 in
  let v := Z.shiftl (Z.land (c0 - 64) 0x1F) 10 + Z.shiftl (Z.land (c1 - 64) 0x1F) 5 + Z.land (c2 - 64) 0x1F in
  let* d := mbus_data_int_encode m_data 2 v in Ok (0, d).

(** mbus-protocol.c 897-916 [mbus_decode_manufacturer]: the static 4-byte buffer. [mbus_data_int_decode]
    reads the buffer as unsigned char. *)
Definition mbus_decode_manufacturer (byte1 byte2 : Z) : res (list Z) :=
  let* (_, id) := mbus_data_int_decode [byte1; byte2; 0; 0] 2 in
  Ok [Z.land (Z.shiftr id 10) 0x1F + 64; Z.land (Z.shiftr id 5) 0x1F + 64; Z.land id 0x1F + 64; 0].

(** ctype.h in the C locale, on character codes (0..255; values above 127 are not letters). *)
Definition c_isupper (c : Z) : bool := (65 <=? c) && (c <=? 90).
Definition c_islower (c : Z) : bool := (97 <=? c) && (c <=? 122).
Definition c_isalpha (c : Z) : bool := c_isupper c || c_islower c.
Definition c_toupper (c : Z) : Z := if c_islower c then c - 32 else c.

(** mbus-protocol.c 28-56 [mbus_manufacturer_id]; [s] = the characters before the terminator. *)
Definition mbus_manufacturer_id (s : list Z) : Z :=
  match s with
  | c0 :: c1 :: c2 :: _ =>
      if negb (c_isalpha c0) || negb (c_isalpha c1) || negb (c_isalpha c2) then 0
      else
        let id := (c_toupper c0 - 64) * 32 * 32 + (c_toupper c1 - 64) * 32 + (c_toupper c2 - 64) in
        if (0x0421 <=? id) && (id <=? 0x6b5a) then id else 0
  | _ => 0
  end.

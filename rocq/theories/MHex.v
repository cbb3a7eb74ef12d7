(** Model of the hexadecimal text conversion: mbus/mbus-protocol-aux.c 2541-2581. No proofs here. *)
From Verif Require Import CBase MSecond.

(** C library: [isspace] in the C locale. *)
Definition isspace (c : Z) : bool := ((9 <=? c) && (c <=? 13)) || (c =? 32).

(** C library: [strtoul(buf, &end, 16)] on a string of two characters whose first is no white space: None if no
    conversion is made (end = buf), else the value. A sign is taken; after 0x there is no digit left, so that only the
    0 is taken. *)
Definition strtoul16_2 (c0 c1 : Z) : option Z :=
  if (c0 =? 43) || (c0 =? 45) then
    if isxdigit c1 then Some (if c0 =? 45 then (2 ^ 64 - hex_digit_value c1) mod 2 ^ 64 else hex_digit_value c1) else None
  else if isxdigit c0 then
    Some (if isxdigit c1 then 16 * hex_digit_value c0 + hex_digit_value c1 else hex_digit_value c0)
  else None.

(** mbus-protocol-aux.c 2556-2579: the loop, [src] the characters from index i on, src[src_len-1] the last. *)
Fixpoint hex_loop (dst : list Z) (dst_len : nat) (src : list Z) (result : nat) {struct src} : res (nat * list Z) :=
  match src with
  | c0 :: t =>
      match t with
      | [] => Ok (result, dst)
      | c1 :: rest =>
          if isspace c0 then hex_loop dst dst_len t result
          else match strtoul16_2 c0 c1 with
          | None => Ok (result, dst)
          | Some v =>
              if (dst_len <=? result)%nat then Ok (result, dst)
              else let* dst := wr dst result (u8 v) in hex_loop dst dst_len rest (S result)
          end
      end
  | [] => Ok (result, dst)
  end.
(** mbus-protocol-aux.c 2541-2581 [mbus_hex2bin] for pointers that are not NULL (else 0 is returned); src_len is the
    length of [src]. *)
Definition mbus_hex2bin (dst : list Z) (dst_len : nat) (src : list Z) : res (nat * list Z) :=
  let* dst := put_list dst 0 (repeat 0 dst_len) in
  hex_loop dst dst_len src 0.

(** Specification of hexadecimal text. *)
From Verif Require Import CBase SText.

(** White space. *)
Definition white (c : Z) : Prop := c = 32 \/ 9 <= c <= 13.
(** [hex_dump s bs]: the text [s] consists of the bytes [bs], two hexadecimal digits each, with any white space before,
    between and after them. *)
Inductive hex_dump : list Z -> list Z -> Prop :=
| ht_nil : hex_dump [] []
| ht_white c s bs : white c -> hex_dump s bs -> hex_dump (c :: s) bs
| ht_byte c0 c1 s b bs : read_nat 16 [c0; c1] = Some b -> hex_dump s bs -> hex_dump (c0 :: c1 :: s) (b :: bs).

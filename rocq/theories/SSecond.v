(** Specification of secondary addresses. *)
From Verif Require Import CBase CStr MFrame SText SCodec SVar.

(** The 16-character text [s] denotes the address bytes [a] in the order they are sent: identification number
    (4 bytes BCD, least significant first), manufacturer (2 bytes), version, medium. *)
Definition address_text (a s : list Z) : Prop :=
  exists a0 a1 a2 a3 a4 a5 a6 a7, a = [a0; a1; a2; a3; a4; a5; a6; a7] /\ length s = 16%nat /\
    read_nat 16 (firstn 8 s) = Some (le [a0; a1; a2; a3]) /\
    read_nat 16 (firstn 2 (skipn 8 s)) = Some a4 /\ read_nat 16 (firstn 2 (skipn 10 s)) = Some a5 /\
    read_nat 16 (firstn 2 (skipn 12 s)) = Some a6 /\ read_nat 16 (firstn 2 (skipn 14 s)) = Some a7.
(** Characters a mask may have in the identification number: decimal digits and the wildcard F. *)
Definition mask_digit (c : Z) : Prop := 48 <= c <= 57 \/ c = 70 \/ c = 102.
(** 16 hexadecimal digits. *)
Definition hex16 (s : list Z) : Prop := length s = 16%nat /\ Forall (fun c => digit_value c <> None) s.
(** Nibbles of an identification number: decimal, or F. *)
Definition bcd_byte (b : Z) : Prop := 0 <= b < 256 /\ (b mod 16 <= 9 \/ b mod 16 = 15) /\ (b / 16 <= 9 \/ b / 16 = 15).

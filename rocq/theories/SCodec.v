(** Specification of the value encodings (EN 13757-3 data types), independent of MCodec.v. *)
From Coq Require Import ZArith List.
Import ListNotations.
Local Open Scope Z_scope.

(** Little-endian unsigned value of a byte string. *)
Definition le (l : list Z) : Z := fold_right (fun b a => b + 256 * a) 0 l.
(** Two's complement reading of an unsigned number of [n] bytes. *)
Definition twos (n : nat) (u : Z) : Z :=
  if u <? 2 ^ (8 * Z.of_nat n - 1) then u else u - 2 ^ (8 * Z.of_nat n).
(** The representative of [v] modulo 2^(8n) in the signed range. *)
Definition wrap_signed (n : nat) (v : Z) : Z := twos n (v mod 2 ^ (8 * Z.of_nat n)).

(** Decimal value of a digit string, least significant digit first. *)
Definition dec (ds : list Z) : Z := fold_right (fun d a => d + 10 * a) 0 ds.
Definition digit (d : Z) : Prop := 0 <= d <= 9.
(** Packed BCD: two digits per byte, least significant first in memory and in the byte. *)
Fixpoint pack_digits (ds : list (Z * Z)) : list Z :=
  match ds with [] => [] | (lo, hi) :: r => (lo + 16 * hi) :: pack_digits r end.
Definition flat (ds : list (Z * Z)) : list Z := flat_map (fun p => [fst p; snd p]) ds.

(** Manufacturer code: three letters, five bits each (A = 1). *)
Definition letter (c : Z) : Prop := 65 <= c <= 90.
Definition flag_id (a b c : Z) : Z := (a - 64) * 1024 + (b - 64) * 32 + (c - 64).
(** The character [c] is the upper-case letter [u] or the same letter in lower case. *)
Definition same_letter (c u : Z) : Prop := c = u \/ c = u + 32.

(** Calendar data types. Field bits as in EN 13757-3 Annex A, unused bits arbitrary. *)
(** Type G (CP16): date. *)
Definition type_g (day month year : Z) : list Z :=
  [day + 32 * (year mod 8); month + 16 * (year / 8)].
(** Type F (CP32): date and time; [hy] = hundred-year, [su] = summer time, [iv] = invalid,
    [r0] = reserved bit. *)
Definition type_f (minute hour day month year hy su iv r0 : Z) : list Z :=
  [minute + 64 * r0 + 128 * iv; hour + 32 * hy + 128 * su; day + 32 * (year mod 8); month + 16 * (year / 8)].
(** Type I (CP48): date and time with seconds; [dst], leap-year bit [lp], weekday [wd], [b5] = week byte. *)
Definition type_i (sec minute hour day month year dst lp r iv wd b5 : Z) : list Z :=
  [sec + 64 * dst + 128 * lp; minute + 64 * r + 128 * iv; hour + 32 * wd; day + 32 * (year mod 8);
   month + 16 * (year / 8); b5].

(** Upper-case hexadecimal digit as a character code. *)
Definition hex_digit (n : Z) : Z := nth (Z.to_nat n) [48;49;50;51;52;53;54;55;56;57;65;66;67;68;69;70] 0.
(** Text of a byte string: two digits per byte, single blanks between. *)
Fixpoint hex_text (l : list Z) : list Z :=
  match l with
  | [] => []
  | [b] => [hex_digit (b / 16); hex_digit (b mod 16)]
  | b :: r => hex_digit (b / 16) :: hex_digit (b mod 16) :: 32 :: hex_text r
  end.

(** IEEE 754 binary32 (2008, clause 3.4). *)
Inductive ieee := Finite (m e : Z) (* m * 2^e *) | Infinite (negative : bool) | NaN.
Definition ieee_value (bits : Z) : ieee :=
  let s := bits / 2 ^ 31 in
  let e := (bits / 2 ^ 23) mod 256 in
  let m := bits mod 2 ^ 23 in
  let sg x := if s =? 0 then x else - x in
  if e =? 255 then (if m =? 0 then Infinite (negb (s =? 0)) else NaN)
  else if e =? 0 then Finite (sg m) (-149)
  else Finite (sg (2 ^ 23 + m)) (e - 150).
(** m1 * 2^e1 = m2 * 2^e2 *)
Definition same_dyadic (m1 e1 m2 e2 : Z) : Prop :=
  m1 * 2 ^ (e1 - Z.min e1 e2) = m2 * 2 ^ (e2 - Z.min e1 e2).

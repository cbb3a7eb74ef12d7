(** The C type double as the model uses it. No proofs here. *)
From Coq Require Export QArith.
From Verif Require Import CBase MText.
Global Open Scope Z_scope.

(** A double: a finite number, given exactly, or an infinity or not-a-number with its sign. Zero has no sign here. *)
Inductive real := Num (q : Q) | NonFinite (negative nan : bool).

(** Floor of the binary logarithm of n / d, for positive n and d. *)
Definition quot_log2 (n d : Z) : Z :=
  let e := Z.log2 n - Z.log2 d in
  if (if 0 <=? e then d * 2 ^ e <=? n else d <=? n * 2 ^ (- e)) then e else e - 1.
(** IEEE 754 binary64, round to nearest even: a significand of 53 bits. Simplified: the exponent is not bounded.
    The operands that occur lie between 2^-149 and 2^128 (values) and between 10^-12 and 10^11 (constants), far from
    overflow and underflow. *)
Definition dround (q : Q) : Q :=
  let n := Z.abs (Qnum q) in let d := Z.pos (Qden q) in
  if n =? 0 then 0%Q
  else
    let k := 52 - quot_log2 n d in
    if 0 <=? k then (Z.sgn (Qnum q) * round_div (n * 2 ^ k) d) # Z.to_pos (2 ^ k)
    else inject_Z (Z.sgn (Qnum q) * (round_div n (d * 2 ^ (- k)) * 2 ^ (- k))).

(** Product with a positive double, sum with a double. *)
Definition rmul (x : real) (f : Q) : real := match x with Num q => Num (dround (q * f)%Q) | NonFinite s n => NonFinite s n end.
Definition radd (x : real) (f : Q) : real := match x with Num q => Num (dround (q + f)%Q) | NonFinite s n => NonFinite s n end.
(** Conversion of an integer. *)
Definition real_of (z : Z) : real := Num (dround (inject_Z z)).
(** C library: pow(10.0, e) for the exponents used (-6 to 1); correctly rounded. *)
Definition pow10 (e : Z) : Q := dround (if e <? 0 then 1 # Z.to_pos (10 ^ (- e)) else inject_Z (10 ^ e)).
(** The float with these 32 bits, as a double (exact). *)
Definition real_of_bits (bits : Z) : real :=
  let sign := Z.shiftr bits 31 in
  let e := Z.land (Z.shiftr bits 23) 0xFF in
  let m := Z.land bits 0x7FFFFF in
  if e =? 255 then NonFinite (negb (sign =? 0)) (negb (m =? 0))
  else
    let sig := (if e =? 0 then m else m + 2 ^ 23) * (if sign =? 0 then 1 else -1) in
    let ex := if e =? 0 then -149 else e - 150 in
    Num (if ex <? 0 then sig # Z.to_pos (2 ^ (- ex)) else inject_Z (sig * 2 ^ ex)).

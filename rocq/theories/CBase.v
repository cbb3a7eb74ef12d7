(** Common base of the model: outcomes with undefined behaviour, byte arrays
    with bounds-checked accesses, C integer conversions.
    Models the C language semantics the library relies on, not a file of /repo. *)
From Coq Require Export ZArith List Bool Lia.
From Coq Require Export ZifyBool ZifyNat ZifyN.
Export ListNotations.
Global Open Scope Z_scope.
Ltac Zify.zify_post_hook ::= Z.div_mod_to_equations.

(** Outcome of running C code: a value, or undefined behaviour (out-of-bounds
    access, signed overflow, over-wide shift). *)
Inductive res (A : Type) : Type :=
| Ok (a : A)
| UB.
Arguments Ok {A} a.
Arguments UB {A}.

Definition bind {A B} (x : res A) (k : A -> res B) : res B :=
  match x with Ok a => k a | UB => UB end.
Declare Scope res_scope.
Delimit Scope res_scope with res.
Notation "'let*' x ':=' e 'in' k" := (bind e (fun x => k))
  (at level 200, x pattern, e at level 100, k at level 200, right associativity) : res_scope.
Global Open Scope res_scope.

(** A C [unsigned char]. *)
Definition is_byte (b : Z) : Prop := 0 <= b < 256.
Definition bytes (l : list Z) : Prop := Forall is_byte l.

(** Conversion to [unsigned char]. *)
Definition u8 (x : Z) : Z := x mod 256.

(** Range of a 32-bit [int] and a 64-bit [long] / [long long] (LP64). *)
Definition INT_MIN := -2147483648.
Definition INT_MAX := 2147483647.
Definition in_int (x : Z) : bool := (INT_MIN <=? x) && (x <=? INT_MAX).
Definition LLONG_MIN := -9223372036854775808.
Definition LLONG_MAX := 9223372036854775807.
Definition in_llong (x : Z) : bool := (LLONG_MIN <=? x) && (x <=? LLONG_MAX).
(** Result of a signed [int] / [long] operation: overflow is undefined. *)
Definition int_op (x : Z) : res Z := if in_int x then Ok x else UB.
Definition llong_op (x : Z) : res Z := if in_llong x then Ok x else UB.

(** Array element read [l[i]]; outside the array: undefined behaviour. *)
Definition rd (l : list Z) (i : nat) : res Z :=
  match nth_error l i with Some b => Ok b | None => UB end.

(** Array element write [l[i] = v]; outside the array: undefined behaviour. *)
Fixpoint upd (l : list Z) (i : nat) (v : Z) : list Z :=
  match l, i with
  | [], _ => []
  | _ :: t, O => v :: t
  | h :: t, S j => h :: upd t j v
  end.
Definition wr (l : list Z) (i : nat) (v : Z) : res (list Z) :=
  if (i <? length l)%nat then Ok (upd l i v) else UB.

(** [for (i = 0; i < n; i++) dst[o + i] = src[s + i];] *)
Fixpoint copy_loop (n : nat) (dst : list Z) (o : nat) (src : list Z) (s : nat)
  : res (list Z) :=
  match n with
  | O => Ok dst
  | S n' =>
      let* b := rd src s in
      let* dst' := wr dst o b in
      copy_loop n' dst' (S o) src (S s)
  end.

(** [data[o++] = v1; data[o++] = v2; ...] for a list of values. *)
Fixpoint put_list (dst : list Z) (o : nat) (vs : list Z) : res (list Z) :=
  match vs with
  | [] => Ok dst
  | v :: vs' => let* dst' := wr dst o v in put_list dst' (S o) vs'
  end.

(** C string literals as lists of character codes. *)
From Coq Require Import String Ascii ZArith List.
Import ListNotations.

(** A C string literal as its characters (without terminator). Characters above 127 are the UTF-8 bytes of the
    source file. Models the C language, not a file of /repo. *)
Fixpoint cstr (s : string) : list Z :=
  match s with EmptyString => [] | String c t => Z.of_N (N_of_ascii c) :: cstr t end.

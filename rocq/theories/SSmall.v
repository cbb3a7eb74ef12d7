(** Specification: records whose texts have few markup characters. *)
From Coq Require Import String.
From Coq Require Import List.
From Verif Require Import CBase CStr MFrame MCodec MVar SVar SText SCodec SXml.
Local Open Scope Z_scope.

(** The characters that are longer in XML: the double quote, &, < and >; how many of them a text has. *)
Definition markup (c : Z) : bool := (c =? 34) || (c =? 38) || (c =? 60) || (c =? 62).
Definition markups (l : list Z) : nat := List.length (filter markup l).
(** A unit in plain text has at most 6 markup characters and a value that is a text has at most 70; the storage number
    has at most 31 bits and is given by at most 8 extensions. A statement about the bytes sent alone. *)
Definition tame (e : entry) : Prop :=
  match e with
  | EData a =>
      (List.length (a_difes a) <= 8)%nat /\ storage_number (a_dif a) (a_difes a) < 2 ^ 31 /\
      (markups (a_text a) <= 6)%nat /\
      (a_dif a mod 16 = 13 -> nth 0 (a_value a) 0 <= 0xBF -> (markups (tl (a_value a)) <= 70)%nat)
  | EBlock _ _ => True
  end.

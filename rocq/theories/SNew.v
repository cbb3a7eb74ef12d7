(** Specification: building a telegram in a fresh frame object. *)
From Verif Require Import CBase MFrame SWire SFrame.
Local Open Scope Z_scope.

(** The frame type of a telegram, and what a user stores in the object: control, address, control information and the
    payload; all other members are left alone. *)
Definition type_of (t : telegram) : Z := match t with Ack => 1 | Short _ _ => 2 | Control _ _ _ => 3 | Long _ _ _ _ => 4 end.
Definition fill (f : frame) (t : telegram) : frame :=
  let with_ c a ci p n :=
    mkF (start1 f) (length1 f) (length2 f) (start2 f) c a ci (checksum f) (stop f) (p ++ skipn (length p) (fdata f)) n (ftype f) (fnext f) in
  match t with
  | Ack => f
  | Short c a => with_ c a (ctrl_info f) [] (data_size f)
  | Control c a ci => with_ c a ci [] (data_size f)
  | Long c a ci p => with_ c a ci p (Z.of_nat (length p))
  end.

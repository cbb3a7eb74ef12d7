(** Specification of M-Bus telegrams on the wire (EN 13757-2 / IEC 870-5-2, FT 1.2),
    written independently of the model in MFrame.v. *)
From Coq Require Import ZArith List.
Import ListNotations.
Local Open Scope Z_scope.

(** The four kinds of telegram and their variable content. *)
Inductive telegram :=
| Ack
| Short (c a : Z)
| Control (c a ci : Z)
| Long (c a ci : Z) (payload : list Z).

Definition byte_range (b : Z) : Prop := 0 <= b <= 255.

Definition total (l : list Z) : Z := fold_right Z.add 0 l.

(** The bytes on the line. *)
Definition wire (t : telegram) : list Z :=
  match t with
  | Ack => [0xE5]
  | Short c a => [0x10; c; a; (c + a) mod 256; 0x16]
  | Control c a ci => [0x68; 3; 3; 0x68; c; a; ci; (c + a + ci) mod 256; 0x16]
  | Long c a ci p =>
      let n := Z.of_nat (length p) + 3 in
      [0x68; n; n; 0x68; c; a; ci] ++ p ++ [(c + a + ci + total p) mod 256; 0x16]
  end.

(** Control codes: SND_NKE, REQ_UD1, REQ_UD2 with/without FCB for short telegrams;
    SND_UD with/without FCB and RSP_UD with ACD/DFC for telegrams with CI field. *)
Definition short_code (c : Z) : Prop := In c [0x40; 0x5A; 0x7A; 0x5B; 0x7B].
Definition long_code (c : Z) : Prop := In c [0x53; 0x73; 0x08; 0x18; 0x28; 0x38].

Definition valid (t : telegram) : Prop :=
  match t with
  | Ack => True
  | Short c a => short_code c /\ byte_range a
  | Control c a ci => long_code c /\ byte_range a /\ byte_range ci
  | Long c a ci p => long_code c /\ byte_range a /\ byte_range ci
                     /\ Forall byte_range p /\ (1 <= length p <= 252)%nat
  end.

(** A valid telegram ends a stream exactly when the stream is its wire image. *)
Definition well_formed (bs : list Z) : Prop := exists t, valid t /\ bs = wire t.

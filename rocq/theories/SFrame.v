(** Vocabulary relating frame objects (MFrame.frame) to telegrams (SWire). *)
From Verif Require Import CBase MFrame SWire.

(** A type-correct frame object: the payload array has its declared 252 elements. *)
Definition frame_obj (f : frame) : Prop := length (fdata f) = DATA_LEN.

(** All [unsigned char] members hold bytes. *)
Definition frame_bytes (f : frame) : Prop :=
  bytes [start1 f; length1 f; length2 f; start2 f; control f; address f; ctrl_info f;
         checksum f; stop f] /\ bytes (fdata f).

(** The frame object carries the telegram. *)
Definition denotes (f : frame) (t : telegram) : Prop :=
  match t with
  | Ack => ftype f = 1
  | Short c a => ftype f = 2 /\ control f = c /\ address f = a
  | Control c a ci => ftype f = 3 /\ control f = c /\ address f = a /\ ctrl_info f = ci
                      /\ data_size f = 0
  | Long c a ci p => ftype f = 4 /\ control f = c /\ address f = a /\ ctrl_info f = ci
                     /\ data_size f = Z.of_nat (length p) /\ firstn (length p) (fdata f) = p
  end.

(** Start and stop bytes as mbus_frame_new sets them for the frame's type. *)
Definition delimiters (f : frame) : Prop :=
  (ftype f = 1 -> start1 f = 0xE5) /\
  (ftype f = 2 -> start1 f = 0x10 /\ stop f = 0x16) /\
  (ftype f = 3 -> start1 f = 0x68 /\ start2 f = 0x68 /\ stop f = 0x16) /\
  (ftype f = 4 -> start1 f = 0x68 /\ start2 f = 0x68 /\ stop f = 0x16).

(** The members of a frame object in transmission order, as they are stored. *)
Definition layout (f : frame) : list Z :=
  if ftype f =? 1 then [start1 f]
  else if ftype f =? 2 then [start1 f; control f; address f; checksum f; stop f]
  else [start1 f; length1 f; length2 f; start2 f; control f; address f; ctrl_info f]
       ++ (if ftype f =? 3 then [] else firstn (Z.to_nat (data_size f)) (fdata f))
       ++ [checksum f; stop f].

(** The same object with other values in the derived members. *)
Definition with_stale (f : frame) (l1 l2 ck : Z) : frame :=
  mkF (start1 f) l1 l2 (start2 f) (control f) (address f) (ctrl_info f) ck (stop f)
      (fdata f) (data_size f) (ftype f) (fnext f).

(** One byte of a byte string replaced. *)
Definition replace_at (i : nat) (v : Z) (l : list Z) : list Z := firstn i l ++ v :: skipn (S i) l.

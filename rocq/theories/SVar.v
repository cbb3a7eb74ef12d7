(** Specification of the variable data structure (EN 13757-3): abstract records and their byte layout.
    [obj] says how the library's record object shows an abstract record. *)
From Verif Require Import CBase MFrame MVar.

(** An abstract data record. [a_text] is the plain-text unit of VIF 7C/FC in reading order. *)
Record arec := mkA {
  a_dif : Z; a_difes : list Z; a_vif : Z; a_text : list Z; a_vifes : list Z; a_value : list Z }.

(** Bit 7 of a DIF/DIFE/VIF/VIFE announces a further extension byte. *)
Fixpoint chained (b : Z) (ext : list Z) : Prop :=
  match ext with
  | [] => b < 128
  | e :: t => 128 <= b /\ chained e t
  end.

(** Bytes of data for the low DIF nibble (13 = variable length, announced by the first data byte). *)
Definition dif_size (dif : Z) : nat :=
  nth (Z.to_nat (dif mod 16)) [0; 1; 2; 3; 4; 4; 6; 8; 0; 1; 2; 3; 4; 0; 6; 8]%nat 0%nat.

(** Bytes that follow the length byte of variable-length data. *)
Definition lvar_size (b : Z) : Z :=
  if b <? 0xC0 then b                       (* text *)
  else if b <? 0xCA then 2 * (b - 0xC0)     (* positive BCD *)
  else if b <? 0xD0 then 0                  (* reserved *)
  else if b <? 0xDA then 2 * (b - 0xD0)     (* negative BCD *)
  else if b <? 0xE0 then 0                  (* reserved *)
  else if b <? 0xF0 then b - 0xE0           (* binary number *)
  else if b <? 0xF5 then 4 * (b - 0xEC)     (* large binary number *)
  else if b =? 0xF5 then 48
  else if b =? 0xF6 then 64
  else 0.                                   (* reserved *)

Definition value_fits (dif : Z) (v : list Z) : Prop :=
  if dif mod 16 =? 13
  then exists b w, v = b :: w /\ Z.of_nat (length w) = lvar_size b
  else length v = dif_size dif.

(** VIF 7C / FC: the unit is given in plain text. *)
Definition has_text (vif : Z) : bool := vif mod 128 =? 0x7C.

(** Byte layout of a record. The text is sent last character first, after its length. *)
Definition enc_rec (a : arec) : list Z :=
  a_dif a :: a_difes a ++ a_vif a ::
  (if has_text (a_vif a) then Z.of_nat (length (a_text a)) :: rev (a_text a) else [])
  ++ a_vifes a ++ a_value a.

Definition wf_rec (a : arec) : Prop :=
  a_dif a <> 0x0F /\ a_dif a <> 0x1F /\ a_dif a <> 0x2F /\
  chained (a_dif a) (a_difes a) /\ (length (a_difes a) <= 10)%nat /\
  chained (a_vif a) (a_vifes a) /\ (length (a_vifes a) <= 10)%nat /\
  (length (a_text a) <= 127)%nat /\ (has_text (a_vif a) = false -> a_text a = []) /\
  value_fits (a_dif a) (a_value a) /\ bytes (enc_rec a).

(** A payload body: records and idle fillers, optionally closed by manufacturer data (0F) or by
    more-records-follow (1F, true) and its bytes. *)
Inductive item := Filler | Data (a : arec).
Definition enc_item (it : item) : list Z := match it with Filler => [0x2F] | Data a => enc_rec a end.
Definition wf_item (it : item) : Prop := match it with Filler => True | Data a => wf_rec a end.
Definition tail := option (bool * list Z).
Definition tail_dif (more : bool) : Z := if more then 0x1F else 0x0F.
Definition enc_tail (t : tail) : list Z := match t with None => [] | Some (more, b) => tail_dif more :: b end.
Definition wf_tail (t : tail) : Prop := match t with None => True | Some (_, b) => (length b <= 234)%nat /\ bytes b end.
Definition enc_body (its : list item) (t : tail) : list Z := flat_map enc_item its ++ enc_tail t.

(** The record object that shows an abstract record: unused array elements are zero, the text is
    stored in reading order and terminated. *)
Definition pad (n : nat) (l : list Z) : list Z := l ++ repeat 0 (n - length l).
Definition obj (a : arec) : rec :=
  mkRec (a_dif a) (pad 10 (a_difes a)) (length (a_difes a))
        (a_vif a) (pad 10 (a_vifes a)) (length (a_vifes a))
        (pad 128 (a_text a)) (pad 234 (a_value a)) (length (a_value a)).
Definition obj_block (dif : Z) (b : list Z) : rec :=
  mkRec dif (pad 10 []) 0 0 (pad 10 []) 0 (pad 128 []) (pad 234 b) (length b).

Definition objs_item (it : item) : list rec := match it with Filler => [] | Data a => [obj a] end.
Definition objs (its : list item) : list rec := flat_map objs_item its.
Definition objs_tail (t : tail) : list rec :=
  match t with None => [] | Some (more, b) => [obj_block (tail_dif more) b] end.
Definition more_flag (t : tail) : Z := match t with Some (true, _) => 1 | _ => 0 end.
(** What the data object must hold for a header and body. *)
Definition dvar_of (h : list Z) (its : list item) (t : tail) : dvar :=
  mkVar h (objs its ++ objs_tail t) (Z.of_nat (length (objs its ++ objs_tail t))) (more_flag t).

(** The frame object carries the payload [p]; anything may be in its array after it. *)
Definition carries (f : frame) (p : list Z) : Prop :=
  length (fdata f) = DATA_LEN /\ bytes (fdata f) /\
  data_size f = Z.of_nat (length p) /\ firstn (length p) (fdata f) = p /\ (length p <= DATA_LEN)%nat.

(** A plain-text VIF announcing 128 characters / a 0F or 1F followed by more than 234 bytes. *)
Definition long_text (l : list Z) : Prop :=
  exists p, (p + 1 < length l)%nat /\ has_text (nth p l 0) = true /\ nth (p + 1) l 0 = 128.
Definition long_block (l : list Z) : Prop :=
  exists p, (nth p l 0 = 0x0F \/ nth p l 0 = 0x1F) /\ (234 < length l - p - 1)%nat.

(** Storage number, tariff and subunit: digits of the DIF and DIFEs, least significant first. *)
Fixpoint digits (base : Z) (digit : Z -> Z) (ds : list Z) : Z :=
  match ds with [] => 0 | d :: t => digit d + base * digits base digit t end.
Definition storage_number (dif : Z) (difes : list Z) : Z :=
  (dif / 64) mod 2 + 2 * digits 16 (fun d => d mod 16) difes.
Definition tariff (difes : list Z) : Z := digits 4 (fun d => (d / 16) mod 4) difes.
Definition subunit (difes : list Z) : Z := digits 2 (fun d => (d / 64) mod 2) difes.

(** The record object has this DIF and these DIFEs. *)
Definition has_difes (r : rec) (dif : Z) (difes : list Z) : Prop :=
  r_dif r = dif /\ r_ndife r = length difes /\ firstn (length difes) (r_dife r) = difes /\ length (r_dife r) = 10%nat /\
  is_byte dif /\ bytes difes /\ (length difes <= 10)%nat.

(** Fixed data structure of EN 13757-3: 16 bytes. *)
Definition fixed_layout (p : list Z) (x : dfix) : Prop :=
  p = x_id x ++ [x_tx_cnt x; x_status x; x_type1 x; x_type2 x] ++ x_val1 x ++ x_val2 x /\
  length (x_id x) = 4%nat /\ length (x_val1 x) = 4%nat /\ length (x_val2 x) = 4%nat.

(** Limits every record object respects. *)
Definition rec_bounds (r : rec) : Prop :=
  (r_ndife r <= 10)%nat /\ (r_nvife r <= 10)%nat /\ (r_len r <= 234)%nat /\
  length (r_dife r) = 10%nat /\ length (r_vife r) = 10%nat /\ length (r_custom r) = 128%nat /\ length (r_data r) = 234%nat /\
  In 0 (r_custom r).

(** A record whose unit is not plain text; fillers are excluded. *)
Definition plain_item (it : item) : Prop := match it with Filler => False | Data a => has_text (a_vif a) = false end.

(** A variable data reply carrying [p], the rest of the array filled with [s]. *)
Definition reply (p : list Z) (s : Z) : frame :=
  mkF 0x68 0 0 0x68 0x08 1 0x72 0 0x16 (p ++ repeat s (252 - length p)) (Z.of_nat (length p)) 4 0.

(** Specification of number and date texts: how a reader understands them. *)
From Verif Require Import CBase.

(** Value of a digit character. *)
Definition digit_value (c : Z) : option Z :=
  if (48 <=? c) && (c <=? 57) then Some (c - 48)
  else if (65 <=? c) && (c <=? 70) then Some (c - 55)
  else if (97 <=? c) && (c <=? 102) then Some (c - 87)
  else None.
(** Reading a digit string in a base, most significant digit first. *)
Fixpoint read_digits (base : Z) (l : list Z) (acc : Z) : option Z :=
  match l with
  | [] => Some acc
  | c :: t => match digit_value c with
              | Some d => if d <? base then read_digits base t (acc * base + d) else None
              | None => None
              end
  end.
Definition read_nat (base : Z) (l : list Z) : option Z := match l with [] => None | _ => read_digits base l 0 end.
(** Reading a decimal integer with an optional minus sign. *)
Definition read_int (l : list Z) : option Z :=
  match l with
  | 45 :: t => match read_nat 10 t with Some n => Some (- n) | None => None end
  | _ => read_nat 10 l
  end.
(** No superfluous leading zero. *)
Definition canonical (l : list Z) : Prop := match l with 48 :: _ :: _ => False | _ => True end.

(** The decimal representation of [n]: a minus sign if negative and only then, no superfluous zero. *)
Definition decimal (n : Z) (l : list Z) : Prop :=
  read_int l = Some n /\ canonical l /\ (n < 0 -> canonical (tl l)) /\ (0 <= n -> nth 0 l 0 <> 45).

(** Hexadecimal digits above nine are the capital letters A to F. The hexadecimal representation of [n]: no superfluous
    zero. *)
Definition capitals (l : list Z) : Prop := Forall (fun c => ~ (97 <= c <= 102)) l.
Definition hexadecimal (n : Z) (l : list Z) : Prop := read_nat 16 l = Some n /\ canonical l /\ capitals l.

(** A number written with exactly [w] decimal digits. *)
Definition fixed_width (w : nat) (n : Z) (l : list Z) : Prop := length l = w /\ read_nat 10 l = Some n.
(** ISO 8601 calendar date and time of day. *)
Definition iso_date (year month day : Z) (l : list Z) : Prop :=
  exists y m d, l = y ++ [45] ++ m ++ [45] ++ d /\ fixed_width 4 year y /\ fixed_width 2 month m /\ fixed_width 2 day d.
Definition iso_datetime (year month day hour minute second : Z) (l : list Z) : Prop :=
  exists dt h m s, l = dt ++ [84] ++ h ++ [58] ++ m ++ [58] ++ s /\ iso_date year month day dt /\
    fixed_width 2 hour h /\ fixed_width 2 minute m /\ fixed_width 2 second s.

(** A decimal fraction with six decimals denotes the integer number [n] of millionths. *)
Definition read_millionths (l : list Z) : option Z :=
  let neg := match l with 45 :: _ => true | _ => false end in
  let body := match l with 45 :: t => t | _ => l end in
  let k := (length body - 7)%nat in
  match read_nat 10 (firstn k body), skipn k body with
  | Some a, 46 :: f =>
      match read_nat 10 f with
      | Some b => Some (if neg then - (a * 1000000 + b) else a * 1000000 + b)
      | None => None
      end
  | _, _ => None
  end.

(** [n] millionths is the number m * 2^e rounded to the nearest millionth. *)
Definition nearest_millionth (m e n : Z) : Prop :=
  2 * Z.abs (n * 2 ^ Z.max 0 (- e) - m * 1000000 * 2 ^ Z.max 0 e) <= 2 ^ Z.max 0 (- e).

(** Time stamps (EN 13757-3): VIF 6C = date (type G), VIF 6D, and FD 30 / FD 70 = date and time (types F, I). The top
    bit of VIF and VIFE only announces further bytes. *)
Definition vif_date (vif : Z) : bool := vif mod 128 =? 0x6C.
Definition vif_datetime (vif vife : Z) : bool :=
  (vif mod 128 =? 0x6D) || ((vif =? 0xFD) && ((vife mod 128 =? 0x30) || (vife mod 128 =? 0x70))).
(** The record is a plain integer: 1, 2, 3, 4, 6 or 8 bytes and not a time stamp. *)
Definition int_record (dif vif vife : Z) : Prop :=
  let k := dif mod 16 in
  k = 1 \/ (k = 2 /\ vif_date vif = false) \/ k = 3 \/ (k = 4 /\ vif_datetime vif vife = false) \/
  (k = 6 /\ vif_datetime vif vife = false) \/ k = 7.
(** Function field 3: value during error state. *)
Definition error_state (dif : Z) : bool := (dif / 16) mod 4 =? 3.

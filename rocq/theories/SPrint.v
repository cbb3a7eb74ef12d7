(** Specification of printed reports: literal words and values that a reader can read back. *)
From Coq Require Import String.
From Coq Require Import List.
From Verif Require Import CBase CStr SWire SText SHex SVar SXml SName SCodec MVar MText MMon.
Local Open Scope Z_scope.

(** Values in a report: a byte in two hexadecimal digits, a hexadecimal number, a decimal number, a decimal number of at
    least three digits, the letters of a manufacturer, a word, bytes in hexadecimal,
    any words. *)
Inductive value := Byte (n : Z) | Hex (n : Z) | Dec (n : Z) | Count (n : Z) | Maker (code : Z) | Word (s : list Z) | Bytes (bs : list Z) | Any.
Definition shows (v : value) (s : list Z) : Prop :=
  match v with
  | Byte n => hex_width 2 n s
  | Hex n => hexadecimal n s
  | Dec n => decimal n s
  | Count n => read_nat 10 s = Some n /\ (3 <= length s)%nat
  | Maker code => manufacturer_text code s
  | Word w => s = w
  | Bytes bs => hex_dump s bs /\ ~ In 10 s
  | Any => ~ In 10 s
  end.
Inductive piece := L (s : string) | V (v : value) | NL.
(** [says ps t]: the text [t] consists of these pieces. *)
Inductive says : list piece -> list Z -> Prop :=
| say_end : says [] []
| say_word s ps t : says ps t -> says (L s :: ps) (cstr s ++ t)
| say_value v s ps t : shows v s -> says ps t -> says (V v :: ps) (s ++ t)
| say_line ps t : says ps t -> says (NL :: ps) (10 :: t).

(** A printed telegram. *)
Definition kind_no (t : telegram) : Z := match t with Ack => 1 | Short _ _ => 2 | Control _ _ _ => 3 | Long _ _ _ _ => 4 end.
Definition telegram_line (t : telegram) : list piece :=
  [L "mbus_frame_print: Dumping M-Bus frame [type "; V (Dec (kind_no t)); L ", "; V (Dec (Z.of_nat (length (wire t)))); L " bytes]: ";
   V (Bytes (wire t)); NL].
(** A line of a traffic log. *)
Definition dump_line (stamp label bs : list Z) : list piece :=
  [L "["; V (Word stamp); L "] "; V (Word label); L " ("; V (Count (Z.of_nat (length bs))); L "):"; V (Bytes bs); NL].
(** What a log tells: for each line whether it is about sending, and the bytes. *)
Definition traffic (tr : list act) : list (bool * list Z) :=
  flat_map (fun a => match a with OnSend _ l => [(true, l)] | OnRecv _ l => [(false, l)] | _ => [] end) tr.
Fixpoint log_lines (clock : nat -> list Z) (i : nat) (es : list (bool * list Z)) : list piece :=
  match es with [] => [] | (sent, l) :: es' => dump_line (clock i) (cstr (if sent then "SEND" else "RECV")) l ++ log_lines clock (S i) es' end.
(** A time text has no line break and no closing bracket. *)
Definition time_text (s : list Z) : Prop := ~ In 10 s /\ ~ In 93 s.

(** The header of a variable data reply. *)
Definition hp := "mbus_data_variable_header_print: "%string.
Definition header_report (h : list Z) : list piece :=
  let b i := nth i h 0 in
  [L hp; L "ID           = "; V (Hex (le [b 0%nat; b 1%nat; b 2%nat; b 3%nat])); NL;
   L hp; L "Manufacturer = 0x"; V (Byte (b 5%nat)); V (Byte (b 4%nat)); NL;
   L hp; L "Manufacturer = "; V (Maker (b 4%nat + 256 * b 5%nat)); NL;
   L hp; L "Version      = 0x"; V (Byte (b 6%nat)); NL;
   L hp; L "Medium       = "; V (Word (mbus_data_variable_medium_lookup (b 7%nat))); L " (0x"; V (Byte (b 7%nat)); L ")"; NL;
   L hp; L "Access #     = 0x"; V (Byte (b 8%nat)); NL;
   L hp; L "Status       = 0x"; V (Byte (b 9%nat)); NL;
   L hp; L "Signature    = 0x"; V (Byte (b 11%nat)); V (Byte (b 10%nat)); NL].
Definition yes (b : bool) : value := Word (cstr (if b then "Yes" else "No")).
(** The first lines of each record: number, DIF, its extension bit, least significant bit of the storage number,
    function, data field. *)
Definition dif_report (i dif : Z) (function : value) : list piece :=
  [L "Record ID         = "; V (Dec i); NL;
   L "DIF               = "; V (Byte dif); NL;
   L "DIF.Extension     = "; V (yes (128 <=? dif)); NL;
   L "DIF.StorageNumber = "; V (Dec (dif / 64 mod 2)); NL;
   L "DIF.Function      = "; V function; NL;
   L "DIF.Data          = "; V (Byte (dif mod 16)); NL].
Fixpoint dife_report (j : Z) (ds : list Z) : list piece :=
  match ds with
  | [] => []
  | d :: ds' =>
      [L "DIFE["; V (Dec j); L "]               = "; V (Byte d); NL;
       L "DIFE["; V (Dec j); L "].Extension     = "; V (yes (128 <=? d)); NL;
       L "DIFE["; V (Dec j); L "].Device        = "; V (Dec (d / 64 mod 2)); NL;
       L "DIFE["; V (Dec j); L "].Tariff        = "; V (Dec (d / 16 mod 4)); NL;
       L "DIFE["; V (Dec j); L "].StorageNumber = "; V (Byte (d mod 16)); NL] ++ dife_report (j + 1) ds'
  end.
Fixpoint vife_report (j : Z) (vs : list Z) : list piece :=
  match vs with
  | [] => []
  | v :: vs' =>
      [L "VIFE["; V (Dec j); L "]           = "; V (Byte v); NL;
       L "VIFE["; V (Dec j); L "].Extension = "; V (yes (128 <=? v)); NL;
       L "VIFE["; V (Dec j); L "].Value     = "; V (Byte (v mod 128)); NL] ++ vife_report (j + 1) vs'
  end.
Definition entry_report (i : Z) (e : entry) : list piece :=
  match e with
  | EData a =>
      dif_report i (a_dif a) (Word (function_name (a_dif a))) ++ [L "DATA LENGTH = "; V (Dec (Z.of_nat (length (a_value a)))); NL] ++ dife_report 0 (a_difes a) ++
      [L "VIF           = "; V (Byte (a_vif a)); NL;
       L "VIF.Extension = "; V (yes (128 <=? a_vif a)); NL;
       L "VIF.Value     = "; V (Byte (a_vif a mod 128)); NL] ++ vife_report 0 (a_vifes a) ++ [NL]
  | EBlock more b =>
      dif_report i (tail_dif more) Any ++
      [L "mbus_data_variable_print: VENDOR DATA [size="; V (Dec (Z.of_nat (length b))); L "] = "; V (Bytes b); NL] ++
      (if more then [L "mbus_data_variable_print: More records follow in next telegram"; NL] else [])
  end.
Fixpoint entries_report (i : Z) (es : list entry) : list piece :=
  match es with [] => [] | e :: es' => entry_report i e ++ entries_report (i + 1) es' end.
(** The printed function words know only two of the four functions. *)
Definition known_function (e : entry) : Prop :=
  match e with EData a => (a_dif a / 16) mod 4 = 0 \/ (a_dif a / 16) mod 4 = 3 | EBlock _ _ => True end.

(** Fixed data: the counters are BCD digits or, with bit 7 of the status, integers. *)
Definition fp := "mbus_data_fixed_print: "%string.
Definition counter_report (n : string) (x : dfix) (type : Z) (v : list Z) : list piece :=
  [L fp; L "Medium"; L n; L "  = "; V (Word (cstr (nth (Z.to_nat (fixed_medium_code (x_type1 x) (x_type2 x))) fixed_media ""%string))); NL;
   L fp; L "Unit"; L n; L "    = "; V (Word (mbus_data_fixed_unit type)); NL;
   L fp; L "Counter"; L n; L " = "; V (if x_status x <? 128 then Hex (le v) else Dec (twos 4 (le v))); NL].
Definition fixed_report (x : dfix) : list piece :=
  [L fp; L "ID       = "; V (Hex (le (x_id x))); NL;
   L fp; L "Access # = 0x"; V (Byte (x_tx_cnt x)); NL;
   L fp; L "Status   = 0x"; V (Byte (x_status x)); NL;
   L fp; L "Function = "; V (Word (cstr (if x_status x / 64 mod 2 =? 0 then "Actual value" else "Stored value"))); NL] ++
  counter_report "1" x (x_type1 x) (x_val1 x) ++ counter_report "2" x (x_type2 x) (x_val2 x).

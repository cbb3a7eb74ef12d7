(** Specification of parse debugging. *)
From Coq Require Import String.
From Coq Require Import List.
From Verif Require Import CBase CStr MFrame MVar MDebug SText SPrint SVar.
Local Open Scope Z_scope.

(** The report about an attempt to parse [bs]. *)
Definition parse_report (bs : list Z) : list piece :=
  [L "mbus_parse: Attempting to parse binary data [size = "; V (Dec (Z.of_nat (List.length bs))); L "]"; NL;
   L "mbus_parse: "; V (Bytes bs); NL; L "mbus_parse: done."; NL].
(** [attempts bss got]: successive attempts, each with the bytes of the one before and possibly more, the last with all
    of [got]; none while there is nothing. *)
Inductive attempts : list (list Z) -> list Z -> Prop :=
| at_none : attempts [] []
| at_more bss got more : attempts bss got -> got ++ more <> [] -> attempts (bss ++ [got ++ more]) (got ++ more).
(** Where a record stands in the payload: the offsets of DIF, VIF and data. *)
Definition place_report (n : nat) (r : rec) : list piece :=
  [L "mbus_frame_internal_pack: packing DIF ["; V (Dec (Z.of_nat n)); L "]";
   L "mbus_frame_internal_pack: packing VIF ["; V (Dec (Z.of_nat (n + 1 + r_ndife r))); L "]";
   L "mbus_frame_internal_pack: packing data ["; V (Dec (Z.of_nat (n + 2 + r_ndife r + r_nvife r))); L " : "; V (Dec (Z.of_nat (r_len r))); L "]"].
Fixpoint place_reports (n : nat) (rs : list rec) : list piece :=
  match rs with [] => [] | r :: rs' => place_report n r ++ place_reports (n + 2 + r_ndife r + r_nvife r + r_len r) rs' end.
(** The reports of a sequence of calls, switched by the calls of mbus_parse_set_debug among them. *)
Definition call_report (c : dcall) : list piece :=
  match c with
  | DSet _ => []
  | DParse _ data => match data with [] => [] | _ => parse_report data end
  | DPack _ fd => if d_type fd =? 2 then place_reports 12 (v_records (d_var fd)) else []
  end.
Fixpoint call_reports (on : bool) (cs : list dcall) : list piece :=
  match cs with
  | [] => []
  | DSet d :: cs' => call_reports (negb (d =? 0)) cs'
  | c :: cs' => (if on then call_report c else []) ++ call_reports on cs'
  end.

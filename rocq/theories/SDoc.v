(** Specification: what can be read back from an XML document. *)
From Coq Require Import String.
From Coq Require Import List.
From Verif Require Import CBase CStr MFrame MCodec MVar MText SText SCodec SVar SXml.
Local Open Scope Z_scope.

(** A document part in which no element is empty. *)
Fixpoint solid (n : node) : Prop :=
  match n with Leaf _ _ => True | Elem _ _ ns => ns <> [] /\ (fix all l := match l with [] => True | x :: l' => solid x /\ all l' end) ns end.

(** ** When two telegrams say the same *)
(** Two headers of 12 bytes that agree in the identification number, the manufacturer (15 of its 16 bits), the version,
    the name of the medium, the access number, the status and the signature. *)
Definition same_slave (h1 h2 : list Z) : Prop :=
  firstn 5 h1 = firstn 5 h2 /\ nth 5 h1 0 mod 128 = nth 5 h2 0 mod 128 /\ nth 6 h1 0 = nth 6 h2 0 /\
  mbus_data_variable_medium_lookup (nth 7 h1 0) = mbus_data_variable_medium_lookup (nth 7 h2 0) /\ skipn 8 h1 = skipn 8 h2.
(** Two records that agree in the function field, storage number, tariff and subunit, in having DIF extensions, and in
    the texts of unit and value as a reader sees them. *)
Definition same_record (a b : arec) : Prop :=
  (a_dif a / 16) mod 4 = (a_dif b / 16) mod 4 /\
  storage_number (a_dif a) (a_difes a) = storage_number (a_dif b) (a_difes b) /\
  (a_difes a = [] <-> a_difes b = []) /\ tariff (a_difes a) = tariff (a_difes b) /\ subunit (a_difes a) = subunit (a_difes b) /\
  exists u v u' v', mbus_data_record_unit (obj a) = Ok u /\ mbus_data_record_unit (obj b) = Ok u' /\ shown u = shown u' /\
    mbus_data_record_value (obj a) = Ok v /\ mbus_data_record_value (obj b) = Ok v' /\ shown v = shown v'.
(** Two entries that are both records and agree, or both manufacturer specific blocks with the same bytes. *)
Definition same_entry (e1 e2 : entry) : Prop :=
  match e1, e2 with
  | EData a, EData b => same_record a b
  | EBlock m1 b1, EBlock m2 b2 => m1 = m2 /\ b1 = b2
  | _, _ => False
  end.
(** The entries of a readout in order, each with the number of its telegram if there are several telegrams. *)
Fixpoint numbered (k : Z) (tels : list (list entry)) : list (option Z * entry) :=
  match tels with [] => [] | es :: tels' => map (pair (Some k)) es ++ numbered (k + 1) tels' end.
Definition listing (tels : list (list entry)) : list (option Z * entry) :=
  match tels with [es] => map (pair None) es | _ => numbered 0 tels end.
Definition same_listing (l1 l2 : list (option Z * entry)) : Prop :=
  Forall2 (fun x y => fst x = fst y /\ same_entry (snd x) (snd y)) l1 l2.

(** ** Values that can be read back *)
(** Records with the same field codes and unit. *)
Definition same_layout (e1 e2 : entry) : Prop :=
  match e1, e2 with
  | EData a, EData b => a_dif a = a_dif b /\ a_difes a = a_difes b /\ a_vif a = a_vif b /\ a_text a = a_text b /\ a_vifes a = a_vifes b
  | _, _ => True
  end.
(** The value is a binary integer, a non-negative decimal number not marked as an error, a text without control
    characters, or there is none. *)
Definition readable (e : entry) : Prop :=
  match e with
  | EBlock _ _ => True
  | EData a =>
      a_dif a mod 16 = 0 \/ a_dif a mod 16 = 8 \/
      int_record (a_dif a) (a_vif a) (nth 0 (a_vifes a) 0) \/
      (In (a_dif a mod 16) [9; 10; 11; 12; 14] /\ error_state (a_dif a) = false /\
       exists ds, a_value a = pack_digits ds /\ Forall (fun p => digit (fst p) /\ digit (snd p)) ds) \/
      (a_dif a mod 16 = 13 /\ exists b w, a_value a = b :: w /\ b <= 0xBF /\ Forall (fun c => 32 <= c < 256 /\ c <> 127) w)
  end.
(** Two replies with the fixed data structure that agree in everything shown: the identification number, the access
    number, the status and both counters as sent, medium and units by name. *)
Definition same_fixed (x y : dfix) : Prop :=
  x_id x = x_id y /\ x_tx_cnt x = x_tx_cnt y /\ x_status x = x_status y /\ x_val1 x = x_val1 y /\ x_val2 x = x_val2 y /\
  shown (mbus_data_fixed_medium x) = shown (mbus_data_fixed_medium y) /\
  shown (mbus_data_fixed_unit (x_type1 x)) = shown (mbus_data_fixed_unit (x_type1 y)) /\
  shown (mbus_data_fixed_unit (x_type2 x)) = shown (mbus_data_fixed_unit (x_type2 y)).

(** Specification: what can be read back from a normalised XML document. *)
From Coq Require Import String.
From Coq Require Import List.
From Coq Require Import QArith Qabs.
From Verif Require Import CBase CStr MFrame MCodec MVar MText MUnit SText SCodec SVar SXml SUnit SNorm SXmlN SDoc.
Local Open Scope Z_scope.

(** Two numbers at most a millionth apart, or the same special value. *)
Definition close (x y : real) : Prop :=
  match x, y with
  | Num p, Num q => (Qabs (p - q) <= 1 # 1000000)%Q /\ ((p < 0)%Q <-> (q < 0)%Q)
  | NonFinite s n, NonFinite s' n' => s = s' /\ n = n'
  | _, _ => False
  end.
(** Two records that agree in function, storage number, tariff and subunit, in having DIF extensions, in the names of
    unit and quantity, and whose values in the base unit are the same text or agree to a millionth. *)
Definition same_normalised (e1 e2 : entry) : Prop :=
  match e1, e2 with
  | EData a, EData b =>
      (a_dif a / 16) mod 4 = (a_dif b / 16) mod 4 /\
      storage_number (a_dif a) (a_difes a) = storage_number (a_dif b) (a_difes b) /\
      (a_difes a = [] <-> a_difes b = []) /\ tariff (a_difes a) = tariff (a_difes b) /\ subunit (a_difes a) = subunit (a_difes b) /\
      exists m m' c c', unit_of a = Some m /\ unit_of b = Some m' /\ shown (m_unit m) = shown (m_unit m') /\
        shown (m_quantity m) = shown (m_quantity m') /\ means a c /\ means b c' /\
        match c, c' with
        | Number x, Number x' => exists y y', in_base_unit a m x y /\ in_base_unit b m' x' y' /\ close y y'
        | Text s, Text s' => shown s = shown s'
        | Number x, Text s => exists y, in_base_unit a m x y /\ shows_number y (shown s)
        | Text s, Number x => exists y, in_base_unit b m' x y /\ shows_number y (shown s)
        end
  | EBlock m1 b1, EBlock m2 b2 => m1 = m2 /\ b1 = b2
  | _, _ => False
  end.

(** Specification vocabulary for the memory of normalised records. *)
From Coq Require Import List.
From Verif Require Import CBase MFrame MVar SVar MUnit SXml SXmlN MMem SMem MMemN.
Local Open Scope Z_scope.

(** The addresses of the texts a record owns. *)
Definition taddr (t : ptext) : list nat := match t with Some (a, _) => [a] | None => [] end.
Definition vaddr (v : pvalue) : list nat := match v with PVStr t _ => taddr t | PVNum _ => [] end.
(** The texts of a record. *)
Definition texts (n : prec) : list nat := vaddr (q_value n) ++ taddr (q_unit n) ++ taddr (q_function n) ++ taddr (q_quantity n).
(** The record in memory: the same members, but unit and quantity may be missing. *)
Definition thin (n n0 : nrec) : Prop :=
  n_value n = n_value n0 /\ n_function n = n_function n0 /\ n_device n = n_device n0 /\ n_tariff n = n_tariff n0 /\ n_storage n = n_storage n0 /\
  (n_unit n = n_unit n0 \/ n_unit n = None) /\ (n_quantity n = n_quantity n0 \/ n_quantity n = None).
(** What stands in the document for a record of the telegram: nothing, or the normalised record, perhaps without unit or quantity. *)
Definition thin_entry (e : entry) (ns : list node) : Prop :=
  ns = [] \/ exists n0 n lost, mbus_parse_variable_record (match e with EData a => obj a | EBlock more b => obj_block (tail_dif more) b end) = Ok (Some n0, lost) /\ thin n n0 /\ norm_nodes n ns.

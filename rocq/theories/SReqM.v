(** Specification vocabulary for readouts with their memory. *)
From Coq Require Import List.
From Verif Require Import CBase MFrame MVar MXml MMem SMem.
Local Open Scope Z_scope.

(** The objects at these addresses are new; nothing else has changed except what is at [reply]. *)
Definition grown (reply : nat) (l : list nat) (m m' : mem) : Prop :=
  NoDup l /\ ~ In reply l /\ (forall a, In a l -> look m a = None /\ look m' a <> None) /\ (forall a, ~ In a l -> a <> reply -> look m' a = look m a).
(** All records in lists that were not released. *)
Definition unreleased (hp : heap) : list rec := flat_map (fun e => match e with Some rs => rs | None => [] end) hp.

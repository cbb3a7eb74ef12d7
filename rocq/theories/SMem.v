(** Specification vocabulary for memory: lists of objects and comparison of memories. *)
From Coq Require Import List.
From Verif Require Import CBase MFrame MVar MMem.
Local Open Scope Z_scope.

(** A list of data records starts at [p]: these records at these addresses, in this order. *)
Inductive chain (m : mem) : option nat -> list (nat * rec) -> Prop :=
| chain_nil : chain m None []
| chain_cons a r next l : look m a = Some (CRec r next) -> chain m next l -> chain m (Some a) ((a, r) :: l).
(** A chain of frames starts at [p]. *)
Inductive fchain (m : mem) : option nat -> list (nat * frame) -> Prop :=
| fchain_nil : fchain m None []
| fchain_cons a f next l : look m a = Some (CFrame f next) -> fchain m next l -> fchain m (Some a) ((a, f) :: l).

(** The same objects are allocated, with the same contents. *)
Definition same_memory (m m' : mem) : Prop := forall a, look m' a = look m a.
(** The same, but exactly the objects at these addresses have been released. *)
Definition released (as_ : list nat) (m m' : mem) : Prop :=
  (forall a, In a as_ -> look m a <> None /\ look m' a = None) /\ (forall a, ~ In a as_ -> look m' a = look m a).
(** The same, and exactly the objects at these addresses are new. *)
Definition added (as_ : list nat) (m m' : mem) : Prop :=
  NoDup as_ /\ (forall a, In a as_ -> look m a = None /\ look m' a <> None) /\ (forall a, ~ In a as_ -> look m' a = look m a).
(** No allocation fails. *)
Definition plenty (m : mem) : Prop := ~ In true (m_fails m).
(** From [m] to [m'] these allocations were made (true: it failed), and perhaps more that succeeded after the end of the list. *)
Definition attempts (used : list bool) (m m' : mem) : Prop := m_fails m = used ++ m_fails m'.

(** [l'] is the beginning of [l]. *)
Definition starts {A} (l' l : list A) : Prop := exists rest, l = l' ++ rest.

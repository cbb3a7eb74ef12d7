(** Specification vocabulary for receive schedules. *)
From Verif Require Import CBase MFrame SWire MRecv.

(** [arrives k evs w rest]: the reads described by [evs] first deliver the bytes [w], cut into
    pieces in any way, with at most [k] empty reads before [w] is complete, no read error, and
    what remains afterwards is [rest]. A piece may contain bytes beyond [w]; these remain. *)
Inductive arrives : nat -> list ev -> list Z -> list ev -> Prop :=
| arr_done k rest : arrives k rest [] rest
| arr_piece k l evs w rest : l <> [] -> arrives k evs w rest -> arrives k (Data l :: evs) (l ++ w) rest
| arr_cut k w l evs : w <> [] -> l <> [] -> arrives k (Data (w ++ l) :: evs) w (Data l :: evs)
| arr_empty k evs w rest : w <> [] -> arrives k evs w rest -> arrives (S k) (Zero :: evs) w rest.

(** The same for TCP: any number of interrupted reads. *)
Inductive arrives_tcp : list ev -> list Z -> list ev -> Prop :=
| tarr_done rest : arrives_tcp rest [] rest
| tarr_piece l evs w rest : l <> [] -> arrives_tcp evs w rest -> arrives_tcp (Data l :: evs) (l ++ w) rest
| tarr_cut w l evs : w <> [] -> l <> [] -> arrives_tcp (Data (w ++ l) :: evs) w (Data l :: evs)
| tarr_intr evs w rest : w <> [] -> arrives_tcp evs w rest -> arrives_tcp (EIntr :: evs) w rest.

(** All bytes that will ever arrive. *)
Fixpoint stream (evs : list ev) : list Z :=
  match evs with
  | [] => []
  | Data l :: es => l ++ stream es
  | _ :: es => stream es
  end.

(** Number of empty reads in a schedule. *)
Fixpoint empties (evs : list ev) : nat :=
  match evs with
  | [] => 0
  | Data [] :: es | Zero :: es => S (empties es)
  | _ :: es => empties es
  end.

(** A schedule over bytes. *)
Fixpoint ev_bytes (evs : list ev) : Prop :=
  match evs with
  | [] => True
  | Data l :: es => bytes l /\ ev_bytes es
  | _ :: es => ev_bytes es
  end.

(** Only data arrives: no timeout, no error, no empty read. *)
Definition all_data (evs : list ev) : Prop := Forall (fun e => exists l, e = Data l /\ l <> []) evs.

(** Calling a receive function again and again, each time with an arbitrary frame object, delivers
    the telegrams [ts] in this order and leaves [rest] unread. *)
Inductive delivers (recv : frame -> list ev -> recv_res) (obj : frame -> Prop)
  : list ev -> list telegram -> (frame -> telegram -> Prop) -> list ev -> Prop :=
| del_nil evs den : delivers recv obj evs [] den evs
| del_cons evs t ts den evs1 rest :
    (forall f, obj f -> exists f', recv f evs = Ok (Some (RECV_OK, f', evs1, wire t)) /\ den f' t) ->
    delivers recv obj evs1 ts den rest -> delivers recv obj evs (t :: ts) den rest.

(** Specification vocabulary for scans with callbacks. *)
From Coq Require Import List.
From Verif Require Import CBase CStr MFrame MVar MRecv MSecond MProto SWire SFrame SSecond SBus MScan.
Local Open Scope Z_scope.

(** One probe of a scan: mask, result, traffic on the line; for a slave found its address and the frame it answered with. *)
Record visit := mkVisit { t_mask : list Z; t_result : Z; t_traffic : list action; t_addr : list Z; t_frame : option frame }.
(** The calls and the output belonging to a probe. *)
Definition calls_of (c : watcher) (v : visit) : list call :=
  (if scan_progress c then [OnProgress (t_mask v)] else []) ++
  (if t_result v =? PROBE_SINGLE then
     if found_event c then match t_frame v with Some f => [OnFound f] | None => [] end else [Printed (t_addr v) (t_mask v)]
   else []).
(** The frame and the address of a slave found: its data telegram was received during the probe. *)
Definition answered (v : visit) : Prop :=
  exists f c a p, t_frame v = Some f /\ denotes f (Long c a 0x72 p) /\ valid (Long c a 0x72 p) /\ In (Received RECV_OK (wire (Long c a 0x72 p))) (t_traffic v) /\
    address_text (firstn 8 p) (t_addr v).
(** These probes were made one after the other, leading from one state of the line to another. *)
Inductive visits {B} (wret : B -> Z -> Z) (react : B -> list Z -> B * list ev) (h : handle) : world B -> list visit -> world B -> Prop :=
| visits_nil w : visits wret react h w [] w
| visits_cons w v buf w1 vs w2 :
    mbus_probe_secondary_address B wret react (Some h) (t_mask v) (repeat 0 17) w = Done (t_result v, buf, w1) ->
    w_log w1 = w_log w ++ t_traffic v -> reports (t_traffic v) = [] -> (t_result v = PROBE_SINGLE -> answered v) ->
    visits wret react h (if t_result v =? PROBE_SINGLE then log w1 (Found (t_addr v)) else w1) vs w2 ->
    visits wret react h w (v :: vs) w2.

(** [m'] is [m] with its first wildcard from position [pos] on replaced by a digit, or [m] itself if it has none there. *)
Definition child (pos : nat) (m m' : list Z) : Prop :=
  (exists q d, (pos <= q < 16)%nat /\ wildcard (nth q m 0) /\ (forall i, (pos <= i < q)%nat -> ~ wildcard (nth i m 0)) /\ 48 <= d <= 57 /\ m' = upd m q d) \/
  ((forall i, (pos <= i < 16)%nat -> ~ wildcard (nth i m 0)) /\ m' = m).
Definition failed (v : visit) : bool := t_result v =? PROBE_ERROR.

(** The masks agree before the position, and further on where there is no wildcard; wildcards are kept or replaced by digits. *)
Definition finer (p : nat) (m m' : list Z) : Prop :=
  length m' = length m /\ forall i, nth i m' 0 = nth i m 0 \/ (p <= i)%nat /\ wildcard (nth i m 0) /\ 48 <= nth i m' 0 <= 57.
(** Every probe but the first ones narrows a mask that gave a collision before. *)
Definition ordered (pos : nat) (m : list Z) (vs : list visit) : Prop :=
  forall pre v post, vs = pre ++ v :: post -> child pos m (t_mask v) \/ exists u, In u pre /\ t_result u = PROBE_COLLISION /\ child pos (t_mask u) (t_mask v).
(** The mask has been probed; for every collision, everything that narrows the mask has been probed. *)
Definition probed (vs : list visit) (m : list Z) : Prop := exists v, In v vs /\ t_mask v = m.
Definition narrowed (pos : nat) (all vs : list visit) : Prop := forall u, In u vs -> t_result u = PROBE_COLLISION -> forall m', child pos (t_mask u) m' -> probed all m'.

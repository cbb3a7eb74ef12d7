(** Property theorems C76 (monitoring functions). Vocabulary: SMon.v, SRecv.v, SFrame.v, SWire.v. *)
From Verif Require Import CBase MFrame SWire SFrame MRecv SRecv PRecv PropRecv MProto MMon SMon PMon.

(** C76, sending: the telegram is reported if and only if write() took all of it, at once, with the bytes written and the
    type of the handle; nothing else is reported. *)
Theorem C76_send :
  forall serial m wret f t, frame_obj f -> delimiters f -> denotes f t -> valid t ->
  let l := wire t in let n := Z.of_nat (length l) in
  exists f', send_mon serial m true wret f =
    Ok (if wret n =? n then 0 else -1, f',
        Write l (wret n) :: (if (wret n =? n) && send_event m then [OnSend serial l] else [])).
Proof.
  intros serial m wret f t Ho Hd Hden Hv l n. subst l n.
  pose proof (wire_len_max t Hv) as Hm. unfold send_mon. rewrite andb_false_r.
  rewrite (PFrame2.pack_wire f t) by (auto; rewrite ?repeat_length; unfold PACKET_BUFF_SIZE; lia).
  cbn [bind]. destruct (Z.eqb_spec (Z.of_nat (length (wire t))) (-1)); [lia|].
  destruct (Z.ltb_spec (Z.of_nat (length (wire t))) 0); [lia|].
  rewrite Nat2Z.id, PBase.firstn_app_exact by reflexivity.
  destruct (wret _ =? _); eexists; reflexivity.
Qed.
Print Assumptions C76_send.

(** C76, receiving: a call on a connected handle only reads, and then, exactly if it ends with a telegram or with invalid
    data, reports once all bytes it has read, which are not none; they are the bytes that were next on the line. *)
Theorem C76_receive :
  forall (serial : bool) (m : monitor) f evs, frame_obj f -> ev_bytes evs ->
  exists c f' evs' reads,
    (if serial then mbus_serial_recv_frame f evs else mbus_tcp_recv_frame f evs) = Ok (Some (c, f', evs', taken reads)) /\
    recv_mon serial m true f evs =
      Ok (Some (c, f', evs', reads ++ if recv_event m && ((c =? RECV_OK) || (c =? RECV_INVALID)) then [OnRecv serial (taken reads)] else [])) /\
    Forall is_read reads /\ taken reads ++ stream evs' = stream evs /\
    (c = RECV_OK \/ c = RECV_INVALID -> taken reads <> []) /\
    (c = RECV_OK <-> exists t, valid t /\ taken reads = wire t /\ denotes f' t).
Proof.
  intros serial m f evs Ho Hb.
  destruct (recv_gen serial true f evs Ho Hb) as (c & f' & e' & rs & H1 & R1 & O1 & B1 & S1 & L1 & D1 & N1 & M1 & _).
  exists c, f', e', rs. rewrite andb_false_r in *.
  assert (E : (if serial then mbus_serial_recv_frame f evs else mbus_tcp_recv_frame f evs) = Ok (Some (c, f', e', taken rs))).
  { specialize (M1 eq_refl (mkH 3 1 0 serial) eq_refl). unfold handle_recv in M1. cbn [is_serial] in M1.
    clear - M1. destruct serial; [destruct (mbus_serial_recv_frame f evs) as [[x|]|]|destruct (mbus_tcp_recv_frame f evs) as [[x|]|]]; cbn [lift obind] in M1; try discriminate; injection M1 as ->; reflexivity. }
  split; [exact E|]. split; [rewrite H1; unfold cb, report; destruct (recv_event m), ((c =? RECV_OK) || (c =? RECV_INVALID)); reflexivity|].
  do 2 (split; [assumption|]). split; [apply N1|].
  destruct serial.
  - destruct (C11_serial_outcomes f evs Ho Hb) as (c2 & f2 & e2 & g2 & E2 & _ & _ & _ & _ & _ & _ & K & _).
    assert (c2 = c /\ f2 = f' /\ g2 = taken rs) as (-> & -> & ->) by (repeat split; congruence). exact K.
  - destruct (C13_tcp_outcomes f evs Ho Hb) as (c2 & f2 & e2 & g2 & E2 & _ & _ & _ & _ & _ & K & _).
    assert (c2 = c /\ f2 = f' /\ g2 = taken rs) as (-> & -> & ->) by (repeat split; congruence). exact K.
Qed.
Print Assumptions C76_receive.

(** C76, closed serial line: neither function touches the line or reports anything. *)
Theorem C76_closed :
  forall m wret f evs,
  send_mon true m false wret f = Ok (-1, f, []) /\ recv_mon true m false f evs = Ok (Some (RECV_ERROR, f, evs, [])).
Proof. split; reflexivity. Qed.
Print Assumptions C76_closed.

(** C76, histories: whatever is sent, received and purged in whatever order, with whatever arriving in between, on an open
    or closed handle: what happens is a sequence of steps, each with its report (SMon.step); the send reports are exactly the complete
    writes, in order; no byte is read twice or skipped; no report is empty. *)
Theorem C76_history :
  forall serial m tty purge cs evs, Forall proper cs -> ev_bytes evs ->
  exists rs evs' steps,
    history serial m tty purge cs evs = Done (rs, evs', concat steps) /\
    Forall (step serial m) steps /\
    told (concat steps) = (if send_event m then complete (concat steps) else []) /\
    (recv_event m = false -> heard (concat steps) = []) /\
    Forall (fun l => l <> []) (heard (concat steps)) /\
    taken (concat steps) ++ stream evs' = stream (evs ++ arriving cs).
Proof.
  intros serial m tty purge cs evs Hp Hb. destruct (history_gen serial tty purge cs evs Hp Hb) as (rs & e' & gs & H & K & S & _).
  exists rs, e', (map (show serial m) gs). split; [apply H|].
  split. { rewrite Forall_forall in *. intros x Hx. apply in_map_iff in Hx. destruct Hx as (g & <- & Hg). apply show_step. auto. }
  split; [apply told_shown; assumption|].
  split. { intros Hm. fold (shown serial m gs). clear - K Hm. induction K as [|g gs Hg _ IH]; [reflexivity|].
    change (g :: gs) with ([g] ++ gs). rewrite shown_app, heard_app, IH, shown_one, heard_show by assumption.
    destruct g as [|l r|rs [|]]; rewrite ?Hm; reflexivity. }
  split; [apply heard_nonempty; assumption|]. apply S.
Qed.
Print Assumptions C76_history.

(** C76, on a serial line whose reads do not fail: everything taken from the line is reported, in order, nothing else is. *)
Theorem C76_serial_complete :
  forall m purge cs evs, Forall proper cs -> ev_bytes evs -> no_errors (evs ++ arriving cs) -> recv_event m = true ->
  exists rs evs' tr, history true m true purge cs evs = Done (rs, evs', tr) /\ concat (heard tr) = taken tr.
Proof.
  intros m purge cs evs Hp Hb N Hm. destruct (history_gen true true purge cs evs Hp Hb) as (rs & e' & gs & H & K & S & A).
  exists rs, e', (shown true m gs). split; [apply H|]. apply heard_shown; [assumption|assumption|]. apply A; [split; reflexivity|assumption].
Qed.
Print Assumptions C76_serial_complete.

(** C76: listening changes nothing: results, unread data and system calls are the same without any registered function. *)
Theorem C76_unobtrusive :
  forall serial m tty purge cs evs, Forall proper cs -> ev_bytes evs ->
  exists rs evs' tr, history serial m tty purge cs evs = Done (rs, evs', tr) /\
    history serial (mkMon false false) tty purge cs evs = Done (rs, evs', filter (fun a => negb (is_callback a)) tr).
Proof.
  intros serial m tty purge cs evs Hp Hb. destruct (history_gen serial tty purge cs evs Hp Hb) as (rs & e' & gs & H & K & S & A).
  exists rs, e', (shown serial m gs). split; [apply H|]. rewrite quiet_shown by assumption. apply H.
Qed.
Print Assumptions C76_unobtrusive.

(** C76: which functions are told: over any sequence of registrations (true: send function; the flag: a function, not
    NULL), the last registration of each kind counts; the two do not disturb each other. *)
Definition last_given (kind : bool) (rs : list (bool * bool)) : bool := last (map snd (filter (fun r : bool * bool => Bool.eqb (fst r) kind) rs)) false.
Definition register_all (rs : list (bool * bool)) : monitor :=
  fold_left (fun m (r : bool * bool) => if fst r then mbus_register_send_event m (snd r) else mbus_register_recv_event m (snd r)) rs (mkMon false false).
Theorem C76_registration :
  forall rs, send_event (register_all rs) = last_given true rs /\ recv_event (register_all rs) = last_given false rs.
Proof.
  intros rs. induction rs as [|[k b] rs [IH1 IH2]] using rev_ind; [split; reflexivity|].
  unfold register_all in *. rewrite fold_left_app. cbn [fold_left fst snd]. unfold last_given in *. rewrite !filter_app, !map_app.
  destruct k; cbn [filter fst snd Bool.eqb map]; rewrite ?app_nil_r, ?last_last; unfold mbus_register_send_event, mbus_register_recv_event; cbn [send_event recv_event]; auto.
Qed.
Print Assumptions C76_registration.

(** C76, finding: over TCP the bytes of a telegram whose rest does not come in time are taken from the line and never
    reported; the same on a serial line when a read fails in the middle of a telegram. *)
Theorem C76_all_reported_refuted :
  exists m f evs, frame_obj f /\ ev_bytes evs /\ recv_event m = true /\
    (exists f', recv_mon false m true f evs = Ok (Some (RECV_TIMEOUT, f', [], [Read 1 (RBytes [0x68]); Read 2 (RBytes [3; 3]); Read 6 (RErr EAgain)]))) /\
    (exists f', recv_mon true m true f (evs ++ [EIntr]) = Ok (Some (RECV_ERROR, f', [], [Read 1 (RBytes [0x68]); Read 2 (RBytes [3; 3]); Read 6 (RErr EIntr)]))).
Proof.
  exists (mkMon true true), frame_zero, [Data [0x68; 3; 3]]. split; [reflexivity|]. split; [cbn; repeat constructor; discriminate|]. split; [reflexivity|].
  split; eexists; vm_compute; reflexivity.
Qed.
Print Assumptions C76_all_reported_refuted.

(** A case: a request is sent, its echo and an acknowledgement come back in pieces, then garbage; both functions are
    registered; the request is cut short the second time. *)
Example C76_nonvacuous :
  let req := mkF 0x10 0 0 0 0x5B 7 0 0 0x16 (repeat 0 252) 0 2 0 in
  let cs := [ASend req (fun n => n) [Data [0x10; 0x5B]; Data [7; 0x62; 0x16; 0xE5]]; ARecv frame_zero;
             ASend req (fun _ => 2) [Data [0x33; 0x44]]; APurge] in
  Forall proper cs /\ no_errors ([] ++ arriving cs) /\
  exists tr, history true (mkMon true true) true PURGE_M2S cs [] = Done ([0; 0; -1; 1], [], tr) /\
    told tr = [[0x10; 0x5B; 7; 0x62; 0x16]] /\ heard tr = [[0x10; 0x5B; 7; 0x62; 0x16]; [0xE5]; [0x33]; [0x44]] /\
    complete tr = [[0x10; 0x5B; 7; 0x62; 0x16]].
Proof.
  cbv zeta. split.
  - repeat (apply Forall_cons || apply Forall_nil); cbn [proper]; try exact I; try reflexivity;
      (split; [reflexivity|split; [intros _; cbn; lia|split; [cbn; tauto|cbn; repeat constructor; discriminate]]]).
  - split; [repeat constructor|]. eexists. split; [vm_compute; reflexivity|]. split; [reflexivity|]. split; reflexivity.
Qed.

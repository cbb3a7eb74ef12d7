(** Property theorems C10-C13, C37, C56 (transport layer).
    Vocabulary: SWire.v (telegrams), SFrame.v (frame objects), SRecv.v (read schedules). *)
From Verif Require Import CBase MFrame SWire SFrame MRecv SRecv PFrame2 PRecv.

(** C10: a telegram cut into reads in any way, with at most two empty reads after its first piece,
    is delivered; exactly its bytes are consumed, the rest of the schedule stays. *)
Theorem C10_serial_reassembly :
  forall f evs t rest l es,
  frame_obj f -> valid t -> arrives 2 evs (wire t) rest -> evs = Data l :: es ->
  exists f', mbus_serial_recv_frame f evs = Ok (Some (RECV_OK, f', rest, wire t)) /\
             denotes f' t /\ frame_obj f'.
Proof. exact serial_recv_telegram. Qed.
Print Assumptions C10_serial_reassembly.

Example C10_nonvacuous :
  arrives 2 [Data [0x10]; Zero; Data [0x5B; 7]; Zero; Data [0x62; 0x16; 0xE5]; EOther]
    (wire (Short 0x5B 7)) [Data [0xE5]; EOther] /\ valid (Short 0x5B 7).
Proof.
  split.
  - change (wire (Short 0x5B 7)) with ([0x10] ++ [0x5B; 7] ++ [0x62; 0x16]).
    apply arr_piece; [discriminate|]. apply arr_empty; [discriminate|].
    apply arr_piece; [discriminate|]. apply arr_empty; [discriminate|].
    change [0x62; 0x16; 0xE5] with ([0x62; 0x16] ++ [0xE5]). apply arr_cut; discriminate.
  - unfold valid, short_code, byte_range. cbn. intuition lia.
Qed.

(** C11: every schedule. The call returns (within the model's fuel, i.e. terminates), never leaves the 2048-byte buffer (no
    UB), consumes bytes strictly in order, consumes at most three empty reads, and its code says what
    happened. *)
Theorem C11_serial_outcomes :
  forall f evs, frame_obj f -> ev_bytes evs ->
  exists code f' evs' got,
    mbus_serial_recv_frame f evs = Ok (Some (code, f', evs', got)) /\ frame_obj f' /\
    got ++ stream evs' = stream evs /\ (length got <= 261)%nat /\
    (evs <> [] -> (ev_size evs' < ev_size evs)%nat) /\
    (empties evs <= empties evs' + 3)%nat /\
    In code [RECV_OK; RECV_ERROR; RECV_INVALID; RECV_TIMEOUT] /\
    (code = RECV_OK <-> exists t, valid t /\ got = wire t /\ denotes f' t) /\
    (code = RECV_TIMEOUT -> got = []) /\
    (code = RECV_INVALID -> got <> [] /\ ~ well_formed got) /\
    (code = RECV_ERROR -> exists pre e, evs = pre ++ e :: evs' /\ In e [EIntr; EAgain; EOther]).
Proof.
  intros f evs Ho Hb.
  destruct (serial_classify (ev_size evs + 4) f evs [] 1 0 Ho) as
    (code & f' & evs' & got & H1 & H2 & H3 & H4 & H5 & H6 & H7 & H8 & H9 & H10 & H11 & H12 & H13);
    auto; try lia; [constructor|left; auto|].
  exists code, f', evs', got. replace (empties evs' + 3)%nat with (empties evs' + 3 - Z.to_nat 0)%nat by lia.
  repeat (split; [first [assumption | reflexivity | exact H1]|]). assumption.
Qed.
Print Assumptions C11_serial_outcomes.

Example C11_nonvacuous :
  (exists f, mbus_serial_recv_frame frame_zero [Data [0x68; 3]; Zero; Zero; Zero; Data [3]]
             = Ok (Some (RECV_INVALID, f, [Data [3]], [0x68; 3]))) /\
  (exists f, mbus_serial_recv_frame frame_zero [] = Ok (Some (RECV_TIMEOUT, f, [], []))).
Proof. split; eexists; vm_compute; reflexivity. Qed.

(** C12: TCP, any segmentation, any number of interruptions. *)
Theorem C12_tcp_reassembly :
  forall f evs t rest, frame_obj f -> valid t -> arrives_tcp evs (wire t) rest ->
  exists f', mbus_tcp_recv_frame f evs = Ok (Some (RECV_OK, f', rest, wire t)) /\
             denotes f' t /\ frame_obj f'.
Proof. exact tcp_recv_telegram. Qed.
Print Assumptions C12_tcp_reassembly.

Example C12_nonvacuous :
  arrives_tcp [EIntr; Data [0xE5; 1; 2]; Zero] (wire Ack) [Data [1; 2]; Zero].
Proof.
  apply tarr_intr; [discriminate|]. change [0xE5; 1; 2] with ([0xE5] ++ [1; 2]).
  apply tarr_cut; discriminate.
Qed.

(** C13: TCP, every schedule. *)
Theorem C13_tcp_outcomes :
  forall f evs, frame_obj f -> ev_bytes evs ->
  exists code f' evs' got,
    mbus_tcp_recv_frame f evs = Ok (Some (code, f', evs', got)) /\ frame_obj f' /\
    got ++ stream evs' = stream evs /\ (length got <= 261)%nat /\
    (evs <> [] -> (ev_size evs' < ev_size evs)%nat) /\
    In code [RECV_OK; RECV_ERROR; RECV_INVALID; RECV_TIMEOUT; RECV_RESET] /\
    (code = RECV_OK <-> exists t, valid t /\ got = wire t /\ denotes f' t) /\
    (code = RECV_INVALID -> got <> [] /\ ~ well_formed got) /\
    (code = RECV_TIMEOUT -> evs' = [] \/ exists pre, evs = pre ++ EAgain :: evs') /\
    (code = RECV_RESET -> exists pre, evs = pre ++ Zero :: evs' \/ evs = pre ++ Data [] :: evs') /\
    (code = RECV_ERROR -> exists pre, evs = pre ++ EOther :: evs').
Proof.
  intros f evs Ho Hb.
  destruct (tcp_classify (ev_size evs + 4) f evs [] 1 Ho) as
    (code & f' & evs' & got & H1 & H2 & H3 & H4 & H5 & H6 & H7 & H8 & H9 & H10 & H11 & H12);
    auto; try lia; [constructor|left; auto|].
  exists code, f', evs', got.
  repeat (split; [first [assumption | reflexivity | exact H1]|]). assumption.
Qed.
Print Assumptions C13_tcp_outcomes.

Example C13_nonvacuous :
  (exists f, mbus_tcp_recv_frame frame_zero [Data [0x10]; Zero] = Ok (Some (RECV_RESET, f, [], [0x10]))) /\
  (exists f, mbus_tcp_recv_frame frame_zero [Data [0x10]; EAgain; Data [1]]
             = Ok (Some (RECV_TIMEOUT, f, [Data [1]], [0x10]))).
Proof. split; eexists; vm_compute; reflexivity. Qed.

(** C56: a stream of telegrams sent back to back, however it is cut into reads, is delivered by
    successive receive calls telegram by telegram, in order; whatever follows stays unread. *)
Theorem C56_serial_stream :
  forall ts evs r, Forall valid ts -> all_data evs -> stream evs = concat (map wire ts) ++ r ->
  exists rest, delivers mbus_serial_recv_frame frame_obj evs ts denotes rest /\ stream rest = r /\ all_data rest.
Proof. exact serial_stream. Qed.
Print Assumptions C56_serial_stream.

Theorem C56_tcp_stream :
  forall ts evs r, Forall valid ts -> all_data evs -> stream evs = concat (map wire ts) ++ r ->
  exists rest, delivers mbus_tcp_recv_frame frame_obj evs ts denotes rest /\ stream rest = r /\ all_data rest.
Proof. exact tcp_stream. Qed.
Print Assumptions C56_tcp_stream.

Example C56_nonvacuous :
  let evs := [Data [0xE5; 0x10]; Data [0x5B; 7; 0x62; 0x16; 9]] in
  all_data evs /\ stream evs = concat (map wire [Ack; Short 0x5B 7]) ++ [9] /\ Forall valid [Ack; Short 0x5B 7].
Proof.
  cbv zeta. split; [|split; [reflexivity|]].
  - repeat constructor; eexists; (split; [reflexivity|discriminate]).
  - repeat constructor; unfold short_code, byte_range; cbn; intuition lia.
Qed.

(** C37, the part that holds: a frame of a known type carrying a valid telegram is written exactly
    as its wire image; success is reported exactly if write() accepted all of it. *)
Theorem C37_send_exact_partial :
  forall wret f t, frame_obj f -> delimiters f -> denotes f t -> valid t ->
  exists r f', transport_send_frame wret f = Ok (r, f', Some (wire t)) /\
    (r = 0 <-> wret (Z.of_nat (length (wire t))) = Z.of_nat (length (wire t))) /\ (r = 0 \/ r = -1).
Proof.
  intros wret f t Ho Hd Hden Hv. destruct (send_ok wret f t Ho Hd Hden Hv) as (f' & H & _).
  rewrite H. destruct (Z.eqb_spec (wret (Z.of_nat (length (wire t)))) (Z.of_nat (length (wire t)))).
  - exists 0, f'. split; [reflexivity|]. tauto.
  - exists (-1), f'. split; [reflexivity|]. split; [|auto]. split; [discriminate|contradiction].
Qed.
Print Assumptions C37_send_exact_partial.

(** C37, the part that fails (finding): only the packing error -1 is tested, but an unknown frame
    type makes packing return -3, and the send functions then call write() with a huge count:
    every frame of unknown type, e.g. what mbus_frame_new(MBUS_FRAME_TYPE_ANY) returns, is
    undefined behaviour instead of a clean failure. *)
Theorem C37_send_unpackable_refuted :
  (forall wret f, frame_obj f -> (ftype f = 4 -> 0 <= data_size f <= 252) ->
     ~ In (ftype f) [1; 2; 3; 4] -> transport_send_frame wret f = UB) /\
  (forall wret, transport_send_frame wret (mbus_frame_new 0) = UB).
Proof.
  split; [exact send_bad|].
  intros wret. apply send_bad; [reflexivity|cbn; lia|]. cbn. intuition lia.
Qed.
Print Assumptions C37_send_unpackable_refuted.

Example C37_nonvacuous :
  exists f', transport_send_frame (fun n => n) (set_control (set_address (mbus_frame_new 2) 1) 0x40)
    = Ok (0, f', Some [0x10; 0x40; 1; 0x41; 0x16]).
Proof. eexists. vm_compute. reflexivity. Qed.

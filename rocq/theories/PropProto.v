(** Properties C36, C38-C41: request telegrams, options, echo cancellation, purging. *)
From Coq Require Import String.
From Coq Require Import List.
From Verif Require Import CBase PBase CStr MFrame SWire SFrame PFrame PFrame2 MRecv SRecv PRecv MSecond SSecond PSecond MProto SProto PProto PProto2 PropFrame PropRecv.

Section AnyLine.
  Variable B : Type.
  Variable wret : B -> Z -> Z.
  Variable react : B -> list Z -> B * list ev.

  Lemma select_emits h s (w : world B) : hex16 s -> Forall mask_digit (firstn 8 s) ->
    exists a, address_text a s /\ bytes a /\ emits wret react (mbus_send_select_frame B wret react (Some h) s w) w (Long 0x73 0xFD 0x52 a).
  Proof.
    intros Hx Hm. destruct (select_pack (mbus_frame_new T_LONG) s (new_obj _) Hx Hm) as (f & a & E & A & Hb & Ho & D & S1 & S2 & S3 & S4).
    exists a. split; [assumption|]. split; [assumption|]. unfold mbus_send_select_frame. rewrite E. cbn [lift obind]. change (0 =? -1) with false. cbv iota.
    assert (V : valid (Long 0x73 0xFD 0x52 a)).
    { assert (La : length a = 8%nat) by (destruct A as (? & ? & ? & ? & ? & ? & ? & ? & -> & _); reflexivity).
      cbn. unfold byte_range. split; [cbn; tauto|]. split; [lia|]. split; [lia|]. split; [|lia]. apply byte_range_bytes. assumption. }
    destruct (send_spec B wret react h f (Long 0x73 0xFD 0x52 a) w Ho) as (r & Es & H1 & H2).
    { unfold delimiters. rewrite S1, S2, S3, S4. cbn. intuition discriminate. } { apply D. reflexivity. } { assumption. }
    rewrite Es. cbn [obind]. split; [assumption|]. exists r. destruct H2 as [->| ->]; auto.
  Qed.
  Lemma set_address_emits h old new (w : world B) : 0 <= old <= 255 -> 0 <= new <= 252 ->
    emits wret react (mbus_set_primary_address B wret react (Some h) old new w) w (Long 0x53 old 0x51 [0x01; 0x7A; new]).
  Proof.
    intros Ho Hn. unfold mbus_set_primary_address. rewrite (proj2 (primary_spec new)) by lia. cbn [negb].
    destruct (Z.eqb_spec new 0xFD); [lia|]. destruct (Z.eqb_spec new 0xFE); [lia|]. destruct (Z.eqb_spec new 0xFF); [lia|]. cbn [orb].
    replace (u8 new) with new by (unfold u8; rewrite Z.mod_small; lia).
    assert (Hb : bytes [0x01; 0x7A; new]) by (unfold bytes, is_byte; repeat constructor; lia).
    exact (user_data_emits B wret react h old [0x01; 0x7A; new] w Ho Hb ltac:(cbn; lia) []).
  Qed.
End AnyLine.

(** C36: every request function puts exactly the telegram of the standard on the line, for all legal arguments, any
    state of the line and any behaviour of the other end. *)
Theorem C36_request :
  forall B wret react h a (w : world B), 0 <= a <= 255 ->
  emits wret react (mbus_send_request_frame B wret react (Some h) a w) w (Short 0x5B a).
Proof. intros. apply request_emits. assumption. Qed.
Theorem C36_ping :
  forall B wret react h a (w : world B), 0 <= a <= 255 ->
  emits wret react (mbus_send_ping_frame B wret react (Some h) a false w) w (Short 0x40 a).
Proof. intros. apply ping_emits. assumption. Qed.
Theorem C36_baudrate :
  forall B wret react h a baud ci (w : world B), 0 <= a <= 255 -> In (baud, ci) baud_codes ->
  emits wret react (mbus_send_switch_baudrate_frame B wret react (Some h) a baud w) w (Control 0x53 a ci).
Proof. intros. apply baud_emits; assumption. Qed.
Theorem C36_application_reset :
  forall B wret react h a sub (w : world B), 0 <= a <= 255 ->
  (0 <= sub <= 255 -> emits wret react (mbus_send_application_reset_frame B wret react (Some h) a sub w) w (Long 0x53 a 0x50 [sub])) /\
  (sub < 0 -> emits wret react (mbus_send_application_reset_frame B wret react (Some h) a sub w) w (Control 0x53 a 0x50)).
Proof. intros. split; intros; [apply reset_emits|apply reset_emits_plain]; assumption. Qed.
Theorem C36_user_data :
  forall B wret react h a data more (w : world B), 0 <= a <= 255 -> bytes data -> (1 <= length data <= 252)%nat ->
  emits wret react (mbus_send_user_data_frame B wret react (Some h) a (Some (data ++ more)) (Z.of_nat (length data)) w) w (Long 0x53 a 0x51 data).
Proof. intros. apply user_data_emits; assumption. Qed.
Theorem C36_select :
  forall B wret react h s (w : world B), hex16 s -> Forall mask_digit (firstn 8 s) ->
  exists a, address_text a s /\ bytes a /\
    emits wret react (mbus_send_select_frame B wret react (Some h) s w) w (Long 0x73 0xFD 0x52 a).
Proof. exact select_emits. Qed.
(** C36: everything emitted is accepted back by mbus_parse as the same telegram. *)
Theorem C36_parsed_back :
  forall B wret react x (w : world B) t, emits wret react x w t ->
  forall f, frame_obj f -> exists f', mbus_parse f (wire t) = Ok (0, f') /\ denotes f' t.
Proof. intros B wret react x w t [V _] f Ho. exists (parsed t f). split; [apply parse_wire; assumption|]. apply denotes_parsed; assumption. Qed.
(** C36: illegal arguments are refused without touching the line. *)
Theorem C36_illegal_arguments :
  forall B wret react h (w : world B),
  (forall a, ~ 0 <= a <= 255 ->
     refuses (mbus_send_request_frame B wret react (Some h) a w) w /\
     (forall p, refuses (mbus_send_ping_frame B wret react (Some h) a p w) w) /\
     (forall baud, refuses (mbus_send_switch_baudrate_frame B wret react (Some h) a baud w) w) /\
     (forall sub, refuses (mbus_send_application_reset_frame B wret react (Some h) a sub w) w) /\
     (forall d n, refuses (mbus_send_user_data_frame B wret react (Some h) a d n w) w)) /\
  (forall a baud, ~ In baud (map fst baud_codes) -> refuses (mbus_send_switch_baudrate_frame B wret react (Some h) a baud w) w) /\
  (forall a sub, 255 < sub -> refuses (mbus_send_application_reset_frame B wret react (Some h) a sub w) w) /\
  (forall a d n, n = 0 \/ 252 < n -> refuses (mbus_send_user_data_frame B wret react (Some h) a (Some d) n w) w) /\
  (forall a n, refuses (mbus_send_user_data_frame B wret react (Some h) a None n w) w) /\
  (forall s, ~ hex16 s -> refuses (mbus_send_select_frame B wret react (Some h) s w) w).
Proof.
  intros B wret react h w.
  assert (R : refuses (Done (-1, w)) w) by (exists (-1); split; [reflexivity|lia]).
  assert (R1 : refuses (Done (1, w)) w) by (exists 1; split; [reflexivity|lia]).
  assert (P : forall a, ~ 0 <= a <= 255 -> mbus_is_primary_address a = false).
  { intros a H. destruct (mbus_is_primary_address a) eqn:E; [|reflexivity]. apply primary_spec in E. tauto. }
  split; [|split; [|split; [|split; [|split]]]].
  - intros a Ha. apply P in Ha.
    unfold mbus_send_request_frame, mbus_send_ping_frame, mbus_send_switch_baudrate_frame, mbus_send_application_reset_frame, mbus_send_user_data_frame.
    rewrite Ha. auto 10.
  - intros a baud H. unfold mbus_send_switch_baudrate_frame. destruct (mbus_is_primary_address a); [|assumption]. cbn [negb].
    assert (E : baud_ci baud = None).
    { cbn in H. unfold baud_ci. repeat match goal with |- context [baud =? ?k] => destruct (Z.eqb_spec baud k); [exfalso; apply H; lia|] end. reflexivity. }
    rewrite E. assumption.
  - intros a sub H. unfold mbus_send_application_reset_frame. destruct (mbus_is_primary_address a); [|assumption]. cbn [negb].
    destruct (Z.gtb_spec sub 0xFF); [assumption|lia].
  - intros a d n H. unfold mbus_send_user_data_frame. destruct (mbus_is_primary_address a); [|assumption]. cbn [negb].
    destruct ((n >? 252) || (n =? 0)) eqn:E; [assumption|lia].
  - intros a n. unfold mbus_send_user_data_frame. destruct (mbus_is_primary_address a); assumption.
  - intros s H. unfold mbus_send_select_frame, mbus_frame_select_secondary_pack.
    destruct (mbus_is_secondary_address s) eqn:E; [apply secondary_spec in E; contradiction|]. cbn. assumption.
Qed.
(** C36 fails without a context: the functions report success although nothing was sent. *)
Theorem C36_null_handle_refuted :
  forall B wret react (w : world B) a, 0 <= a <= 255 ->
  mbus_send_request_frame B wret react None a w = Done (0, w) /\
  mbus_send_ping_frame B wret react None a false w = Done (0, w).
Proof.
  intros B wret react w a H. unfold mbus_send_request_frame, mbus_send_ping_frame. rewrite (proj2 (primary_spec a) H). split; reflexivity.
Qed.
Print Assumptions C36_request.
Print Assumptions C36_ping.
Print Assumptions C36_baudrate.
Print Assumptions C36_application_reset.
Print Assumptions C36_user_data.
Print Assumptions C36_select.
Print Assumptions C36_parsed_back.
Print Assumptions C36_illegal_arguments.
Print Assumptions C36_null_handle_refuted.
(** A line where write() takes everything and a slave answers every telegram with E5. *)
Definition quiet_line : world unit := mkW tt [] [].
Definition takes_all (b : unit) (n : Z) : Z := n.
Definition answers (b : unit) (l : list Z) : unit * list ev := (tt, [Data [0xE5]]).
Example C36_nonvacuous :
  mbus_send_select_frame unit takes_all answers (Some mbus_context_serial) (cstr "12345678FFFFFFFF") quiet_line
  = Done (0, mkW tt [Data [0xE5]] [Sent [0x68; 0x0B; 0x0B; 0x68; 0x73; 0xFD; 0x52; 0x78; 0x56; 0x34; 0x12; 0xFF; 0xFF; 0xFF; 0xFF; 0xD2; 0x16]]) /\
  mbus_send_switch_baudrate_frame unit takes_all answers (Some mbus_context_serial) 5 9600 quiet_line
  = Done (0, mkW tt [Data [0xE5]] [Sent [0x68; 3; 3; 0x68; 0x53; 5; 0xBD; 0x15; 0x16]]) /\
  mbus_send_request_frame unit (fun _ n => n - 1) answers (Some mbus_context_serial) 5 quiet_line
  = Done (-1, mkW tt [Data [0xE5]] [Sent [0x10; 0x5B; 5; 0x60; 0x16]]).
Proof. vm_compute. auto. Qed.

(** C38: an address is assigned, with the prescribed telegram, exactly if it is 0..252: never a broadcast or the
    network layer address. Partial: the reserved addresses 251 and 252 are not excluded. *)
Theorem C38_set_address_partial :
  forall B wret react h old new (w : world B),
  (0 <= old <= 255 -> 0 <= new <= 252 ->
     emits wret react (mbus_set_primary_address B wret react (Some h) old new w) w (Long 0x53 old 0x51 [0x01; 0x7A; new])) /\
  (~ 0 <= old <= 255 \/ ~ 0 <= new <= 252 -> refuses (mbus_set_primary_address B wret react (Some h) old new w) w).
Proof.
  intros B wret react h old new w. split; [apply set_address_emits|]. intros H.
  assert (R : refuses (Done (-1, w)) w) by (exists (-1); split; [reflexivity|lia]).
  unfold mbus_set_primary_address. destruct (mbus_is_primary_address new) eqn:E; [|assumption]. cbn [negb]. apply primary_spec in E.
  destruct ((new =? 0xFD) || (new =? 0xFE) || (new =? 0xFF)) eqn:E2; [assumption|].
  destruct (C36_illegal_arguments B wret react h w) as (X & _). destruct (X old) as (_ & _ & _ & _ & Y); [lia|]. apply Y.
Qed.
Theorem C38_reserved_refuted :
  forall B wret react h old (w : world B), 0 <= old <= 255 ->
  emits wret react (mbus_set_primary_address B wret react (Some h) old 251 w) w (Long 0x53 old 0x51 [0x01; 0x7A; 251]) /\
  emits wret react (mbus_set_primary_address B wret react (Some h) old 252 w) w (Long 0x53 old 0x51 [0x01; 0x7A; 252]).
Proof. intros. split; apply set_address_emits; try assumption; lia. Qed.
Print Assumptions C38_set_address_partial.
Print Assumptions C38_reserved_refuted.
Example C38_nonvacuous :
  mbus_set_primary_address unit takes_all answers (Some mbus_context_tcp) 0 7 quiet_line
  = Done (0, mkW tt [Data [0xE5]] [Sent [0x68; 6; 6; 0x68; 0x53; 0; 0x51; 1; 0x7A; 7; 0x26; 0x16]]).
Proof. vm_compute. reflexivity. Qed.

(** C39 *)
Definition legal_options (h : handle) : Prop :=
  0 <= max_data_retry h <= 9 /\ 0 <= max_search_retry h <= 9 /\
  (purge_first_frame h = 0 \/ purge_first_frame h = 1 \/ purge_first_frame h = 2).
Theorem C39_initial : legal_options mbus_context_serial /\ legal_options mbus_context_tcp.
Proof. unfold legal_options. cbn. auto 10 with zarith. Qed.
Theorem C39_invariant :
  forall calls h, legal_options h ->
  legal_options (fold_left (fun h c => snd (mbus_context_set_option h (fst c) (snd c))) calls h).
Proof.
  induction calls as [|[o v] calls IH]; intros h H; [assumption|]. cbn [fold_left]. apply IH. clear IH. cbn [fst snd].
  unfold legal_options in *. unfold mbus_context_set_option.
  destruct (o =? 0); [destruct ((v >=? 0) && (v <=? 9)) eqn:E; cbn; intuition lia|].
  destruct (o =? 1); [destruct ((v >=? 0) && (v <=? 9)) eqn:E; cbn; intuition lia|].
  destruct (o =? 2); [destruct ((v =? PURGE_NONE) || (v =? PURGE_M2S) || (v =? PURGE_S2M)) eqn:E; cbn; unfold PURGE_NONE, PURGE_M2S, PURGE_S2M in *; intuition lia|].
  cbn. assumption.
Qed.
(** The legal calls and their effect. *)
Theorem C39_effect :
  forall h o v,
  let legal := (o = 0 /\ 0 <= v <= 9) \/ (o = 1 /\ 0 <= v <= 9) \/ (o = 2 /\ 0 <= v <= 2) in
  let r := mbus_context_set_option h o v in
  (legal <-> fst r = 0) /\ (~ legal -> r = (-1, h)) /\
  (legal -> max_data_retry (snd r) = (if o =? 0 then v else max_data_retry h) /\
            max_search_retry (snd r) = (if o =? 1 then v else max_search_retry h) /\
            purge_first_frame (snd r) = (if o =? 2 then v else purge_first_frame h) /\ is_serial (snd r) = is_serial h).
Proof.
  intros h o v legal r.
  assert (X : (legal /\ fst r = 0 /\ max_data_retry (snd r) = (if o =? 0 then v else max_data_retry h) /\
            max_search_retry (snd r) = (if o =? 1 then v else max_search_retry h) /\
            purge_first_frame (snd r) = (if o =? 2 then v else purge_first_frame h) /\ is_serial (snd r) = is_serial h) \/
          (~ legal /\ r = (-1, h))).
  { unfold r, legal, mbus_context_set_option, PURGE_NONE, PURGE_M2S, PURGE_S2M. destruct (Z.eqb_spec o 0) as [->|].
    { destruct ((v >=? 0) && (v <=? 9)) eqn:E; cbn; [left|right]; split; auto; lia. }
    destruct (Z.eqb_spec o 1) as [->|].
    { destruct ((v >=? 0) && (v <=? 9)) eqn:E; cbn; [left|right]; split; auto; lia. }
    destruct (Z.eqb_spec o 2) as [->|].
    { destruct ((v =? 0) || (v =? 1) || (v =? 2)) eqn:E; cbn; [left|right]; split; auto; lia. }
    right. split; [lia|reflexivity]. }
  destruct X as [(L & E & R)|(L & E)].
  - split; [tauto|]. split; [tauto|]. intros _. exact R.
  - rewrite E. cbn. split; [|tauto]. split; [tauto|discriminate].
Qed.
Print Assumptions C39_initial.
Print Assumptions C39_invariant.
Print Assumptions C39_effect.
Example C39_nonvacuous :
  fold_left (fun h c => snd (mbus_context_set_option h (fst c) (snd c))) [(0, 9); (1, 10); (2, 0); (7, 7); (0, -1)] mbus_context_serial
  = mkH 9 1 0 true.
Proof. reflexivity. Qed.

(** C40: a telegram of the direction the mode names is skipped and the next one, whatever it is, is delivered; any
    other telegram is delivered at once. [skipped]: mode M2S and a master's telegram, or mode S2M and a slave's. *)
Theorem C40_echo_skipped :
  forall B h f (w : world B) t1 e1 t2 e2,
  frame_obj f -> valid t1 -> valid t2 -> skipped (purge_first_frame h) t1 ->
  next_telegram h (w_evs w) t1 e1 -> next_telegram h e1 t2 e2 ->
  exists f', mbus_recv_frame B (Some h) f w = Done (RECV_OK, f', mkW (w_bus w) e2 (w_log w ++ [Received RECV_OK (wire t2)])) /\ denotes f' t2.
Proof. intros B h f w t1 e1 t2 e2 H1 H2 H3 H4 H5 H6. destruct (recv_skip B h f w t1 e1 t2 e2 H1 H2 H3 H4 H5 H6) as (f' & E & D & _). eauto. Qed.
Theorem C40_first_delivered :
  forall B h f (w : world B) t e1,
  frame_obj f -> valid t -> ~ skipped (purge_first_frame h) t -> next_telegram h (w_evs w) t e1 ->
  exists f', mbus_recv_frame B (Some h) f w = Done (RECV_OK, f', mkW (w_bus w) e1 (w_log w ++ [Received RECV_OK (wire t)])) /\ denotes f' t.
Proof. intros B h f w t e1 H1 H2 H3 H4. destruct (recv_deliver B h f w t e1 H1 H2 H3 H4) as (f' & E & D & _). eauto. Qed.
(** C40: with echo cancellation on, every request function followed by a receive call delivers the slave's answer on
    an echoing line. Here for the request to a primary address. *)
Theorem C40_request_on_echoing_line :
  forall B wret react h a f (w : world B) t,
  0 <= a <= 255 -> frame_obj f -> valid t -> ~ from_master t -> purge_first_frame h = PURGE_M2S -> w_evs w = [] ->
  snd (react (w_bus w) (wire (Short 0x5B a))) = [Data (wire (Short 0x5B a) ++ wire t)] ->
  exists r w1 f' w2, mbus_send_request_frame B wret react (Some h) a w = Done (r, w1) /\
    mbus_recv_frame B (Some h) f w1 = Done (RECV_OK, f', w2) /\ denotes f' t /\ w_evs w2 = [].
Proof.
  intros B wret react h a f w t Ha Ho V F M E R.
  destruct (C36_request B wret react h a w Ha) as (V1 & r & E1 & _).
  exists r. eexists. 
  assert (Wt : wire t <> []) by (destruct t; discriminate).
  assert (P : next_telegram h [Data (wire (Short 0x5B a) ++ wire t)] (Short 0x5B a) [Data (wire t)] /\ next_telegram h [Data (wire t)] t []).
  { unfold next_telegram. destruct (is_serial h).
    - split; [split; [apply arr_cut; [discriminate|assumption]|eauto]|]. split; [|eauto]. rewrite <- (app_nil_r (wire t)) at 2. apply arr_piece; [assumption|constructor].
    - split; [apply tarr_cut; [discriminate|assumption]|]. rewrite <- (app_nil_r (wire t)) at 2. apply tarr_piece; [assumption|constructor]. }
  destruct P as [P1 P2].
  destruct (recv_skip B h f (after_write react w (wire (Short 0x5B a))) (Short 0x5B a) [Data (wire t)] t [] Ho V1 V) as (f' & E2 & D & _).
  { left. split; [assumption|exact I]. } { unfold after_write. cbn [w_evs]. rewrite R, E. exact P1. } { exact P2. }
  exists f'. eexists. split; [exact E1|]. split; [exact E2|]. split; [assumption|reflexivity].
Qed.
Print Assumptions C40_echo_skipped.
Print Assumptions C40_first_delivered.
Print Assumptions C40_request_on_echoing_line.
Example C40_nonvacuous :
  let evs := [Data [0x10; 0x5B]; Zero; Data [5; 0x60; 0x16; 0xE5]] in
  next_telegram mbus_context_serial evs (Short 0x5B 5) [Data [0xE5]] /\
  next_telegram mbus_context_serial [Data [0xE5]] Ack [] /\ skipped (purge_first_frame mbus_context_serial) (Short 0x5B 5) /\
  exists f, mbus_recv_frame unit (Some mbus_context_serial) frame_zero (mkW tt evs []) = Done (0, f, mkW tt [] [Received 0 [0xE5]]) /\ ftype f = 1.
Proof.
  split; [|split; [|split]].
  - split; [|eauto]. change (wire (Short 0x5B 5)) with ([0x10; 0x5B] ++ [5; 0x60; 0x16]). apply arr_piece; [discriminate|].
    apply arr_empty; [discriminate|]. apply (arr_cut 1 [5; 0x60; 0x16] [0xE5] []); discriminate.
  - split; [|eauto]. change (wire Ack) with ([0xE5] ++ []). apply arr_piece; [discriminate|constructor].
  - left. split; reflexivity.
  - eexists. split; vm_compute; reflexivity.
Qed.

(** C41: purging always ends, consumes a prefix of the input, sends nothing, and returns 0 or 1 ... *)
Theorem C41_terminates :
  forall B h (w : world B), ev_bytes (w_evs w) ->
  exists r w' new, mbus_purge_frames B (Some h) w = Done (r, w') /\ (r = 0 \/ r = 1) /\
    w_bus w' = w_bus w /\ w_log w' = w_log w ++ new /\ Forall (fun a => exists c got, a = Received c got) new /\
    exists gone, stream (w_evs w) = gone ++ stream (w_evs w').
Proof.
  intros B h w Hb. destruct (purge_frames_ok B h w Hb) as (r & w' & new & H1 & H2 & H3 & _ & _ & H6 & H7 & H8 & _).
  exists r, w', new. auto 10.
Qed.
(** ... leaves nothing behind if only data arrives before silence ... *)
Theorem C41_drains :
  forall B h (w : world B) r w', ev_bytes (w_evs w) -> all_data (w_evs w) ->
  mbus_purge_frames B (Some h) w = Done (r, w') -> w_evs w' = [].
Proof.
  intros B h w r w' Hb Ha E. destruct (purge_frames_ok B h w Hb) as (r1 & w1 & new & E1 & _ & _ & _ & _ & _ & _ & _ & H).
  rewrite E in E1. injection E1 as <- <-. auto.
Qed.
(** ... returns 0 on a silent line ... *)
Theorem C41_silence :
  forall B h (w : world B), w_evs w = [] ->
  mbus_purge_frames B (Some h) w = Done (0, mkW (w_bus w) [] (w_log w ++ [Received RECV_TIMEOUT []])).
Proof. exact purge_silent. Qed.
(** ... and returns 1 if something was there. Partial: not for a telegram that the purge mode skips, and, in a mode
    other than NONE or over TCP, only for complete telegrams and for noise that does not look like the start of a
    telegram. *)
Theorem C41_reports_partial :
  forall B h (w : world B), ev_bytes (w_evs w) ->
  (exists t rest, valid t /\ ~ skipped (purge_first_frame h) t /\ next_telegram h (w_evs w) t rest) \/
  (purge_first_frame h <> PURGE_S2M /\ exists b l rest, w_evs w = Data (b :: l) :: rest /\ b <> 0x10 /\ b <> 0x68) \/
  (purge_first_frame h = PURGE_NONE /\ is_serial h = true /\ all_data (w_evs w) /\ w_evs w <> []) ->
  exists w', mbus_purge_frames B (Some h) w = Done (1, w').
Proof.
  intros B h w Hb [(t & rest & V & S & N)|[(M & b & l & rest & E & H1 & H2)|(M & Hs & Ha & Hn)]].
  - destruct (recv_deliver B h frame_zero w t rest eq_refl V S N) as (f' & E & _). apply (purge_reports B h w _ _ _ Hb E). auto.
  - assert (Bl : bytes (b :: l)). { rewrite E in Hb. apply Hb. }
    destruct (noise_recv h frame_zero (b :: l) rest eq_refl ltac:(discriminate) Bl H1 H2) as (c & f' & E1 & Ec & C1 & C2 & _).
    cbn [hd] in *.
    assert (Er : exists w1, mbus_recv_frame B (Some h) frame_zero w = Done (c, f', w1)).
    { unfold mbus_recv_frame. rewrite E, E1. cbn [obind].
      assert (Dr : mbus_frame_direction f' = DIR_S2M).
      { unfold mbus_frame_direction. destruct (Z.eq_dec b 0xE5) as [Eb|Eb]; [rewrite (C2 Eb); reflexivity|]. destruct (C1 Eb) as [-> ->]. reflexivity. }
      rewrite Dr. destruct (Z.eqb_spec (purge_first_frame h) PURGE_S2M); [contradiction|]. cbn. eexists. reflexivity. }
    destruct Er as (w1 & Er). apply (purge_reports B h w c f' w1 Hb Er). rewrite Ec. destruct (b =? 0xE5); auto.
  - destruct (handle_recv_total h frame_zero (w_evs w) eq_refl Hb) as (c & f' & evs' & got & E1 & O1 & B1 & G1 & L1 & S1 & C1 & K1 & I1 & R1 & Z1).
    assert (Er : mbus_recv_frame B (Some h) frame_zero w = Done (c, f', mkW (w_bus w) evs' (w_log w ++ [Received c got]))).
    { unfold mbus_recv_frame. rewrite E1. cbn [obind]. rewrite M. cbn. rewrite !andb_false_r. reflexivity. }
    apply (purge_reports B h w c f' _ Hb Er).
    destruct (all_data_no_error _ Ha) as (N & N1 & N2).
    cbn in C1. destruct C1 as [<-|[<-|[<-|[<-|[<-|[]]]]]]; auto; exfalso.
    + destruct (R1 eq_refl) as (e & He & Hi). exact (N e He Hi).
    + (* a timeout of the serial line means that nothing was read *)
      destruct (handle_recv_data _ _ _ _ _ _ _ Ha E1) as [_ T]. specialize (T eq_refl). subst evs'.
      unfold handle_recv in E1. rewrite Hs in E1.
      destruct (C11_serial_outcomes frame_zero (w_evs w) eq_refl Hb) as (c2 & f2 & e2 & g2 & Es & _ & Hst & _ & _ & _ & _ & _ & Ht & _).
      rewrite Es in E1. cbn in E1. injection E1 as -> -> -> ->. rewrite (Ht eq_refl) in Hst. cbn in Hst.
      destruct (w_evs w) as [|e es]; [congruence|]. inversion_clear Ha as [|? ? (l & El & Hl) H2]. subst e.
      destruct l; [congruence|discriminate].
    + destruct (Z1 eq_refl); contradiction.
Qed.
(** C41 fails: with echo cancellation on, a single telegram or a damaged one from the master's direction is not
    reported; over TCP an incomplete telegram is not reported in any mode. *)
Theorem C41_unreported_refuted :
  (exists w', mbus_purge_frames unit (Some mbus_context_serial) (mkW tt [Data (wire (Short 0x5B 5))] []) = Done (0, w') /\ w_evs w' = []) /\
  (exists w', mbus_purge_frames unit (Some mbus_context_serial) (mkW tt [Data [0x10; 0x5B; 5; 0; 0x16]] []) = Done (0, w') /\ w_evs w' = []) /\
  (exists w', mbus_purge_frames unit (Some (mkH 3 1 PURGE_NONE false)) (mkW tt [Data [0x10; 0x5B]] []) = Done (0, w') /\ w_evs w' = []).
Proof. split; [|split]; (eexists; split; [vm_compute; reflexivity|reflexivity]). Qed.
Print Assumptions C41_terminates.
Print Assumptions C41_drains.
Print Assumptions C41_silence.
Print Assumptions C41_reports_partial.
Print Assumptions C41_unreported_refuted.
Example C41_nonvacuous :
  let w := mkW tt [Data [0x33; 0x68]; Data [0x10; 5; 9]] [] in
  ev_bytes (w_evs w) /\ all_data (w_evs w) /\
  exists w', mbus_purge_frames unit (Some (mkH 3 1 PURGE_NONE true)) w = Done (1, w') /\ w_evs w' = [].
Proof.
  split; [|split].
  - unfold ev_bytes, bytes, is_byte. cbn. repeat (split; [repeat constructor; lia|]). exact I.
  - repeat constructor; eexists; (split; [reflexivity|discriminate]).
  - eexists. split; vm_compute; reflexivity.
Qed.

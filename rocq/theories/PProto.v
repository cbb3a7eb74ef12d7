(** Proofs about the master's procedures. *)
From Verif Require Import CBase PBase MFrame SWire SFrame PFrame PFrame2 MRecv SRecv PRecv PropFrame PropRecv MSecond MProto SProto.

Lemma direction_spec f t : denotes f t -> valid t ->
  (from_master t -> mbus_frame_direction f = DIR_M2S) /\ (~ from_master t -> mbus_frame_direction f = DIR_S2M).
Proof.
  intros D V. unfold mbus_frame_direction, T_ACK, DIR_M2S, DIR_S2M. destruct t as [|c a|c a ci|c a ci p]; cbn in D, V |- *.
  - rewrite D. cbn. tauto.
  - destruct D as (-> & Ec & _). destruct V as [V _]. unfold short_code in V. cbn in V. rewrite Ec. clear Ec.
    split; [|tauto]. intros _. change (2 =? 1) with false. cbv iota. intuition (subst c; reflexivity).
  - destruct D as (-> & Ec & _). destruct V as [V _]. unfold long_code in V. cbn in V. rewrite Ec. clear Ec. change (3 =? 1) with false. cbv iota.
    split; intros H; [destruct H; subst c; reflexivity|]. intuition; subst c; try reflexivity; tauto.
  - destruct D as (-> & Ec & _). destruct V as [V _]. unfold long_code in V. cbn in V. rewrite Ec. clear Ec. change (4 =? 1) with false. cbv iota.
    split; intros H; [destruct H; subst c; reflexivity|]. intuition; subst c; try reflexivity; tauto.
Qed.

Lemma handle_recv_telegram h f evs t rest : frame_obj f -> valid t -> next_telegram h evs t rest ->
  exists f', handle_recv h f evs = Done (RECV_OK, f', rest, wire t) /\ denotes f' t /\ frame_obj f'.
Proof.
  intros Ho V N. unfold handle_recv, next_telegram in *. destruct (is_serial h).
  - destruct N as (N & l & es & E). destruct (serial_recv_telegram f evs t rest l es Ho V N E) as (f' & H & D & O).
    exists f'. rewrite H. cbn. auto.
  - destruct (tcp_recv_telegram f evs t rest Ho V N) as (f' & H & D & O). exists f'. rewrite H. cbn. auto.
Qed.

Lemma serial_silent f : mbus_serial_recv_frame f [] = Ok (Some (RECV_TIMEOUT, f, [], [])).
Proof. destruct f. reflexivity. Qed.
Lemma tcp_silent f : mbus_tcp_recv_frame f [] = Ok (Some (RECV_TIMEOUT, f, [], [])).
Proof. destruct f. reflexivity. Qed.

(** Every receive call of the transports. *)
Lemma handle_recv_total h f evs : frame_obj f -> ev_bytes evs ->
  exists c f' evs' got, handle_recv h f evs = Done (c, f', evs', got) /\ frame_obj f' /\ ev_bytes evs' /\
    got ++ stream evs' = stream evs /\ (ev_size evs' <= ev_size evs)%nat /\ (evs <> [] -> (ev_size evs' < ev_size evs)%nat) /\
    In c [RECV_OK; RECV_ERROR; RECV_INVALID; RECV_TIMEOUT; RECV_RESET] /\
    (c = RECV_OK <-> exists t, valid t /\ got = wire t /\ denotes f' t) /\
    (c = RECV_INVALID -> got <> [] /\ ~ well_formed got) /\
    (c = RECV_ERROR -> exists e, In e evs /\ In e [EIntr; EAgain; EOther]) /\
    (c = RECV_RESET -> In Zero evs \/ In (Data []) evs).
Proof.
  intros Ho Hb. unfold handle_recv. destruct (is_serial h).
  - destruct (serial_classify (ev_size evs + 4) f evs [] 1 0 Ho) as
      (code & f' & evs' & got & H1 & H2 & H3 & H4 & H5 & H6 & H7 & H8 & H9 & H10 & H11 & H12 & H13);
      auto; try lia; [constructor|left; auto|].
    exists code, f', evs', got. fold (mbus_serial_recv_frame f evs) in H1. rewrite H1. cbn [lift obind].
    do 6 (split; [first [assumption|reflexivity]|]).
    split. { cbn in H9 |- *. tauto. } do 2 (split; [assumption|]). split.
    + intros E. destruct (H13 E) as (pre & e & -> & He). exists e. split; [apply in_or_app; right; left; reflexivity|assumption].
    + intros ->. cbn in H9. unfold RECV_RESET, RECV_OK, RECV_ERROR, RECV_INVALID, RECV_TIMEOUT in H9. lia.
  - destruct (tcp_classify (ev_size evs + 4) f evs [] 1 Ho) as
      (code & f' & evs' & got & H1 & H2 & H3 & H4 & H5 & H6 & H7 & H8 & H9 & H10 & H11 & H12);
      auto; try lia; [constructor|left; auto|].
    fold (mbus_tcp_recv_frame f evs) in H1.
    exists code, f', evs', got. rewrite H1. cbn [lift obind].
    do 4 (split; [first [assumption|reflexivity]|]). split.
    { destruct evs as [|e evs]; [|assert (e :: evs <> []) by discriminate; specialize (H6 H); lia].
      rewrite tcp_silent in H1. injection H1 as <- <- <- _. reflexivity. }
    split; [assumption|]. do 3 (split; [assumption|]). split.
    + intros E. destruct (H12 E) as (pre & ->). exists EOther. split; [apply in_or_app; right; left; reflexivity|cbn; tauto].
    + intros E. destruct (H11 E) as (pre & [->| ->]); [left|right]; apply in_or_app; right; left; reflexivity.
Qed.
Lemma handle_recv_silent h f : handle_recv h f [] = Done (RECV_TIMEOUT, f, [], []).
Proof. unfold handle_recv. destruct (is_serial h); [rewrite serial_silent|rewrite tcp_silent]; reflexivity. Qed.

(** ** Input consisting of data only *)
Lemma all_data_read d evs n bs es : all_data evs -> read_ev d evs n = (RBytes bs, es) -> all_data es.
Proof.
  intros H E. destruct evs as [|e evs]; [cbn in E; injection E as _ <-; assumption|].
  inversion_clear H as [|? ? (l & El & Hl) H2]. subst e. cbn [read_ev] in E. destruct (Nat.leb_spec (length l) n).
  - injection E as _ <-. assumption.
  - injection E as _ <-. constructor; [|assumption]. eexists. split; [reflexivity|]. intros X. apply (f_equal (@length Z)) in X.
    rewrite skipn_length in X. cbn in X. lia.
Qed.
Lemma serial_all_data : forall fuel f evs got rem tm c f' evs' got', all_data evs ->
  serial_loop fuel f evs got rem tm = Ok (Some (c, f', evs', got')) -> 0 < rem ->
  all_data evs' /\ (c = RECV_TIMEOUT -> evs' = []).
Proof.
  induction fuel as [|fuel IH]; intros f evs got rem tm c f' evs' got' Ha H Hr; cbn [serial_loop] in H; [discriminate|].
  destruct (Z.of_nat (length got) + rem >? PACKET_BUFF_SIZE).
  { injection H as <- <- <- <-. split; [assumption|discriminate]. }
  destruct (read_ev (RBytes []) evs (Z.to_nat rem)) as [[bs|e] es] eqn:Er.
  2:{ injection H as <- <- <- <-. destruct evs as [|x evs]; [cbn in Er; discriminate|].
      inversion_clear Ha as [|? ? (l & El & Hl) H2]. subst x. cbn [read_ev] in Er. destruct (length l <=? Z.to_nat rem)%nat; discriminate. }
  pose proof (all_data_read _ _ _ _ _ Ha Er) as Hes.
  assert (Hb : bs = [] -> es = []).
  { intros ->. destruct evs as [|x evs]; [cbn in Er; injection Er as <-; reflexivity|].
    inversion_clear Ha as [|? ? (l & El & Hl) H2]. subst x. cbn [read_ev] in Er. destruct (Nat.leb_spec (length l) (Z.to_nat rem)).
    - injection Er as -> _. congruence.
    - injection Er as E _. apply (f_equal (@length Z)) in E. rewrite firstn_length in E. cbn in E. lia. }
  assert (FIN : forall f got rem, serial_finish f es got rem = Ok (Some (c, f', evs', got')) -> evs' = es /\ (c = RECV_TIMEOUT -> got = [])).
  { intros f0 got0 rem0 HF. unfold serial_finish in HF. destruct (Nat.eqb_spec (length got0) 0).
    - injection HF as <- <- <- <-. split; [reflexivity|]. intros _. destruct got0; [reflexivity|cbn in *; lia].
    - destruct (negb (rem0 =? 0)); injection HF as <- <- <- <-; (split; [reflexivity|discriminate]). }
  destruct ((Z.of_nat (length bs) =? 0) && _) eqn:Et.
  { destruct (FIN _ _ _ H) as [-> _]. split; [assumption|]. intros _. apply Hb. destruct bs; [reflexivity|cbn in Et; lia]. }
  destruct (Z.of_nat (length got) + Z.of_nat (length bs) >? PACKET_BUFF_SIZE); [discriminate|].
  destruct (mbus_parse f (got ++ bs)) as [[r f1]|]; [|discriminate]. cbn [bind] in H.
  destruct (Z.gtb_spec r 0).
  - apply (IH _ _ _ _ _ _ _ _ _ Hes H). assumption.
  - destruct (FIN _ _ _ H) as [-> Hg]. split; [assumption|]. intros E. specialize (Hg E). apply Hb. destruct got, bs; cbn in Hg; congruence.
Qed.
Lemma tcp_all_data : forall fuel f evs got rem c f' evs' got', all_data evs ->
  tcp_loop fuel f evs got rem = Ok (Some (c, f', evs', got')) -> 0 < rem ->
  all_data evs' /\ (c = RECV_TIMEOUT -> evs' = []).
Proof.
  induction fuel as [|fuel IH]; intros f evs got rem c f' evs' got' Ha H Hr; cbn [tcp_loop] in H; [discriminate|].
  destruct (Z.of_nat (length got) + rem >? PACKET_BUFF_SIZE).
  { injection H as <- <- <- <-. split; [assumption|discriminate]. }
  destruct (read_ev (RErr EAgain) evs (Z.to_nat rem)) as [[bs|e] es] eqn:Er.
  2:{ destruct evs as [|x evs].
      - cbn in Er. injection Er as <- <-. injection H as <- <- <- <-. split; [constructor|reflexivity].
      - inversion_clear Ha as [|? ? (l & El & Hl) H2]. subst x. cbn [read_ev] in Er. destruct (length l <=? Z.to_nat rem)%nat; discriminate. }
  pose proof (all_data_read _ _ _ _ _ Ha Er) as Hes.
  destruct (length bs =? 0)%nat. { injection H as <- <- <- <-. split; [assumption|discriminate]. }
  destruct (Z.of_nat (length got) + Z.of_nat (length bs) >? PACKET_BUFF_SIZE); [discriminate|].
  destruct (mbus_parse f (got ++ bs)) as [[r f1]|]; [|discriminate]. cbn [bind] in H.
  destruct (Z.gtb_spec r 0); [|destruct (r <? 0); injection H as <- <- <- <-; (split; [assumption|discriminate])].
  apply (IH _ _ _ _ _ _ _ _ Hes H). assumption.
Qed.
Lemma handle_recv_data h f evs c f' evs' got : all_data evs -> handle_recv h f evs = Done (c, f', evs', got) ->
  all_data evs' /\ (c = RECV_TIMEOUT -> evs' = []).
Proof.
  intros Ha H. unfold handle_recv in H. destruct (is_serial h).
  - destruct (mbus_serial_recv_frame f evs) as [[[[[c1 f1] e1] g1]|]|] eqn:E; cbn in H; try discriminate. injection H as <- <- <- <-.
    apply (serial_all_data _ _ _ _ _ _ _ _ _ _ Ha E). lia.
  - destruct (mbus_tcp_recv_frame f evs) as [[[[[c1 f1] e1] g1]|]|] eqn:E; cbn in H; try discriminate. injection H as <- <- <- <-.
    apply (tcp_all_data _ _ _ _ _ _ _ _ _ Ha E). lia.
Qed.
Lemma all_data_no_error evs : all_data evs -> (forall e, In e evs -> ~ In e [EIntr; EAgain; EOther]) /\ ~ In Zero evs /\ ~ In (Data []) evs.
Proof.
  intros H. unfold all_data in H. rewrite Forall_forall in H. split; [|split].
  - intros e He Hi. destruct (H e He) as (l & -> & _). cbn in Hi. intuition discriminate.
  - intros He. destruct (H _ He) as (l & E & _). discriminate.
  - intros He. destruct (H _ He) as (l & E & Hl). injection E as <-. congruence.
Qed.

Lemma new_obj ty : frame_obj (mbus_frame_new ty).
Proof. unfold mbus_frame_new, frame_obj. destruct (ty =? T_ACK), (ty =? T_SHORT), (ty =? T_CONTROL), (ty =? T_LONG); reflexivity. Qed.
Lemma primary_spec a : mbus_is_primary_address a = true <-> 0 <= a <= 255.
Proof. unfold mbus_is_primary_address. lia. Qed.


Section Line.
  Variable B : Type.
  Variable wret : B -> Z -> Z.
  Variable react : B -> list Z -> B * list ev.
  Notation W := (world B).

  (** ** Sending *)
  Lemma send_spec h f t (w : W) : frame_obj f -> delimiters f -> denotes f t -> valid t ->
    exists r, mbus_send_frame B wret react (Some h) f w = Done (r, packed_frame f, after_write react w (wire t)) /\
      (r = 0 <-> accepted wret w (wire t)) /\ (r = 0 \/ r = -1).
  Proof.
    intros Ho Hd Hden Hv. destruct (send_ok (wret (w_bus w)) f t Ho Hd Hden Hv) as (f' & E & ->).
    unfold mbus_send_frame, after_write, accepted. rewrite E. cbn [lift obind]. destruct (react (w_bus w) (wire t)) as [b es]. cbn [fst snd].
    eexists. split; [reflexivity|]. destruct (Z.eqb_spec (wret (w_bus w) (Z.of_nat (length (wire t)))) (Z.of_nat (length (wire t)))).
    - tauto.
    - split; [|auto]. split; [discriminate|contradiction].
  Qed.
  Lemma emits_intro h f t (w : W) : frame_obj f -> delimiters f -> denotes f t -> valid t ->
    emits wret react (do (r, _, w) <- mbus_send_frame B wret react (Some h) f w ;; Done (if r =? -1 then -1 else 0, w)) w t.
  Proof.
    intros Ho Hd Hden Hv. destruct (send_spec h f t w Ho Hd Hden Hv) as (r & E & H1 & H2). rewrite E. cbn [obind].
    split; [assumption|]. exists r. destruct H2 as [->| ->]; auto.
  Qed.
  Lemma request_emits h a (w : W) : 0 <= a <= 255 ->
    emits wret react (mbus_send_request_frame B wret react (Some h) a w) w (Short 0x5B a).
  Proof.
    intros Ha. unfold mbus_send_request_frame. rewrite (proj2 (primary_spec a) Ha). cbn [negb].
    apply emits_intro; [reflexivity|unfold delimiters; cbn; intuition discriminate|cbn; auto|].
    cbn. split; [|unfold byte_range; lia]. cbn. auto 10.
  Qed.
  Lemma ping_emits h a (w : W) : 0 <= a <= 255 ->
    emits wret react (mbus_send_ping_frame B wret react (Some h) a false w) w (Short 0x40 a).
  Proof.
    intros Ha. unfold mbus_send_ping_frame. rewrite (proj2 (primary_spec a) Ha). cbn [negb].
    destruct (send_spec h (set_address (set_control (mbus_frame_new T_SHORT) (Z.lor 64 64)) a) (Short 0x40 a) w) as (r & E & H1 & H2).
    { reflexivity. } { unfold delimiters; cbn; intuition discriminate. } { cbn; auto. } { cbn. unfold byte_range. auto 10 with zarith. }
    rewrite E. cbn [obind]. split; [cbn; unfold byte_range; auto 10 with zarith|]. exists r. destruct H2 as [->| ->]; auto.
  Qed.
  Lemma baud_emits h a baud ci (w : W) : 0 <= a <= 255 -> In (baud, ci) baud_codes ->
    emits wret react (mbus_send_switch_baudrate_frame B wret react (Some h) a baud w) w (Control 0x53 a ci).
  Proof.
    intros Ha Hb. unfold mbus_send_switch_baudrate_frame. rewrite (proj2 (primary_spec a) Ha). cbn [negb].
    assert (E : baud_ci baud = Some ci /\ byte_range ci). { cbn in Hb. unfold byte_range. intuition; match goal with H : (_, _) = _ |- _ => injection H as <- <- end; try reflexivity; lia. }
    destruct E as [E R]. rewrite E.
    apply emits_intro; [reflexivity|unfold delimiters; cbn; intuition discriminate|cbn; auto 10|].
    cbn. unfold byte_range. split; [cbn; auto|]. split; [lia|assumption].
  Qed.
  Lemma reset_emits h a sub (w : W) : 0 <= a <= 255 -> 0 <= sub <= 255 ->
    emits wret react (mbus_send_application_reset_frame B wret react (Some h) a sub w) w (Long 0x53 a 0x50 [sub]).
  Proof.
    intros Ha Hs. unfold mbus_send_application_reset_frame. rewrite (proj2 (primary_spec a) Ha). cbn [negb].
    destruct (Z.gtb_spec sub 0xFF); [lia|]. destruct (Z.geb_spec sub 0); [|lia].
    replace (Z.land sub 0xFF) with sub by (change 0xFF with (Z.ones 8); rewrite Z.land_ones by lia; rewrite Z.mod_small; lia).
    cbn [lift obind bind wr set_ci set_address set_control mbus_frame_new fdata]. change (wr (repeat 0 DATA_LEN) 0 sub) with (Ok (sub :: repeat 0 251)). cbn [bind lift obind].
    apply emits_intro; [reflexivity|unfold delimiters; cbn; intuition discriminate|cbn; auto 10|].
    cbn. unfold byte_range. split; [cbn; auto|]. split; [lia|]. split; [lia|]. split; [constructor; [lia|constructor]|lia].
  Qed.
  Lemma reset_emits_plain h a sub (w : W) : 0 <= a <= 255 -> sub < 0 ->
    emits wret react (mbus_send_application_reset_frame B wret react (Some h) a sub w) w (Control 0x53 a 0x50).
  Proof.
    intros Ha Hs. unfold mbus_send_application_reset_frame. rewrite (proj2 (primary_spec a) Ha). cbn [negb].
    destruct (Z.gtb_spec sub 0xFF); [lia|]. destruct (Z.geb_spec sub 0); [lia|]. cbn [lift obind].
    match goal with |- context [mbus_send_frame _ _ _ _ ?f _] => set (g := f) end.
    unfold mbus_send_frame, transport_send_frame.
    destruct (C01_long_without_payload g (repeat 0 (Z.to_nat PACKET_BUFF_SIZE)) PACKET_BUFF_SIZE) as (f' & E).
    { reflexivity. } { unfold delimiters; cbn; intuition discriminate. } { reflexivity. } { reflexivity. }
    { rewrite repeat_length. unfold PACKET_BUFF_SIZE. lia. }
    rewrite E. cbn [bind]. change (control g) with 0x53. change (address g) with a. change (ctrl_info g) with 0x50.
    change (9 =? -1) with false. change (9 <? 0) with false. cbv iota. change (Z.to_nat 9) with 9%nat.
    rewrite firstn_app_exact by reflexivity.
    split; [cbn; unfold byte_range; split; [cbn; auto|lia]|]. unfold accepted, after_write.
    change (Z.of_nat (length (wire (Control 83 a 80)))) with 9.
    destruct (Z.eqb_spec (wret (w_bus w) 9) 9); cbn [lift obind]; destruct (react (w_bus w) (wire (Control 83 a 80))) as [b es]; cbn [fst snd obind Z.eqb Pos.eqb];
      eexists; (split; [reflexivity|]); (split; [|auto]).
    - tauto.
    - split; [discriminate|contradiction].
  Qed.
  Lemma user_data_emits h a data (w : W) : 0 <= a <= 255 -> bytes data -> (1 <= length data <= 252)%nat ->
    forall more, emits wret react (mbus_send_user_data_frame B wret react (Some h) a (Some (data ++ more)) (Z.of_nat (length data)) w) w (Long 0x53 a 0x51 data).
  Proof.
    intros Ha Hb Hl more. unfold mbus_send_user_data_frame. rewrite (proj2 (primary_spec a) Ha). cbn [negb].
    destruct (Z.gtb_spec (Z.of_nat (length data)) 252); [lia|]. destruct (Z.eqb_spec (Z.of_nat (length data)) 0); [lia|]. cbn [orb].
    rewrite Nat2Z.id.
    match goal with |- context [copy_loop _ ?d _ _ _] => assert (C : copy_loop (length data) d 0 (data ++ more) 0 = Ok (data ++ skipn (length data) d)) end.
    { rewrite copy_loop_ok by (rewrite ?app_length; cbn; lia). cbn [firstn app skipn]. rewrite firstn_app_exact by reflexivity. reflexivity. }
    rewrite C. cbn [lift obind].
    apply emits_intro.
    - change (length (data ++ skipn (length data) (repeat 0 DATA_LEN)) = DATA_LEN). rewrite app_length, skipn_length, repeat_length. unfold DATA_LEN. lia.
    - unfold delimiters; cbn; intuition discriminate.
    - cbn. rewrite firstn_app_exact by reflexivity. auto 10.
    - cbn. unfold byte_range. split; [cbn; auto|]. split; [lia|]. split; [lia|]. split; [|assumption]. apply byte_range_bytes. assumption.
  Qed.
End Line.

(** Proofs about a network of slaves with primary addresses and about the programs. *)
From Verif Require Import CBase PBase CStr MFrame MCodec MVar MText SVar SText SCodec PCodec SXml MXml SWire SFrame PFrame PFrame2 PVar3 PXml2 PXml4 MRecv SRecv PRecv PropFrame PropRecv MSecond SSecond PSecond MProto SProto PProto PProto2 PropProto PReq SReq PReq2 SBus PBus PBus2 SNet MTools.

(** What a receive call finds after a command that the slaves [l] acknowledge. *)
Definition ack_result (h : handle) (l : list slave) (c : Z) (f : frame) (e : list ev) : Prop :=
  (l = [] /\ c = RECV_TIMEOUT /\ e = []) \/
  (l <> [] /\ c = RECV_OK /\ mbus_frame_type f = T_ACK /\ e = []) \/
  ((2 <= length l)%nat /\ c = RECV_OK /\ mbus_frame_type f = T_ACK /\ burst e /\ something h e) \/
  ((2 <= length l)%nat /\ c = RECV_INVALID /\ burst e).

Section Recv.
  Variable B : Type.
  Notation W := (world B).
  Lemma ack_recv h t (w : W) body l : valid t -> from_master t -> hears_slaves h -> heard h t (w_evs w) body -> ack_phase h l body ->
    exists c f' e' got, mbus_recv_frame B (Some h) frame_zero w = Done (c, f', mkW (w_bus w) e' (w_log w ++ [Received c got])) /\ ack_result h l c f' e'.
  Proof.
    intros V M mode Hh Ph. unfold ack_phase in Ph.
    assert (ACK : forall rest, next_telegram h body Ack rest -> ev_bytes rest -> exists f' got,
       mbus_recv_frame B (Some h) frame_zero w = Done (RECV_OK, f', mkW (w_bus w) rest (w_log w ++ [Received RECV_OK got])) /\ mbus_frame_type f' = T_ACK).
    { intros rest N Hr. destruct (hear_telegram B h t w body Ack rest V M mode Hh (proj1 ack_master) (proj2 ack_master) N Hr) as (f' & got & E & D & _).
      exists f', got. split; [assumption|exact D]. }
    destruct l as [|x [|y l]].
    - subst body. destruct (hear_silence B h t w V M mode Hh) as (f' & got & E). exists RECV_TIMEOUT, f', [], got. split; [assumption|]. left. auto.
    - destruct (ACK [] Ph I) as (f' & got & E & D). exists RECV_OK, f', [], got. split; [assumption|]. right. left. split; [discriminate|auto].
    - destruct Ph as [N|[Hb [Hd|(rest & N & So)]]].
      + destruct (ACK [] N I) as (f' & got & E & D). exists RECV_OK, f', [], got. split; [assumption|]. right. left. split; [discriminate|auto].
      + destruct (hear_damaged B h t w body V M mode Hh Hb Hd) as (f' & e' & got & E & Hb'). exists RECV_INVALID, f', e', got. split; [assumption|].
        right. right. right. split; [cbn; lia|auto].
      + pose proof (burst_next h body Ack rest Hb I N) as Hbr. destruct (ACK rest N (proj2 Hbr)) as (f' & got & E & D). exists RECV_OK, f', rest, got.
        split; [assumption|]. right. right. left. split; [cbn; lia|auto].
  Qed.
  (** The same for any frame object, if at most one slave acknowledges. *)
  Lemma ack_recv_any h f t (w : W) body l : frame_obj f -> valid t -> from_master t -> hears_slaves h -> heard h t (w_evs w) body -> ack_phase h l body -> (length l <= 1)%nat ->
    exists c f' e' got, mbus_recv_frame B (Some h) f w = Done (c, f', mkW (w_bus w) e' (w_log w ++ [Received c got])) /\ ack_result h l c f' e'.
  Proof.
    intros Ho V M mode Hh Ph Hl. unfold ack_phase in Ph. destruct l as [|x [|y l]]; [| |cbn in Hl; lia].
    - subst body. destruct Hh as [E|[P N]].
      + exists RECV_TIMEOUT, f, [], []. split; [apply recv_silent; assumption|]. left. auto.
      + destruct (handle_recv_telegram h f _ t [] Ho V N) as (f1 & E1 & D1 & O1). destruct (direction_spec f1 t D1 V) as [X _].
        exists RECV_TIMEOUT, f1, [], []. split; [|left; auto]. unfold mbus_recv_frame. rewrite E1. cbn [obind]. rewrite (X M), P. 
        change (Z.eqb DIR_M2S DIR_M2S) with true. change (PURGE_M2S =? PURGE_M2S) with true. cbn [andb orb]. rewrite handle_recv_silent. reflexivity.
    - assert (NS : ~ skipped (purge_first_frame h) Ack). { intros [[_ F]|[X _]]; [exact F|]. destruct mode as [Hm|Hm]; rewrite Hm in X; discriminate. }
      destruct Hh as [E|[P N]].
      + subst body. destruct (recv_deliver B h f w Ack [] Ho I NS Ph) as (f' & E & D & _). exists RECV_OK, f', [], (wire Ack). split; [assumption|]. right. left. split; [discriminate|]. auto.
      + destruct (recv_skip B h f w t body Ack [] Ho V I) as (f' & E & D & _); [left; auto|assumption|assumption|].
        exists RECV_OK, f', [], (wire Ack). split; [assumption|]. right. left. split; [discriminate|]. auto.
  Qed.

  Lemma heard_bytes h t es body : valid t -> heard h t es body -> ev_bytes body -> ev_bytes es.
  Proof. intros V [->|[_ N]] Hb; [assumption|]. exact (next_bytes h es t body N V Hb). Qed.
  Lemma ack_bytes h l body : ack_phase h l body -> ev_bytes body.
  Proof.
    assert (K : next_telegram h body Ack [] -> ev_bytes body) by (intros N; exact (next_bytes h body Ack [] N I I)).
    unfold ack_phase. destruct l as [|x [|y l]]; [intros ->; exact I|exact K|]. intros [N|[Hb _]]; [auto|apply Hb].
  Qed.
  (** Purging after such a command. *)
  Lemma purge_ack h t (w : W) body l : valid t -> from_master t -> hears_slaves h -> heard h t (w_evs w) body -> ack_phase h l body ->
    exists r w' new, mbus_purge_frames B (Some h) w = Done (r, w') /\ w_evs w' = [] /\ w_bus w' = w_bus w /\ w_log w' = w_log w ++ new /\ received_only new.
  Proof.
    intros V M mode Hh Ph. pose proof (heard_bytes h t _ _ V Hh (ack_bytes h l body Ph)) as Hb.
    destruct (ack_recv h t w body l V M mode Hh Ph) as (c & f' & e' & got & E & R).
    destruct (purge_frames_ok B h w Hb) as (r & w' & new & H1 & _ & H3 & _ & _ & H6 & H7 & _). exists r, w', new.
    split; [assumption|]. split; [|auto]. revert H1. unfold mbus_purge_frames. cbn [purge_loop]. rewrite E. cbn [obind].
    destruct (recv_total B h frame_zero w eq_refl Hb) as (c0 & f0 & e0 & g0 & E0 & O0 & B0 & L0 & S0 & _). rewrite E in E0. injection E0 as <- <- <- _.
    assert (Fin : forall n f r1 w2, frame_obj f -> (ev_size e' < n)%nat -> all_data e' -> 
       purge_loop B n (Some h) f (mkW (w_bus w) e' (w_log w ++ [Received c got])) 1 = Done (r1, w2) -> w_evs w2 = []).
    { intros n f r1 w2 Of Hn Ha P. destruct (purge_ok B h n f (mkW (w_bus w) e' (w_log w ++ [Received c got])) 1 Of B0 Hn ltac:(auto)) as (r3 & w3 & nw & P3 & _ & _ & _ & _ & _ & _ & _ & _ & Z0).
      rewrite P in P3. injection P3 as _ ->. apply Z0. exact Ha. }
    assert (NE : c <> RECV_TIMEOUT -> w_evs w <> []). { intros Hc X. rewrite (recv_silent B h frame_zero w X) in E. injection E as C _ _ _. congruence. }
    destruct R as [(_ & -> & ->)|[(_ & -> & _ & ->)|[(_ & -> & _ & Hbu & _)|(_ & -> & Hbu)]]].
    - cbn. intros X. injection X as _ <-. reflexivity.
    - change (negb (RECV_OK =? RECV_OK) && negb (RECV_OK =? RECV_INVALID)) with false. cbv iota. apply Fin; [assumption|apply S0, NE; discriminate|constructor].
    - change (negb (RECV_OK =? RECV_OK) && negb (RECV_OK =? RECV_INVALID)) with false. cbv iota. apply Fin; [assumption|apply S0, NE; discriminate|apply Hbu].
    - change (negb (RECV_INVALID =? RECV_OK) && negb (RECV_INVALID =? RECV_INVALID)) with false. cbv iota. apply Fin; [assumption|apply S0, NE; discriminate|apply Hbu].
  Qed.
End Recv.

Lemma reset_valid a : 0 <= a <= 255 -> valid (reset_to a) /\ from_master (reset_to a).
Proof. intros Ha. split; [|exact I]. cbn. unfold byte_range. split; [auto 10|lia]. Qed.
Lemma request_to_valid a : 0 <= a <= 255 -> valid (request_to a) /\ from_master (request_to a).
Proof. intros Ha. split; [|exact I]. cbn. unfold byte_range. split; [auto 10|lia]. Qed.
Lemma assign_valid a n : 0 <= a <= 255 -> 0 <= n <= 252 -> valid (assign_to a n) /\ from_master (assign_to a n).
Proof.
  intros Ha Hn. split; [|cbn; auto]. cbn. unfold byte_range. split; [auto 10|]. split; [lia|]. split; [lia|]. split; [repeat (constructor; [lia|]); constructor|lia].
Qed.

(** ** Members *)
Lemma readdress_wf n s : 0 <= n <= 255 -> wf_slave s -> wf_slave (readdress n s).
Proof. intros Hn (V & Hc & Hl & Wi & Wt). unfold wf_slave, readdress, sl_telegram in *. cbn [sl_c sl_a sl_header sl_items sl_tail] in *. split; [|auto]. destruct V as (V1 & V2 & V3). split; [assumption|]. split; [unfold byte_range; lia|assumption]. Qed.
Lemma holders_answering a l : 0 <= a < 253 -> answering a l = holders a l.
Proof.
  intros Ha. unfold answering, holders. destruct (Z.eqb_spec a 255); [lia|]. induction l as [|[s b] l IH]; [reflexivity|]. cbn [map filter fst].
  replace (listens a (s, b)) with (sl_a s =? a). { destruct (sl_a s =? a); cbn [map fst]; rewrite IH; reflexivity. }
  unfold listens. cbn [fst snd]. destruct (Z.eqb_spec a 253); [lia|]. destruct (Z.eqb_spec a 254); [lia|]. destruct (Z.eqb_spec a 255); [lia|]. reflexivity.
Qed.
Lemma map_wf f l : (forall p, wf_slave (fst p) /\ sl_a (fst p) < 253 -> wf_slave (fst (f p)) /\ sl_a (fst (f p)) < 253) -> wf_net l -> wf_net (map f l).
Proof. intros Hf. unfold wf_net. induction 1; constructor; auto. Qed.

Lemma net_shared h B wret react st : net_of h B wret react st -> shared_of h B wret react st.
Proof. intros [H1 H2 H3 _ _]. split; assumption. Qed.

Section Net.
  Variables (h : handle) (B : Type) (wret : B -> Z -> Z) (react : B -> list Z -> B * list ev) (st : B -> members).
  Hypothesis net : shared_of h B wret react st.
  Hypothesis mode : hears_slaves h.
  Notation W := (world B).
  Notation stw w := (st (w_bus w)).

  Lemma net_emitted x (w : W) t : emits wret react x w t -> x = Done (0, after_write react w (wire t)).
  Proof. intros (_ & r & E & H & _). rewrite E. f_equal. f_equal. apply H. apply (sh_writes _ _ _ _ _ net). Qed.
  Lemma ping_sent a (w : W) : 0 <= a <= 255 -> mbus_send_ping_frame B wret react (Some h) a false w = Done (0, after_write react w (wire (reset_to a))).
  Proof. intros Ha. apply net_emitted. apply ping_emits. assumption. Qed.
  Lemma heard_after t (w : W) body : w_evs w = [] -> heard h t (snd (react (w_bus w) (wire t))) body -> heard h t (w_evs (after_write react w (wire t))) body.
  Proof. intros Hw Hh. unfold after_write. cbn [w_evs]. rewrite Hw. exact Hh. Qed.

  (** ** init_slaves *)
  Definition deselected (l : members) : members := map (fun p => (fst p, false)) l.
  Lemma deselected_twice l : deselected (deselected l) = deselected l.
  Proof. unfold deselected. rewrite map_map. reflexivity. Qed.
  Lemma deselected_slaves l : map fst (deselected l) = map fst l.
  Proof. unfold deselected. rewrite map_map. reflexivity. Qed.
  Lemma deselected_wf l : wf_net l -> wf_net (deselected l).
  Proof. apply map_wf. auto. Qed.
  Lemma ping_purge_253 (w : W) : w_evs w = [] -> wf_net (stw w) ->
    exists w' new, mbus_send_ping_frame B wret react (Some h) 0xFD true w = Done (0, w') /\ w_evs w' = [] /\ stw w' = deselected (stw w) /\
      w_log w' = w_log w ++ new /\ sends new = 1%nat /\ w_bus w' = fst (react (w_bus w) (wire (reset_to 0xFD))).
  Proof.
    intros Hw Wf. pose proof (ping_sent 0xFD w ltac:(lia)) as P. unfold mbus_send_ping_frame in *.
    destruct (negb _); [discriminate|]. destruct (mbus_send_frame _ _ _ _ _ _) as [[[r f1] w1]| |]; cbn [obind] in *; try discriminate.
    destruct (r =? -1); [discriminate|]. assert (X : w1 = after_write react w (wire (reset_to 0xFD))) by congruence. clear P. subst w1.
    destruct (sh_reset _ _ _ _ _ net (w_bus w) 0xFD Wf ltac:(lia)) as (St & body & Hh & Ph). destruct (reset_valid 0xFD ltac:(lia)) as [V M].
    destruct (purge_ack B h _ (after_write react w (wire (reset_to 0xFD))) body _ V M mode (heard_after _ w body Hw Hh) Ph) as (r' & w' & new & P1 & P2 & P3 & P4 & P5).
    rewrite P1. cbn [obind]. exists w', ([Sent (wire (reset_to 0xFD))] ++ new). split; [reflexivity|]. split; [assumption|]. split; [rewrite P3; exact St|].
    split; [rewrite P4; unfold after_write; cbn [w_log]; rewrite <- app_assoc; reflexivity|]. rewrite sends_app, (received_sends _ P5). split; [reflexivity|]. rewrite P3. reflexivity.
  Qed.
  Lemma init_ok (w : W) : w_evs w = [] -> wf_net (stw w) ->
    exists w' new, init_slaves B wret react h w = Done (1, w') /\ w_evs w' = [] /\ stw w' = deselected (stw w) /\ w_log w' = w_log w ++ new /\ sends new = 2%nat /\
      w_bus w' = fst (react (fst (react (w_bus w) (wire (reset_to 0xFD)))) (wire (reset_to 0xFD))).
  Proof.
    intros Hw Wf. unfold init_slaves. destruct (ping_purge_253 w Hw Wf) as (w1 & n1 & E1 & E2 & E3 & E4 & E5 & E6). rewrite E1. cbn [obind]. change (0 =? -1) with false. cbv iota.
    destruct (ping_purge_253 w1 E2) as (w2 & n2 & F1 & F2 & F3 & F4 & F5 & F6); [rewrite E3; apply deselected_wf; assumption|].
    rewrite F1. cbn [obind]. change (0 =? -1) with false. cbv iota. exists w2, (n1 ++ n2). split; [reflexivity|]. split; [assumption|].
    split; [rewrite F3, E3; apply deselected_twice|]. split; [rewrite F4, E4, app_assoc; reflexivity|]. rewrite sends_app. split; [lia|]. rewrite F6, E6. reflexivity.
  Qed.

  (** ** Scanning the primary addresses *)
  Lemma ping_silent_loop a n : 0 <= a < 253 -> forall f ret (w : W), w_evs w = [] -> wf_net (stw w) -> holders a (stw w) = [] -> frame_obj f -> (n = O -> ret = RECV_TIMEOUT) ->
    exists f' w' new, ping_loop B wret react n h f a ret w = Done (RECV_TIMEOUT, f', w') /\ w_evs w' = [] /\ stw w' = stw w /\ w_log w' = w_log w ++ new /\ sends new = n.
  Proof.
    intros Ha. induction n as [|n IH]; intros f ret w Hw Wf Hn Ho Hr; cbn [ping_loop].
    - rewrite Hr by reflexivity. exists f, w, []. rewrite app_nil_r. auto.
    - rewrite ping_sent by lia. cbn [obind]. change (0 =? -1) with false. cbv iota.
      destruct (sh_reset _ _ _ _ _ net (w_bus w) a Wf ltac:(lia)) as (St & body & Hh & Ph). destruct (reset_valid a ltac:(lia)) as [V M].
      rewrite holders_answering, Hn in Ph by lia. replace (a =? 253) with false in St by (symmetry; apply Z.eqb_neq; lia).
      pose proof (heard_after _ w body Hw Hh) as Hh1. set (w1 := after_write react w (wire (reset_to a))) in *.
      pose proof (heard_bytes h _ _ _ V Hh1 (ack_bytes h [] body Ph)) as Hb1.
      destruct (ack_recv_any B h f _ w1 body [] Ho V M mode Hh1 Ph ltac:(cbn; lia)) as (c & f' & e' & got & E & R).
      destruct (recv_total B h f w1 Ho Hb1) as (c0 & f0 & e0 & g0 & E0 & O0 & _). rewrite E in E0. injection E0 as <- <- <- _.
      destruct R as [(_ & -> & ->)|[(K & _)|[(K & _)|(K & _)]]]; [|congruence|cbn in K; lia|cbn in K; lia].
      rewrite E. cbn [obind]. change (negb (RECV_TIMEOUT =? RECV_TIMEOUT)) with false. cbv iota.
      destruct (IH f' RECV_TIMEOUT (mkW (w_bus w1) [] (w_log w1 ++ [Received RECV_TIMEOUT got]))) as (f2 & w2 & new & H1 & H2 & H3 & H4 & H5); [reflexivity|exact (eq_ind_r wf_net Wf St)| |assumption|auto|].
      { cbn [w_bus]. unfold w1, after_write. cbn [w_bus]. rewrite St. assumption. }
      exists f2, w2, ([Sent (wire (reset_to a))] ++ [Received RECV_TIMEOUT got] ++ new). split; [assumption|]. split; [assumption|].
      split; [rewrite H3; exact St|]. split; [rewrite H4; unfold w1, after_write; cbn [w_log]; rewrite <- !app_assoc; reflexivity|].
      rewrite !sends_app. cbn. lia.
  Qed.
  Definition line_ok (a : Z) (l : list slave) (ls : list line) : Prop :=
    match l with [] => ls = [] | [_] => ls = [DeviceAt a] | _ => ls = [DeviceAt a] \/ ls = [CollisionAt a] end.
  Hypothesis retry : 0 <= max_search_retry h.
  Lemma scan_one a (w : W) : 0 <= a < 253 -> w_evs w = [] -> wf_net (stw w) ->
    exists ls w' new, scan_address B wret react h a w = Done (ls, w') /\ w_evs w' = [] /\ stw w' = stw w /\ w_log w' = w_log w ++ new /\
      Z.of_nat (sends new) <= max_search_retry h + 1 /\ line_ok a (holders a (stw w)) ls.
  Proof.
    intros Ha Hw Wf. unfold scan_address, ping_address.
    destruct (holders a (stw w)) as [|x l] eqn:Eh.
    - destruct (ping_silent_loop a (Z.to_nat (max_search_retry h + 1)) Ha frame_zero RECV_ERROR w Hw Wf Eh eq_refl ltac:(lia)) as (f' & w' & new & H1 & H2 & H3 & H4 & H5).
      rewrite H1. cbn [obind]. change (RECV_TIMEOUT =? RECV_TIMEOUT) with true. cbv iota. exists [], w', new. split; [reflexivity|]. split; [assumption|]. split; [assumption|]. split; [assumption|]. split; [lia|reflexivity].
    - replace (Z.to_nat (max_search_retry h + 1)) with (S (Z.to_nat (max_search_retry h))) by lia. cbn [ping_loop].
      rewrite ping_sent by lia. cbn [obind]. change (0 =? -1) with false. cbv iota.
      destruct (sh_reset _ _ _ _ _ net (w_bus w) a Wf ltac:(lia)) as (St & body & Hh & Ph). destruct (reset_valid a ltac:(lia)) as [V M].
      rewrite holders_answering, Eh in Ph by lia. replace (a =? 253) with false in St by (symmetry; apply Z.eqb_neq; lia).
      pose proof (heard_after _ w body Hw Hh) as Hh1. set (w1 := after_write react w (wire (reset_to a))) in *.
      destruct (ack_recv B h _ w1 body _ V M mode Hh1 Ph) as (c & f' & e' & got & E & R). rewrite E. cbn [obind].
      destruct R as [(K & _)|[(_ & -> & T & ->)|[(K & -> & T & Hbu & So)|(K & -> & Hbu)]]]; [discriminate| | |].
      + change (negb (RECV_OK =? RECV_TIMEOUT)) with true. cbv iota. cbn [obind]. change (RECV_OK =? RECV_TIMEOUT) with false. change (RECV_OK =? RECV_INVALID) with false. cbv iota.
        rewrite T. change (T_ACK =? T_ACK) with true. cbv iota.
        destruct (purge_quiet B h (mkW (w_bus w1) [] (w_log w1 ++ [Received RECV_OK got])) eq_refl) as (w2 & new & P1 & P2 & P3 & P4 & P5).
        rewrite P1. cbn [obind Z.eqb negb]. exists [DeviceAt a], w2, ([Sent (wire (reset_to a))] ++ [Received RECV_OK got] ++ new). split; [reflexivity|]. split; [assumption|].
        split; [rewrite P3; exact St|]. split; [rewrite P4; unfold w1, after_write; cbn [w_log]; rewrite <- !app_assoc; reflexivity|].
        rewrite !sends_app, (received_sends _ P5). split; [cbn; lia|]. cbn. destruct l; auto.
      + change (negb (RECV_OK =? RECV_TIMEOUT)) with true. cbv iota. cbn [obind]. change (RECV_OK =? RECV_TIMEOUT) with false. change (RECV_OK =? RECV_INVALID) with false. cbv iota.
        rewrite T. change (T_ACK =? T_ACK) with true. cbv iota.
        destruct (purge_something B h (mkW (w_bus w1) e' (w_log w1 ++ [Received RECV_OK got])) Hbu mode So) as (w2 & new & P1 & P2 & P3 & P4 & P5).
        rewrite P1. cbn [obind Z.eqb negb]. exists [CollisionAt a], w2, ([Sent (wire (reset_to a))] ++ [Received RECV_OK got] ++ new). split; [reflexivity|]. split; [assumption|].
        split; [rewrite P3; exact St|]. split; [rewrite P4; unfold w1, after_write; cbn [w_log]; rewrite <- !app_assoc; reflexivity|].
        rewrite !sends_app, (received_sends _ P5). split; [cbn; lia|]. cbn. destruct l; [cbn in K; lia|auto].
      + change (negb (RECV_INVALID =? RECV_TIMEOUT)) with true. cbv iota. cbn [obind]. change (RECV_INVALID =? RECV_TIMEOUT) with false. change (RECV_INVALID =? RECV_INVALID) with true. cbv iota.
        destruct (purge_drains B h (mkW (w_bus w1) e' (w_log w1 ++ [Received RECV_INVALID got])) Hbu) as (r & w2 & new & P1 & P2 & P3 & P4 & P5).
        rewrite P1. cbn [obind]. exists [CollisionAt a], w2, ([Sent (wire (reset_to a))] ++ [Received RECV_INVALID got] ++ new). split; [reflexivity|]. split; [assumption|].
        split; [rewrite P3; exact St|]. split; [rewrite P4; unfold w1, after_write; cbn [w_log]; rewrite <- !app_assoc; reflexivity|].
        rewrite !sends_app, (received_sends _ P5). split; [cbn; lia|]. cbn. destruct l; [cbn in K; lia|auto].
  Qed.
  Lemma scan_many : forall addrs (w : W), Forall (fun a => 0 <= a < 253) addrs -> w_evs w = [] -> wf_net (stw w) ->
    exists lss w' new, scan_addresses B wret react h addrs w = Done (concat lss, w') /\ w_evs w' = [] /\ stw w' = stw w /\ w_log w' = w_log w ++ new /\
      Z.of_nat (sends new) <= (max_search_retry h + 1) * Z.of_nat (length addrs) /\ Forall2 (fun a ls => line_ok a (holders a (stw w)) ls) addrs lss.
  Proof.
    induction addrs as [|a addrs IH]; intros w Ha Hw Wf; cbn [scan_addresses].
    - exists [], w, []. rewrite app_nil_r. cbn. split; [reflexivity|]. repeat split; auto. lia.
    - inversion_clear Ha as [|? ? H1 H2]. destruct (scan_one a w H1 Hw Wf) as (ls & w1 & n1 & E1 & E2 & E3 & E4 & E5 & E6). rewrite E1. cbn [obind].
      destruct (IH w1 H2 E2) as (lss & w2 & n2 & F1 & F2 & F3 & F4 & F5 & F6); [rewrite E3; assumption|]. rewrite F1. cbn [obind].
      exists (ls :: lss), w2, (n1 ++ n2). split; [reflexivity|]. split; [assumption|]. split; [congruence|]. split; [rewrite F4, E4, app_assoc; reflexivity|].
      split; [rewrite sends_app; cbn [length]; nia|]. constructor; [assumption|]. rewrite E3 in F6. assumption.
  Qed.
End Net.

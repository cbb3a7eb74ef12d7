(** Proofs about a bus of slaves: selecting and probing. *)
From Coq Require Import Permutation.
From Verif Require Import CBase PBase CStr MFrame MCodec MVar MText SVar SText SCodec PCodec SXml MXml SWire SFrame PFrame PFrame2 PVar3 PXml2 PXml4 MRecv SRecv PRecv PropFrame PropRecv MSecond SSecond PSecond MProto SProto PProto PProto2 PropProto PReq SReq PReq2 SBus PBus.

Lemma selection_valid m : length m = 8%nat -> bytes m -> valid (selection m) /\ from_master (selection m).
Proof.
  intros Hl Hb. split; [|cbn; auto]. cbn. unfold byte_range. repeat split; try lia; auto 10; [|rewrite Hl; lia..].
  revert Hb. unfold bytes. apply Forall_impl. unfold is_byte. intros; lia.
Qed.
Lemma request_valid : valid request /\ from_master request.
Proof. split; [|exact I]. cbn. unfold byte_range. split; [auto 10|lia]. Qed.
Lemma ack_master : valid Ack /\ ~ from_master Ack.
Proof. cbn. auto. Qed.
Lemma sl_master s : wf_slave s -> ~ from_master (sl_telegram s).
Proof. intros (_ & Hc & _). cbn. intros [E|E]; rewrite E in Hc; discriminate. Qed.

Section Bus.
  Variables (h : handle) (slaves : list slave) (B : Type) (wret : B -> Z -> Z) (react : B -> list Z -> B * list ev) (selected : B -> list slave).
  Hypothesis bus : bus_of h slaves B wret react selected.
  Hypothesis mode : hears_slaves h.
  Notation W := (world B).
  Definition fits (s : list Z) : list slave := filter (matches (mbytes s)) slaves.

  Lemma accepts (w : W) bs : accepted wret w bs.
  Proof. unfold accepted. apply (bus_writes _ _ _ _ _ _ bus). Qed.
  Lemma emitted x (w : W) t : emits wret react x w t -> x = Done (0, after_write react w (wire t)).
  Proof. intros (_ & r & E & H & _). rewrite E. f_equal. f_equal. apply H. apply accepts. Qed.

  Lemma select_sent s (w : W) : wf_mask s ->
    mbus_send_select_frame B wret react (Some h) s w = Done (0, after_write react w (wire (selection (mbytes s)))).
  Proof.
    intros [Hx Hm]. destruct (select_emits B wret react h s w Hx Hm) as (a & A & Hb & E). apply address_text_bytes in A; [|assumption..]. subst a.
    apply emitted. exact E.
  Qed.

  Lemma select_bus s (w : W) : wf_mask s -> w_evs w = [] ->
    exists r w' new, mbus_select_secondary_address B wret react (Some h) s w = Done (r, w') /\ w_evs w' = [] /\
      selected (w_bus w') = fits s /\ w_log w' = w_log w ++ new /\ sends new = 1%nat /\ reports new = [] /\
      match fits s with [] => r = PROBE_NOTHING | [_] => r = PROBE_SINGLE | _ => r = PROBE_SINGLE \/ r = PROBE_COLLISION end.
  Proof.
    intros Hs Hw. destruct (mbytes_ok s (proj1 Hs)) as (Mb & Ml & _). unfold mbus_select_secondary_address.
    replace (length s =? 16)%nat with true by (symmetry; apply Nat.eqb_eq, Hs). cbn [negb]. rewrite select_sent by assumption. cbn [obind Z.eqb].
    destruct (bus_select _ _ _ _ _ _ bus (w_bus w) (mbytes s) Ml Mb) as (Sel & body & Hh & Ph).
    destruct (selection_valid _ Ml Mb) as [V M]. set (t := selection (mbytes s)) in *. set (w1 := after_write react w (wire t)).
    assert (Hh1 : heard h t (w_evs w1) body). { unfold w1, after_write. cbn [w_evs]. rewrite Hw. exact Hh. }
    assert (Sel1 : selected (w_bus w1) = fits s) by exact Sel.
    assert (Lg : w_log w1 = w_log w ++ [Sent (wire t)]) by reflexivity.
    assert (DMG : burst body -> damaged h body -> exists r w' new,
       obind (mbus_recv_frame B (Some h) frame_zero w1) (fun '(c, reply, w) => if c =? RECV_TIMEOUT then Done (PROBE_NOTHING, w)
        else if c =? RECV_INVALID then do (_, w) <- mbus_purge_frames B (Some h) w ;; Done (PROBE_COLLISION, w)
        else if mbus_frame_type reply =? T_ACK then
          do (p, w) <- mbus_purge_frames B (Some h) w ;;
          if negb (p =? 0) then Done (PROBE_COLLISION, w) else Done (PROBE_SINGLE, w)
        else Done (PROBE_NOTHING, w)) = Done (r, w') /\ w_evs w' = [] /\ selected (w_bus w') = fits s /\ w_log w' = w_log w ++ new /\ sends new = 1%nat /\ reports new = [] /\ r = PROBE_COLLISION).
    { intros Hb Hd. destruct (hear_damaged B h t w1 body V M mode Hh1 Hb Hd) as (f' & e' & got & E & Hb'). rewrite E. cbn [obind]. cbn [Z.eqb RECV_INVALID RECV_TIMEOUT Pos.eqb].
      change (RECV_INVALID =? RECV_TIMEOUT) with false. change (RECV_INVALID =? RECV_INVALID) with true. cbv iota.
      destruct (purge_drains B h (mkW (w_bus w1) e' (w_log w1 ++ [Received RECV_INVALID got])) Hb') as (r & w2 & new & P1 & P2 & P3 & P4 & P5).
      rewrite P1. cbn [obind]. exists PROBE_COLLISION, w2, ([Sent (wire t)] ++ [Received RECV_INVALID got] ++ new). split; [reflexivity|]. split; [assumption|].
      split; [rewrite P3; exact Sel1|]. split; [rewrite P4; cbn [w_log]; rewrite Lg, <- !app_assoc; reflexivity|].
      rewrite !sends_app, !reports_app, (received_sends _ P5), (received_reports _ P5). auto. }
    assert (ACK : forall rest, next_telegram h body Ack rest -> ev_bytes rest -> exists f' got,
       mbus_recv_frame B (Some h) frame_zero w1 = Done (RECV_OK, f', mkW (w_bus w1) rest (w_log w1 ++ [Received RECV_OK got])) /\ mbus_frame_type f' = T_ACK).
    { intros rest N Hr. destruct (hear_telegram B h t w1 body Ack rest V M mode Hh1 (proj1 ack_master) (proj2 ack_master) N Hr) as (f' & got & E & D & _).
      exists f', got. split; [assumption|]. exact D. }
    assert (SNG : next_telegram h body Ack [] -> exists r w' new,
       obind (mbus_recv_frame B (Some h) frame_zero w1) (fun '(c, reply, w) => if c =? RECV_TIMEOUT then Done (PROBE_NOTHING, w)
        else if c =? RECV_INVALID then do (_, w) <- mbus_purge_frames B (Some h) w ;; Done (PROBE_COLLISION, w)
        else if mbus_frame_type reply =? T_ACK then
          do (p, w) <- mbus_purge_frames B (Some h) w ;;
          if negb (p =? 0) then Done (PROBE_COLLISION, w) else Done (PROBE_SINGLE, w)
        else Done (PROBE_NOTHING, w)) = Done (r, w') /\ w_evs w' = [] /\ selected (w_bus w') = fits s /\ w_log w' = w_log w ++ new /\ sends new = 1%nat /\ reports new = [] /\ r = PROBE_SINGLE).
    { intros N. destruct (ACK [] N I) as (f' & got & E & D). rewrite E. cbn [obind]. change (RECV_OK =? RECV_TIMEOUT) with false. change (RECV_OK =? RECV_INVALID) with false. cbv iota.
      rewrite D. change (T_ACK =? T_ACK) with true. cbv iota.
      destruct (purge_quiet B h (mkW (w_bus w1) [] (w_log w1 ++ [Received RECV_OK got])) eq_refl) as (w2 & new & P1 & P2 & P3 & P4 & P5).
      rewrite P1. cbn [obind Z.eqb negb]. exists PROBE_SINGLE, w2, ([Sent (wire t)] ++ [Received RECV_OK got] ++ new). split; [reflexivity|]. split; [assumption|].
      split; [rewrite P3; exact Sel1|]. split; [rewrite P4; cbn [w_log]; rewrite Lg, <- !app_assoc; reflexivity|].
      rewrite !sends_app, !reports_app, (received_sends _ P5), (received_reports _ P5). auto. }
    unfold ack_phase in Ph. fold (fits s) in Ph.
    destruct (fits s) as [|x [|y l]] eqn:Ef.
    - subst body. destruct (hear_silence B h t w1 V M mode Hh1) as (f' & got & E). rewrite E. cbn [obind]. change (RECV_TIMEOUT =? RECV_TIMEOUT) with true. cbv iota.
      eexists _, _, ([Sent (wire t)] ++ [Received RECV_TIMEOUT got]). split; [reflexivity|]. cbn [w_evs w_bus w_log]. split; [reflexivity|]. split; [exact Sel1|].
      split; [rewrite Lg, <- app_assoc; reflexivity|]. auto.
    - apply SNG. exact Ph.
    - destruct Ph as [N|[Hb [Hd|(rest & N & So)]]].
      + destruct (SNG N) as (r & w' & new & H1 & H2 & H3 & H4 & H5 & H6 & H7). exists r, w', new. auto 10.
      + destruct (DMG Hb Hd) as (r & w' & new & H1 & H2 & H3 & H4 & H5 & H6 & H7). exists r, w', new. auto 10.
      + pose proof (burst_next h body Ack rest Hb I N) as Hbr. destruct (ACK rest N (proj2 Hbr)) as (f' & got & E & D). rewrite E. cbn [obind].
        change (RECV_OK =? RECV_TIMEOUT) with false. change (RECV_OK =? RECV_INVALID) with false. cbv iota. rewrite D. change (T_ACK =? T_ACK) with true. cbv iota.
        destruct (purge_something B h (mkW (w_bus w1) rest (w_log w1 ++ [Received RECV_OK got])) Hbr mode So) as (w2 & new & P1 & P2 & P3 & P4 & P5).
        rewrite P1. cbn [obind Z.eqb negb]. exists PROBE_COLLISION, w2, ([Sent (wire t)] ++ [Received RECV_OK got] ++ new). split; [reflexivity|]. split; [assumption|].
        split; [rewrite P3; exact Sel1|]. split; [rewrite P4; cbn [w_log]; rewrite Lg, <- !app_assoc; reflexivity|].
        rewrite !sends_app, !reports_app, (received_sends _ P5), (received_reports _ P5). auto.
  Qed.

  Lemma c_text_hex a r : Forall (fun c => digit_value c <> None) a -> c_text (a ++ 0 :: r) = a.
  Proof.
    induction 1 as [|c a Hc _ IH]; [reflexivity|]. cbn [app c_text]. destruct (Z.eqb_spec c 0) as [->|]; [exfalso; apply Hc; reflexivity|].
    f_equal. exact IH.
  Qed.
  Lemma sl_var f s : wf_slave s -> denotes f (sl_telegram s) -> frame_obj f -> bytes (fdata f) -> var_telegram f (sl_header s) (sl_items s) (sl_tail s).
  Proof.
    intros (V & Hc & Hl & Wi & Wt) (T & C & A & I & S0 & F) Ho Hb. pose proof V as (V1 & V2 & V3 & V4 & V5).
    split; [|rewrite C, I; repeat split; try assumption; clear - V1; cbn in V1; intuition (subst; unfold is_byte; try lia)].
    - split; [exact Ho|]. split; [assumption|]. split; [assumption|]. split; [assumption|]. exact (proj2 V5).
  Qed.
  (** The outcome of probing a set of matching slaves. *)
  Definition probe_outcome (l : list slave) (r : Z) (buf : list Z) : Prop :=
    match l with
    | [] => r = PROBE_NOTHING
    | [s] => r = PROBE_SINGLE /\ hex16 (c_text buf) /\ address_text (sl_addr s) (c_text buf)
    | _ => r = PROBE_COLLISION
    end.
  Lemma probe_selected_bus (w : W) buf : w_evs w = [] -> selected (w_bus w) <> [] -> Forall wf_slave (selected (w_bus w)) -> (17 <= length buf)%nat ->
    exists r buf' w' new, probe_selected B wret react h buf w = Done (r, buf', w') /\ w_evs w' = [] /\ length buf' = length buf /\
      w_log w' = w_log w ++ new /\ sends new = 1%nat /\ reports new = [] /\ probe_outcome (selected (w_bus w)) r buf'.
  Proof.
    intros Hw Hne Wf Hl. unfold probe_selected.
    rewrite (emitted _ w _ (request_emits B wret react h 0xFD w ltac:(lia))). fold request. cbn [obind]. change (0 =? -1) with false. cbv iota.
    destruct (bus_request _ _ _ _ _ _ bus (w_bus w)) as (_ & body & Hh & Ph). destruct request_valid as [V M].
    set (w1 := after_write react w (wire request)).
    assert (Hh1 : heard h request (w_evs w1) body). { unfold w1, after_write. cbn [w_evs]. rewrite Hw. exact Hh. }
    assert (Lg : w_log w1 = w_log w ++ [Sent (wire request)]) by reflexivity.
    unfold data_phase in Ph. destruct (selected (w_bus w)) as [|x [|y l]]; [congruence| |].
    - inversion_clear Wf as [|? ? Wx _]. pose proof Wx as (Vx & _). pose proof (sl_master x Wx) as Mx.
      destruct (hear_telegram B h request w1 body (sl_telegram x) [] V M mode Hh1 Vx Mx Ph I) as (f' & got & E & D & O & Hb).
      rewrite E. cbn [obind]. change (RECV_OK =? RECV_TIMEOUT) with false. change (RECV_OK =? RECV_INVALID) with false. cbv iota.
      destruct (purge_quiet B h (mkW (w_bus w1) [] (w_log w1 ++ [Received RECV_OK got])) eq_refl) as (w2 & new & P1 & P2 & P3 & P4 & P5).
      rewrite P1. cbn [obind Z.eqb negb]. assert (T : mbus_frame_type f' = T_LONG) by apply D. rewrite T. change (T_LONG =? T_LONG) with true. cbv iota.
      destruct (get_address f' _ _ _ (sl_var f' x Wx D O Hb)) as (s & G & Hx & A). rewrite G. cbn [lift obind].
      unfold snprintf_s. rewrite firstn_all2 by (rewrite (proj1 Hx); lia). rewrite put_list_ok by (rewrite app_length, (proj1 Hx); cbn; lia). cbn [lift obind firstn app].
      rewrite <- app_assoc. cbn [app].
      exists PROBE_SINGLE, (s ++ 0 :: skipn (0 + length (s ++ [0])) buf), w2, ([Sent (wire request)] ++ [Received RECV_OK got] ++ new).
      split; [reflexivity|]. split; [assumption|].
      split; [rewrite app_length; cbn [length]; rewrite skipn_length, !app_length, (proj1 Hx); cbn; lia|].
      split; [rewrite P4; cbn [w_log]; rewrite Lg, <- !app_assoc; reflexivity|].
      rewrite !sends_app, !reports_app, (received_sends _ P5), (received_reports _ P5). split; [reflexivity|]. split; [reflexivity|].
      unfold probe_outcome. rewrite c_text_hex by apply Hx. auto.
    - destruct Ph as [Hb [Hd|(t & rest & Vt & Mt & N & So)]].
      + destruct (hear_damaged B h request w1 body V M mode Hh1 Hb Hd) as (f' & e' & got & E & Hb'). rewrite E. cbn [obind].
        change (RECV_INVALID =? RECV_TIMEOUT) with false. change (RECV_INVALID =? RECV_INVALID) with true. cbv iota.
        destruct (purge_drains B h (mkW (w_bus w1) e' (w_log w1 ++ [Received RECV_INVALID got])) Hb') as (r & w2 & new & P1 & P2 & P3 & P4 & P5).
        rewrite P1. cbn [obind]. exists PROBE_COLLISION, buf, w2, ([Sent (wire request)] ++ [Received RECV_INVALID got] ++ new). split; [reflexivity|]. split; [assumption|].
        split; [reflexivity|]. split; [rewrite P4; cbn [w_log]; rewrite Lg, <- !app_assoc; reflexivity|].
        rewrite !sends_app, !reports_app, (received_sends _ P5), (received_reports _ P5). cbn. auto.
      + pose proof (burst_next h body t rest Hb Vt N) as Hbr.
        destruct (hear_telegram B h request w1 body t rest V M mode Hh1 Vt Mt N (proj2 Hbr)) as (f' & got & E & D & O & Hb0). rewrite E. cbn [obind].
        change (RECV_OK =? RECV_TIMEOUT) with false. change (RECV_OK =? RECV_INVALID) with false. cbv iota.
        destruct (purge_something B h (mkW (w_bus w1) rest (w_log w1 ++ [Received RECV_OK got])) Hbr mode So) as (w2 & new & P1 & P2 & P3 & P4 & P5).
        rewrite P1. cbn [obind Z.eqb negb]. exists PROBE_COLLISION, buf, w2, ([Sent (wire request)] ++ [Received RECV_OK got] ++ new). split; [reflexivity|]. split; [assumption|].
        split; [reflexivity|]. split; [rewrite P4; cbn [w_log]; rewrite Lg, <- !app_assoc; reflexivity|].
        rewrite !sends_app, !reports_app, (received_sends _ P5), (received_reports _ P5). cbn. auto.
  Qed.

  Lemma fits_wf s : Forall wf_slave (fits s).
  Proof. apply incl_Forall with slaves; [intros x Hx; apply filter_In in Hx; tauto|apply (bus_slaves _ _ _ _ _ _ bus)]. Qed.

  (** ** Probing *)
  Lemma probe_loop_bus s buf : wf_mask s -> (17 <= length buf)%nat -> forall n ret (w : W), w_evs w = [] -> (n = O -> ret = PROBE_NOTHING) -> (n <> O \/ fits s = []) ->
    exists r buf' w' new, probe_loop B wret react n h s buf ret w = Done (r, buf', w') /\ w_evs w' = [] /\ length buf' = length buf /\
      w_log w' = w_log w ++ new /\ (sends new <= match fits s with [] => n | _ => 2 end)%nat /\ reports new = [] /\ probe_outcome (fits s) r buf'.
  Proof.
    intros Hs Hl. induction n as [|n IH]; intros ret w Hw Hr Hn; cbn [probe_loop].
    - destruct Hn as [Hn|Hn]; [congruence|]. rewrite Hn. exists ret, buf, w, []. rewrite app_nil_r. cbn. auto 10.
    - destruct (select_bus s w Hs Hw) as (r & w1 & new & E & E1 & E2 & E3 & E4 & E5 & E6). rewrite E. cbn [obind].
      destruct (fits s) as [|x l] eqn:Ef.
      + subst r. change (PROBE_NOTHING =? PROBE_SINGLE) with false. change ((PROBE_NOTHING =? PROBE_ERROR) || (PROBE_NOTHING =? PROBE_COLLISION)) with false. cbv iota.
        destruct (IH PROBE_NOTHING w1 E1 ltac:(auto) ltac:(auto)) as (r & buf' & w' & new' & H1 & H2 & H3 & H4 & H5 & H6 & H7).
        exists r, buf', w', (new ++ new'). split; [assumption|]. split; [assumption|]. split; [assumption|]. split; [rewrite H4, E3, app_assoc; reflexivity|].
        rewrite sends_app, reports_app, E5, H6. split; [lia|]. auto.
      + assert (C : r = PROBE_SINGLE \/ (r = PROBE_COLLISION /\ exists y l', l = y :: l')) by (destruct l; [auto|destruct E6; eauto 10]).
        destruct C as [->|(-> & y & l' & ->)].
        * change (PROBE_SINGLE =? PROBE_SINGLE) with true. cbv iota.
          destruct (probe_selected_bus w1 buf E1) as (r & buf' & w' & new' & H1 & H2 & H3 & H4 & H5 & H6 & H7); [rewrite E2; discriminate|rewrite E2, <- Ef; apply fits_wf|assumption|].
          exists r, buf', w', (new ++ new'). split; [assumption|]. split; [assumption|]. split; [assumption|]. split; [rewrite H4, E3, app_assoc; reflexivity|].
          rewrite sends_app, reports_app, E5, H6. split; [lia|]. rewrite E2 in H7. auto.
        * change (PROBE_COLLISION =? PROBE_SINGLE) with false. change ((PROBE_COLLISION =? PROBE_ERROR) || (PROBE_COLLISION =? PROBE_COLLISION)) with true. cbv iota.
          exists PROBE_COLLISION, buf, w1, new. split; [reflexivity|]. split; [assumption|]. split; [reflexivity|]. split; [assumption|]. split; [lia|]. cbn. auto.
  Qed.
  Hypothesis retry : 0 <= max_search_retry h.
  Lemma probe_bus s buf (w : W) : wf_mask s -> (17 <= length buf)%nat -> w_evs w = [] ->
    exists r buf' w' new, mbus_probe_secondary_address B wret react (Some h) s buf w = Done (r, buf', w') /\ w_evs w' = [] /\ length buf' = length buf /\
      w_log w' = w_log w ++ new /\ Z.of_nat (sends new) <= max_search_retry h + 2 /\ reports new = [] /\ probe_outcome (fits s) r buf'.
  Proof.
    intros Hs Hl Hw. unfold mbus_probe_secondary_address. replace (length s =? 16)%nat with true by (symmetry; apply Nat.eqb_eq, Hs). cbn [negb].
    destruct (Z.ltb_spec (max_search_retry h) 0); [lia|].
    destruct (probe_loop_bus s buf Hs Hl (Z.to_nat (max_search_retry h + 1)) 0 w Hw) as (r & buf' & w' & new & H1 & H2 & H3 & H4 & H5 & H6 & H7); [reflexivity|left; lia|].
    exists r, buf', w', new. split; [assumption|]. split; [assumption|]. split; [assumption|]. split; [assumption|]. split; [|auto].
    destruct (fits s); lia.
  Qed.

  (** ** Reading a slave *)
  Lemma read_bus s (w : W) : wf_mask s -> w_evs w = [] ->
    exists r f w' new, mbus_read_slave B wret react (Some h) (Secondary (Some s)) frame_zero w = Done (r, f, w') /\
      w_log w' = w_log w ++ new /\ (sends new <= 2)%nat /\
      match fits s with [] => r = -1 | [x] => r = 0 /\ denotes f (sl_telegram x) /\ w_evs w' = [] | _ => r = -1 \/ r = 0 end.
  Proof.
    intros Hs Hw. unfold mbus_read_slave.
    destruct (select_bus s w Hs Hw) as (p & w1 & new & E & E1 & E2 & E3 & E4 & E5 & E6). rewrite E. cbn [obind].
    pose proof (fits_wf s) as Wf.
    destruct (fits s) as [|x l] eqn:Ef.
    - subst p. cbn. exists (-1), frame_zero, w1, new. rewrite E4. auto 10.
    - assert (C : p = PROBE_SINGLE \/ (p = PROBE_COLLISION /\ exists y l', l = y :: l')) by (destruct l; [auto|destruct E6; eauto 10]).
      destruct C as [->|(-> & y & l' & ->)].
      + change ((PROBE_SINGLE =? PROBE_COLLISION) || (PROBE_SINGLE =? PROBE_NOTHING) || (PROBE_SINGLE =? PROBE_ERROR)) with false. cbv iota.
        rewrite (emitted _ w1 _ (request_emits B wret react h 0xFD w1 ltac:(lia))). fold request. cbn [obind]. change (0 =? -1) with false. cbv iota. cbn [obind]. change (0 =? -1) with false. cbv iota.
        destruct (bus_request _ _ _ _ _ _ bus (w_bus w1)) as (_ & body & Hh & Ph). destruct request_valid as [V M].
        set (w2 := after_write react w1 (wire request)).
        assert (Hh1 : heard h request (w_evs w2) body). { unfold w2, after_write. cbn [w_evs]. rewrite E1. exact Hh. }
        assert (Lg : w_log w2 = w_log w1 ++ [Sent (wire request)]) by reflexivity.
        rewrite E2 in Ph. unfold data_phase in Ph. destruct l as [|y l].
        * inversion_clear Wf as [|? ? Wx _]. pose proof Wx as (Vx & _). pose proof (sl_master x Wx) as Mx.
          destruct (hear_telegram B h request w2 body (sl_telegram x) [] V M mode Hh1 Vx Mx Ph I) as (f' & got & F & D & O & Hb).
          rewrite F. cbn [obind]. change (negb (RECV_OK =? 0)) with false. cbv iota.
          exists 0, f', (mkW (w_bus w2) [] (w_log w2 ++ [Received RECV_OK got])), (new ++ [Sent (wire request)] ++ [Received RECV_OK got]).
          split; [reflexivity|]. split; [cbn [w_log]; rewrite Lg, E3, <- !app_assoc; reflexivity|].
          rewrite !sends_app, E4. split; [cbn; lia|]. auto.
        * destruct Ph as [Hb [Hd|(t & rest & Vt & Mt & N & So)]].
          -- destruct (hear_damaged B h request w2 body V M mode Hh1 Hb Hd) as (f' & e' & got & F & Hb'). rewrite F. cbn [obind]. change (negb (RECV_INVALID =? 0)) with true. cbv iota.
             eexists _, _, _, (new ++ [Sent (wire request)] ++ [Received RECV_INVALID got]).
             split; [reflexivity|]. split; [cbn [w_log]; rewrite Lg, E3, <- !app_assoc; reflexivity|].
             rewrite !sends_app, E4. split; [cbn; lia|]. auto.
          -- pose proof (burst_next h body t rest Hb Vt N) as Hbr.
             destruct (hear_telegram B h request w2 body t rest V M mode Hh1 Vt Mt N (proj2 Hbr)) as (f' & got & F & _). rewrite F. cbn [obind]. change (negb (RECV_OK =? 0)) with false. cbv iota.
             eexists _, _, _, (new ++ [Sent (wire request)] ++ [Received RECV_OK got]).
             split; [reflexivity|]. split; [cbn [w_log]; rewrite Lg, E3, <- !app_assoc; reflexivity|].
             rewrite !sends_app, E4. split; [cbn; lia|]. auto.
      + change ((PROBE_COLLISION =? PROBE_COLLISION) || (PROBE_COLLISION =? PROBE_NOTHING) || (PROBE_COLLISION =? PROBE_ERROR)) with true. cbv iota. cbn [obind].
        change (-1 =? -1) with true. cbv iota. exists (-1), frame_zero, w1, new. rewrite E4. auto 10.
  Qed.
End Bus.

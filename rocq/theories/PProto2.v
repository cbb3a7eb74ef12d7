(** Proofs about receiving with echo cancellation and about purging. *)
From Verif Require Import CBase PBase MFrame SWire SFrame PFrame PFrame2 MRecv SRecv PRecv PropFrame PropRecv MSecond MProto SProto PProto.

Lemma from_master_dec t : {from_master t} + {~ from_master t}.
Proof.
  destruct t as [|c a|c a ci|c a ci p]; cbn; [right; tauto|left; tauto| |];
    (destruct (Z.eq_dec c 0x53); [left; tauto|]; destruct (Z.eq_dec c 0x73); [left; tauto|right; tauto]).
Qed.

Section Line.
  Variable B : Type.
  Notation W := (world B).

  Lemma recv_skip h f (w : W) t1 e1 t2 e2 : frame_obj f -> valid t1 -> valid t2 -> skipped (purge_first_frame h) t1 ->
    next_telegram h (w_evs w) t1 e1 -> next_telegram h e1 t2 e2 ->
    exists f', mbus_recv_frame B (Some h) f w = Done (RECV_OK, f', mkW (w_bus w) e2 (w_log w ++ [Received RECV_OK (wire t2)])) /\ denotes f' t2 /\ frame_obj f'.
  Proof.
    intros Ho V1 V2 S N1 N2. destruct (handle_recv_telegram h f _ t1 e1 Ho V1 N1) as (f1 & E1 & D1 & O1).
    destruct (handle_recv_telegram h f1 e1 t2 e2 O1 V2 N2) as (f2 & E2 & D2 & O2).
    exists f2. split; [|auto]. unfold mbus_recv_frame. rewrite E1. cbn [obind].
    destruct (direction_spec f1 t1 D1 V1) as [M S'].
    assert (X : (mbus_frame_direction f1 =? DIR_M2S) && (purge_first_frame h =? PURGE_M2S) || (mbus_frame_direction f1 =? DIR_S2M) && (purge_first_frame h =? PURGE_S2M) = true).
    { destruct S as [[-> F]|[-> F]]; [rewrite (M F)|rewrite (S' F)]; reflexivity. }
    rewrite X, E2. reflexivity.
  Qed.
  Lemma recv_deliver h f (w : W) t e1 : frame_obj f -> valid t -> ~ skipped (purge_first_frame h) t ->
    next_telegram h (w_evs w) t e1 ->
    exists f', mbus_recv_frame B (Some h) f w = Done (RECV_OK, f', mkW (w_bus w) e1 (w_log w ++ [Received RECV_OK (wire t)])) /\ denotes f' t /\ frame_obj f'.
  Proof.
    intros Ho V1 S N1. destruct (handle_recv_telegram h f _ t e1 Ho V1 N1) as (f1 & E1 & D1 & O1).
    exists f1. split; [|auto]. unfold mbus_recv_frame. rewrite E1. cbn [obind].
    destruct (direction_spec f1 t D1 V1) as [M S'].
    assert (X : (mbus_frame_direction f1 =? DIR_M2S) && (purge_first_frame h =? PURGE_M2S) || (mbus_frame_direction f1 =? DIR_S2M) && (purge_first_frame h =? PURGE_S2M) = false).
    { unfold skipped in S. unfold PURGE_M2S, PURGE_S2M in *. destruct (from_master_dec t) as [F|F]; [rewrite (M F)|rewrite (S' F)]; unfold DIR_M2S, DIR_S2M; cbn.
      - destruct (Z.eqb_spec (purge_first_frame h) 1); [tauto|reflexivity].
      - destruct (Z.eqb_spec (purge_first_frame h) 2); [tauto|reflexivity]. }
    rewrite X. reflexivity.
  Qed.
  Lemma recv_silent h f (w : W) : w_evs w = [] ->
    mbus_recv_frame B (Some h) f w = Done (RECV_TIMEOUT, f, mkW (w_bus w) [] (w_log w ++ [Received RECV_TIMEOUT []])).
  Proof.
    intros E. unfold mbus_recv_frame. rewrite E, handle_recv_silent. cbn [obind]. destruct (_ || _); [|reflexivity].
    rewrite handle_recv_silent. reflexivity.
  Qed.

  (** One or two receive calls of the transport: what [mbus_recv_frame] can do in general. *)
  Definition codes : list Z := [RECV_OK; RECV_ERROR; RECV_INVALID; RECV_TIMEOUT; RECV_RESET].
  Lemma recv_total h f (w : W) : frame_obj f -> ev_bytes (w_evs w) ->
    exists c f' evs' got, mbus_recv_frame B (Some h) f w = Done (c, f', mkW (w_bus w) evs' (w_log w ++ [Received c got])) /\
      frame_obj f' /\ ev_bytes evs' /\ (ev_size evs' <= ev_size (w_evs w))%nat /\ (w_evs w <> [] -> (ev_size evs' < ev_size (w_evs w))%nat) /\
      In c codes /\ (exists gone, stream (w_evs w) = gone ++ stream evs') /\
      (c = RECV_OK <-> exists t, valid t /\ got = wire t /\ denotes f' t) /\ (exists pre, stream (w_evs w) = pre ++ got ++ stream evs').
  Proof.
    intros Ho Hb. destruct (handle_recv_total h f (w_evs w) Ho Hb) as (c & f1 & e1 & g1 & E1 & O1 & B1 & G1 & L1 & S1 & C1 & K1 & _).
    unfold mbus_recv_frame. rewrite E1. cbn [obind]. destruct (_ || _).
    - destruct (handle_recv_total h f1 e1 O1 B1) as (c2 & f2 & e2 & g2 & E2 & O2 & B2 & G2 & L2 & S2 & C2 & K2 & _). rewrite E2. cbn [obind].
      exists c2, f2, e2, g2. split; [reflexivity|]. do 2 (split; [assumption|]). split; [lia|]. split; [intros H; specialize (S1 H); lia|].
      split; [assumption|]. split; [exists (g1 ++ g2); rewrite <- app_assoc, G2; auto|].
      split; [exact K2|]. exists g1. rewrite G2. auto.
    - exists c, f1, e1, g1. split; [reflexivity|]. do 2 (split; [assumption|]). split; [lia|]. split; [assumption|].
      split; [assumption|]. split; [exists g1; auto|]. split; [exact K1|]. exists []. auto.
  Qed.
  Lemma recv_data h f (w : W) c f' w' : all_data (w_evs w) -> mbus_recv_frame B (Some h) f w = Done (c, f', w') ->
    all_data (w_evs w') /\ (c = RECV_TIMEOUT -> w_evs w' = []).
  Proof.
    intros Ha H. unfold mbus_recv_frame in H. destruct (handle_recv h f (w_evs w)) as [[[[c1 f1] e1] g1]| |] eqn:E1; cbn [obind] in H; try discriminate.
    destruct (handle_recv_data _ _ _ _ _ _ _ Ha E1) as [A1 T1]. destruct (_ || _).
    - destruct (handle_recv h f1 e1) as [[[[c2 f2] e2] g2]| |] eqn:E2; cbn [obind] in H; try discriminate. injection H as <- <- <-.
      exact (handle_recv_data _ _ _ _ _ _ _ A1 E2).
    - injection H as <- <- <-. auto.
  Qed.

  (** ** Purging *)
  Definition received_only (l : list action) : Prop := Forall (fun a => exists c got, a = Received c got) l.
  Lemma purge_ok h : forall fuel f (w : W) r, frame_obj f -> ev_bytes (w_evs w) -> (ev_size (w_evs w) < fuel)%nat -> (r = 0 \/ r = 1) ->
    exists r' w' new, purge_loop B fuel (Some h) f w r = Done (r', w') /\ (r' = 0 \/ r' = 1) /\ (r = 1 -> r' = 1) /\
      w_bus w' = w_bus w /\ ev_bytes (w_evs w') /\ (ev_size (w_evs w') <= ev_size (w_evs w))%nat /\
      w_log w' = w_log w ++ new /\ received_only new /\ (exists gone, stream (w_evs w) = gone ++ stream (w_evs w')) /\
      (all_data (w_evs w) -> w_evs w' = []).
  Proof.
    induction fuel as [|fuel IH]; intros f w r Ho Hb Hf Hr; [lia|]. cbn [purge_loop].
    destruct (recv_total h f w Ho Hb) as (c & f' & evs' & got & E & O' & B' & L & S' & C & (gone & G) & _). rewrite E. cbn [obind].
    assert (RD := fun Ha => recv_data h f w c f' _ Ha E).
    destruct (negb (c =? RECV_OK) && negb (c =? RECV_INVALID)) eqn:X.
    - exists r, (mkW (w_bus w) evs' (w_log w ++ [Received c got])), [Received c got]. cbn [w_bus w_evs w_log].
      do 8 (split; [auto; repeat constructor; eauto|]). split; [eauto|].
      intros Ha. destruct (RD Ha) as [_ T]. apply T. cbn [w_evs] in *.
      unfold codes in C. cbn in C. destruct C as [<-|[<-|[<-|[<-|[<-|[]]]]]]; cbn in X; try discriminate; [|reflexivity|].
      + exfalso. destruct (all_data_no_error _ Ha) as (N & _).
        unfold mbus_recv_frame in E. destruct (handle_recv_total h f (w_evs w) Ho Hb) as (c1 & f1 & e1 & g1 & E1 & O1 & B1 & G1 & L1 & S1 & C1 & K1 & I1 & R1 & _).
        rewrite E1 in E. cbn [obind] in E. destruct (handle_recv_data _ _ _ _ _ _ _ Ha E1) as [A1 _].
        destruct (_ || _) in E.
        * destruct (handle_recv_total h f1 e1 O1 B1) as (c2 & f2 & e2 & g2 & E2 & O2 & B2 & G2 & L2 & S2 & C2 & K2 & I2 & R2 & _).
          rewrite E2 in E. cbn [obind] in E. injection E as -> _ _. destruct (R2 eq_refl) as (e & He1 & He2).
          exact (proj1 (all_data_no_error _ A1) e He1 He2).
        * injection E as -> _ _. destruct (R1 eq_refl) as (e & He1 & He2). exact (N e He1 He2).
      + exfalso. destruct (all_data_no_error _ Ha) as (_ & N1 & N2).
        unfold mbus_recv_frame in E. destruct (handle_recv_total h f (w_evs w) Ho Hb) as (c1 & f1 & e1 & g1 & E1 & O1 & B1 & G1 & L1 & S1 & C1 & K1 & I1 & R1 & Z1).
        rewrite E1 in E. cbn [obind] in E. destruct (handle_recv_data _ _ _ _ _ _ _ Ha E1) as [A1 _].
        destruct (_ || _) in E.
        * destruct (handle_recv_total h f1 e1 O1 B1) as (c2 & f2 & e2 & g2 & E2 & O2 & B2 & G2 & L2 & S2 & C2 & K2 & I2 & R2 & Z2).
          rewrite E2 in E. cbn [obind] in E. injection E as -> _ _. destruct (all_data_no_error _ A1) as (_ & M1 & M2). destruct (Z2 eq_refl); contradiction.
        * injection E as -> _ _. destruct (Z1 eq_refl); contradiction.
    - assert (Hne : w_evs w <> []).
      { intros Ee. rewrite (recv_silent h f w Ee) in E. injection E as <- _ _. discriminate. }
      specialize (S' Hne).
      destruct (IH f' (mkW (w_bus w) evs' (w_log w ++ [Received c got])) 1 O' B') as (r' & w' & new & E' & R' & R1 & Bus & Ev & L' & Lg & Ro & (g' & G') & Hd).
      { cbn [w_evs]. lia. } { auto. }
      exists r', w', (Received c got :: new). cbn [w_bus w_evs w_log] in *.
      split; [assumption|]. split; [assumption|]. split; [auto|]. split; [assumption|]. split; [assumption|]. split; [lia|].
      split; [rewrite Lg, <- app_assoc; reflexivity|]. split; [constructor; eauto|]. split; [exists (gone ++ g'); rewrite <- app_assoc, <- G'; assumption|].
      intros Ha. apply Hd. apply (RD Ha).
  Qed.
  Lemma purge_frames_ok h (w : W) : ev_bytes (w_evs w) ->
    exists r w' new, mbus_purge_frames B (Some h) w = Done (r, w') /\ (r = 0 \/ r = 1) /\
      w_bus w' = w_bus w /\ ev_bytes (w_evs w') /\ (ev_size (w_evs w') <= ev_size (w_evs w))%nat /\
      w_log w' = w_log w ++ new /\ received_only new /\ (exists gone, stream (w_evs w) = gone ++ stream (w_evs w')) /\
      (all_data (w_evs w) -> w_evs w' = []).
  Proof.
    intros Hb. destruct (purge_ok h (S (ev_size (w_evs w))) frame_zero w 0) as (r & w' & new & H1 & H2 & _ & H); [reflexivity|assumption|lia|auto|].
    exists r, w', new. auto.
  Qed.
  Lemma purge_silent h (w : W) : w_evs w = [] ->
    mbus_purge_frames B (Some h) w = Done (0, mkW (w_bus w) [] (w_log w ++ [Received RECV_TIMEOUT []])).
  Proof. intros E. unfold mbus_purge_frames. cbn [purge_loop]. rewrite recv_silent by assumption. reflexivity. Qed.
  (** If the first receive call finds something, the purge reports it. *)
  Lemma purge_reports h (w : W) c f' w1 : ev_bytes (w_evs w) -> mbus_recv_frame B (Some h) frame_zero w = Done (c, f', w1) ->
    c = RECV_OK \/ c = RECV_INVALID -> exists w', mbus_purge_frames B (Some h) w = Done (1, w').
  Proof.
    intros Hb E Hc. unfold mbus_purge_frames. cbn [purge_loop]. rewrite E. cbn [obind].
    destruct (recv_total h frame_zero w) as (c0 & f0 & evs' & got0 & E0 & O' & B' & L & S' & C & _); [reflexivity|assumption|].
    rewrite E in E0. injection E0 as <- <- ->.
    assert (Hne : w_evs w <> []). { intros Ee. rewrite (recv_silent h _ w Ee) in E. injection E as <- _ _. destruct Hc; discriminate. }
    specialize (S' Hne).
    destruct (purge_ok h (ev_size (w_evs w)) f' (mkW (w_bus w) evs' (w_log w ++ [Received c got0])) 1) as (r' & w' & new & E' & R' & R1 & _); [assumption|assumption|cbn [w_evs]; lia|auto|].
    rewrite E', (R1 eq_refl). exists w'. destruct Hc as [->| ->]; reflexivity.
  Qed.
End Line.

(** Noise: input starting with a byte that starts no telegram, or with an acknowledgement byte. *)
Lemma noise_recv h f l evs : frame_obj f -> l <> [] -> bytes l -> hd 0 l <> 0x10 -> hd 0 l <> 0x68 ->
  exists c f', handle_recv h f (Data l :: evs) = Done (c, f', if (length l =? 1)%nat then evs else Data (tl l) :: evs, [hd 0 l]) /\
    (c = if hd 0 l =? 0xE5 then RECV_OK else RECV_INVALID) /\ (hd 0 l <> 0xE5 -> control f' = control f /\ ftype f' = ftype f) /\ (hd 0 l = 0xE5 -> ftype f' = T_ACK) /\ frame_obj f'.
Proof.
  intros Ho Hl Hb H1 H2. destruct l as [|b l]; [congruence|]. cbn [hd] in *.
  assert (R : forall d, read_ev d (Data (b :: l) :: evs) 1 = (RBytes [b], if (length (b :: l) =? 1)%nat then evs else Data (tl (b :: l)) :: evs)).
  { intros d. cbn [read_ev]. destruct l as [|b' l]; reflexivity. }
  assert (P : exists r f', mbus_parse f [b] = Ok (r, f') /\ (r = if b =? 0xE5 then 0 else -4) /\ (b <> 0xE5 -> control f' = control f /\ ftype f' = ftype f) /\ (b = 0xE5 -> ftype f' = T_ACK) /\ frame_obj f').
  { unfold mbus_parse. cbn [length Z.of_nat Z.gtb Z.compare rd nth_error bind]. destruct (Z.eqb_spec b 0xE5).
    - eexists _, _. split; [reflexivity|]. split; [reflexivity|]. split; [congruence|]. split; [reflexivity|exact Ho].
    - destruct (Z.eqb_spec b 0x10); [congruence|]. destruct (Z.eqb_spec b 0x68); [congruence|].
      eexists _, _. split; [reflexivity|]. split; [reflexivity|]. split; [auto|]. split; [congruence|exact Ho]. }
  destruct P as (r & f' & P & Hr & P1 & P2 & P3).
  unfold handle_recv, mbus_serial_recv_frame, mbus_tcp_recv_frame.
  destruct (is_serial h).
  - cbn [ev_size Nat.add serial_loop]. change (Z.of_nat (length (@nil Z)) + 1 >? PACKET_BUFF_SIZE) with false. cbv iota.
    change (Z.to_nat 1) with 1%nat. rewrite R. change (Z.of_nat (length [b]) =? 0) with false. cbn [andb].
    change (Z.of_nat (length (@nil Z)) + Z.of_nat (length [b]) >? PACKET_BUFF_SIZE) with false. cbv iota. cbn [app]. rewrite P. cbn [bind].
    subst r. destruct (Z.eqb_spec b 0xE5).
    + change (0 >? 0) with false. cbv iota. eexists _, f'. split; [reflexivity|]. auto.
    + change (-4 >? 0) with false. cbv iota. eexists _, f'. split; [reflexivity|]. auto.
  - cbn [ev_size Nat.add tcp_loop]. change (Z.of_nat (length (@nil Z)) + 1 >? PACKET_BUFF_SIZE) with false. cbv iota.
    change (Z.to_nat 1) with 1%nat. rewrite R. change (length [b] =? 0)%nat with false. cbv iota.
    change (Z.of_nat (length (@nil Z)) + Z.of_nat (length [b]) >? PACKET_BUFF_SIZE) with false. cbv iota. cbn [app]. rewrite P. cbn [bind].
    subst r. destruct (Z.eqb_spec b 0xE5).
    + change (0 >? 0) with false. change (0 <? 0) with false. cbv iota. eexists _, f'. split; [reflexivity|]. auto.
    + change (-4 >? 0) with false. change (-4 <? 0) with true. cbv iota. eexists _, f'. split; [reflexivity|]. auto.
Qed.

(** Proofs about what the programs say: each program. *)
From Coq Require Import String.
From Coq Require Import List.
From Verif Require Import CBase PBase CStr MFrame SWire SFrame PFrame MText MXml MCodec MRecv SRecv PRecv MVar SVar MSecond MProto SProto PProto PProto2 SReq PReq PReq2 SSecond PSecond SNet SBus MHex MTools MProg PProg MConn MErr SErr PErr PErr5 PErr6 MErrT SErrT PErrT MMem MScan MCmd SCmd MMain SMain PMain MErrA SErrA PErrA PErrA2 PErrA3 PropErrA MMainE SMainE PMainE.
Local Open Scope Z_scope.

Section OnBus.
  Variable B : Type.
  Variable wret : B -> Z -> Z.
  Variable react : B -> list Z -> B * list ev.
  Variable why : list Z.
  Hypothesis RB : forall b l, ev_bytes (snd (react b l)).
  Hypothesis WR : forall b n, 0 <= n <= 2048 -> - 2 ^ 31 <= wret b n < 2 ^ 31.
  Notation W := (world B).
  Notation inv d := (err_ok (dg_text d)).
  Notation said2 := (said_app _ _ _ _ _ _ _).

  Ltac same_log L1 L2 := rewrite L2, L1, <- app_assoc; reflexivity.

  (** A receive call after the telegrams, and what the program does with its result. *)
  Lemma heard_last l c g : heard (l ++ [Received c g]) = Some c.
  Proof. apply heard_received. Qed.

  (** ** mbus-serial-set-address *)
  Lemma set_address_said h junk old o v (w : W) d code ok w' : inv d -> ev_bytes (w_evs w) -> sound junk -> legal_slave old -> 0 <= o_num o <= 252 ->
    set_address_main B wret react h junk old (o_num o) w = Done (code, ok, w') ->
    exists d' l own, set_address_main_d B wret react why h junk old (o_num o) w d = Done (code, ok, w', d') /\ w_log w' = w_log w ++ l /\
      said (is_serial h) why d d' own /\ forall t, t <> [] -> ended SetAddress o v old (c_text (dg_text d')) code (if ok : bool then t else []) l own.
  Proof.
    intros He Hev Hj Hl Hn E. unfold set_address_main in E. unfold set_address_main_d, tell_why.
    assert (N : mbus_is_primary_address (o_num o) = true) by (unfold mbus_is_primary_address; lia). rewrite N in *. cbn [negb] in *.
    assert (X : (o_num o =? 0xFD) || (o_num o =? 0xFE) || (o_num o =? 0xFF) = false) by lia. rewrite X in *. clear N X.
    change (init_slaves B wret react) with (init_p B wret react 0xFD) in E.
    destruct (init_said B wret react why RB WR 0xFD h w d He Hev ltac:(lia)) as (r & w1 & d1 & l1 & E1 & E2 & L1 & V1 & I1 & C1). rewrite E1 in E. rewrite E2. cbn [obind] in *.
    destruct C1 as [(-> & F1 & S1)|(-> & S1)]; [change (0 =? 0) with true in *|change (1 =? 0) with false in *]; cbv iota in *.
    { injection E as <- <- <-. exists d1, l1, [ping_failed]. split; [reflexivity|]. split; [exact L1|]. split; [exact S1|]. intros t _. apply E_pings; [reflexivity|]. exact (ends_heard [] l1 F1). }
    destruct (ping_said B wret react why RB WR h (o_num o) false w1 d1 I1 V1 ltac:(lia)) as (r & w2 & d2 & l2 & E3 & E4 & L2 & V2 & I2 & Q2 & C2). rewrite E3 in E. rewrite E4. cbn [obind] in *.
    destruct (Q2 eq_refl) as (bs & ->). assert (K2 : w_log w2 = w_log w ++ (l1 ++ [Sent bs])) by same_log L1 L2.
    destruct C2 as [(-> & _ & S2)|(-> & S2)]; [change (-1 =? -1) with true in *|change (0 =? -1) with false in *]; cbv iota in *.
    { injection E as <- <- <-. eexists. exists (l1 ++ [Sent bs]). eexists (([] ++ [ping_failed]) ++ [_]). split; [reflexivity|]. split; [exact K2|]. split; [apply said_tell; [reflexivity|exact (said2 S1 S2)]|].
      intros t _. rewrite tell_text. apply E_check_unsent; [reflexivity|apply heard_sent]. }
    pose proof (said2 S1 S2) as S12. cbn [app] in S12.
    destruct (recv_said B why h junk w2 d2 I2 Hj V2) as (c & f3 & w3 & d3 & g & E5 & E6 & L3 & S3 & I3 & F3 & V3). rewrite E5 in E. rewrite E6. cbn [obind] in *.
    assert (K3 : w_log w3 = w_log w ++ ((l1 ++ [Sent bs]) ++ [Received c g])) by same_log K2 L3.
    pose proof (said2 S12 S3) as S13. cbn [app] in S13.
    destruct (Z.eqb_spec c RECV_TIMEOUT) as [Ec|Ec]; cbn [negb] in *.
    2:{ injection E as <- <- <-. eexists. eexists. eexists ([] ++ [_]). split; [reflexivity|]. split; [exact K3|]. split; [apply said_tell; [reflexivity|exact S13]|].
        intros t _. rewrite tell_text. apply (E_check_heard _ _ _ _ _ c); [reflexivity|apply heard_last|exact Ec]. }
    destruct (address_said B wret react why RB WR SetAddress h old w3 d3 I3 V3 Hl) as (a & w4 & d4 & l4 & own & E7 & E8 & L4 & V4 & I4 & S4 & C4). rewrite E7 in E. rewrite (E8 SetAddress eq_refl). cbn [obind] in *.
    assert (K4 : w_log w4 = w_log w ++ (((l1 ++ [Sent bs]) ++ [Received c g]) ++ l4)) by same_log K3 L4.
    pose proof (said2 S13 S4) as S14. cbn [app] in S14.
    destruct a as [a|].
    2:{ injection E as <- <- <-. exists d4. eexists. exists own. split; [reflexivity|]. split; [exact K4|]. split; [exact S14|]. intros t _. apply C4. reflexivity. }
    destruct C4 as [-> U].
    destruct (order_said B wret react why RB WR h (OAddress a (o_num o)) w4 d4 I4 V4 I) as (r & w5 & d5 & l5 & E9 & E10 & L5 & V5 & I5 & C5). cbn [do_order do_order_d] in E9, E10. rewrite E9 in E. rewrite E10. cbn [obind] in *.
    set (l0 := ((l1 ++ [Sent bs]) ++ [Received c g]) ++ l4) in *.
    assert (K5 : w_log w5 = w_log w ++ (l0 ++ l5)) by same_log K4 L5.
    destruct C5 as [(-> & F5 & S5)|(-> & (bs5 & ->) & S5)]; [change (-1 =? -1) with true in *|change (0 =? -1) with false in *]; cbv iota in *.
    { injection E as <- <- <-. eexists. exists (l0 ++ l5). eexists (([] ++ [_]) ++ [_]). split; [reflexivity|]. split; [exact K5|]. split; [apply said_tell; [reflexivity|exact (said2 S14 S5)]|].
      intros t _. rewrite tell_text. apply (E_order SetAddress o v old _ a (OAddress a (o_num o))); [exact U|reflexivity|]. intros Z. apply ends_heard. exact (F5 Z). }
    pose proof (said2 S14 S5) as S15. cbn [app] in S15.
    destruct (recv_said B why h frame_zero w5 d5 I5 sound_zero V5) as (c6 & f6 & w6 & d6 & g6 & E11 & E12 & L6 & S6 & I6 & F6 & V6). rewrite E11 in E. rewrite E12. cbn [obind] in *.
    assert (K6 : w_log w6 = w_log w ++ ((l0 ++ [Sent bs5]) ++ [Received c6 g6])) by same_log K5 L6.
    pose proof (said2 S15 S6) as S16. cbn [app] in S16.
    destruct (Z.eqb_spec c6 RECV_TIMEOUT) as [Ec6|Ec6].
    { injection E as <- <- <-. eexists. eexists. eexists ([] ++ [_]). split; [reflexivity|]. split; [exact K6|]. split; [apply said_tell; [reflexivity|exact S16]|].
      intros t _. apply E_silence; [reflexivity|]. rewrite heard_last. congruence. }
    destruct (mbus_frame_type f6 =? T_ACK); cbn [negb] in *.
    - injection E as <- <- <-. exists d6. eexists. exists []. split; [reflexivity|]. split; [exact K6|]. split; [exact S16|]. intros t Ht. apply (E_obeyed _ _ _ _ _ c6); [reflexivity|apply heard_last|exact Ec6|exact Ht].
    - injection E as <- <- <-. eexists. eexists. eexists ([] ++ [_]). split; [reflexivity|]. split; [exact K6|]. split; [apply said_tell; [reflexivity|exact S16]|].
      intros t _. apply (E_unknown _ _ _ _ _ c6); [reflexivity|apply heard_last|exact Ec6].
  Qed.

  (** ** mbus-serial-switch-baudrate *)
  Lemma switch_baudrate_said h junk n o v (w : W) d code ok w' : inv d -> ev_bytes (w_evs w) -> sound junk ->
    switch_baudrate_main B wret react h junk n (o_num o) w = Done (code, ok, w') ->
    exists d' l own, switch_baudrate_main_d B wret react why h junk n (o_num o) w d = Done (code, ok, w', d') /\ w_log w' = w_log w ++ l /\
      said (is_serial h) why d d' own /\ forall t, t <> [] -> ended SwitchBaudrate o v (Primary n) (c_text (dg_text d')) code (if ok : bool then t else []) l own.
  Proof.
    intros He Hev Hj E. unfold switch_baudrate_main in E. unfold switch_baudrate_main_d, tell_why.
    destruct (order_said B wret react why RB WR h (OBaud n (o_num o)) w d He Hev I) as (r & w5 & d5 & l5 & E9 & E10 & L5 & V5 & I5 & C5). cbn [do_order do_order_d] in E9, E10. rewrite E9 in E. rewrite E10. cbn [obind] in *.
    destruct C5 as [(-> & F5 & S5)|(-> & (bs5 & ->) & S5)]; [change (-1 =? -1) with true in *|change (0 =? -1) with false in *]; cbv iota in *.
    { injection E as <- <- <-. eexists. exists l5. eexists ([_] ++ [_]). split; [reflexivity|]. split; [exact L5|]. split; [apply said_tell; [reflexivity|exact S5]|].
      intros t _. rewrite tell_text. apply (E_order SwitchBaudrate o v (Primary n) _ n (OBaud n (o_num o))); [reflexivity|reflexivity|]. intros Z. apply (ends_heard []). exact (F5 Z). }
    destruct (recv_said B why h junk w5 d5 I5 Hj V5) as (c6 & f6 & w6 & d6 & g6 & E11 & E12 & L6 & S6 & I6 & F6 & V6). rewrite E11 in E. rewrite E12. cbn [obind] in *.
    assert (K6 : w_log w6 = w_log w ++ ([Sent bs5] ++ [Received c6 g6])) by same_log L5 L6.
    pose proof (said2 S5 S6) as S16. cbn [app] in S16.
    destruct (Z.eqb_spec c6 RECV_TIMEOUT) as [Ec6|Ec6].
    { injection E as <- <- <-. eexists. eexists. eexists ([] ++ [_]). split; [reflexivity|]. split; [exact K6|]. split; [apply said_tell; [reflexivity|exact S16]|].
      intros t _. apply E_silence; [reflexivity|]. rewrite heard_last. congruence. }
    destruct (mbus_frame_type f6 =? T_ACK); cbn [negb] in *.
    - injection E as <- <- <-. exists d6. eexists. exists []. split; [reflexivity|]. split; [exact K6|]. split; [exact S16|]. intros t Ht. apply (E_obeyed _ _ _ _ _ c6); [reflexivity|apply heard_last|exact Ec6|exact Ht].
    - injection E as <- <- <-. eexists. eexists. eexists ([] ++ [_]). split; [reflexivity|]. split; [exact K6|]. split; [apply said_tell; [reflexivity|exact S16]|].
      intros t _. apply (E_unknown _ _ _ _ _ c6); [reflexivity|apply heard_last|exact Ec6].
  Qed.

  (** ** mbus-tcp-application-reset *)
  Lemma application_reset_said h junk a o v (w : W) d code ok w' : inv d -> ev_bytes (w_evs w) -> sound junk -> legal_slave a ->
    application_reset_main B wret react h junk a (o_num o) w = Done (code, ok, w') ->
    exists d' l own, application_reset_main_d B wret react why h junk a (o_num o) w d = Done (code, ok, w', d') /\ w_log w' = w_log w ++ l /\
      said (is_serial h) why d d' own /\ forall t, t <> [] -> ended ApplicationReset o v a (c_text (dg_text d')) code (if ok : bool then t else []) l own.
  Proof.
    intros He Hev Hj Hl E. unfold application_reset_main in E. unfold application_reset_main_d, tell_why.
    destruct (address_said B wret react why RB WR ApplicationReset h a w d He Hev Hl) as (n & w4 & d4 & l4 & own & E7 & E8 & L4 & V4 & I4 & S4 & C4). rewrite E7 in E. rewrite (E8 ApplicationReset eq_refl). cbn [obind] in *.
    destruct n as [n|].
    2:{ injection E as <- <- <-. exists d4. eexists. exists own. split; [reflexivity|]. split; [exact L4|]. split; [exact S4|]. intros t _. exact (C4 eq_refl o v []). }
    destruct C4 as [-> U].
    destruct (order_said B wret react why RB WR h (OReset n (o_num o)) w4 d4 I4 V4 I) as (r & w5 & d5 & l5 & E9 & E10 & L5 & V5 & I5 & C5). cbn [do_order do_order_d] in E9, E10. rewrite E9 in E. rewrite E10. cbn [obind] in *.
    assert (K5 : w_log w5 = w_log w ++ (l4 ++ l5)) by same_log L4 L5.
    destruct C5 as [(-> & F5 & S5)|(-> & (bs5 & ->) & S5)]; [change (-1 =? -1) with true in *|change (0 =? -1) with false in *]; cbv iota in *.
    { injection E as <- <- <-. eexists. exists (l4 ++ l5). eexists (([] ++ [_]) ++ [_]). split; [reflexivity|]. split; [exact K5|]. split; [apply said_tell; [reflexivity|exact (said2 S4 S5)]|].
      intros t _. rewrite tell_text. apply (E_order ApplicationReset o v a _ n (OReset n (o_num o))); [exact U|reflexivity|]. intros Z. apply ends_heard. exact (F5 Z). }
    pose proof (said2 S4 S5) as S15. cbn [app] in S15.
    destruct (recv_said B why h junk w5 d5 I5 Hj V5) as (c6 & f6 & w6 & d6 & g6 & E11 & E12 & L6 & S6 & I6 & F6 & V6). rewrite E11 in E. rewrite E12. cbn [obind] in *.
    assert (K6 : w_log w6 = w_log w ++ ((l4 ++ [Sent bs5]) ++ [Received c6 g6])) by same_log K5 L6.
    pose proof (said2 S15 S6) as S16. cbn [app] in S16.
    destruct (Z.eqb_spec c6 RECV_TIMEOUT) as [Ec6|Ec6].
    { injection E as <- <- <-. eexists. eexists. eexists ([] ++ [_]). split; [reflexivity|]. split; [exact K6|]. split; [apply said_tell; [reflexivity|exact S16]|].
      intros t _. apply E_silence; [reflexivity|]. rewrite heard_last. congruence. }
    destruct (mbus_frame_type f6 =? T_ACK); cbn [negb] in *.
    - injection E as <- <- <-. exists d6. eexists. exists []. split; [reflexivity|]. split; [exact K6|]. split; [exact S16|]. intros t Ht. apply (E_obeyed _ _ _ _ _ c6); [reflexivity|apply heard_last|exact Ec6|exact Ht].
    - injection E as <- <- <-. eexists. eexists. eexists ([] ++ [_]). split; [reflexivity|]. split; [exact K6|]. split; [apply said_tell; [reflexivity|exact S16]|].
      intros t _. apply (E_unknown _ _ _ _ _ c6); [reflexivity|apply heard_last|exact Ec6].
  Qed.

  (** ** mbus-*-request-data *)
  Lemma request_data_said stamp p h a o v (w : W) d code t w' : requests p = true -> is_serial h = SCmd.serial p -> inv d -> ev_bytes (w_evs w) -> legal_slave a ->
    request_data_main B wret react stamp h a w = Done (code, t, w') ->
    exists d' l own, request_data_main_d B wret react why stamp h a w d = Done (code, t, w', d') /\ w_log w' = w_log w ++ l /\
      said (is_serial h) why d d' own /\ ended p o v a (c_text (dg_text d')) code (opt_text t) l own.
  Proof.
    intros Hp Hs He Hev Hl E. unfold request_data_main in E. unfold request_data_main_d, tell_why.
    assert (I0 : exists r w1 d1 l1, (if is_serial h then init_slaves B wret react h w else Done (1, w)) = Done (r, w1) /\
      (if is_serial h then init_d B wret react why 0xFD h w d else Done (1, w, d)) = Done (r, w1, d1) /\ w_log w1 = w_log w ++ l1 /\ ev_bytes (w_evs w1) /\ inv d1 /\
      (r = 0 /\ pings_first p = true /\ ends_sent l1 /\ said (is_serial h) why d d1 [ping_failed] \/ r = 1 /\ said (is_serial h) why d d1 [])).
    { destruct (is_serial h) eqn:Sh.
      - change (init_slaves B wret react) with (init_p B wret react 0xFD).
        destruct (init_said B wret react why RB WR 0xFD h w d He Hev ltac:(lia)) as (r & w1 & d1 & l1 & E1 & E2 & L1 & V1 & I1 & C1). rewrite Sh in C1. exists r, w1, d1, l1.
        assert (P : pings_first p = true) by (destruct p; try discriminate; reflexivity). intuition.
      - exists 1, w, d, []. rewrite app_nil_r. split; [reflexivity|]. split; [reflexivity|]. split; [reflexivity|]. split; [exact Hev|]. split; [exact He|]. right. split; [reflexivity|apply said_none]. }
    destruct I0 as (r & w1 & d1 & l1 & E1 & E2 & L1 & V1 & I1 & C1). rewrite E1 in E. rewrite E2. clear E1 E2. cbn [obind] in *.
    destruct C1 as [(-> & P & F1 & S1)|(-> & S1)]; [change (0 =? 0) with true in *|change (1 =? 0) with false in *]; cbv iota in *.
    { injection E as <- <- <-. exists d1, l1, [ping_failed]. split; [reflexivity|]. split; [exact L1|]. split; [exact S1|]. apply E_pings; [exact P|]. exact (ends_heard [] l1 F1). }
    destruct (address_said B wret react why RB WR p h a w1 d1 I1 V1 Hl) as (n & w4 & d4 & l4 & own & E7 & E8 & L4 & V4 & I4 & S4 & C4). rewrite E7 in E.
    rewrite (E8 SerialRequest ltac:(destruct p; try discriminate; reflexivity)). cbn [obind] in *.
    assert (K4 : w_log w4 = w_log w ++ (l1 ++ l4)) by same_log L1 L4.
    pose proof (said2 S1 S4) as S14. cbn [app] in S14.
    destruct n as [n|].
    2:{ injection E as <- <- <-. exists d4. eexists. exists own. split; [reflexivity|]. split; [exact K4|]. split; [exact S14|]. apply C4. destruct p; try discriminate; reflexivity. }
    destruct C4 as [-> U].
    destruct (order_said B wret react why RB WR h (ORequest n) w4 d4 I4 V4 I) as (r & w5 & d5 & l5 & E9 & E10 & L5 & V5 & I5 & C5). cbn [do_order do_order_d] in E9, E10. rewrite E9 in E. rewrite E10. cbn [obind] in *.
    set (l0 := l1 ++ l4) in *.
    assert (K5 : w_log w5 = w_log w ++ (l0 ++ l5)) by same_log K4 L5.
    destruct C5 as [(-> & F5 & S5)|(-> & (bs5 & ->) & S5)]; [change (-1 =? -1) with true in *|change (0 =? -1) with false in *]; cbv iota in *.
    { injection E as <- <- <-. eexists. exists (l0 ++ l5). eexists (([] ++ [_]) ++ [_]). split; [reflexivity|]. split; [exact K5|]. split; [apply said_tell; [reflexivity|exact (said2 S14 S5)]|].
      replace (cstr "Failed to send M-Bus request frame.") with (order_failed p (c_text (dg_text d5))) by (destruct p; try discriminate; reflexivity).
      rewrite tell_text. apply (E_order p o v a _ n (ORequest n)); [exact U|destruct p; try discriminate; reflexivity|]. intros Z. apply ends_heard. exact (F5 Z). }
    pose proof (said2 S14 S5) as S15. cbn [app] in S15.
    destruct (recv_said B why h frame_zero w5 d5 I5 sound_zero V5) as (c6 & f6 & w6 & d6 & g6 & E11 & E12 & L6 & S6 & I6 & F6 & V6). rewrite E11 in E. rewrite E12. cbn [obind] in *.
    assert (K6 : w_log w6 = w_log w ++ ((l0 ++ [Sent bs5]) ++ [Received c6 g6])) by same_log K5 L6.
    pose proof (said2 S15 S6) as S16. cbn [app] in S16.
    destruct (Z.eqb_spec c6 RECV_OK) as [Ec6|Ec6]; cbn [negb] in *.
    2:{ injection E as <- <- <-.
        assert (X : forall t, (is_serial h = true -> t = cstr ".") -> (is_serial h = false -> t = cstr ": " ++ c_text (dg_text d6)) ->
          ended p o v a (c_text (dg_text d6)) 1 [] ((l0 ++ [Sent bs5]) ++ [Received c6 g6]) [cstr "Failed to receive M-Bus response frame" ++ t]).
        { intros t X1 X2. replace t with (if SCmd.serial p then cstr "." else cstr ": " ++ c_text (dg_text d6)) by (rewrite <- Hs; destruct (is_serial h); symmetry; auto).
          apply (E_no_data p o v a _ c6); [exact Hp|apply heard_last|exact Ec6]. }
        destruct (is_serial h); eexists; eexists; eexists ([] ++ [_]); (split; [reflexivity|]); (split; [exact K6|]);
        (split; [apply said_tell; [reflexivity|exact S16]|]); rewrite tell_text; [exact (X (cstr ".") ltac:(reflexivity) ltac:(discriminate))|exact (X (cstr ": " ++ c_text (dg_text d6)) ltac:(discriminate) ltac:(reflexivity))]. }
    subst c6. destruct (sound_carries f6 F6) as (pl & Hc & Hk & Hi).
    pose proof (data_drop (dg_text d6) f6 pl fd_zero Hc (proj1 I6)) as D. pose proof (data_names (dg_text d6) f6 pl fd_zero) as N. pose proof (data_parse_type (dg_text d6) f6 fd_zero) as T.
    rewrite <- D in E. clear D. unfold drop_o in E.
    destruct (mbus_frame_data_parse_e (dg_text d6) (Some f6) (Some fd_zero)) as [[[r1 [fd1|]] e1]|]; cbn [lift obind] in *; try discriminate.
    specialize (N _ _ _ Hc Hk Hi (proj1 I6) eq_refl). specialize (T _ _ _ eq_refl).
    destruct N as [[-> ->]|(-> & m & _ & S7)].
    - change (0 =? -1) with false in *. cbv iota in *. destruct (T eq_refl) as (x & Ex & Hx). injection Ex as <-.
      destruct (mbus_frame_data_xml stamp fd1) as [[text|]|] eqn:Et; cbn [lift obind] in *; try discriminate.
      + injection E as <- <- <-. eexists. eexists. exists []. split; [reflexivity|]. split; [exact K6|]. split; [apply said_text; exact S16|]. apply E_data; [exact Hp|apply heard_last].
      + exfalso. exact (xml_some _ _ Hx Et).
    - change (-1 =? -1) with true in *. cbv iota in *. injection E as <- <- <-. eexists. eexists. eexists ([] ++ [_]). split; [reflexivity|]. split; [exact K6|].
      split; [apply said_tell; [reflexivity|apply said_text; exact S16]|]. rewrite tell_text. apply E_bad_data; [exact Hp|apply heard_last].
  Qed.
End OnBus.

(** Proofs about the programs of MProg. *)
From Verif Require Import CBase PBase CStr MFrame MCodec MVar MText SVar SText SCodec PCodec SXml MXml SWire SFrame PFrame PFrame2 PVar PVar2 PVar3 PXml2 PXml4 MRecv SRecv PRecv PropFrame PropRecv MSecond SSecond PSecond MProto SProto PProto PProto2 PropProto PReq SReq PReq2 SBus PBus PBus2 PBus3 PropVar PropXml PropReq MHex SHex PropHex MXmlN MTools MProg PAny.

(** ** Files *)
Lemma dump_length s bs : hex_dump s bs -> (2 * length bs <= length s)%nat.
Proof. induction 1; cbn [length]; lia. Qed.
Lemma file_dump file bs : hex_dump file bs -> (length file <= 4096)%nat -> file_bytes file = Ok bs.
Proof.
  intros H L. pose proof (dump_length _ _ H) as Lb. unfold file_bytes, raw_buff. rewrite (firstn_all2 file) by lia.
  assert (R : mbus_hex2bin (repeat 0 4096) 4096 (file ++ repeat 0 (4096 - length file)) = Ok (length bs, bs ++ repeat 0 (4096 - length bs))).
  { assert (F : firstn 4096 bs = bs) by (apply firstn_all2; lia). assert (K : skipn 4096 (repeat 0 4096) = @nil Z) by (apply skipn_all2; rewrite repeat_length; lia).
    destruct (4096 - length file)%nat as [|k] eqn:Ek.
    - cbn [repeat]. rewrite app_nil_r. pose proof (C46_converts (repeat 0 4096) 4096 file bs ltac:(rewrite repeat_length; lia) H) as X. cbv zeta in X. rewrite F, K, app_nil_r in X. exact X.
    - cbn [repeat]. pose proof (C46_stops_partial (repeat 0 4096) 4096 file bs 0 (repeat 0 k) ltac:(rewrite repeat_length; lia) H) as X. cbv zeta in X. rewrite F, K, app_nil_r in X. apply X.
      left. split; [reflexivity|]. split; [unfold white; lia|lia]. }
  rewrite R. cbn [bind]. rewrite firstn_app, firstn_all, Nat.sub_diag. cbn [firstn]. rewrite app_nil_r. reflexivity.
Qed.
Lemma file_any file : exists bs, file_bytes file = Ok bs /\ bytes bs /\ (length bs <= 4096)%nat.
Proof.
  unfold file_bytes. destruct (C46_bounded (repeat 0 4096) 4096 (raw_buff file) ltac:(rewrite repeat_length; lia)) as (out & E & L & Hb). rewrite E. cbn [bind].
  eexists. split; [reflexivity|]. rewrite firstn_app, firstn_all, Nat.sub_diag. cbn [firstn]. rewrite app_nil_r. auto.
Qed.

(** ** What is read from a frame object depends on its telegram only *)
Lemma long_carries f c a ci p : frame_obj f -> bytes (fdata f) -> denotes f (Long c a ci p) -> valid (Long c a ci p) -> carries f p /\ is_byte (control f).
Proof.
  intros Ho Hb (D1 & D2 & D3 & D4 & D5 & D6) (V1 & V2 & V3 & V4 & V5). split.
  - split; [exact Ho|]. split; [assumption|]. split; [assumption|]. split; [assumption|exact (proj2 V5)].
  - rewrite D2. clear - V1. cbn in V1. intuition (subst; unfold is_byte; try lia).
Qed.
Lemma fixed_unique p x y : fixed_layout p x -> fixed_layout p y -> x = y.
Proof.
  intros (E1 & A1 & A2 & A3) (E2 & B1 & B2 & B3). destruct x as [i t s u v a b], y as [i' t' s' u' v' a' b']. cbn [x_id x_tx_cnt x_status x_type1 x_type2 x_val1 x_val2] in *.
  rewrite E1 in E2. apply app_inj_len in E2; [|congruence]. destruct E2 as [-> E2]. cbn [app] in E2. injection E2 as -> -> -> -> E2. apply app_inj_len in E2; [|congruence]. destruct E2 as [-> ->]. reflexivity.
Qed.
Lemma data_unique f g c a ci p fd : frame_obj f -> bytes (fdata f) -> denotes f (Long c a ci p) -> frame_obj g -> bytes (fdata g) -> denotes g (Long c a ci p) ->
  valid (Long c a ci p) -> (length p <= 250)%nat -> mbus_frame_data_parse f fd = mbus_frame_data_parse g fd.
Proof.
  intros Of Bf Df Og Bg Dg V L. destruct (long_carries _ _ _ _ _ Of Bf Df V) as [Cf Hf]. destruct (long_carries _ _ _ _ _ Og Bg Dg V) as [Cg Hg].
  destruct (C27_dispatch f p fd Cf Hf) as (F1 & F2 & F3 & F4 & F5 & F6). destruct (C27_dispatch g p fd Cg Hg) as (G1 & G2 & G3 & G4 & G5 & G6).
  destruct Df as (_ & Ec & _ & Ei & _). destruct Dg as (_ & Ec' & _ & Ei' & _). rewrite Ec, Ei in *. rewrite Ec', Ei' in *. assert (P : p <> []) by (destruct V as (_ & _ & _ & _ & K); intros ->; cbn in K; lia).
  destruct (Z.eq_dec ((c / 64) mod 2) 0) as [S0|S0]; [|rewrite F1, G1 by assumption; reflexivity].
  destruct (Z.eq_dec ci 0x70) as [I|I]; [rewrite F2, G2 by assumption; reflexivity|].
  destruct (Z.eq_dec ci 0x73) as [I'|I'].
  { rewrite F3, G3 by assumption. destruct (C26_fixed_parse f p (d_fix fd) Cf) as [P1 P2]. destruct (C26_fixed_parse g p (d_fix fd) Cg) as [Q1 Q2].
    destruct (Nat.eq_dec (length p) 16) as [L16|L16]; [|rewrite P2, Q2 by assumption; reflexivity].
    destruct (P1 L16) as (x & -> & X). destruct (Q1 L16) as (y & -> & Y). rewrite (fixed_unique p x y X Y). reflexivity. }
  destruct (Z.eq_dec ci 0x72) as [I''|I'']; [|rewrite F6, G6 by assumption; reflexivity].
  rewrite F4, G4 by assumption. destruct (le_lt_dec 12 (length p)) as [L12|L12].
  - rewrite (C57_stale_bytes_ignored f g p (d_var fd) (d_var fd) Cf Cg ltac:(lia)). reflexivity.
  - rewrite (parse_short f p _ Cf L12), (parse_short g p _ Cg L12). reflexivity.
Qed.

Lemma data_zero f fd fd' : mbus_frame_data_parse f fd = Ok (0, fd') -> (control f / 64) mod 2 = 0 /\ (ctrl_info f = 0x70 \/ ctrl_info f = 0x72 \/ ctrl_info f = 0x73).
Proof.
  unfold mbus_frame_data_parse. destruct (Z.eqb_spec (Z.land (control f) 0x40) 0) as [Hd|Hd]; [|intros E; assert (X : 0 = -1) by congruence; discriminate X].
  assert (M : (control f / 64) mod 2 = 0).
  { change 64 with (2 ^ 6). change 0x40 with (2 ^ 6) in Hd. rewrite <- Z.testbit_spec' by lia. assert (T : Z.testbit (Z.land (control f) (2 ^ 6)) 6 = false) by (rewrite Hd; reflexivity). rewrite Z.land_spec in T.
    change (Z.testbit (2 ^ 6) 6) with true in T. rewrite andb_true_r in T. rewrite T. reflexivity. }
  destruct (Z.eqb_spec (ctrl_info f) 0x70) as [->|N1]; [intros _; split; [exact M|auto]|]. destruct (Z.eqb_spec (ctrl_info f) 0x73) as [->|N2]; [intros _; split; [exact M|auto]|].
  destruct (Z.eqb_spec (ctrl_info f) 0x72) as [->|N3]; [intros _; split; [exact M|auto]|]. intros E. assert (X : 0 = -1) by congruence. discriminate X.
Qed.
Lemma data_refused f fd : ~ ((control f / 64) mod 2 = 0 /\ (ctrl_info f = 0x70 \/ ctrl_info f = 0x72 \/ ctrl_info f = 0x73)) -> mbus_frame_data_parse f fd = Ok (-1, fd).
Proof.
  intros N. unfold mbus_frame_data_parse. destruct (Z.eqb_spec (Z.land (control f) 0x40) 0) as [Hd|Hd]; [|reflexivity].
  assert (M : (control f / 64) mod 2 = 0).
  { change 64 with (2 ^ 6). change 0x40 with (2 ^ 6) in Hd. rewrite <- Z.testbit_spec' by lia. assert (T : Z.testbit (Z.land (control f) (2 ^ 6)) 6 = false) by (rewrite Hd; reflexivity). rewrite Z.land_spec in T.
    change (Z.testbit (2 ^ 6) 6) with true in T. rewrite andb_true_r in T. rewrite T. reflexivity. }
  destruct (Z.eqb_spec (ctrl_info f) 0x70); [exfalso; apply N; auto|]. destruct (Z.eqb_spec (ctrl_info f) 0x73); [exfalso; apply N; auto|].
  destruct (Z.eqb_spec (ctrl_info f) 0x72); [exfalso; apply N; auto|]. reflexivity.
Qed.
Lemma data_codes f c a ci p fd q fd' : frame_obj f -> bytes (fdata f) -> denotes f (Long c a ci p) -> valid (Long c a ci p) ->
  mbus_frame_data_parse f fd = Ok (q, fd') -> q = 0 \/ q = -1.
Proof.
  intros Of Bf Df V E. destruct (long_carries _ _ _ _ _ Of Bf Df V) as [Cf Hf].
  destruct (C27_dispatch f p fd Cf Hf) as (F1 & F2 & F3 & F4 & F5 & F6). assert (P : p <> []) by (destruct V as (_ & _ & _ & _ & K); intros ->; cbn in K; lia).
  clear Df V. destruct (Z.eq_dec ((control f / 64) mod 2) 0) as [S0|S0]; [|rewrite F1 in E by assumption; right; congruence].
  destruct (Z.eq_dec (ctrl_info f) 0x70) as [I|I]; [rewrite F2 in E by assumption; left; congruence|].
  destruct (Z.eq_dec (ctrl_info f) 0x73) as [I'|I'].
  { rewrite F3 in E by assumption. destruct (C26_fixed_parse f p (d_fix fd) Cf) as [P1 P2].
    destruct (Nat.eq_dec (length p) 16) as [L16|L16]; [|rewrite P2 in E by assumption; cbn [bind] in E; right; congruence].
    destruct (P1 L16) as (x & X & _). rewrite X in E. cbn [bind] in E. left; congruence. }
  destruct (Z.eq_dec (ctrl_info f) 0x72) as [I''|I'']; [|rewrite F6 in E by assumption; right; congruence].
  rewrite F4 in E by assumption. destruct (mbus_data_variable_parse f (d_var fd)) as [[r v]|] eqn:Ev; cbn [bind] in E; [|discriminate]. assert (r = q) by congruence. subst r.
  destruct (le_lt_dec 12 (length p)) as [L12|L12]; [exact (proj1 (bookkeeping f p _ _ _ Cf L12 Ev))|]. rewrite (parse_short f p _ Cf L12) in Ev. right. congruence.
Qed.

(** ** An object is an acknowledgement after a receive call only if one arrived or it was one before *)
Lemma parse_ack_type f bs r f' : mbus_parse f bs = Ok (r, f') -> r <> 0 -> ftype f' = T_ACK -> ftype f = T_ACK.
Proof.
  intros E Hr. unfold mbus_parse in E.
  repeat match type of E with
  | context [bind (copy_loop ?n ?d ?o ?s ?i) _] => destruct (copy_loop n d o s i) as [?|]; cbn [bind] in E; [|discriminate]
  | context [bind (rd ?l ?i) _] => destruct (rd l i); cbn [bind] in E; [|discriminate]
  | context [bind (mbus_frame_verify ?x) _] => destruct (mbus_frame_verify x); cbn [bind] in E; [|discriminate]
  | (if ?b then _ else _) = _ => destruct b
  end; try discriminate; injection E as <- <-; try lia; auto; cbn [ftype]; try discriminate; destruct (_ =? 0); discriminate.
Qed.
Lemma serial_ack : forall fuel f evs got rem tm c f' evs' got', c <> RECV_OK -> ftype f' = T_ACK -> rem <> 0 ->
  serial_loop fuel f evs got rem tm = Ok (Some (c, f', evs', got')) -> ftype f = T_ACK.
Proof.
  assert (FIN : forall f evs got rem c f' evs' got', c <> RECV_OK -> serial_finish f evs got rem = Ok (Some (c, f', evs', got')) -> f' = f /\ (rem <> 0 \/ got = [])).
  { intros f evs got rem c f' evs' got' H1 E. unfold serial_finish in E. destruct (Nat.eqb_spec (length got) 0) as [L|L].
    - injection E as _ <- _ _. split; [reflexivity|]. right. destruct got; [reflexivity|discriminate].
    - destruct (Z.eqb_spec rem 0); cbn [negb] in E; injection E as <- <- _ _; [congruence|auto]. }
  induction fuel as [|fuel IH]; intros f evs got rem tm c f' evs' got' H1 T R E; cbn [serial_loop] in E; [discriminate|].
  destruct (_ >? PACKET_BUFF_SIZE); [injection E as _ <- _ _; auto|].
  destruct (read_ev (RBytes []) evs (Z.to_nat rem)) as [[bs|e] es]; [|injection E as _ <- _ _; auto].
  destruct ((Z.of_nat (length bs) =? 0) && _); [destruct (FIN _ _ _ _ _ _ _ _ H1 E) as [-> _]; auto|].
  destruct (_ >? PACKET_BUFF_SIZE); [discriminate|].
  destruct (mbus_parse f (got ++ bs)) as [[r f1]|] eqn:Ep; cbn [bind] in E; [|discriminate].
  destruct (Z.gtb_spec r 0).
  - apply (parse_ack_type _ _ _ _ Ep ltac:(lia)). apply (IH f1 es (got ++ bs) r _ c f' evs' got' H1 T ltac:(lia) E).
  - destruct (FIN _ _ _ _ _ _ _ _ H1 E) as [-> [X|X]]; [exact (parse_ack_type _ _ _ _ Ep X T)|]. rewrite X in Ep. cbn in Ep. injection Ep as _ <-. exact T.
Qed.
Lemma tcp_ack : forall fuel f evs got rem c f' evs' got', c <> RECV_OK -> ftype f' = T_ACK ->
  tcp_loop fuel f evs got rem = Ok (Some (c, f', evs', got')) -> ftype f = T_ACK.
Proof.
  induction fuel as [|fuel IH]; intros f evs got rem c f' evs' got' H1 T E; cbn [tcp_loop] in E; [discriminate|].
  destruct (_ >? PACKET_BUFF_SIZE); [injection E as _ <- _ _; auto|].
  destruct (read_ev (RErr EAgain) evs (Z.to_nat rem)) as [[bs|e] es].
  2:{ destruct e; try (injection E as _ <- _ _; auto; fail). exact (IH _ _ _ _ _ _ _ _ H1 T E). }
  destruct (length bs =? 0)%nat; [injection E as _ <- _ _; auto|].
  destruct (_ >? PACKET_BUFF_SIZE); [discriminate|].
  destruct (mbus_parse f (got ++ bs)) as [[r f1]|] eqn:Ep; cbn [bind] in E; [|discriminate].
  destruct (Z.gtb_spec r 0).
  - apply (parse_ack_type _ _ _ _ Ep ltac:(lia)). exact (IH _ _ _ _ _ _ _ _ H1 T E).
  - destruct (Z.ltb_spec r 0); injection E as <- <- _ _; [|congruence]. exact (parse_ack_type _ _ _ _ Ep ltac:(lia) T).
Qed.
Lemma handle_recv_ack h f evs c f' evs' got : c <> RECV_OK -> ftype f' = T_ACK -> handle_recv h f evs = Done (c, f', evs', got) -> ftype f = T_ACK.
Proof.
  intros H1 T H. unfold handle_recv in H. destruct (is_serial h).
  - destruct (mbus_serial_recv_frame f evs) as [[[[[c1 f1] e1] g1]|]|] eqn:E; cbn in H; try discriminate. injection H as -> -> -> ->. refine (serial_ack _ _ _ _ _ _ _ _ _ _ H1 T _ E). discriminate.
  - destruct (mbus_tcp_recv_frame f evs) as [[[[[c1 f1] e1] g1]|]|] eqn:E; cbn in H; try discriminate. injection H as -> -> -> ->. exact (tcp_ack _ _ _ _ _ _ _ _ _ H1 T E).
Qed.
Lemma recv_ack B h f (w : world B) c f' w' : hears_slaves h -> ftype f <> T_ACK -> mbus_recv_frame B (Some h) f w = Done (c, f', w') -> ftype f' = T_ACK -> c = RECV_OK.
Proof.
  intros mode Nf E T. destruct (Z.eq_dec c RECV_OK) as [|H1]; [assumption|]. exfalso. unfold mbus_recv_frame in E.
  destruct (handle_recv h f (w_evs w)) as [[[[c1 f1] e1] g1]| |] eqn:E1; cbn [obind] in E; try discriminate.
  destruct (_ || _) eqn:Sk.
  - destruct (handle_recv h f1 e1) as [[[[c2 f2] e2] g2]| |] eqn:E2; cbn [obind] in E; try discriminate. injection E as -> -> _.
    pose proof (handle_recv_ack h f1 e1 _ _ _ _ H1 T E2) as T1.
    destruct mode as [M|M]; rewrite M in Sk; cbn in Sk; rewrite ?andb_false_r, ?andb_true_r, ?orb_false_r in Sk; [discriminate|].
    unfold mbus_frame_direction in Sk. rewrite T1 in Sk. discriminate.
  - injection E as -> -> _. exact (Nf (handle_recv_ack h f (w_evs w) _ _ _ _ H1 T E1)).
Qed.

Section Any.
  Variables (B : Type) (wret : B -> Z -> Z) (react : B -> list Z -> B * list ev) (h : handle).
  Hypothesis RB : hands_bytes react.
  Hypothesis mode : hears_slaves h.
  Notation W := (world B).

  Lemma ping_any a (w : W) : 0 <= a <= 255 -> ev_bytes (w_evs w) ->
    exists r w' new, mbus_send_ping_frame B wret react (Some h) a true w = Done (r, w') /\ ev_bytes (w_evs w') /\ w_log w' = w_log w ++ Sent (wire (Short 0x40 a)) :: new /\
      received_only new /\ (r = 0 \/ r = -1).
  Proof.
    intros Ha Hb. destruct (ping_emits B wret react h a w Ha) as (V & r & E & _ & R). unfold mbus_send_ping_frame in *.
    rewrite (proj2 (primary_spec a) Ha) in *. cbn [negb] in *. destruct (mbus_send_frame _ _ _ _ _ _) as [[[r1 f1] w1]| |]; cbn [obind] in *; try discriminate.
    pose proof (wrote_bytes B react RB w (wire (Short 0x40 a)) Hb) as Hb1.
    destruct (Z.eqb_spec r1 (-1)) as [->|N].
    - assert (X : w1 = after_write react w (wire (Short 0x40 a))) by congruence. subst w1. exists (-1). eexists. exists []. split; [reflexivity|]. split; [assumption|]. split; [reflexivity|]. split; [constructor|auto].
    - assert (X : w1 = after_write react w (wire (Short 0x40 a))) by congruence. subst w1.
      destruct (purge_frames_ok B h _ Hb1) as (p & w' & new & P1 & _ & _ & P2 & _ & P3 & P4 & _). rewrite P1. cbn [obind]. exists 0, w', new.
      split; [reflexivity|]. split; [assumption|]. split; [rewrite P3; unfold after_write; cbn [w_log]; rewrite <- app_assoc; reflexivity|]. auto.
  Qed.
  Lemma two_pings a b (w : W) : 0 <= a <= 255 -> 0 <= b <= 255 -> ev_bytes (w_evs w) ->
    exists r w' new, (do (r, w) <- mbus_send_ping_frame B wret react (Some h) a true w ;;
      if r =? -1 then Done (0, w) else do (r, w) <- mbus_send_ping_frame B wret react (Some h) b true w ;; if r =? -1 then Done (0, w) else Done (1, w)) = Done (r, w') /\
      ev_bytes (w_evs w') /\ w_log w' = w_log w ++ new /\ reports new = [] /\ (sends new <= 2)%nat /\ (r = 0 \/ r = 1).
  Proof.
    intros Ha Hb0 Hb. destruct (ping_any a w Ha Hb) as (r & w1 & n1 & E1 & B1 & L1 & R1 & _). rewrite E1. cbn [obind].
    destruct (r =? -1).
    { exists 0, w1. eexists. split; [reflexivity|]. split; [assumption|]. split; [exact L1|]. change (Sent (wire (Short 0x40 a)) :: n1) with ([Sent (wire (Short 0x40 a))] ++ n1).
      rewrite sends_app, reports_app, (received_sends _ R1), (received_reports _ R1). cbn. auto. }
    destruct (ping_any b w1 Hb0 B1) as (r2 & w2 & n2 & E2 & B2 & L2 & R2 & _). rewrite E2. cbn [obind].
    assert (L : w_log w2 = w_log w ++ ([Sent (wire (Short 0x40 a))] ++ n1) ++ [Sent (wire (Short 0x40 b))] ++ n2) by (rewrite L2, L1, <- !app_assoc; reflexivity).
    exists (if r2 =? -1 then 0 else 1), w2. eexists. split; [destruct (r2 =? -1); reflexivity|]. split; [assumption|]. split; [exact L|].
    rewrite !sends_app, !reports_app, (received_sends _ R1), (received_reports _ R1), (received_sends _ R2), (received_reports _ R2). cbn. split; [reflexivity|]. split; [lia|]. destruct (r2 =? -1); auto.
  Qed.

  (** The slave addressed: its selection was acknowledged, or it is addressed by a number. *)
  Lemma address_slave_any a (w : W) : match a with Primary _ => True | Secondary None => False | Secondary (Some s) => wf_mask s end -> ev_bytes (w_evs w) ->
    exists o w' new, address_slave B wret react h a w = Done (o, w') /\ ev_bytes (w_evs w') /\ w_log w' = w_log w ++ new /\ reports new = [] /\ (sends new <= 1)%nat /\
      match a with
      | Primary n => o = Some n /\ w' = w /\ new = []
      | Secondary None => False
      | Secondary (Some s) => o = None \/ o = Some 0xFD /\ exists c g, new = [Sent (wire (selection (mbytes s))); Received RECV_OK (wire Ack); Received c g] /\ c <> RECV_OK /\ c <> RECV_INVALID
      end.
  Proof.
    intros Ha Hb. unfold address_slave. destruct a as [n|[s|]]; [| |contradiction].
    - exists (Some n), w, []. rewrite app_nil_r. cbn. auto 10.
    - destruct (select_any B wret react h RB mode s w Ha Hb) as (r & w1 & n1 & E1 & B1 & L1 & C1 & S1 & R1 & X1). rewrite E1. cbn [obind].
      destruct (Z.eq_dec r PROBE_SINGLE) as [Hr|Hr].
      + rewrite Hr. change (_ || _ || _) with false. cbv iota. exists (Some 0xFD), w1, n1. split; [reflexivity|]. do 3 (split; [assumption|]). split; [lia|]. right. auto.
      + replace ((r =? PROBE_COLLISION) || (r =? PROBE_NOTHING) || (r =? PROBE_ERROR)) with true.
        2:{ revert C1 Hr. unfold probe_codes. cbn. intros [<-|[<-|[<-|[<-|[]]]]] K; reflexivity || congruence. }
        exists None, w1, n1. split; [reflexivity|]. do 3 (split; [assumption|]). split; [lia|auto].
  Qed.

  (** ** A telegram sent and its answer *)
  Lemma answer_any t junk (x : out (Z * W)) (w : W) : emits wret react x w t -> frame_obj junk -> ev_bytes (w_evs w) ->
    exists r w1, x = Done (r, w1) /\ ev_bytes (w_evs w1) /\ w_log w1 = w_log w ++ [Sent (wire t)] /\ (r = 0 \/ r = -1) /\
      exists c f' w', mbus_recv_frame B (Some h) junk w1 = Done (c, f', w') /\ frame_obj f' /\ ev_bytes (w_evs w') /\
        (bytes (fdata junk) -> bytes (fdata f')) /\
        exists g, w_log w' = w_log w ++ [Sent (wire t); Received c g] /\
          (c = RECV_OK -> exists u, valid u /\ g = wire u /\ denotes f' u) /\
          (ftype junk <> T_ACK -> ftype f' = T_ACK -> c = RECV_OK /\ g = wire Ack).
  Proof.
    intros (V & r & E & _ & R) Ho Hb. pose proof (wrote_bytes B react RB w (wire t) Hb) as Hb1. set (w1 := after_write react w (wire t)) in *.
    exists r, w1. split; [exact E|]. split; [assumption|]. split; [reflexivity|]. split; [assumption|].
    destruct (recv_total B h junk w1 Ho Hb1) as (c & f' & e' & got & E1 & O1 & B1 & _ & _ & C1 & _ & K1 & _).
    eexists c, f', _. split; [exact E1|]. split; [assumption|]. split; [assumption|]. split; [intros Hf; exact (recv_fdata B h junk w1 _ _ _ Ho Hf Hb1 E1)|].
    exists got. split; [cbn [w_log]; unfold w1, after_write; cbn [w_log]; rewrite <- app_assoc; reflexivity|]. split; [apply K1|].
    intros Nj T. pose proof (recv_ack B h junk w1 c f' _ mode Nj E1 T) as Hc. split; [assumption|]. destruct (proj1 K1 Hc) as (u & _ & -> & D). rewrite (denoted_type f' u D T). reflexivity.
  Qed.
End Any.

(** ** An object reused for the next telegram *)
Lemma hear_any B h f t (w : world B) body t2 rest : frame_obj f -> valid t -> from_master t -> hears_slaves h -> heard h t (w_evs w) body ->
  valid t2 -> ~ from_master t2 -> next_telegram h body t2 rest ->
  exists f', mbus_recv_frame B (Some h) f w = Done (RECV_OK, f', mkW (w_bus w) rest (w_log w ++ [Received RECV_OK (wire t2)])) /\ denotes f' t2 /\ frame_obj f'.
Proof.
  intros Ho V M mode Hh V2 M2 N2.
  assert (NS : ~ skipped (purge_first_frame h) t2). { intros [[_ F]|[X _]]; [exact (M2 F)|]. destruct mode as [Hm|Hm]; rewrite Hm in X; discriminate. }
  destruct Hh as [E|[P N]].
  - subst body. exact (recv_deliver B h f w t2 rest Ho V2 NS N2).
  - exact (recv_skip B h f w t body t2 rest Ho V V2 (or_introl (conj P M)) N N2).
Qed.
Lemma delimiters_parsed t f : delimiters (parsed t f).
Proof. destruct t as [|c a|c a ci|c a ci p]; unfold delimiters; cbn; try (intuition discriminate). destruct (Z.of_nat (length p) =? 0); intuition discriminate. Qed.
Lemma parsed_obj t f : frame_obj f -> valid t -> frame_obj (parsed t f).
Proof.
  intros Ho V. destruct (parse_total f (wire t) Ho (wire_bytes _ V)) as (r & f' & E' & O). rewrite (parse_wire f t Ho V) in E'. apply ok_inj2 in E'. destruct E' as [_ <-]. exact O.
Qed.

Lemma parse_zero_parsed f bs f' : frame_obj f -> bytes bs -> mbus_parse f bs = Ok (0, f') -> exists t, valid t /\ f' = parsed t f /\ (bs = wire t \/ (t = Ack /\ hd 0 bs = 0xE5)).
Proof.
  intros Ho Hb E. destruct (parse_zero_denotes f bs f' Ho Hb E) as (t & V & _ & X). exists t. split; [assumption|]. split; [|assumption]. destruct X as [->|[-> X]].
  - rewrite (parse_wire f t Ho V) in E. apply ok_inj2 in E. symmetry. apply E.
  - destruct bs as [|b tl]; [discriminate|]. cbn [hd] in X. subst b. rewrite parse_ack in E. apply ok_inj2 in E. symmetry. apply E.
Qed.
Lemma send_parsed B wret react h t f (w : world B) : frame_obj f -> valid t ->
  exists r g, mbus_send_frame B wret react (Some h) (parsed t f) w = Done (r, g, after_write react w (wire t)) /\ (r = 0 <-> accepted wret w (wire t)) /\ (r = 0 \/ r = -1).
Proof.
  intros Ho V. destruct (send_spec B wret react h (parsed t f) t w (parsed_obj t f Ho V) (delimiters_parsed t f) (denotes_parsed t f Ho V) V) as (r & E & H). eauto.
Qed.

Lemma select_says B wret react h s (w : world B) : hands_bytes react -> wf_mask s -> ev_bytes (w_evs w) ->
  exists r w' rest, mbus_select_secondary_address B wret react (Some h) s w = Done (r, w') /\ w_log w' = w_log w ++ Sent (wire (selection (mbytes s))) :: rest /\ received_only rest.
Proof.
  intros RB Hs Hb. unfold mbus_select_secondary_address. replace (length s =? 16)%nat with true by (symmetry; apply Nat.eqb_eq, Hs). cbn [negb].
  assert (Snt : emits wret react (mbus_send_select_frame B wret react (Some h) s w) w (selection (mbytes s))).
  { destruct Hs as [Hx Hm]. destruct (select_emits B wret react h s w Hx Hm) as (a & A & Hba & E). apply address_text_bytes in A; [|assumption..]. subst a. exact E. }
  destruct Snt as (_ & r & E & _ & R). rewrite E. cbn [obind]. set (t := selection (mbytes s)) in *.
  pose proof (wrote_bytes B react RB w (wire t) Hb) as Hb1. set (w1 := after_write react w (wire t)) in *. assert (Lg : w_log w1 = w_log w ++ [Sent (wire t)]) by reflexivity.
  destruct (r =? -1); [exists PROBE_ERROR, w1, []; split; [reflexivity|]; split; [exact Lg|constructor]|].
  destruct (recv_total B h frame_zero w1 eq_refl Hb1) as (c & f' & e' & got & E1 & O1 & B1 & _). rewrite E1. cbn [obind].
  set (w2 := mkW (w_bus w1) e' (w_log w1 ++ [Received c got])) in *.
  assert (L2 : w_log w2 = w_log w ++ [Sent (wire t); Received c got]) by (unfold w2; cbn [w_log]; rewrite Lg, <- app_assoc; reflexivity).
  assert (FIN : forall q, exists r w' rest, (Done (q, w2) : out (Z * world B)) = Done (r, w') /\ w_log w' = w_log w ++ Sent (wire t) :: rest /\ received_only rest).
  { intros q. exists q, w2, [Received c got]. split; [reflexivity|]. split; [exact L2|]. constructor; [eexists; eexists; reflexivity|constructor]. }
  destruct (purge_frames_ok B h w2 B1) as (p & w3 & nw & P1 & _ & _ & _ & _ & P3 & P4 & _).
  assert (FIN3 : forall q, exists r w' rest, (Done (q, w3) : out (Z * world B)) = Done (r, w') /\ w_log w' = w_log w ++ Sent (wire t) :: rest /\ received_only rest).
  { intros q. exists q, w3, (Received c got :: nw). split; [reflexivity|]. split; [rewrite P3, L2, <- app_assoc; reflexivity|]. constructor; [eexists; eexists; reflexivity|assumption]. }
  destruct (c =? RECV_TIMEOUT); [apply FIN|]. destruct (c =? RECV_INVALID); [rewrite P1; apply FIN3|]. destruct (mbus_frame_type f' =? T_ACK); [|apply FIN].
  rewrite P1. cbn [obind]. destruct (negb (p =? 0)); apply FIN3.
Qed.

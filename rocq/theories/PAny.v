(** Proofs about selecting, probing, scanning and reading on a line about which nothing is known. *)
From Verif Require Import CBase PBase CStr MFrame MCodec MVar MText SVar SText SCodec PCodec SXml MXml SWire SFrame PFrame PFrame2 PVar3 PXml2 PXml4 MRecv SRecv PRecv PropFrame PropRecv MSecond SSecond PSecond MProto SProto PProto PProto2 PropProto PReq SReq PReq2 SBus PBus PBus2 PBus3 PropVar PropReq.

(** ** A receive call that ends without a telegram leaves type and control field of the object *)
Lemma parse_keeps f bs r f' : mbus_parse f bs = Ok (r, f') -> r > 0 \/ bs = [] -> ftype f' = ftype f /\ control f' = control f.
Proof.
  intros E Hr. destruct Hr as [Hr| ->]; [|cbn in E; injection E as _ <-; auto]. unfold mbus_parse in E.
  repeat match type of E with
  | context [bind (copy_loop ?n ?d ?o ?s ?i) _] => destruct (copy_loop n d o s i) as [?|]; cbn [bind] in E; [|discriminate]
  | context [bind (rd ?l ?i) _] => destruct (rd l i); cbn [bind] in E; [|discriminate]
  | context [bind (mbus_frame_verify ?x) _] => destruct (mbus_frame_verify x); cbn [bind] in E; [|discriminate]
  | (if ?b then _ else _) = _ => destruct b
  end; try discriminate; injection E as <- <-; try lia; auto.
Qed.
Lemma serial_keeps : forall fuel f evs got rem tm c f' evs' got', c <> RECV_OK -> c <> RECV_INVALID ->
  serial_loop fuel f evs got rem tm = Ok (Some (c, f', evs', got')) -> ftype f' = ftype f /\ control f' = control f.
Proof.
  assert (FIN : forall f evs got rem c f' evs' got', c <> RECV_OK -> c <> RECV_INVALID -> serial_finish f evs got rem = Ok (Some (c, f', evs', got')) -> f' = f /\ got = []).
  { intros f evs got rem c f' evs' got' H1 H2 E. unfold serial_finish in E. destruct (Nat.eqb_spec (length got) 0) as [L|L]; [|destruct (negb (rem =? 0)); injection E as <- _ _ _; congruence].
    injection E as _ <- _ _. split; [reflexivity|]. destruct got; [reflexivity|discriminate]. }
  induction fuel as [|fuel IH]; intros f evs got rem tm c f' evs' got' H1 H2 E; cbn [serial_loop] in E; [discriminate|].
  destruct (_ >? PACKET_BUFF_SIZE); [injection E as _ <- _ _; auto|].
  destruct (read_ev (RBytes []) evs (Z.to_nat rem)) as [[bs|e] es]; [|injection E as _ <- _ _; auto].
  destruct ((Z.of_nat (length bs) =? 0) && _); [destruct (FIN _ _ _ _ _ _ _ _ H1 H2 E) as [-> _]; auto|].
  destruct (_ >? PACKET_BUFF_SIZE); [discriminate|].
  destruct (mbus_parse f (got ++ bs)) as [[r f1]|] eqn:Ep; cbn [bind] in E; [|discriminate].
  destruct (Z.gtb_spec r 0).
  - destruct (parse_keeps _ _ _ _ Ep ltac:(lia)) as [<- <-]. exact (IH _ _ _ _ _ _ _ _ _ H1 H2 E).
  - destruct (FIN _ _ _ _ _ _ _ _ H1 H2 E) as [-> X]. exact (parse_keeps _ _ _ _ Ep (or_intror X)).
Qed.
Lemma tcp_keeps : forall fuel f evs got rem c f' evs' got', c <> RECV_OK -> c <> RECV_INVALID ->
  tcp_loop fuel f evs got rem = Ok (Some (c, f', evs', got')) -> ftype f' = ftype f /\ control f' = control f.
Proof.
  induction fuel as [|fuel IH]; intros f evs got rem c f' evs' got' H1 H2 E; cbn [tcp_loop] in E; [discriminate|].
  destruct (_ >? PACKET_BUFF_SIZE); [injection E as _ <- _ _; auto|].
  destruct (read_ev (RErr EAgain) evs (Z.to_nat rem)) as [[bs|e] es].
  2:{ destruct e; try (injection E as _ <- _ _; auto; fail). exact (IH _ _ _ _ _ _ _ _ H1 H2 E). }
  destruct (length bs =? 0)%nat; [injection E as _ <- _ _; auto|].
  destruct (_ >? PACKET_BUFF_SIZE); [discriminate|].
  destruct (mbus_parse f (got ++ bs)) as [[r f1]|] eqn:Ep; cbn [bind] in E; [|discriminate].
  destruct (Z.gtb_spec r 0).
  - destruct (parse_keeps _ _ _ _ Ep ltac:(lia)) as [<- <-]. exact (IH _ _ _ _ _ _ _ _ H1 H2 E).
  - destruct (r <? 0); injection E as <- _ _ _; congruence.
Qed.
Lemma handle_recv_keeps h f evs c f' evs' got : c <> RECV_OK -> c <> RECV_INVALID -> handle_recv h f evs = Done (c, f', evs', got) -> ftype f' = ftype f /\ control f' = control f.
Proof.
  intros H1 H2 H. unfold handle_recv in H. destruct (is_serial h).
  - destruct (mbus_serial_recv_frame f evs) as [[[[[c1 f1] e1] g1]|]|] eqn:E; cbn in H; try discriminate. injection H as -> -> -> ->. exact (serial_keeps _ _ _ _ _ _ _ _ _ _ H1 H2 E).
  - destruct (mbus_tcp_recv_frame f evs) as [[[[[c1 f1] e1] g1]|]|] eqn:E; cbn in H; try discriminate. injection H as -> -> -> ->. exact (tcp_keeps _ _ _ _ _ _ _ _ _ H1 H2 E).
Qed.
Lemma bus_codes c : In c codes -> c <> RECV_TIMEOUT -> c <> RECV_INVALID -> c <> RECV_OK -> c = RECV_ERROR \/ c = RECV_RESET.
Proof. unfold codes. cbn. intuition congruence. Qed.

Section Any.
  Variables (B : Type) (wret : B -> Z -> Z) (react : B -> list Z -> B * list ev) (h : handle).
  Hypothesis RB : hands_bytes react.
  Hypothesis mode : hears_slaves h.
  Notation W := (world B).

  Lemma recv_other (w : W) c f' w' : mbus_recv_frame B (Some h) frame_zero w = Done (c, f', w') -> c <> RECV_OK -> c <> RECV_INVALID ->
    ftype f' <> T_ACK /\ (ftype f' = 0 \/ Z.land (control f') 0x40 = 0x40).
  Proof.
    intros E H1 H2. unfold mbus_recv_frame in E. destruct (handle_recv h frame_zero (w_evs w)) as [[[[c1 f1] e1] g1]| |] eqn:E1; cbn [obind] in E; try discriminate.
    destruct (_ || _) eqn:Sk.
    - destruct (handle_recv h f1 e1) as [[[[c2 f2] e2] g2]| |] eqn:E2; cbn [obind] in E; try discriminate. injection E as -> -> _.
      destruct (handle_recv_keeps h f1 e1 _ _ _ _ H1 H2 E2) as [-> ->].
      assert (D : mbus_frame_direction f1 = DIR_M2S).
      { destruct mode as [M|M]; rewrite M in Sk; cbn in Sk; rewrite ?andb_false_r, ?andb_true_r, ?orb_false_r in Sk; [discriminate|]. apply Z.eqb_eq. exact Sk. }
      unfold mbus_frame_direction in D. destruct (Z.eqb_spec (ftype f1) T_ACK); [discriminate|]. auto.
    - injection E as -> -> _. destruct (handle_recv_keeps h frame_zero (w_evs w) _ _ _ _ H1 H2 E1) as [-> ->]. cbn. split; [discriminate|auto].
  Qed.
  Lemma denoted_type f t : denotes f t -> mbus_frame_type f = T_ACK -> t = Ack.
  Proof. unfold mbus_frame_type. destruct t; cbn; [reflexivity|intros (-> & _); discriminate..]. Qed.
  Lemma denoted_long f t : denotes f t -> mbus_frame_type f = T_LONG -> exists c a ci p, t = Long c a ci p.
  Proof. unfold mbus_frame_type. destruct t; cbn; [intros ->; discriminate|intros (-> & _); discriminate|intros (-> & _); discriminate|eauto]. Qed.

  (** A purge that finds nothing. *)
  Lemma purge_any (w : W) : ev_bytes (w_evs w) ->
    exists r w' new, mbus_purge_frames B (Some h) w = Done (r, w') /\ ev_bytes (w_evs w') /\ w_log w' = w_log w ++ new /\ received_only new /\
      (r = 0 -> exists c g, new = [Received c g] /\ c <> RECV_OK /\ c <> RECV_INVALID).
  Proof.
    intros Hb. destruct (purge_frames_ok B h w Hb) as (r & w' & new & E & R & _ & Hb' & _ & L & Ro & _). exists r, w', new. do 4 (split; [assumption|]).
    intros ->. destruct (recv_total B h frame_zero w eq_refl Hb) as (c & f' & e' & got & E1 & _). 
    assert (Hc : c <> RECV_OK /\ c <> RECV_INVALID).
    { split; intros ->; destruct (purge_reports B h w _ f' _ Hb E1) as (w2 & X); auto; congruence. }
    exists c, got. split; [|assumption]. unfold mbus_purge_frames in E. cbn [purge_loop] in E. rewrite E1 in E. cbn [obind] in E.
    replace (negb (c =? RECV_OK) && negb (c =? RECV_INVALID)) with true in E by (destruct Hc; symmetry; apply andb_true_intro; split; apply negb_true_iff, Z.eqb_neq; assumption).
    injection E as <-. cbn [w_log] in L. apply app_inv_head in L. auto.
  Qed.

  Lemma wrote_bytes (w : W) l : ev_bytes (w_evs w) -> ev_bytes (w_evs (after_write react w l)).
  Proof. intros Hb. unfold after_write. cbn [w_evs]. apply ev_bytes_app; [assumption|apply RB]. Qed.

  Definition probe_codes : list Z := [PROBE_NOTHING; PROBE_SINGLE; PROBE_COLLISION; PROBE_ERROR].
  Lemma select_any s (w : W) : wf_mask s -> ev_bytes (w_evs w) ->
    exists r w' new, mbus_select_secondary_address B wret react (Some h) s w = Done (r, w') /\ ev_bytes (w_evs w') /\ w_log w' = w_log w ++ new /\
      In r probe_codes /\ sends new = 1%nat /\ reports new = [] /\
      (r = PROBE_SINGLE -> exists c g, new = [Sent (wire (selection (mbytes s))); Received RECV_OK (wire Ack); Received c g] /\ c <> RECV_OK /\ c <> RECV_INVALID).
  Proof.
    intros Hs Hb. unfold mbus_select_secondary_address. replace (length s =? 16)%nat with true by (symmetry; apply Nat.eqb_eq, Hs). cbn [negb].
    assert (Snt : emits wret react (mbus_send_select_frame B wret react (Some h) s w) w (selection (mbytes s))).
    { destruct Hs as [Hx Hm]. destruct (select_emits B wret react h s w Hx Hm) as (a & A & Hba & E). apply address_text_bytes in A; [|assumption..]. subst a. exact E. }
    destruct Snt as (_ & r & E & _ & R). rewrite E. cbn [obind]. set (t := selection (mbytes s)) in *.
    pose proof (wrote_bytes w (wire t) Hb) as Hb1. set (w1 := after_write react w (wire t)) in *. assert (Lg : w_log w1 = w_log w ++ [Sent (wire t)]) by reflexivity.
    destruct R as [->| ->].
    2:{ change (-1 =? -1) with true. cbv iota. exists PROBE_ERROR, w1, [Sent (wire t)]. split; [reflexivity|]. split; [assumption|]. split; [assumption|]. cbn. split; [auto|]. split; [reflexivity|]. split; [reflexivity|discriminate]. }
    change (0 =? -1) with false. cbv iota.
    destruct (recv_total B h frame_zero w1 eq_refl Hb1) as (c & f' & e' & got & E1 & O1 & B1 & _ & _ & C1 & _ & K1 & _). rewrite E1. cbn [obind].
    set (w2 := mkW (w_bus w1) e' (w_log w1 ++ [Received c got])) in *.
    assert (L2 : w_log w2 = w_log w ++ [Sent (wire t); Received c got]) by (unfold w2; cbn [w_log]; rewrite Lg, <- app_assoc; reflexivity).
    destruct (Z.eqb_spec c RECV_TIMEOUT) as [Hc|Hc].
    { exists PROBE_NOTHING, w2, [Sent (wire t); Received c got]. split; [reflexivity|]. split; [assumption|]. split; [assumption|]. cbn. split; [auto|]. split; [reflexivity|]. split; [reflexivity|discriminate]. }
    destruct (Z.eqb_spec c RECV_INVALID) as [Hi|Hi].
    { destruct (purge_any w2 B1) as (p & w3 & nw & P1 & P2 & P3 & P4 & _). rewrite P1. cbn [obind]. exists PROBE_COLLISION, w3, ([Sent (wire t); Received c got] ++ nw).
      split; [reflexivity|]. split; [assumption|]. split; [rewrite P3, L2, app_assoc; reflexivity|]. split; [cbn; auto|]. rewrite sends_app, reports_app, (received_sends _ P4), (received_reports _ P4).
      split; [reflexivity|]. split; [reflexivity|discriminate]. }
    destruct (Z.eqb_spec (mbus_frame_type f') T_ACK) as [Ta|Ta].
    2:{ exists PROBE_NOTHING, w2, [Sent (wire t); Received c got]. split; [reflexivity|]. split; [assumption|]. split; [assumption|]. cbn. split; [auto|]. split; [reflexivity|]. split; [reflexivity|discriminate]. }
    destruct (purge_any w2 B1) as (p & w3 & nw & P1 & P2 & P3 & P4 & P5). rewrite P1. cbn [obind].
    assert (Hok : c = RECV_OK).
    { destruct (Z.eq_dec c RECV_OK) as [X|X]; [assumption|]. destruct (recv_other w1 c f' _ E1 X Hi) as [Y _]. contradiction. }
    destruct (proj1 K1 Hok) as (t1 & V1 & G1 & D1). rewrite (denoted_type f' t1 D1 Ta) in G1.
    destruct (Z.eqb_spec p 0) as [Hp|Hp]; cbn [negb].
    - destruct (P5 Hp) as (c2 & g2 & N2 & N3 & N4). exists PROBE_SINGLE, w3, ([Sent (wire t); Received c got] ++ nw). split; [reflexivity|]. split; [assumption|].
      split; [rewrite P3, L2, app_assoc; reflexivity|]. split; [cbn; auto|]. rewrite sends_app, reports_app, (received_sends _ P4), (received_reports _ P4). split; [reflexivity|]. split; [reflexivity|].
      intros _. exists c2, g2. rewrite N2, Hok, G1. auto.
    - exists PROBE_COLLISION, w3, ([Sent (wire t); Received c got] ++ nw). split; [reflexivity|]. split; [assumption|].
      split; [rewrite P3, L2, app_assoc; reflexivity|]. split; [cbn; auto|]. rewrite sends_app, reports_app, (received_sends _ P4), (received_reports _ P4). split; [reflexivity|]. split; [reflexivity|discriminate].
  Qed.

  (** The address of a frame object comes from the payload of its telegram. *)
  Lemma address_any f t s : frame_obj f -> bytes (fdata f) -> denotes f t -> valid t -> mbus_frame_type f = T_LONG -> mbus_frame_get_secondary_address f = Ok (Some s) ->
    exists c a p, t = Long c a 0x72 p /\ (c / 64) mod 2 = 0 /\ (12 <= length p)%nat /\ hex16 s /\ address_text (firstn 8 p) s.
  Proof.
    intros Ho Hb D V T E. destruct (denoted_long f t D T) as (c & a & ci & p & ->). pose proof E as E0. unfold mbus_frame_get_secondary_address in E0.
    destruct (Z.eqb_spec (ctrl_info f) 0x72) as [Hci|]; cbn [negb] in E0; [|discriminate].
    destruct D as (D1 & D2 & D3 & D4 & D5 & D6). pose proof Hci as H72. rewrite D4 in Hci. clear D4. subst ci. rename H72 into D4. pose proof V as (V1 & V2 & V3 & V4 & V5).
    assert (Cr : carries f p) by (split; [exact Ho|]; split; [assumption|]; split; [assumption|]; split; [assumption|]; exact (proj2 V5)).
    assert (Hc : is_byte (control f)) by (rewrite D2; clear - V1; cbn in V1; intuition (subst; unfold is_byte; try lia)).
    destruct (C27_dispatch f p fd_zero Cr Hc) as (K1 & _ & _ & K4 & K5 & _). rewrite D2 in K1, K4, K5. rewrite D4 in K4, K5.
    assert (Hm : (c / 64) mod 2 = 0). { destruct (Z.eq_dec ((c / 64) mod 2) 0); [assumption|]. rewrite K1 in E0 by assumption. discriminate. }
    assert (Hp : p <> []). { intros ->. rewrite K5 in E0 by auto. discriminate. }
    rewrite (K4 Hm eq_refl Hp) in E0. destruct (mbus_data_variable_parse f (d_var fd_zero)) as [[r v]|] eqn:Ep; cbn [bind] in E0; [|discriminate].
    assert (r = 0).
    { destruct (le_lt_dec 12 (length p)) as [L|L].
      - destruct (C24_bookkeeping f p _ r v Cr L Ep) as ([R|R] & _); [assumption|]. subst r. discriminate.
      - pose proof (parse_short f p (d_var fd_zero) Cr L) as X. rewrite Ep in X. apply ok_inj2 in X. destruct X as [X _]. subst r. discriminate. }
    subst r. destruct (C22_accepts_only_encodings f p _ v Cr Ep) as (hd & its & tl & L & -> & Wi & Wt & _).
    assert (Tv : var_telegram f hd its tl). { split; [assumption|]. split; [assumption|]. split; [assumption|]. split; [assumption|]. split; [assumption|]. split; [rewrite D2; assumption|assumption]. }
    destruct (get_address f hd its tl Tv) as (s' & E' & Hx & A). rewrite E in E'. injection E' as <-. exists c, a, (hd ++ enc_body its tl).
    split; [reflexivity|]. split; [assumption|]. split; [rewrite app_length; lia|]. split; [assumption|]. rewrite firstn_app. replace (8 - length hd)%nat with 0%nat by lia. cbn [firstn]. rewrite app_nil_r. exact A.
  Qed.

  (** What stands before a reported address: the request, the telegram with this address, and nothing after it. *)
  Definition heard_from (l : list action) (s : list Z) : Prop :=
    exists c a p c2 g2, l = [Sent (wire request); Received RECV_OK (wire (Long c a 0x72 p)); Received c2 g2] /\ valid (Long c a 0x72 p) /\
      (c / 64) mod 2 = 0 /\ (12 <= length p)%nat /\ c2 <> RECV_OK /\ c2 <> RECV_INVALID /\ hex16 s /\ address_text (firstn 8 p) s.
  Lemma probe_selected_any buf (w : W) : (17 <= length buf)%nat -> ev_bytes (w_evs w) ->
    probe_selected B wret react h buf w = Undef \/
    exists r buf' w' new, probe_selected B wret react h buf w = Done (r, buf', w') /\ length buf' = length buf /\ ev_bytes (w_evs w') /\ w_log w' = w_log w ++ new /\
      In r probe_codes /\ sends new = 1%nat /\ reports new = [] /\ (r = PROBE_SINGLE -> heard_from new (c_text buf')) /\ (r <> PROBE_SINGLE -> buf' = buf).
  Proof.
    intros Hl Hb. unfold probe_selected. destruct (request_emits B wret react h 0xFD w ltac:(lia)) as (_ & r & E & _ & R). rewrite E. cbn [obind]. fold request.
    pose proof (wrote_bytes w (wire request) Hb) as Hb1. set (w1 := after_write react w (wire request)) in *. assert (Lg : w_log w1 = w_log w ++ [Sent (wire request)]) by reflexivity.
    destruct R as [->| ->].
    2:{ right. exists PROBE_ERROR, buf, w1, [Sent (wire request)]. split; [reflexivity|]. split; [reflexivity|]. split; [assumption|]. split; [assumption|]. cbn. split; [auto|]. split; [reflexivity|]. split; [reflexivity|]. split; [discriminate|reflexivity]. }
    change (0 =? -1) with false. cbv iota.
    destruct (recv_total B h frame_zero w1 eq_refl Hb1) as (c & f' & e' & got & E1 & O1 & B1 & _ & _ & C1 & _ & K1 & _). rewrite E1. cbn [obind].
    pose proof (recv_fdata B h frame_zero w1 c f' _ eq_refl (repeat_bytes _) Hb1 E1) as Fb.
    set (w2 := mkW (w_bus w1) e' (w_log w1 ++ [Received c got])) in *.
    assert (L2 : w_log w2 = w_log w ++ [Sent (wire request); Received c got]) by (unfold w2; cbn [w_log]; rewrite Lg, <- app_assoc; reflexivity).
    assert (OUT : forall r w3 nw, In r probe_codes -> r <> PROBE_SINGLE -> ev_bytes (w_evs w3) -> w_log w3 = w_log w2 ++ nw -> received_only nw ->
      exists r' buf' w' new, @Done (Z * list Z * W) (r, buf, w3) = Done (r', buf', w') /\ length buf' = length buf /\ ev_bytes (w_evs w') /\ w_log w' = w_log w ++ new /\
      In r' probe_codes /\ sends new = 1%nat /\ reports new = [] /\ (r' = PROBE_SINGLE -> heard_from new (c_text buf')) /\ (r' <> PROBE_SINGLE -> buf' = buf)).
    { intros r w3 nw Ir Nr Hb3 L3 Ro. exists r, buf, w3, ([Sent (wire request); Received c got] ++ nw). split; [reflexivity|]. split; [reflexivity|]. split; [assumption|].
      split; [rewrite L3, L2, app_assoc; reflexivity|]. split; [assumption|]. rewrite sends_app, reports_app, (received_sends _ Ro), (received_reports _ Ro). split; [reflexivity|]. split; [reflexivity|]. split; [contradiction|reflexivity]. }
    destruct (Z.eqb_spec c RECV_TIMEOUT) as [Hc|Hc].
    { right. apply (OUT PROBE_NOTHING w2 []); [cbn; auto|discriminate|assumption|rewrite app_nil_r; reflexivity|constructor]. }
    destruct (purge_any w2 B1) as (p & w3 & nw & P1 & P2 & P3 & P4 & P5). rewrite P1. cbn [obind].
    destruct (Z.eqb_spec c RECV_INVALID) as [Hi|Hi]; [right; apply (OUT PROBE_COLLISION w3 nw); [cbn; auto|discriminate|assumption..]|].
    destruct (Z.eqb_spec p 0) as [Hp|Hp]; cbn [negb]; [|right; apply (OUT PROBE_COLLISION w3 nw); [cbn; auto|discriminate|assumption..]].
    destruct (Z.eqb_spec (mbus_frame_type f') T_LONG) as [Tl|Tl]; [|right; apply (OUT PROBE_NOTHING w3 nw); [cbn; auto|discriminate|assumption..]].
    destruct (mbus_frame_get_secondary_address f') as [[s|]|] eqn:Ea; cbn [lift obind]; [|right; apply (OUT PROBE_NOTHING w3 nw); [cbn; auto|discriminate|assumption..]|left; reflexivity].
    right. assert (Hok : c = RECV_OK).
    { destruct (Z.eq_dec c RECV_OK) as [X|X]; [assumption|]. exfalso. destruct (recv_other w1 c f' _ E1 X Hi) as [_ [Y|Y]]; [unfold mbus_frame_type in Tl; rewrite Y in Tl; discriminate|].
      unfold mbus_frame_get_secondary_address in Ea. destruct (negb _); [discriminate|]. unfold mbus_frame_data_parse in Ea.
      rewrite Y in Ea. discriminate. }
    destruct (proj1 K1 Hok) as (t1 & V1 & G1 & D1). destruct (address_any f' t1 s O1 Fb D1 V1 Tl Ea) as (c0 & a0 & p0 & -> & M0 & L0 & Hx & A).
    unfold snprintf_s. rewrite firstn_all2 by (rewrite (proj1 Hx); lia). rewrite put_list_ok by (rewrite app_length, (proj1 Hx); cbn; lia). cbn [lift obind firstn app].
    rewrite <- app_assoc. cbn [app]. destruct (P5 Hp) as (c2 & g2 & N2 & N3 & N4).
    exists PROBE_SINGLE, (s ++ 0 :: skipn (0 + length (s ++ [0])) buf), w3, ([Sent (wire request); Received c got] ++ nw).
    split; [reflexivity|]. split; [rewrite app_length; cbn [length]; rewrite skipn_length, !app_length, (proj1 Hx); cbn; lia|]. split; [assumption|].
    split; [rewrite P3, L2, app_assoc; reflexivity|]. split; [cbn; auto|]. rewrite sends_app, reports_app, (received_sends _ P4), (received_reports _ P4). split; [reflexivity|]. split; [reflexivity|].
    split; [|intros X; exfalso; apply X; reflexivity]. intros _. rewrite c_text_hex by apply Hx. exists c0, a0, p0, c2, g2. rewrite N2, Hok, G1. auto 12.
  Qed.

  (** The evidence for a reported address: a selection, acknowledged, and the data telegram that carries the address. *)
  Definition evidence (m : list Z) (l : list action) (s : list Z) : Prop :=
    exists pre c g tl, l = pre ++ [Sent (wire (selection m)); Received RECV_OK (wire Ack); Received c g] ++ tl /\ c <> RECV_OK /\ c <> RECV_INVALID /\ heard_from tl s.
  Lemma evidence_app m l0 l s : evidence m l s -> evidence m (l0 ++ l) s.
  Proof. intros (pre & c & g & tl & -> & H). exists (l0 ++ pre), c, g, tl. rewrite <- app_assoc. auto. Qed.

  Lemma probe_loop_any s : wf_mask s -> forall n buf ret (w : W), (17 <= length buf)%nat -> ev_bytes (w_evs w) -> In ret [PROBE_NOTHING; PROBE_COLLISION; PROBE_ERROR] ->
    probe_loop B wret react n h s buf ret w = Undef \/
    exists r buf' w' new, probe_loop B wret react n h s buf ret w = Done (r, buf', w') /\ length buf' = length buf /\ ev_bytes (w_evs w') /\ w_log w' = w_log w ++ new /\
      In r probe_codes /\ (sends new <= n + 1)%nat /\ reports new = [] /\ (r = PROBE_SINGLE -> evidence (mbytes s) new (c_text buf')) /\ (r <> PROBE_SINGLE -> buf' = buf).
  Proof.
    intros Hs. induction n as [|n IH]; intros buf ret w Hl Hb Hr; cbn [probe_loop].
    - right. exists ret, buf, w, []. rewrite app_nil_r. do 4 (split; [auto|]). split; [revert Hr; cbn; intuition auto|]. split; [cbn; lia|]. split; [reflexivity|].
      split; [|reflexivity]. intros ->. exfalso. revert Hr. cbn. intuition discriminate.
    - destruct (select_any s w Hs Hb) as (r & w1 & n1 & E1 & B1 & L1 & C1 & S1 & R1 & X1). rewrite E1. cbn [obind].
      assert (NOT : forall r', r' = r -> r' <> PROBE_SINGLE -> exists r0 buf' w' new, @Done (Z * list Z * W) (r', buf, w1) = Done (r0, buf', w') /\ length buf' = length buf /\ ev_bytes (w_evs w') /\ w_log w' = w_log w ++ new /\
        In r0 probe_codes /\ (sends new <= S n + 1)%nat /\ reports new = [] /\ (r0 = PROBE_SINGLE -> evidence (mbytes s) new (c_text buf')) /\ (r0 <> PROBE_SINGLE -> buf' = buf)).
      { intros r' -> Nr. exists r, buf, w1, n1. do 4 (split; [auto|]). split; [assumption|]. split; [lia|]. split; [assumption|]. split; [contradiction|reflexivity]. }
      destruct (Z.eqb_spec r PROBE_SINGLE) as [Hr1|Hr1].
      + destruct (X1 Hr1) as (c & g & N1 & Nc & Ni). destruct (probe_selected_any buf w1 Hl B1) as [U|(r2 & buf2 & w2 & n2 & E2 & Lb & B2 & L2 & C2 & S2 & R2 & X2 & Y2)]; [left; exact U|right].
        rewrite E2. exists r2, buf2, w2, (n1 ++ n2). split; [reflexivity|]. split; [assumption|]. split; [assumption|]. split; [rewrite L2, L1, app_assoc; reflexivity|]. split; [assumption|].
        rewrite sends_app, reports_app. split; [lia|]. split; [rewrite R1, R2; reflexivity|]. split; [|assumption]. intros Hr2. exists [], c, g, n2. rewrite N1. auto.
      + destruct (Z.eqb_spec r PROBE_ERROR) as [He|He]; cbn [orb]; [right; apply NOT; auto|].
        destruct (Z.eqb_spec r PROBE_COLLISION) as [Hc|Hc]; [right; apply NOT; auto|].
        assert (Hr' : In r [PROBE_NOTHING; PROBE_COLLISION; PROBE_ERROR]) by (revert C1; unfold probe_codes; cbn; intuition congruence).
        destruct (IH buf r w1 Hl B1 Hr') as [U|(r2 & buf2 & w2 & n2 & E2 & Lb & B2 & L2 & C2 & S2 & R2 & X2 & Y2)]; [left; exact U|right].
        rewrite E2. exists r2, buf2, w2, (n1 ++ n2). split; [reflexivity|]. split; [assumption|]. split; [assumption|]. split; [rewrite L2, L1, app_assoc; reflexivity|]. split; [assumption|].
        rewrite sends_app, reports_app. split; [lia|]. split; [rewrite R1, R2; reflexivity|]. split; [|assumption]. intros Hr2. apply evidence_app. auto.
  Qed.
  Hypothesis retry : 0 <= max_search_retry h.
  Lemma probe_any s buf (w : W) : wf_mask s -> (17 <= length buf)%nat -> ev_bytes (w_evs w) ->
    mbus_probe_secondary_address B wret react (Some h) s buf w = Undef \/
    exists r buf' w' new, mbus_probe_secondary_address B wret react (Some h) s buf w = Done (r, buf', w') /\ length buf' = length buf /\ ev_bytes (w_evs w') /\ w_log w' = w_log w ++ new /\
      In r probe_codes /\ Z.of_nat (sends new) <= max_search_retry h + 2 /\ reports new = [] /\ (r = PROBE_SINGLE -> evidence (mbytes s) new (c_text buf')) /\ (r <> PROBE_SINGLE -> buf' = buf).
  Proof.
    intros Hs Hl Hb. unfold mbus_probe_secondary_address. replace (length s =? 16)%nat with true by (symmetry; apply Nat.eqb_eq, Hs). cbn [negb].
    destruct (Z.ltb_spec (max_search_retry h) 0); [lia|].
    destruct (probe_loop_any s Hs (Z.to_nat (max_search_retry h + 1)) buf 0 w Hl Hb ltac:(cbn; auto)) as [U|(r & buf' & w' & new & E & L & B1 & Lg & C & S1 & X)]; [left; exact U|right].
    exists r, buf', w', new. split; [exact E|]. do 4 (split; [assumption|]). split; [lia|]. exact X.
  Qed.

  (** ** Scanning *)
  (** A mask that differs from [s] only where [s] has wildcards. *)
  Definition refines (s m : list Z) : Prop := wf_mask m /\ forall i, wildcard (nth i s 0) \/ nth i m 0 = nth i s 0.
  Definition genuine (sc : list Z) (l : list action) : Prop := forall pre s post, l = pre ++ Found s :: post -> exists m, refines sc m /\ evidence (mbytes m) pre s.
  Lemma genuine_refine s m l : refines s m -> genuine m l -> genuine s l.
  Proof.
    intros [W R] G pre x post E. destruct (G pre x post E) as (m' & [W' R'] & Ev). exists m'. split; [split; [assumption|]|assumption].
    intros i. destruct (R i) as [K|K]; [left; assumption|]. destruct (R' i) as [K'|K']; [left; rewrite <- K; assumption|right; congruence].
  Qed.
  Lemma genuine_app sc l1 l2 : genuine sc l1 -> genuine sc l2 -> genuine sc (l1 ++ l2).
  Proof.
    intros H1 H2 pre s post E. apply app_eq_app in E. destruct E as (l & [[-> E]|[-> E]]).
    - destruct l as [|a l]; [|injection E as <- _; exact (H1 pre s l eq_refl)]. cbn [app] in E. destruct (H2 [] s post (eq_sym E)) as (m & Rf & Ev). exists m. split; [assumption|]. rewrite app_nil_r in *.
      destruct Ev as (p & c & g & tl & X & _). destruct p; discriminate.
    - destruct (H2 l s post E) as (m & Rf & Ev). exists m. split; [assumption|]. apply evidence_app. assumption.
  Qed.
  Lemma silent_genuine sc l : reports l = [] -> genuine sc l.
  Proof. intros H pre s post ->. exfalso. rewrite reports_app in H. cbn in H. apply app_eq_nil in H. destruct H as [_ H]. discriminate. Qed.
  Definition scans (sc : list Z) (x : out (Z * W)) (w : W) : Prop :=
    x = Undef \/ exists r w' new, x = Done (r, w') /\ ev_bytes (w_evs w') /\ w_log w' = w_log w ++ new /\ genuine sc new /\ (r = 0 \/ r = -1).
  Lemma digits_any deeper s p : wf_mask s -> (forall m (w : W), wf_mask m -> ev_bytes (w_evs w) -> scans m (deeper m w) w) ->
    forall cs, (forall c m, In c cs -> (forall x, upd m p x = upd s p x) -> refines s (upd m p c)) ->
    forall m w, (forall x, upd m p x = upd s p x) -> ev_bytes (w_evs w) -> scans s (scan_digits B wret react deeper h m p cs w) w.
  Proof.
    intros Hs Dp. induction cs as [|c cs IH]; intros Hcs m w Hm Hb; cbn [scan_digits].
    - right. exists 0, w, []. rewrite app_nil_r. split; [reflexivity|]. split; [assumption|]. split; [reflexivity|]. split; [apply silent_genuine; reflexivity|auto].
    - assert (Rf : refines s (upd m p c)) by (apply Hcs; [left; reflexivity|assumption]). pose proof (proj1 Rf) as Hs'.
      assert (IH' : forall m (w : W), (forall x, upd m p x = upd s p x) -> ev_bytes (w_evs w) -> scans s (scan_digits B wret react deeper h m p cs w) w) by (apply IH; intros; apply Hcs; [right; assumption|assumption]). clear IH.
      assert (Hm' : forall x, upd (upd m p c) p x = upd s p x) by (intros; rewrite upd_upd; apply Hm).
      assert (GO : forall w1 n1 (x : out (Z * W)), w_log w1 = w_log w ++ n1 -> genuine s n1 -> scans s x w1 -> scans s x w).
      { intros w1 n1 x L1 G1 [U|(r & w' & nw & E & Hb' & L' & G' & R)]; [left; assumption|right]. exists r, w', (n1 ++ nw). split; [assumption|]. split; [assumption|].
        split; [rewrite L', L1, app_assoc; reflexivity|]. split; [apply genuine_app; assumption|assumption]. }
      destruct (probe_any (upd m p c) (repeat 0 17) w Hs' ltac:(rewrite repeat_length; lia) Hb) as [U|(r & buf & w1 & n1 & E1 & _ & B1 & L1 & C1 & _ & R1 & X1 & _)]; [left; rewrite U; reflexivity|].
      rewrite E1. cbn [obind]. destruct (Z.eqb_spec r PROBE_SINGLE) as [Hr|Hr].
      + apply (GO (log w1 (Found (c_text buf))) (n1 ++ [Found (c_text buf)])); [unfold log; cbn [w_log]; rewrite L1, app_assoc; reflexivity| |apply IH'; assumption].
        intros pre s0 post E. assert (E' : pre = n1 /\ s0 = c_text buf).
        { destruct (list_eq_dec (fun a b : action => ltac:(repeat decide equality)) post []) as [->|Np].
          - apply app_inj_tail in E. destruct E as [-> E]. injection E as ->. auto.
          - exfalso. destruct (exists_last Np) as (post' & a & ->). change (Found s0 :: post' ++ [a]) with ((Found s0 :: post') ++ [a]) in E. rewrite app_assoc in E. apply app_inj_tail in E. destruct E as [E _].
            rewrite E, reports_app in R1. cbn in R1. apply app_eq_nil in R1. destruct R1; discriminate. }
        destruct E' as [-> ->]. exists (upd m p c). split; [assumption|]. apply X1. assumption.
      + destruct (Z.eqb_spec r PROBE_COLLISION) as [Hc|Hc].
        * destruct (Dp (upd m p c) w1 Hs' B1) as [U|(r2 & w2 & n2 & E2 & B2 & L2 & G2 & _)]; [left; rewrite U; reflexivity|]. rewrite E2. cbn [obind].
          apply (GO w2 (n1 ++ n2)); [rewrite L2, L1, app_assoc; reflexivity|apply genuine_app; [apply silent_genuine; assumption|exact (genuine_refine _ _ _ Rf G2)]|apply IH'; assumption].
        * destruct (Z.eqb_spec r PROBE_NOTHING) as [Hn|Hn]; [apply (GO w1 n1); [assumption|apply silent_genuine; assumption|apply IH'; assumption]|].
          right. exists (-1), w1, n1. split; [reflexivity|]. split; [assumption|]. split; [assumption|]. split; [apply silent_genuine; assumption|auto].
  Qed.
  Lemma scan_any : forall n s (w : W), wf_mask s -> ev_bytes (w_evs w) -> scans s (scan_from B wret react n h s w) w.
  Proof.
    induction n as [|n IH]; intros s w Hs Hb; cbn [scan_from]; (replace (length s =? 16)%nat with true by (symmetry; apply Nat.eqb_eq, Hs)); cbn [negb].
    - right. exists 0, w, []. rewrite app_nil_r. split; [reflexivity|]. split; [assumption|]. split; [reflexivity|]. split; [apply silent_genuine; reflexivity|auto].
    - set (p := (16 - S n)%nat) in *. destruct (_ || _) eqn:Wc.
      + apply (digits_any _ s); try assumption; [|reflexivity]. intros c m Hc Hm. rewrite Hm. split; [apply upd_mask; [assumption|]; unfold digit; cbn in Hc; intuition lia|].
        intros i. destruct (Nat.eq_dec i p) as [->|Ni]; [left; unfold wildcard; lia|right]. rewrite nth_upd by (rewrite (proj1 (proj1 Hs)); unfold p; lia). destruct (Nat.eqb_spec i p); [contradiction|reflexivity].
      + destruct (Nat.ltb_spec p 15) as [Q|Q].
        * destruct (IH s w Hs Hb) as [U|(r & w' & nw & E & K)]; [left; rewrite U; reflexivity|right]. rewrite E. cbn [obind]. exists 0, w', nw. intuition.
        * apply (digits_any _ s); try assumption; [|reflexivity]. intros c m [<-|[]] Hm. rewrite Hm, upd_same; [split; [assumption|auto]|]. rewrite (proj1 (proj1 Hs)). unfold p. lia.
  Qed.

  (** ** Reading *)
  Lemma read_slave_any a f (w : W) : (match a with Primary n => 0 <= n <= 255 | Secondary None => False | Secondary (Some s) => wf_mask s end) -> frame_obj f -> ev_bytes (w_evs w) ->
    exists r f' w' new, mbus_read_slave B wret react (Some h) a f w = Done (r, f', w') /\ ev_bytes (w_evs w') /\ w_log w' = w_log w ++ new /\ (r = 0 \/ r = -1) /\ (sends new <= 2)%nat /\
      (r = 0 -> exists pre n t, new = pre ++ [Sent (wire (Short 0x5B n)); Received RECV_OK (wire t)] /\ valid t /\ denotes f' t /\
         match a with Primary m => pre = [] /\ n = m | Secondary None => False
         | Secondary (Some s) => n = 0xFD /\ exists c g, pre = [Sent (wire (selection (mbytes s))); Received RECV_OK (wire Ack); Received c g] /\ c <> RECV_OK /\ c <> RECV_INVALID end).
  Proof.
    intros Ha Ho Hb. unfold mbus_read_slave.
    assert (REQ : forall n (w1 : W) pre, 0 <= n <= 255 -> ev_bytes (w_evs w1) -> w_log w1 = w_log w ++ pre -> (sends pre <= 1)%nat ->
      exists r f' w' new, (do (r, w) <- (do (r, w) <- mbus_send_request_frame B wret react (Some h) n w1 ;; Done (if r =? -1 then -1 else 0, w)) ;;
        if r =? -1 then Done (-1, f, w) else do (c, reply, w) <- mbus_recv_frame B (Some h) f w ;; if negb (c =? 0) then Done (-1, reply, w) else Done (0, reply, w)) = Done (r, f', w') /\
        ev_bytes (w_evs w') /\ w_log w' = w_log w ++ new /\ (r = 0 \/ r = -1) /\ (sends new <= 2)%nat /\
        (r = 0 -> exists t, new = pre ++ [Sent (wire (Short 0x5B n)); Received RECV_OK (wire t)] /\ valid t /\ denotes f' t)).
    { intros n w1 pre Hn Hb1 L1 Sp. destruct (request_emits B wret react h n w1 Hn) as (_ & r & E & _ & R). rewrite E. cbn [obind].
      pose proof (wrote_bytes w1 (wire (Short 0x5B n)) Hb1) as Hb2. set (w2 := after_write react w1 (wire (Short 0x5B n))) in *.
      assert (L2 : w_log w2 = w_log w ++ pre ++ [Sent (wire (Short 0x5B n))]) by (unfold w2, after_write; cbn [w_log]; rewrite L1, app_assoc; reflexivity).
      destruct R as [->| ->].
      - change (0 =? -1) with false. cbv iota. change (0 =? -1) with false. cbv iota.
        destruct (recv_total B h f w2 Ho Hb2) as (c & f' & e' & got & E1 & O1 & B1 & _ & _ & C1 & _ & K1 & _). rewrite E1. cbn [obind].
        assert (L3 : w_log w2 ++ [Received c got] = w_log w ++ pre ++ [Sent (wire (Short 0x5B n)); Received c got]) by (rewrite L2, <- !app_assoc; reflexivity).
        assert (S3 : (sends (pre ++ [Sent (wire (Short 0x5B n)); Received c got]) <= 2)%nat) by (rewrite sends_app; cbn; lia).
        destruct (Z.eqb_spec c 0) as [->|Hc]; cbn [negb].
        + exists 0, f', (mkW (w_bus w2) e' (w_log w2 ++ [Received 0 got])). eexists. split; [reflexivity|]. split; [assumption|]. split; [exact L3|]. split; [auto|]. split; [exact S3|].
          intros _. destruct (proj1 K1 eq_refl) as (t & V & -> & D). exists t. auto.
        + exists (-1), f', (mkW (w_bus w2) e' (w_log w2 ++ [Received c got])). eexists. split; [reflexivity|]. split; [assumption|]. split; [exact L3|]. split; [auto|]. split; [exact S3|]. discriminate.
      - change (-1 =? -1) with true. cbv iota. change (-1 =? -1) with true. cbv iota. exists (-1), f, w2. eexists. split; [reflexivity|]. split; [assumption|]. split; [exact L2|]. split; [auto|].
        split; [rewrite sends_app; cbn; lia|discriminate]. }
    destruct a as [n|[s|]]; [| |contradiction].
    - destruct (REQ n w [] Ha Hb (eq_sym (app_nil_r _)) ltac:(cbn; lia)) as (r & f' & w' & new & E & Hb' & L & R & S1 & X). exists r, f', w', new. split; [exact E|]. do 4 (split; [assumption|]).
      intros Hr. destruct (X Hr) as (t & -> & V & D). exists [], n, t. auto.
    - destruct (select_any s w Ha Hb) as (r & w1 & n1 & E1 & B1 & L1 & C1 & S1 & R1 & X1). rewrite E1. cbn [obind].
      destruct (Z.eq_dec r PROBE_SINGLE) as [Hr|Hr].
      + rewrite Hr. change (_ || _ || _) with false. cbv iota.
        destruct (REQ 0xFD w1 n1 ltac:(lia) B1 L1 ltac:(lia)) as (r2 & f' & w' & new & E & Hb' & L & R & S2 & X). exists r2, f', w', new. split; [exact E|]. do 4 (split; [assumption|]).
        intros Hr2. destruct (X Hr2) as (t & -> & V & D). destruct (X1 Hr) as (c & g & N1 & _). exists n1, 0xFD, t. split; [reflexivity|]. split; [assumption|]. split; [assumption|]. split; [reflexivity|]. eauto.
      + replace ((r =? PROBE_COLLISION) || (r =? PROBE_NOTHING) || (r =? PROBE_ERROR)) with true.
        2:{ revert C1 Hr. unfold probe_codes. cbn. intros [<-|[<-|[<-|[<-|[]]]]] K; reflexivity || congruence. }
        change (-1 =? -1) with true. cbv iota. exists (-1), f, w1, n1. split; [reflexivity|]. split; [assumption|]. split; [assumption|]. split; [auto|]. split; [lia|discriminate].
  Qed.
End Any.

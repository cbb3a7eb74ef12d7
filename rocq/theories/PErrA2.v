(** Proofs about the diagnostics of the protocol procedures: requests, search, reading, scan. *)
From Coq Require Import String.
From Coq Require Import List.
From Verif Require Import CBase PBase CStr MFrame SWire SFrame PFrame PFrame2 MText MXml MCodec MRecv SRecv PRecv MVar SVar MSecond MProto SProto PProto PProto2 PReq PReq2 MErr SErr PErr PErr2 PErr3 PErr4 PErr5 MErrT SErrT PErrT PropErr MErrA SErrA PErrA.
Local Open Scope Z_scope.

(** Parsing into a heap of records, with texts. *)
Lemma parse_heap_same e f fd hp p r fd' hp' p' : err_ok e -> sound f -> parse_heap f fd hp p = Ok (r, fd', hp', p') ->
  exists e', parse_heap_e e f fd hp p = Ok (r, fd', hp', p', e') /\ err_ok e'.
Proof.
  intros He Hf H. destruct (sound_carries f Hf) as (pl & Hc & Hk & Hi). pose proof (data_drop e f pl fd Hc (proj1 He)) as D.
  pose proof (data_names e f pl fd) as N.
  unfold parse_heap in H. unfold parse_heap_e. rewrite <- D in H. unfold drop_o in H.
  destruct (mbus_frame_data_parse_e e (Some f) (Some fd)) as [[[r1 [fd1|]] e1]|]; cbn [bind] in *; try discriminate.
  assert (He1 : err_ok e1).
  { destruct (N _ _ _ Hc Hk Hi (proj1 He) eq_refl) as [[_ ->]|(_ & m & _ & S1)]; [exact He|exact (proj1 S1)]. }
  destruct (assigns_record f).
  - destruct (v_records (d_var fd1)) as [|x l]; injection H as <- <- <- <-; exists e1; (split; [reflexivity|exact He1]).
  - injection H as <- <- <- <-. exists e1. split; [reflexivity|exact He1].
Qed.
Lemma secondary_same e f : err_ok e -> sound f ->
  match mbus_frame_get_secondary_address f with
  | Ok a => exists e', mbus_frame_get_secondary_address_e e f = Ok (a, e') /\ err_ok e'
  | UB => True
  end.
Proof.
  intros He Hf. destruct (sound_carries f Hf) as (pl & Hc & Hk & Hi). pose proof (C86_secondary e f pl) as X.
  assert (Y : mbus_frame_get_secondary_address_e e f = UB -> mbus_frame_get_secondary_address f = UB).
  { clear X. unfold mbus_frame_get_secondary_address_e, mbus_frame_get_secondary_address. destruct (negb (ctrl_info f =? 0x72)).
    - destruct (say_ok e (cstr "Non-variable data response (can't get secondary address from response).") (proj1 He) ltac:(nozero)) as (e1 & S1 & _). rewrite S1. discriminate.
    - pose proof (data_drop e f pl fd_zero Hc (proj1 He)) as D. unfold drop_o in D.
      destruct (mbus_frame_data_parse_e e (Some f) (Some fd_zero)) as [[[r1 [fd1|]] e1]|]; cbn [bind] in *; rewrite <- D; cbn [bind]; try reflexivity.
      destruct (r1 =? -1); [discriminate|].
      destruct (mbus_data_bcd_decode_hex (v_header (d_var fd1)) 4) as [id|]; cbn [bind] in *; [|reflexivity].
      destruct (rd (v_header (d_var fd1)) 4); cbn [bind] in *; [|reflexivity].
      destruct (rd (v_header (d_var fd1)) 5); cbn [bind] in *; [|reflexivity].
      destruct (rd (v_header (d_var fd1)) 6); cbn [bind] in *; [|reflexivity].
      destruct (rd (v_header (d_var fd1)) 7); cbn [bind] in *; [|reflexivity]. discriminate. }
  destruct (mbus_frame_get_secondary_address_e e f) as [[a e']|] eqn:E.
  - destruct (X a e' He Hc Hk eq_refl) as (-> & T). exists e'. split; [reflexivity|].
    destruct T as [(_ & ->)|[(_ & _ & S1)|(_ & _ & m & _ & S1)]]; [exact He|exact (proj1 S1)|exact (proj1 S1)].
  - rewrite (Y eq_refl). exact I.
Qed.

Definition lastx (xs : list (list Z * option (Z * list Z))) : bool := match rev xs with x :: _ => answered x | [] => false end.
Lemma lastx_one x : lastx [x] = answered x.
Proof. reflexivity. Qed.
Lemma lastx_cons x xs : xs <> [] -> lastx (x :: xs) = lastx xs.
Proof. intros H. unfold lastx. cbn [rev]. destruct (rev xs) as [|y l] eqn:E; [|reflexivity]. apply (f_equal (@rev _)) in E. rewrite rev_involutive in E. contradiction. Qed.

Section OnBus.
  Variable B : Type.
  Variable wret : B -> Z -> Z.
  Variable react : B -> list Z -> B * list ev.
  Variable why : list Z.
  Hypothesis RB : forall b l, ev_bytes (snd (react b l)).
  Hypothesis WR : forall b n, 0 <= n <= 2048 -> - 2 ^ 31 <= wret b n < 2 ^ 31.
  Notation W := (world B).

  Lemma ping_d h a pr (w : W) d : inv d -> ev_bytes (w_evs w) -> 0 <= a <= 255 ->
    exists r w1 d1 w' d' new, sent B wret why h (cstr "mbus_send_ping_frame: failed to send mbus frame.") w w1 d d1 r /\
      mbus_send_ping_frame B wret react (Some h) a pr w = Done (r, w') /\ mbus_send_ping_frame_d B wret react why (Some h) a pr w d = Done (r, w', d') /\
      w_log w' = w_log w1 ++ new /\ received_only new /\ (pr = false -> new = [] /\ w' = w1 /\ d' = d1) /\ ev_bytes (w_evs w') /\ inv d' /\ said (is_serial h) why d1 d' [] /\
      (r = -1 -> dg_text d' = dg_text d1 /\ new = []).
  Proof.
    intros He Hev Ha. unfold mbus_send_ping_frame, mbus_send_ping_frame_d.
    assert (P : mbus_is_primary_address a = true) by (unfold mbus_is_primary_address; lia). rewrite P. cbn [negb].
    destruct (send_tail B wret react why RB WR "mbus_send_ping_frame" h (set_address (set_control (mbus_frame_new T_SHORT) (Z.lor 0x40 0x40)) a) w d He Hev eq_refl
      ltac:(cbn; discriminate) ltac:(cbn; tauto)) as (r & f' & w1 & d1 & E1 & E2 & S1 & V & I).
    unfold send_or_tell in E2. rewrite E1.
    destruct (mbus_send_frame_d B wret react why (Some h) _ w d) as [[[[r0 f0] w0] d0]| |] eqn:E3; cbn [obind] in E2; try discriminate.
    assert (X : r0 = r /\ w0 = w1 /\ (if r0 =? -1 then tell d0 (cstr "mbus_send_ping_frame: failed to send mbus frame.") = d1 else d0 = d1)).
    { pose proof (sent_result B wret why _ _ _ _ _ _ _ S1) as Rr. destruct (send_d B wret react why RB WR h (set_address (set_control (mbus_frame_new T_SHORT) (Z.lor 0x40 0x40)) a) w d He eq_refl
      ltac:(cbn; discriminate) ltac:(cbn; tauto)) as (ra & fa & bsa & wa & da & lsa & Ea & Eb & _ & _ & _ & _ & Ra & _). rewrite E3 in Eb. rewrite E1 in Ea.
      assert (ra = r /\ wa = w1) as [-> ->] by (split; congruence). assert (r0 = r /\ w0 = w1) as [-> ->] by (split; congruence).
      split; [reflexivity|]. split; [reflexivity|]. destruct Ra as [-> | ->]; [change (0 =? -1) with false in *|change (-1 =? -1) with true in *]; cbv iota in *; injection E2 as <-; reflexivity. }
    destruct X as (-> & -> & X). cbn [obind].
    destruct (Z.eqb_spec r (-1)) as [->|Hr].
    { exists (-1), w1, d1, w1, d1, []. split; [exact S1|]. rewrite <- X. split; [reflexivity|]. split; [reflexivity|]. rewrite app_nil_r. split; [reflexivity|]. split; [constructor|]. split; [auto|].
      split; [exact V|]. split; [rewrite X; exact I|]. split; [apply said_none|split; reflexivity]. }
    assert (r = 0) as -> by (destruct (sent_result B wret why _ _ _ _ _ _ _ S1); congruence). subst d1. destruct pr.
    - destruct (purge_d B h w1 d0 I V) as (p & w3 & new3 & d3 & ls3 & E5 & E6 & L3 & R3 & V3 & W3 & K3 & I3). rewrite E5, E6. cbn [obind].
      exists 0, w1, d0, w3, d3, new3. split; [exact S1|]. do 2 (split; [reflexivity|]). split; [exact L3|]. split; [exact R3|]. split; [discriminate|]. split; [exact V3|]. split; [exact I3|].
      split; [exact (said_remarks _ _ _ _ _ W3 K3)|discriminate].
    - exists 0, w1, d0, w1, d0, []. split; [exact S1|]. do 2 (split; [reflexivity|]). rewrite app_nil_r. split; [reflexivity|]. split; [constructor|]. split; [auto|]. split; [exact V|]. split; [exact I|].
      split; [apply said_none|discriminate].
  Qed.

  (** The request loop. *)
  Lemma request_loop_told h a : 0 <= a <= 255 -> 0 <= max_data_retry h ->
    forall fuel fcb req cur got fd hp p retry count mf (w : W) d q w', req_frame req fcb a -> sound cur -> ev_bytes (w_evs w) -> inv d -> 0 <= retry ->
    request_loop B wret react fuel h req cur got fd hp p retry count mf w = Done (q, w') ->
    exists d' new, request_loop_d B wret react why fuel h req cur got fd hp p retry count mf w d = Done (q, w', d') /\
      w_log w' = w_log w ++ new /\ inv d' /\ (retry <= max_data_retry h -> exchanges new <> []) /\
      said (is_serial h) why d d' (flat_map request_line (exchanges new) ++
        (if (q_ret q =? 1) && lastx (exchanges new) then [cstr "mbus_sendrecv_request: M-bus data parse error."] else [])).
  Proof.
    intros Ha Hm. induction fuel as [|fuel IH]; intros fcb req cur got fd hp p retry count mf w d q w' Hr Hc Hb He Hre E; [discriminate|].
    cbn [request_loop request_loop_d] in *. destruct (Z.gtb_spec retry (max_data_retry h)) as [G|G].
    { injection E as <- <-. exists d, []. rewrite app_nil_r. split; [reflexivity|]. split; [reflexivity|]. split; [exact He|]. split; [lia|]. cbn. apply said_none. }
    destruct (req_wire req fcb a Hr Ha) as (Hd & Hden & Hv).
    destruct (send_spec B wret react h req _ w (proj1 Hr) Hd Hden Hv) as (r & Es & _ & _).
    destruct (send_d B wret react why RB WR h req w d He (proj1 Hr) ltac:(rewrite (proj1 (proj2 Hr)); discriminate) ltac:(rewrite (proj1 (proj2 Hr)); cbn; tauto))
      as (r0 & f0 & bs & w1 & d1 & ls & E1 & E2 & L1 & V1 & W1 & I1 & R1 & T1).
    rewrite Es in E1. rewrite Es in E. assert (r0 = r /\ f0 = packed_frame req) as [-> ->] by (split; congruence).
    assert (X1 : after_write react w (wire (Short (if fcb then 123 else 91) a)) = w1) by congruence. rewrite X1 in *. clear X1 E1 Es. rewrite E2. cbn [obind] in *. specialize (V1 Hb).
    assert (S1 : said (is_serial h) why d d1 []) by exact (said_write _ _ _ _ _ _ _ _ _ _ W1 T1).
    destruct R1 as [-> | ->]; [change (0 =? -1) with false in *|change (-1 =? -1) with true in *]; cbv iota in *.
    2:{ injection E as <- <-. eexists. exists [Sent bs]. split; [reflexivity|]. split; [exact L1|]. split; [exact I1|]. split; [discriminate|].
        cbn. apply (said_tell _ _ _ _ []); [reflexivity|exact S1]. }
    destruct (recv_d B h cur w1 d1 I1 Hc V1) as (c & f2 & evs2 & got2 & d2 & ls2 & E3 & E4 & W2 & K2 & I2 & Sf2 & V2).
    rewrite E3 in E. rewrite E4. cbn [obind] in *. set (w2 := mkW (w_bus w1) evs2 (w_log w1 ++ [Received c got2])) in *.
    assert (L2 : w_log w2 = w_log w ++ [Sent bs; Received c got2]) by (cbn [w2 w_log]; rewrite L1, <- app_assoc; reflexivity).
    assert (S2 : said (is_serial h) why d d2 []) by exact (said_app _ _ _ _ _ [] [] S1 (said_remarks _ _ _ _ _ W2 K2)).
    assert (V2' : ev_bytes (w_evs w2)) by exact V2.
    assert (X : forall new3 new, received_only new3 -> exchanges ([Sent bs; Received c got2] ++ new3 ++ new) = (bs, Some (c, got2)) :: exchanges new).
    { intros new3 new R. cbn [app exchanges]. rewrite exchanges_received by assumption. reflexivity. }
    (* the end of the loop after this exchange *)
    assert (STEP : forall line w3 d3 new3 retry', received_only new3 -> w_log w3 = w_log w2 ++ new3 -> ev_bytes (w_evs w3) -> inv d3 -> 0 <= retry' ->
      request_line (bs, Some (c, got2)) = line -> said (is_serial h) why d d3 line ->
      (retry' <= max_data_retry h \/ c <> RECV_OK) ->
      forall fcb' req' cur' got' fd' hp' p' count', req_frame req' fcb' a -> sound cur' ->
      request_loop B wret react fuel h req' cur' got' fd' hp' p' retry' count' mf w3 = Done (q, w') ->
      exists d' new, request_loop_d B wret react why fuel h req' cur' got' fd' hp' p' retry' count' mf w3 d3 = Done (q, w', d') /\
        w_log w' = w_log w ++ new /\ inv d' /\ (retry <= max_data_retry h -> exchanges new <> []) /\
        said (is_serial h) why d d' (flat_map request_line (exchanges new) ++
          (if (q_ret q =? 1) && lastx (exchanges new) then [cstr "mbus_sendrecv_request: M-bus data parse error."] else []))).
    { intros line w3 d3 new3 retry' R3 L3 V3 I3 H3 Hline S3 Hgo fcb' req' cur' got' fd' hp' p' count' Hr' Hc' E'.
      destruct (IH fcb' req' cur' got' fd' hp' p' retry' count' mf w3 d3 q w' Hr' Hc' V3 I3 H3 E') as (d' & new & P1 & P2 & P3 & P4 & P5).
      exists d', ([Sent bs; Received c got2] ++ new3 ++ new). split; [exact P1|]. split; [rewrite P2, L3, L2, <- !app_assoc; reflexivity|]. split; [exact P3|].
      rewrite X by assumption. split; [discriminate|]. cbn [flat_map]. rewrite Hline, <- app_assoc.
      assert (LX : lastx ((bs, Some (c, got2)) :: exchanges new) = lastx (exchanges new)).
      { destruct (exchanges new) as [|y ys] eqn:Ex; [|apply lastx_cons; discriminate].
        destruct Hgo as [Hgo|Hgo]; [destruct (P4 Hgo eq_refl)|]. cbn. unfold answered. cbn [snd]. apply Z.eqb_neq. exact Hgo. }
      rewrite LX. exact (said_app _ _ _ _ _ _ _ S3 P5). }
    assert (STOP : forall w3 d3 new3 hp3 tail, received_only new3 -> w_log w3 = w_log w2 ++ new3 -> inv d3 ->
      (mkRq 1 (got ++ [f2]) hp3, w3) = (q, w') ->
      said (is_serial h) why d d3 tail -> tail = request_line (bs, Some (c, got2)) ++ (if answered (bs, Some (c, got2)) then [cstr "mbus_sendrecv_request: M-bus data parse error."] else []) ->
      exists new, w_log w' = w_log w ++ new /\ inv d3 /\ (retry <= max_data_retry h -> exchanges new <> []) /\
        said (is_serial h) why d d3 (flat_map request_line (exchanges new) ++
          (if (q_ret q =? 1) && lastx (exchanges new) then [cstr "mbus_sendrecv_request: M-bus data parse error."] else []))).
    { intros w3 d3 new3 hp3 tail R3 L3 I3 Eq S3 ->. injection Eq as <- <-. exists ([Sent bs; Received c got2] ++ new3 ++ []).
      rewrite X by assumption. split; [rewrite app_nil_r, L3, L2, <- app_assoc; reflexivity|]. split; [exact I3|]. split; [discriminate|].
      cbn [exchanges flat_map q_ret]. rewrite app_nil_r, lastx_one. exact S3. }
    destruct (Z.eqb_spec c RECV_OK) as [Ec|Ec].
    { destruct (purge_d B h w2 d2 I2 V2') as (pp & w3 & new3 & d3 & ls3 & E5 & E6 & L3 & R3 & V3 & W3 & K3 & I3). rewrite E5 in E. rewrite E6. cbn [obind] in *.
      assert (S3 : said (is_serial h) why d d3 []) by exact (said_app _ _ _ _ _ [] [] S2 (said_remarks _ _ _ _ _ W3 K3)).
      destruct (parse_heap f2 fd hp p) as [[[[prs fd'] hp'] p']|] eqn:Eh; cbn [lift obind] in E; [|discriminate].
      destruct (parse_heap_same (dg_text d3) _ _ _ _ _ _ _ _ I3 Sf2 Eh) as (e' & Eh' & He'). rewrite Eh'. cbn [lift obind].
      destruct (prs =? -1).
      { injection E as Eq1 Eq2. destruct (STOP w3 (tell (mkDg e' (dg_err d3)) (cstr "mbus_sendrecv_request: M-bus data parse error.")) new3 hp' _ R3 L3 He' (f_equal2 pair Eq1 Eq2)
          (said_tell _ _ d (mkDg e' (dg_err d3)) [] (cstr "mbus_sendrecv_request: M-bus data parse error.") eq_refl S3)) as (new & N1 & N2 & N3 & N4).
        - rewrite Ec. reflexivity.
        - eexists. exists new. split; [rewrite Eq1, Eq2; reflexivity|]. auto. }
      destruct (free_list hp' p') as [hp''|]; cbn [lift obind] in *; [|discriminate].
      destruct (_ && _).
      - apply (STEP [] w3 (mkDg e' (dg_err d3)) new3 0) with (fcb' := negb fcb); auto; try lia.
        + rewrite Ec. reflexivity.
        + exact (req_toggle _ _ _ (req_packed _ _ _ Hr)).
        + exact sound_any.
      - injection E as <- <-. exists (mkDg e' (dg_err d3)), ([Sent bs; Received c got2] ++ new3 ++ []). split; [reflexivity|].
        rewrite X by assumption. split; [rewrite app_nil_r, L3, L2, <- app_assoc; reflexivity|]. split; [exact He'|]. split; [discriminate|]. rewrite Ec. exact S3. }
    destruct (Z.eqb_spec c RECV_TIMEOUT) as [Et|Et].
    { apply (STEP [cstr "mbus_sendrecv_request: No M-Bus response frame received."] w2 _ [] (retry + 1)) with (fcb' := fcb); auto; try lia; try (exact I2).
      - constructor.
      - rewrite app_nil_r. reflexivity.
      - rewrite Et. reflexivity.
      - apply (said_tell _ _ _ _ []); [reflexivity|exact S2].
      - exact (req_packed _ _ _ Hr). }
    destruct (Z.eqb_spec c RECV_INVALID) as [Ei|Ei].
    { set (d2' := tell d2 (cstr "mbus_sendrecv_request: Received invalid M-Bus response frame.")).
      assert (S2' : said (is_serial h) why d d2' [cstr "mbus_sendrecv_request: Received invalid M-Bus response frame."]) by (apply (said_tell _ _ _ _ []); [reflexivity|exact S2]).
      destruct (purge_d B h w2 d2' I2 V2') as (pp & w3 & new3 & d3 & ls3 & E5 & E6 & L3 & R3 & V3 & W3 & K3 & I3). rewrite E5 in E. rewrite E6. cbn [obind] in *.
      apply (STEP [cstr "mbus_sendrecv_request: Received invalid M-Bus response frame."] w3 d3 new3 (retry + 1)) with (fcb' := fcb); auto; try lia.
      - rewrite Ei. reflexivity.
      - rewrite <- (app_nil_r [_]). exact (said_app _ _ _ _ _ _ [] S2' (said_remarks _ _ _ _ _ W3 K3)).
      - exact (req_packed _ _ _ Hr). }
    injection E as Eq1 Eq2. destruct (STOP w2 (tell d2 (cstr "mbus_sendrecv_request: Failed to receive M-Bus response frame.")) [] hp _ (Forall_nil _) (eq_sym (app_nil_r _)) I2 (f_equal2 pair Eq1 Eq2)
      (said_tell _ _ d d2 [] (cstr "mbus_sendrecv_request: Failed to receive M-Bus response frame.") eq_refl S2)) as (new & N1 & N2 & N3 & N4).
    - unfold request_line, answered. cbn [snd]. apply Z.eqb_neq in Ec, Et, Ei. change (c =? 0) with (c =? RECV_OK). rewrite Ec, Et, Ei. reflexivity.
    - eexists. exists new. split; [rewrite Eq1, Eq2; reflexivity|]. auto.
  Qed.
End OnBus.

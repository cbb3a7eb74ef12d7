(** Property C98: what the programs write to stderr while they talk to the bus, and their exit codes. *)
From Coq Require Import String.
From Coq Require Import List.
From Verif Require Import CBase PBase CStr MFrame SWire SFrame PFrame PFrame2 MText MXml MCodec MRecv SRecv PRecv MVar SVar MSecond MProto SProto PProto PProto2 SReq PReq PReq2 SSecond PSecond SNet SBus MHex MTools MProg PProg MConn SConn MErr SErr PErr PErr5 PErr6 MErrT SErrT PErrT MMem SMem MScan MCmd SCmd MMain SMain PMain MErrA SErrA PErrA PErrA2 PErrA3 PScan PropScan PropReq PropErrA MMainE SMainE PMainE PMainE2 PMainE3 PropMain PropNet PropErrT PCmd PropCmd.
Local Open Scope Z_scope.


(** ** The conversation *)
Lemma arg_names s a : address_arg s = Ok a -> names_slave s a /\ legal_slave a.
Proof.
  unfold address_arg. destruct (mbus_is_secondary_address s) eqn:E.
  - intros H. apply ok_inj in H. subst a. split; [left; split; [apply secondary_spec; exact E|reflexivity]|exact E].
  - unfold atoi, int_op. destruct (in_int (strtol10 s)) eqn:I; [|discriminate]. cbn [bind]. intros H. apply ok_inj in H. subst a. split; [|exact I0 || exact (Logic.I)].
    right. split; [rewrite <- secondary_spec; congruence|]. exists (strtol10 s). split; [apply reads_strtol|]. split; [|reflexivity]. unfold in_int, INT_MIN, INT_MAX in I. lia.
Qed.
Lemma num_reads s n : atoi s = Ok n -> SCmd.reads s n.
Proof. unfold atoi, int_op. destruct (in_int _); [|discriminate]. intros H. apply ok_inj in H. subst n. apply reads_strtol. Qed.

(** What a program says and how it ends, over any line with any traffic on it: the lines of its own and of the library's
    calls, in this order, and besides them only the transport's; its exit code, what it prints, and the last thing that
    happened on the bus (the log grows by [l]). *)
Theorem C98_conversation : forall B wret react why p o v h (w : world B) d code out w', hands_bytes react -> writes_int wret ->
  talks p -> checked p o -> is_serial h = SCmd.serial p -> hears_slaves h -> 0 <= max_data_retry h -> reply_object (v_junk v) -> plenty (v_mem v) ->
  err_ok (dg_text d) -> ev_bytes (w_evs w) ->
  conversation B wret react p o v h w = Done (code, out, w') ->
  exists d' own, conversation_d B wret react why p o v h w d = Done (code, out, w', d') /\ said (SCmd.serial p) why d d' own /\
    (forall l, w_log w' = w_log w ++ l -> conversation_ended p o v (c_text (dg_text d')) code out l own) /\
    (p <> SerialScanSecondary -> p <> TcpScanSecondary -> exists l, w_log w' = w_log w ++ l).
Proof.
  intros B wret react why p o v h w d code out w' RB WR Tk (K1 & K2 & K3) Hs HS Hm Hj Pm He Hev E. rewrite <- Hs.
  assert (U : forall l l1 : list action, w_log w' = w_log w ++ l1 -> w_log w' = w_log w ++ l -> l = l1) by (intros l l1 X Y; apply (app_inv_head (w_log w)); congruence).

  assert (SC : forall q : prog, (do (ls, w) <- scan_main B wret react h w ;; Done (0, flat_map line_text ls, w)) = Done (code, out, w') ->
    exists d' own, (do (ls, w, d) <- scan_main_d B wret react why h w d ;; Done (0, flat_map line_text ls, w, d)) = Done (code, out, w', d') /\ said (is_serial h) why d d' own /\
    (forall l, w_log w' = w_log w ++ l -> scan_ended code l own) /\ (exists l, w_log w' = w_log w ++ l)).
  { intros _ X. destruct (scan_main B wret react h w) as [[ls w1]| |] eqn:Es; cbn [obind] in X; try discriminate. injection X as <- <- <-.
    destruct (scan_main_said B wret react why RB WR h w d ls w1 HS He Hev Es) as (d' & l & own & E2 & L & S1 & S2). rewrite E2. cbn [obind]. exists d', own. split; [reflexivity|]. split; [exact S1|].
    split; [intros l' L'; rewrite (U l' l L L'); exact S2|eauto]. }
  assert (SE : hex16 (o_addr o) ->
    (do (r, w) <- init_all B wret react h w ;;
     if r =? 0 then Done (1, [], w)
     else do (_, (w, _), calls) <- scan_w B wret react (mkWatch false false) (Some h) 0 (o_addr o) (w, v_mem v) ;; Done (0, flat_map call_text calls, w)) = Done (code, out, w') ->
    exists d' own,
     (do (r, w, d) <- init_d B wret react why 0xFF h w d ;;
      if r =? 0 then Done (1, [], w, d)
      else
        do (_, _, calls) <- scan_w B wret react (mkWatch false false) (Some h) 0 (o_addr o) (w, v_mem v) ;;
        do (_, w, d) <- mbus_scan_2nd_address_range_d B wret react why (Some h) 0 (o_addr o) w d ;;
        Done (0, flat_map call_text calls, w, d)) = Done (code, out, w', d') /\ said (is_serial h) why d d' own /\
     (forall l, w_log w' = w_log w ++ l -> scan_secondary_ended o code out l own)).
  { intros Hx X. pose proof (fun code calls => scan_secondary_said B wret react why RB WR h o (v_mem v) w d code calls w' Hx Pm He Hev) as P.
    destruct (init_all B wret react h w) as [[r w1]| |]; cbn [obind] in *; try discriminate. destruct (r =? 0).
    - injection X as <- <- <-. destruct (P 1 [] eq_refl) as (d' & own & E2 & S1 & S2). exists d', own. split; [|split; [exact S1|intros l L; exact (S2 l L (flat_map call_text) eq_refl)]].
      destruct (init_d B wret react why 255 h w d) as [[[r2 w2] d2]| |]; cbn [obind] in *; try discriminate. destruct (r2 =? 0); [injection E2 as <- <-; reflexivity|].
      destruct (scan_w _ _ _ _ _ _ _ _) as [[[r3 x3] c3]| |]; cbn [obind] in *; try discriminate. destruct (mbus_scan_2nd_address_range_d _ _ _ _ _ _ _ _ _) as [[[r4 w4] d4]| |]; cbn [obind] in *; discriminate.
    - destruct (scan_w _ _ _ _ _ _ _ _) as [[[r3 [w3 m3]] c3]| |] eqn:Esw; cbn [obind] in *; try discriminate. injection X as <- <- <-. destruct (P 0 c3 eq_refl) as (d' & own & E2 & S1 & S2).
      exists d', own. split; [|split; [exact S1|intros l L; exact (S2 l L (flat_map call_text) eq_refl)]].
      destruct (init_d B wret react why 255 h w d) as [[[r2 w2] d2]| |]; cbn [obind] in *; try discriminate. destruct (r2 =? 0); [discriminate|].
      destruct (scan_w _ _ _ _ _ _ _ (w2, _)) as [[[r5 x5] c5]| |]; cbn [obind] in *; try discriminate. destruct (mbus_scan_2nd_address_range_d _ _ _ _ _ _ _ _ _) as [[[r4 w4] d4]| |]; cbn [obind] in *; try discriminate.
      injection E2 as -> -> ->. reflexivity. }
  destruct p; cbn [conversation conversation_d conversation_ended SCmd.serial SCmd.tcp] in *;
    try (destruct Tk; discriminate).
  1,2: destruct (SC SerialScan E) as (d' & own & E2 & S1 & S2 & S3); exists d', own; auto.
  1,2: destruct (SE (K3 ltac:(auto)) E) as (d' & own & E2 & S1 & S2); exists d', own; split; [exact E2|]; split; [exact S1|]; split; [exact S2|intros X Y; exfalso; auto].
  1,2: destruct (address_arg (o_addr o)) as [a|] eqn:Ea; cbn [lift obind] in *; try discriminate; destruct (arg_names _ _ Ea) as [Na La];
    (destruct (request_data_main B wret react (v_stamp v) h a w) as [[[r t] w1]| |] eqn:Er; cbn [obind] in E; try discriminate); injection E as <- <- <-.
  1: destruct (request_data_said B wret react why RB WR (v_stamp v) SerialRequest h a o v w d r t w1 eq_refl Hs He Hev La Er) as (d' & l & own & E2 & L & S1 & S2).
  2: destruct (request_data_said B wret react why RB WR (v_stamp v) TcpRequest h a o v w d r t w1 eq_refl Hs He Hev La Er) as (d' & l & own & E2 & L & S1 & S2).
  1,2: rewrite E2; cbn [obind]; exists d', own; split; [reflexivity|]; split; [exact S1|]; split; [intros l' L'; rewrite (U l' l L L'); eauto|eauto].
  1,2: destruct (address_arg (o_addr o)) as [a|] eqn:Ea; cbn [lift obind] in *; try discriminate; destruct (arg_names _ _ Ea) as [Na La];
    (destruct (request_multi_main B wret react (v_stamp v) h a (o_frames o) w) as [[[r t] w1]| |] eqn:Er; cbn [obind] in E; try discriminate); injection E as <- <- <-.
  1: destruct (request_multi_said B wret react why RB WR (v_stamp v) SerialMulti h a o v w d r t w1 (or_introl eq_refl) Hm He Hev La Er) as (d' & l & own & E2 & L & S1 & S2).
  2: destruct (request_multi_said B wret react why RB WR (v_stamp v) TcpMulti h a o v w d r t w1 (or_intror eq_refl) Hm He Hev La Er) as (d' & l & own & E2 & L & S1 & S2).
  1,2: rewrite E2; cbn [obind]; exists d', own; split; [reflexivity|]; split; [exact S1|]; split; [intros l' L'; rewrite (U l' l L L'); eauto|eauto].
  - destruct (address_arg (o_addr o)) as [a|] eqn:Ea; cbn [lift obind] in *; try discriminate; destruct (arg_names _ _ Ea) as [Na La].
    destruct (set_address_main B wret react h (v_junk v) a (o_num o) w) as [[[r t] w1]| |] eqn:Er; cbn [obind] in E; try discriminate. injection E as <- <- <-.
    destruct (set_address_said B wret react why RB WR h (v_junk v) a o v w d r t w1 He Hev Hj La (K1 eq_refl) Er) as (d' & l & own & E2 & L & S1 & S2).
    rewrite E2; cbn [obind]; exists d', own; split; [reflexivity|]; split; [exact S1|]; split; [|eauto]. intros l' L'; rewrite (U l' l L L'). exists a. split; [exact Na|]. apply S2. discriminate.
  - destruct (atoi (o_addr o)) as [a|] eqn:Ea; cbn [lift obind] in *; try discriminate.
    destruct (switch_baudrate_main B wret react h (v_junk v) a (o_num o) w) as [[[r t] w1]| |] eqn:Er; cbn [obind] in E; try discriminate. injection E as <- <- <-.
    destruct (switch_baudrate_said B wret react why RB WR h (v_junk v) a o v w d r t w1 He Hev Hj Er) as (d' & l & own & E2 & L & S1 & S2).
    rewrite E2; cbn [obind]; exists d', own; split; [reflexivity|]; split; [exact S1|]; split; [|eauto]. intros l' L'; rewrite (U l' l L L'). exists a. split; [exact (num_reads _ _ Ea)|]. apply S2. discriminate.
  - destruct (address_arg (o_addr o)) as [a|] eqn:Ea; cbn [lift obind] in *; try discriminate; destruct (arg_names _ _ Ea) as [Na La].
    destruct (application_reset_main B wret react h (v_junk v) a (o_num o) w) as [[[r t] w1]| |] eqn:Er; cbn [obind] in E; try discriminate. injection E as <- <- <-.
    destruct (application_reset_said B wret react why RB WR h (v_junk v) a o v w d r t w1 He Hev Hj La Er) as (d' & l & own & E2 & L & S1 & S2).
    rewrite E2; cbn [obind]; exists d', own; split; [reflexivity|]; split; [exact S1|]; split; [|eauto]. intros l' L'; rewrite (U l' l L L'). exists a. split; [exact Na|]. apply S2. discriminate.
  - destruct (address_arg (o_addr o)) as [a|] eqn:Ea; cbn [lift obind] in *; try discriminate; destruct (arg_names _ _ Ea) as [Na La].
    assert (G : forall content, match o_file o with None => Some (v_stdin v) | Some f => v_file v f end = Some content -> forall r w1, raw_send_main B wret react h (v_junk v) a content w = Done (r, w1) -> Done (r, [], w1) = Done (code, out, w') ->
      exists d' own, (do (r, w, d) <- raw_send_main_d B wret react why h (v_junk v) a (opt_text (o_file o)) (Some content) w d ;; Done (r, [], w, d)) = Done (code, out, w', d') /\ said (is_serial h) why d d' own /\
        (forall l, w_log w' = w_log w ++ l -> exists a, names_slave (o_addr o) a /\ ended RawSend o v a (c_text (dg_text d')) code out l own) /\ (RawSend <> SerialScanSecondary -> RawSend <> TcpScanSecondary -> exists l, w_log w' = w_log w ++ l)).
    { intros content Hc r w1 Er X. injection X as <- <- <-. destruct (raw_send_said B wret react why RB WR h (v_junk v) a o v content w d r w1 He Hev Hj La Hc Er) as (d' & l & own & E2 & L & S1 & S2).
      rewrite E2; cbn [obind]; exists d', own; split; [reflexivity|]; split; [exact S1|]; split; [intros l' L'; rewrite (U l' l L L'); eauto|eauto]. }
    destruct (o_file o) as [f|] eqn:Ef.
    + destruct (v_file v f) as [content|] eqn:Ev.
      * destruct (raw_send_main B wret react h (v_junk v) a content w) as [[r w1]| |] eqn:Er; cbn [obind] in E; try discriminate. exact (G content eq_refl r w1 Er E).
      * destruct (address_slave B wret react h a w) as [[a' w1]| |] eqn:Es; cbn [obind] in E; try discriminate. injection E as <- <- <-.
        destruct (raw_nofile_said B wret react why RB WR h (v_junk v) a o v f w d a' w1 He Hev La Ef Ev Es) as (d' & l & own & E2 & L & S1 & S2). rewrite Ef in E2.
        rewrite E2; cbn [obind]; exists d', own; split; [reflexivity|]; split; [exact S1|]; split; [intros l' L'; rewrite (U l' l L L'); eauto|eauto].
    + destruct (raw_send_main B wret react h (v_junk v) a (v_stdin v) w) as [[r w1]| |] eqn:Er; cbn [obind] in E; try discriminate. exact (G (v_stdin v) eq_refl r w1 Er E).
  - destruct (select_secondary_main B wret react h (v_junk v) (o_addr o) w) as [[[r t] w1]| |] eqn:Er; cbn [obind] in E; try discriminate. injection E as <- <- <-.
    destruct (select_secondary_said B wret react why RB WR h (v_junk v) o w d r t w1 He Hev Hj (K2 ltac:(auto)) Er) as (d' & l & own & E2 & L & S1 & S2).
    rewrite E2; cbn [obind]; exists d', own; split; [reflexivity|]; split; [exact S1|]; split; [|eauto]. intros l' L'; rewrite (U l' l L L').
    exact (S2 (fun t => match t with Some t => cstr "Recieved a reply from secondarily addressed device: Searched for [" ++ o_shown o ++ cstr "] and found [" ++ t ++ cstr "]." ++ nl | None => [] end) eq_refl).
  - destruct (select_secondary_main B wret react h (v_junk v) (o_addr o) w) as [[[r t] w1]| |] eqn:Er; cbn [obind] in E; try discriminate. injection E as <- <- <-.
    destruct (select_secondary_said B wret react why RB WR h (v_junk v) o w d r t w1 He Hev Hj (K2 ltac:(auto)) Er) as (d' & l & own & E2 & L & S1 & S2).
    rewrite E2; cbn [obind]; exists d', own; split; [reflexivity|]; split; [exact S1|]; split; [|eauto]. intros l' L'; rewrite (U l' l L L').
    exact (S2 (fun t => match t with Some t => cstr "Recieved a reply from secondarily addressed device: Searched for [" ++ o_shown o ++ cstr "] and found [" ++ t ++ cstr "]." ++ nl | None => [] end) eq_refl).
Qed.

(** When the conversation begins the error text is empty. *)
Theorem C98_start_text : forall p o v initial, talks p -> (SCmd.tcp p = true -> ~ In 0 (o_target o) /\ 0 <= o_port o <= 65535) -> ~ In 0 (v_why v) ->
  ready p o v -> text_at_start p o v no_text (start initial) = Ok no_text.
Proof.
  intros p o v initial Tk Zt Zw (M1 & M2 & M3 & Lo & _). unfold text_at_start. rewrite M1, M2, M3, serial_same, context_made_e. cbn [bind].
  unfold mbus_connect_e. change (1 =? 0) with false. cbv iota.
  change (find 1 (p_handles (made (SCmd.serial p) initial))) with (Some (mkO (SCmd.serial p) None (Some (2, 3)) None)). cbv iota beta. cbn [ob_serial].
  set (ob := mkO (SCmd.serial p) None (Some (2, 3)) None). destruct (SCmd.serial p) eqn:S.
  - destruct (C87_serial_connect (s_open (v_sys v)) (s_attr (v_sys v)) 1 ob (made true initial)) as (r & p' & err & _ & E2 & _). rewrite E2. reflexivity.
  - assert (T : SCmd.tcp p = true) by (destruct Tk as [X|X]; [congruence|exact X]). destruct (Zt T) as [Z1 Z2].
    destruct (C87_tcp_connect (s_info (v_sys v)) (o_target o) (o_port o) (v_why v) 1 ob no_text (made false initial) no_text_ok Z1 Zw ltac:(lia) ltac:(discriminate)) as (r & p' & e' & _ & E2 & E3).
    rewrite E2. cbn [line_opened] in Lo. destruct (s_info (v_sys v)) as [l|]; [|contradiction]. destruct E3 as [(_ & _ & ->)|(_ & Hn & _)]; [reflexivity|].
    exfalso. apply Lo. apply accepts_none. exact Hn.
Qed.

(** A documented run. What stderr holds at the end is what was said during the conversation. *)
Theorem C98_run : forall B wret react why p name g o v initial (w : world B) x, hands_bytes react -> writes_int wret ->
  launch p name g o v initial -> talks p -> reply_object (v_junk v) -> plenty (v_mem v) -> ev_bytes (w_evs w) ->
  run_main B wret react p name (SCmd.line p g) v no_text (start initial) w = Done x ->
  exists e err own, run_main_d B wret react why p name (SCmd.line p g) v no_text (start initial) w =
      Done (mkRan (x_code x) (x_out x) err (x_place x) (x_talk x) (x_end x) (x_world x)) /\
    said (SCmd.serial p) why (mkDg no_text []) (mkDg e err) own /\
    forall l, w_log (x_world x) = w_log w ++ l -> conversation_ended p o v (c_text e) (x_code x) (x_out x) l own.
Proof.
  intros B wret react why p name g o v initial w x RB WR L Tk Hj Pm Hev E.
  destruct (launch_means _ _ _ _ _ _ L) as (_ & _ & Ba).
  pose proof (l_taken _ _ _ _ _ _ L) as H. pose proof (l_chars _ _ _ _ _ _ L) as St. pose proof (l_why _ _ _ _ _ _ L) as Zw.
  assert (Zt : SCmd.tcp p = true -> ~ In 0 (o_target o) /\ 0 <= o_port o <= 65535).
  { intros T. destruct (run_target p name _ o H T) as [I P]. split; [apply St; exact I|exact P]. }
  unfold run_main in E. unfold run_main_d. rewrite H in *. cbn [lift obind] in *. rewrite (talks_not_file p Tk) in E. cbv iota in E. rewrite (where_same p o) in *.
  destruct (PMain.starts p o v initial (l_initial _ _ _ _ _ _ L) (l_fds _ _ _ _ _ _ L) Tk Zt Zw) as [(Rd & pr1 & r0 & pr' & pr2 & Es & Pr & D1 & D2 & Nl)|(Rd & _)]; [|destruct (Rd (l_ready _ _ _ _ _ _ L))].
  rewrite Es in *. rewrite (C98_start_text p o v initial Tk Zt Zw Rd). cbn [lift obind] in *.
  destruct (conversation B wret react p o v (program_handle p o) w) as [[[r t] w1]| |] eqn:Ec; cbn [obind] in E; try discriminate.
  assert (Ck : checked p o).
  { assert (HX : ~ ~ hex16 (o_addr o) -> hex16 (o_addr o)).
    { intros N. destruct (mbus_is_secondary_address (o_addr o)) eqn:Y; [apply secondary_spec; exact Y|]. exfalso. apply N. intros Z. apply secondary_spec in Z. congruence. }
    split; [|split].
    - intros ->. cbn in Ba. lia.
    - intros [-> | ->]; apply HX; exact Ba.
    - intros [-> | ->]; apply HX; exact Ba. }
  destruct (C98_conversation B wret react why p o v (program_handle p o) w (mkDg no_text []) r t w1 RB WR Tk Ck eq_refl (hears p o) ltac:(cbn; lia) Hj Pm no_text_ok Hev Ec) as (d' & own & E2 & S1 & S2 & _).
  rewrite E2. cbn [obind]. exists (dg_text d'), (dg_err d'), own. rewrite D1 in *. cbn [lift obind] in *. rewrite D2 in *. cbn [lift obind] in *.
  destruct (r =? 0); injection E as <-; cbn [x_code x_out x_place x_talk x_end x_world]; (split; [reflexivity|]); (split; [destruct d'; exact S1|exact S2]).
Qed.

(** A program that does not come to talk says what C91 says. *)
Theorem C98_silent : forall B wret react why p name args v e pr (w : world B) x, talks p ->
  run_main B wret react p name args v e pr w = Done x -> x_talk x = None -> run_main_d B wret react why p name args v e pr w = Done x.
Proof.
  intros B wret react why p name args v e pr w x Tk E T. unfold run_main in E. unfold run_main_d. destruct (command p name args) as [[code err|o]|]; cbn [lift obind] in *; try discriminate; [exact E|].
  rewrite (talks_not_file p Tk) in E. cbv iota in E.
  destruct (startup p o v e pr) as [[asked err pr1|h hd err pr1]|]; cbn [lift obind] in *; try discriminate; [exact E|]. exfalso.
  destruct (conversation B wret react p o v hd w) as [[[r t] w1]| |]; cbn [obind] in E; try discriminate.
  destruct (r =? 0); [|injection E as <-; discriminate T].
  destruct (mbus_disconnect h pr1) as [[r1 pr2]|]; cbn [lift obind] in E; try discriminate. destruct (mbus_context_free h pr2) as [pr3|]; cbn [lift obind] in E; try discriminate. injection E as <-. discriminate T.
Qed.

(** mbus_parse_hex. *)
Lemma bind_got {A C} (x : res A) v (f : A -> res C) r : x = Ok v -> bind x f = r -> f v = r.
Proof. intros ->. exact (fun H => H). Qed.
Theorem C98_convert : forall stamp file d code t, err_ok (dg_text d) -> parse_hex_main stamp false file = Ok (code, t) ->
  exists bs d' ls, file_bytes file = Ok bs /\ parse_hex_main_d stamp file d = Ok (code, t, d') /\ wrote d d' ls /\ converted bs (c_text (dg_text d')) code t ls.
Proof.
  intros stamp file d code t He E. destruct (file_any file) as (bs & Ef & Hb & _). 
  assert (Q : parse_hex_main stamp false file = ltac:(let t := eval unfold parse_hex_main in (parse_hex_main stamp false file) in exact t)) by (match goal with |- _ = ?r => exact (eq_refl r) end).
  rewrite Q in E. clear Q. match type of E with bind _ ?f = ?r => pose proof (bind_got (file_bytes file) bs f r Ef E) as E1 end. cbv beta in E1. clear E. rename E1 into E.
  enough (G : exists d' ls, parse_hex_bytes_d stamp bs d = Ok (code, t, d') /\ wrote d d' ls /\ converted bs (c_text (dg_text d')) code t ls).
  { destruct G as (d' & ls & E2 & G). exists bs, d', ls. split; [exact Ef|]. split; [|exact G].
    assert (Q : parse_hex_main_d stamp file d = bind (file_bytes file) (fun bs => parse_hex_bytes_d stamp bs d)) by (match goal with |- _ = ?r => exact (eq_refl r) end). rewrite Q. clear Q.
    exact (eq_trans (f_equal (fun x => bind x (fun bs => parse_hex_bytes_d stamp bs d)) Ef) E2). }
  clear Ef. unfold parse_hex_bytes_d, tell_why. destruct sound_zero as (Jo & Jb & Js). revert E Jo Jb Js. generalize frame_zero as fz. generalize fd_zero as dz. intros dz fz E Jo Jb Js.
  destruct (parse_step (dg_text d) fz bs (proj1 He) Jo Jb Hb) as (r & f & e & P1 & P2 & Fo & Fb & _ & C). rewrite P2 in E. rewrite P1. cbn [bind] in *.
  pose proof (parse_size _ _ _ _ Js Hb P2) as Fs.
  destruct C as [(Hr & -> & NF)|(Hr & m & TF & SY)].
  2:{ assert (X : (r =? 0) = false) by lia. rewrite X in E. cbn [negb] in E. injection E as <- <-. assert (Y : (r <? 0) = true) by lia. rewrite Y.
      eexists. eexists ([] ++ [_]). split; [reflexivity|]. split; [apply wrote_tell; apply wrote_text; apply wrote_none|].
      rewrite tell_text. cbn [dg_text]. apply (V_no_telegram bs _ r m TF). exact (proj2 SY). }
  assert (Y : (r <? 0) = false) by lia. rewrite Y. clear Y.
  destruct (Z.gtb_spec r 0) as [G|G].
  { assert (X : (r =? 0) = false) by lia. rewrite X in E. cbn [negb] in E. injection E as <- <-.
    eexists. eexists ([] ++ [_]). split; [reflexivity|]. split; [apply wrote_tell; apply wrote_text; apply wrote_none|]. apply V_too_short; [exact (parse_lacks _ _ _ _ P2 G)|exact NF]. }
  assert (r = 0) by lia. subst r. change (0 =? 0) with true in E. cbn [negb] in E.
  destruct (sound_carries f (conj Fo (conj Fb Fs))) as (pl & Hc & Hk & Hi).
  pose proof (data_drop (dg_text d) f pl dz Hc (proj1 He)) as D. pose proof (data_names (dg_text d) f pl dz) as N. pose proof (data_parse_type (dg_text d) f dz) as T.
  rewrite <- D in E. clear D. unfold drop_o in E. cbn [dg_text].
  clear P1 P2 Js Jo Jb. revert E N T. generalize (mbus_frame_data_parse_e (dg_text d) (Some f) (Some dz)) as X. intros X E N T.
  destruct X as [[[r1 fd1] e1]|]; [|discriminate E]. destruct fd1 as [fd1|]; [|discriminate E]. cbn [bind] in *.
  specialize (N _ _ _ Hc Hk Hi (proj1 He) eq_refl). specialize (T _ _ _ eq_refl).
  destruct N as [[-> ->]|(-> & m & DF & S7)].
  - change (0 =? 0) with true in *. cbn [negb] in *. destruct (T eq_refl) as (x & Ex & Hx). injection Ex as <-.
    destruct (mbus_frame_data_xml stamp fd1) as [[text|]|] eqn:Et; cbn [bind] in *; try discriminate.
    + injection E as <- <-. eexists. exists []. split; [reflexivity|]. split; [apply wrote_text; apply wrote_text; apply wrote_none|]. apply V_document. exact NF.
    + exfalso. exact (xml_some _ _ Hx Et).
  - change (-1 =? 0) with false in *. cbn [negb] in *. injection E as <- <-. eexists. eexists ([] ++ [_]). split; [reflexivity|].
    split; [apply wrote_tell; apply wrote_text; apply wrote_text; apply wrote_none|]. rewrite tell_text. cbn [dg_text]. apply (V_no_data bs _ _ _ _ m DF (proj2 S7)). exact NF.
Qed.

(** ** Two calls of C97: one telegram handed over by the caller, and the selection by itself *)
Theorem C97_send_frame : forall B wret react why h f (w : world B) d, hands_bytes react -> writes_int wret -> err_ok (dg_text d) -> reply_object f -> In (ftype f) [1; 2; 3; 4] ->
  exists r f' bs w' d' ls, mbus_send_frame B wret react (Some h) f w = Done (r, f', w') /\ mbus_send_frame_d B wret react why (Some h) f w d = Done (r, f', w', d') /\
    w_log w' = w_log w ++ [Sent bs] /\ wrote d d' ls /\ (r = 0 \/ r = -1) /\
    write_told (is_serial h) why (wret (w_bus w) (Z.of_nat (List.length bs))) (Z.of_nat (List.length bs)) (dg_text d) r (dg_text d') ls.
Proof.
  intros B wret react why h f w d RB WR He (Fo & _ & Fs) Ft.
  destruct (send_d B wret react why RB WR h f w d He Fo (fun _ => Fs) Ft) as (r & f' & bs & w' & d' & ls & E1 & E2 & L & _ & W1 & _ & R & T).
  exists r, f', bs, w', d', ls. auto 10.
Qed.
Theorem C97_send_select : forall B wret react why h s (w : world B) d, hands_bytes react -> writes_int wret -> err_ok (dg_text d) -> ev_bytes (w_evs w) ->
  (hex16 s -> exists r w' d' bs, mbus_send_select_frame B wret react (Some h) s w = Done (r, w') /\ mbus_send_select_frame_d B wret react why (Some h) s w d = Done (r, w', d') /\
    w_log w' = w_log w ++ [Sent bs] /\ (r = -1 /\ said (is_serial h) why d d' [cstr "mbus_send_select_frame: Failed to send mbus frame."] \/ r = 0 /\ said (is_serial h) why d d' [])) /\
  (~ hex16 s -> exists e', mbus_send_select_frame_d B wret react why (Some h) s w d =
      Done (-1, w, one_line (mkDg e' (dg_err d)) (cstr "mbus_send_select_frame: Failed to pack selection mbus frame.")) /\
    says e' (cstr "mbus_frame_select_secondary_pack: address is invalid.")).
Proof.
  intros B wret react why h s w d RB WR He Hev. split; intros Hx.
  - apply secondary_spec in Hx. destruct (select_frame_said B wret react why RB WR h s w d He Hev Hx) as (r & w' & d' & bs & E1 & E2 & L & _ & _ & C). exists r, w', d', bs. auto.
  - assert (Es : mbus_is_secondary_address s = false) by (destruct (mbus_is_secondary_address s) eqn:E; [exfalso; apply Hx; apply secondary_spec; exact E|reflexivity]).
    pose proof (PropErr.C86_select (dg_text d) (Some (mbus_frame_new T_LONG)) (Some s) He) as P. cbv beta iota in P. rewrite Es in P. destruct P as (e' & P & S).
    exists e'. split; [|exact S]. unfold mbus_send_select_frame_d. rewrite P. reflexivity.
Qed.
(** Without a handle: 0 for the telegram, and 0 for the selection. *)
Theorem C97_send_no_handle_refuted : forall B wret react why f s (w : world B) d, err_ok (dg_text d) -> hex16 s ->
  mbus_send_frame_d B wret react why None f w d = Done (0, f, w, one_line d (cstr "mbus_send_frame: Invalid M-Bus handle for send.")) /\
  mbus_send_select_frame_d B wret react why None s w d = Done (0, w, one_line d (cstr "mbus_send_frame: Invalid M-Bus handle for send.")).
Proof.
  intros B wret react why f s w d He Hx. split; [reflexivity|]. apply secondary_spec in Hx. unfold mbus_send_select_frame_d.
  pose proof (PropErr.C86_select (dg_text d) (Some (mbus_frame_new T_LONG)) (Some s) He) as P. cbv beta iota in P. rewrite Hx in P.
  destruct (pack_any s Hx) as (g & Pk & _). rewrite Pk in P. cbn [bind] in P. rewrite P. cbn [lift obind]. change (0 =? -1) with false. cbv iota. destruct d. reflexivity.
Qed.

(** ** What goes wrong *)
Definition said_on {B} (wret : B -> Z -> Z) (react : B -> list Z -> B * list ev) (why : list Z) (p : prog) (o : opts) (h : handle) (b : B) (evs : list ev) : option (Z * list Z * list Z) :=
  match conversation_d B wret react why p o (ex_env ex_sys) h (mkW b evs []) (mkDg no_text []) with
  | Done (code, out, _, d) => Some (code, out, dg_err d)
  | _ => None
  end.
Definition to (addr : list Z) (n : Z) : opts := mkOpts false false 9600 0 16 [] 0 addr n None addr.
(** A scan during which no ping could be written succeeds, having found nothing. *)
Definition dead (_ : nat) (_ : Z) : Z := -1.
Theorem C98_dead_line_refuted :
  match said_on dead quiet_bus (cstr "Input/output error") SerialScan (to [] 0) mbus_context_serial 0%nat [] with
  | Some (code, out, err) => code = 0 /\ out = [] /\ List.length (filter (fun c => c =? 10) err) = (3 * 251)%nat
  | _ => False
  end.
Proof. vm_compute. auto. Qed.
(** mbus-serial-set-address takes noise, or an error of read(), for the answer of a slave at the new address. *)
Theorem C98_claimed_response_refuted :
  said_on all_taken script [] SetAddress (to (cstr "5") 7) mbus_context_serial [[]; []; [MRecv.Data [0x33]]] [] =
    Some (1, [], lines [cstr "Verification failed. Got a response from new address"]) /\
  said_on all_taken script [] SetAddress (to (cstr "5") 7) mbus_context_serial [[]; []; [EOther]] [] =
    Some (1, [], lines [cstr "Verification failed. Got a response from new address"]).
Proof. split; vm_compute; reflexivity. Qed.
(** mbus-serial-switch-baudrate says that its order was not sent, and gives an empty reason. *)
Theorem C98_no_reason_refuted :
  said_on (fails_at 0) quiet_bus (cstr "Input/output error") SwitchBaudrate (to (cstr "5") 2400) mbus_context_serial 0%nat [] =
    Some (1, [], lines [cstr "mbus_serial_send_frame: Failed to write frame to socket (ret = -1: Input/output error)";
                        cstr "mbus_send_switch_baudrate_frame: failed to send mbus frame.";
                        cstr "Failed to send switch baudrate frame: "]).
Proof. vm_compute. reflexivity. Qed.
(** mbus-serial-select-secondary, answered by an acknowledgement where the telegram with the address is due: success, and not a word. *)
Theorem C98_silent_select_refuted :
  said_on all_taken script [] SerialSelect (to (cstr "11000000FFFFFFFF") 0) mbus_context_serial [[MRecv.Data [0xE5]]; [MRecv.Data [0xE5]]] [] = Some (0, [], []).
Proof. vm_compute. reflexivity. Qed.
(** Noise in answer to an order is reported as an unknown reply, with exit code 0. *)
Theorem C98_unknown_reply_refuted :
  said_on all_taken script [] SwitchBaudrate (to (cstr "5") 2400) mbus_context_serial [[MRecv.Data [0x33]]] [] = Some (0, [], lines [cstr "Unknown reply:"]).
Proof. vm_compute. reflexivity. Qed.

(** ** The hypotheses hold *)
Example C98_run_nonvacuous : Forall (fun x => talks (fst x) /\ exists o, launch (fst x) (cstr "program") (snd x) o (ex_env ex_sys) [0; 1; 2]) ex_given /\
  reply_object (v_junk (ex_env ex_sys)) /\ plenty (v_mem (ex_env ex_sys)).
Proof.
  split.
  - pose proof C91_launches as L. revert L. unfold ex_given. intros L.
    repeat (let X := fresh in pose proof (Forall_inv L) as X; apply Forall_inv_tail in L; apply Forall_cons; [split; [first [left; reflexivity|right; reflexivity]|exact X]|]). apply Forall_nil.
  - split; [exact sound_zero|intros []].
Qed.
Definition all_said (p : prog) (g : given) (dead : bool) : option (Z * list Z * list Z) :=
  match run_main_d members (fun _ n => if dead then -1 else n) (net_react acks data_of) (cstr "Broken pipe") p (cstr "program") (SCmd.line p g) (ex_env ex_sys) no_text (start [0; 1; 2]) (mkW ex_net [] []) with
  | Done x => Some (x_code x, x_out x, x_err x)
  | _ => None
  end.
Example C98_run_set : all_said SetAddress (mkG [] (cstr "/dev/ttyS0") [] (cstr "1") (cstr "5") None) false = Some (1, [], lines [cstr "Verification failed. Got a response from new address"]).
Proof. vm_compute. reflexivity. Qed.
Example C98_run_select : all_said TcpSelect (mkG [] (cstr "gateway") (cstr "8000") (cstr "99000000FFFFFFFF") [] None) false =
  Some (1, [], lines [cstr "No reply from device with secondary address 99000000FFFFFFFF: M-Bus tcp transport layer response timeout has been reached."]).
Proof. vm_compute. reflexivity. Qed.
Example C98_run_request : all_said TcpRequest (mkG [] (cstr "gateway") (cstr "8000") (cstr "11000000FFFFFFFF") [] None) true =
  Some (1, [], lines [cstr "mbus_send_select_frame: Failed to send mbus frame.";
    cstr "mbus_select_secondary_address: Failed to send selection frame: mbus_tcp_send_frame: Failed to write frame to socket (ret = -1)" ++ [10] ++ cstr ".";
    cstr "main: Error: Failed to select secondary address [11000000FFFFFFFF]."]).
Proof. vm_compute. reflexivity. Qed.
Example C98_run_convert : match parse_hex_main_d (fun _ => None) (cstr "12 34") (mkDg no_text []) with
  | Ok (code, t, d') => code = 1 /\ t = None /\ dg_err d' = lines [cstr "mbus_parse: Invalid M-Bus frame start."]
  | _ => False
  end.
Proof. vm_compute. auto. Qed.

Print Assumptions C98_conversation.
Print Assumptions C98_start_text.
Print Assumptions C98_run.
Print Assumptions C98_silent.
Print Assumptions C98_convert.
Print Assumptions C98_dead_line_refuted.
Print Assumptions C98_claimed_response_refuted.
Print Assumptions C98_no_reason_refuted.
Print Assumptions C98_silent_select_refuted.
Print Assumptions C98_unknown_reply_refuted.
Print Assumptions C97_send_frame.
Print Assumptions C97_send_select.
Print Assumptions C97_send_no_handle_refuted.

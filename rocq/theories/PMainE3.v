(** Proofs about what the programs say: raw-send, multi-reply requests, selection, scan of secondary addresses. *)
From Coq Require Import String.
From Coq Require Import List.
From Verif Require Import CBase PBase CStr MFrame SWire SFrame PFrame PFrame2 MText MXml MCodec MRecv SRecv PRecv MVar SVar MSecond MProto SProto PProto PProto2 SReq PReq PReq2 SSecond PSecond SNet SBus MHex MTools MProg PProg MConn MErr SErr PErr PErr5 PErr6 MErrT SErrT PErrT MMem SMem MScan MCmd SCmd MMain SMain PMain MErrA SErrA PErrA PErrA2 PErrA3 PScan PropScan PropErrA MMainE SMainE PMainE PMainE2.
Local Open Scope Z_scope.


Lemma parse_lacks f got r f' : mbus_parse f got = Ok (r, f') -> 0 < r -> lacks got r.
Proof.
  intros E G. split; [exact G|]. unfold mbus_parse in E. destruct got as [|b0 [|b1 l]].
  - injection E as <- _. lia.
  - change (Z.of_nat (List.length [b0])) with 1 in *. change (rd [b0] 0) with (Ok b0) in E. change (1 >? 0) with true in E. cbn [bind] in E. cbn [hd List.length].
    destruct (b0 =? 0xE5); [injection E as <- _; lia|]. destruct (Z.eqb_spec b0 0x10) as [E1|_]; [injection E as <- _; left; split; [exact E1|lia]|].
    destruct (Z.eqb_spec b0 0x68) as [E2|_]; [injection E as <- _; right; split; [exact E2|left; lia]|injection E as <- _; lia].
  - set (n := Z.of_nat (List.length (b0 :: b1 :: l))) in *. assert (Hn : (n >? 0) = true) by (unfold n; cbn [List.length]; lia). rewrite Hn in E. change (rd (b0 :: b1 :: l) 0) with (Ok b0) in E. change (rd (b0 :: b1 :: l) 1) with (Ok b1) in E. cbn [bind] in E.
    cbn [hd nth]. destruct (b0 =? 0xE5); [injection E as <- _; lia|]. destruct (Z.eqb_spec b0 0x10) as [E1|_].
    + left. split; [exact E1|]. destruct (n <? 5); [injection E as <- _; reflexivity|]. destruct (negb (n =? 5)); [injection E as <- _; lia|].
      repeat match type of E with bind ?x _ = _ => destruct x; cbn [bind] in E; [|discriminate E] end. match type of E with (if ?c then _ else _) = _ => destruct c end; injection E as <- _; lia.
    + destruct (Z.eqb_spec b0 0x68) as [E2|_]; [|injection E as <- _; lia]. right. split; [exact E2|].
      destruct (Z.ltb_spec n 3) as [L|L]; [injection E as <- _; left; split; [subst n; cbn [List.length] in *; lia|reflexivity]|]. right. split; [subst n; cbn [List.length] in *; lia|].
      match type of E with bind ?x _ = _ => destruct x; cbn [bind] in E; [|discriminate E] end. destruct (b1 <? 3); [injection E as <- _; lia|]. destruct (negb _); [injection E as <- _; lia|].
      destruct (n <? 6 + b1); [injection E as <- _; reflexivity|]. destruct (n >? 6 + b1); [injection E as <- _; lia|].
      repeat match type of E with bind ?x _ = _ => destruct x; cbn [bind] in E; [|discriminate E] end. match type of E with (if ?c then _ else _) = _ => destruct c end; injection E as <- _; lia.
Qed.
Lemma dumped_bytes o v content got : match o_file o with None => Some (v_stdin v) | Some f => v_file v f end = Some content -> file_bytes content = Ok got -> dumped o v got.
Proof. intros H E file bs K D L. rewrite H in K. assert (X : content = file) by congruence. clear H K. subst file. pose proof (file_dump _ _ D L) as Q. congruence. Qed.

Lemma parse_type f bs f' : mbus_parse f bs = Ok (0, f') -> In (ftype f') [1; 2; 3; 4].
Proof.
  unfold mbus_parse. cbv zeta. intros E.
  repeat match type of E with
  | context [bind (copy_loop ?n ?d ?o ?s ?i) _] => destruct (copy_loop n d o s i) as [?|]; cbn [bind] in E; [|discriminate]
  | context [bind (rd ?l ?i) _] => destruct (rd l i); cbn [bind] in E; [|discriminate]
  | context [bind (mbus_frame_verify ?x) _] => destruct (mbus_frame_verify x); cbn [bind] in E; [|discriminate]
  | (if ?b =? ?c then _ else _) = _ => destruct (Z.eqb_spec b c)
  | (if negb (?b =? ?c) then _ else _) = _ => destruct (Z.eqb_spec b c); cbn [negb] in E
  | (if ?b <? ?c then _ else _) = _ => destruct (Z.ltb_spec b c)
  | (if ?b >? ?c then _ else _) = _ => destruct (Z.gtb_spec b c)
  end; apply ok_inj in E;
  match type of E with (?r, ?g) = _ => assert (Q : r = 0) by congruence; assert (X : g = f') by congruence end;
  first [exfalso; clear -Q; discriminate|exfalso; lia|rewrite <- X; cbn [ftype]; try (destruct (_ - 3 =? 0)); cbn; tauto].
Qed.

Section OnBus.
  Variable B : Type.
  Variable wret : B -> Z -> Z.
  Variable react : B -> list Z -> B * list ev.
  Variable why : list Z.
  Hypothesis RB : forall b l, ev_bytes (snd (react b l)).
  Hypothesis WR : forall b n, 0 <= n <= 2048 -> - 2 ^ 31 <= wret b n < 2 ^ 31.
  Notation W := (world B).
  Notation inv d := (err_ok (dg_text d)).
  Notation said2 := (said_app _ _ _ _ _ _ _).
  Ltac same_log L1 L2 := rewrite L2, L1, <- app_assoc; reflexivity.

  (** ** mbus-tcp-raw-send *)
  Lemma raw_send_said h junk a o v content (w : W) d code w' : inv d -> ev_bytes (w_evs w) -> sound junk -> legal_slave a -> match o_file o with None => Some (v_stdin v) | Some f => v_file v f end = Some content ->
    raw_send_main B wret react h junk a content w = Done (code, w') ->
    exists d' l own, raw_send_main_d B wret react why h junk a (opt_text (o_file o)) (Some content) w d = Done (code, w', d') /\ w_log w' = w_log w ++ l /\
      said (is_serial h) why d d' own /\ ended RawSend o v a (c_text (dg_text d')) code [] l own.
  Proof.
    intros He Hev (Jo & Jb & Js) Hl Hfile E. unfold raw_send_main in E. unfold raw_send_main_d, tell_why.
    destruct (address_said B wret react why RB WR RawSend h a w d He Hev Hl) as (n & w4 & d4 & l4 & own & E7 & E8 & L4 & V4 & I4 & S4 & C4). rewrite E7 in E. rewrite (E8 RawSend eq_refl). cbn [obind] in *.
    destruct n as [n|].
    2:{ injection E as <- <-. exists d4. eexists. exists own. split; [reflexivity|]. split; [exact L4|]. split; [exact S4|]. exact (C4 eq_refl o v []). }
    destruct C4 as [-> U]. destruct (file_any content) as (bs & Ef & Hb & _). pose proof (dumped_bytes o v content bs Hfile Ef) as Du. rewrite Ef in E |- *. cbn [lift obind] in *.
    destruct (parse_step (dg_text d4) junk bs (proj1 I4) Jo Jb Hb) as (r & f & e & P1 & P2 & Fo & Fb & _ & C). rewrite P2 in E. rewrite P1. cbn [lift obind] in *.
    pose proof (parse_size _ _ _ _ Js Hb P2) as Fs.
    destruct C as [(Hr & -> & _)|(Hr & m & TF & SY)].
    2:{ assert (X : (r =? 0) = false) by lia. rewrite X in E. cbn [negb] in E. injection E as <- <-. assert (Y : (r <? 0) = true) by lia. rewrite Y.
        eexists. exists l4. eexists ([] ++ [_]). split; [reflexivity|]. split; [exact L4|]. split; [apply said_tell; [reflexivity|apply said_text; exact S4]|]. rewrite tell_text. cbn [dg_text].
        apply E_no_telegram; [reflexivity|]. exists bs, r, m. split; [exact Du|]. split; [exact TF|exact (proj2 SY)]. }
    assert (Y : (r <? 0) = false) by lia. rewrite Y. clear Y.
    destruct (Z.gtb_spec r 0) as [G|G].
    { assert (X : (r =? 0) = false) by lia. rewrite X in E. cbn [negb] in E. injection E as <- <-.
      eexists. exists l4. eexists ([] ++ [_]). split; [reflexivity|]. split; [exact L4|]. split; [apply said_tell; [reflexivity|apply said_text; exact S4]|].
      apply (E_too_short _ _ _ _ _ bs); [reflexivity|exact Du|exact (parse_lacks _ _ _ _ P2 G)]. }
    assert (r = 0) by lia. subst r. change (0 =? 0) with true in E. cbn [negb] in E.
    destruct (send_d B wret react why RB WR h f w4 (mkDg (dg_text d4) (dg_err d4)) I4 Fo ltac:(intros _; exact Fs) (parse_type _ _ _ P2)) as (r & f' & bs2 & w5 & d5 & ls & E9 & E10 & L5 & V5 & W5 & I5 & R5 & T5).
    rewrite E9 in E. rewrite E10. cbn [obind] in *.
    assert (K5 : w_log w5 = w_log w ++ (l4 ++ [Sent bs2])) by same_log L4 L5.
    pose proof (said2 S4 (said_write _ _ _ _ _ _ _ d4 _ _ W5 T5)) as S5. cbn [app] in S5.
    destruct R5 as [-> | ->]; [change (0 =? -1) with false in *|change (-1 =? -1) with true in *]; cbv iota in *.
    2:{ injection E as <- <-. eexists. eexists. eexists ([] ++ [_]). split; [reflexivity|]. split; [exact K5|]. split; [apply said_tell; [reflexivity|exact S5]|]. rewrite tell_text.
        apply E_raw_unsent; [reflexivity|apply heard_sent]. }
    destruct (recv_said B why h frame_zero w5 d5 I5 sound_zero (V5 V4)) as (c6 & f6 & w6 & d6 & g6 & E11 & E12 & L6 & S6 & I6 & F6 & V6). rewrite E11 in E. rewrite E12. cbn [obind] in *.
    assert (K6 : w_log w6 = w_log w ++ ((l4 ++ [Sent bs2]) ++ [Received c6 g6])) by same_log K5 L6.
    pose proof (said2 S5 S6) as S16. cbn [app] in S16. injection E as <- <-.
    destruct (Z.eqb_spec c6 RECV_OK) as [Ec|Ec]; cbn [negb].
    - exists d6. eexists. exists []. split; [reflexivity|]. split; [exact K6|]. split; [exact S16|]. apply E_raw; [reflexivity|]. rewrite heard_received. congruence.
    - eexists. eexists. eexists ([] ++ [_]). split; [reflexivity|]. split; [exact K6|]. split; [apply said_tell; [reflexivity|exact S16]|]. rewrite tell_text.
      apply (E_raw_lost _ _ _ _ _ c6); [reflexivity|apply heard_received|exact Ec].
  Qed.
  (** A file that cannot be opened. *)
  Lemma raw_nofile_said h junk a o v f (w : W) d a' w' : inv d -> ev_bytes (w_evs w) -> legal_slave a -> o_file o = Some f -> v_file v f = None ->
    address_slave B wret react h a w = Done (a', w') ->
    exists d' l own, raw_send_main_d B wret react why h junk a (opt_text (o_file o)) None w d = Done (1, w', d') /\ w_log w' = w_log w ++ l /\
      said (is_serial h) why d d' own /\ ended RawSend o v a (c_text (dg_text d')) 1 [] l own.
  Proof.
    intros He Hev Hl Hf Hv E. unfold raw_send_main_d.
    destruct (address_said B wret react why RB WR RawSend h a w d He Hev Hl) as (n & w4 & d4 & l4 & own & E7 & E8 & L4 & V4 & I4 & S4 & C4). rewrite E7 in E. rewrite (E8 RawSend eq_refl). cbn [obind] in *.
    injection E as <- <-. destruct n as [n|].
    2:{ exists d4. eexists. exists own. split; [reflexivity|]. split; [exact L4|]. split; [exact S4|]. exact (C4 eq_refl o v []). }
    destruct C4 as [-> U]. eexists. exists l4. eexists ([] ++ [_]). split; [reflexivity|]. split; [exact L4|]. split; [apply said_tell; [reflexivity|exact S4]|].
    rewrite Hf. cbn [opt_text app]. apply (E_no_file RawSend o v a _ f); [reflexivity|exact Hf|exact Hv].
  Qed.

  (** ** mbus-*-request-data-multi-reply *)
  Lemma loop_sound h a : 0 <= a <= 255 -> forall fuel fcb req cur got fd hp p retry count mf (w : W) q w', req_frame req fcb a -> sound cur -> Forall sound got -> ev_bytes (w_evs w) ->
    request_loop B wret react fuel h req cur got fd hp p retry count mf w = Done (q, w') -> Forall sound (q_frames q).
  Proof.
    intros Ha. assert (EO : err_ok (repeat 0 512)) by (split; [reflexivity|left; reflexivity]).
    assert (LAST : forall got x, Forall sound got -> sound x -> Forall sound (got ++ [x])) by (intros got x G X; apply Forall_app; split; [exact G|apply Forall_cons; [exact X|constructor]]).
    induction fuel as [|fuel IH]; intros fcb req cur got fd hp p retry count mf w q w' Hr Hc Hg Hb E; [discriminate|].
    cbn [request_loop] in E. destruct (Z.gtb_spec retry (max_data_retry h)) as [G|G]; [injection E as <- _; apply LAST; assumption|].
    destruct (req_wire req fcb a Hr Ha) as (Hd & Hden & Hv).
    destruct (send_spec B wret react h req _ w (proj1 Hr) Hd Hden Hv) as (r & Es & _ & _).
    destruct (send_d B wret react why RB WR h req w (mkDg (repeat 0 512) []) EO (proj1 Hr) ltac:(rewrite (proj1 (proj2 Hr)); discriminate) ltac:(rewrite (proj1 (proj2 Hr)); cbn; tauto))
      as (r0 & f0 & bs & w1 & d1 & ls & E1 & _ & _ & V1 & _ & I1 & _).
    rewrite Es in E1. rewrite Es in E. assert (r0 = r /\ f0 = packed_frame req) as [-> ->] by (split; congruence).
    assert (X1 : after_write react w (wire (Short (if fcb then 123 else 91) a)) = w1) by congruence. rewrite X1 in *. clear X1 E1 Es. cbn [obind] in *. specialize (V1 Hb).
    destruct (r =? -1); [injection E as <- _; apply LAST; assumption|].
    destruct (recv_said B why h cur w1 d1 I1 Hc V1) as (c & f2 & w2 & d2 & g & E3 & _ & _ & _ & I2 & F2 & V2). rewrite E3 in E. cbn [obind] in *.
    destruct (purge_said B why h w2 d2 I2 V2) as (pp & w3 & d3 & l3 & E5 & _ & _ & _ & V3 & I3 & _).
    destruct (c =? RECV_OK).
    { rewrite E5 in E. cbn [obind] in E. destruct (parse_heap f2 fd hp p) as [[[[prs fd'] hp'] p']|]; cbn [lift obind] in E; [|discriminate].
      destruct (prs =? -1); [injection E as <- _; apply LAST; assumption|].
      destruct (free_list hp' p') as [hp''|]; cbn [lift obind] in E; [|discriminate].
      destruct (_ && _); [|injection E as <- _; apply LAST; assumption].
      apply (IH _ _ _ _ _ _ _ _ _ _ _ _ _ (req_toggle _ _ _ (req_packed _ _ _ Hr)) sound_any (LAST _ _ Hg F2) V3 E). }
    destruct (c =? RECV_TIMEOUT); [apply (IH _ _ _ _ _ _ _ _ _ _ _ _ _ (req_packed _ _ _ Hr) F2 Hg V2 E)|].
    destruct (c =? RECV_INVALID).
    { rewrite E5 in E. cbn [obind] in E. apply (IH _ _ _ _ _ _ _ _ _ _ _ _ _ (req_packed _ _ _ Hr) F2 Hg V3 E). }
    injection E as <- _. apply LAST; assumption.
  Qed.
  Lemma sound_frames fs : Forall sound fs -> exists ps, fs = map fst ps /\ Forall (fun x : frame * list Z => reply_obj (fst x) (snd x)) ps.
  Proof.
    induction 1 as [|f fs Hf _ (ps & -> & H)]; [exists []; split; [reflexivity|constructor]|]. destruct (sound_carries f Hf) as (p & C). exists ((f, p) :: ps). split; [reflexivity|].
    apply Forall_cons; [exact C|exact H].
  Qed.
  Lemma request_multi_said stamp p h a o v (w : W) d code t w' : p = SerialMulti \/ p = TcpMulti -> 0 <= max_data_retry h -> inv d -> ev_bytes (w_evs w) -> legal_slave a ->
    request_multi_main B wret react stamp h a (o_frames o) w = Done (code, t, w') ->
    exists d' l own, request_multi_main_d B wret react why stamp h a (o_frames o) w d = Done (code, t, w', d') /\ w_log w' = w_log w ++ l /\
      said (is_serial h) why d d' own /\ ended p o v a (c_text (dg_text d')) code (opt_text t) l own.
  Proof.
    intros Hp Hm He Hev Hl E. unfold request_multi_main in E. unfold request_multi_main_d, tell_why.
    change (init_slaves B wret react) with (init_p B wret react 0xFD) in E.
    destruct (init_said B wret react why RB WR 0xFD h w d He Hev ltac:(lia)) as (r & w1 & d1 & l1 & E1 & E2 & L1 & V1 & I1 & C1). rewrite E1 in E. rewrite E2. cbn [obind] in *.
    destruct C1 as [(-> & F1 & S1)|(-> & S1)]; [change (0 =? 0) with true in *|change (1 =? 0) with false in *]; cbv iota in *.
    { injection E as <- <- <-. exists d1, l1, [ping_failed]. split; [reflexivity|]. split; [exact L1|]. split; [exact S1|]. apply E_pings; [destruct Hp; subst p; reflexivity|]. exact (ends_heard [] l1 F1). }
    destruct (address_said B wret react why RB WR p h a w1 d1 I1 V1 Hl) as (n & w4 & d4 & l4 & own & E7 & E8 & L4 & V4 & I4 & S4 & C4). rewrite E7 in E.
    rewrite (E8 SerialMulti ltac:(destruct Hp; subst p; reflexivity)). cbn [obind] in *.
    assert (K4 : w_log w4 = w_log w ++ (l1 ++ l4)) by same_log L1 L4.
    pose proof (said2 S1 S4) as S14. cbn [app] in S14.
    destruct n as [n|].
    2:{ injection E as <- <- <-. exists d4. eexists. exists own. split; [reflexivity|]. split; [exact K4|]. split; [exact S14|]. apply C4. destruct Hp; subst p; reflexivity. }
    destruct C4 as [-> U]. set (l0 := l1 ++ l4) in *.
    unfold mbus_sendrecv_request in E. unfold mbus_sendrecv_request_d. destruct (one_byte n) eqn:On.
    2:{ assert (P : mbus_is_primary_address n = false) by exact On. rewrite P in *. cbn [negb obind q_ret] in *. change (1 =? 0) with false in *. cbn [negb] in *. injection E as <- <- <-.
        eexists. exists l0. eexists (([] ++ [_]) ++ [_]). split; [reflexivity|]. split; [exact K4|].
        split; [apply said_tell; [reflexivity|apply said_tell; [reflexivity|exact S14]]|]. cbn [app]. apply (E_multi_address p o v a _ n); [exact Hp|exact U|exact On]. }
    assert (P : mbus_is_primary_address n = true) by exact On. rewrite P in *. cbn [negb] in *. apply one_byte_range in On.
    set (req := set_address _ _) in *.
    destruct (request_loop B wret react _ h req frame_zero [] fd_zero [] None 0 0 (o_frames o) w4) as [[q w5]| |] eqn:EL; cbn [obind] in E; try discriminate.
    destruct (request_loop_told B wret react why RB WR h n On Hm _ true req frame_zero [] fd_zero [] None 0 0 (o_frames o) w4 d4 q w5 ltac:(repeat split; reflexivity) sound_zero V4 I4 ltac:(lia) EL)
      as (d5 & l5 & E10 & L5 & I5 & X5 & S5). rewrite E10. cbn [obind]. specialize (X5 Hm).
    pose proof (loop_sound h n On _ true req frame_zero [] fd_zero [] None 0 0 (o_frames o) w4 q w5 ltac:(repeat split; reflexivity) sound_zero (Forall_nil _) V4 EL) as HF.
    assert (K5 : w_log w5 = w_log w ++ (l0 ++ l5)) by same_log K4 L5.
    assert (S15 : said (is_serial h) why d d5 (request_lines (q_ret q) (exchanges l5))) by (exact (said2 S14 S5)).
    destruct (Z.eqb_spec (q_ret q) 0) as [Eq|Eq]; cbn [negb] in *.
    2:{ injection E as <- <- <-. eexists. exists (l0 ++ l5). eexists (_ ++ [_]). split; [reflexivity|]. split; [exact K5|]. split; [apply said_tell; [reflexivity|exact S15]|].
        apply E_multi_failed; assumption. }
    rewrite Eq in S15. destruct (q_frames q) as [|f fs]; [discriminate|].
    apply Forall_cons_iff in HF. destruct HF as [Sf Sfs]. destruct (sound_carries f Sf) as (pl & Cf). destruct (sound_frames fs Sfs) as (ps & -> & Cs).
    pose proof (xml_names stamp (dg_text d5) f pl ps (proj1 I5) Cf Cs) as XN.
    destruct (mbus_frame_xml_e stamp (dg_text d5) f (map fst ps)) as [[out e']|]; [destruct XN as [XN _]|]; rewrite XN in E; cbn [lift obind] in *; [|discriminate].
    destruct (o_text out) as [text|]; injection E as <- <- <-.
    - eexists. exists (l0 ++ l5), (request_lines 0 (exchanges l5)). split; [reflexivity|]. split; [exact K5|]. split; [apply said_text; exact S15|]. apply E_multi; assumption.
    - eexists. exists (l0 ++ l5). eexists (_ ++ [_]). split; [reflexivity|]. split; [exact K5|]. split; [apply said_tell; [reflexivity|apply said_text; exact S15]|]. rewrite tell_text.
      apply E_multi_xml; assumption.
  Qed.

  (** ** mbus-*-select-secondary *)
  Lemma select_secondary_said h junk o (w : W) d code t w' : inv d -> ev_bytes (w_evs w) -> sound junk -> hex16 (o_addr o) ->
    select_secondary_main B wret react h junk (o_addr o) w = Done (code, t, w') ->
    exists d' l own, select_secondary_main_d B wret react why h junk (o_addr o) (o_shown o) w d = Done (code, t, w', d') /\ w_log w' = w_log w ++ l /\
      said (is_serial h) why d d' own /\ forall out : option (list Z) -> list Z, out None = [] -> select_ended o (c_text (dg_text d')) code (out t) l own.
  Proof.
    intros He Hev Hj Hs E. apply secondary_spec in Hs. unfold select_secondary_main in E. unfold select_secondary_main_d, tell_why. rewrite Hs in *. cbn [negb] in *.
    destruct (select_frame_said B wret react why RB WR h (o_addr o) w d He Hev Hs) as (r & w1 & d1 & bs & E1 & E2 & L1 & V1 & I1 & C1). rewrite E1 in E. rewrite E2. cbn [obind] in *.
    destruct C1 as [(-> & S1)|(-> & S1)]; [change (-1 =? -1) with true in *|change (0 =? -1) with false in *]; cbv iota in *.
    { injection E as <- <- <-. eexists. eexists. eexists ([_] ++ [_]). split; [reflexivity|]. split; [exact L1|]. split; [apply said_tell; [reflexivity|exact S1]|].
      intros out H. rewrite tell_text, H. apply L_unsent. reflexivity. }
    destruct (recv_said B why h junk w1 d1 I1 Hj V1) as (c & f2 & w2 & d2 & g & E3 & E4 & L2 & S2 & I2 & F2 & V2). rewrite E3 in E. rewrite E4. cbn [obind] in *.
    assert (K2 : w_log w2 = w_log w ++ ([Sent bs] ++ [Received c g])) by same_log L1 L2.
    pose proof (said2 S1 S2) as S12. cbn [app] in S12.
    assert (NS : forall m, transport_line (cstr "No reply from device with secondary address " ++ m) = false) by reflexivity.
    destruct (Z.eqb_spec c RECV_TIMEOUT) as [Et|Et].
    { injection E as <- <- <-. eexists. eexists. eexists ([] ++ [_]). split; [reflexivity|]. split; [exact K2|]. split; [apply said_tell; [reflexivity|exact S12]|].
      intros out H. rewrite tell_text, H. subst c. rewrite <- !app_assoc. apply (L_silence o _ ([Sent bs] ++ [Received RECV_TIMEOUT g])). reflexivity. }
    destruct (Z.eqb_spec c RECV_INVALID) as [Ei|Ei].
    { injection E as <- <- <-. eexists. eexists. eexists ([] ++ [_]). split; [reflexivity|]. split; [exact K2|]. split; [apply said_tell; [reflexivity|exact S12]|].
      intros out H. rewrite tell_text, H. subst c. rewrite <- !app_assoc. apply (L_garbled o _ ([Sent bs] ++ [Received RECV_INVALID g])). reflexivity. }
    destruct (mbus_frame_type f2 =? T_ACK).
    2:{ injection E as <- <- <-. eexists. eexists. eexists ([] ++ [_]). split; [reflexivity|]. split; [exact K2|]. split; [apply said_tell; [reflexivity|exact S12]|].
        intros out H. rewrite H. apply (L_unknown o _ c); [reflexivity|exact Et|exact Ei|reflexivity]. }
    destruct (order_said B wret react why RB WR h (ORequest 253) w2 d2 I2 V2 I) as (r & w5 & d5 & l5 & E9 & E10 & L5 & V5 & I5 & C5). cbn [do_order do_order_d] in E9, E10. rewrite E9 in E. rewrite E10. cbn [obind] in *.
    set (l0 := [Sent bs] ++ [Received c g]) in *.
    assert (K5 : w_log w5 = w_log w ++ (l0 ++ l5)) by same_log K2 L5.
    destruct C5 as [(-> & F5 & S5)|(-> & (bs5 & ->) & S5)]; [change (-1 =? -1) with true in *|change (0 =? -1) with false in *]; cbv iota in *.
    { injection E as <- <- <-. eexists. eexists. eexists (([] ++ [_]) ++ [_]). split; [reflexivity|]. split; [exact K5|]. split; [apply said_tell; [reflexivity|exact (said2 S12 S5)]|].
      intros out H. rewrite tell_text, H. apply L_request. apply ends_heard. exact (F5 eq_refl). }
    pose proof (said2 S12 S5) as S15. cbn [app] in S15.
    destruct (recv_said B why h f2 w5 d5 I5 F2 V5) as (c6 & f6 & w6 & d6 & g6 & E11 & E12 & L6 & S6 & I6 & F6 & V6). rewrite E11 in E. rewrite E12. cbn [obind] in *.
    assert (K6 : w_log w6 = w_log w ++ ((l0 ++ [Sent bs5]) ++ [Received c6 g6])) by same_log K5 L6.
    pose proof (said2 S15 S6) as S16. cbn [app] in S16.
    destruct (Z.eqb_spec c6 RECV_OK) as [Ec|Ec]; cbn [negb] in *.
    2:{ injection E as <- <- <-. eexists. eexists. eexists ([] ++ [_]). split; [reflexivity|]. split; [exact K6|]. split; [apply said_tell; [reflexivity|exact S16]|].
        intros out H. rewrite tell_text, H. apply (L_no_data o _ c6); [apply heard_received|exact Ec|reflexivity]. }
    destruct (mbus_frame_type f6 =? T_ACK); cbn [negb] in *.
    { injection E as <- <- <-. eexists. eexists. exists []. split; [reflexivity|]. split; [exact K6|]. split; [exact S16|]. intros out _. apply L_found; [rewrite heard_received; congruence|reflexivity]. }
    pose proof (secondary_same (dg_text d6) f6 I6 F6) as SS. destruct (mbus_frame_get_secondary_address f6) as [[x|]|]; cbn [lift obind] in E; try discriminate.
    destruct SS as (e' & -> & _). cbn [lift obind]. injection E as <- <- <-. eexists. eexists. exists []. split; [reflexivity|]. split; [exact K6|]. split; [apply said_text; exact S16|].
    intros out _. apply L_found; [rewrite heard_received; congruence|reflexivity].
  Qed.

  (** ** mbus-*-scan, mbus-*-scan-secondary *)
  Lemma scan_main_said h (w : W) d ls w' : hears_slaves h -> inv d -> ev_bytes (w_evs w) -> scan_main B wret react h w = Done (ls, w') ->
    exists d' l own, scan_main_d B wret react why h w d = Done (ls, w', d') /\ w_log w' = w_log w ++ l /\ said (is_serial h) why d d' own /\ scan_ended 0 l own.
  Proof.
    intros HS He Hev E. unfold scan_main in E. unfold scan_main_d.
    destruct (scan_said B wret react why RB WR h HS (map Z.of_nat (seq 0 251)) ltac:(apply Forall_forall; intros x X; apply in_map_iff in X; destruct X as (k & <- & X); apply in_seq in X; lia) w d ls w' He Hev E)
      as (d' & l & E2 & L & _ & (texts & S1 & N1)). exists d', l. eexists. split; [exact E2|]. split; [exact L|]. split; [exact S1|]. split; [reflexivity|]. exists texts. split; [reflexivity|exact N1].
  Qed.
  Lemma scan_secondary_said h o m (w : W) d code calls w' : hex16 (o_addr o) -> plenty m -> inv d -> ev_bytes (w_evs w) ->
    (do (r, w) <- init_all B wret react h w ;;
     if r =? 0 then Done (1, [], w)
     else do (_, (w, _), calls) <- scan_w B wret react (mkWatch false false) (Some h) 0 (o_addr o) (w, m) ;; Done (0, calls, w)) = Done (code, calls, w') ->
    exists d' own,
     (do (r, w, d) <- init_d B wret react why 0xFF h w d ;;
      if r =? 0 then Done (1, [], w, d)
      else
        do (_, _, calls) <- scan_w B wret react (mkWatch false false) (Some h) 0 (o_addr o) (w, m) ;;
        do (_, w, d) <- mbus_scan_2nd_address_range_d B wret react why (Some h) 0 (o_addr o) w d ;;
        Done (0, calls, w, d)) = Done (code, calls, w', d') /\ said (is_serial h) why d d' own /\
     forall l, w_log w' = w_log w ++ l -> forall out : list call -> list Z, out [] = [] -> scan_secondary_ended o code (out calls) l own.
  Proof.
    intros Hx Pm He Hev E. change (init_all B wret react) with (init_p B wret react 0xFF) in E.
    destruct (init_said B wret react why RB WR 0xFF h w d He Hev ltac:(lia)) as (r & w1 & d1 & l1 & E1 & E2 & L1 & V1 & I1 & C1). rewrite E1 in E. rewrite E2. cbn [obind] in *.
    destruct C1 as [(-> & F1 & S1)|(-> & S1)]; [change (0 =? 0) with true in *|change (1 =? 0) with false in *]; cbv iota in *.
    { injection E as <- <- <-. exists d1, [ping_failed]. split; [reflexivity|]. split; [exact S1|]. intros l Hl out H. left. split; [reflexivity|]. split; [exact H|]. split; [|reflexivity].
      assert (l = l1) as -> by (apply (app_inv_head (w_log w)); congruence). exact (ends_heard [] l1 F1). }
    pose proof (C84_same h B wret react (mkWatch false false) 0 (o_addr o) w1 m Pm) as X.
    destruct (scan_w B wret react (mkWatch false false) (Some h) 0 (o_addr o) (w1, m)) as [[[r2 [w2 m2]] cs]| |]; cbn [obind] in *; try discriminate. injection E as <- <- <-.
    destruct (C97_scan B wret react why h 0 (o_addr o) w1 d1 r2 w2 RB WR I1 V1 (proj1 Hx) ltac:(first [exact X|exact (proj1 X)|rewrite X; reflexivity])) as (d' & ls & E4 & S4 & Q). rewrite E4. cbn [obind].
    exists d', ls. split; [reflexivity|]. split; [exact (said2 S1 S4)|]. intros l _ out _. right. split; [reflexivity|]. exists r2. exact Q.
  Qed.
End OnBus.

(** Proofs about what the programs say: pings, selection, orders, the scan of primary addresses. *)
From Coq Require Import String.
From Coq Require Import List.
From Verif Require Import CBase PBase CStr MFrame SWire SFrame PFrame MText MXml MCodec MRecv SRecv PRecv MVar MSecond MProto SProto PProto PProto2 SReq PReq PReq2 SSecond PSecond SNet SBus MHex MTools MProg PProg MConn MErr SErr PErr PErr5 MErrT SErrT PErrT MMem MScan MCmd SCmd MMain SMain PMain MErrA SErrA PErrA PErrA2 PErrA3 PropErrA MMainE SMainE.
Local Open Scope Z_scope.

(** ** What was heard last *)
Lemma xml_some stamp fd : In (d_type fd) [DT_FIXED; DT_VARIABLE; DT_ERROR] -> mbus_frame_data_xml stamp fd = Ok None -> False.
Proof.
  unfold mbus_frame_data_xml. intros I H. destruct (d_type fd =? DT_ERROR) eqn:E1; [destruct (mbus_data_error_xml _); discriminate H|].
  destruct (d_type fd =? DT_FIXED) eqn:E2; [destruct (mbus_data_fixed_xml _); discriminate H|].
  destruct (d_type fd =? DT_VARIABLE) eqn:E3; [destruct (mbus_data_variable_xml _ _); discriminate H|].
  cbn [In] in I. lia.
Qed.
Lemma heard_app l0 l : l <> [] -> heard (l0 ++ l) = heard l.
Proof. intros H. unfold heard. rewrite rev_app_distr. destruct (rev l) as [|x t] eqn:E; [|reflexivity]. apply (f_equal (@rev _)) in E. rewrite rev_involutive in E. contradiction. Qed.
Lemma heard_sent l bs : heard (l ++ [Sent bs]) = None.
Proof. unfold heard. rewrite rev_unit. reflexivity. Qed.
Lemma heard_received l c g : heard (l ++ [Received c g]) = Some c.
Proof. unfold heard. rewrite rev_unit. reflexivity. Qed.
Definition ends_sent (l : list action) : Prop := exists l0 bs, l = l0 ++ [Sent bs].
Lemma ends_heard l0 l : ends_sent l -> heard (l0 ++ l) = None.
Proof. intros (l1 & bs & ->). rewrite app_assoc. apply heard_sent. Qed.

Section OnBus.
  Variable B : Type.
  Variable wret : B -> Z -> Z.
  Variable react : B -> list Z -> B * list ev.
  Variable why : list Z.
  Hypothesis RB : forall b l, ev_bytes (snd (react b l)).
  Hypothesis WR : forall b n, 0 <= n <= 2048 -> - 2 ^ 31 <= wret b n < 2 ^ 31.
  Notation W := (world B).
  Notation inv d := (err_ok (dg_text d)).

  (** One ping, with the replies read or not. *)
  Lemma ping_said h a pr (w : W) d : inv d -> ev_bytes (w_evs w) -> 0 <= a <= 255 ->
    exists r w' d' l, mbus_send_ping_frame B wret react (Some h) a pr w = Done (r, w') /\
      mbus_send_ping_frame_d B wret react why (Some h) a pr w d = Done (r, w', d') /\ w_log w' = w_log w ++ l /\ ev_bytes (w_evs w') /\ inv d' /\
      (pr = false -> exists bs, l = [Sent bs]) /\
      (r = -1 /\ (exists bs, l = [Sent bs]) /\ said (is_serial h) why d d' [ping_failed] \/ r = 0 /\ said (is_serial h) why d d' []).
  Proof.
    intros He Hev Ha. destruct (ping_d B wret react why RB WR h a pr w d He Hev Ha) as (r & w1 & d1 & w' & d' & new & S1 & E1 & E2 & L & _ & Q & V & I & S2 & N).
    destruct (sent_said B wret why h ping_failed w w1 d d1 r eq_refl S1) as (bs & L1 & T).
    exists r, w', d', ([Sent bs] ++ new). split; [exact E1|]. split; [exact E2|]. split; [rewrite L, L1, <- app_assoc; reflexivity|]. split; [exact V|]. split; [exact I|].
    split. { intros P. destruct (Q P) as (-> & _). exists bs. reflexivity. }
    pose proof (said_app _ _ _ _ _ _ _ T S2) as S3. rewrite app_nil_r in S3.
    destruct (sent_result _ _ _ _ _ _ _ _ _ _ S1) as [-> | ->]; [right; auto|left]. split; [reflexivity|]. split; [|exact S3]. destruct (N eq_refl) as (_ & ->). exists bs. reflexivity.
  Qed.

  (** The two pings at the start. *)
  Definition init_p (last : Z) (h : handle) (w : W) : out (Z * W) :=
    do (r, w) <- mbus_send_ping_frame B wret react (Some h) 0xFD true w ;;
    if r =? -1 then Done (0, w)
    else do (r, w) <- mbus_send_ping_frame B wret react (Some h) last true w ;; if r =? -1 then Done (0, w) else Done (1, w).
  Lemma init_said last h (w : W) d : inv d -> ev_bytes (w_evs w) -> 0 <= last <= 255 ->
    exists r w' d' l, init_p last h w = Done (r, w') /\ init_d B wret react why last h w d = Done (r, w', d') /\ w_log w' = w_log w ++ l /\ ev_bytes (w_evs w') /\ inv d' /\
      (r = 0 /\ ends_sent l /\ said (is_serial h) why d d' [ping_failed] \/ r = 1 /\ said (is_serial h) why d d' []).
  Proof.
    intros He Hev Ha. unfold init_p, init_d.
    destruct (ping_said h 0xFD true w d He Hev ltac:(lia)) as (r1 & w1 & d1 & l1 & E1 & E2 & L1 & V1 & I1 & _ & C1). rewrite E1, E2. cbn [obind].
    destruct C1 as [(-> & (bs & ->) & S1)|(-> & S1)].
    { change (-1 =? -1) with true. cbv iota. exists 0, w1, d1, [Sent bs]. do 2 (split; [reflexivity|]). split; [exact L1|]. split; [exact V1|]. split; [exact I1|]. left. split; [reflexivity|]. split; [exists [], bs; reflexivity|exact S1]. }
    change (0 =? -1) with false. cbv iota.
    destruct (ping_said h last true w1 d1 I1 V1 Ha) as (r2 & w2 & d2 & l2 & E3 & E4 & L2 & V2 & I2 & _ & C2). rewrite E3, E4. cbn [obind].
    assert (L : w_log w2 = w_log w ++ (l1 ++ l2)) by (rewrite L2, L1, <- app_assoc; reflexivity).
    destruct C2 as [(-> & (bs & ->) & S2)|(-> & S2)].
    - change (-1 =? -1) with true. cbv iota. exists 0, w2, d2, (l1 ++ [Sent bs]). do 2 (split; [reflexivity|]). split; [exact L|]. split; [exact V2|]. split; [exact I2|]. left. split; [reflexivity|]. split; [exists l1, bs; reflexivity|].
      exact (said_app _ _ _ _ _ [] _ S1 S2).
    - change (0 =? -1) with false. cbv iota. exists 1, w2, d2, (l1 ++ l2). do 2 (split; [reflexivity|]). split; [exact L|]. split; [exact V2|]. split; [exact I2|]. right. split; [reflexivity|]. exact (said_app _ _ _ _ _ [] [] S1 S2).
  Qed.

  (** A receive call. *)
  Lemma recv_said h f (w : W) d : inv d -> sound f -> ev_bytes (w_evs w) ->
    exists c f' w' d' g, mbus_recv_frame B (Some h) f w = Done (c, f', w') /\ mbus_recv_frame_d B (Some h) f w d = Done (c, f', w', d') /\
      w_log w' = w_log w ++ [Received c g] /\ said (is_serial h) why d d' [] /\ inv d' /\ sound f' /\ ev_bytes (w_evs w').
  Proof.
    intros He Hf Hev. destruct (recv_d B h f w d He Hf Hev) as (c & f' & evs' & g & d' & ls & E1 & E2 & W1 & K & I & S1 & V). cbv zeta in E1, E2.
    eexists c, f', _, d', g. split; [exact E1|]. split; [exact E2|]. split; [reflexivity|]. split; [exact (said_remarks _ _ _ _ _ W1 K)|]. auto.
  Qed.
  Lemma purge_said h (w : W) d : inv d -> ev_bytes (w_evs w) ->
    exists r w' d' l, mbus_purge_frames B (Some h) w = Done (r, w') /\ mbus_purge_frames_d B (Some h) w d = Done (r, w', d') /\
      w_log w' = w_log w ++ l /\ received_only l /\ ev_bytes (w_evs w') /\ inv d' /\ said (is_serial h) why d d' [].
  Proof.
    intros He Hev. destruct (purge_d B h w d He Hev) as (r & w' & l & d' & ls & E1 & E2 & L & R & V & W1 & K & I).
    exists r, w', d', l. split; [exact E1|]. split; [exact E2|]. split; [exact L|]. split; [exact R|]. split; [exact V|]. split; [exact I|]. exact (said_remarks _ _ _ _ _ W1 K).
  Qed.

  (** ** Selection *)
  (** The telegram of the selection. *)
  Lemma select_frame_said h s (w : W) d : inv d -> ev_bytes (w_evs w) -> mbus_is_secondary_address s = true ->
    exists r w' d' bs, mbus_send_select_frame B wret react (Some h) s w = Done (r, w') /\
      mbus_send_select_frame_d B wret react why (Some h) s w d = Done (r, w', d') /\ w_log w' = w_log w ++ [Sent bs] /\ ev_bytes (w_evs w') /\ inv d' /\
      (r = -1 /\ said (is_serial h) why d d' [select_unsent] \/ r = 0 /\ said (is_serial h) why d d' []).
  Proof.
    intros He Hev Es. unfold mbus_send_select_frame, mbus_send_select_frame_d.
    pose proof (PropErr.C86_select (dg_text d) (Some (mbus_frame_new T_LONG)) (Some s) He) as P. cbv beta iota in P. rewrite Es in P.
    destruct (pack_any s Es) as (f & Pk & Ho & Ht & Hd). rewrite Pk in P. cbn [bind] in P. rewrite P, Pk. cbn [lift obind]. change (0 =? -1) with false. cbv iota.
    destruct (send_d B wret react why RB WR h f w (mkDg (dg_text d) (dg_err d)) He Ho ltac:(intros _; rewrite Hd; lia) ltac:(rewrite Ht; cbn; tauto)) as (r & f' & bs & w1 & d1 & ls & E1 & E2 & L1 & V1 & W1 & I1 & R1 & T1).
    rewrite E1, E2. cbn [obind]. assert (S1 : said (is_serial h) why d d1 []) by exact (said_write _ _ _ _ _ _ _ _ _ _ W1 T1).
    destruct R1 as [-> | ->].
    - change (0 =? -1) with false. cbv iota. exists 0, w1, d1, bs. do 2 (split; [reflexivity|]). split; [exact L1|]. split; [exact (V1 Hev)|]. split; [exact I1|]. right. auto.
    - change (-1 =? -1) with true. cbv iota. exists (-1), w1. eexists. exists bs. do 2 (split; [reflexivity|]). split; [exact L1|]. split; [exact (V1 Hev)|]. split; [exact I1|]. left. split; [reflexivity|].
      apply (said_tell _ _ _ _ []); [reflexivity|exact S1].
  Qed.
  Inductive chosen (s text : list Z) : Z -> list action -> list (list Z) -> Prop :=
  | CH_error bs : chosen s text PROBE_ERROR [Sent bs] [select_unsent; not_selected text]
  | CH_silent bs g : chosen s text PROBE_NOTHING [Sent bs; Received RECV_TIMEOUT g] []
  | CH_other bs c g : c <> RECV_TIMEOUT -> chosen s text PROBE_NOTHING [Sent bs; Received c g] [unexpected s]
  | CH_single l : chosen s text PROBE_SINGLE l []
  | CH_several l : chosen s text PROBE_COLLISION l [].
  Lemma select_said h s (w : W) d : inv d -> ev_bytes (w_evs w) -> mbus_is_secondary_address s = true ->
    exists r w' d' l own, mbus_select_secondary_address B wret react (Some h) s w = Done (r, w') /\
      mbus_select_secondary_address_d B wret react why (Some h) s w d = Done (r, w', d') /\ w_log w' = w_log w ++ l /\ ev_bytes (w_evs w') /\ inv d' /\
      said (is_serial h) why d d' own /\ chosen s (c_text (dg_text d')) r l own.
  Proof.
    intros He Hev Es. unfold mbus_select_secondary_address, mbus_select_secondary_address_d.
    assert (L16 : (List.length s =? 16)%nat = true) by (apply Nat.eqb_eq; apply secondary_spec in Es; exact (proj1 Es)). rewrite L16. cbn [negb].
    destruct (select_frame_said h s w d He Hev Es) as (r & w1 & d1 & bs & E1 & E2 & L1 & V1 & I1 & C1). rewrite E1, E2. cbn [obind].
    destruct C1 as [(-> & S1)|(-> & S1)].
    { change (-1 =? -1) with true. cbv iota. exists PROBE_ERROR, w1. eexists. exists [Sent bs], [select_unsent; not_selected (c_text (dg_text d1))]. do 2 (split; [reflexivity|]). split; [exact L1|]. split; [exact V1|]. split; [exact I1|].
      split; [apply (said_tell _ _ _ _ [_]); [reflexivity|exact S1]|]. rewrite tell_text. apply CH_error. }
    change (0 =? -1) with false. cbv iota.
    destruct (recv_said h frame_zero w1 d1 I1 sound_zero V1) as (c & f2 & w2 & d2 & g & E3 & E4 & L2 & S2 & I2 & F2 & V2). rewrite E3, E4. cbn [obind].
    assert (L2' : w_log w2 = w_log w ++ [Sent bs; Received c g]) by (rewrite L2, L1, <- app_assoc; reflexivity).
    pose proof (said_app _ _ _ _ _ [] [] S1 S2) as S3. cbn [app] in S3.
    destruct (Z.eqb_spec c RECV_TIMEOUT) as [->|Ec].
    { exists PROBE_NOTHING, w2, d2. eexists. exists []. do 2 (split; [reflexivity|]). split; [exact L2'|]. split; [exact V2|]. split; [exact I2|]. split; [exact S3|apply CH_silent]. }
    destruct (purge_said h w2 d2 I2 V2) as (p & w3 & d3 & l3 & E5 & E6 & L3 & R3 & V3 & I3 & S4). rewrite E5, E6. cbn [obind].
    assert (L3' : w_log w3 = w_log w ++ ([Sent bs; Received c g] ++ l3)) by (rewrite L3, L2', <- app_assoc; reflexivity).
    pose proof (said_app _ _ _ _ _ [] [] S3 S4) as S5. cbn [app] in S5.
    destruct (c =? RECV_INVALID).
    { exists PROBE_COLLISION, w3, d3. eexists. exists []. do 2 (split; [reflexivity|]). split; [exact L3'|]. split; [exact V3|]. split; [exact I3|]. split; [exact S5|apply CH_several]. }
    destruct (mbus_frame_type f2 =? T_ACK).
    { destruct (negb (p =? 0)); [exists PROBE_COLLISION|exists PROBE_SINGLE]; exists w3, d3; eexists; exists []; (do 2 (split; [reflexivity|])); (split; [exact L3'|]); (split; [exact V3|]); (split; [exact I3|]); (split; [exact S5|]); constructor. }
    exists PROBE_NOTHING, w2. eexists. exists [Sent bs; Received c g], [unexpected s]. do 2 (split; [reflexivity|]). split; [exact L2'|]. split; [exact V2|]. split; [exact I2|]. split; [|apply CH_other; exact Ec].
    apply (said_tell _ _ _ _ []); [reflexivity|exact S3].
  Qed.

  (** The address on the command line. *)
  Definition legal_slave (a : mbus_address) : Prop := match a with Primary _ => True | Secondary None => False | Secondary (Some s) => mbus_is_secondary_address s = true end.
  Lemma error_line p m : transport_line m = false -> transport_line (error_prefix p ++ m) = false.
  Proof. destruct p; intros H; cbn [error_prefix app]; try exact H; reflexivity. Qed.
  Lemma address_said p h a (w : W) d : inv d -> ev_bytes (w_evs w) -> legal_slave a ->
    exists r w' d' l own, address_slave B wret react h a w = Done (r, w') /\
      (forall q, error_prefix q = error_prefix p -> address_slave_d B wret react why q h a w d = Done (r, w', d')) /\ w_log w' = w_log w ++ l /\ ev_bytes (w_evs w') /\ inv d' /\
      said (is_serial h) why d d' own /\
      match r with
      | Some n => own = [] /\ address_used a n
      | None => selects p = true -> forall o v l0, ended p o v a (c_text (dg_text d')) 1 [] (l0 ++ l) own
      end.
  Proof.
    intros He Hev Hl. destruct a as [n|[s|]]; [| |destruct Hl].
    { exists (Some n), w, d, [], []. split; [reflexivity|]. split; [reflexivity|]. rewrite app_nil_r. split; [reflexivity|]. split; [exact Hev|]. split; [exact He|]. split; [apply said_none|]. split; reflexivity. }
    cbn [legal_slave] in Hl. unfold address_slave, address_slave_d.
    destruct (select_said h s w d He Hev Hl) as (r & w1 & d1 & l & own & E1 & E2 & L & V & I & S1 & C). rewrite E1, E2. cbn [obind].
    assert (PQ : forall m, main_error p ++ m = error_prefix p ++ m) by (intros m; destruct p; reflexivity).
    destruct C as [bs|bs g|bs c g Hc|l|l].
    - eexists None, w1, _, [Sent bs], (_ ++ [_]). split; [reflexivity|]. split; [intros q ->; reflexivity|]. split; [exact L|]. split; [exact V|]. split; [exact I|].
      split; [apply said_tell; [apply error_line; reflexivity|exact S1]|]. intros Sp o v l0. rewrite tell_text. cbn [app]. rewrite <- PQ. apply E_unselected; [exact Sp|reflexivity|apply heard_sent].
    - eexists None, w1, _, _, ([] ++ [_]). split; [reflexivity|]. split; [intros q ->; reflexivity|]. split; [exact L|]. split; [exact V|]. split; [exact I|].
      split; [apply said_tell; [apply error_line; reflexivity|exact S1]|]. intros Sp o v l0. rewrite tell_text. cbn [app]. rewrite <- PQ. apply E_nobody; [exact Sp|reflexivity|]. rewrite heard_app by discriminate. reflexivity.
    - eexists None, w1, _, _, ([_] ++ [_]). split; [reflexivity|]. split; [intros q ->; reflexivity|]. split; [exact L|]. split; [exact V|]. split; [exact I|].
      split; [apply said_tell; [apply error_line; reflexivity|exact S1]|]. intros Sp o v l0. rewrite tell_text. cbn [app]. rewrite <- PQ. apply (E_other _ _ _ _ _ _ c); [exact Sp|reflexivity| |exact Hc]. rewrite heard_app by discriminate. reflexivity.
    - exists (Some 0xFD), w1, d1, l, []. split; [reflexivity|]. split; [reflexivity|]. split; [exact L|]. split; [exact V|]. split; [exact I|]. split; [exact S1|]. split; reflexivity.
    - eexists None, w1, _, l, ([] ++ [_]). split; [reflexivity|]. split; [intros q ->; reflexivity|]. split; [exact L|]. split; [exact V|]. split; [exact I|].
      split; [apply said_tell; [apply error_line; reflexivity|exact S1]|]. intros Sp o v l0. rewrite tell_text. cbn [app]. rewrite <- PQ. apply E_several; [exact Sp|reflexivity].
  Qed.

  (** ** Orders *)
  Definition plain (x : order) : Prop := match x with OPing _ | OData _ _ => False | _ => True end.
  Lemma order_said h x (w : W) d : inv d -> ev_bytes (w_evs w) -> plain x ->
    exists r w' d' l, do_order B wret react (Some h) x w = Done (r, w') /\ do_order_d B wret react why (Some h) x w d = Done (r, w', d') /\
      w_log w' = w_log w ++ l /\ ev_bytes (w_evs w') /\ inv d' /\
      (r = -1 /\ (rejected x = None -> ends_sent l) /\ said (is_serial h) why d d' [not_sent x] \/ r = 0 /\ (exists bs, l = [Sent bs]) /\ said (is_serial h) why d d' []).
  Proof.
    intros He Hev Hp. unfold not_sent. destruct (rejected x) as [m|] eqn:Hr.
    { destruct (C97_rejected B wret react why (Some h) x m w d Hr) as [E1 E2]. assert (K : match x with OPing _ => 1 | _ => -1 end = -1) by (destruct x; try reflexivity; destruct Hp). rewrite K in *.
      exists (-1), w. eexists. exists []. split; [exact E1|]. split; [exact E2|]. rewrite app_nil_r. split; [reflexivity|]. split; [exact Hev|]. split; [exact He|]. left. split; [reflexivity|]. split; [discriminate|].
      apply (said_line _ _ d). unfold rejected in Hr. cbv zeta in Hr. destruct x as [a|a baud|a sub|a data|a new|a]; try (destruct Hp; fail);
      repeat (match type of Hr with (if ?b then _ else _) = _ => destruct b end; try discriminate); injection Hr as <-; reflexivity. }
    assert (G : forall r w' d', do_order B wret react (Some h) x w = Done (r, w') -> do_order_d B wret react why (Some h) x w d = Done (r, w', d') ->
      sent B wret why h (cstr (order_name x) ++ cstr ": failed to send mbus frame.") w w' d d' r -> ev_bytes (w_evs w') -> inv d' ->
      exists r w' d' l, do_order B wret react (Some h) x w = Done (r, w') /\ do_order_d B wret react why (Some h) x w d = Done (r, w', d') /\
      w_log w' = w_log w ++ l /\ ev_bytes (w_evs w') /\ inv d' /\
      (r = -1 /\ (None = @None (list Z) -> ends_sent l) /\ said (is_serial h) why d d' [cstr (order_name x) ++ cstr ": failed to send mbus frame."] \/ r = 0 /\ (exists bs, l = [Sent bs]) /\ said (is_serial h) why d d' [])).
    { intros r w' d' E1 E2 S1 V I. destruct (sent_said B wret why h (cstr (order_name x) ++ cstr ": failed to send mbus frame.") w w' d d' r ltac:(destruct x; reflexivity) S1) as (bs & L & T).
      exists r, w', d', [Sent bs]. split; [exact E1|]. split; [exact E2|]. split; [exact L|]. split; [exact V|]. split; [exact I|].
      destruct (sent_result _ _ _ _ _ _ _ _ _ _ S1) as [-> | ->]; [right; eauto|left]. split; [reflexivity|]. split; [intros _; exists [], bs; reflexivity|exact T]. }
    unfold rejected in Hr. cbv zeta in Hr. destruct x as [a|a baud|a sub|a data|a new|a]; try (destruct Hp; fail); cbn [do_order do_order_d order_name] in *.
    - destruct (one_byte a) eqn:A; [|discriminate]. apply one_byte_range in A.
      destruct (request_d B wret react why RB WR h a w d He Hev A) as (r & w' & d' & E1 & E2 & S1 & V & I). exact (G _ _ _ E1 E2 S1 V I).
    - destruct (one_byte a) eqn:A; [|discriminate]. cbn [negb] in Hr. apply one_byte_range in A. rewrite baud_known in Hr. destruct (baud_ci baud) as [ci|] eqn:Hb; [|discriminate].
      destruct (baud_d B wret react why RB WR h a baud ci w d He Hev A Hb) as (r & w' & d' & E1 & E2 & S1 & V & I). exact (G _ _ _ E1 E2 S1 V I).
    - destruct (one_byte a) eqn:A; [|discriminate]. cbn [negb] in Hr. apply one_byte_range in A. destruct (255 <? sub) eqn:Hs; [discriminate|].
      destruct (reset_d B wret react why RB WR h a sub w d He Hev A ltac:(lia)) as (r & w' & d' & E1 & E2 & S1 & V & I). exact (G _ _ _ E1 E2 S1 V I).
    - destruct ((0 <=? new) && (new <=? 252)) eqn:R; [|discriminate]. cbn [negb] in Hr. destruct (one_byte a) eqn:A; [|discriminate]. apply one_byte_range in A.
      destruct (data_d B wret react why RB WR h a [1; 122; u8 new] w d He Hev A ltac:(cbn; lia)) as (r & w' & d' & E1 & E2 & S1 & V & I).
      unfold mbus_set_primary_address, mbus_set_primary_address_d in *.
      assert (N : mbus_is_primary_address new = true) by (unfold mbus_is_primary_address; lia). rewrite N in *. cbn [negb] in *.
      assert (X : (new =? 0xFD) || (new =? 0xFE) || (new =? 0xFF) = false) by lia. rewrite X in *. exact (G _ _ _ E1 E2 S1 V I).
  Qed.

  (** ** Scan of primary addresses *)
  Definition from_sent (l : list action) : Prop := l = [] \/ exists bs t, l = Sent bs :: t.
  Lemma exchanges_split l1 : forall l2, from_sent l2 -> exchanges (l1 ++ l2) = exchanges l1 ++ exchanges l2.
  Proof.
    induction l1 as [|x l1 IH]; intros l2 H; [reflexivity|]. destruct x; cbn [app exchanges]; rewrite IH by assumption; try reflexivity. cbn [app]. f_equal. f_equal.
    destruct l1 as [|y l1]; [|reflexivity]. destruct H as [->|(bs2 & t & ->)]; reflexivity.
  Qed.
  Lemma unwritten_split l1 l2 : from_sent l2 -> unwritten (l1 ++ l2) = (unwritten l1 + unwritten l2)%nat.
  Proof. intros H. unfold unwritten. rewrite exchanges_split by assumption. rewrite filter_app, app_length. reflexivity. Qed.
  Lemma from_app l1 l2 : from_sent l1 -> from_sent l2 -> from_sent (l1 ++ l2).
  Proof. intros [->|(bs & t & ->)] H; [exact H|]. right. cbn [app]. eauto. Qed.
  Lemma unwritten_received l1 l2 : received_only l2 -> (exists t c g, l1 = t ++ [Received c g]) -> unwritten (l1 ++ l2) = unwritten l1.
  Proof.
    intros H (t & c & g & ->). unfold unwritten. f_equal. f_equal. rewrite <- app_assoc. cbn [app].
    assert (X : forall u, exchanges (t ++ Received c g :: u) = exchanges (t ++ [Received c g]) ++ exchanges u).
    { intros u. induction t as [|x t IH]; [reflexivity|]. destruct x; cbn [app exchanges]; rewrite IH; try reflexivity. cbn [app]. f_equal. f_equal. destruct t as [|y t]; reflexivity. }
    rewrite X, (received_nil_exch l2 H). apply app_nil_r.
  Qed.
  Definition scan_told (serial : bool) (d d' : diag) (l : list action) : Prop :=
    exists texts, said serial why d d' (flat_map ping_lines texts) /\ List.length texts = unwritten l.
  Lemma scan_told_app s d1 d2 d3 l1 l2 : from_sent l2 -> scan_told s d1 d2 l1 -> scan_told s d2 d3 l2 -> scan_told s d1 d3 (l1 ++ l2).
  Proof. intros F (t1 & S1 & N1) (t2 & S2 & N2). exists (t1 ++ t2). rewrite flat_map_app, app_length, N1, N2, unwritten_split by assumption. split; [exact (said_app _ _ _ _ _ _ _ S1 S2)|reflexivity]. Qed.

  Variable h : handle.
  Hypothesis HS : hears_slaves h.
  Lemma ping_loop_said addr : 0 <= addr <= 255 -> forall n reply ret (w : W) d r f w', inv d -> ev_bytes (w_evs w) -> sound reply -> ftype reply <> T_ACK ->
    ping_loop B wret react n h reply addr ret w = Done (r, f, w') ->
    exists d' l, ping_loop_d B wret react why n h reply addr ret w d = Done (r, f, w', d') /\ w_log w' = w_log w ++ l /\ from_sent l /\ ev_bytes (w_evs w') /\ inv d' /\
      scan_told (is_serial h) d d' l /\
      ((r = ret /\ l = [] /\ f = reply) \/ (r = RECV_ERROR /\ ftype f <> T_ACK) \/ exists t c g, l = t ++ [Received c g]).
  Proof.
    intros Ha. induction n as [|n IH]; intros reply ret w d r f w' He Hev Hs Ht E; cbn [ping_loop ping_loop_d] in *.
    { injection E as <- <- <-. exists d, []. rewrite app_nil_r. split; [reflexivity|]. split; [reflexivity|]. split; [left; reflexivity|]. split; [exact Hev|]. split; [exact He|].
      split; [exists []; split; [apply said_none|reflexivity]|]. auto. }
    destruct (ping_said h addr false w d He Hev Ha) as (r1 & w1 & d1 & l1 & E1 & E2 & L1 & V1 & I1 & Q & C1). rewrite E1 in E. rewrite E2. cbn [obind] in *. destruct (Q eq_refl) as (bs & ->).
    destruct C1 as [(-> & _ & S1)|(-> & S1)].
    { change (-1 =? -1) with true in *. cbv iota in *. injection E as <- <- <-. eexists. exists [Sent bs]. split; [reflexivity|]. split; [exact L1|]. split; [right; eauto|]. split; [exact V1|]. split; [exact I1|].
      split; [|right; left; split; [reflexivity|exact Ht]]. exists [c_text (dg_text d1)]. split; [|reflexivity]. cbn [flat_map app ping_lines].
      apply (said_tell _ _ _ _ [_]); [reflexivity|exact S1]. }
    change (0 =? -1) with false in *. cbv iota in *.
    destruct (recv_said h reply w1 d1 I1 Hs V1) as (c & f2 & w2 & d2 & g & E3 & E4 & L2 & S2 & I2 & F2 & V2). rewrite E3 in E. rewrite E4. cbn [obind] in *.
    assert (L2' : w_log w2 = w_log w ++ [Sent bs; Received c g]) by (rewrite L2, L1, <- app_assoc; reflexivity).
    assert (T : scan_told (is_serial h) d d2 [Sent bs; Received c g]) by (exists []; split; [exact (said_app _ _ _ _ _ [] [] S1 S2)|reflexivity]).
    destruct (Z.eqb_spec c RECV_TIMEOUT) as [Ec|Ec]; cbn [negb] in *.
    - assert (T2 : ftype f2 <> T_ACK) by (intros X; pose proof (recv_ack B h reply w1 c f2 w2 HS Ht E3 X); subst c; discriminate).
      destruct (IH f2 c w2 d2 r f w' I2 V2 F2 T2 E) as (d' & l & E5 & L & Fl & V & I & T3 & C). exists d', ([Sent bs; Received c g] ++ l). split; [exact E5|]. split; [rewrite L, L2', <- app_assoc; reflexivity|].
      split; [apply from_app; [right; eauto|exact Fl]|]. split; [exact V|]. split; [exact I|]. split; [exact (scan_told_app _ _ _ _ _ _ Fl T T3)|].
      destruct C as [(-> & -> & ->)|[C|(t & c1 & g1 & ->)]].
      + right. right. exists [Sent bs], c, g. reflexivity.
      + right. left. exact C.
      + right. right. exists ([Sent bs; Received c g] ++ t), c1, g1. rewrite <- app_assoc. reflexivity.
    - injection E as <- <- <-. exists d2. eexists. split; [reflexivity|]. split; [exact L2'|]. split; [right; eauto|]. split; [exact V2|]. split; [exact I2|]. split; [exact T|].
      right. right. exists [Sent bs], c, g. reflexivity.
  Qed.
  Lemma scan_address_said addr (w : W) d ls w' : 0 <= addr <= 255 -> inv d -> ev_bytes (w_evs w) ->
    scan_address B wret react h addr w = Done (ls, w') ->
    exists d' l, scan_address_d B wret react why h addr w d = Done (ls, w', d') /\ w_log w' = w_log w ++ l /\ from_sent l /\ ev_bytes (w_evs w') /\ inv d' /\ scan_told (is_serial h) d d' l.
  Proof.
    intros Ha He Hev E. unfold scan_address in E. unfold scan_address_d, ping_address_d. unfold ping_address in E.
    destruct (ping_loop B wret react _ h frame_zero addr RECV_ERROR w) as [[[r f] w1]| |] eqn:P; cbn [obind] in E; try discriminate.
    destruct (ping_loop_said addr Ha _ frame_zero RECV_ERROR w d r f w1 He Hev sound_zero ltac:(discriminate) P) as (d1 & l1 & E1 & L1 & F1 & V1 & I1 & T1 & C1). rewrite E1. cbn [obind].
    destruct (purge_said h w1 d1 I1 V1) as (p & w2 & d2 & l2 & E3 & E4 & L2 & R2 & V2 & I2 & S2).
    assert (L2' : w_log w2 = w_log w ++ (l1 ++ l2)) by (rewrite L2, L1, <- app_assoc; reflexivity).
    assert (PT : (exists t c g, l1 = t ++ [Received c g]) -> from_sent (l1 ++ l2) /\ scan_told (is_serial h) d d2 (l1 ++ l2)).
    { intros H. split. { destruct F1 as [->|(bs & t & ->)]; [destruct H as (t & c & g & H); destruct t; discriminate|]. right. cbn [app]. eauto. }
      destruct T1 as (texts & S1 & N1). exists texts. rewrite (unwritten_received l1 l2 R2 H). split; [|exact N1]. pose proof (said_app _ _ _ _ _ _ _ S1 S2) as X. rewrite app_nil_r in X. exact X. }
    destruct (Z.eqb_spec r RECV_TIMEOUT) as [_|_]; [injection E as <- <-; exists d1, l1; auto 10|].
    destruct (Z.eqb_spec r RECV_INVALID) as [Ei|Ei].
    { rewrite E3 in E. rewrite E4. cbn [obind] in *. injection E as <- <-. exists d2, (l1 ++ l2). split; [reflexivity|]. split; [exact L2'|].
      assert (H : exists t c g, l1 = t ++ [Received c g]) by (destruct C1 as [(X & _)|[(X & _)|X]]; [rewrite Ei in X; discriminate|rewrite Ei in X; discriminate|exact X]). destruct (PT H). auto. }
    destruct (Z.eqb_spec (mbus_frame_type f) T_ACK) as [Et|Et]; [|injection E as <- <-; exists d1, l1; auto 10].
    rewrite E3 in E. rewrite E4. cbn [obind] in *. unfold mbus_frame_type in Et.
    assert (H : exists t c g, l1 = t ++ [Received c g]) by (destruct C1 as [(_ & _ & ->)|[(_ & X)|X]]; [discriminate|contradiction|exact X]). destruct (PT H) as [Fx Tx].
    destruct (negb (p =? 0)); injection E as <- <-; exists d2, (l1 ++ l2); auto 10.
  Qed.
  Lemma scan_said addrs : Forall (fun a => 0 <= a <= 255) addrs -> forall (w : W) d ls w', inv d -> ev_bytes (w_evs w) ->
    scan_addresses B wret react h addrs w = Done (ls, w') ->
    exists d' l, scan_addresses_d B wret react why h addrs w d = Done (ls, w', d') /\ w_log w' = w_log w ++ l /\ from_sent l /\ scan_told (is_serial h) d d' l.
  Proof.
    induction 1 as [|a addrs Ha _ IH]; intros w d ls w' He Hev E; cbn [scan_addresses scan_addresses_d] in *.
    { injection E as <- <-. exists d, []. rewrite app_nil_r. split; [reflexivity|]. split; [reflexivity|]. split; [left; reflexivity|]. exists []. split; [apply said_none|reflexivity]. }
    destruct (scan_address B wret react h a w) as [[l w1]| |] eqn:E1; cbn [obind] in E; try discriminate.
    destruct (scan_address_said a w d l w1 Ha He Hev E1) as (d1 & l1 & E2 & L1 & F1 & V1 & I1 & T1). rewrite E2. cbn [obind].
    destruct (scan_addresses B wret react h addrs w1) as [[l' w2]| |] eqn:E3; cbn [obind] in E; try discriminate. injection E as <- <-.
    destruct (IH w1 d1 l' w2 I1 V1 E3) as (d2 & l2 & E4 & L2 & F2 & T2). rewrite E4. cbn [obind]. exists d2, (l1 ++ l2). split; [reflexivity|]. split; [rewrite L2, L1, <- app_assoc; reflexivity|].
    split; [apply from_app; assumption|]. exact (scan_told_app _ _ _ _ _ _ F2 T1 T2).
  Qed.
End OnBus.

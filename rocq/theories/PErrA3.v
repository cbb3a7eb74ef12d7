(** Proofs about the diagnostics of the protocol procedures: search, reading a slave, scan. *)
From Coq Require Import String.
From Coq Require Import List.
From Verif Require Import CBase PBase CStr MFrame MText MXml MRecv SRecv MSecond MProto SProto PProto PReq MErr SErr PErr MErrT SErrT PropErr MErrA SErrA PErrA PErrA2.
Local Open Scope Z_scope.

Definition found_one (r : Z) : Prop := In r [PROBE_ERROR; PROBE_NOTHING; PROBE_SINGLE; PROBE_COLLISION].
Lemma probe_end_quiet m r t : r = PROBE_NOTHING \/ r = PROBE_SINGLE \/ r = PROBE_COLLISION -> probe_end m r t [].
Proof. intros [-> |[-> | ->]]; unfold probe_end; cbn; auto. Qed.

Section OnBus.
  Variable B : Type.
  Variable wret : B -> Z -> Z.
  Variable react : B -> list Z -> B * list ev.
  Variable why : list Z.
  Hypothesis RB : forall b l, ev_bytes (snd (react b l)).
  Hypothesis WR : forall b n, 0 <= n <= 2048 -> - 2 ^ 31 <= wret b n < 2 ^ 31.
  Notation W := (world B).

  Lemma probe_selected_told h mask buf (w : W) d r buf' w' : inv d -> ev_bytes (w_evs w) -> probe_selected B wret react h buf w = Done (r, buf', w') ->
    exists d' last, probe_selected_d B wret react why h mask buf w d = Done (r, buf', w', d') /\ inv d' /\ ev_bytes (w_evs w') /\ found_one r /\
      said (is_serial h) why d d' last /\ probe_end mask r (c_text (dg_text d')) last.
  Proof.
    intros He Hev E. unfold probe_selected in E. unfold probe_selected_d.
    destruct (request_d B wret react why RB WR h 0xFD w d He Hev ltac:(lia)) as (r1 & w1 & d1 & E1 & E2 & S1 & V1 & I1).
    rewrite E1 in E. rewrite E2. cbn [obind] in *. pose proof (sent_result _ _ _ _ _ _ _ _ _ _ S1) as R1.
    destruct (sent_said B wret why h (cstr "mbus_send_request_frame: failed to send mbus frame.") w w1 d d1 r1 eq_refl S1) as (bs & L1 & T1).
    destruct (Z.eqb_spec r1 (-1)) as [->|N1].
    { injection E as <- <- <-. eexists. eexists. split; [reflexivity|]. split; [exact I1|]. split; [exact V1|]. split; [unfold found_one; cbn; auto|].
      split; [apply said_tell; [reflexivity|exact T1]|]. unfold probe_end. change (PROBE_ERROR =? PROBE_ERROR) with true. cbv iota. right. right. right. reflexivity. }
    assert (r1 = 0) as -> by lia. change (0 =? 0) with true in T1. cbv iota in T1.
    destruct (recv_d B h frame_zero w1 d1 I1 sound_zero V1) as (c & f2 & evs2 & got2 & d2 & ls2 & E3 & E4 & W2 & K2 & I2 & Sf2 & V2).
    rewrite E3 in E. rewrite E4. cbn [obind] in *. set (w2 := mkW (w_bus w1) evs2 (w_log w1 ++ [Received c got2])) in *.
    assert (V2' : ev_bytes (w_evs w2)) by exact V2.
    assert (T2 : said (is_serial h) why d d2 []) by exact (said_app _ _ _ _ _ [] [] T1 (said_remarks _ _ _ _ _ W2 K2)).
    destruct (c =? RECV_TIMEOUT).
    { injection E as <- <- <-. exists d2, []. split; [reflexivity|]. split; [exact I2|]. split; [exact V2|]. split; [unfold found_one; cbn; auto|].
      split; [exact T2|]. apply probe_end_quiet. auto. }
    destruct (purge_d B h w2 d2 I2 V2') as (p & w3 & new3 & d3 & ls3 & E5 & E6 & L3 & R3 & V3 & W3 & K3 & I3). rewrite E5 in E. rewrite E6. cbn [obind] in *.
    assert (T3 : said (is_serial h) why d d3 []) by exact (said_app _ _ _ _ _ [] [] T2 (said_remarks _ _ _ _ _ W3 K3)).
    destruct (c =? RECV_INVALID).
    { injection E as <- <- <-. exists d3, []. split; [reflexivity|]. split; [exact I3|]. split; [exact V3|]. split; [unfold found_one; cbn; auto|].
      split; [exact T3|]. apply probe_end_quiet. auto. }
    destruct (negb (p =? 0)).
    { injection E as <- <- <-. exists d3, []. split; [reflexivity|]. split; [exact I3|]. split; [exact V3|]. split; [unfold found_one; cbn; auto|].
      split; [exact T3|]. apply probe_end_quiet. auto. }
    destruct (mbus_frame_type f2 =? T_LONG).
    2:{ injection E as <- <- <-. eexists. eexists. split; [reflexivity|]. split; [exact I3|]. split; [exact V3|]. split; [unfold found_one; cbn; auto|].
        split; [apply said_tell; [reflexivity|exact T3]|]. unfold probe_end. change (PROBE_NOTHING =? PROBE_ERROR) with false. change (PROBE_NOTHING =? PROBE_NOTHING) with true. cbv iota.
        right. left. reflexivity. }
    pose proof (secondary_same (dg_text d3) f2 I3 Sf2) as X. destruct (mbus_frame_get_secondary_address f2) as [a|]; [|discriminate].
    destruct X as (e' & X & Ie). rewrite X. cbn [lift obind] in *. destruct a as [addr|].
    - destruct (snprintf_s buf 0 17 addr) as [b2|]; cbn [lift obind] in *; [|discriminate]. injection E as <- <- <-.
      exists (mkDg e' (dg_err d3)), []. split; [reflexivity|]. split; [exact Ie|]. split; [exact V3|]. split; [unfold found_one; cbn; auto|].
      split; [exact T3|]. apply probe_end_quiet. auto.
    - injection E as <- <- <-. eexists. eexists. split; [reflexivity|]. split; [exact Ie|]. split; [exact V3|]. split; [unfold found_one; cbn; auto|].
      split; [apply (said_tell _ _ d (mkDg e' (dg_err d3)) []); [reflexivity|exact T3]|].
      unfold probe_end. change (PROBE_NOTHING =? PROBE_ERROR) with false. change (PROBE_NOTHING =? PROBE_NOTHING) with true. cbv iota. right. right. reflexivity.
  Qed.

  (** What a selection says, by its result. *)
  Lemma select_told h s (w : W) d r w' : inv d -> ev_bytes (w_evs w) -> mbus_select_secondary_address B wret react (Some h) s w = Done (r, w') ->
    exists d' ls, mbus_select_secondary_address_d B wret react why (Some h) s w d = Done (r, w', d') /\ inv d' /\ ev_bytes (w_evs w') /\ found_one r /\
      said (is_serial h) why d d' ls /\
      (r = PROBE_ERROR -> List.length s = 16%nat -> probe_end s r (c_text (dg_text d')) ls) /\
      (r = PROBE_NOTHING -> ls = [] \/ ls = [unexpected s]) /\
      (r = PROBE_SINGLE \/ r = PROBE_COLLISION -> ls = []).
  Proof.
    intros He Hev E. destruct (select_d B wret react why RB WR h s w d He Hev) as (r0 & w0 & d' & new & E1 & E2 & _ & V & I & R & X1 & X2 & S1).
    rewrite E1 in E. injection E as <- <-. exists d', (select_lines s r0 (exchanges new) (c_text (dg_text d'))).
    split; [exact E2|]. split; [exact I|]. split; [exact V|]. split; [exact R|]. split; [exact S1|].
    assert (G : r0 <> PROBE_ERROR -> exists c, select_lines s r0 (exchanges new) (c_text (dg_text d')) =
      if (r0 =? PROBE_NOTHING) && negb (c =? RECV_TIMEOUT) then [unexpected s] else []).
    { intros N. destruct (X2 N) as (L & bs & c & got & Ex). exists c. unfold select_lines. rewrite L, Ex. reflexivity. }
    split; [|split].
    - intros -> L. specialize (X1 eq_refl L). unfold select_lines, probe_end. rewrite L. change (PROBE_ERROR =? PROBE_ERROR) with true. cbn [Nat.eqb negb]. cbv iota.
      destruct (exchanges new) as [|[bs [[c got]|]] xs]; [auto| |auto]. specialize (X1 _ (or_introl eq_refl)). discriminate.
    - intros ->. destruct (G ltac:(discriminate)) as (c & ->). destruct (_ && _); auto.
    - intros H. assert (N : r0 <> PROBE_ERROR) by (destruct H as [-> | ->]; discriminate). destruct (G N) as (c & ->).
      destruct H as [-> | ->]; reflexivity.
  Qed.

  Lemma probe_loop_told h mask : List.length mask = 16%nat -> forall n buf ret (w : W) d r buf' w', inv d -> ev_bytes (w_evs w) -> (n = O -> ret = PROBE_NOTHING) ->
    probe_loop B wret react n h mask buf ret w = Done (r, buf', w') ->
    exists d' ls, probe_loop_d B wret react why n h mask buf ret w d = Done (r, buf', w', d') /\ inv d' /\ ev_bytes (w_evs w') /\ found_one r /\
      said (is_serial h) why d d' ls /\ probe_lines mask r (c_text (dg_text d')) ls.
  Proof.
    intros L16. induction n as [|n IH]; intros buf ret w d r buf' w' He Hev Hn E.
    { rewrite (Hn eq_refl) in *. injection E as <- <- <-. exists d, []. split; [reflexivity|]. split; [exact He|]. split; [exact Hev|]. split; [unfold found_one; cbn; auto|].
      split; [apply said_none|]. exists 0%nat, []. split; [reflexivity|]. apply probe_end_quiet. auto. }
    cbn [probe_loop probe_loop_d] in *.
    destruct (mbus_select_secondary_address B wret react (Some h) mask w) as [[r1 w1]| |] eqn:E1; cbn [obind] in E; try discriminate.
    destruct (select_told h mask w d r1 w1 He Hev E1) as (d1 & ls1 & E2 & I1 & V1 & R1 & S1 & X1 & X2 & X3). rewrite E2. cbn [obind].
    assert (Z1 : forall y, probe_end mask y (c_text (dg_text d1)) ls1 -> probe_lines mask y (c_text (dg_text d1)) ls1) by (intros y P; exists 0%nat, ls1; auto).
    destruct R1 as [<-|[<-|[<-|[<-|[]]]]].
    - change (PROBE_ERROR =? PROBE_SINGLE) with false in *. change (PROBE_ERROR =? PROBE_ERROR) with true in *. cbv iota in *. cbn [orb] in *.
      injection E as <- <- <-. exists d1, ls1. split; [reflexivity|]. split; [exact I1|]. split; [exact V1|]. split; [unfold found_one; cbn; auto|]. split; [exact S1|]. apply Z1. apply X1; auto.
    - change (PROBE_NOTHING =? PROBE_SINGLE) with false in *. change ((PROBE_NOTHING =? PROBE_ERROR) || (PROBE_NOTHING =? PROBE_COLLISION)) with false in *. cbv iota in *.
      destruct (IH buf PROBE_NOTHING w1 d1 r buf' w' I1 V1 ltac:(auto) E) as (d' & ls & E3 & I3 & V3 & R3 & S3 & k & last & -> & P3).
      exists d', (ls1 ++ repeat (unexpected mask) k ++ last). split; [exact E3|]. split; [exact I3|]. split; [exact V3|]. split; [exact R3|].
      split; [exact (said_app _ _ _ _ _ _ _ S1 S3)|]. destruct (X2 eq_refl) as [-> | ->]; [exists k, last|exists (S k), last]; auto.
    - change (PROBE_SINGLE =? PROBE_SINGLE) with true in *. cbv iota in *. rewrite (X3 (or_introl eq_refl)) in S1.
      destruct (probe_selected_told h mask buf w1 d1 r buf' w' I1 V1 E) as (d' & last & E3 & I3 & V3 & R3 & S3 & P3).
      exists d', last. split; [exact E3|]. split; [exact I3|]. split; [exact V3|]. split; [exact R3|]. split; [exact (said_app _ _ _ _ _ [] _ S1 S3)|]. exists 0%nat, last. auto.
    - change (PROBE_COLLISION =? PROBE_SINGLE) with false in *. change ((PROBE_COLLISION =? PROBE_ERROR) || (PROBE_COLLISION =? PROBE_COLLISION)) with true in *. cbv iota in *.
      injection E as <- <- <-. exists d1, ls1. split; [reflexivity|]. split; [exact I1|]. split; [exact V1|]. split; [unfold found_one; cbn; auto|]. split; [exact S1|]. apply Z1.
      rewrite (X3 (or_intror eq_refl)). apply probe_end_quiet. auto.
  Qed.
  Lemma probe_told h mask buf (w : W) d r buf' w' : inv d -> ev_bytes (w_evs w) -> mbus_probe_secondary_address B wret react (Some h) mask buf w = Done (r, buf', w') ->
    exists d' ls, mbus_probe_secondary_address_d B wret react why (Some h) mask buf w d = Done (r, buf', w', d') /\ inv d' /\ ev_bytes (w_evs w') /\ found_one r /\
      said (is_serial h) why d d' ls /\ probe_lines mask r (c_text (dg_text d')) ls.
  Proof.
    intros He Hev E. unfold mbus_probe_secondary_address, mbus_probe_secondary_address_d in *. destruct (Nat.eqb_spec (List.length mask) 16) as [L|L]; cbn [negb] in *.
    - destruct (max_search_retry h <? 0) eqn:M; [discriminate|]. apply (probe_loop_told h mask L _ _ _ _ _ _ _ _ He Hev); [lia|exact E].
    - injection E as <- <- <-. eexists. eexists. split; [reflexivity|]. split; [exact He|]. split; [exact Hev|]. split; [unfold found_one; cbn; auto|]. split; [apply said_line; reflexivity|].
      exists 0%nat, [cstr "mbus_probe_secondary_address: Invalid address masks."]. split; [reflexivity|]. unfold probe_end. change (PROBE_ERROR =? PROBE_ERROR) with true. cbv iota. auto.
  Qed.

  (** One request after which one reply is taken. *)
  Lemma reading_told h a f (w : W) d : inv d -> ev_bytes (w_evs w) -> 0 <= a <= 255 -> sound f ->
    forall r w1 d1, mbus_send_request_frame_d B wret react why (Some h) a w d = Done (r, w1, d1) ->
    mbus_send_request_frame B wret react (Some h) a w = Done (r, w1) /\ inv d1 /\ ev_bytes (w_evs w1) /\
    (r = 0 \/ r = -1) /\
    (r = -1 -> exists new, w_log w1 = w_log w ++ new /\
       said (is_serial h) why d (tell d1 (cstr "mbus_read_slave: Failed to send M-Bus request frame.")) (reading (exchanges new))) /\
    (r = 0 -> forall c f' w', mbus_recv_frame B (Some h) f w1 = Done (c, f', w') ->
       exists d2 new, mbus_recv_frame_d B (Some h) f w1 d1 = Done (c, f', w', d2) /\ w_log w' = w_log w ++ new /\ inv d2 /\ ev_bytes (w_evs w') /\
         said (is_serial h) why d (if c =? 0 then d2 else tell d2 (cstr "mbus_read_slave: Failed to receive M-Bus response frame.")) (reading (exchanges new))).
  Proof.
    intros He Hev Ha Hf r w1 d1 E.
    destruct (request_d B wret react why RB WR h a w d He Hev Ha) as (r1 & w2 & d2 & E1 & E2 & S1 & V1 & I1). rewrite E2 in E. injection E as -> -> ->.
    split; [exact E1|]. split; [exact I1|]. split; [exact V1|]. split; [exact (sent_result _ _ _ _ _ _ _ _ _ _ S1)|].
    destruct (sent_said B wret why h (cstr "mbus_send_request_frame: failed to send mbus frame.") w w1 d d1 r eq_refl S1) as (bs & L1 & T1).
    split.
    - intros ->. exists [Sent bs]. split; [exact L1|]. apply (said_tell _ _ _ _ [_]); [reflexivity|exact T1].
    - intros -> c f' w' E.
      destruct (recv_d B h f w1 d1 I1 Hf V1) as (c0 & f2 & evs2 & got2 & d2 & ls2 & E3 & E4 & W2 & K2 & I2 & Sf2 & V2).
      rewrite E3 in E. injection E as <- <- <-. exists d2, [Sent bs; Received c0 got2]. split; [exact E4|]. split; [cbn [w_log]; rewrite L1, <- app_assoc; reflexivity|].
      split; [exact I2|]. split; [exact V2|]. cbn [exchanges]. unfold reading. change (c0 =? RECV_OK) with (c0 =? 0).
      assert (T2 : said (is_serial h) why d d2 []) by exact (said_app _ _ _ _ _ [] [] T1 (said_remarks _ _ _ _ _ W2 K2)).
      destruct (c0 =? 0); [exact T2|]. apply (said_tell _ _ _ _ []); [reflexivity|exact T2].
  Qed.

  Lemma read_primary_told h a f (w : W) d r f' w' : inv d -> ev_bytes (w_evs w) -> 0 <= a <= 255 -> sound f ->
    mbus_read_slave B wret react (Some h) (Primary a) f w = Done (r, f', w') ->
    exists d' new, mbus_read_slave_d B wret react why (Some h) (Primary a) f w d = Done (r, f', w', d') /\ w_log w' = w_log w ++ new /\ inv d' /\
      said (is_serial h) why d d' (reading (exchanges new)).
  Proof.
    intros He Hev Ha Hf E. unfold mbus_read_slave in E. unfold mbus_read_slave_d.
    destruct (mbus_send_request_frame_d B wret react why (Some h) a w d) as [[[r1 w1] d1]| |] eqn:E1.
    2,3: destruct (request_d B wret react why RB WR h a w d He Hev Ha) as (? & ? & ? & _ & X & _); congruence.
    destruct (reading_told h a f w d He Hev Ha Hf r1 w1 d1 E1) as (E2 & I1 & V1 & [-> | ->] & X1 & X2); rewrite E2 in E; cbn [obind] in *.
    - change (0 =? -1) with false in *. cbv iota in *. cbn [obind] in *. change (0 =? -1) with false in *. cbv iota in *.
      destruct (mbus_recv_frame B (Some h) f w1) as [[[c f2] w2]| |] eqn:E3; cbn [obind] in E; try discriminate.
      destruct (X2 eq_refl c f2 w2 eq_refl) as (d2 & new & E4 & L & I2 & V2 & S2). rewrite E4. cbn [obind].
      destruct (c =? 0); cbn [negb] in *; injection E as <- <- <-; eexists; exists new; (split; [reflexivity|]; split; [exact L|]; split; [exact I2|exact S2]).
    - change (-1 =? -1) with true in *. cbv iota in *. cbn [obind] in *. change (-1 =? -1) with true in *. cbv iota in *.
      injection E as <- <- <-. destruct (X1 eq_refl) as (new & L & S2). eexists. exists new. split; [reflexivity|]. split; [exact L|]. split; [exact I1|exact S2].
  Qed.
  Lemma read_secondary_told h s f (w : W) d r f' w' : inv d -> ev_bytes (w_evs w) -> sound f ->
    mbus_read_slave B wret react (Some h) (Secondary (Some s)) f w = Done (r, f', w') ->
    exists p w1 d1 d' new1 new2, mbus_select_secondary_address B wret react (Some h) s w = Done (p, w1) /\
      mbus_read_slave_d B wret react why (Some h) (Secondary (Some s)) f w d = Done (r, f', w', d') /\
      w_log w1 = w_log w ++ new1 /\ w_log w' = w_log w1 ++ new2 /\ inv d' /\
      mbus_select_secondary_address_d B wret react why (Some h) s w d = Done (p, w1, d1) /\
      said (is_serial h) why d d' (select_lines s p (exchanges new1) (c_text (dg_text d1)) ++ read_lines s p (exchanges new2)).
  Proof.
    intros He Hev Hf E. unfold mbus_read_slave in E. unfold mbus_read_slave_d.
    destruct (select_d B wret react why RB WR h s w d He Hev) as (p & w1 & d1 & new1 & E1 & E2 & L1 & V1 & I1 & R1 & _ & _ & S1).
    rewrite E1 in E |- *. rewrite E2. cbn [obind] in *.
    assert (STOP : forall m, w1 = w' -> transport_line m = false -> read_lines s p (exchanges []) = [m] ->
      w_log w1 = w_log w ++ new1 /\ w_log w' = w_log w1 ++ [] /\ inv (tell d1 m) /\ Done (p, w1, d1) = Done (p, w1, d1) /\
      said (is_serial h) why d (tell d1 m) (select_lines s p (exchanges new1) (c_text (dg_text d1)) ++ read_lines s p (exchanges []))).
    { intros m <- T R. split; [exact L1|]. split; [rewrite app_nil_r; reflexivity|]. split; [exact I1|]. split; [reflexivity|]. rewrite R. apply said_tell; [exact T|exact S1]. }
    exists p, w1, d1. destruct R1 as [<-|[<-|[<-|[<-|[]]]]].
    - change (PROBE_ERROR =? PROBE_COLLISION) with false in *. change (PROBE_ERROR =? PROBE_NOTHING) with false in *. change (PROBE_ERROR =? PROBE_ERROR) with true in *. cbn [orb] in *. cbv iota in *. cbn [obind] in *.
      change (-1 =? -1) with true in *. cbv iota in *. injection E as <- <- Ew. eexists. exists new1, []. split; [reflexivity|]. split; [rewrite Ew; reflexivity|]. (eapply STOP; [exact Ew|reflexivity|reflexivity]).
    - change (PROBE_NOTHING =? PROBE_COLLISION) with false in *. change (PROBE_NOTHING =? PROBE_NOTHING) with true in *. cbn [orb] in *. cbv iota in *. cbn [obind] in *.
      change (-1 =? -1) with true in *. cbv iota in *. injection E as <- <- Ew. eexists. exists new1, []. split; [reflexivity|]. split; [rewrite Ew; reflexivity|]. (eapply STOP; [exact Ew|reflexivity|reflexivity]).
    - change (PROBE_SINGLE =? PROBE_COLLISION) with false in *. change (PROBE_SINGLE =? PROBE_NOTHING) with false in *. change (PROBE_SINGLE =? PROBE_ERROR) with false in *. cbn [orb] in *. cbv iota in *.
      assert (RL : forall xs, read_lines s PROBE_SINGLE xs = reading xs) by reflexivity.
      destruct (mbus_send_request_frame_d B wret react why (Some h) 0xFD w1 d1) as [[[r1 w2] d2]| |] eqn:E3.
      2,3: destruct (request_d B wret react why RB WR h 0xFD w1 d1 I1 V1 ltac:(lia)) as (? & ? & ? & _ & X & _); congruence.
      destruct (reading_told h 0xFD f w1 d1 I1 V1 ltac:(lia) Hf r1 w2 d2 E3) as (E4 & I2 & V2 & [-> | ->] & X1 & X2); rewrite E4 in E; cbn [obind] in *.
      + change (0 =? -1) with false in *. cbv iota in *. cbn [obind] in *. change (0 =? -1) with false in *. cbv iota in *.
        destruct (mbus_recv_frame B (Some h) f w2) as [[[c f2] w3]| |] eqn:E5; cbn [obind] in E; try discriminate.
        destruct (X2 eq_refl c f2 w3 eq_refl) as (d3 & new & E6 & L & I3 & V3 & S2). rewrite E6. cbn [obind].
        destruct (c =? 0); cbn [negb] in *; injection E as <- <- <-; eexists; exists new1, new; (split; [reflexivity|]; split; [reflexivity|]; split; [exact L1|]; split; [exact L|]; split; [exact I3|];
          split; [reflexivity|]; exact (said_app _ _ _ _ _ _ _ S1 S2)).
      + change (-1 =? -1) with true in *. cbv iota in *. cbn [obind] in *. change (-1 =? -1) with true in *. cbv iota in *.
        injection E as <- <- <-. destruct (X1 eq_refl) as (new & L & S2). eexists. exists new1, new. split; [reflexivity|]. split; [reflexivity|]. split; [exact L1|]. split; [exact L|]. split; [exact I2|].
        split; [reflexivity|]. exact (said_app _ _ _ _ _ _ _ S1 S2).
    - change (PROBE_COLLISION =? PROBE_COLLISION) with true in *. cbn [orb] in *. cbv iota in *. cbn [obind] in *.
      change (-1 =? -1) with true in *. cbv iota in *. injection E as <- <- Ew. eexists. exists new1, []. split; [reflexivity|]. split; [rewrite Ew; reflexivity|]. (eapply STOP; [exact Ew|reflexivity|reflexivity]).
  Qed.

  (** The scan. *)
  Lemma narrows_refl m : narrows m m.
  Proof. induction m; constructor; auto. Qed.
  Lemma narrows_upd : forall mask m p c, narrows mask m -> c = nth p m 0 \/ ((nth p mask 0 = 70 \/ nth p mask 0 = 102) /\ 48 <= c <= 57) -> narrows mask (upd m p c).
  Proof.
    intros mask m p c N. revert p. induction N as [|a b mask m H N IH]; intros p Hc; [destruct p; constructor|].
    destruct p as [|p]; cbn [upd nth] in *; [constructor; [|exact N]; destruct Hc as [-> |Hc]; [exact H|right; exact Hc]|constructor; [exact H|apply IH; exact Hc]].
  Qed.
  Lemma narrows_nth : forall mask m p, narrows mask m -> nth p m 0 = nth p mask 0 \/ ((nth p mask 0 = 70 \/ nth p mask 0 = 102) /\ 48 <= nth p m 0 <= 57).
  Proof. intros mask m p N. revert p. induction N as [|a b mask m H N IH]; intros [|p]; cbn; auto. Qed.
  Lemma narrows_trans : forall a b c, narrows a b -> narrows b c -> narrows a c.
  Proof.
    intros a b c N1. revert c. induction N1 as [|x y a b H N1 IH]; intros c N2; [inversion N2; constructor|]; inversion N2 as [|? z ? cs K N3]; subst; constructor; [|apply IH; exact N3].
    destruct H as [-> |H]; [assumption|]. destruct K as [-> |K]; [right; exact H|lia].
  Qed.
  Lemma narrows_length a b : narrows a b -> List.length b = List.length a.
  Proof. induction 1; cbn; congruence. Qed.
  Lemma scan_lines_narrow a b r ls : narrows a b -> scan_lines b r ls -> scan_lines a r ls.
  Proof.
    intros N ((bs & -> & F) & R). split.
    - exists bs. split; [reflexivity|]. eapply Forall_impl; [|exact F]. intros x (m & y & t & z & Nm & H). exists m, y, t, z. split; [exact (narrows_trans _ _ _ N Nm)|exact H].
    - destruct R as [->|(-> & m & rest & Nm & E)]; [left; reflexivity|right]. split; [reflexivity|]. exists m, rest. split; [exact (narrows_trans _ _ _ N Nm)|exact E].
  Qed.
  Lemma scan_lines_nil a : scan_lines a 0 [].
  Proof. split; [exists []; split; [reflexivity|constructor]|auto]. Qed.
  Lemma scan_lines_app a r0 r l1 l2 : scan_lines a r0 l1 -> scan_lines a r l2 -> scan_lines a r (l1 ++ l2).
  Proof.
    intros ((b1 & -> & F1) & _) ((b2 & -> & F2) & R). split.
    - exists (b1 ++ b2). rewrite concat_app. split; [reflexivity|]. apply Forall_app; auto.
    - destruct R as [->|(-> & m & rest & N & ->)]; [auto|]. right. split; [reflexivity|]. exists m, (concat b1 ++ rest). split; [exact N|]. rewrite app_assoc. reflexivity.
  Qed.
  Lemma scan_lines_one a b r m ls text : narrows a b -> r <> PROBE_ERROR -> probe_lines b r text ls -> m = 0 -> scan_lines a m ls.
  Proof.
    intros N R P ->. split; [|auto]. exists [ls]. split; [cbn; rewrite app_nil_r; reflexivity|]. constructor; [|constructor]. exists b, r, text, ls. split; [exact N|]. split; [exact P|].
    apply Z.eqb_neq in R. rewrite R, app_nil_r. reflexivity.
  Qed.

  Lemma digits_told h deeper deeper_d mask pos :
    (forall m (w : W) d r w', narrows mask m -> inv d -> ev_bytes (w_evs w) -> deeper m w = Done (r, w') ->
      exists d' ls, deeper_d m w d = Done (r, w', d') /\ inv d' /\ ev_bytes (w_evs w') /\ said (is_serial h) why d d' ls /\ scan_lines mask r ls) ->
    forall cs m (w : W) d r w', narrows mask m -> (forall c, In c cs -> c = nth pos m 0 /\ cs = [c] \/ ((nth pos mask 0 = 70 \/ nth pos mask 0 = 102) /\ 48 <= c <= 57)) -> inv d -> ev_bytes (w_evs w) ->
      scan_digits B wret react deeper h m pos cs w = Done (r, w') ->
      exists d' ls, scan_digits_d B wret react why deeper_d h m pos cs w d = Done (r, w', d') /\ inv d' /\ ev_bytes (w_evs w') /\
        said (is_serial h) why d d' ls /\ scan_lines mask r ls.
  Proof.
    intros HD. induction cs as [|c cs IH]; intros m w d r w' N Hc He Hev E.
    { injection E as <- <-. exists d, []. split; [reflexivity|]. split; [exact He|]. split; [exact Hev|]. split; [apply said_none|apply scan_lines_nil]. }
    cbn [scan_digits scan_digits_d] in *. set (m' := upd m pos c) in *.
    assert (N' : narrows mask m') by (apply narrows_upd; [exact N|]; destruct (Hc c (or_introl eq_refl)) as [[-> _]|H]; auto).
    assert (Hc' : forall x, In x cs -> x = nth pos m' 0 /\ cs = [x] \/ ((nth pos mask 0 = 70 \/ nth pos mask 0 = 102) /\ 48 <= x <= 57)).
    { intros x Hx. destruct (Hc x (or_intror Hx)) as [[_ X]|X]; [injection X as _ ->; destruct Hx|auto]. }
    destruct (mbus_probe_secondary_address B wret react (Some h) m' (repeat 0 17) w) as [[[r1 buf] w1]| |] eqn:E1; cbn [obind] in E; try discriminate.
    destruct (probe_told h m' (repeat 0 17) w d r1 buf w1 He Hev E1) as (d1 & l1 & E2 & I1 & V1 & R1 & S1 & P1). rewrite E2. cbn [obind].
    assert (GO : forall w2 d2 l2 r0, inv d2 -> ev_bytes (w_evs w2) -> said (is_serial h) why d d2 l2 -> scan_lines mask r0 l2 ->
      scan_digits B wret react deeper h m' pos cs w2 = Done (r, w') ->
      exists d' ls, scan_digits_d B wret react why deeper_d h m' pos cs w2 d2 = Done (r, w', d') /\ inv d' /\ ev_bytes (w_evs w') /\
        said (is_serial h) why d d' ls /\ scan_lines mask r ls).
    { intros w2 d2 l2 r0 I2 V2 S2 Q2 E'. destruct (IH m' w2 d2 r w' N' Hc' I2 V2 E') as (d' & ls & E3 & I3 & V3 & S3 & Q3).
      exists d', (l2 ++ ls). split; [exact E3|]. split; [exact I3|]. split; [exact V3|]. split; [exact (said_app _ _ _ _ _ _ _ S2 S3)|]. exact (scan_lines_app _ _ _ _ _ Q2 Q3). }
    destruct R1 as [<-|[<-|[<-|[<-|[]]]]].
    - change (PROBE_ERROR =? PROBE_SINGLE) with false in *. change (PROBE_ERROR =? PROBE_COLLISION) with false in *. change (PROBE_ERROR =? PROBE_NOTHING) with false in *. cbv iota in *.
      injection E as <- <-. eexists. exists (l1 ++ [scan_failed m']). split; [reflexivity|]. split; [exact I1|]. split; [exact V1|]. split; [apply said_tell; [reflexivity|exact S1]|]. split.
      + exists [l1 ++ [scan_failed m']]. split; [cbn [concat]; rewrite app_nil_r; reflexivity|]. constructor; [|constructor]. exists m', PROBE_ERROR, (c_text (dg_text d1)), l1. auto.
      + right. split; [reflexivity|]. exists m', l1. auto.
    - change (PROBE_NOTHING =? PROBE_SINGLE) with false in *. change (PROBE_NOTHING =? PROBE_COLLISION) with false in *. change (PROBE_NOTHING =? PROBE_NOTHING) with true in *. cbv iota in *.
      exact (GO w1 d1 l1 0 I1 V1 S1 (scan_lines_one _ _ PROBE_NOTHING _ _ _ N' ltac:(discriminate) P1 eq_refl) E).
    - change (PROBE_SINGLE =? PROBE_SINGLE) with true in *. cbv iota in *.
      exact (GO (log w1 (Found (c_text buf))) d1 l1 0 I1 V1 S1 (scan_lines_one _ _ PROBE_SINGLE _ _ _ N' ltac:(discriminate) P1 eq_refl) E).
    - change (PROBE_COLLISION =? PROBE_SINGLE) with false in *. change (PROBE_COLLISION =? PROBE_COLLISION) with true in *. cbv iota in *.
      destruct (deeper m' w1) as [[r2 w2]| |] eqn:E3; cbn [obind] in E; try discriminate.
      destruct (HD m' w1 d1 r2 w2 N' I1 V1 E3) as (d2 & l2 & E4 & I2 & V2 & S2 & Q2). rewrite E4. cbn [obind].
      exact (GO w2 d2 (l1 ++ l2) r2 I2 V2 (said_app _ _ _ _ _ _ _ S1 S2) (scan_lines_app _ _ _ _ _ (scan_lines_one _ _ PROBE_COLLISION _ _ _ N' ltac:(discriminate) P1 eq_refl) Q2) E).
  Qed.
  Lemma scan_told h : forall n mask (w : W) d r w', List.length mask = 16%nat -> inv d -> ev_bytes (w_evs w) -> scan_from B wret react n h mask w = Done (r, w') ->
    exists d' ls, scan_from_d B wret react why n h mask w d = Done (r, w', d') /\ inv d' /\ ev_bytes (w_evs w') /\ said (is_serial h) why d d' ls /\ scan_lines mask r ls.
  Proof.
    induction n as [|n IH]; intros mask w d r w' L He Hev E; cbn [scan_from scan_from_d] in *; rewrite L in *; change (16 =? 16)%nat with true in *; cbn [negb] in *.
    { injection E as <- <-. exists d, []. split; [reflexivity|]. split; [exact He|]. split; [exact Hev|]. split; [apply said_none|apply scan_lines_nil]. }
    assert (HD : forall m (w : W) d r w', narrows mask m -> inv d -> ev_bytes (w_evs w) -> scan_from B wret react n h m w = Done (r, w') ->
      exists d' ls, scan_from_d B wret react why n h m w d = Done (r, w', d') /\ inv d' /\ ev_bytes (w_evs w') /\ said (is_serial h) why d d' ls /\ scan_lines mask r ls).
    { intros m w2 d2 r2 w3 Nm I2 V2 E2. destruct (IH m w2 d2 r2 w3 ltac:(rewrite (narrows_length _ _ Nm); exact L) I2 V2 E2) as (d' & ls & E3 & I3 & V3 & S3 & Q3).
      exists d', ls. split; [exact E3|]. split; [exact I3|]. split; [exact V3|]. split; [exact S3|]. exact (scan_lines_narrow _ _ _ _ Nm Q3). }
    cbv zeta in *. set (pos := (16 - S n)%nat) in *. set (c := nth pos mask 0) in *.
    destruct ((c =? 102) || (c =? 70)) eqn:Ew.
    - apply (digits_told h _ _ mask pos HD _ mask _ _ _ _ (narrows_refl mask)); [|exact He|exact Hev|exact E].
      intros x Hx. right. split; [apply orb_true_iff in Ew; fold c; destruct Ew as [Ew|Ew]; apply Z.eqb_eq in Ew; auto|]. cbn in Hx. lia.
    - destruct (pos <? 15)%nat.
      + destruct (scan_from B wret react n h mask w) as [[r2 w2]| |] eqn:E2; cbn [obind] in E; try discriminate. injection E as <- <-.
        destruct (HD mask w d r2 w2 (narrows_refl mask) He Hev E2) as (d' & ls & E3 & I3 & V3 & S3 & Q3). rewrite E3. cbn [obind].
        exists d', ls. split; [reflexivity|]. split; [exact I3|]. split; [exact V3|]. split; [exact S3|]. destruct Q3 as [Q3 _]. split; [exact Q3|auto].
      + apply (digits_told h _ _ mask pos HD _ mask _ _ _ _ (narrows_refl mask)); [|exact He|exact Hev|exact E].
        intros x [<-|[]]. left. split; reflexivity.
  Qed.
End OnBus.

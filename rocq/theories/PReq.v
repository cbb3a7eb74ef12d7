(** Proofs about the readout procedure (mbus_sendrecv_request). *)
From Verif Require Import CBase PBase MFrame MCodec MVar MText SVar SXml MXml SWire SFrame PFrame PFrame2 PVar3 PXml2 PXml4 MRecv SRecv PRecv PropFrame PropRecv MSecond MProto SProto PProto PProto2.

(** The request frame object. *)
Definition req_frame (r : frame) (fcb : bool) (a : Z) : Prop :=
  frame_obj r /\ ftype r = 2 /\ start1 r = 0x10 /\ stop r = 0x16 /\ control r = (if fcb then 0x7B else 0x5B) /\ address r = a.
Lemma req_packed r fcb a : req_frame r fcb a -> req_frame (packed_frame r) fcb a.
Proof.
  intros (Ho & H). unfold packed_frame. destruct (calc_checksum _) as [c|]; (split; [exact Ho|exact H]).
Qed.
Lemma req_toggle r fcb a : req_frame r fcb a -> req_frame (set_control r (Z.lxor (control r) 0x20)) (negb fcb) a.
Proof.
  intros (Ho & H1 & H2 & H3 & H4 & H5). rewrite H4. repeat split; auto. destruct fcb; reflexivity.
Qed.
Lemma req_wire r fcb a : req_frame r fcb a -> 0 <= a <= 255 ->
  delimiters r /\ denotes r (Short (if fcb then 0x7B else 0x5B) a) /\ valid (Short (if fcb then 0x7B else 0x5B) a).
Proof.
  intros (Ho & H1 & H2 & H3 & H4 & H5) Ha. split; [unfold delimiters; rewrite H1; intuition discriminate|]. split; [cbn; auto|].
  cbn. unfold byte_range. split; [|lia]. destruct fcb; cbn; auto 10.
Qed.

(** Histories of receive calls contain no exchange. *)
Lemma exchanges_received l k : received_only l -> exchanges (l ++ k) = exchanges k.
Proof. induction 1 as [|x l (c & got & ->) _ IH]; [reflexivity|]. cbn. exact IH. Qed.
Lemma received_nil_exch l : received_only l -> exchanges l = [].
Proof. intros H. rewrite <- (app_nil_r l). rewrite exchanges_received by assumption. reflexivity. Qed.

(** At most [left] more exchanges until an answer, then [k] again. *)
Fixpoint within (k left : Z) (xs : list (list Z * option (Z * list Z))) : Prop :=
  match xs with
  | [] => True
  | x :: xs' => 0 < left /\ within k (if answered x then k else left - 1) xs'
  end.
Lemma within_run k : 0 <= k -> forall xs left, left <= k -> within k left xs -> forall pre run post x, xs = pre ++ run ++ [x] ++ post ->
  Forall (fun y => answered y = false) run -> Z.of_nat (length run) < k.
Proof.
  intros Hk. induction xs as [|y xs IH]; intros left Hl W pre run post x E F.
  - destruct pre, run; discriminate.
  - cbn [within] in W. destruct W as [W1 W2]. destruct pre as [|z pre].
    + clear IH. assert (G : forall run left xs, left <= k -> within k left (run ++ xs) -> xs <> [] -> Forall (fun y => answered y = false) run -> Z.of_nat (length run) < left).
      { clear. induction run as [|u run IHr]; intros left xs Hl W Hx F.
        - destruct xs; [congruence|]. cbn in W |- *. lia.
        - inversion_clear F as [|? ? Fu F']. cbn [app within] in W. destruct W as [W1 W2]. rewrite Fu in W2.
          specialize (IHr (left - 1) xs ltac:(lia) W2 Hx F'). cbn [length]. lia. }
      assert (Z.of_nat (length run) < left); [|lia]. apply (G run left ([x] ++ post)); [assumption| |discriminate|assumption].
      cbn [app] in E |- *. rewrite <- E. cbn [within]. auto.
    + injection E as -> E. apply (IH (if answered z then k else left - 1)) with (pre := pre) (post := post) (x := x); try assumption. destruct (answered z); lia.
Qed.
Lemma within_total k : 0 <= k -> forall xs left, 0 <= left <= k -> within k left xs ->
  Z.of_nat (length xs) <= left + k * Z.of_nat (length (replies xs)).
Proof.
  intros Hk. induction xs as [|[bs [[c got]|]] xs IH]; intros left Hl W; cbn [within answered snd] in W.
  - cbn. lia.
  - destruct W as [W1 W2]. cbn [replies flat_map snd]. destruct (c =? 0).
    + specialize (IH k ltac:(lia) W2). cbn [app length]. fold (replies xs). lia.
    + specialize (IH (left - 1) ltac:(lia) W2). cbn [app length]. fold (replies xs). lia.
  - destruct W as [W1 W2]. specialize (IH (left - 1) ltac:(lia) W2). cbn [replies flat_map snd app length]. fold (replies xs). lia.
Qed.

Section Line.
  Variable B : Type.
  Variable wret : B -> Z -> Z.
  Variable react : B -> list Z -> B * list ev.
  Hypothesis RB : forall b l, ev_bytes (snd (react b l)).
  Notation W := (world B).

  Lemma ev_bytes_app a b : ev_bytes a -> ev_bytes b -> ev_bytes (a ++ b).
  Proof. induction a as [|[l| | | |] a IH]; cbn; intuition. Qed.

  (** One frame object per accepted reply, carrying its telegram. *)
  Definition holds (f : frame) (bs : list Z) : Prop := exists t, valid t /\ bs = wire t /\ denotes f t.

  Lemma request_trace h a : 0 <= a <= 255 -> 0 <= max_data_retry h ->
    forall fuel fcb req cur got fd hp p retry count mf (w : W),
    req_frame req fcb a -> frame_obj cur -> ev_bytes (w_evs w) ->
    0 <= retry <= max_data_retry h + 1 -> 0 <= count -> count < Z.max 1 mf ->
    (max_data_retry h + 2) * (Z.max 1 mf - count) - retry <= Z.of_nat fuel ->
    let x := request_loop B wret react fuel h req cur got fd hp p retry count mf w in
    x <> Endless /\
    forall q w', x = Done (q, w') -> exists new more,
      w_log w' = w_log w ++ new /\ alternating fcb a (exchanges new) /\
      within (max_data_retry h + 1) (max_data_retry h + 1 - retry) (exchanges new) /\
      q_frames q = got ++ more /\ In (q_ret q) [0; 1; -1] /\
      (q_ret q = 0 -> Forall2 holds more (replies (exchanges new))) /\
      (q_ret q = 0 -> count + Z.of_nat (length more) <= Z.max 1 mf) /\ more <> [].
  Proof.
    intros Ha Hm. induction fuel as [|fuel IH]; intros fcb req cur got fd hp p retry count mf w Hr Hc Hb Hre Hco Hcm Hf; [nia|].
    cbv zeta. cbn [request_loop]. destruct (Z.gtb_spec retry (max_data_retry h)).
    { split; [discriminate|]. intros q w' E. injection E as <- <-. exists [], [cur]. rewrite app_nil_r. cbn. repeat split; auto; try discriminate. }
    destruct (req_wire req fcb a Hr Ha) as (Hd & Hden & Hv).
    destruct (send_spec B wret react h req _ w (proj1 Hr) Hd Hden Hv) as (r & Es & R1 & R2). rewrite Es. cbn [obind].
    set (w1 := after_write react w (wire (Short (if fcb then 123 else 91) a))).
    assert (Hb1 : ev_bytes (w_evs w1)) by (unfold w1, after_write; cbn [w_evs]; apply ev_bytes_app; auto).
    assert (L1 : w_log w1 = w_log w ++ [Sent (data_request fcb a)]) by reflexivity.
    destruct (Z.eqb_spec r (-1)).
    { split; [discriminate|]. intros q w' E. injection E as <- <-. exists [Sent (data_request fcb a)], [cur].
      split; [assumption|]. cbn. repeat split; auto; try discriminate. lia. }
    destruct (recv_total B h cur w1 Hc Hb1) as (c & f' & evs' & got' & E & O' & B' & Lv & Lv' & C & _ & K & _). rewrite E. cbn [obind].
    set (w2 := mkW (w_bus w1) evs' (w_log w1 ++ [Received c got'])).
    assert (L2 : w_log w2 = w_log w ++ [Sent (data_request fcb a); Received c got']).
    { unfold w2. cbn [w_log]. rewrite L1, <- app_assoc. reflexivity. }
    (* the rounds that end without an accepted reply *)
    assert (RETRY : forall (w3 : W) new3, w_log w3 = w_log w2 ++ new3 -> received_only new3 -> ev_bytes (w_evs w3) -> c <> RECV_OK ->
      let x := request_loop B wret react fuel h (packed_frame req) f' got fd hp p (retry + 1) count mf w3 in
      x <> Endless /\ forall q w', x = Done (q, w') -> exists new more,
        w_log w' = w_log w ++ new /\ alternating fcb a (exchanges new) /\
        within (max_data_retry h + 1) (max_data_retry h + 1 - retry) (exchanges new) /\
        q_frames q = got ++ more /\ In (q_ret q) [0; 1; -1] /\
        (q_ret q = 0 -> Forall2 holds more (replies (exchanges new))) /\
        (q_ret q = 0 -> count + Z.of_nat (length more) <= Z.max 1 mf) /\ more <> []).
    { intros w3 new3 L3 R3 B3 Hne. cbv zeta.
      destruct (IH fcb (packed_frame req) f' got fd hp p (retry + 1) count mf w3 (req_packed _ _ _ Hr) O' B3) as [E1 E2]; try lia.
      split; [assumption|]. intros q w' Eq. destruct (E2 q w' Eq) as (new & more & N1 & N2 & N3 & N4 & N5 & N6 & N7 & N8).
      exists ([Sent (data_request fcb a); Received c got'] ++ new3 ++ new), more.
      assert (X : exchanges ([Sent (data_request fcb a); Received c got'] ++ new3 ++ new) = (data_request fcb a, Some (c, got')) :: exchanges new).
      { cbn [app exchanges]. rewrite exchanges_received by assumption. reflexivity. }
      split; [rewrite N1, L3, L2, !app_assoc; reflexivity|]. rewrite X.
      assert (An : answered (data_request fcb a, Some (c, got')) = false) by (unfold answered; cbn [snd]; unfold RECV_OK in *; lia).
      split; [cbn [alternating fst]; rewrite An; auto|]. split; [cbn [within]; rewrite An; split; [lia|]|].
      { replace (max_data_retry h + 1 - retry - 1) with (max_data_retry h + 1 - (retry + 1)) by lia. assumption. }
      split; [assumption|]. split; [assumption|]. split; [|auto].
      intros Z0. cbn [replies flat_map snd]. destruct (Z.eqb_spec c 0); [contradiction|]. apply N6. assumption. }
    assert (STOP : forall ret (w3 : W) new3 (hp3 : heap), w_log w3 = w_log w2 ++ new3 -> received_only new3 -> ret = 1 ->
      Done (mkRq ret (got ++ [f']) hp3, w3) <> Endless /\ forall q (w' : W), Done (mkRq ret (got ++ [f']) hp3, w3) = Done (q, w') -> exists new more,
        w_log w' = w_log w ++ new /\ alternating fcb a (exchanges new) /\
        within (max_data_retry h + 1) (max_data_retry h + 1 - retry) (exchanges new) /\
        q_frames q = got ++ more /\ In (q_ret q) [0; 1; -1] /\
        (q_ret q = 0 -> Forall2 holds more (replies (exchanges new))) /\
        (q_ret q = 0 -> count + Z.of_nat (length more) <= Z.max 1 mf) /\ more <> []).
    { intros ret w3 new3 hp3 L3 R3 ->. split; [discriminate|]. intros q w' Eq. injection Eq as <- <-.
      exists ([Sent (data_request fcb a); Received c got'] ++ new3), [f'].
      split; [rewrite L3, L2, app_assoc; reflexivity|].
      assert (X : exchanges ([Sent (data_request fcb a); Received c got'] ++ new3) = [(data_request fcb a, Some (c, got'))]).
      { cbn [app exchanges]. rewrite received_nil_exch by assumption. reflexivity. }
      rewrite X. cbn [alternating within fst q_frames q_ret In]. repeat split; auto; try discriminate. lia. }
    destruct (Z.eqb_spec c RECV_OK) as [Ec|Ec].
    - destruct (purge_frames_ok B h w2 B') as (pr & w3 & new3 & Ep & _ & _ & B3 & _ & L3 & R3 & _). rewrite Ep. cbn [obind].
      destruct (parse_heap f' fd hp p) as [[[[prs fd'] hp'] p']|]; cbn [lift obind]; [|split; [discriminate|discriminate]].
      destruct (prs =? -1); [apply (STOP 1 w3 new3 hp'); auto|].
      destruct (free_list hp' p') as [hp''|]; cbn [lift obind]; [|split; [discriminate|discriminate]].
      assert (HK : holds f' got') by (apply K; assumption).
      assert (An : answered (data_request fcb a, Some (c, got')) = true) by (unfold answered; cbn [snd]; unfold RECV_OK in *; lia).
      assert (C0 : c =? 0 = true) by (unfold RECV_OK in *; lia).
      destruct ((d_type fd' =? DT_VARIABLE) && negb (v_more (d_var fd') =? 0) && (mf >? 0) && (count + 1 <? mf)) eqn:More.
      + destruct (IH (negb fcb) (set_control (packed_frame req) (Z.lxor (control (packed_frame req)) 0x20)) (mbus_frame_new T_ANY) (got ++ [f']) fd' hp'' p' 0 (count + 1) mf w3) as [E1 E2]; try lia.
        { apply req_toggle, req_packed. assumption. } { apply new_obj. } { assumption. }
        split; [assumption|]. intros q w' Eq. destruct (E2 q w' Eq) as (new & more & N1 & N2 & N3 & N4 & N5 & N6 & N7 & N8).
        exists ([Sent (data_request fcb a); Received c got'] ++ new3 ++ new), (f' :: more).
        assert (X : exchanges ([Sent (data_request fcb a); Received c got'] ++ new3 ++ new) = (data_request fcb a, Some (c, got')) :: exchanges new).
        { cbn [app exchanges]. rewrite exchanges_received by assumption. reflexivity. }
        split; [rewrite N1, L3, L2, !app_assoc; reflexivity|]. rewrite X.
        split; [cbn [alternating fst]; rewrite An; auto|]. split; [cbn [within]; rewrite An; split; [lia|]|].
        { replace (max_data_retry h + 1 - 0) with (max_data_retry h + 1) in N3 by lia. assumption. }
        split; [rewrite N4, <- app_assoc; reflexivity|]. split; [assumption|]. split; [|split; [|discriminate]].
        * intros Z0. cbn [replies flat_map snd]. rewrite C0. cbn [app]. constructor; [assumption|]. apply N6. assumption.
        * intros Z0. cbn [length]. specialize (N7 Z0). lia.
      + split; [discriminate|]. intros q w' Eq. injection Eq as <- <-.
        exists ([Sent (data_request fcb a); Received c got'] ++ new3), [f'].
        split; [rewrite L3, L2, app_assoc; reflexivity|].
        assert (X : exchanges ([Sent (data_request fcb a); Received c got'] ++ new3) = [(data_request fcb a, Some (c, got'))]).
        { cbn [app exchanges]. rewrite received_nil_exch by assumption. reflexivity. }
        rewrite X. cbn [alternating within fst q_frames q_ret In length replies flat_map snd]. rewrite C0. cbn [app].
        repeat split; auto; try discriminate; lia.
    - destruct (Z.eqb_spec c RECV_TIMEOUT).
      { apply (RETRY w2 []); [rewrite app_nil_r; reflexivity|constructor|assumption|assumption]. }
      destruct (Z.eqb_spec c RECV_INVALID).
      { destruct (purge_frames_ok B h w2 B') as (pr & w3 & new3 & Ep & _ & _ & B3 & _ & L3 & R3 & _). rewrite Ep. cbn [obind].
        apply (RETRY w3 new3); assumption. }
      apply (STOP 1 w2 [] hp); [rewrite app_nil_r; reflexivity|constructor|reflexivity].
  Qed.
End Line.

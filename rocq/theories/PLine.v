(** Proofs about the readout over a lossy line. *)
From Verif Require Import CBase PBase CStr MFrame MCodec MVar MText SVar SText SCodec PCodec SXml MXml SWire SFrame PFrame PFrame2 PVar3 PXml2 PXml3 PXml4 MRecv SRecv PRecv PropFrame PropRecv MSecond SSecond PSecond MProto SProto PProto PProto2 PropProto PReq SReq PReq2 SBus PBus PBus2 SLine.

Lemma long_side f c a ci p : denotes f (Long c a ci p) -> valid (Long c a ci p) -> (c / 64) mod 2 = 0 -> slave_side f.
Proof.
  intros (_ & C & _) (V & _) H. unfold slave_side. rewrite C. rewrite land_40; [rewrite H; reflexivity|].
  unfold is_byte. cbn in V. intuition (subst; lia).
Qed.

Lemma firstn_step {A} (l : list A) k x : nth_error l k = Some x -> firstn (S k) l = firstn k l ++ [x].
Proof.
  revert k. induction l as [|y l IH]; intros k E; [destruct k; discriminate|]. destruct k as [|k]; [injection E as ->; reflexivity|].
  cbn [nth_error] in E. change (y :: firstn (S k) l = y :: (firstn k l ++ [x])). rewrite (IH k E). reflexivity.
Qed.

Section Line.
  Variables (echo : bool) (h : handle) (a : Z) (ps : list slave) (fates : nat -> fate) (B : Type) (wret : B -> Z -> Z)
    (react : B -> list Z -> B * list ev) (turn : B -> nat) (st : B -> station) (ok : B -> Prop).
  Hypothesis line : line_of echo h a ps fates B wret react turn st ok.
  Hypothesis msg : message ps.
  Hypothesis mode : hears_slaves h.
  Hypothesis Ha : 0 <= a <= 255.
  Hypothesis Hr : 0 <= max_data_retry h.
  Notation W := (world B).
  Notation K := (max_data_retry h).

  (** Frame objects between receive calls. *)
  Definition objective (f : frame) : Prop := frame_obj f /\ bytes (fdata f) /\ (echo = false -> purge_first_frame h = PURGE_M2S -> slave_side f).

  Lemma recv_hears t (w : W) cur body (Q : Z -> frame -> list ev -> Prop) :
    valid t -> from_master t -> ev_bytes body -> hears echo h t (w_evs w) body -> objective cur ->
    (forall f, frame_obj f -> bytes (fdata f) -> exists c f' e' got, handle_recv h f body = Done (c, f', e', got) /\ Q c f' e' /\ frame_obj f' /\ bytes (fdata f') /\
       (slave_side f -> purge_first_frame h = PURGE_M2S -> slave_side f')) ->
    exists c f' e' got, mbus_recv_frame B (Some h) cur w = Done (c, f', mkW (w_bus w) e' (w_log w ++ [Received c got])) /\ Q c f' e' /\ objective f'.
  Proof.
    intros V M Hb Hh (Ho & Hf & Hs) HB. unfold hears in Hh. unfold objective. destruct echo.
    - destruct Hh as [P N]. destruct (handle_recv_telegram h cur _ t body Ho V N) as (f1 & E1 & D1 & O1).
      pose proof (handle_recv_fdata h cur (w_evs w) _ _ _ _ Hf (next_bytes _ _ _ _ N V Hb) E1) as Hf1.
      destruct (HB f1 O1 Hf1) as (c & f' & e' & got & E2 & Hq & O2 & F2 & _). exists c, f', e', got. split; [|split; [assumption|split; [assumption|split; [assumption|discriminate]]]].
      unfold mbus_recv_frame. rewrite E1. cbn [obind]. destruct (direction_spec f1 t D1 V) as [X _]. rewrite (X M), P. cbn [DIR_M2S PURGE_M2S Z.eqb Pos.eqb andb orb].
      change (Z.eqb DIR_M2S DIR_M2S) with true. cbn [andb orb]. rewrite E2. reflexivity.
    - destruct (HB cur Ho Hf) as (c & f' & e' & got & E1 & Hq & O2 & F2 & Hd). exists c, f', e', got.
      split; [|split; [assumption|split; [assumption|split; [assumption|intros _ P; apply Hd; auto]]]].
      unfold mbus_recv_frame. rewrite Hh, E1. cbn [obind].
      assert (X : (mbus_frame_direction f' =? DIR_M2S) && (purge_first_frame h =? PURGE_M2S) || (mbus_frame_direction f' =? DIR_S2M) && (purge_first_frame h =? PURGE_S2M) = false).
      { destruct mode as [Hm|Hm]; rewrite Hm; [unfold PURGE_NONE, PURGE_M2S, PURGE_S2M; cbn; rewrite !andb_false_r; reflexivity|].
        rewrite (side_dir f'); [reflexivity|]. apply Hd; auto. }
      rewrite X. reflexivity.
  Qed.

  Lemma line_silence t (w : W) cur : valid t -> from_master t -> hears echo h t (w_evs w) [] -> objective cur ->
    exists f' got, mbus_recv_frame B (Some h) cur w = Done (RECV_TIMEOUT, f', mkW (w_bus w) [] (w_log w ++ [Received RECV_TIMEOUT got])) /\ objective f'.
  Proof.
    intros V M Hh Ho. destruct (recv_hears t w cur [] (fun c _ e => c = RECV_TIMEOUT /\ e = []) V M I Hh Ho) as (c & f' & e' & got & E & [-> ->] & O); [|eauto].
    intros f Hf Hb. exists RECV_TIMEOUT, f, [], []. split; [apply handle_recv_silent|]. auto.
  Qed.
  Lemma line_damaged t (w : W) cur body : valid t -> from_master t -> hears echo h t (w_evs w) body -> objective cur -> burst body -> damaged h body ->
    exists f' e' got, mbus_recv_frame B (Some h) cur w = Done (RECV_INVALID, f', mkW (w_bus w) e' (w_log w ++ [Received RECV_INVALID got])) /\ burst e' /\ objective f'.
  Proof.
    intros V M Hh Ho Hb Hd.
    destruct (recv_hears t w cur body (fun c _ e => c = RECV_INVALID /\ burst e) V M (proj2 Hb) Hh Ho) as (c & f' & e' & got & E & [-> Hq] & O); [|eauto 10].
    intros f Hf Hfb. destruct (damaged_handle h f body Hf Hb Hd) as (f' & e' & got & E & O & Hb' & Hs). exists RECV_INVALID, f', e', got.
    split; [assumption|]. split; [auto|]. split; [assumption|]. split; [exact (handle_recv_fdata _ _ _ _ _ _ _ Hfb (proj2 Hb) E)|assumption].
  Qed.
  Lemma line_telegram t (w : W) cur body p : valid t -> from_master t -> hears echo h t (w_evs w) body -> objective cur ->
    wf_slave p -> next_telegram h body (sl_telegram p) [] ->
    exists f' got, mbus_recv_frame B (Some h) cur w = Done (RECV_OK, f', mkW (w_bus w) [] (w_log w ++ [Received RECV_OK got])) /\ denotes f' (sl_telegram p) /\ objective f'.
  Proof.
    intros V M Hh Ho Wp N. pose proof Wp as (V2 & Hc & _).
    destruct (recv_hears t w cur body (fun c f' e => c = RECV_OK /\ e = [] /\ denotes f' (sl_telegram p)) V M (next_bytes _ _ _ _ N V2 I) Hh Ho)
      as (c & f' & e' & got & E & (-> & -> & D) & O); [|eauto 10].
    intros f Hf Hfb. destruct (handle_recv_telegram h f body _ [] Hf V2 N) as (f' & E & D & O). exists RECV_OK, f', [], (wire (sl_telegram p)).
    split; [assumption|]. split; [auto|]. split; [assumption|].
    split; [exact (handle_recv_fdata _ _ _ _ _ _ _ Hfb (next_bytes _ _ _ _ N V2 I) E)|]. intros _ _. exact (long_side _ _ _ _ _ D V2 Hc).
  Qed.

  Lemma part_var f p : wf_slave p -> denotes f (sl_telegram p) -> objective f -> var_telegram f (sl_header p) (sl_items p) (sl_tail p).
  Proof. intros Wp D (Ho & Hb & _). exact (sl_var f p Wp D Ho Hb). Qed.

  Lemma part_decoded f p fd hp ptr : wf_slave p -> denotes f (sl_telegram p) -> objective f ->
    exists fd' hp' p' hp'', parse_heap f fd hp ptr = Ok (0, fd', hp', p') /\ free_list hp' p' = Ok hp'' /\ d_type fd' = DT_VARIABLE /\
      (v_more (d_var fd') =? 0) = negb (announces p).
  Proof.
    intros Wp D O. pose proof (part_var f p Wp D O) as T.
    destruct (parse_heap_ok f _ fd hp ptr (telegram_reply (fun _ => None) (fun _ => I) f _ _ _ T)) as (v & E1 & _ & E2).
    destruct (use_free hp (map entry_obj (entries (sl_items p) (sl_tail p)))) as [_ Uf].
    eexists _, _, _, _. split; [exact E1|]. split; [exact Uf|]. split; [reflexivity|]. cbn [d_var].
    rewrite (telegram_parse f _ _ _ fd T) in E2. apply ok_inj2 in E2. destruct E2 as [_ E2]. injection E2 as <-. apply var_more_flag.
  Qed.

  Lemma chained_nth : forall l k p, chained l -> nth_error l k = Some p -> (announces p = true /\ (S k < length l)%nat) \/ (announces p = false /\ S k = length l).
  Proof.
    induction l as [|x l IH]; intros k p C E; [destruct k; discriminate|]. cbn [chained] in C. destruct l as [|y l].
    - destruct k as [|[|k]]; try discriminate. injection E as ->. right. auto.
    - destruct C as [C1 C2]. destruct k as [|k]; [injection E as ->; left; cbn; split; [assumption|lia]|].
      cbn [nth_error] in E. specialize (IH k p C2 E). cbn [length] in *. destruct IH as [[? ?]|[? ?]]; [left|right]; split; try assumption; lia.
  Qed.

  (** The slave is about to serve telegram [k], or has served it to a request with this bit. *)
  Definition in_step (fcb : bool) (k : nat) (s : station) : Prop :=
    (served s = k /\ last_bit s <> Some fcb) \/ (served s = S k /\ last_bit s = Some fcb).
  Lemma serve_step fcb k s : in_step fcb k s -> serve fcb s = mkSt (S k) (Some fcb).
  Proof.
    destruct s as [n l]. unfold in_step, serve. cbn [served last_bit]. intros [[-> H]|[-> ->]].
    - destruct l as [b|]; [|reflexivity]. destruct b, fcb; cbn; try reflexivity; congruence.
    - destruct fcb; reflexivity.
  Qed.
  Lemma step_next fcb k : in_step (negb fcb) (S k) (mkSt (S k) (Some fcb)).
  Proof. left. cbn. split; [reflexivity|]. destruct fcb; discriminate. Qed.
  Lemma step_same fcb k : in_step fcb k (mkSt (S k) (Some fcb)).
  Proof. right. auto. Qed.

  Notation result mf := (firstn (Z.to_nat (Z.max 1 mf)) ps).
  Lemma readout : forall fuel fcb req cur got fd hp p retry (k : nat) mf (w : W),
    ok (w_bus w) -> Forall objective got -> req_frame req fcb a -> objective cur -> w_evs w = [] -> in_step fcb k (st (w_bus w)) ->
    Forall2 denotes got (map sl_telegram (firstn k ps)) -> (k < length ps)%nat ->
    0 <= retry <= K + 1 -> Z.of_nat k < Z.max 1 mf -> (K + 2) * (Z.max 1 mf - Z.of_nat k) - retry <= Z.of_nat fuel ->
    exists q w', request_loop B wret react fuel h req cur got fd hp p retry (Z.of_nat k) mf w = Done (q, w') /\ w_evs w' = [] /\
      (q_ret q = 0 \/ q_ret q = 1) /\ (q_ret q = 0 -> Forall2 denotes (q_frames q) (map sl_telegram (result mf)) /\ Forall objective (q_frames q)) /\
      (recovers K fates -> (exists j, (turn (w_bus w) <= j)%nat /\ Z.of_nat j <= Z.of_nat (turn (w_bus w)) + (K - retry) /\ fates j = Fine) -> q_ret q = 0).
  Proof.
    induction fuel as [|fuel IH]; intros fcb req cur got fd hp p retry k mf w Hok Hog Hq Hc Hw Hs Hg Hk Hre Hkm Hf; [nia|].
    cbn [request_loop]. destruct (Z.gtb_spec retry K).
    { eexists _, _. split; [reflexivity|]. cbn [q_ret q_frames w_evs]. split; [assumption|]. split; [auto|]. split; [discriminate|]. intros _ (j & J1 & J2 & _). lia. }
    destruct (req_wire req fcb a Hq Ha) as (Hd & Hden & Hv). set (t := Short (if fcb then 123 else 91) a) in *.
    assert (Hm : from_master t) by exact I.
    destruct (send_spec B wret react h req _ w (proj1 Hq) Hd Hden Hv) as (r & Es & R1 & R2). rewrite Es. cbn [obind].
    assert (r = 0) by (apply R1; unfold accepted; apply (line_writes _ _ _ _ _ _ _ _ _ _ _ line)). subst r. change (0 =? -1) with false. cbv iota.
    set (w1 := after_write react w (wire t)).
    destruct (line_react _ _ _ _ _ _ _ _ _ _ _ line (w_bus w) fcb Hok) as (body & Hh & St & Fa).
    pose proof (line_ok _ _ _ _ _ _ _ _ _ _ _ line (w_bus w) fcb Hok) as Hok1. pose proof (line_turn _ _ _ _ _ _ _ _ _ _ _ line (w_bus w) fcb Hok) as Tu. unfold data_request in Hh, St, Tu, Hok1. fold t in Hh, St, Tu, Hok1.
    assert (Hh1 : hears echo h t (w_evs w1) body). { unfold w1, after_write. cbn [w_evs]. rewrite Hw. exact Hh. }
    change (fst (react (w_bus w) (wire t))) with (w_bus w1) in St, Tu, Hok1.
    pose proof (serve_step _ _ _ Hs) as Sv.
    (* a failed exchange: another round *)
    assert (RETRY : forall f' (w3 : W), fates (turn (w_bus w)) <> Fine -> objective f' -> w_evs w3 = [] -> w_bus w3 = w_bus w1 -> exists q w',
      request_loop B wret react fuel h (packed_frame req) f' got fd hp p (retry + 1) (Z.of_nat k) mf w3 = Done (q, w') /\ w_evs w' = [] /\
      (q_ret q = 0 \/ q_ret q = 1) /\ (q_ret q = 0 -> Forall2 denotes (q_frames q) (map sl_telegram (result mf)) /\ Forall objective (q_frames q)) /\
      (recovers K fates -> (exists j, (turn (w_bus w) <= j)%nat /\ Z.of_nat j <= Z.of_nat (turn (w_bus w)) + (K - retry) /\ fates j = Fine) -> q_ret q = 0)).
    { intros f' w3 Nf Of E3 B3. destruct (IH fcb (packed_frame req) f' got fd hp p (retry + 1) k mf w3) as (q & w' & Q1 & Q2 & Q3 & Q4 & Q5); try assumption; try lia.
      - rewrite B3. assumption.
      - apply req_packed. assumption.
      - rewrite B3, St. destruct (fates (turn (w_bus w))); [congruence|assumption| |]; rewrite Sv; apply step_same.
      - exists q, w'. split; [assumption|]. split; [assumption|]. split; [assumption|]. split; [assumption|].
        intros Rec (j & J1 & J2 & J3). apply Q5; [assumption|]. exists j. rewrite B3, Tu. split; [|split; [lia|assumption]].
        destruct (Nat.eq_dec j (turn (w_bus w))) as [->|]; [contradiction|lia]. }
    destruct (fates (turn (w_bus w))) eqn:Ft.
    - rewrite Sv in St, Fa. cbn [served] in Fa. replace (S k - 1)%nat with k in Fa by lia.
      destruct (nth_error ps k) as [x|] eqn:Ex; [|apply nth_error_None in Ex; lia]. specialize (Fa x eq_refl).
      assert (Wx : wf_slave x) by (destruct msg as [Wf _]; rewrite Forall_forall in Wf; apply Wf; exact (nth_error_In _ _ Ex)).
      destruct (line_telegram t w1 cur body x Hv Hm Hh1 Hc Wx Fa) as (f' & gt & E & D & O). rewrite E. cbn [obind].
      change (RECV_OK =? RECV_OK) with true. cbv iota.
      destruct (purge_quiet B h (mkW (w_bus w1) [] (w_log w1 ++ [Received RECV_OK gt])) eq_refl) as (w2 & new & P1 & P2 & P3 & P4 & P5).
      rewrite P1. cbn [obind]. destruct (part_decoded f' x fd hp p Wx D O) as (fd' & hp' & p' & hp'' & E1 & E2 & E3 & E4).
      rewrite E1. cbn [lift obind]. change (0 =? -1) with false. cbv iota. rewrite E2. cbn [lift obind]. rewrite E3, E4.
      change (DT_VARIABLE =? DT_VARIABLE) with true. rewrite negb_involutive. cbn [andb].
      assert (Hobj : Forall objective (got ++ [f'])) by (apply Forall_app; auto).
      assert (Hgot : Forall2 denotes (got ++ [f']) (map sl_telegram (firstn (S k) ps))).
      { rewrite (firstn_step ps k x Ex), map_app. apply Forall2_app; [assumption|]. constructor; [exact D|constructor]. }
      destruct (chained_nth ps k x (proj2 msg) Ex) as [[An Lt]|[An Lt]]; rewrite An.
      + destruct ((mf >? 0) && (Z.of_nat k + 1 <? mf)) eqn:More; cbn [andb]; rewrite More.
        * destruct (IH (negb fcb) (set_control (packed_frame req) (Z.lxor (control (packed_frame req)) 0x20)) (mbus_frame_new T_ANY) (got ++ [f']) fd' hp'' p' 0 (S k) mf w2)
            as (q & w' & Q1 & Q2 & Q3 & Q4 & Q5); try assumption; try lia; try nia.
          -- rewrite P3. assumption.
          -- apply req_toggle, req_packed. assumption.
          -- split; [apply new_obj|]. split; [apply repeat_bytes|]. intros _ _. reflexivity.
          -- rewrite P3. cbn [w_bus]. rewrite St. apply step_next.
          -- replace (Z.of_nat k + 1) with (Z.of_nat (S k)) by lia. exists q, w'. split; [assumption|]. split; [assumption|]. split; [assumption|]. split; [assumption|].
             intros Rec _. apply Q5; [assumption|]. destruct (Rec (turn (w_bus w2))) as (j & J1 & J2 & J3). exists j. split; [assumption|split; [lia|assumption]].
        * eexists _, _. split; [reflexivity|]. cbn [q_ret q_frames]. split; [assumption|]. split; [auto|]. split; [|reflexivity].
          intros _. replace (Z.to_nat (Z.max 1 mf)) with (S k) by lia. auto.
      + cbn [andb]. eexists _, _. split; [reflexivity|]. cbn [q_ret q_frames]. split; [assumption|]. split; [auto|]. split; [|reflexivity].
        intros _. rewrite (firstn_all2 (n := Z.to_nat (Z.max 1 mf))) by lia. rewrite (firstn_all2 (n := S k)) in Hgot by lia. auto.
    - subst body. destruct (line_silence t w1 cur Hv Hm Hh1 Hc) as (f' & gt & E & O). rewrite E. cbn [obind].
      change (RECV_TIMEOUT =? RECV_OK) with false. change (RECV_TIMEOUT =? RECV_TIMEOUT) with true. cbv iota. apply RETRY; try assumption; try reflexivity. discriminate.
    - subst body. destruct (line_silence t w1 cur Hv Hm Hh1 Hc) as (f' & gt & E & O). rewrite E. cbn [obind].
      change (RECV_TIMEOUT =? RECV_OK) with false. change (RECV_TIMEOUT =? RECV_TIMEOUT) with true. cbv iota. apply RETRY; try assumption; try reflexivity. discriminate.
    - destruct Fa as [Fb Fd]. destruct (line_damaged t w1 cur body Hv Hm Hh1 Hc Fb Fd) as (f' & e' & gt & E & Hb' & O). rewrite E. cbn [obind].
      change (RECV_INVALID =? RECV_OK) with false. change (RECV_INVALID =? RECV_TIMEOUT) with false. change (RECV_INVALID =? RECV_INVALID) with true. cbv iota.
      destruct (purge_drains B h (mkW (w_bus w1) e' (w_log w1 ++ [Received RECV_INVALID gt])) Hb') as (r & w2 & new & P1 & P2 & P3 & P4 & P5).
      rewrite P1. cbn [obind]. apply RETRY; try assumption. discriminate.
  Qed.
End Line.

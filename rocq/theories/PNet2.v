(** Proofs about a network of slaves: selecting, assigning addresses, reading. *)
From Coq Require Import String.
From Coq Require Import List.
From Verif Require Import CBase PBase CStr MFrame MCodec MVar MText SVar SText SCodec PCodec SXml MXml SWire SFrame PFrame PFrame2 PVar3 PXml2 PXml4 MRecv SRecv PRecv PropFrame PropRecv MSecond SSecond PSecond MProto SProto PProto PProto2 PropProto PReq SReq PReq2 SBus PBus PBus2 SNet MTools PNet SMean PropMean.
Local Open Scope Z_scope.

Lemma filter_map_fst (f : slave -> bool) (l : members) : map fst (filter (fun p => f (fst p)) l) = filter f (map fst l).
Proof. induction l as [|p l IH]; [reflexivity|]. cbn [map filter]. destruct (f (fst p)); cbn [map]; rewrite IH; reflexivity. Qed.
Lemma listens_253 l : answering 253 l = map fst (filter snd l).
Proof. unfold answering. change (253 =? 255) with false. cbv iota. f_equal. Qed.
Lemma filter_selected m (l : members) : filter snd (map (fun p => (fst p, matches m (fst p))) l) = map (fun p => (fst p, matches m (fst p))) (filter (fun p => matches m (fst p)) l).
Proof. induction l as [|p l IH]; [reflexivity|]. cbn [map filter snd fst]. destruct (matches m (fst p)) eqn:E; cbn [map]; rewrite ?E, IH; reflexivity. Qed.
Lemma selected_answer m l : answering 253 (map (fun p => (fst p, matches m (fst p))) l) = matching_members m l.
Proof. rewrite listens_253, filter_selected, map_map. cbn [fst]. apply (filter_map_fst (matches m)). Qed.

Section Select.
  Variables (h : handle) (B : Type) (wret : B -> Z -> Z) (react : B -> list Z -> B * list ev) (st : B -> members).
  Hypothesis net : shared_of h B wret react st.
  Hypothesis mode : hears_slaves h.
  Notation W := (world B).
  Notation stw w := (st (w_bus w)).

  Lemma select_net s (w : W) : wf_mask s -> w_evs w = [] -> wf_net (stw w) ->
    exists r w' new, mbus_select_secondary_address B wret react (Some h) s w = Done (r, w') /\ w_evs w' = [] /\
      stw w' = map (fun p => (fst p, matches (mbytes s) (fst p))) (stw w) /\ w_log w' = w_log w ++ new /\ sends new = 1%nat /\ w_bus w' = fst (react (w_bus w) (wire (selection (mbytes s)))) /\
      match matching_members (mbytes s) (stw w) with [] => r = PROBE_NOTHING | [_] => r = PROBE_SINGLE | _ => r = PROBE_SINGLE \/ r = PROBE_COLLISION end.
  Proof.
    intros Hs Hw Wf. destruct (mbytes_ok s (proj1 Hs)) as (Mb & Ml & _). unfold mbus_select_secondary_address.
    replace (List.length s =? 16)%nat with true by (symmetry; apply Nat.eqb_eq, Hs). cbn [negb].
    assert (Snt : mbus_send_select_frame B wret react (Some h) s w = Done (0, after_write react w (wire (selection (mbytes s))))).
    { destruct Hs as [Hx Hm]. destruct (select_emits B wret react h s w Hx Hm) as (a & A & Hb & E). apply address_text_bytes in A; [|assumption..]. subst a.
      apply (net_emitted h B wret react st net). exact E. }
    rewrite Snt. cbn [obind Z.eqb].
    destruct (sh_select _ _ _ _ _ net (w_bus w) (mbytes s) Wf Ml Mb) as (St & body & Hh & Ph).
    destruct (selection_valid _ Ml Mb) as [V M]. set (t := selection (mbytes s)) in *. 
    pose proof (heard_after h B react t w body Hw Hh) as Hh1. set (w1 := after_write react w (wire t)) in *.
    destruct (ack_recv B h t w1 body _ V M mode Hh1 Ph) as (c & f' & e' & got & E & R). rewrite E. cbn [obind].
    destruct R as [(K & -> & ->)|[(K & -> & T & ->)|[(K & -> & T & Hbu & So)|(K & -> & Hbu)]]].
    - change (RECV_TIMEOUT =? RECV_TIMEOUT) with true. cbv iota. rewrite K. eexists _, _, ([Sent (wire t)] ++ [Received RECV_TIMEOUT got]). split; [reflexivity|]. cbn [w_evs w_bus w_log].
      split; [reflexivity|]. split; [exact St|]. split; [unfold w1, after_write; cbn [w_log]; rewrite <- app_assoc; reflexivity|]. split; [reflexivity|]. auto.
    - change (RECV_OK =? RECV_TIMEOUT) with false. change (RECV_OK =? RECV_INVALID) with false. cbv iota. rewrite T. change (T_ACK =? T_ACK) with true. cbv iota.
      destruct (purge_quiet B h (mkW (w_bus w1) [] (w_log w1 ++ [Received RECV_OK got])) eq_refl) as (w2 & new & P1 & P2 & P3 & P4 & P5).
      rewrite P1. cbn [obind Z.eqb negb]. exists PROBE_SINGLE, w2, ([Sent (wire t)] ++ [Received RECV_OK got] ++ new). split; [reflexivity|]. split; [assumption|].
      split; [rewrite P3; exact St|]. split; [rewrite P4; unfold w1, after_write; cbn [w_log]; rewrite <- !app_assoc; reflexivity|].
      rewrite !sends_app, (received_sends _ P5). split; [reflexivity|]. split; [rewrite P3; reflexivity|]. destruct (matching_members _ _) as [|x [|y l]]; [congruence|auto|auto].
    - change (RECV_OK =? RECV_TIMEOUT) with false. change (RECV_OK =? RECV_INVALID) with false. cbv iota. rewrite T. change (T_ACK =? T_ACK) with true. cbv iota.
      destruct (purge_something B h (mkW (w_bus w1) e' (w_log w1 ++ [Received RECV_OK got])) Hbu mode So) as (w2 & new & P1 & P2 & P3 & P4 & P5).
      rewrite P1. cbn [obind Z.eqb negb]. exists PROBE_COLLISION, w2, ([Sent (wire t)] ++ [Received RECV_OK got] ++ new). split; [reflexivity|]. split; [assumption|].
      split; [rewrite P3; exact St|]. split; [rewrite P4; unfold w1, after_write; cbn [w_log]; rewrite <- !app_assoc; reflexivity|].
      rewrite !sends_app, (received_sends _ P5). split; [reflexivity|]. split; [rewrite P3; reflexivity|]. destruct (matching_members _ _) as [|x [|y l]]; [cbn in K; lia..|auto].
    - change (RECV_INVALID =? RECV_TIMEOUT) with false. change (RECV_INVALID =? RECV_INVALID) with true. cbv iota.
      destruct (purge_drains B h (mkW (w_bus w1) e' (w_log w1 ++ [Received RECV_INVALID got])) Hbu) as (r & w2 & new & P1 & P2 & P3 & P4 & P5).
      rewrite P1. cbn [obind]. exists PROBE_COLLISION, w2, ([Sent (wire t)] ++ [Received RECV_INVALID got] ++ new). split; [reflexivity|]. split; [assumption|].
      split; [rewrite P3; exact St|]. split; [rewrite P4; unfold w1, after_write; cbn [w_log]; rewrite <- !app_assoc; reflexivity|].
      rewrite !sends_app, (received_sends _ P5). split; [reflexivity|]. split; [rewrite P3; reflexivity|]. destruct (matching_members _ _) as [|x [|y l]]; [cbn in K; lia..|auto].
  Qed.

End Select.

Section Net.
  Variables (h : handle) (B : Type) (wret : B -> Z -> Z) (react : B -> list Z -> B * list ev) (st : B -> members).
  Hypothesis net : net_of h B wret react st.
  Hypothesis mode : hears_slaves h.
  Notation W := (world B).
  Notation stw w := (st (w_bus w)).

  (** ** Assigning an address *)
  (** The last part of the program: assign, wait for the acknowledgement. *)
  Definition assign_part (a new : Z) (w : W) : out (Z * bool * W) :=
    do (r, w) <- mbus_set_primary_address B wret react (Some h) a new w ;;
    if r =? -1 then Done (1, false, w)
    else
      do (c, reply, w) <- mbus_recv_frame B (Some h) frame_zero w ;;
      if c =? RECV_TIMEOUT then Done (1, false, w)
      else if negb (mbus_frame_type reply =? T_ACK) then Done (0, false, w)
      else Done (0, true, w).
  Lemma assign_net a n (w : W) : 0 <= a <= 255 -> 0 <= n <= 252 -> w_evs w = [] -> wf_net (stw w) ->
    exists code ok w', assign_part a n w = Done (code, ok, w') /\
      stw w' = map (fun p => if listens a p then (readdress n (fst p), snd p) else p) (stw w) /\
      match answering a (stw w) with
      | [] => code = 1 /\ ok = false /\ w_evs w' = []
      | [_] => code = 0 /\ ok = true /\ w_evs w' = []
      | _ => code = 0
      end.
  Proof.
    intros Ha Hn Hw Wf. unfold assign_part.
    assert (S1 : mbus_set_primary_address B wret react (Some h) a n w = Done (0, after_write react w (wire (assign_to a n)))).
    { unfold mbus_set_primary_address. rewrite (proj2 (primary_spec n) ltac:(lia)). cbn [negb].
      replace ((n =? 253) || (n =? 254) || (n =? 255)) with false by lia. apply (net_emitted h B wret react st (net_shared _ _ _ _ _ net)).
      replace (u8 n) with n by (symmetry; apply Z.mod_small; lia).
      apply (user_data_emits B wret react h a [0x01; 0x7A; n] w Ha) with (more := []); [repeat (constructor; [unfold is_byte; lia|]); constructor|cbn; lia]. }
    rewrite S1. cbn [obind]. change (0 =? -1) with false. cbv iota.
    destruct (net_assign _ _ _ _ _ net (w_bus w) a n Wf Ha Hn) as (St & body & Hh & Ph). destruct (assign_valid a n Ha Hn) as [V M].
    pose proof (heard_after h B react _ w body Hw Hh) as Hh1. set (w1 := after_write react w (wire (assign_to a n))) in *.
    destruct (ack_recv B h _ w1 body _ V M mode Hh1 Ph) as (c & f' & e' & got & E & R). rewrite E. cbn [obind].
    destruct R as [(K & -> & ->)|[(K & -> & T & ->)|[(K & -> & T & _)|(K & -> & _)]]].
    - change (RECV_TIMEOUT =? RECV_TIMEOUT) with true. cbv iota. rewrite K. eexists _, _, _. split; [reflexivity|]. split; [exact St|]. auto.
    - change (RECV_OK =? RECV_TIMEOUT) with false. cbv iota. rewrite T. change (negb (T_ACK =? T_ACK)) with false. cbv iota.
      eexists _, _, _. split; [reflexivity|]. split; [exact St|]. destruct (answering a (stw w)) as [|x [|y l]]; [congruence|auto|auto].
    - change (RECV_OK =? RECV_TIMEOUT) with false. cbv iota. rewrite T. change (negb (T_ACK =? T_ACK)) with false. cbv iota.
      eexists _, _, _. split; [reflexivity|]. split; [exact St|]. destruct (answering a (stw w)) as [|x [|y l]]; [cbn in K; lia..|auto].
    - change (RECV_INVALID =? RECV_TIMEOUT) with false. cbv iota.
      destruct (negb _); eexists _, _, _; (split; [reflexivity|]; split; [exact St|]; destruct (answering a (stw w)) as [|x [|y l]]; [cbn in K; lia..|auto]).
  Qed.
  (** The first part: reset, check that nobody holds the new address. *)
  Lemma set_address_start junk old n (w : W) : frame_obj junk -> 0 <= n <= 252 -> w_evs w = [] -> wf_net (stw w) -> (List.length (holders n (stw w)) <= 1)%nat ->
    exists w1, w_evs w1 = [] /\ stw w1 = deselected (stw w) /\
      set_address_main B wret react h junk old n w =
      match holders n (stw w) with
      | [] => do (a, w) <- address_slave B wret react h old w1 ;; match a with None => Done (1, false, w) | Some a => assign_part a n w end
      | _ => Done (1, false, w1)
      end.
  Proof.
    intros Ho Hn Hw Wf Hl. unfold set_address_main. rewrite (proj2 (primary_spec n) ltac:(lia)). cbn [negb].
    replace ((n =? 253) || (n =? 254) || (n =? 255)) with false by lia.
    destruct (init_ok h B wret react st (net_shared _ _ _ _ _ net) mode w Hw Wf) as (w0 & n0 & E1 & E2 & E3 & E4 & E5 & _). rewrite E1. cbn [obind]. change (1 =? 0) with false. cbv iota.
    rewrite (ping_sent h B wret react st (net_shared _ _ _ _ _ net)) by lia. cbn [obind]. change (0 =? -1) with false. cbv iota.
    assert (Wf0 : wf_net (stw w0)) by (rewrite E3; apply deselected_wf; assumption).
    destruct (net_reset _ _ _ _ _ net (w_bus w0) n Wf0 ltac:(lia)) as (St & body & Hh & Ph). destruct (reset_valid n ltac:(lia)) as [V M].
    rewrite holders_answering in Ph by lia. replace (n =? 253) with false in St by (symmetry; apply Z.eqb_neq; lia).
    assert (Hh0 : holders n (stw w0) = holders n (stw w)) by (unfold holders; rewrite E3, deselected_slaves; reflexivity). rewrite Hh0 in Ph.
    pose proof (heard_after h B react _ w0 body E2 Hh) as Hh1. set (w1 := after_write react w0 (wire (reset_to n))) in *.
    destruct (ack_recv_any B h junk _ w1 body _ Ho V M mode Hh1 Ph Hl) as (c & f' & e' & got & E & R). rewrite E. cbn [obind].
    destruct R as [(K & -> & ->)|[(K & -> & T & ->)|[(K & _)|(K & _)]]]; [| |lia|lia].
    - exists (mkW (w_bus w1) [] (w_log w1 ++ [Received RECV_TIMEOUT got])). split; [reflexivity|]. cbn [w_bus]. split; [rewrite <- E3; exact St|].
      rewrite K. change (negb (RECV_TIMEOUT =? RECV_TIMEOUT)) with false. cbv iota. reflexivity.
    - exists (mkW (w_bus w1) [] (w_log w1 ++ [Received RECV_OK got])). split; [reflexivity|]. cbn [w_bus]. split; [rewrite <- E3; exact St|].
      destruct (holders n (stw w)); [congruence|]. reflexivity.
  Qed.
  Lemma moved_slaves a n l : map fst (map (fun p => if listens a p then (readdress n (fst p), snd p) else p) l) =
    map (fun p => if listens a p then readdress n (fst p) else fst p) l.
  Proof. rewrite map_map. apply map_ext. intros p. destruct (listens a p); reflexivity. Qed.
  Lemma moved_primary a n l : 0 <= a < 253 -> map fst (map (fun p => if listens a p then (readdress n (fst p), snd p) else p) l) = moved (fun s => sl_a s =? a) n (map fst l).
  Proof.
    intros Ha. rewrite moved_slaves. unfold moved. rewrite map_map. apply map_ext. intros p. unfold listens.
    destruct (Z.eqb_spec a 253); [lia|]. destruct (Z.eqb_spec a 254); [lia|]. destruct (Z.eqb_spec a 255); [lia|]. reflexivity.
  Qed.
  Lemma set_primary_net junk old n (w : W) : frame_obj junk -> 0 <= old < 253 -> 0 <= n <= 252 -> w_evs w = [] -> wf_net (stw w) -> (List.length (holders n (stw w)) <= 1)%nat ->
    exists code ok w', set_address_main B wret react h junk (Primary old) n w = Done (code, ok, w') /\
      match holders n (stw w), holders old (stw w) with
      | [], [] => code = 1 /\ ok = false /\ map fst (stw w') = map fst (stw w)
      | [], [_] => code = 0 /\ ok = true /\ map fst (stw w') = moved (fun s => sl_a s =? old) n (map fst (stw w))
      | [], _ => code = 0 /\ map fst (stw w') = moved (fun s => sl_a s =? old) n (map fst (stw w))
      | _, _ => code = 1 /\ ok = false /\ map fst (stw w') = map fst (stw w)
      end.
  Proof.
    intros Ho Ha Hn Hw Wf Hl. destruct (set_address_start junk (Primary old) n w Ho Hn Hw Wf Hl) as (w1 & E1 & E2 & E). rewrite E.
    destruct (holders n (stw w)) as [|y ly] eqn:Eh.
    - cbn [address_slave obind]. assert (Wf1 : wf_net (stw w1)) by (rewrite E2; apply deselected_wf; assumption).
      destruct (assign_net old n w1 ltac:(lia) Hn E1 Wf1) as (code & ok & w' & A & St & R). exists code, ok, w'. split; [assumption|].
      rewrite holders_answering in R by lia. assert (Hh0 : holders old (stw w1) = holders old (stw w)) by (unfold holders; rewrite E2, deselected_slaves; reflexivity). rewrite Hh0 in R.
      assert (Mv : map fst (stw w') = moved (fun s => sl_a s =? old) n (map fst (stw w))) by (rewrite St, moved_primary, E2, deselected_slaves by lia; reflexivity).
      destruct (holders old (stw w)) as [|x [|x' l]] eqn:Eo; [|tauto|tauto]. destruct R as (-> & -> & _). split; [reflexivity|]. split; [reflexivity|].
      rewrite Mv. unfold moved. rewrite <- (map_id (map fst (stw w))) at 2. apply map_ext_in. intros s Hs.
      destruct (sl_a s =? old) eqn:Es; [|reflexivity]. exfalso. assert (In s (holders old (stw w))) by (unfold holders; apply filter_In; auto). rewrite Eo in H. contradiction.
    - exists 1, false, w1. split; [reflexivity|]. rewrite E2, deselected_slaves. auto.
  Qed.
  Lemma set_secondary_net junk s n (w : W) : frame_obj junk -> wf_mask s -> 0 <= n <= 252 -> w_evs w = [] -> wf_net (stw w) -> (List.length (holders n (stw w)) <= 1)%nat ->
    exists code ok w', set_address_main B wret react h junk (Secondary (Some s)) n w = Done (code, ok, w') /\
      match holders n (stw w), matching_members (mbytes s) (stw w) with
      | [], [] => code = 1 /\ ok = false /\ map fst (stw w') = map fst (stw w)
      | [], [_] => code = 0 /\ ok = true /\ map fst (stw w') = moved (matches (mbytes s)) n (map fst (stw w))
      | [], _ => (code = 1 /\ map fst (stw w') = map fst (stw w)) \/ (code = 0 /\ map fst (stw w') = moved (matches (mbytes s)) n (map fst (stw w)))
      | _, _ => code = 1 /\ ok = false /\ map fst (stw w') = map fst (stw w)
      end.
  Proof.
    intros Ho Hs Hn Hw Wf Hl. destruct (set_address_start junk (Secondary (Some s)) n w Ho Hn Hw Wf Hl) as (w1 & E1 & E2 & E). rewrite E.
    destruct (holders n (stw w)) as [|y ly] eqn:Eh.
    - cbn [address_slave]. assert (Wf1 : wf_net (stw w1)) by (rewrite E2; apply deselected_wf; assumption).
      destruct (select_net h B wret react st (net_shared _ _ _ _ _ net) mode s w1 Hs E1 Wf1) as (r & w2 & new & F1 & F2 & F3 & _ & _ & _ & F6). rewrite F1. cbn [obind].
      assert (Hm : matching_members (mbytes s) (stw w1) = matching_members (mbytes s) (stw w)) by (unfold matching_members; rewrite E2, deselected_slaves; reflexivity).
      assert (Sl : map fst (stw w2) = map fst (stw w)). { rewrite F3, map_map. cbn [fst]. rewrite E2. exact (deselected_slaves (stw w)). }
      assert (Wf2 : wf_net (stw w2)) by (rewrite F3; apply map_wf; auto).
      assert (An : answering 253 (stw w2) = matching_members (mbytes s) (stw w)) by (rewrite F3, selected_answer; exact Hm).
      assert (Mv : map fst (map (fun p => if listens 253 p then (readdress n (fst p), snd p) else p) (stw w2)) = moved (matches (mbytes s)) n (map fst (stw w))).
      { rewrite moved_slaves, F3, map_map. unfold moved. rewrite <- (deselected_slaves (stw w)), <- E2, map_map. reflexivity. }
      destruct (assign_net 0xFD n w2 ltac:(lia) Hn F2 Wf2) as (code & ok & w' & A & St & R). rewrite An in R. rewrite <- St in Mv. rewrite Hm in F6.
      destruct (matching_members (mbytes s) (stw w)) as [|x [|x' l]] eqn:Em.
      + subst r. cbn. exists 1, false, w2. auto.
      + subst r. change ((PROBE_SINGLE =? PROBE_COLLISION) || (PROBE_SINGLE =? PROBE_NOTHING) || (PROBE_SINGLE =? PROBE_ERROR)) with false. cbv iota. cbn [obind].
        rewrite A. exists code, ok, w'. tauto.
      + destruct F6 as [-> | ->].
        * change ((PROBE_SINGLE =? PROBE_COLLISION) || (PROBE_SINGLE =? PROBE_NOTHING) || (PROBE_SINGLE =? PROBE_ERROR)) with false. cbv iota. cbn [obind].
          rewrite A. exists code, ok, w'. auto.
        * cbn. exists 1, false, w2. auto.
    - exists 1, false, w1. split; [reflexivity|]. rewrite E2, deselected_slaves. auto.
  Qed.

  (** ** Reading *)
  Lemma read_net a (w : W) : 0 <= a <= 255 -> w_evs w = [] -> wf_net (stw w) ->
    exists c f w', (do (r, w) <- mbus_send_request_frame B wret react (Some h) a w ;; if r =? -1 then Undef else mbus_recv_frame B (Some h) frame_zero w) = Done (c, f, w') /\
      mbus_send_request_frame B wret react (Some h) a w = Done (0, after_write react w (wire (request_to a))) /\
      stw w' = stw w /\
      match answering a (stw w) with
      | [] => c = RECV_TIMEOUT /\ w_evs w' = []
      | [s] => c = RECV_OK /\ w_evs w' = [] /\ denotes f (sl_telegram s) /\ frame_obj f /\ bytes (fdata f)
      | _ => True
      end.
  Proof.
    intros Ha Hw Wf. assert (S1 : mbus_send_request_frame B wret react (Some h) a w = Done (0, after_write react w (wire (request_to a)))).
    { apply (net_emitted h B wret react st (net_shared _ _ _ _ _ net)). apply request_emits. assumption. }
    rewrite S1. cbn [obind]. change (0 =? -1) with false. cbv iota.
    destruct (net_request _ _ _ _ _ net (w_bus w) a Wf Ha) as (St & body & Hh & Ph). destruct (request_to_valid a Ha) as [V M].
    pose proof (heard_after h B react _ w body Hw Hh) as Hh1. set (w1 := after_write react w (wire (request_to a))) in *.
    unfold data_phase in Ph. destruct (answering a (stw w)) as [|x [|y l]] eqn:Ea.
    - subst body. destruct (hear_silence B h _ w1 V M mode Hh1) as (f' & got & E). rewrite E. eexists _, _, _. split; [reflexivity|]. auto.
    - assert (Wx : wf_slave x).
      { assert (I : In x (answering a (stw w))) by (rewrite Ea; left; reflexivity). unfold answering in I. destruct (a =? 255); [contradiction|].
        apply in_map_iff in I. destruct I as (p & <- & I). apply filter_In in I. unfold wf_net in Wf. rewrite Forall_forall in Wf. apply Wf. apply I. }
      pose proof Wx as (Vx & _). pose proof (sl_master x Wx) as Mx.
      destruct (hear_telegram B h _ w1 body (sl_telegram x) [] V M mode Hh1 Vx Mx Ph I) as (f' & got & E & D & O & Hb). rewrite E.
      eexists _, _, _. split; [reflexivity|]. split; [reflexivity|]. split; [exact St|]. auto.
    - destruct Ph as [Hb [Hd|(t & rest & Vt & Mt & N & So)]].
      + destruct (hear_damaged B h _ w1 body V M mode Hh1 Hb Hd) as (f' & e' & got & E & Hb'). rewrite E. eexists _, _, _. split; [reflexivity|]. auto.
      + pose proof (burst_next h body t rest Hb Vt N) as Hbr.
        destruct (hear_telegram B h _ w1 body t rest V M mode Hh1 Vt Mt N (proj2 Hbr)) as (f' & got & E & _). rewrite E. eexists _, _, _. split; [reflexivity|]. auto.
  Qed.
  Lemma read_slave_net a (w : W) : 0 <= a <= 255 -> w_evs w = [] -> wf_net (stw w) ->
    exists r f w', mbus_read_slave B wret react (Some h) (Primary a) frame_zero w = Done (r, f, w') /\ stw w' = stw w /\
      match answering a (stw w) with
      | [] => r = -1 /\ w_evs w' = []
      | [s] => r = 0 /\ denotes f (sl_telegram s) /\ w_evs w' = []
      | _ => True
      end.
  Proof.
    intros Ha Hw Wf. destruct (read_net a w Ha Hw Wf) as (c & f & w' & E & S1 & St & R). unfold mbus_read_slave. rewrite S1 in *. cbn [obind] in *.
    change (0 =? -1) with false in *. cbv iota in *. cbn [obind]. change (0 =? -1) with false. cbv iota. rewrite E. cbn [obind].
    destruct (answering a (stw w)) as [|x [|y l]].
    - destruct R as [-> R]. eexists _, _, _. split; [reflexivity|]. auto.
    - destruct R as (-> & R & D & _). eexists _, _, _. split; [reflexivity|]. auto.
    - destruct (negb (c =? 0)); eexists _, _, _; (split; [reflexivity|]); auto.
  Qed.

  Variable stamp : Z -> option (list Z).
  Hypothesis stamps : forall i, stamp_ok (stamp i).
  (** The last part of the program: request, receive, print. *)
  Definition print_part (a : Z) (w : W) : out (Z * option (list Z) * W) :=
    do (r, w) <- mbus_send_request_frame B wret react (Some h) a w ;;
    if r =? -1 then Done (1, None, w)
    else
      do (c, reply, w) <- mbus_recv_frame B (Some h) frame_zero w ;;
      if negb (c =? RECV_OK) then Done (1, None, w)
      else
        do (p, fd) <- lift (mbus_frame_data_parse reply fd_zero) ;;
        if p =? -1 then Done (1, None, w)
        else
          do x <- lift (mbus_frame_data_xml stamp fd) ;;
          match x with None => Done (1, None, w) | Some text => Done (0, Some text, w) end.
  Definition readable (s : slave) : Prop := Forall small_entry (entries (sl_items s) (sl_tail s)) /\ Forall plain_meaning (entries (sl_items s) (sl_tail s)).
  Lemma print_net a (w : W) : 0 <= a <= 255 -> w_evs w = [] -> wf_net (stw w) ->
    match answering a (stw w) with
    | [] => exists w', print_part a w = Done (1, None, w')
    | [s] => readable s -> exists text w', print_part a w = Done (0, Some text, w') /\ plain_document stamp (sl_header s) [entries (sl_items s) (sl_tail s)] text
    | _ => True
    end.
  Proof.
    intros Ha Hw Wf. destruct (read_net a w Ha Hw Wf) as (c & f & w' & E & S1 & St & R). unfold print_part. rewrite S1 in *. cbn [obind] in *.
    change (0 =? -1) with false in *. cbv iota in *. rewrite E. cbn [obind]. destruct (answering a (stw w)) as [|x [|y l]] eqn:Ea; [| |exact I].
    - destruct R as [-> _]. eexists. reflexivity.
    - destruct R as (-> & _ & D & O & Hb). intros [Sm Me]. change (negb (RECV_OK =? RECV_OK)) with false. cbv iota.
      assert (Wx : wf_slave x).
      { assert (I : In x (answering a (stw w))) by (rewrite Ea; left; reflexivity). unfold answering in I. destruct (a =? 255); [contradiction|].
        apply in_map_iff in I. destruct I as (p & <- & I). apply filter_In in I. unfold wf_net in Wf. rewrite Forall_forall in Wf. apply Wf. apply I. }
      pose proof (sl_var f x Wx D O Hb) as T. pose proof (telegram_parse f _ _ _ fd_zero T) as P. rewrite P. cbn [lift obind]. change (0 =? -1) with false. cbv iota.
      destruct (C58_variable_document_partial stamp stamps f _ _ _ fd_zero _ T Sm Me P) as (text & X & Dc). rewrite X. cbn [lift obind]. eauto.
  Qed.
  Lemma request_data_net a (w : W) : w_evs w = [] -> wf_net (stw w) -> 0 <= a < 253 ->
    match holders a (stw w) with
    | [] => exists w', request_data_main B wret react stamp h (Primary a) w = Done (1, None, w')
    | [s] => readable s -> exists text w', request_data_main B wret react stamp h (Primary a) w = Done (0, Some text, w') /\
               plain_document stamp (sl_header s) [entries (sl_items s) (sl_tail s)] text
    | _ => True
    end.
  Proof.
    intros Hw Wf Ha.
    assert (I : exists w1, (if is_serial h then init_slaves B wret react h w else Done (1, w)) = Done (1, w1) /\ w_evs w1 = [] /\ wf_net (stw w1) /\ map fst (stw w1) = map fst (stw w)).
    { destruct (is_serial h); [|exists w; auto]. destruct (init_ok h B wret react st (net_shared _ _ _ _ _ net) mode w Hw Wf) as (w1 & n1 & E1 & E2 & E3 & _). exists w1. split; [assumption|]. split; [assumption|].
      rewrite E3. split; [apply deselected_wf; assumption|apply deselected_slaves]. }
    destruct I as (w1 & I1 & I2 & I3 & I4). pose proof (print_net a w1 ltac:(lia) I2 I3) as P. rewrite holders_answering in P by lia.
    assert (Hh0 : holders a (stw w1) = holders a (stw w)) by (unfold holders; rewrite I4; reflexivity). rewrite Hh0 in P.
    assert (Q : request_data_main B wret react stamp h (Primary a) w = print_part a w1) by (unfold request_data_main; rewrite I1; reflexivity).
    rewrite Q. exact P.
  Qed.
  Lemma request_secondary_net s (w : W) : w_evs w = [] -> wf_net (stw w) -> wf_mask s ->
    match matching_members (mbytes s) (stw w) with
    | [] => exists w', request_data_main B wret react stamp h (Secondary (Some s)) w = Done (1, None, w')
    | [x] => readable x -> exists text w', request_data_main B wret react stamp h (Secondary (Some s)) w = Done (0, Some text, w') /\
               plain_document stamp (sl_header x) [entries (sl_items x) (sl_tail x)] text
    | _ => True
    end.
  Proof.
    intros Hw Wf Hs.
    assert (I : exists w1, (if is_serial h then init_slaves B wret react h w else Done (1, w)) = Done (1, w1) /\ w_evs w1 = [] /\ wf_net (stw w1) /\ map fst (stw w1) = map fst (stw w)).
    { destruct (is_serial h); [|exists w; auto]. destruct (init_ok h B wret react st (net_shared _ _ _ _ _ net) mode w Hw Wf) as (w1 & n1 & E1 & E2 & E3 & _). exists w1. split; [assumption|]. split; [assumption|].
      rewrite E3. split; [apply deselected_wf; assumption|apply deselected_slaves]. }
    destruct I as (w1 & I1 & I2 & I3 & I4).
    destruct (select_net h B wret react st (net_shared _ _ _ _ _ net) mode s w1 Hs I2 I3) as (r & w2 & new & F1 & F2 & F3 & _ & _ & _ & F6).
    assert (Hm : matching_members (mbytes s) (stw w1) = matching_members (mbytes s) (stw w)) by (unfold matching_members; rewrite I4; reflexivity).
    assert (Wf2 : wf_net (stw w2)) by (rewrite F3; apply map_wf; auto).
    pose proof (print_net 0xFD w2 ltac:(lia) F2 Wf2) as P. rewrite F3, selected_answer, Hm in P. rewrite Hm in F6.
    destruct (matching_members (mbytes s) (stw w)) as [|x [|x' l]]; [| |exact I].
    - exists w2. unfold request_data_main. rewrite I1. cbn [obind address_slave]. change (1 =? 0) with false. cbv iota. rewrite F1. cbn [obind]. rewrite F6. reflexivity.
    - intros Rd. specialize (P Rd). destruct P as (text & w' & P & D). exists text, w'. split; [|assumption].
      unfold request_data_main. rewrite I1. cbn [obind address_slave]. change (1 =? 0) with false. cbv iota. rewrite F1. cbn [obind]. rewrite F6. exact P.
  Qed.
End Net.

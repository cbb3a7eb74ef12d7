(** Properties C64, C65, C66: the programs that scan the primary addresses, assign an address and read a slave, on a
    network of slaves. *)
From Coq Require Import String.
From Coq Require Import List.
From Verif Require Import CBase PBase CStr MFrame MCodec MVar MText SVar SText SCodec PCodec SXml MXml SWire SFrame PFrame PFrame2 PVar3 PXml2 PXml4 MRecv SRecv PRecv PropFrame PropRecv MSecond SSecond PSecond MProto SProto PProto PProto2 PropProto PReq SReq PReq2 SBus PBus PBus2 PropXml PropBus SNet MTools PNet SMean PropMean PNet2.
Local Open Scope Z_scope.

(** What the scan prints for an address with these holders. *)
Definition reported (a : Z) (holders : list slave) (ls : list line) : Prop :=
  match holders with
  | [] => ls = []
  | [_] => ls = [DeviceAt a]
  | _ => ls = [DeviceAt a] \/ ls = [CollisionAt a]
  end.

(** C64: the scan program prints for each primary address 0..250, in this order, nothing if no slave holds it, a found
    device if one slave holds it, a device or a collision if several do; it changes nothing, leaves nothing unread and
    sends at most max_search_retry + 1 telegrams per address. *)
Theorem C64_scan :
  forall h B wret (react : B -> list Z -> B * list ev) st, net_of h B wret react st -> hears_slaves h -> 0 <= max_search_retry h ->
  forall w, w_evs w = [] -> wf_net (st (w_bus w)) ->
  exists lss w' new, scan_main B wret react h w = Done (concat lss, w') /\
    List.length lss = 251%nat /\ (forall a, (a <= 250)%nat -> reported (Z.of_nat a) (holders (Z.of_nat a) (st (w_bus w))) (nth a lss [])) /\
    st (w_bus w') = st (w_bus w) /\ w_evs w' = [] /\ w_log w' = w_log w ++ new /\ Z.of_nat (sends new) <= 251 * (max_search_retry h + 1).
Proof.
  intros h B wret react st net mode retry w Hw Wf. unfold scan_main.
  destruct (scan_many h B wret react st (net_shared _ _ _ _ _ net) mode retry (map Z.of_nat (seq 0 251)) w) as (lss & w' & new & H1 & H2 & H3 & H4 & H5 & H6); [|assumption..|].
  { apply Forall_forall. intros a Ha. apply in_map_iff in Ha. destruct Ha as (k & <- & Ha). apply in_seq in Ha. lia. }
  exists lss, w', new. rewrite map_length, seq_length in H5. assert (L : List.length (map Z.of_nat (seq 0 251)) = List.length lss) by (clear - H6; induction H6; cbn; congruence). rewrite map_length, seq_length in L.
  split; [assumption|]. split; [auto|]. split; [|repeat split; try assumption; clear - H5; lia].
  intros a Ha. assert (N : forall (P : Z -> list line -> Prop) l1 l2 i, Forall2 P l1 l2 -> (i < List.length l1)%nat -> P (nth i l1 0) (nth i l2 [])).
  { intros P l1 l2 i F. revert i. induction F; intros i Hi; [cbn in Hi; lia|]. destruct i; [assumption|]. cbn in Hi. cbn. apply IHF. lia. }
  specialize (N _ _ _ a H6). rewrite map_length, seq_length in N. specialize (N ltac:(lia)).
  change 0 with (Z.of_nat 0) in N. rewrite map_nth, seq_nth in N by lia. cbn [plus] in N. exact N.
Qed.

(** C65: assigning a primary address with the program, for an old primary address: nothing is changed unless the new
    address is free and the old one is held; if one slave holds it, this slave gets the new address and no other is
    changed, and success is reported. The object of the first receive call is arbitrary (it is not initialised). *)
Theorem C65_primary :
  forall h B wret (react : B -> list Z -> B * list ev) st, net_of h B wret react st -> hears_slaves h ->
  forall junk old n w, frame_obj junk -> 0 <= old <= 252 -> 0 <= n <= 252 -> w_evs w = [] -> wf_net (st (w_bus w)) ->
  (List.length (holders n (st (w_bus w))) <= 1)%nat ->
  exists code ok w', set_address_main B wret react h junk (Primary old) n w = Done (code, ok, w') /\
    match holders n (st (w_bus w)), holders old (st (w_bus w)) with
    | [], [_] => code = 0 /\ ok = true /\ map fst (st (w_bus w')) = moved (fun s => sl_a s =? old) n (map fst (st (w_bus w)))
    | [], _ :: _ => code = 0 /\ map fst (st (w_bus w')) = moved (fun s => sl_a s =? old) n (map fst (st (w_bus w)))
    | _, _ => code = 1 /\ ok = false /\ map fst (st (w_bus w')) = map fst (st (w_bus w))
    end.
Proof.
  intros h B wret react st net mode junk old n w Ho Hold Hn Hw Wf Hl.
  destruct (set_primary_net h B wret react st net mode junk old n w Ho ltac:(lia) Hn Hw Wf Hl) as (code & ok & w' & E & R). exists code, ok, w'. split; [assumption|].
  destruct (holders n _); [|assumption]. destruct (holders old _) as [|x [|y l]]; assumption.
Qed.
(** C65: the same for an old secondary address that matches at most one slave. *)
Theorem C65_secondary :
  forall h B wret (react : B -> list Z -> B * list ev) st, net_of h B wret react st -> hears_slaves h ->
  forall junk mask m n w, frame_obj junk -> wf_mask mask -> bytes m -> address_text m mask -> 0 <= n <= 252 -> w_evs w = [] -> wf_net (st (w_bus w)) ->
  (List.length (holders n (st (w_bus w))) <= 1)%nat ->
  exists code ok w', set_address_main B wret react h junk (Secondary (Some mask)) n w = Done (code, ok, w') /\
    match holders n (st (w_bus w)), matching m (map fst (st (w_bus w))) with
    | [], [_] => code = 0 /\ ok = true /\ map fst (st (w_bus w')) = moved (matches m) n (map fst (st (w_bus w)))
    | [], _ :: _ => (code = 1 /\ map fst (st (w_bus w')) = map fst (st (w_bus w))) \/
                    (code = 0 /\ map fst (st (w_bus w')) = moved (matches m) n (map fst (st (w_bus w))))
    | _, _ => code = 1 /\ ok = false /\ map fst (st (w_bus w')) = map fst (st (w_bus w))
    end.
Proof.
  intros h B wret react st net mode junk mask m n w Ho Hs Hb A Hn Hw Wf Hl. apply address_text_bytes in A; [|apply Hs|assumption]. subst m.
  destruct (set_secondary_net h B wret react st net mode junk mask n w Ho Hs Hn Hw Wf Hl) as (code & ok & w' & E & R). exists code, ok, w'. split; [assumption|].
  unfold matching_members in R. unfold matching. destruct (holders n _); [|assumption]. destruct (filter _ _) as [|x [|y l]]; assumption.
Qed.

Lemma moved_distinct old n (l : list slave) : NoDup (map sl_a l) -> ~ In n (map sl_a l) -> NoDup (map sl_a (moved (fun s => sl_a s =? old) n l)).
Proof.
  intros Nd Hn. assert (E : map sl_a (moved (fun s => sl_a s =? old) n l) = map (fun a => if a =? old then n else a) (map sl_a l)).
  { unfold moved. rewrite !map_map. apply map_ext. intros s. destruct (sl_a s =? old); reflexivity. }
  rewrite E. clear E. induction (map sl_a l) as [|a r IH]; [constructor|]. inversion_clear Nd as [|? ? N1 N2]. cbn [map].
  constructor; [|apply IH; [assumption|intros X; apply Hn; right; assumption]]. intros X. apply in_map_iff in X. destruct X as (b & X & Hb).
  destruct (Z.eqb_spec a old), (Z.eqb_spec b old).
  - apply N1. congruence.
  - apply Hn. right. congruence.
  - apply Hn. left. congruence.
  - apply N1. congruence.
Qed.
Lemma holders_distinct n l : distinct_addresses l -> (List.length (holders n l) <= 1)%nat.
Proof.
  unfold distinct_addresses, holders. rewrite <- (map_map fst sl_a). generalize (map fst l) as r. induction r as [|s r IH]; intros Nd; [cbn; lia|].
  inversion_clear Nd as [|? ? N1 N2]. cbn [filter]. destruct (Z.eqb_spec (sl_a s) n) as [E|E]; [|auto].
  assert (F : filter (fun s0 : slave => sl_a s0 =? n) r = []).
  { clear IH N2. induction r as [|x r IH]; [reflexivity|]. cbn [filter]. destruct (Z.eqb_spec (sl_a x) n); [exfalso; apply N1; left; congruence|]. apply IH. intros X. apply N1. right. assumption. }
  cbn [List.length]. rewrite F. cbn. lia.
Qed.
(** C65: distinct primary addresses stay distinct. *)
Theorem C65_distinct :
  forall h B wret (react : B -> list Z -> B * list ev) st, net_of h B wret react st -> hears_slaves h ->
  forall junk old n w, frame_obj junk -> 0 <= old <= 252 -> w_evs w = [] -> wf_net (st (w_bus w)) -> distinct_addresses (st (w_bus w)) ->
  exists code ok w', set_address_main B wret react h junk (Primary old) n w = Done (code, ok, w') /\ distinct_addresses (st (w_bus w')).
Proof.
  intros h B wret react st net mode junk old n w Ho Hold Hw Wf Nd.
  assert (Hn : 0 <= n <= 252 \/ ~ (0 <= n <= 252)) by lia. destruct Hn as [Hn|Hn].
  - destruct (C65_primary h B wret react st net mode junk old n w Ho Hold Hn Hw Wf (holders_distinct n _ Nd)) as (code & ok & w' & E & R).
    exists code, ok, w'. split; [assumption|]. unfold distinct_addresses in *. rewrite <- (map_map fst sl_a) in *.
    assert (Mv : holders n (st (w_bus w)) = [] -> NoDup (map sl_a (moved (fun s => sl_a s =? old) n (map fst (st (w_bus w)))))).
    { intros K. apply moved_distinct; [assumption|]. intros X. apply in_map_iff in X. destruct X as (s & Hs & X).
      assert (In s (holders n (st (w_bus w)))) by (unfold holders; apply filter_In; split; [assumption|lia]). rewrite K in H. contradiction. }
    destruct (holders n _) as [|y ly]; [|destruct R as (_ & _ & ->); assumption]. specialize (Mv eq_refl).
    destruct (holders old _) as [|x [|z l]]; [destruct R as (_ & _ & ->); assumption|destruct R as (_ & _ & ->); assumption|destruct R as (_ & ->); assumption].
  - exists (-1), false, w. split; [|assumption]. unfold set_address_main. pose proof (primary_spec n) as P. destruct (mbus_is_primary_address n) eqn:E; [|reflexivity].
    assert (0 <= n <= 255) by (apply P; reflexivity). cbn [negb]. replace ((n =? 253) || (n =? 254) || (n =? 255)) with true by lia. reflexivity.
Qed.
(** C65: a new address that is not 0..252 is rejected before anything is sent, on any line. *)
Theorem C65_invalid :
  forall h B wret (react : B -> list Z -> B * list ev) junk old n w, ~ (0 <= n <= 252) -> set_address_main B wret react h junk old n w = Done (-1, false, w).
Proof.
  intros h B wret react junk old n w Hn. unfold set_address_main. pose proof (primary_spec n) as P. destruct (mbus_is_primary_address n) eqn:E; [|reflexivity].
  assert (0 <= n <= 255) by (apply P; reflexivity). cbn [negb]. replace ((n =? 253) || (n =? 254) || (n =? 255)) with true by lia. reflexivity.
Qed.

(** C66: reading by primary address delivers the telegram of the only slave that answers to the address; if none
    answers it fails. *)
Theorem C66_read_slave :
  forall h B wret (react : B -> list Z -> B * list ev) st, net_of h B wret react st -> hears_slaves h ->
  forall a w, 0 <= a <= 255 -> w_evs w = [] -> wf_net (st (w_bus w)) ->
  exists r f w', mbus_read_slave B wret react (Some h) (Primary a) frame_zero w = Done (r, f, w') /\ st (w_bus w') = st (w_bus w) /\
    match answering a (st (w_bus w)) with
    | [] => r = -1 /\ w_evs w' = []
    | [s] => r = 0 /\ denotes f (sl_telegram s) /\ w_evs w' = []
    | _ => True
    end.
Proof. exact read_slave_net. Qed.

(** Records within the limits of C58: at most 8 DIFEs and VIFEs and a defined meaning. *)
Definition plain_slave (s : slave) : Prop :=
  Forall small_entry (entries (sl_items s) (sl_tail s)) /\ Forall plain_meaning (entries (sl_items s) (sl_tail s)).
(** C66: the program prints the document (C58) of the slave that holds the primary address, exit code 0; without such a
    slave nothing, exit code 1. *)
Theorem C66_request_primary_partial :
  forall h B wret (react : B -> list Z -> B * list ev) st, net_of h B wret react st -> hears_slaves h ->
  forall stamp, (forall i, stamp_ok (stamp i)) -> forall a w, 0 <= a <= 252 -> w_evs w = [] -> wf_net (st (w_bus w)) ->
  match holders a (st (w_bus w)) with
  | [] => exists w', request_data_main B wret react stamp h (Primary a) w = Done (1, None, w')
  | [s] => plain_slave s -> exists text w', request_data_main B wret react stamp h (Primary a) w = Done (0, Some text, w') /\
             plain_document stamp (sl_header s) [entries (sl_items s) (sl_tail s)] text
  | _ => True
  end.
Proof. intros h B wret react st net mode stamp stamps a w Ha Hw Wf. apply request_data_net; [assumption..|lia]. Qed.
(** C66: the same for a secondary address. *)
Theorem C66_request_secondary_partial :
  forall h B wret (react : B -> list Z -> B * list ev) st, net_of h B wret react st -> hears_slaves h ->
  forall stamp, (forall i, stamp_ok (stamp i)) -> forall mask m w, wf_mask mask -> bytes m -> address_text m mask -> w_evs w = [] -> wf_net (st (w_bus w)) ->
  match matching m (map fst (st (w_bus w))) with
  | [] => exists w', request_data_main B wret react stamp h (Secondary (Some mask)) w = Done (1, None, w')
  | [s] => plain_slave s -> exists text w', request_data_main B wret react stamp h (Secondary (Some mask)) w = Done (0, Some text, w') /\
             plain_document stamp (sl_header s) [entries (sl_items s) (sl_tail s)] text
  | _ => True
  end.
Proof.
  intros h B wret react st net mode stamp stamps mask m w Hs Hb A Hw Wf. apply address_text_bytes in A; [|apply Hs|assumption]. subst m.
  exact (request_secondary_net h B wret react st net mode stamp stamps mask w Hw Wf Hs).
Qed.

(** ** A network that meets the hypotheses, for every handle *)
Definition acks (l : list slave) : list ev := match l with [] => [] | _ => [MRecv.Data [0xE5]] end.
Definition data_of (l : list slave) : list ev :=
  match l with [] => [] | [s] => [MRecv.Data (wire (sl_telegram s))] | _ => [MRecv.Data [0xFF; 0x00]] end.
(** [acks], [data]: what is heard of the acknowledgements and data of these slaves. *)
Definition net_react (acks data : list slave -> list ev) (b : members) (l : list Z) : members * list ev :=
  if nth 0 l 0 =? 0x68 then
    let a := nth 5 l 0 in
    if nth 6 l 0 =? 0x52 then
      let m := firstn 8 (skipn 7 l) in (map (fun p => (fst p, matches m (fst p))) b, acks (matching_members m b))
    else (map (fun p => if listens a p then (readdress (nth 9 l 0) (fst p), snd p) else p) b, acks (answering a b))
  else
    let a := nth 2 l 0 in
    if nth 1 l 0 =? 0x40 then (if a =? 253 then map (fun p => (fst p, false)) b else b, acks (answering a b))
    else (b, data (answering a b)).
Lemma acks_phase h l : ack_phase h l (acks l).
Proof. destruct l as [|x [|y l]]; [reflexivity| |left]; apply (whole_telegram h Ack); discriminate. Qed.
Lemma data_of_phase h l : data_phase h l (data_of l).
Proof.
  destruct l as [|x [|y l]]; [reflexivity|apply whole_telegram; discriminate|].
  split; [split; [repeat constructor; eexists; split; [reflexivity|discriminate]|repeat constructor; unfold is_byte; lia]|].
  left. left. exists 0xFF, [0x00], []. split; [reflexivity|]. lia.
Qed.
Theorem C64_net_exists : forall h acks data, (forall l, ack_phase h l (acks l)) -> (forall l, Forall wf_slave l -> data_phase h l (data l)) ->
  net_of h members (fun _ n => n) (net_react acks data) (fun b => b).
Proof.
  intros h acks data acks_phase data_phase. split; [reflexivity| | | |].
  - intros b m _ Hl Hm. unfold net_react. destruct m as [|m0 [|m1 [|m2 [|m3 [|m4 [|m5 [|m6 [|m7 [|]]]]]]]]]; try discriminate.
    cbn [wire selection app nth skipn firstn List.length]. change (0x68 =? 0x68) with true. change (0x52 =? 0x52) with true. cbv iota. cbn [fst snd]. split; [reflexivity|].
    eexists. split; [left; reflexivity|apply acks_phase].
  - intros b a _ Ha. unfold net_react. cbn [wire reset_to nth]. change (0x10 =? 0x68) with false. change (0x40 =? 0x40) with true. cbv iota. cbn [fst snd]. split; [reflexivity|].
    eexists. split; [left; reflexivity|apply acks_phase].
  - intros b a Wf Ha. unfold net_react. cbn [wire request_to nth]. change (0x10 =? 0x68) with false. change (0x5B =? 0x40) with false. cbv iota. cbn [fst snd]. split; [reflexivity|].
    eexists. split; [left; reflexivity|apply data_phase].
    unfold answering. destruct (a =? 255); [constructor|]. apply Forall_forall. intros s Hs. apply in_map_iff in Hs. destruct Hs as (p & <- & Hs). apply filter_In in Hs. unfold wf_net in Wf. rewrite Forall_forall in Wf. apply (Wf p). apply Hs.
  - intros b a n _ Ha Hn. unfold net_react. cbn [wire assign_to app nth List.length]. change (0x68 =? 0x68) with true. change (0x51 =? 0x52) with false. cbv iota. cbn [fst snd]. split; [reflexivity|].
    eexists. split; [left; reflexivity|apply acks_phase].
Qed.

Definition at_address (n : Z) (id : Z) (items : list item) : slave := mkSlave 0x08 n [id; 0; 0; 0; 0x24; 0x40; 1; 7; 0; 0; 0; 0] items None.
Lemma at_address_ok n id items : 0 <= n < 253 -> 0 <= id <= 255 -> bytes (enc_body items None) -> (List.length (enc_body items None) <= 200)%nat -> Forall wf_item items -> wf_slave (at_address n id items).
Proof.
  intros Hn Hi Hb Hl Wi. unfold wf_slave, at_address, sl_telegram. cbn [sl_c sl_a sl_header sl_items sl_tail]. split; [|split; [reflexivity|split; [reflexivity|split; [assumption|exact I]]]].
  unfold valid, byte_range. split; [cbn; auto 10|]. split; [lia|]. split; [lia|]. split.
  - apply Forall_app. split; [repeat (constructor; [lia|]); constructor|]. revert Hb. apply Forall_impl. unfold is_byte. intros; lia.
  - rewrite app_length. cbn [List.length]. lia.
Qed.
(** Meters at the addresses 1, 5, 5, 250. *)
Definition ex_net : members := [(at_address 1 0x11 small_its, false); (at_address 5 0x12 [], false); (at_address 5 0x13 [], true); (at_address 250 0x24 [], false)].
Example ex_net_ok : wf_net ex_net.
Proof. unfold ex_net, wf_net.
  constructor; [split; [apply at_address_ok; [lia|lia| |cbn; lia|apply small_telegram]|cbn; lia]|].
  { cbn. repeat (constructor; [unfold is_byte; lia|]). constructor. }
  repeat (constructor; [split; [apply at_address_ok; [lia|lia|constructor|cbn; lia|constructor]|cbn; lia]|]). constructor.
Qed.
Definition lines_of (l : members) : option (list line) :=
  match scan_main _ (fun _ n => n) (net_react acks data_of) mbus_context_serial (mkW l [] []) with Done (ls, _) => Some ls | _ => None end.
Example C64_example : lines_of ex_net = Some [DeviceAt 1; DeviceAt 5; DeviceAt 250].
Proof. vm_compute. reflexivity. Qed.
Example C64_example_net : net_of mbus_context_serial members (fun _ n => n) (net_react acks data_of) (fun b => b).
Proof. apply C64_net_exists; intros; [apply acks_phase|apply data_of_phase]. Qed.
(** C64: several slaves at an address are reported as one device if their acknowledgements overlap perfectly. *)
Theorem C64_collision_refuted : exists l, wf_net l /\ List.length (holders 5 l) = 2%nat /\ exists ls, lines_of l = Some ls /\ In (DeviceAt 5) ls /\ ~ In (CollisionAt 5) ls.
Proof.
  exists ex_net. split; [exact ex_net_ok|]. split; [reflexivity|]. eexists. split; [exact C64_example|]. split; [cbn; auto|]. cbn. intuition discriminate.
Qed.

(** The effect of the assignment program on the ideal network: exit code, success, addresses of the slaves. *)
Definition assigned (acks : list slave -> list ev) (junk : frame) (old : mbus_address) (n : Z) (l : members) : option (Z * bool * list Z) :=
  match set_address_main _ (fun _ n => n) (net_react acks data_of) mbus_context_serial junk old n (mkW l [] []) with
  | Done (c, ok, w) => Some (c, ok, map (fun p => sl_a (fst p)) (w_bus w))
  | _ => None
  end.
Example C65_example : assigned acks frame_zero (Primary 1) 7 ex_net = Some (0, true, [7; 5; 5; 250]) /\ assigned acks frame_zero (Primary 1) 250 ex_net = Some (1, false, [1; 5; 5; 250]) /\
    assigned acks frame_zero (Secondary (Some (chars "00000024FFFFFFFF"))) 7 ex_net = Some (0, true, [1; 5; 5; 7]).
Proof. vm_compute. auto. Qed.
(** C65 does not hold for broadcast addresses, which the program accepts as the old address: all slaves are moved to the
    new address, and failure is reported. *)
Theorem C65_broadcast_refuted : exists l, wf_net l /\ distinct_addresses l /\ assigned acks frame_zero (Primary 255) 9 l = Some (1, false, [9; 9]).
Proof.
  exists [(at_address 1 0x11 [], false); (at_address 2 0x12 [], false)]. split; [|split].
  - repeat (constructor; [split; [apply at_address_ok; [lia|lia|constructor|cbn; lia|constructor]|cbn; lia]|]). constructor.
  - repeat constructor; cbn; intuition discriminate.
  - vm_compute. reflexivity.
Qed.
(** A secondary address with wildcards that several slaves match moves all of them, and success is reported, if their
    acknowledgements overlap perfectly. *)
Theorem C65_wildcard_refuted : exists l mask, wf_net l /\ distinct_addresses l /\ wf_mask mask /\ assigned acks frame_zero (Secondary (Some mask)) 9 l = Some (0, true, [9; 9]).
Proof.
  exists [(at_address 1 0x11 [], false); (at_address 2 0x12 [], false)], (chars "0000001FFFFFFFFF"). split; [|split; [|split]].
  - repeat (constructor; [split; [apply at_address_ok; [lia|lia|constructor|cbn; lia|constructor]|cbn; lia]|]). constructor.
  - repeat constructor; cbn; intuition discriminate.
  - apply mask_ok; reflexivity.
  - vm_compute. reflexivity.
Qed.
(** Slaves at the new address whose acknowledgements collide visibly. *)
Definition clashing (l : list slave) : list ev := match l with [] => [] | [_] => [MRecv.Data [0xE5]] | _ => [MRecv.Data [0xFF]] end.
Lemma clashing_phase h l : ack_phase h l (clashing l).
Proof.
  destruct l as [|x [|y l]]; [reflexivity|apply (whole_telegram h Ack); discriminate|right].
  split; [split; [repeat constructor; eexists; split; [reflexivity|discriminate]|repeat constructor; unfold is_byte; lia]|].
  left. left. exists 0xFF, [], []. split; [reflexivity|]. lia.
Qed.
(** C65: the first receive call gets an uninitialised object. If it holds the control field of a master's telegram, two
    colliding slaves at the new address are not noticed, and a third slave gets it too. *)
Theorem C65_uninitialised_refuted : exists junk l,
  frame_obj junk /\ net_of mbus_context_serial members (fun _ n => n) (net_react clashing data_of) (fun b => b) /\ wf_net l /\ List.length (holders 5 l) = 2%nat /\ assigned clashing junk (Primary 1) 5 l = Some (0, true, [5; 5; 5; 250]) /\
    assigned clashing frame_zero (Primary 1) 5 l = Some (1, false, [1; 5; 5; 250]).
Proof.
  exists (set_control frame_zero 0x40), ex_net. split; [reflexivity|]. split; [apply C64_net_exists; intros; [apply clashing_phase|apply data_of_phase]|]. split; [exact ex_net_ok|].
  split; [reflexivity|]. split; vm_compute; reflexivity.
Qed.

(** The document printed on the ideal network. *)
Definition printed (data : list slave -> list ev) (a : mbus_address) (l : members) : option (Z * option (list Z)) :=
  match request_data_main _ (fun _ n => n) (net_react acks data) (fun _ => None) mbus_context_serial a (mkW l [] []) with Done (c, x, _) => Some (c, x) | _ => None end.
Example C66_example : plain_slave (at_address 1 0x11 small_its) /\ holders 1 ex_net = [at_address 1 0x11 small_its] /\
  match printed data_of (Primary 1) ex_net with Some (0, Some _) => True | _ => False end /\ printed data_of (Primary 2) ex_net = Some (1, None).
Proof.
  split; [|split; [reflexivity|split; [vm_compute; exact I|vm_compute; reflexivity]]].
  split; [exact (proj1 C30_nonvacuous)|]. pose proof C58_meaning_nonvacuous as K. unfold entries in *. cbn in *. inversion_clear K. constructor; [assumption|constructor].
Qed.
(** C66: if the answers of two slaves at an address do not overlap, the program prints the first as if it were the only
    one. *)
Definition in_turn (l : list slave) : list ev := match l with [] => [] | [s] => [MRecv.Data (wire (sl_telegram s))] | s :: s' :: _ => [MRecv.Data (wire (sl_telegram s)); MRecv.Data (wire (sl_telegram s'))] end.
Lemma piece_telegram h t e : wire t <> [] -> next_telegram h (MRecv.Data (wire t) :: e) t e.
Proof.
  intros H. unfold next_telegram. destruct (is_serial h).
  - split; [|eauto]. rewrite <- (app_nil_r (wire t)) at 2. constructor; [assumption|]. constructor.
  - rewrite <- (app_nil_r (wire t)) at 2. constructor; [assumption|]. constructor.
Qed.
Lemma in_turn_phase h l : Forall wf_slave l -> data_phase h l (in_turn l).
Proof.
  destruct l as [|x [|y l]]; intros W; [reflexivity|apply whole_telegram; discriminate|]. inversion_clear W as [|? ? Wx W']. inversion_clear W' as [|? ? Wy _].
  pose proof Wx as (Vx & _). pose proof Wy as (Vy & _).
  split; [split|].
  - repeat constructor; eexists; (split; [reflexivity|discriminate]).
  - cbn [in_turn ev_bytes]. split; [apply wire_bytes; assumption|]. split; [apply wire_bytes; assumption|exact I].
  - right. exists (sl_telegram x), [MRecv.Data (wire (sl_telegram y))]. split; [assumption|]. split; [apply sl_master; assumption|].
    split; [apply piece_telegram; discriminate|]. right. exists (sl_telegram y), []. split; [assumption|]. split; [apply sl_master; assumption|]. apply whole_telegram. discriminate.
Qed.
Theorem C66_collision_refuted : exists data l,
  net_of mbus_context_serial members (fun _ n => n) (net_react acks data) (fun b => b) /\ wf_net l /\ List.length (holders 5 l) = 2%nat /\
  exists text, printed data (Primary 5) l = Some (0, Some text).
Proof.
  exists in_turn, ex_net. split; [apply C64_net_exists; [apply acks_phase|apply in_turn_phase]|]. split; [exact ex_net_ok|]. split; [reflexivity|].
  match goal with |- exists t, ?x = _ => let y := eval vm_compute in x in match y with Some (0, Some ?t) => exists t; vm_cast_no_check (eq_refl (Some (0, Some t))) end end.
Qed.
Print Assumptions C64_scan.
Print Assumptions C65_primary.
Print Assumptions C65_secondary.
Print Assumptions C65_distinct.
Print Assumptions C65_invalid.
Print Assumptions C66_read_slave.
Print Assumptions C66_request_primary_partial.
Print Assumptions C66_request_secondary_partial.
Print Assumptions C64_net_exists.
Print Assumptions C64_collision_refuted.
Print Assumptions C65_broadcast_refuted.
Print Assumptions C65_wildcard_refuted.
Print Assumptions C65_uninitialised_refuted.
Print Assumptions C66_collision_refuted.

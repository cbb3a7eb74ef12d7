(** Properties C44, C45: selecting, probing, reading and scanning a bus of slaves by secondary address. *)
From Coq Require Import Permutation.
From Coq Require Import String.
From Coq Require Import List.
From Verif Require Import CBase PBase CStr MFrame MCodec MVar MText SVar SText SCodec PCodec SXml MXml SWire SFrame PFrame PFrame2 PVar3 PXml2 PXml4 MRecv SRecv PRecv PropFrame PropRecv MSecond SSecond PSecond MProto SProto PProto PProto2 PropProto PReq SReq PReq2 SBus PBus PBus2 PBus3.

(** The slaves that match the mask with the address bytes [m]. *)
Definition matching (m : list Z) (slaves : list slave) : list slave := filter (matches m) slaves.
(** The text reported for a slave: 16 hexadecimal digits that denote its address. *)
Definition names (s : slave) (t : list Z) : Prop := hex16 t /\ address_text (sl_addr s) t.

Lemma matching_fits m mask slaves : wf_mask mask -> bytes m -> address_text m mask -> matching m slaves = fits slaves mask.
Proof. intros [Hx _] Hb A. apply address_text_bytes in A; [|assumption..]. subst m. reflexivity. Qed.

(** C44: selecting by a mask selects the slaves that match it. NOTHING is reported exactly if there is none; if there
    is one the result is SINGLE; if there are more it is COLLISION, unless their acknowledgements overlap perfectly. *)
Theorem C44_select :
  forall h slaves B wret (react : B -> list Z -> B * list ev) selected, bus_of h slaves B wret react selected -> hears_slaves h ->
  forall mask m w, wf_mask mask -> bytes m -> address_text m mask -> w_evs w = [] ->
  exists r w', mbus_select_secondary_address B wret react (Some h) mask w = Done (r, w') /\
    w_evs w' = [] /\ selected (w_bus w') = matching m slaves /\
    match matching m slaves with
    | [] => r = PROBE_NOTHING
    | [_] => r = PROBE_SINGLE
    | _ => r = PROBE_SINGLE \/ r = PROBE_COLLISION
    end.
Proof.
  intros h slaves B wret react selected bus mode mask m w Hs Hb A Hw. rewrite (matching_fits m mask slaves Hs Hb A).
  destruct (select_bus h slaves B wret react selected bus mode mask w Hs Hw) as (r & w' & new & H1 & H2 & H3 & H4 & H5 & H6 & H7). eauto 10.
Qed.

(** C44: probing tells none, one and several matching slaves apart, delivers the address of the only one, sends at most
    max_search_retry + 2 telegrams and leaves nothing unread. *)
Theorem C44_probe :
  forall h slaves B wret (react : B -> list Z -> B * list ev) selected, bus_of h slaves B wret react selected -> hears_slaves h ->
  0 <= max_search_retry h ->
  forall mask m buf w, wf_mask mask -> bytes m -> address_text m mask -> (17 <= length buf)%nat -> w_evs w = [] ->
  exists r buf' w' new, mbus_probe_secondary_address B wret react (Some h) mask buf w = Done (r, buf', w') /\
    w_evs w' = [] /\ w_log w' = w_log w ++ new /\ Z.of_nat (sends new) <= max_search_retry h + 2 /\
    match matching m slaves with
    | [] => r = PROBE_NOTHING
    | [s] => r = PROBE_SINGLE /\ names s (c_text buf')
    | _ => r = PROBE_COLLISION
    end.
Proof.
  intros h slaves B wret react selected bus mode retry mask m buf w Hs Hb A Hl Hw. rewrite (matching_fits m mask slaves Hs Hb A).
  destruct (probe_bus h slaves B wret react selected bus mode retry mask buf w Hs Hl Hw) as (r & buf' & w' & new & H1 & H2 & H3 & H4 & H5 & H6 & H7).
  exists r, buf', w', new. auto 10.
Qed.

(** C44: reading by secondary address delivers the telegram of the slave that matches; if none matches it fails. *)
Theorem C44_read_slave :
  forall h slaves B wret (react : B -> list Z -> B * list ev) selected, bus_of h slaves B wret react selected -> hears_slaves h ->
  forall mask m w, wf_mask mask -> bytes m -> address_text m mask -> w_evs w = [] ->
  exists r f w' new, mbus_read_slave B wret react (Some h) (Secondary (Some mask)) frame_zero w = Done (r, f, w') /\
    w_log w' = w_log w ++ new /\ (sends new <= 2)%nat /\
    match matching m slaves with
    | [] => r = -1
    | [s] => r = 0 /\ denotes f (sl_telegram s) /\ w_evs w' = []
    | _ => r = -1 \/ r = 0
    end.
Proof.
  intros h slaves B wret react selected bus mode mask m w Hs Hb A Hw. rewrite (matching_fits m mask slaves Hs Hb A).
  exact (read_bus h slaves B wret react selected bus mode mask w Hs Hw).
Qed.

(** C45: scanning from position 0 with a mask that has a wildcard in the identification number reports the address of
    every slave that matches the mask, once, and nothing else, if the identification numbers of these slaves are
    decimal and distinct; the number of telegrams is bounded linearly in the number of slaves found. *)
Theorem C45_scan_partial :
  forall h slaves B wret (react : B -> list Z -> B * list ev) selected, bus_of h slaves B wret react selected -> hears_slaves h ->
  0 <= max_search_retry h ->
  forall mask m w, wf_mask mask -> bytes m -> address_text m mask -> w_evs w = [] ->
  (exists q, (q < 8)%nat /\ wildcard (nth q mask 0)) ->
  Forall decimal_id (matching m slaves) -> NoDup (map (fun s => firstn 4 (sl_addr s)) (matching m slaves)) ->
  exists w' new found, mbus_scan_2nd_address_range B wret react (Some h) 0 mask w = Done (0, w') /\
    w_evs w' = [] /\ w_log w' = w_log w ++ new /\ Forall2 names found (reports new) /\ Permutation found (matching m slaves) /\
    Z.of_nat (sends new) <= (max_search_retry h + 2) * (10 + 40 * Z.of_nat (length (matching m slaves))).
Proof.
  intros h slaves B wret react selected bus mode retry mask m w Hs Hb A Hw (q & Hq & Wq). rewrite (matching_fits m mask slaves Hs Hb A). intros Hd Nd.
  unfold mbus_scan_2nd_address_range. replace (length mask =? 16)%nat with true by (symmetry; apply Nat.eqb_eq, Hs). cbn [negb].
  change ((0 <? 0) || (0 >=? 16)) with false. cbv iota. change (16 - Z.to_nat 0)%nat with 16%nat.
  destruct (scan_scanned h slaves B wret react selected bus mode retry 16 mask w Hs Hw ltac:(lia)) as (w' & new & found & N & H1 & H2 & H3 & H4 & H5 & H6 & H7);
    [intros; lia|exists q; split; [lia|assumption]|assumption|assumption|].
  exists w', new, found. split; [assumption|]. split; [assumption|]. split; [assumption|]. split; [assumption|]. split; [assumption|].
  eapply Z.le_trans; [exact H6|]. apply Z.mul_le_mono_nonneg_l; lia.
Qed.
(** C45: the same from any position [pos], if there is no wildcard before it. *)
Theorem C45_scan_from_partial :
  forall h slaves B wret (react : B -> list Z -> B * list ev) selected, bus_of h slaves B wret react selected -> hears_slaves h ->
  0 <= max_search_retry h ->
  forall pos mask m w, wf_mask mask -> bytes m -> address_text m mask -> w_evs w = [] ->
  (forall i, (i < pos)%nat -> ~ wildcard (nth i mask 0)) -> (exists q, (pos <= q < 8)%nat /\ wildcard (nth q mask 0)) ->
  Forall decimal_id (matching m slaves) -> NoDup (map (fun s => firstn 4 (sl_addr s)) (matching m slaves)) ->
  exists w' new found, mbus_scan_2nd_address_range B wret react (Some h) (Z.of_nat pos) mask w = Done (0, w') /\
    w_evs w' = [] /\ w_log w' = w_log w ++ new /\ Forall2 names found (reports new) /\ Permutation found (matching m slaves) /\
    Z.of_nat (sends new) <= (max_search_retry h + 2) * (10 + 40 * Z.of_nat (length (matching m slaves))).
Proof.
  intros h slaves B wret react selected bus mode retry pos mask m w Hs Hb A Hw Hpre (q & Hq & Wq). rewrite (matching_fits m mask slaves Hs Hb A). intros Hd Nd.
  unfold mbus_scan_2nd_address_range. replace (length mask =? 16)%nat with true by (symmetry; apply Nat.eqb_eq, Hs). cbn [negb].
  destruct (Z.ltb_spec (Z.of_nat pos) 0); [lia|]. destruct (Z.of_nat pos >=? 16) eqn:E; [lia|]. cbn [orb]. rewrite Nat2Z.id.
  destruct (scan_scanned h slaves B wret react selected bus mode retry (16 - pos) mask w Hs Hw ltac:(lia)) as (w' & new & found & N & H1 & H2 & H3 & H4 & H5 & H6 & H7);
    [intros; apply Hpre; lia|exists q; split; [lia|assumption]|assumption|assumption|].
  exists w', new, found. split; [assumption|]. split; [assumption|]. split; [assumption|]. split; [assumption|]. split; [assumption|].
  eapply Z.le_trans; [exact H6|]. apply Z.mul_le_mono_nonneg_l; [lia|]. assert (pos <= 8)%nat by lia. clear - H7. nia.
Qed.
(** C45: a mask without a wildcard is probed itself: the slave is reported if it is the only one that matches. *)
Theorem C45_exact :
  forall h slaves B wret (react : B -> list Z -> B * list ev) selected, bus_of h slaves B wret react selected -> hears_slaves h ->
  0 <= max_search_retry h ->
  forall pos mask m w, wf_mask mask -> bytes m -> address_text m mask -> w_evs w = [] ->
  0 <= pos < 16 -> (forall i, (Z.to_nat pos <= i < 16)%nat -> ~ wildcard (nth i mask 0)) ->
  exists w' new, mbus_scan_2nd_address_range B wret react (Some h) pos mask w = Done (0, w') /\
    w_evs w' = [] /\ w_log w' = w_log w ++ new /\ Z.of_nat (sends new) <= max_search_retry h + 2 /\
    match matching m slaves with
    | [s] => exists t, reports new = [t] /\ names s t
    | _ => reports new = []
    end.
Proof.
  intros h slaves B wret react selected bus mode retry pos mask m w Hs Hb A Hw Hp Hno. rewrite (matching_fits m mask slaves Hs Hb A).
  unfold mbus_scan_2nd_address_range. replace (length mask =? 16)%nat with true by (symmetry; apply Nat.eqb_eq, Hs). cbn [negb].
  destruct (Z.ltb_spec pos 0); [lia|]. destruct (pos >=? 16) eqn:E; [lia|]. cbn [orb].
  exact (scan_exact h slaves B wret react selected bus mode retry (16 - Z.to_nat pos) mask w Hs Hw ltac:(lia) ltac:(intros; apply Hno; lia)).
Qed.

(** ** A bus that meets the hypotheses, for every list of slaves and every handle that hears slaves *)
Definition ideal_react (slaves : list slave) (b : list slave) (l : list Z) : list slave * list ev :=
  if nth 0 l 0 =? 0x68 then
    let sel := matching (firstn 8 (skipn 7 l)) slaves in (sel, match sel with [] => [] | _ => [MRecv.Data [0xE5]] end)
  else (b, match b with [] => [] | [s] => [MRecv.Data (wire (sl_telegram s))] | _ => [MRecv.Data [0xFF; 0x00]] end).

Lemma whole_telegram h t : wire t <> [] -> next_telegram h [MRecv.Data (wire t)] t [].
Proof.
  intros H. unfold next_telegram. destruct (is_serial h).
  - split; [|eauto]. rewrite <- (app_nil_r (wire t)) at 2. constructor; [assumption|]. constructor.
  - rewrite <- (app_nil_r (wire t)) at 2. constructor; [assumption|]. constructor.
Qed.
Theorem C44_bus_exists : forall h slaves, Forall wf_slave slaves ->
  bus_of h slaves (list slave) (fun _ n => n) (ideal_react slaves) (fun b => b).
Proof.
  intros h slaves Wf. split; [assumption|reflexivity| |].
  - intros b m Hl Hm. unfold ideal_react. destruct m as [|m0 [|m1 [|m2 [|m3 [|m4 [|m5 [|m6 [|m7 [|]]]]]]]]]; try discriminate.
    cbn [wire selection app nth skipn firstn length]. change (0x68 =? 0x68) with true. cbv iota. cbn [fst snd]. split; [reflexivity|].
    eexists. split; [left; reflexivity|]. fold (matching [m0; m1; m2; m3; m4; m5; m6; m7] slaves). destruct (matching _ slaves) as [|x [|y l]]; [reflexivity| |left].
    + apply (whole_telegram h Ack). discriminate.
    + apply (whole_telegram h Ack). discriminate.
  - intros b. cbn [wire request ideal_react nth]. unfold ideal_react. cbn [nth]. change (0x10 =? 0x68) with false. cbv iota. cbn [fst snd].
    split; [reflexivity|]. eexists. split; [left; reflexivity|]. destruct b as [|x [|y l]]; [reflexivity| |].
    + apply whole_telegram. discriminate.
    + split; [split; [repeat constructor; eexists; split; [reflexivity|discriminate]|repeat constructor; unfold is_byte; lia]|].
      left. left. exists 0xFF, [0x00], []. split; [reflexivity|]. lia.
Qed.

(** Three water meters; their telegrams hold the address and no data. *)
Definition meter (a : list Z) : slave := mkSlave 0x08 1 (a ++ [0; 0; 0; 0]) [] None.
Definition ex_slaves : list slave :=
  [meter [0x78; 0x56; 0x34; 0x12; 0x24; 0x40; 1; 7]; meter [0x79; 0x56; 0x34; 0x12; 0x24; 0x40; 1; 7]; meter [0x01; 0x00; 0x00; 0x00; 0x61; 0x15; 2; 7]].
Definition chars (s : string) : list Z := map (fun a => Z.of_nat (Ascii.nat_of_ascii a)) (list_ascii_of_string s).
Lemma meter_ok a : length a = 8%nat -> bytes a -> wf_slave (meter a).
Proof.
  intros Hl Hb. unfold wf_slave, meter, sl_telegram. cbn [sl_c sl_a sl_header sl_items sl_tail enc_body flat_map enc_tail]. split; [|split; [reflexivity|split; [rewrite app_length, Hl; reflexivity|split; [constructor|exact I]]]].
  cbn [app]. rewrite !app_nil_r. unfold valid, byte_range. split; [cbn; auto 10|]. split; [lia|]. split; [lia|]. split.
  - apply Forall_app. split; [|repeat constructor; lia]. revert Hb. apply Forall_impl. unfold is_byte. intros; lia.
  - rewrite app_length, Hl. cbn. lia.
Qed.
Ltac a_meter := apply meter_ok; [reflexivity|repeat (constructor; [unfold is_byte; lia|]); constructor].
Lemma digits_ok l : forallb (fun b => (b / 16 <=? 9) && (b mod 16 <=? 9)) l = true -> Forall (fun b => b / 16 <= 9 /\ b mod 16 <= 9) l.
Proof. rewrite forallb_forall, Forall_forall. intros H x Hx. specialize (H x Hx). lia. Qed.
Lemma mask_ok s : length s = 16%nat -> forallb isxdigit s = true -> forallb (fun c => ((48 <=? c) && (c <=? 57)) || (c =? 70) || (c =? 102)) (firstn 8 s) = true -> wf_mask s.
Proof.
  intros Hl H1 H2. rewrite forallb_forall in H1, H2. split; [split; [assumption|]|]; apply Forall_forall; intros c Hc.
  - specialize (H1 c Hc). unfold isxdigit in H1. unfold digit_value. repeat match goal with |- context [if ?b then _ else _] => destruct b eqn:? end; try discriminate.
  - specialize (H2 c Hc). unfold mask_digit. lia.
Qed.
Example ex_slaves_ok : Forall wf_slave ex_slaves /\ Forall decimal_id ex_slaves /\ NoDup (map (fun s => firstn 4 (sl_addr s)) ex_slaves).
Proof.
  split; [|split].
  - repeat (constructor; [a_meter|]). constructor.
  - repeat (constructor; [apply digits_ok; reflexivity|]). constructor.
  - repeat constructor; cbn; intuition discriminate.
Qed.
Definition idle : world (list slave) := mkW [] [] [].
(** The reports of a scan of the ideal bus. *)
Definition scan_reports (slaves : list slave) (mask : string) : option (list (list Z)) :=
  match mbus_scan_2nd_address_range _ (fun _ n => n) (ideal_react slaves) (Some mbus_context_serial) 0 (chars mask) idle with
  | Done (0, w) => Some (reports (w_log w))
  | _ => None
  end.
Example C45_example : scan_reports ex_slaves "FFFFFFFFFFFFFFFF" = Some [chars "0000000161150207"; chars "1234567824400107"; chars "1234567924400107"].
Proof. vm_compute. reflexivity. Qed.
Example C45_example_hypotheses : wf_mask (chars "FFFFFFFFFFFFFFFF") /\ hears_slaves mbus_context_serial /\ 0 <= max_search_retry mbus_context_serial /\
  address_text (repeat 255 8) (chars "FFFFFFFFFFFFFFFF") /\ matching (repeat 255 8) ex_slaves = ex_slaves.
Proof.
  split; [|split; [right; reflexivity|split; [cbn; lia|split; [|reflexivity]]]].
  - apply mask_ok; reflexivity.
  - do 8 eexists. cbn [repeat]. split; [reflexivity|]. repeat split.
Qed.

(** C44 on the bus of these slaves: masks that match all, one and none of them. *)
Example C44_nonvacuous :
  bus_of mbus_context_serial ex_slaves (list slave) (fun _ n => n) (ideal_react ex_slaves) (fun b => b) /\
  Forall (fun p => wf_mask (chars (fst p)) /\
    exists buf w, mbus_probe_secondary_address _ (fun _ n => n) (ideal_react ex_slaves) (Some mbus_context_serial) (chars (fst p)) (repeat 0 17) idle = Done (snd p, buf, w))
    [("FFFFFFFFFFFFFFFF"%string, PROBE_COLLISION); ("12345678FFFFFFFF"%string, PROBE_SINGLE); ("9FFFFFFFFFFFFFFF"%string, PROBE_NOTHING)].
Proof.
  split; [apply C44_bus_exists, ex_slaves_ok|].
  repeat (apply Forall_cons; [split; [apply mask_ok; reflexivity|eexists _, _; vm_compute; reflexivity]|]). apply Forall_nil.
Qed.

(** C45 does not hold without the hypotheses: slaves with the same identification number but different manufacturers
    are never told apart; *)
Theorem C45_same_id_refuted : exists s1 s2, wf_slave s1 /\ wf_slave s2 /\ decimal_id s1 /\ decimal_id s2 /\ sl_addr s1 <> sl_addr s2 /\
  scan_reports [s1; s2] "FFFFFFFFFFFFFFFF" = Some [].
Proof.
  exists (meter [0x78; 0x56; 0x34; 0x12; 0x24; 0x40; 1; 7]), (meter [0x78; 0x56; 0x34; 0x12; 0x61; 0x15; 1; 7]).
  split; [a_meter|]. split; [a_meter|]. split; [apply digits_ok; reflexivity|]. split; [apply digits_ok; reflexivity|]. split; [discriminate|]. vm_compute. reflexivity.
Qed.
(** a complete identification number with wildcards after it finds nothing, although the slave is there; *)
Theorem C45_wildcard_after_id_refuted : exists s m, wf_slave s /\ decimal_id s /\ address_text m (chars "12345678FFFFFFFF") /\ matching m [s] = [s] /\
  scan_reports [s] "12345678FFFFFFFF" = Some [].
Proof.
  exists (meter [0x78; 0x56; 0x34; 0x12; 0x24; 0x40; 1; 7]), [0x78; 0x56; 0x34; 0x12; 255; 255; 255; 255].
  split; [a_meter|]. split; [apply digits_ok; reflexivity|]. split; [do 8 eexists; split; [reflexivity|repeat split]|]. split; [reflexivity|]. vm_compute. reflexivity.
Qed.
(** identification numbers with hexadecimal digits are not found. *)
Theorem C45_hex_id_refuted : exists s, wf_slave s /\ matching (repeat 255 8) [s] = [s] /\ scan_reports [s] "FFFFFFFFFFFFFFFF" = Some [].
Proof.
  exists (meter [0x78; 0x56; 0x34; 0xA2; 0x24; 0x40; 1; 7]).
  split; [a_meter|]. split; [reflexivity|]. vm_compute. reflexivity.
Qed.
(** C44: the address needs 17 bytes: with room for its 16 characters only, the probe writes past the buffer. *)
Theorem C44_buffer_refuted : exists slaves mask, Forall wf_slave slaves /\ wf_mask mask /\
  mbus_probe_secondary_address _ (fun _ n => n) (ideal_react slaves) (Some mbus_context_serial) mask (repeat 0 16) idle = Undef.
Proof.
  exists [meter [0x78; 0x56; 0x34; 0x12; 0x24; 0x40; 1; 7]], (chars "1234567824400107"). split; [|split].
  - constructor; [a_meter|constructor].
  - apply mask_ok; reflexivity.
  - vm_compute. reflexivity.
Qed.

(** Property C70: the program that reads messages of several telegrams, on a network of meters. *)
From Coq Require Import String.
From Coq Require Import List.
From Verif Require Import CBase PBase CStr MFrame MCodec MVar MText SVar SText SCodec PCodec SXml MXml SWire SFrame PFrame PFrame2 PVar3 PXml2 PXml4 MRecv SRecv PRecv PropFrame PropRecv MSecond SSecond PSecond MProto SProto PProto PProto2 PropProto PReq SReq PReq2 SBus PBus PBus2 PropXml PropBus SNet MTools PNet SMean PropMean PNet2 PropNet SLine PLine PropLine SChain PChain.
Local Open Scope Z_scope.

(** Telegrams within the limits of C58. *)
Definition plain_parts (ps : list slave) : Prop :=
  Forall plain_slave ps /\ Z.of_nat (List.length (flat_map (fun s => entries (sl_items s) (sl_tail s)) ps)) + Z.of_nat (List.length ps) < 10 ^ 9.
(** The program prints the document (C58) of these telegrams and exits with 0, or prints nothing and exits with 1. *)
Definition prints (stamp : Z -> option (list Z)) (ps : list slave) (code : Z) (doc : option (list Z)) : Prop :=
  (code = 1 /\ doc = None) \/
  (code = 0 /\ exists p ps' text, ps = p :: ps' /\ doc = Some text /\ plain_document stamp (sl_header p) (map (fun s => entries (sl_items s) (sl_tail s)) ps) text).
Lemma parts_readable ps : plain_parts ps -> readable_parts ps.
Proof. unfold plain_parts, readable_parts. rewrite flat_map_concat_map. auto. Qed.
Lemma limit_front mf x p ps : firstn (Z.to_nat (Z.max 1 mf)) (m_parts x) = p :: ps -> front x = p.
Proof. unfold front. destruct (m_parts x) as [|q l]; [rewrite firstn_nil; discriminate|]. destruct (Z.to_nat (Z.max 1 mf)) eqn:E; [lia|]. intros X. injection X as -> _. reflexivity. Qed.
Lemma limit_some mf ps : message ps -> exists p ps', firstn (Z.to_nat (Z.max 1 mf)) ps = p :: ps'.
Proof. intros [_ C]. destruct ps as [|p ps]; [destruct C|]. destruct (Z.to_nat (Z.max 1 mf)) eqn:E; [lia|]. cbn. eauto. Qed.

(** C70: by primary address, a meter at the beginning of its message: whatever the line loses or damages, the program
    prints the document of the whole message (or of the first max_frames telegrams) or fails; it succeeds if the line
    recovers; without a meter at the address it fails. *)
Theorem C70_primary_partial :
  forall echo h fates B wret (react : B -> list Z -> B * list ev) turn st, chain_of echo h fates B wret react turn st -> hears_slaves h -> 0 <= max_data_retry h ->
  forall stamp, (forall i, stamp_ok (stamp i)) -> forall a mf w, 0 <= a <= 252 -> w_evs w = [] -> wf_net (crowd (st (w_bus w))) ->
  match meters_at a (st (w_bus w)) with
  | [] => exists w', request_multi_main B wret react stamp h (Primary a) mf w = Done (1, None, w')
  | [x] => message (m_parts x) -> fresh (m_home x) -> plain_parts (firstn (Z.to_nat (Z.max 1 mf)) (m_parts x)) ->
      exists code doc w', request_multi_main B wret react stamp h (Primary a) mf w = Done (code, doc, w') /\
        prints stamp (firstn (Z.to_nat (Z.max 1 mf)) (m_parts x)) code doc /\ (recovers (max_data_retry h) fates -> code = 0)
  | _ => True
  end.
Proof.
  intros echo h fates B wret react turn st chain mode retry stamp stamps a mf w Ha Hw Wf.
  pose proof (multi_primary echo h fates B wret react turn st chain mode retry stamp stamps a mf w Ha Hw Wf) as H.
  destruct (meters_at a _) as [|x [|y l]]; [assumption| |exact I]. intros M F P. destruct (H M F (parts_readable _ P)) as (code & doc & w' & E & D & R).
  exists code, doc, w'. split; [assumption|]. split; [|assumption]. destruct D as [D|(D1 & text & D2 & D3)]; [left; assumption|right].
  split; [assumption|]. destruct (limit_some mf (m_parts x) M) as (p & ps' & L). exists p, ps', text. split; [assumption|]. split; [assumption|].
  rewrite (limit_front mf x p ps' L) in D3. exact D3.
Qed.
(** C70: the same by secondary address, for a meter in any state. *)
Theorem C70_secondary_partial :
  forall echo h fates B wret (react : B -> list Z -> B * list ev) turn st, chain_of echo h fates B wret react turn st -> hears_slaves h -> 0 <= max_data_retry h ->
  forall stamp, (forall i, stamp_ok (stamp i)) -> forall mask m mf w, wf_mask mask -> bytes m -> address_text m mask -> w_evs w = [] -> wf_net (crowd (st (w_bus w))) ->
  match meters_matching m (st (w_bus w)) with
  | [] => exists w', request_multi_main B wret react stamp h (Secondary (Some mask)) mf w = Done (1, None, w')
  | [x] => message (m_parts x) -> plain_parts (firstn (Z.to_nat (Z.max 1 mf)) (m_parts x)) ->
      exists code doc w', request_multi_main B wret react stamp h (Secondary (Some mask)) mf w = Done (code, doc, w') /\
        prints stamp (firstn (Z.to_nat (Z.max 1 mf)) (m_parts x)) code doc /\ (recovers (max_data_retry h) fates -> code = 0)
  | _ => True
  end.
Proof.
  intros echo h fates B wret react turn st chain mode retry stamp stamps mask m mf w Hs Hb A Hw Wf. apply address_text_bytes in A; [|apply Hs|assumption]. subst m.
  pose proof (multi_secondary echo h fates B wret react turn st chain mode retry stamp stamps mask mf w Hs Hw Wf) as H.
  destruct (meters_matching _ _) as [|x [|y l]]; [assumption| |exact I]. intros M P. destruct (H M (parts_readable _ P)) as (code & doc & w' & E & D & R).
  exists code, doc, w'. split; [assumption|]. split; [|assumption]. destruct D as [D|(D1 & text & D2 & D3)]; [left; assumption|right].
  split; [assumption|]. destruct (limit_some mf (m_parts x) M) as (p & ps' & L). exists p, ps', text. split; [assumption|]. split; [assumption|].
  rewrite (limit_front mf x p ps' L) in D3. exact D3.
Qed.

(** ** A network that meets the hypotheses, for every handle and every sequence of faults *)
Definition chain_react (fates : nat -> fate) (b : nat * list meter) (l : list Z) : (nat * list meter) * list ev :=
  let ms := snd b in
  if nth 0 l 0 =? 0x68 then
    let m := firstn 8 (skipn 7 l) in ((fst b, map (select_meter m) ms), acks (matching_members m (crowd ms)))
  else
    let a := nth 2 l 0 in
    if nth 1 l 0 =? 0x40 then ((fst b, map (reset_meter a) ms), acks (answering a (crowd ms)))
    else
      let fcb := nth 1 l 0 =? 0x7B in
      match hearing a ms with
      | [] => ((S (fst b), ms), [])
      | x :: _ =>
          match fates (fst b) with
          | RequestLost => ((S (fst b), ms), [])
          | ReplyLost => ((S (fst b), map (request_meter fcb a) ms), [])
          | ReplyDamaged => ((S (fst b), map (request_meter fcb a) ms), [MRecv.Data [0xFF; 0x00]])
          | Fine => ((S (fst b), map (request_meter fcb a) ms),
                     match nth_error (m_parts x) (served (serve fcb (station_at a x)) - 1) with Some p => [MRecv.Data (wire (sl_telegram p))] | None => [] end)
          end
      end.
Theorem C70_chain_exists : forall h fates, chain_of false h fates (nat * list meter) (fun _ n => n) (chain_react fates) fst snd.
Proof.
  intros h fates. split; [reflexivity| | | |].
  - intros [n b] m _ Hl Hm. unfold chain_react. destruct m as [|m0 [|m1 [|m2 [|m3 [|m4 [|m5 [|m6 [|m7 [|]]]]]]]]]; try discriminate.
    cbn [wire selection app nth skipn firstn List.length]. change (0x68 =? 0x68) with true. cbv iota. cbn [fst snd]. split; [reflexivity|].
    eexists. split; [left; reflexivity|apply acks_phase].
  - intros [n b] a _ Ha. unfold chain_react. cbn [wire reset_to nth]. change (0x10 =? 0x68) with false. change (0x40 =? 0x40) with true. cbv iota. cbn [fst snd]. split; [reflexivity|].
    eexists. split; [left; reflexivity|apply acks_phase].
  - intros [n b] fcb a _ Ha. unfold chain_react, data_request. cbn [wire nth]. change (0x10 =? 0x68) with false. cbv iota.
    replace ((if fcb then 0x7B else 0x5B) =? 0x40) with false by (destruct fcb; reflexivity). cbn [fst snd]. destruct (hearing a b); [reflexivity|]. destruct (fates n); reflexivity.
  - intros [n b] fcb a _ Ha. unfold chain_react, data_request. cbn [wire nth]. change (0x10 =? 0x68) with false. cbv iota.
    replace ((if fcb then 0x7B else 0x5B) =? 0x40) with false by (destruct fcb; reflexivity). cbn [fst snd].
    replace ((if fcb then 0x7B else 0x5B) =? 0x7B) with fcb by (destruct fcb; reflexivity).
    eexists. split; [reflexivity|]. destruct (hearing a b) as [|x [|y l]]; [auto| |exact I]. destruct (fates n); cbn [fst snd].
    + split; [reflexivity|]. intros p ->. apply whole_then. discriminate.
    + auto.
    + auto.
    + split; [reflexivity|]. split; [split; [repeat constructor; eexists; split; [reflexivity|discriminate]|repeat constructor; unfold is_byte; lia]|].
      left. exists 0xFF, [0x00], []. split; [reflexivity|]. lia.
Qed.

(** A meter with a message of three telegrams at address 1, and one with a short message at address 2. *)
Definition ex_meters : list meter := [mkMeter ex_message start_station start_station false; mkMeter [at_address 2 0x11 []] start_station start_station true].
Definition runs (fates : nat -> fate) (a : mbus_address) (mf : Z) (w : world (nat * list meter)) : option (Z * option (list Z) * world (nat * list meter)) :=
  match request_multi_main _ (fun _ n => n) (chain_react fates) (fun _ => None) mbus_context_serial a mf w with Done x => Some x | _ => None end.
Definition ex_start : world (nat * list meter) := mkW (0%nat, ex_meters) [] [].
Example ex_meters_ok : wf_net (crowd ex_meters).
Proof.
  unfold ex_meters, crowd, wf_net. cbn [map]. constructor; [split; [apply part_ok; unfold is_byte; lia|cbn; lia]|].
  constructor; [split; [apply at_address_ok; [lia|lia|constructor|cbn; lia|constructor]|cbn; lia]|constructor].
Qed.
Example ex_plain : plain_parts ex_message /\ message ex_message /\ meters_at 1 ex_meters = [mkMeter ex_message start_station start_station false].
Proof.
  split; [|split; [exact ex_message_ok|reflexivity]]. split; [|vm_compute; reflexivity].
  repeat (constructor; [split; cbn; repeat constructor; cbn; lia|]). constructor.
Qed.
Definition text_of (ps : list slave) : option (list Z) :=
  match request_multi_main _ (fun _ n => n) (chain_react (fun _ => Fine)) (fun _ => None) mbus_context_serial (Primary 1) 16 (mkW (0%nat, [mkMeter ps start_station start_station false]) [] []) with
  | Done (_, x, _) => x | _ => None end.
Example C70_example : exists text w', runs ex_fates (Primary 1) 16 ex_start = Some (0, Some text, w') /\ text_of ex_message = Some text /\ sends (w_log w') = 11%nat /\
  runs ex_fates (Primary 3) 16 ex_start <> None.
Proof. eexists _, _. split; [vm_compute; reflexivity|]. split; [vm_compute; reflexivity|]. split; [vm_compute; reflexivity|vm_compute; discriminate]. Qed.
(** C70 needs a meter at the beginning of its message: the program resets only the address 253. A second run by primary
    address prints the last telegram of the three alone, with exit code 0; by secondary address it prints all of them. *)
Theorem C70_needs_reset :
  exists t1 t2 w1 w2, runs (fun _ => Fine) (Primary 1) 16 ex_start = Some (0, Some t1, w1) /\ text_of ex_message = Some t1 /\
    runs (fun _ => Fine) (Primary 1) 16 w1 = Some (0, Some t2, w2) /\ text_of (skipn 2 ex_message) = Some t2 /\ t1 <> t2 /\
    exists w3 w4, runs (fun _ => Fine) (Secondary (Some (chars "12345678FFFFFFFF"))) 16 ex_start = Some (0, Some t1, w3) /\
      runs (fun _ => Fine) (Secondary (Some (chars "12345678FFFFFFFF"))) 16 w3 = Some (0, Some t1, w4).
Proof.
  eexists _, _, _, _. split; [vm_compute; reflexivity|]. split; [vm_compute; reflexivity|]. split; [vm_compute; reflexivity|]. split; [vm_compute; reflexivity|].
  split; [discriminate|]. eexists _, _. split; [vm_compute; reflexivity|]. vm_compute. reflexivity.
Qed.
Print Assumptions C70_primary_partial.
Print Assumptions C70_secondary_partial.
Print Assumptions C70_chain_exists.
Print Assumptions C70_needs_reset.

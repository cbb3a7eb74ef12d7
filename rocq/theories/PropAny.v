(** Property C71: whatever is on the line, selecting, probing, scanning and reading report only what was received. *)
From Coq Require Import String.
From Coq Require Import List.
From Verif Require Import CBase PBase CStr MFrame MCodec MVar MText SVar SText SCodec PCodec SXml MXml SWire SFrame PFrame PFrame2 PVar3 PXml2 PXml4 MRecv SRecv PRecv PropFrame PropRecv MSecond SSecond PSecond MProto SProto PProto PProto2 PropProto PReq SReq PReq2 SBus PBus PBus2 PBus3 PropVar PropReq PropBus PAny.

(** The master listened and no telegram, whole or damaged, arrived. *)
Definition quiet (a : action) : Prop := exists c g, a = Received c g /\ c <> RECV_OK /\ c <> RECV_INVALID.
(** What must have happened for a selection by the address bytes [m] to count as successful: the selection was sent, an
    acknowledgement arrived, and nothing after it. *)
Definition selected_by (m : list Z) (l : list action) : Prop :=
  exists q, quiet q /\ l = [Sent (wire (selection m)); Received RECV_OK (wire Ack); q].
(** What must have happened before the address [s] is reported: a successful selection, a request, a valid data telegram
    of a slave whose payload starts with that address, and nothing after it. *)
Definition proven_by (m : list Z) (l : list action) (s : list Z) : Prop :=
  exists sel c a p q, selected_by m sel /\ quiet q /\ l = sel ++ [Sent (wire request); Received RECV_OK (wire (Long c a 0x72 p)); q] /\
    valid (Long c a 0x72 p) /\ (c / 64) mod 2 = 0 /\ hex16 s /\ address_text (firstn 8 p) s.

Lemma evidence_proven m l s : evidence m l s -> exists pre l', l = pre ++ l' /\ proven_by m l' s.
Proof.
  intros (pre & c & g & tl & -> & Hc & Hi & (c0 & a & p & c2 & g2 & -> & V & D & _ & Hc2 & Hi2 & Hx & A)). exists pre. eexists. split; [reflexivity|].
  exists [Sent (wire (selection m)); Received RECV_OK (wire Ack); Received c g], c0, a, p, (Received c2 g2).
  split; [exists (Received c g); split; [exists c, g; auto|reflexivity]|]. split; [exists c2, g2; auto|]. auto.
Qed.

(** C71: a selection returns one of the four results after one telegram, whatever the line does; SINGLE means that the
    selection was acknowledged and that nothing followed the acknowledgement. *)
Theorem C71_select :
  forall h B wret (react : B -> list Z -> B * list ev), hands_bytes react -> hears_slaves h ->
  forall mask m w, wf_mask mask -> bytes m -> address_text m mask -> ev_bytes (w_evs w) ->
  exists r w' new, mbus_select_secondary_address B wret react (Some h) mask w = Done (r, w') /\ w_log w' = w_log w ++ new /\
    In r [PROBE_NOTHING; PROBE_SINGLE; PROBE_COLLISION; PROBE_ERROR] /\ sends new = 1%nat /\ reports new = [] /\
    (r = PROBE_SINGLE -> selected_by m new).
Proof.
  intros h B wret react RB mode mask m w Hs Hb A Hw. apply address_text_bytes in A; [|apply Hs|assumption]. subst m.
  destruct (select_any B wret react h RB mode mask w Hs Hw) as (r & w' & new & H1 & _ & H3 & H4 & H5 & H6 & H7). exists r, w', new. do 5 (split; [assumption|]).
  intros Hr. destruct (H7 Hr) as (c & g & E & Hc & Hi). exists (Received c g). split; [exists c, g; auto|assumption].
Qed.

(** C71: a probe ends, or a data telegram overran the parser's arrays (see [C71_hostile_undefined]). It sends at most
    max_search_retry + 2 telegrams; SINGLE means that its last actions prove the address it delivers; with any other
    result the caller's buffer is unchanged. *)
Theorem C71_probe :
  forall h B wret (react : B -> list Z -> B * list ev), hands_bytes react -> hears_slaves h -> 0 <= max_search_retry h ->
  forall mask m buf w, wf_mask mask -> bytes m -> address_text m mask -> (17 <= length buf)%nat -> ev_bytes (w_evs w) ->
  mbus_probe_secondary_address B wret react (Some h) mask buf w = Undef \/
  exists r buf' w' new, mbus_probe_secondary_address B wret react (Some h) mask buf w = Done (r, buf', w') /\ w_log w' = w_log w ++ new /\
    In r [PROBE_NOTHING; PROBE_SINGLE; PROBE_COLLISION; PROBE_ERROR] /\ Z.of_nat (sends new) <= max_search_retry h + 2 /\
    (r = PROBE_SINGLE -> exists pre l, new = pre ++ l /\ proven_by m l (c_text buf')) /\
    (r <> PROBE_SINGLE -> buf' = buf).
Proof.
  intros h B wret react RB mode retry mask m buf w Hs Hb A Hl Hw. apply address_text_bytes in A; [|apply Hs|assumption]. subst m.
  destruct (probe_any B wret react h RB mode retry mask buf w Hs Hl Hw) as [U|(r & buf' & w' & new & H1 & _ & _ & H3 & H4 & H5 & _ & H7 & H8)]; [left; exact U|right].
  exists r, buf', w', new. do 4 (split; [assumption|]). split; [|assumption]. intros Hr. apply evidence_proven. auto.
Qed.

(** C71: a scan ends, or a data telegram overran the parser's arrays. Whatever it reports is proven by the actions just
    before the report, with a mask that differs from the caller's only where that has wildcards. *)
Theorem C71_scan :
  forall h B wret (react : B -> list Z -> B * list ev), hands_bytes react -> hears_slaves h -> 0 <= max_search_retry h ->
  forall pos mask w, wf_mask mask -> ev_bytes (w_evs w) ->
  mbus_scan_2nd_address_range B wret react (Some h) pos mask w = Undef \/
  exists r w' new, mbus_scan_2nd_address_range B wret react (Some h) pos mask w = Done (r, w') /\ w_log w' = w_log w ++ new /\ (r = 0 \/ r = -1) /\
    forall before s after, new = before ++ Found s :: after ->
    exists mask' m pre l, wf_mask mask' /\ (forall i, wildcard (nth i mask 0) \/ nth i mask' 0 = nth i mask 0) /\ bytes m /\ address_text m mask' /\
      before = pre ++ l /\ proven_by m l s.
Proof.
  intros h B wret react RB mode retry pos mask w Hs Hw. unfold mbus_scan_2nd_address_range. replace (length mask =? 16)%nat with true by (symmetry; apply Nat.eqb_eq, Hs). cbn [negb].
  destruct ((pos <? 0) || _).
  { right. exists 0, w, []. rewrite app_nil_r. split; [reflexivity|]. split; [reflexivity|]. split; [auto|]. intros before s after E. destruct before; discriminate. }
  destruct (scan_any B wret react h RB mode retry (16 - Z.to_nat pos) mask w Hs Hw) as [U|(r & w' & new & H1 & _ & H3 & H4 & H5)]; [left; exact U|right].
  exists r, w', new. split; [assumption|]. split; [assumption|]. split; [assumption|]. intros before s after E. destruct (H4 before s after E) as (m' & [Wm Rm] & Ev).
  destruct (evidence_proven _ _ _ Ev) as (pre & l & E1 & P). destruct (mbytes_ok m' (proj1 Wm)) as (Y1 & _ & Y2). exists m', (mbytes m'), pre, l. auto 10.
Qed.

(** C71: reading ends with 0 or -1 after at most two telegrams; 0 means that a valid telegram arrived after the request
    and is what the caller's frame holds; by secondary address the selection was acknowledged before. *)
Theorem C71_read_slave :
  forall h B wret (react : B -> list Z -> B * list ev), hands_bytes react -> hears_slaves h ->
  forall a f w, match a with Primary n => 0 <= n <= 255 | Secondary None => False | Secondary (Some s) => wf_mask s end -> frame_obj f -> ev_bytes (w_evs w) ->
  exists r f' w' new, mbus_read_slave B wret react (Some h) a f w = Done (r, f', w') /\ w_log w' = w_log w ++ new /\ (r = 0 \/ r = -1) /\ (sends new <= 2)%nat /\
    (r = 0 -> exists t, valid t /\ denotes f' t /\
       match a with
       | Primary n => new = [Sent (wire (Short 0x5B n)); Received RECV_OK (wire t)]
       | Secondary None => False
       | Secondary (Some s) => exists m sel, bytes m /\ address_text m s /\ selected_by m sel /\ new = sel ++ [Sent (wire request); Received RECV_OK (wire t)]
       end).
Proof.
  intros h B wret react RB mode a f w Ha Ho Hw.
  destruct (read_slave_any B wret react h RB mode a f w Ha Ho Hw) as (r & f' & w' & new & H1 & _ & H3 & H4 & H5 & H6). exists r, f', w', new. do 4 (split; [assumption|]).
  intros Hr. destruct (H6 Hr) as (pre & n & t & -> & V & D & X). exists t. split; [assumption|]. split; [assumption|]. destruct a as [k|[s|]]; [| |contradiction].
  - destruct X as [-> ->]. reflexivity.
  - destruct X as (-> & c & g & -> & Hc & Hi). destruct (mbytes_ok s (proj1 Ha)) as (Y1 & _ & Y2). exists (mbytes s). eexists. split; [assumption|]. split; [assumption|].
    split; [|reflexivity]. exists (Received c g). split; [exists c, g; auto|reflexivity].
Qed.
Print Assumptions C71_select.
Print Assumptions C71_probe.
Print Assumptions C71_scan.
Print Assumptions C71_read_slave.

(** ** Lines *)
(** A line that answers a selection with an acknowledgement and the request with the answer [l]. *)
Definition answers (l : list Z) (b : bool) (t : list Z) : bool * list ev :=
  if nth 0 t 0 =? 0x68 then (b, [MRecv.Data (wire Ack)]) else (b, [MRecv.Data (map (fun x => x mod 256) l)]).
Lemma answers_bytes l : hands_bytes (answers l).
Proof.
  intros b t. unfold answers. destruct (_ =? _); cbn [snd]; (constructor; [|constructor]); [repeat constructor; unfold is_byte; lia|].
  apply Forall_forall. intros x Hx. apply in_map_iff in Hx. destruct Hx as (y & <- & _). unfold is_byte. apply Z.mod_pos_bound. lia.
Qed.
Definition probe_on (h : handle) (l : list Z) : out (Z * list Z * world bool) :=
  mbus_probe_secondary_address _ (fun _ n => n) (answers l) (Some h) (chars "FFFFFFFFFFFFFFFF") (repeat 0 17) (mkW false [] []).
Definition result (x : out (Z * list Z * world bool)) : option (Z * list Z) := match x with Done (r, buf, _) => Some (r, c_text buf) | _ => None end.
(** The hypotheses are met by every such line; a telegram with an address is reported, noise and a telegram from a
    master are not. *)
Example C71_example : hands_bytes (answers (wire (sl_telegram (meter [0x78; 0x56; 0x34; 0x12; 0x24; 0x40; 1; 7])))) /\
  result (probe_on mbus_context_serial (wire (sl_telegram (meter [0x78; 0x56; 0x34; 0x12; 0x24; 0x40; 1; 7])))) = Some (PROBE_SINGLE, chars "1234567824400107") /\
  result (probe_on mbus_context_serial [0x68; 0x68; 1; 2; 3]) = Some (PROBE_COLLISION, []) /\
  result (probe_on mbus_context_serial (wire (Long 0x08 1 0x73 [1; 2; 3]))) = Some (PROBE_NOTHING, []).
Proof. split; [apply answers_bytes|]. repeat split; vm_compute; reflexivity. Qed.

(** C71: a valid data telegram with a unit text of 128 characters makes a probe undefined: the parser writes behind the
    array for the text. *)
Theorem C71_hostile_undefined :
  exists t, valid t /\ probe_on mbus_context_serial (wire t) = Undef.
Proof.
  exists (Long 0x08 1 0x72 (ex_header ++ 0x00 :: 0x7C :: 128 :: repeat 65 128)). split; [|vm_compute; reflexivity].
  split; [cbn; auto 10|]. split; [unfold byte_range; lia|]. split; [unfold byte_range; lia|]. split; [|rewrite app_length; cbn; lia].
  vm_compute. repeat constructor; discriminate.
Qed.

(** C71 needs a handle that listens to slaves: one that skips the first telegram of a slave takes an acknowledgement
    followed by a read error for a success. *)
Definition skips : handle := mkH 1 1 PURGE_S2M true.
Theorem C71_needs_mode :
  exists w', mbus_select_secondary_address _ (fun _ n => n) (fun (b : bool) (_ : list Z) => (b, [MRecv.Data (wire Ack); EOther])) (Some skips) (chars "FFFFFFFFFFFFFFFF") (mkW false [] []) = Done (PROBE_SINGLE, w') /\
    forall m, ~ selected_by m (w_log w').
Proof.
  eexists. split; [vm_compute; reflexivity|]. intros m (q & _ & E). cbn [w_log] in E. discriminate.
Qed.
Print Assumptions C71_hostile_undefined.
Print Assumptions C71_needs_mode.

(** Properties C31-C35: readout of a slave. *)
From Coq Require Import String.
From Coq Require Import List.
From Verif Require Import CBase PBase CStr MFrame MVar MText SVar SXml MXml SWire SFrame PFrame PFrame2 MRecv SRecv PRecv MSecond MProto SProto SReq PProto PProto2 PReq PReq2 PropVar PropXml.

(** The other end of the line hands over bytes. *)
Definition hands_bytes {B} (react : B -> list Z -> B * list ev) : Prop := forall b l, ev_bytes (snd (react b l)).

Lemma sendrecv_unfold B wret react h a reply mf (w : world B) q w' :
  mbus_sendrecv_request B wret react (Some h) a reply mf w = Done (q, w') ->
  (~ 0 <= a <= 255 /\ q = mkRq 1 [reply] [] /\ w' = w) \/
  (0 <= a <= 255 /\ exists req, req_frame req true a /\
     request_loop B wret react (Z.to_nat ((max_data_retry h + 2) * (Z.max 1 mf))) h req reply [] fd_zero [] None 0 0 mf w = Done (q, w')).
Proof.
  intros E. unfold mbus_sendrecv_request in E. destruct (mbus_is_primary_address a) eqn:P; cbn [negb] in E.
  - right. apply primary_spec in P. split; [assumption|]. eexists. split; [|exact E]. repeat split; reflexivity.
  - left. injection E as <- <-. split; [|auto]. intros H. apply primary_spec in H. congruence.
Qed.
Lemma sendrecv_trace B wret react h a reply mf (w : world B) q w' :
  hands_bytes react -> 0 <= max_data_retry h -> frame_obj reply -> ev_bytes (w_evs w) ->
  mbus_sendrecv_request B wret react (Some h) a reply mf w = Done (q, w') ->
  exists new, w_log w' = w_log w ++ new /\ alternating true a (exchanges new) /\
    within (max_data_retry h + 1) (max_data_retry h + 1) (exchanges new) /\
    (q_ret q = 0 -> Forall2 holds (q_frames q) (replies (exchanges new))) /\
    (q_ret q = 0 -> Z.of_nat (length (q_frames q)) <= Z.max 1 mf) /\ q_frames q <> [] /\ In (q_ret q) [0; 1; -1].
Proof.
  intros RB Hm Ho Hb E. apply sendrecv_unfold in E. destruct E as [(_ & -> & ->)|(Ha & req & Hr & E)].
  - exists []. rewrite app_nil_r. cbn. repeat split; auto; discriminate.
  - destruct (request_trace B wret react RB h a Ha Hm (Z.to_nat ((max_data_retry h + 2) * (Z.max 1 mf))) true req reply [] fd_zero [] None 0 0 mf w Hr Ho Hb) as [_ T]; try lia.
    destruct (T q w' E) as (new & more & N1 & N2 & N3 & N4 & N5 & N6 & N7 & N8). cbn [app] in N4. subst more.
    exists new. rewrite Z.sub_0_r in N3. cbn in N7. auto 10.
Qed.

(** C31: a readout never runs forever, whatever the line does. *)
Theorem C31_terminates :
  forall B wret (react : B -> list Z -> B * list ev) h a reply mf w,
  hands_bytes react -> 0 <= max_data_retry h -> frame_obj reply -> ev_bytes (w_evs w) ->
  mbus_sendrecv_request B wret react (Some h) a reply mf w <> Endless.
Proof.
  intros B wret react h a reply mf w RB Hm Ho Hb. unfold mbus_sendrecv_request.
  destruct (mbus_is_primary_address a) eqn:P; cbn [negb]; [|discriminate]. apply primary_spec in P.
  refine (proj1 (request_trace B wret react RB h a P Hm _ true _ reply [] fd_zero [] None 0 0 mf w _ Ho Hb _ _ _ _)); try lia. repeat split; reflexivity.
Qed.
(** C31: no more than max_data_retry + 1 consecutive requests are sent without an accepted reply in between (a group
    of unanswered requests followed by one more request has at most max_data_retry + 1 members), and their total
    number is bounded by the number of accepted replies. *)
Theorem C31_bounded :
  forall B wret (react : B -> list Z -> B * list ev) h a reply mf w q w',
  hands_bytes react -> 0 <= max_data_retry h -> frame_obj reply -> ev_bytes (w_evs w) ->
  mbus_sendrecv_request B wret react (Some h) a reply mf w = Done (q, w') ->
  exists new, w_log w' = w_log w ++ new /\
    (forall before group x after, exchanges new = before ++ group ++ [x] ++ after ->
       Forall (fun y => answered y = false) group -> Z.of_nat (length (group ++ [x])) <= max_data_retry h + 1) /\
    Z.of_nat (length (exchanges new)) <= (max_data_retry h + 1) * (Z.of_nat (length (replies (exchanges new))) + 1).
Proof.
  intros B wret react h a reply mf w q w' RB Hm Ho Hb E.
  destruct (sendrecv_trace B wret react h a reply mf w q w' RB Hm Ho Hb E) as (new & N1 & _ & N3 & _).
  exists new. split; [assumption|]. split.
  - intros before group x after Ex F. rewrite app_length. cbn [length].
    pose proof (within_run (max_data_retry h + 1) ltac:(lia) _ (max_data_retry h + 1) ltac:(lia) N3 before group after x Ex F). lia.
  - pose proof (within_total (max_data_retry h + 1) ltac:(lia) _ (max_data_retry h + 1) ltac:(lia) N3). lia.
Qed.
Print Assumptions C31_terminates.
Print Assumptions C31_bounded.

(** C32: every request is the telegram 10 7B/5B address checksum 16: FCV set, FCB set in the first one, FCB changed
    exactly after an accepted reply, so that a repeated request is identical. *)
Theorem C32_frame_count_bit :
  forall B wret (react : B -> list Z -> B * list ev) h a reply mf w q w',
  hands_bytes react -> 0 <= max_data_retry h -> frame_obj reply -> ev_bytes (w_evs w) ->
  mbus_sendrecv_request B wret react (Some h) a reply mf w = Done (q, w') ->
  exists new, w_log w' = w_log w ++ new /\ alternating true a (exchanges new).
Proof.
  intros B wret react h a reply mf w q w' RB Hm Ho Hb E.
  destruct (sendrecv_trace B wret react h a reply mf w q w' RB Hm Ho Hb E) as (new & N1 & N2 & _). eauto.
Qed.
Print Assumptions C32_frame_count_bit.

(** A line that answers the i-th telegram with the i-th list of events. *)
Definition script (b : list (list ev)) (l : list Z) : list (list ev) * list ev :=
  match b with [] => ([], []) | e :: b' => (b', e) end.
Definition all_taken (b : list (list ev)) (n : Z) : Z := n.
Definition var_bytes (tail : tail) : list Z := wire (Long 0x08 5 0x72 (ex_header ++ enc_body small_its tail)).
Example C32_nonvacuous :
  match mbus_sendrecv_request _ all_taken script (Some mbus_context_serial) 5 frame_zero 3
          (mkW [[]; [Data [0x33]]; [Data (var_bytes (Some (true, [])))]; [Data [0x44]]; [Data (var_bytes None)]] [] []) with
  | Done (q, w') =>
      q_ret q = 0 /\ length (q_frames q) = 2%nat /\ q_heap q = [None; None] /\
      exchanges (w_log w') = [(data_request true 5, Some (RECV_TIMEOUT, [])); (data_request true 5, Some (RECV_INVALID, [0x33]));
        (data_request true 5, Some (RECV_OK, var_bytes (Some (true, [])))); (data_request false 5, Some (RECV_INVALID, [0x44]));
        (data_request false 5, Some (RECV_OK, var_bytes None))]
  | _ => False
  end.
Proof. vm_compute. auto. Qed.

(** C33: if the replies are variable data telegrams, a successful readout ends with the first telegram that announces
    no more or with the max_frames-th; every telegram before announces more. Partial: a limit of 0 does not mean
    "no limit" ([goes_on] allows a single telegram then). *)
Theorem C33_chain_partial :
  forall B wret (react : B -> list Z -> B * list ev) h a reply mf w q w',
  hands_bytes react -> 0 <= max_data_retry h -> frame_obj reply -> bytes (fdata reply) -> ev_bytes (w_evs w) ->
  mbus_sendrecv_request B wret react (Some h) a reply mf w = Done (q, w') -> q_ret q = 0 ->
  exists new, w_log w' = w_log w ++ new /\ length (q_frames q) = length (replies (exchanges new)) /\
    forall ms, Forall2 var_wire (replies (exchanges new)) ms -> goes_on mf 0 ms.
Proof.
  intros B wret react h a reply mf w q w' RB Hm Ho Hf Hb E Hq.
  destruct (sendrecv_trace B wret react h a reply mf w q w' RB Hm Ho Hb E) as (new & N1 & _ & _ & N4 & _).
  exists new. split; [assumption|]. specialize (N4 Hq). split; [clear - N4; induction N4; cbn; congruence|].
  intros ms F. apply sendrecv_unfold in E. destruct E as [(_ & -> & _)|(Ha & req & Hr & E)]; [discriminate|].
  destruct (request_chain B wret react RB h a Ha Hm _ true req reply [] fd_zero [] None 0 0 mf w q w' Hr Ho Hf Hb ltac:(lia) E) as (new' & N1' & C).
  rewrite N1 in N1'. apply app_inv_head in N1'. subst new'. apply C; [constructor| |assumption|assumption].
  clear - F. intros bs Hbs. induction F as [|x m xs ms V _ IH]; [destruct Hbs|]. destruct Hbs as [<-|H]; [exists m; assumption|auto].
Qed.
(** C33 fails for max_frames = 0, documented as no limit: at most one telegram is ever read, *)
Theorem C33_no_limit_refuted :
  forall B wret (react : B -> list Z -> B * list ev) h a reply w q w',
  hands_bytes react -> 0 <= max_data_retry h -> frame_obj reply -> ev_bytes (w_evs w) ->
  mbus_sendrecv_request B wret react (Some h) a reply 0 w = Done (q, w') -> q_ret q = 0 -> length (q_frames q) = 1%nat.
Proof.
  intros B wret react h a reply w q w' RB Hm Ho Hb E Hq.
  destruct (sendrecv_trace B wret react h a reply 0 w q w' RB Hm Ho Hb E) as (new & _ & _ & _ & _ & N & Ne & _). specialize (N Hq).
  destruct (q_frames q) as [|x [|y l]]; [congruence|reflexivity|cbn in N; lia].
Qed.
(** ... even if it announces more. *)
Theorem C33_no_limit_example_refuted :
  exists w q w', mbus_sendrecv_request _ all_taken script (Some mbus_context_serial) 5 frame_zero 0 w = Done (q, w') /\ q_ret q = 0 /\
    exists bs, replies (exchanges (w_log w')) = [bs] /\ var_wire bs true.
Proof.
  eexists (mkW [[Data (var_bytes (Some (true, [])))]; [Data (var_bytes None)]] [] []), _, _. split; [vm_compute; reflexivity|]. split; [reflexivity|].
  exists (var_bytes (Some (true, []))). split; [vm_compute; reflexivity|].
  exists 0x08, 5, ex_header, small_its, (Some (true, [])). split; [reflexivity|]. split; [reflexivity|].
  split; [apply small_telegram|]. split; [cbn; repeat split; try constructor; lia|]. split; [|split; reflexivity].
  cbn -[small_its ex_header enc_body]. unfold byte_range. split; [cbn; auto 10|]. split; [lia|]. split; [lia|].
  split; [apply Forall_forall; intros x H; vm_compute in H; lia|vm_compute; lia].
Qed.
Print Assumptions C33_chain_partial.
Print Assumptions C33_no_limit_refuted.
Print Assumptions C33_no_limit_example_refuted.

(** C34: after a successful readout the frames of the chain carry exactly the telegrams accepted from the line, in this
    order, each one valid (checksum included). Partial: an acknowledgement is accepted as a reply too, and then
    the frame object keeps the payload left in it before. *)
Theorem C34_verified_partial :
  forall B wret (react : B -> list Z -> B * list ev) h a reply mf w q w',
  hands_bytes react -> 0 <= max_data_retry h -> frame_obj reply -> ev_bytes (w_evs w) ->
  mbus_sendrecv_request B wret react (Some h) a reply mf w = Done (q, w') -> q_ret q = 0 ->
  exists new, w_log w' = w_log w ++ new /\
    Forall2 (fun f bs => exists t, valid t /\ bs = wire t /\ denotes f t) (q_frames q) (replies (exchanges new)).
Proof.
  intros B wret react h a reply mf w q w' RB Hm Ho Hb E Hq.
  destruct (sendrecv_trace B wret react h a reply mf w q w' RB Hm Ho Hb E) as (new & N1 & _ & _ & N4 & _). exists new. auto.
Qed.
(** C34 fails: a reply damaged in its payload (checksum wrong), then an acknowledgement to the repeated request: the
    readout succeeds and the frame delivers the damaged payload as decodable data. *)
Definition damaged_bytes : list Z := [0x68; 0x12; 0x12; 0x68; 0x08; 5; 0x72] ++ ex_header ++ [0x01; 0x13; 99] ++ [0x00; 0x16].
Theorem C34_stale_payload_refuted :
  exists w q w' f v, mbus_sendrecv_request _ all_taken script (Some mbus_context_serial) 5 frame_zero 1 w = Done (q, w') /\ q_ret q = 0 /\
    replies (exchanges (w_log w')) = [wire Ack] /\ q_frames q = [f] /\
    mbus_frame_data_parse f fd_zero = Ok (0, mkFD v (d_fix fd_zero) DT_VARIABLE 0) /\
    map (fun r => firstn (r_len r) (r_data r)) (v_records v) = [[99]].
Proof.
  eexists (mkW [[Data damaged_bytes]; [Data (wire Ack)]] [] []), _, _, _, _. split; [vm_compute; reflexivity|].
  split; [reflexivity|]. split; [reflexivity|]. split; [reflexivity|]. split; vm_compute; reflexivity.
Qed.
Print Assumptions C34_verified_partial.
Print Assumptions C34_stale_payload_refuted.

(** C35: if every accepted reply is a variable data telegram, all record lists are released when the function returns,
    on every path. Partial: see the refutations for other replies. *)
Theorem C35_released_partial :
  forall B wret (react : B -> list Z -> B * list ev) h a reply mf w q w',
  hands_bytes react -> 0 <= max_data_retry h -> frame_obj reply -> bytes (fdata reply) -> ev_bytes (w_evs w) ->
  mbus_sendrecv_request B wret react (Some h) a reply mf w = Done (q, w') ->
  exists new, w_log w' = w_log w ++ new /\
    ((forall bs, In bs (replies (exchanges new)) -> exists m, var_wire bs m) -> Forall (fun e => e = None) (q_heap q)).
Proof.
  intros B wret react h a reply mf w q w' RB Hm Ho Hf Hb E.
  apply sendrecv_unfold in E. destruct E as [(_ & -> & ->)|(Ha & req & Hr & E)].
  { exists []. rewrite app_nil_r. split; [reflexivity|]. intros _. constructor. }
  destruct (request_chain B wret react RB h a Ha Hm _ true req reply [] fd_zero [] None 0 0 mf w q w' Hr Ho Hf Hb ltac:(lia) E) as (new & N1 & C).
  exists new. split; [assumption|]. intros V. apply C; [constructor|assumption].
Qed.
(** C35 fails: a telegram announcing more followed by an application error: the record list is freed twice. *)
Theorem C35_double_free_refuted :
  mbus_sendrecv_request _ all_taken script (Some mbus_context_serial) 5 frame_zero 2
    (mkW [[Data (var_bytes (Some (true, [])))]; [Data (wire (Long 0x08 5 0x70 [3]))]] [] []) = Undef.
Proof. vm_compute. reflexivity. Qed.
(** C35 fails: a telegram with a broken last record: the records before are never freed. *)
Theorem C35_leak_refuted :
  exists q w' rs, mbus_sendrecv_request _ all_taken script (Some mbus_context_serial) 5 frame_zero 1
    (mkW [[Data (wire (Long 0x08 5 0x72 (ex_header ++ enc_body small_its None ++ [0x04; 0x13; 1])))]] [] []) = Done (q, w') /\
    q_ret q = 1 /\ q_heap q = [Some rs] /\ length rs = 1%nat.
Proof. eexists _, _, _. split; [vm_compute; reflexivity|]. repeat split; reflexivity. Qed.
Print Assumptions C35_released_partial.
Print Assumptions C35_double_free_refuted.
Print Assumptions C35_leak_refuted.

(** A line that answers with fixed events: silence, noise, a telegram announcing more, noise, the last telegram. *)
Definition turns : list (list ev) := [[]; [Data [0x33]]; [Data (var_bytes (Some (true, [])))]; [Data [0x44]]; [Data (var_bytes None)]].
Definition play (i : nat) (l : list Z) : nat * list ev := (S i, nth i turns []).
Lemma play_bytes : hands_bytes play.
Proof.
  intros b l. unfold play. cbn [snd]. do 5 (destruct b as [|b]; [vm_compute; repeat (constructor || discriminate)|]).
  destruct b; exact I.
Qed.
Lemma var_bytes_wire tl : tl = None \/ tl = Some (true, []) -> var_wire (var_bytes tl) (match tl with None => false | _ => true end).
Proof.
  intros H. exists 0x08, 5, ex_header, small_its, tl. split; [reflexivity|]. split; [reflexivity|]. split; [apply small_telegram|].
  split; [destruct H as [->| ->]; cbn; repeat split; try constructor; lia|]. split; [|split; [reflexivity|destruct H as [->| ->]; reflexivity]].
  cbn -[small_its ex_header enc_body]. unfold byte_range. split; [cbn; auto 10|]. split; [lia|]. split; [lia|].
  split; [apply Forall_forall; intros x I; destruct H as [->| ->]; vm_compute in I; lia|destruct H as [->| ->]; vm_compute; lia].
Qed.
Example C31_nonvacuous :
  hands_bytes play /\ 0 <= max_data_retry mbus_context_serial /\ frame_obj frame_zero /\
  exists q w', mbus_sendrecv_request _ (fun _ n => n) play (Some mbus_context_serial) 5 frame_zero 3 (mkW 0%nat [] []) = Done (q, w') /\ q_ret q = 0 /\ length (q_frames q) = 2%nat /\ q_heap q = [None; None] /\
    length (exchanges (w_log w')) = 5%nat /\ replies (exchanges (w_log w')) = [var_bytes (Some (true, [])); var_bytes None].
Proof.
  split; [exact play_bytes|]. split; [cbn; lia|]. split; [reflexivity|]. eexists _, _. split; [vm_compute; reflexivity|]. split; [reflexivity|]. split; [reflexivity|]. split; [reflexivity|]. split; vm_compute; reflexivity.
Qed.
(** The replies of this conversation, for C33 to C35. *)
Example C33_nonvacuous :
  Forall2 var_wire [var_bytes (Some (true, [])); var_bytes None] [true; false] /\ goes_on 3 0 [true; false].
Proof. split; [|vm_compute; auto]. constructor; [apply (var_bytes_wire (Some (true, []))); auto|]. constructor; [apply (var_bytes_wire None); auto|constructor]. Qed.

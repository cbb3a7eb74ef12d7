(** Property C59: reading a message of several telegrams over a line that loses and damages telegrams. *)
From Coq Require Import String.
From Coq Require Import List.
From Verif Require Import CBase PBase CStr MFrame MVar SVar SText SXml MXml SWire SFrame PFrame PFrame2 MRecv SRecv PRecv MSecond MProto SProto PProto PProto2 PropProto SReq PReq PReq2 PropReq SBus PBus PBus2 PropBus SLine PLine.

(** The reply object of the caller: no telegram of a master in it (as after memset). *)
Definition clean (f : frame) : Prop := frame_obj f /\ bytes (fdata f) /\ Z.land (control f) 0x40 = 0.

Lemma clean_zero : clean frame_zero.
Proof. split; [|split]; [reflexivity|apply repeat_bytes|reflexivity]. Qed.

Lemma line_readout echo h a ps fates B wret react turn st ok reply mf (w : world B) :
  line_of echo h a ps fates B wret react turn st ok -> ok (w_bus w) -> message ps -> hears_slaves h -> 0 <= a <= 255 -> 0 <= max_data_retry h ->
  clean reply -> w_evs w = [] -> fresh (st (w_bus w)) ->
  exists q w', mbus_sendrecv_request B wret react (Some h) a reply mf w = Done (q, w') /\ w_evs w' = [] /\
    (q_ret q = 0 \/ q_ret q = 1) /\ (q_ret q = 0 -> Forall2 denotes (q_frames q) (map sl_telegram (firstn (Z.to_nat (Z.max 1 mf)) ps)) /\ Forall (fun f => frame_obj f /\ bytes (fdata f)) (q_frames q)) /\
    (recovers (max_data_retry h) fates -> q_ret q = 0).
Proof.
  intros L Hok M Hh Ha Hr (C1 & C2 & C3) Hw (F1 & F2). unfold mbus_sendrecv_request.
  rewrite (proj2 (primary_spec a) Ha). cbn [negb].
  destruct (readout echo h a ps fates B wret react turn st ok L M Hh Ha Hr (Z.to_nat ((max_data_retry h + 2) * Z.max 1 mf)) true
    (set_address (set_control (mbus_frame_new T_SHORT) (Z.lor (Z.lor (Z.lor 0x5B 0x40) 0x10) 0x20)) a) reply [] fd_zero [] None 0 0%nat mf w)
    as (q & w' & Q1 & Q2 & Q3 & Q4 & Q5).
  - assumption.
  - constructor.
  - repeat split; reflexivity.
  - split; [assumption|]. split; [assumption|]. intros _ _. exact C3.
  - assumption.
  - left. auto.
  - constructor.
  - destruct ps; [destruct M as [_ []]|cbn; lia].
  - lia.
  - lia.
  - nia.
  - exists q, w'. split; [exact Q1|]. split; [assumption|]. split; [assumption|].
    split; [intros Hq; destruct (Q4 Hq) as [X Y]; split; [exact X|]; revert Y; apply Forall_impl; intros f (Y1 & Y2 & _); auto|]. intros Rec. apply Q5; [assumption|]. destruct (Rec (turn (w_bus w))) as (j & J1 & J2 & J3). exists j. split; [assumption|]. split; [lia|assumption].
Qed.

(** C59: whatever the line loses or damages, a readout that reports success delivers the telegrams of the message, in
    order, none missing, none twice - all of them, or the first max_frames. *)
Theorem C59_safe :
  forall echo h a ps fates B wret react turn st ok reply mf w q w',
  line_of echo h a ps fates B wret react turn st ok -> ok (w_bus w) -> message ps -> hears_slaves h -> 0 <= a <= 255 -> 0 <= max_data_retry h ->
  clean reply -> w_evs w = [] -> fresh (st (w_bus w)) ->
  mbus_sendrecv_request B wret react (Some h) a reply mf w = Done (q, w') -> q_ret q = 0 ->
  Forall2 denotes (q_frames q) (map sl_telegram (firstn (Z.to_nat (Z.max 1 mf)) ps)).
Proof.
  intros echo h a ps fates B wret react turn st ok reply mf w q w' L Hok M Hh Ha Hr C Hw F E R.
  destruct (line_readout echo h a ps fates B wret react turn st ok reply mf w L Hok M Hh Ha Hr C Hw F) as (q1 & w1 & E1 & _ & _ & S1 & _).
  rewrite E1 in E. injection E as -> ->. apply S1. assumption.
Qed.
(** C59: with a limit that is not smaller than the message the whole message is delivered. *)
Theorem C59_whole :
  forall echo h a ps fates B wret react turn st ok reply mf w q w',
  line_of echo h a ps fates B wret react turn st ok -> ok (w_bus w) -> message ps -> hears_slaves h -> 0 <= a <= 255 -> 0 <= max_data_retry h ->
  clean reply -> w_evs w = [] -> fresh (st (w_bus w)) -> Z.of_nat (length ps) <= mf ->
  mbus_sendrecv_request B wret react (Some h) a reply mf w = Done (q, w') -> q_ret q = 0 ->
  Forall2 denotes (q_frames q) (map sl_telegram ps).
Proof.
  intros echo h a ps fates B wret react turn st ok reply mf w q w' L Hok M Hh Ha Hr C Hw F Hl E R.
  pose proof (C59_safe echo h a ps fates B wret react turn st ok reply mf w q w' L Hok M Hh Ha Hr C Hw F E R) as H.
  rewrite firstn_all2 in H by lia. exact H.
Qed.
(** C59: if no more than max_data_retry consecutive exchanges fail, the readout succeeds. *)
Theorem C59_live :
  forall echo h a ps fates B wret react turn st ok reply mf w,
  line_of echo h a ps fates B wret react turn st ok -> ok (w_bus w) -> message ps -> hears_slaves h -> 0 <= a <= 255 -> 0 <= max_data_retry h ->
  clean reply -> w_evs w = [] -> fresh (st (w_bus w)) -> recovers (max_data_retry h) fates ->
  exists q w', mbus_sendrecv_request B wret react (Some h) a reply mf w = Done (q, w') /\ q_ret q = 0 /\ w_evs w' = [].
Proof.
  intros echo h a ps fates B wret react turn st ok reply mf w L Hok M Hh Ha Hr C Hw F Rec.
  destruct (line_readout echo h a ps fates B wret react turn st ok reply mf w L Hok M Hh Ha Hr C Hw F) as (q1 & w1 & E1 & V & _ & _ & R).
  exists q1, w1. auto.
Qed.
(** C59: otherwise it fails with an error code; it never ends in undefined behaviour or runs forever. *)
Theorem C59_ends :
  forall echo h a ps fates B wret react turn st ok reply mf w,
  line_of echo h a ps fates B wret react turn st ok -> ok (w_bus w) -> message ps -> hears_slaves h -> 0 <= a <= 255 -> 0 <= max_data_retry h ->
  clean reply -> w_evs w = [] -> fresh (st (w_bus w)) ->
  exists q w', mbus_sendrecv_request B wret react (Some h) a reply mf w = Done (q, w') /\ (q_ret q = 0 \/ q_ret q = 1) /\ w_evs w' = [].
Proof.
  intros echo h a ps fates B wret react turn st ok reply mf w L Hok M Hh Ha Hr C Hw F.
  destruct (line_readout echo h a ps fates B wret react turn st ok reply mf w L Hok M Hh Ha Hr C Hw F) as (q1 & w1 & E1 & V & X & _ & _). eauto 10.
Qed.

(** ** A line that meets the hypotheses, for every message and every sequence of faults *)
Definition lossy (echo : bool) (ps : list slave) (fates : nat -> fate) (b : nat * station) (l : list Z) : (nat * station) * list ev :=
  let fcb := nth 1 l 0 =? 0x7B in
  let s := match fates (fst b) with RequestLost => snd b | _ => serve fcb (snd b) end in
  let body := match fates (fst b) with
    | Fine => match nth_error ps (served s - 1) with Some p => [MRecv.Data (wire (sl_telegram p))] | None => [] end
    | ReplyDamaged => [MRecv.Data [0xFF; 0x00]]
    | _ => [] end in
  ((S (fst b), s), if echo then MRecv.Data l :: body else body).

Lemma whole_then h t body : wire t <> [] -> next_telegram h (MRecv.Data (wire t) :: body) t body.
Proof.
  intros H. unfold next_telegram. destruct (is_serial h).
  - split; [|eauto]. rewrite <- (app_nil_r (wire t)) at 2. constructor; [assumption|]. constructor.
  - rewrite <- (app_nil_r (wire t)) at 2. constructor; [assumption|]. constructor.
Qed.
Theorem C59_line_exists : forall echo h a ps fates, (echo = true -> purge_first_frame h = PURGE_M2S) ->
  line_of echo h a ps fates (nat * station) (fun _ n => n) (lossy echo ps fates) fst snd (fun _ => True).
Proof.
  intros echo h a ps fates He. split; [reflexivity|auto|reflexivity|]. intros [n s] fcb _.
  assert (X : (nth 1 (data_request fcb a) 0 =? 0x7B) = fcb) by (destruct fcb; reflexivity).
  unfold lossy. rewrite X. cbn [fst snd]. eexists. split; [|split; [reflexivity|]].
  - unfold hears. destruct echo; [|reflexivity]. split; [auto|]. apply (whole_then h (Short (if fcb then 0x7B else 0x5B) a)). discriminate.
  - destruct (fates n); try reflexivity.
    + intros p Ep. rewrite Ep. apply whole_then. discriminate.
    + split; [split; [repeat constructor; eexists; split; [reflexivity|discriminate]|repeat constructor; unfold is_byte; lia]|].
      left. exists 0xFF, [0x00], []. split; [reflexivity|]. lia.
Qed.

(** A message of three telegrams with one byte of manufacturer data each. *)
Definition part (more : bool) (x : Z) : slave := mkSlave 0x08 1 [0x78; 0x56; 0x34; 0x12; 0x24; 0x40; 1; 7; 0; 0; 0; 0] [] (Some (more, [x])).
Definition ex_message : list slave := [part true 1; part true 2; part false 3].
Lemma part_ok more x : is_byte x -> wf_slave (part more x).
Proof.
  intros Hx. unfold wf_slave, part, sl_telegram. cbn [sl_c sl_a sl_header sl_items sl_tail]. split; [|split; [reflexivity|split; [reflexivity|split; [constructor|]]]].
  - unfold is_byte in Hx. destruct more; cbn [enc_body flat_map enc_tail app].
    all: split; [cbn; auto 10|]. all: split; [unfold byte_range; lia|]. all: split; [unfold byte_range; lia|]. all: split; [|cbn; lia].
    all: repeat (constructor; [unfold byte_range, tail_dif; lia|]). all: constructor.
  - cbn. repeat constructor; try lia; apply Hx.
Qed.
Example ex_message_ok : message ex_message.
Proof. split; [|cbn; auto]. repeat (constructor; [apply part_ok; unfold is_byte; lia|]). constructor. Qed.
(** Every third exchange succeeds. *)
Definition ex_fates (i : nat) : fate := match (i mod 3)%nat with 0%nat => RequestLost | 1%nat => if Nat.even i then ReplyDamaged else ReplyLost | _ => Fine end.
Definition start : world (nat * station) := mkW (0%nat, mkSt 0 None) [] [].
Definition reads (echo : bool) (ps : list slave) (fates : nat -> fate) (h : handle) (mf : Z) (w : world (nat * station)) : option (Z * list (list Z) * world (nat * station)) :=
  match mbus_sendrecv_request _ (fun _ n => n) (lossy echo ps fates) (Some h) 1 frame_zero mf w with
  | Done (q, w') => Some (q_ret q, map (fun f => firstn (Z.to_nat (data_size f)) (fdata f)) (q_frames q), w')
  | _ => None
  end.
Example ex_recovers : recovers (max_data_retry mbus_context_serial) ex_fates.
Proof.
  intros i. change (max_data_retry mbus_context_serial) with 3. unfold ex_fates. pose proof (Nat.mod_upper_bound i 3 ltac:(lia)).
  pose proof (Nat.div_mod i 3 ltac:(lia)). exists (3 * (i / 3) + 2)%nat. split; [lia|]. split; [lia|].
  replace ((3 * (i / 3) + 2) mod 3)%nat with 2%nat; [reflexivity|]. symmetry. rewrite Nat.add_comm, Nat.mul_comm, Nat.mod_add by lia. reflexivity.
Qed.
Example C59_example : exists w', reads true ex_message ex_fates mbus_context_serial 16 start =
  Some (0, map (fun s => sl_header s ++ enc_body (sl_items s) (sl_tail s)) ex_message, w') /\ sends (w_log w') = 9%nat.
Proof. eexists. split; vm_compute; reflexivity. Qed.

(** C59 needs a slave at the beginning of its message: a readout of one telegram leaves the slave with the frame count
    bit set; without a reset (the library sends none) the next readout gets that telegram again - reported as
    success. *)
Theorem C59_needs_reset :
  exists ps w1 w2, message ps /\
    reads false ps (fun _ => Fine) mbus_context_serial 16 start = Some (0, map (fun s => sl_header s ++ enc_body (sl_items s) (sl_tail s)) ps, w1) /\
    reads false ps (fun _ => Fine) mbus_context_serial 16 w1 = Some (0, map (fun s => sl_header s ++ enc_body (sl_items s) (sl_tail s)) (skipn 2 ps), w2) /\ length ps = 3%nat.
Proof. exists ex_message. eexists _, _. split; [exact ex_message_ok|]. split; [vm_compute; reflexivity|]. split; [vm_compute; reflexivity|reflexivity]. Qed.

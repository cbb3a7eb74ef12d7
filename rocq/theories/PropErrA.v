(** C97: what the calls that talk to the bus say on stderr and leave as error text. *)
From Coq Require Import String.
From Coq Require Import List.
From Verif Require Import CBase PBase CStr MFrame SWire SFrame PFrame MText MXml MRecv SRecv PRecv MVar MSecond MProto SProto PProto PProto2 SReq PReq PReq2 PropReq MErr SErr PErr MErrT SErrT MErrA SErrA PErrA PErrA2 PErrA3.
Local Open Scope Z_scope.

(** The calls, without and with their diagnostics. *)
Section Calls.
  Variable B : Type.
  Variable wret : B -> Z -> Z.
  Variable react : B -> list Z -> B * list ev.
  Variable why : list Z.
  Definition do_order (hp : option handle) (o : order) (w : world B) : out (Z * world B) :=
    match o with
    | ORequest a => mbus_send_request_frame B wret react hp a w
    | OBaud a baud => mbus_send_switch_baudrate_frame B wret react hp a baud w
    | OReset a sub => mbus_send_application_reset_frame B wret react hp a sub w
    | OData a data => mbus_send_user_data_frame B wret react hp a (Some data) (Z.of_nat (List.length data)) w
    | OAddress a new => mbus_set_primary_address B wret react hp a new w
    | OPing a => mbus_send_ping_frame B wret react hp a false w
    end.
  Definition do_order_d (hp : option handle) (o : order) (w : world B) (d : diag) : out (Z * world B * diag) :=
    match o with
    | ORequest a => mbus_send_request_frame_d B wret react why hp a w d
    | OBaud a baud => mbus_send_switch_baudrate_frame_d B wret react why hp a baud w d
    | OReset a sub => mbus_send_application_reset_frame_d B wret react why hp a sub w d
    | OData a data => mbus_send_user_data_frame_d B wret react why hp a (Some data) (Z.of_nat (List.length data)) w d
    | OAddress a new => mbus_set_primary_address_d B wret react why hp a new w d
    | OPing a => mbus_send_ping_frame_d B wret react why hp a false w d
    end.
End Calls.
(** write() returns an int (no telegram is longer than 2048 bytes). *)
Definition writes_int {B} (wret : B -> Z -> Z) : Prop := forall b n, 0 <= n <= 2048 -> - 2 ^ 31 <= wret b n < 2 ^ 31.
(** One more line on stderr, the error text as it was. *)
Definition one_line (d : diag) (m : list Z) : diag := mkDg (dg_text d) (dg_err d ++ m ++ [10]).

Lemma primary_one a : mbus_is_primary_address a = one_byte a.
Proof. unfold mbus_is_primary_address, one_byte. lia. Qed.
Lemma baud_known baud : existsb (Z.eqb baud) [300; 600; 1200; 2400; 4800; 9600; 19200; 38400] = match baud_ci baud with Some _ => true | None => false end.
Proof. unfold baud_ci. cbn [existsb]. repeat (match goal with |- context [baud =? ?x] => destruct (baud =? x) eqn:? end; cbn [orb]; try reflexivity). Qed.
Lemma one_byte_range a : one_byte a = true -> 0 <= a <= 255.
Proof. unfold one_byte. lia. Qed.

(** ** Calls that send one telegram *)
(** Arguments outside the range: nothing is sent, the result is -1 (1 for a ping), one line says which argument it was. *)
Theorem C97_rejected : forall B wret react why hp o m (w : world B) d, rejected o = Some m ->
  let r := match o with OPing _ => 1 | _ => -1 end in
  do_order B wret react hp o w = Done (r, w) /\ do_order_d B wret react why hp o w d = Done (r, w, one_line d m).
Proof.
  intros B wret react why hp o m w d H. unfold rejected in H. destruct o as [a|a baud|a sub|a data|a new|a]; cbn [do_order do_order_d];
    unfold mbus_send_request_frame, mbus_send_request_frame_d, mbus_send_switch_baudrate_frame, mbus_send_switch_baudrate_frame_d,
      mbus_send_application_reset_frame, mbus_send_application_reset_frame_d, mbus_set_primary_address, mbus_set_primary_address_d,
      mbus_send_user_data_frame, mbus_send_user_data_frame_d, mbus_send_ping_frame, mbus_send_ping_frame_d; rewrite ?primary_one;
    cbv zeta in H; cbn [order_name] in H.
  - destruct (one_byte a); [discriminate|]. injection H as <-. split; reflexivity.
  - destruct (one_byte a); cbn [negb] in *; [|injection H as <-; split; reflexivity]. rewrite baud_known in H. destruct (baud_ci baud); [discriminate|]. injection H as <-. split; reflexivity.
  - destruct (one_byte a); cbn [negb] in *; [|injection H as <-; split; reflexivity]. rewrite Z.gtb_ltb. destruct (255 <? sub); [|discriminate]. injection H as <-. split; reflexivity.
  - destruct (one_byte a); cbn [negb] in *; [|injection H as <-; split; reflexivity].
    replace ((Z.of_nat (List.length data) >? 252) || (Z.of_nat (List.length data) =? 0)) with ((List.length data =? 0)%nat || (252 <? List.length data)%nat) by lia.
    destruct (_ || _); [|discriminate]. injection H as <-. split; reflexivity.
  - destruct ((0 <=? new) && (new <=? 252)) eqn:R; cbn [negb] in H.
    + assert (N : one_byte new = true) by (unfold one_byte; lia). rewrite N. cbn [negb].
      replace ((new =? 0xFD) || (new =? 0xFE) || (new =? 0xFF)) with false by lia. rewrite ?primary_one. destruct (one_byte a); [discriminate|]. cbn [negb]. injection H as <-. split; reflexivity.
    + injection H as <-. destruct (one_byte new) eqn:N; cbn [negb]; [|split; reflexivity].
      replace ((new =? 0xFD) || (new =? 0xFE) || (new =? 0xFF)) with true by (unfold one_byte in N; lia). split; reflexivity.
  - destruct (one_byte a); [discriminate|]. injection H as <-. split; reflexivity.
Qed.
(** Arguments in the range: exactly one telegram is handed to write(). If all of it is taken the result is 0 and nothing
    is said. If not, the result is -1 and the last line names the call. Before it, on a serial line, there is a line with
    the value of write() and the system's reason; on TCP the error text holds that value instead. *)
Theorem C97_order : forall B wret react why h o (w : world B) d, hands_bytes react -> writes_int wret -> err_ok (dg_text d) -> ev_bytes (w_evs w) ->
  rejected o = None ->
  exists r w' d' bs ls, do_order B wret react (Some h) o w = Done (r, w') /\ do_order_d B wret react why (Some h) o w d = Done (r, w', d') /\
    w_log w' = w_log w ++ [Sent bs] /\
    write_told (is_serial h) why (wret (w_bus w) (Z.of_nat (List.length bs))) (Z.of_nat (List.length bs)) (dg_text d) r (dg_text d') ls /\
    wrote d d' (ls ++ (if r =? 0 then [] else [cstr (order_name o) ++ cstr ": failed to send mbus frame."])).
Proof.
  intros B wret react why h o w d RB WR He Hev H.
  assert (G : forall r w' d', do_order B wret react (Some h) o w = Done (r, w') -> do_order_d B wret react why (Some h) o w d = Done (r, w', d') ->
    sent B wret why h (cstr (order_name o) ++ cstr ": failed to send mbus frame.") w w' d d' r ->
    exists r w' d' bs ls, do_order B wret react (Some h) o w = Done (r, w') /\ do_order_d B wret react why (Some h) o w d = Done (r, w', d') /\
      w_log w' = w_log w ++ [Sent bs] /\
      write_told (is_serial h) why (wret (w_bus w) (Z.of_nat (List.length bs))) (Z.of_nat (List.length bs)) (dg_text d) r (dg_text d') ls /\
      wrote d d' (ls ++ (if r =? 0 then [] else [cstr (order_name o) ++ cstr ": failed to send mbus frame."]))).
  { intros r w' d' E1 E2 (bs & ls & S1 & S2 & S3). exists r, w', d', bs, ls. auto. }
  unfold rejected in H. cbv zeta in H. destruct o as [a|a baud|a sub|a data|a new|a]; cbn [do_order do_order_d order_name] in *.
  - destruct (one_byte a) eqn:A; [|discriminate]. apply one_byte_range in A.
    destruct (request_d B wret react why RB WR h a w d He Hev A) as (r & w' & d' & E1 & E2 & S1 & _). exact (G _ _ _ E1 E2 S1).
  - destruct (one_byte a) eqn:A; [|discriminate]. cbn [negb] in H. apply one_byte_range in A. rewrite baud_known in H. destruct (baud_ci baud) as [ci|] eqn:Hb; [|discriminate].
    destruct (baud_d B wret react why RB WR h a baud ci w d He Hev A Hb) as (r & w' & d' & E1 & E2 & S1 & _). exact (G _ _ _ E1 E2 S1).
  - destruct (one_byte a) eqn:A; [|discriminate]. cbn [negb] in H. apply one_byte_range in A. destruct (255 <? sub) eqn:Hs; [discriminate|].
    destruct (reset_d B wret react why RB WR h a sub w d He Hev A ltac:(lia)) as (r & w' & d' & E1 & E2 & S1 & _). exact (G _ _ _ E1 E2 S1).
  - destruct (one_byte a) eqn:A; [|discriminate]. cbn [negb] in H. apply one_byte_range in A. destruct (_ || _) eqn:Hl in H; [discriminate|].
    destruct (data_d B wret react why RB WR h a data w d He Hev A ltac:(lia)) as (r & w' & d' & E1 & E2 & S1 & _). exact (G _ _ _ E1 E2 S1).
  - destruct ((0 <=? new) && (new <=? 252)) eqn:R; [|discriminate]. cbn [negb] in H. destruct (one_byte a) eqn:A; [|discriminate]. apply one_byte_range in A.
    destruct (data_d B wret react why RB WR h a [1; 122; u8 new] w d He Hev A ltac:(cbn; lia)) as (r & w' & d' & E1 & E2 & S1 & _).
    unfold mbus_set_primary_address, mbus_set_primary_address_d in *.
    assert (N : mbus_is_primary_address new = true) by (unfold mbus_is_primary_address; lia). rewrite N in *. cbn [negb] in *.
    assert (X : (new =? 0xFD) || (new =? 0xFE) || (new =? 0xFF) = false) by lia. rewrite X in *. exact (G _ _ _ E1 E2 S1).
  - destruct (one_byte a) eqn:A; [|discriminate]. apply one_byte_range in A.
    destruct (ping_d B wret react why RB WR h a false w d He Hev A) as (r & w1 & d1 & w' & d' & new & S1 & E1 & E2 & _ & _ & Q & _). destruct (Q eq_refl) as (_ & -> & ->).
    exact (G _ _ _ E1 E2 S1).
Qed.
(** A ping that reads the replies as well says no more. *)
Theorem C97_ping : forall B wret react why h a (w : world B) d, hands_bytes react -> writes_int wret -> err_ok (dg_text d) -> ev_bytes (w_evs w) -> 0 <= a <= 255 ->
  exists r w' d', mbus_send_ping_frame B wret react (Some h) a true w = Done (r, w') /\
    mbus_send_ping_frame_d B wret react why (Some h) a true w d = Done (r, w', d') /\ (r = 0 \/ r = -1) /\
    said (is_serial h) why d d' (if r =? 0 then [] else [cstr "mbus_send_ping_frame: failed to send mbus frame."]).
Proof.
  intros B wret react why h a w d RB WR He Hev A.
  destruct (ping_d B wret react why RB WR h a true w d He Hev A) as (r & w1 & d1 & w' & d' & new & S1 & E1 & E2 & _ & _ & _ & _ & _ & S2 & _).
  exists r, w', d'. split; [exact E1|]. split; [exact E2|]. split; [exact (sent_result _ _ _ _ _ _ _ _ _ _ S1)|].
  destruct (sent_said B wret why h (cstr "mbus_send_ping_frame: failed to send mbus frame.") w w1 d d1 r eq_refl S1) as (bs & _ & T).
  rewrite <- (app_nil_r (if r =? 0 then _ else _)). exact (said_app _ _ _ _ _ _ _ T S2).
Qed.

(** ** Requests *)
Theorem C97_request : forall B wret react why h a reply mf (w : world B) d q w', hands_bytes react -> writes_int wret -> err_ok (dg_text d) -> ev_bytes (w_evs w) ->
  0 <= max_data_retry h -> reply_object reply -> 0 <= a <= 255 ->
  mbus_sendrecv_request B wret react (Some h) a reply mf w = Done (q, w') ->
  exists d' new, mbus_sendrecv_request_d B wret react why (Some h) a reply mf w d = Done (q, w', d') /\ w_log w' = w_log w ++ new /\
    said (is_serial h) why d d' (request_lines (q_ret q) (exchanges new)).
Proof.
  intros B wret react why h a reply mf w d q w' RB WR He Hev Hm Hr A E. unfold mbus_sendrecv_request in E. unfold mbus_sendrecv_request_d.
  assert (P : mbus_is_primary_address a = true) by (unfold mbus_is_primary_address; lia). rewrite P in *. cbn [negb] in *.
  destruct (request_loop_told B wret react why RB WR h a A Hm _ true (set_address (set_control (mbus_frame_new T_SHORT) (Z.lor (Z.lor (Z.lor 0x5B 0x40) 0x10) 0x20)) a) reply [] fd_zero [] None 0 0 mf w d q w' ltac:(repeat split; reflexivity) Hr Hev He ltac:(lia) E)
    as (d' & new & E2 & L & _ & _ & S1). exists d', new. split; [exact E2|]. split; [exact L|]. exact S1.
Qed.
Theorem C97_request_rejected : forall B wret react why h a reply mf (w : world B) d, ~ 0 <= a <= 255 ->
  mbus_sendrecv_request B wret react (Some h) a reply mf w = Done (mkRq 1 [reply] [], w) /\
  mbus_sendrecv_request_d B wret react why (Some h) a reply mf w d =
    Done (mkRq 1 [reply] [], w, one_line d (cstr "mbus_sendrecv_request: invalid address " ++ fmt_d a)).
Proof.
  intros B wret react why h a reply mf w d A. unfold mbus_sendrecv_request, mbus_sendrecv_request_d.
  assert (P : mbus_is_primary_address a = false) by (unfold mbus_is_primary_address; lia). rewrite P. split; reflexivity.
Qed.

(** ** Selection, search, reading, scan *)
Theorem C97_select : forall B wret react why h m (w : world B) d, hands_bytes react -> writes_int wret -> err_ok (dg_text d) -> ev_bytes (w_evs w) ->
  exists r w' d' new, mbus_select_secondary_address B wret react (Some h) m w = Done (r, w') /\
    mbus_select_secondary_address_d B wret react why (Some h) m w d = Done (r, w', d') /\ w_log w' = w_log w ++ new /\
    said (is_serial h) why d d' (select_lines m r (exchanges new) (c_text (dg_text d'))).
Proof.
  intros B wret react why h m w d RB WR He Hev. destruct (select_d B wret react why RB WR h m w d He Hev) as (r & w' & d' & new & E1 & E2 & L & _ & _ & _ & _ & _ & S1).
  exists r, w', d', new. auto.
Qed.
Theorem C97_probe : forall B wret react why h m buf (w : world B) d r buf' w', hands_bytes react -> writes_int wret -> err_ok (dg_text d) -> ev_bytes (w_evs w) ->
  mbus_probe_secondary_address B wret react (Some h) m buf w = Done (r, buf', w') ->
  exists d' ls, mbus_probe_secondary_address_d B wret react why (Some h) m buf w d = Done (r, buf', w', d') /\
    said (is_serial h) why d d' ls /\ probe_lines m r (c_text (dg_text d')) ls.
Proof.
  intros B wret react why h m buf w d r buf' w' RB WR He Hev E. destruct (probe_told B wret react why RB WR h m buf w d r buf' w' He Hev E) as (d' & ls & E2 & _ & _ & _ & S1 & P).
  exists d', ls. auto.
Qed.
Theorem C97_read_primary : forall B wret react why h a reply (w : world B) d r f' w', hands_bytes react -> writes_int wret -> err_ok (dg_text d) -> ev_bytes (w_evs w) ->
  reply_object reply -> 0 <= a <= 255 ->
  mbus_read_slave B wret react (Some h) (Primary a) reply w = Done (r, f', w') ->
  exists d' new, mbus_read_slave_d B wret react why (Some h) (Primary a) reply w d = Done (r, f', w', d') /\ w_log w' = w_log w ++ new /\
    said (is_serial h) why d d' (reading (exchanges new)).
Proof.
  intros B wret react why h a reply w d r f' w' RB WR He Hev Hr A E.
  destruct (read_primary_told B wret react why RB WR h a reply w d r f' w' He Hev A Hr E) as (d' & new & E2 & L & _ & S1). exists d', new. auto.
Qed.
(** By secondary address: the lines of the selection, whose result is p, then those of the reading. *)
Theorem C97_read_secondary : forall B wret react why h s reply (w : world B) d r f' w', hands_bytes react -> writes_int wret -> err_ok (dg_text d) -> ev_bytes (w_evs w) ->
  reply_object reply ->
  mbus_read_slave B wret react (Some h) (Secondary (Some s)) reply w = Done (r, f', w') ->
  exists p w1 d1 d' new1 new2, mbus_select_secondary_address B wret react (Some h) s w = Done (p, w1) /\
    mbus_select_secondary_address_d B wret react why (Some h) s w d = Done (p, w1, d1) /\
    mbus_read_slave_d B wret react why (Some h) (Secondary (Some s)) reply w d = Done (r, f', w', d') /\
    w_log w1 = w_log w ++ new1 /\ w_log w' = w_log w1 ++ new2 /\
    said (is_serial h) why d d' (select_lines s p (exchanges new1) (c_text (dg_text d1)) ++ read_lines s p (exchanges new2)).
Proof.
  intros B wret react why h s reply w d r f' w' RB WR He Hev Hr E.
  destruct (read_secondary_told B wret react why RB WR h s reply w d r f' w' He Hev Hr E) as (p & w1 & d1 & d' & n1 & n2 & E1 & E2 & L1 & L2 & _ & E3 & S1).
  exists p, w1, d1, d', n1, n2. auto 10.
Qed.
(** The scan of a mask: only lines of searches for masks below it; -1 comes with the mask that failed as the last line. *)
Theorem C97_scan : forall B wret react why h pos mask (w : world B) d r w', hands_bytes react -> writes_int wret -> err_ok (dg_text d) -> ev_bytes (w_evs w) ->
  List.length mask = 16%nat ->
  mbus_scan_2nd_address_range B wret react (Some h) pos mask w = Done (r, w') ->
  exists d' ls, mbus_scan_2nd_address_range_d B wret react why (Some h) pos mask w d = Done (r, w', d') /\
    said (is_serial h) why d d' ls /\ scan_lines mask r ls.
Proof.
  intros B wret react why h pos mask w d r w' RB WR He Hev L E. unfold mbus_scan_2nd_address_range in E. unfold mbus_scan_2nd_address_range_d. rewrite L in *.
  change (16 =? 16)%nat with true in *. cbn [negb] in *. destruct (_ || _).
  - injection E as <- <-. exists d, []. split; [reflexivity|]. split; [apply said_none|apply scan_lines_nil].
  - destruct (scan_told B wret react why RB WR h _ mask w d r w' L He Hev E) as (d' & ls & E2 & _ & _ & S1 & Q). exists d', ls. auto.
Qed.
(** TCP: the lines named are all there is on stderr, in this order. *)
Theorem C97_tcp_exact : forall why d d' own, said false why d d' own -> dg_err d' = dg_err d ++ concat (map (fun m => m ++ [10]) own).
Proof. intros why d d' own H. exact (said_tcp _ _ _ _ H). Qed.
(** Calls without a handle, and the other arguments they check. *)
Theorem C97_no_handle : forall B wret react why (w : world B) d f,
  (mbus_recv_frame_d B None f w d = Done (RECV_ERROR, f, w, one_line d (cstr "mbus_recv_frame: Invalid M-Bus handle for receive."))) /\
  (forall a mf, mbus_sendrecv_request_d B wret react why None a f mf w d = Done (mkRq 1 [f] [], w, one_line d (cstr "mbus_sendrecv_request: Invalid M-Bus handle for request."))) /\
  (forall a, mbus_read_slave_d B wret react why None a f w d = Done (-1, f, w, one_line d (cstr "mbus_read_slave: Invalid handle or address."))) /\
  (forall h, mbus_read_slave_d B wret react why (Some h) (Secondary None) f w d = Done (-1, f, w, one_line d (cstr "mbus_read_slave: Secondary address not set."))) /\
  (forall pos m, mbus_scan_2nd_address_range_d B wret react why None pos m w d = Done (-1, w, one_line d (cstr "mbus_scan_2nd_address_range: Invalid handle or address mask."))) /\
  (forall h pos m, List.length m <> 16%nat -> mbus_scan_2nd_address_range_d B wret react why (Some h) pos m w d =
     Done (-1, w, one_line d (cstr "mbus_scan_2nd_address_range: Illegal address mask [" ++ m ++ cstr "]. Not 16 characters long."))).
Proof.
  intros B wret react why w d f. repeat (split; [reflexivity|]). intros h pos m L. unfold mbus_scan_2nd_address_range_d. apply Nat.eqb_neq in L. rewrite L. reflexivity.
Qed.
(** Sending without a handle reports success, in spite of the line. *)
Theorem C97_no_handle_refuted : forall B wret react why o (w : world B) d, rejected o = None ->
  do_order B wret react None o w = Done (0, w) /\
  do_order_d B wret react why None o w d = Done (0, w, one_line d (cstr "mbus_send_frame: Invalid M-Bus handle for send.")).
Proof.
  intros B wret react why o w d H. unfold rejected in H. cbv zeta in H.
  assert (CP : forall n dst src, (n <= List.length src)%nat -> (n <= List.length dst)%nat -> exists dt, copy_loop n dst 0 src 0 = Ok dt).
  { intros n dst src H1 H2. rewrite (copy_loop_ok n dst 0 src 0) by lia. eauto. }
  destruct o as [a|a baud|a sub|a data|a new|a]; cbn [do_order do_order_d];
    unfold mbus_send_request_frame, mbus_send_request_frame_d, mbus_send_switch_baudrate_frame, mbus_send_switch_baudrate_frame_d,
      mbus_send_application_reset_frame, mbus_send_application_reset_frame_d, mbus_set_primary_address, mbus_set_primary_address_d, 
      mbus_send_user_data_frame, mbus_send_user_data_frame_d, mbus_send_ping_frame, mbus_send_ping_frame_d, send_or_tell; rewrite ?primary_one.
  - destruct (one_byte a); [|discriminate]. split; reflexivity.
  - destruct (one_byte a); [|discriminate]. cbn [negb] in H. rewrite baud_known in H. destruct (baud_ci baud); [|discriminate]. split; reflexivity.
  - destruct (one_byte a); [|discriminate]. cbn [negb] in *. rewrite Z.gtb_ltb. destruct (255 <? sub); [discriminate|]. cbv zeta. destruct (sub >=? 0); split; reflexivity.
  - destruct (one_byte a); [|discriminate]. cbn [negb] in *. destruct (_ || _) eqn:Hl in H; [discriminate|].
    replace ((Z.of_nat (List.length data) >? 252) || (Z.of_nat (List.length data) =? 0)) with false by lia. cbv zeta.
    destruct (CP (Z.to_nat (Z.of_nat (List.length data))) (fdata (set_ci (set_address (set_control (mbus_frame_new T_LONG) (Z.lor 0x53 0x40)) a) 0x51)) data ltac:(lia)
      ltac:(cbn [fdata set_ci set_address set_control mbus_frame_new]; cbn; lia)) as (dt & ->). split; reflexivity.
  - destruct ((0 <=? new) && (new <=? 252)) eqn:R; [|discriminate]. cbn [negb] in H. destruct (one_byte a) eqn:A; [|discriminate].
    assert (N : one_byte new = true) by (unfold one_byte; lia). rewrite N. cbn [negb].
    replace ((new =? 0xFD) || (new =? 0xFE) || (new =? 0xFF)) with false by lia. rewrite ?primary_one, A. split; reflexivity.
  - destruct (one_byte a); [|discriminate]. split; reflexivity.
Qed.

(** ** Examples and findings *)
Definition text_of (m : list Z) : list Z := m ++ repeat 0 (512 - List.length m)%nat.
Definition quiet_bus (b : nat) (l : list Z) : nat * list ev := (S b, []).
(** The failing write of the [k]-th telegram. *)
Definition fails_at (k : nat) (b : nat) (n : Z) : Z := if (b =? k)%nat then -1 else n.
Definition lines (ls : list (list Z)) : list Z := concat (map (fun m => m ++ [10]) ls).

Example C97_nonvacuous_request :
  match mbus_sendrecv_request_d _ all_taken script [] (Some mbus_context_tcp) 5 frame_zero 3
          (mkW [[]; [Data [0x33]]; [Data (var_bytes (Some (true, [])))]; [Data [0x44]]; [Data (var_bytes None)]] [] []) (mkDg (text_of []) []) with
  | Done (q, w', d') => q_ret q = 0 /\
      dg_err d' = lines [cstr "mbus_sendrecv_request: No M-Bus response frame received."; cstr "mbus_sendrecv_request: Received invalid M-Bus response frame.";
                         cstr "mbus_sendrecv_request: Received invalid M-Bus response frame."] /\
      c_text (dg_text d') = cstr "M-Bus tcp transport layer response timeout has been reached."
  | _ => False
  end.
Proof. vm_compute. auto. Qed.
Example C97_nonvacuous_order :
  let d0 := mkDg (text_of []) [] in
  rejected (OAddress 5 253) = Some (cstr "mbus_set_primary_address: invalid address 253") /\
  rejected (OBaud 5 2400) = None /\ err_ok (dg_text d0) /\ hands_bytes quiet_bus /\ writes_int (fails_at 0) /\
  match do_order_d _ (fails_at 0) quiet_bus (cstr "Input/output error") (Some mbus_context_serial) (OBaud 5 2400) (mkW 0%nat [] []) d0 with
  | Done (r, w', d') => r = -1 /\ dg_err d' = lines [cstr "mbus_serial_send_frame: Failed to write frame to socket (ret = -1: Input/output error)";
                                                    cstr "mbus_send_switch_baudrate_frame: failed to send mbus frame."]
  | _ => False
  end.
Proof.
  split; [reflexivity|]. split; [reflexivity|]. split; [split; [reflexivity|left; reflexivity]|]. split; [exact (fun b l => I)|].
  split; [intros b n H; unfold fails_at; destruct (b =? 0)%nat; lia|]. vm_compute. auto.
Qed.
(** A search and a reading on a bus where nobody answers, and where the selected slave answers with an acknowledgement. *)
Definition acks (b : nat) (l : list Z) : nat * list ev := (S b, [MRecv.Data [0xE5]; MRecv.Data []]).
Example C97_nonvacuous_secondary :
  let d0 := mkDg (text_of []) [] in let m := cstr "12345678FFFFFFFF" in
  match mbus_read_slave_d _ (fails_at 9) quiet_bus [] (Some mbus_context_tcp) (Secondary (Some m)) frame_zero (mkW 0%nat [] []) d0,
        mbus_read_slave_d _ (fails_at 1) (fun b l => if (b =? 0)%nat then acks b l else quiet_bus b l) [] (Some mbus_context_tcp) (Secondary (Some m)) frame_zero (mkW 0%nat [] []) d0 with
  | Done (r, _, _, d1), Done (r2, _, _, d2) =>
      r = -1 /\ dg_err d1 = lines [cstr "mbus_read_slave: The selected secondary address [12345678FFFFFFFF] does not match any device."] /\
      r2 = -1 /\ dg_err d2 = lines [cstr "mbus_send_request_frame: failed to send mbus frame."; cstr "mbus_read_slave: Failed to send M-Bus request frame."]
  | _, _ => False
  end.
Proof. vm_compute. auto. Qed.
(** A serial line: the reason given for a selection that could not be sent is the text of whatever failed before. *)
Theorem C97_stale_reason_refuted : exists m : list Z, forall t : list Z,
  match mbus_select_secondary_address_d _ (fails_at 0) quiet_bus (cstr "Input/output error") (Some mbus_context_serial) m (mkW 0%nat [] []) (mkDg t []) with
  | Done (r, _, d') => r = PROBE_ERROR /\ dg_text d' = t /\
      dg_err d' = lines [cstr "mbus_serial_send_frame: Failed to write frame to socket (ret = -1: Input/output error)";
                                cstr "mbus_send_select_frame: Failed to send mbus frame.";
                                cstr "mbus_select_secondary_address: Failed to send selection frame: " ++ c_text t ++ cstr "."]
  | _ => False
  end.
Proof.
  exists (cstr "12345678FFFFFFFF"). intros t. vm_compute. split; [reflexivity|]. split; [reflexivity|]. do 400 try apply (f_equal2 (@cons Z) eq_refl). exact (eq_sym (app_nil_r ((c_text t ++ [46]) ++ [10]))).
Qed.
(** A scan whose search failed below a collision says so, and all the same returns 0. *)
Definition garbled (b : nat) (l : list Z) : nat * list ev := (S b, if (b =? 0)%nat then [MRecv.Data [0x33]] else []).
Theorem C97_hidden_failure_refuted :
  match mbus_scan_2nd_address_range_d _ (fails_at 1) garbled [] (Some mbus_context_tcp) 0 (cstr "FF00000000000000") (mkW 0%nat [] []) (mkDg (text_of []) []) with
  | Done (r, w', d') => r = 0 /\
      dg_err d' = lines [cstr "mbus_send_select_frame: Failed to send mbus frame.";
        cstr "mbus_select_secondary_address: Failed to send selection frame: mbus_tcp_send_frame: Failed to write frame to socket (ret = -1)" ++ [10] ++ cstr ".";
        cstr "mbus_scan_2nd_address_range: Failed to probe secondary address [0000000000000000]."]
  | _ => False
  end.
Proof. vm_compute. auto. Qed.

Print Assumptions C97_rejected.
Print Assumptions C97_order.
Print Assumptions C97_ping.
Print Assumptions C97_request.
Print Assumptions C97_request_rejected.
Print Assumptions C97_select.
Print Assumptions C97_probe.
Print Assumptions C97_read_primary.
Print Assumptions C97_read_secondary.
Print Assumptions C97_scan.
Print Assumptions C97_tcp_exact.
Print Assumptions C97_no_handle.
Print Assumptions C97_no_handle_refuted.
Print Assumptions C97_stale_reason_refuted.
Print Assumptions C97_hidden_failure_refuted.

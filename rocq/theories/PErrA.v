(** Proofs about the diagnostics of the protocol procedures. *)
From Coq Require Import String.
From Coq Require Import List.
From Verif Require Import CBase PBase CStr MFrame SWire SFrame PFrame PFrame2 MText MXml MRecv SRecv PRecv MVar SVar MSecond MProto SProto PProto PProto2 PReq PReq2 MDouble MConn MErr SErr PErr PErr2 PErr3 PErr4 PErr5 MErrT SErrT PErrT PropErr PropErrT MErrA SErrA.
Local Open Scope Z_scope.

Definition sized (f : frame) : Prop := 0 <= data_size f <= 252.
Lemma parse_size f bs r f' : sized f -> bytes bs -> mbus_parse f bs = Ok (r, f') -> sized f'.
Proof.
  intros Hf Hb E.
  assert (RD : forall i b, rd bs i = Ok b -> is_byte b).
  { intros i b X. apply rd_inv in X. destruct X as [Hl <-]. apply bytes_nth; assumption. }
  unfold sized in *. unfold mbus_parse in E.
  repeat match type of E with
  | context [bind (copy_loop ?n ?d ?o ?s ?i) _] => destruct (copy_loop n d o s i) as [?|]; cbn [bind] in E; [|discriminate]
  | context [bind (rd ?l ?i) _] => let E' := fresh "E'" in destruct (rd l i) eqn:E'; cbn [bind] in E; [apply RD in E'|discriminate]
  | context [bind (mbus_frame_verify ?x) _] => destruct (mbus_frame_verify x); cbn [bind] in E; [|discriminate]
  | (if ?b then _ else _) = _ => destruct b eqn:?
  end; apply ok_inj in E;
  (match type of E with (_, ?g) = _ => assert (X : g = f') by congruence end);
  rewrite <- X; unfold set_next; cbn [data_size]; unfold is_byte in *; lia.
Qed.
Lemma tcp_size : forall fuel f evs got rem c f' es g, sized f -> bytes got -> ev_bytes evs -> tcp_loop fuel f evs got rem = Ok (Some (c, f', es, g)) -> sized f'.
Proof.
  induction fuel as [|fuel IH]; intros f evs got rem c f' es g Hf Hb Hev E; [discriminate|]. cbn [tcp_loop] in E.
  destruct (_ >? PACKET_BUFF_SIZE); [injection E as <- <- <- <-; exact Hf|].
  destruct (read_ev (RErr EAgain) evs (Z.to_nat rem)) as [[bs|x] es'] eqn:Er.
  - destruct (read_bytes_stream _ _ _ _ _ (or_intror (ex_intro _ EAgain eq_refl)) Er) as (_ & _ & HB & _). destruct (HB Hev) as [Hbs Hes].
    destruct (List.length bs =? 0)%nat; [injection E as <- <- <- <-; exact Hf|]. cbv zeta in E.
    destruct (_ >? PACKET_BUFF_SIZE); [discriminate|].
    assert (Hg : bytes (got ++ bs)) by (apply Forall_app; auto).
    destruct (mbus_parse f (got ++ bs)) as [[r f1]|] eqn:P; cbn [bind] in E; [|discriminate].
    pose proof (parse_size _ _ _ _ Hf Hg P) as S1.
    destruct (r >? 0); [eapply IH; eassumption|]. destruct (r <? 0); injection E as <- <- <- <-; exact S1.
  - destruct (read_err_stream evs _ x es' (RErr EAgain) (or_intror eq_refl) Er) as (_ & _ & HB & _). specialize (HB Hev).
    destruct x; try (injection E as <- <- <- <-; exact Hf). eapply IH; eassumption.
Qed.
Lemma serial_size : forall fuel f evs got rem tm c f' es g, sized f -> bytes got -> ev_bytes evs -> serial_loop fuel f evs got rem tm = Ok (Some (c, f', es, g)) -> sized f'.
Proof.
  assert (FIN : forall f evs got rem c f' es g, sized f -> serial_finish f evs got rem = Ok (Some (c, f', es, g)) -> sized f').
  { intros f evs got rem c f' es g Hf E. unfold serial_finish in E. destruct (_ =? 0)%nat; [|destruct (negb (rem =? 0))]; injection E as <- <- <- <-; exact Hf. }
  induction fuel as [|fuel IH]; intros f evs got rem tm c f' es g Hf Hb Hev E; [discriminate|]. cbn [serial_loop] in E.
  destruct (_ >? PACKET_BUFF_SIZE); [injection E as <- <- <- <-; exact Hf|].
  destruct (read_ev (RBytes []) evs (Z.to_nat rem)) as [[bs|x] es'] eqn:Er; [|injection E as <- <- <- <-; exact Hf].
  destruct (read_bytes_stream _ _ _ _ _ (or_introl eq_refl) Er) as (_ & _ & HB & _). destruct (HB Hev) as [Hbs Hes]. cbv zeta in E.
  destruct (_ && _); [eapply FIN; eassumption|]. destruct (_ >? PACKET_BUFF_SIZE); [discriminate|].
  assert (Hg : bytes (got ++ bs)) by (apply Forall_app; auto).
  destruct (mbus_parse f (got ++ bs)) as [[r f1]|] eqn:P; cbn [bind] in E; [|discriminate].
  pose proof (parse_size _ _ _ _ Hf Hg P) as S1.
  destruct (r >? 0); [eapply IH; eassumption|eapply FIN; eassumption].
Qed.
Lemma handle_size h f evs c f' es g : sized f -> ev_bytes evs -> handle_recv h f evs = Done (c, f', es, g) -> sized f'.
Proof.
  intros Hf Hev E. unfold handle_recv in E. destruct (is_serial h).
  - unfold mbus_serial_recv_frame in E. destruct (serial_loop _ _ _ _ _ _) as [[[[[? ?] ?] ?]|]|] eqn:L; cbn [lift obind] in E; try discriminate.
    injection E as <- <- <- <-. eapply serial_size; [exact Hf| |exact Hev|exact L]. constructor.
  - unfold mbus_tcp_recv_frame in E. destruct (tcp_loop _ _ _ _ _) as [[[[[? ?] ?] ?]|]|] eqn:L; cbn [lift obind] in E; try discriminate.
    injection E as <- <- <- <-. eapply tcp_size; [exact Hf| |exact Hev|exact L]. constructor.
Qed.

(** A frame object as the calls below keep them. *)
Definition sound (f : frame) : Prop := frame_obj f /\ frame_bytes f /\ sized f.
Lemma sound_zero : sound frame_zero.
Proof. split; [reflexivity|]. split; [|unfold sized; cbn; lia]. split; vm_compute; repeat constructor; discriminate. Qed.
Lemma sound_any : sound (mbus_frame_new T_ANY).
Proof. split; [reflexivity|]. split; [|unfold sized; cbn; lia]. split; vm_compute; repeat constructor; discriminate. Qed.
Lemma sound_carries f : sound f -> exists p, carries f p /\ is_byte (control f) /\ is_byte (ctrl_info f).
Proof.
  intros (Ho & [Hf Hd] & Hs). exists (firstn (Z.to_nat (data_size f)) (fdata f)). unfold frame_obj, sized in *.
  assert (L : List.length (firstn (Z.to_nat (data_size f)) (fdata f)) = Z.to_nat (data_size f)) by (rewrite firstn_length; unfold DATA_LEN in *; lia).
  split; [|rewrite !bytes_cons in Hf; tauto]. unfold carries. rewrite L. unfold DATA_LEN in *. split; [assumption|]. split; [assumption|]. split; [lia|]. split; [reflexivity|lia].
Qed.

Lemma wrote_none d : wrote d d [].
Proof. unfold wrote. cbn. rewrite app_nil_r. reflexivity. Qed.
Lemma wrote_app d1 d2 d3 a b : wrote d1 d2 a -> wrote d2 d3 b -> wrote d1 d3 (a ++ b).
Proof. unfold wrote. intros -> ->. rewrite map_app, concat_app, app_assoc. reflexivity. Qed.
Lemma wrote_tell d d' ls m : wrote d d' ls -> wrote d (tell d' m) (ls ++ [m]).
Proof. intros H. apply (wrote_app d d' _ _ [m] H). unfold wrote, tell, nl. cbn. rewrite app_nil_r. reflexivity. Qed.
Lemma wrote_text d d' ls e : wrote d d' ls -> wrote d (mkDg e (dg_err d')) ls.
Proof. exact (fun H => H). Qed.
Lemma tell_text d m : dg_text (tell d m) = dg_text d.
Proof. reflexivity. Qed.


(** Lines by origin. *)
Lemma own_app a b : own_lines (a ++ b) = own_lines a ++ own_lines b.
Proof. apply filter_app. Qed.
Lemma said_app s y d1 d2 d3 a b : said s y d1 d2 a -> said s y d2 d3 b -> said s y d1 d3 (a ++ b).
Proof.
  intros (l1 & W1 & <- & F1) (l2 & W2 & <- & F2). exists (l1 ++ l2). split; [exact (wrote_app _ _ _ _ _ W1 W2)|]. split; [apply own_app|apply Forall_app; auto].
Qed.
Lemma said_none s y d : said s y d d [].
Proof. exists []. split; [apply wrote_none|]. split; [reflexivity|constructor]. Qed.
Lemma said_line s y d m : transport_line m = false -> said s y d (tell d m) [m].
Proof.
  intros T. exists [m]. split; [exact (wrote_tell d d [] m (wrote_none d))|]. split; [unfold own_lines; cbn [filter]; rewrite T; reflexivity|].
  constructor; [rewrite T; discriminate|constructor].
Qed.
Lemma said_tell s y d d' a m : transport_line m = false -> said s y d d' a -> said s y d (tell d' m) (a ++ [m]).
Proof. intros T H. exact (said_app _ _ _ _ _ _ _ H (said_line s y d' m T)). Qed.
Lemma said_text s y d d' a e : said s y d d' a -> said s y d (mkDg e (dg_err d')) a.
Proof. exact (fun H => H). Qed.
Lemma said_remarks s y d d' ls : wrote d d' ls -> Forall (remark s) ls -> said s y d d' [].
Proof.
  intros W1 F. exists ls. split; [exact W1|]. split.
  - clear W1. induction F as [|x ls [_ ->] _ IH]; [reflexivity|exact IH].
  - eapply Forall_impl; [|exact F]. intros m [Hs ->] _. split; auto.
Qed.
Lemma failed_transport y n : transport_line (failed_write y n) = true.
Proof. reflexivity. Qed.
Lemma said_write s y n len e r e' d d' ls : wrote d d' ls -> write_told s y n len e r e' ls -> said s y d d' [].
Proof.
  intros W1 T. exists ls. split; [exact W1|]. destruct T; (split; [reflexivity|]); try constructor; [|constructor].
  intros _. split; [assumption|]. right. eexists. reflexivity.
Qed.
Lemma said_tcp y d d' a : said false y d d' a -> wrote d d' a.
Proof.
  intros (ls & W1 & <- & F). replace (own_lines ls) with ls; [exact W1|]. unfold own_lines. clear W1.
  induction F as [|x ls H _ IH]; [reflexivity|]. cbn [filter]. destruct (transport_line x) eqn:T; [destruct (H eq_refl); discriminate|]. cbn [negb]. rewrite <- IH. reflexivity.
Qed.

Lemma id_loop_ok : forall s d j k, (j < List.length d)%nat -> exists d', id_loop s d j k = Ok d' /\ List.length d' = List.length d.
Proof.
  induction s as [|c s IH]; intros d j k H; [exists d; auto|]. cbn [id_loop]. rewrite rd_ok by assumption. cbn [bind]. rewrite wr_ok by assumption. cbn [bind].
  destruct (k - 1 <? 0).
  - destruct (IH (upd d j (u8 (Z.lor (nth j d 0) (Z.shiftl (if (c =? 70) || (c =? 102) then 15 else Z.land 15 (c - 48)) (4 * k))))) (j - 1)%nat 1) as (d' & E & L); [rewrite upd_length; lia|].
    exists d'. rewrite upd_length in L. auto.
  - destruct (IH (upd d j (u8 (Z.lor (nth j d 0) (Z.shiftl (if (c =? 70) || (c =? 102) then 15 else Z.land 15 (c - 48)) (4 * k))))) j (k - 1)) as (d' & E & L); [rewrite upd_length; lia|].
    exists d'. rewrite upd_length in L. auto.
Qed.
Lemma pack_any s : mbus_is_secondary_address s = true ->
  exists f, mbus_frame_select_secondary_pack (mbus_frame_new T_LONG) s = Ok (0, f) /\ frame_obj f /\ ftype f = 4 /\ data_size f = 8.
Proof.
  intros H. unfold mbus_frame_select_secondary_pack. rewrite H. cbn [negb].
  set (d0 := fdata (set_ci (set_address (set_control (mbus_frame_new T_LONG) (Z.lor (Z.lor 0x53 0x40) 0x20)) 0xFD) 0x52)).
  assert (L0 : List.length d0 = 252%nat) by reflexivity. clearbody d0.
  rewrite wr_ok by lia. cbn [bind]. rewrite wr_ok by (rewrite upd_length; lia). cbn [bind]. rewrite wr_ok by (rewrite !upd_length; lia). cbn [bind].
  rewrite wr_ok by (rewrite !upd_length; lia). cbn [bind]. rewrite put_list_ok by (rewrite !upd_length; cbn; lia). cbn [bind].
  match goal with |- context [id_loop ?a ?b ?c ?e] => destruct (id_loop_ok a b c e) as (d' & E & L) end.
  { rewrite !app_length, firstn_length, skipn_length, !upd_length. cbn. lia. }
  rewrite E. cbn [bind]. eexists. split; [reflexivity|]. split; [|split; reflexivity].
  unfold frame_obj. cbn [set_data fdata]. rewrite L, !app_length, firstn_length, skipn_length, !upd_length, L0. reflexivity.
Qed.

Section OnBus.
  Variable B : Type.
  Variable wret : B -> Z -> Z.
  Variable react : B -> list Z -> B * list ev.
  Variable why : list Z.
  Hypothesis RB : forall b l, ev_bytes (snd (react b l)).
  Hypothesis WR : forall b n, 0 <= n <= 2048 -> - 2 ^ 31 <= wret b n < 2 ^ 31.
  Notation W := (world B).
  Definition inv (d : diag) : Prop := err_ok (dg_text d).

  Lemma handle_d h f evs d : inv d -> sound f -> ev_bytes evs ->
    exists c f' evs' got d' ls, handle_recv h f evs = Done (c, f', evs', got) /\ handle_recv_d h f evs d = Done (c, f', evs', got, d') /\
      wrote d d' ls /\ Forall (remark (is_serial h)) ls /\ inv d' /\ sound f' /\ ev_bytes evs' /\ recv_told (is_serial h) (dg_text d) c got (dg_text d') (concat (map (fun m => m ++ [10]) ls)).
  Proof.
    intros He (Ho & Hf & Hs) Hev. destruct (handle_told h (dg_text d) f evs (proj1 He) Ho Hf Hev) as (c & f' & evs' & got & e' & err & E1 & E2 & T & L & O & F & V & _).
    assert (K : exists ls, err = concat (map (fun m => m ++ [10]) ls) /\ Forall (remark (is_serial h)) ls).
    { unfold recv_told in T. destruct (is_serial h); [|exists []; split; [exact (proj2 T)|constructor]].
      inversion T; subst; try (exists []; split; [reflexivity|constructor]).
      exists [cut_short]. split; [cbn; rewrite ?app_nil_r; reflexivity|]. constructor; [split; reflexivity|constructor]. }
    assert (L' : err_ok e').
    { unfold recv_told in T. destruct (is_serial h).
      - inversion T; subst; try exact He; match goal with H : says _ _ |- _ => exact (proj1 H) end.
      - destruct T as [T _]. unfold told in T. destruct (tcp_text c); [exact (proj1 T)|subst; exact He]. }
    destruct K as (ls & -> & K). exists c, f', evs', got, (mkDg e' (dg_err d ++ concat (map (fun m => m ++ [10]) ls))), ls.
    split; [exact E1|]. split; [unfold handle_recv_d; rewrite E2; reflexivity|]. split; [reflexivity|]. split; [exact K|]. split; [exact L'|].
    split; [|split; [exact V|exact T]]. split; [exact O|]. split; [exact F|]. exact (handle_size _ _ _ _ _ _ _ Hs Hev E1).
  Qed.

  Lemma recv_d h f (w : W) d : inv d -> sound f -> ev_bytes (w_evs w) ->
    exists c f' evs' got d' ls, let w' := mkW (w_bus w) evs' (w_log w ++ [Received c got]) in
      mbus_recv_frame B (Some h) f w = Done (c, f', w') /\ mbus_recv_frame_d B (Some h) f w d = Done (c, f', w', d') /\
      wrote d d' ls /\ Forall (remark (is_serial h)) ls /\ inv d' /\ sound f' /\ ev_bytes evs'.
  Proof.
    intros He Hf Hev. destruct (handle_d h f (w_evs w) d He Hf Hev) as (c & f1 & evs1 & got & d1 & ls & E1 & E2 & W1 & K1 & L1 & S1 & V1 & _).
    unfold mbus_recv_frame, mbus_recv_frame_d. rewrite E1, E2. cbn [obind]. cbv zeta.
    destruct (_ || _).
    - destruct (handle_d h f1 evs1 d1 L1 S1 V1) as (c2 & f2 & evs2 & got2 & d2 & ls2 & E3 & E4 & W2 & K2 & L2 & S2 & V2 & _).
      rewrite E3, E4. cbn [obind]. exists c2, f2, evs2, got2, d2, (ls ++ ls2).
      split; [reflexivity|]. split; [reflexivity|]. split; [exact (wrote_app _ _ _ _ _ W1 W2)|]. split; [apply Forall_app; auto|]. auto.
    - exists c, f1, evs1, got, d1, ls. split; [reflexivity|]. split; [reflexivity|]. auto.
  Qed.

  Lemma purge_loop_same h : forall fuel f (w : W) r d r' w', inv d -> sound f -> ev_bytes (w_evs w) ->
    purge_loop B fuel (Some h) f w r = Done (r', w') ->
    exists d' ls, purge_loop_d B fuel (Some h) f w r d = Done (r', w', d') /\ wrote d d' ls /\ Forall (remark (is_serial h)) ls /\ inv d'.
  Proof.
    induction fuel as [|fuel IH]; intros f w r d r' w' He Hf Hev E; [discriminate|]. cbn [purge_loop purge_loop_d] in *.
    destruct (recv_d h f w d He Hf Hev) as (c & f1 & evs1 & got & d1 & ls & E1 & E2 & W1 & K1 & L1 & S1 & V1). rewrite E1 in E. rewrite E2. cbn [obind] in *.
    destruct (_ && _).
    - injection E as <- <-. exists d1, ls. auto.
    - destruct (IH f1 (mkW (w_bus w) evs1 (w_log w ++ [Received c got])) 1 d1 r' w' L1 S1 V1 E) as (d2 & ls2 & E3 & W2 & K2 & L2). exists d2, (ls ++ ls2).
      split; [exact E3|]. split; [exact (wrote_app _ _ _ _ _ W1 W2)|]. split; [apply Forall_app; auto|exact L2].
  Qed.
  Lemma purge_d h (w : W) d : inv d -> ev_bytes (w_evs w) ->
    exists r w' new d' ls, mbus_purge_frames B (Some h) w = Done (r, w') /\ mbus_purge_frames_d B (Some h) w d = Done (r, w', d') /\
      w_log w' = w_log w ++ new /\ received_only new /\ ev_bytes (w_evs w') /\ wrote d d' ls /\ Forall (remark (is_serial h)) ls /\ inv d'.
  Proof.
    intros He Hev. destruct (purge_frames_ok B h w Hev) as (r & w' & new & E & _ & _ & V & _ & L & R & _).
    destruct (purge_loop_same h _ frame_zero w 0 d r w' He sound_zero Hev E) as (d' & ls & E2 & W1 & K & I).
    exists r, w', new, d', ls. repeat (split; [assumption|]). exact I.
  Qed.

  Lemma send_d h f (w : W) d : inv d -> frame_obj f -> (ftype f = 4 -> 0 <= data_size f <= 252) -> In (ftype f) [1; 2; 3; 4] ->
    exists r f' bs w' d' ls, mbus_send_frame B wret react (Some h) f w = Done (r, f', w') /\ mbus_send_frame_d B wret react why (Some h) f w d = Done (r, f', w', d') /\
      w_log w' = w_log w ++ [Sent bs] /\ (ev_bytes (w_evs w) -> ev_bytes (w_evs w')) /\ wrote d d' ls /\ inv d' /\ (r = 0 \/ r = -1) /\
      write_told (is_serial h) why (wret (w_bus w) (Z.of_nat (List.length bs))) (Z.of_nat (List.length bs)) (dg_text d) r (dg_text d') ls.
  Proof.
    intros He Ho Hd Ht. unfold mbus_send_frame, mbus_send_frame_d.
    assert (EV : forall bs, ev_bytes (w_evs w) -> ev_bytes (w_evs w ++ snd (react (w_bus w) bs))) by (intros bs V; apply ev_bytes_app; auto).
    destruct (is_serial h).
    - destruct (proj2 (C87_serial_send (wret (w_bus w)) why (dg_text d) f Ho Hd Ht)) as (r & f' & bs & err & E1 & E2 & T). rewrite E1, E2. cbn [lift obind bind].
      specialize (EV bs). destruct (react (w_bus w) bs) as [b es]. cbn [snd] in EV.
      destruct T as [(-> & N & ->)|(-> & N & ->)].
      + exists 0, f', bs, (mkW b (w_evs w ++ es) (w_log w ++ [Sent bs])), (mkDg (dg_text d) (dg_err d ++ [])), []. split; [reflexivity|]. split; [reflexivity|]. split; [reflexivity|].
        split; [exact EV|]. split; [unfold wrote; reflexivity|]. split; [exact He|]. split; [auto|]. apply WT_all. exact N.
      + exists (-1), f', bs, (mkW b (w_evs w ++ es) (w_log w ++ [Sent bs])). eexists. exists [failed_write why (wret (w_bus w) (Z.of_nat (List.length bs)))]. split; [reflexivity|]. split; [reflexivity|]. split; [reflexivity|].
        split; [exact EV|]. split; [unfold wrote, failed_write; cbn [dg_err map concat]; rewrite app_nil_r, <- !app_assoc; reflexivity|]. split; [exact He|]. split; [auto|]. apply WT_serial; auto.
    - destruct (C87_tcp_send (wret (w_bus w)) (dg_text d) f He Ho Hd Ht (WR (w_bus w))) as (r & f' & bs & e' & E1 & E2 & T). rewrite E1, E2. cbn [lift obind bind].
      specialize (EV bs). destruct (react (w_bus w) bs) as [b es]. cbn [snd] in EV.
      exists r, f', bs, (mkW b (w_evs w ++ es) (w_log w ++ [Sent bs])), (mkDg e' (dg_err d)), []. split; [reflexivity|]. split; [reflexivity|]. split; [reflexivity|].
      split; [exact EV|]. split; [unfold wrote; cbn; rewrite app_nil_r; reflexivity|].
      destruct T as [(-> & N & ->)|(-> & N & S1)].
      + split; [exact He|]. split; [auto|]. apply WT_all. exact N.
      + split; [exact (proj1 S1)|]. split; [auto|]. apply WT_tcp; auto.
  Qed.

  (** One telegram sent: result, history, lines. *)
  Definition sent (h : handle) (fail : list Z) (w w' : W) (d d' : diag) (r : Z) : Prop :=
    exists bs ls, w_log w' = w_log w ++ [Sent bs] /\
      write_told (is_serial h) why (wret (w_bus w) (Z.of_nat (List.length bs))) (Z.of_nat (List.length bs)) (dg_text d) r (dg_text d') ls /\
      wrote d d' (ls ++ (if r =? 0 then [] else [fail])).
  Lemma sent_result h fail w w' d d' r : sent h fail w w' d d' r -> r = 0 \/ r = -1.
  Proof. intros (bs & ls & _ & T & _). inversion T; auto. Qed.
  Lemma send_tail name h f (w : W) d : inv d -> ev_bytes (w_evs w) -> frame_obj f -> (ftype f = 4 -> 0 <= data_size f <= 252) -> In (ftype f) [1; 2; 3; 4] ->
    exists r f' w' d', mbus_send_frame B wret react (Some h) f w = Done (r, f', w') /\ send_or_tell B wret react why name (Some h) f w d = Done (r, w', d') /\
      sent h (cstr name ++ cstr ": failed to send mbus frame.") w w' d d' r /\ ev_bytes (w_evs w') /\ inv d'.
  Proof.
    intros He Hev Ho Hd Ht. destruct (send_d h f w d He Ho Hd Ht) as (r & f' & bs & w' & d' & ls & E1 & E2 & L & V & W1 & I & R & T).
    exists r, f', w'. unfold send_or_tell. rewrite E2. cbn [obind]. destruct R as [-> | ->].
    - exists d'. split; [exact E1|]. split; [reflexivity|]. split; [|auto]. exists bs, ls. split; [exact L|]. split; [exact T|]. cbn. rewrite app_nil_r. exact W1.
    - eexists. split; [exact E1|]. split; [reflexivity|]. split; [|auto]. exists bs, ls. split; [exact L|]. split; [exact T|]. exact (wrote_tell _ _ _ _ W1).
  Qed.
  Ltac told_by E1 E2 := rewrite E1, E2; cbn [obind].

  Lemma request_d h a (w : W) d : inv d -> ev_bytes (w_evs w) -> 0 <= a <= 255 ->
    exists r w' d', mbus_send_request_frame B wret react (Some h) a w = Done (r, w') /\ mbus_send_request_frame_d B wret react why (Some h) a w d = Done (r, w', d') /\
      sent h (cstr "mbus_send_request_frame: failed to send mbus frame.") w w' d d' r /\ ev_bytes (w_evs w') /\ inv d'.
  Proof.
    intros He Hev Ha. unfold mbus_send_request_frame, mbus_send_request_frame_d.
    assert (P : mbus_is_primary_address a = true) by (unfold mbus_is_primary_address; lia). rewrite P. cbn [negb].
    destruct (send_tail "mbus_send_request_frame" h (set_address (set_control (mbus_frame_new T_SHORT) (Z.lor 0x5B 0x40)) a) w d He Hev eq_refl
      ltac:(cbn; discriminate) ltac:(cbn; tauto)) as (r & f' & w' & d' & E1 & E2 & S1 & V & I).
    exists r, w', d'. told_by E1 E2. split; [|split; [reflexivity|]; split; [exact S1|auto]].
    destruct (sent_result _ _ _ _ _ _ _ S1) as [-> | ->]; reflexivity.
  Qed.
  Lemma baud_d h a baud ci (w : W) d : inv d -> ev_bytes (w_evs w) -> 0 <= a <= 255 -> baud_ci baud = Some ci ->
    exists r w' d', mbus_send_switch_baudrate_frame B wret react (Some h) a baud w = Done (r, w') /\ mbus_send_switch_baudrate_frame_d B wret react why (Some h) a baud w d = Done (r, w', d') /\
      sent h (cstr "mbus_send_switch_baudrate_frame: failed to send mbus frame.") w w' d d' r /\ ev_bytes (w_evs w') /\ inv d'.
  Proof.
    intros He Hev Ha Hb. unfold mbus_send_switch_baudrate_frame, mbus_send_switch_baudrate_frame_d.
    assert (P : mbus_is_primary_address a = true) by (unfold mbus_is_primary_address; lia). rewrite P, Hb. cbn [negb].
    destruct (send_tail "mbus_send_switch_baudrate_frame" h (set_ci (set_address (set_control (mbus_frame_new T_CONTROL) (Z.lor 0x53 0x40)) a) ci) w d He Hev eq_refl
      ltac:(cbn; discriminate) ltac:(cbn; tauto)) as (r & f' & w' & d' & E1 & E2 & S1 & V & I).
    exists r, w', d'. told_by E1 E2. split; [|split; [reflexivity|]; split; [exact S1|auto]].
    destruct (sent_result _ _ _ _ _ _ _ S1) as [-> | ->]; reflexivity.
  Qed.
  Lemma reset_d h a sub (w : W) d : inv d -> ev_bytes (w_evs w) -> 0 <= a <= 255 -> sub <= 255 ->
    exists r w' d', mbus_send_application_reset_frame B wret react (Some h) a sub w = Done (r, w') /\ mbus_send_application_reset_frame_d B wret react why (Some h) a sub w d = Done (r, w', d') /\
      sent h (cstr "mbus_send_application_reset_frame: failed to send mbus frame.") w w' d d' r /\ ev_bytes (w_evs w') /\ inv d'.
  Proof.
    intros He Hev Ha Hb. unfold mbus_send_application_reset_frame, mbus_send_application_reset_frame_d.
    assert (P : mbus_is_primary_address a = true) by (unfold mbus_is_primary_address; lia). rewrite P. cbn [negb].
    destruct (Z.gtb_spec sub 255); [lia|].
    set (f0 := set_ci (set_address (set_control (mbus_frame_new T_LONG) (Z.lor 0x53 0x40)) a) 0x50).
    assert (K : exists f, (if sub >=? 0 then let* dt := wr (fdata f0) 0 (Z.land sub 0xFF) in Ok (set_data f0 dt 1) else Ok (set_data f0 (fdata f0) 0)) = Ok f /\
      frame_obj f /\ ftype f = 4 /\ 0 <= data_size f <= 252).
    { destruct (sub >=? 0); eexists; (split; [reflexivity|]); (split; [reflexivity|]); (split; [reflexivity|]); cbn; lia. }
    destruct K as (f & K & Ho & Ht & Hs). rewrite K. cbn [lift obind].
    destruct (send_tail "mbus_send_application_reset_frame" h f w d He Hev Ho (fun _ => Hs) ltac:(rewrite Ht; cbn; tauto)) as (r & f' & w' & d' & E1 & E2 & S1 & V & I).
    exists r, w', d'. told_by E1 E2. split; [|split; [reflexivity|]; split; [exact S1|auto]].
    destruct (sent_result _ _ _ _ _ _ _ S1) as [-> | ->]; reflexivity.
  Qed.
  Lemma data_d h a data (w : W) d : inv d -> ev_bytes (w_evs w) -> 0 <= a <= 255 -> (1 <= List.length data <= 252)%nat ->
    let n := Z.of_nat (List.length data) in
    exists r w' d', mbus_send_user_data_frame B wret react (Some h) a (Some data) n w = Done (r, w') /\ mbus_send_user_data_frame_d B wret react why (Some h) a (Some data) n w d = Done (r, w', d') /\
      sent h (cstr "mbus_send_user_data_frame: failed to send mbus frame.") w w' d d' r /\ ev_bytes (w_evs w') /\ inv d'.
  Proof.
    intros He Hev Ha Hl n. unfold mbus_send_user_data_frame, mbus_send_user_data_frame_d.
    assert (P : mbus_is_primary_address a = true) by (unfold mbus_is_primary_address; lia). rewrite P. cbn [negb].
    assert (Q : ((n >? 252) || (n =? 0)) = false) by (unfold n; lia). rewrite Q.
    set (f0 := set_ci (set_address (set_control (mbus_frame_new T_LONG) (Z.lor 0x53 0x40)) a) 0x51).
    assert (K : exists dt, copy_loop (Z.to_nat n) (fdata f0) 0 data 0 = Ok dt /\ List.length dt = 252%nat).
    { assert (L0 : List.length (fdata f0) = 252%nat) by reflexivity. unfold n. rewrite Nat2Z.id, copy_loop_ok by lia.
      eexists. split; [reflexivity|]. rewrite !app_length, !firstn_length, !skipn_length. lia. }
    destruct K as (dt & K & Hdt). rewrite K. cbn [lift obind].
    assert (Ho : frame_obj (set_data f0 dt n)) by exact Hdt.
    destruct (send_tail "mbus_send_user_data_frame" h (set_data f0 dt n) w d He Hev Ho ltac:(intros _; cbn [set_data data_size]; unfold n; lia) ltac:(cbn; tauto)) as (r & f' & w' & d' & E1 & E2 & S1 & V & I).
    exists r, w', d'. told_by E1 E2. split; [|split; [reflexivity|]; split; [exact S1|auto]].
    destruct (sent_result _ _ _ _ _ _ _ S1) as [-> | ->]; reflexivity.
  Qed.

  Lemma sent_said h fail w w' d d' r : transport_line fail = false -> sent h fail w w' d d' r ->
    exists bs, w_log w' = w_log w ++ [Sent bs] /\ said (is_serial h) why d d' (if r =? 0 then [] else [fail]).
  Proof.
    intros T (bs & ls & L & WT & W1). exists bs. split; [exact L|]. exists (ls ++ (if r =? 0 then [] else [fail])). split; [exact W1|].
    assert (OL : own_lines ls = [] /\ Forall (fun m => transport_line m = true -> transport_ok (is_serial h) why m) ls).
    { destruct WT; (split; [reflexivity|]); [constructor| |constructor]. constructor; [|constructor]. intros _. split; [assumption|]. right. eexists. reflexivity. }
    rewrite own_app, (proj1 OL). split.
    - destruct (r =? 0); [reflexivity|]. unfold own_lines. cbn [filter]. rewrite T. reflexivity.
    - apply Forall_app. split; [exact (proj2 OL)|]. destruct (r =? 0); [constructor|]. constructor; [rewrite T; discriminate|constructor].
  Qed.

  (** Selection. *)
  Lemma select_d h s (w : W) d : inv d -> ev_bytes (w_evs w) ->
    exists r w' d' new, mbus_select_secondary_address B wret react (Some h) s w = Done (r, w') /\
      mbus_select_secondary_address_d B wret react why (Some h) s w d = Done (r, w', d') /\ w_log w' = w_log w ++ new /\
      ev_bytes (w_evs w') /\ inv d' /\ In r [PROBE_ERROR; PROBE_NOTHING; PROBE_SINGLE; PROBE_COLLISION] /\
      (r = PROBE_ERROR -> List.length s = 16%nat -> forall x, In x (exchanges new) -> snd x = None) /\
      (r <> PROBE_ERROR -> List.length s = 16%nat /\ exists bs c got, exchanges new = [(bs, Some (c, got))]) /\
      said (is_serial h) why d d' (select_lines s r (exchanges new) (c_text (dg_text d'))).
  Proof.
    intros He Hev. unfold mbus_select_secondary_address, mbus_select_secondary_address_d, select_lines.
    destruct (List.length s =? 16)%nat eqn:Ls; cbn [negb].
    2:{ exists PROBE_ERROR, w. eexists. exists []. rewrite app_nil_r. do 2 (split; [reflexivity|]). split; [reflexivity|]. split; [exact Hev|]. split; [exact He|]. split; [cbn; auto|].
        split; [intros _ X; apply Nat.eqb_neq in Ls; contradiction|]. split; [intros X; destruct (X eq_refl)|]. apply said_line. reflexivity. }
    unfold mbus_send_select_frame, mbus_send_select_frame_d.
    pose proof (C86_select (dg_text d) (Some (mbus_frame_new T_LONG)) (Some s) He) as P. cbv beta iota in P.
    destruct (mbus_is_secondary_address s) eqn:Es.
    2:{ destruct P as (e' & P1 & P2). rewrite P1. unfold mbus_frame_select_secondary_pack. rewrite Es. cbn [negb lift obind]. change (-1 =? -1) with true. cbv iota. cbn [obind]. change (-1 =? -1) with true. cbv iota.
        exists PROBE_ERROR, w. eexists. exists []. rewrite app_nil_r. do 2 (split; [reflexivity|]). split; [reflexivity|]. split; [exact Hev|]. split; [exact (proj1 P2)|]. split; [cbn; auto|].
        split; [intros _ _ x []|]. split; [intros X; destruct (X eq_refl)|]. cbn [exchanges]. rewrite !tell_text. cbn [dg_text].
        apply (said_tell (is_serial h) why d _ [_] _); [reflexivity|]. apply (said_line (is_serial h) why (mkDg e' (dg_err d))). reflexivity. }
    destruct (pack_any s Es) as (f & Pk & Ho & Ht & Hd). rewrite Pk in P. cbn [bind] in P. rewrite P, Pk. cbn [lift obind]. change (0 =? -1) with false. cbv iota.
    destruct (send_d h f w (mkDg (dg_text d) (dg_err d)) He Ho ltac:(intros _; rewrite Hd; lia) ltac:(rewrite Ht; cbn; tauto)) as (r & f' & bs & w1 & d1 & ls & E1 & E2 & L1 & V1 & W1 & I1 & R1 & T1).
    rewrite E1, E2. cbn [obind]. specialize (V1 Hev).
    assert (S1 : said (is_serial h) why d d1 []) by exact (said_write _ _ _ _ _ _ _ _ _ _ W1 T1).
    destruct R1 as [-> | ->].
    2:{ change (-1 =? -1) with true. cbv iota. cbn [obind]. change (-1 =? -1) with true. cbv iota.
        exists PROBE_ERROR, w1. eexists. exists [Sent bs]. do 2 (split; [reflexivity|]). split; [exact L1|]. split; [exact V1|]. split; [exact I1|]. split; [cbn; auto|].
        split; [intros _ _ x [<-|[]]; reflexivity|]. split; [intros X0; destruct (X0 eq_refl)|]. cbn [exchanges]. rewrite !tell_text.
        apply (said_tell _ _ _ _ [_]); [reflexivity|]. apply (said_tell _ _ _ _ []); [reflexivity|exact S1]. }
    change (0 =? -1) with false. cbv iota. cbn [obind]. change (0 =? -1) with false. cbv iota.
    destruct (recv_d h frame_zero w1 d1 I1 sound_zero V1) as (c & f2 & evs2 & got & d2 & ls2 & E3 & E4 & W2 & K2 & I2 & Sf2 & V2).
    rewrite E3, E4. cbn [obind]. set (w2 := mkW (w_bus w1) evs2 (w_log w1 ++ [Received c got])).
    assert (L2 : w_log w2 = w_log w ++ [Sent bs; Received c got]) by (cbn [w2 w_log]; rewrite L1, <- app_assoc; reflexivity).
    assert (S2 : said (is_serial h) why d d2 []) by exact (said_app _ _ _ _ _ [] [] S1 (said_remarks _ _ _ _ _ W2 K2)).
    assert (V2' : ev_bytes (w_evs w2)) by exact V2.
    assert (X : forall new3, received_only new3 -> exchanges ([Sent bs; Received c got] ++ new3) = [(bs, Some (c, got))]).
    { intros new3 R. cbn [app exchanges]. rewrite received_nil_exch by assumption. reflexivity. }
    destruct (Z.eqb_spec c RECV_TIMEOUT) as [Ec|Ec].
    { exists PROBE_NOTHING, w2, d2, ([Sent bs; Received c got] ++ []). rewrite X by constructor. do 2 (split; [reflexivity|]). split; [exact L2|]. split; [exact V2|]. split; [exact I2|]. split; [cbn; auto|].
      split; [discriminate|]. split; [intros _; split; [apply Nat.eqb_eq; exact Ls|eauto]|]. rewrite Ec. exact S2. }
    destruct (purge_d h w2 d2 I2 V2') as (p & w3 & new3 & d3 & ls3 & E5 & E6 & L3 & R3 & V3 & W3 & K3 & I3).
    assert (L3' : w_log w3 = w_log w ++ [Sent bs; Received c got] ++ new3) by (rewrite L3, L2, <- app_assoc; reflexivity).
    assert (S3 : said (is_serial h) why d d3 []) by exact (said_app _ _ _ _ _ [] [] S2 (said_remarks _ _ _ _ _ W3 K3)).
    rewrite E5, E6. cbn [obind].
    destruct (Z.eqb_spec c RECV_INVALID) as [Ei|Ei].
    { exists PROBE_COLLISION, w3, d3, ([Sent bs; Received c got] ++ new3). rewrite X by assumption. do 2 (split; [reflexivity|]). split; [exact L3'|]. split; [exact V3|]. split; [exact I3|]. split; [cbn; auto|].
      split; [discriminate|]. split; [intros _; split; [apply Nat.eqb_eq; exact Ls|eauto]|]. exact S3. }
    destruct (mbus_frame_type f2 =? T_ACK).
    { destruct (negb (p =? 0)).
      - exists PROBE_COLLISION, w3, d3, ([Sent bs; Received c got] ++ new3). rewrite X by assumption. do 2 (split; [reflexivity|]). split; [exact L3'|]. split; [exact V3|]. split; [exact I3|]. split; [cbn; auto|].
        split; [discriminate|]. split; [intros _; split; [apply Nat.eqb_eq; exact Ls|eauto]|]. exact S3.
      - exists PROBE_SINGLE, w3, d3, ([Sent bs; Received c got] ++ new3). rewrite X by assumption. do 2 (split; [reflexivity|]). split; [exact L3'|]. split; [exact V3|]. split; [exact I3|]. split; [cbn; auto|].
        split; [discriminate|]. split; [intros _; split; [apply Nat.eqb_eq; exact Ls|eauto]|]. exact S3. }
    exists PROBE_NOTHING, w2. eexists. exists ([Sent bs; Received c got] ++ []). rewrite X by constructor. do 2 (split; [reflexivity|]). split; [exact L2|]. split; [exact V2|]. split; [exact I2|]. split; [cbn; auto|].
    split; [discriminate|]. split; [intros _; split; [apply Nat.eqb_eq; exact Ls|eauto]|]. apply Z.eqb_neq in Ec. rewrite Ec. cbn [Z.eqb andb negb PROBE_NOTHING]. apply (said_tell _ _ _ _ []); [reflexivity|exact S2].
  Qed.
End OnBus.

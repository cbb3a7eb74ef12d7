(** Proofs about a bus of slaves: receiving, selecting, probing. *)
From Coq Require Import Permutation.
From Verif Require Import CBase PBase CStr MFrame MCodec MVar MText SVar SText SCodec PCodec SXml MXml SWire SFrame PFrame PFrame2 PVar3 PXml2 PXml4 MRecv SRecv PRecv PropFrame PropRecv MSecond SSecond PSecond MProto SProto PProto PProto2 PReq SReq PReq2 SBus.

(** ** Direction of damaged telegrams *)
Definition slave_side (f : frame) : Prop := Z.land (control f) 0x40 = 0.
Lemma side_dir f : slave_side f -> mbus_frame_direction f = DIR_S2M.
Proof. unfold mbus_frame_direction, slave_side. intros ->. destruct (ftype f =? T_ACK); reflexivity. Qed.
(** The bytes do not begin like a telegram of the master. *)
Definition side_bytes (l : list Z) : Prop := (length l < 5)%nat \/ (hd 0 l <> 0x10 /\ Z.land (nth 4 l 0) 0x40 = 0).
Lemma side_prefix l k : side_bytes (l ++ k) -> l <> [] -> side_bytes l.
Proof.
  intros [H|[H1 H2]] Hl; [left; rewrite app_length in H; lia|].
  destruct (Nat.lt_ge_cases (length l) 5) as [L|G]; [left; assumption|]. right. destruct l as [|b l]; [congruence|]. split; [exact H1|].
  rewrite app_nth1 in H2 by lia. assumption.
Qed.
Lemma parse_side f l r f' : slave_side f -> side_bytes l -> mbus_parse f l = Ok (r, f') -> slave_side f'.
Proof.
  intros Hf Hs E. unfold mbus_parse in E. destruct (Z.of_nat (length l) >? 0) eqn:En; [|injection E as _ <-; assumption].
  destruct l as [|b l]; [discriminate|]. cbn [rd nth_error bind] in E. destruct (Z.eqb_spec b 0xE5); [injection E as _ <-; exact Hf|].
  destruct (Z.eqb_spec b 0x10).
  { destruct (Z.ltb_spec (Z.of_nat (length (b :: l))) 5) as [L|G]; [injection E as _ <-; exact Hf|]. destruct Hs as [Hs|[Hs _]]; [lia|contradiction]. }
  destruct (Z.eqb_spec b 0x68); [|injection E as _ <-; exact Hf].
  destruct (Z.ltb_spec (Z.of_nat (length (b :: l))) 3) as [L|G]; [injection E as _ <-; exact Hf|].
  destruct l as [|b1 [|b2 l]]; [cbn in G; lia|cbn in G; lia|]. cbn [rd nth_error bind] in E.
  destruct (b1 <? 3); [injection E as _ <-; exact Hf|]. destruct (negb (b1 =? b2)); [injection E as _ <-; exact Hf|].
  clear En. match type of E with context [if ?x <? ?y then _ else _] => destruct (x <? y); [injection E as _ <-; exact Hf|] end.
  match type of E with context [if ?x >? ?y then _ else _] => destruct (x >? y); [injection E as _ <-; exact Hf|] end.
  destruct l as [|b3 l]; [cbn in E; discriminate|]. cbn [rd nth_error bind] in E.
  destruct l as [|b4 l]; [cbn in E; discriminate|]. cbn [rd nth_error bind] in E.
  destruct Hs as [Hs|[_ Hs]]; [cbn in Hs; lia|]. cbn [nth] in Hs.
  repeat match type of E with
  | context [bind (copy_loop ?n ?d ?o ?s ?i) _] => destruct (copy_loop n d o s i) as [?|]; cbn [bind] in E; [|discriminate]
  | context [bind (rd ?x ?i) _] => destruct (rd x i); cbn [bind] in E; [|discriminate]
  | context [bind (mbus_frame_verify ?x) _] => destruct (mbus_frame_verify x); cbn [bind] in E; [|discriminate]
  end.
  destruct (negb _); injection E as _ <-; exact Hs.
Qed.
Lemma read_stream evs n bs es : read_ev (RBytes []) evs n = (RBytes bs, es) -> bs ++ stream es = stream evs.
Proof.
  destruct evs as [|[l| | | |] evs]; cbn [read_ev]; intros E; try discriminate; try (injection E as <- <-; reflexivity).
  destruct (length l <=? n)%nat; injection E as <- <-; [reflexivity|]. cbn [stream]. rewrite app_assoc, firstn_skipn. reflexivity.
Qed.
Lemma serial_side : forall fuel f evs got rem tm c f' evs' got', slave_side f -> side_bytes (got ++ stream evs) ->
  serial_loop fuel f evs got rem tm = Ok (Some (c, f', evs', got')) -> slave_side f'.
Proof.
  induction fuel as [|fuel IH]; intros f evs got rem tm c f' evs' got' Hf Hs E; [discriminate|]. cbn [serial_loop] in E.
  destruct (_ >? PACKET_BUFF_SIZE); [injection E as _ <- _ _; assumption|].
  destruct (read_ev (RBytes []) evs (Z.to_nat rem)) as [[bs|e] es] eqn:R; [|injection E as _ <- _ _; assumption].
  assert (FIN : forall f e g r, serial_finish f e g r = Ok (Some (c, f', evs', got')) -> f' = f).
  { intros f0 e0 g0 r0. unfold serial_finish. destruct (_ =? _)%nat; [intros X; injection X as _ <- _ _; reflexivity|].
    destruct (negb _); intros X; injection X as _ <- _ _; reflexivity. }
  destruct (_ && _); [apply FIN in E; subst; assumption|]. destruct (_ >? PACKET_BUFF_SIZE); [discriminate|].
  pose proof (read_stream _ _ _ _ R) as St.
  destruct (mbus_parse f (got ++ bs)) as [[r f1]|] eqn:P; cbn [bind] in E; [|discriminate].
  assert (Hf1 : slave_side f1).
  { destruct (got ++ bs) eqn:G; [cbn in P; injection P as _ <-; assumption|]. rewrite <- G in P.
    apply (parse_side _ _ _ _ Hf) in P; [assumption|]. apply (side_prefix _ (stream es)); [rewrite <- app_assoc, St; assumption|rewrite G; discriminate]. }
  destruct (r >? 0); [|apply FIN in E; subst; assumption].
  apply (IH _ _ _ _ _ _ _ _ _ Hf1) in E; [assumption|]. rewrite <- app_assoc, St. assumption.
Qed.

(** ** One receive call of the transport *)
Lemma damaged_handle h f es : frame_obj f -> burst es -> damaged h es ->
  exists f' evs' got, handle_recv h f es = Done (RECV_INVALID, f', evs', got) /\ frame_obj f' /\ burst evs' /\
    (slave_side f -> purge_first_frame h = PURGE_M2S -> slave_side f').
Proof.
  intros Ho [Ha Hb] Hd.
  assert (BU : forall c f' evs' got, handle_recv h f es = Done (c, f', evs', got) -> burst evs').
  { intros c f' evs' got E. split; [exact (proj1 (handle_recv_data _ _ _ _ _ _ _ Ha E))|].
    destruct (handle_recv_total h f es Ho Hb) as (c0 & f0 & e0 & g0 & E0 & _ & B0 & _). rewrite E in E0. injection E0 as <- <- <- <-. assumption. }
  destruct Hd as [(b & l & rest & -> & N1 & N2 & N3)|(Hs & Hne & Hno & Hdir)].
  - destruct (noise_recv h f (b :: l) rest Ho ltac:(discriminate) ltac:(apply Hb) N2 N3) as (c & f' & E & Hc & Hk & _ & O').
    cbn [hd] in Hc. destruct (Z.eqb_spec b 0xE5); [contradiction|]. subst c.
    exists f', (if (length (b :: l) =? 1)%nat then rest else Data (tl (b :: l)) :: rest), [hd 0 (b :: l)].
    split; [exact E|]. split; [assumption|]. split; [exact (BU _ _ _ _ E)|]. intros Hf _. unfold slave_side. rewrite (proj1 (Hk N1)). assumption.
  - destruct (C11_serial_outcomes f es Ho Hb) as (code & f' & evs' & got & H1 & H2 & H3 & _ & _ & _ & H7 & H8 & H9 & _ & H11).
    assert (E : handle_recv h f es = Done (code, f', evs', got)) by (unfold handle_recv; rewrite Hs, H1; reflexivity).
    exists f', evs', got.
    assert (code = RECV_INVALID).
    { destruct H7 as [<-|[<-|[<-|[<-|[]]]]]; [| |reflexivity|]; exfalso.
      - destruct (proj1 H8 eq_refl) as (t & V & -> & _). apply (Hno (length (wire t))). rewrite <- H3, firstn_app, Nat.sub_diag, firstn_all, firstn_O, app_nil_r.
        exists t. auto.
      - destruct (H11 eq_refl) as (pre & e & Ee & Hi). apply (proj1 (all_data_no_error _ Ha) e); [|assumption]. rewrite Ee. apply in_app_iff. right. left. reflexivity.
      - specialize (H9 eq_refl). subst got. destruct (handle_recv_data _ _ _ _ _ _ _ Ha E) as [_ T]. specialize (T eq_refl). subst evs'. apply Hne. rewrite <- H3. reflexivity. }
    subst code. split; [assumption|]. split; [assumption|]. split; [exact (BU _ _ _ _ E)|]. intros Hf Hm.
    unfold mbus_serial_recv_frame in H1. apply serial_side in H1; [assumption|assumption|]. cbn [app].
    destruct Hdir as [L|[[Hh Hn]|X]]; [left; assumption| |rewrite X in Hm; discriminate].
    right. split; [rewrite Hh; lia|]. assert (Hy : bytes (stream es)). { clear - Hb. induction es as [|[l| | | |] es IH]; cbn in *; try constructor; auto. apply bytes_app; tauto. }
    destruct (Nat.lt_ge_cases 4 (length (stream es))) as [L|G]; [|rewrite nth_overflow by lia; reflexivity].
    unfold bytes in Hy. rewrite Forall_forall in Hy. specialize (Hy _ (nth_In _ 0 L)). unfold is_byte in Hy. revert Hn. generalize dependent (nth 4 (stream es) 0). clear. intros z Hz Hn.
    assert (E : Z.land z 0x40 = 64 * ((z / 64) mod 2)) by (clear Hn; by_bytes z Hz). lia.
Qed.

(** Input that brings a telegram consists of bytes. *)
Lemma arrives_bytes k evs w rest : arrives k evs w rest -> bytes w -> ev_bytes rest -> ev_bytes evs.
Proof.
  induction 1; intros Hw Hr; cbn [ev_bytes]; auto.
  - unfold bytes in Hw. apply Forall_app in Hw. destruct Hw. split; [assumption|]. auto.
  - cbn [ev_bytes] in Hr. split; [apply bytes_app; tauto|tauto].
Qed.
Lemma arrives_tcp_bytes evs w rest : arrives_tcp evs w rest -> bytes w -> ev_bytes rest -> ev_bytes evs.
Proof.
  induction 1; intros Hw Hr; cbn [ev_bytes]; auto.
  - unfold bytes in Hw. apply Forall_app in Hw. destruct Hw. split; [assumption|]. auto.
  - cbn [ev_bytes] in Hr. split; [apply bytes_app; tauto|tauto].
Qed.
Lemma next_bytes h evs t rest : next_telegram h evs t rest -> valid t -> ev_bytes rest -> ev_bytes evs.
Proof.
  intros N V Hr. pose proof (wire_bytes t V) as Hw. unfold next_telegram in N. destruct (is_serial h).
  - exact (arrives_bytes _ _ _ _ (proj1 N) Hw Hr).
  - exact (arrives_tcp_bytes _ _ _ N Hw Hr).
Qed.

Lemma repeat_bytes n : bytes (repeat 0 n).
Proof. induction n; constructor; [unfold is_byte; lia|assumption]. Qed.
(** A receive call after sending [t], on a line with or without echo, hears the body. *)
Section Bus.
  Variable B : Type.
  Notation W := (world B).
  Lemma recv_heard h t (w : W) body (Q : Z -> frame -> list ev -> Prop) :
    valid t -> from_master t -> hears_slaves h -> ev_bytes body -> heard h t (w_evs w) body ->
    (forall f, frame_obj f -> bytes (fdata f) -> exists c f' e' got, handle_recv h f body = Done (c, f', e', got) /\ Q c f' e' /\
       (slave_side f -> purge_first_frame h = PURGE_M2S -> mbus_frame_direction f' = DIR_S2M)) ->
    exists c f' e' got, mbus_recv_frame B (Some h) frame_zero w = Done (c, f', mkW (w_bus w) e' (w_log w ++ [Received c got])) /\ Q c f' e'.
  Proof.
    intros V M Hm Hb [E|[P N]] HB.
    - destruct (HB frame_zero eq_refl (repeat_bytes DATA_LEN)) as (c & f' & e' & got & E1 & Hq & Hd).
      exists c, f', e', got. split; [|assumption]. unfold mbus_recv_frame. rewrite E, E1. cbn [obind].
      assert (X : (mbus_frame_direction f' =? DIR_M2S) && (purge_first_frame h =? PURGE_M2S) || (mbus_frame_direction f' =? DIR_S2M) && (purge_first_frame h =? PURGE_S2M) = false).
      { destruct Hm as [Hm|Hm]; rewrite Hm; [unfold PURGE_NONE, PURGE_M2S, PURGE_S2M; cbn; rewrite !andb_false_r; reflexivity|].
        rewrite (Hd eq_refl Hm). reflexivity. }
      rewrite X. reflexivity.
    - destruct (handle_recv_telegram h frame_zero _ t body eq_refl V N) as (f1 & E1 & D1 & O1).
      pose proof (handle_recv_fdata h frame_zero (w_evs w) _ _ _ _ (repeat_bytes DATA_LEN) (next_bytes _ _ _ _ N V Hb) E1) as Hf.
      destruct (HB f1 O1 Hf) as (c & f' & e' & got & E2 & Hq & _). exists c, f', e', got. split; [|assumption].
      unfold mbus_recv_frame. rewrite E1. cbn [obind]. destruct (direction_spec f1 t D1 V) as [X _]. rewrite (X M), P. cbn [DIR_M2S PURGE_M2S Z.eqb Pos.eqb andb orb].
      change (Z.eqb DIR_M2S DIR_M2S) with true. cbn [andb orb]. rewrite E2. reflexivity.
  Qed.

  (** What the receive call finds, by kind of input. *)
  Lemma hear_silence h t (w : W) : valid t -> from_master t -> hears_slaves h -> heard h t (w_evs w) [] ->
    exists f' got, mbus_recv_frame B (Some h) frame_zero w = Done (RECV_TIMEOUT, f', mkW (w_bus w) [] (w_log w ++ [Received RECV_TIMEOUT got])).
  Proof.
    intros V M Hm Hh. destruct (recv_heard h t w [] (fun c _ e => c = RECV_TIMEOUT /\ e = []) V M Hm I Hh) as (c & f' & e' & got & E & -> & ->); [|eauto].
    intros f Ho _. exists RECV_TIMEOUT, f, [], []. split; [apply handle_recv_silent|]. split; [auto|]. intros Hs _. apply side_dir. assumption.
  Qed.
  Lemma hear_telegram h t (w : W) body t2 rest : valid t -> from_master t -> hears_slaves h -> heard h t (w_evs w) body ->
    valid t2 -> ~ from_master t2 -> next_telegram h body t2 rest -> ev_bytes rest ->
    exists f' got, mbus_recv_frame B (Some h) frame_zero w = Done (RECV_OK, f', mkW (w_bus w) rest (w_log w ++ [Received RECV_OK got])) /\
      denotes f' t2 /\ frame_obj f' /\ bytes (fdata f').
  Proof.
    intros V M Hm Hh V2 M2 N Hr.
    destruct (recv_heard h t w body (fun c f' e => c = RECV_OK /\ e = rest /\ denotes f' t2 /\ frame_obj f' /\ bytes (fdata f')) V M Hm
      (next_bytes _ _ _ _ N V2 Hr) Hh) as (c & f' & e' & got & E & -> & -> & Hq); [|eauto].
    intros f Ho Hf. destruct (handle_recv_telegram h f body t2 rest Ho V2 N) as (f' & E & D & O). exists RECV_OK, f', rest, (wire t2).
    split; [assumption|]. split; [|intros _ _; destruct (direction_spec f' t2 D V2) as [_ X]; auto].
    split; [reflexivity|]. split; [reflexivity|]. split; [assumption|]. split; [assumption|].
    exact (handle_recv_fdata _ _ _ _ _ _ _ Hf (next_bytes _ _ _ _ N V2 Hr) E).
  Qed.
  Lemma hear_damaged h t (w : W) body : valid t -> from_master t -> hears_slaves h -> heard h t (w_evs w) body -> burst body -> damaged h body ->
    exists f' e' got, mbus_recv_frame B (Some h) frame_zero w = Done (RECV_INVALID, f', mkW (w_bus w) e' (w_log w ++ [Received RECV_INVALID got])) /\ burst e'.
  Proof.
    intros V M Hm Hh Hb Hd.
    destruct (recv_heard h t w body (fun c _ e => c = RECV_INVALID /\ burst e) V M Hm (proj2 Hb) Hh) as (c & f' & e' & got & E & -> & Hq); [|eauto 10].
    intros f Ho _. destruct (damaged_handle h f body Ho Hb Hd) as (f' & e' & got & E & O & Hb' & Hs). exists RECV_INVALID, f', e', got.
    split; [assumption|]. split; [auto|]. intros H1 H2. apply side_dir. auto.
  Qed.
  (** Telegram followed by something. *)
  Lemma burst_next h body t rest : burst body -> valid t -> next_telegram h body t rest -> burst rest.
  Proof.
    intros [Ha Hb] V N. destruct (handle_recv_telegram h frame_zero body t rest eq_refl V N) as (f' & E & _).
    split; [exact (proj1 (handle_recv_data _ _ _ _ _ _ _ Ha E))|].
    destruct (handle_recv_total h frame_zero body eq_refl Hb) as (c0 & f0 & e0 & g0 & E0 & _ & B0 & _). rewrite E in E0. injection E0 as _ _ <- _. assumption.
  Qed.

  (** ** Histories *)
  Lemma sends_app a b : sends (a ++ b) = (sends a + sends b)%nat.
  Proof. unfold sends. rewrite filter_app, app_length. reflexivity. Qed.
  Lemma reports_app a b : reports (a ++ b) = reports a ++ reports b.
  Proof. apply flat_map_app. Qed.
  Lemma received_sends l : received_only l -> sends l = 0%nat.
  Proof. induction 1 as [|x l (c & got & ->) _ IH]; [reflexivity|]. exact IH. Qed.
  Lemma received_reports l : received_only l -> reports l = [].
  Proof. induction 1 as [|x l (c & got & ->) _ IH]; [reflexivity|]. exact IH. Qed.

  Lemma purge_drains h (w : W) : burst (w_evs w) -> exists r w' new, mbus_purge_frames B (Some h) w = Done (r, w') /\
    w_evs w' = [] /\ w_bus w' = w_bus w /\ w_log w' = w_log w ++ new /\ received_only new.
  Proof.
    intros [Ha Hb]. destruct (purge_frames_ok B h w Hb) as (r & w' & new & H1 & H2 & H3 & _ & _ & H6 & H7 & _ & H9).
    exists r, w', new. auto 10.
  Qed.
  Lemma purge_something h (w : W) : burst (w_evs w) -> hears_slaves h -> something h (w_evs w) -> exists w' new, mbus_purge_frames B (Some h) w = Done (1, w') /\
    w_evs w' = [] /\ w_bus w' = w_bus w /\ w_log w' = w_log w ++ new /\ received_only new.
  Proof.
    intros Hb Hm Hs. destruct (purge_drains h w Hb) as (r & w' & new & H1 & H2). exists w', new. split; [|assumption].
    assert (K : exists w1, mbus_purge_frames B (Some h) w = Done (1, w1)); [|destruct K as (w1 & K); rewrite H1 in K; injection K as -> ->; assumption].
    destruct Hs as [Hd|(t & rest & V & M & N)].
    - destruct (hear_damaged h request w (w_evs w)) as (f' & e' & got & E & _); try assumption; [repeat split; cbn; auto 10; unfold byte_range; lia|exact I|left; reflexivity|].
      apply (purge_reports B h w _ _ _ (proj2 Hb) E). auto.
    - destruct (recv_deliver B h frame_zero w t rest eq_refl V) as (f' & E & _); [|assumption|apply (purge_reports B h w _ _ _ (proj2 Hb) E); auto].
      intros [[_ F]|[X _]]; [contradiction|]. destruct Hm as [Hm|Hm]; rewrite Hm in X; discriminate.
  Qed.
  Lemma purge_quiet h (w : W) : w_evs w = [] -> exists w' new, mbus_purge_frames B (Some h) w = Done (0, w') /\
    w_evs w' = [] /\ w_bus w' = w_bus w /\ w_log w' = w_log w ++ new /\ received_only new.
  Proof.
    intros E. exists (mkW (w_bus w) [] (w_log w ++ [Received RECV_TIMEOUT []])), [Received RECV_TIMEOUT []].
    split; [apply purge_silent; assumption|]. cbn. repeat split. repeat constructor. eauto.
  Qed.
End Bus.

(** ** Masks and their bytes *)
Definition val (c : Z) : Z := match digit_value c with Some v => v | None => 0 end.
Definition mbytes (s : list Z) : list Z :=
  let v i := val (nth i s 0) in
  [16 * v 6%nat + v 7%nat; 16 * v 4%nat + v 5%nat; 16 * v 2%nat + v 3%nat; 16 * v 0%nat + v 1%nat;
   16 * v 8%nat + v 9%nat; 16 * v 10%nat + v 11%nat; 16 * v 12%nat + v 13%nat; 16 * v 14%nat + v 15%nat].
Lemma hex16_list s : hex16 s -> exists c0 c1 c2 c3 c4 c5 c6 c7 c8 c9 c10 c11 c12 c13 c14 c15,
  s = [c0; c1; c2; c3; c4; c5; c6; c7; c8; c9; c10; c11; c12; c13; c14; c15] /\
  Forall (fun c => digit_value c = Some (val c) /\ 0 <= val c < 16) s.
Proof.
  intros [Hl Hd]. assert (F : Forall (fun c => digit_value c = Some (val c) /\ 0 <= val c < 16) s).
  { revert Hd. apply Forall_impl. intros c Hc. unfold val. destruct (digit_value c) as [v|] eqn:E; [|congruence]. split; [reflexivity|]. apply (digit_bounds c v E). }
  do 16 (destruct s as [|? s]; [cbn in Hl; lia|]). destruct s; [|cbn in Hl; lia]. eexists _, _, _, _, _, _, _, _, _, _, _, _, _, _, _, _. split; [reflexivity|assumption].
Qed.
Lemma address_text_bytes s a : hex16 s -> bytes a -> (address_text a s <-> a = mbytes s).
Proof.
  intros Hx Hb. destruct (hex16_list s Hx) as (c0 & c1 & c2 & c3 & c4 & c5 & c6 & c7 & c8 & c9 & c10 & c11 & c12 & c13 & c14 & c15 & -> & F). clear Hx.
  repeat match goal with H : Forall _ (?c :: _) |- _ => let Hc := fresh "Hc" in let Hv := fresh "Hv" in inversion_clear H as [|? ? [Hc Hv]] end. 
  assert (RD : forall c l acc, digit_value c = Some (val c) -> 0 <= val c < 16 -> read_digits 16 (c :: l) acc = read_digits 16 l (acc * 16 + val c)).
  { intros c l acc E0 K0. cbn [read_digits]. rewrite E0. destruct (Z.ltb_spec (val c) 16); [reflexivity|lia]. }
  unfold address_text, mbytes. cbn [nth firstn skipn]. unfold read_nat. 
  rewrite !RD by assumption. cbn [read_digits].
  split.
  - intros (a0 & a1 & a2 & a3 & a4 & a5 & a6 & a7 & -> & _ & E0 & E1 & E2 & E3 & E4).
    assert (SI : forall x y : Z, Some x = Some y -> x = y) by congruence. apply SI in E0, E1, E2, E3, E4.
    unfold bytes in Hb. repeat match goal with H : Forall is_byte (?c :: _) |- _ => let Hc := fresh "Hb" in inversion_clear H as [|? ? Hc] end. unfold is_byte in *.
    unfold le in E0. cbn [fold_right] in E0.
    f_equal; [|f_equal; [|f_equal; [|f_equal; [|f_equal; [|f_equal; [|f_equal; [|f_equal]]]]]]]; lia.
  - intros ->. eexists _, _, _, _, _, _, _, _. split; [reflexivity|]. split; [reflexivity|]. unfold le. cbn [fold_right].
    repeat split; f_equal; lia.
Qed.
Lemma mbytes_ok s : hex16 s -> bytes (mbytes s) /\ length (mbytes s) = 8%nat /\ address_text (mbytes s) s.
Proof.
  intros Hx. assert (Hb : bytes (mbytes s)).
  { destruct (hex16_list s Hx) as (c0 & c1 & c2 & c3 & c4 & c5 & c6 & c7 & c8 & c9 & c10 & c11 & c12 & c13 & c14 & c15 & -> & F).
    repeat match goal with H : Forall _ (?c :: _) |- _ => let Hc := fresh "Hc" in let Hv := fresh "Hv" in inversion_clear H as [|? ? [Hc Hv]] end.
    unfold mbytes. cbn [nth]. unfold bytes. repeat (apply Forall_cons; [unfold is_byte; lia|]). constructor. }
  split; [assumption|]. split; [reflexivity|]. apply address_text_bytes; auto.
Qed.

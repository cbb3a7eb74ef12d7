(** More proofs about the readout procedure: length of the chain, release of the record lists. *)
From Verif Require Import CBase PBase MFrame MCodec MVar MText SVar SXml MXml SWire SFrame PFrame PFrame2 PVar3 PXml2 PXml3 PXml4 MRecv SRecv PRecv PropFrame PropRecv MSecond MProto SProto PProto PProto2 PReq SReq.

(** ** The data array of a frame object always holds bytes *)
Lemma upd_bytes l i v : bytes l -> is_byte v -> bytes (upd l i v).
Proof.
  intros H Hv. revert i. induction H as [|b l Hb H IH]; intros [|i]; cbn; constructor; auto. apply IH.
Qed.
Lemma copy_loop_bytes n : forall dst o src s d, bytes dst -> bytes src -> copy_loop n dst o src s = Ok d -> bytes d.
Proof.
  induction n as [|n IH]; intros dst o src s d Hd Hs E; cbn [copy_loop] in E; [injection E as <-; assumption|].
  destruct (rd src s) as [b|] eqn:Er; cbn [bind] in E; [|discriminate].
  destruct (wr dst o b) as [d1|] eqn:Ew; cbn [bind] in E; [|discriminate].
  apply (IH d1 (S o) src (S s) d); auto. unfold wr in Ew. destruct (o <? length dst)%nat; [|discriminate]. injection Ew as <-.
  apply upd_bytes; [assumption|]. apply rd_inv in Er. destruct Er as [Hl <-]. unfold bytes in Hs. rewrite Forall_forall in Hs. apply Hs, nth_In. assumption.
Qed.
Lemma parse_bytes f bs r f' : bytes (fdata f) -> bytes bs -> mbus_parse f bs = Ok (r, f') -> bytes (fdata f').
Proof.
  intros Hf Hb E. unfold mbus_parse in E.
  repeat match type of E with
  | context [bind (copy_loop ?n ?d ?o ?s ?i) _] => let E' := fresh "E'" in destruct (copy_loop n d o s i) as [?|] eqn:E'; cbn [bind] in E; [|discriminate]
  | context [bind (rd ?l ?i) _] => destruct (rd l i); cbn [bind] in E; [|discriminate]
  | context [bind (mbus_frame_verify ?x) _] => destruct (mbus_frame_verify x); cbn [bind] in E; [|discriminate]
  | (if ?b then _ else _) = _ => destruct b
  end; try discriminate; try (injection E as <- <-; cbn [fdata set_next]; assumption);
  injection E as <- <-; cbn [fdata]; match goal with H : copy_loop _ _ _ _ _ = Ok _ |- _ => apply copy_loop_bytes in H; [exact H|exact Hf|exact Hb] end.
Qed.
Lemma read_ev_bytes d evs n bs es : (d = RBytes [] \/ d = RErr EAgain) -> ev_bytes evs -> read_ev d evs n = (RBytes bs, es) -> bytes bs /\ ev_bytes es.
Proof.
  intros Hd Hb E. destruct evs as [|[l| | | |] evs]; cbn [read_ev] in E; try discriminate.
  - destruct Hd as [->| ->]; [injection E as <- <-; split; [constructor|exact I]|discriminate].
  - destruct Hb as [Hl Hb]. destruct (length l <=? n)%nat; injection E as <- <-; (split; [|cbn; auto using bytes_firstn, bytes_skipn]); auto using bytes_firstn.
  - injection E as <- <-. split; [constructor|exact Hb].
Qed.
Lemma serial_fdata : forall fuel f evs got rem tm c f' evs' got', bytes (fdata f) -> bytes got -> ev_bytes evs ->
  serial_loop fuel f evs got rem tm = Ok (Some (c, f', evs', got')) -> bytes (fdata f').
Proof.
  assert (FIN : forall f evs got rem c f' evs' got', bytes (fdata f) -> serial_finish f evs got rem = Ok (Some (c, f', evs', got')) -> bytes (fdata f')).
  { intros f evs got rem c f' evs' got' Hf E. unfold serial_finish in E. destruct (length got =? 0)%nat; [|destruct (negb (rem =? 0))]; injection E as _ <- _ _; assumption. }
  induction fuel as [|fuel IH]; intros f evs got rem tm c f' evs' got' Hf Hg Hb E; cbn [serial_loop] in E; [discriminate|].
  destruct (_ >? PACKET_BUFF_SIZE); [injection E as _ <- _ _; assumption|].
  destruct (read_ev (RBytes []) evs (Z.to_nat rem)) as [[bs|e] es] eqn:Er; [|injection E as _ <- _ _; assumption].
  destruct (read_ev_bytes _ _ _ _ _ (or_introl eq_refl) Hb Er) as [Hbs Hes].
  destruct ((Z.of_nat (length bs) =? 0) && _); [exact (FIN _ _ _ _ _ _ _ _ Hf E)|].
  destruct (_ >? PACKET_BUFF_SIZE); [discriminate|].
  destruct (mbus_parse f (got ++ bs)) as [[r f1]|] eqn:Ep; cbn [bind] in E; [|discriminate].
  assert (Hgb : bytes (got ++ bs)) by (apply bytes_app; auto).
  pose proof (parse_bytes _ _ _ _ Hf Hgb Ep) as Hf1. destruct (r >? 0).
  - exact (IH _ _ _ _ _ _ _ _ _ Hf1 Hgb Hes E).
  - exact (FIN _ _ _ _ _ _ _ _ Hf1 E).
Qed.
Lemma tcp_fdata : forall fuel f evs got rem c f' evs' got', bytes (fdata f) -> bytes got -> ev_bytes evs ->
  tcp_loop fuel f evs got rem = Ok (Some (c, f', evs', got')) -> bytes (fdata f').
Proof.
  induction fuel as [|fuel IH]; intros f evs got rem c f' evs' got' Hf Hg Hb E; cbn [tcp_loop] in E; [discriminate|].
  destruct (_ >? PACKET_BUFF_SIZE); [injection E as _ <- _ _; assumption|].
  destruct (read_ev (RErr EAgain) evs (Z.to_nat rem)) as [[bs|e] es] eqn:Er.
  2:{ destruct e; try (injection E as _ <- _ _; assumption). refine (IH _ _ _ _ _ _ _ _ Hf Hg _ E).
      destruct evs as [|[l| | | |] evs]; cbn [read_ev] in Er; try discriminate; try (destruct (length l <=? Z.to_nat rem)%nat; discriminate). injection Er as <-. exact Hb. }
  destruct (read_ev_bytes _ _ _ _ _ (or_intror eq_refl) Hb Er) as [Hbs Hes].
  destruct (length bs =? 0)%nat; [injection E as _ <- _ _; assumption|].
  destruct (_ >? PACKET_BUFF_SIZE); [discriminate|].
  destruct (mbus_parse f (got ++ bs)) as [[r f1]|] eqn:Ep; cbn [bind] in E; [|discriminate].
  assert (Hgb : bytes (got ++ bs)) by (apply bytes_app; auto).
  pose proof (parse_bytes _ _ _ _ Hf Hgb Ep) as Hf1. destruct (r >? 0).
  - exact (IH _ _ _ _ _ _ _ _ Hf1 Hgb Hes E).
  - destruct (r <? 0); injection E as _ <- _ _; assumption.
Qed.
Lemma handle_recv_fdata h f evs c f' evs' got : bytes (fdata f) -> ev_bytes evs -> handle_recv h f evs = Done (c, f', evs', got) -> bytes (fdata f').
Proof.
  intros Hf Hb H. unfold handle_recv in H. destruct (is_serial h).
  - destruct (mbus_serial_recv_frame f evs) as [[[[[c1 f1] e1] g1]|]|] eqn:E; cbn in H; try discriminate. injection H as <- <- <- <-.
    refine (serial_fdata _ _ _ _ _ _ _ _ _ _ Hf _ Hb E). constructor.
  - destruct (mbus_tcp_recv_frame f evs) as [[[[[c1 f1] e1] g1]|]|] eqn:E; cbn in H; try discriminate. injection H as <- <- <- <-.
    refine (tcp_fdata _ _ _ _ _ _ _ _ _ Hf _ Hb E). constructor.
Qed.
Lemma recv_fdata B h f (w : world B) c f' w' : frame_obj f -> bytes (fdata f) -> ev_bytes (w_evs w) ->
  mbus_recv_frame B (Some h) f w = Done (c, f', w') -> bytes (fdata f').
Proof.
  intros Ho Hf Hb H. unfold mbus_recv_frame in H.
  destruct (handle_recv_total h f (w_evs w) Ho Hb) as (c1 & f1 & e1 & g1 & E1 & _ & B1 & _). rewrite E1 in H. cbn [obind] in H.
  pose proof (handle_recv_fdata _ _ _ _ _ _ _ Hf Hb E1) as Hf1. destruct (_ || _).
  - destruct (handle_recv h f1 e1) as [[[[c2 f2] e2] g2]| |] eqn:E2; cbn [obind] in H; try discriminate. injection H as <- <- <-.
    exact (handle_recv_fdata _ _ _ _ _ _ _ Hf1 B1 E2).
  - injection H as <- <- <-. assumption.
Qed.

Lemma wire_long_inj c a ci p t : valid t -> valid (Long c a ci p) -> wire t = wire (Long c a ci p) -> t = Long c a ci p.
Proof.
  intros V1 V2 E. 
  pose proof (parse_wire frame_zero t eq_refl V1) as P1. pose proof (parse_wire frame_zero _ eq_refl V2) as P2. rewrite E in P1. rewrite P2 in P1.
  pose proof (denotes_parsed _ frame_zero eq_refl V1) as D1. pose proof (denotes_parsed _ frame_zero eq_refl V2) as D2.
  apply ok_inj2 in P1. destruct P1 as [_ P1]. rewrite <- P1 in D1. clear - D1 D2 V1 V2.
  set (f := parsed (Long c a ci p) frame_zero) in *. clearbody f. destruct D2 as (T & C & A & I & S & F).
  destruct t as [|c' a'|c' a' ci'|c' a' ci' p']; cbn in D1.
  - rewrite T in D1. discriminate.
  - destruct D1 as [D1 _]. rewrite T in D1. discriminate.
  - destruct D1 as [D1 _]. rewrite T in D1. discriminate.
  - destruct D1 as (_ & C1 & A1 & I1 & S1 & F1). assert (length p = length p') by lia. congruence.
Qed.
Lemma holds_var f bs more : frame_obj f -> bytes (fdata f) -> holds f bs -> var_wire bs more ->
  exists h its t, var_telegram f h its t /\ more = match t with Some (true, _) => true | _ => false end.
Proof.
  intros Ho Hb (t0 & V0 & E0 & D0) (c & a & h & its & t & Hd & Hl & Wi & Wt & V & E & M).
  rewrite E0 in E. apply wire_long_inj in E; [|assumption..]. subst t0. exists h, its, t. split; [|assumption].
  destruct D0 as (T & C & A & I & S & F). pose proof V as (V1 & V2 & V3 & V4 & V5).
  split; [|rewrite C, I; repeat split; try assumption; clear - V1; cbn in V1; intuition (subst; reflexivity || lia)].
  - split; [exact Ho|]. split; [assumption|]. split; [assumption|]. split; [assumption|]. exact (proj2 V5).
Qed.

Lemma var_more_flag h its t : v_more (dvar_of h its t) =? 0 = negb (match t with Some (true, _) => true | _ => false end).
Proof. unfold dvar_of. destruct t as [[[] b]|]; reflexivity. Qed.

Section Line.
  Variable B : Type.
  Variable wret : B -> Z -> Z.
  Variable react : B -> list Z -> B * list ev.
  Hypothesis RB : forall b l, ev_bytes (snd (react b l)).
  Notation W := (world B).

  (** If every accepted reply is a variable data telegram: no undefined behaviour, everything is released, and the
      chain goes on exactly as long as more is announced and the limit allows. *)
  Lemma request_chain h a : 0 <= a <= 255 -> 0 <= max_data_retry h ->
    forall fuel fcb req cur got fd hp p retry count mf (w : W) q w',
    req_frame req fcb a -> frame_obj cur -> bytes (fdata cur) -> ev_bytes (w_evs w) -> 0 <= count ->
    request_loop B wret react fuel h req cur got fd hp p retry count mf w = Done (q, w') ->
    exists new, w_log w' = w_log w ++ new /\
      (Forall (fun e => e = None) hp -> (forall bs, In bs (replies (exchanges new)) -> exists m, var_wire bs m) ->
       Forall (fun e => e = None) (q_heap q) /\
       (q_ret q = 0 -> forall ms, Forall2 var_wire (replies (exchanges new)) ms -> goes_on mf count ms)).
  Proof.
    intros Ha Hm. induction fuel as [|fuel IH]; intros fcb req cur got fd hp p retry count mf w q w' Hr Hc Hcb Hb Hn E; [discriminate|].
    cbn [request_loop] in E. destruct (Z.gtb_spec retry (max_data_retry h)).
    { injection E as <- <-. exists []. rewrite app_nil_r. split; [reflexivity|]. intros Hh _. split; [assumption|discriminate]. }
    destruct (req_wire req fcb a Hr Ha) as (Hd & Hden & Hv).
    destruct (send_spec B wret react h req _ w (proj1 Hr) Hd Hden Hv) as (r & Es & R1 & R2). rewrite Es in E. cbn [obind] in E.
    set (w1 := after_write react w (wire (Short (if fcb then 123 else 91) a))) in *.
    assert (Hb1 : ev_bytes (w_evs w1)) by (unfold w1, after_write; cbn [w_evs]; apply ev_bytes_app; auto).
    assert (L1 : w_log w1 = w_log w ++ [Sent (data_request fcb a)]) by reflexivity.
    destruct (Z.eqb_spec r (-1)).
    { injection E as <- <-. exists [Sent (data_request fcb a)]. split; [assumption|]. intros Hh _. split; [assumption|discriminate]. }
    destruct (recv_total B h cur w1 Hc Hb1) as (c & f' & evs' & got' & Er & O' & B' & Lv & Lv' & C & _ & K & _). rewrite Er in E. cbn [obind] in E.
    pose proof (recv_fdata B h cur w1 c f' _ Hc Hcb Hb1 Er) as Fb.
    set (w2 := mkW (w_bus w1) evs' (w_log w1 ++ [Received c got'])) in *.
    assert (L2 : w_log w2 = w_log w ++ [Sent (data_request fcb a); Received c got']).
    { unfold w2. cbn [w_log]. rewrite L1, <- app_assoc. reflexivity. }
    assert (X : forall new3 new, received_only new3 -> exchanges ([Sent (data_request fcb a); Received c got'] ++ new3 ++ new) = (data_request fcb a, Some (c, got')) :: exchanges new).
    { intros. cbn [app exchanges]. rewrite exchanges_received by assumption. reflexivity. }
    (* rounds without an accepted reply *)
    assert (RETRY : forall (w3 : W) new3, w_log w3 = w_log w2 ++ new3 -> received_only new3 -> ev_bytes (w_evs w3) -> c <> RECV_OK ->
      request_loop B wret react fuel h (packed_frame req) f' got fd hp p (retry + 1) count mf w3 = Done (q, w') ->
      exists new, w_log w' = w_log w ++ new /\
      (Forall (fun e => e = None) hp -> (forall bs, In bs (replies (exchanges new)) -> exists m, var_wire bs m) ->
       Forall (fun e => e = None) (q_heap q) /\
       (q_ret q = 0 -> forall ms, Forall2 var_wire (replies (exchanges new)) ms -> goes_on mf count ms))).
    { intros w3 new3 L3 R3 B3 Hne Eq.
      destruct (IH fcb (packed_frame req) f' got fd hp p (retry + 1) count mf w3 q w' (req_packed _ _ _ Hr) O' Fb B3 Hn Eq) as (new & N1 & N2).
      exists ([Sent (data_request fcb a); Received c got'] ++ new3 ++ new). split; [rewrite N1, L3, L2, !app_assoc; reflexivity|].
      rewrite X by assumption. cbn [replies flat_map snd]. destruct (Z.eqb_spec c 0); [contradiction|]. exact N2. }
    assert (STOP : forall (w3 : W) new3 hp3, w_log w3 = w_log w2 ++ new3 -> received_only new3 -> c <> RECV_OK -> (Forall (fun e => e = None) hp -> Forall (fun e => e = None) hp3) ->
      Done (mkRq 1 (got ++ [f']) hp3, w3) = Done (q, w') ->
      exists new, w_log w' = w_log w ++ new /\
      (Forall (fun e => e = None) hp -> (forall bs, In bs (replies (exchanges new)) -> exists m, var_wire bs m) ->
       Forall (fun e => e = None) (q_heap q) /\
       (q_ret q = 0 -> forall ms, Forall2 var_wire (replies (exchanges new)) ms -> goes_on mf count ms))).
    { intros w3 new3 hp3 L3 R3 Hne H3 Eq. injection Eq as <- <-. exists ([Sent (data_request fcb a); Received c got'] ++ new3).
      split; [rewrite L3, L2, app_assoc; reflexivity|]. intros Hh _. split; [auto|discriminate]. }
    destruct (Z.eqb_spec c RECV_OK) as [Ec|Ec].
    - destruct (purge_frames_ok B h w2 B') as (pr & w3 & new3 & Ep & _ & _ & B3 & _ & L3 & R3 & _). rewrite Ep in E. cbn [obind] in E.
      assert (HK : holds f' got') by (apply K; assumption).
      assert (C0 : c =? 0 = true) by (unfold RECV_OK in *; lia).
      (* what the decoder does with a variable reply *)
      assert (DEC : forall m, var_wire got' m -> exists rs v, parse_heap f' fd hp p = Ok (0, mkFD v (d_fix fd) DT_VARIABLE (d_error fd), heap_with hp rs, ptr_with hp rs) /\ (v_more v =? 0) = negb m).
      { intros m Vw. destruct (holds_var f' got' m O' Fb HK Vw) as (h0 & its & t & T & M).
        destruct (parse_heap_ok f' _ fd hp p (telegram_reply (fun _ => None) (fun _ => I) f' h0 its t T)) as (v & E1 & _ & E2).
        exists (map entry_obj (entries its t)), v. split; [exact E1|]. rewrite (telegram_parse f' h0 its t fd T) in E2. apply ok_inj2 in E2.
        destruct E2 as [_ E2]. injection E2 as <-. rewrite var_more_flag, M. reflexivity. }
      destruct (parse_heap f' fd hp p) as [[[[prs fd'] hp'] p']|] eqn:Eh; cbn [lift obind] in E; [|discriminate].
      destruct (Z.eqb_spec prs (-1)) as [Epr|Epr].
      { injection E as <- <-. exists ([Sent (data_request fcb a); Received c got'] ++ new3 ++ []). split; [rewrite L3, L2, app_nil_r, app_assoc; reflexivity|].
        rewrite X by assumption. cbn [replies flat_map snd]. rewrite C0. intros Hh HV. destruct (HV got' (or_introl eq_refl)) as (m & Vw).
        destruct (DEC m Vw) as (rs & v & E1 & _). apply ok_inj in E1. injection E1 as -> _ _ _. lia. }
      destruct (free_list hp' p') as [hp''|] eqn:Ef; cbn [lift obind] in E; [|discriminate].
      assert (HP : forall m, var_wire got' m -> (Forall (fun e => e = None) hp -> Forall (fun e => e = None) hp'') /\ d_type fd' = DT_VARIABLE /\ (v_more (d_var fd') =? 0) = negb m).
      { intros m Vw. destruct (DEC m Vw) as (rs & v & E1 & Hmore). apply ok_inj in E1. injection E1 as _ -> -> ->.
        destruct (use_free hp rs) as [_ Uf]. rewrite Uf in Ef. apply ok_inj in Ef. subst hp''. split; [|auto].
        intros Hh. unfold heap_after. destruct rs; [assumption|]. apply Forall_app. split; [assumption|]. constructor; auto. }
      destruct ((d_type fd' =? DT_VARIABLE) && negb (v_more (d_var fd') =? 0) && (mf >? 0) && (count + 1 <? mf)) eqn:More.
      + destruct (IH (negb fcb) (set_control (packed_frame req) (Z.lxor (control (packed_frame req)) 0x20)) (mbus_frame_new T_ANY) (got ++ [f']) fd' hp'' p' 0 (count + 1) mf w3 q w') as (new & N1 & N2).
        { apply req_toggle, req_packed. assumption. } { apply new_obj. } { apply Forall_forall. intros x Hx. apply repeat_spec in Hx. subst x. unfold is_byte. lia. }
        { assumption. } { lia. } { exact E. }
        exists ([Sent (data_request fcb a); Received c got'] ++ new3 ++ new). split; [rewrite N1, L3, L2, !app_assoc; reflexivity|].
        rewrite X by assumption. cbn [replies flat_map snd]. rewrite C0. cbn [app]. intros Hh HV. destruct (HV got' (or_introl eq_refl)) as (m & Vw).
        destruct (HP m Vw) as (H1 & H2 & H3). destruct N2 as [M1 M2]; [exact (H1 Hh)|intros bs Hbs; apply HV; right; exact Hbs|].
        split; [exact M1|]. intros Z0 ms F. inversion_clear F as [|? m' ? ms' Vm F'].
        destruct (HP m' Vm) as (_ & _ & H3'). specialize (M2 Z0 ms' F'). rewrite H2, H3' in More.
        destruct ms' as [|m2 ms']; [destruct M2|]. cbn [goes_on]. split; [destruct m'; [reflexivity|cbn in More; lia]|]. split; [lia|exact M2].
      + injection E as <- <-. exists ([Sent (data_request fcb a); Received c got'] ++ new3 ++ []). split; [rewrite L3, L2, app_nil_r, app_assoc; reflexivity|].
        rewrite X by assumption. cbn [replies flat_map snd exchanges]. rewrite C0. cbn [app]. intros Hh HV. destruct (HV got' (or_introl eq_refl)) as (m & Vw).
        destruct (HP m Vw) as (H1 & H2 & H3). split; [exact (H1 Hh)|]. intros _ ms F. inversion_clear F as [|? m' ? ms' Vm F']. inversion_clear F'.
        destruct (HP m' Vm) as (_ & _ & H3'). cbn [goes_on]. rewrite H2, H3' in More. change (DT_VARIABLE =? DT_VARIABLE) with true in More. destruct m'; [right; cbn [negb andb] in More; lia|left; reflexivity].
    - destruct (Z.eqb_spec c RECV_TIMEOUT).
      { apply (RETRY w2 []); [rewrite app_nil_r; reflexivity|constructor|assumption|assumption|assumption]. }
      destruct (Z.eqb_spec c RECV_INVALID).
      { destruct (purge_frames_ok B h w2 B') as (pr & w3 & new3 & Ep & _ & _ & B3 & _ & L3 & R3 & _). rewrite Ep in E. cbn [obind] in E.
        apply (RETRY w3 new3); assumption. }
      apply (STOP w2 [] hp); [rewrite app_nil_r; reflexivity|constructor|assumption|auto|assumption].
  Qed.
End Line.

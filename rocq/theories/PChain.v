(** Proofs about the program that reads messages of several telegrams. *)
From Coq Require Import String.
From Coq Require Import List.
From Verif Require Import CBase PBase CStr MFrame MCodec MVar MText SVar SText SCodec PCodec SXml MXml SWire SFrame PFrame PFrame2 PVar3 PXml2 PXml4 MRecv SRecv PRecv PropFrame PropRecv MSecond SSecond PSecond MProto SProto PProto PProto2 PropProto PReq SReq PReq2 SBus PBus PBus2 SNet MTools PNet SMean PropMean PNet2 SLine PLine PropLine SChain.
Local Open Scope Z_scope.

Lemma map_filter_commute {A B} (f : A -> B) (p : B -> bool) (q : A -> bool) l : (forall x, p (f x) = q x) -> filter p (map f l) = map f (filter q l).
Proof. intros H. induction l as [|x l IH]; [reflexivity|]. cbn [map filter]. rewrite H. destruct (q x); cbn [map]; rewrite IH; reflexivity. Qed.
Lemma front_parts x y : m_parts x = m_parts y -> front x = front y.
Proof. unfold front. intros ->. reflexivity. Qed.
Lemma crowd_map f l : (forall x, m_parts (f x) = m_parts x) -> (forall x, m_chosen (f x) = m_chosen x) -> crowd (map f l) = crowd l.
Proof. intros H1 H2. unfold crowd. rewrite map_map. apply map_ext. intros x. rewrite H2, (front_parts (f x) x) by apply H1. reflexivity. Qed.
Lemma request_parts fcb a x : m_parts (request_meter fcb a x) = m_parts x /\ m_chosen (request_meter fcb a x) = m_chosen x.
Proof. unfold request_meter. destruct (listens _ _); [destruct (a =? 253)|]; auto. Qed.
Lemma request_hearing fcb a l : hearing a (map (request_meter fcb a) l) = map (request_meter fcb a) (hearing a l).
Proof.
  unfold hearing. apply map_filter_commute. intros x. destruct (request_parts fcb a x) as [P C]. rewrite C, (front_parts _ x P). reflexivity.
Qed.
Lemma request_station fcb a x : listens a (front x, m_chosen x) = true -> station_at a (request_meter fcb a x) = serve fcb (station_at a x).
Proof. intros H. unfold request_meter, station_at. rewrite H. destruct (a =? 253); reflexivity. Qed.
Lemma hearing_one a l x : hearing a l = [x] -> listens a (front x, m_chosen x) = true.
Proof. intros H. assert (I : In x (hearing a l)) by (rewrite H; left; reflexivity). apply filter_In in I. apply I. Qed.

Section Chain.
  Variables (echo : bool) (h : handle) (fates : nat -> fate) (B : Type) (wret : B -> Z -> Z) (react : B -> list Z -> B * list ev)
    (turn : B -> nat) (st : B -> list meter).
  Hypothesis chain : chain_of echo h fates B wret react turn st.
  Hypothesis mode : hears_slaves h.
  Hypothesis retry : 0 <= max_data_retry h.
  Notation W := (world B).
  Notation stw w := (st (w_bus w)).

  Lemma chain_shared : shared_of h B wret react (fun b => crowd (st b)).
  Proof.
    destruct chain as [H1 H2 H3 _ _]. split; [assumption| |].
    - intros b m Wf Hl Hb. destruct (H2 b m Wf Hl Hb) as (E & K). split; [|assumption]. rewrite E. unfold crowd. rewrite !map_map. apply map_ext. intros x. reflexivity.
    - intros b a Wf Ha. destruct (H3 b a Wf Ha) as (E & K). split; [|assumption]. rewrite E. unfold reset_meter. destruct (a =? 253).
      + unfold crowd. rewrite !map_map. apply map_ext. reflexivity.
      + apply crowd_map; reflexivity.
  Qed.

  (** The network as a line to one meter. *)
  Definition alone (a : Z) (ps : list slave) (b : B) : Prop := wf_net (crowd (st b)) /\ exists x, hearing a (st b) = [x] /\ m_parts x = ps.
  Definition progress (a : Z) (b : B) : station := match hearing a (st b) with [x] => station_at a x | _ => start_station end.
  Lemma chain_line a ps : 0 <= a <= 253 -> line_of echo h a ps fates B wret react turn (progress a) (alone a ps).
  Proof.
    intros Ha.
    assert (K : forall b fcb, alone a ps b -> exists body x,
      hears echo h (Short (if fcb : bool then 0x7B else 0x5B) a) (snd (react b (data_request fcb a))) body /\
      hearing a (st b) = [x] /\ m_parts x = ps /\ wf_net (crowd (st b)) /\
      st (fst (react b (data_request fcb a))) = match fates (turn b) with RequestLost => st b | _ => map (request_meter fcb a) (st b) end /\
        match fates (turn b) with
        | RequestLost | ReplyLost => body = []
        | ReplyDamaged => burst body /\ damaged h body
        | Fine => forall p, nth_error (m_parts x) (served (serve fcb (station_at a x)) - 1) = Some p -> next_telegram h body (sl_telegram p) []
        end).
    { intros b fcb (Wf & x & Hx & Hp). destruct (ch_request _ _ _ _ _ _ _ _ chain b fcb a Wf Ha) as (body & Hh & R). rewrite Hx in R. exists body, x. tauto. }
    split.
    - apply (ch_writes _ _ _ _ _ _ _ _ chain).
    - intros b fcb Hb. destruct (K b fcb Hb) as (body & x & _ & Hx & Hp & Wf & E & _). unfold alone. rewrite E.
      destruct (fates (turn b)); [|split; [assumption|eauto]| |].
      all: split; [rewrite crowd_map; [assumption|intros y; apply request_parts|intros y; apply request_parts]|].
      all: rewrite request_hearing, Hx; cbn [map]; eexists; split; [reflexivity|]. all: rewrite (proj1 (request_parts fcb a x)); assumption.
    - intros b fcb Hb. apply (ch_turn _ _ _ _ _ _ _ _ chain b fcb a (proj1 Hb) Ha).
    - intros b fcb Hb. destruct (K b fcb Hb) as (body & x & Hh & Hx & Hp & Wf & E & R). exists body. split; [assumption|]. subst ps.
      assert (P : progress a b = station_at a x) by (unfold progress; rewrite Hx; reflexivity).
      assert (Q : hearing a (map (request_meter fcb a) (st b)) = [request_meter fcb a x]) by (rewrite request_hearing, Hx; reflexivity).
      pose proof (request_station fcb a x (hearing_one a _ x Hx)) as S1.
      unfold progress at 1. rewrite E, P. destruct (fates (turn b)); (split; [|assumption]); rewrite ?Q, ?Hx; auto.
  Qed.
  (** With nobody at the address: a line that loses all requests. *)
  Lemma nobody_line a ps : 0 <= a <= 253 ->
    line_of echo h a ps (fun _ => RequestLost) B wret react turn (fun _ => start_station) (fun b => wf_net (crowd (st b)) /\ hearing a (st b) = []).
  Proof.
    intros Ha. assert (K : forall b fcb, wf_net (crowd (st b)) /\ hearing a (st b) = [] -> 
      hears echo h (Short (if fcb : bool then 0x7B else 0x5B) a) (snd (react b (data_request fcb a))) [] /\ st (fst (react b (data_request fcb a))) = st b).
    { intros b fcb (Wf & Hx). destruct (ch_request _ _ _ _ _ _ _ _ chain b fcb a Wf Ha) as (body & Hh & R). rewrite Hx in R. destruct R as [R ->]. auto. }
    split.
    - apply (ch_writes _ _ _ _ _ _ _ _ chain).
    - intros b fcb Hb. rewrite (proj2 (K b fcb Hb)). assumption.
    - intros b fcb Hb. apply (ch_turn _ _ _ _ _ _ _ _ chain b fcb a (proj1 Hb) Ha).
    - intros b fcb Hb. exists []. split; [apply K; assumption|]. auto.
  Qed.
  Lemma nobody_fails a mf (w : W) : 0 <= a <= 253 -> w_evs w = [] -> wf_net (crowd (stw w)) -> hearing a (stw w) = [] ->
    exists q w', mbus_sendrecv_request B wret react (Some h) a frame_zero mf w = Done (q, w') /\ q_ret q = 1.
  Proof.
    intros Ha Hw Wf Hn.
    assert (M : forall v, is_byte v -> message [part false v]) by (intros v Hv; split; [constructor; [apply part_ok; assumption|constructor]|reflexivity]).
    assert (F : fresh start_station) by (split; [reflexivity|discriminate]).
    assert (R : forall v, is_byte v -> exists q w', mbus_sendrecv_request B wret react (Some h) a frame_zero mf w = Done (q, w') /\ (q_ret q = 0 \/ q_ret q = 1) /\
      (q_ret q = 0 -> Forall2 denotes (q_frames q) [sl_telegram (part false v)])).
    { intros v Hv. destruct (line_readout echo h a [part false v] _ B wret react turn _ _ frame_zero mf w (nobody_line a [part false v] Ha) (conj Wf Hn) (M v Hv) mode ltac:(lia) retry clean_zero Hw F)
        as (q & w' & E & _ & R & S1 & _). exists q, w'. split; [assumption|]. split; [assumption|]. intros Hq. destruct (S1 Hq) as [D _].
      rewrite firstn_all2 in D by (cbn; lia). exact D. }
    destruct (R 1 ltac:(unfold is_byte; lia)) as (q & w' & E & Q & D1). destruct (R 2 ltac:(unfold is_byte; lia)) as (q2 & w2 & E2 & _ & D2).
    rewrite E in E2. injection E2 as <- <-. exists q, w'. split; [assumption|]. destruct Q as [Q|Q]; [|assumption]. exfalso.
    specialize (D1 Q). specialize (D2 Q). inversion D1 as [|f t l1 l2 A1 A2 X1 X2]. subst. inversion D2 as [|f2 t2 l3 l4 A3 A4 X3 X4]. subst.
    assert (f = f2) by congruence. subst f2. destruct A1 as (_ & _ & _ & _ & _ & A1). destruct A3 as (_ & _ & _ & _ & _ & A3).
    cbn [part sl_header sl_items sl_tail] in A1, A3. cbn [enc_body flat_map enc_tail app List.length] in A1, A3. rewrite A1 in A3. discriminate.
  Qed.

  Definition readable_parts (ps : list slave) : Prop :=
    Forall (fun s => Forall small_entry (entries (sl_items s) (sl_tail s)) /\ Forall plain_meaning (entries (sl_items s) (sl_tail s))) ps /\
    Z.of_nat (List.length (concat (map (fun s => entries (sl_items s) (sl_tail s)) ps))) + Z.of_nat (List.length ps) < 10 ^ 9.
  Variable stamp : Z -> option (list Z).
  Hypothesis stamps : forall i, stamp_ok (stamp i).

  Lemma frames_document ps fs : Forall wf_slave ps -> ps <> [] -> readable_parts ps -> Forall2 denotes fs (map sl_telegram ps) -> Forall (fun f => frame_obj f /\ bytes (fdata f)) fs ->
    exists f fs' text hp, fs = f :: fs' /\ mbus_frame_xml stamp f fs' = Ok (mkOut (Some text) hp false) /\
      plain_document stamp (sl_header (hd (mkSlave 0 0 [] [] None) ps)) (map (fun s => entries (sl_items s) (sl_tail s)) ps) text.
  Proof.
    intros Wf Ne (Sm & Len) D O. destruct ps as [|p ps]; [congruence|]. inversion Wf as [|? ? Wp Wps]; subst. destruct fs as [|f fs]; [inversion D|]. cbn [map] in D. inversion D as [|? ? ? ? D1 D2]; subst.
    inversion O as [|? ? [O1 O1'] O2]; subst.
    destruct (C58_chain_document_partial stamp stamps f fs (sl_header p) (sl_items p) (sl_tail p) (map (fun s => (sl_header s, sl_items s, sl_tail s)) ps)) as (text & hp & E & Dc).
    - exact (sl_var f p Wp D1 O1 O1').
    - clear - D2 O2 Wps. revert fs D2 O2. induction Wps as [|x l Wx Wl IH]; intros fs D2 O2; inversion D2; subst; [constructor|]. inversion_clear O2 as [|? ? [Oa Ob] O3]. cbn [map].
      constructor; [apply (sl_var _ x Wx); assumption|]. apply IH; assumption.
    - rewrite map_map. cbn [fst snd]. change (entries (sl_items p) (sl_tail p) :: map (fun x => entries (sl_items x) (sl_tail x)) ps) with (map (fun x => entries (sl_items x) (sl_tail x)) (p :: ps)).
      apply Forall_map. revert Sm. apply Forall_impl. intros x [X _]. exact X.
    - rewrite map_map. cbn [fst snd]. change (entries (sl_items p) (sl_tail p) :: map (fun x => entries (sl_items x) (sl_tail x)) ps) with (map (fun x => entries (sl_items x) (sl_tail x)) (p :: ps)).
      apply Forall_map. revert Sm. apply Forall_impl. intros x [_ X]. exact X.
    - rewrite map_map. cbn [fst snd]. change (entries (sl_items p) (sl_tail p) :: map (fun x => entries (sl_items x) (sl_tail x)) ps) with (map (fun x => entries (sl_items x) (sl_tail x)) (p :: ps)).
      rewrite map_length. exact Len.
    - exists f, fs, text, hp. split; [reflexivity|]. split; [exact E|]. rewrite map_map in Dc. exact Dc.
  Qed.

  (** The last part of the program. *)
  Definition multi_part (a mf : Z) (w : W) : out (Z * option (list Z) * W) :=
    do (q, w) <- mbus_sendrecv_request B wret react (Some h) a frame_zero mf w ;;
    if negb (q_ret q =? 0) then Done (1, None, w)
    else
      match q_frames q with
      | [] => Undef
      | f :: fs =>
          do o <- lift (mbus_frame_xml stamp f fs) ;;
          match o_text o with None => Done (1, None, w) | Some text => Done (0, Some text, w) end
      end.
  Notation limit mf := (firstn (Z.to_nat (Z.max 1 mf))).
  Lemma multi_nobody a mf (w : W) : 0 <= a <= 253 -> w_evs w = [] -> wf_net (crowd (stw w)) -> hearing a (stw w) = [] -> exists w', multi_part a mf w = Done (1, None, w').
  Proof. intros Ha Hw Wf Hn. destruct (nobody_fails a mf w Ha Hw Wf Hn) as (q & w' & E & Q). exists w'. unfold multi_part. rewrite E. cbn [obind]. rewrite Q. reflexivity. Qed.
  Lemma multi_alone a mf (w : W) x : 0 <= a <= 253 -> w_evs w = [] -> wf_net (crowd (stw w)) -> hearing a (stw w) = [x] -> message (m_parts x) -> fresh (station_at a x) ->
    readable_parts (limit mf (m_parts x)) ->
    exists code doc w', multi_part a mf w = Done (code, doc, w') /\
      ((code = 1 /\ doc = None) \/ (code = 0 /\ exists text, doc = Some text /\
         plain_document stamp (sl_header (front x)) (map (fun s => entries (sl_items s) (sl_tail s)) (limit mf (m_parts x))) text)) /\
      (recovers (max_data_retry h) fates -> code = 0).
  Proof.
    intros Ha Hw Wf Hx M F Rd.
    assert (Al : alone a (m_parts x) (w_bus w)) by (split; [assumption|eauto]).
    assert (Fr : fresh (progress a (w_bus w))) by (unfold progress; rewrite Hx; exact F).
    destruct (line_readout echo h a (m_parts x) fates B wret react turn _ _ frame_zero mf w (chain_line a (m_parts x) Ha) Al M mode ltac:(lia) retry clean_zero Hw Fr)
      as (q & w' & E & _ & Q & S1 & L1).
    unfold multi_part. rewrite E. cbn [obind]. destruct Q as [Q|Q].
    - destruct (S1 Q) as [D O]. rewrite Q. cbn [Z.eqb negb].
      destruct (frames_document (limit mf (m_parts x)) (q_frames q)) as (f & fs & text & hp & E1 & E2 & E3); try assumption.
      { apply Forall_forall. intros y Hy. destruct M as [Mw _]. rewrite Forall_forall in Mw. apply Mw. rewrite <- (firstn_skipn (Z.to_nat (Z.max 1 mf))). apply in_or_app. auto. }
      { destruct (m_parts x); [destruct M as [_ []]|]. destruct (Z.to_nat (Z.max 1 mf)) eqn:Z0; [lia|discriminate]. }
      rewrite E1, E2. cbn [lift obind o_text]. exists 0, (Some text), w'. split; [reflexivity|]. split; [|reflexivity]. right. split; [reflexivity|]. exists text. split; [reflexivity|].
      unfold front. replace (hd (mkSlave 0 0 [] [] None) (m_parts x)) with (hd (mkSlave 0 0 [] [] None) (limit mf (m_parts x))); [exact E3|].
      destruct (m_parts x); [destruct (Z.to_nat (Z.max 1 mf)); reflexivity|]. destruct (Z.to_nat (Z.max 1 mf)) eqn:Z0; [lia|reflexivity].
    - rewrite Q. cbn [Z.eqb negb]. exists 1, None, w'. split; [reflexivity|]. split; [auto|]. intros Rec. specialize (L1 Rec). congruence.
  Qed.

  Lemma reset_twice l : map (reset_meter 253) (map (reset_meter 253) l) = map (reset_meter 253) l.
  Proof. rewrite map_map. apply map_ext. reflexivity. Qed.
  Lemma chain_init (w : W) : w_evs w = [] -> wf_net (crowd (stw w)) -> exists w1, init_slaves B wret react h w = Done (1, w1) /\ w_evs w1 = [] /\ stw w1 = map (reset_meter 253) (stw w) /\ wf_net (crowd (stw w1)).
  Proof.
    intros Hw Wf. destruct (init_ok h B wret react _ chain_shared mode w Hw Wf) as (w1 & n1 & E1 & E2 & E3 & _ & _ & E6). exists w1. split; [assumption|]. split; [assumption|].
    destruct (ch_reset _ _ _ _ _ _ _ _ chain (w_bus w) 253 Wf ltac:(lia)) as [R1 _].
    assert (Wf1 : wf_net (crowd (st (fst (react (w_bus w) (wire (reset_to 253))))))).
    { destruct (sh_reset _ _ _ _ _ chain_shared (w_bus w) 253 Wf ltac:(lia)) as [X _]. cbn beta in X. rewrite X. apply (deselected_wf _ Wf). }
    destruct (ch_reset _ _ _ _ _ _ _ _ chain _ 253 Wf1 ltac:(lia)) as [R2 _].
    split; [rewrite E6; rewrite R2, R1; apply reset_twice|]. cbn beta in E3. rewrite E3. apply deselected_wf. exact Wf.
  Qed.

  Lemma multi_primary a mf (w : W) : 0 <= a <= 252 -> w_evs w = [] -> wf_net (crowd (stw w)) ->
    match meters_at a (stw w) with
    | [] => exists w', request_multi_main B wret react stamp h (Primary a) mf w = Done (1, None, w')
    | [x] => message (m_parts x) -> fresh (m_home x) -> readable_parts (limit mf (m_parts x)) ->
        exists code doc w', request_multi_main B wret react stamp h (Primary a) mf w = Done (code, doc, w') /\
          ((code = 1 /\ doc = None) \/ (code = 0 /\ exists text, doc = Some text /\
             plain_document stamp (sl_header (front x)) (map (fun s => entries (sl_items s) (sl_tail s)) (limit mf (m_parts x))) text)) /\
          (recovers (max_data_retry h) fates -> code = 0)
    | _ => True
    end.
  Proof.
    intros Ha Hw Wf. destruct (chain_init w Hw Wf) as (w1 & I1 & I2 & I3 & I4).
    assert (Q : request_multi_main B wret react stamp h (Primary a) mf w = multi_part a mf w1) by (unfold request_multi_main; rewrite I1; reflexivity). rewrite Q.
    assert (Hg : hearing a (stw w1) = map (reset_meter 253) (meters_at a (stw w))).
    { rewrite I3. unfold hearing, meters_at. apply map_filter_commute. intros x. unfold listens. destruct (Z.eqb_spec a 253); [lia|]. destruct (Z.eqb_spec a 254); [lia|]. destruct (Z.eqb_spec a 255); [lia|]. reflexivity. }
    destruct (meters_at a (stw w)) as [|x [|y l]]; [| |exact I].
    - apply multi_nobody; try assumption. lia.
    - intros M F Rd. apply (multi_alone a mf w1 (reset_meter 253 x)); try assumption. lia.
      unfold station_at. destruct (Z.eqb_spec a 253); [lia|]. exact F.
  Qed.
  Lemma multi_secondary s mf (w : W) : wf_mask s -> w_evs w = [] -> wf_net (crowd (stw w)) ->
    match meters_matching (mbytes s) (stw w) with
    | [] => exists w', request_multi_main B wret react stamp h (Secondary (Some s)) mf w = Done (1, None, w')
    | [x] => message (m_parts x) -> readable_parts (limit mf (m_parts x)) ->
        exists code doc w', request_multi_main B wret react stamp h (Secondary (Some s)) mf w = Done (code, doc, w') /\
          ((code = 1 /\ doc = None) \/ (code = 0 /\ exists text, doc = Some text /\
             plain_document stamp (sl_header (front x)) (map (fun s => entries (sl_items s) (sl_tail s)) (limit mf (m_parts x))) text)) /\
          (recovers (max_data_retry h) fates -> code = 0)
    | _ => True
    end.
  Proof.
    intros Hs Hw Wf. destruct (chain_init w Hw Wf) as (w1 & I1 & I2 & I3 & I4).
    destruct (select_net h B wret react _ chain_shared mode s w1 Hs I2 I4) as (r & w2 & new & F1 & F2 & F3 & _ & _ & F5 & F6).
    destruct (mbytes_ok s (proj1 Hs)) as (Mb & Ml & _).
    destruct (ch_select _ _ _ _ _ _ _ _ chain (w_bus w1) (mbytes s) I4 Ml Mb) as [S1 _]. rewrite <- F5 in S1.
    assert (Wf2 : wf_net (crowd (stw w2))) by (cbn beta in F3; rewrite F3; apply map_wf; auto).
    assert (Mm : matching_members (mbytes s) (crowd (stw w1)) = map front (meters_matching (mbytes s) (stw w))).
    { unfold matching_members, meters_matching, crowd. rewrite I3, !map_map. cbn [fst]. rewrite (map_filter_commute _ (matches (mbytes s)) (fun x => matches (mbytes s) (front x))) by reflexivity.
      apply map_ext. reflexivity. }
    assert (Hg : hearing 253 (stw w2) = map (fun x => select_meter (mbytes s) (reset_meter 253 x)) (meters_matching (mbytes s) (stw w))).
    { rewrite S1, I3, map_map. unfold hearing, meters_matching. apply map_filter_commute. reflexivity. }
    cbn beta in F6. rewrite Mm in F6.
    destruct (meters_matching (mbytes s) (stw w)) as [|x [|y l]] eqn:Em; [| |exact I]; cbn [map] in F6.
    - exists w2. unfold request_multi_main. rewrite I1. cbn [obind address_slave]. change (1 =? 0) with false. cbv iota. rewrite F1. cbn [obind]. rewrite F6. reflexivity.
    - intros M Rd.
      assert (Q : request_multi_main B wret react stamp h (Secondary (Some s)) mf w = multi_part 253 mf w2).
      { unfold request_multi_main. rewrite I1. cbn [obind address_slave]. change (1 =? 0) with false. cbv iota. rewrite F1. cbn [obind]. rewrite F6. reflexivity. }
      rewrite Q. apply (multi_alone 253 mf w2 (select_meter (mbytes s) (reset_meter 253 x))); try assumption. lia.
      unfold station_at. cbn [Z.eqb Pos.eqb]. unfold select_meter. cbn [m_away].
      assert (I : In x (meters_matching (mbytes s) (stw w))) by (rewrite Em; left; reflexivity). apply filter_In in I. destruct I as [_ I].
      change (front (reset_meter 253 x)) with (front x). rewrite I. split; [reflexivity|discriminate].
  Qed.
End Chain.

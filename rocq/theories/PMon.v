(** Proofs about monitoring. *)
From Verif Require Import CBase PBase MFrame SWire SFrame PFrame PFrame2 MRecv SRecv PRecv PropRecv MProto SProto PProto PProto2 MMon SMon.

Lemma taken_app a b : taken (a ++ b) = taken a ++ taken b.
Proof. apply flat_map_app. Qed.
Lemma heard_app a b : heard (a ++ b) = heard a ++ heard b.
Proof. apply flat_map_app. Qed.
Lemma told_app a b : told (a ++ b) = told a ++ told b.
Proof. apply flat_map_app. Qed.
Lemma complete_app a b : complete (a ++ b) = complete a ++ complete b.
Proof. apply flat_map_app. Qed.

(** What is added to the reads of a receive call. *)
Definition cb (serial : bool) (m : monitor) (c : Z) (got : list Z) : list act :=
  if (c =? RECV_OK) || (c =? RECV_INVALID) then report serial m got else [].

Lemma serial_mon : forall fuel f evs got rem tm c f' e' got',
  serial_loop fuel f evs got rem tm = Ok (Some (c, f', e', got')) ->
  exists rs, Forall is_read rs /\ got' = got ++ taken rs /\
    forall m tr, serial_loop_mon true m fuel f evs got rem tm tr = Ok (Some (c, f', e', tr ++ rs ++ cb true m c got')).
Proof.
  induction fuel as [|fuel IH]; intros f evs got rem tm c f' e' got' H; cbn [serial_loop] in H; [discriminate|].
  destruct (_ >? PACKET_BUFF_SIZE) eqn:Eo.
  { exists []. assert (c = RECV_ERROR /\ f' = f /\ e' = evs /\ got' = got) as (-> & -> & -> & ->) by (repeat split; congruence).
    split; [constructor|]. split; [symmetry; apply app_nil_r|]. intros m tr. cbn [serial_loop_mon]. rewrite Eo. cbn. rewrite app_nil_r. reflexivity. }
  destruct (read_ev (RBytes []) evs (Z.to_nat rem)) as [[bs|x] es] eqn:Er.
  - assert (FIN : forall f1 g1 rem1, g1 = got ++ bs -> serial_finish f1 es g1 rem1 = Ok (Some (c, f', e', got')) ->
       (forall m tr, serial_loop_mon true m (S fuel) f evs got rem tm tr = serial_finish_mon true m f1 es g1 rem1 (tr ++ [Read rem (RBytes bs)])) ->
       exists rs, Forall is_read rs /\ got' = got ++ taken rs /\
         forall m tr, serial_loop_mon true m (S fuel) f evs got rem tm tr = Ok (Some (c, f', e', tr ++ rs ++ cb true m c got'))).
    { intros f1 g1 rem1 Eg Hf Hm. exists [Read rem (RBytes bs)]. split; [repeat constructor|].
      unfold serial_finish in Hf. 
      assert (Eg' : got ++ taken [Read rem (RBytes bs)] = g1) by (subst g1; cbn; rewrite app_nil_r; reflexivity).
      destruct (length g1 =? 0)%nat eqn:L0.
      - assert (c = RECV_TIMEOUT /\ f' = f1 /\ e' = es /\ got' = g1) as (-> & -> & -> & ->) by (repeat split; congruence).
        split; [auto|]. intros m tr. rewrite Hm. unfold serial_finish_mon. rewrite L0. cbn. reflexivity.
      - destruct (negb (rem1 =? 0)) eqn:R0.
        + assert (c = RECV_INVALID /\ f' = f1 /\ e' = es /\ got' = g1) as (-> & -> & -> & ->) by (repeat split; congruence).
          split; [auto|]. intros m tr. rewrite Hm. unfold serial_finish_mon. rewrite L0, R0. cbn. rewrite <- app_assoc. reflexivity.
        + assert (c = RECV_OK /\ f' = f1 /\ e' = es /\ got' = g1) as (-> & -> & -> & ->) by (repeat split; congruence).
          split; [auto|]. intros m tr. rewrite Hm. unfold serial_finish_mon. rewrite L0, R0. cbn. rewrite <- app_assoc. reflexivity. }
    cbn zeta in H.
    destruct ((Z.of_nat (length bs) =? 0) && _) eqn:Et.
    { assert (bs = []) as -> by (destruct bs; [reflexivity|apply andb_prop in Et; destruct Et as [Et _]; cbn in Et; discriminate]).
      apply (FIN f got rem); [rewrite app_nil_r; reflexivity|exact H|]. intros m tr. cbn [serial_loop_mon]. rewrite Eo, Er. cbn zeta. rewrite Et. reflexivity. }
    destruct (_ >? PACKET_BUFF_SIZE) eqn:Eo2 in H; [discriminate|].
    destruct (mbus_parse f (got ++ bs)) as [[r f1]|] eqn:Ep; [|discriminate]. cbn [bind] in H.
    destruct (r >? 0) eqn:Er0.
    + destruct (IH _ _ _ _ _ _ _ _ _ H) as (rs & Hr & Hg & Hm). exists (Read rem (RBytes bs) :: rs).
      split; [constructor; [exact I|assumption]|]. split; [rewrite Hg, <- app_assoc; reflexivity|].
      intros m tr. cbn [serial_loop_mon]. rewrite Eo, Er. cbn zeta. rewrite Et, Eo2, Ep. cbn [bind]. rewrite Er0, Hm, <- app_assoc. reflexivity.
    + apply (FIN f1 (got ++ bs) r); [reflexivity|exact H|]. intros m tr. cbn [serial_loop_mon]. rewrite Eo, Er. cbn zeta. rewrite Et, Eo2, Ep. cbn [bind]. rewrite Er0. reflexivity.
  - exists [Read rem (RErr x)]. assert (c = RECV_ERROR /\ f' = f /\ e' = es /\ got' = got) as (-> & -> & -> & ->) by (repeat split; congruence).
    split; [repeat constructor|]. split; [symmetry; apply app_nil_r|].
    intros m tr. cbn [serial_loop_mon]. rewrite Eo, Er. cbn. reflexivity.
Qed.

Lemma tcp_mon : forall fuel f evs got rem c f' e' got',
  tcp_loop fuel f evs got rem = Ok (Some (c, f', e', got')) ->
  exists rs, Forall is_read rs /\ got' = got ++ taken rs /\
    forall m tr, tcp_loop_mon false m fuel f evs got rem tr = Ok (Some (c, f', e', tr ++ rs ++ cb false m c got')).
Proof.
  induction fuel as [|fuel IH]; intros f evs got rem c f' e' got' H; cbn [tcp_loop] in H; [discriminate|].
  destruct (_ >? PACKET_BUFF_SIZE) eqn:Eo.
  { exists []. assert (c = RECV_ERROR /\ f' = f /\ e' = evs /\ got' = got) as (-> & -> & -> & ->) by (repeat split; congruence).
    split; [constructor|]. split; [symmetry; apply app_nil_r|]. intros m tr. cbn [tcp_loop_mon]. rewrite Eo. cbn. rewrite app_nil_r. reflexivity. }
  destruct (read_ev (RErr EAgain) evs (Z.to_nat rem)) as [[bs|x] es] eqn:Er.
  - destruct (length bs =? 0)%nat eqn:Eb.
    { exists [Read rem (RBytes bs)]. assert (bs = []) by (destruct bs; [reflexivity|discriminate]). 
      assert (c = RECV_RESET /\ f' = f /\ e' = es /\ got' = got) as (-> & -> & -> & ->) by (repeat split; congruence).
      split; [repeat constructor|]. split; [subst bs; cbn; symmetry; apply app_nil_r|].
      intros m tr. cbn [tcp_loop_mon]. rewrite Eo, Er. cbn zeta. rewrite Eb. cbn. reflexivity. }
    cbn zeta in H. destruct (_ >? PACKET_BUFF_SIZE) eqn:Eo2 in H; [discriminate|].
    destruct (mbus_parse f (got ++ bs)) as [[r f1]|] eqn:Ep; [|discriminate]. cbn [bind] in H.
    destruct (r >? 0) eqn:Er0.
    + destruct (IH _ _ _ _ _ _ _ _ H) as (rs & Hr & Hg & Hm). exists (Read rem (RBytes bs) :: rs).
      split; [constructor; [exact I|assumption]|]. split; [rewrite Hg, <- app_assoc; reflexivity|].
      intros m tr. cbn [tcp_loop_mon]. rewrite Eo, Er. cbn zeta. rewrite Eb, Eo2, Ep. cbn [bind]. rewrite Er0, Hm, <- app_assoc. reflexivity.
    + exists [Read rem (RBytes bs)]. split; [repeat constructor|].
      destruct (r <? 0) eqn:Er1.
      * assert (c = RECV_INVALID /\ f' = f1 /\ e' = es /\ got' = got ++ bs) as (-> & -> & -> & ->) by (repeat split; congruence).
        split; [cbn; rewrite app_nil_r; reflexivity|]. intros m tr. cbn [tcp_loop_mon]. rewrite Eo, Er. cbn zeta. rewrite Eb, Eo2, Ep. cbn [bind]. rewrite Er0, Er1. cbn. rewrite <- app_assoc. reflexivity.
      * assert (c = RECV_OK /\ f' = f1 /\ e' = es /\ got' = got ++ bs) as (-> & -> & -> & ->) by (repeat split; congruence).
        split; [cbn; rewrite app_nil_r; reflexivity|]. intros m tr. cbn [tcp_loop_mon]. rewrite Eo, Er. cbn zeta. rewrite Eb, Eo2, Ep. cbn [bind]. rewrite Er0, Er1. cbn. rewrite <- app_assoc. reflexivity.
  - destruct x.
    1,2,5: exists [Read rem (RErr EOther)].
    all: try (exists [Read rem (RErr EAgain)]; assert (c = RECV_TIMEOUT /\ f' = f /\ e' = es /\ got' = got) as (-> & -> & -> & ->) by (repeat split; congruence);
      split; [repeat constructor|]; split; [symmetry; apply app_nil_r|]; intros m tr; cbn [tcp_loop_mon]; rewrite Eo, Er; cbn; reflexivity).
    all: try (destruct (IH _ _ _ _ _ _ _ _ H) as (rs & Hr & Hg & Hm); exists (Read rem (RErr EIntr) :: rs);
      split; [constructor; [exact I|assumption]|]; split; [exact Hg|];
      intros m tr; cbn [tcp_loop_mon]; rewrite Eo, Er; cbn zeta; rewrite Hm, <- app_assoc; reflexivity).
    all: assert (c = RECV_ERROR /\ f' = f /\ e' = es /\ got' = got) as (-> & -> & -> & ->) by (repeat split; congruence).
    3: { split; [repeat constructor|]; split; [symmetry; apply app_nil_r|]; intros m tr; cbn [tcp_loop_mon]; rewrite Eo, Er; cbn; reflexivity. }
    all: exfalso; revert Er; clear; intros Er; unfold read_ev in Er; destruct evs as [|[l0| | | |] evs0]; try destruct (_ <=? _)%nat; try discriminate Er.
Qed.

Lemma read_no_errors d evs n r es : no_errors evs -> read_ev d evs n = (r, es) -> no_errors es.
Proof.
  unfold read_ev. intros N H. destruct evs as [|[l| | | |] evs]; try (injection H as _ <-; inversion N; assumption).
  - inversion N; subst. destruct (_ <=? _)%nat; injection H as _ <-; [assumption|constructor; [exact I|assumption]].
Qed.
Lemma serial_no_errors : forall fuel f evs got rem tm c f' e' got', no_errors evs ->
  serial_loop fuel f evs got rem tm = Ok (Some (c, f', e', got')) -> no_errors e'.
Proof.
  induction fuel as [|fuel IH]; intros f evs got rem tm c f' e' got' N H; cbn [serial_loop] in H; [discriminate|].
  destruct (_ >? PACKET_BUFF_SIZE); [congruence|].
  destruct (read_ev (RBytes []) evs (Z.to_nat rem)) as [[bs|x] es] eqn:Er; pose proof (read_no_errors _ _ _ _ _ N Er) as N'; [|congruence].
  assert (FIN : forall f1 g1 r1, serial_finish f1 es g1 r1 = Ok (Some (c, f', e', got')) -> no_errors e').
  { intros f1 g1 r1 Hf. unfold serial_finish in Hf. destruct (_ =? _)%nat; [congruence|]. destruct (negb _); congruence. }
  cbn zeta in H. destruct (_ && _) in H; [eapply FIN; eassumption|]. destruct (_ >? _) in H; [discriminate|].
  destruct (mbus_parse f (got ++ bs)) as [[r f1]|]; [|discriminate]. cbn [bind] in H.
  destruct (r >? 0); [eapply IH; eassumption|eapply FIN; eassumption].
Qed.
Lemma no_errors_in evs e : no_errors evs -> In e evs -> In e [EIntr; EAgain; EOther] -> False.
Proof. intros N I1 I2. unfold no_errors in N. rewrite Forall_forall in N. specialize (N e I1). cbn in I2. destruct I2 as [<-|[<-|[<-|[]]]]; exact N. Qed.

(** One receive call of the transport. *)
Lemma recv_gen serial tty f evs : frame_obj f -> ev_bytes evs ->
  exists c f' e' rs,
    (forall m, recv_mon serial m tty f evs = Ok (Some (c, f', e', rs ++ cb serial m c (taken rs)))) /\
    Forall is_read rs /\ frame_obj f' /\ ev_bytes e' /\ taken rs ++ stream e' = stream evs /\ (ev_size e' <= ev_size evs)%nat /\
    (evs <> [] -> serial && negb tty = false -> (ev_size e' < ev_size evs)%nat) /\
    (c = RECV_OK \/ c = RECV_INVALID -> taken rs <> [] /\ serial && negb tty = false) /\
    (serial && negb tty = false -> forall h, is_serial h = serial -> handle_recv h f evs = Done (c, f', e', taken rs)) /\
    (serial = true -> tty = true -> no_errors evs -> no_errors e' /\ (c <> RECV_OK -> c <> RECV_INVALID -> taken rs = [])) /\
    (serial && negb tty = true -> c = RECV_ERROR /\ f' = f /\ e' = evs /\ rs = []).
Proof.
  intros Ho Hb. unfold recv_mon.
  destruct (serial && negb tty) eqn:Et.
  - apply andb_prop in Et. destruct Et as [-> Et]. rewrite Et. exists RECV_ERROR, f, evs, []. split; [reflexivity|].
    split; [constructor|]. do 2 (split; [assumption|]). split; [reflexivity|]. split; [lia|]. split; [discriminate|].
    split; [intros [?|?]; discriminate|]. split; [discriminate|]. split; [|auto]. intros _ ->. discriminate Et.
  - set (h0 := mkH 3 1 PURGE_M2S serial).
    destruct (handle_recv_total h0 f evs Ho Hb) as (c & f' & e' & got & E & O' & B' & G & L & S' & C & K & I & R & Z0).
    assert (NE : c = RECV_OK \/ c = RECV_INVALID -> got <> []).
    { intros [->| ->]; [|apply I; reflexivity]. destruct (proj1 K eq_refl) as (t & V & -> & _). destruct t; discriminate. }
    unfold handle_recv in E. cbn [h0 is_serial] in E.
    destruct serial.
    + cbn [negb andb] in Et. rewrite Et.
      unfold mbus_serial_recv_frame in E.
      destruct (serial_loop (ev_size evs + 4) f evs [] 1 0) as [[[[[c1 f1] e1] g1]|]|] eqn:El; cbn [lift obind] in E; try discriminate.
      assert (c1 = c /\ f1 = f' /\ e1 = e' /\ g1 = got) as (-> & -> & -> & ->) by (repeat split; congruence).
      destruct (serial_mon _ _ _ _ _ _ _ _ _ _ El) as (rs & Hr & Hg & Hm). cbn [app] in Hg. subst got.
      exists c, f', e', rs. split; [intros m; rewrite Hm; reflexivity|].
      do 5 (split; [assumption|]). split; [auto|]. split; [auto|].
      split. { intros _ h Hh. unfold handle_recv. rewrite Hh. unfold mbus_serial_recv_frame. rewrite El. reflexivity. }
      split; [|discriminate].
      intros _ _ N. split; [exact (serial_no_errors _ _ _ _ _ _ _ _ _ _ N El)|].
      intros N1 N2. destruct (C11_serial_outcomes f evs Ho Hb) as (c2 & f2 & e2 & g2 & E2 & _ & _ & _ & _ & _ & C2 & _ & T2 & _ & R2).
      unfold mbus_serial_recv_frame in E2. rewrite El in E2. 
      assert (c = c2 /\ taken rs = g2) as (<- & <-) by (split; congruence).
      cbn in C2. destruct C2 as [<-|[<-|[<-|[<-|[]]]]]; try congruence; [|auto].
      destruct (R eq_refl) as (e & I1 & I2). exfalso. eapply no_errors_in; eassumption.
    + unfold mbus_tcp_recv_frame in E.
      destruct (tcp_loop (ev_size evs + 4) f evs [] 1) as [[[[[c1 f1] e1] g1]|]|] eqn:El; cbn [lift obind] in E; try discriminate.
      assert (c1 = c /\ f1 = f' /\ e1 = e' /\ g1 = got) as (-> & -> & -> & ->) by (repeat split; congruence).
      destruct (tcp_mon _ _ _ _ _ _ _ _ _ El) as (rs & Hr & Hg & Hm). cbn [app] in Hg. subst got.
      exists c, f', e', rs. split; [intros m; rewrite Hm; reflexivity|].
      do 5 (split; [assumption|]). split; [auto|]. split; [auto|].
      split. { intros _ h Hh. unfold handle_recv. rewrite Hh. unfold mbus_tcp_recv_frame. rewrite El. reflexivity. }
      split; [discriminate|discriminate].
Qed.

(** Pieces of a trace, independent of who listens. *)
Inductive seg := GNone | GWrite (l : list Z) (r : Z) | GRead (rs : list act) (rep : bool).
Definition show (serial : bool) (m : monitor) (g : seg) : list act :=
  match g with
  | GNone => []
  | GWrite l r => Write l r :: (if r =? Z.of_nat (length l) then if send_event m then [OnSend serial l] else [] else [])
  | GRead rs rep => rs ++ (if rep then report serial m (taken rs) else [])
  end.
Definition seg_ok (g : seg) : Prop := match g with GRead rs rep => Forall is_read rs /\ (rep = true -> taken rs <> []) | _ => True end.
Definition all_told (g : seg) : Prop := match g with GRead rs false => taken rs = [] | _ => True end.
Definition shown serial m gs := concat (map (show serial m) gs).
Lemma shown_app serial m a b : shown serial m (a ++ b) = shown serial m a ++ shown serial m b.
Proof. unfold shown. rewrite map_app, concat_app. reflexivity. Qed.
Lemma show_step serial m g : seg_ok g -> step serial m (show serial m g).
Proof.
  destruct g as [|l r|rs [|]]; cbn; intros H.
  - constructor.
  - destruct (Z.eqb_spec r (Z.of_nat (length l))); [subst r; apply st_sent|apply st_cut; assumption].
  - destruct H as [H1 H2]. apply (st_heard serial m rs H1). auto.
  - rewrite app_nil_r. apply st_unheard. apply H.
Qed.
Lemma cb_show serial m c rs : rs ++ cb serial m c (taken rs) = show serial m (GRead rs ((c =? RECV_OK) || (c =? RECV_INVALID))).
Proof. reflexivity. Qed.

Lemma code_split c : {c = RECV_OK \/ c = RECV_INVALID} + {c <> RECV_OK /\ c <> RECV_INVALID}.
Proof. destruct (Z.eq_dec c RECV_OK); [left; auto|]. destruct (Z.eq_dec c RECV_INVALID); [left; auto|right; auto]. Qed.
Lemma code_true c : c = RECV_OK \/ c = RECV_INVALID -> (c =? RECV_OK) || (c =? RECV_INVALID) = true.
Proof. intros [->| ->]; reflexivity. Qed.
Lemma code_false c : c <> RECV_OK /\ c <> RECV_INVALID -> (c =? RECV_OK) || (c =? RECV_INVALID) = false.
Proof. intros [A B]. apply orb_false_intro; apply Z.eqb_neq; assumption. Qed.

Lemma taken_reads serial m g : seg_ok g -> taken (show serial m g) = match g with GRead rs _ => taken rs | _ => [] end.
Proof.
  destruct g as [|l r|rs rep]; cbn; intros H; [reflexivity| |].
  - destruct (_ =? _); [destruct (send_event m)|]; reflexivity.
  - rewrite taken_app. destruct rep; [unfold report; destruct (recv_event m); cbn|]; apply app_nil_r.
Qed.

Section Hist.
  Variable serial tty : bool.
  Variable purge : Z.
  Definition usable := serial && negb tty = false.
  Definition clean_line := serial = true /\ tty = true.

  (** [mbus_recv_frame]. *)
  Lemma mrecv_gen f evs : frame_obj f -> ev_bytes evs ->
    exists c f' e' gs,
      (forall m, mbus_recv_frame_mon serial m tty purge f evs = Done (c, f', e', shown serial m gs)) /\
      Forall seg_ok gs /\ frame_obj f' /\ ev_bytes e' /\ (forall m, taken (shown serial m gs) ++ stream e' = stream evs) /\ (ev_size e' <= ev_size evs)%nat /\
      (c = RECV_OK \/ c = RECV_INVALID -> (ev_size e' < ev_size evs)%nat) /\
      (clean_line -> no_errors evs -> no_errors e' /\ Forall all_told gs) /\
      (usable -> forall h (B : Type) (w : world B), is_serial h = serial -> purge_first_frame h = purge -> w_evs w = evs ->
         exists got, mbus_recv_frame B (Some h) f w = Done (c, f', mkW (w_bus w) e' (w_log w ++ [Received c got]))).
  Proof.
    intros Ho Hb. destruct (recv_gen serial tty f evs Ho Hb) as (c & f1 & e1 & rs & H1 & R1 & O1 & B1 & S1 & L1 & D1 & N1 & M1 & E1 & U1).
    set (g1 := GRead rs ((c =? RECV_OK) || (c =? RECV_INVALID))).
    assert (K1 : seg_ok g1). { split; [assumption|]. intros X. apply N1. apply orb_prop in X. destruct X as [X|X]; apply Z.eqb_eq in X; auto. }
    assert (T1 : clean_line -> no_errors evs -> no_errors e1 /\ all_told g1).
    { intros [Cs Ct] N. destruct (E1 Cs Ct N) as [A A']. split; [assumption|]. unfold g1. cbn. destruct (code_split c) as [Y|Y].
      - rewrite (code_true c Y). exact I.
      - rewrite (code_false c Y). apply A'; apply Y. }
    destruct (((mbus_frame_direction f1 =? DIR_M2S) && (purge =? PURGE_M2S)) || ((mbus_frame_direction f1 =? DIR_S2M) && (purge =? PURGE_S2M))) eqn:X.
    - destruct (recv_gen serial tty f1 e1 O1 B1) as (c2 & f2 & e2 & rs2 & H2 & R2 & O2 & B2 & S2 & L2 & D2 & N2 & M2 & E2 & U2).
      set (g2 := GRead rs2 ((c2 =? RECV_OK) || (c2 =? RECV_INVALID))).
      assert (K2 : seg_ok g2). { split; [assumption|]. intros Y. apply N2. apply orb_prop in Y. destruct Y as [Y|Y]; apply Z.eqb_eq in Y; auto. }
      exists c2, f2, e2, [g1; g2]. split.
      { intros m. unfold mbus_recv_frame_mon. rewrite H1. cbn [lift obind]. rewrite X, H2. cbn [lift obind]. rewrite !cb_show. unfold shown. cbn [map concat]. rewrite app_nil_r. reflexivity. }
      split; [repeat (apply Forall_cons || apply Forall_nil); assumption|]. do 2 (split; [assumption|]).
      split. { intros m. unfold shown. cbn [map concat]. rewrite app_nil_r, taken_app, !taken_reads by assumption. cbn [g1 g2]. rewrite <- app_assoc, S2. assumption. }
      split; [lia|]. split. { intros Y. destruct (N2 Y) as [Nt U]. destruct e1 as [|x e1].
        - cbn in S2. apply app_eq_nil in S2. destruct S2; contradiction.
        - assert (ev_size e2 < ev_size (x :: e1))%nat by (apply D2; [discriminate|assumption]). lia. }
      split. { intros Cl N. destruct (T1 Cl N) as [Ne1 A1]. destruct Cl as [Cs Ct]. destruct (E2 Cs Ct Ne1) as [A A']. split; [assumption|].
        constructor; [assumption|]. constructor; [|constructor]. unfold g2. cbn. destruct (code_split c2) as [Y|Y].
        - rewrite (code_true c2 Y). exact I.
        - rewrite (code_false c2 Y). apply A'; apply Y. }
      intros U h B w Hs Hp He. exists (taken rs2). unfold mbus_recv_frame. rewrite He, (M1 U h Hs). cbn [obind]. rewrite Hp, X, (M2 U h Hs). reflexivity.
    - exists c, f1, e1, [g1]. split.
      { intros m. unfold mbus_recv_frame_mon. rewrite H1. cbn [lift obind]. rewrite X. rewrite !cb_show. unfold shown. cbn [map concat]. rewrite app_nil_r. reflexivity. }
      split; [repeat (apply Forall_cons || apply Forall_nil); assumption|]. do 2 (split; [assumption|]).
      split. { intros m. unfold shown. cbn [map concat]. rewrite app_nil_r, taken_reads by assumption. assumption. }
      split; [lia|]. split. { intros Y. destruct (N1 Y) as [Nt U]. destruct evs as [|x evs].
        - cbn in S1. apply app_eq_nil in S1. destruct S1; contradiction.
        - apply D1; [discriminate|assumption]. }
      split. { intros Cl N. destruct (T1 Cl N) as [Ne1 A1]. split; [assumption|]. repeat (apply Forall_cons || apply Forall_nil); assumption. }
      intros U h B w Hs Hp He. exists (taken rs). unfold mbus_recv_frame. rewrite He, (M1 U h Hs). cbn [obind]. rewrite Hp, X. reflexivity.
  Qed.

  Lemma purge_gen : forall fuel f evs r, frame_obj f -> ev_bytes evs -> (ev_size evs < fuel)%nat ->
    exists r' e' gs,
      (forall m tr, purge_loop_mon serial m fuel tty purge f evs r tr = Done (r', e', tr ++ shown serial m gs)) /\
      Forall seg_ok gs /\ ev_bytes e' /\ (forall m, taken (shown serial m gs) ++ stream e' = stream evs) /\
      (clean_line -> no_errors evs -> no_errors e' /\ Forall all_told gs) /\
      (usable -> forall h (B : Type) (w : world B), is_serial h = serial -> purge_first_frame h = purge -> w_evs w = evs ->
         exists w', purge_loop B fuel (Some h) f w r = Done (r', w') /\ w_evs w' = e').
  Proof.
    induction fuel as [|fuel IH]; intros f evs r Ho Hb Hf; [lia|].
    destruct (mrecv_gen f evs Ho Hb) as (c & f1 & e1 & gs & H1 & R1 & O1 & B1 & S1 & L1 & D1 & E1 & M1).
    destruct (code_split c) as [Y|Y].
    - destruct (IH f1 e1 1 O1 B1) as (r' & e' & gs' & H2 & R2 & B2 & S2 & E2 & M2); [specialize (D1 Y); lia|].
      assert (Y' : negb (c =? RECV_OK) && negb (c =? RECV_INVALID) = false) by (destruct Y as [->| ->]; reflexivity).
      exists r', e', (gs ++ gs'). split.
      { intros m tr. cbn [purge_loop_mon]. rewrite H1. cbn [obind]. rewrite Y', H2, shown_app, app_assoc. reflexivity. }
      split; [apply Forall_app; auto|]. split; [assumption|].
      split. { intros m. rewrite shown_app, taken_app, <- app_assoc, S2. apply S1. }
      split. { intros C N. destruct (E1 C N) as [A A1]. destruct (E2 C A) as [A2 A3]. split; [assumption|]. apply Forall_app; auto. }
      intros U h B w Hs Hp He. cbn [purge_loop]. destruct (M1 U h B w Hs Hp He) as (got & ->). cbn [obind]. rewrite Y'.
      apply (M2 U h B _ Hs Hp). reflexivity.
    - assert (Y' : negb (c =? RECV_OK) && negb (c =? RECV_INVALID) = true).
      { destruct Y as [Y1 Y2]. apply Z.eqb_neq in Y1, Y2. rewrite Y1, Y2. reflexivity. }
      exists r, e1, gs. split.
      { intros m tr. cbn [purge_loop_mon]. rewrite H1. cbn [obind]. rewrite Y'. reflexivity. }
      do 4 (split; [assumption|]).
      intros U h B w Hs Hp He. cbn [purge_loop]. destruct (M1 U h B w Hs Hp He) as (got & ->). cbn [obind]. rewrite Y'.
      eexists. split; reflexivity.
  Qed.
End Hist.

(** Sending. *)
Lemma send_mon_gen serial tty wret f : frame_obj f -> (ftype f = 4 -> 0 <= data_size f <= 252) -> In (ftype f) [1; 2; 3; 4] ->
  exists r f' g, (forall m, send_mon serial m tty wret f = Ok (r, f', show serial m g)) /\ seg_ok g /\ all_told g /\
    (forall rs rep, g <> GRead rs rep) /\
    (serial && negb tty = false -> exists l, g = GWrite l (wret (Z.of_nat (length l))) /\ transport_send_frame wret f = Ok (r, f', Some l) /\
       (r = 0 <-> wret (Z.of_nat (length l)) = Z.of_nat (length l)) /\ (r = 0 \/ r = -1)) /\
    (serial && negb tty = true -> g = GNone /\ r = -1).
Proof.
  intros Ho Hd Ht. unfold send_mon. destruct (serial && negb tty) eqn:Et.
  - exists (-1), f, GNone. repeat split; try discriminate. 
  - destruct (send_gen wret f Ho Hd Ht) as (r & f' & w & E & R & Q). pose proof E as E0. unfold transport_send_frame in E.
    destruct (mbus_frame_pack f (repeat 0 (Z.to_nat PACKET_BUFF_SIZE)) PACKET_BUFF_SIZE) as [[[len f1] b]|] eqn:Ep; [|discriminate]. cbn [bind] in *.
    destruct (len =? -1); [congruence|]. destruct (len <? 0) eqn:El; [discriminate|].
    assert (Ew : w = firstn (Z.to_nat len) b /\ f' = f1) by (destruct (wret len =? len); split; congruence). destruct Ew as [-> ->].
    assert (Hl : Z.of_nat (length (firstn (Z.to_nat len) b)) = len).
    { destruct (pack_bounds f (repeat 0 (Z.to_nat PACKET_BUFF_SIZE)) PACKET_BUFF_SIZE Ho Hd) as (r1 & f2 & b1 & H & Hb & Hc & _).
      { rewrite repeat_length. unfold PACKET_BUFF_SIZE. lia. }
      rewrite H in Ep. injection Ep as <- <- <-. rewrite repeat_length in Hb. apply Z.ltb_ge in El.
      destruct Hc as [[Hr _]|[Hr _]]; [lia|]. rewrite firstn_length. rewrite Hb. unfold PACKET_BUFF_SIZE in *. lia. }
    exists r, f1, (GWrite (firstn (Z.to_nat len) b) (wret len)). split.
    { intros m. cbn [show]. rewrite Hl. destruct (Z.eqb_spec (wret len) len) as [W|W]; congruence. }
    repeat split; try discriminate. intros _. exists (firstn (Z.to_nat len) b). rewrite Hl. split; [reflexivity|]. split; [assumption|]. rewrite Hl in Q. split; assumption.
Qed.

Lemma stream_app a b : stream (a ++ b) = stream a ++ stream b.
Proof. induction a as [|[l| | | |] a IH]; cbn; rewrite ?IH, <- ?app_assoc; reflexivity. Qed.
Lemma ev_bytes_app a b : ev_bytes a -> ev_bytes b -> ev_bytes (a ++ b).
Proof. induction a as [|[l| | | |] a IH]; cbn; tauto. Qed.
Lemma shown_one serial m g : shown serial m [g] = show serial m g.
Proof. unfold shown. cbn. apply app_nil_r. Qed.

Lemma history_gen serial tty purge : forall cs evs, Forall proper cs -> ev_bytes evs ->
  exists rs e' gs,
    (forall m, history serial m tty purge cs evs = Done (rs, e', shown serial m gs)) /\
    Forall seg_ok gs /\ (forall m, taken (shown serial m gs) ++ stream e' = stream (evs ++ arriving cs)) /\
    (clean_line serial tty -> no_errors (evs ++ arriving cs) -> Forall all_told gs).
Proof.
  induction cs as [|c cs IH]; intros evs Hp Hb.
  - exists [], evs, []. split; [reflexivity|]. split; [constructor|]. split; [intros m; cbn; rewrite app_nil_r; reflexivity|]. constructor.
  - apply Forall_cons_iff in Hp. destruct Hp as [Hc Hp].
    assert (STEP : exists r e1 gs1, (forall m, match c with
          | ASend f wret es => do (r, _, tr) <- lift (send_mon serial m tty wret f) ;; Done (r, evs ++ es, tr)
          | ARecv f => do (r, _, evs, tr) <- mbus_recv_frame_mon serial m tty purge f evs ;; Done (r, evs, tr)
          | APurge => mbus_purge_frames_mon serial m tty purge evs
          end = Done (r, e1, shown serial m gs1)) /\ ev_bytes e1 /\ Forall seg_ok gs1 /\
          (forall m, taken (shown serial m gs1) ++ stream e1 = stream (evs ++ arriving [c])) /\
          (clean_line serial tty -> no_errors (evs ++ arriving [c]) -> no_errors e1 /\ Forall all_told gs1)).
    { destruct c as [f wret es|f|]; cbn [proper] in Hc.
      - destruct Hc as (Ho & Hd & Ht & He). destruct (send_mon_gen serial tty wret f Ho Hd Ht) as (r & f' & g & H & K & T & NR & _).
        exists r, (evs ++ es), [g]. split; [intros m; rewrite H; cbn [lift obind]; rewrite shown_one; reflexivity|].
        split; [apply ev_bytes_app; assumption|]. split; [constructor; [assumption|constructor]|]. cbn [arriving flat_map]. rewrite app_nil_r.
        split.
        { intros m. rewrite shown_one, taken_reads by assumption. destruct g; [reflexivity|reflexivity|]. exfalso. eapply NR. reflexivity. }
        intros _ N. split; [assumption|]. constructor; [assumption|constructor].
      - destruct (mrecv_gen serial tty purge f evs Hc Hb) as (r & f1 & e1 & gs & H1 & R1 & O1 & B1 & S1 & L1 & D1 & E1 & M1).
        exists r, e1, gs. cbn [arriving flat_map]. rewrite !app_nil_r. split; [intros m; rewrite H1; reflexivity|]. auto.
      - destruct (purge_gen serial tty purge (S (ev_size evs)) frame_zero evs 0) as (r & e1 & gs & H1 & R1 & B1 & S1 & E1 & M1); [reflexivity|assumption|lia|].
        exists r, e1, gs. cbn [arriving flat_map]. rewrite !app_nil_r. split; [intros m; unfold mbus_purge_frames_mon; rewrite H1; reflexivity|]. auto. }
    destruct STEP as (r & e1 & gs1 & H1 & B1 & K1 & S1 & T1).
    destruct (IH e1 Hp B1) as (rs & e' & gs & H & K & S' & T).
    exists (r :: rs), e', (gs1 ++ gs). split.
    { intros m. cbn [history]. rewrite (H1 m). cbn [obind]. rewrite H. cbn [obind]. rewrite shown_app. reflexivity. }
    split; [apply Forall_app; auto|].
    assert (AR : arriving (c :: cs) = arriving [c] ++ arriving cs). { unfold arriving. cbn. rewrite app_nil_r. reflexivity. }
    rewrite AR. split.
    { intros m. rewrite shown_app, taken_app, <- app_assoc, S'. rewrite stream_app, app_assoc, S1, <- stream_app, <- app_assoc. reflexivity. }
    intros C N. unfold no_errors in N. rewrite app_assoc in N. apply Forall_app in N. destruct N as [N1 N2]. destruct (T1 C N1) as [A A1].
    apply Forall_app. split; [assumption|]. apply T; [assumption|]. apply Forall_app. auto.
Qed.

(** Reading the pieces. *)
Lemma none_of (P : act -> list (list Z)) rs : (forall a, is_read a -> P a = []) -> Forall is_read rs -> flat_map P rs = [].
Proof. intros H. induction 1; cbn; [reflexivity|]. rewrite H by assumption. assumption. Qed.
Lemma told_show serial m g : seg_ok g -> told (show serial m g) = if send_event m then complete (show serial m g) else [].
Proof.
  destruct g as [|l r|rs rep]; cbn [seg_ok show]; intros H.
  - destruct (send_event m); reflexivity.
  - cbn. destruct (_ =? _); [|destruct (send_event m); reflexivity]. destruct (send_event m); reflexivity.
  - destruct H as [H _]. rewrite told_app, complete_app.
    assert (told rs = []) as -> by (apply none_of; [intros [| | |]; cbn; tauto|assumption]).
    assert (complete rs = []) as -> by (apply none_of; [intros [| | |]; cbn; tauto|assumption]).
    destruct rep; [unfold report; destruct (recv_event m)|]; destruct (send_event m); reflexivity.
Qed.
Lemma told_shown serial m gs : Forall seg_ok gs -> told (shown serial m gs) = if send_event m then complete (shown serial m gs) else [].
Proof.
  induction 1 as [|g gs H _ IH]; [destruct (send_event m); reflexivity|]. change (g :: gs) with ([g] ++ gs). rewrite shown_app, told_app, complete_app, IH, shown_one, told_show by assumption.
  destruct (send_event m); reflexivity.
Qed.
Lemma heard_show serial m g : seg_ok g -> heard (show serial m g) = match g with GRead rs true => if recv_event m then [taken rs] else [] | _ => [] end.
Proof.
  destruct g as [|l r|rs rep]; cbn [seg_ok show]; intros H; [reflexivity| |].
  - cbn. destruct (_ =? _); [destruct (send_event m)|]; reflexivity.
  - destruct H as [H _]. rewrite heard_app.
    assert (heard rs = []) as -> by (apply none_of; [intros [| | |]; cbn; tauto|assumption]).
    destruct rep; [unfold report; destruct (recv_event m)|]; reflexivity.
Qed.
Lemma heard_shown serial m gs : recv_event m = true -> Forall seg_ok gs -> Forall all_told gs -> concat (heard (shown serial m gs)) = taken (shown serial m gs).
Proof.
  intros Hm. induction 1 as [|g gs H _ IH]; intros A; [reflexivity|]. apply Forall_cons_iff in A. destruct A as [A1 A2].
  change (g :: gs) with ([g] ++ gs). rewrite shown_app, heard_app, taken_app, concat_app, IH, shown_one, heard_show, taken_reads by assumption. f_equal.
  destruct g as [|l r|rs [|]]; try reflexivity.
  - rewrite Hm. cbn. apply app_nil_r.
  - symmetry. exact A1.
Qed.
Lemma heard_nonempty serial m gs : Forall seg_ok gs -> Forall (fun l => l <> []) (heard (shown serial m gs)).
Proof.
  induction 1 as [|g gs H _ IH]; [constructor|]. change (g :: gs) with ([g] ++ gs). rewrite shown_app, heard_app, shown_one, heard_show by assumption. apply Forall_app. split; [|assumption].
  destruct g as [|l r|rs [|]]; try constructor. destruct (recv_event m); [|constructor]. constructor; [apply H; reflexivity|constructor].
Qed.
Lemma quiet_show serial m g : seg_ok g -> filter (fun a => negb (is_callback a)) (show serial m g) = show serial (mkMon false false) g.
Proof.
  destruct g as [|l r|rs rep]; cbn [seg_ok show]; intros H; [reflexivity| |].
  - cbn. destruct (_ =? _); [destruct (send_event m)|]; reflexivity.
  - destruct H as [H _]. assert (F : filter (fun a => negb (is_callback a)) rs = rs).
    { induction H as [|[| | |] rs H _ IH]; cbn in *; try contradiction; [reflexivity|]. rewrite IH. reflexivity. }
    rewrite filter_app, F. destruct rep; [unfold report; cbn; destruct (recv_event m); cbn|]; reflexivity.
Qed.
Lemma quiet_shown serial m gs : Forall seg_ok gs -> filter (fun a => negb (is_callback a)) (shown serial m gs) = shown serial (mkMon false false) gs.
Proof.
  induction 1 as [|g gs H _ IH]; [reflexivity|]. change (g :: gs) with ([g] ++ gs). rewrite !shown_app, filter_app, IH, !shown_one, quiet_show by assumption. reflexivity.
Qed.

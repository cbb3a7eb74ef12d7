(** Proofs about readouts with their memory. *)
From Coq Require Import List.
From Coq Require Import Permutation.
From Verif Require Import CBase PBase CStr MFrame MCodec MVar MText MXml MRecv MSecond MProto MMem SMem PMem MReqM SReqM.
Local Open Scope Z_scope.

(** ** Memory *)
Lemma grown_change reply l m0 m m' a : grown reply l m0 m -> (In a l \/ a = reply) -> (forall b, b <> a -> look m' b = look m b) -> look m' a <> None -> grown reply l m0 m'.
Proof.
  intros (N & R & A & K) I O L. split; [exact N|]. split; [exact R|]. split.
  - intros b Ib. destruct (Nat.eq_dec b a) as [->|Nb]; [split; [apply A; exact Ib|exact L]|]. rewrite O by exact Nb. apply A. exact Ib.
  - intros b Nb Nr. rewrite O; [apply K; assumption|]. intros ->. destruct I; contradiction.
Qed.
Lemma grown_malloc c reply l m0 m a m' : malloc c m = (Some a, m') -> look m reply <> None -> grown reply l m0 m ->
  grown reply (a :: l) m0 m' /\ look m a = None /\ look m' a = Some c /\ (forall b, b <> a -> look m' b = look m b).
Proof.
  intros E Lr (N & R & A & K). destruct (malloc_cases c m) as [(x & E1 & _)|(x & E1 & La & Lo & _)]; rewrite E1 in E; [discriminate|]. injection E as <- <-.
  set (a := length (m_cells m)) in *. assert (Ln : look m a = None) by (apply look_over; unfold a; lia).
  assert (Nl : ~ In a l) by (intros I; destruct (A a I) as [_ X]; congruence). assert (Nr : a <> reply) by (intros ->; congruence).
  split; [|auto]. split; [constructor; assumption|]. split; [intros [X|X]; [congruence|contradiction]|]. split.
  - intros b [<-|I]; [split; [rewrite <- (K a Nl Nr); exact Ln|rewrite La; discriminate]|]. rewrite Lo by (intros ->; contradiction). apply A. exact I.
  - intros b Nb Nbr. rewrite Lo by (intros ->; apply Nb; left; reflexivity). apply K; [intros I; apply Nb; right; exact I|exact Nbr].
Qed.
Lemma grown_same reply l m0 m m' : grown reply l m0 m -> (forall b, look m' b = look m b) -> grown reply l m0 m'.
Proof. intros (N & R & A & K) O. split; [exact N|]. split; [exact R|]. split; intros; rewrite O; auto. Qed.
Lemma grown_perm reply l l' m0 m : Permutation l l' -> grown reply l m0 m -> grown reply l' m0 m.
Proof.
  intros P (N & R & A & K). split; [eapply Permutation_NoDup; eassumption|]. split; [intros I; apply R; eapply Permutation_in; [apply Permutation_sym; exact P|exact I]|].
  split; [intros a I; apply A; eapply Permutation_in; [apply Permutation_sym; exact P|exact I]|]. intros a I. apply K. intros J. apply I. eapply Permutation_in; eassumption.
Qed.
Lemma put_ok a f f' nx m : look m a = Some (CFrame f nx) -> exists m', frame_put a f' m = Ok m' /\ look m' a = Some (CFrame f' nx) /\ (forall b, b <> a -> look m' b = look m b) /\ m_fails m' = m_fails m.
Proof. intros L. unfold frame_put. rewrite L. destruct (store_ok a m _ (CFrame f' nx) L) as (m' & E & L1 & L2 & _ & L4). eauto. Qed.
Lemma link_ok a f p nx m : look m a = Some (CFrame f nx) -> exists m', frame_link a p m = Ok m' /\ look m' a = Some (CFrame f p) /\ (forall b, b <> a -> look m' b = look m b) /\ m_fails m' = m_fails m.
Proof. intros L. unfold frame_link. rewrite L. destruct (store_ok a m _ (CFrame f p) L) as (m' & E & L1 & L2 & _ & L4). eauto. Qed.
Lemma chain_same m m' p l : chain m p l -> (forall a, In a (map fst l) -> look m' a = look m a) -> chain m' p l.
Proof. intros H. induction H as [|a r nx l L H IH]; intros K; [constructor|]. econstructor; [rewrite K by (left; reflexivity); exact L|]. apply IH. intros b I. apply K. right. exact I. Qed.
(** The records of a list, new since [m0], are released. *)
Lemma grown_records reply s m0 m p l : chain m p l -> grown reply (map fst l ++ s) m0 m ->
  exists m', mbus_data_record_free p m = Ok m' /\ grown reply s m0 m' /\ m_fails m' = m_fails m /\ (forall a, ~ In a (map fst l) -> look m' a = look m a).
Proof.
  intros C (N & R & A & K). destruct (record_free_ok p m l C) as (m' & E & (R1 & R2) & _ & F). exists m'. split; [exact E|]. split; [|auto].
  assert (Dj : forall a, In a s -> ~ In a (map fst l)). { intros a I J. clear - N I J. induction (map fst l) as [|x q IH]; [destruct J|]. cbn in N. inversion_clear N as [|? ? N1 N2]. destruct J as [->|J]; [apply N1; apply in_or_app; right; exact I|auto]. }
  split. { clear - N. induction (map fst l) as [|x q IH]; [exact N|]. inversion_clear N. auto. }
  split; [intros I; apply R; apply in_or_app; right; exact I|]. split.
  - intros a I. rewrite R2 by (apply Dj; exact I). apply A. apply in_or_app. right. exact I.
  - intros a I Nr. destruct (in_dec Nat.eq_dec a (map fst l)) as [J|J].
    + rewrite (proj2 (R1 a J)). symmetry. apply A. apply in_or_app. left. exact J.
    + rewrite R2 by exact J. apply K; [|exact Nr]. intros X. apply in_app_or in X as [X|X]; contradiction.
Qed.

(** ** Chains of frames *)
Lemma fchain_last m : forall l p a f, fchain m p (l ++ [(a, f)]) -> look m a = Some (CFrame f None).
Proof.
  induction l as [|x l IH]; intros p a f H; cbn in H; inversion H as [|? ? nx ? L K]; subst.
  - inversion K; subst. exact L.
  - eapply IH. exact K.
Qed.
Lemma fchain_look m p l a f : fchain m p l -> In (a, f) l -> exists nx, look m a = Some (CFrame f nx).
Proof. intros H. induction H as [|b g nx l L H IH]; intros I; [destruct I|]. destruct I as [E|I]; [injection E as -> ->; eauto|auto]. Qed.
Lemma fchain_same m m' p l : fchain m p l -> (forall a, In a (map fst l) -> look m' a = look m a) -> fchain m' p l.
Proof. intros H. induction H as [|a f nx l L H IH]; intros K; [constructor|]. econstructor; [rewrite K by (left; reflexivity); exact L|]. apply IH. intros b I. apply K. right. exact I. Qed.
Lemma fchain_replace m m' f' l' : forall l p a f, fchain m p (l ++ [(a, f)]) -> ~ In a (map fst l) -> (forall b, In b (map fst l) -> look m' b = look m b) ->
  fchain m' (Some a) ((a, f') :: l') -> fchain m' p (l ++ (a, f') :: l').
Proof.
  induction l as [|[b g] l IH]; intros p a f H N K C; cbn [app map fst] in *.
  - inversion H; subst. exact C.
  - inversion H as [|? ? nx ? L Q]; subst. econstructor; [rewrite K by (left; reflexivity); exact L|]. eapply IH; [exact Q| | |exact C]; [intros I; apply N; right; exact I|intros x I; apply K; right; exact I].
Qed.

(** ** The log only grows *)
Section Log.
  Variables (B : Type) (wret : B -> Z -> Z) (react : B -> list Z -> B * list ev).
  Notation W := (world B).
  Lemma starts_trans {A} (a b c : list A) : starts a b -> starts b c -> starts a c.
  Proof. intros [x ->] [y ->]. exists (x ++ y). rewrite app_assoc. reflexivity. Qed.
  Lemma starts_refl {A} (a : list A) : starts a a.
  Proof. exists []. rewrite app_nil_r. reflexivity. Qed.
  Lemma send_log hp f (w : W) r f' w' : mbus_send_frame B wret react hp f w = Done (r, f', w') -> starts (w_log w) (w_log w').
  Proof.
    unfold mbus_send_frame. destruct hp; [|intros E; injection E as _ _ <-; apply starts_refl]. destruct (transport_send_frame _ f) as [[[r1 f1] [bs|]]|]; cbn [lift obind]; try discriminate.
    - destruct (react (w_bus w) bs) as [b es]. intros E. injection E as _ _ <-. eexists. reflexivity.
    - intros E. injection E as _ _ <-. apply starts_refl.
  Qed.
  Lemma recv_log hp f (w : W) r f' w' : mbus_recv_frame B hp f w = Done (r, f', w') -> starts (w_log w) (w_log w').
  Proof.
    unfold mbus_recv_frame. destruct hp; [|intros E; injection E as _ _ <-; apply starts_refl]. destruct (handle_recv h f (w_evs w)) as [[[[c f1] e1] g1]| |]; cbn [obind]; try discriminate. destruct (_ || _).
    - destruct (handle_recv h f1 e1) as [[[[c2 f2] e2] g2]| |]; cbn [obind]; try discriminate. intros E. injection E as _ _ <-. eexists. reflexivity.
    - intros E. injection E as _ _ <-. eexists. reflexivity.
  Qed.
  Lemma purge_log hp (w : W) r w' : mbus_purge_frames B hp w = Done (r, w') -> starts (w_log w) (w_log w').
  Proof.
    unfold mbus_purge_frames. generalize (S (ev_size (w_evs w))), frame_zero, 0. intros n. revert w. induction n as [|n IH]; intros w f z H; cbn [purge_loop] in H; [discriminate|].
    destruct (mbus_recv_frame B hp f w) as [[[c f1] w1]| |] eqn:E; cbn [obind] in H; try discriminate. apply recv_log in E. destruct (_ && _); [injection H as _ <-; exact E|]. apply IH in H. exact (starts_trans _ _ _ E H).
  Qed.
  Lemma loop_log h : forall fuel req cur got fd hp0 p retry count mf (w : W) q w', request_loop B wret react fuel h req cur got fd hp0 p retry count mf w = Done (q, w') ->
    starts (w_log w) (w_log w') /\ starts got (q_frames q).
  Proof.
    induction fuel as [|fuel IH]; intros req cur got fd hp0 p retry count mf w q w' H; cbn [request_loop] in H; [discriminate|].
    destruct (retry >? max_data_retry h); [injection H as <- <-; split; [apply starts_refl|eexists; reflexivity]|].
    destruct (mbus_send_frame B wret react (Some h) req w) as [[[r req1] w1]| |] eqn:E1; cbn [obind] in H; try discriminate. apply send_log in E1.
    destruct (r =? -1); [injection H as <- <-; split; [exact E1|eexists; reflexivity]|].
    destruct (mbus_recv_frame B (Some h) cur w1) as [[[c cur1] w2]| |] eqn:E2; cbn [obind] in H; try discriminate. apply recv_log in E2. pose proof (starts_trans _ _ _ E1 E2) as E3.
    destruct (c =? RECV_OK).
    - destruct (mbus_purge_frames B (Some h) w2) as [[x w3]| |] eqn:E4; cbn [obind] in H; try discriminate. apply purge_log in E4. pose proof (starts_trans _ _ _ E3 E4) as E5.
      destruct (parse_heap cur1 fd hp0 p) as [[[[pr fd1] hp1] p1]|]; cbn [lift obind] in H; try discriminate. destruct (pr =? -1); [injection H as <- <-; split; [exact E5|eexists; reflexivity]|].
      destruct (free_list hp1 p1) as [hp2|]; cbn [lift obind] in H; try discriminate. destruct (_ && _ && _ && _).
      + apply IH in H as [H1 H2]. split; [exact (starts_trans _ _ _ E5 H1)|]. eapply starts_trans; [|exact H2]. eexists. reflexivity.
      + injection H as <- <-. split; [exact E5|eexists; reflexivity].
    - destruct (c =? RECV_TIMEOUT); [apply IH in H as [H1 H2]; split; [exact (starts_trans _ _ _ E3 H1)|exact H2]|].
      destruct (c =? RECV_INVALID); [|injection H as <- <-; split; [exact E3|eexists; reflexivity]].
      destruct (mbus_purge_frames B (Some h) w2) as [[x w3]| |] eqn:E4; cbn [obind] in H; try discriminate. apply purge_log in E4. apply IH in H as [H1 H2]. split; [exact (starts_trans _ _ _ E3 (starts_trans _ _ _ E4 H1))|exact H2].
  Qed.
End Log.

(** ** A parse cut short does not announce more *)
Lemma records_more fuel d n : forall i dv m c dv' m', records_mem fuel d n i dv m = Ok (c, dv', m') -> c = -2 -> pv_more dv' = pv_more dv.
Proof.
  induction fuel as [|fuel IH]; intros i dv m c dv' m' H Hc; cbn [records_mem] in H; [discriminate|]. destruct (Nat.ltb_spec i n) as [Li|Li]; [|apply ok_inj in H; injection H as <- _ _; discriminate].
  destruct (rd d i) as [b|]; [|discriminate]. cbn [bind] in H. destruct (Z.land b 0xFF =? 0x2F); [exact (IH _ _ _ _ _ _ H Hc)|].
  destruct (mbus_data_record_new m) as [[a|] m1]; [|apply ok_inj in H; injection H as _ <- _; reflexivity]. destruct ((b =? 0x0F) || (b =? 0x1F)).
  - unfold parse_rest in H. destruct (copy_loop _ _ _ _ _) as [dat|]; [|discriminate]. cbn [bind] in H. destruct (store _ _ _) as [m2|]; [|discriminate]. cbn [bind] in H.
    destruct (mbus_data_record_append _ _ _) as [[hd m3]|]; [|discriminate]. cbn [bind] in H. destruct fuel; cbn [records_mem] in H; [discriminate|].
    destruct (Nat.ltb_spec (i + 1 + (n - (i + 1))) n) as [X|X]; [lia|]. apply ok_inj in H. injection H as <- _ _. discriminate.
  - destruct (parse_record d n i) as [[[r i']|]|]; [| |discriminate]; cbn [bind] in H.
    + destruct (store _ _ _) as [m2|]; [|discriminate]. cbn [bind] in H. destruct (mbus_data_record_append _ _ _) as [[hd m3]|]; [|discriminate]. cbn [bind] in H. exact (IH _ _ _ _ _ _ H Hc).
    + destruct (mbus_data_record_free _ _) as [m2|]; [|discriminate]. cbn [bind] in H. apply ok_inj in H. injection H as <- _ _. discriminate.
Qed.
Lemma data_more f pd m c pd' m' : data_parse_mem f pd m = Ok (c, pd', m') -> assigns_record f = true -> c = -2 -> pv_more (p_var pd') = 0.
Proof.
  intros H As Hc. unfold assigns_record in As. apply andb_prop in As as [As As3]. apply andb_prop in As as [As1 As2]. unfold data_parse_mem in H. rewrite As1 in H. apply Z.eqb_eq in As2. rewrite As2 in H. apply Z.leb_le in As3.
  change (0x72 =? 0x70) with false in H. change (0x72 =? 0x73) with false in H. change (0x72 =? 0x72) with true in H. cbv iota in H. destruct (Z.eqb_spec (data_size f) 0); [lia|].
  unfold variable_parse_mem in H. destruct (Nat.ltb_spec (Z.to_nat (data_size f)) 12); [lia|]. destruct (copy_loop _ _ _ _ _) as [hd|]; [|discriminate]. cbn [bind] in H.
  destruct (records_mem _ _ _ _ _ _) as [[[c1 dv] m1]|] eqn:E; [|discriminate]. cbn [bind] in H. apply ok_inj in H. injection H as -> <- _. cbn [p_var]. exact (records_more _ _ _ _ _ _ _ _ _ E Hc).
Qed.

(** ** The heap of record lists *)
Definition dead (hp : heap) (p : option nat) : Prop := match p with None => True | Some k => forall rs, nth_error hp k <> Some (Some rs) end.
Lemma release_dead hp : forall k, (forall rs, nth_error hp k <> Some (Some rs)) -> release hp k = UB.
Proof.
  induction hp as [|[x|] hp IH]; intros [|k] H; cbn [release]; try reflexivity; [destruct (H x); reflexivity|rewrite IH; [reflexivity|exact H]..].
Qed.
Lemma release_last hp rs : release (hp ++ [Some rs]) (length hp) = Ok (hp ++ [None]).
Proof. induction hp as [|[x|] hp IH]; [reflexivity|cbn [app length release]; rewrite IH; reflexivity..]. Qed.
Lemma dead_last hp : dead (hp ++ [None]) (Some (length hp)).
Proof. intros rs H. rewrite nth_error_app2, Nat.sub_diag in H by lia. discriminate. Qed.
Lemma unreleased_last hp e : unreleased (hp ++ [e]) = unreleased hp ++ match e with Some rs => rs | None => [] end.
Proof. unfold unreleased. rewrite flat_map_app. cbn [flat_map]. rewrite app_nil_r. reflexivity. Qed.
(** The list just parsed is released, in both models. *)
Lemma heap_parsed hp (rs : list rec) (pr : Z) (fd : fdat) hp1 p1 : unreleased hp = [] ->
  (match rs with [] => Ok (pr, fd, hp, None) | r :: l => Ok (pr, fd, hp ++ [Some (r :: l)], Some (length hp)) end) = Ok (pr, fd, hp1, p1) ->
  unreleased hp1 = rs /\ exists hp2, free_list hp1 p1 = Ok hp2 /\ unreleased hp2 = [] /\ dead hp2 p1 /\ (p1 = None -> rs = []).
Proof.
  intros U E. destruct rs as [|r rs]; apply ok_inj in E; injection E as <- <-.
  - split; [exact U|]. exists hp. repeat split; auto.
  - split; [rewrite unreleased_last, U; reflexivity|]. exists (hp ++ [None]). split; [apply release_last|]. split; [rewrite unreleased_last, U; reflexivity|]. split; [apply dead_last|discriminate].
Qed.

Section Sim.
  Variables (B : Type) (wret : B -> Z -> Z) (react : B -> list Z -> B * list ev) (h : handle).
  Variables (m0 : mem) (reply qa : nat).
  Notation W := (world B).
  Definition tied (req : frame) (newA : list nat) (gotl : list (nat * frame)) (cur : nat) (cf : frame) (m : mem) : Prop :=
    look m qa = Some (CFrame req None) /\ grown reply (qa :: newA) m0 m /\ fchain m (Some reply) (gotl ++ [(cur, cf)]) /\ map fst gotl ++ [cur] = reply :: newA.
  Lemma tied_facts req newA gotl cur cf m : tied req newA gotl cur cf m ->
    look m cur = Some (CFrame cf None) /\ ~ In cur (map fst gotl) /\ cur <> qa /\ ~ In qa (map fst gotl) /\ (In cur newA \/ cur = reply) /\ look m reply <> None.
  Proof.
    intros (L & (N & R & A & K) & C & E). inversion_clear N as [|? ? N1 N2]. assert (Nd : NoDup (map fst gotl ++ [cur])) by (rewrite E; constructor; [intros I; apply R; right; exact I|exact N2]).
    assert (Q : forall x, In x (map fst gotl ++ [cur]) -> x <> qa). { intros x I ->. rewrite E in I. destruct I as [->|I]; [apply R; left; reflexivity|contradiction]. }
    split; [eapply fchain_last; exact C|]. split; [|split; [apply Q; apply in_or_app; right; left; reflexivity|split]].
    - intros I. clear - Nd I. induction (map fst gotl) as [|x l IH]; [destruct I|]. cbn in Nd. inversion_clear Nd as [|? ? X Y]. destruct I as [->|I]; [apply X; apply in_or_app; right; left; reflexivity|auto].
    - intros I. apply (Q qa); [apply in_or_app; left; exact I|reflexivity].
    - split.
      + assert (I : In cur (reply :: newA)) by (rewrite <- E; apply in_or_app; right; left; reflexivity). destruct I as [<-|I]; auto.
      + assert (I : In reply (map fst (gotl ++ [(cur, cf)]))) by (rewrite map_app; cbn [map fst]; rewrite E; left; reflexivity). apply in_map_iff in I as ([x f] & Ex & I). cbn in Ex. subst x.
        destruct (fchain_look _ _ _ _ _ C I) as [nx X]. rewrite X. discriminate.
  Qed.
  Lemma tied_req req req' newA gotl cur cf m : tied req newA gotl cur cf m -> exists m', frame_put qa req' m = Ok m' /\ tied req' newA gotl cur cf m' /\ m_fails m' = m_fails m /\ (forall b, b <> qa -> look m' b = look m b).
  Proof.
    intros T. destruct (tied_facts _ _ _ _ _ _ T) as (_ & _ & F3 & F4 & _). destruct T as (L & G & C & E). destruct (put_ok qa req req' None m L) as (m' & E1 & L1 & L2 & F). exists m'. split; [exact E1|]. split; [|auto].
    split; [exact L1|]. split; [eapply grown_change; [exact G|left; left; reflexivity|exact L2|rewrite L1; discriminate]|]. split; [|exact E].
    eapply fchain_same; [exact C|]. intros a I. apply L2. intros ->. rewrite map_app in I. apply in_app_or in I as [I|[I|[]]]; [contradiction|cbn in I; congruence].
  Qed.
  Lemma tied_cur req newA gotl cur cf cf' m : tied req newA gotl cur cf m -> exists m', frame_put cur cf' m = Ok m' /\ tied req newA gotl cur cf' m' /\ m_fails m' = m_fails m.
  Proof.
    intros T. destruct (tied_facts _ _ _ _ _ _ T) as (F1 & F2 & F3 & F4 & F5 & _). destruct T as (L & G & C & E). destruct (put_ok cur cf cf' None m F1) as (m' & E1 & L1 & L2 & F). exists m'. split; [exact E1|]. split; [|exact F].
    split; [rewrite L2 by congruence; exact L|]. split; [eapply grown_change; [exact G|destruct F5 as [F5|F5]; [left; right; exact F5|right; exact F5]|exact L2|rewrite L1; discriminate]|]. split; [|exact E].
    eapply fchain_replace; [exact C|exact F2|intros b I; apply L2; intros ->; contradiction|]. econstructor; [exact L1|constructor].
  Qed.
  Lemma tied_at req newA gotl cur cf m : tied req newA gotl cur cf m -> frame_at qa m = Ok req /\ frame_at cur m = Ok cf.
  Proof. intros T. destruct (tied_facts _ _ _ _ _ _ T) as (F1 & _). destruct T as (L & _). unfold frame_at. rewrite L, F1. auto. Qed.
  (** A list of new records beside it all. *)
  Lemma tied_holds req newA gotl cur cf m p l m2 : tied req newA gotl cur cf m -> holds_list m m2 p l ->
    look m2 qa = Some (CFrame req None) /\ grown reply (map fst l ++ qa :: newA) m0 m2 /\ fchain m2 (Some reply) (gotl ++ [(cur, cf)]) /\ chain m2 p l /\ (forall a, In a (map fst l) -> look m a = None).
  Proof.
    intros T HL. destruct (tied_facts _ _ _ _ _ _ T) as (F1 & _ & _ & _ & _ & Fr). destruct T as (L & G & C & E). pose proof (holds_added _ _ _ _ HL) as (N1 & A1 & K1). destruct HL as (HC & _).
    assert (Kp : forall a, look m a <> None -> look m2 a = look m a). { intros a X. apply K1. intros I. apply X, A1, I. }
    split; [rewrite Kp by (rewrite L; discriminate); exact L|]. split; [|split; [|split; [exact HC|intros a I; apply A1; exact I]]].
    - destruct G as (N & R & A & K). split; [|split; [|split]].
      + clear - N1 A1 N A. induction (map fst l) as [|x q IH]; [exact N|]. inversion_clear N1 as [|? ? X Y]. cbn. constructor; [|apply IH; [exact Y|intros a I; apply A1; right; exact I]].
        intros I. apply in_app_or in I as [I|I]; [contradiction|]. destruct (A1 x (or_introl eq_refl)) as [P _]. destruct (A x I). congruence.
      + intros I. apply in_app_or in I as [I|I]; [|contradiction]. apply Fr, A1, I.
      + intros a I. apply in_app_or in I as [I|I].
        * split; [|apply A1; exact I]. destruct (A1 a I) as [P _]. rewrite <- K; [exact P| |]; [intros J; destruct (A a J); congruence|intros ->; congruence].
        * destruct (A a I) as [P Q]. split; [exact P|]. rewrite Kp; exact Q.
      + intros a I Na. rewrite K1 by (intros J; apply I; apply in_or_app; left; exact J). apply K; [|exact Na]. intros J. apply I. apply in_or_app. right. exact J.
    - eapply fchain_same; [exact C|]. intros a I. apply Kp. apply in_map_iff in I as ([x f] & Ex & I). cbn in Ex. subst x. destruct (fchain_look _ _ _ _ _ C I) as [nx X]. rewrite X. discriminate.
  Qed.

  Definition outcome (w : W) (m : mem) (q : reqout) (w' : W) (x : out (Z * W * mem)) : Prop :=
    exists r w1 m1 used l1 newA leaked req', x = Done (r, w1, m1) /\ attempts used m m1 /\ look m1 qa = Some (CFrame req' None) /\ grown reply (qa :: newA ++ leaked) m0 m1 /\
      fchain m1 (Some reply) l1 /\ map fst l1 = reply :: newA /\
      ((~ In true used /\ r = q_ret q /\ w1 = w' /\ map snd l1 = q_frames q /\ length leaked = length (unreleased (q_heap q))) \/
       (In true used /\ (r = 0 \/ r = -1) /\ leaked = [] /\ starts (map snd l1) (q_frames q) /\ starts (w_log w1) (w_log w'))).
  Lemma outcome_before w w2 m m2 u q w' x : attempts u m m2 -> ~ In true u -> outcome w2 m2 q w' x -> outcome w m q w' x.
  Proof.
    intros A N (r & w1 & m1 & used & l1 & newA & leaked & req' & E & A1 & Q). exists r, w1, m1, (u ++ used), l1, newA, leaked, req'. split; [exact E|]. split; [eapply attempts_trans; eassumption|].
    destruct Q as (Q1 & Q2 & Q3 & Q4 & Q5). do 4 (split; [assumption|]). rewrite in_app_iff. tauto.
  Qed.
  Lemma stop req newA gotl cur cf m w r q w' : tied req newA gotl cur cf m -> q = mkRq r (map snd gotl ++ [cf]) (q_heap q) -> unreleased (q_heap q) = [] -> w' = w -> outcome w m q w' (Done (r, w, m)).
  Proof.
    intros (L & G & C & E) -> U ->. cbn [q_heap] in U. exists r, w, m, [], (gotl ++ [(cur, cf)]), newA, [], req. split; [reflexivity|]. split; [reflexivity|]. split; [exact L|]. split; [rewrite app_nil_r; exact G|]. split; [exact C|].
    split; [rewrite map_app; exact E|]. left. split; [intros []|]. cbn [q_ret q_frames q_heap]. rewrite U, map_app. auto.
  Qed.
  Lemma plain_codes f fd c fd' : assigns_record f = false -> mbus_frame_data_parse f fd = Ok (c, fd') -> c = 0 \/ c = -1.
  Proof.
    unfold assigns_record, mbus_frame_data_parse. destruct (Z.land (control f) 0x40 =? 0); [|intros _ E; apply ok_inj in E; injection E as <- _; auto]. cbn [andb].
    destruct (ctrl_info f =? 0x70). { intros _. destruct (data_size f >? 0); [destruct (rd (fdata f) 0); cbn [bind]; [|discriminate]|]; intros E; apply ok_inj in E; injection E as <- _; auto. }
    destruct (ctrl_info f =? 0x73).
    { intros _. destruct (data_size f =? 0); [intros E; apply ok_inj in E; injection E as <- _; auto|]. unfold mbus_data_fixed_parse. destruct (negb _); cbn [bind]; [intros E; apply ok_inj in E; injection E as <- _; auto|].
      repeat (destruct (rd _ _); cbn [bind]; [|discriminate]). intros E; apply ok_inj in E; injection E as <- _; auto. }
    destruct (ctrl_info f =? 0x72); [|intros _ E; apply ok_inj in E; injection E as <- _; auto]. cbn [andb]. destruct (Z.leb_spec 12 (data_size f)) as [L|L]; [discriminate|]. intros _.
    destruct (data_size f =? 0); [intros E; apply ok_inj in E; injection E as <- _; auto|]. unfold mbus_data_variable_parse. destruct (Nat.ltb_spec (Z.to_nat (data_size f)) 12); [|lia]. cbn [bind]. intros E; apply ok_inj in E; injection E as <- _; auto.
  Qed.
  Lemma same_attempts m m' : m_fails m' = m_fails m -> attempts [] m m'.
  Proof. unfold attempts. intros ->. reflexivity. Qed.

  Lemma loop_sim : forall fuel req cf gotl fd hp0 p retry count mf (w : W) q w',
    request_loop B wret react fuel h req cf (map snd gotl) fd hp0 p retry count mf w = Done (q, w') ->
    forall cur pd m newA, PMem.alike fd pd -> (p = None -> pv_record (p_var pd) = None) -> dead hp0 p -> unreleased hp0 = [] -> tied req newA gotl cur cf m ->
    outcome w m q w' (request_loop_mem B wret react fuel h qa cur pd retry count mf w m).
  Proof.
    induction fuel as [|fuel IH]; intros req cf gotl fd hp0 p retry count mf w q w' H cur pd m newA Al Pn Dd U T; cbn [request_loop request_loop_mem] in *; [discriminate|].
    destruct (retry >? max_data_retry h); [injection H as <- <-; eapply stop; [exact T|reflexivity|exact U|reflexivity]|].
    rewrite (proj1 (tied_at _ _ _ _ _ _ T)). cbn [lift obind].
    destruct (mbus_send_frame B wret react (Some h) req w) as [[[r req1] w1]| |] eqn:E1; cbn [obind] in H; try discriminate. cbn [obind].
    destruct (tied_req _ req1 _ _ _ _ _ T) as (m1 & P1 & T1 & F1 & _). rewrite P1. cbn [lift obind]. apply outcome_before with (w2 := w1) (m2 := m1) (u := []); [apply same_attempts; exact F1|intros []|]. clear T P1 F1 m.
    destruct (r =? -1); [injection H as <- <-; eapply stop; [exact T1|reflexivity|exact U|reflexivity]|].
    rewrite (proj2 (tied_at _ _ _ _ _ _ T1)). cbn [lift obind].
    destruct (mbus_recv_frame B (Some h) cf w1) as [[[c cf1] w2]| |] eqn:E2; cbn [obind] in H; try discriminate. cbn [obind].
    destruct (tied_cur _ _ _ _ _ cf1 _ T1) as (m2 & P2 & T2 & F2). rewrite P2. cbn [lift obind]. apply outcome_before with (w2 := w2) (m2 := m2) (u := []); [apply same_attempts; exact F2|intros []|]. clear T1 P2 F2 m1.
    destruct (c =? RECV_OK).
    2:{ destruct (c =? RECV_TIMEOUT); [eapply IH; eassumption|]. destruct (c =? RECV_INVALID); [|injection H as <- <-; eapply stop; [exact T2|reflexivity|exact U|reflexivity]].
        destruct (mbus_purge_frames B (Some h) w2) as [[x w3]| |]; cbn [obind] in *; try discriminate. apply outcome_before with (w2 := w3) (m2 := m2) (u := []); [reflexivity|intros []|]. eapply IH; eassumption. }
    destruct (mbus_purge_frames B (Some h) w2) as [[x w3]| |] eqn:E3; cbn [obind] in *; try discriminate. apply outcome_before with (w2 := w3) (m2 := m2) (u := []); [reflexivity|intros []|].
    unfold parse_heap in H. destruct (mbus_frame_data_parse cf1 fd) as [[pr fd1]|] eqn:E4; cbn [bind] in H; [|discriminate].
    destruct (data_mem cf1 fd pr fd1 pd m2 E4 Al) as (pr' & pd1 & m3 & E5 & Al1 & Q). rewrite E5. cbn [lift obind]. destruct (assigns_record cf1) eqn:As.
    2:{ (* no record list is assigned *)
        destruct Q as (-> & -> & Q1 & Q2). cbn [lift obind] in H. destruct (plain_codes _ _ _ _ As E4) as [->| ->]; [|change (-1 =? -1) with true in *; cbv iota in *; injection H as <- <-; eapply stop; [exact T2|reflexivity|exact U|reflexivity]].
        change (0 =? -1) with false in *. cbv iota in *. destruct p as [k|]; cbn [free_list] in H; [rewrite (release_dead hp0 k Dd) in H; discriminate|]. cbn [lift obind] in H.
        destruct (Z.eqb_spec (d_type fd1) DT_VARIABLE) as [X|X]; [destruct (Q2 eq_refl X)|]. cbn [andb] in H. destruct Al1 as (_ & Ty & _). rewrite Ty. destruct (Z.eqb_spec (d_type fd1) DT_VARIABLE); [contradiction|]. cbn [andb].
        rewrite Q1, (Pn eq_refl). unfold mbus_data_record_free. cbn [record_free_from lift obind]. injection H as <- <-. eapply stop; [exact T2|reflexivity|exact U|reflexivity]. }
    destruct Q as (Ty & l & used & HL & _ & At & _ & Q). destruct (tied_holds _ _ _ _ _ _ _ _ _ T2 HL) as (Lq & G3 & C3 & R3 & Nw). pose proof (tied_facts _ _ _ _ _ _ T2) as (Lc & Nc & Cq & Nq & Ic & Lr).
    destruct Al1 as (Al1a & Ty1 & Al1b). destruct (match v_records (d_var fd1) with [] => Ok (pr, fd1, hp0, None) | _ => _ end) as [[[[pr2 fd2] hp1] p1]|] eqn:Eh; [|discriminate].
    assert (X : pr2 = pr /\ fd2 = fd1) by (destruct (v_records (d_var fd1)); apply ok_inj in Eh; injection Eh as <- <- _ _; auto). destruct X as [-> ->].
    destruct (heap_parsed hp0 (v_records (d_var fd1)) pr fd1 hp1 p1 U Eh) as (U1 & hp2 & Fr & U2 & D2 & Pz). cbn [lift obind] in H.
    assert (Perm : Permutation (map fst l ++ qa :: newA) (qa :: newA ++ map fst l)) by (etransitivity; [apply Permutation_app_comm|reflexivity]).
    (* the records are released: the state as before, with other frame contents *)
    assert (Rel : forall m4, grown reply (map fst l ++ qa :: newA) m0 m4 -> (forall a, In a (map fst l) \/ In a (map fst gotl) \/ a = qa \/ a = cur -> look m4 a = look m3 a) ->
      exists m5, mbus_data_record_free (pv_record (p_var pd1)) m4 = Ok m5 /\ m_fails m5 = m_fails m4 /\ tied req1 newA gotl cur cf1 m5).
    { intros m4 G4 K4. destruct (grown_records reply (qa :: newA) m0 m4 (pv_record (p_var pd1)) l) as (m5 & E6 & G5 & F5 & K5); [eapply chain_same; [exact R3|intros a I; apply K4; auto]|exact G4|].
      exists m5. split; [exact E6|]. split; [exact F5|]. destruct T2 as (T2a & T2b & T2c & T2d).
      assert (Kq : forall a, In a (map fst gotl) \/ a = qa \/ a = cur -> look m5 a = look m3 a).
      { intros a I. rewrite K5; [apply K4; auto|]. intros J. specialize (Nw a J). assert (look m2 a <> None); [|contradiction]. destruct I as [I|[->| ->]]; [|rewrite T2a; discriminate|rewrite Lc; discriminate].
        apply in_map_iff in I as ([y f] & Ey & I). cbn in Ey. subst y. destruct (fchain_look _ _ _ a f T2c) as [nx X]; [apply in_or_app; left; exact I|]. rewrite X. discriminate. }
      split; [rewrite Kq by auto; exact Lq|]. split; [exact G5|]. split; [|exact T2d]. eapply fchain_same; [exact C3|]. intros a I. apply Kq. rewrite map_app in I. apply in_app_or in I as [I|[<-|[]]]; auto. }
    destruct Q as [(-> & Rs & Mo & Nf)|(-> & Yf & k & Hk & Rs)].
    - (* all records are there *)
      destruct (pr =? -1).
      { injection H as <- <-. exists 1, w3, m3, used, (gotl ++ [(cur, cf1)]), newA, (map fst l), req1. split; [reflexivity|]. split; [exact At|]. split; [exact Lq|]. split; [eapply grown_perm; [exact Perm|exact G3]|]. split; [exact C3|].
        split; [rewrite map_app; apply T2|]. left. split; [exact Nf|]. cbn [q_ret q_frames q_heap]. split; [reflexivity|]. split; [reflexivity|]. split; [rewrite map_app; reflexivity|]. rewrite U1, <- Rs, !map_length. reflexivity. }
      rewrite Fr in H. cbn [lift obind] in H. rewrite Ty1, Mo. destruct (_ && _ && _ && _) eqn:Go.
      + unfold frame_alloc. destruct (malloc (CFrame (mbus_frame_new T_ANY) None) m3) as [[b|] m4] eqn:Em; destruct (malloc_attempts _ _ _ _ Em) as (u & Au & Iu).
        * (* next telegram *)
          assert (Lr3 : look m3 reply <> None). { assert (I : In reply (map fst (gotl ++ [(cur, cf1)]))) by (rewrite map_app; cbn [map fst]; destruct T2 as (_ & _ & _ & ->); left; reflexivity). apply in_map_iff in I as ([y f] & Ey & I). cbn in Ey. subst y. destruct (fchain_look _ _ _ _ _ C3 I) as [nx X]. rewrite X. discriminate. }
          destruct (grown_malloc _ _ _ _ _ _ _ Em Lr3 G3) as (G4 & Nb & Lb & K4).
          assert (Lc3 : look m3 cur = Some (CFrame cf1 None)) by (eapply fchain_last; exact C3). assert (Bc : b <> cur) by congruence. assert (Bq : b <> qa) by congruence.
          assert (Lc4 : look m4 cur = Some (CFrame cf1 None)) by (rewrite K4 by congruence; exact Lc3). destruct (link_ok cur cf1 (Some b) None m4 Lc4) as (m5 & E6 & L5 & K5 & F5). rewrite E6. cbn [lift obind].
          assert (Lq5 : look m5 qa = Some (CFrame req1 None)) by (rewrite K5, K4 by congruence; exact Lq). destruct (put_ok qa req1 (set_control req1 (Z.lxor (control req1) 32)) None m5 Lq5) as (m6 & E7 & L6 & K6 & F6). rewrite E7. cbn [lift obind].
          assert (G6 : grown reply (b :: map fst l ++ qa :: newA) m0 m6).
          { assert (G5 : grown reply (b :: map fst l ++ qa :: newA) m0 m5).
            { eapply grown_change; [exact G4| |exact K5|rewrite L5; discriminate]. destruct Ic as [Ic|Ic]; [left; right; apply in_or_app; right; right; exact Ic|right; exact Ic]. }
            eapply grown_change; [exact G5|left; right; apply in_or_app; right; left; reflexivity|exact K6|rewrite L6; discriminate]. }
          assert (Bl : ~ In b (map fst l)). { intros I. destruct (holds_added _ _ _ _ HL) as (_ & A1 & _). destruct (A1 b I). contradiction. }
          assert (Ql : ~ In qa (map fst l)). { intros I. specialize (Nw qa I). destruct T2 as (X & _). congruence. }
          assert (Cl : ~ In cur (map fst l)). { intros I. specialize (Nw cur I). congruence. }
          destruct (grown_records reply (b :: qa :: newA) m0 m6 (pv_record (p_var pd1)) l) as (m7 & E8 & G7 & F7 & K7).
          { eapply chain_same; [exact R3|]. intros a I. rewrite K6, K5, K4; [reflexivity|..]; intros ->; contradiction. }
          { eapply grown_perm; [|exact G6]. apply Permutation_middle. }
          rewrite E8. cbn [lift obind].
          apply outcome_before with (w2 := w3) (m2 := m7) (u := used ++ u).
          { unfold attempts in *. rewrite At, Au, F7, F6, F5, app_assoc. reflexivity. }
          { intros I. apply in_app_or in I as [I|I]; [contradiction|]. apply Iu in I. discriminate. }
          assert (Bg : ~ In b (map fst gotl)). { intros I. apply in_map_iff in I as ([y f] & Ey & I). cbn in Ey. subst y. destruct (fchain_look _ _ _ b f C3) as [nx X]; [apply in_or_app; left; exact I|]. congruence. }
          assert (Gl : forall a, In a (map fst gotl) -> ~ In a (map fst l)). { intros a I J. specialize (Nw a J). apply in_map_iff in I as ([y f] & Ey & I). cbn in Ey. subst y. destruct T2 as (_ & _ & X & _). destruct (fchain_look _ _ _ a f X) as [nx Y]; [apply in_or_app; left; exact I|]. congruence. }
          eapply IH with (gotl := gotl ++ [(cur, cf1)]) (newA := newA ++ [b]); [rewrite map_app; exact H| | |exact D2|exact U2|].
          -- split; [exact Al1a|]. split; [exact Ty1|exact Al1b].
          -- intros Y. specialize (Pz Y). rewrite Pz in Rs. destruct l as [|y l]; [|discriminate]. inversion R3. reflexivity.
          -- split; [rewrite K7 by exact Ql; exact L6|]. split; [eapply grown_perm; [|exact G7]; etransitivity; [apply Permutation_cons_append|reflexivity]|]. split.
             ++ rewrite <- app_assoc. cbn [app]. eapply fchain_replace with (m := m3); [exact C3|exact Nc| |].
                ** intros a I. rewrite K7 by (apply Gl; exact I). rewrite K6, K5, K4; [reflexivity|..]; intros ->; contradiction.
                ** econstructor; [rewrite K7, K6 by assumption; exact L5|]. econstructor; [|constructor]. rewrite K7, K6, K5 by assumption. exact Lb.
             ++ rewrite map_app. cbn [map fst]. destruct T2 as (_ & _ & _ & ->). reflexivity.
        * (* no memory for the next telegram *)
          destruct (malloc_cases (CFrame (mbus_frame_new T_ANY) None) m3) as [(y & Em' & Cm & _)|(y & Em' & _)]; rewrite Em' in Em; [|discriminate]. injection Em as ->.
          assert (K4 : forall a, look m4 a = look m3 a) by (intros a; unfold look; rewrite Cm; reflexivity).
          assert (Lc3 : look m3 cur = Some (CFrame cf1 None)) by (eapply fchain_last; exact C3).
          destruct (link_ok cur cf1 None None m4 ltac:(rewrite K4; exact Lc3)) as (m5 & E6 & L5 & K5 & F5). rewrite E6. cbn [lift obind].
          destruct (put_ok qa req1 (set_control req1 (Z.lxor (control req1) 32)) None m5 ltac:(rewrite K5, K4 by congruence; exact Lq)) as (m6 & E7 & L6 & K6 & F6). rewrite E7. cbn [lift obind].
          assert (G6 : grown reply (map fst l ++ qa :: newA) m0 m6).
          { eapply grown_change with (m := m5); [eapply grown_change with (m := m4); [eapply grown_same; [exact G3|exact K4]| |exact K5|rewrite L5; discriminate]|left; apply in_or_app; right; left; reflexivity|exact K6|rewrite L6; discriminate].
            destruct Ic as [Ic|Ic]; [left; apply in_or_app; right; right; exact Ic|right; exact Ic]. }
          assert (Ql : ~ In qa (map fst l)). { intros I. specialize (Nw qa I). destruct T2 as (X & _). congruence. }
          assert (Cl : ~ In cur (map fst l)). { intros I. specialize (Nw cur I). congruence. }
          destruct (grown_records reply (qa :: newA) m0 m6 (pv_record (p_var pd1)) l) as (m7 & E8 & G7 & F7 & K7); [|exact G6|].
          { eapply chain_same; [exact R3|]. intros a I. rewrite K6, K5, K4; [reflexivity|..]; intros ->; contradiction. }
          rewrite E8. cbn [lift obind]. destruct (loop_log _ _ _ _ _ _ _ _ _ _ _ _ _ _ _ _ _ H) as [Lg Sf].
          exists (-1), w3, m7, (used ++ u), (gotl ++ [(cur, cf1)]), newA, [], (set_control req1 (Z.lxor (control req1) 32)). split; [reflexivity|]. split; [unfold attempts in *; rewrite At, Au, F7, F6, F5, app_assoc; reflexivity|].
          split; [rewrite K7 by exact Ql; exact L6|]. split; [rewrite app_nil_r; exact G7|]. split.
          { eapply fchain_same; [exact C3|]. intros a I. assert (Al2 : ~ In a (map fst l)). { intros J. specialize (Nw a J). apply in_map_iff in I as ([z f] & Ez & I). cbn in Ez. subst z. destruct T2 as (_ & _ & Y & _). destruct (fchain_look _ _ _ a f Y I) as [nx Z]. congruence. }
            rewrite K7 by exact Al2. destruct (Nat.eq_dec a cur) as [->|Na]; [rewrite K6 by exact Cq; rewrite L5; symmetry; exact Lc3|]. rewrite K6, K5, K4; [reflexivity|exact Na|].
            intros ->. rewrite map_app in I. apply in_app_or in I as [I|[I|[]]]; [contradiction|cbn in I; congruence]. }
          split; [rewrite map_app; apply T2|]. right. split; [apply in_or_app; right; apply Iu; reflexivity|]. split; [right; reflexivity|]. split; [reflexivity|]. split; [rewrite map_app; exact Sf|exact Lg].
      + destruct (Rel m3 G3 ltac:(reflexivity)) as (m5 & E6 & F5 & T5). rewrite E6. cbn [lift obind]. injection H as <- <-. apply outcome_before with (w2 := w3) (m2 := m5) (u := used); [unfold attempts in *; rewrite At, F5; reflexivity|exact Nf|].
        eapply stop; [exact T5|reflexivity|exact U2|reflexivity].
    - (* the records are cut short: the readout ends here *)
      change (-2 =? -1) with false. cbv iota. rewrite (data_more _ _ _ _ _ _ E5 As eq_refl). change (negb (0 =? 0)) with false. rewrite andb_false_r. cbn [andb].
      destruct (Rel m3 G3 ltac:(reflexivity)) as (m5 & E6 & F5 & T5). rewrite E6. cbn [lift obind].
      assert (S : starts (map snd (gotl ++ [(cur, cf1)])) (q_frames q) /\ starts (w_log w3) (w_log w')).
      { rewrite map_app. cbn [map snd]. destruct (pr =? -1); [injection H as <- <-; split; apply starts_refl|]. rewrite Fr in H. cbn [lift obind] in H. destruct (_ && _ && _ && _); [|injection H as <- <-; split; apply starts_refl].
        destruct (loop_log _ _ _ _ _ _ _ _ _ _ _ _ _ _ _ _ _ H) as [Lg Sf]. auto. }
      destruct T5 as (T5a & T5b & T5c & T5d). exists 0, w3, m5, used, (gotl ++ [(cur, cf1)]), newA, [], req1. split; [reflexivity|]. split; [unfold attempts in *; rewrite At, F5; reflexivity|]. split; [exact T5a|]. split; [rewrite app_nil_r; exact T5b|].
      split; [exact T5c|]. split; [rewrite map_app; exact T5d|]. right. split; [exact Yf|]. split; [left; reflexivity|]. split; [reflexivity|]. exact S.
  Qed.
End Sim.

(** Proofs about handles and connections. *)
From Coq Require Import Permutation.
From Verif Require Import CBase PBase MDouble MConn SConn.

(** ** Tables *)
Lemma remove_notin {A} k (l : list (Z * A)) : ~ In k (map fst l) -> remove k l = l.
Proof. induction l as [|[k' a] l IH]; cbn; [reflexivity|]. intros H. destruct (Z.eqb_spec k' k); [exfalso; auto|]. cbn. f_equal. apply IH. auto. Qed.
Lemma replace_notin {A} k (x : A) (l : list (Z * A)) : ~ In k (map fst l) -> replace k x l = l.
Proof. induction l as [|[k' a] l IH]; cbn; [reflexivity|]. intros H. destruct (Z.eqb_spec k' k); [exfalso; auto|]. f_equal. apply IH. auto. Qed.
Lemma find_split {A} k (l : list (Z * A)) a : NoDup (map fst l) -> find k l = Some a ->
  exists l1 l2, l = l1 ++ (k, a) :: l2 /\ ~ In k (map fst l1) /\ ~ In k (map fst l2) /\ remove k l = l1 ++ l2 /\ (forall x, replace k x l = l1 ++ (k, x) :: l2).
Proof.
  induction l as [|[k' a'] l IH]; cbn [find map fst]; intros N H; [discriminate|]. inversion_clear N as [|? ? N1 N2].
  destruct (Z.eqb_spec k k') as [E|E].
  - subst k'. injection H as ->. exists [], l. cbn [app map In]. split; [reflexivity|]. split; [auto|]. split; [assumption|]. split.
    + unfold remove. cbn [filter fst]. rewrite Z.eqb_refl. cbn [negb]. apply remove_notin. assumption.
    + intros x. unfold replace. cbn [map fst]. rewrite Z.eqb_refl. f_equal. apply replace_notin. assumption.
  - destruct (IH N2 H) as (l1 & l2 & H1 & H2 & H3 & H4 & H5). exists ((k', a') :: l1), l2. cbn [app]. split; [congruence|].
    split; [cbn; intuition congruence|]. split; [assumption|]. split.
    + unfold remove in *. cbn [filter fst]. destruct (Z.eqb_spec k' k); [congruence|]. cbn [negb]. rewrite H4. reflexivity.
    + intros x. specialize (H5 x). unfold replace in *. cbn [map fst]. destruct (Z.eqb_spec k' k); [congruence|]. rewrite H5. reflexivity.
Qed.
Lemma find_in {A} k (l : list (Z * A)) a : find k l = Some a -> In (k, a) l.
Proof. induction l as [|[k' a'] l IH]; cbn; [discriminate|]. destruct (Z.eqb_spec k k'); [intros E; injection E as ->; subst; auto|auto]. Qed.
Lemma in_find {A} k (l : list (Z * A)) : In k (map fst l) -> exists a, find k l = Some a.
Proof. induction l as [|[k' a'] l IH]; cbn; [intros []|]. destruct (Z.eqb_spec k k'); [eauto|]. intros [E|H]; [congruence|auto]. Qed.
Lemma in_find_nodup {A} k (l : list (Z * A)) a : NoDup (map fst l) -> In (k, a) l -> find k l = Some a.
Proof.
  intros N H. destruct (in_find k l) as [b B]; [apply in_map_iff; exists (k, a); auto|]. rewrite B. apply find_in in B.
  induction l as [|[k' a'] l IH]; [destruct H|]. cbn in N. inversion_clear N as [|? ? N1 N2]. destruct H as [H|H], B as [B|B]; try congruence; auto.
  - exfalso. apply N1. injection H as -> ->. apply in_map_iff. exists (k, b). auto.
  - exfalso. apply N1. injection B as -> ->. apply in_map_iff. exists (k, a). auto.
Qed.

(** ** The invariant *)
Definition is_tty (f : file) : bool := match f with Tty _ => true | _ => false end.
Definition tags (p : proc) : list (Z * bool) := map (fun x => (fst x, is_tty (snd x))) (own_files p).
Definition up_of (log : history) (x : Z * obj) : list (Z * bool) :=
  match phase_of log (fst x), ob_fd (snd x) with Some Up, Some fd => [(fd, ob_serial (snd x))] | _, _ => [] end.
Definition blocks_of (x : Z * obj) : list Z := match ob_aux (snd x) with Some (a, s) => [s; a; fst x] | None => [fst x] end.
Definition good (log : history) (next : Z) (x : Z * obj) : Prop :=
  0 < fst x < next /\ ob_aux (snd x) <> None /\ kind_of log (fst x) = Some (ob_serial (snd x)) /\
  match phase_of log (fst x) with
  | None => False
  | Some New => True
  | Some Failed => ob_serial (snd x) = true -> ob_fd (snd x) = Some (-1)
  | Some Up => (exists fd, ob_fd (snd x) = Some fd /\ 0 <= fd) /\ (ob_serial (snd x) = true -> ob_term (snd x) <> None)
  | Some Down => ob_fd (snd x) = Some (-1)
  end.
Record inv (initial : list Z) (log : history) (p : proc) : Prop := mkInv {
  i_files : NoDup (map fst (p_files p));
  i_handles : NoDup (map fst (p_handles p));
  i_good : Forall (good log (p_next p)) (p_handles p);
  i_live : forall h ph, phase_of log h = Some ph -> In h (map fst (p_handles p));
  i_blocks : Permutation (p_blocks p) (flat_map blocks_of (p_handles p));
  i_distinct : NoDup (p_blocks p);
  i_small : Forall (fun b => 0 < b < p_next p) (p_blocks p);
  i_next : 0 < p_next p;
  i_own : Permutation (tags p) (flat_map (up_of log) (p_handles p));
  i_foreign : foreign_files p = others initial log }.

Lemma start_inv initial : NoDup initial -> inv initial [] (start initial).
Proof.
  intros N. assert (F : forall l, filter (fun x : Z * file => match snd x with Foreign => false | _ => true end) (map (fun fd => (fd, Foreign)) l) = []) by (induction l; cbn; congruence).
  split; cbn [start p_files p_handles p_next p_blocks flat_map]; try constructor; try lia.
  - rewrite map_map. cbn. rewrite map_id. assumption.
  - discriminate.
  - unfold tags, own_files. cbn [start p_files]. rewrite F. constructor.
  - unfold foreign_files. cbn [start p_files others]. clear N F. induction initial; cbn; congruence.
Qed.

(** Handles other than [h] do not see a call on [h]. *)
Lemma good_other log log' next next' l : next <= next' -> (forall x, In x l -> phase_of log' (fst x) = phase_of log (fst x) /\ kind_of log' (fst x) = kind_of log (fst x)) ->
  Forall (good log next) l -> Forall (good log' next') l.
Proof.
  intros Hn H. rewrite !Forall_forall. intros G x Hx. destruct (H x Hx) as [E1 E2]. specialize (G x Hx). unfold good in *. rewrite E1, E2. destruct G as (G1 & G). split; [lia|assumption].
Qed.
Lemma up_other log log' l : (forall x, In x l -> phase_of log' (fst x) = phase_of log (fst x)) -> flat_map (up_of log') l = flat_map (up_of log) l.
Proof. induction l as [|x l IH]; intros H; [reflexivity|]. cbn [flat_map]. rewrite IH by (intros; apply H; right; assumption). unfold up_of at 1 3. rewrite (H x) by (left; reflexivity). reflexivity. Qed.

Lemma free_ok b l p : Permutation (p_blocks p) (b :: l) -> NoDup (p_blocks p) ->
  exists p', free b p = Ok p' /\ Permutation (p_blocks p') l /\ NoDup (p_blocks p') /\ p_files p' = p_files p /\ p_handles p' = p_handles p /\ p_next p' = p_next p /\ p_timeout p' = p_timeout p /\
    (forall x, In x (p_blocks p') -> In x (p_blocks p)).
Proof.
  intros P N. unfold free. assert (E : existsb (Z.eqb b) (p_blocks p) = true).
  { apply existsb_exists. exists b. split; [|apply Z.eqb_refl]. apply (Permutation_in b (Permutation_sym P)). left. reflexivity. }
  rewrite E. eexists. split; [reflexivity|]. cbn [p_blocks p_files p_handles p_next p_timeout]. split; [|split; [apply NoDup_filter; assumption|split; [|split; [|split; [|split]]]; try reflexivity; intros x Hx; apply filter_In in Hx; apply Hx]].
  assert (P2 : Permutation (filter (fun x => negb (x =? b)) (p_blocks p)) (filter (fun x => negb (x =? b)) (b :: l))).
  { clear - P. induction P; cbn; [constructor| | |eapply Permutation_trans; eassumption].
    - destruct (negb _); [constructor; assumption|assumption].
    - destruct (negb (x =? b)), (negb (y =? b)); try apply Permutation_refl. constructor. }
  rewrite P2. cbn [filter]. rewrite Z.eqb_refl. cbn [negb]. assert (N' : ~ In b l) by (pose proof (Permutation_NoDup P N) as N'; inversion N'; assumption).
  clear - N'. induction l as [|x l IH]; [constructor|]. cbn [filter]. destruct (Z.eqb_spec x b); [exfalso; apply N'; left; assumption|]. cbn [negb]. constructor. apply IH. intros X. apply N'. right. assumption.
Qed.

Section Step.
  Variable initial : list Z.
  Variables (log : history) (p : proc).
  Hypothesis I : inv initial log p.

  Lemma live_handle h ph : phase_of log h = Some ph -> exists o, find h (p_handles p) = Some o /\ good log (p_next p) (h, o).
  Proof.
    intros H. destruct (in_find h (p_handles p) (i_live _ _ _ I h ph H)) as [o E]. exists o. split; [assumption|].
    pose proof (i_good _ _ _ I) as G. rewrite Forall_forall in G. apply G. apply find_in. assumption.
  Qed.

  Lemma create_inv serial m1 m2 m3 : exists r p', step (Create serial m1 m2 m3) p = Ok (r, p') /\ inv initial ((Create serial m1 m2 m3, r) :: log) p' /\ (r <> 0 <-> m1 = true /\ m2 = true /\ m3 = true).
  Proof.
    destruct I as [I1 I2 I3 I4 I5 I6 I7 I8 I9 I10]. pose proof I7 as I7'. rewrite Forall_forall in I7'. cbn [step]. unfold mbus_context.
    assert (K : inv initial ((Create serial m1 m2 m3, 0) :: log) p).
    { split; try assumption.
      - apply (good_other log _ (p_next p)); [lia| |assumption]. intros x Hx. cbn [phase_of kind_of]. change (0 =? 0) with true. rewrite andb_false_r. split; [reflexivity|].
        destruct (Z.eqb_spec 0 (fst x)); [|reflexivity]. rewrite Forall_forall in I3. specialize (I3 x Hx). unfold good in I3. lia.
      - intros h ph. cbn [phase_of]. change (0 =? 0) with true. rewrite andb_false_r. apply I4.
      - rewrite (up_other log); [assumption|]. intros x _. cbn [phase_of]. change (0 =? 0) with true. rewrite andb_false_r. reflexivity. }
    assert (Undo : forall p1, p_files p1 = p_files p -> p_handles p1 = p_handles p -> p_next p <= p_next p1 -> Permutation (p_blocks p1) (p_blocks p) -> inv initial ((Create serial m1 m2 m3, 0) :: log) p1).
    { intros p1 E1 E2 E3 E4. destruct K as [K1 K2 K3 K4 K5 K6 K7 K8 K9 K10]. split; unfold tags, own_files, foreign_files in *; rewrite ?E1, ?E2; try assumption.
      - revert K3. apply good_other; [assumption|auto].
      - rewrite E4. assumption.
      - apply (Permutation_NoDup (Permutation_sym E4)). assumption.
      - apply (Permutation_Forall (Permutation_sym E4)). revert I7. apply Forall_impl. intros; lia.
      - lia. }
    unfold malloc. destruct m1; [|exists 0, p; split; [reflexivity|]; split; [exact K|intuition congruence]].
    cbn [p_files p_blocks p_next p_handles p_timeout].
    assert (N1 : NoDup (p_next p :: p_blocks p)) by (constructor; [intros X; specialize (I7' _ X); lia|assumption]).
    destruct m2; cbn [p_files p_blocks p_next p_handles p_timeout].
    2:{ match goal with |- context [free ?b ?q] => destruct (free_ok b (p_blocks p) q (Permutation_refl _) N1) as (p1 & F1 & F2 & F3 & F4 & F5 & F6 & F7 & F8) end.
        rewrite F1. cbn [bind]. exists 0, p1. split; [reflexivity|]. split; [|intuition congruence]. apply Undo; [assumption|assumption|rewrite F6; cbn [p_next]; lia|assumption]. }
    assert (N2 : NoDup (p_next p + 1 :: p_next p :: p_blocks p)).
    { constructor; [|assumption]. intros [X|X]; [lia|specialize (I7' _ X); lia]. }
    destruct m3; cbn [p_files p_blocks p_next p_handles p_timeout].
    2:{ match goal with |- context [free ?b ?q] => destruct (free_ok b (p_next p :: p_blocks p) q (Permutation_refl _) N2) as (p1 & F1 & F2 & F3 & F4 & F5 & F6 & F7 & F8) end.
        rewrite F1. cbn [bind]. destruct (free_ok (p_next p) (p_blocks p) p1 F2 F3) as (p2 & G1 & G2 & G3 & G4 & G5 & G6 & G7 & G8).
        rewrite G1. cbn [bind]. exists 0, p2. split; [reflexivity|]. split; [|intuition congruence].
        apply Undo; [rewrite G4, F4; reflexivity|rewrite G5, F5; reflexivity|rewrite G6, F6; cbn [p_next]; lia|assumption]. }
    set (h := p_next p) in *. unfold set_handles. cbn [p_files p_blocks p_next p_handles p_timeout]. eexists _, _. split; [reflexivity|]. split; [|split; [auto|intros _; lia]].
    assert (Fr : forall x, In x (p_handles p) -> phase_of ((Create serial true true true, h) :: log) (fst x) = phase_of log (fst x) /\ kind_of ((Create serial true true true, h) :: log) (fst x) = kind_of log (fst x)).
    { intros x Hx. rewrite Forall_forall in I3. specialize (I3 x Hx). unfold good in I3. cbn [phase_of kind_of]. destruct (Z.eqb_spec h (fst x)); [lia|]. auto. }
    split; cbn [p_files p_handles p_next p_blocks map fst flat_map].
    - assumption.
    - constructor; [|assumption]. intros X. apply in_map_iff in X. destruct X as (x & Ex & X). rewrite Forall_forall in I3. specialize (I3 x X). unfold good in I3. lia.
    - constructor; [|revert I3; apply good_other; [lia|assumption]]. unfold good. cbn [fst snd ob_aux ob_serial ob_fd phase_of kind_of]. rewrite Z.eqb_refl. destruct (Z.eqb_spec h 0); [lia|]. cbn [andb negb].
      split; [lia|]. split; [discriminate|auto].
    - intros h' ph. cbn [phase_of]. destruct (Z.eqb_spec h h'); [left; assumption|]. cbn [andb]. intros X. right. exact (I4 h' ph X).
    - cbn [blocks_of ob_aux snd fst app]. do 3 constructor. assumption.
    - constructor; [|assumption]. intros [X|[X|X]]; [lia|lia|]. specialize (I7' _ X). lia.
    - constructor; [lia|]. constructor; [lia|]. constructor; [lia|]. revert I7. apply Forall_impl. intros; lia.
    - lia.
    - unfold tags, own_files in *. cbn [p_files]. unfold up_of at 1. cbn [fst snd ob_fd]. replace (match phase_of _ h with Some Up | _ => [] end) with (@nil (Z * bool)) by (destruct (phase_of _ h) as [[]|]; reflexivity).
      cbn [app]. rewrite (up_other log); [assumption|]. intros x Hx. apply Fr. assumption.
    - unfold foreign_files in *. cbn [p_files others]. assumption.
  Qed.

  (** A call on the handle [h] that keeps its memory. *)
  Lemma update_inv c r h o o' p' : find h (p_handles p) = Some o -> p_handles p' = replace h o' (p_handles p) -> p_blocks p' = p_blocks p -> p_next p' = p_next p ->
    ob_aux o' = ob_aux o -> good ((c, r) :: log) (p_next p) (h, o') -> NoDup (map fst (p_files p')) -> foreign_files p' = foreign_files p ->
    others initial ((c, r) :: log) = others initial log ->
    (forall k, k <> h -> phase_of ((c, r) :: log) k = phase_of log k /\ kind_of ((c, r) :: log) k = kind_of log k) ->
    (forall rest, Permutation (tags p) (up_of log (h, o) ++ rest) -> Permutation (tags p') (up_of ((c, r) :: log) (h, o') ++ rest)) ->
    inv initial ((c, r) :: log) p'.
  Proof.
    intros F Hh Hb Hn Ha G Nf Ff Fo Oth T. destruct I as [I1 I2 I3 I4 I5 I6 I7 I8 I9 I10].
    destruct (find_split h (p_handles p) o I2 F) as (l1 & l2 & E & N1 & N2 & _ & R). rewrite R in Hh.
    assert (Keys : map fst (p_handles p') = map fst (p_handles p)) by (rewrite Hh, E, !map_app; reflexivity).
    assert (Ne : forall x, In x l1 \/ In x l2 -> fst x <> h) by (intros x [Hx|Hx] X; subst h; [apply N1|apply N2]; apply in_map; assumption).
    split.
    - assumption.
    - rewrite Keys. assumption.
    - rewrite Hh, Hn. rewrite E in I3. apply Forall_app in I3. destruct I3 as [G1 G2]. inversion_clear G2 as [|? ? _ G3].
      apply Forall_app. split; [|constructor; [assumption|]]; (eapply good_other; [apply Z.le_refl| |eassumption]; intros x Hx; apply Oth; apply Ne; auto).
    - intros h' ph X. rewrite Keys. destruct (Z.eq_dec h' h) as [->|Hne]; [rewrite E, map_app; apply in_or_app; right; left; reflexivity|].
      rewrite (proj1 (Oth h' Hne)) in X. exact (I4 h' ph X).
    - rewrite Hb, I5, Hh, E, !flat_map_app. cbn [flat_map]. unfold blocks_of at 2 5. cbn [snd fst]. rewrite Ha. apply Permutation_refl.
    - rewrite Hb. assumption.
    - rewrite Hb, Hn. assumption.
    - rewrite Hn. assumption.
    - rewrite Hh, flat_map_app. cbn [flat_map]. rewrite (up_other log _ l1), (up_other log _ l2) by (intros x Hx; apply Oth; apply Ne; auto).
      rewrite E, flat_map_app in I9. cbn [flat_map] in I9. rewrite (Permutation_app_swap_app (flat_map (up_of log) l1)) in I9. specialize (T _ I9).
      rewrite T. apply Permutation_app_swap_app.
    - rewrite Ff, I10. symmetry. assumption.
  Qed.

  (** ** Connecting *)
  Lemma close_new s f : ~ In s (map fst (p_files p)) -> remove s ((s, f) :: p_files p) = p_files p.
  Proof. intros H. unfold remove. cbn [filter fst]. rewrite Z.eqb_refl. cbn [negb]. apply remove_notin. assumption. Qed.
  Lemma set_files_id : set_files p (p_files p) = p.
  Proof. destruct p. reflexivity. Qed.
  Lemma connect_loop_spec : forall l fd, (forall s b, In (Some s, b) l -> unused p s) ->
    match accepts l with
    | Some s => connect_loop l fd p = (true, Some s, set_files p ((s, Sock None None) :: p_files p)) /\ unused p s
    | None => exists fd', connect_loop l fd p = (false, fd', p)
    end.
  Proof.
    induction l as [|[[s|] b] l IH]; intros fd H; cbn [accepts connect_loop].
    - eauto.
    - assert (U : unused p s) by (apply (H s b); left; reflexivity). destruct b; [split; [reflexivity|assumption]|].
      replace (close s (set_files p ((s, Sock None None) :: p_files p))) with p.
      + apply IH. intros s' b' Hs. apply (H s' b'). right. assumption.
      + unfold close, set_files. cbn [p_files p_blocks p_next p_handles p_timeout]. rewrite close_new by apply U. destruct p; reflexivity.
    - apply IH. intros s' b' Hs. apply (H s' b'). right. assumption.
  Qed.
  Lemma new_own fd f : is_tty f = true \/ is_tty f = false /\ f <> Foreign -> own_files (set_files p ((fd, f) :: p_files p)) = (fd, f) :: own_files p /\ foreign_files (set_files p ((fd, f) :: p_files p)) = foreign_files p.
  Proof. intros H. unfold own_files, foreign_files, set_files. cbn [p_files filter snd]. destruct f; try (split; reflexivity). destruct H as [H|[_ H]]; [discriminate|congruence]. Qed.
  Lemma connect_inv y h : allowed initial log (Connect y h) -> system_ok (Connect y h) p ->
    exists r p' serial, step (Connect y h) p = Ok (r, p') /\ inv initial ((Connect y h, r) :: log) p' /\ kind_of log h = Some serial /\
      match line_opened serial y with
      | None => r = -1 /\ p_files p' = p_files p
      | Some fd => r = 0 /\ unused p fd /\ exists o, find h (p_handles p') = Some o /\ ob_fd o = Some fd /\
          p_files p' = (fd, if serial then Tty (if s_attr y then Some connect_term else None) else Sock (Some (p_timeout p)) (Some (p_timeout p))) :: p_files p
      end.
  Proof.
    intros (Hh & ph & Hp & Hu) [Y1 Y2]. destruct (live_handle h ph Hp) as (o & F & G). pose proof G as (Hb & Ha & Hk & Hg). cbn [fst snd] in *.
    rewrite Hp in Hg. cbn [step]. unfold mbus_connect. destruct (Z.eqb_spec h 0); [congruence|]. rewrite F.
    assert (U0 : up_of log (h, o) = []) by (unfold up_of; cbn [fst snd]; rewrite Hp; destruct ph; congruence).
    assert (Ph : forall r, phase_of ((Connect y h, r) :: log) h = Some (if r =? 0 then Up else Failed)) by (intros r; cbn [phase_of]; rewrite Z.eqb_refl; destruct (r =? 0); reflexivity).
    assert (Oth : forall r k, k <> h -> phase_of ((Connect y h, r) :: log) k = phase_of log k /\ kind_of ((Connect y h, r) :: log) k = kind_of log k).
    { intros r k Hk'. cbn [phase_of kind_of]. destruct (Z.eqb_spec h k); [congruence|]. auto. }
    destruct (ob_aux o) as [ax|] eqn:Ea; [|congruence].
    assert (Failing : forall fd t, (ob_serial o = true -> fd = Some (-1)) -> inv initial ((Connect y h, -1) :: log) (set_handles p (replace h (mkO (ob_serial o) fd (Some ax) t) (p_handles p)))).
    { intros fd t Hfd. apply (update_inv _ _ h o (mkO (ob_serial o) fd (Some ax) t)); try reflexivity; try assumption.
      - cbn [ob_aux]. congruence.
      - unfold good. cbn [fst snd ob_aux ob_serial ob_fd]. rewrite Ph. change (-1 =? 0) with false. cbv iota. split; [assumption|]. split; [discriminate|]. split; [exact Hk|assumption].
      - apply (i_files _ _ _ I).
      - apply Oth.
      - intros rest. rewrite U0. unfold up_of. cbn [fst snd]. rewrite Ph. change (-1 =? 0) with false. cbv iota. cbn [app]. auto. }
    destruct (ob_serial o) eqn:Es.
    - unfold mbus_serial_connect. rewrite Ea. destruct (s_open y) as [fd|] eqn:Ey.
      + eexists _, _, true. split; [reflexivity|]. specialize (Y1 fd eq_refl). split; [|split; [exact Hk|unfold line_opened; rewrite Ey]].
        * apply (update_inv _ _ h o (mkO true (Some fd) (Some ax) (Some connect_term))); try reflexivity; try assumption.
          -- cbn [ob_aux]. congruence.
          -- unfold good. cbn [fst snd ob_aux ob_serial ob_fd ob_term]. rewrite Ph. change (0 =? 0) with true. cbv iota. split; [assumption|]. split; [discriminate|]. split; [exact Hk|].
             split; [exists fd; split; [reflexivity|apply Y1]|discriminate].
          -- cbn [p_files map fst]. constructor; [apply Y1|apply (i_files _ _ _ I)].
          -- apply Oth.
          -- intros rest P. rewrite U0 in P. unfold up_of. cbn [fst snd ob_fd ob_serial]. rewrite Ph. change (0 =? 0) with true. cbv iota. cbn [app] in *.
             unfold tags, own_files in *. cbn [p_files filter snd map fst is_tty]. constructor. assumption.
        * split; [reflexivity|]. split; [assumption|]. exists (mkO true (Some fd) (Some ax) (Some connect_term)). cbn [p_handles p_files]. split; [|split; reflexivity].
          destruct (find_split h _ _ (i_handles _ _ _ I) F) as (l1 & l2 & E & N1 & N2 & _ & R). rewrite R. apply in_find_nodup; [|apply in_or_app; right; left; reflexivity].
          pose proof (i_handles _ _ _ I) as N. rewrite E in N. rewrite map_app in *. exact N.
      + eexists _, _, true. split; [reflexivity|]. split; [apply Failing; auto|]. split; [exact Hk|]. unfold line_opened. rewrite Ey. auto.
    - unfold mbus_tcp_connect. rewrite Ea. destruct (s_info y) as [l|] eqn:Ey.
      + pose proof (connect_loop_spec l (ob_fd o) (fun s b => Y2 l s b eq_refl)) as L. destruct (accepts l) as [s|] eqn:El.
        * destruct L as [L Us]. rewrite L. unfold set_handles, set_files. cbn [p_files p_blocks p_next p_handles p_timeout].
          eexists _, _, false. split; [reflexivity|]. split; [|split; [exact Hk|unfold line_opened; rewrite Ey, El]].
          -- apply (update_inv _ _ h o (mkO false (Some s) (Some ax) (ob_term o))); try reflexivity; try assumption.
             ++ cbn [ob_aux]. congruence.
             ++ unfold good. cbn [fst snd ob_aux ob_serial ob_fd ob_term]. rewrite Ph. change (0 =? 0) with true. cbv iota. split; [assumption|]. split; [discriminate|]. split; [exact Hk|].
                split; [exists s; split; [reflexivity|apply Us]|discriminate].
             ++ cbn [p_files]. unfold replace. cbn [map fst]. rewrite Z.eqb_refl. cbn [map fst]. fold (replace s (Sock (Some (p_timeout p)) (Some (p_timeout p))) (p_files p)).
                rewrite replace_notin by apply Us. constructor; [apply Us|apply (i_files _ _ _ I)].
             ++ unfold foreign_files. cbn [p_files]. unfold replace. cbn [map fst]. rewrite Z.eqb_refl. fold (replace s (Sock (Some (p_timeout p)) (Some (p_timeout p))) (p_files p)).
                rewrite replace_notin by apply Us. reflexivity.
             ++ apply Oth.
             ++ intros rest P. rewrite U0 in P. unfold up_of. cbn [fst snd ob_fd ob_serial]. rewrite Ph. change (0 =? 0) with true. cbv iota. cbn [app] in *.
                unfold tags, own_files in *. cbn [p_files]. unfold replace. cbn [map fst]. rewrite Z.eqb_refl. fold (replace s (Sock (Some (p_timeout p)) (Some (p_timeout p))) (p_files p)).
                rewrite replace_notin by apply Us. cbn [filter snd map fst is_tty]. constructor. assumption.
          -- split; [reflexivity|]. split; [assumption|]. eexists. cbn [p_handles p_files]. split; [|split].
             ++ destruct (find_split h _ _ (i_handles _ _ _ I) F) as (l1 & l2 & E & N1 & N2 & _ & R). rewrite R. apply in_find_nodup; [|apply in_or_app; right; left; reflexivity].
                pose proof (i_handles _ _ _ I) as N. rewrite E in N. rewrite map_app in *. exact N.
             ++ reflexivity.
             ++ unfold replace. cbn [map fst]. rewrite Z.eqb_refl. fold (replace s (Sock (Some (p_timeout p)) (Some (p_timeout p))) (p_files p)). rewrite replace_notin by apply Us. reflexivity.
        * destruct L as [fd' L]. rewrite L. exists (-1). eexists _, false. split; [destruct fd'; reflexivity|]. split; [apply Failing; discriminate|]. split; [exact Hk|]. unfold line_opened. rewrite Ey, El. auto.
      + exists (-1), p, false. split; [reflexivity|]. split; [|split; [exact Hk|unfold line_opened; rewrite Ey; auto]].
        replace p with (set_handles p (replace h (mkO false (ob_fd o) (Some ax) (ob_term o)) (p_handles p))).
        * apply Failing. discriminate.
        * destruct (find_split h _ _ (i_handles _ _ _ I) F) as (l1 & l2 & E & _ & _ & _ & R). rewrite R. rewrite <- Es, <- Ea. replace (mkO _ _ _ _) with o by (destruct o; reflexivity).
          rewrite <- E. destruct p; reflexivity.
  Qed.

  (** The line of a connected handle. *)
  Lemma line_of h : phase_of log h = Some Up -> exists o fd f f1 f2, find h (p_handles p) = Some o /\ good log (p_next p) (h, o) /\ ob_fd o = Some fd /\ 0 <= fd /\
    find fd (p_files p) = Some f /\ is_tty f = ob_serial o /\ f <> Foreign /\ p_files p = f1 ++ (fd, f) :: f2 /\ remove fd (p_files p) = f1 ++ f2 /\
    (forall x, replace fd x (p_files p) = f1 ++ (fd, x) :: f2).
  Proof.
    intros Hp. destruct (live_handle h Up Hp) as (o & F & G). pose proof G as (Hb & Ha & Hk & Hg). cbn [fst snd] in *. rewrite Hp in Hg. destruct Hg as [(fd & Hfd & H0) Ht].
    assert (T : In (fd, ob_serial o) (tags p)).
    { apply (Permutation_in _ (Permutation_sym (i_own _ _ _ I))). apply in_flat_map. exists (h, o). split; [apply find_in; assumption|]. unfold up_of. cbn [fst snd]. rewrite Hp, Hfd. left. reflexivity. }
    unfold tags in T. apply in_map_iff in T. destruct T as ([fd' f] & E & T). cbn [fst snd] in E. injection E as -> Et. unfold own_files in T. apply filter_In in T. destruct T as [T1 T2]. cbn [snd] in T2.
    pose proof (in_find_nodup fd _ f (i_files _ _ _ I) T1) as Ff. destruct (find_split fd _ _ (i_files _ _ _ I) Ff) as (f1 & f2 & E1 & _ & _ & E2 & E3).
    exists o, fd, f, f1, f2. repeat (split; [assumption|]). split; [destruct f; [discriminate..|]; discriminate T2|]. auto.
  Qed.

  Lemma same_inv c r p' : p_files p' = p_files p -> p_blocks p' = p_blocks p -> p_next p' = p_next p -> p_handles p' = p_handles p ->
    (forall k, phase_of ((c, r) :: log) k = phase_of log k /\ kind_of ((c, r) :: log) k = kind_of log k) -> others initial ((c, r) :: log) = others initial log ->
    inv initial ((c, r) :: log) p'.
  Proof.
    intros E1 E2 E3 E4 Ep Eo. destruct I as [I1 I2 I3 I4 I5 I6 I7 I8 I9 I10]. split; unfold tags, own_files, foreign_files in *; rewrite ?E1, ?E2, ?E3, ?E4, ?Eo; try assumption.
    - eapply good_other; [apply Z.le_refl| |eassumption]. intros x _. apply Ep.
    - intros h ph X. rewrite (proj1 (Ep h)) in X. exact (I4 h ph X).
    - rewrite (up_other log); [assumption|]. intros x _. apply Ep.
  Qed.

  (** ** Setting the baud rate *)
  Lemma baud_inv attr h b : allowed initial log (SetBaudrate attr h b) ->
    exists r p', step (SetBaudrate attr h b) p = Ok (r, p') /\ inv initial ((SetBaudrate attr h b, r) :: log) p' /\
      exists o fd t t0, find h (p_handles p) = Some o /\ ob_fd o = Some fd /\ ob_term o = Some t /\ find fd (p_files p) = Some (Tty t0) /\
      match baud_vtime b with
      | Some v => if attr then r = 0 /\ find fd (p_files p') = Some (Tty (Some (mkT (c_iflag t) (c_oflag t) (c_cflag t) (c_lflag t) (c_vmin t) v b b)))
                  else r = -1 /\ p_files p' = p_files p
      | None => r = -1 /\ p' = p
      end.
  Proof.
    intros (Hh & Hp & Hk0). destruct (line_of h Hp) as (o & fd & f & f1 & f2 & F & G & Hfd & H0 & Ff & Ht & Nf & E1 & E2 & E3).
    pose proof G as (Hb & Ha & Hk & Hg). cbn [fst snd] in *. rewrite Hp in Hg. destruct Hg as [_ Htm]. rewrite Hk in Hk0. injection Hk0 as Es. specialize (Htm Es).
    destruct (ob_term o) as [t|] eqn:Eo; [|congruence]. rewrite Es in Ht. destruct f as [t0|a b0|]; try discriminate.
    cbn [step]. unfold mbus_serial_set_baudrate. destruct (Z.eqb_spec h 0); [congruence|]. rewrite F, Es. cbn [negb]. destruct (ob_aux o) as [ax|] eqn:Ea; [|congruence].
    destruct (baud_vtime b) as [v|].
    2:{ exists (-1), p. split; [reflexivity|]. split; [apply same_inv; try reflexivity; intros; split; reflexivity|]. exists o, fd, t, t0. auto 10. }
    rewrite Eo, Hfd. cbn [set_handles p_files]. rewrite Ff. set (t' := mkT _ _ _ _ _ v b b).
    assert (Up1 : forall r k, phase_of ((SetBaudrate attr h b, r) :: log) k = phase_of log k /\ kind_of ((SetBaudrate attr h b, r) :: log) k = kind_of log k) by (intros; split; reflexivity).
    assert (G' : forall r, good ((SetBaudrate attr h b, r) :: log) (p_next p) (h, mkO true (Some fd) (Some ax) (Some t'))).
    { intros r. unfold good. cbn [fst snd ob_aux ob_serial ob_fd ob_term phase_of kind_of]. rewrite Hp. split; [assumption|]. split; [discriminate|]. split; [congruence|]. split; [eauto|discriminate]. }
    assert (U : forall r, up_of ((SetBaudrate attr h b, r) :: log) (h, mkO true (Some fd) (Some ax) (Some t')) = up_of log (h, o)).
    { intros r. unfold up_of. cbn [fst snd ob_fd ob_serial phase_of]. rewrite Hp, Hfd, Es. reflexivity. }
    destruct attr.
    - eexists _, _. split; [reflexivity|]. split.
      + apply (update_inv _ _ h o (mkO true (Some fd) (Some ax) (Some t'))); try reflexivity; try assumption; [cbn [ob_aux]; congruence|apply G'| | |intros; apply Up1|].
        * unfold set_files, set_handles. cbn [p_files]. rewrite E3. pose proof (i_files _ _ _ I) as N. rewrite E1 in N. rewrite map_app in *. exact N.
        * unfold foreign_files, set_files, set_handles. cbn [p_files]. rewrite E3, E1, !filter_app. reflexivity.
        * intros rest P. rewrite U. rewrite <- P. unfold tags, own_files, set_files, set_handles. cbn [p_files]. rewrite E3, E1, !filter_app, !map_app. apply Permutation_refl.
      + exists o, fd, t, t0. split; [auto|]. split; [auto|]. split; [auto|]. split; [auto|]. split; [reflexivity|]. unfold set_files, set_handles. cbn [p_files]. rewrite E3. apply in_find_nodup; [|apply in_or_app; right; left; reflexivity].
        pose proof (i_files _ _ _ I) as N. rewrite E1 in N. rewrite map_app in *. exact N.
    - eexists _, _. split; [reflexivity|]. split.
      + apply (update_inv _ _ h o (mkO true (Some fd) (Some ax) (Some t'))); try reflexivity; try assumption; [cbn [ob_aux]; congruence|apply G'|apply (i_files _ _ _ I)|intros; apply Up1|].
        intros rest P. rewrite U. exact P.
      + exists o, fd, t, t0. auto 10.
  Qed.

  (** ** Disconnecting *)
  Lemma disconnect_inv h : allowed initial log (Disconnect h) ->
    exists r p', step (Disconnect h) p = Ok (r, p') /\ inv initial ((Disconnect h, r) :: log) p' /\
      (r = 0 <-> phase_of log h = Some Up) /\ (r = 0 \/ r = -1) /\ (r = -1 -> p' = p).
  Proof.
    intros (Hh & Al).
    assert (Ph : forall r, phase_of ((Disconnect h, r) :: log) h = Some Down) by (intros r; cbn [phase_of]; rewrite Z.eqb_refl; reflexivity).
    assert (Oth : forall r k, k <> h -> phase_of ((Disconnect h, r) :: log) k = phase_of log k /\ kind_of ((Disconnect h, r) :: log) k = kind_of log k).
    { intros r k Hk'. cbn [phase_of kind_of]. destruct (Z.eqb_spec h k); [congruence|]. auto. }
    cbn [step]. unfold mbus_disconnect. destruct (Z.eqb_spec h 0); [congruence|].
    assert (Already : forall ph, phase_of log h = Some ph -> ph <> Up -> (ph = Down \/ (ph = Failed /\ kind_of log h = Some true)) -> exists o, find h (p_handles p) = Some o /\ ob_fd o = Some (-1) /\ inv initial ((Disconnect h, -1) :: log) p).
    { intros ph Hp Hu Hc. destruct (live_handle h ph Hp) as (o & F & G). pose proof G as (Hb & Ha & Hk & Hg). cbn [fst snd] in *. rewrite Hp in Hg.
      assert (Hfd : ob_fd o = Some (-1)). { destruct Hc as [->|[-> Hk']]; [assumption|]. apply Hg. congruence. }
      exists o. split; [assumption|]. split; [assumption|]. apply (update_inv _ _ h o o); try reflexivity; try assumption.
      - destruct (find_split h _ _ (i_handles _ _ _ I) F) as (l1 & l2 & E & _ & _ & _ & R). rewrite R. assumption.
      - unfold good. cbn [fst snd]. rewrite Ph. split; [assumption|]. split; [assumption|]. split; [exact Hk|assumption].
      - apply (i_files _ _ _ I).
      - apply Oth.
      - intros rest P. unfold up_of in *. cbn [fst snd] in *. rewrite Ph. rewrite Hp in P. destruct ph; try congruence; exact P. }
    destruct Al as [Hp|[Hp|[Hp Hk]]].
    - destruct (line_of h Hp) as (o & fd & f & f1 & f2 & F & G & Hfd & H0 & Ff & Ht & Nf & E1 & E2 & E3). pose proof G as (Hb & Ha & Hk & Hg). cbn [fst snd] in *. rewrite Hp in Hg.
      rewrite F, Hfd. destruct (Z.ltb_spec fd 0); [lia|]. eexists _, _. split; [reflexivity|]. split; [|split; [tauto|split; [auto|discriminate]]].
      apply (update_inv _ _ h o (mkO (ob_serial o) (Some (-1)) (ob_aux o) (ob_term o))); try reflexivity; try assumption.
      + unfold good. cbn [fst snd ob_aux ob_serial ob_fd]. rewrite Ph. split; [assumption|]. split; [assumption|]. split; [exact Hk|reflexivity].
      + unfold close, set_files, set_handles. cbn [p_files]. rewrite E2. pose proof (i_files _ _ _ I) as N. rewrite E1 in N. rewrite map_app in *. cbn [map fst] in N. apply NoDup_remove_1 in N. exact N.
      + unfold foreign_files, close, set_files, set_handles. cbn [p_files]. rewrite E2, E1, !filter_app. cbn [filter snd]. destruct f; try reflexivity. congruence.
      + apply Oth.
      + intros rest P. unfold up_of in *. cbn [fst snd ob_fd] in *. rewrite Ph. rewrite Hp, Hfd in P. cbn [app] in *.
        unfold tags, own_files, close, set_files, set_handles in *. cbn [p_files] in *. rewrite E2. rewrite E1, filter_app, map_app in P. rewrite filter_app, map_app. cbn [filter snd] in P.
        apply Permutation_sym. eapply (Permutation_cons_app_inv _ _ (a := (fd, ob_serial o))). apply Permutation_sym. rewrite <- Ht. rewrite <- Ht in P. destruct f; try congruence; exact P.
    - destruct (Already Down Hp ltac:(discriminate) ltac:(auto)) as (o & F & Hfd & Iv). rewrite F, Hfd. exists (-1), p. split; [reflexivity|]. split; [assumption|]. rewrite Hp. split; [split; discriminate|auto].
    - destruct (Already Failed Hp ltac:(discriminate) ltac:(auto)) as (o & F & Hfd & Iv). rewrite F, Hfd. exists (-1), p. split; [reflexivity|]. split; [assumption|]. rewrite Hp. split; [split; discriminate|auto].
  Qed.

  (** ** Freeing *)
  Lemma free_inv h : allowed initial log (FreeHandle h) ->
    exists p', step (FreeHandle h) p = Ok (0, p') /\ inv initial ((FreeHandle h, 0) :: log) p'.
  Proof.
    intros (Hh & ph & Hp & Hu). destruct (live_handle h ph Hp) as (o & F & G). pose proof G as (Hb & Ha & Hk & Hg). cbn [fst snd] in *.
    destruct (find_split h _ _ (i_handles _ _ _ I) F) as (l1 & l2 & E & N1 & N2 & Rm & R).
    cbn [step]. unfold mbus_context_free. destruct (Z.eqb_spec h 0); [congruence|]. unfold data_free. rewrite F. destruct (ob_aux o) as [[a s]|] eqn:Ea; [|congruence].
    assert (B1 : Permutation (p_blocks p) (s :: a :: h :: flat_map blocks_of (l1 ++ l2))).
    { rewrite (i_blocks _ _ _ I), E, !flat_map_app. cbn [flat_map]. unfold blocks_of at 2. cbn [snd fst]. rewrite Ea. rewrite (Permutation_app_swap_app (flat_map blocks_of l1)). reflexivity. }
    destruct (free_ok s _ p B1 (i_distinct _ _ _ I)) as (p1 & F1 & F2 & F3 & F4 & F5 & F6 & F7 & F8). rewrite F1. cbn [bind].
    destruct (free_ok a _ p1 F2 F3) as (p2 & G1 & G2 & G3 & G4 & G5 & G6 & G7 & G8). rewrite G1. cbn [bind].
    match goal with |- context [free h ?q] => set (p3 := q) end.
    destruct (free_ok h (flat_map blocks_of (l1 ++ l2)) p3 G2 G3) as (p4 & K1 & K2 & K3 & K4 & K5 & K6 & K7 & K8). rewrite K1. cbn [bind]. eexists. split; [reflexivity|].
    assert (Hd : remove h (p_handles p4) = l1 ++ l2).
    { rewrite K5. unfold p3, set_handles. cbn [p_handles]. rewrite G5, F5, R. unfold remove. rewrite filter_app. cbn [filter fst]. rewrite Z.eqb_refl. cbn [negb].
      fold (remove h l1) (remove h l2). rewrite !remove_notin by assumption. reflexivity. }
    assert (Fl : p_files p4 = p_files p) by (rewrite K4; unfold p3, set_handles; cbn [p_files]; congruence).
    assert (Nx : p_next p4 = p_next p) by (rewrite K6; unfold p3, set_handles; cbn [p_next]; congruence).
    assert (Ne : forall x, In x (l1 ++ l2) -> fst x <> h) by (intros x Hx X; subst h; apply in_app_or in Hx; destruct Hx as [Hx|Hx]; [apply N1|apply N2]; apply in_map; assumption).
    assert (Oth : forall k, k <> h -> phase_of ((FreeHandle h, 0) :: log) k = phase_of log k /\ kind_of ((FreeHandle h, 0) :: log) k = kind_of log k).
    { intros k Hk'. cbn [phase_of kind_of]. destruct (Z.eqb_spec h k); [congruence|]. auto. }
    destruct I as [I1 I2 I3 I4 I5 I6 I7 I8 I9 I10]. unfold set_handles. rewrite Hd, Fl, Nx. split; cbn [p_files p_handles p_next p_blocks].
    - assumption.
    - rewrite E, map_app in I2. cbn [map fst] in I2. apply NoDup_remove_1 in I2. rewrite map_app. assumption.
    - rewrite E in I3. apply Forall_app in I3. destruct I3 as [G1' G2']. inversion_clear G2' as [|? ? _ G3'].
      assert (Fa : Forall (good log (p_next p)) (l1 ++ l2)) by (apply Forall_app; auto). revert Fa. apply good_other; [lia|]. intros x Hx. apply Oth, Ne. assumption.
    - intros k ph' X. destruct (Z.eq_dec k h) as [->|Hk']; [cbn [phase_of] in X; rewrite Z.eqb_refl in X; discriminate|].
      rewrite (proj1 (Oth k Hk')) in X. specialize (I4 k ph' X). rewrite E, map_app in I4. rewrite map_app. cbn [map fst] in I4. apply in_app_or in I4. apply in_or_app. cbn [In] in I4. intuition congruence.
    - assumption.
    - assumption.
    - apply Forall_forall. intros b Hb'. rewrite Forall_forall in I7. apply I7. apply F8, G8. apply K8 in Hb'. exact Hb'.
    - assumption.
    - unfold tags, own_files in *. cbn [p_files]. rewrite (up_other log) by (intros x Hx; apply Oth, Ne; assumption). rewrite I9, E, !flat_map_app. cbn [flat_map].
      unfold up_of at 2. cbn [fst snd]. rewrite Hp. destruct ph; try congruence; apply Permutation_refl.
    - exact I10.
  Qed.

  Lemma foreign_in fd : In fd (foreign_files p) -> In (fd, Foreign) (p_files p).
  Proof. unfold foreign_files. intros H. apply in_map_iff in H. destruct H as ([k f] & Hk & H). apply filter_In in H. cbn [fst snd] in *. subst k. destruct H as [H H2]. destruct f; try discriminate. assumption. Qed.
  Lemma opens_inv fd : system_ok (OtherOpens fd) p -> exists p', step (OtherOpens fd) p = Ok (0, p') /\ inv initial ((OtherOpens fd, 0) :: log) p'.
  Proof.
    intros U. eexists. split; [reflexivity|]. destruct I as [I1 I2 I3 I4 I5 I6 I7 I8 I9 I10]. split; cbn [set_files p_files p_handles p_next p_blocks]; try assumption.
    - cbn [map fst]. constructor; [apply U|assumption].
    - unfold foreign_files in *. cbn [set_files p_files filter snd map fst others]. f_equal. assumption.
  Qed.
  Lemma closes_inv fd : allowed initial log (OtherCloses fd) -> exists p', step (OtherCloses fd) p = Ok (0, p') /\ inv initial ((OtherCloses fd, 0) :: log) p'.
  Proof.
    intros Al. cbn [allowed] in Al. eexists. split; [reflexivity|]. destruct I as [I1 I2 I3 I4 I5 I6 I7 I8 I9 I10].
    rewrite <- I10 in Al. pose proof (in_find_nodup fd _ _ I1 (foreign_in fd Al)) as Ff. destruct (find_split fd _ _ I1 Ff) as (f1 & f2 & E1 & N1 & N2 & E2 & E3).
    split; unfold close; cbn [set_files p_files p_handles p_next p_blocks]; try assumption.
    - rewrite E2. rewrite E1 in I1. rewrite map_app in *. cbn [map fst] in I1. apply NoDup_remove_1 in I1. exact I1.
    - rewrite (up_other log) by auto. rewrite <- I9. unfold tags, own_files. cbn [set_files p_files]. rewrite E2, E1, !filter_app. cbn [filter snd]. apply Permutation_refl.
    - cbn [others]. rewrite <- I10. unfold foreign_files. cbn [set_files p_files]. rewrite E2, E1, !filter_app, !map_app, !filter_app. cbn [filter snd map fst]. rewrite Z.eqb_refl. cbn [negb].
      assert (K : forall l : list (Z * file), ~ In fd (map fst l) -> filter (fun x => negb (x =? fd)) (map fst (filter (fun x => match snd x with Foreign => true | _ => false end) l)) = map fst (filter (fun x => match snd x with Foreign => true | _ => false end) l)).
      { induction l as [|[k f] l IH]; cbn; [reflexivity|]. intros H. destruct f; cbn; try (apply IH; auto). destruct (Z.eqb_spec k fd); [exfalso; auto|]. cbn. f_equal. apply IH. auto. }
      rewrite !K by assumption. reflexivity.
  Qed.
End Step.

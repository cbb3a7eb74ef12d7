(** Proofs about the histories of handles. *)
From Coq Require Import Permutation QArith Lqa.
From Verif Require Import CBase PBase MDouble PDouble MConn SConn PConn PConn2.
Local Open Scope Z_scope.

Lemma find_remove {A} k k' (l : list (Z * A)) : k <> k' -> find k (remove k' l) = find k l.
Proof.
  intros N. induction l as [|[x a] l IH]; [reflexivity|]. unfold remove in *. cbn [filter fst]. destruct (Z.eqb_spec x k'); cbn [negb find].
  - rewrite IH. destruct (Z.eqb_spec k x); [congruence|reflexivity].
  - rewrite IH. reflexivity.
Qed.
Lemma find_replace {A} k k' (y : A) (l : list (Z * A)) : k <> k' -> find k (replace k' y l) = find k l.
Proof.
  intros N. induction l as [|[x a] l IH]; [reflexivity|]. unfold replace in *. cbn [map fst]. destruct (Z.eqb_spec x k'); cbn [find].
  - subst x. destruct (Z.eqb_spec k k'); [congruence|assumption].
  - rewrite IH. reflexivity.
Qed.
Lemma find_replace_same {A} k (y : A) (l : list (Z * A)) : In k (map fst l) -> find k (replace k y l) = Some y.
Proof.
  induction l as [|[x a] l IH]; [intros []|]. unfold replace in *. cbn [map fst]. destruct (Z.eqb_spec x k); cbn [find].
  - rewrite Z.eqb_refl. reflexivity.
  - destruct (Z.eqb_spec k x); [congruence|]. intros [H|H]; [congruence|auto].
Qed.

Section Reached.
  Variable initial : list Z.
  Hypothesis distinct : NoDup initial.

  Lemma step_inv log p c : inv initial log p -> allowed initial log c -> system_ok c p -> exists r p', step c p = Ok (r, p') /\ inv initial ((c, r) :: log) p'.
  Proof.
    intros I Al Sy. destruct c as [serial m1 m2 m3|y h|attr h b|s|h|h|fd|fd].
    - destruct (create_inv initial log p I serial m1 m2 m3) as (r & p' & E & I' & _). eauto.
    - destruct (connect_inv initial log p I y h Al Sy) as (r & p' & k & E & I' & _). eauto.
    - destruct (baud_inv initial log p I attr h b Al) as (r & p' & E & I' & _). eauto.
    - destruct Al as (q & -> & [N|[D L]]).
      + exists (-1), p. cbn [step]. unfold mbus_tcp_set_timeout_set. replace (Qnum q <? 0) with true by (destruct q as [n d]; unfold Qlt in N; cbn in *; lia).
        split; [reflexivity|]. apply (same_inv initial log p I); try reflexivity; try assumption; auto.
      + assert (Q0 : (0 <= q)%Q). { destruct D as (m & k & Hm & Hk & ->). unfold Qle. cbn. lia. }
        destruct (timeout_spec q p D Q0 L) as (sec & usec & E & _). exists 0. eexists. split; [exact E|]. apply (same_inv initial log p I); try reflexivity; auto.
    - destruct (disconnect_inv initial log p I h Al) as (r & p' & E & I' & _). eauto.
    - destruct (free_inv initial log p I h Al) as (p' & E & I'). eauto.
    - destruct (opens_inv initial log p I fd Sy) as (p' & E & I'). eauto.
    - destruct (closes_inv initial log p I fd Al) as (p' & E & I'). eauto.
  Qed.
  Lemma reached_inv log p : reached initial log p -> inv initial log p.
  Proof.
    induction 1 as [|log p c r p' R IH Al Sy E]; [apply start_inv; assumption|].
    destruct (step_inv log p c IH Al Sy) as (r' & p2 & E' & I'). rewrite E in E'. injection E' as <- <-. assumption.
  Qed.

  (** Two connected handles have different descriptors. *)
  Lemma fd_owner log p h1 o1 h2 o2 fd : inv initial log p -> In (h1, o1) (p_handles p) -> In (h2, o2) (p_handles p) -> phase_of log h1 = Some Up -> phase_of log h2 = Some Up ->
    ob_fd o1 = Some fd -> ob_fd o2 = Some fd -> h1 = h2.
  Proof.
    intros I H1 H2 P1 P2 F1 F2. assert (N : NoDup (map fst (flat_map (up_of log) (p_handles p)))).
    { apply (Permutation_NoDup (l := map fst (tags p))); [apply Permutation_map, (i_own _ _ _ I)|]. unfold tags, own_files. rewrite map_map. cbn [fst].
      pose proof (i_files _ _ _ I) as N. induction (p_files p) as [|[k f] l IH]; [constructor|]. cbn [map fst] in N. inversion_clear N as [|? ? N1 N2]. cbn [filter snd].
      assert (X : ~ In k (map (fun x : Z * file => fst x) (filter (fun x => match snd x with Foreign => false | _ => true end) l))).
      { intros X. apply N1. apply in_map_iff in X. destruct X as (x & E & X). apply filter_In in X. apply in_map_iff. exists x. tauto. }
      destruct f; cbn [map fst]; try (constructor; auto). auto. }
    induction (p_handles p) as [|x l IH]; [destruct H1|]. cbn [flat_map] in N. rewrite map_app in N.
    assert (Mem : forall h o, In (h, o) l -> phase_of log h = Some Up -> ob_fd o = Some fd -> In fd (map fst (flat_map (up_of log) l))).
    { intros h o Hi Hp Hf. apply in_map_iff. exists (fd, ob_serial o). split; [reflexivity|]. apply in_flat_map. exists (h, o). split; [assumption|]. unfold up_of. cbn [fst snd]. rewrite Hp, Hf. left. reflexivity. }
    destruct H1 as [H1|H1], H2 as [H2|H2].
    - congruence.
    - exfalso. subst x. unfold up_of in N at 1. cbn [fst snd] in N. rewrite P1, F1 in N. cbn [map fst app] in N. inversion_clear N as [|? ? N1 _]. apply N1. eauto.
    - exfalso. subst x. unfold up_of in N at 1. cbn [fst snd] in N. rewrite P2, F2 in N. cbn [map fst app] in N. inversion_clear N as [|? ? N1 _]. apply N1. eauto.
    - apply IH; auto. clear - N. induction (map fst (up_of log x)) as [|a r IHr]; [assumption|]. cbn [app] in N. inversion_clear N. auto.
  Qed.

  (** ** The parameters of terminals *)
  Definition flags_ok (t : term) : Prop := forall r v, mbus_line r v (mkT (c_iflag t) (c_oflag t) (c_cflag t) (c_lflag t) (c_vmin t) v r r).
  Definition terms_ok (p : proc) : Prop := Forall (fun x => forall t, ob_term (snd x) = Some t -> flags_ok t) (p_handles p).
  Lemma connect_flags : flags_ok connect_term.
  Proof. intros r v. unfold mbus_line. cbn. repeat split. Qed.
  Lemma replace_Forall {A} (P : Z * A -> Prop) k a (l : list (Z * A)) : Forall P l -> P (k, a) -> Forall P (replace k a l).
  Proof. intros H Hk. induction H as [|[k' a'] l H1 H2 IH]; [constructor|]. unfold replace in *. cbn [map fst]. destruct (Z.eqb_spec k' k); constructor; assumption. Qed.
  Lemma remove_Forall {A} (P : Z * A -> Prop) k (l : list (Z * A)) : Forall P l -> Forall P (remove k l).
  Proof. intros H. unfold remove. rewrite Forall_forall in *. intros x Hx. apply filter_In in Hx. apply H, Hx. Qed.
  Lemma free_handles b p p' : free b p = Ok p' -> p_handles p' = p_handles p.
  Proof. unfold free. destruct (existsb _ _); [|discriminate]. intros E. injection E as <-. reflexivity. Qed.
  Lemma connect_loop_handles l : forall fd p b fd' p', connect_loop l fd p = (b, fd', p') -> p_handles p' = p_handles p.
  Proof.
    induction l as [|[[s|] up] l IH]; intros fd p b fd' p'; cbn [connect_loop].
    - intros E. injection E as _ _ <-. reflexivity.
    - destruct up; [intros E; injection E as _ _ <-; reflexivity|]. intros E. apply IH in E. rewrite E. reflexivity.
    - apply IH.
  Qed.
  Lemma step_terms c p r p' : terms_ok p -> step c p = Ok (r, p') -> terms_ok p'.
  Proof.
    intros T. unfold terms_ok in *. assert (Tf : forall h o t, find h (p_handles p) = Some o -> ob_term o = Some t -> flags_ok t).
    { intros h o t F. apply find_in in F. rewrite Forall_forall in T. exact (T _ F t). }
    destruct c as [serial m1 m2 m3|y h|attr h b|s|h|h|fd|fd]; cbn [step].
    - unfold mbus_context, malloc. destruct m1; [|intros E; injection E as _ <-; assumption]. destruct m2.
      + destruct m3.
        * intros E. injection E as _ <-. cbn [set_handles p_handles]. constructor; [discriminate|assumption].
        * destruct (free _ _) as [p1|] eqn:E1; [|discriminate]. cbn [bind]. destruct (free _ p1) as [p2|] eqn:E2; [|discriminate]. cbn [bind]. intros E. injection E as _ <-.
          rewrite (free_handles _ _ _ E2), (free_handles _ _ _ E1). assumption.
      + destruct (free _ _) as [p1|] eqn:E1; [|discriminate]. cbn [bind]. intros E. injection E as _ <-. rewrite (free_handles _ _ _ E1). assumption.
    - unfold mbus_connect. destruct (h =? 0); [intros E; injection E as _ <-; assumption|]. destruct (find h (p_handles p)) as [o|] eqn:F; [|discriminate]. specialize (Tf h o).
      destruct (ob_serial o).
      + unfold mbus_serial_connect. destruct (ob_aux o); [|intros E; injection E as _ <-; assumption]. destruct (s_open y); intros E; injection E as _ <-; cbn [set_handles p_handles];
          (apply replace_Forall; [assumption|]); cbn [snd ob_term].
        * intros t E. injection E as <-. apply connect_flags.
        * intros t Et. exact (Tf t F Et).
      + unfold mbus_tcp_connect. destruct (ob_aux o); [|intros E; injection E as _ <-; assumption]. destruct (s_info y) as [l|]; [|intros E; injection E as _ <-; assumption].
        destruct (connect_loop l (ob_fd o) p) as [[up fd] p1] eqn:L. apply connect_loop_handles in L.
        assert (K : Forall (fun x : Z * obj => forall t, ob_term (snd x) = Some t -> flags_ok t) (replace h (mkO false fd (Some p0) (ob_term o)) (p_handles p1))).
        { apply replace_Forall; [rewrite L; assumption|]. cbn [snd ob_term]. intros t Et. exact (Tf t F Et). }
        destruct up, fd; intros E; injection E as _ <-; exact K.
    - unfold mbus_serial_set_baudrate. destruct (h =? 0); [intros E; injection E as _ <-; assumption|]. destruct (find h (p_handles p)) as [o|] eqn:F; [|discriminate]. specialize (Tf h o).
      destruct (negb _); [discriminate|]. destruct (ob_aux o); [|intros E; injection E as _ <-; assumption]. destruct (baud_vtime b) as [v|]; [|intros E; injection E as _ <-; assumption].
      destruct (ob_term o) as [t|] eqn:Et; [|discriminate]. destruct (ob_fd o) as [fd|] eqn:Ef; [|discriminate]. set (t' := mkT _ _ _ _ _ v b b).
      assert (K : Forall (fun x : Z * obj => forall t, ob_term (snd x) = Some t -> flags_ok t) (replace h (mkO (ob_serial o) (Some fd) (Some p0) (Some t')) (p_handles p))).
      { apply replace_Forall; [assumption|]. cbn [snd ob_term]. intros t1 E. injection E as <-. pose proof (Tf t F eq_refl) as Ft. intros r1 v1. exact (Ft r1 v1). }
      destruct (find fd _) as [[]|]; [destruct attr|..]; intros E; injection E as _ <-; exact K.
    - unfold mbus_tcp_set_timeout_set. destruct (match s with Num q => _ | _ => _ end); [intros E; injection E as _ <-; assumption|].
      destruct (double_to_int s) as [sec|]; [|discriminate]. cbn [bind]. destruct (double_to_int _) as [usec|]; [|discriminate]. cbn [bind]. intros E. injection E as _ <-. assumption.
    - unfold mbus_disconnect. destruct (h =? 0); [intros E; injection E as _ <-; assumption|]. destruct (find h (p_handles p)) as [o|] eqn:F; [|discriminate]. specialize (Tf h o).
      destruct (ob_fd o) as [fd|]; [|discriminate]. destruct (fd <? 0); intros E; injection E as _ <-; [assumption|]. cbn [set_handles close set_files p_handles].
      apply replace_Forall; [assumption|]. cbn [snd ob_term]. intros t Et. exact (Tf t F Et).
    - unfold mbus_context_free. destruct (h =? 0); [intros E; injection E as _ <-; assumption|]. unfold data_free. destruct (find h (p_handles p)) as [o|] eqn:F; [|discriminate].
      destruct (ob_aux o) as [[a s]|].
      + destruct (free s p) as [p1|] eqn:E1; [|discriminate]. cbn [bind]. destruct (free a p1) as [p2|] eqn:E2; [|discriminate]. cbn [bind]. destruct (free h _) as [p3|] eqn:E3; [|discriminate]. cbn [bind].
        intros E. injection E as _ <-. cbn [set_handles p_handles]. apply remove_Forall. rewrite (free_handles _ _ _ E3). cbn [set_handles p_handles]. apply replace_Forall; [|discriminate].
        rewrite (free_handles _ _ _ E2), (free_handles _ _ _ E1). assumption.
      + cbn [bind]. destruct (free h p) as [p1|] eqn:E1; [|discriminate]. cbn [bind]. intros E. injection E as _ <-. cbn [set_handles p_handles]. apply remove_Forall. rewrite (free_handles _ _ _ E1). assumption.
    - intros E. injection E as _ <-. assumption.
    - intros E. injection E as _ <-. assumption.
  Qed.
  Lemma reached_terms log p : reached initial log p -> terms_ok p.
  Proof. induction 1 as [|log p c r p' R IH Al Sy E]; [constructor|]. exact (step_terms c p r p' IH E). Qed.
End Reached.

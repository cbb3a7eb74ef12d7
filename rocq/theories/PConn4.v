(** The files behind the handles over a whole history. *)
From Coq Require Import Permutation QArith Lqa.
From Verif Require Import CBase PBase MDouble PDouble MConn SConn PConn PConn2 PConn3.
Local Open Scope Z_scope.

(** The handle a call is about. *)
Definition target (c : call) : option Z :=
  match c with Connect _ h | SetBaudrate _ h _ | Disconnect h | FreeHandle h => Some h | _ => None end.

Section Lines.
  Variable initial : list Z.
  Hypothesis distinct : NoDup initial.

  Lemma frame_handles c p r p' k o : step c p = Ok (r, p') -> target c <> Some k -> NoDup (map fst (p_handles p')) -> find k (p_handles p) = Some o -> find k (p_handles p') = Some o.
  Proof.
    intros E T N F. destruct c as [serial m1 m2 m3|y h|attr h b|s|h|h|fd|fd]; cbn [step target] in *.
    - assert (X : In (k, o) (p_handles p')); [|apply in_find_nodup; assumption]. apply find_in in F. revert E. unfold mbus_context, malloc. destruct m1; [|intros E; injection E as _ <-; assumption]. destruct m2.
      + destruct m3.
        * intros E. injection E as _ <-. right. assumption.
        * destruct (free _ _) as [p1|] eqn:E1; [|discriminate]. cbn [bind]. destruct (free _ p1) as [p2|] eqn:E2; [|discriminate]. cbn [bind]. intros E. injection E as _ <-.
          rewrite (free_handles _ _ _ E2), (free_handles _ _ _ E1). assumption.
      + destruct (free _ _) as [p1|] eqn:E1; [|discriminate]. cbn [bind]. intros E. injection E as _ <-. rewrite (free_handles _ _ _ E1). assumption.
    - assert (T' : k <> h) by congruence. revert E. unfold mbus_connect. destruct (h =? 0); [intros E; injection E as _ <-; assumption|]. destruct (find h (p_handles p)) as [o1|] eqn:F1; [|discriminate].
      destruct (ob_serial o1).
      + unfold mbus_serial_connect. destruct (ob_aux o1); [|intros E; injection E as _ <-; assumption]. destruct (s_open y); intros E; injection E as _ <-; cbn [set_handles p_handles]; rewrite find_replace; assumption.
      + unfold mbus_tcp_connect. destruct (ob_aux o1); [|intros E; injection E as _ <-; assumption]. destruct (s_info y) as [l|]; [|intros E; injection E as _ <-; assumption].
        destruct (connect_loop l (ob_fd o1) p) as [[up fd] p1] eqn:L. apply connect_loop_handles in L.
        destruct up, fd; intros E; injection E as _ <-; cbn [set_files set_handles p_handles]; rewrite find_replace, L; assumption.
    - assert (T' : k <> h) by congruence. revert E. unfold mbus_serial_set_baudrate. destruct (h =? 0); [intros E; injection E as _ <-; assumption|]. destruct (find h (p_handles p)) as [o1|] eqn:F1; [|discriminate].
      destruct (negb _); [discriminate|]. destruct (ob_aux o1); [|intros E; injection E as _ <-; assumption]. destruct (baud_vtime b) as [v|]; [|intros E; injection E as _ <-; assumption].
      destruct (ob_term o1) as [t|] eqn:Et; [|discriminate]. destruct (ob_fd o1) as [fd|] eqn:Ef; [|discriminate].
      destruct (find fd _) as [[]|]; [destruct attr|..]; intros E; injection E as _ <-; cbn [set_files set_handles p_handles]; rewrite find_replace; assumption.
    - revert E. unfold mbus_tcp_set_timeout_set. destruct (match s with Num q => _ | _ => _ end); [intros E; injection E as _ <-; assumption|].
      destruct (double_to_int s) as [sec|]; [|discriminate]. cbn [bind]. destruct (double_to_int _) as [usec|]; [|discriminate]. cbn [bind]. intros E. injection E as _ <-. assumption.
    - assert (T' : k <> h) by congruence. revert E. unfold mbus_disconnect. destruct (h =? 0); [intros E; injection E as _ <-; assumption|]. destruct (find h (p_handles p)) as [o1|] eqn:F1; [|discriminate].
      destruct (ob_fd o1) as [fd|]; [|discriminate]. destruct (fd <? 0); intros E; injection E as _ <-; [assumption|]. cbn [set_handles close set_files p_handles]. rewrite find_replace; assumption.
    - assert (T' : k <> h) by congruence. revert E. unfold mbus_context_free. destruct (h =? 0); [intros E; injection E as _ <-; assumption|]. unfold data_free. destruct (find h (p_handles p)) as [o1|] eqn:F1; [|discriminate].
      destruct (ob_aux o1) as [[a s]|].
      + destruct (free s p) as [p1|] eqn:E1; [|discriminate]. cbn [bind]. destruct (free a p1) as [p2|] eqn:E2; [|discriminate]. cbn [bind]. destruct (free h _) as [p3|] eqn:E3; [|discriminate]. cbn [bind].
        intros E. injection E as _ <-. cbn [set_handles p_handles]. rewrite find_remove by assumption. rewrite (free_handles _ _ _ E3). cbn [set_handles p_handles]. rewrite find_replace by assumption.
        rewrite (free_handles _ _ _ E2), (free_handles _ _ _ E1). assumption.
      + cbn [bind]. destruct (free h p) as [p1|] eqn:E1; [|discriminate]. cbn [bind]. intros E. injection E as _ <-. cbn [set_handles p_handles]. rewrite find_remove by assumption. rewrite (free_handles _ _ _ E1). assumption.
    - injection E as _ <-. assumption.
    - injection E as _ <-. assumption.
  Qed.
  Lemma free_files b p p' : free b p = Ok p' -> p_files p' = p_files p.
  Proof. unfold free. destruct (existsb _ _); [|discriminate]. intros E. injection E as <-. reflexivity. Qed.
  Lemma context_files serial m1 m2 m3 p r p' : mbus_context serial m1 m2 m3 p = Ok (r, p') -> p_files p' = p_files p.
  Proof.
    unfold mbus_context, malloc. destruct m1; [|intros E; injection E as _ <-; reflexivity]. destruct m2.
    - destruct m3.
      + intros E. injection E as _ <-. reflexivity.
      + destruct (free _ _) as [p1|] eqn:E1; [|discriminate]. cbn [bind]. destruct (free _ p1) as [p2|] eqn:E2; [|discriminate]. cbn [bind]. intros E. injection E as _ <-.
        rewrite (free_files _ _ _ E2), (free_files _ _ _ E1). reflexivity.
    - destruct (free _ _) as [p1|] eqn:E1; [|discriminate]. cbn [bind]. intros E. injection E as _ <-. rewrite (free_files _ _ _ E1). reflexivity.
  Qed.
  Lemma context_free_files h p p' : mbus_context_free h p = Ok p' -> p_files p' = p_files p.
  Proof.
    unfold mbus_context_free. destruct (h =? 0); [intros E; injection E as <-; reflexivity|]. unfold data_free. destruct (find h (p_handles p)) as [o1|] eqn:F1; [|discriminate].
    destruct (ob_aux o1) as [[a s]|].
    - destruct (free s p) as [p1|] eqn:E1; [|discriminate]. cbn [bind]. destruct (free a p1) as [p2|] eqn:E2; [|discriminate]. cbn [bind]. destruct (free h _) as [p3|] eqn:E3; [|discriminate]. cbn [bind].
      intros E. injection E as <-. cbn [set_handles p_files]. rewrite (free_files _ _ _ E3). cbn [set_handles p_files]. rewrite (free_files _ _ _ E2), (free_files _ _ _ E1). reflexivity.
    - cbn [bind]. destruct (free h p) as [p1|] eqn:E1; [|discriminate]. cbn [bind]. intros E. injection E as <-. cbn [set_handles p_files]. rewrite (free_files _ _ _ E1). reflexivity.
  Qed.
  Lemma find_cons_unused {A} fd fd' (f' : A) l f : ~ In fd' (map fst l) -> find fd l = Some f -> find fd ((fd', f') :: l) = Some f.
  Proof. intros U F. cbn [find]. destruct (Z.eqb_spec fd fd'); [|assumption]. exfalso. apply U. subst. apply in_map_iff. exists (fd', f). split; [reflexivity|]. apply find_in. assumption. Qed.

  (** A call on another handle leaves the file of a connected handle alone. *)
  Lemma frame c log p r p' k fd f : inv initial log p -> allowed initial log c -> system_ok c p -> step c p = Ok (r, p') -> target c <> Some k -> phase_of log k = Some Up ->
    file_of p k fd f -> f <> Foreign -> file_of p' k fd f.
  Proof.
    intros I Al Sy E T P (o & F & Fd & Ff) Nf. destruct (step_inv initial log p c I Al Sy) as (r2 & p2 & E2 & I2). rewrite E in E2. injection E2 as <- <-.
    exists o. split; [exact (frame_handles c p r p' k o E T (i_handles _ _ _ I2) F)|]. split; [assumption|].
    destruct c as [serial m1 m2 m3|y h|attr h b|s|h|h|fd'|fd']; cbn [target] in T.
    - rewrite (context_files _ _ _ _ _ _ _ E). assumption.
    - destruct (connect_inv initial log p I y h Al Sy) as (r2 & p2 & serial & E2 & _ & _ & C). rewrite E in E2. injection E2 as <- <-.
      destruct (line_opened serial y) as [fd'|].
      + destruct C as (_ & U & o' & _ & _ & ->). apply find_cons_unused; [apply U|assumption].
      + destruct C as (_ & ->). assumption.
    - destruct (baud_inv initial log p I attr h b Al) as (r2 & p2 & E2 & _ & o1 & fd1 & t & t0 & F1 & Hfd1 & Ht & Hf1 & _). rewrite E in E2. injection E2 as <- <-.
      assert (Ne : fd <> fd1). { intros X. subst fd1. apply T. f_equal. apply (fd_owner initial log p h o1 k o fd I); auto using find_in. apply Al. }
      revert E. cbn [step]. unfold mbus_serial_set_baudrate. destruct (h =? 0); [intros E; injection E as _ <-; assumption|]. rewrite F1.
      destruct (negb _); [discriminate|]. destruct (ob_aux o1); [|intros E; injection E as _ <-; assumption]. destruct (baud_vtime b) as [v|]; [|intros E; injection E as _ <-; assumption].
      rewrite Ht, Hfd1. destruct (find fd1 _) as [[]|]; [destruct attr|..]; intros E; injection E as _ <-; cbn [set_files set_handles p_files]; rewrite ?find_replace; assumption.
    - revert E. cbn [step]. unfold mbus_tcp_set_timeout_set. destruct (match s with Num q => _ | _ => _ end); [intros E; injection E as _ <-; assumption|].
      destruct (double_to_int s) as [sec|]; [|discriminate]. cbn [bind]. destruct (double_to_int _) as [usec|]; [|discriminate]. cbn [bind]. intros E. injection E as _ <-. assumption.
    - destruct (disconnect_inv initial log p I h Al) as (r2 & p2 & E2 & _ & D1 & D2 & D3). rewrite E in E2. injection E2 as <- <-. destruct D2 as [D2|D2]; [|rewrite (D3 D2); assumption].
      apply D1 in D2. destruct (line_of initial log p I h D2) as (o1 & fd1 & f1 & l1 & l2 & F1 & G & Hfd1 & _). 
      assert (Ne : fd <> fd1). { intros X. subst fd1. apply T. f_equal. apply (fd_owner initial log p h o1 k o fd I); auto using find_in. }
      revert E. cbn [step]. unfold mbus_disconnect. destruct (h =? 0); [intros E; injection E as _ <-; assumption|]. rewrite F1, Hfd1. destruct (fd1 <? 0); intros E; injection E as _ <-; [assumption|].
      cbn [set_handles close set_files p_files]. rewrite find_remove; assumption.
    - cbn [step] in E. destruct (mbus_context_free h p) as [p1|] eqn:E1; [|discriminate]. cbn [bind] in E. injection E as _ <-. rewrite (context_free_files _ _ _ E1). assumption.
    - injection E as _ <-. cbn [set_files p_files]. apply find_cons_unused; [apply Sy|assumption].
    - injection E as _ <-. cbn [close set_files p_files]. rewrite find_remove; [assumption|]. intros X. subst fd'. cbn [allowed] in Al. rewrite <- (i_foreign _ _ _ I) in Al.
      pose proof (in_find_nodup fd _ _ (i_files _ _ _ I) (foreign_in p fd Al)) as X. congruence.
  Qed.

  Definition lines_ok (log : history) (p : proc) : Prop :=
    timeout_is (timeout_of log) (p_timeout p) /\
    forall h serial, phase_of log h = Some Up -> kind_of log h = Some serial -> exists fd f, file_of p h fd f /\ f <> Foreign /\
      if serial then exists t v, f = Tty (Some t) /\ mbus_line (rate_of log h) v t /\ baud_vtime (rate_of log h) = Some v
      else exists tv, f = Sock (Some tv) (Some tv) /\ timeout_is (timeout_at log h) tv.
  Lemma ulp_le q t : 0 <= fst t < 2 ^ 31 -> 0 <= snd t <= 999999 -> (inject_Z (fst t) + inject_Z (snd t) / inject_Z 1000000 <= q + ulp)%Q -> (q < inject_Z (fst t) + inject_Z (snd t + 1) / inject_Z 1000000 + ulp)%Q -> time_value q t.
  Proof.
    intros H1 H2 H3 H4. unfold time_value. split; [assumption|]. split; [assumption|]. assert (U : (ulp <= 1 # 1000000000)%Q) by (vm_compute; discriminate). split; lra.
  Qed.

  Lemma free_timeout b p p' : free b p = Ok p' -> p_timeout p' = p_timeout p.
  Proof. unfold free. destruct (existsb _ _); [|discriminate]. intros E. injection E as <-. reflexivity. Qed.
  Lemma connect_loop_timeout l : forall fd p b fd' p', connect_loop l fd p = (b, fd', p') -> p_timeout p' = p_timeout p.
  Proof.
    induction l as [|[[s|] up] l IH]; intros fd p b fd' p'; cbn [connect_loop].
    - intros E. injection E as _ _ <-. reflexivity.
    - destruct up; [intros E; injection E as _ _ <-; reflexivity|]. intros E. apply IH in E. rewrite E. reflexivity.
    - apply IH.
  Qed.
  Lemma frame_timeout c p r p' : step c p = Ok (r, p') -> (forall s, c <> SetTimeout s) -> p_timeout p' = p_timeout p.
  Proof.
    intros E T. destruct c as [serial m1 m2 m3|y h|attr h b|s|h|h|fd|fd]; cbn [step] in *; revert E.
    - unfold mbus_context, malloc. destruct m1; [|intros E; injection E as _ <-; reflexivity]. destruct m2.
      + destruct m3.
        * intros E. injection E as _ <-. reflexivity.
        * destruct (free _ _) as [p1|] eqn:E1; [|discriminate]. cbn [bind]. destruct (free _ p1) as [p2|] eqn:E2; [|discriminate]. cbn [bind]. intros E. injection E as _ <-.
          rewrite (free_timeout _ _ _ E2), (free_timeout _ _ _ E1). reflexivity.
      + destruct (free _ _) as [p1|] eqn:E1; [|discriminate]. cbn [bind]. intros E. injection E as _ <-. rewrite (free_timeout _ _ _ E1). reflexivity.
    - unfold mbus_connect. destruct (h =? 0); [intros E; injection E as _ <-; reflexivity|]. destruct (find h (p_handles p)) as [o1|] eqn:F1; [|discriminate].
      destruct (ob_serial o1).
      + unfold mbus_serial_connect. destruct (ob_aux o1); [|intros E; injection E as _ <-; reflexivity]. destruct (s_open y); intros E; injection E as _ <-; reflexivity.
      + unfold mbus_tcp_connect. destruct (ob_aux o1); [|intros E; injection E as _ <-; reflexivity]. destruct (s_info y) as [l|]; [|intros E; injection E as _ <-; reflexivity].
        destruct (connect_loop l (ob_fd o1) p) as [[up fd] p1] eqn:L. apply connect_loop_timeout in L.
        destruct up, fd; intros E; injection E as _ <-; assumption.
    - unfold mbus_serial_set_baudrate. destruct (h =? 0); [intros E; injection E as _ <-; reflexivity|]. destruct (find h (p_handles p)) as [o1|] eqn:F1; [|discriminate].
      destruct (negb _); [discriminate|]. destruct (ob_aux o1); [|intros E; injection E as _ <-; reflexivity]. destruct (baud_vtime b) as [v|]; [|intros E; injection E as _ <-; reflexivity].
      destruct (ob_term o1) as [t|] eqn:Et; [|discriminate]. destruct (ob_fd o1) as [fd|] eqn:Ef; [|discriminate].
      destruct (find fd _) as [[]|]; [destruct attr|..]; intros E; injection E as _ <-; reflexivity.
    - intros _. exfalso. exact (T s eq_refl).
    - unfold mbus_disconnect. destruct (h =? 0); [intros E; injection E as _ <-; reflexivity|]. destruct (find h (p_handles p)) as [o1|] eqn:F1; [|discriminate].
      destruct (ob_fd o1) as [fd|]; [|discriminate]. destruct (fd <? 0); intros E; injection E as _ <-; reflexivity.
    - unfold mbus_context_free. destruct (h =? 0); [intros E; injection E as _ <-; reflexivity|]. unfold data_free. destruct (find h (p_handles p)) as [o1|] eqn:F1; [|discriminate].
      destruct (ob_aux o1) as [[a s]|].
      + destruct (free s p) as [p1|] eqn:E1; [|discriminate]. cbn [bind]. destruct (free a p1) as [p2|] eqn:E2; [|discriminate]. cbn [bind]. destruct (free h _) as [p3|] eqn:E3; [|discriminate]. cbn [bind].
        intros E. injection E as _ <-. cbn [set_handles p_timeout]. rewrite (free_timeout _ _ _ E3). cbn [set_handles p_timeout]. rewrite (free_timeout _ _ _ E2), (free_timeout _ _ _ E1). reflexivity.
      + cbn [bind]. destruct (free h p) as [p1|] eqn:E1; [|discriminate]. cbn [bind]. intros E. injection E as _ <-. cbn [set_handles p_timeout]. rewrite (free_timeout _ _ _ E1). reflexivity.
    - intros E. injection E as _ <-. reflexivity.
    - intros E. injection E as _ <-. reflexivity.
  Qed.

  (** The file of a handle after a successful change of its baud rate. *)
  Lemma baud_file attr h b log p r p' : inv initial log p -> allowed initial log (SetBaudrate attr h b) -> terms_ok p -> step (SetBaudrate attr h b) p = Ok (r, p') ->
    (r = 0 -> exists fd t v, file_of p' h fd (Tty (Some t)) /\ baud_vtime b = Some v /\ mbus_line b v t) /\
    (r <> 0 -> r = -1 /\ forall fd f, file_of p h fd f -> file_of p' h fd f).
  Proof.
    intros I Al To E. destruct (baud_inv initial log p I attr h b Al) as (r2 & p2 & E2 & _ & o & fd & t & t0 & F & Hfd & Ht & Hf & C). rewrite E in E2. injection E2 as <- <-.
    assert (K : exists o', find h (p_handles p') = Some o' /\ ob_fd o' = Some fd).
    { revert E. cbn [step]. unfold mbus_serial_set_baudrate. destruct (h =? 0); [intros E; injection E as _ <-; eauto|]. rewrite F.
      destruct (negb _); [discriminate|]. destruct (ob_aux o); [|intros E; injection E as _ <-; eauto]. destruct (baud_vtime b) as [v|]; [|intros E; injection E as _ <-; eauto].
      rewrite Ht, Hfd. assert (In h (map fst (p_handles p))) by (apply in_map_iff; exists (h, o); split; [reflexivity|]; apply find_in; assumption).
      destruct (find fd _) as [[]|]; [destruct attr|..]; intros E; injection E as _ <-; cbn [set_files set_handles p_handles]; rewrite find_replace_same by assumption; eauto. }
    destruct K as (o' & F' & Hfd').
    assert (Keep : p_files p' = p_files p -> forall fd f, file_of p h fd f -> file_of p' h fd f).
    { intros Ef fd1 f1 (o1 & X1 & X2 & X3). rewrite F in X1. injection X1 as <-. exists o'. rewrite Ef. split; [assumption|]. split; [congruence|assumption]. }
    destruct (baud_vtime b) as [v|].
    - destruct attr; destruct C as [-> C].
      + split; [|congruence]. intros _. exists fd. eexists _, v. split; [exists o'; split; [assumption|]; split; [assumption|]; exact C|]. split; [reflexivity|].
        unfold terms_ok in To. rewrite Forall_forall in To. pose proof (To (h, o) (find_in _ _ _ F) t Ht) as Fl. exact (Fl b v).
      + split; [discriminate|]. intros _. split; [reflexivity|]. apply Keep. assumption.
    - destruct C as [-> C]. split; [discriminate|]. intros _. split; [reflexivity|]. apply Keep. subst p'. reflexivity.
  Qed.

  Lemma step_lines c log p r p' : inv initial log p -> terms_ok p -> allowed initial log c -> system_ok c p -> (forall y h, c = Connect y h -> s_attr y = true) -> step c p = Ok (r, p') ->
    lines_ok log p -> lines_ok ((c, r) :: log) p'.
  Proof.
    intros I To Al Sy At E [L1 L2]. split.
    - destruct c as [serial m1 m2 m3|y h|attr h b|s|h|h|fd'|fd']; try (rewrite (frame_timeout _ _ _ _ E) by discriminate; exact L1).
      destruct Al as (q & -> & C). cbn [step] in E. destruct C as [N|[D L]].
      + unfold mbus_tcp_set_timeout_set in E. replace (Qnum q <? 0) with true in E by (destruct q as [n d]; unfold Qlt in N; cbn in *; lia). injection E as <- <-. exact L1.
      + assert (Q0 : (0 <= q)%Q). { destruct D as (m & k & Hm & Hk & ->). unfold Qle. cbn. lia. }
        destruct (timeout_spec q p D Q0 L) as (sec & usec & E2 & T1 & T2 & T3 & T4). rewrite E in E2. injection E2 as -> ->. cbn [timeout_of timeout_is p_timeout]. apply ulp_le; assumption.
    - intros h serial P K.
      destruct (option_map (Z.eqb h) (target c)) as [[]|] eqn:Tg.
      + (* a call on h itself *)
        destruct c as [s0 m1 m2 m3|y h'|attr h' b|s|h'|h'|fd'|fd']; cbn [target option_map] in Tg; try discriminate; injection Tg as Tg; apply Z.eqb_eq in Tg; subst h'.
        * destruct (connect_inv initial log p I y h Al Sy) as (r2 & p2 & k & E2 & _ & Hk & C). rewrite E in E2. injection E2 as <- <-.
          cbn [kind_of] in K. assert (k = serial) by congruence. subst k. cbn [phase_of] in P. rewrite Z.eqb_refl in P.
          destruct (line_opened serial y) as [fd|].
          -- destruct C as (-> & U & o & F & Hfd & Ef). cbn [rate_of timeout_at]. rewrite Z.eqb_refl. exists fd. eexists. split; [exists o; split; [assumption|]; split; [assumption|]; rewrite Ef; cbn [find]; rewrite Z.eqb_refl; reflexivity|].
             destruct serial; [|split; [discriminate|]; eexists; split; [reflexivity|]; exact L1]. rewrite (At y h eq_refl). split; [discriminate|]. exists connect_term, 3. split; [reflexivity|]. split; [|reflexivity]. exact (connect_flags 2400 3).
          -- destruct C as (-> & _). discriminate.
        * cbn [kind_of] in K. cbn [phase_of] in P. destruct (baud_file attr h b log p r p' I Al To E) as [B1 B2]. assert (serial = true) by (destruct Al as (_ & _ & Al); congruence). subst serial.
          destruct (Z.eq_dec r 0) as [->|R].
          -- destruct (B1 eq_refl) as (fd & t & v & B3 & B4 & B5). exists fd. eexists. split; [exact B3|]. split; [discriminate|]. exists t, v. cbn [rate_of]. rewrite Z.eqb_refl. auto.
          -- destruct (B2 R) as [-> B3]. destruct (L2 h true P K) as (fd & f & X1 & X2 & X3). exists fd, f. split; [apply B3; assumption|]. split; [assumption|]. cbn [rate_of]. exact X3.
        * cbn [phase_of] in P. rewrite Z.eqb_refl in P. discriminate.
        * cbn [phase_of] in P. rewrite Z.eqb_refl in P. discriminate.
      + assert (T : target c <> Some h). { intros X. rewrite X in Tg. cbn in Tg. rewrite Z.eqb_refl in Tg. discriminate. }
        destruct c as [s0 m1 m2 m3|y h'|attr h' b|s|h'|h'|fd'|fd']; cbn [target option_map] in Tg; try discriminate; injection Tg as Tg; apply Z.eqb_neq in Tg; cbn [phase_of kind_of] in P, K;
          destruct (Z.eqb_spec h' h) as [X|_]; try congruence; destruct (L2 h serial P K) as (fd & f & X1 & X2 & X3); exists fd, f; (split; [eapply frame; eassumption|]); (split; [assumption|]);
          cbn [rate_of timeout_at]; destruct (Z.eqb_spec h' h) as [X|_]; try congruence; try (destruct r; exact X3); exact X3.
      + assert (T : target c <> Some h). { intros X. rewrite X in Tg. discriminate. }
        assert (N : exists phk, phase_of log h = Some phk /\ (phk = Up \/ phk = New)). 
        { destruct c as [s0 m1 m2 m3|y h'|attr h' b|s|h'|h'|fd'|fd']; cbn [target option_map] in Tg; try discriminate; cbn [phase_of] in P; eauto.
          destruct ((r =? h) && negb (r =? 0)); [discriminate|eauto]. }
        assert (P' : phase_of log h = Some Up).
        { destruct c as [s0 m1 m2 m3|y h'|attr h' b|s|h'|h'|fd'|fd']; cbn [target option_map] in Tg; try discriminate; cbn [phase_of] in P; try assumption.
          destruct ((r =? h) && negb (r =? 0)); [discriminate|assumption]. }
        assert (K' : kind_of log h = Some serial).
        { destruct c as [s0 m1 m2 m3|y h'|attr h' b|s|h'|h'|fd'|fd']; cbn [target option_map] in Tg; try discriminate; cbn [kind_of phase_of] in K, P; try assumption.
          destruct (Z.eqb_spec r h) as [X|X]; [|assumption]. destruct (Z.eqb_spec r 0) as [Y|Y]; [|discriminate P].
          destruct (live_handle initial log p I h Up P') as (o & _ & Hg & _). cbn [fst] in Hg. lia. }
        destruct (L2 h serial P' K') as (fd & f & X1 & X2 & X3). exists fd, f. split; [eapply frame; eassumption|]. split; [assumption|].
        destruct c as [s0 m1 m2 m3|y h'|attr h' b|s|h'|h'|fd'|fd']; cbn [target option_map] in Tg; try discriminate; cbn [rate_of timeout_at]; exact X3.
  Qed.
  Lemma reached_lines log p : reached initial log p -> configured log -> lines_ok log p.
  Proof.
    induction 1 as [|log p c r p' R IH Al Sy E]; intros C.
    - split; [reflexivity|]. discriminate.
    - inversion_clear C as [|? ? C1 C2]. apply (step_lines c log p r p'); auto.
      + apply reached_inv; assumption.
      + eapply reached_terms. eassumption.
      + intros y h ->. exact C1.
  Qed.
End Lines.

(** C67 handles, descriptors and memory; C68 serial line parameters; C69 TCP timeouts. *)
From Coq Require Import Permutation QArith Lqa.
From Verif Require Import CBase PBase MDouble PDouble MRecv MProto MConn SConn PConn PConn2 PConn3 PConn4.
Local Open Scope Z_scope.

(** ** C67 *)
(** Every call that follows the rules has a defined result. *)
Theorem C67_defined initial log p c : NoDup initial -> reached initial log p -> allowed initial log c -> system_ok c p -> exists r p', step c p = Ok (r, p').
Proof. intros N R Al Sy. destruct (step_inv initial log p c (reached_inv initial N log p R) Al Sy) as (r & p' & E & _). eauto. Qed.

(** The open descriptors of the library are those of the connected handles, one each; those of the rest of the process
    are never touched. *)
Theorem C67_descriptors initial log p : NoDup initial -> reached initial log p ->
  exists l : list (Z * Z), NoDup (map fst l) /\ NoDup (map snd l) /\ (forall h, In h (map fst l) <-> phase_of log h = Some Up) /\
    (forall h fd, In (h, fd) l -> exists f, file_of p h fd f) /\
    Permutation (map snd l) (map fst (own_files p)) /\ foreign_files p = others initial log.
Proof.
  intros N R. pose proof (reached_inv initial N log p R) as I.
  set (pick := fun x : Z * obj => match phase_of log (fst x), ob_fd (snd x) with Some Up, Some fd => [(fst x, fd)] | _, _ => [] end).
  exists (flat_map pick (p_handles p)).
  assert (E : forall l, map snd (flat_map pick l) = map fst (flat_map (up_of log) l)).
  { induction l as [|x l IH]; [reflexivity|]. cbn [flat_map]. rewrite !map_app, IH. unfold pick, up_of. destruct (phase_of log (fst x)) as [[]|], (ob_fd (snd x)); reflexivity. }
  assert (P : Permutation (map snd (flat_map pick (p_handles p))) (map fst (own_files p))).
  { rewrite E. apply Permutation_sym. replace (map fst (own_files p)) with (map fst (tags p)) by (unfold tags; rewrite map_map; reflexivity). apply Permutation_map. apply (i_own _ _ _ I). }
  assert (Pk : forall h fd, In (h, fd) (flat_map pick (p_handles p)) -> phase_of log h = Some Up /\ exists o, In (h, o) (p_handles p) /\ ob_fd o = Some fd).
  { intros h fd H. apply in_flat_map in H. destruct H as ([h' o] & H1 & H2). unfold pick in H2. cbn [fst snd] in H2. destruct (phase_of log h') as [[]|] eqn:Ep; try contradiction. destruct (ob_fd o) as [fd'|] eqn:Ef; [|contradiction].
    destruct H2 as [H2|[]]. injection H2 as -> ->. split; [assumption|]. eauto. }
  split.
  { pose proof (i_handles _ _ _ I) as Nh. clear - Nh. induction (p_handles p) as [|x l IH]; [constructor|]. cbn [map] in Nh. inversion_clear Nh as [|? ? N1 N2]. cbn [flat_map]. rewrite map_app.
    assert (X : ~ In (fst x) (map fst (flat_map pick l))).
    { intros X. apply N1. apply in_map_iff in X. destruct X as ([h fd] & X1 & X2). cbn [fst] in X1. subst h. apply in_flat_map in X2. destruct X2 as (y & Y1 & Y2). apply in_map_iff. exists y. split; [|assumption].
      unfold pick in Y2. destruct (phase_of log (fst y)) as [[]|], (ob_fd (snd y)); try contradiction. destruct Y2 as [Y2|[]]. congruence. }
    unfold pick at 1. destruct (phase_of log (fst x)) as [[]|], (ob_fd (snd x)); cbn [map app fst]; auto. constructor; auto. }
  split.
  { apply (Permutation_NoDup (Permutation_sym P)). unfold own_files. pose proof (i_files _ _ _ I) as Nf. clear - Nf. induction (p_files p) as [|x l IH]; [constructor|]. cbn [map] in Nf. inversion_clear Nf as [|? ? N1 N2]. cbn [filter].
    assert (X : ~ In (fst x) (map fst (filter (fun x => match snd x with Foreign => false | _ => true end) l))) by (intros X; apply N1; apply in_map_iff in X; destruct X as (y & Y1 & Y2); apply filter_In in Y2; apply in_map_iff; exists y; tauto).
    destruct (snd x); cbn [map]; auto; constructor; auto. }
  split.
  { intros h. split.
    - intros H. apply in_map_iff in H. destruct H as ([h' fd] & H1 & H2). cbn [fst] in H1. subst h'. apply (Pk h fd H2).
    - intros H. destruct (line_of initial log p I h H) as (o & fd & f & f1 & f2 & F & _ & Hfd & _). apply in_map_iff. exists (h, fd). split; [reflexivity|]. apply in_flat_map. exists (h, o). split; [apply find_in; assumption|].
      unfold pick. cbn [fst snd]. rewrite H, Hfd. left. reflexivity. }
  split.
  { intros h fd H. destruct (Pk h fd H) as [Hp (o & Ho & Hfd)]. destruct (line_of initial log p I h Hp) as (o' & fd' & f & f1 & f2 & F & _ & Hfd' & _ & Ff & _).
    pose proof (in_find_nodup h _ _ (i_handles _ _ _ I) Ho) as F2. rewrite F in F2. injection F2 as <-. rewrite Hfd in Hfd'. injection Hfd' as <-. exists f, o'. auto. }
  split; [exact P|]. apply (i_foreign _ _ _ I).
Qed.

(** The memory in use is three blocks for every live handle. *)
Theorem C67_memory initial log p : NoDup initial -> reached initial log p ->
  exists l, NoDup l /\ (forall h, In h l <-> exists ph, phase_of log h = Some ph) /\ List.length (p_blocks p) = (3 * List.length l)%nat.
Proof.
  intros N R. pose proof (reached_inv initial N log p R) as I. exists (map fst (p_handles p)). split; [apply (i_handles _ _ _ I)|]. split.
  - intros h. split; [|intros (ph & H); exact (i_live _ _ _ I h ph H)]. intros H. apply in_map_iff in H. destruct H as ([h' o] & H1 & H2). cbn [fst] in H1. subst h'.
    pose proof (i_good _ _ _ I) as G. rewrite Forall_forall in G. specialize (G _ H2). destruct G as (_ & _ & _ & G). cbn [fst] in G. destruct (phase_of log h) as [ph|]; [eauto|destruct G].
  - rewrite (Permutation_length (i_blocks _ _ _ I)), map_length. pose proof (i_good _ _ _ I) as G. clear - G. induction G as [|x l (_ & Ga & _) G IH]; [reflexivity|]. cbn [flat_map List.length]. rewrite app_length, IH.
    unfold blocks_of. destruct (ob_aux (snd x)) as [[]|]; [cbn [List.length]; lia|congruence].
Qed.
(** A program that has freed every handle has given back everything. *)
Theorem C67_nothing_left initial log p : NoDup initial -> reached initial log p -> (forall h, phase_of log h = None) -> p_blocks p = [] /\ own_files p = [] /\ foreign_files p = others initial log.
Proof.
  intros N R F. destruct (C67_memory initial log p N R) as (l & _ & L & M). destruct (C67_descriptors initial log p N R) as (d & _ & _ & D & _ & Q & O).
  assert (l = []). { destruct l as [|h l]; [reflexivity|]. destruct (proj1 (L h) (or_introl eq_refl)) as (ph & X). rewrite F in X. discriminate. } subst l.
  assert (d = []). { destruct d as [|[h fd] d]; [reflexivity|]. pose proof (proj1 (D h) (or_introl eq_refl)) as X. rewrite F in X. discriminate. } subst d.
  split; [destruct (p_blocks p); [reflexivity|discriminate]|]. split; [|assumption]. cbn [map] in Q. apply Permutation_nil in Q. destruct (own_files p); [reflexivity|discriminate].
Qed.

(** The results of the calls. *)
Theorem C67_create initial log p serial m1 m2 m3 : NoDup initial -> reached initial log p ->
  exists r p', step (Create serial m1 m2 m3) p = Ok (r, p') /\ (r <> 0 <-> m1 = true /\ m2 = true /\ m3 = true) /\ p_files p' = p_files p /\
    (r <> 0 -> phase_of log r = None) /\ (r = 0 -> p_handles p' = p_handles p /\ Permutation (p_blocks p') (p_blocks p)).
Proof.
  intros N R. pose proof (reached_inv initial N log p R) as I. destruct (create_inv initial log p I serial m1 m2 m3) as (r & p' & E & I' & C). exists r, p'. split; [assumption|]. split; [assumption|].
  split; [exact (context_files _ _ _ _ _ _ _ E)|]. split.
  - intros H. apply C in H. destruct H as (-> & -> & ->). cbn in E. injection E as <- _. destruct (phase_of log (p_next p)) as [ph|] eqn:Ep; [|reflexivity].
    destruct (live_handle initial log p I _ ph Ep) as (o & _ & G & _). cbn [fst] in G. lia.
  - intros ->. assert (Hh : p_handles p' = p_handles p).
    { revert E. cbn [step]. unfold mbus_context, malloc. destruct m1; [|intros E; injection E as <-; reflexivity]. destruct m2.
      + destruct m3.
        * exfalso. apply (proj2 C); auto.
        * destruct (free _ _) as [p1|] eqn:E1; [|discriminate]. cbn [bind]. destruct (free _ p1) as [p2|] eqn:E2; [|discriminate]. cbn [bind]. intros E. injection E as <-.
          rewrite (free_handles _ _ _ E2), (free_handles _ _ _ E1). reflexivity.
      + destruct (free _ _) as [p1|] eqn:E1; [|discriminate]. cbn [bind]. intros E. injection E as <-. rewrite (free_handles _ _ _ E1). reflexivity. }
    split; [assumption|]. rewrite (i_blocks _ _ _ I'), (i_blocks _ _ _ I), Hh. apply Permutation_refl.
Qed.
(** mbus_connect returns 0 exactly if the line could be opened; then the handle has this descriptor and no other one is left
    open. If it fails, no descriptor is left open. *)
Theorem C67_connect initial log p y h serial : NoDup initial -> reached initial log p -> allowed initial log (Connect y h) -> system_ok (Connect y h) p -> kind_of log h = Some serial ->
  exists r p', step (Connect y h) p = Ok (r, p') /\
    match line_opened serial y with
    | None => r = -1 /\ p_files p' = p_files p
    | Some fd => r = 0 /\ exists f, f <> Foreign /\ file_of p' h fd f /\ p_files p' = (fd, f) :: p_files p
    end.
Proof.
  intros N R Al Sy K. pose proof (reached_inv initial N log p R) as I. destruct (connect_inv initial log p I y h Al Sy) as (r & p' & k & E & _ & K' & C). rewrite K in K'. injection K' as <-.
  exists r, p'. split; [assumption|]. destruct (line_opened serial y) as [fd|]; [|assumption]. destruct C as (C1 & _ & o & C2 & C3 & C4). split; [assumption|].
  eexists. split; [|split; [|exact C4]]; [destruct serial; discriminate|]. exists o. split; [assumption|]. split; [assumption|]. rewrite C4. cbn [find]. rewrite Z.eqb_refl. reflexivity.
Qed.
(** mbus_disconnect returns 0 exactly for a connected handle, otherwise -1 without effect. *)
Theorem C67_disconnect initial log p h : NoDup initial -> reached initial log p -> allowed initial log (Disconnect h) ->
  exists r p', step (Disconnect h) p = Ok (r, p') /\
    (phase_of log h = Some Up -> r = 0 /\ exists fd f, file_of p h fd f /\ ~ In fd (map fst (p_files p')) /\ Permutation (p_files p) ((fd, f) :: p_files p')) /\
    (phase_of log h <> Some Up -> r = -1 /\ p' = p).
Proof.
  intros N R Al. pose proof (reached_inv initial N log p R) as I. destruct (disconnect_inv initial log p I h Al) as (r & p' & E & _ & D1 & D2 & D3). exists r, p'. split; [assumption|]. split.
  - intros Hp. split; [tauto|]. destruct (line_of initial log p I h Hp) as (o & fd & f & f1 & f2 & F & _ & Hfd & H0 & Ff & _ & _ & E1 & E2 & _). exists fd, f. split; [exists o; auto|].
    revert E. cbn [step]. unfold mbus_disconnect. destruct (Z.eqb_spec h 0); [exfalso; apply (proj1 Al); assumption|]. rewrite F, Hfd. destruct (Z.ltb_spec fd 0); [lia|]. intros E. injection E as _ <-.
    cbn [set_handles close set_files p_files]. rewrite E2. pose proof (i_files _ _ _ I) as Nf. rewrite E1 in *. rewrite map_app in *. cbn [map fst] in Nf.
    split; [exact (NoDup_remove_2 _ _ _ Nf)|]. apply Permutation_sym, Permutation_middle.
  - intros Hp. destruct D2 as [D2|D2]; [tauto|]. auto.
Qed.
(** NULL is answered with an error. *)
Theorem C67_null y attr b p : step (Connect y 0) p = Ok (-1, p) /\ step (Disconnect 0) p = Ok (-1, p) /\ step (SetBaudrate attr 0 b) p = Ok (-1, p) /\ step (FreeHandle 0) p = Ok (0, p).
Proof. repeat split. Qed.

(** *** Where the rules are needed *)
Definition tty_sys := mkSys (Some 5) true None.
Definition tcp_sys up := mkSys None true (Some [(None, true); (Some 5, up)]).
(** The states after a list of calls. *)
Fixpoint run (l : list call) (p : proc) : res (list Z * proc) :=
  match l with [] => Ok ([], p) | c :: l' => let* (r, p) := step c p in let* (rs, p) := run l' p in Ok (r :: rs, p) end.
(** Disconnecting a handle that was never connected reads an uninitialised descriptor. *)
Theorem C67_disconnect_new_needs_rule : exists log p h, reached [] log p /\ phase_of log h = Some New /\ step (Disconnect h) p = UB.
Proof.
  exists [(Create true true true true, 1)]. eexists. exists 1. split; [eapply (reached_step [] [] (start [])); [constructor|exact I|exact I|reflexivity]|]. split; reflexivity.
Qed.
(** After a failed TCP connect the handle keeps a closed descriptor: mbus_disconnect closes a descriptor of the rest of the
    process that got the number since. *)
Theorem C67_failed_tcp_needs_rule : exists p, run [Create false true true true; Connect (tcp_sys false) 1; OtherOpens 5] (start []) = Ok ([1; -1; 0], p) /\ foreign_files p = [5] /\
  exists p', step (Disconnect 1) p = Ok (0, p') /\ foreign_files p' = [].
Proof. eexists. split; [reflexivity|]. split; [reflexivity|]. eexists. split; reflexivity. Qed.
(** Connecting twice, or freeing a connected handle, leaves a descriptor open that no handle knows. *)
Theorem C67_twice_needs_rule : exists p, run [Create true true true true; Connect tty_sys 1; Connect (mkSys (Some 6) true None) 1; Disconnect 1; FreeHandle 1] (start []) = Ok ([1; 0; 0; 0; 0], p) /\
  p_handles p = [] /\ map fst (own_files p) = [5].
Proof. eexists. split; [vm_compute; reflexivity|]. split; vm_compute; reflexivity. Qed.
Theorem C67_free_connected_needs_rule : exists p, run [Create true true true true; Connect tty_sys 1; FreeHandle 1] (start []) = Ok ([1; 0; 0], p) /\
  p_handles p = [] /\ map fst (own_files p) = [5].
Proof. eexists. split; [vm_compute; reflexivity|]. split; vm_compute; reflexivity. Qed.

(** A history that meets the hypotheses: a serial and a TCP handle with all kinds of calls. *)
Definition half : Q := 1 # 2.
Definition ex_calls : list call :=
  [Create true true true true; Create false true true false; Create false true true true; OtherOpens 4; SetTimeout (Num half); Connect tty_sys 1;
   Connect (mkSys None true (Some [(None, false); (Some 6, false); (Some 7, true)])) 6; SetBaudrate true 1 9600; SetBaudrate true 1 9601; OtherCloses 4].
Fixpoint log_of (l : list call) (rs : list Z) (acc : history) : history :=
  match l, rs with c :: l', r :: rs' => log_of l' rs' ((c, r) :: acc) | _, _ => acc end.
Definition ex_log : history := log_of ex_calls [1; 0; 6; 0; 0; 0; 0; 0; -1; 0] [].
Lemma not_in_dec (x : Z) l : existsb (Z.eqb x) l = false -> ~ In x l.
Proof. intros H X. assert (existsb (Z.eqb x) l = true) by (apply existsb_exists; exists x; split; [assumption|apply Z.eqb_refl]). congruence. Qed.
Lemma half_ok : double half.
Proof. exists 1, 1. split; [lia|]. split; [lia|]. reflexivity. Qed.
Lemma ex_reached : exists p, reached [0; 1; 2] ex_log p.
Proof.
  eexists. unfold ex_log, ex_calls. cbn [log_of].
  let rec go := first [apply reached_start | eapply reached_step; [go | | | vm_compute; reflexivity]] in go.
  all: try exact I.
  - split; [lia|]. apply not_in_dec. reflexivity.
  - exists half. split; [reflexivity|]. right. split; [exact half_ok|]. reflexivity.
  - split; [discriminate|]. exists New. split; [reflexivity|discriminate].
  - split; [|discriminate]. intros fd E. injection E as <-. split; [lia|]. apply not_in_dec. reflexivity.
  - split; [discriminate|]. exists New. split; [reflexivity|discriminate].
  - split; [discriminate|]. intros l fd b E Hin. injection E as <-. destruct Hin as [X|[X|[X|[]]]]; [discriminate|injection X as <- _|injection X as <- _]; (split; [lia|apply not_in_dec; reflexivity]).
  - split; [discriminate|]. split; reflexivity.
  - split; [discriminate|]. split; reflexivity.
  - left. reflexivity.
Qed.
Example C67_example : NoDup [0; 1; 2] /\ configured ex_log /\ phase_of ex_log 1 = Some Up /\ kind_of ex_log 1 = Some true /\ phase_of ex_log 6 = Some Up /\ kind_of ex_log 6 = Some false /\ rate_of ex_log 1 = 9600 /\ timeout_at ex_log 6 = Some half.
Proof.
  split; [repeat constructor; intros X; cbn in X; intuition discriminate|]. split; [repeat constructor|]. repeat split.
Qed.

(** ** C68 *)
(** A value of VTIME that covers the longest reaction time of a slave, and no larger than needed. *)
Definition right_wait (rate tenths : Z) : Prop := long_enough rate tenths /\ ~ long_enough rate (tenths - 1) /\ 0 < tenths <= 255.
Lemma waits b v : baud_vtime b = Some v -> In b rates /\ right_wait b v.
Proof.
  unfold baud_vtime. repeat match goal with |- context [if b =? ?n then _ else _] => destruct (Z.eqb_spec b n) as [->|?]; [intros E; injection E as <-; split; [cbn; tauto|]; split; [vm_compute; discriminate|split; [intros X; revert X; vm_compute; intros X; apply X; reflexivity|lia]]|] end.
  discriminate.
Qed.
Lemma in_rates b : In b rates -> exists v, baud_vtime b = Some v.
Proof. intros H. cbn in H. repeat (destruct H as [<-|H]; [eexists; reflexivity|]). destruct H. Qed.

(** Every connected serial handle has the parameters of the M-Bus at the rate that was last set on it, and reads wait just
    long enough for the slowest slave. *)
Theorem C68_line initial log p h : NoDup initial -> reached initial log p -> configured log -> phase_of log h = Some Up -> kind_of log h = Some true ->
  exists fd t tenths, file_of p h fd (Tty (Some t)) /\ mbus_line (rate_of log h) tenths t /\ In (rate_of log h) rates /\ right_wait (rate_of log h) tenths.
Proof.
  intros N R C P K. destruct (reached_lines initial N log p R C) as [_ L]. destruct (L h true P K) as (fd & f & F & _ & t & v & -> & M & B). exists fd, t, v. split; [assumption|]. split; [assumption|].
  exact (waits _ _ B).
Qed.
(** The baud rates accepted are exactly those of the M-Bus; another one changes nothing. *)
Theorem C68_rates initial log p attr h b : NoDup initial -> reached initial log p -> allowed initial log (SetBaudrate attr h b) ->
  exists r p', step (SetBaudrate attr h b) p = Ok (r, p') /\ (r = 0 <-> In b rates /\ attr = true) /\ (r = 0 \/ r = -1) /\ (r = -1 -> p_files p' = p_files p) /\ (~ In b rates -> p' = p) /\
    (r = 0 -> exists fd t tenths, file_of p' h fd (Tty (Some t)) /\ mbus_line b tenths t /\ right_wait b tenths).
Proof.
  intros N R Al. pose proof (reached_inv initial N log p R) as I. destruct (baud_inv initial log p I attr h b Al) as (r & p' & E & _ & o & fd & t & t0 & F & Hfd & Ht & Hf & C). exists r, p'. split; [assumption|].
  destruct (baud_file initial attr h b log p r p' I Al (reached_terms initial log p R) E) as [B1 _].
  assert (Z0 : r = 0 -> exists fd t tenths, file_of p' h fd (Tty (Some t)) /\ mbus_line b tenths t /\ right_wait b tenths).
  { intros Hr. destruct (B1 Hr) as (fd' & t' & v & X1 & X2 & X3). exists fd', t', v. split; [assumption|]. split; [assumption|]. apply (waits _ _ X2). }
  destruct (baud_vtime b) as [v|] eqn:Ev.
  - pose proof (proj1 (waits _ _ Ev)) as Hin. destruct attr; destruct C as [-> C].
    + split; [tauto|]. split; [auto|]. split; [discriminate|]. split; [tauto|assumption].
    + split; [split; [discriminate|intros [_ X]; discriminate]|]. split; [auto|]. split; [auto|]. split; [tauto|assumption].
  - assert (Hin : ~ In b rates) by (intros X; destruct (in_rates b X); congruence). destruct C as [-> ->]. split; [split; [discriminate|tauto]|]. split; [auto|]. split; [auto|]. split; [auto|assumption].
Qed.
(** They are the rates a slave can be told to switch to. *)
Theorem C68_switch b : In b rates <-> exists ci, baud_ci b = Some ci.
Proof.
  split.
  - intros H. cbn in H. repeat (destruct H as [<-|H]; [eexists; reflexivity|]). destruct H.
  - intros (ci & H). revert H. unfold baud_ci, rates. cbn [In]. repeat match goal with |- context [if b =? ?n then _ else _] => destruct (Z.eqb_spec b n) as [->|?]; [tauto|] end. discriminate.
Qed.
(** mbus_connect does not notice that the parameters could not be set (for example, because the device is not a terminal). *)
Theorem C68_not_configured_refuted : exists p, run [Create true true true true; Connect (mkSys (Some 5) false None) 1] (start []) = Ok ([1; 0], p) /\ file_of p 1 5 (Tty None).
Proof. eexists. split; [reflexivity|]. eexists. split; [reflexivity|]. split; reflexivity. Qed.
(** Setting the baud rate of a TCP handle or of a handle that was never connected is undefined. *)
Theorem C68_tcp_refuted : exists p, run [Create false true true true; Connect (tcp_sys true) 1] (start []) = Ok ([1; 0], p) /\ step (SetBaudrate true 1 2400) p = UB.
Proof. eexists. split; reflexivity. Qed.
Theorem C68_new_refuted : exists p, run [Create true true true true] (start []) = Ok ([1], p) /\ step (SetBaudrate true 1 2400) p = UB.
Proof. eexists. split; reflexivity. Qed.
Example C68_example : exists p, reached [0; 1; 2] ex_log p /\ allowed [0; 1; 2] ex_log (SetBaudrate true 1 300) /\ right_wait 300 13.
Proof.
  destruct ex_reached as (p & R). exists p. split; [assumption|]. split; [split; [discriminate|split; reflexivity]|]. exact (proj2 (waits 300 13 eq_refl)).
Qed.

(** ** C69 *)
(** Every connected TCP handle has, for sending and receiving, the timeout that was in force when it was connected. *)
Theorem C69_timeout initial log p h : NoDup initial -> reached initial log p -> configured log -> phase_of log h = Some Up -> kind_of log h = Some false ->
  exists fd tv, file_of p h fd (Sock (Some tv) (Some tv)) /\ timeout_is (timeout_at log h) tv.
Proof.
  intros N R C P K. destruct (reached_lines initial N log p R C) as [_ L]. destruct (L h false P K) as (fd & f & F & _ & tv & -> & T). exists fd, tv. auto.
Qed.
(** Timeouts from 0 on are accepted and kept to the microsecond, negative ones are refused without effect. *)
Theorem C69_set q p : double q -> (q < inject_Z (2 ^ 31))%Q -> exists tv, step (SetTimeout (Num q)) p = Ok (0, mkP (p_files p) (p_blocks p) (p_next p) (p_handles p) tv) /\ time_value q tv.
Proof.
  intros D L. assert (Q0 : (0 <= q)%Q). { destruct D as (m & k & Hm & Hk & ->). unfold Qle. cbn. lia. }
  destruct (timeout_spec q p D Q0 L) as (sec & usec & E & T1 & T2 & T3 & T4). exists (sec, usec). split; [exact E|]. apply ulp_le; assumption.
Qed.
Theorem C69_negative q p : (q < 0)%Q -> step (SetTimeout (Num q)) p = Ok (-1, p) /\ step (SetTimeout (NonFinite true false)) p = Ok (-1, p).
Proof. intros N. split; [|reflexivity]. cbn [step]. unfold mbus_tcp_set_timeout_set. replace (Qnum q <? 0) with true by (destruct q as [n d]; unfold Qlt in N; cbn in *; lia). reflexivity. Qed.
(** A whole number of seconds is exact. *)
Theorem C69_whole n p : 0 <= n < 2 ^ 31 -> step (SetTimeout (Num (inject_Z n))) p = Ok (0, mkP (p_files p) (p_blocks p) (p_next p) (p_handles p) (n, 0)).
Proof.
  intros H. cbn [step]. unfold mbus_tcp_set_timeout_set. cbn [Qnum inject_Z]. destruct (Z.ltb_spec n 0); [lia|]. unfold double_to_int at 1. unfold Qtrunc. cbn [Qnum Qden inject_Z]. rewrite Z.quot_1_r.
  unfold int_op. replace (CBase.in_int n) with true by (symmetry; unfold CBase.in_int, INT_MIN, INT_MAX; lia). cbn [bind].
  assert (D0 : forall q, (q == 0)%Q -> (dround q == 0)%Q) by (intros q Hq; rewrite (dround_exact q 0 0); [exact Hq|lia|lia|exact Hq]).
  assert (E : double_to_int (rmul (radd (Num (inject_Z n)) (inject_Z (- n))) (inject_Z 1000000)) = Ok 0).
  { cbn [rmul radd]. unfold double_to_int, Qtrunc. assert (Z0 : (dround (dround (inject_Z n + inject_Z (- n)) * inject_Z 1000000) == 0)%Q).
    { apply D0. rewrite D0; [reflexivity|]. rewrite inject_Z_opp. ring. }
    assert (Qnum (dround (dround (inject_Z n + inject_Z (- n)) * inject_Z 1000000)) = 0) as -> by (unfold Qeq in Z0; cbn [Qnum Qden] in Z0; lia). rewrite Z.quot_0_l by discriminate. reflexivity. }
  rewrite E. reflexivity.
Qed.
(** A timeout that does not fit the type int is undefined. *)
Theorem C69_large_undefined p : step (SetTimeout (Num (inject_Z (2 ^ 31)))) p = UB /\ forall neg, step (SetTimeout (NonFinite neg true)) p = UB /\ step (SetTimeout (NonFinite false false)) p = UB.
Proof. split; [reflexivity|]. intros []; split; reflexivity. Qed.
(** A positive timeout below a microsecond is no timeout at all: reads then wait forever. *)
Theorem C69_tiny_no_timeout p : exists q, (0 < q)%Q /\ double q /\ step (SetTimeout (Num q)) p = Ok (0, mkP (p_files p) (p_blocks p) (p_next p) (p_handles p) (0, 0)).
Proof.
  exists (1 # 1048576)%Q. split; [reflexivity|]. split; [exists 1, 20; split; [lia|]; split; [lia|reflexivity]|]. vm_compute. reflexivity.
Qed.
Print Assumptions C67_defined.
Print Assumptions C67_descriptors.
Print Assumptions C67_memory.
Print Assumptions C67_nothing_left.
Print Assumptions C67_create.
Print Assumptions C67_connect.
Print Assumptions C67_disconnect.
Print Assumptions C67_null.
Print Assumptions C67_disconnect_new_needs_rule.
Print Assumptions C67_failed_tcp_needs_rule.
Print Assumptions C67_twice_needs_rule.
Print Assumptions C67_free_connected_needs_rule.
Print Assumptions C68_line.
Print Assumptions C68_rates.
Print Assumptions C68_switch.
Print Assumptions C68_not_configured_refuted.
Print Assumptions C68_tcp_refuted.
Print Assumptions C68_new_refuted.
Print Assumptions C69_timeout.
Print Assumptions C69_set.
Print Assumptions C69_negative.
Print Assumptions C69_whole.
Print Assumptions C69_large_undefined.
Print Assumptions C69_tiny_no_timeout.

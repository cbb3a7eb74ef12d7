(** Proofs about the start of the programs. *)
From Coq Require Import QArith.
From Coq Require Import String.
From Coq Require Import List.
From Verif Require Import CBase PBase CStr MFrame MText SText MXml PText PXml3 MRecv MSecond MProto MDouble MConn SConn PConn PConn2 PConn3 PConn4 PropConn MErr SErr PErr MErrT PropErrT SXml MTools MProg MHex MMem MScan MCmd SCmd PCmd PropCmd MMain SMain.
From Coq Require Import Lia ZifyBool.
Local Open Scope Z_scope.

Lemma serial_same p : over_serial p = SCmd.serial p. Proof. destruct p; reflexivity. Qed.
Lemma no_text_ok : err_ok no_text. Proof. split; [reflexivity|]. left. reflexivity. Qed.
Lemma no_text_empty : shown_text no_text = []. Proof. reflexivity. Qed.
Lemma says_shown e m : says e m -> (List.length m <= 511)%nat -> shown_text e = m.
Proof. intros [_ H] L. transitivity (SErr.c_text e); [reflexivity|]. rewrite H. apply firstn_all2. exact L. Qed.
Lemma no_context_is p e : no_context p e = no_handle p (shown_text e).
Proof. unfold no_context, no_handle. destruct p; reflexivity. Qed.
Lemma no_line_is p e : no_line p e = no_connection p (shown_text e).
Proof. unfold no_line, no_connection. destruct p; cbn [is_scan]; rewrite ?app_nil_r; reflexivity. Qed.
Lemma name_is p : context_name (over_serial p) = library_name p.
Proof. unfold library_name. rewrite serial_same. unfold context_name. destruct (SCmd.serial p); reflexivity. Qed.


(** The process after the context was created. *)
Definition made (serial : bool) (initial : list Z) : proc :=
  mkP (map (fun fd => (fd, Foreign)) initial) [3; 2; 1] 4 [(1, mkO serial None (Some (2, 3)) None)] (4, 0).
Lemma context_made serial initial : mbus_context serial true true true (start initial) = Ok (1, made serial initial).
Proof. reflexivity. Qed.
Lemma context_made_e serial initial e : mbus_context_e serial true true true e (start initial) = Ok (1, made serial initial, e, []).
Proof. reflexivity. Qed.

Section Start.
  Variables (p : prog) (o : opts) (v : env) (initial : list Z).
  Hypothesis Nd : NoDup initial.
  Hypothesis Fr : fresh_fds initial (v_sys v).
  Hypothesis Tk : talks p.
  Notation ser := (SCmd.serial p).
  (** The system as far as the line looks at it. *)
  Definition sys : system := mkSys (s_open (v_sys v)) (if ser then s_attr (v_sys v) else true) (s_info (v_sys v)).
  Definition log1 : history := [(Create ser true true true, 1)].
  Lemma reached1 : reached initial log1 (made ser initial).
  Proof. apply reached_step with (p := start initial); [constructor|exact I|exact I|apply context_made]. Qed.
  Lemma allowed1 : SConn.allowed initial log1 (Connect sys 1).
  Proof. split; [discriminate|]. exists New. split; [reflexivity|discriminate]. Qed.
  Lemma sys1 : system_ok (Connect sys 1) (made ser initial).
  Proof.
    assert (K : forall fd, ~ In fd initial -> ~ In fd (map fst (p_files (made ser initial)))).
    { intros fd H X. apply H. cbn in X. rewrite map_map in X. cbn in X. rewrite map_id in X. exact X. }
    destruct Fr as [F1 F2]. split; cbn [sys s_open s_info]; [intros fd E; destruct (F1 fd E); split; auto|intros l fd b E I; destruct (F2 l fd b E I); split; auto].
  Qed.
  Lemma kind1 : SConn.kind_of log1 1 = Some ser. Proof. reflexivity. Qed.
  Lemma connect_same : mbus_connect (v_sys v) 1 (made ser initial) = mbus_connect sys 1 (made ser initial).
  Proof. unfold mbus_connect, sys. cbn [made p_handles find fst Z.eqb]. change (find 1 [(1, mkO ser None (Some (2, 3)) None)]) with (Some (mkO ser None (Some (2, 3)) None)). cbn [ob_serial s_open s_attr s_info]. destruct ser; reflexivity. Qed.

  Hypothesis Zt : SCmd.tcp p = true -> ~ In 0 (o_target o) /\ 0 <= o_port o <= 65535.
  Hypothesis Zw : ~ In 0 (v_why v).
  Lemma other : SCmd.tcp p = negb ser. Proof. destruct p; try reflexivity; destruct Tk; discriminate. Qed.
  Lemma accepts_none l : accepts l = None <-> forall s, ~ In (Some s, true) l.
  Proof.
    induction l as [|[[s|] [|]] l IH]; cbn [accepts].
    - split; [intros _ s H; exact H|reflexivity].
    - split; [discriminate|intros H; exfalso; apply (H s); left; reflexivity].
    - rewrite IH. split; intros H x; [intros [X|X]; [discriminate|exact (H x X)]|intros X; exact (H x (or_intror X))].
    - rewrite IH. split; intros H x; [intros [X|X]; [discriminate|exact (H x X)]|intros X; exact (H x (or_intror X))].
    - rewrite IH. split; intros H x; [intros [X|X]; [discriminate|exact (H x X)]|intros X; exact (H x (or_intror X))].
  Qed.
  Lemma cut127 {A} (l : list A) : (List.length (firstn 127 l) <= 511)%nat.
  Proof. pose proof (firstn_le_length 127 l). rewrite firstn_length. lia. Qed.
  Lemma connect_told : v_m1 v = true -> v_m2 v = true -> v_m3 v = true ->
    exists r p' e' err, mbus_connect_e (v_sys v) (o_target o) (o_port o) (v_why v) 1 no_text (made ser initial) = Ok (r, p', e', err) /\
      step (Connect sys 1) (made ser initial) = Ok (r, p') /\
      match line_opened ser (v_sys v) with
      | Some _ => r = 0 /\ err = []
      | None => r = -1 /\ stops p o v true (err ++ no_line p e')
      end.
  Proof.
    intros M1 M2 M3. cbn [step]. rewrite <- connect_same. unfold mbus_connect_e, mbus_connect. change (1 =? 0) with false. cbv iota.
    change (find 1 (p_handles (made ser initial))) with (Some (mkO ser None (Some (2, 3)) None)). cbv iota beta. cbn [ob_serial].
    set (ob := mkO ser None (Some (2, 3)) None). destruct ser eqn:S.
    - destruct (C87_serial_connect (s_open (v_sys v)) (s_attr (v_sys v)) 1 ob (made true initial)) as (r & p' & err & E1 & E2 & E3 & E4 & _).
      exists r, p', no_text, err. rewrite E1, E2. split; [reflexivity|]. split; [reflexivity|]. cbn [line_opened].
      destruct (s_open (v_sys v)) as [fd|] eqn:O.
      + split; [|apply E4; discriminate]. cbn in E1. injection E1 as <- _. reflexivity.
      + destruct E3 as [-> ->]; [discriminate|reflexivity|]. split; [reflexivity|]. rewrite no_line_is, no_text_empty. apply no_device; assumption.
    - assert (T : SCmd.tcp p = true) by (rewrite other, S; reflexivity). destruct (Zt T) as [Z1 Z2].
      destruct (C87_tcp_connect (s_info (v_sys v)) (o_target o) (o_port o) (v_why v) 1 ob no_text (made false initial) no_text_ok Z1 Zw ltac:(lia) ltac:(discriminate)) as (r & p' & e' & E1 & E2 & E3).
      exists r, p', e', []. rewrite E1, E2. split; [reflexivity|]. split; [reflexivity|]. cbn [line_opened]. rewrite no_line_is. cbn [app].
      destruct (s_info (v_sys v)) as [l|] eqn:O.
      + destruct E3 as [(-> & (s & Hs) & _)|(-> & Hn & Sy)].
        * destruct (accepts l) eqn:A; [auto|]. exfalso. exact (proj1 (accepts_none l) A s Hs).
        * rewrite (proj2 (accepts_none l) Hn). split; [reflexivity|]. rewrite (says_shown _ _ Sy (cut127 _)). eapply no_answer; try eassumption; [apply accepts_none; exact Hn|apply decimal_fmt_d].
      + destruct E3 as [-> Sy]. split; [reflexivity|]. rewrite (says_shown _ _ Sy (cut127 _)). apply no_host; assumption.
  Qed.

  (** The handle and the line at the end. *)
  Lemma closing log pr : reached initial log pr -> (forall h, h <> 1 -> phase_of log h = None) -> phase_of log 1 = Some Up -> others initial log = initial ->
    exists r pr' pr2, mbus_disconnect 1 pr = Ok (r, pr') /\ mbus_context_free 1 pr' = Ok pr2 /\ nothing_left initial pr2.
  Proof.
    intros R H1 H2 H3. assert (A1 : SConn.allowed initial log (Disconnect 1)) by (split; [discriminate|auto]).
    destruct (C67_disconnect initial log pr 1 Nd R A1) as (r & pr' & E1 & D1 & _). destruct (D1 H2) as [-> _].
    assert (R1 : reached initial ((Disconnect 1, 0) :: log) pr') by (eapply reached_step; [exact R|exact A1|exact I|exact E1]).
    assert (P1 : phase_of ((Disconnect 1, 0) :: log) 1 = Some Down) by (cbn; reflexivity).
    assert (A2 : SConn.allowed initial ((Disconnect 1, 0) :: log) (FreeHandle 1)) by (split; [discriminate|exists Down; split; [exact P1|discriminate]]).
    destruct (C67_defined initial _ pr' (FreeHandle 1) Nd R1 A2 I) as (r2 & pr2 & E2). exists 0, pr', pr2. split; [exact E1|].
    assert (R2 : reached initial ((FreeHandle 1, r2) :: (Disconnect 1, 0) :: log) pr2) by (eapply reached_step; [exact R1|exact A2|exact I|exact E2]).
    cbn [step] in E2. split; [destruct (mbus_context_free 1 pr'); [cbn [bind] in E2; congruence|discriminate]|].
    destruct (C67_nothing_left initial _ pr2 Nd R2) as (L1 & L2 & L3).
    { intros h. cbn [phase_of]. destruct (Z.eqb_spec 1 h); [reflexivity|]. apply H1. congruence. }
    split; [exact L1|]. split; [exact L2|]. rewrite L3. exact H3.
  Qed.
  Lemma phases2 r y : phase_of ((Connect y 1, r) :: log1) 1 = (if r =? 0 then Some Up else Some Failed) /\ forall h, h <> 1 -> phase_of ((Connect y 1, r) :: log1) h = None.
  Proof. split; [reflexivity|]. intros h H. cbn. destruct h as [|[q|q|]|q]; try reflexivity. exfalso; apply H; reflexivity. Qed.
  Lemma scans_is : is_scan p = true <-> scans p.
  Proof. unfold scans. destruct p; cbn; intuition discriminate. Qed.
  Lemma same_fd y p1 attr b p2 fd ob fd' : mbus_connect y 1 (made true initial) = Ok (0, p1) -> s_open y = Some fd -> mbus_serial_set_baudrate attr 1 b p1 = Ok (0, p2) ->
    find 1 (p_handles p2) = Some ob -> ob_fd ob = Some fd' -> fd' = fd.
  Proof.
    intros E1 O E2 F1 F2. unfold mbus_connect, mbus_serial_connect in E1. rewrite O in E1. cbn in E1. injection E1 as <-.
    unfold mbus_serial_set_baudrate in E2. cbn in E2. destruct (baud_vtime b) as [k|]; [|discriminate]. cbn in E2. rewrite Z.eqb_refl in E2. destruct attr; [|discriminate]. injection E2 as <-. cbn in F1. injection F1 as <-. cbn in F2. congruence.
  Qed.
  Lemma file_det pr h fd f fd' f' : file_of pr h fd f -> file_of pr h fd' f' -> fd = fd'.
  Proof. intros (ob & F1 & F2 & _) (ob' & F3 & F4 & _). congruence. Qed.
  Lemma options : ((scans p -> 0 <= o_retries o <= 9) /\
      (if is_scan p then mbus_context_set_option (if ser then mbus_context_serial else mbus_context_tcp) 1 (o_retries o) else (0, if ser then mbus_context_serial else mbus_context_tcp)) = (0, program_handle p o)) \/
    (scans p /\ ~ 0 <= o_retries o <= 9 /\ exists hd,
      (if is_scan p then mbus_context_set_option (if ser then mbus_context_serial else mbus_context_tcp) 1 (o_retries o) else (0, if ser then mbus_context_serial else mbus_context_tcp)) = (-1, hd)).
  Proof.
    destruct (is_scan p) eqn:Sc.
    - pose proof (proj1 scans_is Sc) as Sp. unfold mbus_context_set_option. change (1 =? 0) with false. change (1 =? 1) with true. cbv iota.
      destruct ((o_retries o >=? 0) && (o_retries o <=? 9)) eqn:Rt.
      + left. split; [intros _; lia|]. unfold program_handle. destruct Sp as [-> | ->]; reflexivity.
      + right. split; [exact Sp|]. split; [lia|]. eexists. reflexivity.
    - left. split; [intros X; apply scans_is in X; congruence|]. unfold program_handle. destruct p; try discriminate; reflexivity.
  Qed.
  Definition begun (s : res started) : Prop :=
    (ready p o v /\ exists pr1 r pr' pr2, s = Ok (Started 1 (program_handle p o) [] pr1) /\ prepared p o v pr1 /\
       mbus_disconnect 1 pr1 = Ok (r, pr') /\ mbus_context_free 1 pr' = Ok pr2 /\ nothing_left initial pr2) \/
    (~ ready p o v /\ exists asked msg pr1, s = Ok (Stopped asked msg pr1) /\ stops p o v asked msg).
  Lemma starts : begun (startup p o v no_text (start initial)).
  Proof.
    unfold startup. rewrite serial_same.
    destruct (C87_context ser (v_m1 v) (v_m2 v) (v_m3 v) no_text (start initial) no_text_ok) as (r0 & p0 & e0 & err0 & Ec & -> & C). cbn [bind].
    destruct (v_m1 v) eqn:M1.
    2:{ destruct C as (-> & -> & ->). right. split; [intros (X & _); congruence|]. rewrite Z.eqb_refl. do 3 eexists. split; [reflexivity|]. rewrite no_context_is, no_text_empty.
        rewrite <- !app_assoc. pose proof (no_memory_1 p o v M1) as K. unfold library_name in K. destruct ser; exact K. }
    destruct (v_m2 v) eqn:M2.
    2:{ destruct C as (-> & Sy & ->). right. split; [intros (_ & X & _); congruence|]. rewrite Z.eqb_refl. do 3 eexists. split; [reflexivity|]. rewrite no_context_is. cbn [app].
        rewrite (says_shown _ _ Sy) by (destruct ser; vm_compute; repeat constructor). pose proof (no_memory_2 p o v M1 M2) as K. unfold library_name in K. destruct ser; exact K. }
    destruct (v_m3 v) eqn:M3.
    2:{ destruct C as (-> & Sy & ->). right. split; [intros (_ & _ & X & _); congruence|]. rewrite Z.eqb_refl. do 3 eexists. split; [reflexivity|]. rewrite no_context_is. cbn [app].
        rewrite (says_shown _ _ Sy) by (destruct ser; vm_compute; repeat constructor). pose proof (no_memory_3 p o v M1 M2 M3) as K. unfold library_name in K. destruct ser; exact K. }
    destruct C as [-> ->]. rewrite context_made in Ec. injection Ec as <- <-. change (1 =? 0) with false. cbv iota.
    destruct (connect_told M1 M2 M3) as (r & p1 & e1 & err & -> & E1 & C). cbn [bind app].
    destruct (line_opened ser (v_sys v)) as [fd|] eqn:Lo.
    2:{ destruct C as [-> St]. right. split; [intros (_ & _ & _ & X & _); congruence|]. change (-1 =? -1) with true. cbv iota. do 3 eexists. split; [reflexivity|exact St]. }
    destruct C as [-> ->]. change (0 =? -1) with false. cbv iota.
    assert (Lo' : line_opened ser (v_sys v) <> None) by congruence.
    assert (R2 : reached initial ((Connect sys 1, 0) :: log1) p1) by (eapply reached_step; [apply reached1|apply allowed1|apply sys1|exact E1]).
    destruct (phases2 0 sys) as [P1 P2]. change (0 =? 0) with true in P1. cbv iota in P1.
    destruct options as [(Rt & ->)|(Sp & Rt & hd & ->)].
    2:{ right. split; [intros (_ & _ & _ & _ & X & _); auto|]. change (-1 =? -1) with true. cbv iota. do 3 eexists. split; [reflexivity|]. apply bad_retries; assumption. }
    change (0 =? -1) with false. cbv iota. destruct ser eqn:S.
    - (* serial *)
      assert (Al : SConn.allowed initial ((Connect sys 1, 0) :: log1) (SetBaudrate (v_attr v) 1 (o_baud o))).
      { split; [discriminate|]. split; [exact P1|]. cbn. rewrite S. reflexivity. }
      destruct (C68_rates initial _ p1 (v_attr v) 1 (o_baud o) Nd R2 Al) as (r & p2 & E2 & Hr & Hr' & _ & _ & Li). cbn [step] in E2. rewrite E2. cbn [bind].
      assert (R3 : reached initial ((SetBaudrate (v_attr v) 1 (o_baud o), r) :: (Connect sys 1, 0) :: log1) p2) by (eapply reached_step; [exact R2|exact Al|exact I|exact E2]).
      destruct Hr' as [-> | ->].
      + change (0 =? -1) with false. cbv iota. destruct (proj1 Hr eq_refl) as [Br At]. destruct (Li eq_refl) as (fd' & t & tenths & Fo & Ml & Rw).
        assert (fd' = fd). { destruct Fo as (ob & F1 & F2 & _). eapply same_fd; [exact E1|exact Lo|exact E2|exact F1|exact F2]. } subst fd'.
        assert (Pr : prepared p o v p2). { exists 1, fd. rewrite S. split; [exact Lo|]. exists t, tenths. auto. }
        destruct (closing _ p2 R3) as (rc & pr' & pr2 & X1 & X2 & X3); [exact P2|exact P1|reflexivity|].
        assert (K : (p = SerialScanSecondary /\ v_frame v = false) \/ (p = SerialScanSecondary -> v_frame v = true)) by (destruct (v_frame v); [auto|destruct p; auto; right; discriminate]).
        destruct K as [[Hp Vf]|K].
        * right. split; [intros (_ & _ & _ & _ & _ & _ & X); specialize (X Hp); congruence|]. exists true, (cstr "Failed to allocate mbus frame." ++ [10]), p2. split; [clear - Hp Vf; rewrite Hp, Vf; reflexivity|]. apply no_frame; auto. rewrite S. congruence.
        * left. split. { unfold ready. rewrite S. split; [exact M1|]. split; [exact M2|]. split; [exact M3|]. split; [congruence|]. auto. }
          exists p2, rc, pr', pr2. split; [|auto]. destruct p; try reflexivity. rewrite (K eq_refl). reflexivity.
      + change (-1 =? -1) with true. cbv iota. right. split. { intros (_ & _ & _ & _ & _ & X & _). specialize (X S). apply Hr in X. discriminate. }
        do 3 eexists. split; [reflexivity|]. apply bad_rate; auto. { rewrite S. congruence. } intros X. apply Hr in X. discriminate.
    - (* tcp *)
      cbn [bind]. change (0 =? -1) with false. cbv iota.
      destruct (C69_timeout initial _ p1 1 Nd R2) as (fd' & tv & Fo & Tv); [repeat constructor; cbn; rewrite ?S; reflexivity|exact P1|cbn; rewrite S; reflexivity|]. cbn in Tv. subst tv.
      assert (fd' = fd).
      { destruct (C67_connect initial log1 (made false initial) sys 1 false Nd) as (r & p1' & E1' & K); [rewrite <- S; exact reached1|exact allowed1|rewrite <- S; exact sys1|rewrite <- S; exact kind1|].
        rewrite E1' in E1. injection E1 as -> ->. change (line_opened false sys) with (line_opened false (v_sys v)) in K. rewrite Lo in K. destruct K as (_ & f & _ & Fo' & _). exact (file_det _ _ _ _ _ _ Fo Fo'). } subst fd'.
      destruct (closing _ p1 R2) as (rc & pr' & pr2 & X1 & X2 & X3); [exact P2|exact P1|reflexivity|].
      left. split. { unfold ready. rewrite S. split; [exact M1|]. split; [exact M2|]. split; [exact M3|]. split; [congruence|]. split; [exact Rt|]. split; [discriminate|]. intros X. clear - X S. rewrite X in S. discriminate. }
      exists p1, rc, pr', pr2. split; [destruct p; try reflexivity; discriminate|]. split; [|auto]. exists 1, fd. rewrite S. auto.
  Qed.
End Start.

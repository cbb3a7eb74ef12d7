(** Proofs about the diagnostics of the transport layers. *)
From Coq Require Import String.
From Coq Require Import List.
From Verif Require Import CBase PBase CStr MFrame SWire SFrame PFrame PFrame2 MText MXml MRecv SRecv PRecv MProto PProto PProto2 PReq2 MDouble MConn MErr SErr PErr PErr2 PErr3 PErr4 PErr5 MErrT SErrT.
Local Open Scope Z_scope.

Lemma parse_frame_bytes f bs r f' : frame_bytes f -> bytes bs -> mbus_parse f bs = Ok (r, f') -> frame_bytes f'.
Proof.
  intros [Hf Hd] Hb E. split; [|exact (parse_bytes f bs r f' Hd Hb E)].
  assert (RD : forall i b, rd bs i = Ok b -> is_byte b).
  { intros i b X. apply rd_inv in X. destruct X as [Hl <-]. apply bytes_nth; assumption. }
  rewrite !bytes_cons in Hf. unfold mbus_parse in E.
  repeat match type of E with
  | context [bind (copy_loop ?n ?d ?o ?s ?i) _] => destruct (copy_loop n d o s i) as [?|]; cbn [bind] in E; [|discriminate]
  | context [bind (rd ?l ?i) _] => let E' := fresh "E'" in destruct (rd l i) eqn:E'; cbn [bind] in E; [apply RD in E'|discriminate]
  | context [bind (mbus_frame_verify ?x) _] => destruct (mbus_frame_verify x); cbn [bind] in E; [|discriminate]
  | (if ?b then _ else _) = _ => destruct b
  end; apply ok_inj in E;
  (match type of E with (_, ?g) = _ => assert (X : g = f') by congruence end);
  rewrite <- X; unfold set_next; cbn [start1 length1 length2 start2 control address ctrl_info checksum stop];
  rewrite !bytes_cons; unfold is_byte in *; intuition (lia || constructor).
Qed.

(** A step of the parser inside a receive loop. *)
Lemma parse_step e f got : List.length e = 512%nat -> frame_obj f -> frame_bytes f -> bytes got ->
  exists r f' e', mbus_parse_e e (Some f) (Some got) = Ok (r, Some f', e') /\ mbus_parse f got = Ok (r, f') /\
    frame_obj f' /\ frame_bytes f' /\ List.length e' = 512%nat /\
    ((0 <= r /\ e' = e /\ forall r' m, ~ telegram_fault got r' m) \/ (r < 0 /\ exists m, telegram_fault got r m /\ says e' m)).
Proof.
  intros He Ho Hf Hb. destruct (parse_names e f got He Ho Hf Hb) as (r & f' & e' & P1 & P2 & P3).
  exists r, f', e'. split; [exact P1|]. split; [exact P2|].
  destruct (parse_total f got Ho Hb) as (r0 & f0 & E & Ho0). assert (f0 = f') by congruence. subst f0.
  split; [exact Ho0|]. split; [exact (parse_frame_bytes _ _ _ _ Hf Hb P2)|].
  destruct P3 as [(A & -> & C)|(m & F & S1 & _)].
  - split; [exact He|]. left. auto.
  - split; [exact (says_len _ _ S1)|]. right. split; [exact (fault_negative _ _ _ F)|]. eauto.
Qed.

Lemma set_says e m : List.length e = 512%nat -> ~ In 0 m -> exists e', mbus_error_str_set e (Some m) = Ok e' /\ says e' m.
Proof. exact (say_ok e m). Qed.

Ltac setting S1 := match goal with |- context [mbus_error_str_set ?e (Some ?m)] =>
  let e' := fresh "e" in let E := fresh "E" in
  destruct (set_says e m ltac:(assumption) ltac:(nozero)) as (e' & E & S1); rewrite E; cbn [bind] end.

Lemma tcp_told_loop : forall fuel e f evs got rem, List.length e = 512%nat -> frame_obj f -> frame_bytes f -> bytes got -> ev_bytes evs -> loop_inv got rem ->
  match tcp_loop fuel f evs got rem with
  | Ok (Some (c, f', es, g)) => exists e', tcp_loop_e fuel e f evs got rem = Ok (Some (c, f', es, g, e', [])) /\ told e (tcp_text c) e' /\
      frame_obj f' /\ frame_bytes f' /\ ev_bytes es
  | Ok None => tcp_loop_e fuel e f evs got rem = Ok None
  | UB => False
  end.
Proof.
  induction fuel as [|fuel IH]; intros e f evs got rem He Ho Hf Hb Hev Hi; [reflexivity|].
  cbn [tcp_loop tcp_loop_e]. destruct (loop_inv_bound got rem Hi) as [H0 H1].
  destruct (Z.gtb_spec (Z.of_nat (List.length got) + rem) PACKET_BUFF_SIZE) as [X|_]; [unfold PACKET_BUFF_SIZE in X; lia|].
  destruct (read_ev (RErr EAgain) evs (Z.to_nat rem)) as [[bs|x] es] eqn:Er.
  - destruct (read_bytes_stream _ _ _ _ _ (or_intror (ex_intro _ EAgain eq_refl)) Er) as (_ & Hl & HB & _).
    destruct (HB Hev) as [Hbs Hes].
    destruct (List.length bs =? 0)%nat.
    { setting S1. eexists. split; [reflexivity|]. split; [exact S1|]. auto. }
    destruct (Z.gtb_spec (Z.of_nat (List.length got) + Z.of_nat (List.length bs)) PACKET_BUFF_SIZE) as [X|_]; [unfold PACKET_BUFF_SIZE in X; lia|].
    assert (Hg : bytes (got ++ bs)) by (apply Forall_app; auto).
    destruct (parse_step e f (got ++ bs) He Ho Hf Hg) as (r & f' & e1 & P1 & P2 & Ho1 & Hf1 & He1 & P3). rewrite P1, P2. cbn [bind].
    destruct (Z.gtb_spec r 0) as [Hr|Hr].
    + destruct P3 as [(_ & -> & _)|(P3 & _)]; [|lia].
      apply IH; try assumption. exact (loop_inv_next f got bs r f' Ho Hg P2 Hr).
    + destruct (Z.ltb_spec r 0) as [Hn|Hn].
      * setting S1. eexists. split; [reflexivity|]. split; [exact S1|]. auto.
      * destruct P3 as [(_ & -> & _)|(P3 & _)]; [|lia]. eexists. split; [reflexivity|]. split; [reflexivity|]. auto.
  - destruct (read_err_stream evs _ x es (RErr EAgain) (or_intror eq_refl) Er) as (_ & _ & HB & _ & C). specialize (HB Hev).
    assert (C' : x = EIntr \/ x = EAgain \/ x = EOther). { destruct C as [(tl & _ & _ & C)|(_ & _ & _ & ->)]; auto. }
    destruct C' as [->|[->| ->]].
    + apply IH; assumption.
    + setting S1. eexists. split; [reflexivity|]. split; [exact S1|]. auto.
    + setting S1. eexists. split; [reflexivity|]. split; [exact S1|]. auto.
Qed.

Lemma serial_told_loop : forall fuel e f evs got rem tm, List.length e = 512%nat -> frame_obj f -> frame_bytes f -> bytes got -> ev_bytes evs ->
  loop_inv got rem -> (got = [] -> tm = 0) -> (got <> [] -> forall r m, ~ telegram_fault got r m) ->
  match serial_loop fuel f evs got rem tm with
  | Ok (Some (c, f', es, g)) => exists e' err, serial_loop_e fuel e f evs got rem tm = Ok (Some (c, f', es, g, e', err)) /\ serial_told e c g e' err /\
      List.length e' = 512%nat /\ frame_obj f' /\ frame_bytes f' /\ ev_bytes es
  | Ok None => serial_loop_e fuel e f evs got rem tm = Ok None
  | UB => False
  end.
Proof.
  induction fuel as [|fuel IH]; intros e f evs got rem tm He Ho Hf Hb Hev Hi Htm Hnf; [reflexivity|].
  cbn [serial_loop serial_loop_e]. destruct (loop_inv_bound got rem Hi) as [H0 H1].
  destruct (Z.gtb_spec (Z.of_nat (List.length got) + rem) PACKET_BUFF_SIZE) as [X|_]; [unfold PACKET_BUFF_SIZE in X; lia|].
  destruct (read_ev (RBytes []) evs (Z.to_nat rem)) as [[bs|x] es] eqn:Er.
  2:{ destruct (read_err_stream evs _ x es (RBytes []) (or_introl eq_refl) Er) as (_ & _ & HB & _). specialize (HB Hev).
      do 2 eexists. split; [reflexivity|]. split; [apply ST_error|]. auto. }
  destruct (read_bytes_stream _ _ _ _ _ (or_introl eq_refl) Er) as (_ & Hl & HB & _).
  destruct (HB Hev) as [Hbs Hes]. cbv zeta.
  destruct ((Z.of_nat (List.length bs) =? 0) && ((if Z.of_nat (List.length bs) =? 0 then tm + 1 else tm) >=? 3)) eqn:E3.
  { assert (got <> []) as Hg. { intros ->. rewrite (Htm eq_refl) in E3. destruct (Z.of_nat (List.length bs) =? 0); cbn in E3; discriminate. }
    unfold serial_finish, serial_finish_e. destruct (List.length got =? 0)%nat eqn:E0. { destruct got; [contradiction|discriminate]. }
    destruct (Z.eqb_spec rem 0) as [X|_]; [lia|]. cbn [negb].
    do 2 eexists. split; [reflexivity|]. split; [apply ST_cut; [exact Hg|exact (Hnf Hg)]|]. auto. }
  destruct (Z.gtb_spec (Z.of_nat (List.length got) + Z.of_nat (List.length bs)) PACKET_BUFF_SIZE) as [X|_]; [unfold PACKET_BUFF_SIZE in X; lia|].
  assert (Hg : bytes (got ++ bs)) by (apply Forall_app; auto).
  destruct (parse_step e f (got ++ bs) He Ho Hf Hg) as (r & f' & e1 & P1 & P2 & Ho1 & Hf1 & He1 & P3). rewrite P1, P2. cbn [bind].
  destruct (Z.gtb_spec r 0) as [Hr|Hr].
  - destruct P3 as [(_ & -> & P3)|(P3 & _)]; [|lia].
    apply IH; try assumption; [exact (loop_inv_next f got bs r f' Ho Hg P2 Hr)| |intros _; exact P3].
    intros E. rewrite E, parse_nil in P2. apply ok_inj in P2. exfalso. assert (r = -1) by congruence. lia.
  - unfold serial_finish, serial_finish_e. destruct (List.length (got ++ bs) =? 0)%nat eqn:E0.
    + assert (got ++ bs = []) as E by (destruct (got ++ bs); [reflexivity|discriminate]).
      rewrite E in *. do 2 eexists. split; [reflexivity|].
      destruct P3 as [(_ & _ & P3)|(_ & m & F & S1)]; [destruct (P3 _ _ TF_empty)|].
      split; [|auto]. apply ST_silence. inversion F; subst. exact S1.
    + assert (got ++ bs <> []) as N by (intros E; rewrite E in E0; discriminate).
      destruct (Z.eqb_spec r 0) as [->|Nr]; cbn [negb].
      * destruct P3 as [(_ & -> & _)|(P3 & _)]; [|lia]. do 2 eexists. split; [reflexivity|]. split; [apply ST_ok|]. auto.
      * destruct P3 as [(P3 & _)|(_ & m & F & S1)]; [lia|]. do 2 eexists. split; [reflexivity|]. split; [eapply ST_fault; eassumption|]. auto.
Qed.

(** What a receive call of a handle of either kind says. *)
Definition recv_told (serial : bool) (e : list Z) (c : Z) (got e' err : list Z) : Prop :=
  if serial then serial_told e c got e' err else told e (tcp_text c) e' /\ err = [].
Lemma handle_told h e f evs : List.length e = 512%nat -> frame_obj f -> frame_bytes f -> ev_bytes evs ->
  exists c f' evs' got e' err, handle_recv h f evs = Done (c, f', evs', got) /\
    handle_recv_e (is_serial h) e f evs = Ok (Some (c, f', evs', got, e', err)) /\ recv_told (is_serial h) e c got e' err /\
    List.length e' = 512%nat /\ frame_obj f' /\ frame_bytes f' /\ ev_bytes evs' /\
    (all_data evs -> all_data evs' /\ In c [RECV_OK; RECV_INVALID; RECV_TIMEOUT]).
Proof.
  intros He Ho Hf Hev. destruct (handle_recv_total h f evs Ho Hev) as (c & f' & evs' & got & E & _ & _ & _ & _ & _ & C & _ & _ & R & Z0).
  assert (A : all_data evs -> all_data evs' /\ In c [RECV_OK; RECV_INVALID; RECV_TIMEOUT]).
  { intros A. split; [exact (proj1 (handle_recv_data _ _ _ _ _ _ _ A E))|]. destruct (all_data_no_error _ A) as (N & N1 & N2).
    destruct C as [<-|[<-|[<-|[<-|[<-|[]]]]]]; try (cbn; tauto).
    destruct (R eq_refl) as (x & X1 & X2). destruct (N x X1 X2). }
  clear C R Z0.
  exists c, f', evs', got. unfold handle_recv in E. unfold handle_recv_e, handle_recv, recv_told. 
  assert (I : loop_inv [] 1) by (unfold loop_inv; auto).
  destruct (is_serial h).
  - pose proof (serial_told_loop (ev_size evs + 4) e f evs [] 1 0 He Ho Hf ltac:(constructor) Hev I ltac:(auto) ltac:(congruence)) as L.
    unfold mbus_serial_recv_frame in E |- *. unfold mbus_serial_recv_frame_e. cbn [negb].
    destruct (serial_loop _ f evs [] 1 0) as [[[[[c0 f0] es0] g0]|]|]; cbn [lift obind] in E; try discriminate.
    injection E as <- <- <- <-. destruct L as (e' & err & L). exists e', err. split; [reflexivity|]. tauto.
  - pose proof (tcp_told_loop (ev_size evs + 4) e f evs [] 1 He Ho Hf ltac:(constructor) Hev I) as L.
    unfold mbus_tcp_recv_frame in E |- *. unfold mbus_tcp_recv_frame_e.
    destruct (tcp_loop _ f evs [] 1) as [[[[[c0 f0] es0] g0]|]|]; cbn [lift obind] in E; try discriminate.
    injection E as <- <- <- <-. destruct L as (e' & L & T & L'). exists e', []. split; [reflexivity|]. split; [exact L|]. split; [auto|].
    split; [|tauto]. unfold told in T. destruct (tcp_text c0); [exact (says_len _ _ T)|congruence].
Qed.

Section OnBus.
  Variable B : Type.
  (** [mbus_recv_frame]: the same results; the last receive call of the transport decides on the text. *)
  Lemma recv_frame_told h e f (w : world B) : List.length e = 512%nat -> frame_obj f -> frame_bytes f -> ev_bytes (w_evs w) ->
    exists c f' evs' got e1 e' err1 err, mbus_recv_frame B (Some h) f w = Done (c, f', mkW (w_bus w) evs' (w_log w ++ [Received c got])) /\
      mbus_recv_frame_e (is_serial h) (purge_first_frame h) e f (w_evs w) = Done (c, f', evs', e', err1 ++ err) /\
      recv_told (is_serial h) e1 c got e' err /\ (purge_first_frame h = PURGE_NONE -> e1 = e /\ err1 = []) /\ (is_serial h = false -> err1 = []) /\
      List.length e' = 512%nat /\ frame_obj f' /\ frame_bytes f' /\ ev_bytes evs' /\
      (all_data (w_evs w) -> all_data evs' /\ In c [RECV_OK; RECV_INVALID; RECV_TIMEOUT]).
  Proof.
    intros He Ho Hf Hev. destruct (handle_told h e f (w_evs w) He Ho Hf Hev) as (c & f1 & es1 & g1 & e1 & err1 & R1 & R2 & T1 & L1 & O1 & F1 & V1 & A1).
    unfold mbus_recv_frame, mbus_recv_frame_e. rewrite R1, R2. cbn [lift obind].
    destruct (_ || _) eqn:D.
    - destruct (handle_told h e1 f1 es1 L1 O1 F1 V1) as (c2 & f2 & es2 & g2 & e2 & err2 & R3 & R4 & T2 & L2 & O2 & F2 & V2 & A2).
      rewrite R3, R4. cbn [lift obind]. exists c2, f2, es2, g2, e1, e2, err1, err2. split; [reflexivity|]. split; [reflexivity|]. split; [exact T2|].
      split. { intros E. rewrite E in D. unfold PURGE_NONE, PURGE_M2S, PURGE_S2M in D. cbn in D. rewrite !andb_false_r in D. discriminate. }
      split; [|do 4 (split; [assumption|]); intros A; exact (A2 (proj1 (A1 A)))]. intros E. unfold recv_told in T1. rewrite E in T1. exact (proj2 T1).
    - exists c, f1, es1, g1, e, e1, [], err1. split; [reflexivity|]. split; [reflexivity|]. split; [exact T1|]. auto 10.
  Qed.

  Lemma purge_told h : forall fuel e f (w : world B) r err r' w', List.length e = 512%nat -> frame_obj f -> frame_bytes f -> ev_bytes (w_evs w) ->
    purge_loop B fuel (Some h) f w r = Done (r', w') ->
    exists e' err' new c got e1 err1, purge_loop_e fuel (is_serial h) (purge_first_frame h) e f (w_evs w) r err = Done (r', w_evs w', e', err ++ err') /\
      List.length e' = 512%nat /\ w_log w' = w_log w ++ new ++ [Received c got] /\ c <> RECV_OK /\ c <> RECV_INVALID /\
      recv_told (is_serial h) e1 c got e' err1 /\ (is_serial h = false -> err' = []) /\
      (all_data (w_evs w) -> c = RECV_TIMEOUT).
  Proof.
    induction fuel as [|fuel IH]; intros e f w r err r' w' He Ho Hf Hev E; [discriminate|]. cbn [purge_loop purge_loop_e] in *.
    destruct (recv_frame_told h e f w He Ho Hf Hev) as (c & f' & es & g & e1 & e' & err1 & err2 & R1 & R2 & T & _ & N & L & O & F & V & A).
    rewrite R1 in E. rewrite R2. cbn [obind] in *.
    assert (N2 : is_serial h = false -> err1 ++ err2 = []).
    { intros X. rewrite (N X). unfold recv_told in T. rewrite X in T. exact (proj2 T). }
    destruct (negb (c =? RECV_OK) && negb (c =? RECV_INVALID)) eqn:D.
    - injection E as <- <-. exists e', (err1 ++ err2), [], c, g, e1, err2. split; [reflexivity|]. split; [exact L|]. split; [reflexivity|].
      apply andb_true_iff in D as [D1 D2]. rewrite negb_true_iff, Z.eqb_neq in D1, D2. do 4 (split; [auto|]).
      intros Ha. destruct (A Ha) as [_ C]. cbn in C. intuition congruence.
    - destruct (IH e' f' (mkW (w_bus w) es (w_log w ++ [Received c g])) 1 (err ++ err1 ++ err2) r' w' L O F V E) as (e2 & err3 & new & c2 & g2 & e3 & err4 & P1 & P2 & P3 & P4 & P5 & P6 & P7 & P8).
      exists e2, ((err1 ++ err2) ++ err3), (Received c g :: new), c2, g2, e3, err4. rewrite !app_assoc in *. split; [exact P1|]. split; [exact P2|].
      cbn [w_log] in P3. split. { rewrite P3. rewrite <- !app_assoc. reflexivity. }
      split; [exact P4|]. split; [exact P5|]. split; [exact P6|]. split; [intros X; rewrite (N2 X), (P7 X); reflexivity|].
      intros Ha. apply P8. exact (proj1 (A Ha)).
  Qed.
  Lemma purge_end_code h : forall fuel f (w : world B) r r' w', frame_obj f -> ev_bytes (w_evs w) ->
    purge_loop B fuel (Some h) f w r = Done (r', w') ->
    exists new c got, w_log w' = w_log w ++ new ++ [Received c got] /\ In c codes.
  Proof.
    induction fuel as [|fuel IH]; intros f w r r' w' Ho Hev E; [discriminate|]. cbn [purge_loop] in E.
    destruct (recv_total B h f w Ho Hev) as (c & f' & es & g & R & O & V & _ & _ & C & _). rewrite R in E. cbn [obind] in E.
    destruct (negb _ && _).
    - injection E as <- <-. exists [], c, g. auto.
    - destruct (IH f' (mkW (w_bus w) es (w_log w ++ [Received c g])) 1 r' w' O V E) as (new & c2 & g2 & L & C2).
      exists (Received c g :: new), c2, g2. cbn [w_log] in L. rewrite L, <- app_assoc. auto.
  Qed.
End OnBus.

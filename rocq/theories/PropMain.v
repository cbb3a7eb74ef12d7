(** Property C91: the programs from the command line to the exit code. *)
From Coq Require Import Permutation.
From Coq Require Import QArith.
From Coq Require Import String.
From Coq Require Import List.
From Verif Require Import CBase PBase CStr MFrame SWire SFrame MText SText MXml PText PXml3 MRecv SRecv PRecv MSecond SSecond PSecond MProto PProto PReq PropReq SProto MDouble MConn SConn PropConn MErr MErrT SXml MHex SHex PropHex SBus PBus PropBus SMean PropMean MXmlN SXmlN PXmlN PropXmlN SLine SVar MVar SNet MTools PropNet MProg PropProg SChain PropChain MMem SMem MScan SScan PScan PropScan MCmd SCmd PCmd PropCmd MMain SMain PMain.
From Coq Require Import Lia ZifyBool.
Local Open Scope Z_scope.

(** A refused command line: exit code and message, and nothing else happens. *)
Theorem C91_refused : forall B wret (react : B -> list Z -> B * list ev) p name args code err v e pr w,
  command p name args = Ok (Refused code err) ->
  run_main B wret react p name args v e pr w = Done (mkRan code [] err None None pr w).
Proof. intros B wret react p name args code err v e pr w H. unfold run_main. rewrite H. reflexivity. Qed.

Lemma run_target p name args o : command p name args = Ok (Run o) -> SCmd.tcp p = true -> In (o_target o) args /\ 0 <= o_port o <= 65535.
Proof.
  intros H T. destruct (C90_only p name args (Run o)) as [X|(g & D & -> & o' & M & V)]; [intros ->; discriminate|exact H|unfold usage_shown in X; discriminate X|].
  destruct V as [(_ & t & _ & X)|[(_ & _ & code & t & _ & X)|(P & _ & X)]]; try discriminate. injection X as <-.
  destruct M as (_ & _ & _ & _ & _ & M & _). rewrite M. split.
  - unfold SCmd.line. apply in_or_app. right. destruct p; try discriminate T; left; reflexivity.
  - unfold bad_port in P. destruct (Z.leb_spec 0 (o_port o)), (Z.leb_spec (o_port o) 65535); try lia; exfalso; apply P; split; auto; lia.
Qed.
Lemma talks_not_file p : talks p -> reads_file p = false.
Proof. intros [H|H]; destruct p; try reflexivity; discriminate. Qed.
Lemma where_same p o : (if over_serial p then Device (o_target o) else Gateway (o_target o) (o_port o)) = where_to p o.
Proof. unfold where_to. rewrite serial_same. reflexivity. Qed.

(** A program that talks to a bus, after its command line was taken: if nothing hinders it, it holds its conversation
    over the prepared line and the result of the conversation is its result, and after success everything is
    given back; otherwise it exits with 1 and the message of the first hindrance, without having sent or printed anything. *)
Theorem C91_start : forall B wret (react : B -> list Z -> B * list ev) p name args o v initial w,
  talks p -> command p name args = Ok (Run o) -> strings args -> ~ In 0 (v_why v) -> NoDup initial -> fresh_fds initial (v_sys v) ->
  (ready p o v -> exists pr1 pr2, prepared p o v pr1 /\ nothing_left initial pr2 /\
     run_main B wret react p name args v no_text (start initial) w =
       (do (r, t, w') <- conversation B wret react p o v (program_handle p o) w ;;
        Done (mkRan r t [] (Some (where_to p o)) (Some (pr1, program_handle p o)) (if r =? 0 then pr2 else pr1) w'))) /\
  (~ ready p o v -> exists asked msg pr1, stops p o v asked msg /\
     run_main B wret react p name args v no_text (start initial) w =
       Done (mkRan 1 [] msg (if asked then Some (where_to p o) else None) None pr1 w)).
Proof.
  intros B wret react p name args o v initial w Tk H St Zw Nd Fr.
  assert (Zt : SCmd.tcp p = true -> ~ In 0 (o_target o) /\ 0 <= o_port o <= 65535).
  { intros T. destruct (run_target p name args o H T) as [I P]. split; [apply St; exact I|exact P]. }
  unfold run_main. rewrite H. cbn [lift obind]. rewrite (talks_not_file p Tk). cbv iota. rewrite (where_same p o).
  destruct (starts p o v initial Nd Fr Tk Zt Zw) as [(Rd & pr1 & r0 & pr' & pr2 & -> & Pr & D1 & D2 & Nl)|(Rd & asked & msg & pr1 & -> & Sp)]; (split; [|]); intros R; try contradiction.
  - exists pr1, pr2. split; [exact Pr|]. split; [exact Nl|]. cbn [lift obind].
    destruct (conversation B wret react p o v (program_handle p o) w) as [[[r t] w']| |]; [|reflexivity..]. cbn [obind]. rewrite D1. cbn [lift obind]. rewrite D2. cbn [lift obind].
    destruct (r =? 0); reflexivity.
  - cbn [lift obind]. exists asked, msg, pr1. split; [exact Sp|]. destruct asked; reflexivity.
Qed.
(** The first hindrance is the only one named (the number of the port could be written in two ways in the case of 0), and there is one exactly if the program is not ready. *)
Lemma serial_or_tcp p : SCmd.serial p = true -> SCmd.tcp p = true -> False.
Proof. destruct p; discriminate. Qed.
Lemma not_opened p v : SCmd.serial p = true -> s_open (v_sys v) = None -> line_opened (SCmd.serial p) (v_sys v) <> None -> False.
Proof. intros -> E H. apply H. exact E. Qed.
Lemma not_found p v : SCmd.tcp p = true -> s_info (v_sys v) = None -> line_opened (SCmd.serial p) (v_sys v) <> None -> False.
Proof. intros T E H. apply H. replace (SCmd.serial p) with false by (destruct p; try discriminate T; reflexivity). cbn. rewrite E. reflexivity. Qed.
Lemma not_accepted p v l : SCmd.tcp p = true -> s_info (v_sys v) = Some l -> accepts l = None -> line_opened (SCmd.serial p) (v_sys v) <> None -> False.
Proof. intros T E A H. apply H. replace (SCmd.serial p) with false by (destruct p; try discriminate T; reflexivity). cbn. rewrite E. exact A. Qed.
Theorem C91_hindrance : forall p o v a m, stops p o v a m -> ~ ready p o v /\ forall a' m', stops p o v a' m' -> a' = a /\ (m' = m \/ exists l, s_info (v_sys v) = Some l /\ accepts l = None).
Proof.
  intros p o v a m H. split.
  - intros (R1 & R2 & R3 & R4 & R5 & R6 & R7).
    destruct H; try congruence; try (eapply not_opened; eassumption); try (eapply not_found; eassumption); try (eapply not_accepted; eassumption); auto.
    specialize (R7 ltac:(assumption)). congruence.
  - intros a' m' H'.
    destruct H; destruct H';
      try solve [ split; [exact eq_refl|left; exact eq_refl]
            | exfalso; first [ congruence | eapply serial_or_tcp; eassumption | eapply not_opened; eassumption | eapply not_found; eassumption | eapply not_accepted; eassumption
            | tauto | subst p; match goal with X : scans _ |- _ => destruct X; discriminate end ] ].
    split; [reflexivity|]. right. eauto.
Qed.

(** ** Documented command lines on ideal networks *)
Lemma launched B wret (react : B -> list Z -> B * list ev) p name g o v initial w r t w' : launch p name g o v initial -> talks p ->
  conversation B wret react p o v (program_handle p o) w = Done (r, t, w') ->
  exists x, run_main B wret react p name (SCmd.line p g) v no_text (start initial) w = Done x /\ ends p o v initial r t w' x.
Proof.
  intros L Tk E. destruct (C91_start B wret react p name (SCmd.line p g) o v initial w Tk (l_taken _ _ _ _ _ _ L) (l_chars _ _ _ _ _ _ L) (l_why _ _ _ _ _ _ L) (l_initial _ _ _ _ _ _ L) (l_fds _ _ _ _ _ _ L)) as [R _].
  destruct (R (l_ready _ _ _ _ _ _ L)) as (pr1 & pr2 & Pr & Nl & Er). rewrite Er, E. cbn [obind]. eexists. split; [reflexivity|]. unfold ends. cbn.
  repeat (split; [reflexivity|]). split; [eauto|]. intros ->. exact Nl.
Qed.
(** The settings are those of the command line. *)
Lemma launch_means p name g o v initial : launch p name g o v initial -> means p g o /\ ~ bad_port p o /\ ~ bad_address p o.
Proof.
  intros L. destruct (line_taken p name g _ (l_line _ _ _ _ _ _ L) (l_taken _ _ _ _ _ _ L)) as (o' & M & V).
  destruct V as [(_ & t & _ & X)|[(_ & _ & code & t & _ & X)|(P1 & P2 & X)]]; try discriminate. injection X as <-. auto.
Qed.
Lemma hears p o : hears_slaves (program_handle p o). Proof. right. reflexivity. Qed.
Lemma scan_texts ls : Forall2 scan_line ls (map line_text ls).
Proof. induction ls as [|[a|a] ls IH]; constructor; try assumption; exists (fmt_d a); (split; [apply decimal_fmt_d|reflexivity]). Qed.

(** Scan for primary addresses (C64): for each address, in this order, the line of a device found there. *)
Theorem C91_scan : forall B wret (react : B -> list Z -> B * list ev) st p name g o v initial w, launch p name g o v initial -> scans p ->
  net_of (program_handle p o) B wret react st -> w_evs w = [] -> wf_net (st (w_bus w)) ->
  exists x lss texts w', run_main B wret react p name (SCmd.line p g) v no_text (start initial) w = Done x /\ ends p o v initial 0 (concat texts) w' x /\
    Forall2 scan_line (concat lss) texts /\ List.length lss = 251%nat /\
    (forall a, (a <= 250)%nat -> reported (Z.of_nat a) (holders (Z.of_nat a) (st (w_bus w))) (nth a lss [])) /\ st (w_bus w') = st (w_bus w).
Proof.
  intros B wret react st p name g o v initial w L Sp net Hw Wf.
  assert (Rt : 0 <= max_search_retry (program_handle p o)).
  { destruct (l_ready _ _ _ _ _ _ L) as (_ & _ & _ & _ & R & _). specialize (R Sp). destruct Sp as [-> | ->]; cbn [program_handle max_search_retry]; lia. }
  destruct (C64_scan _ B wret react st net (hears p o) Rt w Hw Wf) as (lss & w' & new & E & K1 & K2 & K3 & _).
  destruct (launched B wret react p name g o v initial w 0 (flat_map line_text (concat lss)) w' L) as (x & Ex & En).
  { destruct Sp as [-> | ->]; [left|right]; reflexivity. }
  { destruct Sp as [-> | ->]; cbn [conversation]; rewrite E; reflexivity. }
  exists x, lss, (map line_text (concat lss)), w'. split; [exact Ex|]. rewrite <- flat_map_concat_map. split; [exact En|]. split; [apply scan_texts|]. auto.
Qed.

(** How the slave is given: by primary address, by secondary address. *)
Definition by_primary (s : list Z) (a : Z) : Prop := ~ hex16 s /\ reads s a /\ 0 <= a <= 252.
Definition by_secondary (s m : list Z) : Prop := wf_mask s /\ bytes m /\ address_text m s.
Lemma arg_primary s a : ~ hex16 s -> reads s a -> - 2 ^ 31 <= a < 2 ^ 31 -> address_arg s = Ok (Primary a).
Proof.
  intros H R I. unfold address_arg. destruct (mbus_is_secondary_address s) eqn:E; [apply secondary_spec in E; contradiction|].
  rewrite (fits_atoi s) by (exists a; auto). cbn [bind]. repeat f_equal. apply (C90_number s); [apply reads_strtol|exact R].
Qed.
Lemma arg_secondary s : hex16 s -> address_arg s = Ok (Secondary (Some s)).
Proof. intros H. unfold address_arg. rewrite (proj2 (secondary_spec s) H). reflexivity. Qed.
Lemma request_talks p : p = SerialRequest \/ p = TcpRequest -> talks p. Proof. intros [-> | ->]; [left|right]; reflexivity. Qed.
Lemma addr_of p name g o v initial : launch p name g o v initial -> In p [SerialRequest; TcpRequest; SerialMulti; TcpMulti; SetAddress; SwitchBaudrate; ApplicationReset; RawSend; SerialSelect; TcpSelect] -> o_addr o = g_addr g.
Proof. intros L I. destruct (launch_means _ _ _ _ _ _ L) as ((_ & _ & _ & _ & _ & _ & _ & M) & _). destruct p; cbn in I; try solve [intuition discriminate]; try exact M; exact (proj1 M). Qed.

(** Request of data (C66): no slave with the address: exit code 1 and nothing printed; one slave: its document. *)
Theorem C91_request_primary_partial : forall B wret (react : B -> list Z -> B * list ev) st p name g o v initial w a, launch p name g o v initial -> p = SerialRequest \/ p = TcpRequest ->
  net_of (program_handle p o) B wret react st -> (forall i, stamp_ok (v_stamp v i)) -> by_primary (g_addr g) a -> w_evs w = [] -> wf_net (st (w_bus w)) ->
  let result := run_main B wret react p name (SCmd.line p g) v no_text (start initial) w in
  match holders a (st (w_bus w)) with
  | [] => exists x w', result = Done x /\ ends p o v initial 1 [] w' x
  | [s] => plain_slave s -> exists x text w', result = Done x /\ ends p o v initial 0 text w' x /\ plain_document (v_stamp v) (sl_header s) [entries (sl_items s) (sl_tail s)] text
  | _ => True
  end.
Proof.
  intros B wret react st p name g o v initial w a L Hp net St (Ha1 & Ha2 & Ha3) Hw Wf result. unfold result. clear result.
  pose proof (C66_request_primary_partial _ B wret react st net (hears p o) (v_stamp v) St a w Ha3 Hw Wf) as K.
  assert (Cv : conversation B wret react p o v (program_handle p o) w = (do (r, t, w) <- request_data_main B wret react (v_stamp v) (program_handle p o) (Primary a) w ;; Done (r, opt_text t, w))).
  { transitivity (do a <- lift (address_arg (o_addr o)) ;; do (r, t, w) <- request_data_main B wret react (v_stamp v) (program_handle p o) a w ;; Done (r, opt_text t, w)); [destruct Hp as [-> | ->]; reflexivity|].
    rewrite (addr_of _ _ _ _ _ _ L) by (destruct Hp as [-> | ->]; cbn; tauto). rewrite (arg_primary _ a Ha1 Ha2 ltac:(lia)). reflexivity. }
  destruct (holders a (st (w_bus w))) as [|s [|s' ss]]; [| |exact I].
  - destruct K as (w' & E). rewrite E in Cv. cbn [obind opt_text] in Cv. destruct (launched _ _ _ _ _ _ _ _ _ _ _ _ _ L (request_talks p Hp) Cv) as (x & X1 & X2). eauto.
  - intros Pl. destruct (K Pl) as (text & w' & E & D). rewrite E in Cv. cbn [obind opt_text] in Cv. destruct (launched _ _ _ _ _ _ _ _ _ _ _ _ _ L (request_talks p Hp) Cv) as (x & X1 & X2). exists x, text, w'. auto.
Qed.
Theorem C91_request_secondary_partial : forall B wret (react : B -> list Z -> B * list ev) st p name g o v initial w m, launch p name g o v initial -> p = SerialRequest \/ p = TcpRequest ->
  net_of (program_handle p o) B wret react st -> (forall i, stamp_ok (v_stamp v i)) -> by_secondary (g_addr g) m -> w_evs w = [] -> wf_net (st (w_bus w)) ->
  let result := run_main B wret react p name (SCmd.line p g) v no_text (start initial) w in
  match matching m (map fst (st (w_bus w))) with
  | [] => exists x w', result = Done x /\ ends p o v initial 1 [] w' x
  | [s] => plain_slave s -> exists x text w', result = Done x /\ ends p o v initial 0 text w' x /\ plain_document (v_stamp v) (sl_header s) [entries (sl_items s) (sl_tail s)] text
  | _ => True
  end.
Proof.
  intros B wret react st p name g o v initial w m L Hp net St (Ha1 & Ha2 & Ha3) Hw Wf result. unfold result. clear result.
  pose proof (C66_request_secondary_partial _ B wret react st net (hears p o) (v_stamp v) St (g_addr g) m w Ha1 Ha2 Ha3 Hw Wf) as K.
  assert (Cv : conversation B wret react p o v (program_handle p o) w = (do (r, t, w) <- request_data_main B wret react (v_stamp v) (program_handle p o) (Secondary (Some (g_addr g))) w ;; Done (r, opt_text t, w))).
  { transitivity (do a <- lift (address_arg (o_addr o)) ;; do (r, t, w) <- request_data_main B wret react (v_stamp v) (program_handle p o) a w ;; Done (r, opt_text t, w)); [destruct Hp as [-> | ->]; reflexivity|].
    rewrite (addr_of _ _ _ _ _ _ L) by (destruct Hp as [-> | ->]; cbn; tauto). rewrite (arg_secondary _ (proj1 Ha1)). reflexivity. }
  destruct (matching m _) as [|s [|s' ss]]; [| |exact I].
  - destruct K as (w' & E). rewrite E in Cv. cbn [obind opt_text] in Cv. destruct (launched _ _ _ _ _ _ _ _ _ _ _ _ _ L (request_talks p Hp) Cv) as (x & X1 & X2). eauto.
  - intros Pl. destruct (K Pl) as (text & w' & E & D). rewrite E in Cv. cbn [obind opt_text] in Cv. destruct (launched _ _ _ _ _ _ _ _ _ _ _ _ _ L (request_talks p Hp) Cv) as (x & X1 & X2). exists x, text, w'. auto.
Qed.

(** Messages of several telegrams (C70): whatever the line loses or damages, the document of the whole message or of its first telegrams up to the
    number given with -f, or failure. *)
Lemma multi_talks p : p = SerialMulti \/ p = TcpMulti -> talks p. Proof. intros [-> | ->]; [left|right]; reflexivity. Qed.
Theorem C91_multi_primary_partial : forall B wret (react : B -> list Z -> B * list ev) echo fates turn st p name g o v initial w a, launch p name g o v initial -> p = SerialMulti \/ p = TcpMulti ->
  chain_of echo (program_handle p o) fates B wret react turn st -> (forall i, stamp_ok (v_stamp v i)) -> by_primary (g_addr g) a -> w_evs w = [] -> wf_net (crowd (st (w_bus w))) ->
  let result := run_main B wret react p name (SCmd.line p g) v no_text (start initial) w in
  match meters_at a (st (w_bus w)) with
  | [] => exists x w', result = Done x /\ ends p o v initial 1 [] w' x
  | [y] => message (m_parts y) -> fresh (m_home y) -> plain_parts (firstn (Z.to_nat (Z.max 1 (o_frames o))) (m_parts y)) ->
      exists x code doc w', result = Done x /\ ends p o v initial code (match doc with Some t => t | None => [] end) w' x /\
        prints (v_stamp v) (firstn (Z.to_nat (Z.max 1 (o_frames o))) (m_parts y)) code doc /\ (recovers 3 fates -> code = 0)
  | _ => True
  end.
Proof.
  intros B wret react echo fates turn st p name g o v initial w a L Hp chain St (Ha1 & Ha2 & Ha3) Hw Wf result. unfold result. clear result.
  pose proof (C70_primary_partial echo _ fates B wret react turn st chain (hears p o) ltac:(cbn; lia) (v_stamp v) St a (o_frames o) w Ha3 Hw Wf) as K.
  assert (Cv : conversation B wret react p o v (program_handle p o) w = (do (r, t, w) <- request_multi_main B wret react (v_stamp v) (program_handle p o) (Primary a) (o_frames o) w ;; Done (r, opt_text t, w))).
  { transitivity (do a <- lift (address_arg (o_addr o)) ;; do (r, t, w) <- request_multi_main B wret react (v_stamp v) (program_handle p o) a (o_frames o) w ;; Done (r, opt_text t, w)); [destruct Hp as [-> | ->]; reflexivity|].
    rewrite (addr_of _ _ _ _ _ _ L) by (destruct Hp as [-> | ->]; cbn; tauto). rewrite (arg_primary _ a Ha1 Ha2 ltac:(lia)). reflexivity. }
  destruct (meters_at a _) as [|y [|y' ys]]; [| |exact I].
  - destruct K as (w' & E). rewrite E in Cv. cbn [obind opt_text] in Cv. destruct (launched _ _ _ _ _ _ _ _ _ _ _ _ _ L (multi_talks p Hp) Cv) as (x & X1 & X2). eauto.
  - intros Ms Fr Pl. destruct (K Ms Fr Pl) as (code & doc & w' & E & D & R). rewrite E in Cv. cbn [obind] in Cv. destruct (launched _ _ _ _ _ _ _ _ _ _ _ _ _ L (multi_talks p Hp) Cv) as (x & X1 & X2). exists x, code, doc, w'. auto.
Qed.
Theorem C91_multi_secondary_partial : forall B wret (react : B -> list Z -> B * list ev) echo fates turn st p name g o v initial w m, launch p name g o v initial -> p = SerialMulti \/ p = TcpMulti ->
  chain_of echo (program_handle p o) fates B wret react turn st -> (forall i, stamp_ok (v_stamp v i)) -> by_secondary (g_addr g) m -> w_evs w = [] -> wf_net (crowd (st (w_bus w))) ->
  let result := run_main B wret react p name (SCmd.line p g) v no_text (start initial) w in
  match meters_matching m (st (w_bus w)) with
  | [] => exists x w', result = Done x /\ ends p o v initial 1 [] w' x
  | [y] => message (m_parts y) -> plain_parts (firstn (Z.to_nat (Z.max 1 (o_frames o))) (m_parts y)) ->
      exists x code doc w', result = Done x /\ ends p o v initial code (match doc with Some t => t | None => [] end) w' x /\
        prints (v_stamp v) (firstn (Z.to_nat (Z.max 1 (o_frames o))) (m_parts y)) code doc /\ (recovers 3 fates -> code = 0)
  | _ => True
  end.
Proof.
  intros B wret react echo fates turn st p name g o v initial w m L Hp chain St (Ha1 & Ha2 & Ha3) Hw Wf result. unfold result. clear result.
  pose proof (C70_secondary_partial echo _ fates B wret react turn st chain (hears p o) ltac:(cbn; lia) (v_stamp v) St (g_addr g) m (o_frames o) w Ha1 Ha2 Ha3 Hw Wf) as K.
  assert (Cv : conversation B wret react p o v (program_handle p o) w = (do (r, t, w) <- request_multi_main B wret react (v_stamp v) (program_handle p o) (Secondary (Some (g_addr g))) (o_frames o) w ;; Done (r, opt_text t, w))).
  { transitivity (do a <- lift (address_arg (o_addr o)) ;; do (r, t, w) <- request_multi_main B wret react (v_stamp v) (program_handle p o) a (o_frames o) w ;; Done (r, opt_text t, w)); [destruct Hp as [-> | ->]; reflexivity|].
    rewrite (addr_of _ _ _ _ _ _ L) by (destruct Hp as [-> | ->]; cbn; tauto). rewrite (arg_secondary _ (proj1 Ha1)). reflexivity. }
  destruct (meters_matching m _) as [|y [|y' ys]]; [| |exact I].
  - destruct K as (w' & E). rewrite E in Cv. cbn [obind opt_text] in Cv. destruct (launched _ _ _ _ _ _ _ _ _ _ _ _ _ L (multi_talks p Hp) Cv) as (x & X1 & X2). eauto.
  - intros Ms Pl. destruct (K Ms Pl) as (code & doc & w' & E & D & R). rewrite E in Cv. cbn [obind] in Cv. destruct (launched _ _ _ _ _ _ _ _ _ _ _ _ _ L (multi_talks p Hp) Cv) as (x & X1 & X2). exists x, code, doc, w'. auto.
Qed.

(** Assignment of a primary address (C65), old primary address. *)
Definition assigned_text (n : Z) (t : list Z) : Prop := exists d, decimal n d /\ t = cstr "Set primary address of device to " ++ d ++ [10].
Lemma num_ok p name g o v initial : launch p name g o v initial -> p = SetAddress -> 0 <= o_num o <= 252 /\ reads (g_num g) (o_num o).
Proof.
  intros L ->. destruct (launch_means _ _ _ _ _ _ L) as ((_ & _ & _ & _ & _ & _ & _ & _ & M) & _ & Bd). split; [|exact M]. cbn in Bd.
  destruct (Z.leb_spec 0 (o_num o)), (Z.leb_spec (o_num o) 252); try lia; exfalso; apply Bd; lia.
Qed.
Theorem C91_set_address_primary : forall B wret (react : B -> list Z -> B * list ev) st name g o v initial w a n, launch SetAddress name g o v initial ->
  net_of (program_handle SetAddress o) B wret react st -> frame_obj (v_junk v) -> by_primary (g_addr g) a -> reads (g_num g) n -> w_evs w = [] -> wf_net (st (w_bus w)) ->
  (List.length (holders n (st (w_bus w))) <= 1)%nat ->
  0 <= n <= 252 /\ exists x code out w', run_main B wret react SetAddress name (SCmd.line SetAddress g) v no_text (start initial) w = Done x /\ ends SetAddress o v initial code out w' x /\
    match holders n (st (w_bus w)), holders a (st (w_bus w)) with
    | [], [_] => code = 0 /\ assigned_text n out /\ map fst (st (w_bus w')) = moved (fun s => sl_a s =? a) n (map fst (st (w_bus w)))
    | [], _ :: _ => code = 0 /\ map fst (st (w_bus w')) = moved (fun s => sl_a s =? a) n (map fst (st (w_bus w)))
    | _, _ => code = 1 /\ out = [] /\ map fst (st (w_bus w')) = map fst (st (w_bus w))
    end.
Proof.
  intros B wret react st name g o v initial w a n L net Ho (Ha1 & Ha2 & Ha3) Hn Hw Wf Hl. destruct (num_ok _ _ _ _ _ _ L eq_refl) as [Hn1 Hn2].
  pose proof (C90_number _ _ _ Hn Hn2) as ->. split; [exact Hn1|].
  destruct (C65_primary _ B wret react st net (hears SetAddress o) (v_junk v) a (o_num o) w Ho Ha3 Hn1 Hw Wf Hl) as (code & ok & w' & E & K).
  destruct (launched B wret react SetAddress name g o v initial w code (if ok then cstr "Set primary address of device to " ++ fmt_d (o_num o) ++ nl else []) w' L) as (x & X1 & X2); [left; reflexivity| |].
  { cbn [conversation]. rewrite (addr_of _ _ _ _ _ _ L) by (cbn; tauto). rewrite (arg_primary _ a Ha1 Ha2 ltac:(lia)). cbn [lift obind]. rewrite E. reflexivity. }
  exists x, code, (if ok then cstr "Set primary address of device to " ++ fmt_d (o_num o) ++ nl else []), w'. split; [exact X1|]. split; [exact X2|].
  destruct (holders (o_num o) _) as [|]; [|destruct K as (-> & -> & K); auto]. destruct (holders a _) as [|y [|z l]].
  - destruct K as (-> & -> & K); auto.
  - destruct K as (-> & -> & K). split; [reflexivity|]. split; [|exact K]. exists (fmt_d (o_num o)). split; [apply decimal_fmt_d|reflexivity].
  - exact K.
Qed.
(** The same, old secondary address. *)
Theorem C91_set_address_secondary : forall B wret (react : B -> list Z -> B * list ev) st name g o v initial w m n, launch SetAddress name g o v initial ->
  net_of (program_handle SetAddress o) B wret react st -> frame_obj (v_junk v) -> by_secondary (g_addr g) m -> reads (g_num g) n -> w_evs w = [] -> wf_net (st (w_bus w)) ->
  (List.length (holders n (st (w_bus w))) <= 1)%nat ->
  0 <= n <= 252 /\ exists x code out w', run_main B wret react SetAddress name (SCmd.line SetAddress g) v no_text (start initial) w = Done x /\ ends SetAddress o v initial code out w' x /\
    match holders n (st (w_bus w)), matching m (map fst (st (w_bus w))) with
    | [], [_] => code = 0 /\ assigned_text n out /\ map fst (st (w_bus w')) = moved (matches m) n (map fst (st (w_bus w)))
    | [], _ :: _ => (code = 1 /\ map fst (st (w_bus w')) = map fst (st (w_bus w))) \/
                    (code = 0 /\ map fst (st (w_bus w')) = moved (matches m) n (map fst (st (w_bus w))))
    | _, _ => code = 1 /\ out = [] /\ map fst (st (w_bus w')) = map fst (st (w_bus w))
    end.
Proof.
  intros B wret react st name g o v initial w m n L net Ho (Ha1 & Ha2 & Ha3) Hn Hw Wf Hl. destruct (num_ok _ _ _ _ _ _ L eq_refl) as [Hn1 Hn2].
  pose proof (C90_number _ _ _ Hn Hn2) as ->. split; [exact Hn1|].
  destruct (C65_secondary _ B wret react st net (hears SetAddress o) (v_junk v) (g_addr g) m (o_num o) w Ho Ha1 Ha2 Ha3 Hn1 Hw Wf Hl) as (code & ok & w' & E & K).
  destruct (launched B wret react SetAddress name g o v initial w code (if ok then cstr "Set primary address of device to " ++ fmt_d (o_num o) ++ nl else []) w' L) as (x & X1 & X2); [left; reflexivity| |].
  { cbn [conversation]. rewrite (addr_of _ _ _ _ _ _ L) by (cbn; tauto). rewrite (arg_secondary _ (proj1 Ha1)). cbn [lift obind]. rewrite E. reflexivity. }
  exists x, code, (if ok then cstr "Set primary address of device to " ++ fmt_d (o_num o) ++ nl else []), w'. split; [exact X1|]. split; [exact X2|].
  destruct (holders (o_num o) _) as [|]; [|destruct K as (-> & -> & K); auto]. destruct (matching m _) as [|y [|z l]].
  - destruct K as (-> & -> & K); auto.
  - destruct K as (-> & -> & K). split; [reflexivity|]. split; [|exact K]. exists (fmt_d (o_num o)). split; [apply decimal_fmt_d|reflexivity].
  - exact K.
Qed.

(** Selection by secondary address (C74). *)
Lemma select_talks p : p = SerialSelect \/ p = TcpSelect -> talks p. Proof. intros [-> | ->]; [left|right]; reflexivity. Qed.
Theorem C91_select : forall B wret (react : B -> list Z -> B * list ev) slaves selected p name g o v initial w m, launch p name g o v initial -> p = SerialSelect \/ p = TcpSelect ->
  bus_of (program_handle p o) slaves B wret react selected -> frame_obj (v_junk v) -> bytes (fdata (v_junk v)) -> by_secondary (g_addr g) m -> w_evs w = [] ->
  let result := run_main B wret react p name (SCmd.line p g) v no_text (start initial) w in
  match matching m slaves with
  | [] => exists x w', result = Done x /\ ends p o v initial 1 [] w' x
  | [s] => exists x searched t w', result = Done x /\ names s t /\
      ends p o v initial 0 (cstr "Recieved a reply from secondarily addressed device: Searched for [" ++ searched ++ cstr "] and found [" ++ t ++ cstr "]." ++ [10]) w' x /\
      selected (w_bus w') = [s]
  | _ => True
  end.
Proof.
  intros B wret react slaves selected p name g o v initial w m L Hp bus Ho Hj (Ha1 & Ha2 & Ha3) Hw result. unfold result. clear result.
  pose proof (C74_select_bus _ slaves B wret react selected bus (hears p o) (g_addr g) m (v_junk v) w Ha1 Ha2 Ha3 Ho Hj Hw) as K.
  assert (Cv : forall r t w', select_secondary_main B wret react (program_handle p o) (v_junk v) (g_addr g) w = Done (r, t, w') ->
     conversation B wret react p o v (program_handle p o) w = Done (r, match t with Some t => cstr "Recieved a reply from secondarily addressed device: Searched for [" ++ o_shown o ++ cstr "] and found [" ++ t ++ cstr "]." ++ [10] | None => [] end, w')).
  { intros r t w' E. rewrite <- (addr_of _ _ _ _ _ _ L) in E by (destruct Hp as [-> | ->]; cbn; tauto). destruct Hp as [-> | ->]; cbn [conversation]; rewrite E; reflexivity. }
  destruct (matching m slaves) as [|s [|s' ss]]; [| |exact I].
  - destruct K as (w' & E & _). apply Cv in E. destruct (launched _ _ _ _ _ _ _ _ _ _ _ _ _ L (select_talks p Hp) E) as (x & X1 & X2). eauto.
  - destruct K as (t & w' & E & Nm & Sl & _). apply Cv in E. destruct (launched _ _ _ _ _ _ _ _ _ _ _ _ _ L (select_talks p Hp) E) as (x & X1 & X2). exists x, (o_shown o), t, w'. auto.
Qed.

(** Scan for secondary addresses (C75): a line for every slave that matches the mask, and nothing else. *)
Definition quiet_watch := mkWatch false false.
Lemma printed_lines vs : flat_map call_text (flat_map (calls_of quiet_watch) vs) =
  flat_map (fun v => cstr "Found a device on secondary address " ++ t_addr v ++ cstr " [using address mask " ++ t_mask v ++ cstr "]" ++ nl) (filter (fun v => t_result v =? PROBE_SINGLE) vs).
Proof.
  induction vs as [|v vs IH]; [reflexivity|]. cbn [flat_map filter]. rewrite flat_map_app, IH. unfold calls_of. cbn [scan_progress found_event quiet_watch app].
  destruct (t_result v =? PROBE_SINGLE); [|reflexivity]. cbn [flat_map call_text app]. rewrite app_nil_r. reflexivity.
Qed.
Lemma finer_mask m m' : wf_mask m -> finer 0 m m' -> wf_mask m'.
Proof.
  intros [[H1 H2] H3] [L F]. assert (N : forall (P : Z -> Prop) l, (forall i, (i < List.length l)%nat -> P (nth i l 0)) -> Forall P l).
  { intros P l H. apply Forall_forall. intros x I. apply (In_nth _ _ 0) in I. destruct I as (i & I & <-). auto. }
  rewrite Forall_forall in H2, H3. split; [split; [congruence|]|].
  - apply N. intros i Hi. destruct (F i) as [-> |(_ & _ & D)]; [apply H2, nth_In; lia|]. unfold digit_value. destruct (Z.leb_spec 48 (nth i m' 0)), (Z.leb_spec (nth i m' 0) 57); try lia. discriminate.
  - apply N. intros i Hi. rewrite firstn_length in Hi. assert (X : forall l : list Z, nth i (firstn 8 l) 0 = nth i l 0).
    { intros l. assert (i < 8)%nat as K by lia. clear - K. revert l K. generalize 8%nat. induction i as [|i IH]; intros n [|c l] K; destruct n; cbn; try lia; try reflexivity. apply IH. lia. }
    rewrite X. destruct (F i) as [-> |(_ & _ & D)]; [|left; exact D]. apply H3. rewrite <- X. apply nth_In. rewrite firstn_length. lia.
Qed.
Lemma scan_secondary_talks p : p = SerialScanSecondary \/ p = TcpScanSecondary -> talks p. Proof. intros [-> | ->]; [left|right]; reflexivity. Qed.
Lemma mask_of p name g o v initial : launch p name g o v initial -> p = SerialScanSecondary \/ p = TcpScanSecondary -> o_addr o = match g_last g with Some m => m | None => all_slaves end.
Proof. intros L I. destruct (launch_means _ _ _ _ _ _ L) as ((_ & _ & _ & _ & _ & _ & _ & M) & _). destruct I as [-> | ->]; exact M. Qed.
Theorem C91_scan_secondary_partial : forall B wret (react : B -> list Z -> B * list ev) slaves selected p name g o v initial w mask m, launch p name g o v initial -> p = SerialScanSecondary \/ p = TcpScanSecondary ->
  bus_of (program_handle p o) slaves B wret react selected -> hands_bytes react -> resets_quietly react -> plenty (v_mem v) ->
  mask = match g_last g with Some s => s | None => all_slaves end -> by_secondary mask m -> w_evs w = [] ->
  (exists q, (q < 8)%nat /\ wildcard (nth q mask 0)) ->
  Forall decimal_id (matching m slaves) -> NoDup (map (fun s => firstn 4 (sl_addr s)) (matching m slaves)) ->
  exists x w' found texts, run_main B wret react p name (SCmd.line p g) v no_text (start initial) w = Done x /\ ends p o v initial 0 (concat texts) w' x /\
    Permutation found (matching m slaves) /\ Forall2 (fun s t => exists addr, names s addr /\ found_line addr t) found texts.
Proof.
  intros B wret react slaves selected p name g o v initial w mask m L Hp bus RB Q Pn Em (Ha1 & Ha2 & Ha3) Hw Wd Dc Nd.
  assert (R1 : max_search_retry (program_handle p o) = 1) by (destruct Hp as [-> | ->]; reflexivity).
  destruct (C75_scan_partial _ slaves B wret react selected bus Q (hears p o) ltac:(lia) mask m w Ha1 Ha2 Ha3 Hw Wd Dc Nd) as (w' & new & found & E & _ & Lg & F & Pm & _).
  unfold scan_secondary_main in E. rewrite (proj2 (secondary_spec mask) (proj1 Ha1)) in E. cbn [negb] in E.
  destruct (init_quiet B wret react (program_handle p o) w (bus_writes _ _ _ _ _ _ bus) Q Hw) as (w1 & n1 & E1 & W1 & L1 & Rp1 & _). rewrite E1 in E. cbn [obind] in E. change (1 =? 0) with false in E. cbv iota in E.
  destruct (mbus_scan_2nd_address_range B wret react (Some (program_handle p o)) 0 mask w1) as [[r2 w2]| |] eqn:E2; cbn [obind] in E; try discriminate. injection E as <-.
  pose proof (C84_same (program_handle p o) B wret react quiet_watch 0 mask w1 (v_mem v) Pn) as Sm.
  destruct (scan_w B wret react quiet_watch (Some (program_handle p o)) 0 mask (w1, v_mem v)) as [[[r3 [w3 m3]] calls]| |] eqn:E3; rewrite E2 in Sm; try discriminate.
  assert (w3 = w2) by congruence. subst w3. clear Sm.
  destruct (C84_scan_partial (program_handle p o) B wret react quiet_watch RB (hears p o) ltac:(lia) 0%nat mask w1 (v_mem v) r3 w2 m3 calls ltac:(lia) Ha1 ltac:(rewrite W1; exact I) E3) as (vs & used & leaked & _ & Vs & Ec & Fi & _).
  destruct (visits_reports _ _ _ _ _ _ _ Vs) as (new2 & L2 & R2 & An). 
  assert (Rp : reports new = map t_addr (filter (fun v => t_result v =? PROBE_SINGLE) vs)).
  { rewrite L1 in L2. rewrite L2, <- app_assoc in Lg. apply app_inv_head in Lg. subst new. rewrite reports_app, Rp1, R2. reflexivity. }
  rewrite Rp in F. set (ok := filter _ vs) in *.
  assert (Fm : Forall (fun v => wf_mask (t_mask v)) ok).
  { apply Forall_forall. intros u Hu. apply filter_In in Hu. rewrite Forall_forall in Fi. apply finer_mask with (1 := Ha1). apply Fi. apply Hu. }
  destruct (launched B wret react p name g o v initial w 0 (flat_map call_text calls) w2 L (scan_secondary_talks p Hp)) as (x & X1 & X2).
  { pose proof (mask_of _ _ _ _ _ _ L Hp) as Ma. rewrite <- Em in Ma.
    destruct Hp as [-> | ->]; cbn [conversation]; rewrite E1; cbn [obind]; change (1 =? 0) with false; cbv iota; rewrite Ma; change (mkWatch false false) with quiet_watch; rewrite E3; reflexivity. }
  rewrite Ec, printed_lines, flat_map_concat_map in X2. fold ok in X2.
  eexists x, w2, found, _. split; [exact X1|]. split; [exact X2|]. split; [exact Pm|].
  clear - F Fm. clearbody ok. revert found F. induction ok as [|u ok IH]; intros found F; inversion F; subst; [constructor|]. inversion Fm; subst. cbn [map]. constructor; [|apply IH; assumption].
  exists (t_addr u). split; [assumption|]. exists (t_mask u). split; [assumption|reflexivity].
Qed.

(** A slave given by any number, or by a secondary address. *)
Inductive given_as (s : list Z) : mbus_address -> Prop :=
  | as_primary n : ~ hex16 s -> reads s n -> - 2 ^ 31 <= n < 2 ^ 31 -> given_as s (Primary n)
  | as_secondary : wf_mask s -> given_as s (Secondary (Some s)).
Lemma given_arg s a : given_as s a -> address_arg s = Ok a /\ legal a.
Proof. intros [n H1 H2 H3|H]; [split; [apply arg_primary; assumption|exact I]|split; [apply arg_secondary; apply H|exact H]]. Qed.

(** Sending the telegram of a file or of standard input (C73), on any line. *)
Definition input_is (g : given) (v : env) (content : list Z) : Prop :=
  match g_last g with Some f => v_file v f = Some content | None => v_stdin v = content end.
Theorem C91_raw_send : forall B wret (react : B -> list Z -> B * list ev) name g o v initial w a t content, launch RawSend name g o v initial -> hands_bytes react ->
  given_as (g_addr g) a -> input_is g v content -> valid t -> dump_of (wire t) content -> frame_obj (v_junk v) -> ev_bytes (w_evs w) ->
  exists x r w' new, run_main B wret react RawSend name (SCmd.line RawSend g) v no_text (start initial) w = Done x /\ ends RawSend o v initial r [] w' x /\
    w_log w' = w_log w ++ new /\ (r = 0 \/ r = 1) /\
    ((r = 1 /\ not_addressed a new) \/
     exists pre, addressed a pre /\
       ((r = 1 /\ new = pre ++ [Sent (wire t)]) \/
        exists c g, new = pre ++ [Sent (wire t); Received c g] /\ (r = 0 <-> c = RECV_OK) /\ (c = RECV_OK -> exists u, valid u /\ g = wire u))).
Proof.
  intros B wret react name g o v initial w a t content L RB Ga In0 V D Ho Hb. destruct (given_arg _ _ Ga) as [Aa La].
  destruct (C73_sends (program_handle RawSend o) B wret react RB (hears RawSend o) t content (v_junk v) a w V D Ho La Hb) as (r & w' & new & E & K).
  destruct (launch_means _ _ _ _ _ _ L) as ((_ & _ & _ & _ & _ & _ & _ & M1 & M2) & _).
  destruct (launched B wret react RawSend name g o v initial w r [] w' L) as (x & X1 & X2); [right; reflexivity| |].
  { cbn [conversation]. rewrite M1, Aa, M2. cbn [lift obind]. unfold input_is in In0. destruct (g_last g) as [f|]; rewrite In0, E; reflexivity. }
  exists x, r, w', new. auto.
Qed.

(** raw-send, when its file cannot be read: no telegram but the selection of the slave goes out, and the exit code is 1. *)
Theorem C91_raw_send_no_file : forall B wret (react : B -> list Z -> B * list ev) name g o v initial w a f, launch RawSend name g o v initial -> hands_bytes react ->
  given_as (g_addr g) a -> g_last g = Some f -> v_file v f = None -> ev_bytes (w_evs w) ->
  exists x w' new, run_main B wret react RawSend name (SCmd.line RawSend g) v no_text (start initial) w = Done x /\ ends RawSend o v initial 1 [] w' x /\
    w_log w' = w_log w ++ new /\ (not_addressed a new \/ addressed a new).
Proof.
  intros B wret react name g o v initial w a f L RB Ga Hf Fn Hb. destruct (given_arg _ _ Ga) as [Aa La].
  destruct (addressing B wret react (program_handle RawSend o) a w RB (hears RawSend o) La Hb) as (q & w' & new & E & _ & Lg & X).
  destruct (launch_means _ _ _ _ _ _ L) as ((_ & _ & _ & _ & _ & _ & _ & M1 & M2) & _).
  destruct (launched B wret react RawSend name g o v initial w 1 [] w' L) as (x & X1 & X2); [right; reflexivity| |].
  { cbn [conversation]. rewrite M1, Aa, M2, Hf, Fn. cbn [lift obind]. rewrite E. reflexivity. }
  exists x, w', new. split; [assumption|]. split; [assumption|]. split; [assumption|]. destruct q as [q|]; [right; apply X|left; assumption].
Qed.

(** Switching the baud rate of a slave and resetting its application (C74), on any line. *)
Definition switched_text (n : Z) (t : list Z) : Prop := exists d, decimal n d /\ t = cstr "Switched baud rate of device to " ++ d ++ [10].
Theorem C91_switch_baudrate_partial : forall B wret (react : B -> list Z -> B * list ev) name g o v initial w a ci, launch SwitchBaudrate name g o v initial -> hands_bytes react ->
  reads (g_addr g) a -> 0 <= a <= 255 -> (exists baud, reads (g_num g) baud /\ In (baud, ci) baud_codes) -> frame_obj (v_junk v) -> ev_bytes (w_evs w) ->
  exists x r out w' new ok, run_main B wret react SwitchBaudrate name (SCmd.line SwitchBaudrate g) v no_text (start initial) w = Done x /\ ends SwitchBaudrate o v initial r out w' x /\
    w_log w' = w_log w ++ new /\ commanded (v_junk v) (Control 0x53 a ci) r ok new /\ (if ok : bool then switched_text (o_num o) out else out = []).
Proof.
  intros B wret react name g o v initial w a ci L RB Ra Ha (baud & Rb & Hc) Ho Hb. destruct (launch_means _ _ _ _ _ _ L) as ((_ & _ & _ & _ & _ & _ & _ & M1 & M2) & _).
  pose proof (C90_number _ _ _ Rb M2) as ->.
  destruct (C74_switch_baudrate_partial (program_handle SwitchBaudrate o) B wret react RB (hears SwitchBaudrate o) a (o_num o) ci (v_junk v) w Ha Hc Ho Hb) as (r & ok & w' & new & E & Lg & K).
  destruct (launched B wret react SwitchBaudrate name g o v initial w r (if ok then cstr "Switched baud rate of device to " ++ fmt_d (o_num o) ++ nl else []) w' L) as (x & X1 & X2); [left; reflexivity| |].
  { cbn [conversation]. rewrite M1. rewrite (fits_atoi (g_addr g)) by (exists a; split; [exact Ra|lia]). cbn [lift obind]. rewrite <- (C90_number _ _ _ Ra (reads_strtol (g_addr g))), E. reflexivity. }
  exists x, r. eexists. exists w', new, ok. split; [exact X1|]. split; [exact X2|]. split; [exact Lg|]. split; [exact K|]. destruct ok; [|reflexivity]. exists (fmt_d (o_num o)). split; [apply decimal_fmt_d|reflexivity].
Qed.
Definition reset_text (sub : Z) (t : list Z) : Prop :=
  if sub <? 0 then t = cstr "Successful reset device" ++ [10] else exists d, decimal sub d /\ t = cstr "Successful reset device (Subcode: " ++ d ++ cstr ")" ++ [10].
Theorem C91_application_reset_partial : forall B wret (react : B -> list Z -> B * list ev) name g o v initial w a, launch ApplicationReset name g o v initial -> hands_bytes react ->
  given_as (g_addr g) a -> match a with Primary n => 0 <= n <= 255 | _ => True end -> o_num o <= 255 -> frame_obj (v_junk v) -> ev_bytes (w_evs w) ->
  let n := match a with Primary n => n | _ => 253 end in
  let t := if o_num o <? 0 then Control 0x53 n 0x50 else Long 0x53 n 0x50 [o_num o] in
  exists x r out w' new ok, run_main B wret react ApplicationReset name (SCmd.line ApplicationReset g) v no_text (start initial) w = Done x /\ ends ApplicationReset o v initial r out w' x /\
    w_log w' = w_log w ++ new /\ (if ok : bool then reset_text (o_num o) out else out = []) /\
    ((r = 1 /\ ok = false /\ not_addressed a new) \/ exists pre tl, new = pre ++ tl /\ addressed a pre /\ commanded (v_junk v) t r ok tl).
Proof.
  intros B wret react name g o v initial w a L RB Ga Ha Hs Ho Hb n t. destruct (given_arg _ _ Ga) as [Aa La]. destruct (launch_means _ _ _ _ _ _ L) as ((_ & _ & _ & _ & _ & _ & _ & M1 & M2) & _).
  destruct (C74_application_reset_partial (program_handle ApplicationReset o) B wret react RB (hears ApplicationReset o) a (o_num o) (v_junk v) w La Ha Hs Ho Hb) as (r & ok & w' & new & E & Lg & K).
  destruct (launched B wret react ApplicationReset name g o v initial w r (if ok then cstr "Successful reset device" ++ (if o_num o >? -1 then cstr " (Subcode: " ++ fmt_d (o_num o) ++ cstr ")" else []) ++ nl else []) w' L) as (x & X1 & X2); [right; reflexivity| |].
  { cbn [conversation]. rewrite M1, Aa. cbn [lift obind]. rewrite E. reflexivity. }
  exists x, r. eexists. exists w', new, ok. split; [exact X1|]. split; [exact X2|]. split; [exact Lg|]. split; [|exact K]. destruct ok; [|reflexivity]. unfold reset_text.
  destruct (Z.ltb_spec (o_num o) 0); destruct (Z.gtb_spec (o_num o) (-1)); try lia; [reflexivity|]. exists (fmt_d (o_num o)). split; [apply decimal_fmt_d|]. change (cstr "Successful reset device (Subcode: ") with (cstr "Successful reset device" ++ cstr " (Subcode: "). rewrite <- !app_assoc. reflexivity.
Qed.

(** The programs that convert files (C72): a missing file, the dump of a telegram with and without -n. They open no line. *)
Theorem C91_no_file : forall B wret (react : B -> list Z -> B * list ev) p name args o v initial w, p = ParseHex \/ p = ParseBinary -> command p name args = Ok (Run o) -> v_file v (o_target o) = None ->
  run_main B wret react p name args v no_text (start initial) w = Done (mkRan 1 [] (name ++ cstr ": failed to open '" ++ o_target o ++ cstr "'" ++ [10]) None None (start initial) w).
Proof. intros B wret react p name args o v initial w Hp H F. unfold run_main. rewrite H. cbn [lift obind]. destruct Hp as [-> | ->]; cbn [reads_file file_main]; unfold file_main; rewrite F; reflexivity. Qed.
Theorem C91_convert_partial : forall B wret (react : B -> list Z -> B * list ev) name g o v initial w s file, documented_line ParseHex g -> command ParseHex name (SCmd.line ParseHex g) = Ok (Run o) ->
  (forall i, stamp_ok (v_stamp v i)) -> v_file v (g_target g) = Some file -> wf_slave s -> dump_of (wire (sl_telegram s)) file ->
  let result := run_main B wret react ParseHex name (SCmd.line ParseHex g) v no_text (start initial) w in
  (~ In N (map SCmd.kind_of (g_flags g)) -> plain_slave s ->
     exists text, result = Done (mkRan 0 text [] None None (start initial) w) /\ plain_document (v_stamp v) (sl_header s) [entries (sl_items s) (sl_tail s)] text) /\
  (In N (map SCmd.kind_of (g_flags g)) -> Forall small_norm (entries (sl_items s) (sl_tail s)) -> Forall meaningful (entries (sl_items s) (sl_tail s)) ->
     exists text, result = Done (mkRan 0 text [] None None (start initial) w) /\ norm_document meaning_entry (sl_header s) (entries (sl_items s) (sl_tail s)) text).
Proof.
  intros B wret react name g o v initial w s file Dl H St F Ws D result. destruct (line_taken ParseHex name g _ Dl H) as (o' & M & V).
  assert (o' = o) as -> by (destruct V as [(_ & t & _ & X)|[(_ & _ & code & t & _ & X)|(_ & _ & X)]]; congruence).
  destruct M as (_ & Mn & _ & _ & _ & Mt & _). unfold result, run_main. rewrite H. cbn [lift obind reads_file]. unfold file_main. rewrite Mt, F.
  split; intros Hn.
  - assert (En : o_norm o = false) by (destruct (o_norm o); [exfalso; apply Hn, Mn; reflexivity|reflexivity]). intros Pl. rewrite En.
    destruct (C72_variable_partial (v_stamp v) St s file Ws Pl D) as (text & E & Dc). rewrite E. exists text. split; [reflexivity|exact Dc].
  - assert (En : o_norm o = true) by (apply Mn; exact Hn). intros Sm Me. rewrite En.
    destruct (C72_normalised_partial (v_stamp v) s file Ws Sm Me D) as (text & E & Dc). rewrite E. exists text. split; [reflexivity|exact Dc].
Qed.

(** The converters: the exit code is 0 exactly if a document is printed, and otherwise 1; the converter of hexadecimal
    dumps prints a document only for a file that holds a telegram of a slave's reply. *)
Theorem C91_convert_code : forall B wret (react : B -> list Z -> B * list ev) p name args o v initial w x, p = ParseHex \/ p = ParseBinary -> command p name args = Ok (Run o) ->
  run_main B wret react p name args v no_text (start initial) w = Done x ->
  (x_code x = 0 \/ x_code x = 1 /\ x_out x = []) /\ x_end x = start initial /\ x_world x = w.
Proof.
  intros B wret react p name args o v initial w x Hp H. unfold run_main. rewrite H. cbn [lift obind].
  replace (reads_file p) with true by (destruct Hp as [-> | ->]; reflexivity). unfold file_main. destruct (v_file v (o_target o)) as [file|]; [|intros E; injection E as <-; cbn; auto].
  set (r := match p with ParseHex => parse_hex_main | _ => parse_main end (v_stamp v) (o_norm o) file).
  assert (K : forall a b, r = Ok (a, b) -> a = 0 \/ (a = 1 /\ b = None)).
  { intros a b. unfold r. destruct Hp as [-> | ->]; [unfold parse_hex_main|unfold parse_main].
    - destruct (file_bytes file); [|discriminate]. cbn [bind]. destruct (mbus_parse _ _) as [[q f]|]; [|discriminate]. cbn [bind]. destruct (negb (q =? 0)); [intros E; apply ok_inj2 in E; intuition auto|].
      destruct (mbus_frame_data_parse _ _) as [[q' fd]|]; [|discriminate]. cbn [bind]. destruct (negb (q' =? 0)); [intros E; apply ok_inj2 in E; intuition auto|].
      match goal with |- bind ?y _ = _ -> _ => destruct y as [[t|]|] end; cbn [bind]; intros E; try discriminate; apply ok_inj2 in E; intuition auto.
    - destruct (mbus_parse _ _) as [[q f]|]; [|discriminate]. cbn [bind]. destruct (mbus_frame_data_parse _ _) as [[q' fd]|]; [|discriminate]. cbn [bind].
      match goal with |- bind ?y _ = _ -> _ => destruct y as [[t|]|] end; cbn [bind]; intros E; try discriminate; apply ok_inj2 in E; intuition auto. }
  clearbody r. destruct r as [[a b]|]; [|discriminate]. cbn [lift obind]. intros E. injection E as <-. cbn [x_code x_out x_end x_world].
  destruct (K a b eq_refl) as [->|[-> ->]]; auto.
Qed.
Theorem C91_convert_only : forall B wret (react : B -> list Z -> B * list ev) name g o v initial w file, documented_line ParseHex g -> command ParseHex name (SCmd.line ParseHex g) = Ok (Run o) ->
  v_file v (g_target g) = Some file ->
  (forall t, file_bytes file = Ok (wire t) -> valid t ->
     match t with Long c _ ci _ | Control c _ ci => ~ ((c / 64) mod 2 = 0 /\ (ci = 0x70 \/ ci = 0x72 \/ ci = 0x73)) | _ => True end) ->
  run_main B wret react ParseHex name (SCmd.line ParseHex g) v no_text (start initial) w = Done (mkRan 1 [] [] None None (start initial) w).
Proof.
  intros B wret react name g o v initial w file Dl H F N. destruct (line_taken ParseHex name g _ Dl H) as (o' & M & V).
  assert (o' = o) as -> by (destruct V as [(_ & t & _ & X)|[(_ & _ & code & t & _ & X)|(_ & _ & X)]]; congruence).
  destruct M as (_ & Mn & _ & _ & _ & Mt & _). unfold run_main. rewrite H. cbn [lift obind reads_file]. unfold file_main. rewrite Mt, F.
  rewrite (refused_file (v_stamp v) (o_norm o) file); [reflexivity|]. intros t E W. specialize (N t E W). destruct t; auto.
Qed.

(** ** What a user cannot rely on *)
Definition ex_sys : system := mkSys (Some 3) true (Some [(None, false); (Some 3, false); (Some 3, true)]).
Definition ex_env (y : system) : env := mkEnv true true true y (cstr "Name or service not known") true true frame_zero (fun _ => None) (fun _ => None) [] (mkM [] []).
(** A device that cannot be opened: the message of the scan program ends before the reason it announces; an ordinary
    request says nothing about the reason and the device either. *)
Theorem C91_reason_refuted :
  exists y o, command SerialScan (cstr "scan") [cstr "/dev/none"] = Ok (Run o) /\
    stops SerialScan o (ex_env y) true (cstr "mbus_serial_connect: failed to open tty.Scan failed: Could not setup connection to M-bus gateway: " ++ [10]).
Proof. exists (mkSys None true None). eexists. split; [reflexivity|]. exact (no_device SerialScan _ (ex_env (mkSys None true None)) eq_refl eq_refl eq_refl eq_refl eq_refl). Qed.
(** More than nine retries are not refused with the command line, but only when the line is open. *)
Theorem C91_retries_refuted :
  exists o, documented_line SerialScan (mkG [Value R (cstr "10")] (cstr "/dev/ttyS0") [] [] [] None) /\
    command SerialScan (cstr "scan") [cstr "-r"; cstr "10"; cstr "/dev/ttyS0"] = Ok (Run o) /\ stops SerialScan o (ex_env ex_sys) true (cstr "Failed to set retry count" ++ [10]).
Proof.
  eexists. split; [|split; [reflexivity|]].
  - split; [split; [repeat constructor|]|intros H; exfalso; apply H; reflexivity]. cbn. apply c_skip, c_skip, c_take, c_nil.
  - apply bad_retries; try reflexivity; [discriminate|left; reflexivity|cbn; lia].
Qed.

(** ** Cases that meet the hypotheses *)
Lemma strings_dec l : forallb (fun s => forallb (fun c => negb (c =? 0)) s) l = true -> strings l.
Proof. rewrite forallb_forall. intros H s I X. specialize (H s I). rewrite forallb_forall in H. specialize (H 0 X). discriminate. Qed.
Lemma ex_fresh : fresh_fds [0; 1; 2] ex_sys.
Proof.
  split; [intros fd E; injection E as <-; split; [lia|cbn; intuition discriminate]|]. intros l fd b E I. injection E as <-. cbn in I.
  destruct I as [I|[I|[I|[]]]]; [discriminate|..]; injection I as <- _; (split; [lia|cbn; intuition discriminate]).
Qed.
Lemma ex_launch p name g o : documented_line p g -> command p name (SCmd.line p g) = Ok (Run o) -> forallb (fun s => forallb (fun c => negb (c =? 0)) s) (SCmd.line p g) = true ->
  (scans p -> 0 <= o_retries o <= 9) -> In (o_baud o) rates -> launch p name g o (ex_env ex_sys) [0; 1; 2].
Proof.
  intros D C S R Bd. split; [exact D|exact C|apply strings_dec; exact S|vm_compute; intuition discriminate|exact ex_fresh|repeat constructor; cbn; intuition discriminate|].
  split; [reflexivity|]. split; [reflexivity|]. split; [reflexivity|]. split; [destruct (SCmd.serial p); discriminate|]. auto.
Qed.
Definition ex_given : list (prog * given) :=
  [(SerialScan, mkG [Switch D; Value B (cstr "2400"); Value R (cstr "3")] (cstr "/dev/ttyS0") [] [] [] None);
   (TcpScan, mkG [] (cstr "gateway") (cstr "8000") [] [] None);
   (SerialRequest, mkG [Value B (cstr "2400")] (cstr "/dev/ttyS0") [] (cstr "1") [] None);
   (TcpRequest, mkG [Switch D] (cstr "gateway") (cstr "8000") (cstr "11000000FFFFFFFF") [] None);
   (SerialMulti, several);
   (TcpMulti, mkG [Value F (cstr "2")] (cstr "gateway") (cstr "8000") (cstr "5") [] None);
   (SetAddress, mkG [] (cstr "/dev/ttyS0") [] (cstr "5") (cstr "7") None);
   (SwitchBaudrate, mkG [Value B (cstr "300")] (cstr "/dev/ttyS0") [] (cstr "5") (cstr "2400") None);
   (ApplicationReset, mkG [Switch D] (cstr "gateway") (cstr "8000") (cstr "5") [] (Some (cstr "16")));
   (RawSend, mkG [] (cstr "gateway") (cstr "8000") (cstr "5") [] None);
   (SerialSelect, mkG [] (cstr "/dev/ttyS0") [] (cstr "11000000FFFFFFFF") [] None);
   (TcpSelect, mkG [] (cstr "gateway") (cstr "8000") (cstr "11000000FFFFFFFF") [] None);
   (SerialScanSecondary, mkG [Value B (cstr "9600")] (cstr "/dev/ttyS0") [] [] [] None);
   (TcpScanSecondary, mkG [] (cstr "gateway") (cstr "8000") [] [] (Some (cstr "1FFFFFFFFFFFFFFF")))].
Example C91_launches : Forall (fun x => exists o, launch (fst x) (cstr "program") (snd x) o (ex_env ex_sys) [0; 1; 2]) ex_given.
Proof.
  repeat (apply Forall_cons || apply Forall_nil); (eexists; apply ex_launch; [PropCmd.lined; cbn [g_last g_flags fst snd several]; first [intros K; exfalso; apply K; reflexivity|intros _ K; discriminate K|intros _ _ K; cbn in K; intuition discriminate]
     |vm_compute; reflexivity|vm_compute; reflexivity|intros _; vm_compute; intuition discriminate|vm_compute; tauto]).
Qed.
(** A run of the scan, of the request for data and of the assignment on the network of C64, and what they printed. *)
Definition ran_on (p : prog) (g : given) : option (Z * list Z * list Z * list (Z * file) * list Z) :=
  match run_main members (fun _ n => n) (net_react acks data_of) p (cstr "program") (SCmd.line p g) (ex_env ex_sys) no_text (start [0; 1; 2]) (mkW ex_net [] []) with
  | Done x => Some (x_code x, x_out x, x_err x, own_files (x_end x), map (fun s => sl_a (fst s)) (w_bus (x_world x)))
  | _ => None
  end.
Example C91_run_scan : ran_on SerialScan (mkG [Switch D; Value B (cstr "2400"); Value R (cstr "3")] (cstr "/dev/ttyS0") [] [] [] None) =
  Some (0, cstr "Found a M-Bus device at address 1" ++ [10] ++ cstr "Found a M-Bus device at address 5" ++ [10] ++ cstr "Found a M-Bus device at address 250" ++ [10], [], [], [1; 5; 5; 250]).
Proof. vm_compute. reflexivity. Qed.
Example C91_run_set : ran_on SetAddress (mkG [] (cstr "/dev/ttyS0") [] (cstr "1") (cstr "7") None) =
  Some (0, cstr "Set primary address of device to 7" ++ [10], [], [], [7; 5; 5; 250]).
Proof. vm_compute. reflexivity. Qed.
Example C91_run_select : ran_on TcpSelect (mkG [] (cstr "gateway") (cstr "8000") (cstr "99000000FFFFFFFF") [] None) = Some (1, [], [], [(3, Sock (Some (4, 0)) (Some (4, 0)))], [1; 5; 5; 250]).
Proof. vm_compute. reflexivity. Qed.
Example C91_networks p o : net_of (program_handle p o) members (fun _ n => n) (net_react acks data_of) (fun b => b).
Proof. apply C64_net_exists; intros; [apply acks_phase|apply data_of_phase]. Qed.
(** A dump of two bytes that are no telegram. *)
Example C91_convert_only_nonvacuous : forall t, file_bytes (cstr "12 34") = Ok (wire t) -> valid t ->
  match t with Long c _ ci _ | Control c _ ci => ~ ((c / 64) mod 2 = 0 /\ (ci = 0x70 \/ ci = 0x72 \/ ci = 0x73)) | _ => True end.
Proof. intros t E _. vm_compute in E. destruct t; [exact I|exact I|discriminate E|]. exfalso. cbn in E. discriminate E. Qed.
Print Assumptions C91_refused.
Print Assumptions C91_start.
Print Assumptions C91_hindrance.
Print Assumptions C91_scan.
Print Assumptions C91_request_primary_partial.
Print Assumptions C91_request_secondary_partial.
Print Assumptions C91_multi_primary_partial.
Print Assumptions C91_multi_secondary_partial.
Print Assumptions C91_set_address_primary.
Print Assumptions C91_set_address_secondary.
Print Assumptions C91_select.
Print Assumptions C91_scan_secondary_partial.
Print Assumptions C91_raw_send.
Print Assumptions C91_switch_baudrate_partial.
Print Assumptions C91_application_reset_partial.
Print Assumptions C91_no_file.
Print Assumptions C91_convert_partial.
Print Assumptions C91_reason_refuted.
Print Assumptions C91_retries_refuted.
Print Assumptions C91_raw_send_no_file.
Print Assumptions C91_convert_code.
Print Assumptions C91_convert_only.

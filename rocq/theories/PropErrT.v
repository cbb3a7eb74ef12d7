(** C87: diagnostics of the transport layers. *)
From Coq Require Import QArith.
From Coq Require Import String.
From Coq Require Import List.
From Verif Require Import CBase PBase CStr MFrame SWire SFrame PFrame PFrame2 MText PText MXml MRecv SRecv PRecv MProto PProto PProto2 MDouble MConn MErr SErr PErr PErr2 PErr3 PErr4 PErr5 MErrT SErrT PErrT.
Local Open Scope Z_scope.

(** ** Receiving *)
(** TCP: the result of the call is that of the model without texts; the text afterwards is that of the result (and tells
    the results apart), a received telegram leaves it as it was; nothing goes to stderr. *)
Theorem C87_tcp_recv : forall e f evs, err_ok e -> frame_obj f -> frame_bytes f -> ev_bytes evs ->
  exists c f' es got e', mbus_tcp_recv_frame f evs = Ok (Some (c, f', es, got)) /\
    mbus_tcp_recv_frame_e e f evs = Ok (Some (c, f', es, got, e', [])) /\
    ((c = RECV_OK /\ e' = e) \/
     (c <> RECV_OK /\ exists m, tcp_text c = Some m /\ says e' m /\ forall c', tcp_text c' = Some m -> c' = c)).
Proof.
  intros e f evs [He _] Ho Hf Hev. destruct (handle_told (mkH 0 0 0 false) e f evs He Ho Hf Hev) as (c & f' & es & got & e' & err & R1 & R2 & [T ->] & _).
  cbn [is_serial handle_recv_e] in R2. exists c, f', es, got, e'.
  destruct (handle_recv_total (mkH 0 0 0 false) f evs Ho Hev) as (c0 & f0 & e0 & g0 & R3 & _ & _ & _ & _ & _ & C & _). rewrite R1 in R3. injection R3 as <- <- <- <-.
  unfold handle_recv in R1. cbn [is_serial] in R1.
  split. { destruct (mbus_tcp_recv_frame f evs) as [[x|]|]; cbn [lift obind] in R1; try discriminate. injection R1 as ->. reflexivity. }
  split; [exact R2|].
  assert (U : forall c m, In c [RECV_ERROR; RECV_INVALID; RECV_TIMEOUT; RECV_RESET] -> tcp_text c = Some m -> forall c', tcp_text c' = Some m -> c' = c).
  { clear. intros c m C E c' E'. unfold tcp_text in E'.
    destruct (Z.eqb_spec c' RECV_INVALID) as [X|_]; [|destruct (Z.eqb_spec c' RECV_TIMEOUT) as [X|_]; [|destruct (Z.eqb_spec c' RECV_RESET) as [X|_]; [|destruct (Z.eqb_spec c' RECV_ERROR) as [X|_]; [|discriminate]]]];
    rewrite <- E' in E; rewrite X; destruct C as [<-|[<-|[<-|[<-|[]]]]]; try reflexivity; vm_compute in E; discriminate. }
  destruct C as [<-|[<-|[<-|[<-|[<-|[]]]]]].
  1: left; split; [reflexivity|exact T].
  all: right; split; [discriminate|]; eexists; split; [reflexivity|]; split; [exact T|]; apply U; [cbn; tauto|reflexivity].
Qed.
(** Serial line: the table [serial_told]. *)
Theorem C87_serial_recv : forall e f evs, err_ok e -> frame_obj f -> frame_bytes f -> ev_bytes evs ->
  exists c f' es got e' err, mbus_serial_recv_frame f evs = Ok (Some (c, f', es, got)) /\
    mbus_serial_recv_frame_e true e f evs = Ok (Some (c, f', es, got, e', err)) /\ serial_told e c got e' err.
Proof.
  intros e f evs [He _] Ho Hf Hev. destruct (handle_told (mkH 0 0 0 true) e f evs He Ho Hf Hev) as (c & f' & es & got & e' & err & R1 & R2 & T & _).
  cbn [is_serial handle_recv_e recv_told] in R2, T. exists c, f', es, got, e', err.
  unfold handle_recv in R1. cbn [is_serial] in R1.
  split. { destruct (mbus_serial_recv_frame f evs) as [[x|]|]; cbn [lift obind] in R1; try discriminate. injection R1 as ->. reflexivity. }
  split; [exact R2|exact T].
Qed.
(** What the caller of a serial receive call cannot rely on: the text for ordinary silence speaks of null pointers, and a
    telegram that breaks off, a read error and a device that is no terminal leave the text of an earlier failure. *)
Theorem C87_serial_text_refuted : forall e f, err_ok e -> frame_obj f -> frame_bytes f ->
  (exists f' e', mbus_serial_recv_frame_e true e f [] = Ok (Some (RECV_TIMEOUT, f', [], [], e', [])) /\
     says e' (cstr "Got null pointer to frame, data or zero data_size.")) /\
  (exists f', mbus_serial_recv_frame_e true e f [MRecv.Data [0x10; 0x40; 0xFD]] =
     Ok (Some (RECV_INVALID, f', [], [0x10; 0x40; 0xFD], e, cstr "mbus_serial_recv_frame: Timeout" ++ [10]))) /\
  (exists f', mbus_serial_recv_frame_e true e f [EOther] = Ok (Some (RECV_ERROR, f', [], [], e, []))) /\
  mbus_serial_recv_frame_e false e f [] =
    Ok (Some (RECV_ERROR, f, [], [], e, cstr "mbus_serial_recv_frame: Serial connection is not available." ++ [10])).
Proof.
  intros e f He Ho Hf. split; [|split; [|split; [eexists; reflexivity|reflexivity]]].
  - destruct (C87_serial_recv e f [] He Ho Hf I) as (c & f' & es & got & e' & err & R1 & R2 & T).
    assert (X : mbus_serial_recv_frame f [] = Ok (Some (RECV_TIMEOUT, f, [], []))) by reflexivity.
    rewrite X in R1. injection R1 as <- <- <- <-. inversion T; subst. exists f, e'. auto.
  - assert (V : ev_bytes [MRecv.Data [0x10; 0x40; 0xFD]]). { split; [|exact I]. vm_compute. repeat constructor; discriminate. }
    destruct (C87_serial_recv e f _ He Ho Hf V) as (c & f' & es & got & e' & err & R1 & R2 & T).
    assert (exists f0, mbus_serial_recv_frame f [MRecv.Data [0x10; 0x40; 0xFD]] = Ok (Some (RECV_INVALID, f0, [], [0x10; 0x40; 0xFD]))) as (f0 & X).
    { destruct f. eexists. reflexivity. }
    rewrite X in R1. injection R1 as <- <- <- <-. exists f0. rewrite R2. inversion T; subst.
    + exfalso. match goal with H : telegram_fault _ _ _ |- _ => clear -H; inversion H; subst end; cbn in *; try lia; try discriminate.
    + reflexivity.
Qed.

(** mbus_recv_frame with a handle of either kind, for every setting of the purge option: the last receive call of the
    transport (the only one unless the first telegram is discarded) decides on the text. *)
Theorem C87_recv : forall B h e f (w : world B), err_ok e -> frame_obj f -> frame_bytes f -> ev_bytes (w_evs w) ->
  exists c f' evs' got e1 e' err1 err, mbus_recv_frame B (Some h) f w = Done (c, f', mkW (w_bus w) evs' (w_log w ++ [Received c got])) /\
    mbus_recv_frame_e (is_serial h) (purge_first_frame h) e f (w_evs w) = Done (c, f', evs', e', err1 ++ err) /\
    (if is_serial h then serial_told e1 c got e' err else told e1 (tcp_text c) e' /\ err1 = [] /\ err = []) /\
    (purge_first_frame h = PURGE_NONE -> e1 = e /\ err1 = []).
Proof.
  intros B h e f w [He _] Ho Hf Hev. destruct (recv_frame_told B h e f w He Ho Hf Hev) as (c & f' & es & g & e1 & e' & err1 & err2 & R1 & R2 & T & N1 & N & _).
  exists c, f', es, g, e1, e', err1, err2. split; [exact R1|]. split; [exact R2|]. split; [|exact N1].
  unfold recv_told in T. destruct (is_serial h); [exact T|]. destruct T as [T1 T2]. auto.
Qed.

(** mbus_purge_frames: even if nothing goes wrong, on a TCP connection the text afterwards is one of the three that speak
    of a failure, on a serial line that of ordinary silence. *)
Theorem C87_purge : forall B h e (w : world B), err_ok e -> ev_bytes (w_evs w) ->
  exists r w' e' err, mbus_purge_frames B (Some h) w = Done (r, w') /\
    mbus_purge_frames_e (is_serial h) (purge_first_frame h) e (w_evs w) = Done (r, w_evs w', e', err) /\
    (is_serial h = false -> err = [] /\ exists c m, In c [RECV_TIMEOUT; RECV_RESET; RECV_ERROR] /\ tcp_text c = Some m /\ says e' m) /\
    (all_data (w_evs w) -> says e' (if is_serial h then cstr "Got null pointer to frame, data or zero data_size."
                                   else cstr "M-Bus tcp transport layer response timeout has been reached.")).
Proof.
  intros B h e w [He _] Hev. destruct (purge_frames_ok B h w Hev) as (r & w' & new & E & _). exists r, w'.
  assert (Hz0 : frame_bytes frame_zero). { split; vm_compute; repeat constructor; discriminate. }
  destruct (purge_told B h (S (ev_size (w_evs w))) e frame_zero w 0 [] r w' He eq_refl Hz0 Hev E)
    as (e' & err' & new' & c & got & e1 & err1 & P1 & P2 & P3 & P4 & P5 & P6 & P7 & P8).
  exists e', err'. split; [exact E|]. split; [exact P1|]. split.
  - intros X. split; [exact (P7 X)|]. unfold recv_told in P6. rewrite X in P6. destruct P6 as [T _]. unfold told in T.
    destruct (tcp_text c) as [m|] eqn:Et.
    + exists c, m. split; [|auto]. unfold tcp_text in Et. clear - Et P5. cbn.
      destruct (Z.eqb_spec c RECV_INVALID); [contradiction|].
      destruct (Z.eqb_spec c RECV_TIMEOUT); [auto|]. destruct (Z.eqb_spec c RECV_RESET); [auto|]. destruct (Z.eqb_spec c RECV_ERROR); [auto|discriminate].
    + exfalso. subst e1. destruct (purge_end_code B h (S (ev_size (w_evs w))) frame_zero w 0 r w' eq_refl Hev E) as (new2 & c2 & g2 & L & C).
      rewrite L in P3. assert (X2 : Received c2 g2 = Received c got). { rewrite !app_assoc in P3. apply app_inj_tail in P3. tauto. }
      injection X2 as -> _. unfold codes in C. cbn in C. destruct C as [<-|[<-|[<-|[<-|[<-|[]]]]]]; vm_compute in Et; try discriminate. apply P4. reflexivity.
  - intros A. specialize (P8 A). subst c. unfold recv_told in P6. destruct (is_serial h).
    + inversion P6; subst. assumption.
    + exact (proj1 P6).
Qed.

(** ** Sending *)
Lemma plain_int z : ~ In 0 (fmt_d z).
Proof. intros H. pose proof (fmt_d_chars z) as F. rewrite Forall_forall in F. specialize (F _ H). unfold num_char, dec_char in F. lia. Qed.
Lemma cut_plain n m : ~ In 0 m -> ~ In 0 (firstn n m).
Proof. intros H X. apply H. rewrite <- (firstn_skipn n m). apply in_app_iff. left. exact X. Qed.
Lemma set128_says e m : List.length e = 512%nat -> ~ In 0 m -> exists e', set128 e m = Ok e' /\ says e' (firstn 127 m).
Proof. intros He Hm. exact (say_ok e (firstn 127 m) He (cut_plain 127 m Hm)). Qed.

Lemma sized : 0 <= PACKET_BUFF_SIZE <= Z.of_nat (List.length (repeat 0 (Z.to_nat PACKET_BUFF_SIZE))).
Proof. rewrite repeat_length. unfold PACKET_BUFF_SIZE. lia. Qed.

(** mbus_tcp_send_frame: result and telegram as without texts; the text names the result of write() if that is not the
    length of the telegram, and stays if it is. (write() gives an int here.) *)
Theorem C87_tcp_send : forall wret e f, err_ok e -> frame_obj f -> (ftype f = 4 -> 0 <= data_size f <= 252) -> In (ftype f) [1; 2; 3; 4] ->
  (forall n, 0 <= n <= 2048 -> - 2 ^ 31 <= wret n < 2 ^ 31) ->
  exists r f' w e', transport_send_frame wret f = Ok (r, f', Some w) /\ mbus_tcp_send_frame_e wret e f = Ok (r, f', Some w, e') /\
    let n := wret (Z.of_nat (List.length w)) in
    ((r = 0 /\ n = Z.of_nat (List.length w) /\ e' = e) \/
     (r = -1 /\ n <> Z.of_nat (List.length w) /\ says e' (cstr "mbus_tcp_send_frame: Failed to write frame to socket (ret = " ++ fmt_d n ++ cstr ")" ++ [10]))).
Proof.
  intros wret e f [He _] Ho Hd Ht Hw. destruct (send_gen wret f Ho Hd Ht) as (r & f' & w & E & Hr & Hn).
  destruct (pack_bounds f (repeat 0 (Z.to_nat PACKET_BUFF_SIZE)) PACKET_BUFF_SIZE Ho Hd sized) as (len & g & b & Ep & Hl & Hc & Hneg & Hpos).
  unfold transport_send_frame in E. rewrite Ep in E. cbn [bind] in E.
  exists r, f', w. unfold mbus_tcp_send_frame_e, transport_send_frame. rewrite Ep. cbn [bind].
  destruct (len =? -1); [discriminate|]. destruct (Z.ltb_spec len 0); [discriminate|].
  assert (Lw : Z.of_nat (List.length w) = len).
  { rewrite repeat_length in Hl. assert (w = firstn (Z.to_nat len) b) as -> by (destruct (wret len =? len); congruence).
    rewrite firstn_length, Hl. unfold PACKET_BUFF_SIZE in *. lia. }
  rewrite Lw. destruct (Z.eqb_spec (wret len) len) as [X|X].
  - exists e. injection E as <- <- <-. split; [reflexivity|]. split; [reflexivity|]. left. auto.
  - set (m := cstr "mbus_tcp_send_frame: Failed to write frame to socket (ret = " ++ fmt_d (wret len) ++ cstr ")" ++ nl).
    assert (Hm : ~ In 0 m).
    { unfold m. rewrite !in_app_iff. intros [Y|[Y|[Y|Y]]]; [|exact (plain_int _ Y)| |]; revert Y; nozero. }
    destruct (set128_says e m He Hm) as (e' & S1 & S2). rewrite S1. cbn [bind]. exists e'. injection E as <- <- <-.
    split; [reflexivity|]. split; [reflexivity|]. right. split; [reflexivity|]. split; [exact X|].
    rewrite firstn_all2 in S2; [exact S2|]. unfold m. rewrite !app_length.
    pose proof (fmt_d_len (wret len) 9) as L. specialize (Hw len ltac:(unfold PACKET_BUFF_SIZE in *; lia)). change (10 ^ Z.of_nat 10) with 10000000000 in L. specialize (L ltac:(lia)).
    change (List.length (cstr "mbus_tcp_send_frame: Failed to write frame to socket (ret = ")) with 60%nat. cbn [List.length cstr]. unfold nl. cbn. lia.
Qed.
(** mbus_serial_send_frame never sets the text; a failed write() is told on stderr, with a device that is no terminal
    nothing at all. *)
Theorem C87_serial_send : forall wret why e f, frame_obj f -> (ftype f = 4 -> 0 <= data_size f <= 252) -> In (ftype f) [1; 2; 3; 4] ->
  mbus_serial_send_frame_e false wret why e f = Ok (-1, f, None, e, []) /\
  exists r f' w err, transport_send_frame wret f = Ok (r, f', Some w) /\ mbus_serial_send_frame_e true wret why e f = Ok (r, f', Some w, e, err) /\
    let n := wret (Z.of_nat (List.length w)) in
    ((r = 0 /\ n = Z.of_nat (List.length w) /\ err = []) \/
     (r = -1 /\ n <> Z.of_nat (List.length w) /\
      err = cstr "mbus_serial_send_frame: Failed to write frame to socket (ret = " ++ fmt_d n ++ cstr ": " ++ why ++ cstr ")" ++ [10])).
Proof.
  intros wret why e f Ho Hd Ht. split; [reflexivity|]. destruct (send_gen wret f Ho Hd Ht) as (r & f' & w & E & Hr & Hn).
  destruct (pack_bounds f (repeat 0 (Z.to_nat PACKET_BUFF_SIZE)) PACKET_BUFF_SIZE Ho Hd sized) as (len & g & b & Ep & Hl & Hc & Hneg & Hpos).
  unfold transport_send_frame in E. rewrite Ep in E. cbn [bind] in E.
  exists r, f', w. unfold mbus_serial_send_frame_e, transport_send_frame. rewrite Ep. cbn [bind negb].
  destruct (len =? -1); [discriminate|]. destruct (Z.ltb_spec len 0); [discriminate|].
  assert (Lw : Z.of_nat (List.length w) = len).
  { rewrite repeat_length in Hl. assert (w = firstn (Z.to_nat len) b) as -> by (destruct (wret len =? len); congruence).
    rewrite firstn_length, Hl. unfold PACKET_BUFF_SIZE in *. lia. }
  rewrite Lw. destruct (Z.eqb_spec (wret len) len) as [X|X]; injection E as <- <- <-.
  - exists []. split; [reflexivity|]. split; [reflexivity|]. left. auto.
  - eexists. split; [reflexivity|]. split; [reflexivity|]. right. auto.
Qed.

(** ** Creating and connecting a handle, the TCP timeout *)
(** mbus_context_serial, mbus_context_tcp: result and memory as without texts; for the second and third allocation the
    text names what failed, for the first only stderr does. *)
Theorem C87_context : forall (serial m1 m2 m3 : bool) e p, err_ok e ->
  let who := if serial then cstr "mbus_context_serial" else cstr "mbus_context_tcp" in
  exists r p' e' err, mbus_context serial m1 m2 m3 p = Ok (r, p') /\ mbus_context_e serial m1 m2 m3 e p = Ok (r, p', e', err) /\
    match m1, m2, m3 with
    | false, _, _ => r = 0 /\ e' = e /\ err = who ++ cstr ": Failed to allocate handle." ++ [10]
    | true, false, _ => r = 0 /\ says e' (who ++ cstr ": failed to allocate memory for handle" ++ [10]) /\ err = []
    | true, true, false => r = 0 /\ says e' (who ++ cstr ": failed to allocate memory for " ++ (if serial then cstr "device" else cstr "host") ++ [10]) /\ err = []
    | true, true, true => e' = e /\ err = []
    end.
Proof.
  intros serial m1 m2 m3 e p [He _] who. unfold mbus_context, mbus_context_e.
  destruct m1; cbn [malloc]. 2:{ do 4 eexists. split; [reflexivity|]. split; [reflexivity|]. auto. }
  destruct m2; cbn [malloc].
  - destruct m3; cbn [malloc]. { do 4 eexists. split; [reflexivity|]. split; [reflexivity|]. auto. }
    destruct (set128_says e (context_name serial ++ cstr ": failed to allocate memory for " ++ (if serial then cstr "device" else cstr "host") ++ nl) He) as (e' & S1 & S2).
    { destruct serial; nozero. }
    rewrite S1. cbn [bind]. unfold free. cbn [p_blocks p_next existsb]. rewrite Z.eqb_refl. cbn [orb bind p_blocks filter]. rewrite Z.eqb_refl. cbn [negb existsb].
    assert (N : (p_next p =? p_next p + 1) = false) by (apply Z.eqb_neq; lia). rewrite N. cbn [negb existsb]. rewrite Z.eqb_refl. cbn [orb bind].
    do 4 eexists. split; [reflexivity|]. split; [reflexivity|]. split; [reflexivity|]. split; [|reflexivity].
    destruct serial; exact S2.
  - destruct (set128_says e (context_name serial ++ cstr ": failed to allocate memory for handle" ++ nl) He) as (e' & S1 & S2).
    { destruct serial; nozero. }
    rewrite S1. cbn [bind]. unfold free. cbn [p_blocks p_next existsb]. rewrite Z.eqb_refl. cbn [orb bind p_blocks filter].
    do 4 eexists. split; [reflexivity|]. split; [reflexivity|]. split; [reflexivity|]. split; [|reflexivity].
    destruct serial; exact S2.
Qed.

(** mbus_tcp_connect: result and process as without texts; if the name cannot be resolved the text ends with the reason of
    the resolver, if no address accepts it names host and port (all cut to 127 characters); otherwise it stays. *)
Theorem C87_tcp_connect : forall info host port why h o e p, err_ok e -> ~ In 0 host -> ~ In 0 why -> 0 <= port < 65536 ->
  ob_aux o <> None ->
  exists r p' e', mbus_tcp_connect info h o p = (r, p') /\ mbus_tcp_connect_e info host port why h o e p = Ok (r, p', e') /\
    match info with
    | None => r = -1 /\ says e' (firstn 127 (cstr "mbus_tcp_connect: getaddrinfo: " ++ why))
    | Some l =>
        (r = 0 /\ (exists s, In (Some s, true) l) /\ e' = e) \/
        (r = -1 /\ (forall s, ~ In (Some s, true) l) /\
         says e' (firstn 127 (cstr "mbus_tcp_connect: Failed to establish connection to " ++ host ++ cstr ":" ++ fmt_d port)))
    end.
Proof.
  intros info host port why h o e p [He _] Hh Hy Hp Ha. unfold mbus_tcp_connect, mbus_tcp_connect_e. destruct (ob_aux o) as [a|]; [|contradiction]. clear Ha.
  destruct info as [l|].
  - assert (C : forall l fd p, let '(up, fd', p') := connect_loop l fd p in
       (up = true -> exists s, fd' = Some s /\ In (Some s, true) l) /\ (up = false -> forall s, ~ In (Some s, true) l)).
    { clear. induction l as [|[[s|] up] l IH]; intros fd p; cbn [connect_loop].
      - split; [discriminate|]. auto.
      - destruct up.
        + split; [|discriminate]. intros _. exists s. cbn. auto.
        + specialize (IH (Some s) (close s (set_files p ((s, Sock None None) :: p_files p)))).
          destruct (connect_loop l _ _) as [[u f] q]. destruct IH as [I1 I2]. split.
          * intros U. destruct (I1 U) as (x & X1 & X2). exists x. cbn. auto.
          * intros U x [X|X]; [discriminate|]. exact (I2 U x X).
      - specialize (IH (Some (-1)) p). destruct (connect_loop l _ _) as [[u f] q]. destruct IH as [I1 I2]. split.
        + intros U. destruct (I1 U) as (x & X1 & X2). exists x. cbn. auto.
        + intros U x [X|X]; [discriminate|]. exact (I2 U x X). }
    specialize (C l (ob_fd o) p). destruct (connect_loop l (ob_fd o) p) as [[up fd] q]. destruct C as [C1 C2].
    assert (F : firstn 5 (fmt_d port) = fmt_d port).
    { apply firstn_all2. pose proof (fmt_u_len port 4) as L. change (10 ^ Z.of_nat 5) with 100000 in L. specialize (L ltac:(lia)).
      unfold fmt_d. destruct (Z.ltb_spec port 0); [lia|]. lia. }
    rewrite F. set (m := cstr "mbus_tcp_connect: Failed to establish connection to " ++ host ++ cstr ":" ++ fmt_d port).
    assert (Hm : ~ In 0 m).
    { unfold m. rewrite !in_app_iff. intros [Y|[Y|[Y|Y]]]; [|exact (Hh Y)| |exact (plain_int _ Y)]; revert Y; nozero. }
    destruct (set128_says e m He Hm) as (e' & S1 & S2).
    destruct up.
    + destruct (C1 eq_refl) as (s & -> & I1). do 3 eexists. split; [reflexivity|]. split; [reflexivity|]. left. eauto.
    + rewrite S1. cbn [bind]. destruct fd; do 3 eexists; (split; [reflexivity|]); (split; [reflexivity|]); right; auto.
  - set (m := cstr "mbus_tcp_connect: getaddrinfo: " ++ why).
    assert (Hm : ~ In 0 m). { unfold m. rewrite !in_app_iff. intros [Y|Y]; [|exact (Hy Y)]. revert Y; nozero. }
    destruct (set128_says e m He Hm) as (e' & S1 & S2). rewrite S1. cbn [bind]. do 3 eexists. split; [reflexivity|]. split; [reflexivity|]. auto.
Qed.
(** mbus_serial_connect sets no text; if the device cannot be opened there is a line on stderr; a handle without
    auxiliary data is refused without a word. *)
Theorem C87_serial_connect : forall fd attr h o p,
  exists r p' err, mbus_serial_connect fd attr h o p = (r, p') /\ mbus_serial_connect_e fd attr h o p = (r, p', err) /\
    (ob_aux o <> None -> fd = None -> r = -1 /\ err = cstr "mbus_serial_connect: failed to open tty.") /\ (fd <> None -> err = []) /\
    (ob_aux o = None -> r = -1 /\ p' = p /\ err = []).
Proof.
  intros fd attr h o p. unfold mbus_serial_connect_e. destruct (mbus_serial_connect fd attr h o p) as [r p'] eqn:E. do 3 eexists. split; [reflexivity|]. split; [reflexivity|].
  unfold mbus_serial_connect in E. destruct (ob_aux o) as [a|] eqn:Ea.
  - destruct fd as [x|]; (split; [|split]); try congruence. intros _ _. injection E as <- <-. auto.
  - injection E as <- <-. split; [congruence|]. split; [reflexivity|auto].
Qed.
(** mbus_tcp_set_timeout_set: refused exactly for negative values, with this text. *)
Theorem C87_timeout : forall seconds e p r p', err_ok e -> mbus_tcp_set_timeout_set seconds p = Ok (r, p') ->
  exists e', mbus_tcp_set_timeout_set_e seconds e p = Ok (r, p', e') /\
    ((r = 0 /\ e' = e) \/ (r = -1 /\ p' = p /\ says e' (cstr "Invalid timeout (must be positive).") /\
                           match seconds with Num q => (q < 0)%Q | NonFinite neg nan => neg = true /\ nan = false end)).
Proof.
  intros seconds e p r p' [He _] E. unfold mbus_tcp_set_timeout_set_e. rewrite E. cbn [bind].
  destruct (set_says e (cstr "Invalid timeout (must be positive).") He ltac:(nozero)) as (e1 & S1 & S2). rewrite S1. cbn [bind].
  unfold mbus_tcp_set_timeout_set in E.
  destruct (match seconds with Num q => Qnum q <? 0 | NonFinite neg nan => neg && negb nan end) eqn:N.
  - injection E as <- <-. exists e1. split; [reflexivity|]. right. split; [reflexivity|]. split; [reflexivity|]. split; [exact S2|].
    destruct seconds as [q|neg nan].
    + apply Z.ltb_lt in N. unfold Qlt. cbn. lia.
    + apply andb_true_iff in N as [-> N]. apply negb_true_iff in N. auto.
  - destruct (double_to_int seconds) as [s|]; cbn [bind] in E; [|discriminate].
    destruct (double_to_int _) as [u|]; cbn [bind] in E; [|discriminate]. injection E as <- <-. exists e. split; [reflexivity|]. left. auto.
Qed.

(** ** Concrete cases *)
(** A telegram with a wrong checksum over TCP; the same over a serial line, where the text says more. *)
Example C87_recv_nonvacuous :
  let evs := [MRecv.Data [0x10; 0x40; 0xFD; 0x3E; 0x16]] in
  ev_bytes evs /\ frame_obj frame_zero /\ err_ok err_start /\
  (exists f' e', mbus_tcp_recv_frame_e err_start frame_zero evs = Ok (Some (RECV_INVALID, f', [], [0x10; 0x40; 0xFD; 0x3E; 0x16], e', [])) /\
     SErr.c_text e' = cstr "M-Bus layer failed to parse data.") /\
  (exists f' e', mbus_serial_recv_frame_e true err_start frame_zero evs = Ok (Some (RECV_INVALID, f', [], [0x10; 0x40; 0xFD; 0x3E; 0x16], e', [])) /\
     SErr.c_text e' = cstr "Invalid checksum (0x3e != 0x3d)").
Proof.
  intros evs. split. { split; [|exact I]. vm_compute. repeat constructor; discriminate. } split; [reflexivity|]. split; [vm_compute; auto|].
  split; do 2 eexists; split; vm_compute; reflexivity.
Qed.
(** A purge of a TCP connection with an acknowledgement pending: one telegram found, and the text of a timeout. *)
Example C87_purge_nonvacuous : exists e', mbus_purge_frames_e false 0 err_start [MRecv.Data [0xE5]] = Done (1, [], e', []) /\
  all_data [MRecv.Data [0xE5]] /\ SErr.c_text e' = cstr "M-Bus tcp transport layer response timeout has been reached.".
Proof. eexists. split; [vm_compute; reflexivity|]. split; [|vm_compute; reflexivity]. constructor; [|constructor]. eexists. split; [reflexivity|discriminate]. Qed.
(** A failed write to a socket; a host that refuses; a refused timeout. *)
Example C87_calls_nonvacuous :
  (exists f' e', mbus_tcp_send_frame_e (fun _ => -1) err_start (mkF 0x10 0 0 0 0x40 253 0 0 0x16 (repeat 0 252) 0 2 0) =
     Ok (-1, f', Some [0x10; 0x40; 0xFD; 0x3D; 0x16], e') /\
     SErr.c_text e' = cstr "mbus_tcp_send_frame: Failed to write frame to socket (ret = -1)" ++ [10]) /\
  (exists p' e', mbus_tcp_connect_e (Some [(Some 5, false); (None, false)]) (cstr "gateway") 8000 [] 1 (mkO false None (Some (2, 3)) None) err_start
       (mkP [] [1; 2; 3] 4 [(1, mkO false None (Some (2, 3)) None)] (4, 0)) = Ok (-1, p', e') /\
     SErr.c_text e' = cstr "mbus_tcp_connect: Failed to establish connection to gateway:8000") /\
  (exists p' e', mbus_tcp_set_timeout_set_e (Num (-1 # 2)) err_start (mkP [] [] 1 [] (4, 0)) = Ok (-1, p', e') /\
     SErr.c_text e' = cstr "Invalid timeout (must be positive).").
Proof. split; [|split]; do 2 eexists; split; vm_compute; reflexivity. Qed.

Print Assumptions C87_tcp_recv.
Print Assumptions C87_serial_recv.
Print Assumptions C87_serial_text_refuted.
Print Assumptions C87_recv.
Print Assumptions C87_purge.
Print Assumptions C87_tcp_send.
Print Assumptions C87_serial_send.
Print Assumptions C87_context.
Print Assumptions C87_tcp_connect.
Print Assumptions C87_serial_connect.
Print Assumptions C87_timeout.

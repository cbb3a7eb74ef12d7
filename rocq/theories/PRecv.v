(** Proofs about the receive loops. *)
From Verif Require Import CBase PBase MFrame SWire SFrame PFrame PFrame2 MRecv SRecv.

Lemma arrives_nil k evs rest : arrives k evs [] rest -> rest = evs.
Proof.
  remember (@nil Z) as w eqn:Ew. intros H. destruct H as [| k l evs w rest Hl _| | ]; subst; try contradiction.
  - reflexivity.
  - destruct l; [contradiction|discriminate].
Qed.
Lemma arrives_tcp_nil evs rest : arrives_tcp evs [] rest -> rest = evs.
Proof.
  remember (@nil Z) as w eqn:Ew. intros H. destruct H as [| l evs w rest Hl _| | ]; subst; try contradiction.
  - reflexivity.
  - destruct l; [contradiction|discriminate].
Qed.

Lemma nil_dec {A} (l : list A) : {l = []} + {l <> []}.
Proof. destruct l; [left; reflexivity|right; discriminate]. Qed.

Lemma length_pos {A} (l : list A) : l <> [] -> (0 < length l)%nat.
Proof. destruct l; cbn; intros; [congruence|lia]. Qed.

Lemma wire_len_max t : valid t -> (length (wire t) <= 261)%nat.
Proof. intros Hv. rewrite wire_length. destruct t; cbn [wire_len valid] in *; lia. Qed.

(** Parsing a proper non-empty prefix of a telegram. *)
Lemma parse_partial f t got w2 : frame_obj f -> valid t -> wire t = got ++ w2 -> got <> [] -> w2 <> [] ->
  exists r f', mbus_parse f got = Ok (r, f') /\ frame_obj f' /\ 0 < r <= Z.of_nat (length w2).
Proof.
  intros Ho Hv E Hg Hw. apply length_pos in Hg. apply length_pos in Hw.
  assert (EL : length (wire t) = (length got + length w2)%nat) by (rewrite E; apply app_length).
  destruct (parse_prefix f t (length got) Ho Hv) as (r & f' & H & Hr & _); [lia|].
  rewrite E in H. rewrite firstn_app_exact in H by reflexivity.
  assert (Hb : bytes got) by (pose proof (wire_bytes t Hv) as B; rewrite E in B; apply bytes_app in B; tauto).
  destruct (parse_total f got Ho Hb) as (r2 & f2 & H2 & Ho2).
  rewrite H in H2. injection H2 as <- <-. exists r, f'. split; [assumption|]. split; [assumption|]. lia.
Qed.

Lemma serial_step fuel f evs got rem tm bs es :
  Z.of_nat (length got) + rem <= PACKET_BUFF_SIZE ->
  read_ev (RBytes []) evs (Z.to_nat rem) = (RBytes bs, es) ->
  (length bs <= Z.to_nat rem)%nat -> 0 <= rem ->
  (bs = [] -> tm + 1 < 3) ->
  serial_loop (S fuel) f evs got rem tm
  = let* (r, f') := mbus_parse f (got ++ bs) in
    if r >? 0 then serial_loop fuel f' es (got ++ bs) r (if nil_dec bs then tm + 1 else tm)
    else serial_finish f' es (got ++ bs) r.
Proof.
  intros Hl Hr Hb Hrem Ht. cbn [serial_loop].
  destruct (Z.gtb_spec (Z.of_nat (length got) + rem) PACKET_BUFF_SIZE); [lia|].
  rewrite Hr.
  destruct (nil_dec bs) as [->|Hne].
  - cbn [length]. change (Z.of_nat 0 =? 0) with true. cbn [andb].
    specialize (Ht eq_refl). unfold Z.geb. destruct (Z.compare_spec (tm + 1) 3); try lia.
    destruct (Z.gtb_spec (Z.of_nat (length got) + Z.of_nat 0) PACKET_BUFF_SIZE); [lia|]. reflexivity.
  - apply length_pos in Hne. destruct (Z.eqb_spec (Z.of_nat (length bs)) 0); [lia|]. cbn [andb].
    destruct (Z.gtb_spec (Z.of_nat (length got) + Z.of_nat (length bs)) PACKET_BUFF_SIZE); [lia|]. reflexivity.
Qed.

Lemma serial_arrives : forall fuel f evs got w2 rest k tm rem t,
  frame_obj f -> valid t -> wire t = got ++ w2 -> w2 <> [] -> arrives k evs w2 rest ->
  0 < rem <= Z.of_nat (length w2) -> 0 <= tm -> tm + Z.of_nat k <= 2 ->
  (got <> [] \/ exists l es, evs = Data l :: es) ->
  (ev_size evs < fuel)%nat ->
  exists f', serial_loop fuel f evs got rem tm = Ok (Some (RECV_OK, f', rest, wire t)) /\
             denotes f' t /\ frame_obj f'.
Proof.
  induction fuel as [|fuel IH]; intros f evs got w2 rest k tm rem t Ho Hv Ew Hw Ha Hrem Htm Hk Hg Hf; [lia|].
  pose proof (wire_len_max t Hv) as Hmax. rewrite Ew, app_length in Hmax.
  assert (Hbuf : Z.of_nat (length got) + rem <= PACKET_BUFF_SIZE) by (unfold PACKET_BUFF_SIZE; lia).
  (* finishing step *)
  assert (Fin : forall bs es, wire t = got ++ bs -> bs <> [] -> (length bs <= Z.to_nat rem)%nat ->
     read_ev (RBytes []) evs (Z.to_nat rem) = (RBytes bs, es) -> rest = es ->
     exists f', serial_loop (S fuel) f evs got rem tm = Ok (Some (RECV_OK, f', rest, wire t)) /\
             denotes f' t /\ frame_obj f').
  { intros bs es E Hne Hlen Hr ->.
    rewrite (serial_step fuel f evs got rem tm bs es Hbuf Hr Hlen) by (try lia; intros; contradiction).
    rewrite <- E, parse_wire by assumption. cbn [bind]. change (0 >? 0) with false. cbv iota.
    exists (parsed t f). unfold serial_finish.
    assert (Hp : (0 < length (wire t))%nat) by (rewrite wire_length; destruct t; cbn; lia).
    destruct (Nat.eqb_spec (length (wire t)) 0); [lia|]. cbn.
    split; [reflexivity|]. split; [apply denotes_parsed; assumption|].
    pose proof (parse_total f (wire t) Ho (wire_bytes t Hv)) as (r2 & f2 & H2 & Ho2).
    rewrite parse_wire in H2 by assumption. injection H2 as <- <-. assumption. }
  (* continuing step *)
  assert (Cont : forall bs es w3 k' tm', wire t = (got ++ bs) ++ w3 -> got ++ bs <> [] -> w3 <> [] ->
     (length bs <= Z.to_nat rem)%nat -> (bs = [] -> tm + 1 < 3) ->
     read_ev (RBytes []) evs (Z.to_nat rem) = (RBytes bs, es) ->
     arrives k' es w3 rest -> tm' = (if nil_dec bs then tm + 1 else tm) -> tm' + Z.of_nat k' <= 2 ->
     (ev_size es < ev_size evs)%nat ->
     exists f', serial_loop (S fuel) f evs got rem tm = Ok (Some (RECV_OK, f', rest, wire t)) /\
             denotes f' t /\ frame_obj f').
  { intros bs es w3 k' tm' E Hne Hw3 Hlen Ht Hr Ha' Etm Hk' Hsz.
    rewrite (serial_step fuel f evs got rem tm bs es Hbuf Hr Hlen) by (try lia; assumption).
    destruct (parse_partial f t (got ++ bs) w3 Ho Hv E Hne Hw3) as (r & f2 & Hp & Ho2 & Hr2).
    rewrite Hp. cbn [bind]. destruct (Z.gtb_spec r 0); [|lia].
    rewrite <- Etm. apply (IH f2 es (got ++ bs) w3 rest k' tm' r t); auto; try lia.
    rewrite Etm. destruct (nil_dec bs); lia. }
  inversion Ha as [k0 r0 E1 E2 E3|k0 l evs0 w rest0 Hl Ha' E1 E2 E3|k0 w l evs0 Hw' Hl E1 E2 E3|k0 evs0 w rest0 Hw' Ha' E1 E2 E3]; subst.
  - contradiction.
  - destruct (le_lt_dec (length l) (Z.to_nat rem)) as [Hle|Hgt].
    + assert (Hr : read_ev (RBytes []) (Data l :: evs0) (Z.to_nat rem) = (RBytes l, evs0)).
      { cbn [read_ev]. destruct (Nat.leb_spec (length l) (Z.to_nat rem)); [reflexivity|lia]. }
      destruct (nil_dec w) as [->|Hwne].
      * apply (Fin l evs0); auto. { rewrite Ew, app_nil_r. reflexivity. }
        apply arrives_nil in Ha'. auto.
      * apply (Cont l evs0 w k tm); auto.
        -- rewrite <- app_assoc. assumption.
        -- intros X. apply app_eq_nil in X. tauto.
        -- intros ->. contradiction.
        -- destruct (nil_dec l); [contradiction|reflexivity].
        -- cbn [ev_size]. lia.
    + assert (Hr : read_ev (RBytes []) (Data l :: evs0) (Z.to_nat rem)
                   = (RBytes (firstn (Z.to_nat rem) l), Data (skipn (Z.to_nat rem) l) :: evs0)).
      { cbn [read_ev]. destruct (Nat.leb_spec (length l) (Z.to_nat rem)); [lia|reflexivity]. }
      assert (Hfl : length (firstn (Z.to_nat rem) l) = Z.to_nat rem) by (rewrite firstn_length; lia).
      assert (Hfne : firstn (Z.to_nat rem) l <> []).
      { intros X. rewrite X in Hfl. cbn in Hfl. lia. }
      assert (Hsne : skipn (Z.to_nat rem) l <> []).
      { intros X. apply (f_equal (@length Z)) in X. rewrite skipn_length in X. cbn in X. lia. }
      apply (Cont (firstn (Z.to_nat rem) l) (Data (skipn (Z.to_nat rem) l) :: evs0)
               (skipn (Z.to_nat rem) l ++ w) k tm); auto; try lia.
      * rewrite <- app_assoc. rewrite (app_assoc (firstn _ l)), firstn_skipn. assumption.
      * intros X. apply app_eq_nil in X. tauto.
      * intros X. apply app_eq_nil in X. tauto.
      * intros X. contradiction.
      * constructor; assumption.
      * destruct (nil_dec (firstn (Z.to_nat rem) l)); [contradiction|reflexivity].
      * cbn [ev_size]. rewrite skipn_length. lia.
  - assert (Hr : read_ev (RBytes []) (Data (w2 ++ l) :: evs0) (Z.to_nat rem)
                   = (RBytes (firstn (Z.to_nat rem) w2), Data (skipn (Z.to_nat rem) w2 ++ l) :: evs0)).
    { apply length_pos in Hl. cbn [read_ev]. rewrite app_length.
      destruct (Nat.leb_spec (length w2 + length l) (Z.to_nat rem)); [lia|].
      rewrite firstn_app, skipn_app.
      replace (Z.to_nat rem - length w2)%nat with O by lia. cbn [firstn skipn]. rewrite app_nil_r. reflexivity. }
    assert (Hfl : length (firstn (Z.to_nat rem) w2) = Z.to_nat rem) by (rewrite firstn_length; lia).
    assert (Hfne : firstn (Z.to_nat rem) w2 <> []).
    { intros X. rewrite X in Hfl. cbn in Hfl. lia. }
    destruct (Z.eq_dec rem (Z.of_nat (length w2))) as [Eq|Nq].
    + assert (Ew2 : firstn (Z.to_nat rem) w2 = w2) by (apply firstn_all2; lia).
      assert (Es2 : skipn (Z.to_nat rem) w2 = []) by (apply skipn_all2; lia).
      rewrite Ew2, Es2 in Hr. cbn [app] in Hr.
      apply (Fin w2 (Data l :: evs0)); auto. lia.
    + assert (Hsne : skipn (Z.to_nat rem) w2 <> []).
      { intros X. apply (f_equal (@length Z)) in X. rewrite skipn_length in X. cbn in X. lia. }
      apply (Cont (firstn (Z.to_nat rem) w2) (Data (skipn (Z.to_nat rem) w2 ++ l) :: evs0)
               (skipn (Z.to_nat rem) w2) k tm); auto; try lia.
      * rewrite <- app_assoc, firstn_skipn. assumption.
      * intros X. apply app_eq_nil in X. tauto.
      * intros X. contradiction.
      * constructor; assumption.
      * destruct (nil_dec (firstn (Z.to_nat rem) w2)); [contradiction|reflexivity].
      * cbn [ev_size]. rewrite !app_length, skipn_length. lia.
  - destruct Hg as [Hg|(l & es & X)]; [|discriminate].
    apply (Cont [] evs0 w2 k0 (tm + 1)); auto; try lia; rewrite ?app_nil_r; auto.
    all: try (cbn [length ev_size]; lia). destruct (nil_dec (@nil Z)); [reflexivity|contradiction].
Qed.

Lemma arrives_first_data k evs w rest : arrives k evs w rest -> w <> [] ->
  (exists l es, evs = Data l :: es) \/ exists es, evs = Zero :: es.
Proof. intros H Hw. destruct H; [contradiction|left; eauto|left; eauto|right; eauto]. Qed.

Lemma serial_recv_telegram f evs t rest l es :
  frame_obj f -> valid t -> arrives 2 evs (wire t) rest -> evs = Data l :: es ->
  exists f', mbus_serial_recv_frame f evs = Ok (Some (RECV_OK, f', rest, wire t)) /\
             denotes f' t /\ frame_obj f'.
Proof.
  intros Ho Hv Ha He.
  assert (Hne : wire t <> []).
  { intros X. apply (f_equal (@length Z)) in X. rewrite wire_length in X. destruct t; cbn in X; lia. }
  pose proof (length_pos _ Hne).
  apply (serial_arrives (ev_size evs + 4) f evs [] (wire t) rest 2 0 1 t); auto; try lia.
  right. eauto.
Qed.

(** ** TCP *)
Lemma tcp_step fuel f evs got rem bs es :
  Z.of_nat (length got) + rem <= PACKET_BUFF_SIZE ->
  read_ev (RErr EAgain) evs (Z.to_nat rem) = (RBytes bs, es) ->
  (length bs <= Z.to_nat rem)%nat -> 0 <= rem -> bs <> [] ->
  tcp_loop (S fuel) f evs got rem
  = let* (r, f') := mbus_parse f (got ++ bs) in
    if r >? 0 then tcp_loop fuel f' es (got ++ bs) r
    else if r <? 0 then Ok (Some (RECV_INVALID, f', es, got ++ bs))
    else Ok (Some (RECV_OK, f', es, got ++ bs)).
Proof.
  intros Hl Hr Hb Hrem Hne. cbn [tcp_loop].
  destruct (Z.gtb_spec (Z.of_nat (length got) + rem) PACKET_BUFF_SIZE); [lia|].
  rewrite Hr. apply length_pos in Hne. destruct (Nat.eqb_spec (length bs) 0); [lia|].
  destruct (Z.gtb_spec (Z.of_nat (length got) + Z.of_nat (length bs)) PACKET_BUFF_SIZE); [lia|]. reflexivity.
Qed.

Lemma tcp_arrives : forall fuel f evs got w2 rest rem t,
  frame_obj f -> valid t -> wire t = got ++ w2 -> w2 <> [] -> arrives_tcp evs w2 rest ->
  0 < rem <= Z.of_nat (length w2) ->
  (ev_size evs < fuel)%nat ->
  exists f', tcp_loop fuel f evs got rem = Ok (Some (RECV_OK, f', rest, wire t)) /\
             denotes f' t /\ frame_obj f'.
Proof.
  induction fuel as [|fuel IH]; intros f evs got w2 rest rem t Ho Hv Ew Hw Ha Hrem Hf; [lia|].
  pose proof (wire_len_max t Hv) as Hmax. rewrite Ew, app_length in Hmax.
  assert (Hbuf : Z.of_nat (length got) + rem <= PACKET_BUFF_SIZE) by (unfold PACKET_BUFF_SIZE; lia).
  assert (Fin : forall bs es, wire t = got ++ bs -> bs <> [] -> (length bs <= Z.to_nat rem)%nat ->
     read_ev (RErr EAgain) evs (Z.to_nat rem) = (RBytes bs, es) -> rest = es ->
     exists f', tcp_loop (S fuel) f evs got rem = Ok (Some (RECV_OK, f', rest, wire t)) /\
             denotes f' t /\ frame_obj f').
  { intros bs es E Hne Hlen Hr ->.
    rewrite (tcp_step fuel f evs got rem bs es Hbuf Hr Hlen) by (try lia; assumption).
    rewrite <- E, parse_wire by assumption. cbn [bind]. change (0 >? 0) with false. change (0 <? 0) with false. cbv iota.
    exists (parsed t f).
    split; [reflexivity|]. split; [apply denotes_parsed; assumption|].
    pose proof (parse_total f (wire t) Ho (wire_bytes t Hv)) as (r2 & f2 & H2 & Ho2).
    rewrite parse_wire in H2 by assumption. injection H2 as <- <-. assumption. }
  assert (Cont : forall bs es w3, wire t = (got ++ bs) ++ w3 -> bs <> [] -> w3 <> [] ->
     (length bs <= Z.to_nat rem)%nat ->
     read_ev (RErr EAgain) evs (Z.to_nat rem) = (RBytes bs, es) ->
     arrives_tcp es w3 rest -> (ev_size es < ev_size evs)%nat ->
     exists f', tcp_loop (S fuel) f evs got rem = Ok (Some (RECV_OK, f', rest, wire t)) /\
             denotes f' t /\ frame_obj f').
  { intros bs es w3 E Hne Hw3 Hlen Hr Ha' Hsz.
    rewrite (tcp_step fuel f evs got rem bs es Hbuf Hr Hlen) by (try lia; assumption).
    assert (Hne' : got ++ bs <> []) by (intros X; apply app_eq_nil in X; tauto).
    destruct (parse_partial f t (got ++ bs) w3 Ho Hv E Hne' Hw3) as (r & f2 & Hp & Ho2 & Hr2).
    rewrite Hp. cbn [bind]. destruct (Z.gtb_spec r 0); [|lia].
    apply (IH f2 es (got ++ bs) w3 rest r t); auto; lia. }
  inversion Ha as [r0 E1 E2 E3|l evs0 w rest0 Hl Ha' E1 E2 E3|w l evs0 Hw' Hl E1 E2 E3|evs0 w rest0 Hw' Ha' E1 E2 E3]; subst.
  - contradiction.
  - destruct (le_lt_dec (length l) (Z.to_nat rem)) as [Hle|Hgt].
    + assert (Hr : read_ev (RErr EAgain) (Data l :: evs0) (Z.to_nat rem) = (RBytes l, evs0)).
      { cbn [read_ev]. destruct (Nat.leb_spec (length l) (Z.to_nat rem)); [reflexivity|lia]. }
      destruct (nil_dec w) as [->|Hwne].
      * apply (Fin l evs0); auto. { rewrite Ew, app_nil_r. reflexivity. }
        apply arrives_tcp_nil in Ha'. auto.
      * apply (Cont l evs0 w); auto.
        -- rewrite <- app_assoc. assumption.
        -- cbn [ev_size]. lia.
    + assert (Hr : read_ev (RErr EAgain) (Data l :: evs0) (Z.to_nat rem)
                   = (RBytes (firstn (Z.to_nat rem) l), Data (skipn (Z.to_nat rem) l) :: evs0)).
      { cbn [read_ev]. destruct (Nat.leb_spec (length l) (Z.to_nat rem)); [lia|reflexivity]. }
      assert (Hfl : length (firstn (Z.to_nat rem) l) = Z.to_nat rem) by (rewrite firstn_length; lia).
      assert (Hfne : firstn (Z.to_nat rem) l <> []).
      { intros X. rewrite X in Hfl. cbn in Hfl. lia. }
      assert (Hsne : skipn (Z.to_nat rem) l <> []).
      { intros X. apply (f_equal (@length Z)) in X. rewrite skipn_length in X. cbn in X. lia. }
      apply (Cont (firstn (Z.to_nat rem) l) (Data (skipn (Z.to_nat rem) l) :: evs0)
               (skipn (Z.to_nat rem) l ++ w)); auto; try lia.
      * rewrite <- app_assoc. rewrite (app_assoc (firstn _ l)), firstn_skipn. assumption.
      * intros X. apply app_eq_nil in X. tauto.
      * constructor; assumption.
      * cbn [ev_size]. rewrite skipn_length. lia.
  - assert (Hr : read_ev (RErr EAgain) (Data (w2 ++ l) :: evs0) (Z.to_nat rem)
                   = (RBytes (firstn (Z.to_nat rem) w2), Data (skipn (Z.to_nat rem) w2 ++ l) :: evs0)).
    { apply length_pos in Hl. cbn [read_ev]. rewrite app_length.
      destruct (Nat.leb_spec (length w2 + length l) (Z.to_nat rem)); [lia|].
      rewrite firstn_app, skipn_app.
      replace (Z.to_nat rem - length w2)%nat with O by lia. cbn [firstn skipn]. rewrite app_nil_r. reflexivity. }
    assert (Hfl : length (firstn (Z.to_nat rem) w2) = Z.to_nat rem) by (rewrite firstn_length; lia).
    assert (Hfne : firstn (Z.to_nat rem) w2 <> []).
    { intros X. rewrite X in Hfl. cbn in Hfl. lia. }
    destruct (Z.eq_dec rem (Z.of_nat (length w2))) as [Eq|Nq].
    + assert (Ew2 : firstn (Z.to_nat rem) w2 = w2) by (apply firstn_all2; lia).
      assert (Es2 : skipn (Z.to_nat rem) w2 = []) by (apply skipn_all2; lia).
      rewrite Ew2, Es2 in Hr. cbn [app] in Hr.
      apply (Fin w2 (Data l :: evs0)); auto. lia.
    + assert (Hsne : skipn (Z.to_nat rem) w2 <> []).
      { intros X. apply (f_equal (@length Z)) in X. rewrite skipn_length in X. cbn in X. lia. }
      apply (Cont (firstn (Z.to_nat rem) w2) (Data (skipn (Z.to_nat rem) w2 ++ l) :: evs0)
               (skipn (Z.to_nat rem) w2)); auto; try lia.
      * rewrite <- app_assoc, firstn_skipn. assumption.
      * constructor; assumption.
      * cbn [ev_size]. rewrite !app_length, skipn_length. lia.
  - cbn [tcp_loop read_ev].
    destruct (Z.gtb_spec (Z.of_nat (length got) + rem) PACKET_BUFF_SIZE); [lia|].
    apply (IH f evs0 got w2 rest rem t); auto. cbn [ev_size] in Hf. lia.
Qed.

Lemma tcp_recv_telegram f evs t rest :
  frame_obj f -> valid t -> arrives_tcp evs (wire t) rest ->
  exists f', mbus_tcp_recv_frame f evs = Ok (Some (RECV_OK, f', rest, wire t)) /\
             denotes f' t /\ frame_obj f'.
Proof.
  intros Ho Hv Ha.
  assert (Hne : wire t <> []).
  { intros X. apply (f_equal (@length Z)) in X. rewrite wire_length in X. destruct t; cbn in X; lia. }
  pose proof (length_pos _ Hne).
  apply (tcp_arrives (ev_size evs + 4) f evs [] (wire t) rest 1 t); auto; lia.
Qed.

(** ** Outcome classification *)
Lemma parse_positive_bound f bs r f' : frame_obj f -> bytes bs -> mbus_parse f bs = Ok (r, f') ->
  0 < r -> Z.of_nat (length bs) + r <= 261 /\ bs <> [] /\ nth 0 bs 0 <> 0xE5 /\ ~ well_formed bs.
Proof.
  intros Ho Hb H Hr.
  pose proof (parse_codes f bs r f' Ho Hb H) as (C1 & C2 & C3 & C4 & C5 & C6). unfold b_at in *.
  assert (Hl : 0 <= nth 1 bs 0 < 256).
  { destruct (le_lt_dec (length bs) 1); [rewrite nth_overflow by lia; lia|].
    apply (bytes_nth bs 1 Hb). lia. }
  split; [|split; [|split]].
  - apply C3 in Hr. lia.
  - intros E. apply C1 in E. lia.
  - intros E. assert (r = 0) by (apply C6; auto). lia.
  - intros W. assert (r = 0) by (apply C6; auto). lia.
Qed.

(** What is known when the loop has read [got] and wants [rem] more bytes. *)
Definition loop_inv (got : list Z) (rem : Z) : Prop :=
  (got = [] /\ rem = 1) \/
  (got <> [] /\ nth 0 got 0 <> 0xE5 /\ ~ well_formed got /\ 0 < rem /\ Z.of_nat (length got) + rem <= 261).

Lemma loop_inv_bound got rem : loop_inv got rem -> 0 < rem /\ Z.of_nat (length got) + rem <= 261.
Proof. intros [[-> ->]|H]; [cbn; lia|tauto]. Qed.

Lemma loop_inv_next f got bs r f' : frame_obj f -> bytes (got ++ bs) ->
  mbus_parse f (got ++ bs) = Ok (r, f') -> 0 < r -> loop_inv (got ++ bs) r.
Proof.
  intros Ho Hb Hp Hr. right.
  destruct (parse_positive_bound f _ r f' Ho Hb Hp Hr) as (H1 & H2 & H3 & H4). auto.
Qed.

Lemma loop_inv_accept f got rem bs f' : frame_obj f -> bytes (got ++ bs) -> loop_inv got rem ->
  (length bs <= Z.to_nat rem)%nat ->
  mbus_parse f (got ++ bs) = Ok (0, f') ->
  exists t, valid t /\ got ++ bs = wire t /\ denotes f' t.
Proof.
  intros Ho Hb Hi Hl Hp.
  destruct (parse_zero_denotes f _ f' Ho Hb Hp) as (t & Hv & Hd & [E|[-> E]]).
  - exists t. auto.
  - exists Ack. split; [exact I|]. split; [|assumption].
    destruct Hi as [[-> ->]|(Hne & N & _)].
    + cbn [app] in *. destruct bs as [|b [|c bs]]; cbn in Hl, E; try lia. subst b. reflexivity.
    + destruct got as [|g got]; [contradiction|]. cbn in E, N. contradiction.
Qed.

Lemma read_bytes_stream d evs n bs es : (d = RBytes [] \/ exists e, d = RErr e) ->
  read_ev d evs n = (RBytes bs, es) ->
  bs ++ stream es = stream evs /\ (length bs <= n)%nat /\
  (ev_bytes evs -> bytes bs /\ ev_bytes es) /\
  (ev_size es <= ev_size evs)%nat /\ ((bs <> [] \/ evs <> []) -> (0 < n)%nat -> (ev_size es < ev_size evs)%nat) /\
  (bs = [] -> (0 < n)%nat -> (empties evs <= 1 + empties es)%nat) /\
  (bs <> [] -> empties evs = empties es).
Proof.
  intros Hd H. destruct evs as [|e evs]; cbn [read_ev] in H.
  { destruct Hd as [->|[e ->]]; [|discriminate]. injection H as <- <-. cbn. repeat split; auto; try lia; try (constructor; fail);
    intuition congruence. }
  destruct e as [l| | | |]; try discriminate.
  - destruct (Nat.leb_spec (length l) n); injection H as <- <-.
    + cbn [stream ev_bytes ev_size empties].
      split; [reflexivity|]. split; [assumption|]. split; [auto|]. split; [lia|]. split; [lia|].
      split; [intros ->; lia|]. destruct l; [intuition congruence|reflexivity].
    + cbn [stream ev_bytes ev_size]. rewrite app_assoc, firstn_skipn.
      split; [reflexivity|]. split; [rewrite firstn_length; lia|].
      split; [intros [B1 B2]; auto using bytes_firstn, bytes_skipn|].
      rewrite skipn_length. split; [lia|]. split; [lia|].
      split.
      * intros X Hn. apply (f_equal (@length Z)) in X. rewrite firstn_length in X. cbn in X. lia.
      * intros _. destruct l as [|x l]; [cbn in *; lia|]. 
        destruct (skipn n (x :: l)) eqn:E; [|reflexivity].
        apply (f_equal (@length Z)) in E. rewrite skipn_length in E. cbn [length] in *. lia.
  - injection H as <- <-. cbn. repeat split; auto; try lia; try (constructor; fail); intuition congruence.
Qed.

Lemma read_err_stream evs n e es d : (d = RBytes [] \/ d = RErr EAgain) ->
  read_ev d evs n = (RErr e, es) ->
  stream es = stream evs /\ (ev_size es <= ev_size evs)%nat /\ (ev_bytes evs -> ev_bytes es) /\
  empties es = empties evs /\
  ((exists tl, evs = e :: tl /\ es = tl /\ (e = EIntr \/ e = EAgain \/ e = EOther)) \/
   (evs = [] /\ es = [] /\ d = RErr EAgain /\ e = EAgain)).
Proof.
  intros Hd H. destruct evs as [|x evs]; cbn [read_ev] in H.
  { injection H as H1 H2. subst. destruct Hd as [Hd|Hd]; [discriminate|].
    injection Hd as <-. cbn. repeat split; auto. }
  destruct x as [l| | | |]; try discriminate.
  - destruct (Nat.leb _ _); discriminate.
  - injection H as <- <-. cbn. repeat split; auto. left. eexists; split; [reflexivity|]. auto.
  - injection H as <- <-. cbn. repeat split; auto. left. eexists; split; [reflexivity|]. auto.
  - injection H as <- <-. cbn. repeat split; auto. left. eexists; split; [reflexivity|]. auto.
Qed.

(** Extending "evs = pre ++ e :: es'" backwards over one successful read. *)
Lemma ends_back d evs n bs es e es' : read_ev d evs n = (RBytes bs, es) -> evs <> [] ->
  (e = Zero \/ e = Data [] \/ e = EIntr \/ e = EAgain \/ e = EOther) ->
  (exists pre, es = pre ++ e :: es') -> exists pre, evs = pre ++ e :: es'.
Proof.
  intros H Hne He [pre E]. destruct evs as [|x evs]; [contradiction|]. cbn [read_ev] in H.
  destruct x as [l| | | |]; try discriminate.
  - destruct (Nat.leb_spec (length l) n); injection H as <- <-.
    + exists (Data l :: pre). rewrite E. reflexivity.
    + destruct pre as [|p pre]; cbn [app] in E; injection E as E1 E2.
      * subst e. destruct He as [He|[He|[He|[He|He]]]]; try discriminate He.
        exfalso. injection He as He. apply (f_equal (@length Z)) in He. rewrite skipn_length in He. cbn in He. lia.
      * exists (Data l :: pre). subst. reflexivity.
  - injection H as <- <-. exists (Zero :: pre). rewrite E. reflexivity.
Qed.

Lemma serial_classify : forall fuel f evs got rem tm,
  frame_obj f -> bytes got -> ev_bytes evs -> loop_inv got rem -> 0 <= tm <= 2 ->
  Z.of_nat (ev_size evs) + 3 - tm < Z.of_nat fuel ->
  exists code f' evs' got',
    serial_loop fuel f evs got rem tm = Ok (Some (code, f', evs', got')) /\
    frame_obj f' /\ got' ++ stream evs' = got ++ stream evs /\ ev_bytes evs' /\ (length got' <= 261)%nat /\
    (ev_size evs' <= ev_size evs)%nat /\ (evs <> [] -> (ev_size evs' < ev_size evs)%nat) /\
    (empties evs <= empties evs' + 3 - Z.to_nat tm)%nat /\
    In code [RECV_OK; RECV_ERROR; RECV_INVALID; RECV_TIMEOUT] /\
    (code = RECV_OK <-> exists t, valid t /\ got' = wire t /\ denotes f' t) /\
    (code = RECV_TIMEOUT -> got' = []) /\
    (code = RECV_INVALID -> got' <> [] /\ ~ well_formed got') /\
    (code = RECV_ERROR -> exists pre e, evs = pre ++ e :: evs' /\ In e [EIntr; EAgain; EOther]).
Proof.
  induction fuel as [|fuel IH]; intros f evs got rem tm Ho Hb Heb Hinv Htm Hf; [lia|].
  destruct (loop_inv_bound got rem Hinv) as [Hrem Hlen].
  destruct (read_ev (RBytes []) evs (Z.to_nat rem)) as [[bs|e] es] eqn:Er.
  2:{ destruct (read_err_stream evs _ e es (RBytes []) (or_introl eq_refl) Er) as (S1 & S2 & S3 & S4 & S5).
      cbn [serial_loop]. destruct (Z.gtb_spec (Z.of_nat (length got) + rem) PACKET_BUFF_SIZE) as [X|_];
        [unfold PACKET_BUFF_SIZE in X; lia|].
      rewrite Er. exists RECV_ERROR, f, es, got. split; [reflexivity|].
      split; [assumption|]. split; [rewrite S1; reflexivity|]. split; [auto|]. split; [lia|].
      destruct S5 as [(tl & -> & -> & He)|(_ & _ & X & _)]; [|discriminate].
      assert (Hsz : (ev_size tl < ev_size (e :: tl))%nat) by (destruct He as [->|[->| ->]]; cbn; lia).
      split; [lia|]. split; [lia|]. split; [lia|]. split; [cbn; auto|].
      unfold RECV_ERROR, RECV_OK, RECV_TIMEOUT, RECV_INVALID.
      split.
      { split; [discriminate|]. intros (t & Hv & Et & _). exfalso.
        destruct Hinv as [[-> _]|(_ & _ & Nw & _)].
        - apply (f_equal (@length Z)) in Et. rewrite wire_length in Et. destruct t; cbn in Et; lia.
        - apply Nw. exists t. auto. }
      split; [discriminate|]. split; [discriminate|].
      intros _. exists [], e. split; [reflexivity|]. cbn. clear - He. intuition. }
  destruct (read_bytes_stream (RBytes []) evs _ bs es (or_introl eq_refl) Er)
    as (S1 & S2 & S3 & S4 & S5 & S6 & S7).
  specialize (S3 Heb). destruct S3 as [Bbs Bes].
  assert (Bg : bytes (got ++ bs)) by (apply bytes_app; auto).
  destruct (nil_dec bs) as [->|Hne].
  - (* empty read *)
    specialize (S6 eq_refl ltac:(lia)).
    destruct (Z.eq_dec tm 2) as [->|Ntm].
    + (* third time out *)
      cbn [serial_loop]. destruct (Z.gtb_spec (Z.of_nat (length got) + rem) PACKET_BUFF_SIZE) as [X|_];
        [unfold PACKET_BUFF_SIZE in X; lia|].
      rewrite Er. cbn [length]. change (Z.of_nat 0 =? 0) with true. cbn [andb].
      change (2 + 1 >=? 3) with true. cbv iota. unfold serial_finish.
      destruct (Nat.eqb_spec (length got) 0) as [E0|N0].
      * assert (got = []) by (destruct got; cbn in E0; [reflexivity|lia]). subst got.
        exists RECV_TIMEOUT, f, es, []. split; [reflexivity|].
        split; [assumption|]. split; [exact S1|]. split; [assumption|]. split; [cbn; lia|].
        split; [lia|]. split; [intros X; apply S5; auto; lia|]. split; [lia|]. split; [cbn; auto 6|].
        unfold RECV_ERROR, RECV_OK, RECV_TIMEOUT, RECV_INVALID.
        split; [|repeat split; intros; discriminate].
        split; [discriminate|]. intros (t & _ & Et & _).
        apply (f_equal (@length Z)) in Et. rewrite wire_length in Et. destruct t; cbn in Et; lia.
      * destruct Hinv as [[-> _]|(Hgne & He5 & Nw & _ & _)]; [cbn in N0; lia|].
        destruct (Z.eqb_spec rem 0) as [X|_]; [lia|]. cbn [negb].
        exists RECV_INVALID, f, es, got. split; [reflexivity|].
        split; [assumption|]. split; [rewrite <- S1; reflexivity|]. split; [assumption|]. split; [lia|].
        split; [lia|]. split; [intros X; apply S5; auto; lia|]. split; [lia|]. split; [cbn; auto 6|].
        unfold RECV_ERROR, RECV_OK, RECV_TIMEOUT, RECV_INVALID.
        split; [|repeat split; intros; try discriminate; auto].
        split; [discriminate|]. intros (t & Hv & Et & _). exfalso. apply Nw. exists t. auto.
    + rewrite (serial_step fuel f evs got rem tm [] es) by
        (auto; try lia; unfold PACKET_BUFF_SIZE; lia).
      rewrite app_nil_r in *.
      destruct (parse_total f got Ho Hb) as (r & f2 & Hp & Ho2). rewrite Hp. cbn [bind].
      destruct Hinv as [[-> ->]|(Hgne & He5 & Nw & _ & _)].
      * rewrite parse_nil in Hp. injection Hp as <- <-. change (-1 >? 0) with false. cbv iota.
        unfold serial_finish. cbn [length Nat.eqb].
        exists RECV_TIMEOUT, f, es, []. split; [reflexivity|].
        split; [assumption|]. split; [exact S1|]. split; [assumption|]. split; [cbn; lia|].
        split; [lia|]. split; [intros X; apply S5; auto; lia|]. split; [lia|]. split; [cbn; auto 6|].
        unfold RECV_ERROR, RECV_OK, RECV_TIMEOUT, RECV_INVALID.
        split; [|repeat split; intros; discriminate].
        split; [discriminate|]. intros (t & _ & Et & _).
        apply (f_equal (@length Z)) in Et. rewrite wire_length in Et. destruct t; cbn in Et; lia.
      * pose proof (parse_codes f got r f2 Ho Hb Hp) as (_ & _ & _ & _ & _ & C6). unfold b_at in C6.
        destruct (Z.gtb_spec r 0) as [Hr|Hr].
        -- destruct (nil_dec (@nil Z)) as [_|X]; [|contradiction].
           assert (Hinv2 : loop_inv got r).
           { rewrite <- (app_nil_r got) in Hp |- *. rewrite <- (app_nil_r got) in Hb. 
             eapply (loop_inv_next f got []); eauto. }
           destruct (IH f2 es got r (tm + 1) Ho2 Hb Bes Hinv2) as
             (code & f' & evs' & got' & H1 & H2 & H3 & H4 & H5 & H6 & H7 & H8 & H9 & H10 & H11 & H12 & H13).
           { lia. }
           { lia. }
           exists code, f', evs', got'. split; [exact H1|]. split; [exact H2|].
           split; [rewrite H3, <- S1; reflexivity|]. split; [exact H4|]. split; [exact H5|].
           split; [lia|].
           split.
           { intros X. assert (ev_size es < ev_size evs)%nat by (apply S5; auto; lia). lia. }
           split; [lia|]. split; [exact H9|]. split; [exact H10|]. split; [exact H11|]. split; [exact H12|].
           intros Ec. destruct (H13 Ec) as (pre & e & E & He).
           destruct (nil_dec evs) as [->|Hev].
           { cbn in Er. injection Er as <-. destruct pre; discriminate. }
           destruct (ends_back (RBytes []) evs _ [] es e evs' Er Hev) as [pre' E'].
           { cbn in He. clear - He. intuition. }
           { eauto. }
           exists pre', e. auto.
        -- assert (r < 0).
           { assert (r <> 0); [|lia]. intros X. apply C6 in X. destruct X; contradiction. }
           unfold serial_finish. destruct (Nat.eqb_spec (length got) 0) as [E0|N0].
           { destruct got; [contradiction|cbn in E0; lia]. }
           destruct (Z.eqb_spec r 0) as [X|_]; [lia|]. cbn [negb].
           exists RECV_INVALID, f2, es, got. split; [reflexivity|].
           split; [assumption|]. split; [rewrite <- S1; reflexivity|]. split; [assumption|]. split; [lia|].
           split; [lia|]. split; [intros X; apply S5; auto; lia|]. split; [lia|]. split; [cbn; auto 6|].
           unfold RECV_ERROR, RECV_OK, RECV_TIMEOUT, RECV_INVALID.
           split; [|repeat split; intros; try discriminate; auto].
           split; [discriminate|]. intros (t & Hv & Et & _). exfalso. apply Nw. exists t. auto.
  - (* some bytes *)
    rewrite (serial_step fuel f evs got rem tm bs es) by
        (auto; try lia; try (unfold PACKET_BUFF_SIZE; lia); intros; contradiction).
    assert (Hgb : got ++ bs <> []) by (intros X; apply app_eq_nil in X; tauto).
    assert (Hlb : (length (got ++ bs) <= 261)%nat) by (rewrite app_length; lia).
    destruct (parse_total f (got ++ bs) Ho Bg) as (r & f2 & Hp & Ho2). rewrite Hp. cbn [bind].
    pose proof (parse_codes f (got ++ bs) r f2 Ho Bg Hp) as (_ & _ & _ & _ & _ & C6). unfold b_at in C6.
    destruct (nil_dec bs) as [X|_]; [contradiction|].
    assert (Hsz : (ev_size es < ev_size evs)%nat) by (apply S5; auto; lia).
    destruct (Z.gtb_spec r 0) as [Hr|Hr].
    + assert (Hinv2 : loop_inv (got ++ bs) r) by (apply (loop_inv_next f got bs r f2); auto; lia).
      destruct (IH f2 es (got ++ bs) r tm Ho2 Bg Bes Hinv2) as
             (code & f' & evs' & got' & H1 & H2 & H3 & H4 & H5 & H6 & H7 & H8 & H9 & H10 & H11 & H12 & H13).
      { lia. }
      { lia. }
      exists code, f', evs', got'. split; [exact H1|]. split; [exact H2|].
      split; [rewrite H3, <- S1, app_assoc; reflexivity|]. split; [exact H4|]. split; [exact H5|].
      split; [lia|]. split; [lia|]. split; [specialize (S7 Hne); lia|].
      split; [exact H9|]. split; [exact H10|]. split; [exact H11|]. split; [exact H12|].
      intros Ec. destruct (H13 Ec) as (pre & e & E & He).
      destruct (nil_dec evs) as [->|Hev].
      { cbn in Er. injection Er as <-. contradiction. }
      destruct (ends_back (RBytes []) evs _ bs es e evs' Er Hev) as [pre' E'].
      { cbn in He. clear - He. intuition. }
      { eauto. }
      exists pre', e. auto.
    + unfold serial_finish. destruct (Nat.eqb_spec (length (got ++ bs)) 0) as [E0|N0].
      { destruct (got ++ bs); [contradiction|cbn in E0; lia]. }
      destruct (Z.eqb_spec r 0) as [->|Nr]; cbn [negb].
      * exists RECV_OK, f2, es, (got ++ bs). split; [reflexivity|].
        split; [assumption|]. split; [rewrite <- S1, app_assoc; reflexivity|]. split; [assumption|].
        split; [assumption|].
        split; [lia|]. split; [lia|]. split; [specialize (S7 Hne); lia|]. split; [cbn; auto 6|].
        unfold RECV_ERROR, RECV_OK, RECV_TIMEOUT, RECV_INVALID.
        split; [|repeat split; intros; discriminate].
        split; [intros _|reflexivity]. apply (loop_inv_accept f got rem bs f2); auto; lia.
      * assert (Nw : ~ well_formed (got ++ bs)) by (intros W; apply Nr; apply C6; auto).
        exists RECV_INVALID, f2, es, (got ++ bs). split; [reflexivity|].
        split; [assumption|]. split; [rewrite <- S1, app_assoc; reflexivity|]. split; [assumption|].
        split; [assumption|].
        split; [lia|]. split; [lia|]. split; [specialize (S7 Hne); lia|]. split; [cbn; auto 6|].
        unfold RECV_ERROR, RECV_OK, RECV_TIMEOUT, RECV_INVALID.
        split; [|repeat split; intros; try discriminate; auto].
        split; [discriminate|]. intros (t & Hv & Et & _). exfalso. apply Nw. exists t. auto.
Qed.

Lemma tcp_classify : forall fuel f evs got rem,
  frame_obj f -> bytes got -> ev_bytes evs -> loop_inv got rem ->
  (ev_size evs + 1 < fuel)%nat ->
  exists code f' evs' got',
    tcp_loop fuel f evs got rem = Ok (Some (code, f', evs', got')) /\
    frame_obj f' /\ got' ++ stream evs' = got ++ stream evs /\ ev_bytes evs' /\ (length got' <= 261)%nat /\
    (evs <> [] -> (ev_size evs' < ev_size evs)%nat) /\
    In code [RECV_OK; RECV_ERROR; RECV_INVALID; RECV_TIMEOUT; RECV_RESET] /\
    (code = RECV_OK <-> exists t, valid t /\ got' = wire t /\ denotes f' t) /\
    (code = RECV_INVALID -> got' <> [] /\ ~ well_formed got') /\
    (code = RECV_TIMEOUT -> evs' = [] \/ exists pre, evs = pre ++ EAgain :: evs') /\
    (code = RECV_RESET -> exists pre, evs = pre ++ Zero :: evs' \/ evs = pre ++ Data [] :: evs') /\
    (code = RECV_ERROR -> exists pre, evs = pre ++ EOther :: evs').
Proof.
  induction fuel as [|fuel IH]; intros f evs got rem Ho Hb Heb Hinv Hf; [lia|].
  destruct (loop_inv_bound got rem Hinv) as [Hrem Hlen].
  assert (NOK : ~ exists t, valid t /\ got = wire t /\ denotes f t).
  { intros (t & Hv & Et & _). destruct Hinv as [[-> _]|(_ & _ & Nw & _)].
    - apply (f_equal (@length Z)) in Et. rewrite wire_length in Et. destruct t; cbn in Et; lia.
    - apply Nw. exists t. auto. }
  assert (NG : Z.of_nat (length got) + rem <= PACKET_BUFF_SIZE) by (unfold PACKET_BUFF_SIZE; lia).
  destruct (read_ev (RErr EAgain) evs (Z.to_nat rem)) as [[bs|e] es] eqn:Er.
  2:{ destruct (read_err_stream evs _ e es (RErr EAgain) (or_intror eq_refl) Er) as (S1 & S2 & S3 & S4 & S5).
      cbn [tcp_loop]. destruct (Z.gtb_spec (Z.of_nat (length got) + rem) PACKET_BUFF_SIZE) as [X|_]; [lia|].
      rewrite Er.
      destruct S5 as [(tl & -> & -> & He)|(-> & -> & _ & ->)].
      - destruct He as [->|[->| ->]].
        + destruct (IH f tl got rem Ho Hb (S3 Heb) Hinv) as
            (code & f' & evs' & got' & H1 & H2 & H3 & H4 & H5 & H6 & H7 & H8 & H9 & H10 & H11 & H12).
          { cbn [ev_size] in Hf. lia. }
          exists code, f', evs', got'. split; [exact H1|]. split; [exact H2|]. split; [exact H3|].
          split; [exact H4|]. split; [exact H5|].
          split. { intros _. destruct tl as [|x tl]; [|specialize (H6 ltac:(discriminate)); cbn in *; lia].
                   clear - H1 Hrem NG Hf. destruct fuel; [cbn in Hf; lia|].
                   cbn [tcp_loop read_ev] in H1.
                   destruct (Z.gtb_spec (Z.of_nat (length got) + rem) PACKET_BUFF_SIZE) as [X|_]; [lia|].
                   injection H1 as <- <- <- <-. cbn. lia. }
          split; [exact H7|]. split; [exact H8|]. split; [exact H9|].
          split. { intros E. destruct (H10 E) as [X|[pre ->]]; [auto|]. right. exists (EIntr :: pre). reflexivity. }
          split. { intros E. destruct (H11 E) as [pre [-> | ->]]; exists (EIntr :: pre); auto. }
          intros E. destruct (H12 E) as [pre ->]. exists (EIntr :: pre). reflexivity.
        + exists RECV_TIMEOUT, f, tl, got. split; [reflexivity|].
          split; [assumption|]. split; [rewrite S1; reflexivity|]. split; [auto|]. split; [lia|].
          split; [cbn; lia|]. split; [cbn; auto 6|].
          unfold RECV_ERROR, RECV_OK, RECV_TIMEOUT, RECV_INVALID, RECV_RESET.
          split; [split; [discriminate|contradiction]|]. split; [discriminate|].
          split; [|split; discriminate]. intros _. right. exists []. reflexivity.
        + exists RECV_ERROR, f, tl, got. split; [reflexivity|].
          split; [assumption|]. split; [rewrite S1; reflexivity|]. split; [auto|]. split; [lia|].
          split; [cbn; lia|]. split; [cbn; auto 6|].
          unfold RECV_ERROR, RECV_OK, RECV_TIMEOUT, RECV_INVALID, RECV_RESET.
          split; [split; [discriminate|contradiction]|]. split; [discriminate|].
          split; [discriminate|]. split; [discriminate|]. intros _. exists []. reflexivity.
      - exists RECV_TIMEOUT, f, [], got. split; [reflexivity|].
        split; [assumption|]. split; [reflexivity|]. split; [exact I|]. split; [lia|].
        split; [intros X; contradiction|]. split; [cbn; auto 6|].
        unfold RECV_ERROR, RECV_OK, RECV_TIMEOUT, RECV_INVALID, RECV_RESET.
        split; [split; [discriminate|contradiction]|]. split; [discriminate|].
        split; [|split; discriminate]. intros _. left. reflexivity. }
  destruct (read_bytes_stream (RErr EAgain) evs _ bs es (or_intror (ex_intro _ EAgain eq_refl)) Er)
    as (S1 & S2 & S3 & S4 & S5 & _ & _).
  specialize (S3 Heb). destruct S3 as [Bbs Bes].
  assert (Hev : evs <> []) by (intros ->; discriminate).
  assert (Hsz : (ev_size es < ev_size evs)%nat) by (apply S5; auto; lia).
  destruct (nil_dec bs) as [->|Hne].
  - cbn [tcp_loop]. destruct (Z.gtb_spec (Z.of_nat (length got) + rem) PACKET_BUFF_SIZE) as [X|_]; [lia|].
    rewrite Er. cbn [length Nat.eqb].
    exists RECV_RESET, f, es, got. split; [reflexivity|].
    split; [assumption|]. split; [rewrite <- S1; reflexivity|]. split; [assumption|]. split; [lia|].
    split; [auto|]. split; [cbn; auto 6|].
    unfold RECV_ERROR, RECV_OK, RECV_TIMEOUT, RECV_INVALID, RECV_RESET.
    split; [split; [discriminate|contradiction]|]. split; [discriminate|].
    split; [discriminate|]. split; [|discriminate]. intros _.
    destruct evs as [|[l| | | |] evs]; try discriminate; cbn [read_ev] in Er.
    + destruct (Nat.leb_spec (length l) (Z.to_nat rem)).
      * injection Er as -> ->. exists []. right. reflexivity.
      * injection Er as E1 E2. apply (f_equal (@length Z)) in E1. rewrite firstn_length in E1. cbn in E1. lia.
    + injection Er as <-. exists []. left. reflexivity.
  - assert (Bg : bytes (got ++ bs)) by (apply bytes_app; auto).
    rewrite (tcp_step fuel f evs got rem bs es) by (auto; lia).
    assert (Hgb : got ++ bs <> []) by (intros X; apply app_eq_nil in X; tauto).
    assert (Hlb : (length (got ++ bs) <= 261)%nat) by (rewrite app_length; lia).
    destruct (parse_total f (got ++ bs) Ho Bg) as (r & f2 & Hp & Ho2). rewrite Hp. cbn [bind].
    pose proof (parse_codes f (got ++ bs) r f2 Ho Bg Hp) as (_ & _ & _ & _ & _ & C6). unfold b_at in C6.
    destruct (Z.gtb_spec r 0) as [Hr|Hr].
    + assert (Hinv2 : loop_inv (got ++ bs) r) by (apply (loop_inv_next f got bs r f2); auto; lia).
      destruct (IH f2 es (got ++ bs) r Ho2 Bg Bes Hinv2) as
        (code & f' & evs' & got' & H1 & H2 & H3 & H4 & H5 & H6 & H7 & H8 & H9 & H10 & H11 & H12).
      { lia. }
      exists code, f', evs', got'. split; [exact H1|]. split; [exact H2|].
      split; [rewrite H3, <- S1, app_assoc; reflexivity|]. split; [exact H4|]. split; [exact H5|].
      split. { intros _. destruct es as [|x es]; [|specialize (H6 ltac:(discriminate)); lia].
               destruct fuel as [|fuel']; [lia|]. clear IH.
               cbn [tcp_loop read_ev] in H1.
               destruct (Z.gtb_spec (Z.of_nat (length (got ++ bs)) + r) PACKET_BUFF_SIZE) as [X|_].
               { destruct (loop_inv_bound _ _ Hinv2). unfold PACKET_BUFF_SIZE in X. lia. }
               injection H1 as <- <- <- <-. exact Hsz. }
      split; [exact H7|]. split; [exact H8|]. split; [exact H9|].
      split. { intros E. destruct (H10 E) as [X|X]; [auto|]. right.
               apply (ends_back (RErr EAgain) evs _ bs es EAgain evs' Er Hev); auto 6. }
      split. { intros E. destruct (H11 E) as [pre [X|X]].
               - destruct (ends_back (RErr EAgain) evs _ bs es Zero evs' Er Hev) as [p ->]; eauto.
               - destruct (ends_back (RErr EAgain) evs _ bs es (Data []) evs' Er Hev) as [p ->]; eauto. }
      intros E. apply (ends_back (RErr EAgain) evs _ bs es EOther evs' Er Hev); auto 6.
    + destruct (Z.ltb_spec r 0) as [Hr2|Hr2].
      * assert (Nw : ~ well_formed (got ++ bs)).
        { intros W. assert (r = 0) by (apply C6; auto). lia. }
        exists RECV_INVALID, f2, es, (got ++ bs). split; [reflexivity|].
        split; [assumption|]. split; [rewrite <- S1, app_assoc; reflexivity|]. split; [assumption|].
        split; [assumption|]. split; [auto|]. split; [cbn; auto 6|].
        unfold RECV_ERROR, RECV_OK, RECV_TIMEOUT, RECV_INVALID, RECV_RESET.
        split; [|repeat split; intros; try discriminate; auto].
        split; [discriminate|]. intros (t & Hv & Et & _). exfalso. apply Nw. exists t. auto.
      * assert (r = 0) by lia. subst r.
        exists RECV_OK, f2, es, (got ++ bs). split; [reflexivity|].
        split; [assumption|]. split; [rewrite <- S1, app_assoc; reflexivity|]. split; [assumption|].
        split; [assumption|]. split; [auto|]. split; [cbn; auto 6|].
        unfold RECV_ERROR, RECV_OK, RECV_TIMEOUT, RECV_INVALID, RECV_RESET.
        split; [|repeat split; intros; discriminate].
        split; [intros _|reflexivity]. apply (loop_inv_accept f got rem bs f2); auto; lia.
Qed.

(** ** Sequences of telegrams *)
Lemma app_split_len {A} : forall (a b c d : list A), a ++ b = c ++ d -> (length a <= length c)%nat ->
  exists e, c = a ++ e /\ b = e ++ d.
Proof.
  induction a as [|x a IH]; intros b c d E Hl.
  - exists c. auto.
  - destruct c as [|y c]; cbn in *; [lia|]. injection E as -> E.
    destruct (IH b c d E) as (e & -> & ->); [lia|]. exists e. auto.
Qed.

Lemma data_arrives : forall evs w r, all_data evs -> stream evs = w ++ r ->
  exists rest, arrives 0 evs w rest /\ arrives_tcp evs w rest /\ stream rest = r /\ all_data rest.
Proof.
  induction evs as [|e evs IH]; intros w r Had E.
  - cbn in E. symmetry in E. apply app_eq_nil in E. destruct E as [-> ->].
    exists []. repeat split; try constructor.
  - inversion Had as [|x xs (l & -> & Hl) Hxs]; subst. cbn [stream] in E.
    destruct (nil_dec w) as [->|Hw].
    { exists (Data l :: evs). repeat split; try constructor; auto. eauto. }
    destruct (le_lt_dec (length l) (length w)) as [Hle|Hgt].
    + destruct (app_split_len l (stream evs) w r E Hle) as (w' & -> & E').
      destruct (IH w' r Hxs E') as (rest & A1 & A2 & A3 & A4).
      exists rest. repeat split; auto; constructor; auto.
    + symmetry in E. destruct (app_split_len w r l (stream evs) E ltac:(lia)) as (l' & -> & ->).
      assert (l' <> []) by (intros ->; rewrite app_nil_r in Hgt; lia).
      exists (Data l' :: evs). split; [constructor; auto|]. split; [constructor; auto|].
      split; [reflexivity|]. constructor; eauto.
Qed.

Lemma serial_stream ts : forall evs r, Forall valid ts -> all_data evs ->
  stream evs = concat (map wire ts) ++ r ->
  exists rest, delivers mbus_serial_recv_frame frame_obj evs ts denotes rest /\ stream rest = r /\ all_data rest.
Proof.
  induction ts as [|t ts IH]; intros evs r Hv Had E.
  - exists evs. repeat split; auto. constructor.
  - inversion Hv; subst. cbn [map concat] in E. rewrite <- app_assoc in E.
    destruct (data_arrives evs (wire t) _ Had E) as (e1 & A1 & _ & A3 & A4).
    destruct (IH e1 r) as (rest & D & S & A); auto.
    exists rest. split; [|auto]. apply del_cons with (evs1 := e1); [|assumption].
    intros f Ho.
    assert (Hne : wire t <> []).
    { intros X. apply (f_equal (@length Z)) in X. rewrite wire_length in X. destruct t; cbn in X; lia. }
    pose proof (length_pos _ Hne).
    destruct evs as [|x evs]; [cbn in E; symmetry in E; apply app_eq_nil in E; tauto|].
    inversion Had as [|y ys (l & -> & _) _]; subst.
    destruct (serial_arrives (ev_size (Data l :: evs) + 4) f (Data l :: evs) [] (wire t) e1 0 0 1 t)
      as (f' & R & D1 & _); auto; try lia; [right; eauto|].
    exists f'. auto.
Qed.

Lemma tcp_stream ts : forall evs r, Forall valid ts -> all_data evs ->
  stream evs = concat (map wire ts) ++ r ->
  exists rest, delivers mbus_tcp_recv_frame frame_obj evs ts denotes rest /\ stream rest = r /\ all_data rest.
Proof.
  induction ts as [|t ts IH]; intros evs r Hv Had E.
  - exists evs. repeat split; auto. constructor.
  - inversion Hv; subst. cbn [map concat] in E. rewrite <- app_assoc in E.
    destruct (data_arrives evs (wire t) _ Had E) as (e1 & _ & A2 & A3 & A4).
    destruct (IH e1 r) as (rest & D & S & A); auto.
    exists rest. split; [|auto]. apply del_cons with (evs1 := e1); [|assumption].
    intros f Ho. destruct (tcp_recv_telegram f evs t e1 Ho) as (f' & R & D1 & _); auto. exists f'. auto.
Qed.

(** ** Sending *)
Lemma send_ok wret f t : frame_obj f -> delimiters f -> denotes f t -> valid t ->
  exists f', transport_send_frame wret f
   = Ok ((if wret (Z.of_nat (length (wire t))) =? Z.of_nat (length (wire t)) then 0 else -1),
         f', Some (wire t)) /\ f' = packed_frame f.
Proof.
  intros Ho Hd Hden Hv. pose proof (wire_len_max t Hv) as Hm.
  unfold transport_send_frame.
  rewrite (pack_wire f t) by (auto; rewrite ?repeat_length; unfold PACKET_BUFF_SIZE; lia).
  cbn [bind]. destruct (Z.eqb_spec (Z.of_nat (length (wire t))) (-1)); [lia|].
  destruct (Z.ltb_spec (Z.of_nat (length (wire t))) 0); [lia|].
  rewrite Nat2Z.id, firstn_app_exact by reflexivity.
  destruct (wret _ =? _); eauto.
Qed.

Lemma send_gen wret f : frame_obj f -> (ftype f = 4 -> 0 <= data_size f <= 252) ->
  In (ftype f) [1; 2; 3; 4] ->
  exists r f' w, transport_send_frame wret f = Ok (r, f', Some w) /\ (r = 0 \/ r = -1) /\
    (r = 0 <-> wret (Z.of_nat (length w)) = Z.of_nat (length w)).
Proof.
  intros Ho Hd Ht. unfold transport_send_frame.
  destruct (pack_bounds f (repeat 0 (Z.to_nat PACKET_BUFF_SIZE)) PACKET_BUFF_SIZE Ho Hd)
    as (r & f' & b' & H & Hl & Hc & Hneg & Hpos).
  { rewrite repeat_length. unfold PACKET_BUFF_SIZE. lia. }
  assert (Hsz : Z.of_nat (length (layout f)) <= PACKET_BUFF_SIZE).
  { unfold layout, PACKET_BUFF_SIZE. destruct (Z.eqb_spec (ftype f) 1); [cbn; lia|].
    destruct (Z.eqb_spec (ftype f) 2); [cbn; lia|].
    rewrite !app_length. cbn [length]. destruct (Z.eqb_spec (ftype f) 3); [cbn; lia|].
    rewrite firstn_length. unfold frame_obj, DATA_LEN in Ho. lia. }
  rewrite H. cbn [bind]. rewrite repeat_length in Hl.
  destruct Hc as [[Hr _]|[Hr _]].
  { apply Hneg in Hr. destruct Hr; [contradiction|lia]. }
  destruct (Z.eqb_spec r (-1)); [lia|]. destruct (Z.ltb_spec r 0); [lia|].
  assert (El : Z.of_nat (length (firstn (Z.to_nat r) b')) = r) by (rewrite firstn_length; lia).
  destruct (Z.eqb_spec (wret r) r).
  - eexists 0, f', _. split; [reflexivity|]. rewrite El. split; [auto|]. tauto.
  - eexists (-1), f', _. split; [reflexivity|]. rewrite El. split; [auto|]. split; [discriminate|tauto].
Qed.

Lemma send_bad wret f : frame_obj f -> (ftype f = 4 -> 0 <= data_size f <= 252) ->
  ~ In (ftype f) [1; 2; 3; 4] -> transport_send_frame wret f = UB.
Proof.
  intros Ho Hd Ht. unfold transport_send_frame.
  pose proof (pack_spec f (repeat 0 (Z.to_nat PACKET_BUFF_SIZE)) PACKET_BUFF_SIZE Ho Hd) as H.
  rewrite repeat_length in H. specialize (H ltac:(unfold PACKET_BUFF_SIZE; lia)).
  unfold pack_bytes in H. cbn [In] in Ht.
  destruct (Z.eqb_spec (ftype f) T_ACK); [unfold T_ACK in *; exfalso; apply Ht; auto|].
  destruct (Z.eqb_spec (ftype f) T_SHORT); [unfold T_SHORT in *; exfalso; apply Ht; auto|].
  destruct (Z.eqb_spec (ftype f) T_CONTROL); [unfold T_CONTROL in *; exfalso; apply Ht; auto|].
  destruct (Z.eqb_spec (ftype f) T_LONG); [unfold T_LONG in *; exfalso; apply Ht; auto|].
  destruct H as (r & f' & E & ->). rewrite E. reflexivity.
Qed.

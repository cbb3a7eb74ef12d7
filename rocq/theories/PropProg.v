(** Properties C72-C75: the programs that convert dumps, send a telegram, and select or scan by secondary address. *)
From Coq Require Import Permutation.
From Coq Require Import String.
From Coq Require Import List.
From Verif Require Import CBase PBase CStr MFrame MCodec MVar MText SVar SText SCodec PCodec SXml MXml SWire SFrame PFrame PFrame2 PVar PVar2 PVar3 PXml2 PXml4 MRecv SRecv PRecv PropFrame PropRecv MSecond SSecond PSecond MProto SProto PProto PProto2 PropProto PReq SReq PReq2 SBus PBus PBus2 PBus3 PropVar PropXml PropReq PropBus MHex SHex PropHex SMean PropMean MXmlN SXmlN PXmlN PropXmlN SNet MTools PNet PNet2 PropNet MProg PAny PropAny PProg.

(** A file: at most 4096 characters of hexadecimal text of these bytes. *)
Definition dump_of (bs file : list Z) : Prop := hex_dump file bs /\ (List.length file <= 4096)%nat.

Lemma offline_long stamp norm file c a ci p : valid (Long c a ci p) -> dump_of (wire (Long c a ci p)) file ->
  exists f, frame_obj f /\ bytes (fdata f) /\ denotes f (Long c a ci p) /\
    parse_hex_main stamp norm file = (let* (q, fd) := mbus_frame_data_parse f fd_zero in
      if negb (q =? 0) then Ok (1, None)
      else let* x := (if norm then let* (t, _) := mbus_frame_data_xml_normalized fd in Ok t else mbus_frame_data_xml stamp fd) in
        match x with None => Ok (1, None) | Some text => Ok (0, Some text) end).
Proof.
  intros V [D L]. exists (parsed (Long c a ci p) frame_zero). assert (E : mbus_parse frame_zero (wire (Long c a ci p)) = Ok (0, parsed (Long c a ci p) frame_zero)) by (apply parse_wire; [reflexivity|assumption]).
  split; [destruct (parse_total frame_zero (wire (Long c a ci p)) eq_refl (wire_bytes _ V)) as (r & f' & E' & O); rewrite E in E'; apply ok_inj2 in E'; destruct E' as [_ <-]; exact O|].
  split; [refine (parse_bytes frame_zero _ _ _ _ (wire_bytes _ V) E); apply repeat_bytes; unfold is_byte; lia|].
  split; [apply denotes_parsed; [reflexivity|assumption]|].
  unfold parse_hex_main. rewrite (file_dump _ _ D L). cbn [bind]. rewrite E. reflexivity.
Qed.

(** C72: for the dump of a variable data telegram the program prints its document (C58), or with -n its normalised
    document (C61), and exits with 0. *)
Theorem C72_variable_partial :
  forall stamp, (forall i, stamp_ok (stamp i)) -> forall s file, wf_slave s -> plain_slave s -> dump_of (wire (sl_telegram s)) file ->
  exists text, parse_hex_main stamp false file = Ok (0, Some text) /\ plain_document stamp (sl_header s) [entries (sl_items s) (sl_tail s)] text.
Proof.
  intros stamp Hs s file Wf [Sm Pl] D. pose proof (proj1 Wf) as V. destruct (offline_long stamp false file _ _ _ _ V D) as (f & Ho & Hb & Dn & ->).
  pose proof (sl_var f s Wf Dn Ho Hb) as T. pose proof (telegram_parse f _ _ _ fd_zero T) as E. rewrite E. cbn [bind]. change (negb (0 =? 0)) with false. cbv iota.
  destruct (C58_variable_document_partial stamp Hs f _ _ _ _ _ T Sm Pl E) as (text & X & Dc). rewrite X. cbn [bind]. eauto.
Qed.
Theorem C72_normalised_partial :
  forall stamp s file, wf_slave s -> Forall small_norm (entries (sl_items s) (sl_tail s)) -> Forall meaningful (entries (sl_items s) (sl_tail s)) ->
  dump_of (wire (sl_telegram s)) file ->
  exists text, parse_hex_main stamp true file = Ok (0, Some text) /\ norm_document meaning_entry (sl_header s) (entries (sl_items s) (sl_tail s)) text.
Proof.
  intros stamp s file Wf Sm M D. pose proof (proj1 Wf) as V. destruct (offline_long stamp true file _ _ _ _ V D) as (f & Ho & Hb & Dn & ->).
  pose proof (sl_var f s Wf Dn Ho Hb) as T. pose proof (telegram_parse f _ _ _ fd_zero T) as E. rewrite E. cbn [bind]. change (negb (0 =? 0)) with false. cbv iota.
  destruct (C61_meaning_partial f _ _ _ _ _ T Sm M E) as (text & X & Dc). rewrite X. cbn [bind]. eauto.
Qed.
(** C72: the same for fixed data and for application errors. *)
Theorem C72_fixed :
  forall stamp norm file c a p, valid (Long c a 0x73 p) -> (c / 64) mod 2 = 0 -> List.length p = 16%nat -> dump_of (wire (Long c a 0x73 p)) file ->
  exists x text, fixed_layout p x /\ parse_hex_main stamp norm file = Ok (0, Some text) /\ fixed_document x text.
Proof.
  intros stamp norm file c a p V Hc Hl D. destruct (offline_long stamp norm file _ _ _ _ V D) as (f & Ho & Hb & Dn & ->).
  destruct (long_carries _ _ _ _ _ Ho Hb Dn V) as [Cr Hbc]. destruct (C27_dispatch f p fd_zero Cr Hbc) as (_ & _ & K & _).
  destruct Dn as (_ & D2 & _ & D4 & _). rewrite D2, D4 in K. rewrite K; [|assumption|reflexivity|intros ->; discriminate].
  destruct (proj1 (C26_fixed_parse f p (d_fix fd_zero) Cr) Hl) as (x & E & Lx). rewrite E. cbn [bind]. change (negb (0 =? 0)) with false. cbv iota.
  set (fd := mkFD _ x _ _). assert (Fb : fixed_bytes (d_fix fd)).
  { cbn [fd d_fix]. destruct Lx as (Ep & L1 & L2 & L3). destruct V as (_ & _ & _ & V4 & _). apply byte_range_bytes in V4 || apply Forall_forall in V4. 
    assert (P : bytes p) by (revert V4; apply Forall_impl; unfold byte_range, is_byte; intros; lia). rewrite Ep in P. apply Forall_app in P. destruct P as [P1 P2].
    apply Forall_app in P2. destruct P2 as [P2 P3]. apply Forall_app in P3. destruct P3 as [P3 P4]. inversion_clear P2 as [|? ? Q1 P5]. inversion_clear P5 as [|? ? Q2 P6]. inversion_clear P6 as [|? ? Q3 P7]. inversion_clear P7 as [|? ? Q4 _].
    unfold fixed_bytes. auto 12. }
  destruct norm.
  - destruct (C61_fixed_refuted fd eq_refl Fb) as (text & E1 & Dc). rewrite E1. cbn [bind]. exists x, text. auto.
  - destruct (C58_fixed_document stamp fd eq_refl Fb) as (text & E1 & Dc & _). rewrite E1. cbn [bind]. exists x, text. auto.
Qed.
Theorem C72_error :
  forall stamp file c a p, valid (Long c a 0x70 p) -> (c / 64) mod 2 = 0 -> dump_of (wire (Long c a 0x70 p)) file ->
  exists text, parse_hex_main stamp false file = Ok (0, Some text) /\ error_document (mbus_data_error_lookup (hd 0 p)) text.
Proof.
  intros stamp file c a p V Hc D. destruct (offline_long stamp false file _ _ _ _ V D) as (f & Ho & Hb & Dn & ->).
  destruct (long_carries _ _ _ _ _ Ho Hb Dn V) as [Cr Hbc]. destruct (C27_dispatch f p fd_zero Cr Hbc) as (_ & K & _).
  destruct Dn as (_ & D2 & _ & D4 & _). rewrite D2, D4 in K. rewrite K; [|assumption|reflexivity]. cbn [bind]. change (negb (0 =? 0)) with false. cbv iota.
  set (fd := mkFD _ _ _ _). assert (He : is_byte (hd 0 p)).
  { destruct V as (_ & _ & _ & V4 & V5). destruct p; [cbn in V5; lia|]. cbn [hd]. inversion V4 as [|? ? Q _]. unfold byte_range in Q. unfold is_byte. lia. }
  destruct (C58_error_document stamp (hd 0 p) fd He eq_refl eq_refl) as (text & E1 & Dc & _). rewrite E1. cbn [bind]. exists text. auto.
Qed.

(** C72: whatever the file holds, a document is printed only if it holds a valid telegram of a slave, and nothing else
    (unless it starts with E5; then it is an acknowledgement and there is no document). *)
Theorem C72_only_telegrams :
  forall stamp norm file text, parse_hex_main stamp norm file = Ok (0, Some text) ->
  exists t, file_bytes file = Ok (wire t) /\ valid t /\
    match t with Long c _ ci _ | Control c _ ci => (c / 64) mod 2 = 0 /\ (ci = 0x70 \/ ci = 0x72 \/ ci = 0x73) | _ => False end.
Proof.
  intros stamp norm file text E. unfold parse_hex_main in E. destruct (file_any file) as (bs & Eb & Hb & _). rewrite Eb in *. cbn [bind] in E.
  destruct (parse_total frame_zero bs eq_refl Hb) as (r & f & Ep & Ho). rewrite Ep in E. cbn [bind] in E. destruct (Z.eqb_spec r 0) as [Hr|Hr]; cbv [negb] in E. 
  2:{ congruence. } subst r.
  destruct (parse_zero_denotes frame_zero bs f eq_refl Hb Ep) as (t & V & D & X).
  destruct (mbus_frame_data_parse f fd_zero) as [[q fd]|] eqn:E1; cbn [bind] in E; [|congruence].
  destruct (Z.eqb_spec q 0) as [Hq|Hq]; cbv [negb] in E; [|congruence]. subst q. destruct (data_zero _ _ _ E1) as [G1 G2]. clear E E1.
  enough (exists t, bs = wire t /\ valid t /\ match t with Long c _ ci _ | Control c _ ci => (c / 64) mod 2 = 0 /\ (ci = 0x70 \/ ci = 0x72 \/ ci = 0x73) | _ => False end) as (t0 & -> & K) by (exists t0; split; [reflexivity|exact K]).
  clear Eb Ho. destruct t as [|c a|c a ci|c a ci p].
  - exfalso. (* an acknowledgement leaves the zeroed control information *)
    destruct X as [X|[_ X]]; (destruct bs as [|b tl]; [discriminate|]); cbn [hd] in X; [injection X as -> ->|subst b]; rewrite parse_ack in Ep; apply ok_inj2 in Ep; destruct Ep as [_ <-]; clear - G2; vm_compute in G2; intuition discriminate.
  - exfalso. destruct D as (_ & D2 & _). rewrite D2 in G1. destruct V as [V _]. clear - G1 V. cbn in V. intuition (subst; cbn in G1; lia).
  - destruct X as [X|[X _]]; [|discriminate]. subst bs. exists (Control c a ci). split; [reflexivity|]. split; [assumption|]. destruct D as (_ & D2 & _ & D4 & _). rewrite D2 in G1. rewrite D4 in G2. auto.
  - destruct X as [X|[X _]]; [|discriminate]. subst bs. exists (Long c a ci p). split; [reflexivity|]. split; [assumption|]. destruct D as (_ & D2 & _ & D4 & _). rewrite D2 in G1. rewrite D4 in G2. auto.
Qed.

(** C72: a file that holds anything else is refused. *)
Lemma refused_file stamp norm file :
  (forall t, file_bytes file = Ok (wire t) -> valid t ->
     match t with Long c _ ci _ | Control c _ ci => ~ ((c / 64) mod 2 = 0 /\ (ci = 0x70 \/ ci = 0x72 \/ ci = 0x73)) | _ => True end) ->
  parse_hex_main stamp norm file = Ok (1, None).
Proof.
  intros N. unfold parse_hex_main. destruct (file_any file) as (bs & Eb & Hb & _). rewrite Eb in *. cbn [bind].
  destruct (parse_total frame_zero bs eq_refl Hb) as (r & f & Ep & Ho). rewrite Ep. cbn [bind]. destruct (Z.eqb_spec r 0) as [Hr|Hr]; cbv [negb]; [|reflexivity]. subst r.
  destruct (parse_zero_denotes frame_zero bs f eq_refl Hb Ep) as (t & V & D & X).
  assert (G : ~ ((control f / 64) mod 2 = 0 /\ (ctrl_info f = 0x70 \/ ctrl_info f = 0x72 \/ ctrl_info f = 0x73))).
  { clear Eb Ho. destruct t as [|c a|c a ci|c a ci p].
    - intros [_ G2]. destruct X as [X|[_ X]]; (destruct bs as [|b tl]; [discriminate|]); cbn [hd] in X; [injection X as -> ->|subst b]; rewrite parse_ack in Ep; apply ok_inj2 in Ep; destruct Ep as [_ <-]; clear - G2; vm_compute in G2; intuition discriminate.
    - intros [G1 _]. destruct D as (_ & D2 & _). rewrite D2 in G1. destruct V as [V _]. clear - G1 V. cbn in V. intuition (subst; cbn in G1; lia).
    - destruct X as [X|[X _]]; [|discriminate]. subst bs. specialize (N _ eq_refl V). cbn in N. destruct D as (_ & D2 & _ & D4 & _). rewrite D2, D4. exact N.
    - destruct X as [X|[X _]]; [|discriminate]. subst bs. specialize (N _ eq_refl V). cbn in N. destruct D as (_ & D2 & _ & D4 & _). rewrite D2, D4. exact N. }
  rewrite (data_refused f fd_zero G). reflexivity.
Qed.
Theorem C72_refused :
  forall stamp norm file,
  (forall t, file_bytes file = Ok (wire t) -> valid t ->
     match t with Long c _ ci _ | Control c _ ci => ~ ((c / 64) mod 2 = 0 /\ (ci = 0x70 \/ ci = 0x72 \/ ci = 0x73)) | _ => True end) ->
  parse_hex_main stamp norm file = Ok (1, None).
Proof. exact refused_file. Qed.

(** C72: if the request program (C66) printed a document, on any line, then the dump of the telegram it received last
    gives the same document. *)
Theorem C72_replay :
  forall h B wret (react : B -> list Z -> B * list ev), hands_bytes react -> hears_slaves h ->
  forall stamp a w text w', match a with Primary _ => True | Secondary None => False | Secondary (Some s) => wf_mask s end -> ev_bytes (w_evs w) ->
  request_data_main B wret react stamp h a w = Done (0, Some text, w') ->
  exists pre bs, w_log w' = pre ++ [Received RECV_OK bs] /\
    forall c b ci p file, bs = wire (Long c b ci p) -> valid (Long c b ci p) -> (List.length p <= 250)%nat -> dump_of bs file ->
    parse_hex_main stamp false file = Ok (0, Some text).
Proof.
  intros h B wret react RB mode stamp a w text w' Ha Hb E. unfold request_data_main in E.
  assert (I : exists r w1, (if is_serial h then init_slaves B wret react h w else Done (1, w)) = Done (r, w1) /\ ev_bytes (w_evs w1)).
  { destruct (is_serial h); [|exists 1, w; auto]. destruct (two_pings B wret react h RB 0xFD 0xFD w ltac:(lia) ltac:(lia) Hb) as (r & w1 & new & E1 & B1 & _). exists r, w1. split; [exact E1|assumption]. }
  destruct I as (r & w1 & E1 & B1). rewrite E1 in E. cbn [obind] in E. destruct (r =? 0); [discriminate|].
  destruct (address_slave_any B wret react h RB mode a w1 Ha B1) as (o & w2 & n2 & E2 & B2 & _). rewrite E2 in E. cbn [obind] in E. destruct o as [n|]; [|discriminate].
  destruct (mbus_send_request_frame B wret react (Some h) n w2) as [[r3 w3]| |] eqn:E3; cbn [obind] in E; try discriminate. destruct (Z.eqb_spec r3 (-1)); [discriminate|].
  assert (Hn : 0 <= n <= 255). { unfold mbus_send_request_frame in E3. pose proof (primary_spec n) as P. destruct (mbus_is_primary_address n); [apply P; reflexivity|]. cbn [negb] in E3. congruence. }
  destruct (answer_any B wret react h RB mode (Short 0x5B n) frame_zero _ w2 (request_emits B wret react h n w2 Hn) eq_refl B2) as (r4 & w4 & E4 & _ & _ & _ & c & f & w5 & E5 & Of & _ & Bf & g & L5 & K5 & _).
  rewrite E3 in E4. injection E4 as <- <-. rewrite E5 in E. cbn [obind] in E. destruct (Z.eqb_spec c RECV_OK) as [->|]; cbn [negb] in E; [|discriminate].
  destruct (K5 eq_refl) as (u & Vu & -> & Du).
  destruct (mbus_frame_data_parse f fd_zero) as [[q fd]|] eqn:Eq; cbn [lift obind] in E; [|discriminate]. destruct (Z.eqb_spec q (-1)); [discriminate|].
  destruct (mbus_frame_data_xml stamp fd) as [[x|]|] eqn:Ex; cbn [lift obind] in E; try discriminate. injection E as -> <-.
  exists (w_log w2 ++ [Sent (wire (Short 91 n))]), (wire u). split; [rewrite L5, <- app_assoc; reflexivity|]. intros c b ci p file Ew V Lp D.
  pose proof (wire_long_inj c b ci p u Vu V Ew). subst u.
  destruct (offline_long stamp false file _ _ _ _ V D) as (f0 & O0 & B0 & D0 & ->). assert (Bf' : bytes (fdata f)) by (apply Bf, repeat_bytes; unfold is_byte; lia).
  rewrite <- (data_unique f f0 c b ci p fd_zero Of Bf' Du O0 B0 D0 V Lp), Eq. cbn [bind].
  destruct (data_codes f c b ci p fd_zero q fd Of Bf' Du V Eq) as [Hq|Hq]; [|congruence]. subst q. change (negb (0 =? 0)) with false. cbv iota. rewrite Ex. reflexivity.
Qed.


(** ** C73 *)
(** The slave is addressed: by number nothing happens before; by secondary address its selection was acknowledged. *)
Definition addressed (a : mbus_address) (l : list action) : Prop :=
  match a with
  | Primary _ => l = []
  | Secondary None => False
  | Secondary (Some s) => exists m, bytes m /\ address_text m s /\ selected_by m l
  end.
(** Addresses the programs accept. *)
Definition legal (a : mbus_address) : Prop := match a with Primary _ => True | Secondary None => False | Secondary (Some s) => wf_mask s end.
(** The address could not be selected: nothing but the selection was sent. *)
Definition not_addressed (a : mbus_address) (l : list action) : Prop :=
  match a with
  | Secondary (Some s) => exists m rest, bytes m /\ address_text m s /\ l = Sent (wire (selection m)) :: rest /\ received_only rest
  | _ => False
  end.

Lemma addressing B wret (react : B -> list Z -> B * list ev) h a w : hands_bytes react -> hears_slaves h -> legal a -> ev_bytes (w_evs w) ->
  exists o w' new, address_slave B wret react h a w = Done (o, w') /\ ev_bytes (w_evs w') /\ w_log w' = w_log w ++ new /\
    match o with None => not_addressed a new | Some n => addressed a new /\ n = match a with Primary n => n | _ => 0xFD end /\ match a with Primary _ => w' = w | _ => True end end.
Proof.
  intros RB mode Ha Hb. destruct (address_slave_any B wret react h RB mode a w Ha Hb) as (o & w' & new & E & B1 & L & R & Sn & X). exists o, w', new.
  split; [assumption|]. split; [assumption|]. split; [assumption|]. destruct a as [n|[s|]]; [| |contradiction].
  - destruct X as (-> & -> & ->). cbn. auto.
  - destruct X as [->|(-> & c & g & -> & Hc & Hi)].
    + destruct (select_says B wret react h s w RB Ha Hb) as (r & w2 & rest & E2 & L2 & R2). unfold address_slave in E. rewrite E2 in E. cbn [obind] in E.
      assert (w2 = w') by (destruct (_ || _); congruence). subst w2. rewrite L in L2. apply app_inv_head in L2. destruct (mbytes_ok s (proj1 Ha)) as (Y1 & _ & Y2). exists (mbytes s), rest. auto.
    + split; [|auto]. destruct (mbytes_ok s (proj1 Ha)) as (Y1 & _ & Y2). exists (mbytes s). split; [assumption|]. split; [assumption|]. exists (Received c g). split; [exists c, g; auto|reflexivity].
Qed.

(** C73: the file with the dump of a valid telegram: after addressing the slave exactly that telegram is sent, and the
    exit code is 0 if and only if a valid telegram was received then. *)
Theorem C73_sends :
  forall h B wret (react : B -> list Z -> B * list ev), hands_bytes react -> hears_slaves h ->
  forall t file junk a w, valid t -> dump_of (wire t) file -> frame_obj junk -> legal a -> ev_bytes (w_evs w) ->
  exists r w' new, raw_send_main B wret react h junk a file w = Done (r, w') /\ w_log w' = w_log w ++ new /\ (r = 0 \/ r = 1) /\
    ((r = 1 /\ not_addressed a new) \/
     exists pre, addressed a pre /\
       ((r = 1 /\ new = pre ++ [Sent (wire t)]) \/
        exists c g, new = pre ++ [Sent (wire t); Received c g] /\ (r = 0 <-> c = RECV_OK) /\ (c = RECV_OK -> exists u, valid u /\ g = wire u))).
Proof.
  intros h B wret react RB mode t file junk a w V [D Lf] Ho Ha Hb. unfold raw_send_main.
  destruct (addressing B wret react h a w RB mode Ha Hb) as (o & w1 & n1 & E1 & B1 & L1 & X1). rewrite E1. cbn [obind]. destruct o as [n|].
  2:{ exists 1, w1, n1. split; [reflexivity|]. auto 10. }
  rewrite (file_dump _ _ D Lf). cbn [lift obind]. rewrite (parse_wire junk t Ho V). cbn [lift obind]. change (negb (0 =? 0)) with false. cbv iota.
  destruct (send_parsed B wret react h t junk w1 Ho V) as (r & g & E2 & _ & R2). rewrite E2. cbn [obind].
  set (w2 := after_write react w1 (wire t)). assert (L2 : w_log w2 = w_log w ++ (n1 ++ [Sent (wire t)])) by (unfold w2, after_write; cbn [w_log]; rewrite L1, <- app_assoc; reflexivity).
  destruct (Z.eqb_spec r (-1)).
  { exists 1, w2, (n1 ++ [Sent (wire t)]). split; [reflexivity|]. split; [exact L2|]. split; [auto|]. right. exists n1. split; [apply X1|auto]. }
  destruct (recv_total B h frame_zero w2 eq_refl (wrote_bytes B react RB w1 _ B1)) as (c & f' & e' & got & E3 & _ & _ & _ & _ & _ & _ & K & _). rewrite E3. cbn [obind].
  exists (if negb (c =? RECV_OK) then 1 else 0). eexists. exists (n1 ++ [Sent (wire t); Received c got]). split; [reflexivity|]. cbn [w_log]. split; [rewrite L2, <- !app_assoc; reflexivity|].
  split; [destruct (negb _); auto|]. right. exists n1. split; [apply X1|]. right. exists c, got. split; [reflexivity|].
  split; [destruct (Z.eqb_spec c RECV_OK); cbn [negb]; intuition discriminate|]. intros Hc. destruct (proj1 K Hc) as (u & Vu & -> & _). eauto.
Qed.
(** C73: whatever the file holds, nothing is sent but the selection and at most one valid telegram; if it is the dump of
    bytes that are no telegram and do not begin with E5, nothing but the selection is sent and the exit code is 1. *)
Theorem C73_any_file :
  forall h B wret (react : B -> list Z -> B * list ev), hands_bytes react -> hears_slaves h ->
  forall file junk a w, frame_obj junk -> legal a -> ev_bytes (w_evs w) ->
  exists r w' new, raw_send_main B wret react h junk a file w = Done (r, w') /\ w_log w' = w_log w ++ new /\ (r = 0 \/ r = 1) /\
    ((r = 1 /\ (not_addressed a new \/ addressed a new)) \/
     exists pre t rest, addressed a pre /\ valid t /\ new = pre ++ Sent (wire t) :: rest /\ received_only rest /\
       forall bs, dump_of bs file -> bs = wire t \/ hd 0 bs = 0xE5).
Proof.
  intros h B wret react RB mode file junk a w Ho Ha Hb. unfold raw_send_main.
  destruct (addressing B wret react h a w RB mode Ha Hb) as (o & w1 & n1 & E1 & B1 & L1 & X1). rewrite E1. cbn [obind]. destruct o as [n|].
  2:{ exists 1, w1, n1. split; [reflexivity|]. auto 10. }
  destruct (file_any file) as (bs & Eb & Hbs & _). rewrite Eb. cbn [lift obind]. destruct (parse_total junk bs Ho Hbs) as (r & f & Ep & _). rewrite Ep. cbn [lift obind].
  destruct (Z.eqb_spec r 0) as [Hr|Hr]; cbv [negb].
  2:{ exists 1, w1, n1. split; [reflexivity|]. split; [assumption|]. split; [auto|]. left. split; [reflexivity|]. right. apply X1. }
  subst r. destruct (parse_zero_parsed junk bs f Ho Hbs Ep) as (t & V & -> & X).
  assert (Y : forall bs', dump_of bs' file -> bs' = wire t \/ hd 0 bs' = 0xE5).
  { intros bs' [D Lf]. rewrite (file_dump _ _ D Lf) in Eb. apply ok_inj in Eb. subst bs'. destruct X as [X|[_ X]]; auto. }
  clear Eb Ep X. destruct (send_parsed B wret react h t junk w1 Ho V) as (r & g & E2 & _ & R2). rewrite E2. cbn [obind].
  set (w2 := after_write react w1 (wire t)). assert (L2 : w_log w2 = w_log w ++ (n1 ++ [Sent (wire t)])) by (unfold w2, after_write; cbn [w_log]; rewrite L1, <- app_assoc; reflexivity).
  destruct (Z.eqb_spec r (-1)).
  { exists 1, w2, (n1 ++ [Sent (wire t)]). split; [reflexivity|]. split; [exact L2|]. split; [auto|]. right. exists n1, t, []. split; [apply X1|]. split; [assumption|]. split; [reflexivity|]. split; [constructor|assumption]. }
  destruct (recv_total B h frame_zero w2 eq_refl (wrote_bytes B react RB w1 _ B1)) as (c & f' & e' & got & E3 & _). rewrite E3. cbn [obind].
  exists (if negb (c =? RECV_OK) then 1 else 0). eexists. exists (n1 ++ [Sent (wire t); Received c got]). split; [reflexivity|]. cbn [w_log]. split; [rewrite L2, <- !app_assoc; reflexivity|].
  split; [destruct (negb _); auto|]. right. exists n1, t, [Received c got]. split; [apply X1|]. split; [assumption|]. split; [reflexivity|]. split; [|assumption]. constructor; [eexists; eexists; reflexivity|constructor].
Qed.
(** C73: the number given as a primary address makes no difference; the address is the one in the telegram. *)
Theorem C73_number_unused :
  forall h B wret (react : B -> list Z -> B * list ev) junk n k file w,
  raw_send_main B wret react h junk (Primary n) file w = raw_send_main B wret react h junk (Primary k) file w.
Proof. reflexivity. Qed.

(** ** C74 *)
Lemma ack_wire u : valid u -> wire Ack = wire u -> u = Ack.
Proof. intros V E. destruct u; [reflexivity|discriminate..]. Qed.
(** A command [t] and the reply to it: the exit code and the success message. *)
Definition commanded (junk : frame) (t : telegram) (r : Z) (ok : bool) (new : list action) : Prop :=
  (r = 1 /\ ok = false /\ new = [Sent (wire t)]) \/
  exists c g, new = [Sent (wire t); Received c g] /\ (r = 0 \/ r = 1) /\ (r = 1 <-> c = RECV_TIMEOUT) /\
    (c = RECV_OK -> g = wire Ack -> ok = true) /\ (ftype junk <> T_ACK -> ok = true -> c = RECV_OK /\ g = wire Ack).

Lemma command_any B wret (react : B -> list Z -> B * list ev) h t junk x w : hands_bytes react -> hears_slaves h -> emits wret react x w t -> frame_obj junk -> ev_bytes (w_evs w) ->
  exists r ok w' new, (do (r, w) <- x ;;
    if r =? -1 then Done (1, false, w)
    else
      do (c, reply, w) <- mbus_recv_frame B (Some h) junk w ;;
      if c =? RECV_TIMEOUT then Done (1, false, w)
      else if negb (mbus_frame_type reply =? T_ACK) then Done (0, false, w)
      else Done (0, true, w)) = Done (r, ok, w') /\ w_log w' = w_log w ++ new /\ commanded junk t r ok new.
Proof.
  intros RB mode Em Ho Hb. destruct (answer_any B wret react h RB mode t junk x w Em Ho Hb) as (r & w1 & -> & _ & L1 & R & c & f' & w2 & E2 & _ & _ & _ & g & L2 & K2 & A2). cbn [obind].
  destruct (Z.eqb_spec r (-1)). { exists 1, false, w1, [Sent (wire t)]. split; [reflexivity|]. split; [assumption|]. left. auto. }
  rewrite E2. cbn [obind]. destruct (Z.eqb_spec c RECV_TIMEOUT) as [->|Nt].
  { exists 1, false, w2, [Sent (wire t); Received RECV_TIMEOUT g]. split; [reflexivity|]. split; [assumption|]. right. exists RECV_TIMEOUT, g. split; [reflexivity|].
    split; [auto|]. split; [tauto|]. split; discriminate. }
  assert (AK : c = RECV_OK -> g = wire Ack -> mbus_frame_type f' = T_ACK). { intros Hc Hg. destruct (K2 Hc) as (u & V & -> & D). rewrite (ack_wire u V (eq_sym Hg)) in D. exact D. }
  unfold mbus_frame_type in *. destruct (Z.eqb_spec (ftype f') T_ACK) as [T|T]; cbn [negb].
  - exists 0, true, w2, [Sent (wire t); Received c g]. split; [reflexivity|]. split; [assumption|]. right. exists c, g. split; [reflexivity|]. split; [auto|]. split; [split; [discriminate|contradiction]|]. auto.
  - exists 0, false, w2, [Sent (wire t); Received c g]. split; [reflexivity|]. split; [assumption|]. right. exists c, g. split; [reflexivity|]. split; [auto|]. split; [split; [discriminate|contradiction]|].
    split; [intros Hc Hg; exfalso; auto|discriminate].
Qed.

(** C74: the program that switches the baud rate sends the telegram of the standard for the address and the rate,
    listens once, exits with 1 exactly on a timeout, and prints success if an acknowledgement arrives - and only then, if
    its uninitialised frame object does not happen to look like an acknowledgement. *)
Theorem C74_switch_baudrate_partial :
  forall h B wret (react : B -> list Z -> B * list ev), hands_bytes react -> hears_slaves h ->
  forall a baud ci junk w, 0 <= a <= 255 -> In (baud, ci) baud_codes -> frame_obj junk -> ev_bytes (w_evs w) ->
  exists r ok w' new, switch_baudrate_main B wret react h junk a baud w = Done (r, ok, w') /\ w_log w' = w_log w ++ new /\ commanded junk (Control 0x53 a ci) r ok new.
Proof.
  intros h B wret react RB mode a baud ci junk w Ha Hc Ho Hb. exact (command_any B wret react h _ junk _ w RB mode (baud_emits B wret react h a baud ci w Ha Hc) Ho Hb).
Qed.
(** C74: the application reset, with or without a subcode; by secondary address after the selection. *)
Theorem C74_application_reset_partial :
  forall h B wret (react : B -> list Z -> B * list ev), hands_bytes react -> hears_slaves h ->
  forall a sub junk w, legal a -> match a with Primary n => 0 <= n <= 255 | _ => True end -> sub <= 255 -> frame_obj junk -> ev_bytes (w_evs w) ->
  let n := match a with Primary n => n | _ => 253 end in
  let t := if sub <? 0 then Control 0x53 n 0x50 else Long 0x53 n 0x50 [sub] in
  exists r ok w' new, application_reset_main B wret react h junk a sub w = Done (r, ok, w') /\ w_log w' = w_log w ++ new /\
    ((r = 1 /\ ok = false /\ not_addressed a new) \/ exists pre tl, new = pre ++ tl /\ addressed a pre /\ commanded junk t r ok tl).
Proof.
  intros h B wret react RB mode a sub junk w Ha Hn Hs Ho Hb n t. unfold application_reset_main.
  destruct (addressing B wret react h a w RB mode Ha Hb) as (o & w1 & n1 & E1 & B1 & L1 & X1). rewrite E1. cbn [obind]. destruct o as [k|].
  2:{ exists 1, false, w1, n1. split; [reflexivity|]. auto. }
  destruct X1 as (A1 & Hk & _). assert (Hr : 0 <= k <= 255) by (subst k; destruct a as [j|[s|]]; [exact Hn|lia..]).
  assert (Em : emits wret react (mbus_send_application_reset_frame B wret react (Some h) k sub w1) w1 t).
  { unfold t. replace n with k by (subst k n; destruct a as [j|[s|]]; reflexivity). destruct (Z.ltb_spec sub 0); [apply reset_emits_plain; assumption|apply reset_emits; lia]. }
  destruct (command_any B wret react h t junk _ w1 RB mode Em Ho B1) as (r & ok & w' & new & E & L & C). exists r, ok, w', (n1 ++ new). split; [exact E|].
  split; [rewrite L, L1, app_assoc; reflexivity|]. right. exists n1, new. auto.
Qed.
(** C74: illegal arguments: nothing but a selection is sent, and the exit code is 1. *)
Theorem C74_illegal :
  forall h B wret (react : B -> list Z -> B * list ev), hands_bytes react -> hears_slaves h ->
  (forall a baud junk w, ~ 0 <= a <= 255 \/ ~ In baud (map fst baud_codes) -> switch_baudrate_main B wret react h junk a baud w = Done (1, false, w)) /\
  (forall n sub junk w, ~ 0 <= n <= 255 \/ 255 < sub -> application_reset_main B wret react h junk (Primary n) sub w = Done (1, false, w)) /\
  (forall s sub junk w, wf_mask s -> 255 < sub -> ev_bytes (w_evs w) ->
     exists w' new, application_reset_main B wret react h junk (Secondary (Some s)) sub w = Done (1, false, w') /\ w_log w' = w_log w ++ new /\
       (not_addressed (Secondary (Some s)) new \/ addressed (Secondary (Some s)) new)) /\
  (forall s junk w, ~ hex16 s -> select_secondary_main B wret react h junk s w = Done (1, None, w)).
Proof.
  intros h B wret react RB mode.
  assert (RS : forall n sub w, ~ 0 <= n <= 255 \/ 255 < sub -> mbus_send_application_reset_frame B wret react (Some h) n sub w = Done (-1, w)).
  { intros n sub w H. unfold mbus_send_application_reset_frame. destruct (mbus_is_primary_address n) eqn:P; [|reflexivity]. cbn [negb]. apply primary_spec in P. destruct H as [H|H]; [contradiction|].
    destruct (Z.gtb_spec sub 0xFF); [reflexivity|lia]. }
  split; [|split; [|split]].
  - intros a baud junk w H. unfold switch_baudrate_main, mbus_send_switch_baudrate_frame. destruct (mbus_is_primary_address a) eqn:P; [|reflexivity]. cbn [negb]. apply primary_spec in P.
    destruct H as [H|H]; [contradiction|]. replace (baud_ci baud) with (@None Z); [reflexivity|]. symmetry. unfold baud_ci. cbn in H.
    repeat match goal with |- context [baud =? ?k] => destruct (Z.eqb_spec baud k); [exfalso; apply H; auto 12|] end. reflexivity.
  - intros n sub junk w H. unfold application_reset_main. cbn [address_slave obind]. rewrite (RS n sub w H). reflexivity.
  - intros s sub junk w Hs H Hb. unfold application_reset_main. destruct (addressing B wret react h (Secondary (Some s)) w RB mode Hs Hb) as (o & w1 & n1 & E1 & B1 & L1 & X1). rewrite E1. cbn [obind].
    exists w1, n1. destruct o as [k|]; [|auto]. rewrite (RS k sub w1 (or_intror H)). split; [reflexivity|]. split; [assumption|]. right. apply X1.
  - intros s junk w H. unfold select_secondary_main. destruct (mbus_is_secondary_address s) eqn:E; [|reflexivity]. exfalso. apply H, secondary_spec, E.
Qed.

(** C74: the frame object is not initialised: a read error can be reported as success. *)
Definition fails (b : bool) (l : list Z) : bool * list ev := (b, [EOther]).
Definition looks_ack : frame := parsed Ack frame_zero.
Theorem C74_uninitialised_refuted :
  frame_obj looks_ack /\ hands_bytes fails /\
  (exists w', switch_baudrate_main _ (fun _ n => n) fails mbus_context_serial looks_ack 5 9600 (mkW false [] []) = Done (0, true, w') /\
     forall g, ~ In (Received RECV_OK g) (w_log w')) /\
  (exists w', application_reset_main _ (fun _ n => n) fails mbus_context_serial looks_ack (Primary 5) (-1) (mkW false [] []) = Done (0, true, w') /\
     forall g, ~ In (Received RECV_OK g) (w_log w')).
Proof.
  split; [reflexivity|]. split; [intros b l; constructor|]. split; (eexists; split; [vm_compute; reflexivity|]); intros g [H|[H|[]]]; discriminate.
Qed.

(** C74: selecting by secondary address, on any line: at most two telegrams are sent; an address is printed only if the
    selection and then the request were answered, the request with a data telegram of a slave that begins with this
    address (unless the uninitialised object looks like an acknowledgement). The program does not come to an end if the
    parser's arrays overflow or if the reply has no address. *)
Theorem C74_select_partial :
  forall h B wret (react : B -> list Z -> B * list ev), hands_bytes react -> hears_slaves h ->
  forall s m junk w, wf_mask s -> bytes m -> address_text m s -> frame_obj junk -> bytes (fdata junk) -> ev_bytes (w_evs w) ->
  select_secondary_main B wret react h junk s w = Undef \/
  exists r o w' new, select_secondary_main B wret react h junk s w = Done (r, o, w') /\ w_log w' = w_log w ++ new /\ (r = 0 \/ r = 1) /\ (sends new <= 2)%nat /\
    forall t, o = Some t -> r = 0 /\ exists c1 g1 c a p, new = [Sent (wire (selection m)); Received c1 g1; Sent (wire request); Received RECV_OK (wire (Long c a 0x72 p))] /\
      valid (Long c a 0x72 p) /\ (c / 64) mod 2 = 0 /\ hex16 t /\ address_text (firstn 8 p) t /\ (ftype junk <> T_ACK -> c1 = RECV_OK /\ g1 = wire Ack).
Proof.
  intros h B wret react RB mode s m junk w Hs Hm A Ho Hj Hb. apply address_text_bytes in A; [|apply Hs|assumption]. subst m. unfold select_secondary_main.
  rewrite (proj2 (secondary_spec s) (proj1 Hs)). cbn [negb].
  assert (Snt : emits wret react (mbus_send_select_frame B wret react (Some h) s w) w (selection (mbytes s))).
  { destruct Hs as [Hx Hm0]. destruct (select_emits B wret react h s w Hx Hm0) as (a & A & Hba & E). apply address_text_bytes in A; [|assumption..]. subst a. exact E. }
  destruct (answer_any B wret react h RB mode _ junk _ w Snt Ho Hb) as (r & w1 & -> & _ & L1 & R & c & f & w2 & E2 & O2 & B2 & F2 & g & L2 & K2 & A2). cbn [obind].
  assert (OUT : forall q w9 nw, (q = 0 \/ q = 1) -> (sends nw <= 2)%nat -> w_log w9 = w_log w ++ nw ->
    exists r o w' new, (Done (q, None, w9) : out (Z * option (list Z) * world B)) = Done (r, o, w') /\ w_log w' = w_log w ++ new /\ (r = 0 \/ r = 1) /\ (sends new <= 2)%nat /\
    forall t, o = Some t -> r = 0 /\ exists c1 g1 c a p, new = [Sent (wire (selection (mbytes s))); Received c1 g1; Sent (wire request); Received RECV_OK (wire (Long c a 0x72 p))] /\
      valid (Long c a 0x72 p) /\ (c / 64) mod 2 = 0 /\ hex16 t /\ address_text (firstn 8 p) t /\ (ftype junk <> T_ACK -> c1 = RECV_OK /\ g1 = wire Ack)).
  { intros q w9 nw Hq Hn Hl. exists q, None, w9, nw. split; [reflexivity|]. split; [assumption|]. split; [assumption|]. split; [assumption|]. discriminate. }
  destruct (r =? -1). { right. apply (OUT 1 w1 [Sent (wire (selection (mbytes s)))]); [auto|cbn; lia|assumption]. }
  rewrite E2. cbn [obind].
  destruct (c =? RECV_TIMEOUT). { right. apply (OUT 1 w2 [Sent (wire (selection (mbytes s))); Received c g]); [auto|cbn; lia|assumption]. }
  destruct (c =? RECV_INVALID). { right. apply (OUT 1 w2 [Sent (wire (selection (mbytes s))); Received c g]); [auto|cbn; lia|assumption]. }
  destruct (Z.eqb_spec (mbus_frame_type f) T_ACK) as [Ta|Ta].
  2:{ right. apply (OUT 0 w2 [Sent (wire (selection (mbytes s))); Received c g]); [auto|cbn; lia|assumption]. }
  destruct (answer_any B wret react h RB mode request f _ w2 (request_emits B wret react h 0xFD w2 ltac:(lia)) O2 B2) as (r3 & w3 & -> & _ & L3 & _ & c4 & f4 & w4 & E4 & O4 & B4 & F4 & g4 & L4 & K4 & _). cbn [obind].
  destruct (r3 =? -1). { right. apply (OUT 1 w3 [Sent (wire (selection (mbytes s))); Received c g; Sent (wire request)]); [auto|cbn; lia|]. rewrite L3, L2, <- app_assoc. reflexivity. }
  rewrite E4. cbn [obind].
  assert (LL : w_log w4 = w_log w ++ [Sent (wire (selection (mbytes s))); Received c g; Sent (wire request); Received c4 g4]) by (rewrite L4, L2, <- app_assoc; reflexivity).
  destruct (Z.eqb_spec c4 RECV_OK) as [Hc4|Hc4]; cbn [negb]. 2:{ right. eapply OUT; [auto| |exact LL]. cbn; lia. }
  destruct (Z.eqb_spec (mbus_frame_type f4) T_ACK) as [T4|T4]; cbn [negb]. { right. eapply OUT; [auto| |exact LL]. cbn; lia. }
  destruct (mbus_frame_get_secondary_address f4) as [[t|]|] eqn:Ea; cbn [lift obind]; [|left; reflexivity|left; reflexivity].
  right. exists 0, (Some t), w4. eexists. split; [reflexivity|]. split; [exact LL|]. split; [auto|]. split; [cbn; lia|]. intros t' Et. injection Et as <-. split; [reflexivity|].
  destruct (K4 Hc4) as (u & Vu & -> & Du). assert (TL : mbus_frame_type f4 = T_LONG).
  { unfold mbus_frame_get_secondary_address in Ea. destruct (Z.eqb_spec (ctrl_info f4) 0x72) as [Ci|]; cbn [negb] in Ea; [|discriminate]. unfold mbus_frame_data_parse in Ea. rewrite Ci in Ea.
    destruct u as [|uc ua|uc ua uci|uc ua uci up]; [exfalso; apply T4; exact Du| | |apply Du].
    - exfalso. destruct Du as (_ & D2 & _). rewrite D2 in Ea. destruct Vu as [Vu _]. clear - Ea Vu. cbn in Vu. intuition (subst; cbn in Ea; discriminate).
    - exfalso. destruct Du as (_ & _ & _ & _ & D5). rewrite D5 in Ea. destruct (Z.land (control f4) 0x40 =? 0); cbn in Ea; discriminate. }
  destruct (address_any B wret f4 u t O4 (F4 (F2 Hj)) Du Vu TL Ea) as (uc & ua & up & -> & M & _ & Hx & At). exists c, g, uc, ua, up. rewrite Hc4.
  split; [reflexivity|]. split; [assumption|]. split; [assumption|]. split; [assumption|]. split; [assumption|]. intros Nj. exact (A2 Nj Ta).
Qed.
(** C74: on a bus of slaves (as in C44), whatever the uninitialised object holds: if no slave matches the exit code is 1;
    if one matches its address is printed and it stays selected. *)
Theorem C74_select_bus :
  forall h slaves B wret (react : B -> list Z -> B * list ev) selected, bus_of h slaves B wret react selected -> hears_slaves h ->
  forall mask m junk w, wf_mask mask -> bytes m -> address_text m mask -> frame_obj junk -> bytes (fdata junk) -> w_evs w = [] ->
  match matching m slaves with
  | [] => exists w', select_secondary_main B wret react h junk mask w = Done (1, None, w') /\ selected (w_bus w') = [] /\ w_evs w' = []
  | [s] => exists t w', select_secondary_main B wret react h junk mask w = Done (0, Some t, w') /\ names s t /\ selected (w_bus w') = [s] /\ w_evs w' = []
  | _ => True
  end.
Proof.
  intros h slaves B wret react selected bus mode mask m junk w Hs Hm A Ho Hj Hw. rewrite (matching_fits m mask slaves Hs Hm A). clear A m Hm.
  assert (Sel : forall w, mbus_send_select_frame B wret react (Some h) mask w = Done (0, after_write react w (wire (selection (mbytes mask))))) by (intros; exact (select_sent h slaves B wret react selected bus mask _ Hs)).
  destruct (mbytes_ok mask (proj1 Hs)) as (Hb & Hl & _). destruct (selection_valid _ Hl Hb) as [V M].
  destruct (bus_select _ _ _ _ _ _ bus (w_bus w) (mbytes mask) Hl Hb) as (St & body & Hh & Ph). fold (fits slaves mask) in St, Ph.
  set (w1 := after_write react w (wire (selection (mbytes mask)))).
  assert (Hh1 : heard h (selection (mbytes mask)) (w_evs w1) body) by (unfold w1, after_write; cbn [w_evs]; rewrite Hw; exact Hh).
  assert (PRE : (length (fits slaves mask) <= 1)%nat -> exists c f1 e1 got, mbus_recv_frame B (Some h) junk w1 = Done (c, f1, mkW (w_bus w1) e1 (w_log w1 ++ [Received c got])) /\ ack_result h (fits slaves mask) c f1 e1).
  { intros L. exact (ack_recv_any B h junk _ w1 body _ Ho V M mode Hh1 Ph L). }
  pose proof (fits_wf h slaves B wret react selected bus mask) as Wf.
  unfold select_secondary_main. rewrite (proj2 (secondary_spec mask) (proj1 Hs)). cbn [negb]. rewrite Sel. cbn [obind]. fold w1. change (0 =? -1) with false. cbv iota.
  destruct (fits slaves mask) as [|x [|y l]] eqn:Ef; [| |exact I].
  - destruct (PRE ltac:(cbn; lia)) as (c & f1 & e1 & got & E & R). rewrite E. cbn [obind]. destruct R as [(_ & -> & ->)|[(N & _)|[(L & _)|(L & _)]]]; try (cbn in L; lia); [|congruence].
    change (RECV_TIMEOUT =? RECV_TIMEOUT) with true. cbv iota. eexists. split; [reflexivity|]. split; [exact St|reflexivity].
  - destruct (PRE ltac:(cbn; lia)) as (c & f1 & e1 & got & E & R). destruct (recv_total B h junk w1 Ho (heard_bytes h _ _ _ V Hh1 (ack_bytes h _ _ Ph))) as (c0 & f0 & e0 & g0 & E0 & O1 & _).
    assert (f0 = f1) by congruence. subst f0. clear E0. pose proof (recv_fdata B h junk w1 _ _ _ Ho Hj (heard_bytes h _ _ _ V Hh1 (ack_bytes h _ _ Ph)) E) as F1.
    rewrite E. cbn [obind]. destruct R as [(N & _)|[(_ & -> & T1 & ->)|[(L & _)|(L & _)]]]; try (cbn in L; lia); [congruence|].
    change (RECV_OK =? RECV_TIMEOUT) with false. change (RECV_OK =? RECV_INVALID) with false. cbv iota. rewrite T1. change (T_ACK =? T_ACK) with true. cbv iota.
    set (w2 := mkW (w_bus w1) [] (w_log w1 ++ [Received RECV_OK got])).
    rewrite (emitted h slaves B wret react selected bus _ w2 _ (request_emits B wret react h 0xFD w2 ltac:(lia))). fold request. cbn [obind]. change (0 =? -1) with false. cbv iota.
    destruct (bus_request _ _ _ _ _ _ bus (w_bus w2)) as (St2 & body2 & Hh2 & Ph2). destruct request_valid as [V2 M2]. assert (Sx : selected (w_bus w2) = [x]) by exact St. rewrite Sx in *.
    inversion_clear Wf as [|? ? Wx _]. pose proof Wx as (Vx & _). pose proof (sl_master x Wx) as Mx. set (w3 := after_write react w2 (wire request)).
    assert (Hh3 : heard h request (w_evs w3) body2) by (unfold w3, after_write; cbn [w_evs w2]; exact Hh2).
    destruct (hear_any B h f1 request w3 body2 (sl_telegram x) [] O1 V2 M2 mode Hh3 Vx Mx Ph2) as (f' & E4 & D & O4).
    pose proof (recv_fdata B h f1 w3 _ _ _ O1 F1 (heard_bytes h _ _ _ V2 Hh3 (next_bytes _ _ _ _ Ph2 Vx I)) E4) as F4.
    rewrite E4. cbn [obind]. change (negb (RECV_OK =? RECV_OK)) with false. cbv iota. assert (T : mbus_frame_type f' = T_LONG) by apply D. rewrite T. change (negb (T_LONG =? T_ACK)) with true. cbv iota.
    destruct (get_address f' _ _ _ (sl_var f' x Wx D O4 F4)) as (t & G & Hx & At). rewrite G. cbn [lift obind]. exists t. eexists. split; [reflexivity|]. split; [split; assumption|].
    split; [exact St2|reflexivity].
Qed.
(** C74: a slave with fixed data has no address in its reply; the program then passes NULL to printf. *)
Theorem C74_no_address_refuted :
  exists t, valid t /\ ~ from_master t /\
    select_secondary_main _ (fun _ n => n) (answers (wire t)) mbus_context_serial frame_zero (chars "12345678FFFFFFFF") (mkW false [] []) = Undef.
Proof.
  exists (Long 0x08 1 0x73 [1; 2; 3; 4; 5; 6; 7; 8; 9; 10; 11; 12; 13; 14; 15; 16]). split; [|split; [cbn; intuition discriminate|vm_compute; reflexivity]].
  split; [cbn; auto 10|]. split; [unfold byte_range; lia|]. split; [unfold byte_range; lia|]. split; [|cbn; lia]. vm_compute. repeat constructor; discriminate.
Qed.

(** ** C75 *)
(** After a reset of all slaves whatever is on the line ends in silence. *)
Definition resets_quietly {B} (react : B -> list Z -> B * list ev) : Prop :=
  forall b a, a = 253 \/ a = 255 -> burst (snd (react b (wire (reset_to a)))).
Lemma ping_quiet B wret (react : B -> list Z -> B * list ev) h a w : (forall b n, wret b n = n) -> resets_quietly react -> a = 253 \/ a = 255 -> w_evs w = [] ->
  exists w' new, mbus_send_ping_frame B wret react (Some h) a true w = Done (0, w') /\ w_evs w' = [] /\ w_log w' = w_log w ++ Sent (wire (reset_to a)) :: new /\ received_only new.
Proof.
  intros Wr Q Ha Hw. destruct (ping_emits B wret react h a w ltac:(lia)) as (V & r & E & Acc & R). unfold mbus_send_ping_frame in *.
  rewrite (proj2 (primary_spec a) ltac:(lia)) in *. cbn [negb] in *. destruct (mbus_send_frame _ _ _ _ _ _) as [[[r1 f1] w1]| |]; cbn [obind] in *; try discriminate.
  assert (X : w1 = after_write react w (wire (Short 0x40 a))) by (destruct (r1 =? -1); congruence). assert (r = 0) by (apply Acc, Wr). subst r w1.
  destruct (Z.eqb_spec r1 (-1)); [discriminate|].
  assert (Bu : burst (w_evs (after_write react w (wire (Short 0x40 a))))) by (unfold after_write; cbn [w_evs]; rewrite Hw; exact (Q (w_bus w) a Ha)).
  destruct (purge_drains B h _ Bu) as (p & w' & new & P1 & P2 & _ & P3 & P4). rewrite P1. cbn [obind]. exists w', new. split; [reflexivity|]. split; [assumption|].
  split; [rewrite P3; unfold after_write; cbn [w_log]; rewrite <- app_assoc; reflexivity|assumption].
Qed.
Lemma init_quiet B wret (react : B -> list Z -> B * list ev) h w : (forall b n, wret b n = n) -> resets_quietly react -> w_evs w = [] ->
  exists w' new, init_all B wret react h w = Done (1, w') /\ w_evs w' = [] /\ w_log w' = w_log w ++ new /\ reports new = [] /\ sends new = 2%nat.
Proof.
  intros Wr Q Hw. unfold init_all. destruct (ping_quiet B wret react h 0xFD w Wr Q (or_introl eq_refl) Hw) as (w1 & n1 & E1 & W1 & L1 & R1). rewrite E1. cbn [obind]. change (0 =? -1) with false. cbv iota.
  destruct (ping_quiet B wret react h 0xFF w1 Wr Q (or_intror eq_refl) W1) as (w2 & n2 & E2 & W2 & L2 & R2). rewrite E2. cbn [obind]. change (0 =? -1) with false. cbv iota.
  exists w2. eexists. split; [reflexivity|]. split; [assumption|]. split; [rewrite L2, L1, <- app_assoc; reflexivity|].
  change (?x :: n1) with ([x] ++ n1). change (?x :: n2) with ([x] ++ n2). rewrite !reports_app, !sends_app, (received_reports _ R1), (received_reports _ R2), (received_sends _ R1), (received_sends _ R2). auto.
Qed.
(** C75: on a bus of slaves (C44) that falls silent after a reset, the program exits with 0 and prints the address of
    every slave that matches the mask, once, and nothing else, under the hypotheses of C45. *)
Theorem C75_scan_partial :
  forall h slaves B wret (react : B -> list Z -> B * list ev) selected, bus_of h slaves B wret react selected -> resets_quietly react -> hears_slaves h ->
  0 <= max_search_retry h ->
  forall mask m w, wf_mask mask -> bytes m -> address_text m mask -> w_evs w = [] ->
  (exists q, (q < 8)%nat /\ wildcard (nth q mask 0)) ->
  Forall decimal_id (matching m slaves) -> NoDup (map (fun s => firstn 4 (sl_addr s)) (matching m slaves)) ->
  exists w' new found, scan_secondary_main B wret react h mask w = Done (0, w') /\ w_evs w' = [] /\ w_log w' = w_log w ++ new /\
    Forall2 names found (reports new) /\ Permutation found (matching m slaves) /\
    Z.of_nat (sends new) <= 2 + (max_search_retry h + 2) * (10 + 40 * Z.of_nat (List.length (matching m slaves))).
Proof.
  intros h slaves B wret react selected bus Q mode retry mask m w Hs Hm A Hw Wd Dc Nd. unfold scan_secondary_main. rewrite (proj2 (secondary_spec mask) (proj1 Hs)). cbn [negb].
  destruct (init_quiet B wret react h w (bus_writes _ _ _ _ _ _ bus) Q Hw) as (w1 & n1 & E1 & W1 & L1 & R1 & S1). rewrite E1. cbn [obind]. change (1 =? 0) with false. cbv iota.
  destruct (C45_scan_partial h slaves B wret react selected bus mode retry mask m w1 Hs Hm A W1 Wd Dc Nd) as (w2 & n2 & found & E2 & W2 & L2 & F & P & K). rewrite E2. cbn [obind].
  exists w2, (n1 ++ n2), found. split; [reflexivity|]. split; [assumption|]. split; [rewrite L2, L1, app_assoc; reflexivity|]. rewrite reports_app, R1, sends_app, S1. split; [exact F|]. split; [exact P|]. lia.
Qed.
(** C75: a mask without a wildcard: the slave is printed if it is the only one that matches. *)
Theorem C75_exact :
  forall h slaves B wret (react : B -> list Z -> B * list ev) selected, bus_of h slaves B wret react selected -> resets_quietly react -> hears_slaves h ->
  0 <= max_search_retry h ->
  forall mask m w, wf_mask mask -> bytes m -> address_text m mask -> w_evs w = [] -> (forall i, (i < 16)%nat -> ~ wildcard (nth i mask 0)) ->
  exists w' new, scan_secondary_main B wret react h mask w = Done (0, w') /\ w_evs w' = [] /\ w_log w' = w_log w ++ new /\
    match matching m slaves with [s] => exists t, reports new = [t] /\ names s t | _ => reports new = [] end.
Proof.
  intros h slaves B wret react selected bus Q mode retry mask m w Hs Hm A Hw Wd. unfold scan_secondary_main. rewrite (proj2 (secondary_spec mask) (proj1 Hs)). cbn [negb].
  destruct (init_quiet B wret react h w (bus_writes _ _ _ _ _ _ bus) Q Hw) as (w1 & n1 & E1 & W1 & L1 & R1 & S1). rewrite E1. cbn [obind]. change (1 =? 0) with false. cbv iota.
  destruct (C45_exact h slaves B wret react selected bus mode retry 0 mask m w1 Hs Hm A W1 ltac:(lia) ltac:(intros; apply Wd; lia)) as (w2 & n2 & E2 & W2 & L2 & _ & X). rewrite E2. cbn [obind].
  exists w2, (n1 ++ n2). split; [reflexivity|]. split; [assumption|]. split; [rewrite L2, L1, app_assoc; reflexivity|]. rewrite reports_app, R1. exact X.
Qed.
(** C75: on any line, the program comes to an end with 0 or 1, or a data telegram overran the parser's arrays (C71);
    whatever it prints is proven by what was received just before. *)
Theorem C75_any_line :
  forall h B wret (react : B -> list Z -> B * list ev), hands_bytes react -> hears_slaves h -> 0 <= max_search_retry h ->
  forall mask w, wf_mask mask -> ev_bytes (w_evs w) ->
  scan_secondary_main B wret react h mask w = Undef \/
  exists r w' new, scan_secondary_main B wret react h mask w = Done (r, w') /\ w_log w' = w_log w ++ new /\ (r = 0 \/ r = 1) /\
    forall before s after, new = before ++ Found s :: after ->
    exists mask' m pre l, wf_mask mask' /\ (forall i, wildcard (nth i mask 0) \/ nth i mask' 0 = nth i mask 0) /\ bytes m /\ address_text m mask' /\
      before = pre ++ l /\ proven_by m l s.
Proof.
  intros h B wret react RB mode retry mask w Hs Hb. unfold scan_secondary_main. rewrite (proj2 (secondary_spec mask) (proj1 Hs)). cbn [negb].
  destruct (two_pings B wret react h RB 0xFD 0xFF w ltac:(lia) ltac:(lia) Hb) as (r & w1 & n1 & E1 & B1 & L1 & R1 & _). fold (init_all B wret react h w) in E1. rewrite E1. cbn [obind].
  assert (NF : forall before s after, n1 = before ++ Found s :: after -> False).
  { intros before s after E. rewrite E, reports_app in R1. destruct (reports before); discriminate. }
  destruct (r =? 0). { right. exists 1, w1, n1. split; [reflexivity|]. split; [assumption|]. split; [auto|]. intros before s after E. destruct (NF _ _ _ E). }
  destruct (C71_scan h B wret react RB mode retry 0 mask w1 Hs B1) as [U|(q & w2 & n2 & E2 & L2 & _ & X2)]; [left; rewrite U; reflexivity|right]. rewrite E2. cbn [obind].
  exists 0, w2, (n1 ++ n2). split; [reflexivity|]. split; [rewrite L2, L1, app_assoc; reflexivity|]. split; [auto|]. intros before s after E.
  assert (Y : exists b2, before = n1 ++ b2 /\ n2 = b2 ++ Found s :: after).
  { clear - E NF. revert before E. induction n1 as [|x n1 IH]; intros before E; [exists before; auto|]. destruct before as [|y before]; cbn [app] in E.
    - exfalso. injection E as -> _. exact (NF [] s n1 eq_refl).
    - injection E as <- E. destruct (IH) with (before := before) as (b2 & -> & ->); [|assumption|exists b2; auto]. intros bf s' af E'. apply (NF (x :: bf) s' af). cbn. f_equal. exact E'. }
  destruct Y as (b2 & -> & Y). destruct (X2 b2 s after Y) as (m' & m & pre & l & H1 & H2 & H3 & H4 & -> & H6). exists m', m, (n1 ++ pre), l. rewrite app_assoc. auto 10.
Qed.
(** C75: text that is no address: exit code 1, nothing sent. *)
Theorem C75_illegal :
  forall h B wret (react : B -> list Z -> B * list ev) mask w, ~ hex16 mask -> scan_secondary_main B wret react h mask w = Done (1, w).
Proof. intros h B wret react mask w H. unfold scan_secondary_main. destruct (mbus_is_secondary_address mask) eqn:E; [|reflexivity]. exfalso. apply H, secondary_spec, E. Qed.

(** ** Cases that meet the hypotheses *)
(** Text of a byte as two digits. *)
Definition digit_text (d : Z) : Z := if d <=? 9 then 48 + d else 55 + d.
Definition text_of (bs : list Z) : list Z := flat_map (fun b => [digit_text (b / 16); digit_text (b mod 16); 32]) bs ++ [10].
Lemma text_dump bs : bytes bs -> hex_dump (text_of bs) bs.
Proof.
  assert (T : forallb (fun b => match read_nat 16 [digit_text (b / 16); digit_text (b mod 16)] with Some x => x =? b | None => false end) (map Z.of_nat (seq 0 256)) = true) by (vm_compute; reflexivity).
  rewrite forallb_forall in T. unfold text_of. induction 1 as [|b bs Hb _ IH].
  - apply ht_white; [unfold white; lia|constructor].
  - cbn [flat_map app]. apply ht_byte.
    + specialize (T b). destruct (read_nat 16 _) as [x|].
      * f_equal. apply Z.eqb_eq, T. apply in_map_iff. exists (Z.to_nat b). unfold is_byte in Hb. split; [lia|]. apply in_seq. lia.
      * exfalso. assert (X : false = true); [|discriminate]. apply T. apply in_map_iff. exists (Z.to_nat b). unfold is_byte in Hb. split; [lia|]. apply in_seq. lia.
    + apply ht_white; [unfold white; lia|exact IH].
Qed.
(** Every valid telegram has a dump. *)
Lemma telegram_dump t : valid t -> dump_of (wire t) (text_of (wire t)).
Proof.
  intros V. split; [apply text_dump, wire_bytes, V|]. assert (L : (List.length (wire t) <= 264)%nat).
  { destruct t as [|c a|c a ci|c a ci p]; cbn [wire List.length]; try lia. destruct V as (_ & _ & _ & _ & _ & V). rewrite app_length. cbn [List.length]. rewrite ?app_length. cbn [List.length]. lia. }
  assert (M : forall bs, List.length (flat_map (fun b => [digit_text (b / 16); digit_text (b mod 16); 32]) bs) = (3 * List.length bs)%nat).
  { induction bs as [|b bs IH]; [reflexivity|]. cbn [flat_map app List.length]. rewrite IH. lia. }
  unfold text_of. rewrite app_length, M. cbn [List.length]. lia.
Qed.
Definition meter1 : slave := at_address 1 0x11 small_its.
Definition code (x : res (Z * option (list Z))) : option (Z * bool) := match x with Ok (r, Some _) => Some (r, true) | Ok (r, None) => Some (r, false) | UB => None end.
Example C72_example : wf_slave meter1 /\ plain_slave meter1 /\ dump_of (wire (sl_telegram meter1)) (text_of (wire (sl_telegram meter1))) /\
  code (parse_hex_main (fun _ => None) false (text_of (wire (sl_telegram meter1)))) = Some (0, true) /\
  code (parse_hex_main (fun _ => None) true (text_of (wire (sl_telegram meter1)))) = Some (0, true) /\
  code (parse_hex_main (fun _ => None) false (text_of [0x68; 3; 3])) = Some (1, false) /\ code (parse_hex_main (fun _ => None) false (text_of (wire Ack))) = Some (1, false).
Proof.
  assert (W : wf_slave meter1). { pose proof ex_net_ok as K. unfold wf_net, ex_net in K. inversion_clear K as [|? ? [X _] _]. exact X. }
  split; [exact W|]. split; [exact (proj1 C66_example)|]. split; [apply telegram_dump, W|]. split; [vm_compute; reflexivity|]. split; [vm_compute; reflexivity|]. split; vm_compute; reflexivity.
Qed.
(** A line that answers every telegram with an acknowledgement, at once. *)
Definition acking (b : bool) (l : list Z) : bool * list ev := (b, [MRecv.Data (wire Ack)]).
Lemma acking_bytes : hands_bytes acking.
Proof. intros b l. split; [|exact I]. repeat constructor; unfold is_byte; lia. Qed.
Definition exit_code (x : out (Z * world bool)) : option (Z * list action) := match x with Done (r, w) => Some (r, w_log w) | _ => None end.
Example C73_example : hands_bytes acking /\ legal (Primary 1) /\ legal (Secondary (Some (chars "12345678FFFFFFFF"))) /\ valid (Short 0x40 5) /\
  exit_code (raw_send_main _ (fun _ n => n) acking mbus_context_tcp looks_ack (Primary 1) (text_of (wire (Short 0x40 5))) (mkW false [] [])) = Some (0, [Sent (wire (Short 0x40 5)); Received RECV_OK (wire Ack)]) /\
  exit_code (raw_send_main _ (fun _ n => n) acking mbus_context_tcp looks_ack (Primary 1) (text_of [0x10; 0x40; 5; 0x46; 0x16]) (mkW false [] [])) = Some (1, []) /\
  match exit_code (raw_send_main _ (fun _ n => n) acking mbus_context_tcp looks_ack (Secondary (Some (chars "12345678FFFFFFFF"))) (text_of (wire (Short 0x40 253))) (mkW false [] [])) with
  | Some (0, l) => sends l = 2%nat | _ => False end.
Proof.
  split; [exact acking_bytes|]. split; [exact I|]. split; [apply mask_ok; reflexivity|]. split; [cbn; unfold byte_range; split; [auto|lia]|]. split; [vm_compute; reflexivity|]. split; vm_compute; reflexivity.
Qed.
Example C74_example :
  (exists w', switch_baudrate_main _ (fun _ n => n) acking mbus_context_serial frame_zero 5 9600 (mkW false [] []) = Done (0, true, w') /\ w_log w' = [Sent (wire (Control 0x53 5 0xBD)); Received RECV_OK (wire Ack)]) /\
  (exists w', application_reset_main _ (fun _ n => n) acking mbus_context_serial frame_zero (Primary 5) 16 (mkW false [] []) = Done (0, true, w') /\ w_log w' = [Sent (wire (Long 0x53 5 0x50 [16])); Received RECV_OK (wire Ack)]) /\
  (exists w', select_secondary_main _ (fun _ n => n) (ideal_react ex_slaves) mbus_context_serial looks_ack (chars "12345678FFFFFFFF") idle = Done (0, Some (chars "1234567824400107"), w')) /\
  (exists w', select_secondary_main _ (fun _ n => n) (ideal_react ex_slaves) mbus_context_serial looks_ack (chars "12345677FFFFFFFF") idle = Done (1, None, w')) /\
  frame_obj looks_ack /\ bytes (fdata looks_ack) /\ ftype frame_zero <> T_ACK.
Proof.
  split; [eexists; split; vm_compute; reflexivity|]. split; [eexists; split; vm_compute; reflexivity|]. split; [eexists; vm_compute; reflexivity|]. split; [eexists; vm_compute; reflexivity|].
  split; [reflexivity|]. split; [apply (repeat_bytes DATA_LEN)|discriminate].
Qed.
(** The ideal bus of C44, silent after a reset. *)
Definition reset_react (slaves : list slave) (b : list slave) (l : list Z) : list slave * list ev :=
  if nth 1 l 0 =? 0x40 then ([], []) else ideal_react slaves b l.
Theorem C75_bus_exists : forall h slaves, Forall wf_slave slaves ->
  bus_of h slaves (list slave) (fun _ n => n) (reset_react slaves) (fun b => b) /\ resets_quietly (reset_react slaves).
Proof.
  intros h slaves Wf. destruct (C44_bus_exists h slaves Wf) as [B1 B2 B3 B4]. split; [split; [assumption..| |]|].
  - intros b m Hl Hm. specialize (B3 b m Hl Hm). unfold reset_react. replace (nth 1 (wire (selection m)) 0) with 11; [exact B3|]. cbn [wire selection nth app]. rewrite Hl. reflexivity.
  - intros b. exact (B4 b).
  - intros b a [-> | ->]; (split; [constructor|exact I]).
Qed.
Definition scanned (slaves : list slave) (mask : string) : option (Z * list (list Z)) :=
  match scan_secondary_main _ (fun _ n => n) (reset_react slaves) mbus_context_serial (chars mask) idle with Done (r, w) => Some (r, reports (w_log w)) | _ => None end.
Example C75_example : scanned ex_slaves "FFFFFFFFFFFFFFFF" = Some (0, [chars "0000000161150207"; chars "1234567824400107"; chars "1234567924400107"]) /\
  scanned ex_slaves "1234567824400107" = Some (0, [chars "1234567824400107"]) /\ scanned ex_slaves "1234567FFFFFFFF" = Some (1, []).
Proof. split; [vm_compute; reflexivity|]. split; vm_compute; reflexivity. Qed.
(** C72: the program for files of bytes prints the same document for the same telegram; *)
Theorem C72_binary_partial :
  forall stamp norm t file text, valid t -> dump_of (wire t) file -> parse_hex_main stamp norm file = Ok (0, Some text) -> parse_main stamp norm (wire t) = Ok (0, Some text).
Proof.
  intros stamp norm t file text V [D L] E. unfold parse_hex_main in E. rewrite (file_dump _ _ D L) in E. cbn [bind] in E. unfold parse_main.
  assert (Lt : (List.length (wire t) <= 264)%nat).
  { clear - V. destruct t as [|c a|c a ci|c a ci p]; cbn [wire List.length]; try lia. destruct V as (_ & _ & _ & _ & _ & V). rewrite app_length. cbn [List.length]. rewrite ?app_length. cbn [List.length]. lia. }
  rewrite firstn_all2 by (clear - Lt; lia). clear Lt. rewrite (parse_wire frame_zero t eq_refl V) in *. cbn [bind] in *. change (negb (0 =? 0)) with false in E. cbv iota in E.
  destruct (mbus_frame_data_parse (parsed t frame_zero) fd_zero) as [[q fd]|]; cbn [bind] in *; [|congruence]. destruct (q =? 0); cbv [negb] in E; [exact E|congruence].
Qed.
(** but it prints documents for files that hold no valid telegram as well, also with exit code 0: here one byte of a
    valid telegram is changed. *)
Theorem C72_binary_refuted :
  exists t i v text, valid t /\ (i < List.length (wire t))%nat /\ (forall u, valid u -> wire u <> upd (wire t) i v) /\
    parse_main (fun _ => None) false (upd (wire t) i v) = Ok (0, Some text).
Proof.
  exists (sl_telegram meter1), 20%nat, 7. eexists. split; [apply C72_example|]. split; [vm_compute; lia|]. split; [|vm_compute; reflexivity].
  intros u V E. pose proof (parse_wire frame_zero u eq_refl V) as P. rewrite E in P. vm_compute in P. destruct u; discriminate.
Qed.
Print Assumptions C72_binary_partial.
Print Assumptions C72_binary_refuted.
Print Assumptions C72_variable_partial.
Print Assumptions C72_normalised_partial.
Print Assumptions C72_fixed.
Print Assumptions C72_error.
Print Assumptions C72_only_telegrams.
Print Assumptions C72_replay.
Print Assumptions C73_sends.
Print Assumptions C73_any_file.
Print Assumptions C73_number_unused.
Print Assumptions C74_switch_baudrate_partial.
Print Assumptions C74_application_reset_partial.
Print Assumptions C74_illegal.
Print Assumptions C74_uninitialised_refuted.
Print Assumptions C74_select_partial.
Print Assumptions C74_select_bus.
Print Assumptions C74_no_address_refuted.
Print Assumptions C75_scan_partial.
Print Assumptions C75_exact.
Print Assumptions C75_any_line.
Print Assumptions C75_illegal.
Print Assumptions C75_bus_exists.
Print Assumptions C72_refused.

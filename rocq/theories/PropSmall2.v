(** C66, C70, C72, C81, C88, C91, C92 with the limits stated on the bytes sent (as in PropSmall). *)
From Coq Require Import String.
From Coq Require Import List.
From Verif Require Import CBase PBase CStr MFrame MCodec MVar MText SVar SText SCodec PCodec SXml MXml SWire SFrame PFrame PFrame2 PVar PVar2 PVar3 PXml2 PXml4 MRecv SRecv PRecv PropFrame PropRecv MSecond SSecond PSecond MProto SProto PProto PProto2 PropProto PReq SReq PReq2 SBus PBus PBus2 PBus3 PropVar PropXml PropReq PropBus MHex SHex PropHex SMean PropMean MXmlN SXmlN PXmlN PropXmlN SNet MTools PNet PNet2 PropNet MProg PAny PropAny PProg PropProg SLine PLine PropLine SChain PChain PropChain SDoc PDoc PropDoc SDocN PropDocN MMem SMem PMem PropMem SProduct PropProduct SSmall PSmall PropSmall MConn MScan MCmd SCmd PropCmd MMain SMain PMain PropMain.
Local Open Scope Z_scope.

Lemma slave_small s : wf_slave s -> Forall tame (entries (sl_items s) (sl_tail s)) -> Forall small_entry (entries (sl_items s) (sl_tail s)) /\ Forall small_norm (entries (sl_items s) (sl_tail s)).
Proof.
  intros W. pose proof (proj1 W) as V.
  assert (P : mbus_parse frame_zero (wire (sl_telegram s)) = Ok (0, PFrame.parsed (sl_telegram s) frame_zero)) by (apply parse_wire; [reflexivity|exact V]).
  assert (O : frame_obj (PFrame.parsed (sl_telegram s) frame_zero)).
  { destruct (parse_total frame_zero (wire (sl_telegram s)) eq_refl (wire_bytes _ V)) as (r & f' & E' & O). rewrite P in E'. apply ok_inj2 in E'. destruct E' as [_ <-]. exact O. }
  assert (B : bytes (fdata (PFrame.parsed (sl_telegram s) frame_zero))).
  { refine (parse_bytes frame_zero _ _ _ _ (wire_bytes _ V) P). apply repeat_bytes; unfold is_byte; lia. }
  refine (telegram_small (PFrame.parsed (sl_telegram s) frame_zero) (sl_header s) _ _ _).
  apply (sl_var _ s W); [apply denotes_parsed; [reflexivity|exact V]|exact O|exact B].
Qed.

(** A slave all of whose records are tame and have a meaning in plain text. *)
Definition tame_slave (s : slave) : Prop := Forall tame (entries (sl_items s) (sl_tail s)) /\ Forall plain_meaning (entries (sl_items s) (sl_tail s)).
Lemma tame_plain s : wf_slave s -> tame_slave s -> plain_slave s.
Proof. intros W [T M]. split; [apply (slave_small s W T)|exact M]. Qed.
Lemma tame_parts ps mf : message ps -> let q := firstn mf ps in Forall tame_slave q ->
  Z.of_nat (List.length (flat_map (fun s => entries (sl_items s) (sl_tail s)) q)) + Z.of_nat (List.length q) < 10 ^ 9 -> plain_parts q.
Proof.
  intros [W _] q T L. split; [|exact L]. unfold q in *. clear L q. revert mf T. induction W as [|s ps W _ IH]; intros [|mf] T; cbn [firstn] in *; constructor.
  - apply tame_plain; [exact W|exact (Forall_inv T)].
  - apply IH. exact (Forall_inv_tail T).
Qed.

Theorem C66_request_primary_bytes_partial :
  forall h B wret (react : B -> list Z -> B * list ev) st, net_of h B wret react st -> hears_slaves h ->
  forall stamp, (forall i, stamp_ok (stamp i)) -> forall a w, 0 <= a <= 252 -> w_evs w = [] -> wf_net (st (w_bus w)) ->
  match holders a (st (w_bus w)) with
  | [] => exists w', request_data_main B wret react stamp h (Primary a) w = Done (1, None, w')
  | [s] => tame_slave s -> exists text w', request_data_main B wret react stamp h (Primary a) w = Done (0, Some text, w') /\
             plain_document stamp (sl_header s) [entries (sl_items s) (sl_tail s)] text
  | _ => True
  end.
Proof.
  intros h B wret react st net mode stamp stamps a w Ha Hw Wf. pose proof (C66_request_primary_partial h B wret react st net mode stamp stamps a w Ha Hw Wf) as H.
  assert (I : forall s, In s (holders a (st (w_bus w))) -> wf_slave s).
  { intros s I. unfold wf_net in Wf. rewrite Forall_forall in Wf. unfold holders in I.
    first [apply filter_In in I; destruct I as [I _]|idtac]. apply in_map_iff in I. destruct I as ([s' b] & <- & I). try (apply filter_In in I; destruct I as [I _]). exact (proj1 (Wf _ I)). }
  destruct (holders a (st (w_bus w))) as [|s [|s2 l]]; [exact H| |exact H]. intros T. apply H. apply tame_plain; [apply I; left; reflexivity|exact T].
Qed.
Theorem C66_request_secondary_bytes_partial :
  forall h B wret (react : B -> list Z -> B * list ev) st, net_of h B wret react st -> hears_slaves h ->
  forall stamp, (forall i, stamp_ok (stamp i)) -> forall mask m w, wf_mask mask -> bytes m -> address_text m mask -> w_evs w = [] -> wf_net (st (w_bus w)) ->
  match matching m (map fst (st (w_bus w))) with
  | [] => exists w', request_data_main B wret react stamp h (Secondary (Some mask)) w = Done (1, None, w')
  | [s] => tame_slave s -> exists text w', request_data_main B wret react stamp h (Secondary (Some mask)) w = Done (0, Some text, w') /\
             plain_document stamp (sl_header s) [entries (sl_items s) (sl_tail s)] text
  | _ => True
  end.
Proof.
  intros h B wret react st net mode stamp stamps mask m w Hs Hb A Hw Wf. pose proof (C66_request_secondary_partial h B wret react st net mode stamp stamps mask m w Hs Hb A Hw Wf) as H.
  assert (I : forall s, In s (matching m (map fst (st (w_bus w)))) -> wf_slave s).
  { intros s I. unfold wf_net in Wf. rewrite Forall_forall in Wf. unfold matching in I. apply filter_In in I. destruct I as [I _]. apply in_map_iff in I. destruct I as ([s' b] & <- & I). exact (proj1 (Wf _ I)). }
  destruct (matching m _) as [|s [|s2 l]]; [exact H| |exact H]. intros T. apply H. apply tame_plain; [apply I; left; reflexivity|exact T].
Qed.

(** The telegrams the program asks for are tame, have a meaning in plain text and fewer than 10^9 records. *)
Definition tame_message (ps : list slave) : Prop :=
  Forall tame_slave ps /\ Z.of_nat (List.length (flat_map (fun s => entries (sl_items s) (sl_tail s)) ps)) + Z.of_nat (List.length ps) < 10 ^ 9.
Theorem C70_primary_bytes_partial :
  forall echo h fates B wret (react : B -> list Z -> B * list ev) turn st, chain_of echo h fates B wret react turn st -> hears_slaves h -> 0 <= max_data_retry h ->
  forall stamp, (forall i, stamp_ok (stamp i)) -> forall a mf w, 0 <= a <= 252 -> w_evs w = [] -> wf_net (crowd (st (w_bus w))) ->
  match meters_at a (st (w_bus w)) with
  | [] => exists w', request_multi_main B wret react stamp h (Primary a) mf w = Done (1, None, w')
  | [x] => message (m_parts x) -> fresh (m_home x) -> tame_message (firstn (Z.to_nat (Z.max 1 mf)) (m_parts x)) ->
      exists code doc w', request_multi_main B wret react stamp h (Primary a) mf w = Done (code, doc, w') /\
        prints stamp (firstn (Z.to_nat (Z.max 1 mf)) (m_parts x)) code doc /\ (recovers (max_data_retry h) fates -> code = 0)
  | _ => True
  end.
Proof.
  intros echo h fates B wret react turn st chain mode retry stamp stamps a mf w Ha Hw Wf.
  pose proof (C70_primary_partial echo h fates B wret react turn st chain mode retry stamp stamps a mf w Ha Hw Wf) as H.
  destruct (meters_at a _) as [|x [|y l]]; [exact H| |exact I]. intros M F [T L]. exact (H M F (tame_parts _ _ M T L)).
Qed.
Theorem C70_secondary_bytes_partial :
  forall echo h fates B wret (react : B -> list Z -> B * list ev) turn st, chain_of echo h fates B wret react turn st -> hears_slaves h -> 0 <= max_data_retry h ->
  forall stamp, (forall i, stamp_ok (stamp i)) -> forall mask m mf w, wf_mask mask -> bytes m -> address_text m mask -> w_evs w = [] -> wf_net (crowd (st (w_bus w))) ->
  match meters_matching m (st (w_bus w)) with
  | [] => exists w', request_multi_main B wret react stamp h (Secondary (Some mask)) mf w = Done (1, None, w')
  | [x] => message (m_parts x) -> tame_message (firstn (Z.to_nat (Z.max 1 mf)) (m_parts x)) ->
      exists code doc w', request_multi_main B wret react stamp h (Secondary (Some mask)) mf w = Done (code, doc, w') /\
        prints stamp (firstn (Z.to_nat (Z.max 1 mf)) (m_parts x)) code doc /\ (recovers (max_data_retry h) fates -> code = 0)
  | _ => True
  end.
Proof.
  intros echo h fates B wret react turn st chain mode retry stamp stamps mask m mf w Hs Hb A Hw Wf.
  pose proof (C70_secondary_partial echo h fates B wret react turn st chain mode retry stamp stamps mask m mf w Hs Hb A Hw Wf) as H.
  destruct (meters_matching m _) as [|x [|y l]]; [exact H| |exact I]. intros M [T L]. exact (H M (tame_parts _ _ M T L)).
Qed.

Theorem C72_variable_bytes_partial :
  forall stamp, (forall i, stamp_ok (stamp i)) -> forall s file, wf_slave s -> tame_slave s -> dump_of (wire (sl_telegram s)) file ->
  exists text, parse_hex_main stamp false file = Ok (0, Some text) /\ plain_document stamp (sl_header s) [entries (sl_items s) (sl_tail s)] text.
Proof. intros stamp Hs s file W T D. exact (C72_variable_partial stamp Hs s file W (tame_plain s W T) D). Qed.
Theorem C72_normalised_bytes_partial :
  forall stamp s file, wf_slave s -> Forall tame (entries (sl_items s) (sl_tail s)) -> Forall meaningful (entries (sl_items s) (sl_tail s)) ->
  dump_of (wire (sl_telegram s)) file ->
  exists text, parse_hex_main stamp true file = Ok (0, Some text) /\ norm_document meaning_entry (sl_header s) (entries (sl_items s) (sl_tail s)) text.
Proof. intros stamp s file W T M D. exact (C72_normalised_partial stamp s file W (proj2 (slave_small s W T)) M D). Qed.
Theorem C91_convert_bytes_partial : forall B wret (react : B -> list Z -> B * list ev) name g o v initial w s file, documented_line ParseHex g -> command ParseHex name (SCmd.line ParseHex g) = Ok (Run o) ->
  (forall i, stamp_ok (v_stamp v i)) -> v_file v (g_target g) = Some file -> wf_slave s -> Forall tame (entries (sl_items s) (sl_tail s)) -> dump_of (wire (sl_telegram s)) file ->
  let result := run_main B wret react ParseHex name (SCmd.line ParseHex g) v no_text (start initial) w in
  (~ In N (map SCmd.kind_of (g_flags g)) -> Forall plain_meaning (entries (sl_items s) (sl_tail s)) ->
     exists text, result = Done (mkRan 0 text [] None None (start initial) w) /\ plain_document (v_stamp v) (sl_header s) [entries (sl_items s) (sl_tail s)] text) /\
  (In N (map SCmd.kind_of (g_flags g)) -> Forall meaningful (entries (sl_items s) (sl_tail s)) ->
     exists text, result = Done (mkRan 0 text [] None None (start initial) w) /\ norm_document meaning_entry (sl_header s) (entries (sl_items s) (sl_tail s)) text).
Proof.
  intros B wret react name g o v initial w s file Dl H St F Ws T D result. destruct (C91_convert_partial B wret react name g o v initial w s file Dl H St F Ws D) as [X Y].
  split; [intros K M; exact (X K (tame_plain s Ws (conj T M)))|intros K M; exact (Y K (proj2 (slave_small s Ws T)) M)].
Qed.

Theorem C81_frame_xml_bytes : forall stamp, (forall i, stamp_ok (stamp i)) -> forall f fs h its t tels m,
  var_telegram f h its t -> Forall2 (fun f p => var_telegram f (fst (fst p)) (snd (fst p)) (snd p)) fs tels ->
  let ess := entries its t :: map (fun p => entries (snd (fst p)) (snd p)) tels in
  Forall (Forall tame) ess -> Z.of_nat (List.length (concat ess)) + Z.of_nat (List.length ess) < 10 ^ 9 ->
  exists o m' used, frame_xml_mem stamp f fs m = Ok (o, m') /\ attempts used m m' /\
  match o with
  | None => same_memory m m' /\ In true used
  | Some (text, b) => added [b] m m' /\ exists ess', Forall2 SMem.starts ess' ess /\ document stamp h ess' text /\ (ess' = ess <-> ~ In true used)
  end.
Proof. intros stamp Hs f fs h its t tels m T F ess H L. apply C81_frame_xml; try assumption. exact (telegrams_small _ _ _ _ _ _ T F H). Qed.

Theorem C88_normalised_bytes :
  forall f1 h1 its1 t1 fd1 fd1' l1 f2 h2 its2 t2 fd2 fd2' l2 text,
  var_telegram f1 h1 its1 t1 -> Forall tame (entries its1 t1) -> Forall meaningful (entries its1 t1) ->
  var_telegram f2 h2 its2 t2 -> Forall tame (entries its2 t2) -> Forall meaningful (entries its2 t2) ->
  mbus_frame_data_parse f1 fd1 = Ok (0, fd1') -> mbus_frame_data_parse f2 fd2 = Ok (0, fd2') ->
  mbus_frame_data_xml_normalized fd1' = Ok (Some text, l1) -> mbus_frame_data_xml_normalized fd2' = Ok (Some text, l2) ->
  same_slave h1 h2 /\ Forall2 same_normalised (entries its1 t1) (entries its2 t2).
Proof.
  intros f1 h1 its1 t1 fd1 fd1' l1 f2 h2 its2 t2 fd2 fd2' l2 text T1 S1 M1 T2 S2 M2.
  apply (C88_normalised f1 h1 its1 t1 fd1 fd1' l1 f2 h2 its2 t2 fd2 fd2' l2 text T1 (proj2 (telegram_small _ _ _ _ T1 S1)) M1 T2 (proj2 (telegram_small _ _ _ _ T2 S2)) M2).
Qed.
Theorem C92_document_bytes_partial :
  forall stamp, (forall i, stamp_ok (stamp i)) ->
  forall f h its t fd fd', var_telegram f h its t -> Forall tame (entries its t) ->
  mbus_frame_data_parse f fd = Ok (0, fd') ->
  exists text body slave recs name,
    mbus_frame_data_xml stamp fd' = Ok (Some text) /\
    text = cstr "<?xml version=""1.0"" encoding=""ISO-8859-1""?>" ++ [10] ++ body /\ renders body [Elem (cstr "MBusData") [] (slave :: recs)] /\
    header_product h name /\ forall t', says_product slave t' <-> t' = name.
Proof. intros stamp Hs f h its t fd fd' T H. exact (C92_document_partial stamp Hs f h its t fd fd' T (proj1 (telegram_small _ _ _ _ T H))). Qed.

(** The slave of C72's example is tame. *)
Example tame_meter : wf_slave meter1 /\ tame_slave meter1.
Proof.
  split; [apply C72_example|]. split; [|exact (proj2 (proj1 (proj2 C72_example)))].
  change (Forall tame [EData (mkA 0x01 [] 0x13 [] [] [5])]). constructor; [|constructor].
  unfold tame. split; [cbn; lia|]. split; [vm_compute; reflexivity|]. split; [vm_compute; lia|]. intros K. vm_compute in K. discriminate K.
Qed.

Print Assumptions C66_request_primary_bytes_partial.
Print Assumptions C66_request_secondary_bytes_partial.
Print Assumptions C70_primary_bytes_partial.
Print Assumptions C70_secondary_bytes_partial.
Print Assumptions C72_variable_bytes_partial.
Print Assumptions C72_normalised_bytes_partial.
Print Assumptions C91_convert_bytes_partial.
Print Assumptions C81_frame_xml_bytes.
Print Assumptions C88_normalised_bytes.
Print Assumptions C92_document_bytes_partial.

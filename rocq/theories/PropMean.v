(** Theorems: XML documents of variable data replies in terms of the meaning of the bytes (C58). *)
From Coq Require Import String.
From Coq Require Import List.
From Verif Require Import CBase PBase CStr MFrame MCodec MVar MText MXml MUnit SText SCodec SVar SXml SUnit SNorm SUText SMean.
From Verif Require Import PCodec PCodec2 PVar3 PXml PText PText2 PText3 PXml3 PXml4 PropXml PropText PropUnit PDouble PNorm PropUText.
Local Open Scope Z_scope.

Lemma value_shown a t : wf_rec a -> value_text a t -> exists v, mbus_data_record_value (obj a) = Ok v /\ value_text a v.
Proof.
  intros W V. assert (X : exists v, mbus_data_record_decode (obj a) = Ok v /\ value_text a v).
  { destruct V as [K|t I D|ds t K E V D R|ds lo t K E V D Dl R|t K E R|t K R|day month year t K F V H1 H2 H3 R
      |minute hour day month year hy su r0 t K F V H1 H2 H3 H4 H5 H6 H7 H8 R|sec minute hour day month year dst lp r wd b5 t K F V H1 H2 H3 H4 H5 H6 H7 H8 H9 H10 R
      |b w K V B C|b w K V B|K].
    - exists []. split; [|apply vt_none; assumption]. rewrite decode_unfold by (apply obj_parsed; assumption). cbv zeta. change (r_dif (obj a)) with (a_dif a). rewrite K. reflexivity.
    - destruct (C54_integer a W I) as (v & E1 & E2). exists v. split; [assumption|]. apply vt_int; assumption.
    - destruct (C54_bcd a ds W K E V D) as (v & E1 & E2). exists v. split; [assumption|]. eapply vt_bcd; eassumption.
    - destruct (C54_bcd_negative a ds lo W K E V D Dl) as (v & E1 & E2). exists v. split; [assumption|]. eapply vt_bcd_negative; eassumption.
    - destruct (C54_bcd_error_state a W K E) as (v & E1 & E2). exists v. split; [assumption|]. apply vt_bcd_error; assumption.
    - destruct (C54_real a W K) as (v & E1 & E2). exists v. split; [assumption|]. apply vt_real; assumption.
    - destruct (C54_date a day month year W K F V H1 H2 H3) as (v & E1 & E2). exists v. split; [assumption|]. eapply vt_date; eassumption.
    - destruct (C54_datetime_f a minute hour day month year hy su r0 W K F V H1 H2 H3 H4 H5 H6 H7 H8) as (v & E1 & E2). exists v. split; [assumption|]. eapply vt_time_f; eassumption.
    - destruct (C54_datetime_i a sec minute hour day month year dst lp r wd b5 W K F V H1 H2 H3 H4 H5 H6 H7 H8 H9 H10) as (v & E1 & E2). exists v. split; [assumption|]. eapply vt_time_i; eassumption.
    - destruct (C54_variable_length a b w W K V) as [E1 _]. exists (rev w). split; [auto|]. eapply vt_text; eassumption.
    - destruct (C54_variable_length a b w W K V) as [_ E1]. exists (hex_text (rev w)). split; [auto|]. eapply vt_binary; eassumption.
    - exists (hex_text (rev (a_value a))). split; [|apply vt_special; assumption]. rewrite decode_block by (try apply obj_parsed; assumption).
      cbn [obj r_len r_data]. unfold pad. rewrite firstn_app_exact by reflexivity. reflexivity. }
  destruct X as (v & E & T). exists v. split; [|assumption]. unfold mbus_data_record_value. rewrite E. cbn [bind]. f_equal.
  destruct C54_fits_buffer as [F _]. destruct (F a W) as (t' & E' & _ & L). rewrite E in E'. apply ok_inj in E'. subst t'. apply cut_short. lia.
Qed.
Lemma unit_shown a u : wf_rec a -> unit_text a u -> ~ In (a_vif a mod 128) [0x79; 0x7E] -> (has_text (a_vif a) = true -> c_chars (a_text a)) ->
  (a_vif a = 0xFC -> (List.length (a_text a) <= 121)%nat) ->
  exists v, mbus_data_record_unit (obj a) = Ok v /\ unit_text a v.
Proof.
  intros W U N C L. unfold unit_text in *. destruct (has_text (a_vif a)) eqn:T.
  - rewrite (unit_custom a W T (C eq_refl)). destruct (Z.eqb_spec (a_vif a) 0x7C) as [E|E]; [eexists; split; reflexivity|].
    destruct U as [B _]. eexists. split; [reflexivity|]. split; [assumption|]. destruct (Z.leb_spec 0x70 (nth 0 (a_vifes a) 0 mod 128)); [|lia].
    destruct (Z.leb_spec (nth 0 (a_vifes a) 0 mod 128) 0x77); [|lia]. cbn [andb]. destruct (prefix_multiple (nth 0 (a_vifes a) 0 mod 128 - 0x70 - 6) ltac:(lia)) as [M Ml].
    exists (mbus_unit_prefix (nth 0 (a_vifes a) 0 mod 128 - 0x70 - 6)). split; [assumption|]. apply cut_short. rewrite !app_length. cbn [List.length].
    destruct (wf_vife a W) as [Hv _]. unfold is_byte, has_text in *. specialize (L ltac:(lia)). lia.
  - destruct U as (m & E & _). destruct (C62_unit_text_partial a m W T E N) as (v & E1 & S1). exists v. split; [assumption|]. exists m. auto.
Qed.
Lemma entry_meaning e ns : wf_entry e -> plain_meaning e -> entry_nodes e ns -> plain_entry e ns.
Proof.
  destruct e as [a|more b]; [|intros _ _ H; exact H]. cbn [wf_entry plain_meaning entry_nodes plain_entry].
  intros W ((v0 & V) & (u0 & U) & N & C & L) (u & v & st & td & E1 & E2 & R).
  destruct (value_shown a v0 W V) as (v' & E2' & V'). rewrite E2 in E2'. apply ok_inj in E2'. subst v'.
  destruct (unit_shown a u0 W U N C L) as (u' & E1' & U'). rewrite E1 in E1'. apply ok_inj in E1'. subst u'.
  exists u, v, st, td. split; [assumption|]. split; assumption.
Qed.
Lemma entries_meaning stamp es : forall i k out, Forall wf_entry es -> Forall plain_meaning es -> entries_nodes stamp es i k out -> plain_entries stamp es i k out.
Proof.
  induction es as [|e es IH]; intros i k out W M H; [exact H|]. cbn [entries_nodes plain_entries] in *. destruct H as (n & ns & out' & E & En & R & H).
  inversion W; inversion M; subst. exists n, ns, out'. split; [reflexivity|]. split; [apply entry_meaning; assumption|]. split; [assumption|]. apply IH; assumption.
Qed.
Lemma telegrams_meaning stamp tels : forall i k out, Forall (Forall wf_entry) tels -> Forall (Forall plain_meaning) tels ->
  telegrams_nodes stamp tels i k out -> plain_telegrams stamp tels i k out.
Proof.
  induction tels as [|es tels IH]; intros i k out W M H; [exact H|]. cbn [telegrams_nodes plain_telegrams] in *. destruct H as (o1 & o2 & E & H1 & H2).
  inversion W; inversion M; subst. exists o1, o2. split; [reflexivity|]. split; [apply entries_meaning; assumption|apply IH; assumption].
Qed.
Lemma document_meaning stamp h tels l : Forall (Forall wf_entry) tels -> Forall (Forall plain_meaning) tels -> document stamp h tels l -> plain_document stamp h tels l.
Proof.
  intros W M (body & slave & recs & E & R & S & T). exists body, slave, recs. split; [assumption|]. split; [assumption|]. split; [assumption|]. apply telegrams_meaning; assumption.
Qed.

(** C58: the document of a variable data reply, or of a chain of replies, within the size limits, of records that have a
    meaning: every record appears in order, with a text that says its unit and quantity and a text that says its value. *)
Theorem C58_variable_document_partial :
  forall stamp, (forall i, stamp_ok (stamp i)) ->
  forall f h its t fd fd', var_telegram f h its t -> Forall small_entry (entries its t) -> Forall plain_meaning (entries its t) ->
  mbus_frame_data_parse f fd = Ok (0, fd') ->
  exists text, mbus_frame_data_xml stamp fd' = Ok (Some text) /\ plain_document stamp h [entries its t] text.
Proof.
  intros stamp Hs f h its t fd fd' T Sm M E. destruct (C29_document_partial stamp Hs f h its t fd fd' T Sm E) as (text & E1 & D). exists text. split; [assumption|].
  apply document_meaning; [|auto|assumption]. constructor; [|constructor]. apply entries_wf; apply T.
Qed.
Theorem C58_chain_document_partial :
  forall stamp, (forall i, stamp_ok (stamp i)) ->
  forall f fs h its t tels,
  var_telegram f h its t -> Forall2 (fun f p => var_telegram f (fst (fst p)) (snd (fst p)) (snd p)) fs tels ->
  let ess := entries its t :: map (fun p => entries (snd (fst p)) (snd p)) tels in
  Forall (Forall small_entry) ess -> Forall (Forall plain_meaning) ess -> Z.of_nat (length (concat ess)) + Z.of_nat (length ess) < 10 ^ 9 ->
  exists text hp, mbus_frame_xml stamp f fs = Ok (mkOut (Some text) hp false) /\ plain_document stamp h ess text.
Proof.
  intros stamp Hs f fs h its t tels T Ts ess Sm M L. destruct (C30_chain_partial stamp Hs f fs h its t tels T Ts Sm L) as (text & hp & E & D & _).
  exists text, hp. split; [assumption|]. apply document_meaning; [|assumption|assumption]. unfold ess. constructor; [apply entries_wf; apply T|].
  clear - Ts. induction Ts as [|f p fs tels T _ IH]; [constructor|]. cbn [map]. constructor; [apply entries_wf; apply T|assumption].
Qed.
Print Assumptions C58_variable_document_partial.
Print Assumptions C58_chain_document_partial.
(** A volume of 5 l and a manufacturer block. *)
Example C58_meaning_nonvacuous : Forall plain_meaning (entries small_its (Some (true, [1; 2]))).
Proof.
  apply Forall_cons; [|apply Forall_cons; [exact I|apply Forall_nil]]. cbn [plain_meaning]. split; [|split; [|split; [|split; [discriminate|discriminate]]]].
  - exists (cstr "5"). apply vt_int; [left; reflexivity|]. repeat split; intros; discriminate.
  - exists (cstr "Volume (m m^3)"). unfold unit_text. cbn. eexists. split; [reflexivity|]. apply says_b_ok. vm_compute. reflexivity.
  - cbn. intuition discriminate.
Qed.

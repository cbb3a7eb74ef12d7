(** C29, C30, C58, C61, C95 with the limits stated on the bytes sent: at most 6 markup characters in a plain-text unit
    and 70 in a text value, at most 8 extensions and 31 bits for the storage number. *)
From Coq Require Import String.
From Coq Require Import List.
From Verif Require Import CBase PBase CStr MFrame MCodec MVar MText MXml MUnit MXmlN SWire SFrame SText SCodec SVar SXml SUnit SNorm SXmlN SMean SAgree SSmall.
From Verif Require Import PXml4 PropVar PropText PropXml PropNorm PXmlN PropXmlN PropMean PropAgree PSmall.
Local Open Scope Z_scope.

Lemma telegrams_small f h its t fs tels : var_telegram f h its t -> Forall2 (fun f p => var_telegram f (fst (fst p)) (snd (fst p)) (snd p)) fs tels ->
  let ess := entries its t :: map (fun p => entries (snd (fst p)) (snd p)) tels in Forall (Forall tame) ess -> Forall (Forall small_entry) ess.
Proof.
  intros T F ess H. unfold ess in *. inversion_clear H as [|? ? H1 H2]. constructor; [apply (telegram_small _ _ _ _ T H1)|]. clear T H1 ess.
  induction F as [|g p fs tels T F IH]; [constructor|]. cbn [map] in *. inversion_clear H2 as [|? ? H3 H4]. constructor; [apply (telegram_small _ _ _ _ T H3)|apply IH; exact H4].
Qed.

Theorem C29_bytes_partial :
  forall stamp, (forall i, stamp_ok (stamp i)) ->
  forall f h its t fd fd', var_telegram f h its t -> Forall tame (entries its t) ->
  mbus_frame_data_parse f fd = Ok (0, fd') ->
  exists text, mbus_frame_data_xml stamp fd' = Ok (Some text) /\ document stamp h [entries its t] text.
Proof. intros st Hs f h its t fd fd' T H. apply C29_document_partial; [exact Hs|exact T|apply (telegram_small _ _ _ _ T H)]. Qed.

Theorem C30_bytes_partial :
  forall stamp, (forall i, stamp_ok (stamp i)) ->
  forall f fs h its t tels,
  var_telegram f h its t -> Forall2 (fun f p => var_telegram f (fst (fst p)) (snd (fst p)) (snd p)) fs tels ->
  let ess := entries its t :: map (fun p => entries (snd (fst p)) (snd p)) tels in
  Forall (Forall tame) ess -> Z.of_nat (length (concat ess)) + Z.of_nat (length ess) < 10 ^ 9 ->
  exists text hp, mbus_frame_xml stamp f fs = Ok (mkOut (Some text) hp false) /\ document stamp h ess text /\
    Forall (eq None) hp /\ length hp = length (filter (fun es => match es with [] => false | _ => true end) ess).
Proof. intros st Hs f fs h its t tels T F ess H L. apply C30_chain_partial; try assumption. apply (telegrams_small _ _ _ _ _ _ T F H). Qed.

Theorem C58_bytes_partial :
  forall stamp, (forall i, stamp_ok (stamp i)) ->
  forall f fs h its t tels,
  var_telegram f h its t -> Forall2 (fun f p => var_telegram f (fst (fst p)) (snd (fst p)) (snd p)) fs tels ->
  let ess := entries its t :: map (fun p => entries (snd (fst p)) (snd p)) tels in
  Forall (Forall tame) ess -> Forall (Forall plain_meaning) ess -> Z.of_nat (length (concat ess)) + Z.of_nat (length ess) < 10 ^ 9 ->
  exists text hp, mbus_frame_xml stamp f fs = Ok (mkOut (Some text) hp false) /\ plain_document stamp h ess text.
Proof. intros st Hs f fs h its t tels T F ess H M L. apply C58_chain_document_partial; try assumption. apply (telegrams_small _ _ _ _ _ _ T F H). Qed.

Theorem C61_bytes_partial :
  forall f h its t fd fd', var_telegram f h its t -> Forall tame (entries its t) -> Forall meaningful (entries its t) ->
  mbus_frame_data_parse f fd = Ok (0, fd') ->
  exists text, mbus_frame_data_xml_normalized fd' = Ok (Some text, 0%nat) /\ norm_document meaning_entry h (entries its t) text.
Proof. intros f h its t fd fd' T H M. apply C61_meaning_partial; [exact T|apply (telegram_small _ _ _ _ T H)|exact M]. Qed.

Theorem C95_bytes_partial :
  forall stamp, (forall i, stamp_ok (stamp i)) ->
  forall f h its t fd fd', var_telegram f h its t -> Forall tame (entries its t) ->
  Forall meaningful (entries its t) -> Forall (fun e => ~ bcd_error e) (entries its t) ->
  mbus_frame_data_parse f fd = Ok (0, fd') ->
  exists p q, mbus_frame_data_xml stamp fd' = Ok (Some p) /\ mbus_frame_data_xml_normalized fd' = Ok (Some q, 0%nat) /\
    agree (fun e cp cq => shares e cp cq /\ converted e cp cq) (entries its t) p q.
Proof. intros st Hs f h its t fd fd' T H M B. destruct (telegram_small _ _ _ _ T H) as [S1 S2]. exact (C95_converted_partial st Hs f h its t fd fd' T S1 S2 M B). Qed.
Print Assumptions C29_bytes_partial.
Print Assumptions C30_bytes_partial.
Print Assumptions C58_bytes_partial.
Print Assumptions C61_bytes_partial.
Print Assumptions C95_bytes_partial.

(** A reply with the unit <U> in plain text and a text value of 191 ampersands and letters, within the limits, and
    beyond them when all are ampersands. *)
Definition amp_its (k : nat) : list item := [Data (mkA 0x0D [] 0x7C [60; 85; 62] [] (191 :: repeat 38 k ++ repeat 65 (191 - k)))].
Definition amp_frame (k : nat) : frame := reply (ex_header ++ enc_body (amp_its k) None) 0.
Example C29_bytes_nonvacuous :
  var_telegram (amp_frame 70) ex_header (amp_its 70) None /\ Forall tame (entries (amp_its 70) None) /\ ~ Forall tame (entries (amp_its 191) None) /\
  exists fd', mbus_frame_data_parse (amp_frame 70) (mkFD (dvar_of [] [] None) (mkFix [] 0 0 0 0 [] []) 0 0) = Ok (0, fd').
Proof.
  assert (T : var_telegram (amp_frame 70) ex_header (amp_its 70) None).
  { split; [|split; [reflexivity|split; [|split; [exact I|split; [unfold is_byte; cbn; lia|split; reflexivity]]]]].
    - apply reply_carries; [vm_compute; repeat constructor; discriminate|unfold is_byte; lia|vm_compute; lia].
    - constructor; [|constructor]. wf_example. exists 191, (repeat 38 70 ++ repeat 65 121). split; reflexivity. }
  split; [exact T|]. split; [|split].
  - apply Forall_cons; [|apply Forall_nil]. cbn [tame a_difes a_dif a_text a_value]. split; [cbn; lia|]. split; [vm_compute; reflexivity|]. split; [vm_compute; lia|]. intros _ _. vm_compute. lia.
  - intros H. apply Forall_inv in H. destruct H as (_ & _ & _ & H). cbn [a_dif a_value] in H. specialize (H eq_refl ltac:(vm_compute; discriminate)). vm_compute in H. lia.
  - eexists. apply (telegram_parse _ _ _ _ _ T).
Qed.

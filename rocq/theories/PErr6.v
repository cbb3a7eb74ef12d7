(** Proofs about the error texts: XML conversion. *)
From Coq Require Import String.
From Coq Require Import List.
From Verif Require Import CBase PBase CStr MFrame SWire SFrame PFrame MCodec PCodec MVar SVar PVar PVar3 MText MXml MSecond MErr SErr PErr PErr2 PErr3 PErr4 PErr5.

Definition reply_obj (f : frame) (p : list Z) : Prop := carries f p /\ is_byte (control f) /\ is_byte (ctrl_info f).

Lemma data_parse_type e f fd r fd' e' : mbus_frame_data_parse_e e (Some f) (Some fd) = Ok (r, fd', e') -> r = 0 ->
  exists d, fd' = Some d /\ In (d_type d) [DT_FIXED; DT_VARIABLE; DT_ERROR].
Proof.
  intros H ->. unfold mbus_frame_data_parse_e in H.
  destruct (Z.land (control f) 64 =? 0).
  2:{ destruct (say e _); cbn [bind] in H; [apply ok_inj in H; congruence|discriminate]. }
  destruct (ctrl_info f =? 112).
  { destruct (data_size f >? 0); [destruct (rd (fdata f) 0); cbn [bind] in H; [|discriminate]|]; apply ok_inj in H;
      (eexists; split; [symmetry; change (Some ?x) with (snd (fst (0, Some x, e))); rewrite H; reflexivity|cbn; auto]). }
  destruct (ctrl_info f =? 115).
  { destruct (data_size f =? 0). { destruct (say e _); cbn [bind] in H; [apply ok_inj in H; congruence|discriminate]. }
    destruct (mbus_data_fixed_parse_e e f (d_fix fd)) as [[[r1 x] e1]|]; cbn [bind] in H; [|discriminate]. apply ok_inj in H.
    exists (mkFD (d_var fd) x DT_FIXED (d_error fd)). split; [congruence|cbn; auto]. }
  destruct (ctrl_info f =? 114).
  { destruct (data_size f =? 0). { destruct (say e _); cbn [bind] in H; [apply ok_inj in H; congruence|discriminate]. }
    destruct (mbus_data_variable_parse_e e f (d_var fd)) as [[[r1 x] e1]|]; cbn [bind] in H; [|discriminate]. apply ok_inj in H.
    exists (mkFD x (d_fix fd) DT_VARIABLE (d_error fd)). split; [congruence|cbn; auto]. }
  destruct (say e _); cbn [bind] in H; [apply ok_inj in H; congruence|discriminate].
Qed.

Lemma heap_names e f p fd h q : reply_obj f p -> List.length e = 512%nat ->
  match parse_heap_e e f fd h q with
  | Ok (r, fd', h', q', e') =>
      parse_heap f fd h q = Ok (r, fd', h', q') /\
      ((r = 0 /\ e' = e /\ In (d_type fd') [DT_FIXED; DT_VARIABLE; DT_ERROR]) \/
       (r = -1 /\ List.length e' = 512%nat /\ exists m, data_fault (control f) (ctrl_info f) p m))
  | UB => parse_heap f fd h q = UB
  end.
Proof.
  intros (Hc & Hk & Hi) He. unfold parse_heap_e, parse_heap.
  pose proof (data_drop e f p fd Hc He) as X.
  pose proof (fun r fd' e' => data_names e f p fd r fd' e' Hc Hk Hi He) as N.
  pose proof (fun r fd' e' => data_parse_type e f fd r fd' e') as T.
  destruct (mbus_frame_data_parse_e e (Some f) (Some fd)) as [[[r [fd'|]] e']|]; cbn [drop_o bind] in *; rewrite <- X; [|reflexivity|reflexivity].
  cbn [bind]. specialize (N _ _ _ eq_refl). specialize (T _ _ _ eq_refl).
  assert (G : (r = 0 /\ e' = e /\ In (d_type fd') [DT_FIXED; DT_VARIABLE; DT_ERROR]) \/
       (r = -1 /\ List.length e' = 512%nat /\ exists m, data_fault (control f) (ctrl_info f) p m)).
  { destruct N as [[-> ->]|(-> & m & F & S1)].
    - left. destruct (T eq_refl) as (d & E & I). split; [reflexivity|]. split; [reflexivity|]. congruence.
    - right. split; [reflexivity|]. split; [exact (says_len _ _ S1)|]. eauto. }
  destruct (assigns_record f); [destruct (v_records (d_var fd'))|]; (split; [reflexivity|exact G]).
Qed.

Definition first_text : list Z := cstr "M-bus data parse error.".
Definition later_text : list Z := cstr "M-bus variable data parse error.".

Section Xml.
  Variable stamp : Z -> option (list Z).

  Definition later_names (fs : list (frame * list Z)) (o : xml_out) (e e' : list Z) : Prop :=
    (o_text o <> None /\ e' = e) \/
    (o_text o = None /\ says e' later_text /\ exists f p m, In (f, p) fs /\ data_fault (control f) (ctrl_info f) p m).

  Lemma chain_names : forall fs fd h q d rc fc e, List.length e = 512%nat -> Forall (fun x => reply_obj (fst x) (snd x)) fs ->
    match xml_chain_e stamp (map fst fs) fd h q d rc fc e with
    | Ok (o, e') => xml_chain stamp (map fst fs) fd h q d rc fc = Ok o /\ later_names fs o e e'
    | UB => xml_chain stamp (map fst fs) fd h q d rc fc = UB
    end.
  Proof.
    induction fs as [|[f p] fs IH]; intros fd h q d rc fc e He HF; cbn [map xml_chain_e xml_chain fst].
    - destruct (doc_append d XML_CLOSE); cbn [bind]; [|reflexivity]. split; [reflexivity|]. left. split; [discriminate|reflexivity].
    - inversion HF as [|? ? H0 HF']; subst. cbn [fst snd] in H0. pose proof (heap_names e f p fd h q H0 He) as X.
      destruct (parse_heap_e e f fd h q) as [[[[[r fd'] h'] q'] e1]|]; [|rewrite X; reflexivity].
      destruct X as [X1 X2]. rewrite X1. cbn [bind].
      destruct X2 as [(-> & -> & _)|(-> & L1 & m & F)].
      + cbn [Z.eqb]. destruct (deref h' q') as [rs|]; cbn [bind]; [|reflexivity].
        destruct (doc_records stamp d rs rc fc) as [[d' rc']|]; cbn [bind]; [|reflexivity].
        destruct (free_list h' q') as [h2|]; cbn [bind]; [|reflexivity].
        specialize (IH fd' h2 q' d' rc' (fc + 1) e He HF').
        destruct (xml_chain_e stamp (map fst fs) fd' h2 q' d' rc' (fc + 1) e) as [[o e']|]; [|exact IH].
        destruct IH as [I1 I2]. split; [exact I1|]. destruct I2 as [I2|(I2 & I3 & f2 & p2 & m2 & I4 & I5)]; [left; exact I2|].
        right. split; [exact I2|]. split; [exact I3|]. exists f2, p2, m2. split; [right; exact I4|exact I5].
      + change (-1 =? -1) with true. cbv iota. unfold mbus_error_str_set.
        destruct (say_ok e1 (cstr "M-bus variable data parse error.") L1 ltac:(nozero)) as (e2 & S1 & S2). rewrite S1. cbn [bind].
        split; [reflexivity|]. right. split; [reflexivity|]. split; [exact S2|]. exists f, p, m. split; [left; reflexivity|exact F].
  Qed.

  Lemma xml_names e f p fs : List.length e = 512%nat -> reply_obj f p -> Forall (fun x => reply_obj (fst x) (snd x)) fs ->
    match mbus_frame_xml_e stamp e f (map fst fs) with
    | Ok (o, e') =>
        mbus_frame_xml stamp f (map fst fs) = Ok o /\
        ((o_text o = None /\ says e' first_text /\ exists m, data_fault (control f) (ctrl_info f) p m) \/ later_names fs o e e')
    | UB => mbus_frame_xml stamp f (map fst fs) = UB
    end.
  Proof.
    intros He H0 HF. unfold mbus_frame_xml_e, mbus_frame_xml. pose proof (heap_names e f p fd_zero [] None H0 He) as X.
    destruct (parse_heap_e e f fd_zero [] None) as [[[[[r fd'] h'] q'] e1]|]; [|rewrite X; reflexivity].
    destruct X as [X1 X2]. rewrite X1. cbn [bind].
    destruct X2 as [(-> & -> & T)|(-> & L1 & m & F)].
    - cbn [Z.eqb].
      destruct (d_type fd' =? DT_ERROR) eqn:T1.
      { destruct (mbus_data_error_xml (d_error fd')); cbn [bind]; [|reflexivity]. split; [reflexivity|]. right. left. split; [discriminate|reflexivity]. }
      destruct (d_type fd' =? DT_FIXED) eqn:T2.
      { destruct (mbus_data_fixed_xml (d_fix fd')); cbn [bind]; [|reflexivity]. split; [reflexivity|]. right. left. split; [discriminate|reflexivity]. }
      destruct (d_type fd' =? DT_VARIABLE) eqn:T3.
      2:{ exfalso. cbn [In] in T. lia. }
      cbv zeta. destruct (doc_start (v_header (d_var fd'))) as [d|]; cbn [bind]; [|reflexivity].
      destruct (deref h' q') as [rs|]; cbn [bind]; [|reflexivity].
      destruct (doc_records stamp d rs 0 _) as [[d' rc']|]; cbn [bind]; [|reflexivity].
      destruct (free_list h' q') as [h2|]; cbn [bind]; [|reflexivity].
      pose proof (chain_names fs fd' h2 q' d' rc' ((match map fst fs with [] => -1 | _ :: _ => 0 end) + 1) e He HF) as X.
      destruct (xml_chain_e stamp (map fst fs) fd' h2 q' d' rc' _ e) as [[o e']|]; [|exact X].
      destruct X as [I1 I2]. split; [exact I1|]. right. exact I2.
    - change (-1 =? -1) with true. cbv iota. unfold mbus_error_str_set.
      destruct (say_ok e1 (cstr "M-bus data parse error.") L1 ltac:(nozero)) as (e2 & S1 & S2). rewrite S1. cbn [bind].
      split; [reflexivity|]. left. split; [reflexivity|]. split; [exact S2|]. exists m. exact F.
  Qed.
End Xml.

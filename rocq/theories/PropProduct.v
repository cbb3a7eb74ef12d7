(** Theorems: product names (C92). *)
From Coq Require Import String.
From Coq Require Import List.
From Verif Require Import CBase CStr SWire SCodec MFrame MCodec MVar MText SVar SXml MXml SProduct PBase PXml4 PropXml.
Local Open Scope Z_scope.

Definition row_fits (code version medium leading : Z) (p : product) : bool := (code_of (maker p) =? code) && has_model (model_of p) version medium leading.
Lemma row_fits_iff c v md i p : row_fits c v md i p = true <-> instance_of p c v md i.
Proof. unfold row_fits, instance_of. rewrite Bool.andb_true_iff, Z.eqb_eq. intuition congruence. Qed.
Definition looked (c v md i : Z) : list Z := match find (row_fits c v md i) catalogue with Some p => cstr (name_of p) | None => [] end.
Lemma looked_text c v md i : product_text c v md i (looked c v md i).
Proof.
  unfold looked, product_text. destruct (find _ _) as [p|] eqn:E.
  - left. exists p. destruct (find_some _ _ E) as [I F]. split; [assumption|]. split; [|reflexivity]. apply row_fits_iff. assumption.
  - right. split; [|reflexivity]. intros p I F. apply row_fits_iff in F. pose proof (find_none _ _ E p I) as N. congruence.
Qed.
Lemma find_maker c v md i l :
  find (row_fits c v md i) l = find (fun p => has_model (model_of p) v md i) (filter (fun p => code_of (maker p) =? c) l).
Proof.
  induction l as [|p l IH]; [reflexivity|]. cbn [find filter]. unfold row_fits at 1. destruct (code_of (maker p) =? c) eqn:E.
  - cbn [andb find]. rewrite IH. reflexivity.
  - cbn [andb]. exact IH.
Qed.
Ltac row K :=
  unfold looked; rewrite find_maker;
  let l := eval vm_compute in (filter (fun p => code_of (maker p) =? K) catalogue) in
  change (filter (fun p => code_of (maker p) =? K) catalogue) with l;
  cbn [find model_of has_model name_of maker fst snd switch];
  repeat (match goal with
  | |- context [?a =? ?b] => destruct (Z.eqb_spec a b)
  | |- context [?a <=? ?b] => destruct (Z.leb_spec a b)
  end; cbn [andb negb]; try reflexivity; try (exfalso; lia)); try reflexivity.
Definition makers : list Z := nodup Z.eq_dec (map (fun p => code_of (maker p)) catalogue).
Lemma no_maker m v md i : ~ In m makers -> looked m v md i = [].
Proof.
  intros N. unfold looked. destruct (find _ _) as [p|] eqn:E; [|reflexivity]. destruct (find_some _ _ E) as [I F]. apply row_fits_iff in F. destruct F as [F _].
  exfalso. apply N. unfold makers. apply nodup_In. rewrite F. apply in_map_iff. exists p. auto.
Qed.
Lemma product_looked m v md i : is_byte v -> product_name m v md i = looked m v md i.
Proof.
  intros Hv. unfold is_byte in Hv. unfold product_name.
  repeat match goal with
  | |- context [mbus_manufacturer_id ?s] => let k := eval vm_compute in (mbus_manufacturer_id s) in change (mbus_manufacturer_id s) with k
  end.
  repeat match goal with
  | |- (if ((m =? ?a) || (m =? ?b))%bool then _ else _) = _ =>
      destruct (Z.eqb_spec m a); [subst m; cbn [orb]; row a|destruct (Z.eqb_spec m b); [subst m; cbn [orb]; row b|cbn [orb]]]
  | |- (if m =? ?a then _ else _) = _ => destruct (Z.eqb_spec m a); [subst m; row a|]
  end.
  symmetry. apply no_maker. intros I. vm_compute in I. repeat (destruct I as [I|I]; [congruence|]). exact I.
Qed.
(** No meter is an instance of two products with different names. *)
Definition apart (a b : model) : bool :=
  match a, b with
  | Versions f l, Versions f' l' => (l <? f') || (l' <? f)
  | Versions f l, VersionsIn _ f' l' | Versions f l, VersionsOutside _ f' l' => (l <? f') || (l' <? f)
  | VersionsIn _ f l, Versions f' l' | VersionsOutside _ f l, Versions f' l' => (l <? f') || (l' <? f)
  | VersionsIn m f l, VersionsIn m' f' l' => negb (m =? m') || (l <? f') || (l' <? f)
  | VersionsIn m f l, VersionsOutside m' f' l' | VersionsOutside m' f' l', VersionsIn m f l => (m =? m') || (l <? f') || (l' <? f)
  | LeadingDigits d, LeadingDigits d' => negb (d =? d')
  | _, _ => false
  end.
Lemma apart_ok a b v md i : apart a b = true -> has_model a v md i = true -> has_model b v md i = true -> False.
Proof.
  destruct a, b; cbn [apart has_model]; intros A H1 H2; try discriminate;
  rewrite ?Bool.andb_true_iff, ?Bool.orb_true_iff, ?Bool.negb_true_iff, ?Z.eqb_eq, ?Z.eqb_neq, ?Z.leb_le, ?Z.ltb_lt in *; lia.
Qed.
Definition same_name (p q : product) : bool := if string_dec (name_of p) (name_of q) then true else false.
Definition clear_of (p q : product) : bool := if code_of (maker p) =? code_of (maker q) then if apart (model_of p) (model_of q) then true else same_name p q else true.

(** C92: for every meter the library shows the name the catalogue gives to its product and no name if the catalogue has
    none for it; the catalogue never has two. *)
Theorem C92_named :
  forall code version medium leading, is_byte version ->
  product_text code version medium leading (product_name code version medium leading).
Proof. intros c v md i H. rewrite product_looked by assumption. apply looked_text. Qed.
Theorem C92_one_name :
  forall code version medium leading t1 t2,
  product_text code version medium leading t1 -> product_text code version medium leading t2 -> t1 = t2.
Proof.
  assert (K : forallb (fun p => forallb (clear_of p) catalogue) catalogue = true) by (vm_compute; reflexivity).
  intros c v md i t1 t2 [(p & I & F & ->)|[N ->]] [(q & I' & F' & ->)|[N' ->]].
  - rewrite forallb_forall in K. pose proof (K p I) as Kp. rewrite forallb_forall in Kp. pose proof (Kp q I') as C. clear K Kp.
    destruct F as [-> F], F' as [E F']. unfold clear_of in C. rewrite E, Z.eqb_refl in C. destruct (apart _ _) eqn:A.
    + destruct (apart_ok _ _ _ _ _ A F F').
    + unfold same_name in C. destruct (string_dec _ _) as [->|]; [reflexivity|discriminate].
  - destruct (N' p I F).
  - destruct (N q I' F').
  - reflexivity.
Qed.
Print Assumptions C92_named.
Print Assumptions C92_one_name.

(** Names have no control characters, so a reader sees them as they are. *)
Lemma shown_name p : In p catalogue -> shown (cstr (name_of p)) = cstr (name_of p).
Proof.
  assert (K : forallb (fun p => forallb (fun c => blank_control c =? c) (cstr (name_of p))) catalogue = true) by (vm_compute; reflexivity).
  intros I. rewrite forallb_forall in K. pose proof (K p I) as C. cbv beta in C. revert C. generalize (cstr (name_of p)). clear. induction l as [|c l IH]; [reflexivity|].
  cbn [forallb shown map]. intros H. apply andb_prop in H. destruct H as [A B]. apply Z.eqb_eq in A. rewrite A. f_equal. apply IH. assumption.
Qed.
Lemma shown_product c v md i t : product_text c v md i t -> shown t = t.
Proof. intros [(p & I & _ & ->)|[_ ->]]; [apply shown_name; assumption|reflexivity]. Qed.
(** C92: the slave information of every header says the name of the product of this header, and nothing else. *)
Theorem C92_slave :
  forall h slave, bytes h -> slave_node h slave ->
  exists t, header_product h t /\ forall t', says_product slave t' <-> t' = t.
Proof.
  intros h slave B (i0 & i1 & i2 & i3 & m0 & m1 & version & medium & access & status & s0 & s1 & Eh & tid & tman & tver & tacc & tst & tsig & _ & _ & _ & _ & _ & _ & En).
  assert (Bv : is_byte version). { subst h. do 6 apply Forall_inv_tail in B. apply Forall_inv in B. exact B. }
  pose proof (C92_named (m0 + 256 * m1) version medium i3 Bv) as P. pose proof (shown_product _ _ _ _ _ P) as S.
  rewrite S in En. clear S. revert P En. generalize (product_name (m0 + 256 * m1) version medium i3), (shown (mbus_data_variable_medium_lookup medium)). intros pn sm P En. exists pn. split.
  - exists i0, i1, i2, i3, m0, m1, version, medium, [access; status; s0; s1]. split; [exact Eh|assumption].
  - intros t'. split.
    + intros (before & after & E). rewrite En in E. injection E as E.
      assert (I : In (leaf "ProductName" t') (before ++ leaf "ProductName" t' :: after)) by (apply in_or_app; right; left; reflexivity).
      rewrite <- E in I. clear - I. vm_compute in I. repeat (destruct I as [I|I]; [first [discriminate I|congruence]|]). contradiction.
    + intros ->. subst slave. exists [leaf "Id" tid; leaf "Manufacturer" tman; leaf "Version" tver], [leaf "Medium" sm; leaf "AccessNumber" tacc; leaf "Status" tst; leaf "Signature" tsig]. reflexivity.
Qed.
Print Assumptions C92_slave.
(** C92: the manufacturer shown beside a product name is the maker of the product. *)
Definition says_maker (slave : node) (t : list Z) : Prop :=
  exists before after, slave = Elem (cstr "SlaveInformation") [] (before ++ leaf "Manufacturer" t :: after).
Theorem C92_maker :
  forall p i0 i1 i2 i3 m0 m1 version medium rest slave,
  In p catalogue -> instance_of p (m0 + 256 * m1) version medium i3 -> slave_node ([i0; i1; i2; i3; m0; m1; version; medium] ++ rest) slave ->
  says_maker slave (cstr (maker p)).
Proof.
  intros p i0 i1 i2 i3 m0 m1 version medium rest slave I [F _] (j0 & j1 & j2 & j3 & n0 & n1 & v & md & access & status & s0 & s1 & Eh & tid & tman & tver & tacc & tst & tsig & _ & M & _ & _ & _ & _ & En).
  injection Eh as <- <- <- <- <- <- <- <- ->. exists [leaf "Id" tid]. eexists. rewrite En. cbn [app]. do 3 f_equal.
  assert (L : exists a b c, cstr (maker p) = [a; b; c] /\ 65 <= a <= 90 /\ 65 <= b <= 90 /\ 65 <= c <= 90).
  { assert (K : forallb (fun p => match cstr (maker p) with [a; b; c] => forallb (fun x => (65 <=? x) && (x <=? 90)) [a; b; c] | _ => false end) catalogue = true) by (vm_compute; reflexivity).
    rewrite forallb_forall in K. pose proof (K p I) as C. cbv beta in C. destruct (cstr (maker p)) as [|a [|b [|c [|]]]]; try discriminate. exists a, b, c. split; [reflexivity|].
    cbn [forallb] in C. rewrite !Bool.andb_true_iff, !Z.leb_le in C. lia. }
  destruct L as (a & b & c & El & La & Lb & Lc). unfold code_of in F. rewrite El in F |- *.
  destruct M as (x & y & z & -> & Hx & Hy & Hz & G). rewrite F in G. unfold flag_id in G. change (2 ^ 15) with 32768 in G. rewrite Z.mod_small in G by lia.
  assert (x = a /\ y = b /\ z = c) as (-> & -> & ->) by lia. reflexivity.
Qed.
Print Assumptions C92_maker.
(** C92: the document of a reply. *)
Theorem C92_document_partial :
  forall stamp, (forall i, stamp_ok (stamp i)) ->
  forall f h its t fd fd', var_telegram f h its t -> Forall small_entry (entries its t) ->
  mbus_frame_data_parse f fd = Ok (0, fd') ->
  exists text body slave recs name,
    mbus_frame_data_xml stamp fd' = Ok (Some text) /\
    text = cstr "<?xml version=""1.0"" encoding=""ISO-8859-1""?>" ++ [10] ++ body /\ renders body [Elem (cstr "MBusData") [] (slave :: recs)] /\
    header_product h name /\ forall t', says_product slave t' <-> t' = name.
Proof.
  intros stamp Hs f h its t fd fd' T Sm E. destruct (C29_document_partial stamp Hs f h its t fd fd' T Sm E) as (text & X & body & slave & recs & D & R & S & _).
  pose proof (telegram_hbytes _ _ _ _ T) as B. destruct (C92_slave h slave B S) as (name & P & Q). exists text, body, slave, recs, name. auto.
Qed.
Print Assumptions C92_document_partial.
(** The top bit of the manufacturer code is not shown but must be clear for a name to be found. *)
Theorem C92_top_bit_needs_rule :
  exists h1 h2 t1 t2, header_product h1 t1 /\ header_product h2 t2 /\ t1 <> t2 /\ firstn 5 h1 = firstn 5 h2 /\ skipn 6 h1 = skipn 6 h2 /\
  forall t, manufacturer_text (nth 4 h1 0 + 256 * nth 5 h1 0) t -> manufacturer_text (nth 4 h2 0 + 256 * nth 5 h2 0) t.
Proof.
  exists [0; 0; 0; 0; 0x42; 0x04; 0x02; 0x02], [0; 0; 0; 0; 0x42; 0x84; 0x02; 0x02], (cstr "ABB Delta-Meter"), [].
  split; [|split; [|split; [discriminate|split; [reflexivity|split; [reflexivity|intros t H; exact H]]]]].
  - do 8 eexists. exists []. split; [reflexivity|]. apply (C92_named (0x42 + 256 * 0x04) 2 2 0). unfold is_byte; lia.
  - do 8 eexists. exists []. split; [reflexivity|]. apply (C92_named (0x42 + 256 * 0x84) 2 2 0). unfold is_byte; lia.
Qed.
Print Assumptions C92_top_bit_needs_rule.
Example C92_nonvacuous :
  product_text (code_of "ELV") 0x1D 4 0x10 (cstr "Elvaco CMa10") /\ product_text (code_of "ELV") 0x1E 4 0x10 [] /\
  product_text (code_of "EFE") 0 4 0 (cstr "Engelmann / Elster SensoStar 2") /\ product_text (code_of "SEO") 0xFF 0xFF 0x61 (cstr "Sensoco THU").
Proof.
  split; [apply (C92_named (code_of "ELV") 0x1D 4 0x10)|split; [apply (C92_named (code_of "ELV") 0x1E 4 0x10)|split; [apply (C92_named (code_of "EFE") 0 4 0)|apply (C92_named (code_of "SEO") 0xFF 0xFF 0x61)]]]; unfold is_byte; lia.
Qed.

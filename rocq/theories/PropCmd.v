(** Theorems: command lines of the programs (C90). *)
From Coq Require Import String.
From Coq Require Import List.
From Verif Require Import CBase CStr PBase MText MXml MSecond MHex MCmd SText SSecond SXml PText PXml3 PSecond SCmd PCmd.
From Coq Require Import Lia ZifyBool.
Local Open Scope Z_scope.

(** ** Settings *)
Lemma chose_none k fs d : ~ In k (map kind_of fs) -> chose k fs d d.
Proof. intros H. right. auto. Qed.
Lemma chose_at k l s r d : ~ In k (map kind_of r) -> chose k (l ++ Value k s :: r) d (strtol10 s).
Proof. intros H. left. exists l, s, r. split; [reflexivity|]. split; [exact H|]. apply reads_strtol. Qed.
Ltac nin := cbn; intuition discriminate.
Ltac ch := first
  [ apply chose_none; nin
  | apply (chose_at _ []); nin
  | apply (chose_at _ [_]); nin
  | apply (chose_at _ [_; _]); nin ].
Ltac meaning := unfold means; cbn [o_debug o_norm o_baud o_retries o_frames o_target o_port o_addr o_num o_file g_flags g_target g_port g_addr g_num g_last
     set_debug set_norm set_baud set_retries set_frames set_target set_port set_addr set_num set_file set_shown opts0 tcp];
  repeat match goal with |- _ /\ _ => split end;
  first [ reflexivity | ch | (intros _; apply reads_strtol) | apply reads_strtol | (intros K; discriminate K) | (cbn; intuition discriminate) | idtac ].

(** ** Refusals *)
Lemma port_verdict p o k c : tcp p = true -> port_check o k = Ok c -> (~ bad_port p o -> k = Ok c -> verdict p o c) -> verdict p o c.
Proof.
  intros T H K. unfold port_check in H. destruct ((o_port o <? 0) || (o_port o >? 0xFFFF)) eqn:E.
  - injection H as <-. left. split; [split; [exact T|lia]|]. eexists. split; [apply decimal_fmt_d|reflexivity].
  - apply K; [|exact H]. unfold bad_port. lia.
Qed.
Lemma run_verdict p o : ~ bad_port p o -> ~ bad_address p o -> verdict p o (Run o).
Proof. unfold verdict. auto. Qed.
Lemma serial_port p o : tcp p = false -> ~ bad_port p o.
Proof. unfold bad_port. intros -> [K _]. discriminate. Qed.
Lemma mask_verdict p o c : p = SerialScanSecondary \/ p = TcpScanSecondary -> ~ bad_port p o -> mask_check o = Ok c -> verdict p o c.
Proof.
  intros P Hp H. unfold mask_check in H. assert (S := secondary_spec (o_addr o)). destruct (mbus_is_secondary_address (o_addr o)); cbn in H; injection H as <-.
  - apply run_verdict; [exact Hp|]. destruct P as [->| ->]; cbn; tauto.
  - right. left. split; [exact Hp|]. split; [destruct P as [->| ->]; cbn; intros K; apply S in K; discriminate|]. destruct P as [->| ->]; eexists; eexists; (split; [split; reflexivity|reflexivity]).
Qed.
Lemma second_verdict p o c : p = SerialSelect \/ p = TcpSelect -> ~ bad_port p o -> second_check o = Ok c -> verdict p o c.
Proof.
  intros P Hp H. unfold second_check in H. assert (S := secondary_spec (o_addr o)). destruct (mbus_is_secondary_address (o_addr o)); cbn in H; injection H as <-.
  - apply run_verdict; [exact Hp|]. destruct P as [->| ->]; cbn; tauto.
  - right. left. split; [exact Hp|]. split; [destruct P as [->| ->]; cbn; intros K; apply S in K; discriminate|]. destruct P as [->| ->]; eexists; eexists; (split; [split; reflexivity|reflexivity]).
Qed.

Lemma new_verdict o c :
  (if negb (mbus_is_primary_address (o_num o)) then Ok (Refused (-1) (cstr "Invalid new primary address" ++ nl))
   else if (o_num o =? 0xFD) || (o_num o =? 0xFE) || (o_num o =? 0xFF) then Ok (Refused (-1) (cstr "Invalid new primary address" ++ nl))
   else Ok (Run o)) = Ok c -> verdict SetAddress o c.
Proof.
  intros H. assert (Hp : ~ bad_port SetAddress o) by (apply serial_port; reflexivity). unfold mbus_is_primary_address in H.
  destruct ((0 <=? o_num o) && (o_num o <=? 255)) eqn:E1; cbn [negb] in H; [destruct ((o_num o =? 253) || (o_num o =? 254) || (o_num o =? 255)) eqn:E2|].
  - injection H as <-. right. left. split; [exact Hp|]. split; [cbn; lia|]. eexists. eexists. split; [split; reflexivity|reflexivity].
  - injection H as <-. apply run_verdict; [exact Hp|]. cbn. lia.
  - injection H as <-. right. left. split; [exact Hp|]. split; [cbn; lia|]. eexists. eexists. split; [split; reflexivity|reflexivity].
Qed.

(** ** The options of one program, listed *)
Lemma chosen_cases fs : forall ks, Forall well fs -> chosen ks (map kind_of fs) ->
  match ks with
  | [] => fs = []
  | k :: ks' => (chosen ks' (map kind_of fs)) \/ exists f fs', fs = f :: fs' /\ kind_of f = k /\ well f /\ Forall well fs' /\ chosen ks' (map kind_of fs')
  end.
Proof.
  intros [|k ks] W H.
  - inversion H as [E| |]. destruct fs; [reflexivity|discriminate].
  - inversion H as [|k0 ks0 l H1 E1 E2|k0 ks0 l H1 E1 E2]; subst.
    + right. destruct fs as [|f fs]; [discriminate|]. cbn in E2. injection E2 as E2 E3. inversion_clear W. exists f, fs. rewrite E3 in H1. auto.
    + left. exact H1.
Qed.
Ltac flags W H :=
  apply (chosen_cases _ _ W) in H; cbn iota in H;
  lazymatch type of H with
  | _ = [] => subst
  | _ \/ _ =>
      let f := fresh "f" in let fs' := fresh "fs" in let K := fresh "K" in let V := fresh "V" in let W' := fresh "W" in let H' := fresh "H" in
      destruct H as [H|(f & fs' & -> & K & V & W' & H')];
      [ flags W H | destruct f; cbn in K; subst; try discriminate V; clear V W; flags W' H' ]
  end.

Lemma is_letter : forall s, is s "-d" = false <-> s <> letter D.
Proof. intros s. destruct (is s "-d") eqn:E; split; try congruence. - apply is_eq in E. intros K. contradiction. - intros _ K. assert (is s "-d" = true) by (apply is_eq; exact K). congruence. Qed.
Ltac num H := repeat match type of H with
  | context[atol ?s] => let v := fresh "v" in let E := fresh "E" in destruct (atol s) as [v|] eqn:E; [cbn [bind] in H; apply atol_ok in E; subst v|discriminate H]
  | context[atoi ?s] => let v := fresh "v" in let E := fresh "E" in destruct (atoi s) as [v|] eqn:E; [cbn [bind] in H; apply atoi_ok in E; subst v|discriminate H]
  end.
Ltac isl H := repeat match type of H with context[is (letter ?k) ?t] => let b := eval vm_compute in (is (letter k) t) in change (is (letter k) t) with b in H end;
  cbn [andb bind orb] in H; cbn iota in H.
Ltac open_line H := unfold line in H; cbn [g_flags flat_map flag_text app places g_target g_port g_addr g_num g_last opt_list] in H.

Lemma single_taken p name g c : allowed p (g_flags g) -> clear_target p g -> p <> SerialMulti -> p <> TcpMulti ->
  command p name (line p g) = Ok c -> taken p g c.
Proof.
  intros [W A] T P1 P2 H. destruct g as [fs tg pt ad nm la]. cbn [g_flags] in *.
  assert (T' : la <> None -> fs = [] -> In D (documented p) -> is tg "-d" = false).
  { intros K1 K2 K3. apply is_letter. exact (T K1 K2 K3). }
  clear T.
  destruct p; try contradiction; cbn [documented] in A; flags W A; open_line H; cbn [command] in H;
  unfold serial_scan_args, tcp_scan_args, serial_scan_secondary_args, tcp_scan_secondary_args, serial_request_args, tcp_request_args,
    set_address_args, switch_baudrate_args, application_reset_args, raw_send_args, serial_select_args, tcp_select_args, parse_args in H;
  try (destruct la as [m|]; cbn [opt_list] in H);
  try (assert (T1 := T' ltac:(discriminate) eq_refl (or_introl eq_refl)));
  isl H; try (rewrite T1 in H; cbn iota in H); num H; isl H.
  all: try (match type of H with Ok (Run ?o) = _ => injection H as <-; exists o; split; [solve [meaning]|apply run_verdict; [apply serial_port; reflexivity|cbn; tauto]] end).
  all: try (match type of H with port_check ?o _ = _ => exists o; split; [solve [meaning]|]; refine (port_verdict _ _ _ _ _ H _); [reflexivity|]; intros Hp K end).
  all: try (match goal with K : Ok (Run ?o) = _ |- verdict _ _ _ => injection K as <-; apply run_verdict; [exact Hp|cbn; tauto] end).
  all: try (match type of H with mask_check ?o = _ => exists o; split; [solve [meaning]|]; refine (mask_verdict _ _ _ _ _ H); [auto|apply serial_port; reflexivity] end).
  all: try (match type of H with second_check ?o = _ => exists o; split; [solve [meaning]|]; refine (second_verdict _ _ _ _ _ H); [auto|apply serial_port; reflexivity] end).
  all: try (refine (mask_verdict _ _ _ _ Hp K); auto).
  all: try (refine (second_verdict _ _ _ _ Hp K); auto).
  all: try (match type of H with (if negb (mbus_is_primary_address (o_num ?o)) then _ else _) = _ => exists o; split; [solve [meaning]|]; apply (new_verdict o); exact H end).
Qed.

(** ** The programs for several telegrams *)
Definition apply_flag (o : opts) (f : flag) : opts :=
  match f with
  | Switch D => set_debug o | Value B s => set_baud (strtol10 s) o | Value F s => set_frames (strtol10 s) o | _ => o
  end.
Definition multi_kinds (serial : bool) : list kind := if serial then [D; B; F] else [D; F].
Ltac known t := match goal with |- context[is (letter ?k) ?t] => let b := eval vm_compute in (is (letter k) t) in change (is (letter k) t) with b end.
Ltac isg := repeat known 0; cbn [andb orb bind]; cbn iota.
Lemma long {A} (a : A) l (pl : list A) k : List.length pl = k -> (List.length (a :: l ++ pl) <=? k)%nat = false.
Proof. intros H. apply Nat.leb_gt. cbn. rewrite app_length. lia. Qed.
Lemma multi_step serial k a l o : (List.length (a :: l) <=? k)%nat = false ->
  multi_loop serial k (a :: l) o =
      if is a "-d" then multi_loop serial k l (set_debug o)
      else if serial && is a "-b" then match l with [] => UB | n :: l => let* v := atol n in multi_loop serial k l (set_baud v o) end
      else if is a "-f" then match l with [] => UB | n :: l => let* v := atoi n in multi_loop serial k l (set_frames v o) end
      else Ok None.
Proof. intros H. cbn [multi_loop]. rewrite H. reflexivity. Qed.
Lemma multi_end serial k l o : (List.length l <=? k)%nat = true -> multi_loop serial k l o = Ok (Some (l, o)).
Proof. intros H. destruct l; cbn [multi_loop]; [reflexivity|rewrite H; reflexivity]. Qed.
Lemma multi_runs serial k pl : List.length pl = k -> forall fs o, Forall well fs -> Forall (fun f => In (kind_of f) (multi_kinds serial)) fs ->
  multi_loop serial k (flat_map flag_text fs ++ pl) o = Ok (Some (pl, fold_left apply_flag fs o)) \/
  multi_loop serial k (flat_map flag_text fs ++ pl) o = UB /\ exists kd s, In (Value kd s) fs /\ ~ fits s.
Proof.
  intros Hk. induction fs as [|f fs IH]; intros o W I.
  - left. apply multi_end. cbn [app]. apply Nat.leb_le. cbn. lia.
  - inversion W as [|? ? W1 W2]; subst. inversion I as [|? ? I1 I2]; subst. cbn [flat_map fold_left].
    assert (L : forall o', multi_loop serial (List.length pl) (flat_map flag_text fs ++ pl) o' = Ok (Some (pl, fold_left apply_flag fs o')) \/
      multi_loop serial (List.length pl) (flat_map flag_text fs ++ pl) o' = UB /\ exists kd s, In (Value kd s) (f :: fs) /\ ~ fits s).
    { intros o'. destruct (IH o' W2 I2) as [H|(H & kd & s & Hi & Hf)]; [left; exact H|right]. split; [exact H|]. exists kd, s. split; [right; exact Hi|exact Hf]. }
    destruct f as [kd|kd s]; cbn [flag_text app]; rewrite multi_step by (apply long with (l := _ :: _) || apply long; reflexivity).
    + assert (kd = D) as -> by (cbn in W1, I1; destruct serial, kd; cbn in I1; try discriminate W1; intuition congruence). isg. apply L.
    + assert (serial = true /\ kd = B \/ kd = F) as [[-> ->]| ->] by (cbn in W1, I1; destruct serial, kd; cbn in I1; try discriminate W1; intuition congruence).
      * isg. destruct (atol s) as [v|] eqn:E; cbn [bind].
        -- apply atol_ok in E. subst v. apply L.
        -- right. split; [reflexivity|]. exists B, s. split; [left; reflexivity|apply atol_bad; exact E].
      * isg. rewrite andb_false_r. destruct (atoi s) as [v|] eqn:E; cbn [bind].
        -- apply atoi_ok in E. subst v. apply L.
        -- right. split; [reflexivity|]. exists F, s. split; [left; reflexivity|apply atoi_bad; exact E].
Qed.
Lemma multi_back serial k : (1 <= k)%nat -> forall n l o r, (List.length l <= n)%nat -> multi_loop serial k l o = r ->
  match r with
  | Ok (Some (pl, o')) => List.length pl = k -> exists fs, Forall well fs /\ Forall (fun f => In (kind_of f) (multi_kinds serial)) fs /\ l = flat_map flag_text fs ++ pl
  | Ok None => True
  | UB => exists s, In s l /\ ~ fits s
  end.
Proof.
  intros Hk1. induction n as [|n IH]; intros l o r Hn H.
  - destruct l; [|cbn in Hn; lia]. rewrite multi_end in H by reflexivity. subst r. intros _. exists []. repeat split; constructor.
  - destruct (List.length l <=? k)%nat eqn:E; [rewrite multi_end in H by exact E; subst r; intros _; exists []; repeat split; constructor|].
    destruct l as [|a l]; [cbn in E; discriminate|]. rewrite multi_step in H by exact E. cbn [List.length] in Hn.
    assert (G : forall f l' o', (List.length l' <= n)%nat -> well f -> In (kind_of f) (multi_kinds serial) -> a :: l = flag_text f ++ l' -> multi_loop serial k l' o' = r ->
      match r with
      | Ok (Some (pl, o')) => List.length pl = k -> exists fs, Forall well fs /\ Forall (fun f => In (kind_of f) (multi_kinds serial)) fs /\ a :: l = flat_map flag_text fs ++ pl
      | Ok None => True
      | UB => exists s, In s (a :: l) /\ ~ fits s
      end).
    { intros f l' o' Hl Wf If El Hr. assert (K := IH l' o' r Hl Hr). destruct r as [[[pl o2]|]|]; [|exact I|].
      - intros Hk. destruct (K Hk) as (fs & W & F & E2). exists (f :: fs). repeat split; try (apply Forall_cons; assumption). rewrite El, E2. cbn [flat_map]. rewrite app_assoc. reflexivity.
      - destruct K as (s & K1 & K2). exists s. split; [|exact K2]. rewrite El. apply in_or_app. right. exact K1. }
    destruct (is a "-d") eqn:Ed; [|destruct (serial && is a "-b") eqn:Eb; [|destruct (is a "-f") eqn:Ef]].
    + apply is_eq in Ed. subst a. apply (G (Switch D) l (set_debug o)); [lia|reflexivity|destruct serial; cbn; tauto|reflexivity|exact H].
    + apply andb_prop in Eb. destruct Eb as [-> Eb]. apply is_eq in Eb. subst a. destruct l as [|s l].
      * apply Nat.leb_gt in E. cbn in E. lia.
      * destruct (atol s) as [v|] eqn:Ev; cbn [bind] in H.
        -- apply (G (Value B s) l (set_baud v o)); [cbn in Hn; lia|reflexivity|cbn; tauto|reflexivity|exact H].
        -- subst r. exists s. split; [right; left; reflexivity|apply atol_bad; exact Ev].
    + apply is_eq in Ef. subst a. destruct l as [|s l].
      * apply Nat.leb_gt in E. cbn in E. lia.
      * destruct (atoi s) as [v|] eqn:Ev; cbn [bind] in H.
        -- apply (G (Value F s) l (set_frames v o)); [cbn in Hn; lia|reflexivity|destruct serial; cbn; tauto|reflexivity|exact H].
        -- subst r. exists s. split; [right; left; reflexivity|apply atoi_bad; exact Ev].
    + subst r. exact I.
Qed.

(** The settings after the options. *)
Lemma chose_more k fs f d n : kind_of f <> k -> chose k fs d n -> chose k (fs ++ [f]) d n.
Proof.
  intros Hf [(l & s & r & -> & Hr & Hs)|[H ->]].
  - left. exists l, s, (r ++ [f]). split; [rewrite <- app_assoc; reflexivity|]. split; [|exact Hs]. rewrite map_app, in_app_iff. cbn. intuition.
  - right. split; [|reflexivity]. rewrite map_app, in_app_iff. cbn. intuition.
Qed.
Lemma applied : forall fs, Forall well fs -> forall o, o = fold_left apply_flag fs opts0 ->
  (o_debug o = true <-> In D (map kind_of fs)) /\ o_norm o = false /\ chose B fs 9600 (o_baud o) /\ o_retries o = 0 /\ chose F fs 16 (o_frames o).
Proof.
  intros fs. induction fs as [|f fs IH] using rev_ind; intros W o ->.
  - cbn. repeat split; try (apply chose_none; cbn; tauto); try (intros; discriminate); tauto.
  - apply Forall_app in W. destruct W as [W Wf]. inversion_clear Wf as [|? ? V _]. rewrite fold_left_app. cbn [fold_left].
    destruct (IH W _ eq_refl) as (H1 & H2 & H3 & H4 & H5). set (o := fold_left apply_flag fs opts0) in *.
    assert (M : map kind_of (fs ++ [f]) = map kind_of fs ++ [kind_of f]) by apply map_app. rewrite M, in_app_iff.
    destruct f as [k|k s]; destruct k; try discriminate V; cbn [apply_flag set_debug set_baud set_frames o_debug o_norm o_baud o_retries o_frames kind_of] in *;
      (split; [cbn; intuition congruence|]; split; [exact H2|]; split; [first [apply chose_at; cbn; tauto|apply chose_more; [discriminate|exact H3]]|]; split; [exact H4|]; first [apply chose_at; cbn; tauto|apply chose_more; [discriminate|exact H5]]).
Qed.
Lemma norm_absent serial fs : Forall (fun f => In (kind_of f) (multi_kinds serial)) fs -> ~ In N (map kind_of fs) /\ ~ In R (map kind_of fs).
Proof.
  intros H. rewrite Forall_forall in H. split; intros K; apply in_map_iff in K; destruct K as (f & E & K); apply H in K; rewrite E in K; destruct serial; cbn in K; intuition discriminate.
Qed.
Lemma multi_taken p name g c : p = SerialMulti \/ p = TcpMulti -> allowed p (g_flags g) -> command p name (line p g) = Ok c -> taken p g c.
Proof.
  intros P A H. destruct g as [fs tg pt ad nm la]. destruct P as [-> | ->]; destruct A as [W A]; cbn [g_flags documented] in *; cbn [command] in H.
  - unfold serial_multi_args, line in H. cbn [places g_flags g_target g_addr] in H.
    destruct (multi_runs true 2 [tg; ad] eq_refl fs opts0 W A) as [E|[E _]]; rewrite E in H; cbn [bind] in H; [|discriminate].
    injection H as <-. destruct (applied fs W _ eq_refl) as (H1 & H2 & H3 & H4 & H5). destruct (norm_absent true fs A) as [N1 N2].
    eexists. split; [|apply run_verdict; [apply serial_port; reflexivity|cbn; tauto]]. unfold means. cbn [g_flags g_target g_port g_addr tcp set_target set_addr o_debug o_norm o_baud o_retries o_frames o_target o_addr].
    split; [exact H1|]. split; [rewrite H2; intuition discriminate|]. split; [exact H3|]. split; [rewrite H4; apply chose_none; exact N2|]. split; [exact H5|]. split; [reflexivity|]. split; [discriminate|reflexivity].
  - unfold tcp_multi_args, line in H. cbn [places g_flags g_target g_port g_addr] in H.
    destruct (multi_runs false 3 [tg; pt; ad] eq_refl fs opts0 W A) as [E|[E _]]; rewrite E in H; cbn [bind] in H; [|discriminate].
    destruct (applied fs W _ eq_refl) as (H1 & H2 & H3 & H4 & H5). destruct (norm_absent false fs A) as [N1 N2]. num H.
    match type of H with port_check ?o _ = _ => exists o end. split; [|refine (port_verdict _ _ _ _ _ H _); [reflexivity|]; intros Hp K; injection K as <-; apply run_verdict; [exact Hp|cbn; tauto]].
    unfold means. cbn [g_flags g_target g_port g_addr tcp set_target set_port set_addr o_debug o_norm o_baud o_retries o_frames o_target o_addr o_port].
    split; [exact H1|]. split; [rewrite H2; intuition discriminate|]. split; [exact H3|]. split; [rewrite H4; apply chose_none; exact N2|]. split; [exact H5|]. split; [reflexivity|]. split; [intros _; apply reads_strtol|reflexivity].
Qed.

(** ** Every command line *)
Lemma use_shown p name code text more c : usage code name text more = Ok c ->
  cstr text = flat_map (fun k => cstr (option_text k)) (documented p) ++ cstr (place_text p) ->
  code = match p with SerialMulti | TcpMulti | ParseHex | ParseBinary => 1 | _ => 0 end ->
  more = flat_map (fun l => indent p ++ l ++ [10]) (map help_text (explained p) ++ map cstr (place_help p)) -> usage_shown p name c.
Proof. intros H E1 E2 E3. unfold usage in H. injection H as <-. unfold usage_shown. rewrite E1, E2, E3, <- !app_assoc. reflexivity. Qed.
(** A line -d x n device mask where -b is expected. *)
Definition unchecked (p : prog) (args : list (list Z)) (x n t m : list Z) : Prop :=
  p = SerialScanSecondary /\ args = [letter D; x; n; t; m] /\ x <> letter B.
Definition sorted_out (p : prog) (name : list Z) (args : list (list Z)) (r : res cmd) : Prop :=
  match r with
  | UB => exists s, In s args /\ ~ fits s
  | Ok c => usage_shown p name c \/ (exists g, allowed p (g_flags g) /\ clear_target p g /\ args = line p g) \/ (exists x n t m, unchecked p args x n t m)
  end.
Ltac split_flags l k :=
  lazymatch l with
  | cstr "-d" :: ?r => split_flags r ltac:(fun fs pl => k (Switch D :: fs) pl)
  | cstr "-n" :: ?r => split_flags r ltac:(fun fs pl => k (Switch N :: fs) pl)
  | cstr "-b" :: ?n :: ?r => split_flags r ltac:(fun fs pl => k (Value B n :: fs) pl)
  | cstr "-r" :: ?n :: ?r => split_flags r ltac:(fun fs pl => k (Value R n :: fs) pl)
  | _ => k (@nil flag) l
  end.
Ltac place p fs pl :=
  lazymatch p with
  | SerialScan => lazymatch pl with [?t] => exists (mkG fs t [] [] [] None) end
  | ParseHex => lazymatch pl with [?t] => exists (mkG fs t [] [] [] None) end
  | ParseBinary => lazymatch pl with [?t] => exists (mkG fs t [] [] [] None) end
  | TcpScan => lazymatch pl with [?t; ?q] => exists (mkG fs t q [] [] None) end
  | SerialScanSecondary => lazymatch pl with [?t] => exists (mkG fs t [] [] [] None) | [?t; ?m] => exists (mkG fs t [] [] [] (Some m)) end
  | TcpScanSecondary => lazymatch pl with [?t; ?q] => exists (mkG fs t q [] [] None) | [?t; ?q; ?m] => exists (mkG fs t q [] [] (Some m)) end
  | SerialRequest => lazymatch pl with [?t; ?a] => exists (mkG fs t [] a [] None) end
  | SerialSelect => lazymatch pl with [?t; ?a] => exists (mkG fs t [] a [] None) end
  | TcpRequest => lazymatch pl with [?t; ?q; ?a] => exists (mkG fs t q a [] None) end
  | TcpSelect => lazymatch pl with [?t; ?q; ?a] => exists (mkG fs t q a [] None) end
  | SetAddress => lazymatch pl with [?t; ?a; ?n] => exists (mkG fs t [] a n None) end
  | SwitchBaudrate => lazymatch pl with [?t; ?a; ?n] => exists (mkG fs t [] a n None) end
  | _ => lazymatch pl with [?t; ?q; ?a] => exists (mkG fs t q a [] None) | [?t; ?q; ?a; ?m] => exists (mkG fs t q a [] (Some m)) end
  end.
Ltac sides :=
  split; [split; [repeat (apply Forall_cons || apply Forall_nil); reflexivity|cbn; repeat (apply c_take || apply c_skip || apply c_nil)]|
    split; [unfold clear_target; cbn [g_last g_flags g_target map kind_of];
            first [ (intros K; exfalso; apply K; reflexivity) | (intros _ K; discriminate K) | (intros _ _ K; destruct K; fail) | (intros _ _ _; apply is_letter; assumption) ]
           |reflexivity]].
Lemma sorted p name args r : r <> UB -> (exists g, allowed p (g_flags g) /\ clear_target p g /\ args = line p g) \/ (exists x n t m, unchecked p args x n t m) ->
  sorted_out p name args r.
Proof. destruct r; [right; assumption|contradiction]. Qed.
Lemma cases p name args : p <> SerialMulti -> p <> TcpMulti -> sorted_out p name args (command p name args).
Proof.
  intros P1 P2.
  assert (Z7 : (List.length args <= 6 \/ 7 <= List.length args)%nat) by lia.
  destruct p; try contradiction; cbn [command];
  unfold serial_scan_args, tcp_scan_args, serial_scan_secondary_args, tcp_scan_secondary_args, serial_request_args, tcp_request_args,
    set_address_args, switch_baudrate_args, application_reset_args, raw_send_args, serial_select_args, tcp_select_args, parse_args; clear P1 P2 Z7.
  all: cbv zeta.
  all: destruct args as [|a1 [|a2 [|a3 [|a4 [|a5 [|a6 [|a7 args]]]]]]]; cbn iota.
  all: repeat match goal with |- context[is ?s ?t] => destruct (is s t) eqn:?; cbn [andb]; cbn iota end.
  all: repeat match goal with
    | |- context[atol ?s] => let E := fresh "E" in destruct (atol s) eqn:E; cbn [bind]; [clear E|exists s; split; [cbn; tauto|apply atol_bad; exact E]]
    | |- context[atoi ?s] => let E := fresh "E" in destruct (atoi s) eqn:E; cbn [bind]; [clear E|exists s; split; [cbn; tauto|apply atoi_bad; exact E]]
    end.
  all: cbn [bind]; cbn iota.
  all: try (match goal with |- sorted_out _ _ _ (usage ?c ?n ?t ?m) => unfold sorted_out; destruct (usage c n t m) eqn:?; [left; eapply use_shown; [eassumption|reflexivity|reflexivity|reflexivity]|discriminate] end).
  all: repeat match goal with E : is ?s ?t = true |- _ => apply is_eq in E; subst s end.
  all: try (match goal with E : is (cstr _) _ = true |- _ => discriminate E end).
  all: apply sorted; [clear; unfold port_check, mask_check, second_check; repeat match goal with |- context[if ?b then _ else _] => destruct b end; discriminate|].
  all: try (match goal with |- context[unchecked ?p ?l _ _ _ _] => left; split_flags l ltac:(fun fs pl => place p fs pl); sides end).
  all: match goal with |- context[unchecked ?p [cstr "-d"; ?x; ?n; ?t; ?m] _ _ _ _] => destruct (is x "-b") eqn:Ex end.
  - apply is_eq in Ex. subst. left. match goal with |- context[line ?p _] => match goal with |- context[_ = line _ _] => idtac end end.
    exists (mkG [Switch D; Value B a3] a4 [] [] [] (Some a5)). sides.
  - right. do 4 eexists. split; [reflexivity|]. split; [reflexivity|]. intros ->. discriminate.
Qed.

Lemma sorted_out_multi serial k p (name : list Z) args : (1 <= k)%nat -> multi_kinds serial = documented p -> p = SerialMulti \/ p = TcpMulti ->
  match multi_loop serial k args opts0 with
  | UB => exists s, In s args /\ ~ fits s
  | Ok (Some (pl, o)) => List.length pl = k -> exists fs, allowed p fs /\ args = flat_map flag_text fs ++ pl
  | Ok None => True
  end.
Proof.
  intros Hk Hd Hp. assert (H := multi_back serial k Hk _ args opts0 _ (le_n _) eq_refl). destruct (multi_loop serial k args opts0) as [[[pl o]|]|]; [|exact I|exact H].
  intros Hl. destruct (H Hl) as (fs & W & A & E). exists fs. split; [|exact E]. rewrite Hd in A. split; [exact W|]. destruct Hp as [-> | ->]; exact A.
Qed.
Lemma all_cases p name args : sorted_out p name args (command p name args).
Proof.
  assert (P : (p = SerialMulti \/ p = TcpMulti) \/ (p <> SerialMulti /\ p <> TcpMulti)) by (destruct p; (left; auto; fail) || (right; split; discriminate)).
  destruct P as [[-> | ->]|[P1 P2]]; [| |apply cases; assumption]; cbn [command]; unfold serial_multi_args, tcp_multi_args; cbv zeta.
  - assert (H := sorted_out_multi true 2 SerialMulti name args ltac:(lia) eq_refl (or_introl eq_refl)). destruct (multi_loop true 2 args opts0) as [[[pl o]|]|]; cbn [bind]; [| |exact H].
    + assert (U : sorted_out SerialMulti name args (usage 1 name "[-d] [-b BAUDRATE] [-f FRAMES] device mbus-address" (more_d ++ more_b ++ more_f))) by (left; eapply use_shown; reflexivity).
      destruct pl as [|x [|y [|z pl]]]; try exact U. destruct (H eq_refl) as (fs & A & E). right. left. exists (mkG fs x [] y [] None). split; [exact A|]. split; [intros K; exfalso; apply K; reflexivity|exact E].
    + left. eapply use_shown; reflexivity.
  - assert (H := sorted_out_multi false 3 TcpMulti name args ltac:(lia) eq_refl (or_intror eq_refl)). destruct (multi_loop false 3 args opts0) as [[[pl o]|]|]; cbn [bind]; [| |exact H].
    + assert (U : sorted_out TcpMulti name args (usage 1 name "[-d] [-f FRAMES] host port mbus-address" (more_d ++ more_f))) by (left; eapply use_shown; reflexivity).
      destruct pl as [|x [|y [|z [|w pl]]]]; try exact U. destruct (H eq_refl) as (fs & A & E). destruct (atol y) as [v|] eqn:Ev; cbn [bind].
      * unfold port_check. match goal with |- context[if ?b then _ else _] => destruct b end; right; left; exists (mkG fs x y z [] None); (split; [exact A|]; split; [intros K; exfalso; apply K; reflexivity|exact E]).
      * exists y. split; [|apply atol_bad; exact Ev]. rewrite E. apply in_or_app. right. cbn. tauto.
    + left. eapply use_shown; reflexivity.
Qed.
Lemma line_taken p name g c : documented_line p g -> command p name (line p g) = Ok c -> taken p g c.
Proof.
  intros [A T] H. assert (P : (p = SerialMulti \/ p = TcpMulti) \/ (p <> SerialMulti /\ p <> TcpMulti)) by (destruct p; (left; auto; fail) || (right; split; discriminate)).
  destruct P as [P|[P1 P2]]; [eapply multi_taken; eassumption|eapply single_taken; eassumption].
Qed.
Lemma line_defined p name g : documented_line p g -> numbers_fit p g -> command p name (line p g) <> UB.
Proof.
  intros [[W A] T] (F1 & F2 & F3). destruct g as [fs tg pt ad nm la]. cbn [g_flags g_port g_num g_addr g_last] in *.
  assert (T' : la <> None -> fs = [] -> In D (documented p) -> is tg "-d" = false) by (intros K1 K2 K3; apply is_letter; exact (T K1 K2 K3)). clear T.
  assert (P : (p = SerialMulti \/ p = TcpMulti) \/ (p <> SerialMulti /\ p <> TcpMulti)) by (destruct p; (left; auto; fail) || (right; split; discriminate)).
  destruct P as [[-> | ->]|[P1 P2]]; cbn [documented] in A.
  - cbn [command]. unfold serial_multi_args, line. cbn [places g_flags g_target g_addr].
    destruct (multi_runs true 2 [tg; ad] eq_refl fs opts0 W A) as [E|(E & k & s & Hi & Hf)]; [rewrite E; discriminate|]. exfalso. apply Hf. eapply F1. exact Hi.
  - cbn [command]. unfold tcp_multi_args, line. cbn [places g_flags g_target g_port g_addr].
    destruct (multi_runs false 3 [tg; pt; ad] eq_refl fs opts0 W A) as [E|(E & k & s & Hi & Hf)]; [|exfalso; apply Hf; eapply F1; exact Hi].
    rewrite E. cbn [bind]. rewrite fits_atol by (apply F2; reflexivity). cbn [bind]. unfold port_check. destruct (_ || _); discriminate.
  - intros H. revert F1 F2 F3.
    destruct p; try contradiction; cbn [documented] in A; flags W A; open_line H; cbn [command] in H;
    unfold serial_scan_args, tcp_scan_args, serial_scan_secondary_args, tcp_scan_secondary_args, serial_request_args, tcp_request_args,
      set_address_args, switch_baudrate_args, application_reset_args, raw_send_args, serial_select_args, tcp_select_args, parse_args in H;
    try (destruct la as [m|]; cbn [opt_list] in H);
    try (assert (T1 := T' ltac:(discriminate) eq_refl (or_introl eq_refl)));
    isl H; try (rewrite T1 in H; cbn iota in H); intros F1 F2 F3.
    all: repeat (match type of H with
      | context[atol ?s] => rewrite (fits_atol s) in H by (first [apply F2; reflexivity | exact F3 | apply F3; reflexivity | destruct F3; assumption | eapply F1; left; reflexivity | eapply F1; right; left; reflexivity | eapply F1; right; right; left; reflexivity])
      | context[atoi ?s] => rewrite (fits_atoi s) in H by (first [apply F2; reflexivity | exact F3 | apply F3; reflexivity | destruct F3; assumption | eapply F1; left; reflexivity | eapply F1; right; left; reflexivity | eapply F1; right; right; left; reflexivity])
      end; cbn [bind] in H; cbn iota in H).
    all: clear - H; unfold port_check, mask_check, second_check, usage in H; cbn [bind] in H; cbn iota in H; repeat match type of H with context[if ?b then _ else _] => destruct b end; discriminate H.
Qed.

(** ** C90 *)
(** A documented command line is read as documented. *)
Theorem C90_documented : forall p name g, documented_line p g -> numbers_fit p g ->
  exists c, command p name (line p g) = Ok c /\ taken p g c.
Proof.
  intros p name g D F. destruct (command p name (line p g)) as [c|] eqn:E; [|exfalso; exact (line_defined p name g D F E)].
  exists c. split; [reflexivity|]. exact (line_taken p name g c D E).
Qed.
(** Anything else gets the usage message. *)
Theorem C90_only : forall p name args c, p <> SerialScanSecondary -> command p name args = Ok c ->
  usage_shown p name c \/ exists g, documented_line p g /\ args = line p g /\ taken p g c.
Proof.
  intros p name args c P H. assert (K := all_cases p name args). rewrite H in K. destruct K as [K|[(g & A & T & E)|(x & n & t & m & K & _)]]; [left; exact K| |contradiction].
  right. exists g. split; [split; assumption|]. split; [exact E|]. subst args. eapply line_taken; [split; eassumption|exact H].
Qed.
Theorem C90_distinct : forall p name g c, taken p g c -> ~ usage_shown p name c.
Proof.
  intros p name g c (o & _ & V) E. unfold usage_shown in E. destruct V as [(_ & t & _ & K)|[(_ & _ & code' & t & C & K)|(_ & _ & K)]]; rewrite K in E; [discriminate| |discriminate].
  injection E as _ E. subst t. destruct p; destruct C as [_ C]; discriminate C.
Qed.
(** serial-scan-secondary takes any word for -b after -d. *)
Theorem C90_only_refuted : exists args name c, command SerialScanSecondary name args = Ok c /\ ~ usage_shown SerialScanSecondary name c /\
  ~ exists g, documented_line SerialScanSecondary g /\ args = line SerialScanSecondary g.
Proof.
  exists [cstr "-d"; cstr "-x"; cstr "300"; cstr "/dev/ttyS0"; all_mask], (cstr "scan"). eexists. split; [vm_compute; reflexivity|]. split.
  - intros E. unfold usage_shown in E. discriminate E.
  - intros ([fs tg pt ad nm la] & ([W A] & T) & E). cbn [documented g_flags g_last g_target] in *.
    flags W A; unfold line in E; cbn [g_flags flat_map flag_text app places g_target g_last] in E; destruct la; discriminate E.
Qed.
Theorem C90_only_partial : forall name args c, command SerialScanSecondary name args = Ok c ->
  usage_shown SerialScanSecondary name c \/ (exists g, documented_line SerialScanSecondary g /\ args = line SerialScanSecondary g /\ taken SerialScanSecondary g c) \/
  exists x n t m, args = [letter D; x; n; t; m] /\ x <> letter B /\ taken SerialScanSecondary (mkG [Switch D; Value B n] t [] [] [] (Some m)) c.
Proof.
  intros name args c H. assert (K := all_cases SerialScanSecondary name args). rewrite H in K. destruct K as [K|[(g & A & T & E)|(x & n & t & m & _ & E & X)]]; [left; exact K| |].
  - right. left. exists g. split; [split; assumption|]. split; [exact E|]. subst args. eapply line_taken; [split; eassumption|exact H].
  - right. right. exists x, n, t, m. split; [exact E|]. split; [exact X|]. subst args.
    apply (line_taken SerialScanSecondary name (mkG [Switch D; Value B n] t [] [] [] (Some m))).
    + split; [split; [repeat (apply Forall_cons || apply Forall_nil); reflexivity|cbn; repeat (apply c_take || apply c_skip || apply c_nil)]|]. intros _ K. discriminate K.
    + exact H.
Qed.
(** Numbers. *)
Theorem C90_number : forall s n m, reads s n -> reads s m -> n = m.
Proof. intros s n m H1 H2. apply reads_once in H1. apply reads_once in H2. congruence. Qed.
Theorem C90_decimal : forall s n, decimal n s -> reads s n.
Proof. intros s n H. apply reads_decimal. exact H. Qed.
(** A word is taken for the number 0: the slave gets the address 0. *)
Theorem C90_number_refuted : exists name g o, documented_line SetAddress g /\ ~ (exists n, decimal n (g_num g)) /\
  command SetAddress name (line SetAddress g) = Ok (Run o) /\ o_num o = 0.
Proof.
  exists (cstr "set"), (mkG [] (cstr "/dev/ttyS0") [] (cstr "5") (cstr "seven") None). eexists. split; [|split; [|split; [vm_compute; reflexivity|reflexivity]]].
  - split; [split; [constructor|cbn; repeat (apply c_take || apply c_skip || apply c_nil)]|]. intros K. exfalso. apply K. reflexivity.
  - intros (n & H & _). vm_compute in H. discriminate H.
Qed.
(** A number that fits no int is the only cause of undefined behaviour. *)
Theorem C90_defined : forall p name args, (forall s, In s args -> fits s) -> exists c, command p name args = Ok c.
Proof.
  intros p name args F. destruct (command p name args) as [c|] eqn:E; [exists c; reflexivity|]. exfalso. assert (K := all_cases p name args). rewrite E in K.
  destruct K as (s & K1 & K2). apply K2, F, K1.
Qed.
(** The select programs name the address asked for, except with -b. *)
Theorem C90_shown : forall name args o,
  (command TcpSelect name args = Ok (Run o) -> o_shown o = o_addr o) /\
  (forall g, command SerialSelect name (line SerialSelect g) = Ok (Run o) -> g_flags g = [] -> o_shown o = o_addr o).
Proof.
  intros name args o. split.
  - intros H. cbn [command] in H. unfold tcp_select_args in H. cbv zeta in H. destruct args as [|a [|b [|c [|d l]]]]; try discriminate H. num H.
    unfold port_check, second_check in H. destruct (_ || _) in H; [discriminate|]. destruct (negb _) in H; [discriminate|]. injection H as <-. reflexivity.
  - intros g H E. unfold line in H. rewrite E in H. cbn in H. unfold serial_select_args, second_check in H. destruct (negb _) in H; [discriminate|]. injection H as <-. reflexivity.
Qed.
Theorem C90_shown_refuted : exists name g o, documented_line SerialSelect g /\ command SerialSelect name (line SerialSelect g) = Ok (Run o) /\ o_shown o <> g_addr g.
Proof.
  exists (cstr "select"), (mkG [Value B (cstr "2400")] (cstr "/dev/ttyS0") [] all_mask [] None). eexists. split; [|split; [vm_compute; reflexivity|discriminate]].
  split; [split; [repeat (apply Forall_cons || apply Forall_nil); reflexivity|cbn; repeat (apply c_take || apply c_skip || apply c_nil)]|]. intros K. exfalso. apply K. reflexivity.
Qed.
(** The settings are determined by the line. *)
Lemma chose_once k fs d n m : chose k fs d n -> chose k fs d m -> n = m.
Proof.
  intros [(l & s & r & -> & Hr & Hs)|[H ->]] [(l' & s' & r' & E & Hr' & Hs')|[H' ->]].
  - assert (s = s'); [|subst; eapply C90_number; eassumption]. revert l' E. induction l as [|x l IH]; intros [|y l'] E; cbn in E.
    + congruence.
    + injection E as E1 E. exfalso. apply Hr. rewrite E, map_app. apply in_or_app. right. left. reflexivity.
    + injection E as E1 E. exfalso. apply Hr'. rewrite <- E, map_app. apply in_or_app. right. left. reflexivity.
    + injection E as E1 E. eapply IH. exact E.
  - exfalso. apply H'. rewrite map_app. apply in_or_app. right. left. reflexivity.
  - exfalso. apply H. rewrite E, map_app. apply in_or_app. right. left. reflexivity.
  - reflexivity.
Qed.
Lemma flags_same a b (P : Prop) : (a = true <-> P) -> (b = true <-> P) -> a = b.
Proof. destruct a, b; intuition congruence. Qed.
Theorem C90_settled : forall p g o o', means p g o -> means p g o' ->
  o_debug o = o_debug o' /\ o_norm o = o_norm o' /\ o_baud o = o_baud o' /\ o_retries o = o_retries o' /\ o_frames o = o_frames o' /\ o_target o = o_target o' /\
  (tcp p = true -> o_port o = o_port o') /\
  match p with
  | SerialScan | TcpScan | ParseHex | ParseBinary => True
  | SetAddress | SwitchBaudrate | ApplicationReset => o_addr o = o_addr o' /\ o_num o = o_num o'
  | RawSend => o_addr o = o_addr o' /\ o_file o = o_file o'
  | _ => o_addr o = o_addr o'
  end.
Proof.
  intros p g o o' (A1 & A2 & A3 & A4 & A5 & A6 & A7 & A8) (B1 & B2 & B3 & B4 & B5 & B6 & B7 & B8).
  split; [eapply flags_same; eassumption|]. split; [eapply flags_same; eassumption|]. split; [eapply chose_once; eassumption|]. split; [eapply chose_once; eassumption|].
  split; [eapply chose_once; eassumption|]. split; [congruence|]. split; [intros T; eapply C90_number; eauto|].
  destruct p; try exact I; try congruence; try (destruct A8, B8; split; [congruence|]; try (eapply C90_number; eassumption); try congruence).
  destruct (g_last g); [eapply C90_number; eassumption|congruence].
Qed.

(** ** Examples *)
Ltac lined := split; [split; [repeat (apply Forall_cons || apply Forall_nil); first [reflexivity|cbn; tauto]|cbn; first [solve [repeat (apply c_take || apply c_skip || apply c_nil)]|repeat (apply Forall_cons || apply Forall_nil); cbn; tauto]]|].
Definition several := mkG [Value F (cstr "3"); Switch D; Value B (cstr "300"); Value F (cstr "5")] (cstr "/dev/ttyS0") [] (cstr "1") [] None.
Example C90_nonvacuous : documented_line SerialMulti several /\ numbers_fit SerialMulti several /\
  exists o, command SerialMulti (cstr "multi") (line SerialMulti several) = Ok (Run o) /\ o_frames o = 5 /\ o_baud o = 300 /\ o_debug o = true.
Proof.
  assert (F : forall n s, decimal n s -> -100000 <= n <= 100000 -> fits s) by (intros n s Hd Hn; exists n; split; [apply C90_decimal; exact Hd|lia]).
  split; [lined; intros K; exfalso; apply K; reflexivity|]. split.
  - split; [|split; [discriminate|exact I]]. intros k s H. cbn in H. destruct H as [H|[H|[H|[H|[]]]]]; try discriminate H; injection H as <- <-.
    + apply (F 3); [exact (decimal_fmt_d 3)|lia].
    + apply (F 300); [exact (decimal_fmt_d 300)|lia].
    + apply (F 5); [exact (decimal_fmt_d 5)|lia].
  - eexists. split; [vm_compute; reflexivity|]. vm_compute. repeat split.
Qed.
Example C90_nonvacuous_port : exists g, documented_line TcpScan g /\ g_flags g <> [] /\
  command TcpScan (cstr "scan") (line TcpScan g) = Ok (Refused 1 (cstr "Invalid port: 70000" ++ [10])).
Proof.
  exists (mkG [Switch D; Value R (cstr "2")] (cstr "gateway") (cstr "70000") [] [] None). split; [lined; intros K; exfalso; apply K; reflexivity|]. split; [discriminate|vm_compute; reflexivity].
Qed.
Example C90_nonvacuous_address : exists g, documented_line SetAddress g /\
  command SetAddress (cstr "set") (line SetAddress g) = Ok (Refused (-1) (cstr "Invalid new primary address" ++ [10])).
Proof.
  exists (mkG [Value B (cstr "2400")] (cstr "/dev/ttyS0") [] (cstr "5") (cstr "253") None). split; [lined; intros K; exfalso; apply K; reflexivity|vm_compute; reflexivity].
Qed.
Example C90_nonvacuous_usage : exists c, command RawSend (cstr "raw") [cstr "-x"; cstr "host"; cstr "80"; cstr "5"; cstr "file"] = Ok c /\ usage_shown RawSend (cstr "raw") c.
Proof. eexists. split; [vm_compute; reflexivity|]. unfold usage_shown. vm_compute. reflexivity. Qed.
(** A number too large for an int makes the conversion undefined. *)
Example C90_needs_fit : command SetAddress (cstr "set") [cstr "/dev/ttyS0"; cstr "5"; cstr "4294967301"] = UB.
Proof. vm_compute. reflexivity. Qed.
Print Assumptions C90_documented.
Print Assumptions C90_only.
Print Assumptions C90_distinct.
Print Assumptions C90_only_refuted.
Print Assumptions C90_only_partial.
Print Assumptions C90_number.
Print Assumptions C90_decimal.
Print Assumptions C90_number_refuted.
Print Assumptions C90_defined.
Print Assumptions C90_shown.
Print Assumptions C90_shown_refuted.
Print Assumptions C90_settled.

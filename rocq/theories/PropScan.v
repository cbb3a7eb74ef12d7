(** Property C84: what a scan tells the program that started it, and the copies of the mask. *)
From Coq Require Import Permutation.
From Coq Require Import String.
From Coq Require Import List.
From Verif Require Import CBase PBase CStr MFrame MCodec MVar MText SVar SText SCodec PCodec SXml MXml SWire SFrame PFrame PFrame2 PVar3 PXml2 PXml4 MRecv SRecv PRecv PropFrame PropRecv MSecond SSecond PSecond MProto SProto PProto PProto2 PropProto PReq SReq PReq2 PropReq SBus PBus PBus2 PBus3 PropBus PAny.
From Verif Require Import MMem SMem PMem PMem2 MMemN SMemN PMemN MScan SScan PScan.
Local Open Scope Z_scope.

(** The scan from a position as the sequence of its probes. Whatever is on the line: before each probe scan_progress is called with its mask, and each
    slave found is told once, with the frame it answered with; copies of masks remain only where a probe failed. *)
Theorem C84_scan_partial :
  forall h B wret (react : B -> list Z -> B * list ev) c, hands_bytes react -> hears_slaves h -> 0 <= max_search_retry h ->
  forall pos mask w m r w' m' l, (pos < 16)%nat -> wf_mask mask -> ev_bytes (w_evs w) ->
  scan_w B wret react c (Some h) (Z.of_nat pos) mask (w, m) = Done (r, (w', m'), l) ->
  exists vs used leaked,
    (r = 0 \/ r = -1) /\ visits wret react h w vs w' /\ l = flat_map (calls_of c) vs /\
    Forall (fun v => finer pos mask (t_mask v)) vs /\ ordered pos mask vs /\
    (wildcard (nth 15 mask 0) -> NoDup (map t_mask vs)) /\
    attempts used m m' /\
    (~ In true used -> Forall (fun v => failed v = false) vs -> (forall mask', child pos mask mask' -> probed vs mask') /\ narrowed pos vs vs) /\
    (r = -1 -> In true used \/ exists v, In v vs /\ failed v = true) /\
    added leaked m m' /\ List.length leaked = List.length (filter failed vs).
Proof.
  intros h B wret react c RB mode retry pos mask w m r w' m' l Hp Hm Hb H. unfold scan_w in H. assert (L16 : List.length mask = 16%nat) by apply Hm. rewrite L16 in H. change (negb (16 =? 16)%nat) with false in H. cbv iota in H.
  replace ((Z.of_nat pos <? 0) || (Z.of_nat pos >=? 16)) with false in H by lia. rewrite Nat2Z.id in H.
  destruct (scan_walk B wret react c h RB mode retry (16 - pos)%nat mask w m r w' m' l m [] ltac:(lia) Hm Hb (added_refl m) H) as (R & vs & used & leak & K1 & K2 & K3 & K4 & K5 & K6 & K7).
  replace (16 - (16 - pos))%nat with pos in K4 by lia. destruct (K4 false ltac:(discriminate)) as [T _]. exists vs, used, leak. split; [exact R|]. split; [exact K1|]. split; [exact K3|].
  split; [exact (proj1 (tree_finer false) _ _ _ T L16)|]. split; [apply (proj1 (tree_ordered false pos) _ _ _ T L16 (le_n _)); intros; lia|].
  split; [intros W15; apply (proj1 (tree_nodup false) _ _ _ T L16); left; exact W15|]. split; [exact K5|]. split.
  - intros U F. destruct (proj1 (tree_complete pos) _ _ _ (proj1 (K4 true (fun _ => U))) L16 (le_n _) ltac:(intros; lia) F) as [A N]. split; [|exact N]. intros mask' C. destruct (A mask' C) as [[X _]|X]; [lia|exact X].
  - split; [intros E; destruct (in_dec bool_dec true used) as [I|I]; [left; exact I|right]; destruct (K4 true (fun _ => I)) as [_ X]; specialize (X E eq_refl);
      destruct (filter failed vs) as [|v q] eqn:F; [contradiction|]; exists v; apply filter_In; rewrite F; left; reflexivity|].
    rewrite app_nil_r in K6. split; [exact K6|]. lia.
Qed.
(** With enough memory the callbacks make no difference to the scan: result, traffic and reports are those of C45 and C71. *)
Theorem C84_same : forall h B wret (react : B -> list Z -> B * list ev) c pos mask w m, plenty m ->
  match scan_w B wret react c (Some h) pos mask (w, m) with
  | Done (r, (w', _), _) => mbus_scan_2nd_address_range B wret react (Some h) pos mask w = Done (r, w')
  | Undef => mbus_scan_2nd_address_range B wret react (Some h) pos mask w = Undef
  | Endless => mbus_scan_2nd_address_range B wret react (Some h) pos mask w = Endless
  end.
Proof.
  intros h B wret react c pos mask w m P. unfold scan_w, mbus_scan_2nd_address_range. destruct (negb _); [reflexivity|]. destruct (_ || _); [reflexivity|].
  destruct (alike_done B _ _ _ _ (scan_same B wret react c h (16 - Z.to_nat pos) mask w m m [] P (added_refl m))) as [(r & w2 & m2 & l2 & leak & E1 & E2 & _)|[[E1 E2]|[E1 E2]]]; rewrite E1; exact E2.
Qed.

(** On a bus of slaves as in C45, found_event is called once for each slave that matches the mask, with a frame that carries its address. *)
Definition found_frames (l : list call) : list frame := flat_map (fun k => match k with OnFound f => [f] | _ => [] end) l.
Definition presents (s : slave) (f : frame) : Prop := exists c a p, denotes f (Long c a 0x72 p) /\ firstn 8 p = sl_addr s.
Lemma visits_reports B wret (react : B -> list Z -> B * list ev) h w vs w' : visits wret react h w vs w' ->
  exists new, w_log w' = w_log w ++ new /\ reports new = map t_addr (filter (fun v => t_result v =? PROBE_SINGLE) vs) /\ Forall answered (filter (fun v => t_result v =? PROBE_SINGLE) vs).
Proof.
  intros H. induction H as [w|w v buf w1 vs w2 E L R A H IH]; [exists []; rewrite app_nil_r; split; [reflexivity|split; [reflexivity|constructor]]|].
  destruct IH as (new & L1 & R1 & A1). cbn [filter]. destruct (Z.eqb_spec (t_result v) PROBE_SINGLE) as [E1|E1].
  - exists (t_traffic v ++ Found (t_addr v) :: new). split; [rewrite L1; cbn [log w_log]; rewrite L, <- !app_assoc; reflexivity|]. unfold reports in *. rewrite flat_map_app, R. cbn [flat_map app map]. rewrite R1. split; [reflexivity|constructor; auto].
  - exists (t_traffic v ++ new). split; [rewrite L1, L, <- app_assoc; reflexivity|]. unfold reports in *. rewrite flat_map_app, R. cbn [app]. auto.
Qed.
Lemma visits_frames c vs : found_event c = true -> Forall answered (filter (fun v => t_result v =? PROBE_SINGLE) vs) ->
  Forall2 (fun v f => t_frame v = Some f) (filter (fun v => t_result v =? PROBE_SINGLE) vs) (found_frames (flat_map (calls_of c) vs)).
Proof.
  intros Hf. induction vs as [|v vs IH]; intros A; cbn [filter flat_map] in *; [constructor|]. unfold found_frames in *. rewrite flat_map_app. unfold calls_of at 1. rewrite flat_map_app, Hf.
  replace (flat_map _ (if scan_progress c then [OnProgress (t_mask v)] else [])) with (@nil frame) by (destruct (scan_progress c); reflexivity). cbn [app].
  destruct (t_result v =? PROBE_SINGLE); [|cbn [flat_map app]; apply IH; exact A]. inversion_clear A as [|? ? A1 A2]. destruct A1 as (f & c0 & a0 & p0 & E & _). rewrite E. cbn [flat_map app]. constructor; [exact E|apply IH; exact A2].
Qed.
Lemma Forall_firstn' {A} (P : A -> Prop) n l : Forall P l -> Forall P (firstn n l).
Proof. rewrite !Forall_forall. intros H x I. apply H. revert I. rewrite <- (firstn_skipn n l) at 2. rewrite in_app_iff. auto. Qed.
Theorem C84_ideal :
  forall h slaves B wret (react : B -> list Z -> B * list ev) selected c, bus_of h slaves B wret react selected -> hands_bytes react -> hears_slaves h ->
  0 <= max_search_retry h -> found_event c = true ->
  forall mask m w mem0, wf_mask mask -> bytes m -> address_text m mask -> w_evs w = [] ->
  (exists q, (q < 8)%nat /\ wildcard (nth q mask 0)) ->
  Forall decimal_id (matching m slaves) -> NoDup (map (fun s => firstn 4 (sl_addr s)) (matching m slaves)) ->
  plenty mem0 ->
  exists w' mem1 l found, scan_w B wret react c (Some h) 0 mask (w, mem0) = Done (0, (w', mem1), l) /\
    Permutation found (matching m slaves) /\ Forall2 presents found (found_frames l).
Proof.
  intros h slaves B wret react selected c bus RB mode retry Hf mask m w mem0 Hm Hb A Hw Wq Hd Nd P. pose proof (bus_slaves _ _ _ _ _ _ bus) as Sl.
  destruct (C45_scan_partial h slaves B wret react selected bus mode retry mask m w Hm Hb A Hw Wq Hd Nd) as (w1 & new & found & E & _ & L & N & Pm & _).
  pose proof (C84_same h B wret react c 0 mask w mem0 P) as S0. destruct (scan_w B wret react c (Some h) 0 mask (w, mem0)) as [[[r [w' mem1]] l]| |] eqn:E1; [|rewrite S0 in E; discriminate..].
  rewrite S0 in E. injection E as -> ->. exists w1, mem1, l, found. split; [reflexivity|]. split; [exact Pm|].
  destruct (C84_scan_partial h B wret react c RB mode retry 0 mask w mem0 0 w1 mem1 l ltac:(lia) Hm ltac:(rewrite Hw; constructor) E1) as (vs & used & leaked & _ & V & -> & _).
  destruct (visits_reports _ _ _ _ _ _ _ V) as (new' & L' & R' & An). rewrite L in L'. apply app_inv_head in L'. subst new'. rewrite R' in N.
  pose proof (visits_frames c vs Hf An) as F2. set (fs := filter _ vs) in *. clearbody fs. revert N F2 An. generalize (found_frames (flat_map (calls_of c) vs)). clear - Sl Pm. intros frames.
  assert (I : forall s, In s found -> wf_slave s). { intros s I. rewrite Forall_forall in Sl. apply Sl. apply (Permutation_in _ Pm) in I. unfold matching in I. apply filter_In in I. apply I. }
  clear Sl Pm. revert fs frames. induction found as [|s found IH]; intros fs frames N F An; inversion N; subst; [match goal with X : [] = map _ fs |- _ => destruct fs; [|discriminate X] end; inversion F; constructor|].
  destruct fs as [|v fs]; [discriminate|]. match goal with X : _ :: _ = map _ _ |- _ => cbn in X; injection X as -> -> end. inversion F as [|? f ? frames' Ef F']; subst. inversion An as [|? ? A1 A2]; subst. constructor.
  - destruct A1 as (f' & c0 & a0 & p0 & E & D & V & _ & At). rewrite Ef in E. injection E as <-. exists c0, a0, p0. split; [exact D|]. match goal with X : names s _ |- _ => destruct X as [Hx As] end.
    destruct (I s (or_introl eq_refl)) as (Vs & _). apply address_text_bytes in As; [|exact Hx|]. 1: apply address_text_bytes in At; [|exact Hx|]. 1: congruence.
    + destruct V as (_ & _ & _ & V & _). apply Forall_firstn'. revert V. apply Forall_impl. unfold byte_range, is_byte. intros; lia.
    + unfold sl_telegram in Vs. destruct Vs as (_ & _ & _ & Vs & _). unfold sl_addr. apply Forall_firstn'. apply Forall_app in Vs as [Vs _]. revert Vs. apply Forall_impl. unfold byte_range, is_byte. intros; lia.
  - apply IH with (fs := fs); auto. intros x Ix. apply I. right. exact Ix.
Qed.

(** C84: which functions are called: over any sequence of registrations (true: progress function; the flag: a function,
    not NULL), the last registration of each kind counts; the two do not disturb each other. *)
Definition last_set (kind : bool) (rs : list (bool * bool)) : bool := last (map snd (filter (fun r : bool * bool => Bool.eqb (fst r) kind) rs)) false.
Definition register_watch (rs : list (bool * bool)) : watcher :=
  fold_left (fun m (r : bool * bool) => if fst r then mbus_register_scan_progress m (snd r) else mbus_register_found_event m (snd r)) rs (mkWatch false false).
Theorem C84_registration :
  forall rs, scan_progress (register_watch rs) = last_set true rs /\ found_event (register_watch rs) = last_set false rs.
Proof.
  intros rs. induction rs as [|[k b] rs [IH1 IH2]] using rev_ind; [split; reflexivity|].
  unfold register_watch in *. rewrite fold_left_app. cbn [fold_left fst snd]. unfold last_set in *. rewrite !filter_app, !map_app.
  destruct k; cbn [filter fst snd Bool.eqb map]; rewrite ?app_nil_r, ?last_last; unfold mbus_register_scan_progress, mbus_register_found_event; cbn [scan_progress found_event]; auto.
Qed.
Print Assumptions C84_registration.

(** ** Examples *)
Definition BOTH : watcher := mbus_register_found_event (mbus_register_scan_progress (mkWatch false false) true) true.
Definition empty : mem := mkM [] [].
(** What the calls of a scan of the ideal bus look like: masks announced, and the addresses in the frames handed over. *)
Definition announced (l : list call) : list (list Z) := flat_map (fun k => match k with OnProgress m => [m] | _ => [] end) l.
Definition lines (l : list call) : list (list Z * list Z) := flat_map (fun k => match k with Printed a m => [(a, m)] | _ => [] end) l.
Definition watched (c : watcher) (slaves : list slave) (mask : string) (m : mem) : option (Z * list call * mem) :=
  match scan_w _ (fun _ n => n) (ideal_react slaves) c (Some mbus_context_serial) 0 (chars mask) (idle, m) with
  | Done (r, (_, m'), l) => Some (r, l, m')
  | _ => None
  end.
Definition looks (x : option (Z * list call * mem)) : option (Z * nat * list (list Z) * list (list Z * list Z) * nat) :=
  match x with
  | Some (r, l, m) => Some (r, List.length (announced l), map (fun f => firstn 8 (fdata f)) (found_frames l), lines l, List.length (filter (fun x => match x with Some _ => true | None => false end) (m_cells m)))
  | None => None
  end.
(** 80 masks are announced, three slaves told with their frames; or, without found_event, three lines are printed. Nothing is kept. *)
Example C84_example : looks (watched BOTH ex_slaves "FFFFFFFFFFFFFFFF" empty) = Some (0, 80%nat,
    [[0x01; 0x00; 0x00; 0x00; 0x61; 0x15; 2; 7]; [0x78; 0x56; 0x34; 0x12; 0x24; 0x40; 1; 7]; [0x79; 0x56; 0x34; 0x12; 0x24; 0x40; 1; 7]], [], 0%nat) /\
  looks (watched (mkWatch false false) ex_slaves "FFFFFFFFFFFFFFFF" empty) = Some (0, 0%nat, [],
    [(chars "0000000161150207", chars "0FFFFFFFFFFFFFFF"); (chars "1234567824400107", chars "12345678FFFFFFFF"); (chars "1234567924400107", chars "12345679FFFFFFFF")], 0%nat).
Proof. split; vm_compute; reflexivity. Qed.
(** There are such buses for which C84_ideal holds: the ideal bus, with a flag for each slave that tells whether it is selected. *)
Definition picks (slaves : list slave) (b : list bool) : list slave := map snd (filter fst (combine b slaves)).
Definition flag_react (slaves : list slave) (b : list bool) (l : list Z) : list bool * list ev :=
  (if nth 0 l 0 =? 0x68 then map (matches (firstn 8 (skipn 7 l))) slaves else b, snd (ideal_react slaves (picks slaves b) l)).
Lemma picks_matching p slaves : picks slaves (map (matches p) slaves) = matching p slaves.
Proof. unfold picks, matching. induction slaves as [|s l IH]; [reflexivity|]. cbn [map combine filter fst]. destruct (matches p s); cbn [map snd]; rewrite IH; reflexivity. Qed.
Lemma flag_state slaves b l : picks slaves (fst (flag_react slaves b l)) = fst (ideal_react slaves (picks slaves b) l).
Proof. unfold flag_react, ideal_react. cbn [fst]. destruct (_ =? 0x68); [apply picks_matching|reflexivity]. Qed.
Theorem C84_bus_exists : forall h slaves, Forall wf_slave slaves ->
  bus_of h slaves (list bool) (fun _ n => n) (flag_react slaves) (picks slaves) /\ hands_bytes (flag_react slaves).
Proof.
  intros h slaves Hs. destruct (C44_bus_exists h slaves Hs) as [B1 B2 B3 B4]. split.
  - split; [exact B1|reflexivity| |].
    + intros b m Hl Hm. rewrite flag_state. exact (B3 (picks slaves b) m Hl Hm).
    + intros b. rewrite flag_state. exact (B4 (picks slaves b)).
  - intros b l. unfold flag_react, ideal_react. cbn [snd]. destruct (_ =? 0x68); cbn [snd].
    + destruct (matching _ slaves); constructor; [|constructor]. constructor; [unfold is_byte; lia|constructor].
    + assert (P : Forall wf_slave (picks slaves b)).
      { apply Forall_forall. intros s I. unfold picks in I. apply in_map_iff in I as ([x y] & <- & I). apply filter_In in I as [I _]. apply in_combine_r in I. rewrite Forall_forall in Hs. apply Hs, I. }
      destruct (picks slaves b) as [|s [|s2 r]].
      * exact I.
      * split; [|exact I]. inversion_clear P as [|? ? W _]. destruct W as [V _]. apply wire_bytes. exact V.
      * split; [|exact I]. apply Forall_cons; [unfold is_byte; lia|]. apply Forall_cons; [unfold is_byte; lia|apply Forall_nil].
Qed.
Example C84_example_hypotheses : Forall wf_slave ex_slaves /\ hears_slaves mbus_context_serial /\ 0 <= max_search_retry mbus_context_serial /\
  wf_mask (chars "FFFFFFFFFFFFFFFF") /\ address_text (repeat 255 8) (chars "FFFFFFFFFFFFFFFF") /\ ev_bytes (w_evs idle) /\ wildcard (nth 15 (chars "FFFFFFFFFFFFFFFF") 0) /\
  Forall decimal_id (matching (repeat 255 8) ex_slaves) /\ NoDup (map (fun s => firstn 4 (sl_addr s)) (matching (repeat 255 8) ex_slaves)) /\ plenty empty.
Proof.
  destruct ex_slaves_ok as (W & D & N). destruct C45_example_hypotheses as (Hm & M & R & A & E). rewrite E. split; [exact W|]. split; [exact M|]. split; [exact R|]. split; [exact Hm|]. split; [exact A|].
  split; [constructor|]. split; [left; reflexivity|]. split; [exact D|]. split; [exact N|]. intros [].
Qed.

(** What is missing. A mask without wildcards can be probed and announced twice: when it gave a collision, its further characters are searched for
    wildcards, and at the last one it is probed again. *)
Definition twins : list slave := [meter [0x78; 0x56; 0x34; 0x12; 0x24; 0x40; 1; 7]; meter [0x78; 0x56; 0x34; 0x12; 0x24; 0x40; 1; 7]].
Theorem C84_repeat_refuted : exists r l m, watched BOTH twins "1234567F24400107" empty = Some (r, l, m) /\ ~ NoDup (announced l).
Proof.
  destruct (watched BOTH twins "1234567F24400107" empty) as [[[r l] m]|] eqn:E; [|vm_compute in E; discriminate]. exists r, l, m. split; [reflexivity|].
  assert (A : announced l = map chars ["1234567024400107"; "1234567124400107"; "1234567224400107"; "1234567324400107"; "1234567424400107"; "1234567524400107"; "1234567624400107"; "1234567724400107";
    "1234567824400107"; "1234567824400107"; "1234567924400107"]%string).
  { vm_compute in E. injection E as <- <- <-. reflexivity. }
  rewrite A. intros N. do 8 (inversion_clear N as [|? ? _ N']; rename N' into N). inversion_clear N as [|? ? I _]. apply I. left. reflexivity.
Qed.
(** When there is no memory for a copy of the mask in a narrower search, the search is skipped and slaves are missed, and 0 is returned. *)
Theorem C84_shortage_refuted : looks (watched BOTH ex_slaves "FFFFFFFFFFFFFFFF" (mkM [] [false; true])) = Some (0, 10%nat, [[0x01; 0x00; 0x00; 0x00; 0x61; 0x15; 2; 7]], [], 0%nat).
Proof. vm_compute. reflexivity. Qed.
(** A line on which the first write is answered with noise and the second one fails. *)
Definition shaky_wret (b : nat) (n : Z) : Z := if (b =? 1)%nat then -1 else n.
Definition shaky (b : nat) (_ : list Z) : nat * list ev := (S b, if (b =? 0)%nat then [MRecv.Data [1; 2; 3]] else []).
Lemma shaky_bytes : hands_bytes shaky.
Proof. intros b t. unfold shaky. destruct (b =? 0)%nat; cbn; [|constructor]. repeat constructor; unfold is_byte; lia. Qed.
(** The failed probe is passed over: 0 is returned although one of the masks below 0FFFFFFFFFFFFFFF could not be probed and the others were not; and the copy of the mask is kept. *)
Theorem C84_error_refuted : exists w' l, scan_w _ shaky_wret shaky BOTH (Some mbus_context_serial) 0 (chars "FFFFFFFFFFFFFFFF") (mkW 0%nat [] [], empty) = Done (0, (w', mkM [None; Some CBlock] []), l) /\
  announced l = map chars ["0FFFFFFFFFFFFFFF"; "00FFFFFFFFFFFFFF"; "1FFFFFFFFFFFFFFF"; "2FFFFFFFFFFFFFFF"; "3FFFFFFFFFFFFFFF"; "4FFFFFFFFFFFFFFF"; "5FFFFFFFFFFFFFFF"; "6FFFFFFFFFFFFFFF"; "7FFFFFFFFFFFFFFF";
    "8FFFFFFFFFFFFFFF"; "9FFFFFFFFFFFFFFF"]%string.
Proof. do 2 eexists. split; vm_compute; reflexivity. Qed.

Print Assumptions C84_scan_partial.
Print Assumptions C84_same.
Print Assumptions C84_ideal.
Print Assumptions C84_bus_exists.
Print Assumptions C84_repeat_refuted.
Print Assumptions C84_shortage_refuted.
Print Assumptions C84_error_refuted.

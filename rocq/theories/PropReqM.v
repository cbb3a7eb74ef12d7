(** Property C85: readouts under shortage of memory. *)
From Coq Require Import List.
From Coq Require Import Permutation.
From Verif Require Import CBase PBase CStr MFrame MCodec MVar MText SVar MXml MRecv SRecv MSecond MProto PReq SReq PropReq MMem SMem PMem MReqM SReqM PReqM.
Local Open Scope Z_scope.

(** Whatever is on the line and whichever allocations fail: where the readout without shortage returns, this one returns, having accessed and released only what is
    allocated. The reply and new frames linked to it form a chain; all else that is new are records left over from a reply that could not be decoded, as many as without
    shortage. If no allocation fails, everything is as in C31-C35. Otherwise the result is 0 or -1, no records are left over, and frames received and traffic are the
    beginning of those without shortage, or nothing at all happened. *)
Theorem C85_readout :
  forall B wret (react : B -> list Z -> B * list ev) h a mf w m reply f q w',
  look m reply = Some (CFrame f None) -> mbus_sendrecv_request B wret react (Some h) a f mf w = Done (q, w') ->
  exists r w1 m1 used l new leaked, sendrecv_mem B wret react (Some h) a reply mf w m = Done (r, w1, m1) /\ attempts used m m1 /\
    grown reply (new ++ leaked) m m1 /\ fchain m1 (Some reply) l /\ map fst l = reply :: new /\
    ((~ In true used /\ r = q_ret q /\ w1 = w' /\ map snd l = q_frames q /\ length leaked = length (unreleased (q_heap q))) \/
     (In true used /\ (r = 0 \/ r = -1) /\ leaked = [] /\ starts (map snd l) (q_frames q) /\ starts (w_log w1) (w_log w')) \/
     (In true used /\ r = -1 /\ l = [(reply, f)] /\ w1 = w /\ same_memory m m1)).
Proof.
  intros B wret react h a mf w m reply f q w' L H. unfold mbus_sendrecv_request in H. unfold sendrecv_mem.
  assert (G0 : grown reply [] m m) by (split; [constructor|]; split; [intros []|]; split; [intros ? []|reflexivity]).
  assert (C0 : fchain m (Some reply) [(reply, f)]) by (econstructor; [exact L|constructor]).
  destruct (negb (mbus_is_primary_address a)).
  { injection H as <- <-. exists 1, w, m, [], [(reply, f)], [], []. do 5 (split; [first [reflexivity|assumption]|]). left. split; [intros []|]. repeat split; reflexivity. }
  unfold frame_alloc. destruct (malloc (CFrame (mbus_frame_new T_SHORT) None) m) as [[qa|] m1] eqn:Em; destruct (malloc_attempts _ _ _ _ Em) as (u & Au & Iu).
  2:{ destruct (malloc_cases (CFrame (mbus_frame_new T_SHORT) None) m) as [(y & Em' & Cm & _)|(y & Em' & _)]; rewrite Em' in Em; [|discriminate]. injection Em as ->.
      assert (K : forall x, look m1 x = look m x) by (intros x; unfold look; rewrite Cm; reflexivity).
      exists (-1), w, m1, u, [(reply, f)], [], []. split; [reflexivity|]. split; [exact Au|]. split; [eapply grown_same; [exact G0|exact K]|]. split; [eapply fchain_same; [exact C0|intros; apply K]|]. split; [reflexivity|].
      right. right. split; [apply Iu; reflexivity|]. repeat split; auto. }
  destruct (grown_malloc _ _ _ _ _ _ _ Em ltac:(rewrite L; discriminate) G0) as (G1 & Nq & Lq & K1). unfold frame_at. rewrite Lq. cbn [lift obind].
  set (req := set_address _ a) in *. destruct (put_ok qa _ req None m1 Lq) as (m2 & E2 & L2 & K2 & F2). rewrite E2. cbn [lift obind]. assert (Qr : reply <> qa) by congruence.
  destruct (loop_sim B wret react h m reply qa _ req f [] fd_zero [] None 0 0 mf w q w' H reply pd_zero m2 []) as (r & w1 & m3 & used & l & new & leaked & req' & E & At & L3 & G3 & C3 & El & Q).
  - repeat split.
  - reflexivity.
  - exact I.
  - reflexivity.
  - split; [exact L2|]. split; [eapply grown_change; [exact G1|left; left; reflexivity|exact K2|rewrite L2; discriminate]|]. split; [|reflexivity]. econstructor; [|constructor]. rewrite K2, K1 by assumption. exact L.
  - rewrite E. cbn [obind]. destruct (frame_free_ok (Some qa) m3 [(qa, req')]) as (m4 & E4 & (R1 & R2) & F4); [econstructor; [exact L3|constructor]|]. rewrite E4. cbn [lift obind].
    assert (O4 : forall x, x <> qa -> look m4 x = look m3 x) by (intros x X; apply R2; intros [Y|[]]; cbn in Y; congruence). assert (Nu : ~ In true u) by (intros X; apply Iu in X; discriminate).
    destruct G3 as (N & R & A & K). inversion_clear N as [|? ? N1 N2]. exists r, w1, m4, (u ++ used), l, new, leaked. split; [reflexivity|]. split; [unfold attempts in *; rewrite Au, <- F2, At, F4, app_assoc; reflexivity|].
    split; [|split; [|split; [exact El|]]].
    + split; [exact N2|]. split; [intros X; apply R; right; exact X|]. split.
      * intros x X. rewrite O4 by (intros ->; contradiction). apply A. right. exact X.
      * intros x X Y. destruct (Nat.eq_dec x qa) as [->|Nx]; [rewrite Nq; apply R1; left; reflexivity|]. rewrite O4 by exact Nx. apply K; [|exact Y]. intros [Z|Z]; [congruence|contradiction].
    + eapply fchain_same; [exact C3|]. intros x X. apply O4. intros ->. rewrite El in X. destruct X as [X|X]; [congruence|]. apply N1. apply in_or_app. left. exact X.
    + rewrite in_app_iff. destruct Q as [(Q1 & Q)|(Q1 & Q)]; [left|right; left]; (split; [tauto|exact Q]).
Qed.
(** When the caller then releases the frames linked to the reply, nothing stays allocated except records left over as above. *)
Theorem C85_balanced :
  forall B wret (react : B -> list Z -> B * list ev) h a mf w m reply f q w' r w1 m1,
  look m reply = Some (CFrame f None) -> mbus_sendrecv_request B wret react (Some h) a f mf w = Done (q, w') -> unreleased (q_heap q) = [] ->
  sendrecv_mem B wret react (Some h) a reply mf w m = Done (r, w1, m1) ->
  exists g next c m2, look m1 reply = Some (CFrame g next) /\ mbus_frame_free next m1 = Ok (c, m2) /\ forall x, x <> reply -> look m2 x = look m x.
Proof.
  intros B wret react h a mf w m reply f q w' r w1 m1 L H U S. destruct (C85_readout B wret react h a mf w m reply f q w' L H) as (r' & w2 & m2 & used & l & new & leaked & E & _ & G & C & El & Q).
  rewrite E in S. injection S as -> -> ->. assert (Lk : leaked = []).
  { destruct Q as [(_ & _ & _ & _ & X)|[(_ & _ & X & _)|(_ & _ & X & _ & S)]]; [rewrite U in X; destruct leaked; [reflexivity|discriminate]|exact X|]. destruct G as (_ & _ & A & _). destruct leaked as [|x leaked]; [reflexivity|].
    destruct (A x) as [A1 A2]; [apply in_or_app; right; left; reflexivity|]. rewrite S in A2. contradiction. }
  subst leaked. rewrite app_nil_r in G. destruct l as [|[x g] l]; [discriminate|]. injection El as -> El. inversion C as [|? ? next ? Lr C1]; subst.
  destruct (frame_free_ok next m1 l C1) as (m3 & E3 & (R1 & R2) & _). exists g, next, (match next with None => -1 | Some _ => 0 end), m3. split; [exact Lr|]. split; [exact E3|]. intros x Nx. destruct G as (_ & _ & A & K).
  destruct (in_dec Nat.eq_dec x (map fst l)) as [X|X]; [rewrite (proj2 (R1 x X)); symmetry; apply A; exact X|]. rewrite R2 by exact X. apply K; assumption.
Qed.

(** ** Examples: a meter that answers with two telegrams *)
Definition two_part : world (list (list ev)) := mkW [[MRecv.Data (var_bytes (Some (true, [])))]; [MRecv.Data (var_bytes None)]] [] [].
Definition with_reply (fails : list bool) : mem := mkM [Some (CFrame frame_zero None)] fails.
Definition readout_of (fails : list bool) : option (Z * nat * list (option (option nat))) :=
  match sendrecv_mem _ all_taken script (Some mbus_context_serial) 5 0 16 two_part (with_reply fails) with
  | Done (r, w, m) => Some (r, length (filter (fun a => match a with Sent _ => true | _ => false end) (w_log w)), map (fun x => match x with Some (CFrame _ next) => Some next | Some _ => Some None | None => None end) (m_cells m))
  | _ => None
  end.
(** Result, number of requests sent, and the objects: without shortage the second frame is linked to the reply; without memory for the request, or for the second frame, -1. *)
Example C85_example : readout_of [] = Some (0, 2%nat, [Some (Some 4%nat); None; None; None; Some None; None]) /\
  readout_of [true] = Some (-1, 0%nat, [Some None]) /\ readout_of [false; false; false; true] = Some (-1, 1%nat, [Some None; None; None; None]).
Proof. split; [|split]; vm_compute; reflexivity. Qed.
Example C85_example_hypotheses : look (with_reply []) 0 = Some (CFrame frame_zero None) /\
  match mbus_sendrecv_request _ all_taken script (Some mbus_context_serial) 5 frame_zero 16 two_part with Done (q, _) => q_ret q = 0 /\ length (q_frames q) = 2%nat /\ unreleased (q_heap q) = [] | _ => False end.
Proof. split; [reflexivity|]. vm_compute. auto. Qed.
(** Without memory for one of the records of the first telegram (which nobody asked for) the readout ends there, with the result 0, although the second telegram was announced. *)
Theorem C85_incomplete_undetected : readout_of [false; true] = Some (0, 1%nat, [Some None; None]) /\ readout_of [false; false; true] = Some (0, 1%nat, [Some None; None; None]).
Proof. split; vm_compute; reflexivity. Qed.

Print Assumptions C85_readout.
Print Assumptions C85_balanced.
Print Assumptions C85_incomplete_undetected.

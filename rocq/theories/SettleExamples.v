(** Concrete histories of a pre-propose module with the coins it holds. *)
From Verif Require Import Base BaseProofs Exec ExecProofs VotingModel VotingSpec
  HooksModel SingleModel SingleSpec PreModel PreSpec SettleModel SettleSpec.
From Verif Require PreExamples.

Definition ex_O := PreExamples.ex_O.
Definition at_ := PreExamples.at_.
(** The proposal module is 30, the pre-propose module 20, the DAO 9; deposits are 25 coins of 4,
    returned always.  Members 1, 2, 3 have power 40, 35, 25. *)
Definition start (k : kind) : zstate :=
  ZState
    (JState 20 (State PreExamples.ex_cfg 0 ∅ ∅ (Module 20) [] [])
       (PState k 30 9 (Some PreExamples.dep_native) PreExamples.pol ∅ [] 6 ∅ ∅ ∅ 0) [] [])
    (fun _ => 0).
Definition run (k : kind) (h : list (block * call zmsg)) := zrun ex_O (start k) h.
Definition st k h : zstate := fst (run k h).
Definition lg k h : zlog := snd (run k h).
Lemma ex_zreached k h b :
  hist_ok (at_ 0) h -> block_le (hist_end (at_ 0) h) b ->
  zreached ex_O (at_ 0) (start k) b (st k h) (lg k h).
Proof.
  intros Hh Hb. split.
  - exists [], k, 30%N, (Some PreExamples.dep_native), PreExamples.pol, 6%N. split.
    + exists (at_ 0), (j_s (z_j (start k))), []. split; [done|]. split; [done|]. split; [done|].
      apply block_le_refl.
    + split; [reflexivity|]. split; [done|]. split; [done|]. split; [done|]. intros d. cbn. lia.
  - exists h. split; [done|]. split; [|done]. apply surjective_pairing.
Qed.
Ltac ex_reach :=
  apply ex_zreached;
  repeat match goal with
  | |- _ /\ _ => split
  | _ => progress (simpl; unfold block_le)
  | |- True => exact I
  | _ => reflexivity
  | _ => vm_compute; discriminate
  end.

(** Checks on logs. *)
Definition kept_b (e : event zstate zmsg jsub) : bool :=
  match e with
  | ECall _ _ _ (ZPre _ _ (PWithdraw _)) _ _ => false
  | ECall _ _ _ (ZPre _ _ (PUpdateConfig (Some d) _)) _ _ =>
      match d_denom d with Native _ => true | Cw20 _ => false end
  | ECall _ _ _ (ZSingle (UpdatePreProposeInfo _)) _ _ => false
  | _ => true
  end.
Lemma kept_ok l : forallb kept_b l = true -> kept l.
Proof.
  intros H pre b a m post subs He. apply elem_of_list_In in He. rewrite forallb_forall in H.
  specialize (H _ He). cbn [kept_b] in H. destruct m as [[]|f v [|[d|] p| | | | | | | | |]|]; try done.
  destruct (d_denom d); [eauto|done].
Qed.
Lemma kept_alone l x : kept l -> left_alone x l.
Proof. intros H pre b a f v d post subs He. destruct (H _ _ _ _ _ _ He). Qed.
Definition no_withdrawal (l : zlog) : Prop :=
  forall pre b a f v d post subs, ECall pre b a (ZPre f v (PWithdraw d)) post subs ∉ l.
Definition no_replacement (l : zlog) : Prop :=
  forall pre b a i post subs, ECall pre b a (ZSingle (UpdatePreProposeInfo i)) post subs ∉ l.
Definition no_wd (e : event zstate zmsg jsub) : bool :=
  match e with ECall _ _ _ (ZPre _ _ (PWithdraw _)) _ _ => false | _ => true end.
Definition no_rep (e : event zstate zmsg jsub) : bool :=
  match e with ECall _ _ _ (ZSingle (UpdatePreProposeInfo _)) _ _ => false | _ => true end.
Lemma no_wd_ok l : forallb no_wd l = true -> no_withdrawal l.
Proof.
  intros H pre b a f v d post subs He. apply elem_of_list_In in He. rewrite forallb_forall in H.
  by specialize (H _ He).
Qed.
Lemma no_rep_ok l : forallb no_rep l = true -> no_replacement l.
Proof.
  intros H pre b a i post subs He. apply elem_of_list_In in He. rewrite forallb_forall in H.
  by specialize (H _ He).
Qed.
Definition failed_b (i : Z) (e : event zstate zmsg jsub) : bool :=
  match e with
  | ESub pre _ (FromSingle (SCompleted a id _)) false _ => (a =? j_self (z_j pre))%N && (id =? i)
  | _ => false
  end.
Lemma failed_in i l :
  existsb (failed_b i) l = true ->
  exists pre b st post, ESub pre b (FromSingle (SCompleted (j_self (z_j pre)) i st)) false post ∈ l.
Proof.
  intros H. apply existsb_exists in H as (e & He & H). apply elem_of_list_In in He.
  destruct e as [|pre b [[]|] [] post]; try done. cbn [failed_b] in H.
  apply andb_true_iff in H as [H1 H2]. apply N.eqb_eq in H1 as ->. apply Z.eqb_eq in H2 as ->. eauto.
Qed.
Definition direct_b (a0 : addr) (e : event zstate zmsg jsub) : bool :=
  match e with ECall _ _ a (ZSingle (Propose _)) _ _ => (a =? a0)%N | _ => false end.
Lemma direct_in a0 l :
  existsb (direct_b a0) l = true ->
  exists pre b pm post subs, ECall pre b a0 (ZSingle (Propose pm)) post subs ∈ l.
Proof.
  intros H. apply existsb_exists in H as (e & He & H). apply elem_of_list_In in He.
  destruct e as [pre b a [[]| |] post subs|]; try done. cbn [direct_b] in H.
  apply N.eqb_eq in H as ->. eauto 10.
Qed.

Definition ex_pm := PreExamples.ex_pm.
Definition qs (a : addr) (m : msg) : call zmsg := Call a (ZSingle m) [].
Definition qp (a : addr) (f : list (N * Z)) (v : Z) (m : pmsg) : call zmsg := Call a (ZPre f v m) [].
(** Three submissions, a gift, and one who offers too little. *)
Definition h_made : list (block * call zmsg) :=
  [(at_ 10, qp 1 [(4%N, 25)] 40 (PPropose (ex_pm [7; 8])));
   (at_ 10, qp 2 [(4%N, 24)] 35 (PPropose (ex_pm [])));
   (at_ 10, qp 2 [(4%N, 25)] 35 (PPropose (ex_pm [])));
   (at_ 11, Call 7 (ZGift (Native 4) 3) []);
   (at_ 11, qp 5 [(4%N, 25)] 0 (PPropose (ex_pm [9])));
   (at_ 11, qs 1 (Propose (ex_pm [4])))].
(** The first passes and is executed, though its messages fail; the second fails and is closed;
    the third is open. *)
Definition h_done := h_made ++
  [(at_ 12, qs 1 (CastVote 1 Yes None)); (at_ 12, qs 2 (CastVote 1 Yes None));
   (at_ 13, qs 1 (CastVote 2 No None)); (at_ 13, qs 2 (CastVote 2 No None));
   (at_ 20, Call 1 (ZSingle (Execute 1)) [None]); (at_ 21, qs 4 (Close 2))].
(** Approval: one submission is approved, one rejected, one waits. *)
Definition h_appr : list (block * call zmsg) :=
  [(at_ 10, qp 1 [(4%N, 25)] 40 (PPropose (ex_pm [7; 8])));
   (at_ 10, qp 1 [(4%N, 25)] 40 (PPropose (ex_pm [9])));
   (at_ 11, qp 2 [(4%N, 25)] 35 (PPropose (ex_pm [5])));
   (at_ 13, qp 6 [] 0 (PApprove 1)); (at_ 14, qp 6 [] 0 (PReject 2))].
(** The first proposal passes; its message makes the DAO withdraw what the module holds.  Then
    somebody with no voting power proposes, without a deposit. *)
Definition h_emptied := h_made ++
  [(at_ 12, qs 1 (CastVote 1 Yes None)); (at_ 12, qs 2 (CastVote 1 Yes None));
   (at_ 20, Call 1 (ZSingle (Execute 1)) [Some (0%N, [qp 9 [] 0 (PWithdraw None)]); None]);
   (at_ 21, qs 77 (Propose (ex_pm [6])))].
(** The first proposal passes; its message makes the DAO install another module.  Then the second
    is rejected and closed. *)
Definition h_replaced := h_made ++
  [(at_ 12, qs 1 (CastVote 1 Yes None)); (at_ 12, qs 2 (CastVote 1 Yes None));
   (at_ 20, Call 1 (ZSingle (Execute 1))
      [Some (0%N, [Call 9 (ZSingle (UpdatePreProposeInfo (ModuleMayPropose 1))) [Some (21%N, [])]])]);
   (at_ 21, qs 1 (CastVote 2 No None)); (at_ 21, qs 2 (CastVote 2 No None));
   (at_ 22, qs 4 (Close 2))].

(** ** What is false without the side conditions *)
Lemma ex_withdraw_refuted :
  exists O b0 s0 b s l, zreached O b0 s0 b s l /\ in_coins (q_deposit (j_q (z_j s0))) /\
    no_replacement l /\
    (exists pre b' id st post,
       ESub pre b' (FromSingle (SCompleted (j_self (z_j pre)) id st)) false post ∈ l) /\
    s_policy (j_s (z_j s)) = Anyone /\
    exists pre b' a pm post subs,
      ECall pre b' a (ZSingle (Propose pm)) post subs ∈ l /\ a <> j_self (z_j s0).
Proof.
  exists ex_O, (at_ 0), (start Plain), (at_ 21), (st Plain h_emptied), (lg Plain h_emptied).
  split; [ex_reach|]. split; [by exists 4%N|].
  split; [apply no_rep_ok; vm_compute; reflexivity|].
  split; [destruct (failed_in 1 (lg Plain h_emptied)) as (pre & b & s & post & H);
          [vm_compute; reflexivity|]; by exists pre, b, 1, s, post|].
  split; [vm_compute; reflexivity|].
  destruct (direct_in 77 (lg Plain h_emptied)) as (pre & b & pm & post & subs & H);
    [vm_compute; reflexivity|]. exists pre, b, 77%N, pm, post, subs. done.
Qed.
Lemma ex_replaced_refuted :
  exists O b0 s0 b s l id p d who,
    zreached O b0 s0 b s l /\ in_coins (q_deposit (j_q (z_j s0))) /\ no_withdrawal l /\
    s_count (j_s (z_j s0)) < id /\ s_props (j_s (z_j s)) !! id = Some p /\ terminal (p_status p) /\
    q_deposits (j_q (z_j s)) !! id = Some (Some d, who) /\ 0 < d_amount d /\
    paid_for (z_j s) (RCompleted id) = [].
Proof.
  assert (exists p, s_props (j_s (z_j (st Plain h_replaced))) !! 2 = Some p /\ terminal (p_status p))
    as (p & Hp & Ht).
  { assert (match s_props (j_s (z_j (st Plain h_replaced))) !! 2 with
            | Some p => p_status p = Closed | None => False end) as H by (vm_compute; reflexivity).
    destruct (s_props _ !! 2) as [p|]; [|done]. exists p. split; [done|]. rewrite H. unfold terminal. tauto. }
  exists ex_O, (at_ 0), (start Plain), (at_ 22), (st Plain h_replaced), (lg Plain h_replaced).
  exists 2, p, PreExamples.dep_native, 2%N.
  split; [ex_reach|]. split; [by exists 4%N|].
  split; [apply no_wd_ok; vm_compute; reflexivity|].
  split; [done|]. split; [done|]. split; [done|].
  split; [vm_compute; reflexivity|]. split; [done|]. vm_compute; reflexivity.
Qed.
(** Withdrawals are only of what is configured as the deposit, coins 4. *)
Definition wd4_b (e : event zstate zmsg jsub) : bool :=
  match e with
  | ECall pre _ _ (ZPre _ _ (PWithdraw d)) _ _ =>
      match d, q_deposit (j_q (z_j pre)) with
      | None, Some e => bool_decide (d_denom e = Native 4)
      | _, _ => false
      end
  | _ => true
  end.
Lemma wd4_ok l : forallb wd4_b l = true -> left_alone 5 l.
Proof.
  intros H pre b a f v d post subs He. apply elem_of_list_In in He. rewrite forallb_forall in H.
  specialize (H _ He). cbn [wd4_b] in H. destruct d; [done|].
  intros e E. rewrite E in H. apply bool_decide_eq_true in H. by rewrite H.
Qed.

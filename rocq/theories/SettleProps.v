(** Deposits are settled (C129). *)
From Verif Require Import Base Exec ExecProofs VotingModel HooksModel SingleModel SingleSpec
  PreModel PreSpec SettleModel SettleSpec SettleClaims SettleExamples.

(** * C129 *)
(** If the DAO takes no coins of [x] out of the module, the module holds at least the deposits in [x]
    that it has not paid out. *)
Theorem C129_covered_partial O b0 s0 b s l x :
  zreached O b0 s0 b s l -> left_alone x l -> unreturned (z_j s) x <= z_held s (Native x).
Proof. exact (c129_covered O b0 s0 b s l x). Qed.
Print Assumptions C129_covered_partial.
Example C129_covered_case :
  zreached ex_O (at_ 0) (start Plain) (at_ 21) (st Plain h_done) (lg Plain h_done) /\
  left_alone 4 (lg Plain h_done) /\
  unreturned (z_j (st Plain h_done)) 4 = 25 /\ z_held (st Plain h_done) (Native 4) = 28.
Proof.
  split; [ex_reach|]. split; [apply kept_alone, kept_ok; vm_compute; reflexivity|].
  split; vm_compute; reflexivity.
Qed.
(** With approval: one deposit of an open proposal, one of a waiting submission. *)
Example C129_covered_approval_case :
  zreached ex_O (at_ 0) (start Approval) (at_ 14) (st Approval h_appr) (lg Approval h_appr) /\
  left_alone 4 (lg Approval h_appr) /\
  unreturned (z_j (st Approval h_appr)) 4 = 50 /\ z_held (st Approval h_appr) (Native 4) = 50 /\
  length (j_paid (z_j (st Approval h_appr))) = 1%nat.
Proof.
  split; [ex_reach|]. split; [apply kept_alone, kept_ok; vm_compute; reflexivity|].
  split; [|split]; vm_compute; reflexivity.
Qed.
(** Then the completion hook of a proposal whose deposit is in coins of [x], or that has none, never
    fails. *)
Theorem C129_never_fails_partial O b0 s0 b s l x pre b' id st post :
  zreached O b0 s0 b s l -> left_alone x l ->
  ESub pre b' (FromSingle (SCompleted (j_self (z_j pre)) id st)) false post ∈ l ->
  exists d who, q_deposits (j_q (z_j pre)) !! id = Some (Some d, who) /\ d_denom d <> Native x.
Proof. exact (c129_never_fails O b0 s0 b s l x pre b' id st post). Qed.
Print Assumptions C129_never_fails_partial.
(** A hook that fails: the deposits are in coins 4, which the DAO withdraws; coins 5 it does not. *)
Example C129_never_fails_case :
  zreached ex_O (at_ 0) (start Plain) (at_ 21) (st Plain h_emptied) (lg Plain h_emptied) /\
  left_alone 5 (lg Plain h_emptied) /\
  exists pre b st post,
    ESub pre b (FromSingle (SCompleted (j_self (z_j pre)) 1 st)) false post ∈ lg Plain h_emptied.
Proof.
  split; [ex_reach|]. split.
  - apply wd4_ok. vm_compute; reflexivity.
  - apply failed_in. vm_compute; reflexivity.
Qed.
(** If the DAO also keeps the module installed and asks for deposits in coins only, the module stays
    the only one that may propose. *)
Theorem C129_stays_partial O b0 s0 b s l :
  zreached O b0 s0 b s l -> in_coins (q_deposit (j_q (z_j s0))) -> kept l ->
  s_policy (j_s (z_j s)) = Module (j_self (z_j s)).
Proof. exact (c129_stays O b0 s0 b s l). Qed.
Print Assumptions C129_stays_partial.
Example C129_stays_case :
  zreached ex_O (at_ 0) (start Plain) (at_ 21) (st Plain h_done) (lg Plain h_done) /\
  in_coins (q_deposit (j_q (z_j (start Plain)))) /\ kept (lg Plain h_done) /\
  length (lg Plain h_done) = 13%nat.
Proof.
  split; [ex_reach|]. split; [by exists 4%N|]. split; [apply kept_ok; vm_compute; reflexivity|].
  vm_compute; reflexivity.
Qed.
(** Then every proposal made since has a record, and its deposit has been paid out exactly once if
    it has ended, to the right party, and not at all otherwise. *)
Theorem C129_settled_partial O b0 s0 b s l id p :
  zreached O b0 s0 b s l -> in_coins (q_deposit (j_q (z_j s0))) -> kept l ->
  s_count (j_s (z_j s0)) < id -> s_props (j_s (z_j s)) !! id = Some p ->
  exists o who, q_deposits (j_q (z_j s)) !! id = Some (o, who) /\
    match o with
    | Some d =>
        (terminal (p_status p) -> exists to,
           paid_for (z_j s) (RCompleted id) = [Paid (RCompleted id) (d_denom d) to (d_amount d)] /\
           right_party (d_refund d) (p_status p) who (q_dao (j_q (z_j s))) to) /\
        (~ terminal (p_status p) -> paid_for (z_j s) (RCompleted id) = [])
    | None => paid_for (z_j s) (RCompleted id) = []
    end.
Proof. exact (c129_settled O b0 s0 b s l id p). Qed.
Print Assumptions C129_settled_partial.
(** Proposal 1 passed but its messages failed, 2 was rejected and closed, 3 is open. *)
Example C129_settled_case :
  map (fun x => (x.1, p_status x.2)) (map_to_list (s_props (j_s (z_j (st Plain h_done))))) =
    [(1, ExecutionFailed); (2, Closed); (3, Open)] /\
  map (fun i => refund_of (z_j (st Plain h_done)) i) [1; 2; 3] = [[(Native 4, 25)]; [(Native 4, 25)]; []].
Proof. split; vm_compute; reflexivity. Qed.
(** It is false if the DAO may withdraw: a passed proposal whose message withdraws takes its own
    deposit with it; its completion hook fails, the proposal module drops the pre-propose module,
    and somebody else proposes without one. *)
Theorem C129_withdraw_refuted :
  exists O b0 s0 b s l, zreached O b0 s0 b s l /\ in_coins (q_deposit (j_q (z_j s0))) /\
    no_replacement l /\
    (exists pre b' id st post,
       ESub pre b' (FromSingle (SCompleted (j_self (z_j pre)) id st)) false post ∈ l) /\
    s_policy (j_s (z_j s)) = Anyone /\
    exists pre b' a pm post subs,
      ECall pre b' a (ZSingle (Propose pm)) post subs ∈ l /\ a <> j_self (z_j s0).
Proof. exact ex_withdraw_refuted. Qed.
Print Assumptions C129_withdraw_refuted.
(** It is false if the DAO may install another module: the deposit of a proposal that was open then
    is not returned when it ends. *)
Theorem C129_replaced_refuted :
  exists O b0 s0 b s l id p d who,
    zreached O b0 s0 b s l /\ in_coins (q_deposit (j_q (z_j s0))) /\ no_withdrawal l /\
    s_count (j_s (z_j s0)) < id /\ s_props (j_s (z_j s)) !! id = Some p /\ terminal (p_status p) /\
    q_deposits (j_q (z_j s)) !! id = Some (Some d, who) /\ 0 < d_amount d /\
    paid_for (z_j s) (RCompleted id) = [].
Proof. exact ex_replaced_refuted. Qed.
Print Assumptions C129_replaced_refuted.
(** A withdrawal by the DAO takes exactly what the module holds of that coin or token. *)
Theorem C129_withdraw O s b v d dn r s' l :
  q_dao (j_q (z_j s)) <> j_self (z_j s) -> q_dao (j_q (z_j s)) <> q_module (j_q (z_j s)) ->
  (d = Some dn \/ d = None /\ exists c, q_deposit (j_q (z_j s)) = Some c /\ d_denom c = dn) ->
  0 < z_held s dn ->
  run_hist (zhandle O) zon_fail zon_ok s
    [(b, Call (q_dao (j_q (z_j s))) (ZPre [] v (PWithdraw d)) [Some (r, [])])] = (s', l) ->
  z_held s' dn = 0 /\ (forall x, x <> dn -> z_held s' x = z_held s x) /\
  j_paid (z_j s') = j_paid (z_j s) ++ [Paid RWithdraw dn (q_dao (j_q (z_j s))) (z_held s dn)].
Proof. exact (c129_withdraw O s b v d dn r s' l). Qed.
Print Assumptions C129_withdraw.
Example C129_withdraw_case :
  let s := (st Plain h_done) in
  q_dao (j_q (z_j s)) <> j_self (z_j s) /\ q_dao (j_q (z_j s)) <> q_module (j_q (z_j s)) /\
  option_map d_denom (q_deposit (j_q (z_j s))) = Some (Native 4) /\ z_held s (Native 4) = 28 /\
  z_held (run_hist (zhandle ex_O) zon_fail zon_ok s
    [(at_ 30, Call (q_dao (j_q (z_j s))) (ZPre [] 0 (PWithdraw None)) [Some (0%N, [])])]).1 (Native 4) = 0.
Proof. split; [vm_compute; discriminate|]. split; [vm_compute; discriminate|]. split; [|split]; vm_compute; reflexivity. Qed.

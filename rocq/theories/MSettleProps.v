(** Deposits of multiple-choice proposals are settled (C130). *)
From Verif Require Import Base Exec ExecProofs VotingModel HooksModel PreModel PreSpec SettleSpec.
From Verif Require Import MultModel MultSpec PreMultModel PreMultSpec MSettleModel MSettleSpec
  MSettleClaims MSettleExamples.

(** * C130 *)
(** If the DAO takes no coins of [x] out of the module, the module holds at least the deposits in [x]
    that it has not paid out. *)
Theorem C130_covered_partial O b0 s0 b s l x :
  mzreached O b0 s0 b s l -> mleft_alone x l -> munreturned (mz_j s) x <= mz_held s (Native x).
Proof. exact (c130_covered O b0 s0 b s l x). Qed.
Print Assumptions C130_covered_partial.
Example C130_covered_case :
  mzreached ex_O (at_ 0) start (at_ 21) (st h_done) (lg h_done) /\
  mleft_alone 4 (lg h_done) /\
  munreturned (mz_j (st h_done)) 4 = 25 /\ mz_held (st h_done) (Native 4) = 28.
Proof.
  split; [ex_reach|]. split; [apply kept_alone, kept_ok; vm_compute; reflexivity|].
  split; vm_compute; reflexivity.
Qed.
(** Then the completion hook of a proposal whose deposit is in coins of [x], or that has none, never
    fails. *)
Theorem C130_never_fails_partial O b0 s0 b s l x pre b' id st post :
  mzreached O b0 s0 b s l -> mleft_alone x l ->
  ESub pre b' (FromMult (SCompleted (mj_self (mz_j pre)) id st)) false post ∈ l ->
  exists d who, q_deposits (mj_q (mz_j pre)) !! id = Some (Some d, who) /\ d_denom d <> Native x.
Proof. exact (c130_never_fails O b0 s0 b s l x pre b' id st post). Qed.
Print Assumptions C130_never_fails_partial.
(** A hook that fails: the deposits are in coins 4, which the DAO withdraws; coins 5 it does not. *)
Example C130_never_fails_case :
  mzreached ex_O (at_ 0) start (at_ 21) (st h_emptied) (lg h_emptied) /\
  mleft_alone 5 (lg h_emptied) /\
  exists pre b st post,
    ESub pre b (FromMult (SCompleted (mj_self (mz_j pre)) 1 st)) false post ∈ lg h_emptied.
Proof.
  split; [ex_reach|]. split.
  - apply wd4_ok. vm_compute; reflexivity.
  - apply failed_in. vm_compute; reflexivity.
Qed.
(** If the DAO also keeps the module installed and asks for deposits in coins only, the module stays
    the only one that may propose. *)
Theorem C130_stays_partial O b0 s0 b s l :
  mzreached O b0 s0 b s l -> in_coins (q_deposit (mj_q (mz_j s0))) -> mkept l ->
  s_policy (mj_s (mz_j s)) = Module (mj_self (mz_j s)).
Proof. exact (c130_stays O b0 s0 b s l). Qed.
Print Assumptions C130_stays_partial.
Example C130_stays_case :
  mzreached ex_O (at_ 0) start (at_ 21) (st h_done) (lg h_done) /\
  in_coins (q_deposit (mj_q (mz_j start))) /\ mkept (lg h_done) /\
  length (lg h_done) = 13%nat.
Proof.
  split; [ex_reach|]. split; [by exists 4%N|]. split; [apply kept_ok; vm_compute; reflexivity|].
  vm_compute; reflexivity.
Qed.
(** Then every proposal made since has a record, and its deposit has been paid out exactly once if
    it has ended, to the right party, and not at all otherwise. *)
Theorem C130_settled_partial O b0 s0 b s l id p :
  mzreached O b0 s0 b s l -> in_coins (q_deposit (mj_q (mz_j s0))) -> mkept l ->
  s_count (mj_s (mz_j s0)) < id -> s_props (mj_s (mz_j s)) !! id = Some p ->
  exists o who, q_deposits (mj_q (mz_j s)) !! id = Some (o, who) /\
    match o with
    | Some d =>
        (terminal (p_status p) -> exists to,
           paid_back (mz_j s) id = [Paid (RCompleted id) (d_denom d) to (d_amount d)] /\
           right_party (d_refund d) (p_status p) who (q_dao (mj_q (mz_j s))) to) /\
        (~ terminal (p_status p) -> paid_back (mz_j s) id = [])
    | None => paid_back (mz_j s) id = []
    end.
Proof. exact (c130_settled O b0 s0 b s l id p). Qed.
Print Assumptions C130_settled_partial.
(** Proposal 1 passed but its messages failed, 2 was rejected and closed, 3 is open. *)
Example C130_settled_case :
  map (fun x => (x.1, p_status x.2)) (map_to_list (s_props (mj_s (mz_j (st h_done))))) =
    [(1, ExecutionFailed); (2, Closed); (3, Open)] /\
  map (fun i => refund_of (mz_j (st h_done)) i) [1; 2; 3] = [[(Native 4, 25)]; [(Native 4, 25)]; []].
Proof. split; vm_compute; reflexivity. Qed.
(** It is false if the DAO may withdraw: a passed proposal whose message withdraws takes its own
    deposit with it; its completion hook fails, the proposal module drops the pre-propose module,
    and somebody else proposes without one. *)
Theorem C130_withdraw_refuted :
  exists O b0 s0 b s l, mzreached O b0 s0 b s l /\ in_coins (q_deposit (mj_q (mz_j s0))) /\
    no_replacement l /\
    (exists pre b' id st post,
       ESub pre b' (FromMult (SCompleted (mj_self (mz_j pre)) id st)) false post ∈ l) /\
    s_policy (mj_s (mz_j s)) = Anyone /\
    exists pre b' a pm post subs,
      ECall pre b' a (MZMult (Propose pm)) post subs ∈ l /\ a <> mj_self (mz_j s0).
Proof. exact ex_withdraw_refuted. Qed.
Print Assumptions C130_withdraw_refuted.
(** It is false if the DAO may install another module: the deposit of a proposal that was open then
    is not returned when it ends. *)
Theorem C130_replaced_refuted :
  exists O b0 s0 b s l id p d who,
    mzreached O b0 s0 b s l /\ in_coins (q_deposit (mj_q (mz_j s0))) /\ no_withdrawal l /\
    s_count (mj_s (mz_j s0)) < id /\ s_props (mj_s (mz_j s)) !! id = Some p /\ terminal (p_status p) /\
    q_deposits (mj_q (mz_j s)) !! id = Some (Some d, who) /\ 0 < d_amount d /\
    paid_back (mz_j s) id = [].
Proof. exact ex_replaced_refuted. Qed.
Print Assumptions C130_replaced_refuted.
(** A withdrawal by the DAO takes exactly what the module holds of that coin or token. *)
Theorem C130_withdraw O s b v d dn r s' l :
  q_dao (mj_q (mz_j s)) <> mj_self (mz_j s) -> q_dao (mj_q (mz_j s)) <> q_module (mj_q (mz_j s)) ->
  (d = Some dn \/ d = None /\ exists c, q_deposit (mj_q (mz_j s)) = Some c /\ d_denom c = dn) ->
  0 < mz_held s dn ->
  run_hist (mzhandle O) mzon_fail mzon_ok s
    [(b, Call (q_dao (mj_q (mz_j s))) (MZPre [] v (MOther (PWithdraw d))) [Some (r, [])])] = (s', l) ->
  mz_held s' dn = 0 /\ (forall x, x <> dn -> mz_held s' x = mz_held s x) /\
  mj_paid (mz_j s') = mj_paid (mz_j s) ++ [Paid RWithdraw dn (q_dao (mj_q (mz_j s))) (mz_held s dn)].
Proof. exact (c130_withdraw O s b v d dn r s' l). Qed.
Print Assumptions C130_withdraw.
Example C130_withdraw_case :
  let s := (st h_done) in
  q_dao (mj_q (mz_j s)) <> mj_self (mz_j s) /\ q_dao (mj_q (mz_j s)) <> q_module (mj_q (mz_j s)) /\
  option_map d_denom (q_deposit (mj_q (mz_j s))) = Some (Native 4) /\ mz_held s (Native 4) = 28 /\
  mz_held (run_hist (mzhandle ex_O) mzon_fail mzon_ok s
    [(at_ 30, Call (q_dao (mj_q (mz_j s))) (MZPre [] 0 (MOther (PWithdraw None))) [Some (0%N, [])])]).1 (Native 4) = 0.
Proof. split; [vm_compute; discriminate|]. split; [vm_compute; discriminate|]. split; [|split]; vm_compute; reflexivity. Qed.

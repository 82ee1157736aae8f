(** Pre-propose modules: theorems.  Each is followed by what it rests on and by a
    concrete case meeting its hypotheses. *)
From Verif Require Import Base BaseProofs Exec ExecProofs VotingModel VotingSpec HooksModel
  SingleModel SingleSpec PreModel PreSpec PreProofs PreClaims ApproverModel ApproverClaims
  PreExamples.

(** * C31 *)
(** Over any joint history, whatever the proposal module did before: at most one
    payment returns the deposit taken under a key. *)
Theorem C31_returned_at_most_once O b j l k :
  jreached O b j l -> (length (returned j k) <= 1)%nat.
Proof. exact (c31_once O b j l k). Qed.
Print Assumptions C31_returned_at_most_once.
(** A payment for a completed proposal: the recorded deposit, whole, in the token
    taken, to the party the recorded refund policy and the final status name. *)
Theorem C31_right_party O b j l p id :
  jreached O b j l -> p ∈ j_paid j -> pd_why p = RCompleted id ->
  exists d a k st,
    q_deposits (j_q j) !! id = Some (Some d, a) /\
    prop_key (j_q j) id = Some k /\
    taken_for j k = [Taken k (pd_denom p) a (pd_amount p)] /\
    pd_denom p = d_denom d /\ pd_amount p = d_amount d /\
    status_of (j_s j) id = Some st /\
    right_party (d_refund d) st a (q_dao (j_q j)) (pd_to p).
Proof. exact (c31_right_party O b j l p id). Qed.
Print Assumptions C31_right_party.
(** A completion the module handled was paid. *)
Theorem C31_paid_on_completion O b j l pre b' id st post d a :
  jreached O b j l ->
  ESub pre b' (FromSingle (SCompleted (j_self pre) id st)) true post ∈ l ->
  q_deposits (j_q pre) !! id = Some (Some d, a) ->
  length (paid_for j (RCompleted id)) = 1%nat.
Proof. exact (c31_paid O b j l pre b' id st post d a). Qed.
Print Assumptions C31_paid_on_completion.
(** The DAO's withdrawals, the only other way out, go to the DAO. *)
Theorem C31_withdrawals_to_dao O b j l p :
  jreached O b j l -> p ∈ j_paid j -> pd_why p = RWithdraw -> pd_to p = q_dao (j_q j).
Proof. exact (c31_withdraw O b j l p). Qed.
Print Assumptions C31_withdrawals_to_dao.
Example C31_case :
  let d := dep_cw20 OnlyPassed in
  let j := st ex_cfg Plain d h_done in
  jreached ex_O (at_ 30) j (lg ex_cfg Plain d h_done) /\
  s_count (j_s j) = 2 /\
  j_taken j = [Taken (KProp 1) (Cw20 70) 1 100; Taken (KProp 2) (Cw20 70) 5 100] /\
  j_paid j = [Paid (RCompleted 1) (Cw20 70) 1 100; Paid (RCompleted 2) (Cw20 70) 9 100] /\
  returned j (KProp 1) = [Paid (RCompleted 1) (Cw20 70) 1 100] /\
  status_of (j_s j) 1 = Some Executed /\ status_of (j_s j) 2 = Some Closed.
Proof.
  intros d j. split; [ex_reach|].
  split; [vm_compute; reflexivity|]. split; [vm_compute; reflexivity|].
  split; [vm_compute; reflexivity|]. split; [vm_compute; reflexivity|].
  split; vm_compute; reflexivity.
Qed.
Example C31_case_always :
  let d := dep_cw20 Always in
  j_paid (st ex_cfg Plain d h_done) =
    [Paid (RCompleted 1) (Cw20 70) 1 100; Paid (RCompleted 2) (Cw20 70) 5 100].
Proof. vm_compute. reflexivity. Qed.

(** * C32 *)
(** Every committed submission has brought in exactly the configured deposit. *)
Theorem C32_deposit_taken O b j l pre b' a e pm post subs :
  jreached O b j l -> ECall pre b' a (JPre e (PPropose pm)) post subs ∈ l ->
  exists k,
    k = match q_kind (j_q pre) with
        | Plain => KProp (s_count (j_s pre) + 1)
        | Approval => KAppr (q_current (j_q pre) + 1)
        end /\
    taken_for j k = match q_deposit (j_q pre) with
                    | Some d => [Taken k (d_denom d) a (d_amount d)]
                    | None => []
                    end /\
    match q_deposit (j_q pre) with
    | Some (Deposit (Native x) n _) => e_funds e = [(x, n)]
    | _ => True
    end.
Proof. exact (c32_paid O b j l pre b' a e pm post subs). Qed.
Print Assumptions C32_deposit_taken.
(** The proposal it created carries that deposit. *)
Theorem C32_deposit_recorded O b j l pre b' a e pm post subs :
  jreached O b j l -> ECall pre b' a (JPre e (PPropose pm)) post subs ∈ l ->
  q_kind (j_q pre) = Plain ->
  is_Some (s_props (j_s post) !! (s_count (j_s pre) + 1)) /\
  q_deposits (j_q j) !! (s_count (j_s pre) + 1) = Some (q_deposit (j_q pre), a).
Proof. exact (c32_recorded O b j l pre b' a e pm post subs). Qed.
Print Assumptions C32_deposit_recorded.
(** Missing, short, excess or foreign coins: no proposal. *)
Theorem C32_wrong_coins_refused O j b a e pm outs d x :
  q_deposit (j_q j) = Some d -> d_denom d = Native x -> e_funds e <> [(x, d_amount d)] ->
  is_ok (jcall O b j (Call a (JPre e (PPropose pm)) outs)) = false.
Proof. exact (c32_wrong_coins O j b a e pm outs d x). Qed.
Print Assumptions C32_wrong_coins_refused.
(** A failing cw20 transfer reverts the call: no committed call has one. *)
Theorem C32_no_failed_transfer O b j l pre b' x ok post :
  jreached O b j l -> ESub pre b' (FromPre x) ok post ∈ l -> ok = true.
Proof. exact (c32_failed_transfer O b j l pre b' x ok post). Qed.
Print Assumptions C32_no_failed_transfer.
(** Later updates do not change what is recorded. *)
Theorem C32_records_kept O b j l b' j' l' :
  jreached O b j l -> jlater O b j b' j' l' ->
  (forall id r, q_deposits (j_q j) !! id = Some r -> q_deposits (j_q j') !! id = Some r) /\
  (forall i r, submission_of (j_q j) i = Some r -> exists r',
     submission_of (j_q j') i = Some r' /\ a_deposit r' = a_deposit r /\
     a_proposer r' = a_proposer r /\ a_msg r' = a_msg r /\ a_id r' = a_id r).
Proof. exact (c32_stable O b j l b' j' l'). Qed.
Print Assumptions C32_records_kept.
Example C32_case :
  let d := dep_cw20 Never in
  let j := st ex_cfg Plain d h_two in
  let h' := [(at_ 15, qp 9 (env [] 0) (PUpdateConfig (Some dep_native) None))] in
  jreached ex_O (at_ 12) j (lg ex_cfg Plain d h_two) /\
  jlater ex_O (at_ 12) j (at_ 16) (fst (jrun ex_O j h')) (snd (jrun ex_O j h')) /\
  q_deposits (j_q j) !! 1 = Some (Some d, 1%N) /\
  q_deposit (j_q (fst (jrun ex_O j h'))) = Some dep_native /\
  j_taken (st ex_cfg Plain d h_changed) =
    [Taken (KProp 1) (Cw20 70) 1 100; Taken (KProp 2) (Cw20 70) 5 100;
     Taken (KProp 3) (Native 4) 3 25] /\
  s_count (j_s (st ex_cfg Plain d h_changed)) = 3 /\
  (exists pre subs post, ECall pre (at_ 10) 1 (JPre (env [] 40) (PPropose (ex_pm [7; 8]))) post subs
     ∈ lg ex_cfg Plain d h_two).
Proof.
  intros d j h'. split; [ex_reach|]. split; [ex_reach|].
  split; [vm_compute; reflexivity|]. split; [vm_compute; reflexivity|].
  split; [vm_compute; reflexivity|]. split; [vm_compute; reflexivity|].
  do 3 eexists. vm_compute. right. right. left.
Qed.

(** * C33 *)
Theorem C33_accepts_iff p who power :
  check_can_submit p who power = Ok tt <-> may_submit p who power.
Proof. exact (c33_accepts p who power). Qed.
Print Assumptions C33_accepts_iff.
(** Without a deposit, the policy is the only reason a submission is refused. *)
Theorem C33_policy_decides q e a pm :
  q_deposit q = None ->
  is_ok (pre_handle q e a (PPropose pm)) = true <-> may_submit (q_policy q) a (e_power e).
Proof. exact (c33_refused_only q e a pm). Qed.
Print Assumptions C33_policy_decides.
(** Every committed submission was allowed by the policy of the time. *)
Theorem C33_every_submission O b j l pre b' a e pm post subs :
  jreached O b j l -> ECall pre b' a (JPre e (PPropose pm)) post subs ∈ l ->
  may_submit (q_policy (j_q pre)) a (e_power e) /\ ~ denied (q_policy (j_q pre)) a.
Proof. exact (c33_checked O b j l pre b' a e pm post subs). Qed.
Print Assumptions C33_every_submission.
Theorem C33_update_effect q e a da dr mem aa ar q' subs x :
  pre_handle q e a (PUpdatePolicy da dr mem aa ar) = Ok (q', subs) ->
  a = q_dao q /\
  (x ∈ denied_list (q_policy q') <->
     (x ∈ denied_list (q_policy q) \/ exists y, da = Some y /\ x ∈ y) /\
     ~ exists y, dr = Some y /\ x ∈ y) /\
  (x ∈ allowed_list (q_policy q') <->
     (x ∈ allowed_list (q_policy q) \/ exists y, aa = Some y /\ x ∈ y) /\
     ~ exists y, ar = Some y /\ x ∈ y).
Proof. exact (c33_update q e a da dr mem aa ar q' subs x). Qed.
Print Assumptions C33_update_effect.
Theorem C33_lists_disjoint_and_open O b j l :
  jreached O b j l ->
  (forall a, a ∈ allowed_list (q_policy (j_q j)) -> ~ denied (q_policy (j_q j)) a) /\
  (exists who power, may_submit (q_policy (j_q j)) who power) /\
  (forall a, denied (q_policy (j_q j)) a -> forall power, ~ may_submit (q_policy (j_q j)) a power).
Proof. exact (c33_usable O b j l). Qed.
Print Assumptions C33_lists_disjoint_and_open.
Theorem C33_only_dao_updates O b j l pre b' a m post subs :
  jreached O b j l -> ECall pre b' a m post subs ∈ l ->
  q_policy (j_q post) <> q_policy (j_q pre) ->
  a = q_dao (j_q pre) /\
  exists e, (exists d p, m = JPre e (PUpdateConfig d p)) \/
            (exists da dr mem aa ar, m = JPre e (PUpdatePolicy da dr mem aa ar)).
Proof. exact (c33_only_dao O b j l pre b' a m post subs). Qed.
Print Assumptions C33_only_dao_updates.
Example C33_case :
  let d := dep_cw20 Never in
  let j := st ex_cfg Plain d h_changed in
  jreached ex_O (at_ 20) j (lg ex_cfg Plain d h_changed) /\
  q_policy (j_q j) = SSpecific true [2%N; 5%N] [7%N] /\
  denied (q_policy (j_q (st ex_cfg Plain d h_two))) 3 /\ ~ denied (q_policy (j_q j)) 3 /\
  denied (q_policy (j_q j)) 7 /\
  (* a policy that lets nobody in, or denies an allowed address, is refused *)
  is_ok (pre_handle (j_q j) (env [] 0) 9 (PUpdatePolicy (Some [5%N]) None None None None)) = false /\
  is_ok (pre_handle (j_q j) (env [] 0) 9 (PUpdateConfig None (Some (SSpecific false [] [])))) = false.
Proof.
  intros d j. split; [ex_reach|]. split; [vm_compute; reflexivity|].
  split; [vm_compute; left|]. split; [vm_compute; intros H; by apply elem_of_list_singleton in H|].
  split; [vm_compute; left|]. split; vm_compute; reflexivity.
Qed.

(** * C34 *)
(** Every submission is in exactly one of the three states. *)
Theorem C34_one_state O b j l i :
  jreached O b j l ->
  (1 <= i <= q_current (j_q j) ->
     (exists r, q_pending (j_q j) !! i = Some r /\ a_status r = APending /\ a_id r = i /\
        q_completed (j_q j) !! i = None) \/
     (exists r, q_completed (j_q j) !! i = Some r /\ a_id r = i /\ q_pending (j_q j) !! i = None /\
        (a_status r = ARejected \/ exists pid, a_status r = AApproved pid /\
           q_created (j_q j) !! pid = Some i))) /\
  (~ 1 <= i <= q_current (j_q j) ->
     q_pending (j_q j) !! i = None /\ q_completed (j_q j) !! i = None).
Proof. exact (c34_one_state O b j l i). Qed.
Print Assumptions C34_one_state.
(** It starts as pending, stored as sent. *)
Theorem C34_submission_stored O b j l pre b' a e pm post subs :
  jreached O b j l -> ECall pre b' a (JPre e (PPropose pm)) post subs ∈ l ->
  q_kind (j_q pre) = Approval ->
  let i := q_current (j_q pre) + 1 in
  q_current (j_q post) = i /\ j_s post = j_s pre /\
  q_pending (j_q post) !! i = Some (Appr APending i a (with_proposer pm a) (q_deposit (j_q pre))).
Proof. exact (c34_submitted O b j l pre b' a e pm post subs). Qed.
Print Assumptions C34_submission_stored.
(** Only an approval or a rejection, by the approver, moves it. *)
Theorem C34_only_approver O b j l pre b' a m post subs i r :
  jreached O b j l -> ECall pre b' a m post subs ∈ l ->
  q_pending (j_q pre) !! i = Some r -> q_pending (j_q post) !! i <> Some r ->
  a = q_approver (j_q pre) /\ q_pending (j_q post) !! i = None /\
  exists e, (m = JPre e (PApprove i) /\
             q_completed (j_q post) !! i = Some (resolved r (AApproved (s_count (j_s pre) + 1)))) \/
            (m = JPre e (PReject i) /\ q_completed (j_q post) !! i = Some (resolved r ARejected)).
Proof. exact (c34_only_approver O b j l pre b' a m post subs i r). Qed.
Print Assumptions C34_only_approver.
Theorem C34_subs_leave_submissions O b j l pre b' x ok post :
  jreached O b j l -> ESub pre b' x ok post ∈ l -> j_q post = j_q pre.
Proof. exact (c34_subs O b j l pre b' x ok post). Qed.
Print Assumptions C34_subs_leave_submissions.
(** It moves at most once. *)
Theorem C34_resolved_once O b j l b' j' l' i r :
  jreached O b j l -> jlater O b j b' j' l' -> q_completed (j_q j) !! i = Some r ->
  q_completed (j_q j') !! i = Some r /\ q_pending (j_q j') !! i = None.
Proof. exact (c34_once O b j l b' j' l' i r). Qed.
Print Assumptions C34_resolved_once.
(** Approval creates exactly what was submitted. *)
Theorem C34_approval_creates O b j l pre b' a e i post subs :
  jreached O b j l -> ECall pre b' a (JPre e (PApprove i)) post subs ∈ l ->
  let pid := s_count (j_s pre) + 1 in
  exists r p, q_pending (j_q pre) !! i = Some r /\ a = q_approver (j_q pre) /\
    q_completed (j_q post) !! i = Some (resolved r (AApproved pid)) /\
    q_deposits (j_q post) !! pid = Some (a_deposit r, a_proposer r) /\
    q_created (j_q post) !! pid = Some i /\
    s_count (j_s post) = pid /\ s_props (j_s pre) !! pid = None /\
    s_props (j_s post) !! pid = Some p /\ p_msgs p = pm_msgs (a_msg r) /\
    p_proposer p = a_proposer r.
Proof. exact (c34_approve O b j l pre b' a e i post subs). Qed.
Print Assumptions C34_approval_creates.
(** Rejection pays the deposit out exactly once. *)
Theorem C34_rejection_pays O b j l i :
  jreached O b j l ->
  paid_for j (RRejected i) =
    match q_completed (j_q j) !! i with
    | Some (Appr ARejected _ proposer _ (Some d)) =>
        [Paid (RRejected i) (d_denom d)
           (match d_refund d with Always => proposer | _ => q_dao (j_q j) end) (d_amount d)]
    | _ => []
    end.
Proof. exact (c34_reject O b j l i). Qed.
Print Assumptions C34_rejection_pays.
Example C34_case :
  let j := st ex_cfg Approval dep_native h_appr in
  jreached ex_O (at_ 20) j (lg ex_cfg Approval dep_native h_appr) /\
  q_current (j_q j) = 3 /\
  (exists r, q_completed (j_q j) !! 1 = Some r /\ a_status r = AApproved 1 /\
     pm_msgs (a_msg r) = [7; 8]) /\
  (exists r, q_completed (j_q j) !! 2 = Some r /\ a_status r = ARejected) /\
  is_Some (q_pending (j_q j) !! 3) /\
  (p_msgs <$> s_props (j_s j) !! 1) = Some [7; 8] /\ s_count (j_s j) = 1 /\
  j_paid j = [Paid (RRejected 2) (Native 4) 1 25] /\
  (exists pre post subs, ECall pre (at_ 13) 6 (JPre (env [] 0) (PApprove 1)) post subs
     ∈ lg ex_cfg Approval dep_native h_appr).
Proof.
  intros j. split; [ex_reach|]. split; [vm_compute; reflexivity|].
  split; [eexists; split; [vm_compute; reflexivity|split; reflexivity]|].
  split; [eexists; split; [vm_compute; reflexivity|reflexivity]|].
  split; [eexists; vm_compute; reflexivity|]. split; [vm_compute; reflexivity|].
  split; [vm_compute; reflexivity|]. split; [vm_compute; reflexivity|].
  do 3 eexists. vm_compute. do 5 right. left.
Qed.

(** * C35 *)
(** False as stated: a veto makes the module's completion hook fail, so the
    proposal module drops it and anyone may propose. *)
Theorem C35_refuted :
  exists O b j l id aid vetoer,
    ajreached O b j l /\ s_policy (aj_s j) = Module (aj_self j) /\
    v_by_prop (aj_v j) !! id = Some aid /\
    is_ok (ajcall O b j (Call vetoer (AJSingle (Veto id)) [None])) = true /\
    forall outs j' l', ajcall O b j (Call vetoer (AJSingle (Veto id)) outs) = Ok (j', l') ->
      s_policy (aj_s j') = Anyone /\ is_permitted (s_policy (aj_s j')) 777 = true.
Proof. exact c35_refuted. Qed.
Print Assumptions C35_refuted.
Theorem C35_veto_always_refused v self e a id : is_ok (v_handle v self e a (VCompleted id Vetoed)) = false.
Proof. exact (c35_veto_refused v self e a id). Qed.
Print Assumptions C35_veto_always_refused.
(** What holds: the completion of a proposal the module created is handled when
    the proposal was executed or closed, by approving or rejecting the right
    submission.  Missing: the veto. *)
Theorem C35_executed_closed_partial O b j l pre b' a e aid act fits post subs self e' st :
  ajreached O b j l -> ECall pre b' a (AJAppr e (VPropose aid act fits)) post subs ∈ l ->
  st = Closed \/ st = Executed ->
  let id := s_count (aj_s pre) + 1 in
  s_count (aj_s post) = id /\ a = v_approval (aj_v j) /\
  v_handle (aj_v j) self e' (q_module (v_base (aj_v j))) (VCompleted id st) =
    Ok (aj_v j, [if decide (st = Executed) then VSApprove aid else VSReject aid]).
Proof. exact (c35_partial O b j l pre b' a e aid act fits post subs self e' st). Qed.
Print Assumptions C35_executed_closed_partial.
Example C35_case :
  let j := ast ex_cfg h_fwd in
  ajreached ex_O (at_ 20) j (alg ex_cfg h_fwd) /\ s_count (aj_s j) = 2 /\
  v_by_prop (aj_v j) !! 2 = Some 12 /\
  (exists pre post subs, ECall pre (at_ 11) 40 (AJAppr (env [] 0) (VPropose 12 true true)) post subs
     ∈ alg ex_cfg h_fwd /\ s_count (aj_s pre) = 1).
Proof.
  intros j. split; [apply ex_ajreached; ex_side|].
  split; [vm_compute; reflexivity|]. split; [vm_compute; reflexivity|].
  do 3 eexists. split; [vm_compute; do 3 right; left|]. reflexivity.
Qed.

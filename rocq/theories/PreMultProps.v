(** Pre-propose modules of multiple-choice proposals: theorems.  Each is followed by
    what it rests on and by a concrete case meeting its hypotheses. *)
From Verif Require Import Base BaseProofs Exec ExecProofs VotingModel VotingSpec HooksModel
  PreModel PreSpec PreProofs.
From Verif Require Import MultModel MultSpec PreMultModel PreMultSpec PreMultClaims
  PreMultExamples.

(** * C113 *)
(** Over any joint history, whatever the proposal module did before: the deposit of
    a proposal is paid back at most once. *)
Theorem C113_paid_back_at_most_once O b j l id :
  mjreached O b j l -> (length (paid_back j id) <= 1)%nat.
Proof. exact (c113_once O b j l id). Qed.
Print Assumptions C113_paid_back_at_most_once.
(** A payment for a completed proposal: the recorded deposit, whole, in the token
    taken, to the party the recorded refund policy and the final status name. *)
Theorem C113_right_party O b j l p id :
  mjreached O b j l -> p ∈ paid_back j id ->
  exists d a st,
    q_deposits (mj_q j) !! id = Some (Some d, a) /\
    deposited j id = [Taken (KProp id) (pd_denom p) a (pd_amount p)] /\
    pd_denom p = d_denom d /\ pd_amount p = d_amount d /\
    status_of (mj_s j) id = Some st /\
    right_party (d_refund d) st a (q_dao (mj_q j)) (pd_to p).
Proof. exact (c113_right_party O b j l p id). Qed.
Print Assumptions C113_right_party.
(** A completion the module handled was paid. *)
Theorem C113_paid_on_completion O b j l pre b' id st post d a :
  mjreached O b j l ->
  ESub pre b' (FromMult (SCompleted (mj_self pre) id st)) true post ∈ l ->
  q_deposits (mj_q pre) !! id = Some (Some d, a) ->
  length (paid_back j id) = 1%nat.
Proof. exact (c113_paid O b j l pre b' id st post d a). Qed.
Print Assumptions C113_paid_on_completion.
(** The only other payments are the DAO's withdrawals, to the DAO. *)
Theorem C113_nothing_else_leaves O b j l p :
  mjreached O b j l -> p ∈ mj_paid j ->
  (exists id, p ∈ paid_back j id) \/ (pd_why p = RWithdraw /\ pd_to p = q_dao (mj_q j)).
Proof. exact (c113_only O b j l p). Qed.
Print Assumptions C113_nothing_else_leaves.
Example C113_case :
  let d := dep_cw20 OnlyPassed in
  let j := st d h_done in
  mjreached ex_O (at_ 30) j (lg d h_done) /\
  s_count (mj_s j) = 2 /\
  mj_taken j = [Taken (KProp 1) (Cw20 70) 1 100; Taken (KProp 2) (Cw20 70) 5 100] /\
  mj_paid j = [Paid (RCompleted 1) (Cw20 70) 1 100; Paid (RCompleted 2) (Cw20 70) 9 100;
               Paid RWithdraw (Cw20 70) 9 7] /\
  paid_back j 1 = [Paid (RCompleted 1) (Cw20 70) 1 100] /\
  status_of (mj_s j) 1 = Some Executed /\ status_of (mj_s j) 2 = Some Closed.
Proof.
  intros d j. split; [ex_reach|].
  split; [vm_compute; reflexivity|]. split; [vm_compute; reflexivity|].
  split; [vm_compute; reflexivity|]. split; [vm_compute; reflexivity|].
  split; vm_compute; reflexivity.
Qed.
Example C113_case_always :
  let d := dep_cw20 Always in
  paid_back (st d h_done) 2 = [Paid (RCompleted 2) (Cw20 70) 5 100].
Proof. vm_compute. reflexivity. Qed.

(** * C114 *)
(** Every committed submission has brought in exactly the configured deposit, and
    the proposal it made carries it. *)
Theorem C114_deposit_taken O b j l pre b' a e pm post subs :
  mjreached O b j l -> ECall pre b' a (MPre e (MPropose pm)) post subs ∈ l ->
  let id := s_count (mj_s pre) + 1 in
  deposited j id = match q_deposit (mj_q pre) with
                   | Some d => [Taken (KProp id) (d_denom d) a (d_amount d)]
                   | None => []
                   end /\
  q_deposits (mj_q j) !! id = Some (q_deposit (mj_q pre), a) /\
  match q_deposit (mj_q pre) with
  | Some (Deposit (Native x) n _) => e_funds e = [(x, n)]
  | _ => True
  end.
Proof. exact (c114_taken O b j l pre b' a e pm post subs). Qed.
Print Assumptions C114_deposit_taken.
(** That proposal is the next one, by the sender, with the options sent. *)
Theorem C114_creates_what_was_sent O b j l pre b' a e pm post subs :
  mjreached O b j l -> ECall pre b' a (MPre e (MPropose pm)) post subs ∈ l ->
  exists p, s_props (mj_s post) !! (s_count (mj_s pre) + 1) = Some p /\
    s_count (mj_s post) = s_count (mj_s pre) + 1 /\
    p_proposer p = a /\ map ch_msgs (p_choices p) = pm_options pm ++ [[]].
Proof. exact (c114_created O b j l pre b' a e pm post subs). Qed.
Print Assumptions C114_creates_what_was_sent.
(** Missing, short, excess or foreign coins: no proposal. *)
Theorem C114_wrong_coins_refused O b0 j l b a e pm outs d x :
  mjreached O b0 j l ->
  q_deposit (mj_q j) = Some d -> d_denom d = Native x -> e_funds e <> [(x, d_amount d)] ->
  is_ok (mjcall O b j (Call a (MPre e (MPropose pm)) outs)) = false.
Proof. exact (c114_wrong_coins O b0 j l b a e pm outs d x). Qed.
Print Assumptions C114_wrong_coins_refused.
(** A failing cw20 transfer reverts the call: no committed call has one. *)
Theorem C114_no_failed_transfer O b j l pre b' x ok post :
  mjreached O b j l -> ESub pre b' (FromBase x) ok post ∈ l -> ok = true.
Proof. exact (c114_failed_transfer O b j l pre b' x ok post). Qed.
Print Assumptions C114_no_failed_transfer.
(** Later updates do not change what is recorded. *)
Theorem C114_records_kept O b j l b' j' l' id r :
  mjreached O b j l -> mjlater O b j b' j' l' ->
  q_deposits (mj_q j) !! id = Some r -> q_deposits (mj_q j') !! id = Some r.
Proof. exact (c114_stable O b j l b' j' l' id r). Qed.
Print Assumptions C114_records_kept.
(** Every committed submission was allowed by the policy of the time. *)
Theorem C114_every_submission O b j l pre b' a e pm post subs :
  mjreached O b j l -> ECall pre b' a (MPre e (MPropose pm)) post subs ∈ l ->
  may_submit (q_policy (mj_q pre)) a (e_power e) /\ ~ denied (q_policy (mj_q pre)) a.
Proof. exact (c114_checked O b j l pre b' a e pm post subs). Qed.
Print Assumptions C114_every_submission.
Theorem C114_lists_disjoint_and_open O b j l :
  mjreached O b j l ->
  (forall a, a ∈ allowed_list (q_policy (mj_q j)) -> ~ denied (q_policy (mj_q j)) a) /\
  (exists who power, may_submit (q_policy (mj_q j)) who power) /\
  (forall a, denied (q_policy (mj_q j)) a -> forall power, ~ may_submit (q_policy (mj_q j)) a power).
Proof. exact (c114_usable O b j l). Qed.
Print Assumptions C114_lists_disjoint_and_open.
Theorem C114_only_dao_updates O b j l pre b' a m post subs :
  mjreached O b j l -> ECall pre b' a m post subs ∈ l ->
  q_policy (mj_q post) <> q_policy (mj_q pre) \/ q_deposit (mj_q post) <> q_deposit (mj_q pre) ->
  a = q_dao (mj_q pre) /\
  exists e, (exists d p, m = MPre e (MOther (PUpdateConfig d p))) \/
            (exists da dr mem aa ar, m = MPre e (MOther (PUpdatePolicy da dr mem aa ar))).
Proof. exact (c114_only_dao O b j l pre b' a m post subs). Qed.
Print Assumptions C114_only_dao_updates.
Example C114_case :
  let d := dep_cw20 Never in
  let j := st d h_two in
  let h' := [(at_ 15, qp 9 (env [] 0) (PUpdateConfig (Some dep_native) None))] in
  mjreached ex_O (at_ 12) j (lg d h_two) /\
  mjlater ex_O (at_ 12) j (at_ 16) (fst (mjrun ex_O j h')) (snd (mjrun ex_O j h')) /\
  q_deposits (mj_q j) !! 1 = Some (Some d, 1%N) /\
  q_deposit (mj_q (fst (mjrun ex_O j h'))) = Some dep_native /\
  (option_map (fun p => (p_proposer p, map ch_msgs (p_choices p))) (s_props (mj_s j) !! 1) =
     Some (1%N, [[7; 8]; []; [9]; []])) /\
  mj_taken (st d h_changed) =
    [Taken (KProp 1) (Cw20 70) 1 100; Taken (KProp 2) (Cw20 70) 5 100;
     Taken (KProp 3) (Native 4) 3 25] /\
  s_count (mj_s (st d h_changed)) = 3 /\
  (exists pre subs post,
     ECall pre (at_ 10) 1 (MPre (env [] 40) (MPropose (ex_pm [[7; 8]; []; [9]]))) post subs
     ∈ lg d h_two).
Proof.
  intros d j h'. split; [ex_reach|]. split; [ex_reach|].
  split; [vm_compute; reflexivity|]. split; [vm_compute; reflexivity|].
  split; [vm_compute; reflexivity|]. split; [vm_compute; reflexivity|].
  split; [vm_compute; reflexivity|].
  do 3 eexists. vm_compute. right. right. left.
Qed.
Example C114_case_policy :
  let d := dep_cw20 Never in
  let j := st d h_changed in
  mjreached ex_O (at_ 20) j (lg d h_changed) /\
  q_policy (mj_q j) = SSpecific true [2%N; 5%N] [7%N] /\
  denied (q_policy (mj_q (st d h_two))) 3 /\ ~ denied (q_policy (mj_q j)) 3 /\
  denied (q_policy (mj_q j)) 7.
Proof.
  intros d j. split; [ex_reach|]. split; [vm_compute; reflexivity|].
  split; [vm_compute; left|]. split; [vm_compute; intros H; by apply elem_of_list_singleton in H|].
  vm_compute; left.
Qed.

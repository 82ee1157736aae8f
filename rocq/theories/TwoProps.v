(** Two DAOs, one of which approves the proposals of the other (C133). *)
From stdpp Require Import gmap strings.
From Verif Require Import Base Exec ExecProofs VotingModel VotingSpec HooksModel SingleModel SingleSpec
  PreModel PreSpec ApproverModel TwoModel TwoSpec TwoClaims TwoExamples.

(** * C133 *)
(** Until the approving DAO calls its approver back, whatever was approved has a proposal of the
    approving DAO of its own, executed, which the votes of that DAO carried; whatever was rejected has
    one that is closed and which they did not carry. *)
Theorem C133_decided O1 O2 d b0 s0 b s l : sane O2 d -> tstart O1 O2 d b0 s0 ->
  tleads O1 O2 d b0 s0 b s l -> unreset l ->
  (forall i pid, approved s0 s i pid ->
     exists sid, paired s i sid /\ decided_by O2 d (aj_s (t_v s)) sid) /\
  (forall i, rejected s0 s i ->
     exists sid, paired s i sid /\ refused_by O2 d (aj_s (t_v s)) sid).
Proof. exact (c133_decided O1 O2 d b0 s0 b s l). Qed.
Print Assumptions C133_decided.
Example C133_decided_case :
  sane ex_O 19 /\ tstart ex_O ex_O 19 (at_ 5) (start None) /\
  tleads ex_O ex_O 19 (at_ 5) (start None) (result_of None h_both).1.1 (end_ None h_both)
    (result_of None h_both).2 /\
  unreset (result_of None h_both).2 /\
  map (fun x => (x.1, a_status x.2)) (map_to_list (q_completed (j_q (t_j (end_ None h_both))))) =
    [(1, AApproved 1); (2, AApproved 2); (3, ARejected)] /\
  map fst (map_to_list (q_completed (j_q (t_j (start None))))) = [1].
Proof.
  split; [apply SingleExamples.ex_sane|]. split; [apply start_ok; vm_compute; reflexivity|].
  split; [apply ex_leads|]. split; [apply calm_ok; vm_compute; reflexivity|].
  split; vm_compute; reflexivity.
Qed.
(** Until then, and while the approver is among the hooks of the approval contract, every submission
    has one proposal in the approving DAO, without messages. *)
Theorem C133_each O1 O2 d b0 s0 b s l : sane O2 d -> tstart O1 O2 d b0 s0 ->
  tleads O1 O2 d b0 s0 b s l -> unreset l -> unremoved l -> t_todo s = [] ->
  forall i, q_current (j_q (t_j s0)) < i <= q_current (j_q (t_j s)) ->
    exists sid p, paired s i sid /\ s_props (aj_s (t_v s)) !! sid = Some p /\ p_msgs p = [].
Proof. exact (c133_each O1 O2 d b0 s0 b s l). Qed.
Print Assumptions C133_each.
Example C133_each_case :
  unreset (result_of None h_both).2 /\ unremoved (result_of None h_both).2 /\
  t_todo (end_ None h_both) = [] /\ q_current (j_q (t_j (start None))) = 1 /\
  q_current (j_q (t_j (end_ None h_both))) = 4.
Proof.
  destruct (calm_ok (result_of None h_both).2) as [H1 H2]; [vm_compute; reflexivity|].
  split; [exact H1|]. split; [exact H2|]. repeat split; vm_compute; reflexivity.
Qed.
(** Always: what the approver keeps in its lists are pairs of a submission made since it took office
    and a proposal without messages, no two of which share anything. *)
Theorem C133_only O1 O2 d b0 s0 b s l : sane O2 d -> tstart O1 O2 d b0 s0 ->
  tleads O1 O2 d b0 s0 b s l ->
  forall sid i, v_by_prop (aj_v (t_v s)) !! sid = Some i ->
    paired s i sid /\ q_current (j_q (t_j s0)) < i <= q_current (j_q (t_j s)) /\
    exists p, s_props (aj_s (t_v s)) !! sid = Some p /\ p_msgs p = [] /\ p_status p <> ExecutionFailed.
Proof. exact (c133_only O1 O2 d b0 s0 b s l). Qed.
Print Assumptions C133_only.
Example C133_only_case :
  map_to_list (v_by_prop (aj_v (t_v (end_ None h_both)))) = [(1, 2); (2, 3); (3, 4)].
Proof. vm_compute; reflexivity. Qed.
(** Until the approving DAO calls its approver back, and while the approver is its pre-propose module,
    the two are in step between transactions: executed there is approved here, closed there is rejected
    here, undecided there is pending here, and nothing is vetoed. *)
Theorem C133_in_step_partial O1 O2 d b0 s0 b s l : sane O2 d -> tstart O1 O2 d b0 s0 ->
  tleads O1 O2 d b0 s0 b s l -> unreset l -> t_todo s = [] ->
  s_policy (aj_s (t_v s)) = Module (t_boss s) ->
  forall i sid, paired s i sid ->
    (status_is (aj_s (t_v s)) sid Executed <-> exists pid, approved s0 s i pid) /\
    (status_is (aj_s (t_v s)) sid Closed <-> rejected s0 s i) /\
    (unfinished (aj_s (t_v s)) sid <-> is_Some (q_pending (j_q (t_j s)) !! i)) /\
    ~ status_is (aj_s (t_v s)) sid Vetoed.
Proof. exact (c133_in_step O1 O2 d b0 s0 b s l). Qed.
Print Assumptions C133_in_step_partial.
Example C133_in_step_case :
  let s := end_ None h_both in
  t_todo s = [] /\ s_policy (aj_s (t_v s)) = Module (t_boss s) /\
  map (fun x => (x.1, p_status x.2)) (map_to_list (s_props (aj_s (t_v s)))) =
    [(1, Executed); (2, Closed); (3, Open)] /\
  map fst (map_to_list (q_pending (j_q (t_j s)))) = [4].
Proof. repeat split; vm_compute; reflexivity. Qed.
(** While the approval contract is the pre-propose module of the first DAO, each of its proposals made
    since the approver took office is an approved submission, with its messages and its proposer; and
    until the approver is called back the approving DAO has carried it. *)
Theorem C133_source O1 O2 d b0 s0 b s l : sane O2 d -> tstart O1 O2 d b0 s0 ->
  tleads O1 O2 d b0 s0 b s l -> s_policy (j_s (t_j s)) = Module (t_appr s) ->
  forall id p, s_count (j_s (t_j s0)) < id -> s_props (j_s (t_j s)) !! id = Some p ->
  exists i r, approved s0 s i id /\ submission_of (j_q (t_j s)) i = Some r /\
    p_msgs p = pm_msgs (a_msg r) /\ p_proposer p = a_proposer r /\
    (unreset l -> exists sid, paired s i sid /\ decided_by O2 d (aj_s (t_v s)) sid).
Proof. exact (c133_source O1 O2 d b0 s0 b s l). Qed.
Print Assumptions C133_source.
Example C133_source_case :
  let s := end_ None h_both in
  s_policy (j_s (t_j s)) = Module (t_appr s) /\ s_count (j_s (t_j (start None))) = 1 /\
  map (fun x => (x.1, p_msgs x.2, p_proposer x.2)) (map_to_list (s_props (j_s (t_j s)))) =
    [(1, [3], 1%N); (2, [7; 8], 1%N)].
Proof. repeat split; vm_compute; reflexivity. Qed.
(** Not so once a proposal of the approver is vetoed: the approver knows no vetoes, fails, and is no
    longer the pre-propose module.  The submission stays pending, and nobody can submit anything to the
    first DAO any more. *)
Theorem C133_veto_refuted : exists O1 O2 d b0 s0 b s l i sid,
  sane O2 d /\ tstart O1 O2 d b0 s0 /\ tleads O1 O2 d b0 s0 b s l /\ unreset l /\ unremoved l /\
  forced O1 O2 l /\ t_todo s = [] /\ paired s i sid /\
  status_is (aj_s (t_v s)) sid Vetoed /\ is_Some (q_pending (j_q (t_j s)) !! i) /\ blocked O1 O2 s.
Proof. exact c133_veto_refuted. Qed.
Print Assumptions C133_veto_refuted.
(** Nor if the submission cannot be proposed when it is approved, here because it is too large:
    anybody who may submit can prepare it. *)
Theorem C133_void_refuted : exists O1 O2 d b0 s0 b s l i sid,
  sane O2 d /\ tstart O1 O2 d b0 s0 /\ tleads O1 O2 d b0 s0 b s l /\ unreset l /\ unremoved l /\
  forced O1 O2 l /\ t_todo s = [] /\ paired s i sid /\
  status_is (aj_s (t_v s)) sid Executed /\ is_Some (q_pending (j_q (t_j s)) !! i) /\ blocked O1 O2 s.
Proof. exact c133_void_refuted. Qed.
Print Assumptions C133_void_refuted.

(** What is claimed of two DAOs of which one approves the proposals of the other. *)
From stdpp Require Import gmap strings.
From Verif Require Import Base BaseProofs Exec VotingModel VotingSpec HooksModel SingleModel
  SingleSpec PreModel PreSpec ApproverModel TwoModel.

Record tentry := TEntry { te_pre : two; te_block : block; te_ev : tevent; te_post : two }.
(** Steps one after the other; blocks change only between transactions; the approver's proposal
    module is not told to follow another DAO than [d]. *)
Inductive tleads (O1 O2 : oracle) (d : addr) (b0 : block) (s0 : two)
  : block -> two -> list tentry -> Prop :=
| tl_nil : tleads O1 O2 d b0 s0 b0 s0 []
| tl_step b s l b' e s' :
    tleads O1 O2 d b0 s0 b s l -> block_le b b' -> (t_todo s = [] \/ b' = b) ->
    (forall a m, e = TAppr a (AJSingle m) -> keeps_dao d a m) ->
    t_event O1 O2 s b' e = Ok s' ->
    tleads O1 O2 d b0 s0 b' s' (l ++ [TEntry s b' e s']).

(** The moment at which the approver takes up its duty: whatever has happened to the other
    contracts before, it is new, approver of the approval contract and among its hooks. *)
Record tstart (O1 O2 : oracle) (d : addr) (b : block) (s : two) : Prop := {
  ts_first : exists l, jreached O1 b (t_j s) l;
  ts_kind : q_kind (j_q (t_j s)) = Approval;
  ts_approver : q_approver (j_q (t_j s)) = t_boss s;
  ts_hooked : t_boss s ∈ q_hooks (j_q (t_j s));
  ts_once : NoDup (q_hooks (j_q (t_j s)));
  ts_installed : s_policy (j_s (t_j s)) = Module (t_appr s);
  ts_second : exists l, reached_for O2 d b (aj_s (t_v s)) l;
  ts_new : exists pm, v_instantiate pm d (t_appr s) = Ok (aj_v (t_v s));
  ts_boss : s_policy (aj_s (t_v s)) = Module (t_boss s);
  ts_two : t_appr s <> t_boss s;
  ts_idle : t_todo s = [] }.

(** The approving DAO does not call the approver back. *)
Definition unreset (l : list tentry) : Prop :=
  forall e a env, e ∈ l -> te_ev e <> TAppr a (AJAppr env VReset).
(** Nobody takes the approver off the hooks of the approval contract. *)
Definition unremoved (l : list tentry) : Prop :=
  forall e a env, e ∈ l -> te_ev e <> TJoint a (JPre env (PRemoveHook (t_boss (te_pre e)))).

(** The submission, and the proposal made of it in the approving DAO. *)
Definition paired (s : two) (i sid : Z) : Prop :=
  v_by_pre (aj_v (t_v s)) !! i = Some sid /\
  forall sid', v_by_prop (aj_v (t_v s)) !! sid' = Some i <-> sid' = sid.
(** The proposal carries no messages, and was decided by the votes of the DAO [d]: they are the
    powers of the voters at its start, and meet its threshold. *)
Definition decided_by (O : oracle) (d : addr) (s : state) (id : Z) : Prop :=
  exists p, s_props s !! id = Some p /\ p_msgs p = [] /\ p_status p = Executed /\
    p_total p = tp O d (p_start p) /\
    (forall v, tally_of p v = ballot_total s id v) /\
    (forall a bl, s_ballots s !! (id, a) = Some bl -> bl_power bl = vp O d a (p_start p)) /\
    (at_least_billionth (p_thr p) -> outcome_near (p_thr p) (p_total p) (p_votes p)).
(** Likewise refused: the votes do not meet its threshold. *)
Definition refused_by (O : oracle) (d : addr) (s : state) (id : Z) : Prop :=
  exists p, s_props s !! id = Some p /\ p_msgs p = [] /\ p_status p = Closed /\
    p_total p = tp O d (p_start p) /\
    (forall v, tally_of p v = ballot_total s id v) /\
    (forall a bl, s_ballots s !! (id, a) = Some bl -> bl_power bl = vp O d a (p_start p)) /\
    (nine_decimals (p_thr p) -> ~ outcome_near (p_thr p) (p_total p) (p_votes p)).
Definition status_is (s : state) (id : Z) (st : status) : Prop :=
  exists p, s_props s !! id = Some p /\ p_status p = st.
Definition unfinished (s : state) (id : Z) : Prop :=
  exists p, s_props s !! id = Some p /\ ~ terminal (p_status p).

(** Submission [i] was decided since [s0], and how. *)
Definition approved (s0 s : two) (i pid : Z) : Prop :=
  q_completed (j_q (t_j s0)) !! i = None /\
  exists r, q_completed (j_q (t_j s)) !! i = Some r /\ a_status r = AApproved pid.
Definition rejected (s0 s : two) (i : Z) : Prop :=
  q_completed (j_q (t_j s0)) !! i = None /\
  exists r, q_completed (j_q (t_j s)) !! i = Some r /\ a_status r = ARejected.

(** Failures that had to be: the message cannot be executed, or what it asks for cannot. *)
Definition forced (O1 O2 : oracle) (l : list tentry) : Prop :=
  forall e, e ∈ l -> te_ev e = TFail ->
  forall a f s, t_event O1 O2 (te_pre e) (te_block e) (TRun a f) = Ok s ->
  forall a' f', exists m, t_event O1 O2 s (te_block e) (TRun a' f') = Err m.
(** No submission can be completed: what it leaves to be done can neither be done nor fail. *)
Definition blocked (O1 O2 : oracle) (s : two) : Prop :=
  forall b a env pm s', t_event O1 O2 s b (TJoint a (JPre env (PPropose pm))) = Ok s' ->
  t_todo s' <> [] /\ (exists m, t_event O1 O2 s' b TFail = Err m) /\
  forall act fits, exists m, t_event O1 O2 s' b (TRun act fits) = Err m.

(** Specification vocabulary for migrations of the single-choice module. *)
From Verif Require Import Base BaseProofs Exec ExecProofs VotingModel VotingSpec HooksModel
  SingleModel SingleSpec MigModel.

Notation tlog := (log store tmsg sub).
Notation trun O := (run_hist (t_handle O) t_fail t_ok).

(** ** The same data in both versions *)
Definition pct_same (v : vpct) (p : percentage) : Prop :=
  match v, p with
  | VMajority, Majority => True
  | VPercent a, Percent c => a = c
  | _, _ => False
  end.
Definition thr_same (v : vthr) (t : threshold) : Prop :=
  match v, t with
  | VAbsolutePercentage a, AbsolutePercentage c => pct_same a c
  | VThresholdQuorum a q, ThresholdQuorum c r => pct_same a c /\ pct_same q r
  | VAbsoluteCount a, AbsoluteCount c => a = c
  | _, _ => False
  end.
Definition dur_same (v : vdur) (d : duration) : Prop :=
  match v, d with
  | VHeight a, DHeight c => a = c
  | VTime a, DTime c => a = c
  | _, _ => False
  end.
Definition exp_same (v : vexp) (e : expiration) : Prop :=
  match v, e with
  | VAtHeight a, AtHeight c => a = c
  | VAtTime a, AtTime c => a = c
  | VNever, Never => True
  | _, _ => False
  end.
Definition opt_same {A B} (R : A -> B -> Prop) (v : option A) (o : option B) : Prop :=
  match v, o with
  | Some a, Some c => R a c
  | None, None => True
  | _, _ => False
  end.
Definition status_same (v : vstatus) (s : status) : Prop :=
  match v, s with
  | VOpen, Open | VRejected, Rejected | VPassed, Passed | VExecuted, Executed
  | VClosed, Closed => True
  | _, _ => False
  end.
Record same_prop (v : vproposal) (p : proposal) : Prop := {
  sp_proposer : p_proposer p = vr_proposer v;
  sp_start : p_start p = vr_start v;
  sp_min : opt_same exp_same (vr_min v) (p_min p);
  sp_exp : exp_same (vr_exp v) (p_exp p);
  sp_thr : thr_same (vr_thr v) (p_thr p);
  sp_total : p_total p = vr_total v;
  sp_msgs : p_msgs p = vr_msgs v;
  sp_status : status_same (vr_status v) (p_status p);
  sp_yes : v_yes (p_votes p) = vv_yes (vr_votes v);
  sp_no : v_no (p_votes p) = vv_no (vr_votes v);
  sp_abstain : v_abstain (p_votes p) = vv_abstain (vr_votes v);
  sp_revote : p_revote p = vr_revote v }.
Record same_config (v : vconfig) (c : config) : Prop := {
  sc_thr : thr_same (vg_thr v) (c_thr c);
  sc_max : dur_same (vg_max v) (c_max c);
  sc_min : opt_same dur_same (vg_min v) (c_min c);
  sc_only : c_only_members c = vg_only_members v;
  sc_revote : c_revote c = vg_revote v;
  sc_dao : c_dao c = vg_dao v }.

(** ** What version one leaves *)
Definition over (e : vexp) (b : block) : Prop :=
  match e with
  | VAtHeight h => h <= height b
  | VAtTime n => n <= time b
  | VNever => False
  end.
Definition min_over (v : vproposal) (b : block) : Prop :=
  match vr_min v with Some m => over m b | None => True end.
(** A proposal that version one saved before or in block [b]. *)
Record v1_prop (b : block) (v : vproposal) : Prop := {
  vp_start : vr_start v <= height b;
  vp_min : forall b', over (vr_exp v) b' -> min_over v b';
  vp_passed : vr_status v = VPassed \/ vr_status v = VExecuted -> min_over v b;
  vp_revote : vr_revote v = true -> vr_status v <> VOpen -> over (vr_exp v) b;
  vp_thr : forall t, thr_same (vr_thr v) t -> validate_threshold t = Ok tt }.
(** Its storage: numbered proposals, ballots on them, a configuration this version would
    accept, and nothing of this version yet. *)
Record v1_left (b : block) (t : store) : Prop := {
  vl_cfg : exists c, t_vcfg t = Some c /\
    forall c', same_config c c' -> c_veto c' = None -> validate_config c' = Ok tt;
  vl_count : 0 <= t_count t;
  vl_ids : forall id, is_Some (t_vprops t !! id) <-> 1 <= id <= t_count t;
  vl_props : forall id v, t_vprops t !! id = Some v -> v1_prop b v;
  vl_ballots : forall id a bl, t_ballots t !! (id, a) = Some bl -> is_Some (t_vprops t !! id);
  vl_none : t_props t = ∅ /\ t_cfg t = None /\ t_policy t = None }.

(** ** Histories *)
(** Messages that do not read version one's data. *)
Definition no_v1 (a : addr) (m : tmsg) : Prop :=
  match m with TMigrate _ (FromV1 _ _ _) => False | _ => True end.

(** A module of version one, migrated, then run; its data are never read again. *)
Definition upgraded (O : oracle) (b : block) (t : store) (l : tlog) : Prop :=
  exists b0 t0 b1 a v close i veto outs h,
    v1_left b0 t0 /\
    hist_ok b0 ((b1, Call a (TMigrate v (FromV1 close i veto)) outs) :: h) /\
    outs_all no_v1 outs /\ hist_all no_v1 h /\
    trun O t0 ((b1, Call a (TMigrate v (FromV1 close i veto)) outs) :: h) = (t, l) /\
    block_le (hist_end b1 h) b.
(** A module of version one, then any history, further migrations included. *)
Definition grown (O : oracle) (b : block) (t : store) (l : tlog) : Prop :=
  exists b0 t0 h, v1_left b0 t0 /\ hist_ok b0 h /\ trun O t0 h = (t, l) /\
    block_le (hist_end b0 h) b.
(** [t'], seen in block [b'], is a later state of the module in state [t] at [b]. *)
Definition t_later (O : oracle) (P : addr -> tmsg -> Prop) (b : block) (t : store)
    (b' : block) (t' : store) (l : tlog) : Prop :=
  exists h, hist_ok b h /\ hist_all P h /\ trun O t h = (t', l) /\ block_le (hist_end b h) b'.

(** Number of times a log dispatches the messages of proposal [id]. *)
Definition t_dispatch (id : Z) (e : event store tmsg sub) : Z :=
  match e with ECall _ _ _ _ _ subs => lsum (sub_dispatch id) subs | ESub _ _ _ _ _ => 0 end.
Definition t_dispatches (id : Z) (l : tlog) : Z := lsum (t_dispatch id) l.
(** Recorded status. *)
Definition t_status (t : store) (id : Z) : option status := p_status <$> t_props t !! id.

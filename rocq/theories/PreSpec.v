(** Specification vocabulary for the pre-propose modules. *)
From Verif Require Import Base Exec ExecProofs VotingModel HooksModel SingleModel SingleSpec
  PreModel.

(** Who may submit, as a statement: nobody on the denylist; under the specific
    policy only those on the allowlist, or members of the DAO if they are let in. *)
Definition may_submit (p : submission) (who : addr) (power : Z) : Prop :=
  match p with
  | SAnyone deny => who ∉ deny
  | SSpecific members allow deny =>
      who ∉ deny /\ (who ∈ allow \/ (members = true /\ power <> 0))
  end.
Definition denied (p : submission) (who : addr) : Prop :=
  match p with SAnyone deny | SSpecific _ _ deny => who ∈ deny end.
Definition allowed_list (p : submission) : list addr :=
  match p with SAnyone _ => [] | SSpecific _ allow _ => allow end.
Definition denied_list (p : submission) : list addr :=
  match p with SAnyone deny | SSpecific _ _ deny => deny end.

(** Who gets a deposit back under refund policy [r] when the proposal ended
    with status [st].  A proposal whose execution failed had passed. *)
Definition right_party (r : refund) (st : status) (proposer dao to : addr) : Prop :=
  match r with
  | Always => to = proposer
  | Never => to = dao
  | OnlyPassed =>
      ((st = Executed \/ st = ExecutionFailed) /\ to = proposer) \/
      ((st = Closed \/ st = Vetoed) /\ to = dao)
  end.

(** Payments made for one reason; deposits taken under one key. *)
Definition paid_for (j : jstate) (w : reason) : list paid :=
  List.filter (fun p => bool_decide (pd_why p = w)) (j_paid j).
Definition taken_for (j : jstate) (k : key) : list taken :=
  List.filter (fun t => bool_decide (tk_key t = k)) (j_taken j).

(** The key under which the deposit of proposal [id] was taken: the proposal
    itself, or the submission it was created from. *)
Definition prop_key (q : pstate) (id : Z) : option key :=
  match q_kind q with
  | Plain => Some (KProp id)
  | Approval => option_map KAppr (q_created q !! id)
  end.
(** The deposit a payment returns; a withdrawal by the DAO returns none. *)
Definition pay_key (q : pstate) (w : reason) : option key :=
  match w with
  | RCompleted id => prop_key q id
  | RRejected id => Some (KAppr id)
  | RWithdraw => None
  end.
(** All payments returning the deposit taken under [k]. *)
Definition returned (j : jstate) (k : key) : list paid :=
  List.filter (fun p => bool_decide (pay_key (j_q j) (pd_why p) = Some k)) (j_paid j).

Notation jrun O := (run_hist (jhandle O) jon_fail jon_ok).
Notation jcall O := (run_call (jhandle O) jon_fail jon_ok).
Notation jlog := (log jstate jmsg jsub).

(** A pre-propose module (at address [j_self]) instantiated by a proposal module
    with any past, after some joint history [l], observed in block [b]. *)
Definition jreached (O : oracle) (b : block) (j : jstate) (l : jlog) : Prop :=
  exists b0 s0 l0 self k pm d p approver q0 h,
    reached O b0 s0 l0 /\
    pre_instantiate k pm (c_dao (s_cfg s0)) d p approver = Ok q0 /\
    hist_ok b0 h /\ jrun O (JState self s0 q0 [] []) h = (j, l) /\
    block_le (hist_end b0 h) b.
(** A later state of the same system. *)
Definition jlater (O : oracle) (b : block) (j : jstate) (b' : block) (j' : jstate)
    (l : jlog) : Prop :=
  exists h, hist_ok b h /\ jrun O j h = (j', l) /\ block_le (hist_end b h) b'.

(** The submission with approval id [id], and where it stands. *)
Definition submission_of (q : pstate) (id : Z) : option appr :=
  match q_pending q !! id with Some r => Some r | None => q_completed q !! id end.

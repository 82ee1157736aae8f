(** Model of packages/dao-voting/src: voting.rs, threshold.rs, status.rs,
    veto.rs, pre_propose.rs (creation policy). *)
From Verif Require Import Base.

(** voting.rs:10 [PRECISION_FACTOR]. *)
Definition PRECISION_FACTOR : Z := 10 ^ 9.
(** [cosmwasm_std::Decimal] has 18 decimal places: a decimal is the integer
    number of its atomics; [Decimal::one()] is [10^18]. *)
Definition DEC_ONE : Z := 10 ^ 18.

(** voting.rs:21-30 [Vote]. *)
Inductive vote := Yes | No | Abstain.
Global Instance vote_eq_dec : EqDecision vote.
Proof. solve_decision. Defined.

(** voting.rs:13-17 [Votes]. *)
Record votes := Votes { v_yes : Z; v_no : Z; v_abstain : Z }.

(** voting.rs:42-45 [VoteCmp]. *)
Inductive vote_cmp := Greater | Geq.

(** threshold.rs:92-98 [PercentageThreshold]; [Percent p] holds atomics. *)
Inductive percentage := Majority | Percent (p : Z).
Global Instance percentage_eq_dec : EqDecision percentage.
Proof. solve_decision. Defined.

(** threshold.rs:102-121 [Threshold]. *)
Inductive threshold :=
| AbsolutePercentage (p : percentage)
| ThresholdQuorum (t q : percentage)
| AbsoluteCount (n : Z).

(** voting.rs:81-97 [compare_vote_count].  [full_mul] and [Uint256] cannot
    overflow for 128-bit votes and percentages of at most one. *)
Definition compare_vote_count (v : Z) (c : vote_cmp) (total p : Z) : bool :=
  let vs := v * PRECISION_FACTOR in
  let tp := total * PRECISION_FACTOR in
  let th := tp * p / DEC_ONE in
  match c with
  | Greater => th <? vs
  | Geq => th <=? vs
  end.

(** voting.rs:99-114 [does_vote_count_pass]. *)
Definition does_vote_count_pass (weights options : Z) (p : percentage) : bool :=
  if options =? 0 then false
  else match p with
       | Majority => options <? weights * 2
       | Percent p => compare_vote_count weights Geq options p
       end.

(** voting.rs:116-137 [does_vote_count_fail].  [Decimal::one() - percent]
    panics when [percent > 1]; validated configurations exclude this. *)
Definition does_vote_count_fail (no_votes options : Z) (p : percentage) : bool :=
  if options =? 0 then true
  else match p with
       | Majority => options <=? no_votes * 2
       | Percent p => compare_vote_count no_votes Greater options (DEC_ONE - p)
       end.

(** voting.rs:141-147 [Votes::zero]. *)
Definition votes_zero : votes := Votes 0 0 0.

(** voting.rs:161-167 [Votes::add_vote]; [+=] panics on overflow. *)
Definition add_vote (vs : votes) (v : vote) (power : Z) : result votes :=
  match v with
  | Yes => do! y <- add128 (v_yes vs) power; Ok (Votes y (v_no vs) (v_abstain vs))
  | No => do! n <- add128 (v_no vs) power; Ok (Votes (v_yes vs) n (v_abstain vs))
  | Abstain => do! a <- add128 (v_abstain vs) power; Ok (Votes (v_yes vs) (v_no vs) a)
  end.

(** voting.rs:172-178 [Votes::remove_vote]; [-=] panics on underflow. *)
Definition remove_vote (vs : votes) (v : vote) (power : Z) : result votes :=
  match v with
  | Yes => do! y <- sub128 (v_yes vs) power; Ok (Votes y (v_no vs) (v_abstain vs))
  | No => do! n <- sub128 (v_no vs) power; Ok (Votes (v_yes vs) n (v_abstain vs))
  | Abstain => do! a <- sub128 (v_abstain vs) power; Ok (Votes (v_yes vs) (v_no vs) a)
  end.

(** voting.rs:187-189 [Votes::total]; panics on overflow. *)
Definition votes_total (vs : votes) : result Z :=
  do! x <- add128 (v_yes vs) (v_no vs); add128 x (v_abstain vs).

(** voting.rs:229-249 [validate_voting_period]. *)
Definition validate_voting_period (mn : option duration) (mx : duration)
  : result (option duration * duration) :=
  match mn with
  | None => Ok (None, mx)
  | Some mn =>
      match mn, mx with
      | DTime a, DTime b | DHeight a, DHeight b =>
          if a <=? b then Ok (Some mn, mx) else Err "InvalidMinVotingPeriod"
      | _, _ => Err "DurationUnitsConflict"
      end
  end.

(** threshold.rs:124-136 [validate_percentage]. *)
Definition validate_percentage (p : percentage) : result unit :=
  match p with
  | Majority => Ok tt
  | Percent p =>
      if p =? 0 then Err "ZeroThreshold"
      else if DEC_ONE <? p then Err "UnreachableThreshold" else Ok tt
  end.

(** threshold.rs:139-150 [validate_quorum]. *)
Definition validate_quorum (p : percentage) : result unit :=
  match p with
  | Majority => Ok tt
  | Percent q => if DEC_ONE <? q then Err "UnreachableThreshold" else Ok tt
  end.

(** threshold.rs:158-175 [Threshold::validate]. *)
Definition validate_threshold (t : threshold) : result unit :=
  match t with
  | AbsolutePercentage p => validate_percentage p
  | ThresholdQuorum t q => do! _ <- validate_percentage t; validate_quorum q
  | AbsoluteCount n => if n =? 0 then Err "ZeroThreshold" else Ok tt
  end.

(** status.rs [Status]. *)
Inductive status :=
| Open | Rejected | Passed | Executed | Closed | ExecutionFailed
| VetoTimelock (e : expiration) | Vetoed.
Global Instance status_eq_dec : EqDecision status.
Proof. solve_decision. Defined.

(** veto.rs:37-48 [VetoConfig].  The vetoer is kept as an address (Rust
    keeps the string and validates it). *)
Record veto_config := VetoConfig {
  vc_timelock : duration;
  vc_vetoer : addr;
  vc_early_execute : bool;
  vc_veto_before_passed : bool }.

(** veto.rs:51-63 [VetoConfig::validate]. *)
Definition validate_veto (v : veto_config) (max_voting_period : duration) : result unit :=
  match vc_timelock v, max_voting_period with
  | DTime _, DTime _ | DHeight _, DHeight _ => Ok tt
  | _, _ => Err "TimelockDurationUnitMismatch"
  end.
(** The [if let Some(veto)] guard around it, contract.rs:66-69 and 672-675. *)
Definition validate_veto_opt (v : option veto_config) (m : duration) : result unit :=
  match v with None => Ok tt | Some v => validate_veto v m end.

(** veto.rs:75-81, 66-72, 84-90. *)
Definition check_is_vetoer (v : veto_config) (a : addr) : result unit :=
  if (vc_vetoer v =? a)%N then Ok tt else Err "Unauthorized".
Definition check_early_execute_enabled (v : veto_config) : result unit :=
  if vc_early_execute v then Ok tt else Err "NoEarlyExecute".
Definition check_veto_before_passed_enabled (v : veto_config) : result unit :=
  if vc_veto_before_passed v then Ok tt else Err "NoVetoBeforePassed".

(** pre_propose.rs [ProposalCreationPolicy] and [is_permitted]. *)
Inductive creation_policy := Anyone | Module (a : addr).
Definition is_permitted (p : creation_policy) (a : addr) : bool :=
  match p with Anyone => true | Module m => (m =? a)%N end.

(** Specification of proposal outcomes in exact arithmetic, independent of the
    way the contracts compute them. *)
From Verif Require Import Base VotingModel.

(** [w] out of [o] reaches the share [p], in exact arithmetic; nothing is a
    share of nothing.  [Percent a] stands for the fraction [a / 10^18]. *)
Definition share_met (w o : Z) (p : percentage) : Prop :=
  0 < o /\
  match p with
  | Majority => o < 2 * w
  | Percent a => o * a <= w * 10 ^ 18
  end.

(** The same with a tolerance of less than one billionth of a vote: [w] plus
    [10^-9] votes would be strictly more than the share. *)
Definition share_near (w o : Z) (p : percentage) : Prop :=
  0 < o /\
  match p with
  | Majority => o < 2 * w
  | Percent a => o * a < w * 10 ^ 18 + 10 ^ 9
  end.

Definition cast (v : votes) : Z := v_yes v + v_no v + v_abstain v.

(** The configured rule applied to a final tally. *)
Definition outcome (share : Z -> Z -> percentage -> Prop) (t : threshold)
    (total : Z) (v : votes) : Prop :=
  match t with
  | AbsolutePercentage p => share (v_yes v) (total - v_abstain v) p
  | ThresholdQuorum p q =>
      share (cast v) total q /\ share (v_yes v) (v_yes v + v_no v) p
  | AbsoluteCount n => n <= v_yes v
  end.
Definition outcome_met := outcome share_met.
Definition outcome_near := outcome share_near.

(** A tally that is possible with total power [total]. *)
Definition tally_ok (total : Z) (v : votes) : Prop :=
  0 <= v_yes v /\ 0 <= v_no v /\ 0 <= v_abstain v /\ cast v <= total.

(** [v'] extends [v] by further votes. *)
Definition votes_le (v v' : votes) : Prop :=
  v_yes v <= v_yes v' /\ v_no v <= v_no v' /\ v_abstain v <= v_abstain v'.

(** Percentages with at most nine decimals. *)
Definition nine_decimals_p (p : percentage) : Prop :=
  match p with Majority => True | Percent a => (10 ^ 9 | a) end.
Definition nine_decimals (t : threshold) : Prop :=
  match t with
  | AbsolutePercentage p => nine_decimals_p p
  | ThresholdQuorum p q => nine_decimals_p p /\ nine_decimals_p q
  | AbsoluteCount _ => True
  end.

(** The passing percentage is at least one billionth (the quorum may be any). *)
Definition at_least_billionth_p (p : percentage) : Prop :=
  match p with Majority => True | Percent a => 10 ^ 9 <= a end.
Definition at_least_billionth (t : threshold) : Prop :=
  match t with
  | AbsolutePercentage p | ThresholdQuorum p _ => at_least_billionth_p p
  | AbsoluteCount _ => True
  end.

(** Percentages are unsigned and at most one; counts are unsigned. *)
Definition pct_range (p : percentage) : Prop :=
  match p with Majority => True | Percent a => 0 <= a <= 10 ^ 18 end.
Definition thr_range (t : threshold) : Prop :=
  match t with
  | AbsolutePercentage p => pct_range p
  | ThresholdQuorum p q => pct_range p /\ pct_range q
  | AbsoluteCount n => 0 <= n
  end.

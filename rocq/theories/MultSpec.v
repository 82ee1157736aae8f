(** Specification vocabulary for the multiple-choice module. *)
From Verif Require Import Base Exec ExecProofs VotingModel VotingSpec HooksModel MultModel.

(** A voting module whose answers make sense for DAO [d]: powers are unsigned,
    and the total reported while a proposal is created fits 128 bits and covers
    the powers of distinct addresses at the height of that block. *)
Definition sane (O : oracle) (d : addr) : Prop :=
  (forall a h, 0 <= vp O d a h) /\
  (forall b id, tnow O d b id <= U128_MAX) /\
  (forall b id l, NoDup l -> lsum (fun a => vp O d a (height b)) l <= tnow O d b id).

(** Percentages are unsigned in Rust. *)
Definition pct_typed (p : percentage) : Prop :=
  match p with Majority => True | Percent a => 0 <= a end.

(** Configuration updates that keep the module attached to DAO [d]. *)
Definition keeps_dao (d : addr) (a : addr) (m : msg) : Prop :=
  match m with UpdateConfig c => c_dao c = d /\ pct_typed (c_quorum c) | _ => True end.
Definition attached (d : addr) (s : state) : Prop :=
  c_dao (s_cfg s) = d /\ pct_typed (c_quorum (s_cfg s)).

(** Sum of the powers of the ballots recorded on proposal [id] for option [v]. *)
Definition ballot_total (s : state) (id : Z) (v : ovote) : Z :=
  msum (fun k bl => if decide (k.1 = id /\ bl_vote bl = v) then bl_power bl else 0)
       (s_ballots s).
Definition tally_of (p : proposal) (v : ovote) : Z :=
  default 0 (p_votes p !! v).

(** Options and outcomes, independently of the model's winner computation.
    [w] is a possible tally if its entries are unsigned and add up to at most the
    total power; [weights_le] compares tallies option by option. *)
Definition wsum (w : weights) : Z := lsum (fun x : Z => x) w.
Definition tally_ok (total : Z) (w : weights) : Prop :=
  Forall (fun x : Z => 0 <= x) w /\ wsum w <= total.
Definition weights_le (w w' : weights) : Prop := Forall2 Z.le w w'.
(** Option [i] has strictly more weight than every other option. *)
Definition strict_winner (w : weights) (i : nat) : Prop :=
  exists x, w !! i = Some x /\ forall j y, j <> i -> w !! j = Some y -> y < x.
(** "None of the above" is the last option. *)
Definition none_option (n : nat) (i : nat) : Prop := n = S i.
(** The quorum is met and option [i], which is not "none of the above", is the
    strict winner. *)
Definition chosen (quorum : percentage) (total : Z) (w : weights) (i : nat) : Prop :=
  share_near (wsum w) total quorum /\ strict_winner w i /\ ~ none_option (length w) i.

(** A newly instantiated module. *)
Definition fresh (s : state) : Prop :=
  s_count s = 0 /\ s_props s = ∅ /\ s_ballots s = ∅ /\ validate_config (s_cfg s) = Ok tt /\
  s_phooks s = [] /\ s_vhooks s = [].

(** Outcome classes of a reported status. *)
Definition passed_like (st : status) : Prop :=
  match st with Passed | VetoTimelock _ | Executed | ExecutionFailed => True | _ => False end.
Definition rejected_like (st : status) : Prop :=
  match st with Rejected | Closed => True | _ => False end.

(** [s] is the state of a module instantiated some time ago, after some history
    [l] of committed steps, observed in block [b]. *)
Definition reached (O : oracle) (b : block) (s : state) (l : log state msg sub) : Prop :=
  exists b0 s0 h, fresh s0 /\ hist_ok b0 h /\
    run_hist (handle O) on_fail on_ok s0 h = (s, l) /\ block_le (hist_end b0 h) b.
(** The same, with the module attached to DAO [d] throughout. *)
Definition reached_for (O : oracle) (d : addr) (b : block) (s : state)
    (l : log state msg sub) : Prop :=
  exists b0 s0 h, fresh s0 /\ attached d s0 /\ hist_ok b0 h /\ hist_all (keeps_dao d) h /\
    run_hist (handle O) on_fail on_ok s0 h = (s, l) /\ block_le (hist_end b0 h) b.
(** [s'], seen in block [b'], is a later state of the module in state [s] at [b]. *)
Definition later (O : oracle) (b : block) (s : state) (b' : block) (s' : state)
    (l : log state msg sub) : Prop :=
  exists h, hist_ok b h /\ run_hist (handle O) on_fail on_ok s h = (s', l) /\
    block_le (hist_end b h) b'.
Definition later_for (O : oracle) (d : addr) (b : block) (s : state) (b' : block) (s' : state)
    (l : log state msg sub) : Prop :=
  exists h, hist_ok b h /\ hist_all (keeps_dao d) h /\
    run_hist (handle O) on_fail on_ok s h = (s', l) /\ block_le (hist_end b h) b'.

(** Number of times a log dispatches the messages of proposal [id]. *)
Definition sub_dispatch (id : Z) (x : sub) : Z :=
  match x with SExec _ i _ _ => if i =? id then 1 else 0 | _ => 0 end.
Definition ev_dispatch (id : Z) (e : event state msg sub) : Z :=
  match e with ECall _ _ _ _ _ subs => lsum (sub_dispatch id) subs | ESub _ _ _ _ _ => 0 end.
Definition dispatches (id : Z) (l : log state msg sub) : Z := lsum (ev_dispatch id) l.

(** Recorded status; the terms fixed at creation. *)
Definition status_of (s : state) (id : Z) : option status := p_status <$> s_props s !! id.
Definition terms (p : proposal) :=
  (p_proposer p, p_start p, p_min p, p_exp p, p_quorum p, p_total p, p_choices p,
   p_revote p, p_veto p).
Definition terminal (st : status) : Prop :=
  st = Executed \/ st = Closed \/ st = Vetoed \/ st = ExecutionFailed.

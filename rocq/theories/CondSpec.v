(** Specification vocabulary for the Condorcet module. *)
From Verif Require Import Base Exec ExecProofs VotingModel VotingSpec CondModel.

(** Powers are unsigned 128-bit numbers. *)
Definition typed (O : oracle) : Prop :=
  (forall d a h, 0 <= vp O d a h) /\ (forall d b id, 0 <= tnow O d b id <= U128_MAX).
(** The total reported while a proposal is created covers the powers of distinct
    addresses at the height of that block. *)
Definition covers (O : oracle) : Prop :=
  forall d b id l, NoDup l -> lsum (fun a => vp O d a (height b)) l <= tnow O d b id.

(** A complete ranking of the candidates 0 .. n-1. *)
Definition ranking (n : Z) (l : list Z) : Prop :=
  NoDup l /\ forall x, x ∈ l <-> 0 <= x < n.
(** The ranking places [x] before [y]. *)
Fixpoint prefers (l : list Z) (x y : Z) : bool :=
  match l with
  | [] => false
  | z :: l => if z =? x then existsb (Z.eqb y) l else prefers l x y
  end.
(** +1 if [x] is preferred to [y], -1 if [y] is preferred to [x]. *)
Definition sg (l : list Z) (x y : Z) : Z :=
  (if prefers l x y then 1 else 0) - (if prefers l y x then 1 else 0).

(** Ballots not yet cast: rankings with their powers. *)
Definition profile := list (list Z * Z).
Definition profile_ok (n : Z) (l : profile) : Prop :=
  Forall (fun q => ranking n (q.1) /\ 0 <= q.2) l.
Definition profile_power (l : profile) : Z := lsum (fun q : list Z * Z => q.2) l.
Definition profile_margin (l : profile) (x y : Z) : Z :=
  lsum (fun q : list Z * Z => q.2 * sg (q.1) x y) l.

(** Power at the start height of the recorded voters of proposal [id]: in total,
    and that prefers [x] to [y] minus that prefers [y] to [x]. *)
Definition start_of (s : state) (id : Z) : Z :=
  match s_tallies s !! id with Some t => t_start t | None => 0 end.
Definition voted_power (O : oracle) (s : state) (id : Z) : Z :=
  msum (fun k _ => if k.1 =? id then vp O (s_dao s) k.2 (start_of s id) else 0) (s_votes s).
Definition margin (O : oracle) (s : state) (id x y : Z) : Z :=
  msum (fun k l => if k.1 =? id then vp O (s_dao s) k.2 (start_of s id) * sg l x y else 0)
    (s_votes s).

(** [c] beats every other of the candidates 0 .. n-1. *)
Definition beats_all (n : Z) (mg : Z -> Z -> Z) (c : Z) : Prop :=
  0 <= c < n /\ forall y, 0 <= y < n -> y <> c -> 0 < mg c y.

(** The signed value of a cell, and the margin stored for a pair. *)
Definition val (c : cell) : Z :=
  match c with Positive p => p | Zero => 0 | Negative v => - v end.

(** Which candidate a tally reports as winner, if any. *)
Definition reported (w : winner) : option Z :=
  match w with WSome c | WUndisputed c => Some c | _ => None end.

Definition fresh (s : state) : Prop :=
  s_tallies s = ∅ /\ s_props s = ∅ /\ s_votes s = ∅ /\
  validate_config (s_cfg s) = Ok (s_cfg s).
Definition reached (O : oracle) (b : block) (s : state) (l : log state msg sub) : Prop :=
  exists b0 s0 h, fresh s0 /\ hist_ok b0 h /\
    run_hist (handle O) on_fail on_ok s0 h = (s, l) /\ block_le (hist_end b0 h) b.
Definition later (O : oracle) (b : block) (s : state) (b' : block) (s' : state)
    (l : log state msg sub) : Prop :=
  exists h, hist_ok b h /\
    run_hist (handle O) on_fail on_ok s h = (s', l) /\ block_le (hist_end b h) b'.

(** Number of times a log dispatches the messages of proposal [id]. *)
Definition sub_dispatch (id : Z) (x : sub) : Z :=
  match x with SExec _ i _ _ => if i =? id then 1 else 0 end.
Definition ev_dispatch (id : Z) (e : event state msg sub) : Z :=
  match e with ECall _ _ _ _ _ subs => lsum (sub_dispatch id) subs | ESub _ _ _ _ _ => 0 end.
Definition dispatches (id : Z) (l : log state msg sub) : Z := lsum (ev_dispatch id) l.

Definition status_of (s : state) (id : Z) : option cstatus := p_status <$> s_props s !! id.
Definition terminal (st : cstatus) : Prop :=
  st = CExecuted \/ st = CClosed \/ st = CExecutionFailed.
(** Terms fixed at creation. *)
Definition terms (p : proposal) :=
  (p_proposer p, p_quorum p, p_min p, p_close_on_fail p, p_total p, p_id p, p_choices p).
Definition tally_terms (t : tally) := (t_exp t, t_start t, m_n (t_m t)).

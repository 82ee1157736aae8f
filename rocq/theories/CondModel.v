(** Model of contracts/proposal/dao-proposal-condorcet/src: cell.rs, m.rs, vote.rs,
    tally.rs, proposal.rs, config.rs, state.rs and contract.rs.  Line numbers
    refer to contract.rs unless a file is named. *)
From Verif Require Import Base VotingModel.

(** Arithmetic on [u32]: panics outside the range (overflow checks are on). *)
Definition U32_MAX : Z := 2 ^ 32 - 1.
Definition u32 (z : Z) : result Z :=
  if (0 <=? z) && (z <=? U32_MAX) then Ok z else Err "panic".

(** cell.rs:17-22 [Cell]. *)
Inductive cell := Positive (p : Z) | Zero | Negative (v : Z).
(** cell.rs:26-39 [increment]. *)
Definition cell_increment (c : cell) (amount : Z) : result cell :=
  match c with
  | Positive n => do! x <- add128 n amount; Ok (Positive x)
  | Zero => Ok (Positive amount)
  | Negative n =>
      if amount =? n then Ok Zero
      else if n <? amount then Ok (Positive (amount - n))
      else Ok (Negative (n - amount))
  end.
(** cell.rs:41-54 [decrement]. *)
Definition cell_decrement (c : cell) (amount : Z) : result cell :=
  match c with
  | Positive n =>
      if amount =? n then Ok Zero
      else if n <? amount then Ok (Negative (amount - n))
      else Ok (Positive (n - amount))
  | Zero => Ok (Negative amount)
  | Negative n => do! x <- add128 n amount; Ok (Negative x)
  end.
(** cell.rs:56-62 [invert]. *)
Definition cell_invert (c : cell) : cell :=
  match c with Positive n => Negative n | Zero => Zero | Negative n => Positive n end.

(** m.rs:21-30 [M]: the cells above the diagonal of an antisymmetric matrix. *)
Record matrix := Matrix { m_cells : list cell; m_n : Z }.
(** m.rs:48-63 [M::new]. *)
Definition matrix_new (n : Z) : result matrix :=
  do! a <- u32 (n - 1); do! sq <- u32 (n * a);
  Ok (Matrix (replicate (Z.to_nat (sq / 2)) Zero) n).
(** m.rs:69-90 [M::index]. *)
Definition index (m : matrix) (x y : Z) : result Z :=
  do! whole <- u32 (y * m_n m);
  do! y1 <- u32 (y + 1);
  do! tri2 <- u32 (y1 * y);
  do! row <- u32 (whole - tri2 / 2);
  do! offset <- u32 (x - y1);
  u32 (row + offset).
(** [self.cells[i]]: panics out of range. *)
Definition cell_at (m : matrix) (i : Z) : result cell :=
  some! c <- m_cells m !! Z.to_nat i else "index out of bounds"; Ok c.
(** m.rs:92-99 [get]; the recursion goes one level deep. *)
Definition get (m : matrix) (x y : Z) : result cell :=
  if x <? y then do! i <- index m y x; do! c <- cell_at m i; Ok (cell_invert c)
  else do! i <- index m x y; cell_at m i.
(** m.rs:101-119 [increment], [decrement]: each calls the other once when the
    index is below the diagonal. *)
Definition upd (m : matrix) (x y : Z) (f : cell -> result cell) : result matrix :=
  do! i <- index m x y; do! c <- cell_at m i; do! c' <- f c;
  Ok (Matrix (<[Z.to_nat i := c']> (m_cells m)) (m_n m)).
Definition increment (m : matrix) (x y : Z) (amount : Z) : result matrix :=
  if x <? y then upd m y x (fun c => cell_decrement c amount)
  else upd m x y (fun c => cell_increment c amount).
Definition decrement (m : matrix) (x y : Z) (amount : Z) : result matrix :=
  if x <? y then upd m y x (fun c => cell_increment c amount)
  else upd m x y (fun c => cell_decrement c amount).

(** m.rs:32-46 [Stats]. *)
Inductive stats :=
| PositiveColumn (col min_margin : Z)
| NoPositiveColumn (no_winnable_columns : bool).

(** m.rs:135-154, the loop over one column; the accumulator is
    (distance_from_positivity, min_margin, max_negative).  The 256-bit distance
    cannot overflow: fewer than 2^32 summands of at most 2^128. *)
Definition col_acc : Type := Z * Z * Z.
Fixpoint column (m : matrix) (col : Z) (rows : list Z) (acc : col_acc) : result col_acc :=
  match rows with
  | [] => Ok acc
  | row :: rows =>
      if row =? col then column m col rows acc
      else
        let '(dist, min_margin, max_negative) := acc in
        do! c <- get m col row;
        match c with
        | Positive p =>
            column m col rows (dist, if p <? min_margin then p else min_margin, max_negative)
        | Negative v =>
            column m col rows
              (dist + (v + 1), min_margin, if max_negative <? v then v else max_negative)
        | Zero => column m col rows (dist + 1, min_margin, max_negative)
        end
  end.
(** m.rs:128-174 [stats]; 0..n is [seqZ 0 n]. *)
Fixpoint columns (m : matrix) (outstanding : Z) (cols : list Z) (no_winnable : bool)
  : result stats :=
  match cols with
  | [] => Ok (NoPositiveColumn no_winnable)
  | col :: cols =>
      do! ' (dist, min_margin, max_negative) <-
        column m col (seqZ 0 (m_n m)) (0, U128_MAX, 0);
      if dist =? 0 then Ok (PositiveColumn col min_margin)
      else columns m outstanding cols
             (if (dist <=? outstanding * (m_n m - 1)) && (max_negative <? outstanding)
              then false else no_winnable)
  end.
Definition get_stats (m : matrix) (outstanding : Z) : result stats :=
  columns m outstanding (seqZ 0 (m_n m)) true.

(** vote.rs:10-28 [Vote::new]; a vote is the list of candidates from most to
    least favoured. *)
Fixpoint check_vote (vote seen : list Z) (candidates : Z) : result (list Z) :=
  match vote with
  | [] => Ok seen
  | v :: vote =>
      do! v <- u32 v; (* the message carries [u32]s *)
      check! v <? candidates else "InvalidCandidate";
      check! negb (existsb (Z.eqb v) seen) else "DuplicateCandidate";
      check_vote vote (seen ++ [v]) candidates
  end.
Definition vote_new (vote : list Z) (candidates : Z) : result (list Z) :=
  check! Z.of_nat (length vote) =? candidates else "LenMissmatch";
  check_vote vote [] candidates.

(** tally.rs:35-42 [Winner]. *)
Inductive winner := WNever | WNone | WSome (c : Z) | WUndisputed (c : Z).
(** tally.rs:21-33 [Tally]. *)
Record tally := Tally {
  t_m : matrix;
  t_exp : expiration;
  t_start : Z;
  t_outstanding : Z;
  t_winner : winner }.
(** tally.rs:97-116 [winner]. *)
Definition compute_winner (m : matrix) (outstanding : Z) : result winner :=
  do! st <- get_stats m outstanding;
  match st with
  | PositiveColumn col min_margin =>
      if outstanding <? min_margin then Ok (WUndisputed col) else Ok (WSome col)
  | NoPositiveColumn true => Ok WNever
  | NoPositiveColumn false => Ok WNone
  end.
(** tally.rs:45-64 [Tally::new]. *)
Definition tally_new (candidates total start : Z) (e : expiration) : result tally :=
  do! m <- matrix_new candidates;
  do! w <- compute_winner m total;
  Ok (Tally m e start total w).
(** tally.rs:84-95 [add_vote].  [defeats] is the inner loop, [record_vote] the
    outer: [before] holds the preferences already passed. *)
Fixpoint defeats (m : matrix) (preference : Z) (before : list Z) (power : Z) : result matrix :=
  match before with
  | [] => Ok m
  | d :: before =>
      do! m' <- decrement m preference d power; defeats m' preference before power
  end.
Fixpoint record_vote (m : matrix) (before vote : list Z) (power : Z) : result matrix :=
  match vote with
  | [] => Ok m
  | preference :: vote =>
      do! m' <- defeats m preference before power;
      record_vote m' (before ++ [preference]) vote power
  end.
Definition tally_add_vote (t : tally) (vote : list Z) (power : Z) : result tally :=
  do! m <- record_vote (t_m t) [] vote power;
  do! out <- sub128 (t_outstanding t) power;
  do! w <- compute_winner m out;
  Ok (Tally m (t_exp t) (t_start t) out w).

(** proposal.rs:32-48 [Status]. *)
Inductive cstatus :=
| COpen | CRejected | CPassed (w : Z) | CExecuted | CClosed | CExecutionFailed.
Global Instance cstatus_eq_dec : EqDecision cstatus.
Proof. solve_decision. Defined.

(** proposal.rs:15-29 [Proposal]; a choice (msg.rs:11-13) is its messages. *)
Record proposal := Proposal {
  p_status : cstatus;
  p_proposer : addr;
  p_quorum : percentage;
  p_min : option expiration;
  p_close_on_fail : bool;
  p_total : Z;
  p_id : Z;
  p_choices : list (list Z) }.
Definition set_status (p : proposal) (st : cstatus) : proposal :=
  Proposal st (p_proposer p) (p_quorum p) (p_min p) (p_close_on_fail p) (p_total p)
    (p_id p) (p_choices p).

(** proposal.rs:55-108 [status]. *)
Definition status_at (b : block) (p : proposal) (t : tally) : result cstatus :=
  match p_status p with
  | COpen =>
      if (match p_min p with Some m => negb (is_expired m b) | None => false end)
      then Ok COpen
      else
        let expired := is_expired (t_exp t) b in
        do! turnout <- sub128 (p_total p) (t_outstanding t);
        let quorum := does_vote_count_pass turnout (p_total p) (p_quorum p) in
        if expired && negb quorum then Ok CRejected
        else match t_winner t with
             | WNever => Ok CRejected
             | WNone => Ok (if expired then CRejected else COpen)
             | WSome w => Ok (if expired && quorum then CPassed w else COpen)
             | WUndisputed w => Ok (if quorum then CPassed w else COpen)
             end
  | st => Ok st
  end.
(** proposal.rs:133-136 [update_status]. *)
Definition update_status (b : block) (p : proposal) (t : tally) : result proposal :=
  do! st <- status_at b p t; Ok (set_status p st).

(** config.rs:18-24 [Config]. *)
Record config := Config {
  c_quorum : percentage;
  c_period : duration;
  c_min : option duration;
  c_close_on_fail : bool }.
(** config.rs:27-37 [into_checked]. *)
Definition validate_config (c : config) : result config :=
  do! _ <- validate_quorum (c_quorum c);
  do! ' (mn, mx) <- validate_voting_period (c_min c) (c_period c);
  Ok (Config (c_quorum c) mx mn (c_close_on_fail c)).

(** state.rs:6-11. *)
Record state := State {
  s_dao : addr;
  s_cfg : config;
  s_tallies : gmap Z tally;
  s_props : gmap Z proposal;
  s_votes : gmap (Z * addr) (list Z) }.
(** state.rs:13-19 [next_proposal_id]: one more than the largest key. *)
Definition next_proposal_id (s : state) : result Z :=
  u32 (map_fold (fun id _ acc => Z.max id acc) 0 (s_props s) + 1).

(** Answers of the DAO's voting module: power at a height; power and total asked
    for without a height, in block [b] while proposal [id] is being created. *)
Record oracle := Oracle {
  vp : addr -> addr -> Z -> Z;
  vnow : addr -> addr -> block -> Z -> Z;
  tnow : addr -> block -> Z -> Z }.

(** msg.rs:16-22 [ExecuteMsg]. *)
Inductive msg :=
| Propose (choices : list (list Z))
| CastVote (id : Z) (vote : list Z)
| Execute (id : Z)
| Close (id : Z)
| SetConfig (c : config).

(** The only sub-message: [ExecuteProposalHook] of the DAO with the winner's
    messages (proposal.rs:156-173); [catch] is [reply_on_error]. *)
Inductive sub := SExec (dao : addr) (id : Z) (msgs : list Z) (catch : bool).

(** 100-141 [execute_propose].  The number of choices is below 2^32 (it is cast
    to [u32]). *)
Definition execute_propose (O : oracle) (s : state) (b : block) (sender : addr)
    (choices : list (list Z)) : result (state * list sub) :=
  do! id <- next_proposal_id s;
  check! negb (vnow O (s_dao s) sender b id =? 0) else "ZeroVotingPower";
  let total := tnow O (s_dao s) b id in
  check! negb (length choices =? 0)%nat else "ZeroChoices";
  let choices := choices ++ [[]] in
  do! t <- tally_new (Z.of_nat (length choices)) total (height b) (after (c_period (s_cfg s)) b);
  do! p <- update_status b
    (Proposal COpen sender (c_quorum (s_cfg s)) (option_map (fun d => after d b) (c_min (s_cfg s)))
       (c_close_on_fail (s_cfg s)) total id choices) t;
  Ok (State (s_dao s) (s_cfg s) (<[id := t]> (s_tallies s)) (<[id := p]> (s_props s)) (s_votes s),
      []).

(** 143-177 [execute_vote]. *)
Definition execute_vote (O : oracle) (s : state) (b : block) (sender : addr) (id : Z)
    (vote : list Z) : result (state * list sub) :=
  some! t <- s_tallies s !! id else "not found";
  let power := vp O (s_dao s) sender (t_start t) in
  check! negb (power =? 0) else "ZeroVotingPower";
  check! (match s_votes s !! (id, sender) with Some _ => false | None => true end) else "Voted";
  check! negb (is_expired (t_exp t) b) else "Expired";
  do! vote <- vote_new vote (m_n (t_m t));
  do! t' <- tally_add_vote t vote power;
  Ok (State (s_dao s) (s_cfg s) (<[id := t']> (s_tallies s)) (s_props s)
        (<[(id, sender) := vote]> (s_votes s)), []).

(** 179-210 [execute_execute] and proposal.rs:156-173 [set_executed]. *)
Definition execute_execute (O : oracle) (s : state) (b : block) (sender : addr) (id : Z)
  : result (state * list sub) :=
  some! t <- s_tallies s !! id else "not found";
  check! negb (vp O (s_dao s) sender (t_start t) =? 0) else "ZeroVotingPower";
  some! p <- s_props s !! id else "not found";
  do! p <- update_status b p t;
  match p_status p with
  | CPassed w =>
      some! ms <- p_choices p !! Z.to_nat w else "index out of bounds";
      Ok (State (s_dao s) (s_cfg s) (s_tallies s) (<[id := set_status p CExecuted]> (s_props s))
            (s_votes s), [SExec (s_dao s) (p_id p) ms (p_close_on_fail p)])
  | _ => Err "Unexecutable"
  end.

(** 212-231 [execute_close]. *)
Definition execute_close (s : state) (b : block) (id : Z) : result (state * list sub) :=
  some! t <- s_tallies s !! id else "not found";
  some! p <- s_props s !! id else "not found";
  do! p <- update_status b p t;
  match p_status p with
  | CRejected =>
      Ok (State (s_dao s) (s_cfg s) (s_tallies s) (<[id := set_status p CClosed]> (s_props s))
            (s_votes s), [])
  | _ => Err "Unclosable"
  end.

(** 233-246 [execute_set_config]. *)
Definition execute_set_config (s : state) (sender : addr) (c : config) : result (state * list sub) :=
  check! (sender =? s_dao s)%N else "NotDao";
  do! c <- validate_config c;
  Ok (State (s_dao s) c (s_tallies s) (s_props s) (s_votes s), []).

(** 83-98 [execute]. *)
Definition handle (O : oracle) (s : state) (b : block) (sender : addr) (m : msg)
  : result (state * list sub) :=
  match m with
  | Propose choices => execute_propose O s b sender choices
  | CastVote id vote => execute_vote O s b sender id vote
  | Execute id => execute_execute O s b sender id
  | Close id => execute_close s b id
  | SetConfig c => execute_set_config s sender c
  end.

(** 267-284 [reply] (the reply id decodes to the proposal id, C20). *)
Definition on_fail (s : state) (b : block) (x : sub) : result state :=
  match x with
  | SExec _ id _ true =>
      some! p <- s_props s !! id else "not found";
      Ok (State (s_dao s) (s_cfg s) (s_tallies s)
            (<[id := set_status p CExecutionFailed]> (s_props s)) (s_votes s))
  | SExec _ _ _ false => Err "sub-message failed"
  end.
Definition on_ok (s : state) (b : block) (x : sub) (_ : addr) : result state := Ok s.

(** 249-256 [query] of a proposal: its status now. *)
Definition query_status (s : state) (b : block) (id : Z) : result cstatus :=
  some! p <- s_props s !! id else "not found";
  some! t <- s_tallies s !! id else "not found";
  status_at b p t.

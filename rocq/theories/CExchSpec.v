(** What is claimed of the Condorcet proposals of a DAO that exchanges its voting module. *)
From stdpp Require Import gmap strings.
From Verif Require Import Base Exec ExecProofs VotingModel VotingSpec CondModel CondSpec CExchModel.

(** Every voting module gives answers of the right type; every one reports totals that cover the powers. *)
Definition all_typed (O : addr -> oracle) : Prop := forall v, typed (O v).
Definition all_cover (O : addr -> oracle) : Prop := forall v, covers (O v).

(** A new proposal module with some voting module, after any history. *)
Definition xreached (O : addr -> oracle) (b : block) (xs : xstate) (l : log xstate xmsg sub) : Prop :=
  exists b0 xs0 h, fresh (x_s xs0) /\ hist_ok b0 h /\
    run_hist (xhandle O) xon_fail xon_ok xs0 h = (xs, l) /\ block_le (hist_end b0 h) b.
Definition xlater (O : addr -> oracle) (b : block) (xs : xstate) (b' : block) (xs' : xstate)
    (l : log xstate xmsg sub) : Prop :=
  exists h, hist_ok b h /\
    run_hist (xhandle O) xon_fail xon_ok xs h = (xs', l) /\ block_le (hist_end b h) b'.

(** Proposal [id] was made in block [b] while [v] was the voting module. *)
Definition born (l : log xstate xmsg sub) (id : Z) (b : block) (v : addr) : Prop :=
  exists pre a cs post subs, ECall pre b a (XCond (Propose cs)) post subs ∈ l /\
    s_props (x_s pre) !! id = None /\ is_Some (s_props (x_s post) !! id) /\ x_mod pre = v.
(** [a] cast the ranking [r] on proposal [id] while [v] was the voting module. *)
Definition cast (l : log xstate xmsg sub) (id : Z) (a : addr) (r : list Z) (v : addr) : Prop :=
  exists pre b post subs, ECall pre b a (XCond (CastVote id r)) post subs ∈ l /\ x_mod pre = v.
(** An exchange of the voting module, in the state [pre]. *)
Definition exchanged (l : log xstate xmsg sub) (pre : xstate) (b : block) (v : addr) : Prop :=
  exists a post subs, ECall pre b a (XExchange v) post subs ∈ l.
(** Whenever the voting module is exchanged, voting has ended on all proposals, except those
    executed or closed, and those for whose electorate the new module answers as the old. *)
Definition calm (O : addr -> oracle) (l : log xstate xmsg sub) : Prop :=
  forall pre b v id p t, exchanged l pre b v ->
    s_props (x_s pre) !! id = Some p -> s_tallies (x_s pre) !! id = Some t ->
    terminal (p_status p) \/ is_expired (t_exp t) b = true \/
    forall a, vp (O v) (s_dao (x_s pre)) a (t_start t) = vp (O (x_mod pre)) (s_dao (x_s pre)) a (t_start t).

(** The recorded rankings of proposal [id], each weighed by [pw]. *)
Definition cast_power (pw : addr -> Z) (s : state) (id : Z) : Z :=
  msum (fun k _ => if k.1 =? id then pw k.2 else 0) (s_votes s).
Definition cast_margin (pw : addr -> Z) (s : state) (id x y : Z) : Z :=
  msum (fun k l => if k.1 =? id then pw k.2 * sg l x y else 0) (s_votes s).
(** [pw] weighs every voter of proposal [id] as the voting module of the moment did when they voted. *)
Definition weighs (O : addr -> oracle) (l : log xstate xmsg sub) (s : state) (id h : Z) (pw : addr -> Z) : Prop :=
  forall a r, s_votes s !! (id, a) = Some r ->
    exists v, cast l id a r v /\ pw a = vp (O v) (s_dao s) a h.

(** Number of times a log dispatches the messages of proposal [id]. *)
Definition xdispatches (id : Z) (l : log xstate xmsg sub) : Z :=
  lsum (fun e => match e with ECall _ _ _ _ _ subs => lsum (sub_dispatch id) subs | ESub _ _ _ _ _ => 0 end) l.

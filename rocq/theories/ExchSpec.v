(** What is claimed of the proposals of a DAO that exchanges its voting module. *)
From stdpp Require Import gmap strings.
From Verif Require Import Base Exec ExecProofs VotingModel VotingSpec HooksModel SingleModel SingleSpec
  WholeSpec ExchModel.

(** Every voting module gives answers that make sense. *)
Definition all_sane (O : addr -> oracle) (d : addr) : Prop := forall v, sane (O v) d.

(** The proposal module stays with the DAO. *)
Definition xkeeps (d a : addr) (m : xmsg) : Prop :=
  match m with XSingle m => keeps_dao d a m | XExchange _ => True end.
(** A new proposal module in DAO [d] with some voting module, after any history. *)
Definition xreached (O : addr -> oracle) (d : addr) (b : block) (xs : xstate)
    (l : log xstate xmsg sub) : Prop :=
  exists b0 xs0 h, fresh (x_s xs0) /\ attached d (x_s xs0) /\ hist_ok b0 h /\ hist_all (xkeeps d) h /\
    run_hist (xhandle O) xon_fail xon_ok xs0 h = (xs, l) /\ block_le (hist_end b0 h) b.
Definition xlater (O : addr -> oracle) (d : addr) (b : block) (xs : xstate) (b' : block)
    (xs' : xstate) (l : log xstate xmsg sub) : Prop :=
  exists h, hist_ok b h /\ hist_all (xkeeps d) h /\
    run_hist (xhandle O) xon_fail xon_ok xs h = (xs', l) /\ block_le (hist_end b h) b'.

(** An exchange of the voting module, in the state [pre]. *)
Definition exchanged (l : log xstate xmsg sub) (pre : xstate) (b : block) (v : addr) : Prop :=
  exists a post subs, ECall pre b a (XExchange v) post subs ∈ l.
(** Proposal [id] was made while [v] was the voting module. *)
Definition born (l : log xstate xmsg sub) (id : Z) (v : addr) : Prop :=
  exists pre b a pm post subs, ECall pre b a (XSingle (Propose pm)) post subs ∈ l /\
    s_props (x_s pre) !! id = None /\ is_Some (s_props (x_s post) !! id) /\ x_mod pre = v.
(** Whenever the voting module is exchanged, voting has ended on all proposals, except those
    executed, closed or vetoed, and those for whose electorate the new module answers as the old. *)
Definition calm (O : addr -> oracle) (d : addr) (l : log xstate xmsg sub) : Prop :=
  forall pre b v id p, exchanged l pre b v -> s_props (x_s pre) !! id = Some p ->
    terminal (p_status p) \/ is_expired (p_exp p) b = true \/
    forall a, vp (O v) d a (p_start p) = vp (O (x_mod pre)) d a (p_start p).

(** What those who voted [v] have according to one voting module. *)
Definition backing (o : oracle) (d : addr) (s : state) (id h : Z) (v : vote) : Z :=
  lsum (fun a => vp o d a h) (voters s id v).

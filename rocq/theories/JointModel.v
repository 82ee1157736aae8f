(** The proposal modules joined to a voting module that answers from its own state.

    [power t a h] and [total t h] are the module's answers for a height; a missing
    height means the current one (packages/dao-voting/src/voting.rs:203-225 and the
    voting modules' queries).  [active t b supply] is its answer to [IsActive] in
    block [b] when the token supply is [supply]. *)
From Verif Require Import Base Exec ExecProofs Plain VotingModel HooksModel Compose.
From Verif Require SingleModel SingleSpec MultModel MultSpec CondModel CondSpec.

Section joint.
  Context {T MV XV : Type}.
  Variable handle_v : T -> block -> addr -> MV -> result (T * list XV).
  Variable power : T -> addr -> Z -> Z.
  Variable total : T -> Z -> Z.
  Variable active : T -> block -> Z -> bool.
  (** How a voting module is reached: block, state and log. *)
  Variable vreached : block -> T -> log T MV XV -> Prop.

  (** dao-proposal-single; messages carry the token supply at the time. *)
  Definition single_ask (t : T) : SingleModel.oracle :=
    SingleModel.Oracle (fun _ a h => power t a h) (fun _ h => total t h).
  Definition single_look (t : T) (b : block) (m : SingleModel.msg * Z) : SingleModel.msg :=
    match m.1 with
    | SingleModel.Propose pm =>
        SingleModel.Propose (SingleModel.ProposeMsg (SingleModel.pm_msgs pm)
          (SingleModel.pm_proposer pm) (SingleModel.pm_vote pm) (active t b m.2)
          (SingleModel.pm_fits pm))
    | m => m
    end.
  Definition single_run :=
    run_hist (pair_handle SingleModel.handle handle_v single_ask single_look)
      (pair_fail (XV := XV) SingleModel.on_fail) (pair_ok (XV := XV) SingleModel.on_ok).
  Notation slog := (log (SingleModel.state * T) (SingleModel.msg * Z + MV) (SingleModel.sub + XV)).
  (** A fresh proposal module of DAO [d] next to a voting module with any past,
      after a joint history [l]. *)
  Definition single_reached (d : addr) (b : block) (s : SingleModel.state) (t : T) (l : slog) : Prop :=
    exists b0 s0 t0 l0 h, vreached b0 t0 l0 /\
      SingleSpec.fresh s0 /\ SingleSpec.attached d s0 /\ hist_ok b0 h /\
      hist_all (pair_msg single_look (SingleSpec.keeps_dao d)) h /\
      single_run (s0, t0) h = ((s, t), l) /\ block_le (hist_end b0 h) b.
  Definition single_later (d : addr) (b : block) (s : SingleModel.state) (t : T)
      (b' : block) (s' : SingleModel.state) (t' : T) (l : slog) : Prop :=
    exists h, hist_ok b h /\ hist_all (pair_msg single_look (SingleSpec.keeps_dao d)) h /\
      single_run (s, t) h = ((s', t'), l) /\ block_le (hist_end b h) b'.

  (** dao-proposal-multiple. *)
  Definition mult_ask (t : T) : MultModel.oracle :=
    MultModel.Oracle (fun _ a h => power t a h) (fun _ b _ => total t (height b)).
  Definition mult_look (t : T) (b : block) (m : MultModel.msg * Z) : MultModel.msg :=
    match m.1 with
    | MultModel.Propose pm =>
        MultModel.Propose (MultModel.ProposeMsg (MultModel.pm_options pm)
          (MultModel.pm_proposer pm) (MultModel.pm_vote pm) (active t b m.2)
          (MultModel.pm_fits pm))
    | m => m
    end.
  Definition mult_run :=
    run_hist (pair_handle MultModel.handle handle_v mult_ask mult_look)
      (pair_fail (XV := XV) MultModel.on_fail) (pair_ok (XV := XV) MultModel.on_ok).
  Notation mlog := (log (MultModel.state * T) (MultModel.msg * Z + MV) (MultModel.sub + XV)).
  Definition mult_reached (d : addr) (b : block) (s : MultModel.state) (t : T) (l : mlog) : Prop :=
    exists b0 s0 t0 l0 h, vreached b0 t0 l0 /\
      MultSpec.fresh s0 /\ MultSpec.attached d s0 /\ hist_ok b0 h /\
      hist_all (pair_msg mult_look (MultSpec.keeps_dao d)) h /\
      mult_run (s0, t0) h = ((s, t), l) /\ block_le (hist_end b0 h) b.
  Definition mult_later (d : addr) (b : block) (s : MultModel.state) (t : T)
      (b' : block) (s' : MultModel.state) (t' : T) (l : mlog) : Prop :=
    exists h, hist_ok b h /\ hist_all (pair_msg mult_look (MultSpec.keeps_dao d)) h /\
      mult_run (s, t) h = ((s', t'), l) /\ block_le (hist_end b h) b'.

  (** dao-proposal-condorcet. *)
  Definition cond_ask (t : T) : CondModel.oracle :=
    CondModel.Oracle (fun _ a h => power t a h) (fun _ a b _ => power t a (height b))
      (fun _ b _ => total t (height b)).
  Definition cond_look (t : T) (b : block) (m : CondModel.msg) : CondModel.msg := m.
  Definition cond_run :=
    run_hist (pair_handle CondModel.handle handle_v cond_ask cond_look)
      (pair_fail (XV := XV) CondModel.on_fail) (pair_ok (XV := XV) CondModel.on_ok).
  Notation clog := (log (CondModel.state * T) (CondModel.msg + MV) (CondModel.sub + XV)).
  Definition cond_reached (b : block) (s : CondModel.state) (t : T) (l : clog) : Prop :=
    exists b0 s0 t0 l0 h, vreached b0 t0 l0 /\ CondSpec.fresh s0 /\ hist_ok b0 h /\
      cond_run (s0, t0) h = ((s, t), l) /\ block_le (hist_end b0 h) b.
  Definition cond_later (b : block) (s : CondModel.state) (t : T)
      (b' : block) (s' : CondModel.state) (t' : T) (l : clog) : Prop :=
    exists h, hist_ok b h /\ cond_run (s, t) h = ((s', t'), l) /\ block_le (hist_end b h) b'.
End joint.

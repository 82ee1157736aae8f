(** Specification vocabulary for pre-propose modules of multiple-choice proposals. *)
From Verif Require Import Base Exec ExecProofs VotingModel HooksModel PreModel PreSpec.
From Verif Require Import MultModel MultSpec PreMultModel.

(** Payments returning the deposit of proposal [id]; deposits taken for it. *)
Definition paid_back (j : mjstate) (id : Z) : list paid :=
  List.filter (fun p => bool_decide (pd_why p = RCompleted id)) (mj_paid j).
Definition deposited (j : mjstate) (id : Z) : list taken :=
  List.filter (fun t => bool_decide (tk_key t = KProp id)) (mj_taken j).

Notation mjrun O := (run_hist (mjhandle O) mjon_fail mjon_ok).
Notation mjcall O := (run_call (mjhandle O) mjon_fail mjon_ok).
Notation mjlog := (log mjstate mjmsg mjsub).

(** A pre-propose module (at address [mj_self]) instantiated by a multiple-choice
    module with any past, after some joint history [l], observed in block [b]. *)
Definition mjreached (O : oracle) (b : block) (j : mjstate) (l : mjlog) : Prop :=
  exists b0 s0 l0 self pm d p approver q0 h,
    reached O b0 s0 l0 /\
    pre_instantiate Plain pm (c_dao (s_cfg s0)) d p approver = Ok q0 /\
    hist_ok b0 h /\ mjrun O (MJState self s0 q0 [] []) h = (j, l) /\
    block_le (hist_end b0 h) b.
(** A later state of the same system. *)
Definition mjlater (O : oracle) (b : block) (j : mjstate) (b' : block) (j' : mjstate)
    (l : mjlog) : Prop :=
  exists h, hist_ok b h /\ mjrun O j h = (j', l) /\ block_le (hist_end b h) b'.

(** What it means that deposits of multiple-choice proposals are settled. *)
From Verif Require Import Base Exec ExecProofs VotingModel HooksModel PreModel PreSpec SettleSpec.
From Verif Require Import MultModel MultSpec PreMultModel PreMultSpec MSettleModel.

Notation mzrun O := (run_hist (mzhandle O) mzon_fail mzon_ok).
Notation mzlog := (log mzstate mzmsg mjsub).

(** A pre-propose module at [mj_self], just set up by a multiple-choice module with any past, with
    any tokens sent there before; after a history [l], observed in block [b]. *)
Definition mzstart (O : oracle) (b0 : block) (s : mzstate) : Prop :=
  exists l0 pm d p approver,
    reached O b0 (mj_s (mz_j s)) l0 /\
    pre_instantiate Plain pm (c_dao (s_cfg (mj_s (mz_j s)))) d p approver = Ok (mj_q (mz_j s)) /\
    s_policy (mj_s (mz_j s)) = Module (mj_self (mz_j s)) /\
    mj_taken (mz_j s) = [] /\ mj_paid (mz_j s) = [] /\ forall d, 0 <= mz_held s d.
Definition mzreached (O : oracle) (b0 : block) (s0 : mzstate) (b : block) (s : mzstate) (l : mzlog)
  : Prop :=
  mzstart O b0 s0 /\
  exists h, hist_ok b0 h /\ mzrun O s0 h = (s, l) /\ block_le (hist_end b0 h) b.

(** The deposits the module has taken in coins of [x] and not paid out. *)
Definition munreturned (j : mjstate) (x : N) : Z :=
  msum (fun id r => match paid_back j id with [] => coins_of x r.1 | _ => 0 end)
    (q_deposits (mj_q j)).

(** The DAO takes no coins of [x] out of the module. *)
Definition mleft_alone (x : N) (l : mzlog) : Prop :=
  forall pre b a f v d post subs,
    ECall pre b a (MZPre f v (MOther (PWithdraw d))) post subs ∈ l ->
    match d with
    | Some d => d <> Native x
    | None => forall e, q_deposit (mj_q (mz_j pre)) = Some e -> d_denom e <> Native x
    end.
(** The DAO takes nothing out, asks for deposits in coins only, and keeps the module. *)
Definition mkept (l : mzlog) : Prop :=
  forall pre b a m post subs, ECall pre b a m post subs ∈ l ->
    match m with
    | MZPre _ _ (MOther (PWithdraw _)) => False
    | MZPre _ _ (MOther (PUpdateConfig (Some d) _)) => exists x, d_denom d = Native x
    | MZMult (UpdatePreProposeInfo _) => False
    | _ => True
    end.

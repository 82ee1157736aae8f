(** What a staker is entitled to from cw20-stake-external-rewards, counted block by block. *)
From Verif Require Import Base Exec Plain StoreModel StakeModel StakeSpec ExtModel ExtSpec.

(** The part of the rewards of the blocks from [h] to [h'] that goes with the stake of [u], rounded
    down; nothing if nobody has a stake. *)
Definition share (s : xstate) (u : addr) (h h' : Z) : Z :=
  let fin := r_fin (x_rew s) in
  r_rate (x_rew s) * (Z.min h' fin - Z.min h fin) * staked (x_stake s) u / total_staked (x_stake s).

(** Height reached, shares until then, and how often the height moved. *)
Definition move (u : addr) (s : xstate) (h' : Z) (t : Z * Z * Z) : Z * Z * Z :=
  let '(h, e, n) := t in
  if h' =? h then t else (h', e + share s u h h', n + 1).
Definition moves (u : addr) (l : xlog) : Z * Z * Z :=
  fold_left (fun t e => match e with
    | ECall pre b _ _ _ _ => move u pre (height b) t
    | _ => t end) l (0, 0, 0).
Definition entitled (u : addr) (l : xlog) (s : xstate) (b : block) : Z :=
  let '(_, e, _) := move u s (height b) (moves u l) in e.
Definition stretches (u : addr) (l : xlog) (s : xstate) (b : block) : Z :=
  let '(_, _, n) := move u s (height b) (moves u l) in n.

(** Paid to [u] over the history. *)
Definition received (u : addr) (l : xlog) : Z :=
  lsum (fun e => match e with ECall _ _ _ _ _ subs => lsum (pay_to u) subs | _ => 0 end) l.

(** Everybody with a stake is among [us]: in a state, in all states of a history. *)
Definition covers (us : list addr) (s : xstate) : Prop := forall a, a ∉ us -> staked (x_stake s) a = 0.
Definition covered (us : list addr) (l : xlog) : Prop :=
  forall e, e ∈ l -> match e with ECall pre _ _ _ _ _ => covers us pre | _ => True end.
(** Rewards of the blocks in which somebody has a stake. *)
Definition give (s : xstate) (h' : Z) (t : Z * Z) : Z * Z :=
  let fin := r_fin (x_rew s) in
  (h', t.2 + (if total_staked (x_stake s) =? 0 then 0
              else r_rate (x_rew s) * (Z.min h' fin - Z.min t.1 fin))).
Definition gives (l : xlog) : Z * Z :=
  fold_left (fun t e => match e with
    | ECall pre b _ _ _ _ => give pre (height b) t
    | _ => t end) l (0, 0).
Definition emitted (l : xlog) (s : xstate) (b : block) : Z := (give s (height b) (gives l)).2.

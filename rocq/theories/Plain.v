(** Histories of a contract all of whose sub-messages are sent without a reply:
    a failing sub-message reverts the whole call, a successful one changes
    nothing in the contract (other than through calls back into it). *)
From Verif Require Import Base Exec.

Section plain.
  Context {State Msg Sub : Type}.
  Variable handle : State -> block -> addr -> Msg -> result (State * list Sub).

  Definition no_fail (s : State) (b : block) (x : Sub) : result State :=
    Err "sub-message failed".
  Definition no_reply (s : State) (b : block) (x : Sub) (d : addr) : result State := Ok s.

  (** From state [s0] in block [b0], some history of calls with log [l] leads to
      state [s], observed in block [b]. *)
  Definition leads (b0 : block) (s0 : State) (b : block) (s : State)
      (l : log State Msg Sub) : Prop :=
    exists h, hist_ok b0 h /\ run_hist handle no_fail no_reply s0 h = (s, l) /\
      block_le (hist_end b0 h) b.
End plain.

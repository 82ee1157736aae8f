(** cw-fund-distributor (FundModel.v) joined to the voting module it asks, which answers from
    its own state (contracts/distribution/cw-fund-distributor/src/contract.rs:28-63, 170-185).

    [power t a h] and [total t h] are the module's answers for height [h]; any module of the
    DAO can be put here.  Calls to either contract come in any order, also while a message of
    the other is on its way.  The module's past before the distributor is made is arbitrary. *)
From Verif Require Import Base Exec ExecProofs Plain Compose StoreModel FundModel.

Section on.
  Context {T MV XV : Type}.
  Variable handle_v : T -> block -> addr -> MV -> result (T * list XV).
  Variable power : T -> addr -> Z -> Z.
  Variable total : T -> Z -> Z.
  Variable vreached : block -> T -> log T MV XV -> Prop.

  (** The answers of the module in state [t]; [bad] are the cw20 tokens refusing transfers. *)
  Definition fo_world (bad : addr -> bool) (t : T) : world :=
    World (fun _ h a => power t a h) (fun _ h => total t h) bad.
  Notation folog := (log (gstate * T) (gmsg + MV) (gsub + XV)).
  Definition fo_run (bad : addr -> bool) :=
    run_hist (pair_handle g_handle handle_v (fo_world bad) (fun _ _ m => m))
      (pair_fail (XV := XV) (X := gsub) no_fail) (pair_ok (XV := XV) (X := gsub) no_reply).
  (** Funds are redistributed by the powers of height [h] only. *)
  Definition same_height (h : Z) (a : addr) (m : gmsg + MV) : Prop :=
    match m with inl (GRedistribute h') => h' = h | _ => True end.
  (** A distributor made in block [b0] for height [h], next to a module then in state [t0]. *)
  Definition fo_from (bad : addr -> bool) (h : Z) (b0 : block) (t0 : T)
      (b : block) (s : gstate) (t : T) (l : folog) : Prop :=
    exists period s0 hs, g_instantiate (fo_world bad t0) b0 h period = Ok s0 /\
      hist_ok b0 hs /\ hist_all (same_height h) hs /\
      fo_run bad (s0, t0) hs = ((s, t), l) /\ block_le (hist_end b0 hs) b.
  Definition fo_reached (bad : addr -> bool) (h : Z) (b0 : block)
      (b : block) (s : gstate) (t : T) (l : folog) : Prop :=
    exists t0 l0, vreached b0 t0 l0 /\ fo_from bad h b0 t0 b s t l.
  (** The distributor's part of a joint log. *)
  Definition fo_own (l : folog) : log gstate gmsg gsub := seen_p (fun _ _ m => m) l.
End on.

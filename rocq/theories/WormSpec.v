(** Specification vocabulary for cw-wormhole and cw-stake-tracker. *)
From Verif Require Import Base WormModel.

(** ** Wormhole: a sequence of increments and decrements of keys *)
Inductive wop := WInc (k : N) (t i : Z) | WDec (k : N) (t i : Z).
Definition wm_apply (m : wmap) (o : wop) : result wmap :=
  match o with
  | WInc k t i => do! ' (m', _) <- wm_inc m k t i; Ok m'
  | WDec k t i => do! ' (m', _) <- wm_dec m k t i; Ok m'
  end.
Fixpoint wm_run (m : wmap) (ops : list wop) : result wmap :=
  match ops with [] => Ok m | o :: ops => do! m' <- wm_apply m o; wm_run m' ops end.
(** What an update contributes to key [k] at time [t]. *)
Definition wop_adds (k : N) (t : Z) (o : wop) : Z :=
  match o with
  | WInc k' t' i => if (k' =? k)%N && (t' <=? t) then i else 0
  | WDec k' t' i => if (k' =? k)%N && (t' <=? t) then - i else 0
  end.
Definition wsum (k : N) (t : Z) (ops : list wop) : Z := lsum (wop_adds k t) ops.
Definition wop_touches (k : N) (t : Z) (o : wop) : bool :=
  match o with WInc k' t' _ | WDec k' t' _ => (k' =? k)%N && (t' <=? t) end.

(** ** Stake tracker: a history of delegations, undelegations and slashes

    [TDel t v n]: [n] tokens delegated to [v] at [t].  [TUndel t v n d]: [n] tokens
    start unbonding, for [d] seconds.  [TSlash t v n]: [n] bonded tokens slashed.
    [TSlashUnb t v parts]: unbonding tokens slashed; each part is the time at which
    the slashed tokens would have finished unbonding, and how many. *)
Inductive top :=
| TDel (t : Z) (v : N) (n : Z)
| TRedel (t : Z) (src dst : N) (n : Z)
| TUndel (t : Z) (v : N) (n d : Z)
| TSlash (t : Z) (v : N) (n : Z)
| TSlashUnb (t : Z) (v : N) (parts : list (Z * Z)).
Definition t_apply (k : tracker) (o : top) : result tracker :=
  match o with
  | TDel t v n => on_delegate k t v n
  | TRedel t src dst n => on_redelegate k t src dst n
  | TUndel t v n d => on_undelegate k t v n d
  | TSlash t v n => on_bonded_slash k t v n
  | TSlashUnb t v parts => on_unbonding_slash k t v (lsum snd parts)
  end.
Fixpoint t_run (k : tracker) (ops : list top) : result tracker :=
  match ops with [] => Ok k | o :: ops => do! k' <- t_apply k o; t_run k' ops end.
(** What is bonded or unbonding at time [u], in total and with [v], after the
    history: delegated at or before [u], not unbonded by [u], not slashed by [u]. *)
Definition top_total (u : Z) (o : top) : Z :=
  match o with
  | TDel t _ n => if t <=? u then n else 0
  | TRedel _ _ _ _ => 0
  | TUndel t _ n d => if t + d <=? u then - n else 0
  | TSlash t _ n => if t <=? u then - n else 0
  | TSlashUnb t _ parts => lsum (fun p => if (t <=? u) && (u <? p.1) then - p.2 else 0) parts
  end.
Definition top_val (v : N) (u : Z) (o : top) : Z :=
  match o with
  | TDel t v' n => if (v' =? v)%N && (t <=? u) then n else 0
  | TRedel t src dst n =>
      (if (dst =? v)%N && (t <=? u) then n else 0) - (if (src =? v)%N && (t <=? u) then n else 0)
  | TUndel t v' n d => if (v' =? v)%N && (t + d <=? u) then - n else 0
  | TSlash t v' n => if (v' =? v)%N && (t <=? u) then - n else 0
  | TSlashUnb t v' parts =>
      if (v' =? v)%N then lsum (fun p => if (t <=? u) && (u <? p.1) then - p.2 else 0) parts else 0
  end.
Definition staked_at (u : Z) (ops : list top) : Z := lsum (top_total u) ops.
Definition staked_with (v : N) (u : Z) (ops : list top) : Z := lsum (top_val v u) ops.
Definition top_time (o : top) : Z :=
  match o with
  | TDel t _ _ | TRedel t _ _ _ | TUndel t _ _ _ | TSlash t _ _ | TSlashUnb t _ _ => t
  end.
Fixpoint in_time_order (ops : list top) : Prop :=
  match ops with
  | o :: ((o' :: _) as ops') => top_time o <= top_time o' /\ in_time_order ops'
  | _ => True
  end.
Definition is_unb (o : top) : bool := match o with TSlashUnb _ _ _ => true | _ => false end.
(** Validators mentioned in a history, without repetition; those with tokens at [u]. *)
Definition top_vals (o : top) : list N :=
  match o with
  | TDel _ v _ | TUndel _ v _ _ | TSlash _ v _ | TSlashUnb _ v _ => [v]
  | TRedel _ src dst _ => [src; dst]
  end.
Definition vals_of (ops : list top) : list N := remove_dups (flat_map top_vals ops).
Definition vals_with_stake (u : Z) (ops : list top) : Z :=
  Z.of_nat (length (List.filter (fun v => negb (staked_with v u ops =? 0)) (vals_of ops))).
(** Histories of delegations and undelegations (all unbonding for [d]) in which
    nobody delegates to a validator all of whose tokens are unbonding. *)
Fixpoint steady (d : Z) (past ops : list top) : Prop :=
  match ops with
  | [] => True
  | o :: ops' =>
      match o with
      | TDel t v n =>
          0 < n /\ forall u, t <= u -> (staked_with v u past = 0 <-> staked_with v t past = 0)
      | TUndel t v n d' => 0 < n /\ d' = d
      | _ => False
      end /\ Forall (fun o' => top_time o' <= top_time o) past /\ steady d (past ++ [o]) ops'
  end.

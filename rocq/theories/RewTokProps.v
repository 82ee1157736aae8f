(** dao-rewards-distributor with dao-voting-token-staked: theorems.  Each is followed by what
    it rests on and by a concrete case meeting its hypotheses. *)
From Verif Require Import Base BaseProofs Exec Plain HooksModel StoreModel ExtModel ExtProofs ActiveModel
  TokModel RewModel RewSpec RewTokModel RewTokSpec RewTokProofs RewTokClaims RewTokExamples.

(** * C117 *)
Theorem C117_is_a_history md self b s l :
  rjreached md self b s l ->
  (exists l', ereached b (rj_e s) l' /\ calls l' = flat_map (rew_part md self) l) /\
  exists v, e_vps (rj_e s) !! md = Some v /\
    (forall a, vp_power_at v b a = t_power_at (rj_t s) b a None) /\ vp_total_at v b = t_total_at (rj_t s) b None.
Proof. exact (c117_history md self b s l). Qed.
Print Assumptions C117_is_a_history.
(** Missing: histories in which the hook is not in place when a stake changes, in which rewards
    are handed out at once in a block in which stakes changed before, or in which the contracts
    of a distribution are exchanged; for stake changes also distributions funded with more than
    10^38 units and further receivers on the module's list. *)
Theorem C117_within_funding_partial md self id b s l us :
  rjreached md self b s l -> orderly md self id l = true -> e_dists (rj_e s) !! id <> None -> NoDup us ->
  (forall u, 0 <= claimable (rj_e s) b id u) /\
  jclaimed id l + jwithdrawn id l + lsum (claimable (rj_e s) b id) us + remaining (rj_e s) b id <= jfunded id l.
Proof. exact (c117_covered md self id b s l us). Qed.
Print Assumptions C117_within_funding_partial.
Theorem C117_claims_succeed_partial md self b s l id d a n :
  rjreached md self b s l -> e_dists (rj_e s) !! id = Some d -> a <> md ->
  (forall i d', e_dists (rj_e s) !! i = Some d' -> di_denom d' = di_denom d -> orderly md self i l = true) ->
  pending_rewards (rj_e s) b id a = Ok n -> n <> 0 ->
  exists s', rj_handle md self s b a (RRew (EClaim id)) = Ok (s', [RE (EPay (di_denom d) a n)]) /\ rj_t s' = rj_t s.
Proof. exact (c117_claim md self b s l id d a n). Qed.
Print Assumptions C117_claims_succeed_partial.
Theorem C117_stake_changes_go_through_partial md self b s l a m t' subs ids :
  rjreached md self b s l -> stakes m = true -> rj_out s = [] ->
  t_hooks (rj_t s) = [self] -> e_hooks (rj_e s) !! md = Some ids ->
  (forall i, i ∈ ids -> orderly md self i l = true /\ jfunded i l <= 10 ^ 38) ->
  t_handle (rj_t s) b a m = Ok (t', subs) ->
  exists s1 s2 x, rj_handle md self s b a (RTok m) = Ok (s1, x) /\
    rj_handle md self s1 b a RDeliver = Ok (s2, []) /\ rj_t s2 = t' /\ rj_out s2 = [].
Proof. exact (c117_goes_through md self b s l a m t' subs ids). Qed.
Print Assumptions C117_stake_changes_go_through_partial.
Theorem C117_hook_first_refuted :
  exists md self b s l a n, rjreached md self b s l /\ rj_out s = [] /\ t_hooks (rj_t s) = [self] /\
    smap_get (t_bals (rj_t s)) a = n /\ 0 < n /\
    exists s1 x, rj_handle md self s b a (RTok (TUnstake n)) = Ok (s1, x) /\
      forall c, rj_handle md self s1 b c RDeliver = Err "InvalidHookSender".
Proof. exact early_stuck. Qed.
Print Assumptions C117_hook_first_refuted.
Theorem C117_late_hook_refuted :
  exists md self b s l id a d, rjreached md self b s l /\ e_dists (rj_e s) !! id = Some d /\
    di_vp d = md /\ di_hook d = md /\ t_hooks (rj_t s) = [self] /\ e_hooks (rj_e s) !! md = Some [id] /\
    forallb (unhurried id) l = true /\ jfunded id l = 1000 /\ claimable (rj_e s) b id a = 79398.
Proof. exact late_promises. Qed.
Print Assumptions C117_late_hook_refuted.
(** Two members stake, one adds to the stake, the other takes it out, one claims. *)
Example C117_case :
  rjreached md self (rb 9) us ul /\ orderly md self 1 ul = true /\ e_dists (rj_e us) !! 1 <> None /\
  rj_out us = [] /\ t_hooks (rj_t us) = [self] /\ e_hooks (rj_e us) !! md = Some [1] /\
  jfunded 1 ul = 1000 /\ jclaimed 1 ul = 299 /\ claimable (rj_e us) (rb 9) 1 bob = 399 /\
  pending_rewards (rj_e us) (rb 9) 1 bob = Ok 399 /\
  (exists t' subs, t_handle (rj_t us) (rb 9) bob (TStake [(5%N, 7)]) = Ok (t', subs)).
Proof.
  split; [rjreach|]. split; [vm_compute; reflexivity|]. split; [vm_compute; discriminate|].
  do 7 (split; [vm_compute; reflexivity|]). eexists _, _. vm_compute. reflexivity.
Qed.

(** A reward distributor that serves a staking contract: theorems.  Each is followed by what it
    rests on and by a concrete case meeting its hypotheses. *)
From Coq Require Import QArith.
From Verif Require Import Base BaseProofs Exec ExecProofs Plain StoreModel StakeModel StakeSpec StakeExamples
  DistModel DistSpec FlowModel FlowSpec FlowClaims FlowExamples.
Local Open Scope Z_scope.

(** * C135 *)
Theorem C135_accepted b s l a :
  freached b s l -> serves s -> f_outside s a = true ->
  d_rate (f_d s) * (height b - d_last (f_d s)) <= U128_MAX -> 0 < due_at (f_d s) b ->
  exists s' subs, f_handle s b a (FDist DDistribute) = Ok (s', subs).
Proof. exact (c135_accepted b s l a). Qed.
Print Assumptions C135_accepted.
Theorem C135_distribute b s l a s' subs :
  freached b s l -> serves s -> f_handle s b a (FDist DDistribute) = Ok (s', subs) ->
  let n := due_at (f_d s) b in
  0 < n /\ subs = [FD (DFund (k_token (f_k s)) (f_stk s) n)] /\
  d_bal (f_d s') (k_token (f_k s)) = d_bal (f_d s) (k_token (f_k s)) - n /\
  k_held (f_k s') = k_held (f_k s) + n /\ k_pool (f_k s') = k_pool (f_k s) + n /\
  (forall x, staked (f_k s') x = staked (f_k s) x) /\ total_staked (f_k s') = total_staked (f_k s) /\
  k_claims (f_k s') = k_claims (f_k s) /\ serves s'.
Proof. exact (c135_distribute b s l a s' subs). Qed.
Print Assumptions C135_distribute.
Theorem C135_parts b s l a s' subs x :
  freached b s l -> serves s -> f_handle s b a (FDist DDistribute) = Ok (s', subs) ->
  0 < total_staked (f_k s) ->
  let n := due_at (f_d s) b in let t := total_staked (f_k s) in
  let worth k := staked k x * k_pool k / total_staked k in
  n * staked (f_k s) x / t <= worth (f_k s') - worth (f_k s) <= n * staked (f_k s) x / t + 1.
Proof. exact (c135_parts b s l a s' subs x). Qed.
Print Assumptions C135_parts.
(** Missing: that it goes to those who staked while it accrued. *)
Theorem C135_accrue_partial b s l b' s' l' :
  freached b s l -> leads f_handle b s b' s' l' -> 0 < total_staked (f_k s) ->
  (forall e, e ∈ l' -> 0 < total_staked (f_k (ev_post e))) ->
  (price s + rewards l' <= price s')%Q.
Proof. exact (c135_accrue b s l b' s' l'). Qed.
Print Assumptions C135_accrue_partial.
Theorem C135_collect b s l b' s' l' a x s'' subs :
  freached b s l -> leads f_handle b s b' s' l' -> 0 < total_staked (f_k s) ->
  (forall e, e ∈ l' -> 0 < total_staked (f_k (ev_post e))) ->
  f_handle s' b' a (FStake (KUnstake x)) = Ok (s'', subs) ->
  exists n, n = k_pool (f_k s') - k_pool (f_k s'') /\
    (inject_Z x * (price s + rewards l') < inject_Z (n + 1))%Q /\
    match k_dur (f_k s') with
    | None => FK (KPay a n) ∈ subs
    | Some d => Claim n (after d b') ∈ claims_of (k_claims (f_k s'')) a
    end.
Proof. exact (c135_collect b s l b' s' l' a x s'' subs). Qed.
Print Assumptions C135_collect.
Theorem C135_snipe_refuted :
  exists b s l s1 o1 s2 o2 s3 o3,
    freached b s l /\ serves s /\ due_at (f_d s) b = 500 /\
    staked (f_k s) 1%N = 100 /\ total_staked (f_k s) = 100 /\ staked (f_k s) 2%N = 0 /\
    f_handle s b 70%N (FStake (KReceive 2%N 900 true)) = Ok (s1, o1) /\
    f_handle s1 b 2%N (FDist DDistribute) = Ok (s2, o2) /\
    f_handle s2 b 2%N (FStake (KUnstake 900)) = Ok (s3, o3) /\
    FK (KPay 2%N 1350) ∈ o3 /\ k_staked_value (f_k s3) 1%N = Ok 150.
Proof. exact c135_snipe_refuted. Qed.
Print Assumptions C135_snipe_refuted.
Theorem C135_empty_refuted :
  exists b s l s1 o1 s2 o2 s3 o3,
    freached b s l /\ serves s /\ due_at (f_d s) b = 500 /\ total_staked (f_k s) = 0 /\
    f_handle s b 2%N (FDist DDistribute) = Ok (s1, o1) /\
    f_handle s1 b 70%N (FStake (KReceive 2%N 1 true)) = Ok (s2, o2) /\
    f_handle s2 b 2%N (FStake (KUnstake 1)) = Ok (s3, o3) /\ FK (KPay 2%N 501) ∈ o3.
Proof. exact c135_empty_refuted. Qed.
Print Assumptions C135_empty_refuted.
Theorem C135_token_refuted :
  exists b s l, freached b s l /\ d_staking (f_d s) = f_stk s /\ d_token (f_d s) <> k_token (f_k s) /\
    due_at (f_d s) b = 500 /\
    forall b' a s' o, block_le b b' -> f_handle s b' a (FDist DDistribute) <> Ok (s', o).
Proof. exact c135_token_refuted. Qed.
Print Assumptions C135_token_refuted.
Example C135_case :
  freached (kb 10) (fst ex_f0) (snd ex_f0) /\ 0 < total_staked (f_k (fst ex_f0)) /\
  leads f_handle (kb 10) (fst ex_f0) (kb 45) (fst ex_f1) (snd ex_f1) /\
  forallb (fun e => 0 <? total_staked (f_k (ev_post e))) (snd ex_f1) = true /\
  length (snd ex_f1) = 9%nat /\ brought (snd ex_f1) = 155 /\
  Qeq_bool (price (fst ex_f0)) 1 = true /\ Qeq_bool (rewards (snd ex_f1)) ((50 # 100) + (55 # 300) + (50 # 200)) = true /\
  k_pool (f_k (fst ex_f1)) = 387 /\ total_staked (f_k (fst ex_f1)) = 200 /\
  staked (f_k (fst ex_f1)) 1%N = 100 /\
  (exists s2 o2, f_handle (fst ex_f1) (kb 45) 1%N (FStake (KUnstake 100)) = Ok (s2, o2) /\ o2 = [FK (KPay 1%N 193)]) /\
  serves (fst ex_f1) /\ f_outside (fst ex_f1) 5%N = true /\ due_at (f_d (fst ex_f1)) (kb 45) = 20 /\
  d_rate (f_d (fst ex_f1)) * (height (kb 45) - d_last (f_d (fst ex_f1))) <= U128_MAX.
Proof.
  split; [apply ex_f0_reached; vm_compute; split; discriminate|]. split; [vm_compute; reflexivity|].
  split; [apply ex_f1_leads; vm_compute; split; discriminate|].
  do 8 (split; [vm_compute; reflexivity|]).
  split. { do 2 eexists. split; vm_compute; reflexivity. }
  split; [split; vm_compute; reflexivity|]. split; [vm_compute; reflexivity|].
  split; [vm_compute; reflexivity|]. vm_compute. discriminate.
Qed.

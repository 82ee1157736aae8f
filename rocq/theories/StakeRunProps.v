(** Stakers who leave a pool (cw20-stake): theorems.  Each is followed by what it rests on and
    by a concrete case meeting its hypotheses. *)
From Verif Require Import Base BaseProofs Exec ExecProofs Plain HooksModel StoreModel StakeModel StakeSpec
  StakeProofs StakeClaims StakeExamples StakeRunSpec StakeRun StakeRunExamples.

(** * C144 *)
Theorem C144_shares_within b s l vs : kreached b s l -> NoDup vs -> lsum (share s) vs <= k_pool s.
Proof. exact (shares_within b s l vs). Qed.
Print Assumptions C144_shares_within.
Theorem C144_shares_lack b s l vs :
  kreached b s l -> stakers s vs -> 0 < total_staked s ->
  k_pool s < lsum (share s) vs + Z.of_nat (length vs).
Proof. exact (shares_lack b s l vs). Qed.
Print Assumptions C144_shares_lack.
Theorem C144_share_waits b s l b' s' l' a :
  kreached b s l -> leads k_handle b s b' s' l' ->
  (forall e, e ∈ l' -> 0 < total_staked (ev_post e)) ->
  staked s' a = staked s a -> 0 < staked s a -> share s a <= share s' a.
Proof. exact (share_waits b s l b' s' l' a). Qed.
Print Assumptions C144_share_waits.
(** Pools of less than half the largest amount, and stakers with room for a claim (see C70). *)
Theorem C144_everybody_leaves b s l vs :
  kreached b s l -> stakers s vs -> 0 < total_staked s -> 2 * k_pool s < U128_MAX ->
  (k_dur s <> None -> forall a, a ∈ vs -> Z.of_nat (length (claims_of (k_claims s) a)) < 100) ->
  exists ns s', leave b s vs ns s' /\ Forall2 (fun a n => share s a <= n) vs ns /\
    lsum (fun n => n) ns = k_pool s /\ k_pool s' = 0 /\ total_staked s' = 0.
Proof. exact (run_on_pool b s l vs). Qed.
Print Assumptions C144_everybody_leaves.
Theorem C144_stakers_exist s : exists vs, stakers s vs.
Proof. exact (stakers_exist s). Qed.
Print Assumptions C144_stakers_exist.
(** Shares of 3, 3 and 3 in a pool of 10; the last one to leave gets 4. *)
Example C144_case :
  kreached (kb 9) (run_s None) (run_l None) /\ stakers (run_s None) [2%N; 3%N; 1%N] /\
  total_staked (run_s None) = 3 /\ k_pool (run_s None) = 10 /\ 2 * k_pool (run_s None) < U128_MAX /\
  map (share (run_s None)) [2%N; 3%N; 1%N] = [3; 3; 3] /\
  (let s1 := after_unstake (kb 9) (run_s None) 2%N in
   let s2 := after_unstake (kb 9) s1 3%N in
   [taken (kb 9) (run_s None) 2%N; taken (kb 9) s1 3%N; taken (kb 9) s2 1%N]) = [3; 3; 4] /\
  (* with an unbonding period *)
  kreached (kb 9) (run_s (Some (DTime 50))) (run_l (Some (DTime 50))) /\
  stakers (run_s (Some (DTime 50))) [1%N; 2%N; 3%N] /\
  forallb (fun a => (length (claims_of (k_claims (run_s (Some (DTime 50)))) a) <? 100)%nat) [1%N; 2%N; 3%N] = true.
Proof.
  split; [exact run_reached|]. split; [apply stakersb_spec; vm_compute; reflexivity|].
  split; [vm_compute; reflexivity|]. split; [vm_compute; reflexivity|]. split; [vm_compute; reflexivity|].
  split; [vm_compute; reflexivity|]. split; [vm_compute; reflexivity|].
  split; [exact run_reached_slow|]. split; [apply stakersb_spec; vm_compute; reflexivity|].
  vm_compute. reflexivity.
Qed.

(** Stakes in parts (cw20-stake): theorems.  Each is followed by what it rests on and by a
    concrete case meeting its hypotheses. *)
From Verif Require Import Base BaseProofs Exec ExecProofs Plain HooksModel StoreModel StakeModel StakeSpec
  StakeProofs StakeClaims StakeExamples StakeSplitSpec StakeSplit StakeSplitExamples.

(** * C145 *)
Theorem C145_taking_out b s l ps n s' :
  kreached b s l -> takes_out s ps n s' -> ps <> [] ->
  n <= amounts ps * k_pool s / total_staked s < n + Z.of_nat (length ps).
Proof. exact (taking_out b s l ps n s'). Qed.
Print Assumptions C145_taking_out.
Theorem C145_at_once_out b s l b' a x s' subs :
  kreached b s l -> k_handle s b' a (KUnstake x) = Ok (s', subs) ->
  k_pool s - k_pool s' = x * k_pool s / total_staked s.
Proof. exact (at_once_out b s l b' a x s' subs). Qed.
Print Assumptions C145_at_once_out.
Theorem C145_putting_in b s l ps n s' :
  kreached b s l -> 0 < total_staked s -> puts_in s ps n s' ->
  n <= total_staked s * amounts ps / k_pool s.
Proof. exact (putting_in b s l ps n s'). Qed.
Print Assumptions C145_putting_in.
Theorem C145_at_once_in b s l b' a x s' subs :
  kreached b s l -> 0 < total_staked s -> k_handle s b' (k_token s) (KReceive a x true) = Ok (s', subs) ->
  staked s' a - staked s a = total_staked s * x / k_pool s.
Proof. exact (at_once_in b s l b' a x s' subs). Qed.
Print Assumptions C145_at_once_in.
(** Two parts of 1 give 4 tokens, and 2 at once give 5; two parts of 3 and 2 tokens give a
    stake of 1, and 5 at once a stake of 2. *)
Example C145_case :
  kreached (kb 9) split_s (snd (krun None split_h)) /\ total_staked split_s = 4 /\ k_pool split_s = 10 /\
  (exists s', takes_out split_s [(kb 9, 1%N, 1); (kb 9, 1%N, 1)] 4 s') /\
  (exists s' subs, k_handle split_s (kb 9) 1%N (KUnstake 2) = Ok (s', subs) /\ k_pool s' = 5) /\
  (exists s', puts_in split_s [(kb 9, 1%N, 3); (kb 10, 5%N, 2)] 1 s') /\
  (exists s' subs, k_handle split_s (kb 9) 70%N (KReceive 1%N 5 true) = Ok (s', subs) /\ staked s' 1 = 4).
Proof.
  split; [exact split_reached|]. split; [vm_compute; reflexivity|]. split; [vm_compute; reflexivity|].
  split; [exact split_out|]. split; [do 2 eexists; split; [vm_compute; reflexivity|vm_compute; reflexivity]|].
  split; [exact split_in|]. do 2 eexists. split; [vm_compute; reflexivity|vm_compute; reflexivity].
Qed.

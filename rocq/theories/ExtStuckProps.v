(** Rewards that never reach anybody (cw20-stake-external-rewards): theorems.  Each is followed by
    what it rests on and by a concrete case meeting its hypotheses. *)
From Verif Require Import Base BaseProofs Exec ExecProofs Plain PlainProofs StoreModel StakeModel StakeSpec
  ExtModel ExtSpec ExtProofs ExtClaims ExtExamples ExtShareSpec ExtShare ExtShareExamples ExtStuck ExtStuckExamples.

(** * C147 *)
(** Missing: the rewards of blocks in which nobody has a stake, and the remainder of the funding
    divided by the length of the period. *)
Theorem C147_handed_out_partial b s l us :
  xreached b s l -> funded l <= 10 ^ 38 -> NoDup us -> covers us s -> covered us l ->
  Z.abs (lsum (fun u => received u l + claimable s b u) us - emitted l s b) <=
    3 * lsum (fun u => stretches u l s b) us.
Proof. exact (handed_out b s l us). Qed.
Print Assumptions C147_handed_out_partial.
Theorem C147_no_stakers_refuted :
  exists b s l, xreached b s l /\ funded l = 1000 /\ x_held s = 1000 /\
    forall b' s' l', leads x_handle b s b' s' l' -> forallb hooked l' = true -> x_due s' = [] ->
      paid l' <= funded l' /\ 1000 <= x_held s'.
Proof. exact no_stakers_refuted. Qed.
Print Assumptions C147_no_stakers_refuted.
Theorem C147_remainder_refuted :
  exists b s l, xreached b s l /\ funded l = 1999 /\ x_held s = 1999 /\ total_staked (x_stake s) = 30 /\
    forall b' s' l', leads x_handle b s b' s' l' -> forallb hooked l' = true -> x_due s' = [] ->
      paid l' <= 1000 + funded l' /\ 999 <= x_held s'.
Proof. exact remainder_refuted. Qed.
Print Assumptions C147_remainder_refuted.
(** How much is out of reach, as long as nobody has earned anything. *)
Theorem C147_out_of_reach b s l b' s' l' :
  xreached b s l -> r_rpt (x_rew s) = 0 -> (forall u, r_pending (x_rew s) u = 0) -> paid l = 0 ->
  leads x_handle b s b' s' l' -> forallb hooked l' = true -> x_due s' = [] ->
  let c := funded l - r_rate (x_rew s) * (r_fin (x_rew s) - r_last (x_rew s)) in
  paid l' + c <= funded l + funded l' /\ c <= x_held s'.
Proof. exact (out_of_reach b s l b' s' l'). Qed.
Print Assumptions C147_out_of_reach.
Example C147_case :
  xreached (xb 10) (fst ex_x) (snd ex_x) /\ funded (snd ex_x) <= 10 ^ 38 /\ NoDup [2%N; 3%N] /\
  covers [2%N; 3%N] (fst ex_x) /\ covered [2%N; 3%N] (snd ex_x) /\ emitted (snd ex_x) (fst ex_x) (xb 10) = 900 /\
  (let s := fst (xrun 1000 ex_rest) in
   xreached (xb 1) s (snd (xrun 1000 ex_rest)) /\ r_rpt (x_rew s) = 0 /\ (forall u, r_pending (x_rew s) u = 0) /\
   paid (snd (xrun 1000 ex_rest)) = 0 /\ funded (snd (xrun 1000 ex_rest)) = 1999 /\ terms s = (1001, 1, 1000)).
Proof.
  split; [xreach|]. split; [vm_compute; discriminate|].
  split; [apply NoDup_cons; split; [by intros ?%elem_of_list_singleton|apply NoDup_singleton]|].
  split; [apply coversb_spec; vm_compute; reflexivity|].
  split; [apply coveredb_spec; vm_compute; reflexivity|]. split; [vm_compute; reflexivity|].
  cbv zeta. split; [exact rest_reached|].
  assert (nothingb (x_rew (fst (xrun 1000 ex_rest))) = true) as En by (vm_compute; reflexivity).
  apply nothingb_spec in En as [N1 N2]. split; [exact N1|]. split; [exact N2|].
  split; [vm_compute; reflexivity|]. split; vm_compute; reflexivity.
Qed.

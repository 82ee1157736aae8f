(** cw20-stake-reward-distributor: theorems.  Each is followed by what it rests on and by a
    concrete case meeting its hypotheses. *)
From Verif Require Import Base BaseProofs Exec ExecProofs Plain StoreModel DistModel DistSpec
  DistProofs DistClaims DistExamples.

(** * C52 *)
Theorem C52_at_most_the_rate b0 s0 l0 b s l :
  dreached b0 s0 l0 -> leads d_handle b0 s0 b s l -> forallb hands_off l = true ->
  0 <= d_last s0 <= height b0 /\
  forwarded (d_token s0) (d_staking s0) l <= d_rate s0 * (height b - d_last s0).
Proof. exact (c52_rate b0 s0 l0 b s l). Qed.
Print Assumptions C52_at_most_the_rate.
Theorem C52_rate_when_enough b0 s0 l0 b s l :
  dreached b0 s0 l0 -> leads d_handle b0 s0 b s l -> forallb hands_off l = true ->
  d_rate s0 * (height b - d_last s0) <= d_bal s0 (d_token s0) ->
  forwarded (d_token s0) (d_staking s0) l = d_rate s0 * (d_last s - d_last s0) /\
  due_at s b = d_rate s0 * (height b - d_last s).
Proof. exact (c52_enough b0 s0 l0 b s l). Qed.
Print Assumptions C52_rate_when_enough.
Theorem C52_schedule_irrelevant b0 s0 l0 b s l :
  dreached b0 s0 l0 -> leads d_handle b0 s0 b s l -> forallb hands_off l = true ->
  forallb no_gift l = true ->
  forwarded (d_token s0) (d_staking s0) l + due_at s b = due_at s0 b.
Proof. exact (c52_schedule b0 s0 l0 b s l). Qed.
Print Assumptions C52_schedule_irrelevant.
Theorem C52_distribute b s l a :
  dreached b s l -> d_rate s * (height b - d_last s) <= U128_MAX ->
  if due_at s b =? 0 then exists e, d_handle s b a DDistribute = Err e
  else exists s', d_handle s b a DDistribute = Ok (s', [DFund (d_token s) (d_staking s) (due_at s b)]) /\
    d_last s' = height b /\ due_at s' b = 0.
Proof. exact (c52_distribute b s l a). Qed.
Print Assumptions C52_distribute.
Theorem C52_balance b s l t : dreached b s l -> d_bal s t = received t l - spent t l /\ 0 <= d_bal s t.
Proof. exact (c52_balance b s l t). Qed.
Print Assumptions C52_balance.
Theorem C52_owner s b a m s' subs :
  d_handle s b a m = Ok (s', subs) ->
  (hands_off (ECall s b a m s' subs) = false -> o_owner (d_own s) = Some a) /\
  forall t to n, DTransfer t to n ∈ subs -> to = a /\ o_owner (d_own s) = Some a.
Proof. exact (c52_owner s b a m s' subs). Qed.
Print Assumptions C52_owner.
(** Missing from the last sentence of the property: nothing is paid. *)
Theorem C52_config_change_refuted :
  exists b s l, dreached b s l /\ due_at s b = 45 /\ d_bal s (d_token s) = 100 /\
    forall a staking rate token v s' subs,
      d_handle s b a (DUpdateConfig staking rate token v) = Ok (s', subs) ->
      subs = [] /\ due_at s' b = 0.
Proof. exact c52_config_refuted. Qed.
Print Assumptions C52_config_change_refuted.
Example C52_case :
  dreached (db 11) (fst ex_d0) (snd ex_d0) /\
  leads d_handle (db 11) (fst ex_d0) (db 25) (fst ex_d1) (snd ex_d1) /\
  forallb hands_off (snd ex_d1) = true /\ forallb no_gift (snd ex_d1) = true /\
  forwarded 50%N 61%N (snd ex_d1) = 50 /\ due_at (fst ex_d1) (db 25) = 25 /\
  due_at (fst ex_d0) (db 25) = 75 /\ due_at (fst ex_d0) (db 40) = 100 /\
  due_at (fst ex_d1) (db 40) = 50 /\
  d_rate (fst ex_d0) * (height (db 25) - d_last (fst ex_d0)) <= d_bal (fst ex_d0) 50%N /\
  flat_map (fun e => match e with ECall _ b _ _ _ subs => [(height b, subs)] | _ => [] end)
    (snd ex_d1) = [(13, [DFund 50%N 61%N 15]); (20, [DFund 50%N 61%N 35])].
Proof.
  split; [dreach|]. split; [apply ex_d1_leads; dside|].
  do 7 (split; [vm_compute; reflexivity|]). split; [vm_compute; discriminate|]. vm_compute; reflexivity.
Qed.

(** dao-rewards-distributor, updates of rewards: theorems.  Each is followed by what it
    rests on and by a concrete case meeting its hypotheses. *)
From Verif Require Import Base BaseProofs Exec ExecProofs Plain StoreModel ExtModel ExtProofs
  RewModel RewSpec RewProofs RewClaims RewExamples RewHookProofs RewHookClaims RewHookExamples.

(** * C115 *)
(** Missing: histories in which rewards are handed out at once in a block in which powers
    changed before or in which a distribution's contracts are exchanged, and
    distributions funded with more than 10^38 units. *)
Theorem C115_report_goes_through_partial b s l caller ids who :
  ereached b s l -> e_hooks s !! caller = Some ids ->
  (forall i, i ∈ ids -> tame i l = true /\ funded i l <= 10 ^ 38) ->
  exists s', e_handle s b caller (EHook who) = Ok (s', []).
Proof. exact (c115_hook b s l caller ids who). Qed.
Print Assumptions C115_report_goes_through_partial.
Theorem C115_rewards_are_shown_partial b s l id a :
  ereached b s l -> e_dists s !! id <> None -> tame id l = true -> funded id l <= 10 ^ 38 ->
  exists n, pending_rewards s b id a = Ok n.
Proof. exact (c115_pending b s l id a). Qed.
Print Assumptions C115_rewards_are_shown_partial.
Theorem C115_same_block_refuted :
  exists b s l caller a, ereached b s l /\ registered s caller = [1] /\
    forallb (reported 1) l = true /\ forallb (steady 1) l = true /\ funded 1 l <= 10 ^ 15 /\
    forall b', block_le b b' -> exists e, e_handle s b' caller (EHook [a]) = Err e.
Proof. exact c115_same_block. Qed.
Print Assumptions C115_same_block_refuted.
Theorem C115_large_funding_refuted :
  exists b s l caller e, ereached b s l /\ registered s caller = [1] /\ tame 1 l = true /\
    funded 1 l <= U128_MAX /\ forall a, e_handle s b caller (EHook [a]) = Err e.
Proof. exact c115_large. Qed.
Print Assumptions C115_large_funding_refuted.
(** The history of C54: two distributions at one hook caller, both running. *)
Example C115_case :
  let s := fst ex_r in let l := snd ex_r in
  ereached (eb 50) s l /\ e_hooks s !! 70%N = Some [1; 2] /\
  (forall i, i ∈ [1; 2] -> tame i l = true /\ funded i l <= 10 ^ 38) /\
  funded 1 l = 1000 /\ funded 2 l = 400 /\
  (exists s', e_handle s (eb 50) 70%N (EHook [2%N; 3%N]) = Ok (s', [])) /\
  pending_rewards s (eb 50) 1 2%N = Ok 174 /\ pending_rewards s (eb 50) 2 3%N = Ok 199.
Proof.
  cbn zeta. assert (ereached (eb 50) (fst ex_r) (snd ex_r)) as HR by ereach.
  assert (forall i, i ∈ [1; 2] -> tame i (snd ex_r) = true /\ funded i (snd ex_r) <= 10 ^ 38) as Hi.
  { intros i [->|[->|E]%elem_of_cons]%elem_of_cons; [split; vm_compute; easy|split; vm_compute; easy|].
    by apply elem_of_nil in E. }
  split; [exact HR|]. split; [vm_compute; reflexivity|]. split; [exact Hi|].
  split; [vm_compute; reflexivity|]. split; [vm_compute; reflexivity|].
  split; [|split; vm_compute; reflexivity].
  apply (c115_hook _ _ _ _ [1; 2] _ HR); [vm_compute; reflexivity|exact Hi].
Qed.

(** Rewards of dao-rewards-distributor that nobody gets: theorems.  Each is followed by what it
    rests on and by a concrete case meeting its hypotheses. *)
From Verif Require Import Base BaseProofs Exec ExecProofs Plain StoreModel ExtModel ExtProofs
  RewModel RewSpec RewProofs RewClaims RewLost RewExamples RewLostExamples.

(** * C148 *)
(** Missing: the other direction.  It is false when nobody has voting power, and when a
    distribution whose period is over is funded again. *)
Theorem C148_not_more_partial id b s l us :
  ereached b s l -> tame id l = true -> e_dists s !! id <> None -> NoDup us ->
  (forall u, 0 <= claimable s b id u) /\
  claimed id l + withdrawn id l + lsum (claimable s b id) us + remaining s b id <= funded id l.
Proof. exact (covered id b s l us). Qed.
Print Assumptions C148_not_more_partial.
Theorem C148_no_power_refuted :
  exists b s l id, ereached b s l /\ tame id l = true /\ funded id l = 1000 /\ claimed id l = 0 /\ withdrawn id l = 0 /\
    (forall b', block_le b b' -> remaining s b' id = 0 /\ (forall u, claimable s b' id u = 0) /\
      forall a, exists e, e_handle s b' a (EWithdraw id) = Err e) /\
    forall b' s' l', leads e_handle b s b' s' l' -> tame id l' = true ->
      claimed id l' + withdrawn id l' <= funded id l'.
Proof. exact no_power_refuted. Qed.
Print Assumptions C148_no_power_refuted.
Theorem C148_leftover_refuted :
  exists b s l id d a n s', ereached b s l /\ tame id l = true /\ funded id l = 900 /\ remaining s b id = 900 /\
    e_dists s !! id = Some d /\ o_owner (e_own s) <> Some a /\ n = 1 /\
    e_handle s b a (EFund id [(7%N, n)]) = Ok (s', []) /\ held s' (di_denom d) = 901 /\
    remaining s' b id = 1 /\ (forall u, claimable s' b id u = 0) /\
    forall b2 s2 l2, leads e_handle b s' b2 s2 l2 -> tame id l2 = true ->
      claimed id l2 + withdrawn id l2 <= 1 + funded id l2.
Proof. exact leftover_refuted. Qed.
Print Assumptions C148_leftover_refuted.
Example C148_case :
  let s := fst ex_r in let l := snd ex_r in
  ereached (eb 51) s l /\ tame 1 l = true /\ (exists d, e_dists s !! 1 = Some d) /\ NoDup [2%N; 3%N] /\
  funded 1 l = 1000 /\ claimed 1 l = 224 /\ withdrawn 1 l = 0 /\
  claimable s (eb 51) 1 2%N = 224 /\ claimable s (eb 51) 1 3%N = 49 /\ remaining s (eb 51) 1 = 500.
Proof.
  cbv zeta. split; [unfold ex_r; ereach|]. split; [vm_compute; reflexivity|].
  split; [eexists; vm_compute; reflexivity|].
  split; [apply NoDup_cons; split; [by intros ?%elem_of_list_singleton|apply NoDup_singleton]|].
  do 5 (split; [vm_compute; reflexivity|]). vm_compute. reflexivity.
Qed.

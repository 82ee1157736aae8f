(** dao-voting-onft-staked: theorems.  Each is followed by what it rests on and by a concrete
    case meeting its hypotheses. *)
From Verif Require Import Base BaseProofs Exec ExecProofs Plain PlainProofs VotingModel StoreModel
  ActiveModel NftModel OnftModel OnftSpec OnftProofs OnftClaims OnftExamples.

(** * C85 *)
Theorem C85_powers_add_up b s l bq h : freached b s l -> fsum_at s bq h = f_total_at s bq (Some h).
Proof. exact (c85_adds_up b s l bq h). Qed.
Print Assumptions C85_powers_add_up.
Theorem C85_any_voters b s l bq h vs :
  freached b s l -> NoDup vs ->
  lsum (fun a => f_power_at s bq a (Some h)) vs <= f_total_at s bq (Some h) <= U128_MAX /\
  (forall a, 0 <= f_power_at s bq a (Some h)).
Proof. exact (c85_any_voters b s l bq h vs). Qed.
Print Assumptions C85_any_voters.
Theorem C85_past_fixed b s l b' s' l' bq bq' h :
  freached b s l -> leads f_handle b s b' s' l' -> h <= height b ->
  (forall a, f_power_at s' bq' a (Some h) = f_power_at s bq a (Some h)) /\
  f_total_at s' bq' (Some h) = f_total_at s bq (Some h).
Proof. exact (c85_past b s l b' s' l' bq bq' h). Qed.
Print Assumptions C85_past_fixed.
(** Missing: histories in which the DAO cancels the stake of a staked token; see the
    refutation. *)
Theorem C85_power_is_count_partial b s l bq h :
  freached b s l -> kept l -> height b < h ->
  (forall a, f_power_at s bq a (Some h) = fcount s a) /\ f_total_at s bq (Some h) = fcount_all s.
Proof. exact (c85_power_is_count b s l bq h). Qed.
Print Assumptions C85_power_is_count_partial.
Theorem C85_count_refuted : exists b s l a bq h,
  freached b s l /\ height b < h /\ fcount s a = 1 /\ fcount_all s = 1 /\
  f_power_at s bq a (Some h) = 2 /\ f_total_at s bq (Some h) = 2.
Proof. exact count_refuted. Qed.
Print Assumptions C85_count_refuted.
Example C85_case :
  let r := frun None staking in let s := fst r in let l := snd r in
  freached (fb 6) s l /\ kept l /\ fcount s 5 = 1 /\ fcount s 6 = 1 /\
  f_power_at s (fb 9) 5 (Some 6) = 2 /\ f_power_at s (fb 9) 5 (Some 7) = 1 /\
  f_total_at s (fb 9) (Some 6) = 3 /\ f_total_at s (fb 9) (Some 7) = 2.
Proof.
  cbv zeta. split; [freach|]. split; [fkept|].
  do 5 (split; [vm_compute; reflexivity|]). vm_compute; reflexivity.
Qed.

(** * C86 *)
(** Missing in all of these: histories in which the DAO cancels the stake of a staked token; see
    the refutations. *)
Theorem C86_held_once_partial b s l id :
  freached b s l -> kept l ->
  fstaked_times s id + fclaimed_times s id <=
    if bool_decide (f_owner s !! id = Some (f_self s)) then 1 else 0.
Proof. exact (c86_held_once b s l id). Qed.
Print Assumptions C86_held_once_partial.
Theorem C86_one_staker_partial b s l id a a' :
  freached b s l -> kept l -> f_staked s !! (a, id) = Some tt ->
  (f_staked s !! (a', id) = Some tt -> a' = a) /\ fclaimed_by s a' id = 0 /\
  f_owner s !! id = Some (f_self s) /\ f_prep s !! id = None.
Proof. exact (c86_one_staker b s l id a a'). Qed.
Print Assumptions C86_one_staker_partial.
Theorem C86_conservation_partial b s l a id :
  freached b s l -> kept l ->
  fput_in a id l = ftaken_out a id l + fclaimed_by s a id + fholds s a id.
Proof. exact (c86_conservation b s l a id). Qed.
Print Assumptions C86_conservation_partial.
Theorem C86_can_unstake_partial b s l a ids :
  freached b s l -> kept l -> a <> f_self s ->
  ids <> [] -> NoDup ids -> (forall id, id ∈ ids -> f_staked s !! (a, id) = Some tt) ->
  (f_dur s <> None -> Z.of_nat (length (default [] (f_claims s !! a)) + length ids) <= 70) ->
  exists s' subs, f_handle s b a (FUnstake ids) = Ok (s', subs) /\
    (forall d, f_dur s = Some d -> forall id, id ∈ ids -> fclaimed_by s' a id = 1) /\
    (f_dur s = None -> forall id, id ∈ ids -> FPay a id ∈ subs /\ f_owner s' !! id = Some a).
Proof. exact (c86_can_unstake b s l a ids). Qed.
Print Assumptions C86_can_unstake_partial.
Theorem C86_can_collect_partial b s l a c :
  freached b s l -> kept l -> a <> f_self s ->
  c ∈ default [] (f_claims s !! a) -> is_expired (nc_release c) b = true ->
  exists s' subs, f_handle s b a FClaim = Ok (s', subs) /\ FPay a (nc_id c) ∈ subs.
Proof. exact (c86_can_collect b s l a c). Qed.
Print Assumptions C86_can_collect_partial.
Theorem C86_others b s l pre b1 a m post subs a' id :
  freached b s l -> ECall pre b1 a m post subs ∈ l -> a' <> a ->
  f_staked post !! (a', id) = f_staked pre !! (a', id) /\
  default [] (f_claims post !! a') = default [] (f_claims pre !! a').
Proof. exact (c86_others b s l pre b1 a m post subs a' id). Qed.
Print Assumptions C86_others.
Theorem C86_cancelled_refuted : exists b s l a id,
  freached b s l /\ f_staked s !! (a, id) = Some tt /\ f_owner s !! id <> Some (f_self s) /\
  f_power_at s (fb 9) a (Some 9) = 1 /\ forall b', is_ok (f_handle s b' a (FUnstake [id])) = false.
Proof. exact cancelled_refuted. Qed.
Print Assumptions C86_cancelled_refuted.
Theorem C86_shared_refuted : exists b s l a a' id,
  freached b s l /\ a <> a' /\ f_staked s !! (a, id) = Some tt /\ f_staked s !! (a', id) = Some tt /\
  f_power_at s (fb 9) a (Some 9) = 1 /\ f_power_at s (fb 9) a' (Some 9) = 1.
Proof. exact shared_refuted. Qed.
Print Assumptions C86_shared_refuted.
Example C86_case :
  let r := frun (Some (DHeight 10)) unbonding in let s := fst r in let l := snd r in
  freached (fb 15) s l /\ kept l /\ f_staked s !! (5%N, 2%N) = Some tt /\
  default [] (f_claims s !! 5%N) = [NClaimOf 1 (AtHeight 15)] /\
  fput_in 5 1 l = 1 /\ ftaken_out 5 1 l = 0 /\ fclaimed_by s 5 1 = 1 /\
  f_owner s !! 1%N = Some 100%N /\
  f_owner (fst (frun (Some (DHeight 10)) unbonded)) !! 1%N = Some 5%N.
Proof.
  cbv zeta. split; [freach|]. split; [fkept|].
  do 6 (split; [vm_compute; reflexivity|]). vm_compute; reflexivity.
Qed.
Example C86_case_now :
  let r := frun None staking in let s := fst r in let l := snd r in
  freached (fb 6) s l /\ kept l /\ f_staked s !! (5%N, 1%N) = Some tt /\
  f_staked s !! (6%N, 3%N) = Some tt /\ f_owner s !! 2%N = Some 5%N /\ ftaken_out 5 2 l = 1.
Proof.
  cbv zeta. split; [freach|]. split; [fkept|].
  do 3 (split; [vm_compute; reflexivity|]). vm_compute; reflexivity.
Qed.

(** * C87 *)
Theorem C87_payments b s l pre b1 a m post subs to id :
  freached b s l -> ECall pre b1 a m post subs ∈ l -> FPay to id ∈ subs ->
  f_owner pre !! id = Some (f_self pre) /\
  ((exists ids, m = FUnstake ids /\ id ∈ ids /\ to = a /\ f_dur pre = None /\
      f_staked pre !! (a, id) = Some tt) \/
   (m = FClaim /\ to = a /\ exists c, c ∈ default [] (f_claims pre !! a) /\ nc_id c = id /\
      is_expired (nc_release c) b1 = true) \/
   (exists ids r, m = FCancel ids r /\ id ∈ ids /\ to = a /\ f_prep pre !! id = Some a) \/
   (exists ids r, m = FCancel ids r /\ id ∈ ids /\ a = f_dao pre /\
      (r = Some to \/ r = None /\ f_prep pre !! id = Some to))).
Proof. exact (c87_payments b s l pre b1 a m post subs to id). Qed.
Print Assumptions C87_payments.
Theorem C87_leaves b s l pre b1 a m post subs id :
  freached b s l -> ECall pre b1 a m post subs ∈ l ->
  f_owner pre !! id = Some (f_self pre) -> f_owner post !! id <> Some (f_self pre) ->
  exists to, FPay to id ∈ subs.
Proof. exact (c87_leaves b s l pre b1 a m post subs id). Qed.
Print Assumptions C87_leaves.
Theorem C87_prepared_by b s l id : freached b s l -> f_prep s !! id = preparer id l.
Proof. exact (c87_prepared_by b s l id). Qed.
Print Assumptions C87_prepared_by.
Theorem C87_prepares b s l pre b1 a ids post subs id :
  freached b s l -> ECall pre b1 a (FPrepare ids) post subs ∈ l -> id ∈ ids -> f_owner pre !! id = Some a.
Proof. exact (c87_prepares b s l pre b1 a ids post subs id). Qed.
Print Assumptions C87_prepares.
Theorem C87_confirms b s l pre b1 a ids post subs id :
  freached b s l -> ECall pre b1 a (FConfirm ids) post subs ∈ l -> id ∈ ids ->
  f_prep pre !! id = Some a /\ f_owner pre !! id = Some (f_self pre) /\
  f_prep post !! id = None /\ f_staked post !! (a, id) = Some tt.
Proof. exact (c87_confirms b s l pre b1 a ids post subs id). Qed.
Print Assumptions C87_confirms.
Theorem C87_staked_by b s l pre b1 a m post subs a' id :
  freached b s l -> ECall pre b1 a m post subs ∈ l ->
  f_staked pre !! (a', id) = None -> f_staked post !! (a', id) = Some tt ->
  a' = a /\ exists ids, m = FConfirm ids /\ id ∈ ids.
Proof. exact (c87_staked_by b s l pre b1 a m post subs a' id). Qed.
Print Assumptions C87_staked_by.
(** Missing: tokens moved in by another account than the one that prepared them, and the DAO
    cancelling the stake of a staked token; see the refutation. *)
Theorem C87_safe_partial b s l id a x m s' subs :
  freached b s l -> kept l -> f_prep s !! id = Some a -> f_owner s !! id = Some (f_self s) ->
  x <> a -> x <> f_dao s -> f_handle s b x m = Ok (s', subs) ->
  f_prep s' !! id = Some a /\ f_owner s' !! id = Some (f_self s).
Proof. exact (c87_safe b s l id a x m s' subs). Qed.
Print Assumptions C87_safe_partial.
Theorem C87_can_stake_partial b s l id a :
  freached b s l -> kept l -> f_prep s !! id = Some a -> f_owner s !! id = Some (f_self s) ->
  a <> f_self s -> fcount_all s < U128_MAX ->
  exists s' subs, f_handle s b a (FConfirm [id]) = Ok (s', subs) /\
    f_staked s' !! (a, id) = Some tt /\ fcount s' a = fcount s a + 1.
Proof. exact (c87_can_stake b s l id a). Qed.
Print Assumptions C87_can_stake_partial.
Theorem C87_can_cancel b s l id a :
  freached b s l -> f_prep s !! id = Some a -> f_owner s !! id = Some (f_self s) ->
  a <> f_self s ->
  exists s', f_handle s b a (FCancel [id] None) = Ok (s', [FPay a id]) /\
    f_owner s' !! id = Some a /\ f_prep s' !! id = None.
Proof. exact (c87_can_cancel b s l id a). Qed.
Print Assumptions C87_can_cancel.
Theorem C87_stale_refuted : exists b s l a a' id s' subs,
  freached b s l /\ kept l /\ mover (f_self s) id l = Some a /\ a' <> a /\
  f_staked s !! (a', id) = Some tt /\
  f_handle s b a' (FUnstake [id]) = Ok (s', subs) /\ f_owner s' !! id = Some a'.
Proof. exact stale_refuted. Qed.
Print Assumptions C87_stale_refuted.
Example C87_case :
  let r := frun None halfway in let s := fst r in let l := snd r in
  freached (fb 4) s l /\ kept l /\ f_prep s !! 3%N = Some 6%N /\ preparer 3 l = Some 6%N /\
  mover 100 3 l = Some 6%N /\ f_owner s !! 3%N = Some 100%N /\ fcount_all s = 2.
Proof.
  cbv zeta. split; [freach|]. split; [fkept|].
  do 4 (split; [vm_compute; reflexivity|]). vm_compute; reflexivity.
Qed.
Example C87_case_calls : exists pre b a m post subs pre' b' a' m' post',
  freached (fb 6) (fst (frun None staking)) (snd (frun None staking)) /\
  ECall pre b a m post subs ∈ snd (frun None staking) /\ m = FConfirm [3%N] /\ a = 6%N /\
  f_staked pre !! (6%N, 3%N) = None /\ f_staked post !! (6%N, 3%N) = Some tt /\
  ECall pre' b' a' m' post' [FPay 6 3] ∈ snd (frun None staking) /\ m' = FCancel [3%N] None /\
  f_owner pre' !! 3%N = Some (f_self pre') /\ f_owner post' !! 3%N = Some 6%N.
Proof.
  do 11 eexists. split; [freach|].
  split; [apply (elem_of_list_lookup_2 _ 17); vm_compute; reflexivity|].
  split; [reflexivity|]. split; [reflexivity|]. split; [vm_compute; reflexivity|].
  split; [vm_compute; reflexivity|].
  split; [apply (elem_of_list_lookup_2 _ 9); vm_compute; reflexivity|].
  split; [reflexivity|]. split; vm_compute; reflexivity.
Qed.

(** dao-voting-cw20-staked: theorems.  Each is followed by what it rests on and by a concrete
    case that meets its hypotheses. *)
From Verif Require Import Base BaseProofs Exec ExecProofs Plain PlainProofs StoreModel StakeModel
  StakeSpec ActiveModel C20Model C20Spec C20Claims C20Examples.

(** * C92 *)
Theorem C92_powers_add_up b s l h bq :
  creached b s l ->
  (forall vs, NoDup vs -> lsum (fun a => c_power s bq a (Some h)) vs <= c_total s bq (Some h)) /\
  (forall a, 0 <= c_power s bq a (Some h)) /\
  exists vs, NoDup vs /\ lsum (fun a => c_power s bq a (Some h)) vs = c_total s bq (Some h).
Proof. exact (powers_sum b s l h bq). Qed.
Print Assumptions C92_powers_add_up.
Theorem C92_past_fixed b s l b' s' l' bq bq' h :
  creached b s l -> leads c_handle b s b' s' l' -> h <= height b ->
  (forall a, c_power s' bq' a (Some h) = c_power s bq a (Some h)) /\
  c_total s' bq' (Some h) = c_total s bq (Some h).
Proof. exact (powers_fixed b s l b' s' l' bq bq' h). Qed.
Print Assumptions C92_past_fixed.
Theorem C92_start_of_block b1 s1 l1 b' b2 s2 l2 bq h :
  creached b1 s1 l1 -> height b1 < h -> block_le b1 b' -> h <= height b' ->
  leads c_handle b' s1 b2 s2 l2 ->
  (forall a, c_power s2 bq a (Some h) = stake_of s1 a) /\ c_total s2 bq (Some h) = all_staked s1.
Proof. exact (powers_start b1 s1 l1 b' b2 s2 l2 bq h). Qed.
Print Assumptions C92_start_of_block.
Theorem C92_backed b s l :
  creached b s l ->
  0 <= all_staked s <= pooled s /\
  pooled s + unclaimed (c_stake s) <= tokens s (c_staker s) <= supply s /\ supply s <= U128_MAX /\
  (forall a, 0 <= tokens s a) /\ k_token (c_stake s) = c_token s.
Proof. exact (backed b s l). Qed.
Print Assumptions C92_backed.
Theorem C92_own_stake_only b s l pre b1 a m post subs x :
  creached b s l -> ECall pre b1 a m post subs ∈ l -> stake_of post x <> stake_of pre x ->
  x = a /\
  ((exists from n, m = CSend from n true /\ stake_of pre x < stake_of post x) \/
   (exists n, m = CStake (KUnstake n) /\ stake_of post x = stake_of pre x - n /\ 0 < n)).
Proof. exact (stake_moves b s l pre b1 a m post subs x). Qed.
Print Assumptions C92_own_stake_only.
Theorem C92_threshold_by_dao b s l pre b1 a m post subs :
  creached b s l -> ECall pre b1 a m post subs ∈ l ->
  (c_active post <> c_active pre -> exists t, m = CActive t) /\
  (forall t, m = CActive t -> a = c_dao pre /\ c_active post = t /\ sensible t (supply pre)).
Proof. exact (threshold_calls b s l pre b1 a m post subs). Qed.
Print Assumptions C92_threshold_by_dao.
Theorem C92_threshold_last b0 dao t i ntoken nstaker s0 b s l :
  csound b0 i -> c_instantiate b0 dao t i ntoken nstaker = Ok s0 -> leads c_handle b0 s0 b s l ->
  c_active s = last_asked t l /\ sensible t (supply s0) /\ c_dao s = dao /\
  c_token s = c_token s0 /\ c_staker s = c_staker s0.
Proof. exact (threshold_last b0 dao t i ntoken nstaker s0 b s l). Qed.
Print Assumptions C92_threshold_last.
Theorem C92_setup_new b dao t bals db d ntoken nstaker s :
  c_instantiate b dao t (CNew bals db d) ntoken nstaker = Ok s ->
  let all := bals ++ match db with Some n => if decide (0 < n) then [(dao, n)] else [] | None => [] end in
  NoDup (map fst all) /\ (forall a n, (a, n) ∈ all -> tokens s a = n) /\
  (forall a, a ∉ map fst all -> tokens s a = 0) /\
  supply s = lsum snd all /\ 0 < lsum snd bals /\ c_minter s = Some dao /\ c_token s = ntoken /\
  c_staker s = nstaker /\ k_token (c_stake s) = ntoken /\ k_dur (c_stake s) = d /\
  o_owner (k_own (c_stake s)) = Some dao /\ all_staked s = 0 /\ k_hooks (c_stake s) = [].
Proof. exact (setup_new b dao t bals db d ntoken nstaker s). Qed.
Print Assumptions C92_setup_new.
Theorem C92_setup_old b dao t token minter m st ntoken nstaker s :
  csound b (COld token minter m st) ->
  c_instantiate b dao t (COld token minter m st) ntoken nstaker = Ok s ->
  c_token s = token /\ c_minter s = minter /\ c_bals s = m /\ k_token (c_stake s) = token /\
  match st with
  | CStaked a k => c_staker s = a /\ c_stake s = k
  | CFresh d => c_staker s = nstaker /\ k_dur (c_stake s) = d /\ all_staked s = 0 /\
      o_owner (k_own (c_stake s)) = Some dao /\ k_hooks (c_stake s) = []
  end.
Proof. exact (setup_old b dao t token minter m st ntoken nstaker s). Qed.
Print Assumptions C92_setup_old.
Example C92_case :
  let r := crun (cstart half None) lively in
  creached (cb 8) (fst r) (snd r) /\ length (snd r) = 10%nat /\
  stake_of (fst r) 5 = 35 /\ stake_of (fst r) 6 = 5 /\ all_staked (fst r) = 40 /\
  c_total (fst r) (cb 8) (Some 3) = 60 /\ c_total (fst r) (cb 8) (Some 4) = 40 /\
  c_power (fst r) (cb 8) 5 (Some 2) = 50 /\ tokens (fst r) 5 = 20 /\ tokens (fst r) 30 = 47 /\
  supply (fst r) = 107 /\ c_active (fst r) = Some (ACount 40) /\ c_is_active (fst r) (cb 8) = Ok true.
Proof.
  cbv zeta. split; [creach|]. repeat (split; [vm_compute; reflexivity|]). vm_compute; reflexivity.
Qed.
Example C92_calls_case : exists pre b a m post subs,
  creached (cb 8) (fst (crun (cstart half None) lively)) (snd (crun (cstart half None) lively)) /\
  ECall pre b a m post subs ∈ snd (crun (cstart half None) lively) /\
  m = CStake (KUnstake 20) /\ a = 5%N /\ stake_of pre 5 = 55 /\ stake_of post 5 = 35.
Proof.
  do 6 eexists. split; [creach|].
  split; [apply (elem_of_list_lookup_2 _ 4); vm_compute; reflexivity|].
  do 3 (split; [reflexivity|]). vm_compute; reflexivity.
Qed.
Example C92_setup_case :
  c_instantiate (cb 0) 1 half (cnew half (Some 900)) 20 30 = Ok (cstart half (Some 900)) /\
  c_instantiate (cb 0) 1 half (CNew [] (Some 900) None) 20 30 = Err "InitialBalancesError" /\
  c_instantiate (cb 0) 1 half (CNew [(5%N, 1); (5%N, 2)] None None) 20 30 =
    Err "DuplicateInitialBalanceAddresses" /\
  (exists s, c_instantiate (cb 0) 1 half
    (COld 20 None {[5%N := 60]} (CStaked 30 (c_stake (cstart half None)))) 21 31 = Ok s) /\
  c_instantiate (cb 0) 1 half
    (COld 22 None {[5%N := 60]} (CStaked 30 (c_stake (cstart half None)))) 21 31 =
    Err "StakingContractMismatch" /\
  csound (cb 0) (COld 20 None {[5%N := 60]} (CStaked 30 (c_stake (cstart half None)))).
Proof.
  do 3 (split; [vm_compute; reflexivity|]). split; [eexists; vm_compute; reflexivity|].
  split; [vm_compute; reflexivity|]. split; [|split; [vm_compute; congruence|split]].
  - intros a n. rewrite lookup_singleton_Some. intros [_ <-]. lia.
  - assert (creached (cb 0) (fst (crun (cstart half None) [])) (snd (crun (cstart half None) []))) as HR
      by creach.
    exact (C20Proofs.ci_k _ _ (C20Proofs.creached_inv _ _ _ HR)).
  - vm_compute; reflexivity.
Qed.

(** * C93 *)
Theorem C93_active_means b s l b' :
  creached b s l -> height b < height b' ->
  exists x, c_is_active s b' = Ok x /\ (x = true <-> meets (c_active s) (all_staked s) (supply s)).
Proof. exact (active_means b s l b'). Qed.
Print Assumptions C93_active_means.
(** Missing: pools that were funded, tokens burnt since, tokens the DAO holds; see the
    refutations. *)
Theorem C93_met_by_tokens_partial b s l b' :
  cmade b s l -> not_funded l -> height b < height b' ->
  exists x, c_is_active s b' = Ok x /\ (x = true <-> meets (c_active s) (pooled s) (supply s)) /\
    (pooled s = supply s -> sensible (c_active s) (supply s) -> x = true).
Proof. exact (met_by_tokens b s l b'). Qed.
Print Assumptions C93_met_by_tokens_partial.
Theorem C93_inflated_refuted : exists b s l b',
  cmade b s l /\ sensible (c_active s) (supply s) /\ pooled s = supply s /\ 0 < supply s /\
  height b < height b' /\ c_is_active s b' = Ok false.
Proof. exact inflated_refuted. Qed.
Print Assumptions C93_inflated_refuted.
Theorem C93_burnt_refuted : exists b s l b' s0,
  cmade b s l /\ not_funded l /\ c_instantiate (cb 0) 1 (c_active s) (cnew (c_active s) None) 20 30 = Ok s0 /\
  leads c_handle (cb 0) s0 b s l /\ sensible (c_active s0) (supply s0) /\
  pooled s = supply s /\ 0 < supply s /\ height b < height b' /\ c_is_active s b' = Ok false.
Proof. exact burnt_refuted. Qed.
Print Assumptions C93_burnt_refuted.
Theorem C93_locked_refuted : exists s0,
  c_instantiate (cb 0) 1 half (cnew half (Some 900)) 20 30 = Ok s0 /\
  sensible (c_active s0) (supply s0) /\
  forall b s l b', leads c_handle (cb 0) s0 b s l -> dao_idle 1 l -> height b < height b' ->
    c_is_active s b' = Ok false.
Proof. exact locked_refuted. Qed.
Print Assumptions C93_locked_refuted.
Theorem C93_idle_bound b0 dao t bals db d ntoken nstaker s0 b s l :
  c_instantiate b0 dao t (CNew bals db d) ntoken nstaker = Ok s0 ->
  dao <> nstaker -> leads c_handle b0 s0 b s l -> dao_idle dao l ->
  c_active s = t /\ tokens s0 dao <= tokens s dao /\ supply s <= supply s0 /\
  all_staked s + tokens s dao <= supply s.
Proof. exact (idle_bound b0 dao t bals db d ntoken nstaker s0 b s l). Qed.
Print Assumptions C93_idle_bound.
Example C93_case :
  cmade (cb 3) (fst (crun (cstart half None) [cc 1 5 (CSend 5 60 true); cc 2 6 (CSend 6 40 true)]))
    (snd (crun (cstart half None) [cc 1 5 (CSend 5 60 true); cc 2 6 (CSend 6 40 true)])) /\
  not_funded (snd (crun (cstart half None) [cc 1 5 (CSend 5 60 true); cc 2 6 (CSend 6 40 true)])) /\
  pooled (fst (crun (cstart half None) [cc 1 5 (CSend 5 60 true); cc 2 6 (CSend 6 40 true)])) = 100 /\
  supply (fst (crun (cstart half None) [cc 1 5 (CSend 5 60 true); cc 2 6 (CSend 6 40 true)])) = 100.
Proof.
  split; [cmake|]. split.
  { intros pre b a from n post subs Hin.
    assert (forallb (fun e => match e with ECall _ _ _ (CSend _ n false) _ _ => n =? 0 | _ => true end)
      (snd (crun (cstart half None) [cc 1 5 (CSend 5 60 true); cc 2 6 (CSend 6 40 true)])) = true) as Hall
      by (vm_compute; reflexivity).
    rewrite forallb_forall in Hall. apply elem_of_list_In, Hall in Hin. lia. }
  split; vm_compute; reflexivity.
Qed.

(** dao-voting-cw721-staked: theorems.  Each is followed by what it rests on and by
    a concrete case meeting its hypotheses. *)
From Verif Require Import Base BaseProofs Exec ExecProofs Plain HooksModel VotingModel StoreModel
  ActiveModel NftModel NftSpec NftProofs NftClaims NftExamples.

(** * C43 *)
(** The last summand: tokens transferred to the module without a call. *)
Theorem C43_held_exactly_once b s l id :
  nreached b s l ->
  nstaked_times s id + nclaimed_times s id + ndeposited id l =
    if bool_decide (id ∈ n_held s) then 1 else 0.
Proof. exact (c43_held_once b s l id). Qed.
Print Assumptions C43_held_exactly_once.
Theorem C43_one_staker b s l id a a' :
  nreached b s l -> n_staked s !! (a, id) = Some tt ->
  (n_staked s !! (a', id) = Some tt -> a' = a) /\ nclaimed_by s a' id = 0 /\ id ∈ n_held s.
Proof. exact (c43_one_staker b s l id a a'). Qed.
Print Assumptions C43_one_staker.
Theorem C43_power_is_count b s l bq h :
  nreached b s l -> height b < h ->
  (forall a, n_power_at s bq a (Some h) = ncount s a) /\ n_total_at s bq (Some h) = ncount_all s.
Proof. exact (c43_power b s l bq h). Qed.
Print Assumptions C43_power_is_count.
Theorem C43_powers_sum_to_total b s l bq h : nreached b s l -> nsum_at s bq h = n_total_at s bq (Some h).
Proof. exact (c43_adds_up b s l bq h). Qed.
Print Assumptions C43_powers_sum_to_total.
Theorem C43_any_voters_within_total b s l bq h vs :
  nreached b s l -> NoDup vs ->
  lsum (fun a => n_power_at s bq a (Some h)) vs <= n_total_at s bq (Some h) <= U128_MAX /\
  (forall a, 0 <= n_power_at s bq a (Some h)).
Proof. exact (c43_any_voters b s l bq h vs). Qed.
Print Assumptions C43_any_voters_within_total.
Theorem C43_start_of_block b1 s1 l1 b' b2 s2 l2 bq h :
  nreached b1 s1 l1 -> height b1 < h -> block_le b1 b' -> h <= height b' ->
  leads n_handle b' s1 b2 s2 l2 ->
  (forall a, n_power_at s2 bq a (Some h) = ncount s1 a) /\ n_total_at s2 bq (Some h) = ncount_all s1.
Proof. exact (c43_reported b1 s1 l1 b' b2 s2 l2 bq h). Qed.
Print Assumptions C43_start_of_block.
Theorem C43_past_never_changes b s l b' s' l' bq bq' h :
  nreached b s l -> leads n_handle b s b' s' l' -> h <= height b ->
  (forall a, n_power_at s' bq' a (Some h) = n_power_at s bq a (Some h)) /\
  n_total_at s' bq' (Some h) = n_total_at s bq (Some h).
Proof. exact (c43_immutable b s l b' s' l' bq bq' h). Qed.
Print Assumptions C43_past_never_changes.
Theorem C43_returned_as_often_as_staked b s l a id :
  nreached b s l -> nput_in a id l = ntaken_out a id l + nclaimed_by s a id + nholds s a id.
Proof. exact (c43_conservation b s l a id). Qed.
Print Assumptions C43_returned_as_often_as_staked.
Theorem C43_created_released_or_open b s l a :
  nreached b s l -> ncreated a l ≡ₚ nreleased a l ++ default [] (n_claims s !! a).
Proof. exact (c43_once b s l a). Qed.
Print Assumptions C43_created_released_or_open.
Theorem C43_released_to_staker_when_due b s l pre b1 a m post subs to id :
  nreached b s l -> ECall pre b1 a m post subs ∈ l -> NPay to id ∈ subs ->
  to = a /\ id ∈ n_held pre /\ id ∉ n_held post /\
  ((exists ids, m = NUnstake ids /\ id ∈ ids /\ n_dur pre = None /\ n_staked pre !! (a, id) = Some tt) \/
   (m = NClaim /\ exists c, c ∈ default [] (n_claims pre !! a) /\ nc_id c = id /\
      is_expired (nc_release c) b1 = true)).
Proof. exact (c43_payments b s l pre b1 a m post subs to id). Qed.
Print Assumptions C43_released_to_staker_when_due.
Theorem C43_leaves_only_by_release b s l pre b1 a m post subs id :
  nreached b s l -> ECall pre b1 a m post subs ∈ l -> id ∈ n_held pre -> id ∉ n_held post ->
  NPay a id ∈ subs.
Proof. exact (c43_leaves b s l pre b1 a m post subs id). Qed.
Print Assumptions C43_leaves_only_by_release.
Theorem C43_nobody_else b s l pre b1 a m post subs a' id :
  nreached b s l -> ECall pre b1 a m post subs ∈ l -> a' <> a ->
  (n_staked post !! (a', id) = n_staked pre !! (a', id) \/ m = NReceive a' id /\ a = n_nft pre) /\
  default [] (n_claims post !! a') = default [] (n_claims pre !! a').
Proof. exact (c43_others b s l pre b1 a m post subs a' id). Qed.
Print Assumptions C43_nobody_else.
Theorem C43_can_unstake b s l a ids :
  nreached b s l -> ids <> [] -> NoDup ids -> (forall id, id ∈ ids -> n_staked s !! (a, id) = Some tt) ->
  (n_dur s <> None -> Z.of_nat (length (default [] (n_claims s !! a)) + length ids) <= 70) ->
  exists s' subs, n_handle s b a (NUnstake ids) = Ok (s', subs) /\
    (n_dur s = None -> forall id, id ∈ ids -> NPay a id ∈ subs).
Proof. exact (c43_can_unstake b s l a ids). Qed.
Print Assumptions C43_can_unstake.
Theorem C43_due_can_be_collected b s l a c :
  nreached b s l -> c ∈ default [] (n_claims s !! a) -> is_expired (nc_release c) b = true ->
  exists s' subs, n_handle s b a NClaim = Ok (s', subs) /\ NPay a (nc_id c) ∈ subs.
Proof. exact (c43_can_collect b s l a c). Qed.
Print Assumptions C43_due_can_be_collected.
Theorem C43_can_stake b s l a id :
  nreached b s l -> id ∉ n_held s -> ncount_all s < U128_MAX ->
  exists s' subs, n_handle s b (n_nft s) (NReceive a id) = Ok (s', subs) /\
    ncount s' a = ncount s a + 1 /\ n_staked s' !! (a, id) = Some tt.
Proof. exact (c43_can_stake b s l a id). Qed.
Print Assumptions C43_can_stake.
Theorem C43_only_the_collection_stakes b s l pre b1 a from id post subs :
  nreached b s l -> ECall pre b1 a (NReceive from id) post subs ∈ l -> a = n_nft pre.
Proof. exact (c43_only_collection b s l pre b1 a from id post subs). Qed.
Print Assumptions C43_only_the_collection_stakes.
Example C43_case :
  nreached (nb 20) ex_n ex_nl /\
  (* token 102 staked, 103 in a claim, 200 deposited, 101 back at its last staker *)
  102%N ∈ n_held ex_n /\ nstaked_times ex_n 102 = 1 /\ n_staked ex_n !! (1%N, 102%N) = Some tt /\
  103%N ∈ n_held ex_n /\ nclaimed_times ex_n 103 = 1 /\
  200%N ∈ n_held ex_n /\ ndeposited 200 ex_nl = 1 /\ 101%N ∉ n_held ex_n /\
  nput_in 1 101 ex_nl = 1 /\ ntaken_out 1 101 ex_nl = 1 /\
  nput_in 2 101 ex_nl = 1 /\ ntaken_out 2 101 ex_nl = 1 /\
  ncount ex_n 1 = 2 /\ ncount_all ex_n = 2 /\ n_power_at ex_n (nb 20) 1 (Some 5) = 1 /\
  n_power_at ex_n (nb 20) 2 (Some 17) = 1 /\ n_total_at ex_n (nb 20) (Some 17) = 2 /\
  ncreated 1 ex_nl = [NClaimOf 101 (AtHeight 14)] /\ nreleased 1 ex_nl = [NClaimOf 101 (AtHeight 14)] /\
  ncreated 2 ex_nl = [NClaimOf 103 (AtHeight 17)] /\ nreleased 2 ex_nl = [] /\
  (exists pre post subs, ECall pre (nb 14) 1%N NClaim post subs ∈ ex_nl /\ NPay 1 101 ∈ subs) /\
  (exists pre post subs, ECall pre (nb 17) 2%N (NUnstake [101%N]) post subs ∈ ex_nl /\ NPay 2 101 ∈ subs) /\
  (exists c, c ∈ default [] (n_claims ex_n !! 2%N) /\ is_expired (nc_release c) (nb 20) = true) /\
  n_dur ex_n = None /\ NoDup [102%N; 104%N] /\ n_staked ex_n !! (1%N, 104%N) = Some tt /\
  NoDup [1%N; 2%N; 3%N] /\ ncount_all ex_n < U128_MAX /\
  (* an earlier state of the same module *)
  (exists s1 l1 l2, nreached (nb 4) s1 l1 /\ leads n_handle (nb 5) s1 (nb 20) ex_n l2 /\
     ncount s1 1 = 1).
Proof.
  split; [exact ex_nreached|].
  split; [apply (bool_decide_eq_true_1 (102%N ∈ n_held ex_n)); vm_compute; reflexivity|].
  do 2 (split; [vm_compute; reflexivity|]).
  split; [apply (bool_decide_eq_true_1 (103%N ∈ n_held ex_n)); vm_compute; reflexivity|].
  split; [vm_compute; reflexivity|].
  split; [apply (bool_decide_eq_true_1 (200%N ∈ n_held ex_n)); vm_compute; reflexivity|].
  split; [vm_compute; reflexivity|].
  split; [apply (bool_decide_eq_false_1 (101%N ∈ n_held ex_n)); vm_compute; reflexivity|].
  do 13 (split; [vm_compute; reflexivity|]).
  split. { do 3 eexists. split; [apply (elem_of_list_lookup_2 _ 9); vm_compute; reflexivity|].
    apply elem_of_list_here. }
  split. { do 3 eexists. split; [apply (elem_of_list_lookup_2 _ 14); vm_compute; reflexivity|].
    apply elem_of_list_here. }
  split. { exists (NClaimOf 103 (AtHeight 17)).
    split; [apply (elem_of_list_lookup_2 _ 0); vm_compute; reflexivity|]. vm_compute. reflexivity. }
  split; [vm_compute; reflexivity|].
  split; [apply (bool_decide_eq_true_1 (NoDup [102%N; 104%N])); vm_compute; reflexivity|].
  split; [vm_compute; reflexivity|].
  split; [apply (bool_decide_eq_true_1 (NoDup [1%N; 2%N; 3%N])); vm_compute; reflexivity|].
  split; [vm_compute; reflexivity|].
  exists (fst (nrun ex_nd None (take 5 ex_nh))), (snd (nrun ex_nd None (take 5 ex_nh))),
    (snd (run_hist n_handle no_fail no_reply (fst (nrun ex_nd None (take 5 ex_nh))) (drop 5 ex_nh))).
  split; [nreach|]. split; [|vm_compute; reflexivity].
  exists (drop 5 ex_nh). split; [nside|]. split; [|nside].
  assert (fst (run_hist n_handle no_fail no_reply (fst (nrun ex_nd None (take 5 ex_nh))) (drop 5 ex_nh)) = ex_n)
    as <- by (vm_compute; reflexivity). apply surjective_pairing.
Qed.

(** * C44, for NFTs *)
Theorem C44_nft_module b s l bq supply :
  nreached b s l -> 0 <= supply <= U64_MAX ->
  let st := n_total_at s bq None in
  exists a, n_is_active s bq supply = Ok a /\
  match n_thr s with
  | None => a = true
  | Some (ACount n) => a = true <-> n <= st
  | Some (APercent p) => a = true <-> st <> 0 /\ supply * 10 ^ 9 * p / 10 ^ 18 <= st * 10 ^ 9
  end.
Proof. exact (c44_nft b s l bq supply). Qed.
Print Assumptions C44_nft_module.
(** A count is not checked when the collection comes from a factory. *)
Theorem C44_nft_factory_refuted :
  exists b s l n, nreached b s l /\ n_thr s = Some (ACount n) /\ U64_MAX < n.
Proof. exact c44_nft_factory_refuted. Qed.
Print Assumptions C44_nft_factory_refuted.
Example C44_nft_case :
  nreached (nb 20) (fst (nrun None (Some (APercent (2 * 10 ^ 15))) ex_nh)) (snd (nrun None (Some (APercent (2 * 10 ^ 15))) ex_nh)) /\
  n_is_active (fst (nrun None (Some (APercent (2 * 10 ^ 15))) ex_nh)) (nb 20) 1000 = Ok true /\
  n_is_active (fst (nrun None (Some (APercent (2 * 10 ^ 15))) ex_nh)) (nb 20) 1001 = Ok false /\
  n_is_active (nini None (Some (APercent 1))) (nb 20) 1 = Ok false.
Proof. split; [nreach|]. repeat split; vm_compute; reflexivity. Qed.

(** * C73 *)
Theorem C73_nft_module b s l pre b1 a m post subs :
  nreached b s l -> ECall pre b1 a m post subs ∈ l ->
  n_dao post = n_dao pre /\ n_nft post = n_nft pre /\
  (n_dur post <> n_dur pre \/ n_thr post <> n_thr pre \/ n_hooks post <> n_hooks pre -> a = n_dao pre).
Proof. exact (c73_nft b s l pre b1 a m post subs). Qed.
Print Assumptions C73_nft_module.
Example C73_nft_case :
  nreached (nb 20) ex_n ex_nl /\
  (exists pre post subs, ECall pre (nb 16) 9%N (NUpdateConfig None) post subs ∈ ex_nl /\
     n_dur post <> n_dur pre /\ n_dao pre = 9%N) /\
  n_handle ex_n (nb 20) 1%N (NUpdateConfig None) = Err "Unauthorized" /\
  n_handle ex_n (nb 20) 1%N (NAddHook 1) = Err "Unauthorized" /\
  n_handle ex_n (nb 20) 1%N (NRemoveHook 77) = Err "Unauthorized" /\
  n_handle ex_n (nb 20) 1%N (NUpdateThreshold None 5) = Err "Unauthorized".
Proof.
  split; [exact ex_nreached|].
  split. { do 3 eexists. split; [apply (elem_of_list_lookup_2 _ 13); vm_compute; reflexivity|].
    vm_compute. split; [discriminate|reflexivity]. }
  repeat split; vm_compute; reflexivity.
Qed.

(** * C43: what a module is set up with *)
(** A module can be made exactly if the unbonding period, if any, is not empty, a new collection has
    tokens, and the active threshold is in range. *)
Theorem C43_instantiate b dao nft src d thr :
  fits_dur d = true -> fits_active thr = true -> match src with NewNft n => 0 <= n | _ => True end ->
  is_ok (n_instantiate b dao nft src d thr) = true <->
  match d with Some (DHeight n) | Some (DTime n) => 0 < n | None => True end /\
  match src with NewNft n => 0 < n | _ => True end /\
  match thr with
  | Some (APercent p) => 0 < p <= DEC_ONE
  | Some (ACount n) =>
      match src with ExistingNft k | NewNft k => 0 < n <= k | FactoryNft => True end
  | None => True
  end.
Proof. exact (c43_instantiate b dao nft src d thr). Qed.
Print Assumptions C43_instantiate.
Example C43_instantiate_case :
  is_ok (n_instantiate (nb 1) 9%N 70%N (NewNft 3) (Some (DHeight 5)) (Some (ACount 3))) = true /\
  n_instantiate (nb 1) 9%N 70%N (NewNft 0) None None = Err "NoInitialNfts".
Proof. split; vm_compute; reflexivity. Qed.
(** An unbonding period is never empty or negative. *)
Theorem C43_duration b s l :
  nreached b s l -> match n_dur s with Some (DHeight n) | Some (DTime n) => 0 < n | None => True end.
Proof. exact (c43_duration b s l). Qed.
Print Assumptions C43_duration.
Example C43_duration_case :
  nreached (nb 20) (fst (nrun ex_nd None (take 9 ex_nh))) (snd (nrun ex_nd None (take 9 ex_nh))) /\
  n_dur (fst (nrun ex_nd None (take 9 ex_nh))) = Some (DHeight 10).
Proof. split; [nreach|vm_compute; reflexivity]. Qed.

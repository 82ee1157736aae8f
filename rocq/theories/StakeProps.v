(** cw20-stake: theorems.  Each is followed by what it rests on and by a concrete
    case meeting its hypotheses. *)
From Verif Require Import Base BaseProofs Exec ExecProofs Plain HooksModel StoreModel StakeModel
  StakeSpec StakeProofs StakeClaims StakeExamples.

(** * C36 *)
Theorem C36_solvent b s l :
  kreached b s l ->
  sum_staked s = total_staked s /\ (forall a, 0 <= staked s a) /\
  total_staked s <= k_pool s /\ k_pool s + unclaimed s <= k_held s.
Proof. exact (c36_solvent b s l). Qed.
Print Assumptions C36_solvent.
(** The holdings are accounted for to the token. *)
Theorem C36_exact_accounting b s l :
  kreached b s l -> k_held s = k_pool s + unclaimed s + donated l.
Proof. exact (c36_exact b s l). Qed.
Print Assumptions C36_exact_accounting.
Theorem C36_no_conversion_panic b s l a m : kreached b s l -> k_handle s b a m <> Err "unwrap".
Proof. exact (c36_no_panic b s l a m). Qed.
Print Assumptions C36_no_conversion_panic.
Theorem C36_stake_accepted b s l a x :
  kreached b s l -> 0 <= x -> k_held s + x <= U128_MAX ->
  exists s' subs, k_handle s b (k_token s) (KReceive a x true) = Ok (s', subs).
Proof. exact (c36_stake_accepted b s l a x). Qed.
Print Assumptions C36_stake_accepted.
Example C36_case :
  kreached (kb 20) ex_k ex_l /\ total_staked ex_k = 63 /\ k_pool ex_k = 95 /\
  unclaimed ex_k = 15 /\ donated ex_l = 11 /\ k_held ex_k = 121 /\
  staked ex_k 1 = 50 /\ staked ex_k 2 = 13.
Proof. split; [exact ex_kreached|]. vm_compute. repeat split. Qed.

(** * C37 *)
(** False as stated for a pool nobody holds. *)
Theorem C37_round_trip_refuted :
  exists b s l a x s1 subs1 s2 subs2,
    kreached b s l /\
    k_handle s b (k_token s) (KReceive a x true) = Ok (s1, subs1) /\
    k_handle s1 b a (KUnstake (staked s1 a)) = Ok (s2, subs2) /\ staked s a = 0 /\
    k_pool s1 - k_pool s2 = 101 /\ x = 1 /\ In (KPay a 101) subs2.
Proof. exact c37_refuted. Qed.
Print Assumptions C37_round_trip_refuted.
(** With at least one staker; missing: the empty pool. *)
Theorem C37_round_trip_partial b s l a x n b' s1 subs1 s2 subs2 :
  kreached b s l -> 0 < total_staked s ->
  k_handle s b (k_token s) (KReceive a x true) = Ok (s1, subs1) ->
  k_handle s1 b' a (KUnstake n) = Ok (s2, subs2) -> n <= staked s1 a - staked s a ->
  k_pool s1 - k_pool s2 <= x.
Proof. exact (c37_round_trip_partial b s l a x n b' s1 subs1 s2 subs2). Qed.
Print Assumptions C37_round_trip_partial.
Theorem C37_share_value_never_falls b s l b' s' l' :
  kreached b s l -> leads k_handle b s b' s' l' -> 0 < total_staked s ->
  (forall e, e ∈ l' -> 0 < total_staked (ev_post e)) ->
  k_pool s * total_staked s' <= k_pool s' * total_staked s.
Proof. exact (c37_share_value b s l b' s' l'). Qed.
Print Assumptions C37_share_value_never_falls.
Theorem C37_share_value_call b s l a m s' subs :
  kreached b s l -> k_handle s b a m = Ok (s', subs) -> 0 < total_staked s ->
  k_pool s * total_staked s' <= k_pool s' * total_staked s.
Proof. exact (c37_share_value_call b s l a m s' subs). Qed.
Print Assumptions C37_share_value_call.
Theorem C37_unstake_pays_share b s l a x s' subs :
  kreached b s l -> k_handle s b a (KUnstake x) = Ok (s', subs) ->
  exists n, n * total_staked s <= x * k_pool s < (n + 1) * total_staked s /\
    k_pool s' = k_pool s - n /\ staked s' a = staked s a - x /\ x <= staked s a /\
    (forall a', a' <> a -> staked s' a' = staked s a') /\
    match k_dur s with
    | None => k_held s' = k_held s - n /\ k_claims s' = k_claims s /\
        exists rest, subs = KPay a n :: rest /\ (forall y, y ∈ rest -> exists h, y = KHook h false a x)
    | Some d => k_held s' = k_held s /\
        claims_of (k_claims s') a = claims_of (k_claims s) a ++ [Claim n (after d b)] /\
        (forall a', a' <> a -> claims_of (k_claims s') a' = claims_of (k_claims s) a') /\
        (forall y, y ∈ subs -> exists h, y = KHook h false a x)
    end.
Proof. exact (c37_unstake_share b s l a x s' subs). Qed.
Print Assumptions C37_unstake_pays_share.
Example C37_case :
  kreached (kb 20) ex_k ex_l /\ 0 < total_staked ex_k /\
  (* staking 100 gives 66 shares, worth 99 *)
  (exists s1 s2 l1 l2,
     k_handle ex_k (kb 20) (k_token ex_k) (KReceive 3 100 true) = Ok (s1, l1) /\
     k_handle s1 (kb 20) 3 (KUnstake 66) = Ok (s2, l2) /\
     staked s1 3 - staked ex_k 3 = 66 /\ k_pool s1 - k_pool s2 = 99) /\
  (exists s l' s', kreached (kb 4) s (snd (krun ex_d (take 4 ex_h))) /\
     leads k_handle (kb 4) s (kb 20) s' l' /\ (length l' > 5)%nat /\ 0 < total_staked s /\
     (forall e, e ∈ l' -> 0 < total_staked (ev_post e)) /\ k_pool s = 180 /\ total_staked s = 120).
Proof.
  split; [exact ex_kreached|]. split; [vm_compute; reflexivity|]. split.
  - do 4 eexists. split; [vm_compute; reflexivity|]. split; [vm_compute; reflexivity|].
    split; vm_compute; reflexivity.
  - exists (fst (krun ex_d (take 4 ex_h))),
      (snd (run_hist k_handle no_fail no_reply (fst (krun ex_d (take 4 ex_h))) (drop 4 ex_h))),
      (fst (run_hist k_handle no_fail no_reply (fst (krun ex_d (take 4 ex_h))) (drop 4 ex_h))).
    split; [kreach|]. split.
    + exists (drop 4 ex_h). split; [kside|]. split; [apply surjective_pairing|kside].
    + split; [vm_compute; lia|]. split; [vm_compute; reflexivity|]. split.
      * apply Forall_forall. vm_compute. repeat constructor.
      * vm_compute. split; reflexivity.
Qed.

(** * C38 *)
Theorem C38_created_released_or_open b s l a :
  kreached b s l -> created a l ≡ₚ released a l ++ claims_of (k_claims s) a.
Proof. exact (c38_once b s l a). Qed.
Print Assumptions C38_created_released_or_open.
Theorem C38_paid_what_was_released b s l a :
  kreached b s l -> collected a l = lsum cl_amount (released a l).
Proof. exact (c38_paid b s l a). Qed.
Print Assumptions C38_paid_what_was_released.
Theorem C38_collection b s l pre b1 a post subs :
  kreached b s l -> ECall pre b1 a KClaim post subs ∈ l ->
  exists out, claims_of (k_claims pre) a ≡ₚ out ++ claims_of (k_claims post) a /\
    (forall c, c ∈ out -> is_expired (cl_release c) b1 = true) /\
    (forall c, c ∈ claims_of (k_claims post) a -> is_expired (cl_release c) b1 = false) /\
    subs = [KPay a (lsum cl_amount out)] /\ k_held post = k_held pre - lsum cl_amount out /\
    0 < lsum cl_amount out.
Proof. exact (c38_collect b s l pre b1 a post subs). Qed.
Print Assumptions C38_collection.
Theorem C38_nobody_else b s l pre b1 a m post subs a' :
  kreached b s l -> ECall pre b1 a m post subs ∈ l ->
  (a' <> a \/ (m <> KClaim /\ forall x, m <> KUnstake x)) ->
  claims_of (k_claims post) a' = claims_of (k_claims pre) a'.
Proof. exact (c38_others b s l pre b1 a m post subs a'). Qed.
Print Assumptions C38_nobody_else.
Theorem C38_due_can_be_collected b s l a c :
  kreached b s l -> c ∈ claims_of (k_claims s) a -> is_expired (cl_release c) b = true ->
  0 < cl_amount c -> exists s' subs, k_handle s b a KClaim = Ok (s', subs).
Proof. exact (c38_collectable b s l a c). Qed.
Print Assumptions C38_due_can_be_collected.
Example C38_case :
  kreached (kb 20) ex_k ex_l /\
  (* the claim made before the period was shortened keeps its release height *)
  created 1 ex_l = [Claim 60 (AtHeight 15); Claim 15 (AtHeight 19)] /\
  released 1 ex_l = [Claim 60 (AtHeight 15)] /\ collected 1 ex_l = 60 /\
  claims_of (k_claims ex_k) 1 = [Claim 15 (AtHeight 19)] /\
  created 2 ex_l = [Claim 10 (AtHeight 9)] /\ released 2 ex_l = created 2 ex_l /\
  (exists pre post subs, ECall pre (kb 9) 2 KClaim post subs ∈ ex_l).
Proof.
  split; [exact ex_kreached|]. split; [vm_compute; reflexivity|]. split; [vm_compute; reflexivity|].
  split; [vm_compute; reflexivity|]. split; [vm_compute; reflexivity|].
  split; [vm_compute; reflexivity|]. split; [vm_compute; reflexivity|].
  do 3 eexists. vm_compute. do 12 right. left.
Qed.

(** * C39 *)
Theorem C39_reports_start_of_block b1 s1 l1 b' b2 s2 l2 bq h :
  kreached b1 s1 l1 -> height b1 < h -> block_le b1 b' -> h <= height b' ->
  leads k_handle b' s1 b2 s2 l2 ->
  (forall a, k_balance_at s2 bq a (Some h) = staked s1 a) /\
  k_total_at s2 bq (Some h) = total_staked s1.
Proof. exact (c39_reported b1 s1 l1 b' b2 s2 l2 bq h). Qed.
Print Assumptions C39_reports_start_of_block.
Theorem C39_immutable b s l b' s' l' bq bq' h :
  kreached b s l -> leads k_handle b s b' s' l' -> h <= height b ->
  (forall a, k_balance_at s' bq' a (Some h) = k_balance_at s bq a (Some h)) /\
  k_total_at s' bq' (Some h) = k_total_at s bq (Some h).
Proof. exact (c39_immutable b s l b' s' l' bq bq' h). Qed.
Print Assumptions C39_immutable.
Theorem C39_adds_up b s l bq h :
  kreached b s l -> sum_staked_at s bq h = k_total_at s bq (Some h).
Proof. exact (c39_adds_up b s l bq h). Qed.
Print Assumptions C39_adds_up.
Theorem C39_any_voters_within_total b s l bq h vs :
  kreached b s l -> NoDup vs ->
  lsum (fun a => k_balance_at s bq a (Some h)) vs <= k_total_at s bq (Some h) <= U128_MAX /\
  (forall a, 0 <= k_balance_at s bq a (Some h)).
Proof. exact (c39_any_voters b s l bq h vs). Qed.
Print Assumptions C39_any_voters_within_total.
Example C39_case :
  kreached (kb 20) ex_k ex_l /\
  map (fun h => k_balance_at ex_k (kb 20) 1 (Some h)) [2; 3; 5; 6; 16; 17] = [0; 100; 100; 60; 60; 50] /\
  map (fun h => k_total_at ex_k (kb 20) (Some h)) [2; 3; 5; 6; 7; 17] = [0; 100; 120; 80; 73; 63] /\
  sum_staked_at ex_k (kb 20) 6 = 80 /\
  (exists s, kreached (kb 5) s (snd (krun ex_d (take 6 ex_h))) /\
     exists s' l', leads k_handle (kb 6) s (kb 20) s' l' /\ (length l' > 3)%nat).
Proof.
  split; [exact ex_kreached|]. split; [vm_compute; reflexivity|].
  split; [vm_compute; reflexivity|]. split; [vm_compute; reflexivity|].
  exists (fst (krun ex_d (take 6 ex_h))). split; [kreach|].
  exists (fst (run_hist k_handle no_fail no_reply (fst (krun ex_d (take 6 ex_h))) (drop 6 ex_h))),
    (snd (run_hist k_handle no_fail no_reply (fst (krun ex_d (take 6 ex_h))) (drop 6 ex_h))).
  split; [|vm_compute; lia].
  exists (drop 6 ex_h). split; [kside|]. split; [apply surjective_pairing|kside].
Qed.

(** * C40 *)
Theorem C40_refuted :
  exists b s l a x s' subs,
    kreached b s l /\ 0 < x /\
    k_handle s b (k_token s) (KReceive a x true) = Ok (s', subs) /\
    staked s' a = staked s a /\ k_pool s' = k_pool s + x.
Proof. exact c40_refuted. Qed.
Print Assumptions C40_refuted.
(** Exactly when it holds. *)
Theorem C40_positive_iff_partial b s l a x s' subs :
  kreached b s l -> k_handle s b (k_token s) (KReceive a x true) = Ok (s', subs) -> 0 < x ->
  staked s a <= staked s' a /\
  (staked s a < staked s' a <-> total_staked s = 0 \/ k_pool s <= x * total_staked s).
Proof. exact (c40_partial b s l a x s' subs). Qed.
Print Assumptions C40_positive_iff_partial.
Example C40_case :
  exists s' subs, k_handle ex_k (kb 20) (k_token ex_k) (KReceive 3 2 true) = Ok (s', subs) /\
    staked s' 3 = 1 /\ k_pool ex_k <= 2 * total_staked ex_k.
Proof. do 2 eexists. split; [vm_compute; reflexivity|]. split; [vm_compute; reflexivity|]. vm_compute. discriminate. Qed.

(** * C70 *)
Theorem C70_refuted :
  exists b s l a,
    kreached b s l /\ 0 < staked s a /\ k_dur s = None /\
    k_handle s b a (KUnstake (staked s a)) = Err "Cw20InvaraintViolation".
Proof. exact c70_refuted. Qed.
Print Assumptions C70_refuted.
(** For pools whose size plus the amount stays below the 128-bit maximum. *)
Theorem C70_unstake_accepted_partial b s l a x :
  kreached b s l -> 0 < x <= staked s a -> x + k_pool s < U128_MAX ->
  (k_dur s <> None -> Z.of_nat (length (claims_of (k_claims s) a)) < 100) ->
  exists s' subs, k_handle s b a (KUnstake x) = Ok (s', subs).
Proof. exact (c70_partial b s l a x). Qed.
Print Assumptions C70_unstake_accepted_partial.
Example C70_case : kreached (kb 20) ex_k ex_l /\ 0 < 50 <= staked ex_k 1 /\ 50 + k_pool ex_k < U128_MAX.
Proof. split; [exact ex_kreached|]. vm_compute. repeat split; discriminate. Qed.

(** * C71 *)
Theorem C71_refuted :
  exists b s l a,
    kreached b s l /\ staked s a = 2 ^ 64 /\ k_pool s = 2 ^ 64 /\
    k_staked_value s a = Err "panic" /\
    is_ok (k_handle s b a (KUnstake (staked s a))) = true.
Proof. exact c71_refuted. Qed.
Print Assumptions C71_refuted.
Theorem C71_value_is_payout b s l a v s' subs :
  kreached b s l -> k_staked_value s a = Ok v ->
  k_handle s b a (KUnstake (staked s a)) = Ok (s', subs) -> k_pool s - k_pool s' = v.
Proof. exact (c71_value b s l a v s' subs). Qed.
Print Assumptions C71_value_is_payout.
(** The query answers when stake times pool fits in 128 bits. *)
Theorem C71_available_partial b s l a :
  kreached b s l -> staked s a * k_pool s <= U128_MAX -> exists v, k_staked_value s a = Ok v.
Proof. exact (c71_partial b s l a). Qed.
Print Assumptions C71_available_partial.
Example C71_case :
  k_staked_value ex_k 1 = Ok 75 /\
  exists s' subs, k_handle ex_k (kb 20) 1 (KUnstake (staked ex_k 1)) = Ok (s', subs) /\
    k_pool ex_k - k_pool s' = 75.
Proof. split; [vm_compute; reflexivity|]. do 2 eexists. split; vm_compute; reflexivity. Qed.

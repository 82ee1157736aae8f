(** dao-rewards-distributor with the token module, cw20-stake or the NFT module: theorems.  Each
    is followed by what it rests on and by a concrete case meeting its hypotheses. *)
From Verif Require Import Base BaseProofs Exec Plain HooksModel StoreModel ExtModel ExtProofs ActiveModel TokModel
  StakeModel NftModel RewModel RewSpec RewOnModel RewOnSpec RewOnProofs RewOnClaims RewOnExamples.

(** * C138 *)
Theorem C138_is_a_history {S M X} (I : staking S M X) made hk md self b s l :
  one_of_three I made -> ojreached I made hk md self b s l ->
  (exists l', ereached b (oj_e s) l' /\ ecalls l' = flat_map (on_part I hk md self) l) /\
  exists v, e_vps (oj_e s) !! md = Some v /\
    (forall a h, smap_at (vp_pow v) a h = st_power_at I (oj_m s) b a (Some h)) /\
    (forall h, snap_get_at (vp_tot v) h = st_total_at I (oj_m s) b (Some h)) /\
    (forall a, vp_power_at v b a = st_power_at I (oj_m s) b a None) /\
    vp_total_at v b = st_total_at I (oj_m s) b None.
Proof. exact (c138_history I made hk md self b s l). Qed.
Print Assumptions C138_is_a_history.
Theorem C138_accepts {S M X} (I : staking S M X) made hk md self b s l a m :
  one_of_three I made -> ojreached I made hk md self b s l ->
  (forall k' subs, st_handle I (oj_m s) b a m = Ok (k', subs) ->
     exists s', oj_handle I hk md self s b a (OMod m) = Ok (s', []) /\ oj_m s' = k' /\
       oj_out s' = match st_who I a m with Some w => map (fun h => (h, w)) (st_hooks I (oj_m s)) | None => [] end ++ oj_out s) /\
  (forall x, st_handle I (oj_m s) b a m = Err x -> oj_handle I hk md self s b a (OMod m) = Err x).
Proof. exact (c138_accepts I made hk md self b s l a m). Qed.
Print Assumptions C138_accepts.
(** Missing: histories in which the hook is not in place when a stake changes, in which rewards
    are handed out at once in a block in which stakes changed before, or in which the contracts
    of a distribution are exchanged; for changes of stakes also distributions funded with more
    than 10^38 units and receivers of reports that refuse them. *)
Theorem C138_within_funding_partial {S M X} (I : staking S M X) made hk md self id b s l us :
  one_of_three I made -> ojreached I made hk md self b s l -> oorderly I hk md self id l = true ->
  e_dists (oj_e s) !! id <> None -> NoDup us ->
  (forall u, 0 <= claimable (oj_e s) b id u) /\
  oclaimed id l + owithdrawn id l + lsum (claimable (oj_e s) b id) us + remaining (oj_e s) b id <= ofunded id l.
Proof. exact (c138_covered I made hk md self id b s l us). Qed.
Print Assumptions C138_within_funding_partial.
Theorem C138_claims_succeed_partial {S M X} (I : staking S M X) made hk md self b s l id d a n :
  one_of_three I made -> ojreached I made hk md self b s l -> e_dists (oj_e s) !! id = Some d -> a <> hk ->
  (forall i d', e_dists (oj_e s) !! i = Some d' -> di_denom d' = di_denom d -> oorderly I hk md self i l = true) ->
  pending_rewards (oj_e s) b id a = Ok n -> n <> 0 ->
  exists s', oj_handle I hk md self s b a (ORew (EClaim id)) = Ok (s', [EPay (di_denom d) a n]) /\ oj_m s' = oj_m s.
Proof. exact (c138_claim I made hk md self b s l id d a n). Qed.
Print Assumptions C138_claims_succeed_partial.
Theorem C138_stake_changes_go_through_partial {S M X} (I : staking S M X) made hk md self b s l a c m k' subs ids :
  one_of_three I made -> ojreached I made hk md self b s l ->
  o_hooked I self (oj_m s) = true -> e_hooks (oj_e s) !! hk = Some ids ->
  (forall i, i ∈ ids -> oorderly I hk md self i l = true /\ ofunded i l <= 10 ^ 38) ->
  st_handle I (oj_m s) b a m = Ok (k', subs) ->
  exists s1 s2, oj_handle I hk md self s b a (OMod m) = Ok (s1, []) /\
    deliveries I hk md self (length (oj_out s1)) s1 b c = Ok s2 /\ oj_m s2 = k' /\ oj_out s2 = [].
Proof. exact (c138_goes_through I made hk md self b s l a c m k' subs ids). Qed.
Print Assumptions C138_stake_changes_go_through_partial.
Theorem C138_hook_first_refuted :
  exists hk self b s l a ids, ojreached nft_staking nft_made hk hk self b s l /\ oj_out s = [] /\
    n_hooks (oj_m s) = [self] /\ is_ok (n_handle (oj_m s) b a (NUnstake ids)) = true /\
    exists s1, oj_handle nft_staking hk hk self s b a (OMod (NUnstake ids)) = Ok (s1, []) /\
      forall c, oj_handle nft_staking hk hk self s1 b c ODeliver = Err "InvalidHookSender".
Proof. exact c138_early. Qed.
Print Assumptions C138_hook_first_refuted.
Theorem C138_wrong_caller_refuted :
  exists hk md self b s l id a n, ojreached cw20_staking cw20_made hk md self b s l /\ oj_out s = [] /\
    (match e_dists (oj_e s) !! id with Some d => di_vp d = md /\ di_hook d = md | None => False end) /\
    k_hooks (oj_m s) = [self] /\ is_ok (k_handle (oj_m s) b a (KUnstake n)) = true /\
    exists s1, oj_handle cw20_staking hk md self s b a (OMod (KUnstake n)) = Ok (s1, []) /\
      forall c, oj_handle cw20_staking hk md self s1 b c ODeliver = Err "InvalidHookSender".
Proof. exact c138_wrong. Qed.
Print Assumptions C138_wrong_caller_refuted.
Theorem C138_late_hook_refuted :
  exists hk self b s l id a, ojreached nft_staking nft_made hk hk self b s l /\
    (match e_dists (oj_e s) !! id with Some d => di_vp d = hk /\ di_hook d = hk | None => False end) /\
    n_hooks (oj_m s) = [self] /\ e_hooks (oj_e s) !! hk = Some [id] /\
    forallb (ounhurried id) l = true /\ ofunded id l = 1000 /\ claimable (oj_e s) b id a = 2550.
Proof. exact c138_late. Qed.
Print Assumptions C138_late_hook_refuted.
(** Two members stake NFTs; one adds two, the other takes three out at once, the first claims. *)
Example C138_nft_case :
  one_of_three nft_staking nft_made /\ ojreached nft_staking nft_made md md self (ob 9) nu nul /\
  oorderly nft_staking md md self 1 nul = true /\ e_dists (oj_e nu) !! 1 <> None /\
  o_hooked nft_staking self (oj_m nu) = true /\ e_hooks (oj_e nu) !! md = Some [1] /\ ofunded 1 nul = 1000 /\
  oclaimed 1 nul = 299 /\ map (claimable (oj_e nu) (ob 9) 1) [alice; bob] = [0; 399] /\
  pending_rewards (oj_e nu) (ob 9) 1 bob = Ok 399 /\ n_power_at (oj_m nu) (ob 9) alice None = 3 /\
  (exists k' subs, n_handle (oj_m nu) (ob 9) alice (NUnstake [12%N]) = Ok (k', subs)) /\
  exists x, n_handle (oj_m nu) (ob 9) alice (NUnstake [21%N]) = Err x.
Proof.
  split; [exact is_nft|]. split; [exact nu_reached|]. split; [vm_compute; reflexivity|]. split; [vm_compute; discriminate|].
  do 7 (split; [vm_compute; reflexivity|]). split; [eexists _, _; vm_compute; reflexivity|].
  eexists. vm_compute. reflexivity.
Qed.
(** The same with cw20 tokens; the pool is topped up in between, which changes no stake. *)
Example C138_cw20_case :
  one_of_three cw20_staking cw20_made /\ ojreached cw20_staking cw20_made sc md self (ob 9) ku kul /\
  oorderly cw20_staking sc md self 1 kul = true /\ e_dists (oj_e ku) !! 1 <> None /\
  o_hooked cw20_staking self (oj_m ku) = true /\ e_hooks (oj_e ku) !! sc = Some [1] /\ ofunded 1 kul = 1000 /\
  oclaimed 1 kul = 299 /\ map (claimable (oj_e ku) (ob 9) 1) [alice; bob] = [0; 399] /\
  pending_rewards (oj_e ku) (ob 9) 1 bob = Ok 399 /\ k_balance_at (oj_m ku) (ob 9) alice None = 30 /\
  exists k' subs, k_handle (oj_m ku) (ob 9) alice (KUnstake 5) = Ok (k', subs).
Proof.
  split; [exact is_cw20|]. split; [exact ku_reached|]. split; [vm_compute; reflexivity|]. split; [vm_compute; discriminate|].
  do 7 (split; [vm_compute; reflexivity|]). eexists _, _. vm_compute. reflexivity.
Qed.
(** Native tokens, with a second receiver of reports. *)
Example C138_tok_case :
  one_of_three tok_staking tok_made /\ ojreached tok_staking tok_made md md self (ob 9) tu tul /\
  oorderly tok_staking md md self 1 tul = true /\ e_dists (oj_e tu) !! 1 <> None /\
  t_hooks (oj_m tu) = [self; 90%N] /\ e_hooks (oj_e tu) !! md = Some [1] /\ ofunded 1 tul = 1000 /\
  oclaimed 1 tul = 250 /\ map (claimable (oj_e tu) (ob 9) 1) [alice; bob] = [0; 450] /\
  exists k' subs, t_handle (oj_m tu) (ob 9) alice (TUnstake 5) = Ok (k', subs).
Proof.
  split; [exact is_tok|]. split; [exact tu_reached|]. split; [vm_compute; reflexivity|]. split; [vm_compute; discriminate|].
  do 5 (split; [vm_compute; reflexivity|]). eexists _, _. vm_compute. reflexivity.
Qed.

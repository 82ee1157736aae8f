(** dao-voting-cw721-staked with an NFT collection of its own: theorems.  Each is followed by
    what it rests on and by a concrete case meeting its hypotheses. *)
From Verif Require Import Base BaseProofs Exec Plain StoreModel StoreProofs ActiveModel NftModel NftSpec NftProofs CollModel
  NftNewModel NftNewSpec NftNewProofs NftNewClaims NftNewExamples.

(** * C120 *)
Theorem C120_setup created b dao md nft d thr ms s :
  dao <> md -> dao <> nft -> new_coll created b dao md nft d thr ms = Ok s ->
  n_dao (p_n s) = dao /\ n_nft (p_n s) = nft /\ 0 < c_supply (p_c s) /\
  (forall k, n_thr (p_n s) = Some (ACount k) -> k <> 0 /\ k <= c_supply (p_c s)) /\
  (created = true -> q_own (p_c s) = Own (Some dao) None None) /\
  (created = false -> q_own (p_c s) = Own (Some md) (Some dao) None /\
    forall b', exists s', p_handle md s b' dao (PColl (COwn OAccept)) = Ok (s', []) /\
      q_own (p_c s') = Own (Some dao) None None).
Proof. exact (c120_setup created b dao md nft d thr ms s). Qed.
Print Assumptions C120_setup.
Theorem C120_owner md dao nft ms b s l :
  preached true md dao nft ms b s l -> forallb (keeps dao) l = true ->
  q_own (p_c s) = Own (Some dao) None None /\
  forall pre b1 a m post subs id o, ECall pre b1 a m post subs ∈ l ->
    owner_of (p_c pre) id = None -> owner_of (p_c post) id = Some o -> a = dao /\ m = PColl (CMint id o).
Proof. exact (c120_owner md dao nft ms b s l). Qed.
Print Assumptions C120_owner.
Theorem C120_as_asked created b dao md nft d thr ms s :
  new_coll created b dao md nft d thr ms = Ok s -> only_mints ms = true ->
  (forall id o, owner_of (p_c s) id = Some o <-> SOwn (CMint id o) ∈ ms) /\
  c_supply (p_c s) = Z.of_nat (length ms) /\ q_ops (p_c s) = ∅ /\
  (forall id t, q_toks (p_c s) !! id = Some t -> k_appr t = []) /\
  n_dur (p_n s) = d /\ n_thr (p_n s) = thr /\ n_staked (p_n s) = ∅ /\ n_claims (p_n s) = ∅ /\ n_hooks (p_n s) = [].
Proof. exact (c120_as_asked created b dao md nft d thr ms s). Qed.
Print Assumptions C120_as_asked.
(** Missing: set-up messages that do other things than mint. *)
Theorem C120_safe_partial created md dao nft ms b s l :
  preached created md dao nft ms b s l -> only_mints ms = true ->
  ncount_all (p_n s) + waiting (p_n s) <= owned_by (p_c s) md <= c_supply (p_c s) /\
  (forall a bq h, height b < h -> n_power_at (p_n s) bq a (Some h) = ncount (p_n s) a) /\
  (forall a id, n_staked (p_n s) !! (a, id) = Some tt ->
    owner_of (p_c s) id = Some md /\ untouchable (p_c s) b id /\
    (forall a', n_staked (p_n s) !! (a', id) = Some tt -> a' = a) /\ (forall a', nclaimed_by (p_n s) a' id = 0)) /\
  (forall a c, c ∈ default [] (n_claims (p_n s) !! a) ->
    owner_of (p_c s) (nc_id c) = Some md /\ untouchable (p_c s) b (nc_id c)).
Proof. exact (c120_safe created md dao nft ms b s l). Qed.
Print Assumptions C120_safe_partial.
Theorem C120_leaves_partial created md dao nft ms b s l pre b1 a m post subs id :
  preached created md dao nft ms b s l -> only_mints ms = true -> ECall pre b1 a m post subs ∈ l ->
  owner_of (p_c pre) id = Some md -> owner_of (p_c post) id <> Some md ->
  owner_of (p_c post) id = Some a /\
  ((exists ids, m = PNft (NUnstake ids) /\ id ∈ ids /\ n_dur (p_n pre) = None /\ n_staked (p_n pre) !! (a, id) = Some tt) \/
   (m = PNft NClaim /\ exists c, c ∈ default [] (n_claims (p_n pre) !! a) /\ nc_id c = id /\ is_expired (nc_release c) b1 = true)).
Proof. exact (c120_leaves created md dao nft ms b s l pre b1 a m post subs id). Qed.
Print Assumptions C120_leaves_partial.
Theorem C120_unstake_partial created md dao nft ms b s l a ids :
  preached created md dao nft ms b s l -> only_mints ms = true -> a <> md -> a <> nft -> ids <> [] -> NoDup ids ->
  (forall id, id ∈ ids -> n_staked (p_n s) !! (a, id) = Some tt) ->
  (n_dur (p_n s) <> None -> Z.of_nat (length (default [] (n_claims (p_n s) !! a)) + length ids) <= 70) ->
  exists s' subs, p_handle md s b a (PNft (NUnstake ids)) = Ok (s', subs) /\
    (n_dur (p_n s) = None -> forall id, id ∈ ids -> owner_of (p_c s') id = Some a) /\
    (forall d, n_dur (p_n s) = Some d -> forall id, id ∈ ids ->
      NClaimOf id (after d b) ∈ default [] (n_claims (p_n s') !! a)).
Proof. exact (c120_unstake created md dao nft ms b s l a ids). Qed.
Print Assumptions C120_unstake_partial.
Theorem C120_collect_partial created md dao nft ms b s l a c :
  preached created md dao nft ms b s l -> only_mints ms = true -> a <> md -> a <> nft ->
  c ∈ default [] (n_claims (p_n s) !! a) -> is_expired (nc_release c) b = true ->
  exists s' subs, p_handle md s b a (PNft NClaim) = Ok (s', subs) /\ owner_of (p_c s') (nc_id c) = Some a.
Proof. exact (c120_collect created md dao nft ms b s l a c). Qed.
Print Assumptions C120_collect_partial.
Theorem C120_operator_takes_refuted :
  exists md dao nft ms b s l a id x s' subs, preached true md dao nft ms b s l /\
    n_staked (p_n s) !! (a, id) = Some tt /\ a <> x /\ x <> dao /\
    p_handle md s b x (PColl (CTransfer id x)) = Ok (s', subs) /\
    owner_of (p_c s') id = Some x /\ n_staked (p_n s') !! (a, id) = Some tt /\
    n_power_at (p_n s') b a None = 1 /\ p_handle md s' b a (PNft (NUnstake [id])) = Err "cw721: not the owner".
Proof. exact taken. Qed.
Print Assumptions C120_operator_takes_refuted.
Theorem C120_operator_votes_refuted :
  exists md dao nft ms b s l x, preached true md dao nft ms b s l /\ x <> dao /\
    (forall pre b1 a m post subs id, ECall pre b1 a m post subs ∈ l -> owner_of (p_c post) id <> Some x) /\
    c_supply (p_c s) = 2 /\ n_power_at (p_n s) b x None = 4 /\ n_total_at (p_n s) b None = 6.
Proof. exact conjured. Qed.
Print Assumptions C120_operator_votes_refuted.
Theorem C120_never_active_refuted :
  exists md dao nft b0 thr ms s0, dao <> md /\ only_mints ms = true /\
    new_coll true b0 dao md nft None (Some thr) ms = Ok s0 /\ thr = ACount 2 /\ c_supply (p_c s0) = 2 /\
    forall b s l, leads (p_handle md) b0 s0 b s l -> forallb (silent dao) l = true ->
      n_is_active (p_n s) b (c_supply (p_c s)) = Ok false.
Proof. exact never_active. Qed.
Print Assumptions C120_never_active_refuted.
(** The DAO mints another, a delay is set, Alice waits for hers. *)
Example C120_case :
  preached true md dao nft mints (pb 20) us ul /\ only_mints mints = true /\ forallb (keeps dao) ul = true /\
  new_coll true (pb 0) dao md nft None None mints = Ok (made None mints) /\
  owner_of (p_c (made None mints)) 2%N = Some bob /\ c_supply (p_c (made None mints)) = 3 /\
  c_supply (p_c us) = 4 /\ owned_by (p_c us) md = 3 /\ ncount_all (p_n us) = 1 /\ waiting (p_n us) = 1 /\
  n_staked (p_n us) !! (bob, 2%N) = Some tt /\ n_dur (p_n us) = Some (DHeight 10) /\
  default [] (n_claims (p_n us) !! alice) = [NClaimOf 1 (AtHeight 16)] /\
  (exists s' subs, p_handle md us (pb 20) alice (PNft NClaim) = Ok (s', subs) /\ owner_of (p_c s') 1%N = Some alice) /\
  (exists pre b1 post subs, ECall pre b1 bob (PNft (NUnstake [2%N])) post subs ∈ ul /\
    owner_of (p_c pre) 2%N = Some md /\ owner_of (p_c post) 2%N = Some bob) /\
  (exists pre b1 post subs, ECall pre b1 dao (PColl (CMint 4 eve)) post subs ∈ ul /\
    owner_of (p_c pre) 4%N = None /\ owner_of (p_c post) 4%N = Some eve).
Proof.
  split; [preach|]. do 2 (split; [vm_compute; reflexivity|]). split; [apply made_ok; vm_compute; reflexivity|].
  do 9 (split; [vm_compute; reflexivity|]).
  split; [eexists _, _; split; vm_compute; reflexivity|]. split.
  - eexists _, _, _, _. split; [apply (elem_of_list_lookup_2 _ 5%nat); vm_compute; reflexivity|]. split; vm_compute; reflexivity.
  - eexists _, _, _, _. split; [apply (elem_of_list_lookup_2 _ 3%nat); vm_compute; reflexivity|]. split; vm_compute; reflexivity.
Qed.
(** A voting module exchanged for one with its own collection: the DAO has yet to accept it. *)
Example C120_case_exchange :
  exists s, new_coll false (pb 0) dao md nft (Some (DHeight 5)) (Some (ACount 2)) mints = Ok s /\
    n_thr (p_n s) = Some (ACount 2) /\ q_own (p_c s) = Own (Some md) (Some dao) None /\
    p_handle md s (pb 1) dao (PColl (CMint 4 eve)) = Err "NotOwner".
Proof. eexists. split; [vm_compute; reflexivity|]. do 2 (split; [vm_compute; reflexivity|]). vm_compute. reflexivity. Qed.
(** Handing the collection to somebody else first undoes the set-up. *)
Example C120_case_renounced :
  new_coll true (pb 0) dao md nft None None (mints ++ [SOwn (COwn ORenounce)]) = Err "NotOwner" /\
  new_coll true (pb 0) dao md nft None None
    (mints ++ [SOwn (COwn (OTransfer eve None)); SOther eve (PColl (COwn OAccept))]) = Err "NotOwner".
Proof. split; vm_compute; reflexivity. Qed.

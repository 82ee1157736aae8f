(** Statements of C36-C40, C70, C71 and their proofs. *)
From Verif Require Import Base BaseProofs Exec ExecProofs Plain PlainProofs HooksModel
  StoreModel StoreProofs LedgerProofs StakeModel StakeSpec StakeProofs.

(** ** C36 *)
Lemma c36_solvent b s l :
  kreached b s l ->
  sum_staked s = total_staked s /\ (forall a, 0 <= staked s a) /\
  total_staked s <= k_pool s /\ k_pool s + unclaimed s <= k_held s.
Proof.
  intros HR. pose proof (kreached_inv _ _ _ HR) as HI. split; [apply HI|].
  split; [intros a; rewrite staked_get; apply HI|]. split; apply HI.
Qed.
(** To the token: what is held is the pool, the claims, and unsolicited transfers. *)
Lemma c36_exact b s l :
  kreached b s l -> k_held s = k_pool s + unclaimed s + donated l.
Proof.
  intros (b0 & token & d & owner & s0 & _ & Hi & HL). revert HL.
  apply (leads_ind k_handle (fun b s l => k_held s = k_pool s + unclaimed s + donated l)).
  - intros b1 s1 l1 a m s' subs IH H. unfold donated in *. rewrite lsum_app.
    rewrite unclaimed_get in *. destruct m as [from x [|]|x| | | | | |x].
    + apply stake_step in H as (n & -> & Hx & Hh & Hn & H1 & H2 & -> & ->). cbn. lia.
    + apply fund_step in H as (-> & Hx & Hh & -> & ->). cbn. lia.
    + apply unstake_step in H as (H0 & Ha & Hat & Has & Hb & Hn & Eb & Et & Ep & _ & _ & _ & _ & Hc).
      cbn. rewrite Ep.
      destruct Hc as [(_ & _ & -> & -> & _)|(d1 & _ & _ & -> & -> & _)]; [lia|].
      rewrite claims_sum_create. lia.
    + apply claim_step in H as (H0 & Hh & Hs & E & _). rewrite Hs. subst s'. cbn. lia.
    + apply quiet_step in H as (E1 & E2 & -> & -> & -> & _); [|done]. cbn. lia.
    + apply quiet_step in H as (E1 & E2 & -> & -> & -> & _); [|done]. cbn. lia.
    + apply quiet_step in H as (E1 & E2 & -> & -> & -> & _); [|done]. cbn. lia.
    + apply quiet_step in H as (E1 & E2 & -> & -> & -> & _); [|done]. cbn. lia.
    + apply donate_step in H as (H0 & H1 & _ & ->). cbn. lia.
  - intros b1 s1 l1 x IH. unfold donated in *. rewrite lsum_app. cbn. lia.
  - eauto.
  - unfold k_instantiate in Hi. res_inv Hi. done.
Qed.
Lemma c36_no_panic b s l a m : kreached b s l -> k_handle s b a m <> Err "unwrap".
Proof.
  intros HR H. pose proof (kreached_inv _ _ _ HR) as HI.
  pose proof (total_nonneg _ _ HI) as Ht. pose proof (ki_pool _ _ HI) as Hp.
  assert (forall x y e, add128 x y = Err e -> e = "panic") as Hadd.
  { unfold add128. intros x y e. destruct (_ <? _); by intros [=]. }
  assert (forall x y e, sub128 x y = Err e -> e = "panic") as Hsub.
  { unfold sub128. intros x y e. destruct (_ <? _); by intros [=]. }
  assert (forall d e, validate_duration d = Err e -> e = "InvalidUnstakingDuration") as Hval.
  { unfold validate_duration. intros [[?|?]|] e; try destruct (_ =? _); by intros [=]. }
  destruct m as [from x [|]|x| |d|h|h|act|x]; cbn [k_handle] in H.
  - destruct (fits128 x) eqn:Ef; [|done]. apply fits128_ok in Ef.
    unfold k_receive in H. destruct (_ =? _)%N; [|done]. unfold k_arrive in H.
    destruct (_ <=? _); [|done]. unfold k_stake in H. cbn in H.
    destruct (amount_to_stake _ _ _) as [n|e] eqn:En.
    + destruct (add128 _ n) eqn:E1; [|apply Hadd in E1; congruence].
      destruct (add128 (snap_get _) n) eqn:E2; [|apply Hadd in E2; congruence].
      destruct (add128 _ x) eqn:E3; [done|apply Hadd in E3; congruence].
    + unfold amount_to_stake in En. change (snap_get (k_total s)) with (total_staked s) in En.
      destruct (total_staked s =? 0) eqn:E0; [done|].
      destruct (k_pool s =? 0) eqn:E1; [lia|]. cbn [orb] in En.
      destruct (_ <=? U128_MAX) eqn:E2; [done|].
      assert (total_staked s * x / k_pool s <= x) by (apply Z.div_le_upper_bound; nia). lia.
  - destruct (fits128 x) eqn:Ef; [|done]. unfold k_receive in H. destruct (_ =? _)%N; [|done].
    unfold k_arrive in H. destruct (_ <=? _); [|done]. unfold k_fund in H. cbn in H.
    destruct (add128 _ x) eqn:E3; [done|apply Hadd in E3; congruence].
  - destruct (fits128 x) eqn:Ef; [|done]. apply fits128_ok in Ef.
    unfold k_unstake in H. change (snap_get (k_total s)) with (total_staked s) in H.
    destruct (total_staked s =? 0) eqn:E0; [done|]. cbn [negb] in H.
    destruct (_ <? _) eqn:E1; [|done]. destruct (x <=? total_staked s) eqn:E2; [|done].
    unfold amount_to_claim in H. rewrite E0 in H. cbn [negb] in H.
    destruct (_ <=? U128_MAX) eqn:E3.
    + destruct (sub128 _ x) eqn:E4; [|apply Hsub in E4; congruence].
      destruct (sub128 (total_staked s) x) eqn:E5; [|apply Hsub in E5; congruence].
      destruct (sub128 (k_pool s) _) eqn:E6; [|apply Hsub in E6; congruence].
      destruct (k_dur s); [by destruct (_ <=? MAX_CLAIMS)|].
      unfold k_leave in H. cbn in H. by destruct (_ <=? k_held s).
    + assert (x * k_pool s / total_staked s <= k_pool s) by (apply Z.div_le_upper_bound; nia). lia.
  - unfold k_claim in H. unfold claim_tokens in H. destruct (_ <=? U128_MAX); [|done].
    cbn in H. destruct (_ =? 0); [done|]. cbn in H. unfold k_leave in H. by destruct (_ <=? _).
  - destruct (fits_dur d); [|done]. unfold k_update_config in H. destruct (is_owner _ _); [|done].
    destruct (validate_duration d) eqn:E; [done|]. apply Hval in E. congruence.
  - unfold k_set_hooks in H. destruct (is_owner _ _); [|done]. unfold add_hook in H.
    by destruct (existsb _ _).
  - unfold k_set_hooks in H. destruct (is_owner _ _); [|done]. unfold remove_hook in H.
    by destruct (existsb _ _).
  - unfold k_owner in H. destruct (update_ownership _ _ _ _) eqn:E; [done|].
    unfold update_ownership in E. destruct act; repeat (case_match; simplify_eq); congruence.
  - destruct (fits128 x); [|done]. unfold k_arrive in H. by destruct (_ <=? _).
Qed.
(** Staking is always accepted, whatever the amount the token contract moved. *)
Lemma c36_stake_accepted b s l a x :
  kreached b s l -> 0 <= x -> k_held s + x <= U128_MAX ->
  exists s' subs, k_handle s b (k_token s) (KReceive a x true) = Ok (s', subs).
Proof.
  intros HR Hx Hmax. pose proof (kreached_inv _ _ _ HR) as HI.
  pose proof (total_nonneg _ _ HI) as Ht. pose proof (ki_pool _ _ HI) as Hp.
  pose proof (ki_held _ _ HI) as Hh. pose proof (ki_cpos _ _ HI) as Hc.
  assert (0 <= claims_sum (k_claims s)).
  { apply msum_nonneg. intros k v Hk. apply lsum_nonneg. intros c Hin. apply (Hc k).
    unfold claims_of. by rewrite Hk. }
  cbn [k_handle]. rewrite (proj2 (fits128_ok x)) by lia. unfold k_receive.
  rewrite N.eqb_refl. unfold k_arrive. destruct (k_held s + x <=? U128_MAX) eqn:E; [|lia].
  unfold k_stake. cbn.
  destruct (amount_to_stake (snap_get (k_total s)) (k_pool s) x) as [n|] eqn:En.
  - destruct (amount_to_stake_spec _ _ _ _ (conj Ht Hp) Hx En) as (Hn & _).
    pose proof (staked_le_total _ _ a HI) as Hst. rewrite staked_get, total_get in *.
    rewrite !add128_eq by lia. eauto.
  - exfalso. unfold amount_to_stake in En. change (snap_get (k_total s)) with (total_staked s) in En.
    destruct (total_staked s =? 0) eqn:E0; [done|].
    destruct (k_pool s =? 0) eqn:E1; [lia|]. cbn [orb] in En.
    destruct (total_staked s * x / k_pool s <=? U128_MAX) eqn:E2; [done|].
    assert (total_staked s * x / k_pool s <= x) by (apply Z.div_le_upper_bound; nia). lia.
Qed.

(** ** C37 *)
Lemma share_step b s a m s' subs :
  kinv b s -> k_handle s b a m = Ok (s', subs) -> 0 < total_staked s ->
  k_pool s * total_staked s' <= k_pool s' * total_staked s.
Proof.
  intros HI H Ht. pose proof (total_nonneg _ _ HI) as Ht0. pose proof (ki_pool _ _ HI) as Hp.
  destruct m as [from x [|]|x| | | | | |x].
  - apply stake_step in H as (n & -> & Hx & Hh & Hn & H1 & H2 & -> & ->).
    destruct (amount_to_stake_spec _ _ _ _ (conj Ht0 Hp) (proj1 Hx) Hn) as (Hn1 & _ & Hn2).
    rewrite !total_get in *. cbn. specialize (Hn2 ltac:(lia)).
    pose proof (div_mul_le (snap_get (k_total s) * x) (k_pool s) ltac:(lia)). nia.
  - apply fund_step in H as (-> & Hx & Hh & -> & ->). rewrite !total_get in *. cbn. nia.
  - apply unstake_step in H as (H0 & Ha & Hat & Has & Hb & Hn & Eb & Et & Ep & _).
    rewrite !total_get in *. rewrite Et, Ep, snap_get_save.
    pose proof (div_mul_le (x * k_pool s) (snap_get (k_total s)) ltac:(lia)). nia.
  - apply claim_step in H as (H0 & Hh & Hs & -> & _). done.
  - apply quiet_step in H as (E1 & E2 & -> & E4 & E5 & _); [|done]. rewrite !total_get, E2. lia.
  - apply quiet_step in H as (E1 & E2 & -> & E4 & E5 & _); [|done]. rewrite !total_get, E2. lia.
  - apply quiet_step in H as (E1 & E2 & -> & E4 & E5 & _); [|done]. rewrite !total_get, E2. lia.
  - apply quiet_step in H as (E1 & E2 & -> & E4 & E5 & _); [|done]. rewrite !total_get, E2. lia.
  - apply donate_step in H as (H0 & H1 & _ & ->). done.
Qed.
(** As long as someone stays staked, [pool / total] never decreases. *)
Lemma c37_share_value b s l b' s' l' :
  kreached b s l -> leads k_handle b s b' s' l' -> 0 < total_staked s ->
  (forall e, e ∈ l' -> 0 < total_staked (ev_post e)) ->
  k_pool s * total_staked s' <= k_pool s' * total_staked s.
Proof.
  intros HR HL Ht. pose proof (kreached_inv _ _ _ HR) as HI.
  enough (kinv b' s' /\ ((forall e, e ∈ l' -> 0 < total_staked (ev_post e)) ->
    0 < total_staked s' /\ k_pool s * total_staked s' <= k_pool s' * total_staked s)) by tauto.
  revert HL.
  apply (leads_ind k_handle (fun b' s' l' => kinv b' s' /\
    ((forall e, e ∈ l' -> 0 < total_staked (ev_post e)) ->
    0 < total_staked s' /\ k_pool s * total_staked s' <= k_pool s' * total_staked s))).
  - intros b1 s1 l1 a m s2 subs [IH1 IH2] Hh. split; [by eapply kinv_call|]. intros He.
    destruct IH2 as [A B]; [intros e Hin; apply He, elem_of_app; by left|].
    assert (0 < total_staked s2) as Hs2.
    { apply (He (ECall s1 b1 a m s2 subs)), elem_of_app. right. left. }
    split; [done|]. pose proof (share_step _ _ _ _ _ _ IH1 Hh A) as C.
    pose proof (ki_pool _ _ IH1). apply (Z.mul_le_mono_pos_r _ _ (total_staked s1)); [done|].
    assert (k_pool s * total_staked s1 * total_staked s2 <= k_pool s1 * total_staked s * total_staked s2) by nia.
    assert (k_pool s1 * total_staked s2 * total_staked s <= k_pool s2 * total_staked s1 * total_staked s) by nia.
    lia.
  - intros b1 s1 l1 x [IH1 IH2]. split; [done|]. intros He. apply IH2.
    intros e Hin. apply He, elem_of_app. by left.
  - intros b1 b2 s1 l1 [IH1 IH2] Hb. split; [by eapply kinv_time|done].
  - split; [done|]. intros _. lia.
Qed.
(** A single call never lowers it. *)
Lemma c37_share_value_call b s l a m s' subs :
  kreached b s l -> k_handle s b a m = Ok (s', subs) -> 0 < total_staked s ->
  k_pool s * total_staked s' <= k_pool s' * total_staked s.
Proof. intros HR. apply share_step. by eapply kreached_inv. Qed.
(** What an unstake takes out of the pool: the proportional share rounded down,
    paid at once or recorded as a claim. *)
Lemma c37_unstake_share b s l a x s' subs :
  kreached b s l -> k_handle s b a (KUnstake x) = Ok (s', subs) ->
  exists n, n * total_staked s <= x * k_pool s < (n + 1) * total_staked s /\
    k_pool s' = k_pool s - n /\ staked s' a = staked s a - x /\ x <= staked s a /\
    (forall a', a' <> a -> staked s' a' = staked s a') /\
    match k_dur s with
    | None => k_held s' = k_held s - n /\ k_claims s' = k_claims s /\
        exists rest, subs = KPay a n :: rest /\ (forall y, y ∈ rest -> exists h, y = KHook h false a x)
    | Some d => k_held s' = k_held s /\
        claims_of (k_claims s') a = claims_of (k_claims s) a ++ [Claim n (after d b)] /\
        (forall a', a' <> a -> claims_of (k_claims s') a' = claims_of (k_claims s) a') /\
        (forall y, y ∈ subs -> exists h, y = KHook h false a x)
    end.
Proof.
  intros HR H. pose proof (kreached_inv _ _ _ HR) as HI. pose proof (total_nonneg _ _ HI) as Ht0.
  apply unstake_step in H as (H0 & Ha & Hat & Has & Hb & Hn & Eb & Et & Ep & _ & _ & _ & _ & Hc).
  exists (x * k_pool s / total_staked s).
  pose proof (div_mul_le (x * k_pool s) (total_staked s) ltac:(lia)).
  pose proof (div_mul_gt (x * k_pool s) (total_staked s) ltac:(lia)).
  assert (forall y, y ∈ map (fun h => KHook h false a x) (k_hooks s) -> exists h, y = KHook h false a x).
  { intros y (h & -> & _)%elem_of_list_fmap. eauto. }
  split; [done|]. split; [done|].
  split. { rewrite staked_get, Eb, smap_get_save. by destruct (decide (a = a)). }
  split; [done|].
  split. { intros a' Hne. rewrite !staked_get, Eb, smap_get_save. by destruct (decide (a' = a)). }
  destruct Hc as [(-> & _ & -> & -> & ->)|(d & -> & _ & -> & -> & ->)].
  - split; [done|]. split; [done|]. eauto.
  - split; [done|]. unfold create_claim. split.
    { rewrite claims_of_insert. by destruct (decide (a = a)). }
    split; [|done]. intros a' Hne. rewrite claims_of_insert. by destruct (decide (a' = a)).
Qed.
(** Staking into a pool somebody holds and unstaking again returns at most what
    was put in. *)
Lemma c37_round_trip_partial b s l a x n b' s1 subs1 s2 subs2 :
  kreached b s l -> 0 < total_staked s ->
  k_handle s b (k_token s) (KReceive a x true) = Ok (s1, subs1) ->
  k_handle s1 b' a (KUnstake n) = Ok (s2, subs2) -> n <= staked s1 a - staked s a ->
  k_pool s1 - k_pool s2 <= x.
Proof.
  intros HR Ht H1 H2 Hn. pose proof (kreached_inv _ _ _ HR) as HI.
  pose proof (total_nonneg _ _ HI) as Ht0. pose proof (ki_pool _ _ HI) as Hp.
  apply stake_step in H1 as (m & _ & Hx & Hh & Hm & _ & _ & E1 & _).
  destruct (amount_to_stake_spec _ _ _ _ (conj Ht0 Hp) (proj1 Hx) Hm) as (Hm1 & _ & Hm2).
  specialize (Hm2 ltac:(lia)).
  assert (staked s1 a = staked s a + m) as Hs1.
  { subst s1. rewrite staked_get. cbn. rewrite smap_get_save. by destruct (decide (a = a)). }
  apply unstake_step in H2 as (H0 & Ha & _ & _ & _ & _ & _ & _ & Ep & _).
  assert (total_staked s1 = total_staked s + m) as Ht1 by by subst s1.
  assert (k_pool s1 = k_pool s + x) as Hp1 by by subst s1.
  rewrite Ht1, Hp1 in Ep. rewrite Ep, Hp1.
  enough (n * (k_pool s + x) / (total_staked s + m) <= x) by lia.
  apply Z.div_le_upper_bound; [lia|].
  pose proof (div_mul_le (total_staked s * x) (k_pool s) ltac:(lia)). rewrite <-Hm2 in *. nia.
Qed.

(** ** C38 *)
(** Every claim ever created was released exactly once or is still outstanding. *)
Lemma c38_once b s l a :
  kreached b s l -> created a l ≡ₚ released a l ++ claims_of (k_claims s) a.
Proof.
  intros (b0 & token & d & owner & s0 & _ & Hi & HL). revert HL.
  apply (leads_ind k_handle (fun b s l => created a l ≡ₚ released a l ++ claims_of (k_claims s) a)).
  - intros b1 s1 l1 a1 m s' subs IH H. unfold created, released in *.
    rewrite !flat_map_app, IH. cbn [flat_map]. rewrite !app_nil_r.
    destruct m as [from x [|]|x| | | | | |x].
    + apply stake_step in H as (n & -> & Hx & Hh & Hn & H1 & H2 & -> & ->). cbn.
      by rewrite !app_nil_r.
    + apply fund_step in H as (-> & Hx & Hh & -> & ->). cbn. by rewrite !app_nil_r.
    + apply unstake_step in H as (H0 & Ha & Hat & Has & Hb & Hn & Eb & Et & Ep & _ & _ & _ & _ & Hc).
      cbn [ev_created ev_released]. rewrite app_nil_r.
      replace (k_pool s1 - k_pool s') with (x * k_pool s1 / total_staked s1) by lia.
      destruct Hc as [(-> & _ & _ & -> & _)|(d1 & -> & _ & _ & -> & _)].
      * destruct (a1 =? a)%N; by rewrite app_nil_r.
      * unfold create_claim. rewrite claims_of_insert. destruct (a1 =? a)%N eqn:E.
        { apply N.eqb_eq in E. subst. destruct (decide (a = a)); [|done]. by rewrite <-(assoc_L (++)). }
        { apply N.eqb_neq in E. destruct (decide (a = a1)); [done|]. by rewrite app_nil_r. }
    + apply claim_step in H as (H0 & Hh & Hs & -> & _). cbn [ev_created ev_released k_claims].
      rewrite app_nil_r, claims_of_insert. destruct (a1 =? a)%N eqn:E.
      * apply N.eqb_eq in E. subst. destruct (decide (a = a)); [|done].
        rewrite <-(assoc_L (++)). f_equiv. symmetry. apply filter_perm.
      * apply N.eqb_neq in E. destruct (decide (a = a1)); [done|]. by rewrite app_nil_r.
    + apply quiet_step in H as (E1 & E2 & E3 & -> & _); [|done]. cbn. by rewrite !app_nil_r.
    + apply quiet_step in H as (E1 & E2 & E3 & -> & _); [|done]. cbn. by rewrite !app_nil_r.
    + apply quiet_step in H as (E1 & E2 & E3 & -> & _); [|done]. cbn. by rewrite !app_nil_r.
    + apply quiet_step in H as (E1 & E2 & E3 & -> & _); [|done]. cbn. by rewrite !app_nil_r.
    + apply donate_step in H as (H0 & H1 & _ & ->). cbn. by rewrite !app_nil_r.
  - intros b1 s1 l1 x IH. unfold created, released in *. rewrite !flat_map_app. cbn.
    by rewrite !app_nil_r.
  - eauto.
  - unfold k_instantiate in Hi. res_inv Hi. cbn. unfold claims_of. by rewrite lookup_empty.
Qed.
(** What was paid for claims is the released claims, to the token. *)
Lemma c38_paid b s l a :
  kreached b s l -> collected a l = lsum cl_amount (released a l).
Proof.
  intros (b0 & token & d & owner & s0 & _ & Hi & HL). revert HL.
  apply (leads_ind k_handle (fun b s l => collected a l = lsum cl_amount (released a l))).
  - intros b1 s1 l1 a1 m s' subs IH H. unfold collected, released in *.
    rewrite flat_map_app, !lsum_app, IH. cbn [flat_map lsum]. rewrite !app_nil_r.
    destruct m; try (cbn; lia).
    apply claim_step in H as (H0 & Hh & Hs & _ & ->). cbn. destruct (a1 =? a)%N eqn:E; [|done].
    apply N.eqb_eq in E. subst. lia.
  - intros b1 s1 l1 x IH. unfold collected, released in *. rewrite flat_map_app, !lsum_app. cbn. lia.
  - eauto.
  - done.
Qed.
(** One collection: everything due and nothing else, to the caller, in one
    transfer; the rest stays. *)
Lemma c38_collect b s l pre b1 a post subs :
  kreached b s l -> ECall pre b1 a KClaim post subs ∈ l ->
  exists out, claims_of (k_claims pre) a ≡ₚ out ++ claims_of (k_claims post) a /\
    (forall c, c ∈ out -> is_expired (cl_release c) b1 = true) /\
    (forall c, c ∈ claims_of (k_claims post) a -> is_expired (cl_release c) b1 = false) /\
    subs = [KPay a (lsum cl_amount out)] /\ k_held post = k_held pre - lsum cl_amount out /\
    0 < lsum cl_amount out.
Proof.
  intros HR Hin. destruct (kreached_call _ _ _ HR _ _ _ _ _ _ Hin) as (HI & H & _).
  apply claim_step in H as (H0 & Hh & Hs & -> & ->).
  exists (List.filter (due b1) (claims_of (k_claims pre) a)). cbn.
  rewrite claims_of_insert. destruct (decide (a = a)); [|done].
  split; [symmetry; apply filter_perm|].
  split. { by intros c [_ ?]%elem_of_filter_b. }
  split. { intros c [_ Hc]%elem_of_filter_b. unfold due in Hc. by destruct (is_expired _ _). }
  split; [done|]. split; [done|].
  enough (0 <= lsum cl_amount (List.filter (due b1) (claims_of (k_claims pre) a))) by lia.
  apply lsum_nonneg. intros c [Hc _]%elem_of_filter_b. by apply (ki_cpos _ _ HI a).
Qed.
(** Nothing else touches the claims of [a]: not others' calls, not the owner, not
    a change of the unbonding period; an unstake of [a] appends one. *)
Lemma c38_others b s l pre b1 a m post subs a' :
  kreached b s l -> ECall pre b1 a m post subs ∈ l ->
  (a' <> a \/ (m <> KClaim /\ forall x, m <> KUnstake x)) ->
  claims_of (k_claims post) a' = claims_of (k_claims pre) a'.
Proof.
  intros HR Hin Ha. destruct (kreached_call _ _ _ HR _ _ _ _ _ _ Hin) as (HI & H & _).
  destruct m as [from x [|]|x| | | | | |x].
  - apply stake_step in H as (n & -> & _ & _ & _ & _ & _ & -> & ->). done.
  - apply fund_step in H as (-> & _ & _ & -> & ->). done.
  - destruct Ha as [Ha|[_ Ha]]; [|by destruct (Ha x)].
    apply unstake_step in H as (_ & _ & _ & _ & _ & _ & _ & _ & _ & _ & _ & _ & _ & Hc).
    destruct Hc as [(_ & _ & _ & -> & _)|(d1 & _ & _ & _ & -> & _)]; [done|].
    unfold create_claim. rewrite claims_of_insert. by destruct (decide (a' = a)).
  - destruct Ha as [Ha|[Ha _]]; [|done].
    apply claim_step in H as (_ & _ & _ & -> & _). cbn. rewrite claims_of_insert.
    by destruct (decide (a' = a)).
  - apply quiet_step in H as (_ & _ & _ & -> & _); done.
  - apply quiet_step in H as (_ & _ & _ & -> & _); done.
  - apply quiet_step in H as (_ & _ & _ & -> & _); done.
  - apply quiet_step in H as (_ & _ & _ & -> & _); done.
  - apply donate_step in H as (_ & _ & _ & ->). done.
Qed.
(** A claim that is due can be collected. *)
Lemma c38_collectable b s l a c :
  kreached b s l -> c ∈ claims_of (k_claims s) a -> is_expired (cl_release c) b = true ->
  0 < cl_amount c -> exists s' subs, k_handle s b a KClaim = Ok (s', subs).
Proof.
  intros HR Hc Hdue Hpos. pose proof (kreached_inv _ _ _ HR) as HI.
  pose proof (ki_cpos _ _ HI) as Hcp.
  assert (cl_amount c <= lsum cl_amount (List.filter (mature b) (claims_of (k_claims s) a))).
  { assert (c ∈ List.filter (mature b) (claims_of (k_claims s) a)) as Hin.
    { apply elem_of_filter_b. done. }
    assert (forall c, c ∈ List.filter (mature b) (claims_of (k_claims s) a) -> 0 <= cl_amount c) as Hp.
    { intros c' [Hc' _]%elem_of_filter_b. by apply (Hcp a). }
    revert Hin Hp. generalize (List.filter (mature b) (claims_of (k_claims s) a)).
    intros L Hin Hp. apply elem_of_list_split in Hin as (L1 & L2 & ->).
    rewrite lsum_app. cbn.
    assert (0 <= lsum cl_amount L1) by (apply lsum_nonneg; intros; apply Hp, elem_of_app; by left).
    assert (0 <= lsum cl_amount L2)
      by (apply lsum_nonneg; intros; apply Hp, elem_of_app; right; by right). lia. }
  assert (lsum cl_amount (List.filter (mature b) (claims_of (k_claims s) a)) <= k_held s).
  { pose proof (lsum_filter_split cl_amount (mature b) (claims_of (k_claims s) a)).
    pose proof (claims_sum_ge _ a Hcp). pose proof (ki_held _ _ HI). pose proof (ki_pool _ _ HI).
    pose proof (total_nonneg _ _ HI).
    assert (0 <= lsum cl_amount (List.filter (fun c => negb (mature b c)) (claims_of (k_claims s) a))).
    { apply lsum_nonneg. intros c' [Hc' _]%elem_of_filter_b. by apply (Hcp a). }
    lia. }
  pose proof (ki_max _ _ HI).
  cbn [k_handle]. unfold k_claim, claim_tokens. rewrite (proj2 (Z.leb_le _ _)) by lia.
  set (n := lsum _ _) in *. destruct (n =? 0) eqn:E; [lia|]. cbn. unfold k_leave. cbn.
  rewrite (proj2 (Z.leb_le _ _)) by lia. eauto.
Qed.

(** ** C39 *)
Lemma at_call b s a m s' subs h :
  k_handle s b a m = Ok (s', subs) -> h <= height b ->
  (forall a', smap_at (k_bals s') a' h = smap_at (k_bals s) a' h) /\
  snap_get_at (k_total s') h = snap_get_at (k_total s) h.
Proof.
  intros H Hle. destruct m as [from x [|]|x| | | | | |x].
  - apply stake_step in H as (n & -> & _ & _ & _ & _ & _ & -> & ->). cbn.
    split; [intros; by apply smap_at_save|by apply snap_get_at_save].
  - apply fund_step in H as (-> & _ & _ & -> & ->). done.
  - apply unstake_step in H as (_ & _ & _ & _ & _ & _ & -> & -> & _).
    split; [intros; by apply smap_at_save|by apply snap_get_at_save].
  - apply claim_step in H as (_ & _ & _ & -> & _). done.
  - apply quiet_step in H as (-> & -> & _); done.
  - apply quiet_step in H as (-> & -> & _); done.
  - apply quiet_step in H as (-> & -> & _); done.
  - apply quiet_step in H as (-> & -> & _); done.
  - apply donate_step in H as (_ & _ & _ & ->). done.
Qed.
(** What is reported for height [h] is what was staked when block [h] began,
    whatever happens in block [h] and later. *)
Lemma c39_reported b1 s1 l1 b' b2 s2 l2 bq h :
  kreached b1 s1 l1 -> height b1 < h -> block_le b1 b' -> h <= height b' ->
  leads k_handle b' s1 b2 s2 l2 ->
  (forall a, k_balance_at s2 bq a (Some h) = staked s1 a) /\
  k_total_at s2 bq (Some h) = total_staked s1.
Proof.
  intros HR Hlt Hb Hle HL. pose proof (kreached_inv _ _ _ HR) as HI.
  unfold k_balance_at, k_total_at. cbn.
  assert ((forall a', smap_at (k_bals s2) a' h = smap_at (k_bals s1) a' h) /\
    snap_get_at (k_total s2) h = snap_get_at (k_total s1) h) as [A B].
  { revert HL. apply (leads_rel_from k_handle (fun _ _ => True)
      ltac:(done) ltac:(done) (fun s s' => (forall a', smap_at (k_bals s') a' h = smap_at (k_bals s) a' h) /\
      snap_get_at (k_total s') h = snap_get_at (k_total s) h)); [done| | |done].
    - intros x y z [P1 P2] [Q1 Q2]. split; [intros; by rewrite Q1, P1|by rewrite Q2, P2].
    - intros b s a m s' subs [Hbb _] _ Hh. apply (at_call _ _ _ _ _ _ _ Hh). lia. }
  split.
  - intros a. rewrite A, staked_get. eapply smap_at_now; [apply HI|done].
  - rewrite B. eapply snap_get_at_now; [apply HI|done].
Qed.
(** Reported values for heights already begun never change. *)
Lemma c39_immutable b s l b' s' l' bq bq' h :
  kreached b s l -> leads k_handle b s b' s' l' -> h <= height b ->
  (forall a, k_balance_at s' bq' a (Some h) = k_balance_at s bq a (Some h)) /\
  k_total_at s' bq' (Some h) = k_total_at s bq (Some h).
Proof.
  intros HR HL Hle. unfold k_balance_at, k_total_at. cbn.
  revert HL. apply (leads_rel_from k_handle (fun _ _ => True)
      ltac:(done) ltac:(done) (fun s s' => (forall a', smap_at (k_bals s') a' h = smap_at (k_bals s) a' h) /\
      snap_get_at (k_total s') h = snap_get_at (k_total s) h)); [done| | |done].
  - intros x y z [P1 P2] [Q1 Q2]. split; [intros; by rewrite Q1, P1|by rewrite Q2, P2].
  - intros b2 s2 a m s3 subs [Hbb _] _ Hh. apply (at_call _ _ _ _ _ _ _ Hh). lia.
Qed.
Lemma c39_adds_up b s l bq h :
  kreached b s l -> sum_staked_at s bq h = k_total_at s bq (Some h).
Proof. intros HR. pose proof (kreached_inv _ _ _ HR) as HI. apply (ki_snap _ _ HI h). Qed.

(** Balances and total form a ledger. *)
Lemma kledger_call b s a m s' subs :
  kinv b s -> ledger (height b) (k_bals s) (k_total s) -> k_handle s b a m = Ok (s', subs) ->
  ledger (height b) (k_bals s') (k_total s').
Proof.
  intros HI HL H.
  pose proof (total_nonneg _ _ HI) as Ht0. pose proof (ledger_le _ _ _ a HL) as Hle.
  pose proof (lg_max _ _ _ HL). rewrite total_get in *.
  destruct m as [from x [|]|x| | | | | |x].
  + apply stake_step in H as (n & -> & Hx & Hh & Hn & H1 & H2 & -> & ->). cbn.
    destruct (amount_to_stake_spec _ _ _ _ (conj Ht0 (ki_pool _ _ HI)) (proj1 Hx) Hn) as (Hn1 & _).
    pose proof (ledger_le _ _ _ from HL). rewrite staked_get, total_get in *.
    apply ledger_save; [done|lia..].
  + apply fund_step in H as (_ & _ & _ & -> & _). done.
  + apply unstake_step in H as (Hz & Ha & Hat & Has & Hb & Hn & Eb & Et & _).
    rewrite staked_get, total_get in *. rewrite Eb, Et. apply ledger_save; [done|lia..].
  + apply claim_step in H as (_ & _ & _ & -> & _). done.
  + apply quiet_step in H as (-> & -> & _); done.
  + apply quiet_step in H as (-> & -> & _); done.
  + apply quiet_step in H as (-> & -> & _); done.
  + apply quiet_step in H as (-> & -> & _); done.
  + apply donate_step in H as (_ & _ & _ & ->). done.
Qed.
Lemma kledger b s l : kreached b s l -> ledger (height b) (k_bals s) (k_total s).
Proof.
  intros (b0 & token & d & owner & s0 & _ & Hi & HL).
  assert (kinv b s /\ ledger (height b) (k_bals s) (k_total s)) as [_ ?]; [|done].
  eapply (leads_inv k_handle (fun b s => kinv b s /\ ledger (height b) (k_bals s) (k_total s)));
    [| | |exact HL].
  - clear. intros b s a m s' subs [HI HL] H. split; [by eapply kinv_call|by eapply kledger_call].
  - clear. intros b b' s [HI HL] Hb. split; [by eapply kinv_time|].
    eapply ledger_time; [done|]. by destruct Hb.
  - split; [by eapply kinv_init|]. unfold k_instantiate in Hi. res_inv Hi. cbn.
    apply ledger_empty. by right.
Qed.
Lemma c39_any_voters b s l bq h vs :
  kreached b s l -> NoDup vs ->
  lsum (fun a => k_balance_at s bq a (Some h)) vs <= k_total_at s bq (Some h) <= U128_MAX /\
  (forall a, 0 <= k_balance_at s bq a (Some h)).
Proof.
  intros HR Hn. pose proof (kledger _ _ _ HR) as HL. split; [split|].
  - by apply (ledger_at_list (height b)).
  - apply (lg_hmax _ _ _ HL).
  - intros a. apply (lg_hpos _ _ _ HL).
Qed.

(** ** C40 *)
Lemma c40_partial b s l a x s' subs :
  kreached b s l -> k_handle s b (k_token s) (KReceive a x true) = Ok (s', subs) -> 0 < x ->
  staked s a <= staked s' a /\
  (staked s a < staked s' a <-> total_staked s = 0 \/ k_pool s <= x * total_staked s).
Proof.
  intros HR H Hx. pose proof (kreached_inv _ _ _ HR) as HI.
  pose proof (total_nonneg _ _ HI) as Ht0. pose proof (ki_pool _ _ HI) as Hp.
  apply stake_step in H as (m & _ & Hx' & Hh & Hm & _ & _ & E1 & _).
  destruct (amount_to_stake_spec _ _ _ _ (conj Ht0 Hp) (proj1 Hx') Hm) as (Hm1 & Hm3 & Hm2).
  assert (staked s' a = staked s a + m) as ->.
  { subst s'. rewrite staked_get. cbn. rewrite smap_get_save. by destruct (decide (a = a)). }
  split; [lia|]. destruct (Z.eq_dec (total_staked s) 0) as [E|E]; [specialize (Hm3 E); lia|].
  specialize (Hm2 E). split.
  - intros H. right. destruct (Z_le_gt_dec (k_pool s) (x * total_staked s)); [done|].
    rewrite Z.div_small in Hm2; nia.
  - intros [H|H]; [lia|]. assert (1 <= m); [|lia]. subst m.
    apply Z.div_le_lower_bound; nia.
Qed.

(** ** C70 *)
Lemma c70_partial b s l a x :
  kreached b s l -> 0 < x <= staked s a -> x + k_pool s < U128_MAX ->
  (k_dur s <> None -> Z.of_nat (length (claims_of (k_claims s) a)) < 100) ->
  exists s' subs, k_handle s b a (KUnstake x) = Ok (s', subs).
Proof.
  intros HR Hx Hb Hc. pose proof (kreached_inv _ _ _ HR) as HI.
  pose proof (staked_le_total _ _ a HI). pose proof (ki_pool _ _ HI). pose proof (ki_held _ _ HI).
  pose proof (ki_max _ _ HI). pose proof (ki_cpos _ _ HI) as Hcp.
  assert (0 <= claims_sum (k_claims s)).
  { apply msum_nonneg. intros k v Hk. apply lsum_nonneg. intros c Hin. apply (Hcp k).
    unfold claims_of. by rewrite Hk. }
  cbn [k_handle]. rewrite (proj2 (fits128_ok x)) by lia. unfold k_unstake.
  change (snap_get (k_total s)) with (total_staked s).
  destruct (total_staked s =? 0) eqn:E0; [lia|]. cbn [negb].
  rewrite (proj2 (Z.ltb_lt _ _)) by lia. rewrite (proj2 (Z.leb_le x _)) by lia.
  unfold amount_to_claim. rewrite E0. cbn [negb].
  assert (x * k_pool s / total_staked s <= k_pool s) by (apply Z.div_le_upper_bound; nia).
  rewrite (proj2 (Z.leb_le _ _)) by lia. rewrite staked_get in *.
  rewrite !sub128_eq by lia. destruct (k_dur s) as [d|].
  - unfold MAX_CLAIMS. rewrite (proj2 (Z.leb_le _ _)) by (specialize (Hc ltac:(done)); lia). eauto.
  - unfold k_leave. cbn. rewrite (proj2 (Z.leb_le _ _)) by lia. eauto.
Qed.

(** ** C71 *)
Lemma c71_value b s l a v s' subs :
  kreached b s l -> k_staked_value s a = Ok v ->
  k_handle s b a (KUnstake (staked s a)) = Ok (s', subs) -> k_pool s - k_pool s' = v.
Proof.
  intros HR Hv H. apply unstake_step in H as (H0 & Ha & Hat & Has & Hb & Hn & Eb & Et & Ep & _).
  rewrite Ep. unfold k_staked_value in Hv. change (snap_get (k_total s)) with (total_staked s) in Hv.
  rewrite <-staked_get in Hv.
  destruct (k_pool s =? 0) eqn:E1; cbn [orb] in Hv.
  { injection Hv as <-. replace (k_pool s) with 0 by lia. rewrite Z.mul_0_r, Z.div_0_l by done. lia. }
  destruct (staked s a =? 0) eqn:E2; cbn [orb] in Hv.
  { injection Hv as <-. replace (staked s a) with 0 by lia. rewrite Z.div_0_l by done. lia. }
  destruct (total_staked s =? 0) eqn:E3; [lia|].
  destruct (mul128 _ _) as [n|] eqn:E4; [|done]. apply mul128_ok in E4 as [-> _].
  injection Hv as <-. lia.
Qed.
Lemma c71_partial b s l a :
  kreached b s l -> staked s a * k_pool s <= U128_MAX -> exists v, k_staked_value s a = Ok v.
Proof.
  intros HR Hb. unfold k_staked_value. destruct (_ || _); [eauto|]. rewrite <-staked_get.
  unfold mul128. rewrite (proj2 (Z.ltb_ge _ _)) by lia. eauto.
Qed.

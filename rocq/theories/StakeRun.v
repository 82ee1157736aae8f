(** Lemmas about stakers who leave a pool. *)
From Verif Require Import Base BaseProofs Exec ExecProofs Plain PlainProofs HooksModel
  StoreModel StoreProofs StakeModel StakeSpec StakeProofs StakeClaims StakeRunSpec.

Lemma sum_cover (m : smap) vs :
  NoDup vs -> (forall a, a ∉ vs -> smap_get m a = 0) -> lsum (smap_get m) vs = smap_sum m.
Proof.
  revert m. induction vs as [|a vs IH]; intros m Hn Hz.
  - cbn. unfold smap_sum. rewrite <-(msum_zero m). apply msum_ext. intros k v Hk.
    specialize (Hz k ltac:(apply not_elem_of_nil)). unfold smap_get, smap_snap in Hz. rewrite Hk in Hz.
    cbn in Hz. unfold snap_get. lia.
  - apply NoDup_cons in Hn as [Ha Hn]. cbn [lsum].
    assert (forall k, smap_get (delete a m) k = if decide (k = a) then 0 else smap_get m k) as Hd.
    { intros k. unfold smap_get, smap_snap. destruct (decide (k = a)) as [->|Hk].
      - by rewrite lookup_delete.
      - by rewrite lookup_delete_ne. }
    specialize (IH (delete a m) Hn).
    assert (lsum (smap_get (delete a m)) vs = lsum (smap_get m) vs) as E.
    { apply lsum_ext. intros k Hk. rewrite Hd. destruct (decide (k = a)) as [->|]; done. }
    rewrite E in IH. rewrite IH.
    + unfold smap_sum. destruct (m !! a) as [v|] eqn:Em.
      * rewrite (msum_delete _ m a v Em). unfold smap_get, smap_snap. rewrite Em. cbn. unfold snap_get. lia.
      * rewrite delete_notin by done. unfold smap_get, smap_snap. rewrite Em. cbn. lia.
    + intros k Hk. rewrite Hd. destruct (decide (k = a)) as [->|Hne]; [done|].
      apply Hz. by apply not_elem_of_cons.
Qed.
Lemma stakers_sum b s vs : kinv b s -> stakers s vs -> lsum (staked s) vs = total_staked s.
Proof.
  intros HI [Hn Hs]. rewrite <-(ki_sum _ _ HI), <-(sum_cover (k_bals s) vs Hn).
  - apply lsum_ext. intros a _. apply staked_get.
  - intros a Ha. pose proof (ki_pos _ _ HI a). rewrite Hs in Ha. rewrite staked_get in Ha. lia.
Qed.
Lemma some_sum b s vs : kinv b s -> NoDup vs -> lsum (staked s) vs <= total_staked s.
Proof.
  intros HI Hn. pose proof (ki_sum _ _ HI) as HS. rewrite <-HS.
  set (rest := List.filter (fun a => negb (bool_decide (a ∈ vs))) (map fst (map_to_list (k_bals s)))).
  assert (NoDup (vs ++ rest)) as Hnr.
  { apply NoDup_app. split; [done|]. split.
    - intros x Hx Hr. apply elem_of_list_In, filter_In in Hr as [_ Hr]. by rewrite bool_decide_true in Hr.
    - unfold rest. apply NoDup_ListNoDup, List.NoDup_filter, NoDup_ListNoDup, NoDup_fst_map_to_list. }
  rewrite <-(sum_cover (k_bals s) (vs ++ rest) Hnr).
  - rewrite lsum_app. rewrite (lsum_ext (staked s) (smap_get (k_bals s))) by (intros; apply staked_get).
    assert (0 <= lsum (smap_get (k_bals s)) rest); [|lia]. apply lsum_nonneg. intros. apply HI.
  - intros a Ha. apply not_elem_of_app in Ha as [Ha Hr]. unfold smap_get, smap_snap.
    destruct (k_bals s !! a) as [v|] eqn:E; [|done]. destruct Hr. apply elem_of_list_In, filter_In.
    rewrite bool_decide_false by done. split; [|done]. apply in_map_iff. exists (a, v). split; [done|].
    by apply elem_of_list_In, elem_of_map_to_list.
Qed.
(** Shares add up to no more than the pool, and together lack less than one token each. *)
Lemma shares_within b s l vs : kreached b s l -> NoDup vs -> lsum (share s) vs <= k_pool s.
Proof.
  intros HR Hn. pose proof (kreached_inv _ _ _ HR) as HI. pose proof (some_sum _ _ vs HI Hn) as Hs.
  pose proof (total_nonneg _ _ HI) as H0. pose proof (ki_pool _ _ HI) as Hp. unfold share.
  destruct (Z.eq_dec (total_staked s) 0) as [E|E].
  { rewrite E. rewrite (lsum_ext _ (fun _ => 0)) by (intros; apply Zdiv_0_r).
    clear -Hp H0 E. induction vs; cbn; lia. }
  pose proof (lsum_div_le (fun a => staked s a * k_pool s) (total_staked s) vs ltac:(lia)) as H1.
  rewrite (lsum_ext (fun a => staked s a * k_pool s) (fun a => k_pool s * staked s a)) in H1 by (intros; lia).
  rewrite lsum_scale in H1.
  assert (k_pool s * lsum (staked s) vs / total_staked s <= k_pool s); [|lia].
  apply Z.div_le_upper_bound; nia.
Qed.
Lemma shares_lack b s l vs :
  kreached b s l -> stakers s vs -> 0 < total_staked s ->
  k_pool s < lsum (share s) vs + Z.of_nat (length vs).
Proof.
  intros HR Hv Ht. pose proof (kreached_inv _ _ _ HR) as HI. pose proof (stakers_sum _ _ vs HI Hv) as Hs.
  assert (forall us : list addr, us <> [] -> k_pool s * lsum (staked s) us < (lsum (share s) us + Z.of_nat (length us)) * total_staked s) as H.
  { induction us as [|a us IH]; [done|]. intros _. cbn [lsum length].
    pose proof (div_mul_gt (staked s a * k_pool s) (total_staked s) Ht) as Ha. fold (share s a) in Ha.
    destruct us as [|c us]; [cbn [lsum length]; lia|]. specialize (IH ltac:(done)). lia. }
  assert (vs <> []) as Hne by (intros ->; cbn in Hs; lia).
  specialize (H vs Hne). rewrite Hs in H. nia.
Qed.
(** Whoever waits loses nothing, as long as somebody has a stake all the time. *)
Lemma share_waits b s l b' s' l' a :
  kreached b s l -> leads k_handle b s b' s' l' ->
  (forall e, e ∈ l' -> 0 < total_staked (ev_post e)) ->
  staked s' a = staked s a -> 0 < staked s a -> share s a <= share s' a.
Proof.
  intros HR HL He Hs H0. pose proof (kreached_inv _ _ _ HR) as HI.
  pose proof (kreached_inv _ _ _ (kreached_app _ _ _ _ _ _ HR HL)) as HI'.
  pose proof (staked_le_total _ _ a HI). pose proof (staked_le_total _ _ a HI').
  pose proof (c37_share_value _ _ _ _ _ _ HR HL ltac:(lia) He) as HC.
  unfold share. rewrite Hs. apply Z.div_le_lower_bound; [lia|].
  pose proof (div_mul_le (staked s a * k_pool s) (total_staked s) ltac:(lia)) as Hq.
  set (q := staked s a * k_pool s / total_staked s) in *. nia.
Qed.

Lemma unstake_inv b s a x :
  kinv b s -> 0 < x <= staked s a -> x + k_pool s < U128_MAX ->
  (k_dur s <> None -> Z.of_nat (length (claims_of (k_claims s) a)) < 100) ->
  exists s' subs, k_handle s b a (KUnstake x) = Ok (s', subs).
Proof.
  intros HI Hx Hb Hc.
  pose proof (staked_le_total _ _ a HI). pose proof (ki_pool _ _ HI). pose proof (ki_held _ _ HI).
  pose proof (ki_max _ _ HI). pose proof (ki_cpos _ _ HI) as Hcp.
  assert (0 <= claims_sum (k_claims s)).
  { apply msum_nonneg. intros k v Hk. apply lsum_nonneg. intros c Hin. apply (Hcp k).
    unfold claims_of. by rewrite Hk. }
  cbn [k_handle]. rewrite (proj2 (fits128_ok x)) by lia. unfold k_unstake.
  change (snap_get (k_total s)) with (total_staked s).
  destruct (total_staked s =? 0) eqn:E0; [lia|]. cbn [negb].
  rewrite (proj2 (Z.ltb_lt _ _)) by lia. rewrite (proj2 (Z.leb_le x _)) by lia.
  unfold amount_to_claim. rewrite E0. cbn [negb].
  assert (x * k_pool s / total_staked s <= k_pool s) by (apply Z.div_le_upper_bound; nia).
  rewrite (proj2 (Z.leb_le _ _)) by lia. rewrite staked_get in *.
  rewrite !sub128_eq by lia. destruct (k_dur s) as [d|].
  - unfold MAX_CLAIMS. rewrite (proj2 (Z.leb_le _ _)) by (specialize (Hc ltac:(done)); lia). eauto.
  - unfold k_leave. cbn. rewrite (proj2 (Z.leb_le _ _)) by lia. eauto.
Qed.
Lemma claims_create m a n e a' :
  claims_of (create_claim m a n e) a' =
  if decide (a' = a) then claims_of m a ++ [Claim n e] else claims_of m a'.
Proof.
  unfold create_claim, claims_of. destruct (decide (a' = a)) as [->|H].
  - by rewrite lookup_insert.
  - by rewrite lookup_insert_ne.
Qed.
(** Everybody can leave, in any order; nobody gets less than their share was worth before,
    and together they get the pool, to the last token. *)
Lemma run_inv b vs : forall s,
  kinv b s -> stakers s vs -> vs <> [] -> 2 * k_pool s < U128_MAX ->
  (k_dur s <> None -> forall a, a ∈ vs -> Z.of_nat (length (claims_of (k_claims s) a)) < 100) ->
  exists ns s', leave b s vs ns s' /\ Forall2 (fun a n => share s a <= n) vs ns /\
    lsum (fun n => n) ns = k_pool s /\ k_pool s' = 0 /\ total_staked s' = 0.
Proof.
  induction vs as [|a vs IH]; intros s HI Hv Hne Hm Hc; [done|].
  pose proof (stakers_sum _ _ _ HI Hv) as Hsum. destruct Hv as [Hn Hs]. cbn [lsum] in Hsum.
  apply NoDup_cons in Hn as [Ha Hn].
  assert (0 < staked s a) as H0 by (apply Hs; left).
  pose proof (staked_le_total _ _ a HI) as Hle. pose proof (ki_pool _ _ HI) as Hpl.
  destruct (unstake_inv b s a (staked s a) HI ltac:(lia) ltac:(lia)) as (s1 & subs & H1).
  { intros Hd. apply (Hc Hd). left. }
  pose proof (kinv_call _ _ _ _ _ _ HI H1) as HI1.
  pose proof (share_step _ _ _ _ _ _ HI H1 ltac:(lia)) as Hsh.
  pose proof (unstake_step _ _ _ _ _ _ H1) as (_ & _ & _ & _ & _ & Hnp & Eb & Et & Ep & _ & Ed & _ & _ & HK).
  fold (share s a) in Hnp, Ep, HK.
  assert (gives b s a s1 subs (share s a)) as Hg.
  { unfold gives. destruct HK as [(K1 & _ & _ & _ & K5)|(d & K1 & _ & _ & K4 & _)]; rewrite K1.
    - rewrite K5. left.
    - rewrite K4, claims_create. by rewrite decide_True. }
  assert (total_staked s1 = total_staked s - staked s a) as Et1.
  { unfold total_staked at 1. by rewrite Et. }
  assert (forall k, staked s1 k = if decide (k = a) then 0 else staked s k) as Es.
  { intros k. rewrite !staked_get, Eb, smap_get_save. destruct (decide (k = a)); [lia|done]. }
  assert (0 <= share s a) as Hsp by (unfold share; apply Z.div_pos; nia).
  destruct vs as [|c vs].
  - cbn [lsum] in Hsum. assert (share s a = k_pool s) as Eall.
    { unfold share. replace (staked s a) with (total_staked s) by lia. rewrite Z.mul_comm. apply Z.div_mul. lia. }
    exists [share s a], s1. split; [by econstructor; [exact H1|exact Hg|constructor]|].
    split; [by constructor; [lia|constructor]|]. cbn [lsum]. lia.
  - assert (stakers s1 (c :: vs)) as Hv1.
    { split; [done|]. intros k. rewrite Es. destruct (decide (k = a)) as [->|Hk].
      - split; [done|lia].
      - rewrite <-Hs. rewrite (elem_of_cons (c :: vs) k a). tauto. }
    destruct (IH s1 HI1 Hv1 ltac:(done) ltac:(lia)) as (ns & s' & HL & HF & Hl & Hp & Ht).
    { intros Hd k Hk. rewrite Ed in Hd. specialize (Hc Hd k ltac:(by right)).
      destruct HK as [(K1 & _)|(d & K1 & _ & _ & K4 & _)]; [done|]. rewrite K4, claims_create.
      destruct (decide (k = a)) as [->|]; [done|exact Hc]. }
    exists (share s a :: ns), s'. split; [by econstructor|].
    split; [|cbn [lsum]; lia]. constructor; [lia|]. 
    assert (forall k, k ∈ c :: vs -> share s k <= share s1 k) as Hmono.
    { intros k Hk. assert (k <> a) as Hka by (intros ->; done).
      unfold share. rewrite Es. rewrite decide_False by done.
      assert (0 < staked s k) by (apply Hs; by right).
      pose proof (staked_le_total _ _ k HI1) as Hk1. rewrite Es, decide_False in Hk1 by done.
      apply Z.div_le_lower_bound; [lia|].
      pose proof (div_mul_le (staked s k * k_pool s) (total_staked s) ltac:(lia)) as Hq.
      set (q := staked s k * k_pool s / total_staked s) in *. nia. }
    clear -HF Hmono. induction HF as [|k n ks ns Hkn HF IHF]; constructor.
    + specialize (Hmono k ltac:(left)). lia.
    + apply IHF. intros k' Hk'. apply Hmono. by right.
Qed.
Lemma run_on_pool b s l vs :
  kreached b s l -> stakers s vs -> 0 < total_staked s -> 2 * k_pool s < U128_MAX ->
  (k_dur s <> None -> forall a, a ∈ vs -> Z.of_nat (length (claims_of (k_claims s) a)) < 100) ->
  exists ns s', leave b s vs ns s' /\ Forall2 (fun a n => share s a <= n) vs ns /\
    lsum (fun n => n) ns = k_pool s /\ k_pool s' = 0 /\ total_staked s' = 0.
Proof.
  intros HR Hv Ht. pose proof (kreached_inv _ _ _ HR) as HI. apply run_inv; [done|done|].
  intros ->. pose proof (stakers_sum _ _ _ HI Hv) as Hs. cbn in Hs. lia.
Qed.
Lemma stakers_exist s : exists vs, stakers s vs.
Proof.
  exists (List.filter (fun a => 0 <? staked s a) (map fst (map_to_list (k_bals s)))). split.
  - apply NoDup_ListNoDup, List.NoDup_filter, NoDup_ListNoDup, NoDup_fst_map_to_list.
  - intros a. rewrite elem_of_list_In, filter_In. split; [intros [_ H]; lia|].
    intros H. split; [|lia]. unfold staked in H. destruct (k_bals s !! a) as [v|] eqn:E; [|lia].
    apply in_map_iff. exists (a, v). split; [done|]. by apply elem_of_list_In, elem_of_map_to_list.
Qed.

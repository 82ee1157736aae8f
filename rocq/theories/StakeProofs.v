(** Invariants of cw20-stake. *)
From Verif Require Import Base BaseProofs Exec ExecProofs Plain PlainProofs HooksModel
  StoreModel StoreProofs LedgerProofs StakeModel StakeSpec.

Lemma staked_get s a : staked s a = smap_get (k_bals s) a.
Proof. unfold staked, smap_get, smap_snap. by destruct (k_bals s !! a). Qed.
Lemma total_get s : total_staked s = snap_get (k_total s).
Proof. done. Qed.
Lemma sum_get s : sum_staked s = smap_sum (k_bals s).
Proof. done. Qed.
Lemma unclaimed_get s : unclaimed s = claims_sum (k_claims s).
Proof. done. Qed.
Lemma fits128_ok n : fits128 n = true <-> 0 <= n <= U128_MAX.
Proof. unfold fits128. rewrite andb_true_iff. lia. Qed.

(** ** What each call does *)
Lemma stake_step s b sender from x s' subs :
  k_handle s b sender (KReceive from x true) = Ok (s', subs) ->
  exists n,
    sender = k_token s /\ 0 <= x <= U128_MAX /\ k_held s + x <= U128_MAX /\
    amount_to_stake (total_staked s) (k_pool s) x = Ok n /\
    staked s from + n <= U128_MAX /\ total_staked s + n <= U128_MAX /\
    s' = KState (k_token s) (k_dur s) (k_own s)
           (smap_save (k_bals s) from (height b) (staked s from + n))
           (snap_save (k_total s) (height b) (total_staked s + n))
           (k_pool s + x) (k_claims s) (k_hooks s) (k_held s + x) /\
    subs = map (fun a => KHook a true from n) (k_hooks s).
Proof.
  intros H. cbn [k_handle] in H. destruct (fits128 x) eqn:Ef; [|done]. apply fits128_ok in Ef.
  unfold k_receive in H. destruct (sender =? k_token s)%N eqn:Et; [|done].
  apply N.eqb_eq in Et. unfold k_arrive in H.
  destruct (k_held s + x <=? U128_MAX) eqn:Eh; [|done].
  unfold k_stake in H. cbn in H.
  destruct (amount_to_stake _ _ _) as [n|] eqn:En; [|done].
  destruct (add128 _ n) as [bal|] eqn:E1; [|done].
  destruct (add128 (snap_get _) n) as [tot|] eqn:E2; [|done].
  destruct (add128 _ x) as [pool|] eqn:E3; [|done]. injection H as <- <-.
  apply add128_ok in E1 as [-> ?], E2 as [-> ?], E3 as [-> ?].
  exists n. rewrite staked_get. repeat split; try done; try lia.
  all: unfold total_staked; unfold snap_get in *; lia.
Qed.
Lemma fund_step s b sender from x s' subs :
  k_handle s b sender (KReceive from x false) = Ok (s', subs) ->
  sender = k_token s /\ 0 <= x <= U128_MAX /\ k_held s + x <= U128_MAX /\
  s' = KState (k_token s) (k_dur s) (k_own s) (k_bals s) (k_total s)
         (k_pool s + x) (k_claims s) (k_hooks s) (k_held s + x) /\ subs = [].
Proof.
  intros H. cbn [k_handle] in H. destruct (fits128 x) eqn:Ef; [|done]. apply fits128_ok in Ef.
  unfold k_receive in H. destruct (sender =? k_token s)%N eqn:Et; [|done].
  apply N.eqb_eq in Et. unfold k_arrive in H.
  destruct (k_held s + x <=? U128_MAX) eqn:Eh; [|done].
  unfold k_fund in H. cbn in H. destruct (add128 _ x) as [pool|] eqn:E3; [|done].
  injection H as <- <-. apply add128_ok in E3 as [-> ?]. repeat split; try done; lia.
Qed.
Lemma unstake_step s b sender a s' subs :
  k_handle s b sender (KUnstake a) = Ok (s', subs) ->
  let n := a * k_pool s / total_staked s in
  total_staked s <> 0 /\ 0 <= a <= U128_MAX /\ a <= total_staked s /\ a <= staked s sender /\
  a + k_pool s < U128_MAX /\ n <= k_pool s /\
  k_bals s' = smap_save (k_bals s) sender (height b) (staked s sender - a) /\
  k_total s' = snap_save (k_total s) (height b) (total_staked s - a) /\
  k_pool s' = k_pool s - n /\ k_token s' = k_token s /\ k_dur s' = k_dur s /\
  k_own s' = k_own s /\ k_hooks s' = k_hooks s /\
  ((k_dur s = None /\ n <= k_held s /\ k_held s' = k_held s - n /\ k_claims s' = k_claims s /\
    subs = KPay sender n :: map (fun h => KHook h false sender a) (k_hooks s)) \/
   (exists d, k_dur s = Some d /\ Z.of_nat (length (claims_of (k_claims s) sender)) < 100 /\
    k_held s' = k_held s /\
    k_claims s' = create_claim (k_claims s) sender n (after d b) /\
    subs = map (fun h => KHook h false sender a) (k_hooks s))).
Proof.
  intros H n. cbn [k_handle] in H. destruct (fits128 a) eqn:Ef; [|done]. apply fits128_ok in Ef.
  unfold k_unstake in H. change (snap_get (k_total s)) with (total_staked s) in H.
  destruct (total_staked s =? 0) eqn:E0; [done|]. cbn [negb] in H.
  destruct (a + k_pool s <? U128_MAX) eqn:Eb; [|done].
  destruct (a <=? total_staked s) eqn:Ea; [|done].
  unfold amount_to_claim in H. rewrite E0 in H. cbn [negb] in H.
  change (a * k_pool s / total_staked s) with n in H.
  destruct (n <=? U128_MAX) eqn:En; [|done].
  destruct (sub128 _ a) as [bal|] eqn:E1; [|done].
  destruct (sub128 (total_staked s) a) as [tot|] eqn:E2; [|done].
  destruct (sub128 _ n) as [pool|] eqn:E3; [|done].
  apply sub128_ok in E1 as [-> ?], E2 as [-> ?], E3 as [-> ?].
  rewrite staked_get. destruct (k_dur s) as [d|] eqn:Ed.
  - destruct (_ <=? MAX_CLAIMS) eqn:Em; [|done]. injection H as <- <-. cbn. unfold MAX_CLAIMS in Em.
    repeat (split; [done || lia|]). right. exists d. rewrite ?Ed. repeat (split; [done || lia|]). done.
  - unfold k_leave in H. cbn in H. destruct (n <=? k_held s) eqn:Eh; [|done].
    injection H as <- <-. cbn. repeat (split; [done || lia|]). left. repeat (split; [done || lia|]). done.
Qed.
Lemma claim_step s b sender s' subs :
  k_handle s b sender KClaim = Ok (s', subs) ->
  let n := lsum cl_amount (List.filter (due b) (claims_of (k_claims s) sender)) in
  n <> 0 /\ n <= k_held s /\
  claims_sum (k_claims s') = claims_sum (k_claims s) - n /\
  s' = KState (k_token s) (k_dur s) (k_own s) (k_bals s) (k_total s) (k_pool s)
         (<[sender := List.filter (fun c => negb (due b c)) (claims_of (k_claims s) sender)]>
            (k_claims s)) (k_hooks s) (k_held s - n) /\
  subs = [KPay sender n].
Proof.
  intros H n. cbn [k_handle] in H. unfold k_claim in H.
  destruct (claim_tokens _ _ _) as [[n' cs]|] eqn:Ec; [|done].
  apply claim_tokens_ok in Ec as (Hn & -> & Hs). change n' with (n') in H.
  assert (n' = n) as -> by done. clear Hn.
  destruct (n =? 0) eqn:E0; [done|]. cbn [negb] in H. unfold k_leave in H. cbn in H.
  destruct (n <=? k_held s) eqn:Eh; [|done]. injection H as <- <-.
  repeat (split; [done || lia|]). done.
Qed.
(** The remaining calls leave stakes, pool and claims alone. *)
Definition k_quiet (m : kmsg) : bool :=
  match m with KReceive _ _ _ | KUnstake _ | KClaim | KDonate _ => false | _ => true end.
Lemma quiet_step s b sender m s' subs :
  k_handle s b sender m = Ok (s', subs) -> k_quiet m = true ->
  k_bals s' = k_bals s /\ k_total s' = k_total s /\ k_pool s' = k_pool s /\
  k_claims s' = k_claims s /\ k_held s' = k_held s /\ k_token s' = k_token s /\ subs = [].
Proof.
  destruct m; intros H Hq; try done; cbn [k_handle] in H;
    unfold k_update_config, k_set_hooks, k_owner in H; res_inv H; done.
Qed.
Lemma donate_step s b sender n s' subs :
  k_handle s b sender (KDonate n) = Ok (s', subs) ->
  0 <= n /\ k_held s + n <= U128_MAX /\ subs = [] /\
  s' = KState (k_token s) (k_dur s) (k_own s) (k_bals s) (k_total s) (k_pool s) (k_claims s)
         (k_hooks s) (k_held s + n).
Proof.
  intros H. cbn [k_handle] in H. destruct (fits128 n) eqn:Ef; [|done]. apply fits128_ok in Ef.
  unfold k_arrive in H. destruct (_ <=? U128_MAX) eqn:E; [|done]. injection H as <- <-.
  repeat (split; [done || lia|]). done.
Qed.

(** ** The invariant *)
Record kinv (b : block) (s : kstate) : Prop := KInv {
  ki_bals : smap_before (height b) (k_bals s);
  ki_tot : snap_before (height b) (k_total s);
  ki_pos : forall a, 0 <= smap_get (k_bals s) a;
  ki_sum : smap_sum (k_bals s) = total_staked s;
  ki_pool : total_staked s <= k_pool s;
  ki_cpos : claims_pos (k_claims s);
  ki_held : k_pool s + claims_sum (k_claims s) <= k_held s;
  ki_max : k_held s <= U128_MAX;
  ki_snap : forall h, msum (fun a _ => smap_at (k_bals s) a h) (k_bals s) = snap_get_at (k_total s) h
}.

Lemma amount_to_stake_spec t p x n :
  0 <= t <= p -> 0 <= x -> amount_to_stake t p x = Ok n ->
  0 <= n <= x /\ (t = 0 -> n = x) /\ (t <> 0 -> n = t * x / p).
Proof.
  intros Ht Hx. unfold amount_to_stake. destruct (t =? 0) eqn:E0; cbn [orb].
  { intros [= <-]. lia. }
  destruct (p =? 0) eqn:Ep; [lia|].
  destruct (_ <=? U128_MAX); [|done]. intros [= <-]. split; [|lia].
  split; [apply Z.div_pos; nia|]. apply Z.div_le_upper_bound; nia.
Qed.
Lemma total_nonneg b s : kinv b s -> 0 <= total_staked s.
Proof.
  intros HI. rewrite <-(ki_sum _ _ HI). apply msum_nonneg. intros k v Hk.
  pose proof (ki_pos _ _ HI k) as H. unfold smap_get, smap_snap in H. rewrite Hk in H. exact H.
Qed.
Lemma staked_le_total b s a : kinv b s -> 0 <= staked s a <= total_staked s.
Proof.
  intros HI. rewrite staked_get. split; [apply HI|]. rewrite <-(ki_sum _ _ HI).
  apply smap_sum_ge, HI.
Qed.

Lemma kinv_init b token d owner s : k_instantiate b token d owner = Ok s -> kinv b s.
Proof.
  unfold k_instantiate. intros H. res_inv H. split; cbn.
  - apply smap_before_empty.
  - apply snap_before_save; [apply snap_before_empty|done].
  - intros a0. unfold smap_get, smap_snap. by rewrite lookup_empty.
  - done.
  - done.
  - apply claims_pos_empty.
  - done.
  - unfold U128_MAX; lia.
  - intros h. rewrite msum_empty. unfold snap_get_at, snap_at, snap_save. simpl.
    by destruct (h <=? height b).
Qed.
Lemma kinv_time b b' s : kinv b s -> block_le b b' -> kinv b' s.
Proof.
  intros [] [Hh _]. split; try done.
  - by eapply smap_before_mono.
  - by eapply snap_before_mono.
Qed.
Lemma kinv_call b s a m s' subs : kinv b s -> k_handle s b a m = Ok (s', subs) -> kinv b s'.
Proof.
  intros HI H. pose proof (total_nonneg _ _ HI) as Ht0.
  destruct m as [from x [|]|x| | | | | |x].
  - apply stake_step in H as (n & -> & Hx & Hh & Hn & H1 & H2 & -> & ->).
    pose proof (staked_le_total _ _ from HI) as Hst. rewrite staked_get in *.
    pose proof (ki_pool _ _ HI) as Hp. pose proof (ki_held _ _ HI).
    destruct (amount_to_stake_spec _ _ _ _ (conj Ht0 Hp) (proj1 Hx) Hn) as (Hn1 & _).
    split; cbn; rewrite ?total_get in *.
    + apply smap_before_save, HI.
    + apply snap_before_save; [apply HI|done].
    + intros a'. rewrite smap_get_save. destruct (decide _); [lia|apply HI].
    + rewrite smap_sum_save. pose proof (ki_sum _ _ HI). rewrite total_get in *. cbn. lia.
    + cbn. lia.
    + apply HI.
    + lia.
    + lia.
    + apply sum_at_save; [apply HI..|]. pose proof (ki_sum _ _ HI). rewrite total_get in *. lia.
  - apply fund_step in H as (-> & Hx & Hh & -> & ->).
    pose proof (ki_pool _ _ HI). pose proof (ki_held _ _ HI). destruct HI. unfold total_staked in *. split; cbn; try done; unfold total_staked; cbn; try done; lia.
  - apply unstake_step in H as (H0 & Ha & Hat & Has & Hb & Hn & Eb & Et & Ep & _ & _ & _ & _ & Hc).
    pose proof (ki_pool _ _ HI) as Hp. rewrite staked_get in *.
    set (n := x * k_pool s / total_staked s) in *.
    assert (0 <= n) as Hn0 by (apply Z.div_pos; nia).
    assert (n * total_staked s <= x * k_pool s) as Hn1.
    { apply div_mul_le. lia. }
    split.
    + rewrite Eb. apply smap_before_save, HI.
    + rewrite Et. apply snap_before_save; [apply HI|done].
    + intros a'. rewrite Eb, smap_get_save. destruct (decide _); [lia|apply HI].
    + rewrite Eb, smap_sum_save. pose proof (ki_sum _ _ HI). rewrite total_get, Et, snap_get_save. lia.
    + rewrite total_get, Et, snap_get_save, Ep. nia.
    + destruct Hc as [(_ & _ & _ & -> & _)|(d & _ & _ & _ & -> & _)]; [apply HI|].
      apply claims_pos_create; [apply HI|done].
    + pose proof (ki_held _ _ HI).
      destruct Hc as [(_ & _ & -> & -> & _)|(d & _ & _ & -> & -> & _)]; [lia|].
      rewrite claims_sum_create. lia.
    + pose proof (ki_max _ _ HI).
      destruct Hc as [(_ & _ & -> & _)|(d & _ & _ & -> & _)]; lia.
    + rewrite Eb, Et. apply sum_at_save; [apply HI..|].
      pose proof (ki_sum _ _ HI). rewrite total_get in *. lia.
  - apply claim_step in H as (H0 & Hh & Hs & E & _).
    assert (0 <= lsum cl_amount (List.filter (due b) (claims_of (k_claims s) a))).
    { apply lsum_nonneg. intros c [Hc _]%elem_of_filter_b. by apply (ki_cpos _ _ HI a). }
    subst s'. cbn in Hs. pose proof (ki_held _ _ HI). pose proof (ki_max _ _ HI).
    destruct HI. split; cbn; try done; try lia.
    apply claims_pos_insert; [done|]. intros c [Hc _]%elem_of_filter_b. eauto.
  - apply quiet_step in H as (E1 & E2 & E3 & E4 & E5 & _); [|done].
    destruct HI. split; unfold total_staked in *; rewrite ?E1, ?E2, ?E3, ?E4, ?E5; done.
  - apply quiet_step in H as (E1 & E2 & E3 & E4 & E5 & _); [|done].
    destruct HI. split; unfold total_staked in *; rewrite ?E1, ?E2, ?E3, ?E4, ?E5; done.
  - apply quiet_step in H as (E1 & E2 & E3 & E4 & E5 & _); [|done].
    destruct HI. split; unfold total_staked in *; rewrite ?E1, ?E2, ?E3, ?E4, ?E5; done.
  - apply quiet_step in H as (E1 & E2 & E3 & E4 & E5 & _); [|done].
    destruct HI. split; unfold total_staked in *; rewrite ?E1, ?E2, ?E3, ?E4, ?E5; done.
  - apply donate_step in H as (H0 & H1 & _ & ->). destruct HI. split; cbn; try done; lia.
Qed.

Lemma kreached_inv b s l : kreached b s l -> kinv b s.
Proof.
  intros (b0 & token & d & owner & s0 & _ & Hi & HL).
  eapply (leads_inv k_handle kinv kinv_call kinv_time); [|exact HL]. by eapply kinv_init.
Qed.
Lemma kreached_call b s l :
  kreached b s l -> forall pre b1 a m post subs, ECall pre b1 a m post subs ∈ l ->
  kinv b1 pre /\ k_handle pre b1 a m = Ok (post, subs) /\ block_le b1 b.
Proof.
  intros (b0 & token & d & owner & s0 & _ & Hi & HL) pre b1 a m post subs Hin.
  destruct (leads_call k_handle kinv kinv_call kinv_time _ _ _ _ _ (kinv_init _ _ _ _ _ Hi) HL
              _ _ _ _ _ _ Hin) as (A & B & _ & C). done.
Qed.
Lemma kreached_app b s l b' s' l' :
  kreached b s l -> leads k_handle b s b' s' l' -> kreached b' s' (l ++ l').
Proof.
  intros (b0 & token & d & owner & s0 & Hd & Hi & HL) HL'.
  exists b0, token, d, owner, s0. split; [done|]. split; [done|]. by eapply leads_app.
Qed.

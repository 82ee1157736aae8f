(** Statements of C92, C93 and their proofs. *)
From Verif Require Import Base BaseProofs Exec ExecProofs Plain PlainProofs HooksModel
  VotingModel StoreModel StoreProofs LedgerProofs StakeModel StakeSpec StakeProofs StakeClaims
  ActiveModel C20Model C20Spec C20Proofs.
From Verif Require TokClaims.

(** ** C92 *)
(** Any accounts have at most the total together; some accounts have all of it. *)
Lemma powers_sum b s l h bq :
  creached b s l ->
  (forall vs, NoDup vs -> lsum (fun a => c_power s bq a (Some h)) vs <= c_total s bq (Some h)) /\
  (forall a, 0 <= c_power s bq a (Some h)) /\
  exists vs, NoDup vs /\ lsum (fun a => c_power s bq a (Some h)) vs = c_total s bq (Some h).
Proof.
  intros HR. pose proof (creached_inv _ _ _ HR) as HI. destruct (ci_k _ _ HI) as [lk HK].
  split; [|split].
  - intros vs Hn. by apply (c39_any_voters _ _ _ bq h vs HK).
  - intros a. by apply (c39_any_voters _ _ _ bq h [] HK (NoDup_nil_2)).
  - exists (map fst (map_to_list (k_bals (c_stake s)))). split; [apply NoDup_fst_map_to_list|].
    unfold c_total, c_power. rewrite <-(c39_adds_up _ _ _ bq h HK). unfold sum_staked_at.
    rewrite msum_to_list, lsum_map. done.
Qed.
Lemma at_step b s a m s' subs h :
  cinv b s -> c_handle s b a m = Ok (s', subs) -> h <= height b ->
  (forall x, smap_at (k_bals (c_stake s')) x h = smap_at (k_bals (c_stake s)) x h) /\
  snap_get_at (k_total (c_stake s')) h = snap_get_at (k_total (c_stake s)) h.
Proof.
  intros HI H Hh. destruct (c_seen _ _ _ _ _ _ HI H) as [->|(x & km & ks & Hs)]; [done|].
  by apply (at_call _ _ _ _ _ _ h Hs).
Qed.
Lemma at_leads b s b' s' l h :
  cinv b s -> leads c_handle b s b' s' l -> h <= height b ->
  (forall x, smap_at (k_bals (c_stake s')) x h = smap_at (k_bals (c_stake s)) x h) /\
  snap_get_at (k_total (c_stake s')) h = snap_get_at (k_total (c_stake s)) h.
Proof.
  intros HI HL Hh. revert HL.
  apply (leads_rel_from c_handle cinv cinv_call cinv_time (fun s s' =>
    (forall x, smap_at (k_bals (c_stake s')) x h = smap_at (k_bals (c_stake s)) x h) /\
    snap_get_at (k_total (c_stake s')) h = snap_get_at (k_total (c_stake s)) h)); [done| | |done].
  - intros x y z [P1 P2] [Q1 Q2]. split; [intros; by rewrite Q1, P1|by rewrite Q2, P2].
  - intros b1 s1 a m s2 subs [Hb _] HI1 H. apply (at_step _ _ _ _ _ _ _ HI1 H). lia.
Qed.
(** Powers and total of a height that has begun are fixed. *)
Lemma powers_fixed b s l b' s' l' bq bq' h :
  creached b s l -> leads c_handle b s b' s' l' -> h <= height b ->
  (forall a, c_power s' bq' a (Some h) = c_power s bq a (Some h)) /\
  c_total s' bq' (Some h) = c_total s bq (Some h).
Proof. intros HR HL Hh. by apply (at_leads _ _ _ _ _ h (creached_inv _ _ _ HR) HL). Qed.
(** They are what was staked when the block of that height began. *)
Lemma powers_start b1 s1 l1 b' b2 s2 l2 bq h :
  creached b1 s1 l1 -> height b1 < h -> block_le b1 b' -> h <= height b' ->
  leads c_handle b' s1 b2 s2 l2 ->
  (forall a, c_power s2 bq a (Some h) = stake_of s1 a) /\ c_total s2 bq (Some h) = all_staked s1.
Proof.
  intros HR Hlt Hb Hle HL. pose proof (creached_inv _ _ _ HR) as HI.
  pose proof (kinv_of _ _ HI) as HK.
  destruct (at_leads _ _ _ _ _ h (cinv_time _ _ _ HI Hb) HL Hle) as [A B].
  unfold c_power, c_total, k_balance_at, k_total_at, stake_of, all_staked. cbn. split.
  - intros a. rewrite A, staked_get. eapply smap_at_now; [apply HK|done].
  - rewrite B. eapply snap_get_at_now; [apply HK|done].
Qed.
(** An answer for no height is that for the current one. *)
Lemma power_default s b a : c_power s b a None = c_power s b a (Some (height b)) /\
  c_total s b None = c_total s b (Some (height b)).
Proof. done. Qed.
(** Stakes are backed by tokens. *)
Lemma backed b s l :
  creached b s l ->
  0 <= all_staked s <= pooled s /\
  pooled s + unclaimed (c_stake s) <= tokens s (c_staker s) <= supply s /\ supply s <= U128_MAX /\
  (forall a, 0 <= tokens s a) /\ k_token (c_stake s) = c_token s.
Proof.
  intros HR. pose proof (creached_inv _ _ _ HR) as HI. pose proof (kinv_of _ _ HI) as HK.
  unfold all_staked, pooled, tokens, supply.
  pose proof (total_nonneg _ _ HK). pose proof (ki_pool _ _ HK). pose proof (ki_held _ _ HK) as Hh.
  rewrite (ci_held _ _ HI) in Hh. rewrite unclaimed_get.
  pose proof (cbal_le _ (c_staker s) (ci_pos _ _ HI)). pose proof (ci_max _ _ HI).
  unfold cbal, csupply in *. split; [lia|]. split; [lia|]. split; [done|]. split; [|apply HI].
  intros a. apply (cbal_pos _ a (ci_pos _ _ HI)).
Qed.
(** A stake changes only by its owner sending tokens to stake, or unstaking. *)
Lemma stake_moves b s l pre b1 a m post subs x :
  creached b s l -> ECall pre b1 a m post subs ∈ l -> stake_of post x <> stake_of pre x ->
  x = a /\
  ((exists from n, m = CSend from n true /\ stake_of pre x < stake_of post x) \/
   (exists n, m = CStake (KUnstake n) /\ stake_of post x = stake_of pre x - n /\ 0 < n)).
Proof.
  intros HR Hin Hne. destruct (creached_call _ _ _ _ _ _ _ _ _ HR Hin) as [HI H].
  pose proof (kinv_of _ _ HI) as HK. pose proof (total_nonneg _ _ HK) as Ht0.
  pose proof (ki_pool _ _ HK) as Hpool.
  apply (c_effect _ _ _ _ _ _ HI) in H as [H _]. unfold stake_of in *.
  assert (forall k, k_bals (c_stake post) = k_bals k -> k = c_stake pre -> False) as Hsame.
  { intros k E ->. apply Hne. by rewrite !staked_get, E. }
  destruct m as [t|from to n|from n stake|to n|from n|y|m]; cbn [effect] in H.
  - destruct H as (_ & _ & _ & _ & _ & _ & E & _). rewrite E in Hne. done.
  - destruct H as (_ & _ & _ & (_ & [[_ E]|[_ Hd]]) & _); [by rewrite E in Hne|].
    apply donate_step in Hd as (_ & _ & _ & E). rewrite E in Hne. done.
  - destruct H as (Hn & _ & _ & Hr & _). destruct stake.
    + apply stake_step in Hr as (z & _ & _ & _ & Hz & _ & _ & E & _).
      destruct (amount_to_stake_spec _ _ _ _ (conj Ht0 Hpool) Hn Hz) as (Hz1 & _).
      assert (staked (c_stake post) x = if decide (x = a) then staked (c_stake pre) a + z
        else staked (c_stake pre) x) as Ex.
      { rewrite E, !staked_get. cbn. rewrite smap_get_save. by destruct (decide (x = a)). }
      rewrite Ex in Hne |- *. destruct (decide (x = a)) as [->|]; [|done].
      split; [done|]. left. exists from, n. split; [done|]. lia.
    + apply fund_step in Hr as (_ & _ & _ & E & _). rewrite E in Hne. done.
  - destruct H as (_ & _ & _ & _ & (_ & [[_ E]|[_ Hd]]) & _); [by rewrite E in Hne|].
    apply donate_step in Hd as (_ & _ & _ & E). rewrite E in Hne. done.
  - destruct H as (_ & _ & _ & E & _). rewrite E in Hne. done.
  - destruct H as (_ & _ & _ & _ & E & _). rewrite E in Hne. done.
  - destruct H as (Hm & Hs & _). unfold seen in Hs. destruct m as [| z| |d|g|g|act|]; try done.
    + apply unstake_step in Hs as (_ & Hz & _ & _ & _ & _ & E & _).
      assert (staked (c_stake post) x = if decide (x = a) then staked (c_stake pre) a - z
        else staked (c_stake pre) x) as Ex.
      { rewrite !staked_get, E, smap_get_save, staked_get. by destruct (decide (x = a)). }
      rewrite Ex in Hne |- *. destruct (decide (x = a)) as [->|]; [|done].
      split; [done|]. right. exists z. split; [done|]. lia.
    + apply claim_step in Hs as (_ & _ & _ & E & _). rewrite E in Hne. done.
    + apply quiet_step in Hs as (E & _); [|done]. by destruct (Hsame _ E).
    + apply quiet_step in Hs as (E & _); [|done]. by destruct (Hsame _ E).
    + apply quiet_step in Hs as (E & _); [|done]. by destruct (Hsame _ E).
    + apply quiet_step in Hs as (E & _); [|done]. by destruct (Hsame _ E).
Qed.
(** Only the DAO changes the threshold, to one that can be met at the time. *)
Lemma threshold_calls b s l pre b1 a m post subs :
  creached b s l -> ECall pre b1 a m post subs ∈ l ->
  (c_active post <> c_active pre -> exists t, m = CActive t) /\
  (forall t, m = CActive t -> a = c_dao pre /\ c_active post = t /\ sensible t (supply pre)).
Proof.
  intros HR Hin. destruct (creached_call _ _ _ _ _ _ _ _ _ HR Hin) as [HI H].
  apply (c_effect _ _ _ _ _ _ HI) in H as [H _].
  split; [|intros t ->; cbn [effect] in H; tauto].
  destruct m; cbn [effect] in H; [eauto|intros []; tauto..].
Qed.
(** The threshold is the last one asked for, from the one of the set-up on; so are the DAO, the
    token and the staking contract. *)
Lemma threshold_last b0 dao t i ntoken nstaker s0 b s l :
  csound b0 i -> c_instantiate b0 dao t i ntoken nstaker = Ok s0 -> leads c_handle b0 s0 b s l ->
  c_active s = last_asked t l /\ sensible t (supply s0) /\ c_dao s = dao /\
  c_token s = c_token s0 /\ c_staker s = c_staker s0.
Proof.
  intros Hs Hi HL. destruct (c_init _ _ _ _ _ _ _ Hs Hi) as (HI & Ed & Ea & _ & Hse).
  enough (cinv b s /\ c_active s = last_asked t l /\ c_dao s = dao /\
    c_token s = c_token s0 /\ c_staker s = c_staker s0) by tauto.
  revert HL. apply (leads_ind c_handle (fun b s l => cinv b s /\ c_active s = last_asked t l /\ c_dao s = dao /\
    c_token s = c_token s0 /\ c_staker s = c_staker s0)).
  - clear. intros b s l a m s' subs (HI & A & B & C & D) H.
    split; [by eapply cinv_call|].
    apply (c_effect _ _ _ _ _ _ HI) in H as (H & _ & _ & E1 & E2 & E3).
    unfold last_asked in *. rewrite fold_left_app, <-A. cbn.
    split; [|split; [|split]]; try congruence.
    destruct m; cbn [effect] in H; tauto.
  - clear. intros b s l x (HI & A & B & C & D). split; [done|]. unfold last_asked in *.
    rewrite fold_left_app. done.
  - clear. intros b b' s l (HI & A) Hb. split; [by eapply cinv_time|done].
  - done.
Qed.
(** The set-up with a new token: everybody gets what was listed, the DAO its share and the
    right to mint; the staking contract is new, of this token, the DAO's, with the period. *)
Lemma setup_new b dao t bals db d ntoken nstaker s :
  c_instantiate b dao t (CNew bals db d) ntoken nstaker = Ok s ->
  let all := bals ++ match db with Some n => if decide (0 < n) then [(dao, n)] else [] | None => [] end in
  NoDup (map fst all) /\ (forall a n, (a, n) ∈ all -> tokens s a = n) /\
  (forall a, a ∉ map fst all -> tokens s a = 0) /\
  supply s = lsum snd all /\ 0 < lsum snd bals /\ c_minter s = Some dao /\ c_token s = ntoken /\
  c_staker s = nstaker /\ k_token (c_stake s) = ntoken /\ k_dur (c_stake s) = d /\
  o_owner (k_own (c_stake s)) = Some dao /\ all_staked s = 0 /\ k_hooks (c_stake s) = [].
Proof.
  intros H all. unfold c_instantiate in H. destruct (fits_active t) eqn:Ef; [|done].
  destruct (c_percent_ok t) as [[]|] eqn:Ep; [|done].
  destruct (_ && _ && _) eqn:Eb; [|done]. apply andb_true_iff in Eb as [[Eb1 Eb2]%andb_true_iff Eb3].
  destruct (lsum snd bals <=? U128_MAX) eqn:El; [|done]. destruct (lsum snd bals =? 0) eqn:E0; [done|].
  cbn [negb] in H. cbv zeta in H.
  assert (match db with Some n => if 0 <? n then bals ++ [(dao, n)] else bals | None => bals end = all) as Ea.
  { unfold all. destruct db as [n|]; [|by rewrite app_nil_r].
    destruct (decide (0 < n)), (0 <? n) eqn:E; try lia; [done|by rewrite app_nil_r]. }
  rewrite Ea in H. destruct (caccounts all) as [m|] eqn:Em; [|done].
  destruct (c_count_ok t _) as [[]|] eqn:Ec; [|done].
  destruct (c_fresh _ _ _ _ _ _) as [k|] eqn:Ek; [|done]. injection H as <-.
  assert (forallb (fun x => fits128 x.2) all = true) as Hall.
  { unfold all. rewrite forallb_app, Eb1. cbn [andb]. destruct db as [n|]; [|done].
    destruct (decide (0 < n)); [|done]. cbn. by rewrite Eb2. }
  apply (caccounts_ok _ _) in Em as (Hnd & -> & Hpos & Hsup & Hmax); [|exact Hall].
  destruct (c_fresh_ok _ _ _ _ _ _ _ Ek Eb3 Hpos) as (Hk & Ht & Hh & Hd & Ho & Hto & _ & _ & Hho).
  unfold tokens, supply, all_staked. cbn [c_bals c_minter c_token c_staker c_stake].
  split; [done|]. split.
  { intros a n Hin. by rewrite (elem_of_list_to_map_1 all a n Hnd Hin). }
  split. { intros a Hin. by rewrite (not_elem_of_list_to_map_1 all a Hin). }
  split; [done|]. split; [|done].
  assert (0 <= lsum snd bals); [|lia].
  apply lsum_nonneg. intros x Hx. rewrite forallb_forall in Eb1.
  apply elem_of_list_In, Eb1, fits128_ok in Hx. lia.
Qed.
(** With an existing token nothing of it changes, and the staking contract is one for it. *)
Lemma setup_old b dao t token minter m st ntoken nstaker s :
  csound b (COld token minter m st) ->
  c_instantiate b dao t (COld token minter m st) ntoken nstaker = Ok s ->
  c_token s = token /\ c_minter s = minter /\ c_bals s = m /\ k_token (c_stake s) = token /\
  match st with
  | CStaked a k => c_staker s = a /\ c_stake s = k
  | CFresh d => c_staker s = nstaker /\ k_dur (c_stake s) = d /\ all_staked s = 0 /\
      o_owner (k_own (c_stake s)) = Some dao /\ k_hooks (c_stake s) = []
  end.
Proof.
  intros (Hpos & _ & _) H. unfold c_instantiate in H. destruct (fits_active t) eqn:Ef; [|done].
  destruct (c_percent_ok t) as [[]|] eqn:Ep; [|done].
  destruct (c_count_ok t _) as [[]|] eqn:Ec; [|done]. destruct st as [a k|d].
  - destruct (token =? k_token k)%N eqn:Et; [|done]. apply N.eqb_eq in Et. by injection H as <-.
  - destruct (fits_dur d) eqn:Ed; [|done]. destruct (c_fresh _ _ _ _ _ _) as [k|] eqn:Ek; [|done].
    injection H as <-.
    destruct (c_fresh_ok _ _ _ _ _ _ _ Ek Ed Hpos) as (Hk & Ht & Hh & Hd & Ho & Hto & _ & _ & Hho).
    done.
Qed.

(** ** C93 *)
Lemma active_in_range b s l : creached b s l ->
  match c_active s with Some (APercent p) => 0 < p <= 10 ^ 18 | _ => True end.
Proof.
  intros (b0 & dao & t & i & nt & ns & s0 & Hs & Hi & HL).
  destruct (c_init _ _ _ _ _ _ _ Hs Hi) as (HI & _ & Ea & _ & Hse).
  enough (cinv b s /\ match c_active s with Some (APercent p) => 0 < p <= 10 ^ 18 | _ => True end) by tauto.
  eapply (leads_inv c_handle (fun b s => cinv b s /\
    match c_active s with Some (APercent p) => 0 < p <= 10 ^ 18 | _ => True end)); [| | |exact HL].
  - clear. intros b s a m s' subs (HI & A) H. split; [by eapply cinv_call|].
    apply (c_effect _ _ _ _ _ _ HI) in H as [H _].
    destruct m; cbn [effect] in H.
    1: { destruct H as (_ & Hse & _ & -> & _). by destruct t as [[]|]. }
    all: assert (c_active s' = c_active s) as -> by tauto; done.
  - clear. intros b b' s (HI & A) Hb. split; [by eapply cinv_time|done].
  - split; [done|]. rewrite Ea. by destruct t as [[]|].
Qed.
Lemma supply_pos b s : cinv b s -> 0 <= supply s.
Proof. intros HI. apply msum_nonneg. intros k v. apply HI. Qed.
(** Asked in a later block, the module reports active exactly when what is staked meets the
    threshold. *)
Lemma active_means b s l b' :
  creached b s l -> height b < height b' ->
  exists x, c_is_active s b' = Ok x /\ (x = true <-> meets (c_active s) (all_staked s) (supply s)).
Proof.
  intros HR Hlt. pose proof (creached_inv _ _ _ HR) as HI. pose proof (kinv_of _ _ HI) as HK.
  pose proof (active_in_range _ _ _ HR) as Hr.
  assert (c_total s b' None = all_staked s) as Et.
  { unfold c_total, k_total_at. cbn. eapply snap_get_at_now; [apply HK|done]. }
  unfold c_is_active. rewrite Et. destruct (c_active s) as [[n|p]|]; cbn [meets].
  - eexists. split; [reflexivity|]. apply Z.leb_le.
  - destruct (TokClaims.c44_percent_close (all_staked s) (supply s) p) as (x & Hx & _ & _ & Hm).
    + split; [by eapply supply_pos|apply (backed _ _ _ HR)].
    + unfold DEC_ONE. lia.
    + exists x. done.
  - by exists true.
Qed.
(** Unless somebody funded the pool, stakes are tokens one to one. *)
Lemma one_to_one b s l :
  cmade b s l -> not_funded l -> all_staked s = pooled s.
Proof.
  intros (b0 & dao & t & i & nt & ns & s0 & Hs & Hi & HI & HL).
  destruct (c_init _ _ _ _ _ _ _ Hs HI) as (HJ & _).
  enough (cinv b s /\ (not_funded l -> all_staked s = pooled s)) by tauto.
  revert HL. apply (leads_ind c_handle (fun b s l => cinv b s /\ (not_funded l -> all_staked s = pooled s))).
  - clear. intros b s l a m s' subs [HI IH] H. split; [by eapply cinv_call|]. intros Hf.
    assert (all_staked s = pooled s) as E.
    { apply IH. intros pre b1 a1 from n post subs1 Hin. eapply Hf. apply elem_of_app. left. exact Hin. }
    pose proof (kinv_of _ _ HI) as HK. pose proof (total_nonneg _ _ HK) as Ht0.
    assert (forall from n, m = CSend from n false -> n = 0) as Hfund.
    { intros from n ->. eapply Hf. apply elem_of_app. right. by apply elem_of_list_singleton. }
    clear IH Hf. apply (c_effect _ _ _ _ _ _ HI) in H as [H _].
    unfold all_staked, pooled in *. 
    destruct m as [t|from to n|from n stake|to n|from n|y|m]; cbn [effect] in H.
    + destruct H as (_ & _ & _ & _ & _ & _ & -> & _). done.
    + destruct H as (_ & _ & _ & (_ & [[_ ->]|[_ Hd]]) & _); [done|].
      by apply donate_step in Hd as (_ & _ & _ & ->).
    + destruct H as (Hn & _ & _ & Hr & _). destruct stake.
      * apply stake_step in Hr as (z & _ & _ & _ & Hz & _ & _ & -> & _).
        destruct (amount_to_stake_spec (total_staked (c_stake s)) (k_pool (c_stake s)) n z)
          as (_ & Hz0 & Hz1); [lia|done|done|].
        unfold total_staked at 1. cbn. rewrite <-E.
        destruct (decide (total_staked (c_stake s) = 0)) as [E0|E0]; [rewrite (Hz0 E0); lia|].
        rewrite (Hz1 E0), <-E, Z.mul_comm, Z.div_mul by done. done.
      * apply fund_step in Hr as (_ & _ & _ & -> & _).
        rewrite (Hfund from n) by done. unfold total_staked in *. cbn. lia.
    + destruct H as (_ & _ & _ & _ & (_ & [[_ ->]|[_ Hd]]) & _); [done|].
      by apply donate_step in Hd as (_ & _ & _ & ->).
    + destruct H as (_ & _ & _ & -> & _). done.
    + destruct H as (_ & _ & _ & _ & -> & _). done.
    + destruct H as (Hm & Hs & _). unfold seen in Hs. destruct m as [| z| |d|g|g|act|]; try done.
      * apply unstake_step in Hs as (H0 & _ & _ & _ & _ & _ & _ & E1 & E2 & _).
        unfold total_staked at 1. rewrite E1, E2, <-E, Z.div_mul by done. done.
      * apply claim_step in Hs as (_ & _ & _ & -> & _). done.
      * apply quiet_step in Hs as (_ & E1 & -> & _); [|done]. unfold total_staked in *. by rewrite E1.
      * apply quiet_step in Hs as (_ & E1 & -> & _); [|done]. unfold total_staked in *. by rewrite E1.
      * apply quiet_step in Hs as (_ & E1 & -> & _); [|done]. unfold total_staked in *. by rewrite E1.
      * apply quiet_step in Hs as (_ & E1 & -> & _); [|done]. unfold total_staked in *. by rewrite E1.
  - clear. intros b s l x [HI IH]. split; [done|]. intros Hf. apply IH.
    intros pre b1 a1 from n post subs1 Hin. eapply Hf. apply elem_of_app. left. exact Hin.
  - clear. intros b b' s l [HI IH] Hb. split; [by eapply cinv_time|done].
  - split; [done|]. intros _. unfold all_staked, pooled.
    destruct i as [token minter m [a k|d]|bals db d]; [done| |].
    + destruct Hs as (Hpos & _ & _). unfold c_instantiate in HI. destruct (fits_active t); [|done].
      destruct (c_percent_ok t); [|done]. destruct (c_count_ok t _); [|done].
      destruct (fits_dur d) eqn:Ed; [|done]. destruct (c_fresh _ _ _ _ _ _) as [k|] eqn:Ek; [|done].
      injection HI as <-. destruct (c_fresh_ok _ _ _ _ _ _ _ Ek Ed Hpos) as (_ & _ & _ & _ & _ & A & B & _).
      cbn. congruence.
    + unfold c_instantiate in HI. destruct (fits_active t); [|done].
      destruct (c_percent_ok t); [|done]. destruct (_ && _ && _) eqn:Eb; [|done].
      apply andb_true_iff in Eb as [[Eb1 Eb2]%andb_true_iff Eb3].
      destruct (_ <=? U128_MAX); [|done]. destruct (negb _); [|done]. cbv zeta in HI.
      destruct (caccounts _) as [m|] eqn:Em; [|done]. destruct (c_count_ok t _); [|done].
      destruct (c_fresh _ _ _ _ _ _) as [k|] eqn:Ek; [|done]. injection HI as <-.
      apply caccounts_ok in Em as (_ & -> & Hpos & _).
      2: { destruct db as [n|]; [|done]. destruct (0 <? n); [|done].
           rewrite forallb_app, Eb1. cbn. by rewrite Eb2. }
      destruct (c_fresh_ok _ _ _ _ _ _ _ Ek Eb3 Hpos) as (_ & _ & _ & _ & _ & A & B & _).
      cbn. congruence.
Qed.
(** In that case the threshold is met by the tokens in the pool; all tokens meet one that
    is sensible for the supply there is. *)
Lemma met_by_tokens b s l b' :
  cmade b s l -> not_funded l -> height b < height b' ->
  exists x, c_is_active s b' = Ok x /\ (x = true <-> meets (c_active s) (pooled s) (supply s)) /\
    (pooled s = supply s -> sensible (c_active s) (supply s) -> x = true).
Proof.
  intros HM Hf Hlt. rewrite <-(one_to_one _ _ _ HM Hf).
  assert (creached b s l) as HR.
  { destruct HM as (b0 & dao & t & i & nt & ns & s0 & ? & _ & ? & ?). by exists b0, dao, t, i, nt, ns, s0. }
  destruct (active_means _ _ _ _ HR Hlt) as (x & Hx & Hm). exists x. split; [done|]. split; [done|].
  intros E Hse. apply Hm. rewrite E. destruct (c_active s) as [[n|p]|]; cbn in *; [lia| |done].
  assert (0 <= supply s) as H0 by by eapply supply_pos, creached_inv.
  transitivity (supply s * 10 ^ 9 * 10 ^ 18 / 10 ^ 18); [apply Z.div_le_mono; [lia|]|].
  - apply Z.mul_le_mono_nonneg_l; lia.
  - by rewrite Z.div_mul.
Qed.
(** While the DAO does nothing, its tokens stay, the minter (itself) mints nothing and the
    threshold stands; all others together can stake only the rest. *)
Lemma idle_bound b0 dao t bals db d ntoken nstaker s0 b s l :
  c_instantiate b0 dao t (CNew bals db d) ntoken nstaker = Ok s0 ->
  dao <> nstaker -> leads c_handle b0 s0 b s l -> dao_idle dao l ->
  c_active s = t /\ tokens s0 dao <= tokens s dao /\ supply s <= supply s0 /\
  all_staked s + tokens s dao <= supply s.
Proof.
  intros Hi Hne HL.
  destruct (c_init b0 dao t (CNew bals db d) ntoken nstaker s0 I Hi) as (HI & Ed & Ea & _).
  pose proof (setup_new _ _ _ _ _ _ _ _ _ Hi) as Hset. cbv zeta in Hset.
  destruct Hset as (_ & _ & _ & _ & _ & Hmint & _ & Hst & _).
  enough (cinv b s /\ (c_staker s = nstaker /\ c_dao s = dao) /\ (dao_idle dao l -> c_active s = t /\
    tokens s0 dao <= tokens s dao /\ supply s <= supply s0 /\ c_minter s = Some dao)) as (HJ & [Es _] & H).
  { intros Hid. destruct (H Hid) as (A & B & C & _). split; [done|]. split; [done|]. split; [done|].
    pose proof (kinv_of _ _ HJ) as HK. pose proof (ki_pool _ _ HK). pose proof (ki_held _ _ HK) as Hh.
    rewrite (ci_held _ _ HJ), Es in Hh.
    pose proof (cbal_two _ dao nstaker (ci_pos _ _ HJ) Hne).
    assert (0 <= claims_sum (k_claims (c_stake s))).
    { apply msum_nonneg. intros k v Hk. apply lsum_nonneg. intros c Hc.
      apply (ki_cpos _ _ HK k). unfold claims_of. by rewrite Hk. }
    unfold all_staked, tokens, supply, cbal, csupply in *. lia. }
  revert HL. apply (leads_ind c_handle (fun b s l => cinv b s /\ (c_staker s = nstaker /\ c_dao s = dao) /\
    (dao_idle dao l -> c_active s = t /\
     tokens s0 dao <= tokens s dao /\ supply s <= supply s0 /\ c_minter s = Some dao))).
  - clear -Hne. intros b s l a m s' subs (HI & [Es Ed] & IH) H. split; [by eapply cinv_call|].
    pose proof (kinv_of _ _ HI) as HK.
    apply (c_effect _ _ _ _ _ _ HI) in H as (H & Has & _ & Ed' & _ & Es').
    split; [split; congruence|].
    intros Hid. destruct IH as (A & B & C & D).
    { intros pre b1 a1 m1 post subs1 Hin. eapply Hid. apply elem_of_app. left. exact Hin. }
    destruct (Hid s b a m s' subs) as [Ha Hm]; [apply elem_of_app; right; by apply elem_of_list_singleton|].
    clear Hid. unfold tokens, supply in *.
    change (default 0 (c_bals s' !! dao)) with (cbal (c_bals s') dao).
    change (default 0 (c_bals s !! dao)) with (cbal (c_bals s) dao) in *.
    change (msum _ (c_bals s')) with (csupply (c_bals s')).
    change (msum _ (c_bals s)) with (csupply (c_bals s)) in *.
    destruct m as [t'|from to n|from n stake|to n|from n|y|m]; cbn [effect] in H.
    + exfalso. destruct H as [E _]. congruence.
    + destruct H as (Hn & _ & Hmv & _ & -> & ->). split; [done|].
      destruct (cmove_ok _ _ _ _ _ Hmv Hn (ci_pos _ _ HI)) as (_ & _ & -> & ->).
      rewrite decide_False by congruence. destruct (decide _); split; try split; done || lia.
    + destruct H as (Hn & _ & Hmv & _ & -> & ->). split; [done|].
      destruct (cmove_ok _ _ _ _ _ Hmv Hn (ci_pos _ _ HI)) as (_ & _ & -> & ->).
      rewrite decide_False by congruence. destruct (decide _); split; try split; done || lia.
    + exfalso. destruct H as (_ & E & _). congruence.
    + destruct H as (Hn & _ & -> & _ & _ & -> & ->). split; [done|].
      rewrite cbal_add, csupply_add, decide_False by congruence. split; [done|]. split; [lia|done].
    + exfalso. destruct H as (E & _). congruence.
    + destruct H as (Hm' & Hs & Hp & -> & ->). split; [done|].
      destruct (k_pays _ _ _ _ _ _ HK Hs Hm') as (Hpay & _).
      destruct (cpay_ok _ _ _ _ Hp (ci_pos _ _ HI)) as (_ & -> & _ & Ho).
      { intros to n Hin. destruct (Hpay _ _ Hin) as [-> ?]. done. }
      rewrite Ho; [done| |congruence]. intros to n Hin. destruct (Hpay _ _ Hin) as [-> _]. done.
  - clear. intros b s l x (HI & Es & IH). split; [done|]. split; [done|]. intros Hid. apply IH.
    intros pre b1 a1 m1 post subs1 Hin. eapply Hid. apply elem_of_app. left. exact Hin.
  - clear. intros b b' s l (HI & IH) Hb. split; [by eapply cinv_time|done].
  - split; [done|]. split; [done|]. done.
Qed.

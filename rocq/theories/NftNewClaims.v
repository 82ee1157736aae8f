(** The claims about a DAO with an NFT collection of its own. *)
From Verif Require Import Base BaseProofs Exec ExecProofs Plain PlainProofs VotingModel HooksModel
  StoreModel StoreProofs LedgerProofs ActiveModel NftModel NftSpec NftProofs NftClaims CollModel NftNewModel NftNewSpec NftNewProofs.

(** ** Whatever is asked for *)
Lemma coll_ids md s b a m s' subs :
  p_coll md s b a m = Ok (s', subs) -> n_dao (p_n s') = n_dao (p_n s) /\ n_nft (p_n s') = n_nft (p_n s).
Proof.
  unfold p_coll. destruct (c_handle _ _ _ _) as [c'|]; [|done]. destruct m; try by intros [= <- <-].
  destruct (to =? md)%N; [|by intros [= <- <-]]. destruct (n_handle _ _ _ _) as [[n' xs]|] eqn:E; [|done].
  intros [= <- <-]. by apply n_ids in E.
Qed.
Lemma nft_ids md s b a m s' subs :
  p_nft md s b a m = Ok (s', subs) -> n_dao (p_n s') = n_dao (p_n s) /\ n_nft (p_n s') = n_nft (p_n s).
Proof.
  unfold p_nft. destruct (plain _ _); [|done]. destruct (n_handle _ _ _ _) as [[n' xs]|] eqn:E; [|done].
  destruct (pay_out _ _ _ _); [|done]. intros [= <- <-]. by apply n_ids in E.
Qed.
Lemma p_ids md s b a m s' subs :
  p_handle md s b a m = Ok (s', subs) -> n_dao (p_n s') = n_dao (p_n s) /\ n_nft (p_n s') = n_nft (p_n s).
Proof. unfold p_handle. destruct (_ && _); [|done]. destruct m; [apply nft_ids|apply coll_ids]. Qed.
Lemma run_ids md s b ms s' :
  s_run md s b ms = Ok s' -> n_dao (p_n s') = n_dao (p_n s) /\ n_nft (p_n s') = n_nft (p_n s).
Proof.
  revert s. induction ms as [|[m|a m] ms IH]; intros s H; cbn in *; [by injection H as <-| |].
  - destruct (p_coll _ _ _ _ _) as [[s1 xs]|] eqn:E; [|done]. apply coll_ids in E. apply IH in H. intuition congruence.
  - destruct (p_handle _ _ _ _ _) as [[s1 xs]|] eqn:E; [|done]. apply p_ids in E. apply IH in H. intuition congruence.
Qed.
Lemma inst_ids b dao nft src d thr n : n_instantiate b dao nft src d thr = Ok n ->
  n = NState dao nft d thr ∅ ∅ (snap_save snap_empty (height b) 0) ∅ [] ∅.
Proof. unfold n_instantiate. intros H. res_inv H; done. Qed.

Lemma c120_setup created b dao md nft d thr ms s :
  dao <> md -> dao <> nft -> new_coll created b dao md nft d thr ms = Ok s ->
  n_dao (p_n s) = dao /\ n_nft (p_n s) = nft /\ 0 < c_supply (p_c s) /\
  (forall k, n_thr (p_n s) = Some (ACount k) -> k <> 0 /\ k <= c_supply (p_c s)) /\
  (created = true -> q_own (p_c s) = Own (Some dao) None None) /\
  (created = false -> q_own (p_c s) = Own (Some md) (Some dao) None /\
    forall b', exists s', p_handle md s b' dao (PColl (COwn OAccept)) = Ok (s', []) /\
      q_own (p_c s') = Own (Some dao) None None).
Proof.
  intros Hd Hn H. apply setup_ok in H as (_ & _ & n & s1 & En & Er & -> & _ & Hs & Ht).
  apply run_ids in Er as [E1 E2]. apply inst_ids in En as ->. cbn in E1, E2. cbn [p_n p_c n_dao n_nft n_thr holding q_own].
  change (c_supply (Coll _ (q_toks (p_c s1)) _)) with (c_supply (p_c s1)).
  do 3 (split; [done|]). split; [intros k Hk; by rewrite Hk in Ht|]. split; [by intros ->|]. intros ->. split; [done|].
  intros b'. unfold p_handle, p_coll. cbn [p_n p_c n_nft holding]. rewrite E2. destruct (N.eqb_spec dao md); [done|]. destruct (N.eqb_spec dao nft); [done|].
  cbn. rewrite N.eqb_refl. cbn. eexists. split; [done|]. done.
Qed.

Lemma pay_own md c b subs c' : pay_out md c b subs = Ok c' -> q_own c' = q_own c /\
  (forall id, owner_of c id = None -> owner_of c' id = None) /\ c_supply c' = c_supply c.
Proof.
  revert c. induction subs as [|[to i|? ? ?|? ? ?] l IH]; intros c H; cbn [pay_out] in H.
  - by injection H as <-.
  - cbn [c_handle] in H. unfold c_move in H. destruct (q_toks c !! i) as [t|] eqn:Et; [|done].
    destruct (can_send _ _ _ _); [|done]. destruct (IH _ H) as (E1 & E2 & E3). split; [done|]. split.
    + intros id Hid. apply E2. rewrite owner_insert. case_decide; [subst; unfold owner_of in Hid; by rewrite Et in Hid|done].
    + rewrite E3. unfold c_supply. cbn. rewrite map_size_insert, Et. cbn. lia.
  - by apply IH.
  - by apply IH.
Qed.
(** Ownership and the list of tokens, per call. *)
Lemma call_own md s b a m s' subs dao :
  p_handle md s b a m = Ok (s', subs) -> q_own (p_c s) = Own (Some dao) None None ->
  (a <> dao \/ (forall act, m <> PColl (COwn act))) ->
  q_own (p_c s') = Own (Some dao) None None /\
  (forall id o, owner_of (p_c s) id = None -> owner_of (p_c s') id = Some o -> a = dao /\ m = PColl (CMint id o)) /\
  (a <> dao -> c_supply (p_c s') <= c_supply (p_c s)).
Proof.
  intros H Ho Hk. unfold p_handle in H. destruct (_ && _); [|done]. destruct m as [m|m].
  - unfold p_nft in H. destruct (plain _ _); [|done]. destruct (n_handle _ _ _ _) as [[n' xs]|] eqn:E; [|done].
    destruct (pay_out _ _ _ _) as [c'|] eqn:Ep; [|done]. injection H as <- <-. cbn. apply pay_own in Ep as (E1 & E2 & E3).
    split; [congruence|]. split; [|lia]. intros id o Hid Hx. rewrite (E2 _ Hid) in Hx. done.
  - assert (exists c', c_handle (p_c s) b a m = Ok c' /\ p_c s' = c') as (c' & Hc & ->).
    { unfold p_coll in H. destruct (c_handle _ _ _ _) as [c'|]; [|done]. exists c'. split; [done|].
      destruct m; try by injection H as <- <-. destruct (to =? md)%N; [|by injection H as <- <-].
      destruct (n_handle _ _ _ _) as [[n' xs]|]; [|done]. by injection H as <- <-. }
    pose proof (c_effect _ _ _ _ _ Hc) as E. clear H.
    assert (forall i t u, q_toks (p_c s) !! i = Some t -> c_supply (with_toks (p_c s) (<[i := u]> (q_toks (p_c s)))) = c_supply (p_c s)) as Hins.
    { intros i t u Hi. unfold c_supply. cbn. rewrite map_size_insert, Hi. cbn. lia. }
    destruct m; cbn [c_handle moved] in *; unfold c_move, c_approvals in Hc.
    + destruct (is_owner _ _) eqn:Eo; [|done]. destruct (q_toks _ !! id) eqn:Et; [done|]. injection Hc as <-. split; [done|].
      unfold is_owner in Eo. rewrite Ho in Eo. cbn in Eo. apply N.eqb_eq in Eo. split; [|congruence]. intros i o Hi Hx. rewrite E in Hx. case_decide; [|congruence].
      subst i. injection Hx as ->. done.
    + destruct (q_toks _ !! id) as [t|] eqn:Et; [|done]. destruct (can_send _ _ _ _); [|done]. injection Hc as <-. split; [done|].
      split; [|rewrite (Hins _ _ _ Et); lia]. intros i o Hi Hx. rewrite E in Hx. case_decide; [|congruence]. subst. unfold owner_of in Hi. by rewrite Et in Hi.
    + destruct (q_toks _ !! id) as [t|] eqn:Et; [|done]. destruct (can_send _ _ _ _); [|done]. injection Hc as <-. split; [done|].
      split; [|rewrite (Hins _ _ _ Et); lia]. intros i o Hi Hx. rewrite E in Hx. case_decide; [|congruence]. subst. unfold owner_of in Hi. by rewrite Et in Hi.
    + destruct (q_toks _ !! id) as [t|] eqn:Et; [|done]. destruct (can_approve _ _ _ _); [|done]. destruct (is_expired _ _); [done|]. injection Hc as <-.
      split; [done|]. split; [|rewrite (Hins _ _ _ Et); lia]. intros i o Hi Hx. congruence.
    + destruct (q_toks _ !! id) as [t|] eqn:Et; [|done]. destruct (can_approve _ _ _ _); [|done]. injection Hc as <-.
      split; [done|]. split; [|rewrite (Hins _ _ _ Et); lia]. intros i o Hi Hx. congruence.
    + destruct (is_expired _ _); [done|]. injection Hc as <-. split; [done|]. split; [|unfold c_supply; cbn; lia]. intros i o Hi Hx. congruence.
    + injection Hc as <-. split; [done|]. split; [|unfold c_supply; cbn; lia]. intros i o Hi Hx. congruence.
    + destruct (q_toks _ !! id) as [t|] eqn:Et; [|done]. destruct (can_send _ _ _ _); [|done]. injection Hc as <-. split; [done|].
      split; [|unfold c_supply; cbn; rewrite map_size_delete, Et; cbn; lia]. intros i o Hi Hx. rewrite E in Hx. case_decide; [done|congruence].
    + destruct Hk as [Hk|Hk]; [|by destruct (Hk act)]. rewrite Ho in Hc. destruct act as [y e| |]; cbn in Hc.
      * unfold is_owner in Hc. cbn in Hc. destruct (N.eqb_spec dao a); [congruence|done].
      * done.
      * unfold is_owner in Hc. cbn in Hc. destruct (N.eqb_spec dao a); [congruence|done].
Qed.
Lemma own_hist md dao b0 s0 b s l :
  q_own (p_c s0) = Own (Some dao) None None -> leads (p_handle md) b0 s0 b s l -> forallb (keeps dao) l = true ->
  q_own (p_c s) = Own (Some dao) None None /\
  (forall pre b1 a m post subs id o, ECall pre b1 a m post subs ∈ l ->
    owner_of (p_c pre) id = None -> owner_of (p_c post) id = Some o -> a = dao /\ m = PColl (CMint id o)) /\
  (forallb (silent dao) l = true -> c_supply (p_c s) <= c_supply (p_c s0)).
Proof.
  intros H0. apply (leads_ind (p_handle md) (fun b s l => forallb (keeps dao) l = true ->
    q_own (p_c s) = Own (Some dao) None None /\
  (forall pre b1 a m post subs id o, ECall pre b1 a m post subs ∈ l ->
    owner_of (p_c pre) id = None -> owner_of (p_c post) id = Some o -> a = dao /\ m = PColl (CMint id o)) /\
  (forallb (silent dao) l = true -> c_supply (p_c s) <= c_supply (p_c s0)))).
  - intros b1 s1 l1 a m s' subs IH H. rewrite forallb_app. intros [Hl He]%andb_true_iff. cbn in He. rewrite andb_true_r in He.
    destruct (IH Hl) as (A & B & C).
    assert (a <> dao \/ (forall act, m <> PColl (COwn act))) as Hk.
    { destruct m as [m|m]; [right; by intros ? ?|]. destruct m; try (right; by intros ? ?). left. intros ->. by rewrite N.eqb_refl in He. }
    destruct (call_own _ _ _ _ _ _ _ _ H A Hk) as (A' & B' & C'). split; [done|]. split.
    + intros pre b2 a2 m2 post xs id o [Hin|Hin%elem_of_list_singleton]%elem_of_app; [by eapply B|].
      injection Hin as -> -> -> -> -> ->. apply B'.
    + rewrite forallb_app. intros [Hs1 Hs2]%andb_true_iff. cbn in Hs2. rewrite andb_true_r in Hs2. specialize (C Hs1).
      assert (a <> dao) as Hx by (intros ->; by rewrite N.eqb_refl in Hs2). specialize (C' Hx). lia.
  - intros b1 s1 l1 x IH. rewrite !forallb_app. cbn. rewrite !andb_true_r. intros Hl. destruct (IH Hl) as (A & B & C).
    split; [done|]. split; [|done]. intros pre b2 a2 m2 post xs id o [Hin|Hin%elem_of_list_singleton]%elem_of_app; [by eapply B|done].
  - done.
  - intros _. split; [done|]. split; [|lia]. intros pre b2 a2 m2 post xs id o Hin. by apply elem_of_nil in Hin.
Qed.
Lemma c120_owner md dao nft ms b s l :
  preached true md dao nft ms b s l -> forallb (keeps dao) l = true ->
  q_own (p_c s) = Own (Some dao) None None /\
  forall pre b1 a m post subs id o, ECall pre b1 a m post subs ∈ l ->
    owner_of (p_c pre) id = None -> owner_of (p_c post) id = Some o -> a = dao /\ m = PColl (CMint id o).
Proof.
  intros (H1 & _ & H2 & b0 & d & thr & s0 & H & HL) Hk. apply c120_setup in H as (_ & _ & _ & _ & Ho & _); [|done|done].
  destruct (own_hist _ _ _ _ _ _ _ (Ho eq_refl) HL Hk) as (A & B & _). done.
Qed.

(** ** Minting only *)
Lemma mints_do md b s ms s' :
  only_mints ms = true -> s_run md s b ms = Ok s' ->
  q_own (p_c s') = q_own (p_c s) /\ q_ops (p_c s') = q_ops (p_c s) /\
  c_supply (p_c s') = c_supply (p_c s) + Z.of_nat (length ms) /\
  (forall id o, q_toks (p_c s') !! id = Some (Tok o []) <-> q_toks (p_c s) !! id = Some (Tok o []) \/ SOwn (CMint id o) ∈ ms) /\
  (forall id o, SOwn (CMint id o) ∈ ms -> owner_of (p_c s) id = None) /\
  (forall id t, q_toks (p_c s') !! id = Some t -> q_toks (p_c s) !! id = Some t \/ k_appr t = []) /\
  p_n s' = holding (p_n s) (n_held (p_n s')).
Proof.
  revert s. induction ms as [|x ms IH]; intros s Hm H; cbn in Hm, H.
  - injection H as <-. cbn. do 2 (split; [done|]). split; [lia|]. rewrite holding_id. split; [|split; [|split; [by left|done]]].
    + intros id o. split; [by left|]. intros [?|[]%elem_of_nil]. done.
    + by intros ? ? []%elem_of_nil.
  - destruct x as [m|a m]; [|done]. destruct m; try done.
    unfold p_coll in H. cbn [c_handle] in H. destruct (is_owner _ _); [|done].
    destruct (q_toks (p_c s) !! id) as [|] eqn:Et; [done|].
    destruct (IH _ Hm H) as (E1 & E2 & E3 & E4 & E5 & E6 & E7). cbn in E1, E2, E4, E6, E7. split; [done|]. split; [done|]. split; [|split; [|split; [|split]]].
    + rewrite E3. unfold c_supply. cbn. rewrite map_size_insert, Et. cbn. lia.
    + intros i o. rewrite E4, elem_of_cons. destruct (decide (id = i)) as [->|Hne].
      * rewrite lookup_insert, Et. split.
        -- intros [[= ->]|?]; [by right; left|by right; right].
        -- intros [?|[[= ->]|?]]; [done|by left|by right].
      * rewrite lookup_insert_ne by done. split; [intros [?|?]; tauto|]. intros [?|[[= -> ->]|?]]; tauto.
    + intros i o [[= -> ->]|Hi]%elem_of_cons; [unfold owner_of; by rewrite Et|]. apply E5 in Hi. cbn in Hi. rewrite owner_insert in Hi.
      by case_decide.
    + intros i t Hi. apply E6 in Hi as [Hi|?]; [|by right]. destruct (decide (id = i)) as [->|Hne].
      * rewrite lookup_insert in Hi. injection Hi as <-. by right.
      * rewrite lookup_insert_ne in Hi by done. by left.
    + rewrite E7. done.
Qed.
Lemma c120_as_asked created b dao md nft d thr ms s :
  new_coll created b dao md nft d thr ms = Ok s -> only_mints ms = true ->
  (forall id o, owner_of (p_c s) id = Some o <-> SOwn (CMint id o) ∈ ms) /\
  c_supply (p_c s) = Z.of_nat (length ms) /\ q_ops (p_c s) = ∅ /\
  (forall id t, q_toks (p_c s) !! id = Some t -> k_appr t = []) /\
  n_dur (p_n s) = d /\ n_thr (p_n s) = thr /\ n_staked (p_n s) = ∅ /\ n_claims (p_n s) = ∅ /\ n_hooks (p_n s) = [].
Proof.
  intros H Hm. apply setup_ok in H as (_ & _ & n & s1 & En & Er & -> & _).
  destruct (mints_do _ _ _ _ _ Hm Er) as (_ & E2 & E3 & E4 & _ & E6 & E7). apply inst_ids in En as ->. cbn in E2, E3, E4, E6, E7.
  assert (forall id t, q_toks (p_c s1) !! id = Some t -> k_appr t = []) as Ha.
  { intros id t Ht. apply E6 in Ht as [Ht|?]; [by rewrite lookup_empty in Ht|done]. }
  split; [|split; [|split; [|split]]]; cbn; try done; [|by rewrite E7].
  intros id o. rewrite owner_toks. cbn. split.
  - intros (t & Ht & Ho). pose proof (Ha _ _ Ht) as Hap. destruct t as [o' ap]. cbn in *. subst.
    apply E4 in Ht as [Ht|?]; [by rewrite lookup_empty in Ht|done].
  - intros Hi. exists (Tok o []). split; [|done]. apply E4. by right.
Qed.

(** ** What is staked is there *)
Lemma owned_size c a : owned_by c a = Z.of_nat (size (kept a c)).
Proof.
  unfold owned_by, kept. rewrite size_dom. generalize (q_toks c). intros m. induction m as [|i t m Hi IH] using map_ind.
  - rewrite msum_empty, map_filter_empty, map_size_empty. done.
  - rewrite msum_insert_new, IH by done. destruct (N.eqb_spec (k_owner t) a) as [E|E].
    + rewrite map_filter_insert_True by done. rewrite map_size_insert_None; [cbn [one]; lia|].
      apply map_filter_lookup_None. by left.
    + rewrite map_filter_insert_False by done. rewrite delete_notin by done. cbn [one]. lia.
Qed.
Lemma owned_supply c a : owned_by c a <= c_supply c.
Proof.
  rewrite owned_size. unfold c_supply. rewrite <-(size_dom (D := gset N)).
  apply inj_le, subseteq_size. unfold kept. apply dom_filter_subseteq.
Qed.
Lemma times_app l l' id : times (l ++ l') id = times l id + times l' id.
Proof. unfold times. apply lsum_app. Qed.
Lemma count_le n (h : gset N) L :
  (forall id, times L id + nstaked_times n id + ctimes (n_claims n) id <= hold h id) ->
  Z.of_nat (length L) + ncount_all n + waiting n <= Z.of_nat (size h).
Proof.
  intros H.
  set (S := map (fun kv : addr * N * unit => kv.1.2) (map_to_list (n_staked n))).
  set (C := flat_map (fun kv : addr * list nclaim => map nc_id kv.2) (map_to_list (n_claims n))).
  assert (forall id, times S id = nstaked_times n id) as ES.
  { intros id. unfold times, S, nstaked_times. rewrite lsum_map, msum_to_list. done. }
  assert (forall id, times C id = ctimes (n_claims n) id) as EC.
  { intros id. unfold C, ctimes. rewrite msum_to_list. generalize (map_to_list (n_claims n)). intros l.
    induction l as [|x l IH]; [done|]. cbn [flat_map]. rewrite times_app, IH. unfold times. rewrite lsum_map. done. }
  assert (Z.of_nat (length S) = ncount_all n) as LS.
  { unfold S, ncount_all. rewrite msum_to_list, lsum_const1, map_length. done. }
  assert (Z.of_nat (length C) = waiting n) as LC.
  { unfold C, waiting. rewrite msum_to_list. generalize (map_to_list (n_claims n)). intros l.
    induction l as [|x l IH]; [done|]. cbn [flat_map]. rewrite app_length, map_length, Nat2Z.inj_add, IH. done. }
  assert (forall id, times (L ++ S ++ C) id <= hold h id) as HT.
  { intros id. rewrite !times_app, ES, EC. specialize (H id). lia. }
  assert (length (L ++ S ++ C) <= size h)%nat as Hlen.
  { unfold size, set_size. cbn. apply submseteq_length, NoDup_submseteq.
    - apply nodup_times. intros id. specialize (HT id). pose proof (one_pos (bool_decide (id ∈ h))). unfold hold in HT. lia.
    - intros id Hid%times_in. specialize (HT id). apply elem_of_elements, hold_in. lia. }
  rewrite !app_length in Hlen. lia.
Qed.
Lemma pinv_count md dao nft b s : pinv md dao nft b s ->
  ncount_all (p_n s) + waiting (p_n s) <= owned_by (p_c s) md.
Proof.
  intros [[l HR] Hh _ _ _]. pose proof (nreached_inv _ _ _ HR) as HI. rewrite owned_size, <-Hh.
  pose proof (count_le (p_n s) (n_held (p_n s)) []) as H. cbn [length] in H. apply H. intros id. unfold times. cbn. apply (ni_held _ _ HI).
Qed.
Lemma claim_held b n l a c : nreached b n l -> c ∈ default [] (n_claims n !! a) -> nc_id c ∈ n_held n.
Proof.
  intros HR Hc. pose proof (ni_held _ _ (nreached_inv _ _ _ HR) (nc_id c)) as H. pose proof (staked_times_pos n (nc_id c)).
  pose proof (ctimes_ge (n_claims n) a (nc_id c)) as Hge. unfold nclaims_of in Hge.
  assert (1 <= lsum (fun c0 => one (nc_id c0 =? nc_id c)%N) (default [] (n_claims n !! a))) as H1.
  { pose proof (times_in (map nc_id (default [] (n_claims n !! a))) (nc_id c)) as Ht. unfold times in Ht. rewrite lsum_map in Ht.
    apply Ht. apply elem_of_list_fmap. eauto. }
  apply hold_in. lia.
Qed.
Lemma c120_safe created md dao nft ms b s l :
  preached created md dao nft ms b s l -> only_mints ms = true ->
  ncount_all (p_n s) + waiting (p_n s) <= owned_by (p_c s) md <= c_supply (p_c s) /\
  (forall a bq h, height b < h -> n_power_at (p_n s) bq a (Some h) = ncount (p_n s) a) /\
  (forall a id, n_staked (p_n s) !! (a, id) = Some tt ->
    owner_of (p_c s) id = Some md /\ untouchable (p_c s) b id /\
    (forall a', n_staked (p_n s) !! (a', id) = Some tt -> a' = a) /\ (forall a', nclaimed_by (p_n s) a' id = 0)) /\
  (forall a c, c ∈ default [] (n_claims (p_n s) !! a) ->
    owner_of (p_c s) (nc_id c) = Some md /\ untouchable (p_c s) b (nc_id c)).
Proof.
  intros HR Hm. pose proof (preached_inv _ _ _ _ _ _ _ _ HR Hm) as HI. pose proof HI as [[ln Hn] Hh G _ _].
  split; [split; [by eapply pinv_count|apply owned_supply]|]. split; [intros a bq h Hb; by eapply c43_power|]. split.
  - intros a id Hs. assert (id ∈ n_held (p_n s)) as Hid by (by eapply (c43_one_staker _ _ _ id a a Hn)).
    rewrite Hh in Hid. apply elem_kept in Hid. split; [done|]. split; [by eapply guard_untouchable|].
    split; [intros a'; by eapply c43_one_staker|]. intros a'. by eapply (c43_one_staker _ _ _ id a a' Hn).
  - intros a c Hc. pose proof (claim_held _ _ _ _ _ Hn Hc) as Hid. rewrite Hh in Hid. apply elem_kept in Hid.
    split; [done|]. by eapply guard_untouchable.
Qed.
(** A token leaves the module only for whoever staked it, at their call. *)
Lemma c120_leaves created md dao nft ms b s l pre b1 a m post subs id :
  preached created md dao nft ms b s l -> only_mints ms = true -> ECall pre b1 a m post subs ∈ l ->
  owner_of (p_c pre) id = Some md -> owner_of (p_c post) id <> Some md ->
  owner_of (p_c post) id = Some a /\
  ((exists ids, m = PNft (NUnstake ids) /\ id ∈ ids /\ n_dur (p_n pre) = None /\ n_staked (p_n pre) !! (a, id) = Some tt) \/
   (m = PNft NClaim /\ exists c, c ∈ default [] (n_claims (p_n pre) !! a) /\ nc_id c = id /\ is_expired (nc_release c) b1 = true)).
Proof.
  intros HR Hm Hin H1 H2. destruct (preached_call _ _ _ _ _ _ _ _ HR Hm _ _ _ _ _ _ Hin) as [HI H].
  pose proof (p_step _ _ _ _ _ _ _ _ _ HI H) as [Ha _]. unfold p_handle in H. destruct (_ && _); [|done]. destruct m as [m|m].
  - apply (nft_step md dao nft) in H as (_ & _ & En & _ & E); [|done|done]. destruct (E id) as [E1 E2].
    destruct (decide (NPay a id ∈ subs)) as [Hp|Hp]; [|by rewrite (E2 Hp) in H2]. split; [auto|].
    destruct HI as [[ln HN] _ _ _ _].
    destruct m as [from i|ids| |d1|h|h|t sup|i].
    + apply nstake_step in En as (_ & _ & _ & _ & _ & _ & ->). by apply elem_of_list_fmap in Hp as (? & ? & _).
    + left. exists ids. apply nunstake_step in En as (_ & Hr & _ & _ & _ & _ & _ & _ & _ & _ & _ & Hc).
      apply remove_ok in Hr as (_ & Hst & _). destruct Hc as [(Hd & _ & _ & ->)|(d2 & _ & _ & _ & _ & ->)].
      * apply elem_of_app in Hp as [Hp|Hp]; apply elem_of_list_fmap in Hp as (x & [= ->] & Hx). auto.
      * by apply elem_of_list_fmap in Hp as (? & ? & _).
    + right. split; [done|]. apply nclaim_step in En as (_ & _ & _ & ->). apply elem_of_list_fmap in Hp as (c & [= ->] & Hx).
      apply elem_of_filter_b in Hx as [Hx1 Hx2]. eauto.
    + apply nquiet_step in En as (_ & _ & _ & _ & _ & _ & _ & _ & ->); [|done]. by apply elem_of_nil in Hp.
    + apply nquiet_step in En as (_ & _ & _ & _ & _ & _ & _ & _ & ->); [|done]. by apply elem_of_nil in Hp.
    + apply nquiet_step in En as (_ & _ & _ & _ & _ & _ & _ & _ & ->); [|done]. by apply elem_of_nil in Hp.
    + apply nquiet_step in En as (_ & _ & _ & _ & _ & _ & _ & _ & ->); [|done]. by apply elem_of_nil in Hp.
    + apply ndeposit_step in En as (_ & -> & _). by apply elem_of_nil in Hp.
  - apply (coll_step md dao nft) in H as (_ & _ & _ & E & _); [|done|by left]. by rewrite (E _ H1) in H2.
Qed.
(** Members get their tokens back. *)
Lemma c120_unstake created md dao nft ms b s l a ids :
  preached created md dao nft ms b s l -> only_mints ms = true -> a <> md -> a <> nft -> ids <> [] -> NoDup ids ->
  (forall id, id ∈ ids -> n_staked (p_n s) !! (a, id) = Some tt) ->
  (n_dur (p_n s) <> None -> Z.of_nat (length (default [] (n_claims (p_n s) !! a)) + length ids) <= 70) ->
  exists s' subs, p_handle md s b a (PNft (NUnstake ids)) = Ok (s', subs) /\
    (n_dur (p_n s) = None -> forall id, id ∈ ids -> owner_of (p_c s') id = Some a) /\
    (forall d, n_dur (p_n s) = Some d -> forall id, id ∈ ids ->
      NClaimOf id (after d b) ∈ default [] (n_claims (p_n s') !! a)).
Proof.
  intros HR Hm Ha Hf H1 H2 H3 H4. pose proof (preached_inv _ _ _ _ _ _ _ _ HR Hm) as HI. pose proof HI as [[ln Hn] _ _ _ _].
  destruct (c43_can_unstake _ _ _ _ _ Hn H1 H2 H3 H4) as (n' & subs & En & Hp).
  destruct (nft_can md dao nft b s a (NUnstake ids) n' subs HI Ha Hf eq_refl En) as (c' & E & _ & Eo).
  exists (PS n' c'), subs. split; [done|]. split.
  - intros Hd id Hid. apply Eo. auto.
  - intros d Hd id Hid. apply nunstake_step in En as (_ & _ & _ & _ & _ & _ & _ & _ & _ & _ & _ & [(Hd' & _)|(d2 & Hd' & _ & _ & Ec & _)]); [congruence|].
    assert (d2 = d) as -> by congruence. cbn. rewrite Ec. unfold create_nft_claims. rewrite lookup_insert. cbn.
    apply elem_of_app. right. apply elem_of_list_fmap. eauto.
Qed.
Lemma c120_collect created md dao nft ms b s l a c :
  preached created md dao nft ms b s l -> only_mints ms = true -> a <> md -> a <> nft ->
  c ∈ default [] (n_claims (p_n s) !! a) -> is_expired (nc_release c) b = true ->
  exists s' subs, p_handle md s b a (PNft NClaim) = Ok (s', subs) /\ owner_of (p_c s') (nc_id c) = Some a.
Proof.
  intros HR Hm Ha Hf H1 H2. pose proof (preached_inv _ _ _ _ _ _ _ _ HR Hm) as HI. pose proof HI as [[ln Hn] _ _ _ _].
  destruct (c43_can_collect _ _ _ _ _ Hn H1 H2) as (n' & subs & En & Hp).
  destruct (nft_can md dao nft b s a NClaim n' subs HI Ha Hf eq_refl En) as (c' & E & _ & Eo).
  exists (PS n' c'), subs. split; [done|]. by apply Eo.
Qed.

(** ** A token nobody can stake *)
Record stuck (md : addr) (id : N) (s : pstate) : Prop := Stuck {
  sk_own : owner_of (p_c s) id = Some md;
  sk_staked : nstaked_times (p_n s) id = 0;
  sk_claims : ctimes (n_claims (p_n s)) id = 0 }.
Lemma stuck_step md dao nft b s a m s' subs id :
  pinv md dao nft b s -> stuck md id s -> p_handle md s b a m = Ok (s', subs) -> stuck md id s'.
Proof.
  intros HI [S1 S2 S3] H. pose proof (p_step _ _ _ _ _ _ _ _ _ HI H) as [Ha HI'].
  unfold p_handle in H. destruct (_ && _); [|done]. destruct m as [m|m].
  - apply (nft_step md dao nft) in H as (_ & Hp & En & _ & E); [|done|done]. destruct (E id) as [E1 E2]. clear E.
    assert (nstaked_times (p_n s') id = 0 /\ ctimes (n_claims (p_n s')) id = 0 /\ NPay a id ∉ subs) as (A & B & C).
    { destruct m as [from i|ids| |d1|h|h|t sup|i]; try done.
      - apply nunstake_step in En as (_ & Hr & _ & _ & _ & _ & _ & _ & _ & _ & _ & Hc).
        apply remove_ok in Hr as (_ & Hst & _ & Hs).
        assert (id ∉ ids) as Hid.
        { intros Hid%Hst. apply staked_times_in in Hid. lia. }
        pose proof (times_out _ _ Hid) as Ht.
        assert (nstaked_times (p_n s') id = 0) as A.
        { specialize (Hs (fun k => one (k.2 =? id)%N)). cbn in Hs. unfold nstaked_times, times in *. lia. }
        split; [done|]. destruct Hc as [(_ & _ & Ec & ->)|(d2 & _ & _ & _ & Ec & ->)]; rewrite Ec.
        + split; [done|]. intros [Hx%elem_pay|(? & ? & _)%elem_of_list_fmap]%elem_of_app; done.
        + split; [rewrite ctimes_create; lia|]. intros (? & ? & _)%elem_of_list_fmap. done.
      - apply nclaim_step in En as (_ & _ & -> & ->). cbn [n_staked n_claims].
        pose proof (ctimes_ge (n_claims (p_n s)) a id) as Hge.
        pose proof (lsum_filter_split (fun c => one (nc_id c =? id)%N) (nmature b) (nclaims_of (n_claims (p_n s)) a)) as Hf.
        assert (0 <= lsum (fun c => one (nc_id c =? id)%N) (List.filter (fun c => negb (nmature b c)) (nclaims_of (n_claims (p_n s)) a)))
          by (apply lsum_nonneg; intros; apply one_pos).
        assert (0 <= lsum (fun c => one (nc_id c =? id)%N) (List.filter (nmature b) (nclaims_of (n_claims (p_n s)) a)))
          by (apply lsum_nonneg; intros; apply one_pos).
        split; [done|]. split; [rewrite ctimes_insert; lia|].
        intros (c & [= ->] & Hc)%elem_of_list_fmap.
        pose proof (times_in (map nc_id (List.filter (nmature b) (nclaims_of (n_claims (p_n s)) a))) (nc_id c)) as Ht.
        unfold times in Ht. rewrite lsum_map in Ht.
        specialize (Ht ltac:(apply elem_of_list_fmap; eauto)). lia.
      - apply nquiet_step in En as (_ & F1 & _ & _ & F2 & _ & _ & _ & ->); [|done]. unfold nstaked_times. rewrite F1, F2. repeat split; [done|done|apply not_elem_of_nil].
      - apply nquiet_step in En as (_ & F1 & _ & _ & F2 & _ & _ & _ & ->); [|done]. unfold nstaked_times. rewrite F1, F2. repeat split; [done|done|apply not_elem_of_nil].
      - apply nquiet_step in En as (_ & F1 & _ & _ & F2 & _ & _ & _ & ->); [|done]. unfold nstaked_times. rewrite F1, F2. repeat split; [done|done|apply not_elem_of_nil].
      - apply nquiet_step in En as (_ & F1 & _ & _ & F2 & _ & _ & _ & ->); [|done]. unfold nstaked_times. rewrite F1, F2. repeat split; [done|done|apply not_elem_of_nil]. }
    split; [|done|done]. rewrite (E2 C). done.
  - apply (coll_step md dao nft) in H as (_ & _ & _ & E & Hc); [|done|by left]. split; [auto| |].
    + destruct Hc as [(i & _ & Hi & En)|(F1 & _)]; [|unfold nstaked_times; by rewrite F1].
      apply nstake_step in En as (_ & _ & _ & _ & _ & -> & _). unfold nstaked_times. cbn.
      pose proof (not_held_not_staked b (p_n s) a i) as Hns. destruct HI as [[ln HN] Hh _ _ _].
      rewrite msum_insert_new; [|apply Hns; [by eapply nreached_inv|by rewrite Hh]]. cbn. unfold nstaked_times in S2. rewrite S2.
      destruct (N.eqb_spec i id) as [->|]; [by rewrite elem_kept in Hi|done].
    + destruct Hc as [(i & _ & Hi & En)|(_ & F1 & _)]; [|by rewrite F1].
      apply nstake_step in En as (_ & _ & _ & _ & _ & -> & _). done.
Qed.
Lemma total_step md dao nft b s a m s' subs :
  pinv md dao nft b s -> p_handle md s b a m = Ok (s', subs) ->
  (n_total (p_n s') = n_total (p_n s) \/ exists v, n_total (p_n s') = snap_save (n_total (p_n s)) (height b) v) /\
  (a <> dao -> n_thr (p_n s') = n_thr (p_n s)).
Proof.
  intros HI H. pose proof (p_step _ _ _ _ _ _ _ _ _ HI H) as [Ha _].
  unfold p_handle in H. destruct (_ && _); [|done]. pose proof (pv_dao _ _ _ _ _ HI) as Hd. destruct m as [m|m].
  - apply (nft_step md dao nft) in H as (_ & _ & En & _ & _); [|done|done].
    destruct m as [from i|ids| |d1|h|h|t sup|i].
    + apply nstake_step in En as (_ & _ & _ & _ & _ & -> & _). cbn. split; [right; eauto|done].
    + apply nunstake_step in En as (_ & _ & _ & _ & _ & E & _ & _ & _ & E' & _). rewrite E, E'. split; [right; eauto|done].
    + apply nclaim_step in En as (_ & _ & -> & _). cbn. split; [by left|done].
    + apply nquiet_step in En as (E & _ & _ & F & _); [|done]. split; [by left|congruence].
    + apply nquiet_step in En as (E & _ & _ & F & _); [|done]. split; [by left|congruence].
    + apply nquiet_step in En as (E & _ & _ & F & _); [|done]. split; [by left|congruence].
    + apply nquiet_step in En as (E & _ & _ & F & _); [|done]. split; [by left|congruence].
    + apply ndeposit_step in En as (_ & _ & _ & ->). cbn. split; [by left|done].
  - apply (coll_step md dao nft) in H as (_ & _ & _ & _ & Hc); [|done|by left].
    destruct Hc as [(i & _ & _ & En)|(_ & _ & _ & F & G & _)]; [|by rewrite F, G; split; [left|]].
    apply nstake_step in En as (_ & _ & _ & _ & _ & -> & _). cbn. split; [right; eauto|done].
Qed.
Lemma stuck_inactive md dao nft b0 s0 b s l id k :
  pinv md dao nft b0 s0 -> stuck md id s0 -> q_own (p_c s0) = Own (Some dao) None None ->
  n_thr (p_n s0) = Some (ACount k) -> c_supply (p_c s0) = k -> (forall h, snap_get_at (n_total (p_n s0)) h < k) ->
  leads (p_handle md) b0 s0 b s l -> forallb (silent dao) l = true ->
  n_is_active (p_n s) b (c_supply (p_c s)) = Ok false.
Proof.
  intros H1 H2 H3 H4 H5 H6 HL Hs.
  enough (pinv md dao nft b s /\ stuck md id s /\ n_thr (p_n s) = Some (ACount k) /\ q_own (p_c s) = Own (Some dao) None None /\
    c_supply (p_c s) <= k /\ forall h, snap_get_at (n_total (p_n s)) h < k) as (_ & _ & Ht & _ & _ & Hh).
  { unfold n_is_active, is_active_nft. rewrite Ht. specialize (Hh (height b)). destruct (k <=? _) eqn:E; [apply Z.leb_le in E; lia|done]. }
  revert Hs. revert HL. apply (leads_ind (p_handle md) (fun b s l => forallb (silent dao) l = true ->
      pinv md dao nft b s /\ stuck md id s /\ n_thr (p_n s) = Some (ACount k) /\ q_own (p_c s) = Own (Some dao) None None /\
    c_supply (p_c s) <= k /\ forall h, snap_get_at (n_total (p_n s)) h < k)).
  - intros b1 s1 l1 a m s' subs IH H. rewrite forallb_app. intros [Hl He]%andb_true_iff. cbn in He. rewrite andb_true_r in He.
    assert (a <> dao) as Ha by (intros ->; by rewrite N.eqb_refl in He).
    destruct (IH Hl) as (A & B & C & D & E & F). pose proof (p_step _ _ _ _ _ _ _ _ _ A H) as [_ A'].
    pose proof (stuck_step _ _ _ _ _ _ _ _ _ _ A B H) as B'. destruct (total_step _ _ _ _ _ _ _ _ _ A H) as [Ft Fc].
    destruct (call_own _ _ _ _ _ _ _ _ H D (or_introl Ha)) as (D' & _ & E'). specialize (E' Ha).
    do 2 (split; [done|]). split; [by rewrite Fc|]. split; [done|]. split; [lia|].
    assert (snap_get (n_total (p_n s')) < k) as Hnow.
    { destruct A' as [[ln HN] Hh _ _ _]. pose proof (nreached_inv _ _ _ HN) as HI. rewrite <-(ni_all _ _ HI).
      destruct B' as [S1 S2 S3].
      pose proof (count_le (p_n s') (n_held (p_n s')) [id]) as Hc. cbn [length] in Hc.
      assert (0 <= waiting (p_n s')) by (apply msum_nonneg; intros; lia).
      pose proof (owned_supply (p_c s') md) as Ho. rewrite owned_size, <-Hh in Ho.
      assert (Z.of_nat 1 + ncount_all (p_n s') + waiting (p_n s') <= Z.of_nat (size (n_held (p_n s')))); [|lia].
      apply Hc. intros j. unfold times. cbn. destruct (N.eqb_spec id j) as [->|]; [|pose proof (ni_held _ _ HI j); cbn; lia].
      rewrite S2, S3. unfold hold. rewrite bool_decide_eq_true_2 by (rewrite Hh; by apply elem_kept). done. }
    destruct Ft as [->|[v Ev]]; [done|]. intros h. rewrite Ev. destruct (decide (h <= height b1)) as [Hle|Hle].
    + rewrite snap_get_at_save by done. apply F.
    + rewrite (snap_get_at_now _ (height b1)); [by rewrite <-Ev| |lia].
      destruct A' as [[ln HN] _ _ _ _]. rewrite <-Ev. apply (lg_tot _ _ _ (ni_led _ _ (nreached_inv _ _ _ HN))).
  - intros b1 s1 l1 x IH. rewrite forallb_app. cbn. rewrite andb_true_r. done.
  - intros b1 b2 s1 l1 IH Hb Hl. destruct (IH Hl) as (A & B). split; [by eapply pinv_time|done].
  - intros _. do 4 (split; [done|]). split; [lia|done].
Qed.

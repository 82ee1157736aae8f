(** Invariants of dao-voting-cw721-staked. *)
From Verif Require Import Base BaseProofs Exec ExecProofs Plain PlainProofs VotingModel HooksModel
  StoreModel StoreProofs LedgerProofs ActiveModel NftModel NftSpec.

Lemma one_pos x : 0 <= one x <= 1.
Proof. destruct x; cbn; lia. Qed.
Definition hold (h : gset N) (id : N) : Z := one (bool_decide (id ∈ h)).
Definition times (ids : list N) (id : N) : Z := lsum (fun i => one (i =? id)%N) ids.
Lemma times_pos ids id : 0 <= times ids id.
Proof. apply lsum_nonneg. intros x _. apply one_pos. Qed.
Lemma times_in ids id : id ∈ ids -> 1 <= times ids id.
Proof.
  intros H. unfold times. induction H as [x l|x y l H IH]; cbn.
  - rewrite N.eqb_refl. cbn. pose proof (times_pos l x). unfold times in *. lia.
  - pose proof (one_pos (y =? x)%N). lia.
Qed.
Lemma times_out ids id : id ∉ ids -> times ids id = 0.
Proof.
  unfold times. induction ids as [|x l IH]; cbn; [done|]. intros [H1 H2]%not_elem_of_cons.
  rewrite IH by done. destruct (x =? id)%N eqn:E; [|done]. apply N.eqb_eq in E. done.
Qed.
Lemma times_nodup ids id : NoDup ids -> times ids id <= 1.
Proof.
  induction 1 as [|x l H HN IH]; [unfold times; cbn; lia|].
  change (times (x :: l) id) with (one (x =? id)%N + times l id).
  destruct (x =? id)%N eqn:E; cbn [one]; [|lia]. apply N.eqb_eq in E. subst.
  pose proof (times_out l id H). lia.
Qed.

Lemma leave_ok h ids h' : n_leave h ids = Ok h' -> forall id, hold h' id = hold h id - times ids id.
Proof.
  revert h. induction ids as [|x l IH]; intros h H id; cbn in *.
  - injection H as <-. unfold times. cbn. lia.
  - destruct (bool_decide (x ∈ h)) eqn:E; [|done]. apply bool_decide_eq_true in E.
    rewrite (IH _ H). unfold hold, times. cbn. destruct (x =? id)%N eqn:Ex.
    + apply N.eqb_eq in Ex. subst. rewrite (bool_decide_eq_true_2 (id ∈ h)) by done.
      rewrite bool_decide_eq_false_2 by set_solver. cbn. lia.
    + apply N.eqb_neq in Ex.
      assert (bool_decide (id ∈ h ∖ {[x]}) = bool_decide (id ∈ h)) as ->
        by (apply bool_decide_ext; set_solver). cbn. lia.
Qed.
Lemma leave_can h ids : NoDup ids -> (forall id, id ∈ ids -> id ∈ h) -> exists h', n_leave h ids = Ok h'.
Proof.
  intros HN. revert h. induction HN as [|x l H HN IH]; intros h Hin; cbn; [eauto|].
  rewrite bool_decide_eq_true_2 by (apply Hin; left). apply IH.
  intros id Hid. specialize (Hin id ltac:(by right)). set_solver.
Qed.
Lemma arrive_ok h id h' : n_arrive h id = Ok h' ->
  id ∉ h /\ forall i, hold h' i = hold h i + one (id =? i)%N.
Proof.
  unfold n_arrive. destruct (bool_decide (id ∈ h)) eqn:E; [done|]. cbn. intros [= <-].
  apply bool_decide_eq_false in E. split; [done|]. intros i. unfold hold.
  destruct (id =? i)%N eqn:Ei.
  - apply N.eqb_eq in Ei. subst. rewrite bool_decide_eq_true_2 by set_solver.
    rewrite bool_decide_eq_false_2 by done. done.
  - apply N.eqb_neq in Ei.
    assert (bool_decide (i ∈ {[id]} ∪ h) = bool_decide (i ∈ h)) as ->
      by (apply bool_decide_ext; set_solver). cbn. lia.
Qed.

Lemma remove_ok m a ids m' : remove_staked m a ids = Ok m' ->
  NoDup ids /\ (forall id, id ∈ ids -> m !! (a, id) = Some tt) /\
  (forall x id, m' !! (x, id) = if decide (x = a /\ id ∈ ids) then None else m !! (x, id)) /\
  forall f : addr * N -> Z, msum (fun k _ => f k) m' = msum (fun k _ => f k) m - lsum (fun i => f (a, i)) ids.
Proof.
  revert m. induction ids as [|i l IH]; intros m H; cbn [remove_staked] in H.
  - injection H as <-. split; [constructor|]. split; [by intros ? ?%elem_of_nil|].
    split; [|intros; cbn; lia]. intros x id. destruct (decide _) as [[_ Hn]|]; [by apply elem_of_nil in Hn|done].
  - destruct (m !! (a, i)) as [[]|] eqn:E; [|done]. destruct (IH _ H) as (HN & Hin & Hl & Hs).
    assert (i ∉ l) as Hi.
    { intros Hi. specialize (Hin i Hi). by rewrite lookup_delete in Hin. }
    split; [by constructor|]. split.
    { intros id [->|Hid]%elem_of_cons; [done|]. specialize (Hin id Hid).
      rewrite lookup_delete_ne in Hin; [done|]. intros [= ->]. done. }
    split.
    { intros x id. rewrite Hl. destruct (decide (x = a /\ id ∈ l)) as [[-> Hd]|Hd].
      - rewrite decide_True; [done|]. split; [done|by right].
      - destruct (decide (x = a /\ id = i)) as [[-> ->]|Hd2].
        + rewrite lookup_delete. rewrite decide_True; [done|]. split; [done|left].
        + rewrite lookup_delete_ne by (intros [= -> ->]; by apply Hd2).
          rewrite decide_False; [done|]. intros [-> [->|Hx]%elem_of_cons]; naive_solver. }
    intros f. rewrite Hs. rewrite (msum_delete _ _ _ _ E). cbn. lia.
Qed.
Lemma remove_can m a ids : NoDup ids -> (forall id, id ∈ ids -> m !! (a, id) = Some tt) ->
  exists m', remove_staked m a ids = Ok m'.
Proof.
  intros HN. revert m. induction HN as [|x l H HN IH]; intros m Hin; cbn; [eauto|].
  rewrite (Hin x) by left. apply IH. intros id Hid. rewrite lookup_delete_ne; [by apply Hin; right|].
  intros [= ->]. done.
Qed.

Lemma nclaims_of_insert m a l a' :
  nclaims_of (<[a := l]> m) a' = if decide (a' = a) then l else nclaims_of m a'.
Proof.
  unfold nclaims_of. destruct (decide (a' = a)) as [->|]; [by rewrite lookup_insert|].
  by rewrite lookup_insert_ne.
Qed.
Definition ctimes (m : nclaims) (id : N) : Z :=
  msum (fun _ cs => lsum (fun c => one (nc_id c =? id)%N) cs) m.
Lemma ctimes_insert m a l id :
  ctimes (<[a := l]> m) id =
  ctimes m id - lsum (fun c => one (nc_id c =? id)%N) (nclaims_of m a) +
  lsum (fun c => one (nc_id c =? id)%N) l.
Proof. unfold ctimes. rewrite msum_insert. unfold nclaims_of. destruct (m !! a); cbn; lia. Qed.
Lemma ctimes_create m a ids e id :
  ctimes (create_nft_claims m a ids e) id = ctimes m id + times ids id.
Proof.
  unfold create_nft_claims. rewrite ctimes_insert, lsum_app, lsum_map. unfold times. cbn. lia.
Qed.
Lemma ctimes_ge m a id : lsum (fun c => one (nc_id c =? id)%N) (nclaims_of m a) <= ctimes m id.
Proof.
  unfold ctimes, nclaims_of. destruct (m !! a) as [l|] eqn:E; cbn.
  - apply (msum_ge_one (fun _ cs => lsum (fun c => one (nc_id c =? id)%N) cs) m a l); [|done].
    intros. apply lsum_nonneg. intros. apply one_pos.
  - apply msum_nonneg. intros. apply lsum_nonneg. intros. apply one_pos.
Qed.

Lemma nstake_step s b sender from id s' subs :
  n_handle s b sender (NReceive from id) = Ok (s', subs) ->
  sender = n_nft s /\ id ∉ n_held s /\
  smap_get (n_bals s) from + 1 <= U128_MAX /\ snap_get (n_total s) + 1 <= U128_MAX /\
  (forall i, hold (n_held s') i = hold (n_held s) i + one (id =? i)%N) /\
  s' = NState (n_dao s) (n_nft s) (n_dur s) (n_thr s) (<[(from, id) := tt]> (n_staked s))
         (smap_save (n_bals s) from (height b) (smap_get (n_bals s) from + 1))
         (snap_save (n_total s) (height b) (snap_get (n_total s) + 1))
         (n_claims s) (n_hooks s) (n_held s') /\
  subs = map (fun h => NStakeHook h from id) (n_hooks s).
Proof.
  intros H. cbn [n_handle] in H. unfold n_stake in H.
  destruct (sender =? n_nft s)%N eqn:Es; [|done]. apply N.eqb_eq in Es.
  destruct (n_arrive _ _) as [held|] eqn:Ea; [|done]. apply arrive_ok in Ea as [Hn Hh].
  unfold register_staked in H.
  destruct (add128 _ 1) as [bal|] eqn:E1; [|done].
  destruct (add128 (snap_get _) 1) as [tot|] eqn:E2; [|done]. cbn in H.
  injection H as <- <-. apply add128_ok in E1 as [-> ?], E2 as [-> ?]. cbn.
  repeat (split; [done|]). done.
Qed.
Lemma nunstake_step s b sender ids s' subs :
  n_handle s b sender (NUnstake ids) = Ok (s', subs) ->
  let n := Z.of_nat (length ids) in
  ids <> [] /\ remove_staked (n_staked s) sender ids = Ok (n_staked s') /\
  0 < n <= smap_get (n_bals s) sender /\ n <= snap_get (n_total s) /\
  n_bals s' = smap_save (n_bals s) sender (height b) (smap_get (n_bals s) sender - n) /\
  n_total s' = snap_save (n_total s) (height b) (snap_get (n_total s) - n) /\
  n_dao s' = n_dao s /\ n_nft s' = n_nft s /\ n_dur s' = n_dur s /\ n_thr s' = n_thr s /\
  n_hooks s' = n_hooks s /\
  ((n_dur s = None /\ n_leave (n_held s) ids = Ok (n_held s') /\ n_claims s' = n_claims s /\
    subs = map (NPay sender) ids ++ map (fun h => NUnstakeHook h sender ids) (n_hooks s)) \/
   (exists d, n_dur s = Some d /\
    Z.of_nat (length (nclaims_of (n_claims s) sender) + length ids) <= 70 /\
    n_held s' = n_held s /\ n_claims s' = create_nft_claims (n_claims s) sender ids (after d b) /\
    subs = map (fun h => NUnstakeHook h sender ids) (n_hooks s))).
Proof.
  intros H n. cbn [n_handle] in H. unfold n_unstake in H.
  destruct (length ids =? 0)%nat eqn:E0; [done|]. cbn [negb] in H. apply Nat.eqb_neq in E0.
  assert (ids <> []) as Hne by (by intros ->).
  destruct (register_unstaked _ _ _ _) as [s1|] eqn:Er; [|done]. unfold register_unstaked in Er.
  destruct (remove_staked _ _ _) as [m|] eqn:Em; [|done].
  destruct (sub128 (snap_get _) _) as [tot|] eqn:E1; [|done].
  destruct (sn_cur _) as [cur|] eqn:Ec; [|done].
  destruct (sub128 cur _) as [bal|] eqn:E2; [|done]. injection Er as <-.
  apply sub128_ok in E1 as [-> ?], E2 as [-> ?].
  assert (smap_get (n_bals s) sender = cur) as Eb by (unfold smap_get; by rewrite Ec).
  rewrite Eb. destruct (n_dur s) as [d|] eqn:Ed.
  - destruct (_ <=? NFT_MAX_CLAIMS) eqn:El; [|done]. unfold NFT_MAX_CLAIMS in El.
    injection H as <- <-. cbn. repeat (split; [done || lia|]). right. exists d.
    repeat (split; [done || lia|]). done.
  - destruct (n_leave _ _) as [held|] eqn:El; [|done]. injection H as <- <-. cbn.
    repeat (split; [done || lia|]). left. done.
Qed.
Lemma nclaim_step s b sender s' subs :
  n_handle s b sender NClaim = Ok (s', subs) ->
  let out := List.filter (nmature b) (nclaims_of (n_claims s) sender) in
  out <> [] /\ n_leave (n_held s) (map nc_id out) = Ok (n_held s') /\
  s' = NState (n_dao s) (n_nft s) (n_dur s) (n_thr s) (n_staked s) (n_bals s) (n_total s)
         (<[sender := List.filter (fun c => negb (nmature b c)) (nclaims_of (n_claims s) sender)]>
            (n_claims s)) (n_hooks s) (n_held s') /\
  subs = map (fun c => NPay sender (nc_id c)) out.
Proof.
  intros H out. cbn [n_handle] in H. unfold n_claim, claim_nfts in H. fold out in H.
  destruct (length (map nc_id out) =? 0)%nat eqn:E0; [done|]. cbn [negb] in H.
  destruct (n_leave _ _) as [held|] eqn:El; [|done]. injection H as <- <-. cbn.
  split. { intros Ho. by rewrite Ho in E0. }
  split; [done|]. split; [done|]. by rewrite map_map.
Qed.
Definition n_quiet (m : nmsg) : bool :=
  match m with NReceive _ _ | NUnstake _ | NClaim | NDeposit _ => false | _ => true end.
Lemma nquiet_step s b sender m s' subs :
  n_handle s b sender m = Ok (s', subs) -> n_quiet m = true ->
  sender = n_dao s /\ n_staked s' = n_staked s /\ n_bals s' = n_bals s /\ n_total s' = n_total s /\
  n_claims s' = n_claims s /\ n_held s' = n_held s /\ n_nft s' = n_nft s /\ n_dao s' = n_dao s /\
  subs = [].
Proof.
  destruct m; intros H Hq; try done; cbn [n_handle] in H;
    unfold n_update_config, n_set_hooks, n_update_threshold in H;
    destruct (sender =? n_dao s)%N eqn:E; res_inv H; apply N.eqb_eq in E; done.
Qed.
Lemma ndeposit_step s b sender id s' subs :
  n_handle s b sender (NDeposit id) = Ok (s', subs) ->
  id ∉ n_held s /\ subs = [] /\
  (forall i, hold (n_held s') i = hold (n_held s) i + one (id =? i)%N) /\
  s' = NState (n_dao s) (n_nft s) (n_dur s) (n_thr s) (n_staked s) (n_bals s) (n_total s)
         (n_claims s) (n_hooks s) (n_held s').
Proof.
  intros H. cbn [n_handle] in H. destruct (n_arrive _ _) as [held|] eqn:Ea; [|done].
  apply arrive_ok in Ea as [Hn Hh]. injection H as <- <-. done.
Qed.

Record ninv (b : block) (s : nstate) : Prop := NInv {
  ni_led : ledger (height b) (n_bals s) (n_total s);
  ni_count : forall a, ncount s a = smap_get (n_bals s) a;
  ni_all : ncount_all s = snap_get (n_total s);
  ni_held : forall id, nstaked_times s id + ctimes (n_claims s) id <= hold (n_held s) id
}.
Lemma ninv_init b dao nft src d thr s : n_instantiate b dao nft src d thr = Ok s -> ninv b s.
Proof.
  unfold n_instantiate. intros H.
  assert (s = NState dao nft d thr ∅ ∅ (snap_save snap_empty (height b) 0) ∅ [] ∅) as ->.
  { repeat (case_match; simplify_eq; try done). }
  split; cbn.
  - apply ledger_empty. by right.
  - intros a. unfold ncount. cbn. rewrite msum_empty. done.
  - unfold ncount_all. cbn. by rewrite msum_empty.
  - intros id. unfold nstaked_times, ctimes. cbn. rewrite !msum_empty.
    unfold hold. by rewrite bool_decide_eq_false_2 by set_solver.
Qed.
Lemma ninv_time b b' s : ninv b s -> block_le b b' -> ninv b' s.
Proof. intros [] [Hh _]. split; try done. by eapply ledger_time. Qed.
Lemma hold_out h id : id ∉ h -> hold h id = 0.
Proof. intros H. unfold hold. by rewrite bool_decide_eq_false_2. Qed.
Lemma hold_in h id : 1 <= hold h id -> id ∈ h.
Proof. unfold hold. destruct (bool_decide (id ∈ h)) eqn:E; [|cbn; lia]. by apply bool_decide_eq_true in E. Qed.
Lemma staked_times_pos s id : 0 <= nstaked_times s id.
Proof. apply msum_nonneg. intros. apply one_pos. Qed.
Lemma ctimes_pos m id : 0 <= ctimes m id.
Proof. apply msum_nonneg. intros. apply lsum_nonneg. intros. apply one_pos. Qed.
Lemma staked_times_in s a id : n_staked s !! (a, id) = Some tt -> 1 <= nstaked_times s id.
Proof.
  intros H. unfold nstaked_times.
  pose proof (msum_ge_one (fun (k : addr * N) _ => one (k.2 =? id)%N) (n_staked s) (a, id) tt) as HG.
  cbn in HG. rewrite N.eqb_refl in HG. cbn in HG. apply HG; [|done]. intros. apply one_pos.
Qed.
Lemma not_held_not_staked b s a id : ninv b s -> id ∉ n_held s -> n_staked s !! (a, id) = None.
Proof.
  intros HI Hn. pose proof (ni_held _ _ HI id) as H. rewrite (hold_out _ _ Hn) in H.
  pose proof (ctimes_pos (n_claims s) id).
  destruct (n_staked s !! (a, id)) as [[]|] eqn:E; [|done].
  pose proof (staked_times_in _ _ _ E). lia.
Qed.
Lemma lsum_const1 {A} (l : list A) : lsum (fun _ => 1) l = Z.of_nat (length l).
Proof. induction l; cbn; lia. Qed.
Lemma lsum_zero {A} (f : A -> Z) l : (forall x, f x = 0) -> lsum f l = 0.
Proof. intros H. induction l; cbn; [done|]. rewrite H. lia. Qed.

Lemma ninv_call b s a m s' subs : ninv b s -> n_handle s b a m = Ok (s', subs) -> ninv b s'.
Proof.
  intros HI H. pose proof (ni_led _ _ HI) as HL.
  destruct m as [from id|ids| |d|h|h|t sup|id].
  - apply nstake_step in H as (_ & Hn & H1 & H2 & Hh & E & _). rewrite E. clear E.
    pose proof (not_held_not_staked _ _ from id HI Hn) as Hns. split; cbn.
    + pose proof (lg_pos _ _ _ HL from). apply ledger_save; [done|lia|lia|lia].
    + intros x. unfold ncount. cbn. rewrite msum_insert_new by done. cbn.
      fold (ncount s x). rewrite (ni_count _ _ HI), smap_get_save.
      destruct (decide (x = from)) as [->|Hx]; [rewrite N.eqb_refl; cbn; lia|].
      destruct (from =? x)%N eqn:Ex; [apply N.eqb_eq in Ex; congruence|]. cbn. lia.
    + unfold ncount_all. cbn. rewrite msum_insert_new by done. fold (ncount_all s).
      rewrite (ni_all _ _ HI). unfold snap_get. cbn. lia.
    + intros i. unfold nstaked_times. cbn. rewrite msum_insert_new by done. cbn.
      fold (nstaked_times s i). rewrite Hh. pose proof (ni_held _ _ HI i). lia.
  - apply nunstake_step in H as (_ & Hr & Hn & Ht & Eb & Et & _ & _ & _ & _ & _ & Hc).
    apply remove_ok in Hr as (HN & Hin & _ & Hs).
    pose proof (ledger_le _ _ _ a HL) as Hle. pose proof (lg_max _ _ _ HL). split.
    + rewrite Eb, Et. apply ledger_save; [done|lia|lia|lia].
    + intros x. unfold ncount. rewrite (Hs (fun k => one (k.1 =? x)%N)). fold (ncount s x).
      rewrite (ni_count _ _ HI), Eb, smap_get_save. cbn.
      destruct (decide (x = a)) as [->|Hx].
      * rewrite N.eqb_refl. cbn. rewrite lsum_const1. lia.
      * rewrite lsum_zero; [lia|]. intros _. destruct (a =? x)%N eqn:Ex; [apply N.eqb_eq in Ex; congruence|done].
    + unfold ncount_all. rewrite (Hs (fun _ => 1)). fold (ncount_all s).
      rewrite (ni_all _ _ HI), Et, snap_get_save, lsum_const1. lia.
    + intros i. unfold nstaked_times. rewrite (Hs (fun k => one (k.2 =? i)%N)).
      fold (nstaked_times s i). cbn. fold (times ids i). pose proof (ni_held _ _ HI i).
      destruct Hc as [(_ & Hl & -> & _)|(d & _ & _ & -> & -> & _)].
      * rewrite (leave_ok _ _ _ Hl). lia.
      * rewrite ctimes_create. lia.
  - apply nclaim_step in H as (_ & Hl & E & _). rewrite E. split; cbn; try apply HI.
    intros i. rewrite ctimes_insert. fold (nstaked_times s i).
    rewrite (leave_ok _ _ _ Hl). unfold times. rewrite lsum_map.
    pose proof (ni_held _ _ HI i).
    pose proof (lsum_filter_split (fun c => one (nc_id c =? i)%N) (nmature b) (nclaims_of (n_claims s) a)).
    change (nstaked_times {| n_dao := n_dao s; n_nft := n_nft s; n_dur := n_dur s; n_thr := n_thr s;
      n_staked := n_staked s; n_bals := n_bals s; n_total := n_total s;
      n_claims := <[a:=List.filter (fun c => negb (nmature b c)) (nclaims_of (n_claims s) a)]> (n_claims s);
      n_hooks := n_hooks s; n_held := n_held s' |} i) with (nstaked_times s i). lia.
  - apply nquiet_step in H as (_ & E1 & E2 & E3 & E4 & E5 & _); [|done].
    destruct HI. split; unfold ncount, ncount_all, nstaked_times in *; rewrite ?E1, ?E2, ?E3, ?E4, ?E5; done.
  - apply nquiet_step in H as (_ & E1 & E2 & E3 & E4 & E5 & _); [|done].
    destruct HI. split; unfold ncount, ncount_all, nstaked_times in *; rewrite ?E1, ?E2, ?E3, ?E4, ?E5; done.
  - apply nquiet_step in H as (_ & E1 & E2 & E3 & E4 & E5 & _); [|done].
    destruct HI. split; unfold ncount, ncount_all, nstaked_times in *; rewrite ?E1, ?E2, ?E3, ?E4, ?E5; done.
  - apply nquiet_step in H as (_ & E1 & E2 & E3 & E4 & E5 & _); [|done].
    destruct HI. split; unfold ncount, ncount_all, nstaked_times in *; rewrite ?E1, ?E2, ?E3, ?E4, ?E5; done.
  - apply ndeposit_step in H as (Hn & _ & Hh & E). rewrite E. clear E. split; cbn; try apply HI.
    intros i. pose proof (ni_held _ _ HI i). rewrite Hh. pose proof (one_pos (id =? i)%N).
    unfold nstaked_times in *. cbn. lia.
Qed.
Lemma nreached_inv b s l : nreached b s l -> ninv b s.
Proof.
  intros (b0 & dao & nft & src & d & thr & s0 & _ & _ & Hi & HL).
  eapply (leads_inv n_handle ninv ninv_call ninv_time); [|exact HL]. by eapply ninv_init.
Qed.
Lemma nreached_call b s l :
  nreached b s l -> forall pre b1 a m post subs, ECall pre b1 a m post subs ∈ l ->
  ninv b1 pre /\ n_handle pre b1 a m = Ok (post, subs) /\ block_le b1 b.
Proof.
  intros (b0 & dao & nft & src & d & thr & s0 & _ & _ & Hi & HL) pre b1 a m post subs Hin.
  destruct (leads_call n_handle ninv ninv_call ninv_time _ _ _ _ _ (ninv_init _ _ _ _ _ _ _ Hi) HL
              _ _ _ _ _ _ Hin) as (A & B & _ & C). done.
Qed.
Lemma nreached_app b s l b' s' l' :
  nreached b s l -> leads n_handle b s b' s' l' -> nreached b' s' (l ++ l').
Proof.
  intros (b0 & dao & nft & src & d & thr & s0 & A & B & C & HL) HL'.
  exists b0, dao, nft, src, d, thr, s0. repeat (split; [done|]). by eapply leads_app.
Qed.
Lemma nreached_later b s l b' : nreached b s l -> block_le b b' -> nreached b' s l.
Proof.
  intros (b0 & dao & nft & src & d & thr & s0 & A & B & C & HL) Hb.
  exists b0, dao, nft, src, d, thr, s0. repeat (split; [done|]). by eapply leads_later.
Qed.
(** What is reported for heights that have begun does not change. *)
Lemma nat_call b s a m s' subs h :
  n_handle s b a m = Ok (s', subs) -> h <= height b ->
  (forall a', smap_at (n_bals s') a' h = smap_at (n_bals s) a' h) /\
  snap_get_at (n_total s') h = snap_get_at (n_total s) h.
Proof.
  intros H Hle. destruct m as [from id|ids| |d|h'|h'|t sup|id].
  - apply nstake_step in H as (_ & _ & _ & _ & _ & -> & _). cbn.
    split; [intros; by apply smap_at_save|by apply snap_get_at_save].
  - apply nunstake_step in H as (_ & _ & _ & _ & -> & -> & _).
    split; [intros; by apply smap_at_save|by apply snap_get_at_save].
  - apply nclaim_step in H as (_ & _ & -> & _). done.
  - apply nquiet_step in H as (_ & _ & -> & -> & _); done.
  - apply nquiet_step in H as (_ & _ & -> & -> & _); done.
  - apply nquiet_step in H as (_ & _ & -> & -> & _); done.
  - apply nquiet_step in H as (_ & _ & -> & -> & _); done.
  - apply ndeposit_step in H as (_ & _ & _ & ->). done.
Qed.

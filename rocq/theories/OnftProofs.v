(** Invariants of dao-voting-onft-staked. *)
From Verif Require Import Base BaseProofs Exec ExecProofs Plain PlainProofs VotingModel HooksModel
  StoreModel StoreProofs LedgerProofs ActiveModel NftModel NftSpec NftProofs OnftModel OnftSpec.

(** ** Owners *)
Definition at_self (s : fstate) (id : N) : Z := one (bool_decide (f_owner s !! id = Some (f_self s))).
Definition own_self (self : addr) (own : gmap N addr) (id : N) : Z :=
  one (bool_decide (own !! id = Some self)).
Lemma send_ok self own l own' : f_send self own l = Ok own' ->
  (forall id, id ∉ map fst l -> own' !! id = own !! id) /\
  (forall id, id ∈ map fst l -> own !! id = Some self) /\
  (forall id, own_self self own' id <= own_self self own id) /\
  ((forall id to, (id, to) ∈ l -> to <> self) ->
   NoDup (map fst l) /\ forall id, own_self self own' id = own_self self own id - times (map fst l) id).
Proof.
  revert own. induction l as [|[i to] l IH]; intros own H; cbn in H.
  - injection H as <-. split; [done|]. split; [intros id Hid; by apply elem_of_nil in Hid|].
    split; [lia|]. intros _. split; [constructor|]. intros id. unfold times. cbn. lia.
  - destruct (bool_decide _) eqn:E; [|done]. apply bool_decide_eq_true in E.
    destruct (IH _ H) as (I1 & I2 & I3 & I4). cbn [map fst].
    assert (forall id, own_self self (<[i := to]> own) id =
      if decide (id = i) then one (bool_decide (Some to = Some self)) else own_self self own id) as Eo.
    { intros id. unfold own_self. destruct (decide (id = i)) as [->|].
      - by rewrite lookup_insert.
      - by rewrite lookup_insert_ne. }
    assert (own_self self own i = 1) as E1 by (unfold own_self; by rewrite E, bool_decide_eq_true_2).
    split; [|split; [|split]].
    + intros id [Hi Hl]%not_elem_of_cons. rewrite I1 by done. by rewrite lookup_insert_ne.
    + intros id [->|Hl]%elem_of_cons; [done|]. destruct (decide (id = i)) as [->|]; [done|].
      specialize (I2 id Hl). by rewrite lookup_insert_ne in I2.
    + intros id. specialize (I3 id). rewrite Eo in I3. destruct (decide (id = i)) as [->|]; [|done].
      pose proof (one_pos (bool_decide (Some to = Some self))). lia.
    + intros Hto. destruct I4 as [N4 I4]. { intros id t Hin. apply (Hto id). by right. }
      assert (to <> self) as Ht by (apply (Hto i); left).
      assert (i ∉ map fst l) as Hi.
      { intros Hi. specialize (I2 i Hi). rewrite lookup_insert in I2. congruence. }
      split; [by constructor|]. intros id. rewrite I4, Eo.
      change (times (i :: map fst l) id) with (one (i =? id)%N + times (map fst l) id).
      destruct (decide (id = i)) as [->|Hn].
      * rewrite N.eqb_refl, E1. rewrite bool_decide_eq_false_2 by congruence. cbn. lia.
      * replace (i =? id)%N with false by (symmetry; apply N.eqb_neq; congruence). cbn. lia.
Qed.
Lemma send_can self own l : NoDup (map fst l) -> (forall id, id ∈ map fst l -> own !! id = Some self) ->
  exists own', f_send self own l = Ok own'.
Proof.
  revert own. induction l as [|[i to] l IH]; intros own N H; cbn; [eauto|].
  cbn in N. apply NoDup_cons in N as [N1 N2]. rewrite bool_decide_eq_true_2 by (apply H; left).
  apply IH; [done|]. intros id Hid. rewrite lookup_insert_ne by (intros ->; done). apply H. by right.
Qed.

(** ** Stakes *)
Definition add_staked (m : gmap (addr * N) unit) (a : addr) (ids : list N) :=
  foldr (fun id m => <[(a, id) := tt]> m) m ids.
Lemma add_staked_lookup m a ids x id : add_staked m a ids !! (x, id) =
  if decide (x = a /\ id ∈ ids) then Some tt else m !! (x, id).
Proof.
  induction ids as [|i ids IH]; cbn.
  - rewrite decide_False; [done|]. intros [_ H]. by apply elem_of_nil in H.
  - destruct (decide (x = a /\ id = i)) as [[-> ->]|N].
    + rewrite lookup_insert, decide_True; [done|]. split; [done|left].
    + rewrite lookup_insert_ne by (intros [= -> ->]; by apply N). fold (add_staked m a ids). rewrite IH.
      destruct (decide (x = a /\ id ∈ ids)) as [[-> ?]|N2].
      * rewrite decide_True; [done|]. split; [done|by right].
      * rewrite decide_False; [done|]. intros [-> [->|?]%elem_of_cons]; naive_solver.
Qed.
Lemma add_staked_sum (f : addr * N -> Z) m a ids : NoDup ids -> (forall id, id ∈ ids -> m !! (a, id) = None) ->
  msum (fun k _ => f k) (add_staked m a ids) = msum (fun k _ => f k) m + lsum (fun i => f (a, i)) ids.
Proof.
  induction 1 as [|i ids Hi N IH]; intros H; cbn; [lia|]. fold (add_staked m a ids).
  rewrite msum_insert_new.
  - rewrite IH; [lia|]. intros id Hid. apply H. by right.
  - rewrite add_staked_lookup, decide_False by (intros [_ ?]; done). apply H. left.
Qed.
Lemma drop_lookup (p : gmap N addr) ids id :
  foldr (fun i p => delete i p) p ids !! id = if decide (id ∈ ids) then None else p !! id.
Proof.
  induction ids as [|i ids IH]; cbn; [by rewrite decide_False by apply not_elem_of_nil|].
  destruct (decide (id = i)) as [->|N].
  - rewrite lookup_delete, decide_True; [done|left].
  - rewrite lookup_delete_ne by done. rewrite IH. destruct (decide (id ∈ ids)).
    + rewrite decide_True; [done|by right].
    + rewrite decide_False; [done|]. by apply not_elem_of_cons.
Qed.
Lemma put_lookup (p : gmap N addr) a ids id :
  foldr (fun i p => <[i := a]> p) p ids !! id = if decide (id ∈ ids) then Some a else p !! id.
Proof.
  induction ids as [|i ids IH]; cbn; [by rewrite decide_False by apply not_elem_of_nil|].
  destruct (decide (id = i)) as [->|N].
  - rewrite lookup_insert, decide_True; [done|left].
  - rewrite lookup_insert_ne by done. rewrite IH. destruct (decide (id ∈ ids)).
    + rewrite decide_True; [done|by right].
    + rewrite decide_False; [done|]. by apply not_elem_of_cons.
Qed.
Lemma forallb_elem {A} (f : A -> bool) l : forallb f l = true <-> forall x, x ∈ l -> f x = true.
Proof. rewrite forallb_forall. by setoid_rewrite elem_of_list_In. Qed.

(** ** What a call does *)
Definition is_cancel (s : fstate) (a : addr) (ids : list N) (r : option addr) (l : list (N * addr)) : Prop :=
  (forall id, id ∈ ids -> is_Some (f_owner s !! id)) /\
  (forall id, id ∈ ids -> f_owner s !! id = Some (f_self s) -> id ∈ map fst l) /\
  (forall id to, (id, to) ∈ l -> id ∈ ids /\
     f_owner s !! id = Some (f_self s) /\
     (a = f_dao s /\ (r = Some to \/ r = None /\ f_prep s !! id = Some to) \/
      a <> f_dao s /\ f_prep s !! id = Some to /\ (to = a \/ a = f_self s))) /\
  (forall id, a <> f_dao s -> id ∈ ids -> f_owner s !! id = Some a \/ f_prep s !! id = Some a).
Lemma cancel_dao_list s ids r l : f_cancel_dao s ids r = Ok l -> is_cancel s (f_dao s) ids r l.
Proof.
  revert l. induction ids as [|i ids IH]; intros l H; cbn in H.
  - injection H as <-. split; [intros id Hid; by apply elem_of_nil in Hid|].
    split; [intros id Hid; by apply elem_of_nil in Hid|].
    split; [intros id to Hid; by apply elem_of_nil in Hid|]. done.
  - destruct (f_owner s !! i) as [o|] eqn:Eo; [|done].
    destruct (bool_decide (f_self s = o)) eqn:Eb;
      [apply bool_decide_eq_true in Eb as <-|apply bool_decide_eq_false in Eb as Ne].
    + destruct (match r with Some r0 => Some r0 | None => f_prep s !! i end) as [to|] eqn:Et; [|done].
      destruct (f_cancel_dao s ids r) as [l1|] eqn:El; [|done]. injection H as <-.
      destruct (IH _ eq_refl) as (A & B & C & D). split; [|split; [|split]].
      * intros id [->|Hid]%elem_of_cons; [by eexists|auto].
      * intros id [->|Hid]%elem_of_cons Hs; cbn; [left|right; auto].
      * intros id t Hin. apply elem_of_cons in Hin as [[= -> ->]|Hin].
        -- split; [left|]. split; [done|]. left. split; [done|]. destruct r; [left; congruence|right; done].
        -- destruct (C _ _ Hin) as (H1 & H2 & H3). split; [by right|done].
      * done.
    + destruct (IH _ H) as (A & B & C & D). split; [|split; [|split]].
      * intros id [->|Hid]%elem_of_cons; [by eexists|auto].
      * intros id [->|Hid]%elem_of_cons Hs; [congruence|auto].
      * intros id t Hin. destruct (C _ _ Hin) as (H1 & H2 & H3). split; [by right|done].
      * done.
Qed.
Lemma cancel_other_list s a ids r l : a <> f_dao s -> f_cancel_other s a ids = Ok l -> is_cancel s a ids r l.
Proof.
  intros Ha. revert l. induction ids as [|i ids IH]; intros l H; cbn in H.
  - injection H as <-. split; [intros id Hid; by apply elem_of_nil in Hid|].
    split; [intros id Hid; by apply elem_of_nil in Hid|].
    split; [intros id to Hid; by apply elem_of_nil in Hid|]. intros id _ Hid. by apply elem_of_nil in Hid.
  - destruct (f_owner s !! i) as [o|] eqn:Eo; [|done].
    destruct (bool_decide (a = o) || bool_decide (f_prep s !! i = Some a)) eqn:Ec; [|done]. cbn in H.
    apply orb_true_iff in Ec. rewrite !bool_decide_eq_true in Ec.
    destruct (bool_decide (f_self s = o)) eqn:Eb;
      [apply bool_decide_eq_true in Eb as <-|apply bool_decide_eq_false in Eb as Ne].
    + destruct (f_prep s !! i) as [to|] eqn:Et; [|done].
      destruct (f_cancel_other s a ids) as [l1|] eqn:El; [|done]. injection H as <-.
      destruct (IH _ eq_refl) as (A & B & C & D). split; [|split; [|split]].
      * intros id [->|Hid]%elem_of_cons; [by eexists|auto].
      * intros id [->|Hid]%elem_of_cons Hs; cbn; [left|right; auto].
      * intros id t Hin. apply elem_of_cons in Hin as [[= -> ->]|Hin].
        -- split; [left|]. split; [done|]. right. split; [done|]. split; [done|].
           destruct Ec as [->|[= ->]]; auto.
        -- destruct (C _ _ Hin) as (H1 & H2 & H3). split; [by right|done].
      * intros id _ [->|Hid]%elem_of_cons; [|auto]. rewrite Eo, Et. destruct Ec as [->|[= ->]]; auto.
    + destruct (IH _ H) as (A & B & C & D). split; [|split; [|split]].
      * intros id [->|Hid]%elem_of_cons; [by eexists|auto].
      * intros id [->|Hid]%elem_of_cons Hs; [congruence|auto].
      * intros id t Hin. destruct (C _ _ Hin) as (H1 & H2 & H3). split; [by right|done].
      * intros id _ [->|Hid]%elem_of_cons; [|auto]. rewrite Eo. destruct Ec as [->|Ec]; auto.
Qed.

Inductive fstep (s : fstate) (b : block) (a : addr) : fmsg -> fstate -> list fsub -> Prop :=
| Fs_prepare ids : (forall id, id ∈ ids -> f_owner s !! id = Some a) ->
    fstep s b a (FPrepare ids) (f_set_prep s (foldr (fun i p => <[i := a]> p) (f_prep s) ids)) []
| Fs_confirm ids0 : let ids := remove_dups ids0 in let n := Z.of_nat (length ids) in
    (forall id, id ∈ ids0 -> f_prep s !! id = Some a /\ f_owner s !! id = Some (f_self s)) ->
    smap_get (f_bals s) a + n <= U128_MAX -> snap_get (f_total s) + n <= U128_MAX ->
    fstep s b a (FConfirm ids0)
      (FState (f_self s) (f_dao s) (f_dur s) (f_thr s)
         (foldr (fun i p => delete i p) (f_prep s) ids) (add_staked (f_staked s) a ids)
         (smap_save (f_bals s) a (height b) (smap_get (f_bals s) a + n))
         (snap_save (f_total s) (height b) (snap_get (f_total s) + n))
         (f_claims s) (f_hooks s) (f_owner s))
      (flat_map (fun id => map (fun h => FStakeHook h a id) (f_hooks s)) ids)
| Fs_cancel ids r l own : is_cancel s a ids r l -> f_send (f_self s) (f_owner s) l = Ok own ->
    fstep s b a (FCancel ids r)
      (f_set_owner (f_set_prep s (foldr (fun i p => delete i p) (f_prep s) ids)) own) (f_pays l)
| Fs_unstake ids m own cs subs : let n := Z.of_nat (length ids) in
    ids <> [] -> remove_staked (f_staked s) a ids = Ok m ->
    0 < n <= smap_get (f_bals s) a -> n <= snap_get (f_total s) ->
    (f_dur s = None /\ f_send (f_self s) (f_owner s) (map (fun id => (id, a)) ids) = Ok own /\
       cs = f_claims s /\
       subs = f_pays (map (fun id => (id, a)) ids) ++ map (fun h => FUnstakeHook h a ids) (f_hooks s) \/
     exists d, f_dur s = Some d /\
       Z.of_nat (length (nclaims_of (f_claims s) a) + length ids) <= 70 /\ own = f_owner s /\
       cs = create_nft_claims (f_claims s) a ids (after d b) /\
       subs = map (fun h => FUnstakeHook h a ids) (f_hooks s)) ->
    fstep s b a (FUnstake ids)
      (FState (f_self s) (f_dao s) (f_dur s) (f_thr s) (f_prep s) m
         (smap_save (f_bals s) a (height b) (smap_get (f_bals s) a - n))
         (snap_save (f_total s) (height b) (snap_get (f_total s) - n)) cs (f_hooks s) own) subs
| Fs_claim own : let out := List.filter (nmature b) (nclaims_of (f_claims s) a) in
    out <> [] ->
    f_send (f_self s) (f_owner s) (map (fun id => (id, a)) (map nc_id out)) = Ok own ->
    fstep s b a FClaim
      (f_set_owner (f_set_claims s
        (<[a := List.filter (fun c => negb (nmature b c)) (nclaims_of (f_claims s) a)]> (f_claims s))) own)
      (f_pays (map (fun id => (id, a)) (map nc_id out)))
| Fs_settings m d t h :
    match m with FUpdateConfig _ | FAddHook _ | FRemoveHook _ | FUpdateThreshold _ _ => True | _ => False end ->
    a = f_dao s ->
    fstep s b a m (FState (f_self s) (f_dao s) d t (f_prep s) (f_staked s) (f_bals s) (f_total s)
      (f_claims s) h (f_owner s)) []
| Fs_chain m id own :
    match m with XMove i _ | XBurn i | XCreate i _ => i = id | _ => False end ->
    f_owner s !! id <> Some (f_self s) -> (forall i, i <> id -> own !! i = f_owner s !! i) ->
    fstep s b a m (f_set_owner s own) [].

Lemma f_handle_step s b a m s' subs : f_handle s b a m = Ok (s', subs) ->
  a <> f_self s /\ fstep s b a m s' subs.
Proof.
  unfold f_handle. destruct (N.eqb_spec a (f_self s)) as [|Ha]; [done|]. cbn [negb].
  intros H. split; [done|].
  destruct m as [ids|ids|ids r|ids| |d|h|h|t sup|id to|id|id to].
  - unfold f_prepare in H. destruct (forallb _ ids) eqn:E; [|done]. injection H as <- <-.
    rewrite forallb_elem in E. constructor. intros id Hid. apply E in Hid. by apply bool_decide_eq_true in Hid.
  - unfold f_confirm in H. cbn zeta in H. destruct (forallb _ (remove_dups ids)) eqn:E; [|done].
    rewrite forallb_elem in E.
    destruct (add128 (smap_get _ _) _) as [bal|] eqn:E1; [|done].
    destruct (add128 (snap_get _) _) as [tot|] eqn:E2; [|done]. injection H as <- <-.
    apply add128_ok in E1 as [-> ?], E2 as [-> ?]. apply (Fs_confirm s b a ids); [|done|done].
    intros id Hid. apply elem_of_remove_dups, E in Hid. apply andb_true_iff in Hid as [H1 H2].
    by apply bool_decide_eq_true in H1, H2.
  - unfold f_cancel in H. destruct (N.eqb_spec a (f_dao s)) as [->|Hd].
    + destruct (f_cancel_dao s ids r) as [l|] eqn:El; [|done].
      destruct (f_send _ _ l) as [own|] eqn:Es; [|done]. injection H as <- <-.
      econstructor; [by apply cancel_dao_list|done].
    + destruct (f_cancel_other s a ids) as [l|] eqn:El; [|done].
      destruct (f_send _ _ l) as [own|] eqn:Es; [|done]. injection H as <- <-.
      econstructor; [by apply cancel_other_list|done].
  - unfold f_unstake in H. destruct (length ids =? 0)%nat eqn:E0; [done|]. cbn [negb] in H.
    apply Nat.eqb_neq in E0. assert (ids <> []) as Hne by (by intros ->).
    destruct (remove_staked _ _ _) as [m|] eqn:Em; [|done].
    destruct (sub128 (snap_get _) _) as [tot|] eqn:E1; [|done].
    destruct (sn_cur _) as [cur|] eqn:Ec; [|done].
    destruct (sub128 cur _) as [bal|] eqn:E2; [|done].
    apply sub128_ok in E1 as [-> ?], E2 as [-> ?].
    assert (smap_get (f_bals s) a = cur) as Eb by (unfold smap_get; by rewrite Ec).
    destruct (f_dur s) as [d|] eqn:Ed.
    + destruct (_ <=? NFT_MAX_CLAIMS) eqn:El; [|done]. unfold NFT_MAX_CLAIMS in El.
      injection H as <- <-. rewrite <- Eb, <- Ed.
      apply (Fs_unstake s b a ids m); [done|done|lia|lia|]. right. exists d.
      repeat (split; [done || lia|]). done.
    + destruct (f_send _ _ _) as [own|] eqn:Es; [|done]. injection H as <- <-. rewrite <- Eb, <- Ed.
      apply (Fs_unstake s b a ids m); [done|done|lia|lia|]. left. done.
  - unfold f_claim, claim_nfts in H.
    set (out := List.filter (nmature b) (nclaims_of (f_claims s) a)) in H.
    destruct (length (map nc_id out) =? 0)%nat eqn:E0; [done|]. cbn [negb] in H.
    destruct (f_send _ _ _) as [own|] eqn:El; [|done]. injection H as <- <-.
    apply (Fs_claim s b a own); [|done]. fold out. intros Ho. by rewrite Ho in E0.
  - destruct (fits_dur d); [|done]. destruct (validate_duration d); [|done].
    unfold f_settings in H. destruct (N.eqb_spec a (f_dao s)); [|done]. injection H as <- <-. by constructor.
  - destruct (add_hook _ _); [|done].
    unfold f_settings in H. destruct (N.eqb_spec a (f_dao s)); [|done]. injection H as <- <-. by constructor.
  - destruct (remove_hook _ _); [|done].
    unfold f_settings in H. destruct (N.eqb_spec a (f_dao s)); [|done]. injection H as <- <-. by constructor.
  - destruct (fits_active t && fits128 sup); [|done]. destruct (validate_active t sup); [|done].
    unfold f_settings in H. destruct (N.eqb_spec a (f_dao s)); [|done]. injection H as <- <-. by constructor.
  - destruct (bool_decide _) eqn:E; [|done]. apply bool_decide_eq_true in E. injection H as <- <-.
    apply (Fs_chain s b a _ id); [done|congruence|]. intros i Hi. by rewrite lookup_insert_ne.
  - destruct (bool_decide _) eqn:E; [|done]. apply bool_decide_eq_true in E. injection H as <- <-.
    apply (Fs_chain s b a _ id); [done|congruence|]. intros i Hi. by rewrite lookup_delete_ne.
  - destruct (bool_decide _) eqn:E; [|done]. apply bool_decide_eq_true in E. injection H as <- <-.
    apply (Fs_chain s b a _ id); [done|congruence|]. intros i Hi. by rewrite lookup_insert_ne.
Qed.

(** ** Invariants *)
Definition linv (b : block) (s : fstate) : Prop := ledger (height b) (f_bals s) (f_total s).
Lemma linv_init b self dao d thr sup own s :
  f_instantiate b self dao d thr sup own = Ok s ->
  s = FState self dao d thr ∅ ∅ ∅ (snap_save snap_empty (height b) 0) ∅ [] own /\ linv b s.
Proof.
  unfold f_instantiate. intros H.
  assert (s = FState self dao d thr ∅ ∅ ∅ (snap_save snap_empty (height b) 0) ∅ [] own) as ->.
  { repeat (case_match; simplify_eq; try done). }
  split; [done|]. apply ledger_empty. by right.
Qed.
Lemma linv_time b b' s : linv b s -> block_le b b' -> linv b' s.
Proof. intros H [L _]. by eapply ledger_time. Qed.
Lemma linv_call b s a m s' subs : linv b s -> f_handle s b a m = Ok (s', subs) -> linv b s'.
Proof.
  intros HL H. apply f_handle_step in H as [_ H]. unfold linv in *.
  pose proof (lg_pos _ _ _ HL a). pose proof (ledger_le _ _ _ a HL). pose proof (lg_max _ _ _ HL).
  destruct H; try done; cbn.
  - apply ledger_save; [done|lia|lia|lia].
  - apply ledger_save; [done|lia|lia|lia].
Qed.

Record kinv (s : fstate) : Prop := KInv {
  ki_count : forall a, fcount s a = smap_get (f_bals s) a;
  ki_all : fcount_all s = snap_get (f_total s);
  ki_held : forall id, fstaked_times s id + ctimes (f_claims s) id <= at_self s id;
  ki_prep : forall id a, f_prep s !! id = Some a -> fstaked_times s id + ctimes (f_claims s) id = 0
}.
Lemma fstaked_pos s id : 0 <= fstaked_times s id.
Proof. apply msum_nonneg. intros. apply one_pos. Qed.
Lemma fstaked_in s a id : f_staked s !! (a, id) = Some tt -> 1 <= fstaked_times s id.
Proof.
  intros H. unfold fstaked_times.
  pose proof (msum_ge_one (fun (k : addr * N) _ => one (k.2 =? id)%N) (f_staked s) (a, id) tt) as HG.
  cbn in HG. rewrite N.eqb_refl in HG. cbn in HG. apply HG; [|done]. intros. apply one_pos.
Qed.
Lemma at_self_0 s id : f_owner s !! id <> Some (f_self s) -> at_self s id = 0.
Proof. intros H. unfold at_self. by rewrite bool_decide_eq_false_2. Qed.
Lemma at_self_1 s id : f_owner s !! id = Some (f_self s) -> at_self s id = 1.
Proof. intros H. unfold at_self. by rewrite bool_decide_eq_true_2. Qed.
Definition allowed (s : fstate) (a : addr) (m : fmsg) : Prop :=
  match m with
  | FCancel ids _ => a = f_dao s -> forall id, id ∈ ids -> fstaked_times s id = 0 /\ ctimes (f_claims s) id = 0
  | _ => True
  end.
Lemma kinv_call b s a m s' subs :
  kinv s -> linv b s -> f_handle s b a m = Ok (s', subs) -> allowed s a m -> kinv s'.
Proof.
  intros HI HL H Hal. apply f_handle_step in H as [Ha H]. destruct HI as [K1 K2 K3 K4].
  assert (forall id, 0 <= fstaked_times s id /\ 0 <= ctimes (f_claims s) id) as Hpos.
  { intros id. split; [apply fstaked_pos|apply ctimes_pos]. }
  destruct H as [ids Ho|ids0 ids n Hp H1 H2|ids r l own Hc Hs|ids m own cs subs n Hne Hr Hn Ht Hc
                |own out Hne Hs|m d t h Hm Hd|m id own Hm Hn Ho].
  - split; try done. intros id a'. cbn. rewrite put_lookup. destruct (decide (id ∈ ids)) as [Hin|]; [|by apply K4].
    intros _. specialize (K3 id). rewrite at_self_0 in K3 by (rewrite Ho by done; congruence).
    specialize (Hpos id). change (fstaked_times s id + ctimes (f_claims s) id = 0). lia.
  - assert (NoDup ids) as HN by apply NoDup_remove_dups.
    assert (forall id, id ∈ ids -> fstaked_times s id + ctimes (f_claims s) id = 0) as H0.
    { intros id Hid. apply (elem_of_remove_dups ids0) in Hid. destruct (Hp id Hid) as [Hq _]. exact (K4 id a Hq). }
    assert (forall id x, id ∈ ids -> f_staked s !! (x, id) = None) as Hns.
    { intros id x Hid. destruct (f_staked s !! (x, id)) as [[]|] eqn:E; [|done].
      apply fstaked_in in E. specialize (H0 id Hid). specialize (Hpos id). lia. }
    assert (forall f : addr * N -> Z, msum (fun k _ => f k) (add_staked (f_staked s) a ids) =
      msum (fun k _ => f k) (f_staked s) + lsum (fun i => f (a, i)) ids) as Hs
      by (intros f; apply add_staked_sum; auto).
    split.
    + intros x. unfold fcount. cbn. rewrite (Hs (fun k => one (k.1 =? x)%N)). fold (fcount s x).
      rewrite K1, smap_get_save. cbn. destruct (decide (x = a)) as [->|Hx].
      * rewrite N.eqb_refl. cbn. rewrite lsum_const1. unfold n. lia.
      * rewrite lsum_zero; [lia|]. intros _. destruct (a =? x)%N eqn:Ex; [apply N.eqb_eq in Ex; congruence|done].
    + unfold fcount_all. cbn [f_staked f_total]. rewrite (Hs (fun _ => 1)). fold (fcount_all s).
      rewrite K2, lsum_const1, snap_get_save. unfold n. lia.
    + intros id. unfold fstaked_times. cbn. rewrite (Hs (fun k => one (k.2 =? id)%N)).
      fold (fstaked_times s id). cbn. fold (times ids id).
      change (at_self _ id) with (at_self s id).
      destruct (decide (id ∈ ids)) as [Hid|Hid].
      * rewrite at_self_1 by (apply Hp; by apply (elem_of_remove_dups ids0)). specialize (H0 id Hid).
        pose proof (times_nodup ids id HN). lia.
      * rewrite times_out by done. specialize (K3 id). lia.
    + intros id x. cbn. rewrite drop_lookup. destruct (decide (id ∈ ids)) as [Hid|Hid]; [done|].
      intros Hx. unfold fstaked_times. cbn. rewrite (Hs (fun k => one (k.2 =? id)%N)).
      fold (fstaked_times s id). cbn. fold (times ids id). rewrite times_out by done.
      specialize (K4 id x Hx). lia.
  - destruct Hc as (C1 & C2 & C3 & C4). apply send_ok in Hs as (S1 & S2 & S3 & _).
    assert (forall id, id ∈ map fst l -> fstaked_times s id + ctimes (f_claims s) id = 0) as H0.
    { intros id Hid. apply elem_of_list_fmap in Hid as ([i to] & -> & Hin). cbn [fst].
      destruct (C3 _ _ Hin) as (Hi & _ & [(Hd & _)|(_ & Hp & _)]); [|by eapply K4].
      destruct (Hal Hd i Hi). lia. }
    split; try done.
    + intros id. change (fstaked_times s id + ctimes (f_claims s) id <= own_self (f_self s) own id).
      destruct (decide (id ∈ map fst l)) as [Hid|Hid].
      * rewrite H0 by done. apply one_pos.
      * unfold own_self. rewrite S1 by done. apply K3.
    + intros id x. cbn. rewrite drop_lookup. destruct (decide (id ∈ ids)); [done|]. apply K4.
  - apply remove_ok in Hr as (HN & Hin & _ & Hs). split.
    + intros x. unfold fcount. cbn. rewrite (Hs (fun k => one (k.1 =? x)%N)). fold (fcount s x).
      rewrite K1, smap_get_save. cbn. destruct (decide (x = a)) as [->|Hx].
      * rewrite N.eqb_refl. cbn. rewrite lsum_const1. unfold n. lia.
      * rewrite lsum_zero; [lia|]. intros _. destruct (a =? x)%N eqn:Ex; [apply N.eqb_eq in Ex; congruence|done].
    + unfold fcount_all. cbn [f_staked f_total]. rewrite (Hs (fun _ => 1)). fold (fcount_all s).
      rewrite K2, lsum_const1, snap_get_save. unfold n. lia.
    + intros id. unfold fstaked_times. cbn. rewrite (Hs (fun k => one (k.2 =? id)%N)).
      fold (fstaked_times s id). cbn. fold (times ids id). specialize (K3 id).
      destruct Hc as [(_ & Hl & -> & _)|(d & _ & _ & -> & -> & _)].
      * apply send_ok in Hl as (_ & _ & _ & S4). destruct S4 as [_ S4].
        { intros i to Hi. apply elem_of_list_fmap in Hi as (? & [= -> ->] & _). done. }
        rewrite map_map in S4. cbn in S4. rewrite map_id in S4.
        change (fstaked_times s id - times ids id + ctimes (f_claims s) id <= own_self (f_self s) own id).
        rewrite S4. unfold at_self in K3. unfold own_self. lia.
      * rewrite ctimes_create. change (at_self _ id) with (at_self s id). lia.
    + intros id x Hx. cbn in Hx. specialize (K4 id x Hx). unfold fstaked_times. cbn.
      rewrite (Hs (fun k => one (k.2 =? id)%N)). fold (fstaked_times s id). cbn. fold (times ids id).
      assert (id ∉ ids) as Hid.
      { intros Hid. specialize (Hin id Hid). apply fstaked_in in Hin. specialize (Hpos id). lia. }
      rewrite times_out by done.
      destruct Hc as [(_ & Hl & -> & _)|(d & _ & _ & -> & -> & _)]; [lia|].
      rewrite ctimes_create, times_out by done. lia.
  - apply send_ok in Hs as (_ & _ & _ & S4). destruct S4 as [_ S4].
    { intros i to Hi. apply elem_of_list_fmap in Hi as (? & [= -> ->] & _). done. }
    rewrite (map_map (fun id => (id, a)) fst) in S4. cbn in S4. rewrite map_id in S4.
    assert (forall i, ctimes (<[a := List.filter (fun c => negb (nmature b c)) (nclaims_of (f_claims s) a)]>
      (f_claims s)) i = ctimes (f_claims s) i - times (map nc_id out) i) as Ec.
    { intros i. rewrite ctimes_insert. unfold times. rewrite lsum_map.
      pose proof (lsum_filter_split (fun c => one (nc_id c =? i)%N) (nmature b) (nclaims_of (f_claims s) a)).
      unfold out. lia. }
    split; try done.
    + intros id. cbn [f_claims f_set_owner f_set_claims]. rewrite Ec.
      change (fstaked_times s id + (ctimes (f_claims s) id - times (map nc_id out) id) <= own_self (f_self s) own id).
      rewrite S4. specialize (K3 id). unfold at_self in K3. unfold own_self. lia.
    + intros id x Hx. cbn [f_claims f_set_owner f_set_claims]. rewrite Ec. specialize (K4 id x Hx).
      pose proof (times_pos (map nc_id out) id) as Ht.
      pose proof (ctimes_pos (<[a := List.filter (fun c => negb (nmature b c)) (nclaims_of (f_claims s) a)]>
        (f_claims s)) id) as Hp. rewrite Ec in Hp.
      change (fstaked_times s id + (ctimes (f_claims s) id - times (map nc_id out) id) = 0).
      specialize (Hpos id). lia.
  - by split.
  - split; try done. intros i. destruct (decide (i = id)) as [->|Hi].
    + specialize (K3 id). rewrite at_self_0 in K3 by done.
      change (fstaked_times s id + ctimes (f_claims s) id <= own_self (f_self s) own id).
      pose proof (one_pos (bool_decide (own !! id = Some (f_self s)))). unfold own_self. lia.
    + change (fstaked_times s i + ctimes (f_claims s) i <= own_self (f_self s) own i).
      unfold own_self. rewrite Ho by done. apply K3.
Qed.
Lemma kinv_init b self dao d thr sup own s :
  f_instantiate b self dao d thr sup own = Ok s -> kinv s.
Proof.
  intros H. apply linv_init in H as [-> _]. split; cbn.
  - intros a. unfold fcount. cbn. by rewrite msum_empty.
  - unfold fcount_all. cbn. by rewrite msum_empty.
  - intros id. unfold fstaked_times, ctimes. cbn. rewrite !msum_empty. apply one_pos.
  - done.
Qed.

(** ** Histories *)
Lemma kept_app l l' : kept (l ++ l') -> kept l.
Proof. intros H pre b a ids r post subs id Hin. apply (H pre b a ids r post subs id). apply elem_of_app. by left. Qed.
Lemma kept_last l pre b a m post subs : kept (l ++ [ECall pre b a m post subs]) -> allowed pre a m.
Proof.
  intros H. destruct m; try done. intros Hd id Hid.
  apply (H pre b a ids recipient post subs id); [|done|done]. apply elem_of_app. right. left.
Qed.
Lemma freached_linv b s l : freached b s l -> linv b s.
Proof.
  intros (b0 & self & dao & d & thr & sup & own & s0 & _ & _ & Hi & HL).
  eapply (leads_inv f_handle linv linv_call linv_time); [|exact HL]. by eapply linv_init.
Qed.
(** Induction over kept histories. *)
Lemma freached_ind (P : fstate -> flog -> Prop) b s l :
  (forall b0 self dao d thr sup own s0,
     f_instantiate b0 self dao d thr sup own = Ok s0 -> P s0 []) ->
  (forall b s l a m s' subs, linv b s -> kinv s -> f_handle s b a m = Ok (s', subs) -> allowed s a m ->
     P s l -> P s' (l ++ [ECall s b a m s' subs])) ->
  (forall s l x, P s l -> (forall pre b a m post subs, x <> ECall pre b a m post subs) -> P s (l ++ [x])) ->
  freached b s l -> kept l -> kinv s /\ P s l.
Proof.
  intros H0 H1 H2 (b0 & self & dao & d & thr & sup & own & s0 & _ & _ & Hi & HL) K.
  enough (linv b s /\ (kept l -> kinv s /\ P s l)) by tauto. clear K. revert HL.
  apply (leads_ind f_handle (fun b s l => linv b s /\ (kept l -> kinv s /\ P s l))).
  - intros b1 s1 l1 a m s' subs [I IH] H. split; [by eapply linv_call|]. intros K.
    destruct (IH (kept_app _ _ K)) as [I1 I2]. pose proof (kept_last _ _ _ _ _ _ _ K) as A.
    split; [by eapply kinv_call|]. by apply (H1 b1).
  - intros b1 s1 l1 x [I IH]. split; [done|]. intros K. destruct (IH (kept_app _ _ K)) as [I1 I2].
    split; [done|]. apply H2; done.
  - intros b1 b2 s1 l1 [I IH] L. split; [by eapply linv_time|done].
  - split; [by eapply linv_init|]. intros _. split; [by eapply kinv_init|by eapply H0].
Qed.
Lemma freached_kinv b s l : freached b s l -> kept l -> kinv s.
Proof.
  intros R K. by destruct (freached_ind (fun _ _ => True) b s l) as [H _].
Qed.
Lemma freached_call b s l pre b1 a m post subs :
  freached b s l -> ECall pre b1 a m post subs ∈ l ->
  linv b1 pre /\ f_handle pre b1 a m = Ok (post, subs).
Proof.
  intros (b0 & self & dao & d & thr & sup & own & s0 & _ & _ & Hi & HL) Hin.
  destruct (leads_call f_handle linv linv_call linv_time _ _ _ _ _ (proj2 (linv_init _ _ _ _ _ _ _ _ Hi)) HL
              _ _ _ _ _ _ Hin) as (A & B & _). done.
Qed.

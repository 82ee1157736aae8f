(** The set-up of dao-voting-token-staked with a token of its own: proofs. *)
From Verif Require Import Base BaseProofs Exec ExecProofs Plain PlainProofs StoreModel StoreProofs
  ActiveModel TokModel IssuerModel IssuerSpec TokNewModel TokNewSpec.

Definition base (self : addr) (o : own) (denom : N) (mt bal : gmap addr Z) : istate :=
  IState self o denom false None false ∅ ∅ mt ∅ bal self None.
Lemma new_base self sender denom : i_new self sender denom = base self (initialize_owner (Some sender)) denom ∅ ∅.
Proof. done. Qed.

Lemma run_app i b a l l' :
  i_run i b a (l ++ l') = do! i' <- i_run i b a l; i_run i' b a l'.
Proof.
  revert i. induction l as [|m l IH]; intros i; cbn; [done|].
  destruct (i_handle i b a m) as [[i' subs]|]; [|done]. apply IH.
Qed.
Lemma allowance_put m a n u :
  allowance (put m a n) u = if decide (u = a) then n else allowance m u.
Proof.
  unfold allowance, put. destruct (n =? 0) eqn:E; destruct (decide (u = a)) as [->|Hn].
  - rewrite lookup_delete. cbn. lia.
  - by rewrite lookup_delete_ne.
  - by rewrite lookup_insert.
  - by rewrite lookup_insert_ne.
Qed.
(** The bank's book after a mint for [to]. *)
Definition booked (self to : addr) (n : Z) (bal : gmap addr Z) : gmap addr Z :=
  let m1 := <[self := default 0 (bal !! self) + n]> bal in
  let m2 := <[self := default 0 (m1 !! self) - n]> m1 in
  <[to := default 0 (m2 !! to) + n]> m2.
Lemma booked_at self to n bal a :
  default 0 (booked self to n bal !! a) = default 0 (bal !! a) + if decide (to = a) then n else 0.
Proof.
  unfold booked. destruct (decide (to = a)) as [->|Hn].
  - rewrite lookup_insert. cbn. destruct (decide (a = self)) as [->|Hs].
    + rewrite lookup_insert. cbn. rewrite lookup_insert. cbn. lia.
    + rewrite !lookup_insert_ne by done. done.
  - rewrite lookup_insert_ne by done. destruct (decide (a = self)) as [->|Hs].
    + rewrite lookup_insert. cbn. rewrite lookup_insert. cbn. lia.
    + rewrite !lookup_insert_ne by done. lia.
Qed.
Lemma booked_sum self to n bal :
  msum (fun _ x => x) (booked self to n bal) = msum (fun _ x => x) bal + n.
Proof.
  unfold booked. rewrite !msum_insert, !lookup_insert. cbn.
  destruct (decide (to = self)) as [->|Hn].
  - rewrite !lookup_insert. cbn. destruct (bal !! self); cbn; lia.
  - rewrite !lookup_insert_ne by done. destruct (bal !! self), (bal !! to); cbn; lia.
Qed.

(** Mints from the allowance of the module. *)
Lemma mint_one self o denom mt bal b module to n :
  0 <= default 0 (bal !! self) ->
  i_handle (base self o denom mt bal) b module (IMint to n) =
    if negb (fits128 n) then Err "parse" else if n =? 0 then Err "ZeroAmount"
    else if n <=? allowance mt module then
      Ok (base self o denom (put mt module (allowance mt module - n)) (booked self to n bal), [SMint n; SSend to n])
    else Err "NotEnoughMintAllowance".
Proof.
  intros Hb. cbn [i_handle base i_mint]. destruct (fits128 n) eqn:Ef; [|done]. cbn [negb].
  assert (0 <= n) as Hn by (unfold fits128 in Ef; lia).
  destruct (n =? 0); [done|]. cbn [negb]. destruct (n <=? allowance mt module); [|done]. cbn zeta.
  unfold not_frozen, tf_mint. cbn [set_mint i_frozen base andb i_admin i_self]. rewrite N.eqb_refl.
  unfold bank_send, move, i_bal_of. cbn [set_bal set_mint base i_bhook i_bal i_self i_own i_denom i_feat i_hook i_frozen i_allow i_deny i_mint i_burn i_admin].
  rewrite lookup_insert. cbn [default from_option id].
  replace (n <=? _) with true by lia. unfold booked. rewrite lookup_insert. done.
Qed.
Definition fine (l : list (addr * Z)) : Prop := forall x, x ∈ l -> 0 < x.2 <= U128_MAX.
Lemma fine_cons x l : fine (x :: l) <-> 0 < x.2 <= U128_MAX /\ fine l.
Proof.
  split.
  - intros H. split; [apply H, elem_of_list_here|]. intros y Hy. by apply H, elem_of_list_further.
  - intros [H1 H2] y [->|Hy]%elem_of_cons; auto.
Qed.
Lemma fine_sum l : fine l -> 0 <= lsum snd l.
Proof. intros H. apply lsum_nonneg. intros x Hx. specialize (H x Hx). lia. Qed.
Lemma run_mints self o denom b module l : forall mt bal,
  (forall a, 0 <= default 0 (bal !! a)) -> fine l -> lsum snd l <= allowance mt module ->
  exists mt' bal',
    i_run (base self o denom mt bal) b module (map (fun x => IMint x.1 x.2) l) = Ok (base self o denom mt' bal') /\
    (forall a, allowance mt' a = allowance mt a - if decide (a = module) then lsum snd l else 0) /\
    (forall a, default 0 (bal' !! a) = default 0 (bal !! a) + listed l a) /\
    msum (fun _ x => x) bal' = msum (fun _ x => x) bal + lsum snd l.
Proof.
  induction l as [|[to n] l IH]; intros mt bal Hb Hl Hs; cbn [map i_run lsum snd fst] in *.
  - exists mt, bal. split; [done|]. split; [intros a; destruct (decide _); lia|].
    split; [intros a; unfold listed; cbn; lia|lia].
  - apply fine_cons in Hl as [Hn Hl]. cbn [snd] in Hn. pose proof (fine_sum l Hl).
    rewrite mint_one by done. replace (fits128 n) with true by (unfold fits128; lia). cbn [negb].
    replace (n =? 0) with false by lia. replace (n <=? allowance mt module) with true by lia.
    edestruct (IH (put mt module (allowance mt module - n)) (booked self to n bal)) as (mt' & bal' & E & A & B & C).
    + intros a. rewrite booked_at. specialize (Hb a). destruct (decide _); lia.
    + done.
    + rewrite allowance_put, decide_True by done. lia.
    + exists mt', bal'. split; [exact E|]. split; [|split].
      * intros a. rewrite A, allowance_put. destruct (decide (a = module)) as [->|]; lia.
      * intros a. rewrite B, booked_at. unfold listed. cbn [lsum fst snd]. lia.
      * rewrite C, booked_sum. lia.
Qed.
Lemma run_mints_inv self o denom b module l : forall mt bal i',
  (forall a, 0 <= default 0 (bal !! a)) ->
  i_run (base self o denom mt bal) b module (map (fun x => IMint x.1 x.2) l) = Ok i' -> fine l.
Proof.
  induction l as [|[to n] l IH]; intros mt bal i' Hb H; cbn [map i_run] in *.
  - intros x Hx. by apply elem_of_nil in Hx.
  - cbn [fst snd] in H. rewrite mint_one in H by done. destruct (fits128 n) eqn:Ef; [|done]. cbn [negb] in H.
    destruct (n =? 0) eqn:E0; [done|]. destruct (n <=? _); [|done].
    apply fine_cons. cbn [snd]. unfold fits128 in Ef. split; [lia|]. eapply IH; [|exact H].
    intros a. rewrite booked_at. specialize (Hb a). destruct (decide _); lia.
Qed.

Lemma sum128_goes l acc : 0 <= acc -> fine l -> acc + lsum snd l <= U128_MAX -> sum128 l acc = Ok (acc + lsum snd l).
Proof.
  revert acc. induction l as [|x l IH]; intros acc Ha Hl Hs; cbn [sum128 lsum] in *; [by rewrite Z.add_0_r|].
  apply fine_cons in Hl as [Hx Hl]. pose proof (fine_sum l Hl). unfold add128.
  replace (U128_MAX <? acc + x.2) with false by lia. rewrite IH by (done || lia). f_equal. lia.
Qed.
Lemma sum128_ok l acc n : sum128 l acc = Ok n -> n = acc + lsum snd l.
Proof.
  revert acc. induction l as [|x l IH]; intros acc; cbn [sum128 lsum]; [intros [= <-]; lia|].
  destruct (add128 acc x.2) as [y|] eqn:E; [|done]. apply add128_ok in E as [-> _]. intros H. apply IH in H. lia.
Qed.

(** The messages of the set-up. *)
Definition dao_mint (dao : addr) (nt : new_token) : list (addr * Z) :=
  match nt_dao nt with Some n => if negb (n =? 0) then [(dao, n)] else [] | None => [] end.
Lemma msgs_eq module dao nt total :
  setup_msgs module dao nt total =
  [ISetMinter module total] ++ (if nt_meta nt then [IMetadata] else []) ++
  map (fun x => IMint x.1 x.2) (nt_bals nt ++ dao_mint dao nt) ++ [IOwn (OTransfer dao None)].
Proof.
  unfold setup_msgs, dao_mint. rewrite map_app, <-app_assoc. do 3 f_equal.
  destruct (nt_dao nt) as [n|]; [|done]. by destruct (n =? 0).
Qed.
Lemma dao_sum dao nt : lsum snd (dao_mint dao nt) = default 0 (nt_dao nt).
Proof. unfold dao_mint. destruct (nt_dao nt) as [n|]; [|done]. destruct (n =? 0) eqn:E; cbn; lia. Qed.
Lemma dao_listed dao nt a : listed (dao_mint dao nt) a = if decide (a = dao) then default 0 (nt_dao nt) else 0.
Proof.
  unfold dao_mint, listed. destruct (nt_dao nt) as [n|]; cbn; [|by destruct (decide _)].
  destruct (n =? 0) eqn:E; cbn.
  - destruct (decide _); lia.
  - destruct (decide (dao = a)), (decide (a = dao)); subst; try done; lia.
Qed.
Lemma listed_app l l' a : listed (l ++ l') a = listed l a + listed l' a.
Proof. unfold listed. apply lsum_app. Qed.
Lemma meta_run self o denom mt bal b module (x : bool) :
  o_owner o = Some module ->
  i_run (base self o denom mt bal) b module (if x then [IMetadata] else []) = Ok (base self o denom mt bal).
Proof.
  intros Ho. destruct x; [|done]. cbn. unfold is_owner. rewrite Ho, !N.eqb_refl. done.
Qed.
Lemma run_setup issuer module denom b dao nt total :
  0 <= total <= U128_MAX -> fine (nt_bals nt ++ dao_mint dao nt) ->
  total = lsum snd (nt_bals nt) + default 0 (nt_dao nt) ->
  exists mt bal,
    i_run (i_new issuer module denom) b module (setup_msgs module dao nt total) =
      Ok (base issuer (Own (Some module) (Some dao) None) denom mt bal) /\
    (forall a, allowance mt a = 0) /\ (forall a, default 0 (bal !! a) = due_to dao nt a) /\
    msum (fun _ x => x) bal = total.
Proof.
  intros Hb Hf Ht. rewrite msgs_eq, new_base, !run_app.
  assert (i_run (base issuer (initialize_owner (Some module)) denom ∅ ∅) b module [ISetMinter module total] =
    Ok (base issuer (initialize_owner (Some module)) denom (put ∅ module total) ∅)) as ->.
  { cbn. replace (fits128 total) with true by (unfold fits128; lia). unfold is_owner. cbn. by rewrite N.eqb_refl. }
  rewrite run_app, meta_run by done. rewrite run_app.
  destruct (run_mints issuer (initialize_owner (Some module)) denom b module (nt_bals nt ++ dao_mint dao nt)
    (put ∅ module total) ∅) as (mt & bal & E & A & B & C).
  - intros a. by rewrite lookup_empty.
  - done.
  - rewrite allowance_put, decide_True, lsum_app, dao_sum by done. lia.
  - rewrite E. exists mt, bal. split; [|split; [|split]].
    + cbn. unfold is_owner. cbn. by rewrite N.eqb_refl.
    + intros a. rewrite A, allowance_put. destruct (decide (a = module)) as [->|].
      * rewrite lsum_app, dao_sum. lia.
      * unfold allowance. by rewrite lookup_empty.
    + intros a. rewrite B, lookup_empty, listed_app, dao_listed. cbn. unfold due_to. lia.
    + rewrite C, lsum_app, dao_sum. rewrite msum_empty. lia.
Qed.
Lemma run_setup_inv issuer module denom b dao nt total i :
  i_run (i_new issuer module denom) b module (setup_msgs module dao nt total) = Ok i ->
  fine (nt_bals nt ++ dao_mint dao nt).
Proof.
  rewrite msgs_eq, new_base, !run_app.
  destruct (i_run (base issuer (initialize_owner (Some module)) denom ∅ ∅) b module [ISetMinter module total]) as [i1|] eqn:E1; [|done].
  assert (i1 = base issuer (initialize_owner (Some module)) denom (put ∅ module total) ∅) as ->.
  { cbn in E1. destruct (fits128 total); [|done]. unfold is_owner in E1. cbn in E1. rewrite N.eqb_refl in E1. by injection E1 as <-. }
  rewrite run_app, meta_run by done. rewrite run_app.
  destruct (i_run _ b module (map _ _)) as [i2|] eqn:E2; [|done]. intros _.
  eapply run_mints_inv; [|exact E2]. intros a. by rewrite lookup_empty.
Qed.
Lemma accept_run issuer module dao denom mt bal b :
  i_run (base issuer (Own (Some module) (Some dao) None) denom mt bal) b dao [IOwn OAccept] =
  Ok (base issuer (Own (Some dao) None None) denom mt bal).
Proof. cbn. by rewrite N.eqb_refl. Qed.

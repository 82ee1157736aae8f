(** Proofs of the statements in TokNewProps.v. *)
From Verif Require Import Base BaseProofs Exec ExecProofs Plain PlainProofs StoreModel StoreProofs StakeProofs
  ActiveModel VotingModel TokModel IssuerModel IssuerSpec TokNewModel TokNewSpec TokNewProofs.

Lemma lsum_ge_one {A} (f : A -> Z) l x : (forall y, y ∈ l -> 0 <= f y) -> x ∈ l -> f x <= lsum f l.
Proof.
  intros H Hx. apply elem_of_list_split in Hx as (l1 & l2 & ->). rewrite lsum_app. cbn.
  assert (0 <= lsum f l1) by (apply lsum_nonneg; intros y Hy; apply H, elem_of_app; auto).
  assert (0 <= lsum f l2); [|unfold lsum in *; cbn in *; lia].
  apply lsum_nonneg; intros y Hy; apply H, elem_of_app; right; by apply elem_of_list_further.
Qed.
Lemma sum_fine l n : forallb (fun x : addr * Z => fits128 x.2) l = true ->
  sum128 l 0 = Ok n -> n = lsum snd l /\ 0 <= n.
Proof.
  intros Hf H. apply sum128_ok in H as ->. split; [lia|]. rewrite Z.add_0_l. apply lsum_nonneg.
  intros x Hx. apply elem_of_list_In in Hx. rewrite forallb_forall in Hf. specialize (Hf x Hx).
  apply fits128_ok in Hf. lia.
Qed.
Lemma setup_inv created b dao module issuer denom d thr nt t i :
  new_setup created b dao module issuer denom d thr nt = Ok (t, i) ->
  possible d thr nt /\
  t = TState dao denom d thr ∅ snap_empty ∅ [] 0 /\
  exists mt bal,
    i = base issuer (if created then Own (Some dao) None None else Own (Some module) (Some dao) None) denom mt bal /\
    (forall a, allowance mt a = 0) /\ (forall a, default 0 (bal !! a) = due_to dao nt a) /\
    msum (fun _ x => x) bal = lsum snd (nt_bals nt) + default 0 (nt_dao nt).
Proof.
  unfold new_setup. destruct (fits_dur d && _ && _ && _) eqn:Ep; [|done].
  apply andb_true_iff in Ep as [Ep Ep4]. apply andb_true_iff in Ep as [Ep Ep3]. apply andb_true_iff in Ep as [Ep1 Ep2].
  destruct (sum128 _ _) as [n|] eqn:Es; [|done]. destruct (sum_fine _ _ Ep3 Es) as [-> Hn].
  destruct (add128 _ _) as [total|] eqn:Et; [|done]. apply add128_ok in Et as [-> Hmax].
  destruct (t_instantiate _ _ _ _ _) as [t0|] eqn:Eti; [|done].
  destruct (i_run (i_new _ _ _) _ _ _) as [i0|] eqn:Ei; [|done].
  pose proof (run_setup_inv _ _ _ _ _ _ _ _ Ei) as Hf.
  assert (0 <= default 0 (nt_dao nt)) as Hd.
  { destruct (nt_dao nt); [|done]. cbn. apply fits128_ok in Ep4. lia. }
  destruct (run_setup issuer module denom b dao nt (lsum snd (nt_bals nt) + default 0 (nt_dao nt))) as (mt & bal & E & A & B & C);
    [lia|done|done|]. rewrite E in Ei. injection Ei as <-.
  unfold t_instantiate in Eti. destruct (validate_duration d) as [[]|] eqn:Ed; [|done].
  destruct (validate_active thr _) as [[]|] eqn:Ea; [|done]. destruct (lsum snd (nt_bals nt) =? 0) eqn:E0; [done|].
  cbn [negb] in Eti. injection Eti as <-. intros H.
  assert (possible d thr nt) as HP.
  { split; [|split; [|split; [|split; [|split]]]].
    - destruct d as [[k|k]|]; cbn in *; [| |done]; destruct (k =? 0) eqn:Ek; try done; lia.
    - intros En. rewrite En in E0. done.
    - intros x Hx. apply Hf. apply elem_of_app. by left.
    - done.
    - lia.
    - destruct thr as [[k|k]|]; cbn in *; [| |done].
      + apply fits128_ok in Ep2. unfold assert_valid_absolute_count in Ea. destruct (k =? 0) eqn:Ek; [done|].
        cbn in Ea. destruct (k <=? _) eqn:Ek2; [|done]. lia.
      + apply fits128_ok in Ep2. unfold assert_valid_percentage in Ea. destruct (k =? 0) eqn:Ek; [done|].
        cbn in Ea. destruct (k <=? DEC_ONE) eqn:Ek2; [|done]. unfold DEC_ONE in *. lia. }
  split; [done|]. destruct created.
  - rewrite accept_run in H. injection H as <- <-. split; [done|]. exists mt, bal. done.
  - cbn in H. injection H as <- <-. split; [done|]. exists mt, bal. done.
Qed.
(** *** C116: what is set up *)
Lemma c116_setup created b dao module issuer denom d thr nt t i :
  new_setup created b dao module issuer denom d thr nt = Ok (t, i) ->
  t_dao t = dao /\ t_denom t = denom /\ i_denom i = denom /\ t_dur t = d /\ t_thr t = thr /\ i_self i = issuer /\
  (forall a, i_bal_of i a = due_to dao nt a) /\
  supply i = lsum snd (nt_bals nt) + default 0 (nt_dao nt) /\ 0 < lsum snd (nt_bals nt) /\
  untouched i.
Proof.
  intros H. apply setup_inv in H as (HP & -> & mt & bal & -> & A & B & C).
  do 6 (split; [done|]). split; [exact B|]. split; [exact C|]. split.
  - destruct HP as (_ & Hne & Hpos & _). destruct (nt_bals nt) as [|x l]; [done|]. cbn.
    assert (0 < x.2) by apply Hpos, elem_of_list_here.
    assert (0 <= lsum snd l); [|lia]. apply lsum_nonneg. intros y Hy.
    assert (0 < y.2) by by apply Hpos, elem_of_list_further. lia.
  - split; [exact A|]. split; [intros a; unfold allowance; cbn; by rewrite lookup_empty|]. done.
Qed.
(** *** C116: who owns the issuer *)
Lemma c116_owner b dao module issuer denom d thr nt t i :
  new_setup true b dao module issuer denom d thr nt = Ok (t, i) ->
  i_own i = Own (Some dao) None None.
Proof. intros H. by apply setup_inv in H as (_ & _ & mt & bal & -> & _). Qed.
Lemma c116_pending b dao module issuer denom d thr nt t i b' a :
  new_setup false b dao module issuer denom d thr nt = Ok (t, i) ->
  o_owner (i_own i) = Some module /\
  i_handle i b' a (IOwn OAccept) =
    if (dao =? a)%N then Ok (set_own i (Own (Some dao) None None), []) else Err "NotPendingOwner".
Proof.
  intros H. apply setup_inv in H as (_ & _ & mt & bal & -> & _). split; [done|].
  cbn. by destruct (dao =? a)%N.
Qed.
(** *** C116: when *)
Lemma c116_iff created b dao module issuer denom d thr nt :
  is_ok (new_setup created b dao module issuer denom d thr nt) = true <-> possible d thr nt.
Proof.
  split.
  { destruct (new_setup _ _ _ _ _ _ _ _ _) as [[t i]|] eqn:E; [|done]. intros _. by apply setup_inv in E as [? _]. }
  intros (P1 & P2 & P3 & P4 & P5 & P6). unfold new_setup.
  assert (0 <= lsum snd (nt_bals nt)) as Hs0.
  { apply lsum_nonneg. intros x Hx. specialize (P3 x Hx). lia. }
  assert (forall x, x ∈ nt_bals nt -> x.2 <= lsum snd (nt_bals nt)) as Hle.
  { intros x Hx. apply lsum_ge_one; [|done]. intros y Hy. specialize (P3 y Hy). lia. }
  assert (fine (nt_bals nt)) as Hf.
  { intros x Hx. specialize (P3 x Hx). specialize (Hle x Hx). lia. }
  assert (fine (nt_bals nt ++ dao_mint dao nt)) as Hf2.
  { intros x [Hx|Hx]%elem_of_app; [by apply Hf|]. unfold dao_mint in Hx. destruct (nt_dao nt) as [n|]; [|by apply elem_of_nil in Hx].
    cbn in *. destruct (n =? 0) eqn:En; [by apply elem_of_nil in Hx|]. apply elem_of_list_singleton in Hx as ->. cbn. lia. }
  assert (0 < lsum snd (nt_bals nt)) as Hpos.
  { destruct (nt_bals nt) as [|x l]; [done|]. specialize (P3 x ltac:(apply elem_of_list_here)).
    specialize (Hle x ltac:(apply elem_of_list_here)). lia. }
  assert (fits_dur d && fits_active thr && forallb (fun x => fits128 x.2) (nt_bals nt) &&
    match nt_dao nt with Some n => fits128 n | None => true end = true) as ->.
  { rewrite !andb_true_iff. split; [split; [split|]|].
    - destruct d as [[k|k]|]; cbn in *; [lia|lia|done].
    - destruct thr as [[k|k]|]; cbn in *; [| |done]; unfold fits128; [lia|].
      assert (10 ^ 18 <= U128_MAX) by (vm_compute; discriminate). lia.
    - apply forallb_forall. intros x Hx. apply elem_of_list_In in Hx. specialize (Hf x Hx). unfold fits128. lia.
    - destruct (nt_dao nt); [|done]. cbn in *. unfold fits128. lia. }
  rewrite sum128_goes by (done || lia). rewrite Z.add_0_l. unfold add128 at 1.
  replace (U128_MAX <? _) with false by lia.
  assert (t_instantiate dao denom (CreatedToken (lsum snd (nt_bals nt))) d thr =
    Ok (TState dao denom d thr ∅ snap_empty ∅ [] 0)) as ->.
  { unfold t_instantiate. assert (validate_duration d = Ok tt) as ->.
    { destruct d as [[k|k]|]; cbn in *; [| |done]; by replace (k =? 0) with false by lia. }
    assert (validate_active thr (lsum snd (nt_bals nt)) = Ok tt) as ->.
    { destruct thr as [[k|k]|]; cbn in *; [| |done].
      - unfold assert_valid_absolute_count. replace (k =? 0) with false by lia. cbn. by replace (k <=? _) with true by lia.
      - unfold assert_valid_percentage. replace (k =? 0) with false by lia. cbn. unfold DEC_ONE. by replace (k <=? _) with true by lia. }
    by replace (lsum snd (nt_bals nt) =? 0) with false by lia. }
  destruct (run_setup issuer module denom b dao nt (lsum snd (nt_bals nt) + default 0 (nt_dao nt))) as (mt & bal & E & _);
    [lia|done|done|]. rewrite E. destruct created; [rewrite accept_run|cbn]; done.
Qed.
(** *** C116: a history of the issuer *)
Lemma quiet_run (b : block) (s : istate) (subs : list isub) :
  exists l, run_quiet (Msg := imsg) no_reply b s subs = Ok (s, l) /\
    forall pre b' a m post x, ECall pre b' a m post x ∉ l.
Proof.
  induction subs as [|x subs (l & E & H)]; cbn; [exists []; split; [done|intros; apply not_elem_of_nil]|].
  rewrite E. eexists. split; [done|]. intros. apply not_elem_of_cons. split; [done|apply H].
Qed.
Lemma run_leads b a ms : forall i i',
  i_run i b a ms = Ok i' -> exists l, leads i_handle b i b i' l /\
    forall pre b' a' m post x, ECall pre b' a' m post x ∈ l -> a' = a /\ m ∈ ms.
Proof.
  induction ms as [|m ms IH]; intros i i' H; cbn in H.
  - injection H as <-. exists []. split; [apply leads_refl, block_le_refl|]. intros * E. by apply elem_of_nil in E.
  - destruct (i_handle i b a m) as [[i1 subs]|] eqn:E; [|done]. destruct (IH _ _ H) as (l & HL & Hl).
    destruct (quiet_run b i1 subs) as (q & Eq & Hq).
    exists ((ECall i b a m i1 subs :: q) ++ l). split.
    + eapply leads_app; [|exact HL]. exists [(b, Call a m [])]. split; [split; [apply block_le_refl|done]|].
      split; [|apply block_le_refl]. cbn. rewrite E, Eq. by rewrite app_nil_r.
    + intros * [Hin|Hin]%elem_of_app.
      * apply elem_of_cons in Hin as [[= -> -> -> -> -> ->]|Hin]; [|by apply Hq in Hin].
        split; [done|apply elem_of_list_here].
      * destruct (Hl _ _ _ _ _ _ Hin). split; [done|by apply elem_of_list_further].
Qed.
Lemma c116_history created b dao module issuer denom d thr nt t i :
  new_setup created b dao module issuer denom d thr nt = Ok (t, i) ->
  exists l, ireached (i_new issuer module denom) b i l /\ keeps_admin l /\
    forall pre b' a m post x, ECall pre b' a m post x ∈ l -> a = module \/ a = dao /\ m = IOwn OAccept.
Proof.
  unfold new_setup. destruct (fits_dur d && _ && _ && _); [|done].
  destruct (sum128 _ _) as [n|]; [|done]. destruct (add128 _ _) as [total|]; [|done].
  destruct (t_instantiate _ _ _ _ _) as [t0|]; [|done].
  destruct (i_run (i_new _ _ _) _ _ _) as [i0|] eqn:Ei; [|done].
  destruct (i_run i0 _ _ _) as [i1|] eqn:Ej; [|done]. intros [= -> ->].
  destruct (run_leads _ _ _ _ _ Ei) as (l1 & L1 & H1). destruct (run_leads _ _ _ _ _ Ej) as (l2 & L2 & H2).
  exists (l1 ++ l2). split; [|split].
  - split; [left; eauto|]. exists b. eapply leads_app; eauto.
  - intros pre b' a u post x [Hin|Hin]%elem_of_app.
    + apply H1 in Hin as [_ Hin]. unfold setup_msgs in Hin. rewrite !elem_of_app in Hin.
      destruct Hin as [Hin|[Hin|[Hin|[Hin|Hin]]]].
      * by apply elem_of_list_singleton in Hin.
      * destruct (nt_meta nt); [by apply elem_of_list_singleton in Hin|by apply elem_of_nil in Hin].
      * apply elem_of_list_fmap in Hin as (y & ? & _). done.
      * destruct (nt_dao nt) as [k|]; [|by apply elem_of_nil in Hin].
        destruct (negb _); [by apply elem_of_list_singleton in Hin|by apply elem_of_nil in Hin].
      * by apply elem_of_list_singleton in Hin.
    + apply H2 in Hin as [_ Hin]. destruct created; [by apply elem_of_list_singleton in Hin|by apply elem_of_nil in Hin].
  - intros * [Hin|Hin]%elem_of_app; [left; by apply H1 in Hin as [-> _]|].
    apply H2 in Hin as [-> Hin]. destruct created; [apply elem_of_list_singleton in Hin; auto|by apply elem_of_nil in Hin].
Qed.
(** *** C116: holders can stake *)
Lemma c116_stake created b dao module issuer denom d thr nt t i b' a n :
  new_setup created b dao module issuer denom d thr nt = Ok (t, i) ->
  a <> issuer -> 0 < n <= due_to dao nt a ->
  exists i' t', i_handle i b' a (XSend module n) = Ok (i', []) /\
    t_handle t b' a (TStake [(denom, n)]) = Ok (t', []) /\
    smap_get (t_bals t') a = n /\ snap_get (t_total t') = n /\ t_held t' = n.
Proof.
  intros H Ha Hn. apply setup_inv in H as (HP & -> & mt & bal & -> & A & B & C).
  destruct HP as (_ & _ & P3 & P4 & P5 & _).
  assert (n <= U128_MAX) as Hm.
  { assert (listed (nt_bals nt) a <= lsum snd (nt_bals nt)).
    { unfold listed. apply lsum_le. intros x Hx. specialize (P3 x Hx). destruct (decide _); lia. }
    unfold due_to in Hn. destruct (decide (a = dao)); lia. }
  assert (fits128 n = true) as Hfit by (unfold fits128; lia).
  eexists _, _. split; [|split; [|split; [|split]]].
  - cbn [i_handle base i_self]. rewrite Hfit. replace (a =? issuer)%N with false by (symmetry; by apply N.eqb_neq).
    cbn [negb]. unfold bank_send, move, i_bal_of. cbn [i_bhook base i_bal]. rewrite B.
    replace (n <=? _) with true by lia. done.
  - cbn [t_handle forallb snd andb]. rewrite Hfit. cbn [andb]. unfold t_stake, must_pay. cbn [t_denom].
    cbn. rewrite N.eqb_refl. replace (n =? 0) with false by lia. cbn.
    unfold t_arrive. cbn [t_held]. replace (0 + n <=? U128_MAX) with true by lia. cbn.
    unfold smap_get at 1, smap_snap at 1. rewrite lookup_empty. cbn. unfold add128.
    replace (U128_MAX <? 0 + n) with false by lia. reflexivity.
  - cbn [t_bals]. rewrite smap_get_save. rewrite decide_True by done. lia.
  - done.
  - done.
Qed.
(** *** C116: active *)
Lemma listed_none l a : a ∉ map fst l -> listed l a = 0.
Proof.
  unfold listed. intros H. rewrite (lsum_ext _ (fun _ => 0 * 0)); [by rewrite lsum_scale|].
  intros x Hx. rewrite decide_False; [done|]. intros <-. apply H. apply elem_of_list_fmap. eauto.
Qed.
Lemma c116_active created b dao module issuer denom d thr nt t i :
  new_setup created b dao module issuer denom d thr nt = Ok (t, i) ->
  dao ∉ map fst (nt_bals nt) -> (forall p, thr <> Some (APercent p)) ->
  0 < supply i - i_bal_of i dao /\
  is_active (t_thr t) (supply i - i_bal_of i dao) (supply i) = Ok true.
Proof.
  intros H Hd Hp. pose proof (c116_setup _ _ _ _ _ _ _ _ _ _ _ H) as (_ & _ & _ & _ & -> & _ & B & -> & Hs & _).
  assert (i_bal_of i dao = default 0 (nt_dao nt)) as ->.
  { rewrite B. unfold due_to. rewrite listed_none, decide_True by done. lia. }
  replace (lsum snd (nt_bals nt) + default 0 (nt_dao nt) - default 0 (nt_dao nt)) with (lsum snd (nt_bals nt)) by lia.
  split; [done|]. apply setup_inv in H as ((_ & _ & _ & _ & _ & P6) & _).
  destruct thr as [[k|k]|]; [|by exfalso; eapply Hp|done]. cbn in *. by replace (k <=? _) with true by lia.
Qed.

(** Invariants of dao-voting-token-staked. *)
From Verif Require Import Base BaseProofs Exec ExecProofs Plain PlainProofs VotingModel HooksModel
  StoreModel StoreProofs LedgerProofs ActiveModel TokModel TokSpec.

Lemma tstaked_get s a : tstaked s a = smap_get (t_bals s) a.
Proof. unfold tstaked, smap_get, smap_snap. by destruct (t_bals s !! a). Qed.
Lemma ttotal_get s : ttotal s = snap_get (t_total s).
Proof. done. Qed.
Lemma tunclaimed_get s : tunclaimed s = claims_sum (t_claims s).
Proof. done. Qed.
Lemma fits_ok n : fits128 n = true <-> 0 <= n <= U128_MAX.
Proof. unfold fits128. rewrite andb_true_iff. lia. Qed.

Lemma tstake_step s b sender funds s' subs :
  t_handle s b sender (TStake funds) = Ok (s', subs) ->
  exists n, funds = [(t_denom s, n)] /\ 0 < n <= U128_MAX /\ t_held s + n <= U128_MAX /\
    tstaked s sender + n <= U128_MAX /\ ttotal s + n <= U128_MAX /\
    s' = TState (t_dao s) (t_denom s) (t_dur s) (t_thr s)
           (smap_save (t_bals s) sender (height b) (tstaked s sender + n))
           (snap_save (t_total s) (height b) (ttotal s + n)) (t_claims s) (t_hooks s)
           (t_held s + n) /\
    subs = map (fun a => THook a true sender n) (t_hooks s).
Proof.
  intros H. cbn [t_handle] in H. destruct (forallb _ funds) eqn:Ef; [|done].
  unfold t_stake in H. destruct (must_pay _ _) as [n|] eqn:Em; [|done].
  unfold must_pay in Em. destruct funds as [|[d n'] [|]]; try done.
  destruct (n' =? 0) eqn:E0; [done|]. destruct (d =? t_denom s)%N eqn:Ed; [|done].
  injection Em as ->. apply N.eqb_eq in Ed. subst d.
  cbn [forallb snd] in Ef. apply andb_true_iff in Ef as [Ef _]. apply fits_ok in Ef.
  unfold t_arrive in H. destruct (t_held s + n <=? U128_MAX) eqn:Eh; [|done]. cbn in H.
  destruct (add128 _ n) as [bal|] eqn:E1; [|done].
  destruct (add128 (snap_get _) n) as [tot|] eqn:E2; [|done].
  injection H as <- <-. apply add128_ok in E1 as [-> ?], E2 as [-> ?].
  exists n. rewrite tstaked_get. repeat split; try done; try lia.
Qed.
Lemma tunstake_step s b sender a s' subs :
  t_handle s b sender (TUnstake a) = Ok (s', subs) ->
  0 < a <= U128_MAX /\ a <= tstaked s sender /\ a <= ttotal s /\
  t_bals s' = smap_save (t_bals s) sender (height b) (tstaked s sender - a) /\
  t_total s' = snap_save (t_total s) (height b) (ttotal s - a) /\
  t_dao s' = t_dao s /\ t_denom s' = t_denom s /\ t_dur s' = t_dur s /\ t_thr s' = t_thr s /\
  t_hooks s' = t_hooks s /\
  ((t_dur s = None /\ a <= t_held s /\ t_held s' = t_held s - a /\ t_claims s' = t_claims s /\
    subs = TPay sender a :: map (fun h => THook h false sender a) (t_hooks s)) \/
   (exists d, t_dur s = Some d /\ Z.of_nat (length (claims_of (t_claims s) sender)) < 100 /\
    t_held s' = t_held s /\ t_claims s' = create_claim (t_claims s) sender a (after d b) /\
    subs = map (fun h => THook h false sender a) (t_hooks s))).
Proof.
  intros H. cbn [t_handle] in H. destruct (fits128 a) eqn:Ef; [|done]. apply fits_ok in Ef.
  unfold t_unstake in H. destruct (a =? 0) eqn:E0; [done|]. cbn [negb] in H.
  destruct (sub128 _ a) as [bal|] eqn:E1; [|done].
  destruct (sub128 (snap_get _) a) as [tot|] eqn:E2; [|done].
  apply sub128_ok in E1 as [-> ?], E2 as [-> ?]. rewrite tstaked_get, ttotal_get.
  destruct (t_dur s) as [d|] eqn:Ed.
  - destruct (_ <? TOK_MAX_CLAIMS) eqn:Em; [|done]. injection H as <- <-. cbn. unfold TOK_MAX_CLAIMS in Em.
    repeat (split; [done || lia|]). right. exists d. repeat (split; [done || lia|]). done.
  - unfold t_leave in H. cbn in H. destruct (a <=? t_held s) eqn:Eh; [|done].
    injection H as <- <-. cbn. repeat (split; [done || lia|]). left. repeat (split; [done || lia|]). done.
Qed.
Lemma tclaim_step s b sender s' subs :
  t_handle s b sender TClaim = Ok (s', subs) ->
  let n := lsum cl_amount (List.filter (mature b) (claims_of (t_claims s) sender)) in
  n <> 0 /\ n <= t_held s /\
  claims_sum (t_claims s') = claims_sum (t_claims s) - n /\
  s' = TState (t_dao s) (t_denom s) (t_dur s) (t_thr s) (t_bals s) (t_total s)
         (<[sender := List.filter (fun c => negb (mature b c)) (claims_of (t_claims s) sender)]>
            (t_claims s)) (t_hooks s) (t_held s - n) /\
  subs = [TPay sender n].
Proof.
  intros H n. cbn [t_handle] in H. unfold t_claim in H.
  destruct (claim_tokens _ _ _) as [[n' cs]|] eqn:Ec; [|done].
  apply claim_tokens_ok in Ec as (Hn & -> & Hs).
  assert (n' = n) as -> by done. clear Hn.
  destruct (n =? 0) eqn:E0; [done|]. cbn [negb] in H. unfold t_leave in H. cbn in H.
  destruct (n <=? t_held s) eqn:Eh; [|done]. injection H as <- <-.
  repeat (split; [done || lia|]). done.
Qed.
Definition t_quiet (m : tmsg) : bool :=
  match m with TStake _ | TUnstake _ | TClaim | TDonate _ => false | _ => true end.
Lemma tquiet_step s b sender m s' subs :
  t_handle s b sender m = Ok (s', subs) -> t_quiet m = true ->
  sender = t_dao s /\ t_bals s' = t_bals s /\ t_total s' = t_total s /\ t_claims s' = t_claims s /\
  t_held s' = t_held s /\ t_denom s' = t_denom s /\ t_dao s' = t_dao s /\ subs = [].
Proof.
  destruct m; intros H Hq; try done; cbn [t_handle] in H;
    unfold t_update_config, t_set_hooks, t_update_threshold in H;
    destruct (sender =? t_dao s)%N eqn:E; res_inv H; apply N.eqb_eq in E; done.
Qed.
Lemma tdonate_step s b sender n s' subs :
  t_handle s b sender (TDonate n) = Ok (s', subs) ->
  0 <= n /\ t_held s + n <= U128_MAX /\ subs = [] /\
  s' = TState (t_dao s) (t_denom s) (t_dur s) (t_thr s) (t_bals s) (t_total s) (t_claims s)
         (t_hooks s) (t_held s + n).
Proof.
  intros H. cbn [t_handle] in H. destruct (fits128 n) eqn:Ef; [|done]. apply fits_ok in Ef.
  unfold t_arrive in H. destruct (_ <=? U128_MAX) eqn:E; [|done]. injection H as <- <-.
  repeat (split; [done || lia|]). done.
Qed.

Record tinv (b : block) (s : tstate) : Prop := TInv {
  ti_led : ledger (height b) (t_bals s) (t_total s);
  ti_cpos : claims_pos (t_claims s);
  ti_held : ttotal s + claims_sum (t_claims s) <= t_held s;
  ti_max : t_held s <= U128_MAX
}.
Lemma tinv_init b dao denom src d thr s :
  t_instantiate dao denom src d thr = Ok s -> tinv b s.
Proof.
  unfold t_instantiate. intros H. res_inv H. split; cbn.
  - apply ledger_empty. by left.
  - apply claims_pos_empty.
  - done.
  - unfold U128_MAX; lia.
Qed.
Lemma tinv_time b b' s : tinv b s -> block_le b b' -> tinv b' s.
Proof. intros [] [Hh _]. split; try done. by eapply ledger_time. Qed.
Lemma tinv_call b s a m s' subs : tinv b s -> t_handle s b a m = Ok (s', subs) -> tinv b s'.
Proof.
  intros HI H. pose proof (ti_led _ _ HI) as HL. pose proof (ti_held _ _ HI) as Hheld.
  destruct m as [funds|x|d| |t sup|h|h|x].
  - apply tstake_step in H as (n & _ & Hn & Hh & H1 & H2 & -> & ->).
    pose proof (ledger_le _ _ _ a HL) as Hle. rewrite tstaked_get, ttotal_get in *.
    split; cbn; try done.
    + apply ledger_save; [done|lia|lia|lia].
    + apply HI.
    + unfold ttotal. cbn. lia.
  - apply tunstake_step in H as (Hx & Hs & Ht & Eb & Et & _ & _ & _ & _ & _ & Hc).
    pose proof (ledger_le _ _ _ a HL) as Hle. pose proof (lg_max _ _ _ HL).
    rewrite tstaked_get, ttotal_get in *. pose proof (ti_max _ _ HI).
    split; rewrite ?Eb, ?Et.
    + apply ledger_save; [done|lia|lia|lia].
    + destruct Hc as [(_ & _ & _ & -> & _)|(d & _ & _ & _ & -> & _)]; [apply HI|].
      apply claims_pos_create; [apply HI|lia].
    + rewrite ttotal_get, Et, snap_get_save.
      destruct Hc as [(_ & _ & -> & -> & _)|(d & _ & _ & -> & -> & _)]; [lia|].
      rewrite claims_sum_create. lia.
    + destruct Hc as [(_ & _ & -> & _)|(d & _ & _ & -> & _)]; lia.
  - apply tquiet_step in H as (_ & E1 & E2 & E3 & E4 & _); [|done].
    destruct HI. split; unfold ttotal in *; rewrite ?E1, ?E2, ?E3, ?E4; done.
  - apply tclaim_step in H as (H0 & Hh & Hs & E & _).
    assert (0 <= lsum cl_amount (List.filter (mature b) (claims_of (t_claims s) a))).
    { apply lsum_nonneg. intros c [Hc _]%elem_of_filter_b. by apply (ti_cpos _ _ HI a). }
    subst s'. cbn in Hs. pose proof (ti_max _ _ HI).
    destruct HI. split; cbn; try done; try (rewrite ?ttotal_get in *; cbn; lia).
    apply claims_pos_insert; [done|]. intros c [Hc _]%elem_of_filter_b. eauto.
  - apply tquiet_step in H as (_ & E1 & E2 & E3 & E4 & _); [|done].
    destruct HI. split; unfold ttotal in *; rewrite ?E1, ?E2, ?E3, ?E4; done.
  - apply tquiet_step in H as (_ & E1 & E2 & E3 & E4 & _); [|done].
    destruct HI. split; unfold ttotal in *; rewrite ?E1, ?E2, ?E3, ?E4; done.
  - apply tquiet_step in H as (_ & E1 & E2 & E3 & E4 & _); [|done].
    destruct HI. split; unfold ttotal in *; rewrite ?E1, ?E2, ?E3, ?E4; done.
  - apply tdonate_step in H as (H0 & H1 & _ & ->). destruct HI.
    split; cbn; try done; rewrite ?ttotal_get in *; cbn; lia.
Qed.
Lemma treached_inv b s l : treached b s l -> tinv b s.
Proof.
  intros (b0 & dao & denom & src & d & thr & s0 & _ & _ & Hi & HL).
  eapply (leads_inv t_handle tinv tinv_call tinv_time); [|exact HL]. by eapply tinv_init.
Qed.
Lemma treached_call b s l :
  treached b s l -> forall pre b1 a m post subs, ECall pre b1 a m post subs ∈ l ->
  tinv b1 pre /\ t_handle pre b1 a m = Ok (post, subs) /\ block_le b1 b.
Proof.
  intros (b0 & dao & denom & src & d & thr & s0 & _ & _ & Hi & HL) pre b1 a m post subs Hin.
  destruct (leads_call t_handle tinv tinv_call tinv_time _ _ _ _ _ (tinv_init _ _ _ _ _ _ _ Hi) HL
              _ _ _ _ _ _ Hin) as (A & B & _ & C). done.
Qed.
Lemma treached_app b s l b' s' l' :
  treached b s l -> leads t_handle b s b' s' l' -> treached b' s' (l ++ l').
Proof.
  intros (b0 & dao & denom & src & d & thr & s0 & A & B & C & HL) HL'.
  exists b0, dao, denom, src, d, thr, s0. repeat (split; [done|]). by eapply leads_app.
Qed.
(** What is reported for heights that have begun does not change. *)
Lemma tat_call b s a m s' subs h :
  t_handle s b a m = Ok (s', subs) -> h <= height b ->
  (forall a', smap_at (t_bals s') a' h = smap_at (t_bals s) a' h) /\
  snap_get_at (t_total s') h = snap_get_at (t_total s) h.
Proof.
  intros H Hle. destruct m as [funds|x|d| |t sup|h'|h'|x].
  - apply tstake_step in H as (n & _ & _ & _ & _ & _ & -> & ->). cbn.
    split; [intros; by apply smap_at_save|by apply snap_get_at_save].
  - apply tunstake_step in H as (_ & _ & _ & -> & -> & _).
    split; [intros; by apply smap_at_save|by apply snap_get_at_save].
  - apply tquiet_step in H as (_ & -> & -> & _); done.
  - apply tclaim_step in H as (_ & _ & _ & -> & _). done.
  - apply tquiet_step in H as (_ & -> & -> & _); done.
  - apply tquiet_step in H as (_ & -> & -> & _); done.
  - apply tquiet_step in H as (_ & -> & -> & _); done.
  - apply tdonate_step in H as (_ & _ & _ & ->). done.
Qed.

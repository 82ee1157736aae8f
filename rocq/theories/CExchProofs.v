(** Condorcet proposals of a DAO that exchanges its voting module: invariants. *)
From stdpp Require Import gmap strings.
From Verif Require Import Base BaseProofs Exec ExecProofs VotingModel VotingSpec VotingProofs
  CondModel CondSpec CondMatrix CondWinner CondProofs CondLife CondClaims CExchModel CExchSpec.

(** ** What holds whatever the voting modules say *)
Record sinv (d : addr) (s : state) : Prop := {
  si_dao : s_dao s = d;
  si_ids : exists k, 0 <= k /\ forall id, is_Some (s_props s !! id) <-> 1 <= id <= k;
  si_dom : forall id, is_Some (s_props s !! id) <-> is_Some (s_tallies s !! id);
  si_votes : forall id a l, s_votes s !! (id, a) = Some l -> is_Some (s_tallies s !! id);
  si_id : forall id p, s_props s !! id = Some p -> p_id p = id }.

Lemma add_vote_terms t vote q t' : tally_add_vote t vote q = Ok t' -> tally_terms t' = tally_terms t.
Proof.
  unfold tally_add_vote. intros Hadd.
  destruct (record_vote _ _ _ _) as [m|] eqn:E; [|discriminate].
  destruct (sub128 _ _); [|discriminate]. destruct (compute_winner _ _); [|discriminate].
  injection Hadd as <-. unfold tally_terms. simpl. f_equal.
  assert (forall l m m' pr B, defeats m pr B l = Ok m' -> m_n m' = m_n m) as Hd.
  { intros l m0 m0' pr B. revert m0. induction B as [|z B IH]; intros m0 H; simpl in H; [by injection H as <-|].
    destruct (decrement m0 pr z l) as [m1|] eqn:E1; [|discriminate]. rewrite (IH m1 H).
    unfold decrement, upd in E1. destruct (pr <? z); res_inv E1; done. }
  assert (forall v B m m' l, record_vote m B v l = Ok m' -> m_n m' = m_n m) as Hrv.
  { induction v as [|z v IH]; intros B m0 m0' l H; simpl in H; [by injection H as <-|].
    destruct (defeats m0 z B l) as [m1|] eqn:E1; [|discriminate].
    rewrite (IH _ _ _ _ H). by eapply Hd. }
  by eapply Hrv.
Qed.
Lemma next_id d s id : sinv d s -> next_proposal_id s = Ok id ->
  s_props s !! id = None /\ s_tallies s !! id = None /\ (forall a, s_votes s !! (id, a) = None) /\
  exists k, id = k + 1 /\ 0 <= k /\ forall id, is_Some (s_props s !! id) <-> 1 <= id <= k.
Proof.
  intros [_ (k & Hk & Hids) Hdom Hv _] Hid.
  unfold next_proposal_id in Hid. apply u32_ok in Hid as [-> _]. rewrite (max_key_spec _ k Hk Hids).
  assert (s_props s !! (k + 1) = None) as Hnp by (apply eq_None_not_Some; rewrite Hids; lia).
  assert (s_tallies s !! (k + 1) = None) as Hnt by (apply eq_None_not_Some; rewrite <- Hdom, Hids; lia).
  split; [done|]. split; [done|]. split; [|by exists k].
  intros a. destruct (s_votes s !! (k + 1, a)) as [l|] eqn:E; [|done].
  apply Hv in E. rewrite Hnt in E. by destruct E.
Qed.
Lemma sinv_prim O d b s s' : sinv d s -> prim O b s s' -> sinv d s'.
Proof.
  intros HI HP. pose proof HI as [Hdao (k & Hk & Hids) Hdom Hvotes Hid0].
  destruct HP as [s a id choices t st Hid Hch Ht Hst
                 |s a id t vote t' Ht Hvp Hnone Hexp Hvote Hadd
                 |s id t p st st' Ht Hp Hst Hcase
                 |s c c' Hc].
  - destruct (next_id _ _ _ HI Hid) as (Hnp & Hnt & Hnv & k' & -> & Hk' & Hids').
    split; simpl; [done| | | |].
    + exists (k' + 1). split; [lia|]. intros id. destruct (decide (id = k' + 1)) as [->|].
      * rewrite lookup_insert. split; [lia|eauto].
      * rewrite lookup_insert_ne by done. rewrite Hids'. lia.
    + intros id. destruct (decide (id = k' + 1)) as [->|].
      * rewrite !lookup_insert. split; eauto.
      * rewrite !lookup_insert_ne by done. apply Hdom.
    + intros id a' l Hl. destruct (decide (id = k' + 1)) as [->|]; [by rewrite Hnv in Hl|].
      rewrite lookup_insert_ne by done. by eapply Hvotes.
    + intros id p. destruct (decide (id = k' + 1)) as [->|].
      * rewrite lookup_insert. by intros [= <-].
      * rewrite lookup_insert_ne by done. apply Hid0.
  - split; simpl; [done|by exists k| | |done].
    + intros id'. destruct (decide (id = id')) as [->|].
      * rewrite lookup_insert, Hdom, Ht. split; eauto.
      * rewrite lookup_insert_ne by done. apply Hdom.
    + intros id' a' l Hl. destruct (decide (id = id')) as [->|]; [rewrite lookup_insert; eauto|].
      rewrite lookup_insert_ne by done. rewrite lookup_insert_ne in Hl by congruence. by eapply Hvotes.
  - assert (forall id', is_Some (<[id:=set_status p st']> (s_props s) !! id') <-> is_Some (s_props s !! id')) as Hd.
    { intros id'. destruct (decide (id = id')) as [->|].
      - rewrite lookup_insert, Hp. split; eauto.
      - by rewrite lookup_insert_ne by done. }
    split; simpl; [done| |intros id'; rewrite Hd; apply Hdom|done|].
    + exists k. split; [done|]. intros id'. by rewrite Hd.
    + intros id' p'. destruct (decide (id = id')) as [->|].
      * rewrite lookup_insert. intros [= <-]. simpl. by apply Hid0.
      * rewrite lookup_insert_ne by done. apply Hid0.
  - split; simpl; try done. by exists k.
Qed.

(** Lookups after a primitive step. *)
Lemma sprim_get O d b s s' id t p :
  sinv d s -> prim O b s s' -> s_tallies s !! id = Some t -> s_props s !! id = Some p ->
  exists t' p', s_tallies s' !! id = Some t' /\ s_props s' !! id = Some p' /\
   terms p' = terms p /\ tally_terms t' = tally_terms t /\
   ((t' = t /\ p' = p) \/ (p' = p /\ is_expired (t_exp t) b = false) \/
    (t' = t /\ exists st st', status_at b p t = Ok st /\ p' = set_status p st' /\ terminal st' /\
       (((exists w ms, st = CPassed w /\ p_choices p !! Z.to_nat w = Some ms) /\ st' = CExecuted) \/
        (st = CRejected /\ st' = CClosed) \/ (st = CExecuted /\ st' = CExecutionFailed)))).
Proof.
  intros HI HP Ht Hp.
  destruct HP as [s a id' choices t0 st Hid Hch Ht0 Hst
                 |s a id' t0 vote t' Ht0 Hvp Hnone Hexp Hvote Hadd
                 |s id' t0 p0 st st' Ht0 Hp0 Hst Hcase
                 |s c c' Hc]; simpl.
  - destruct (next_id _ _ _ HI Hid) as (Hnp & _).
    assert (id <> id') by congruence.
    exists t, p. rewrite lookup_insert_ne by done. rewrite lookup_insert_ne by done. eauto 10.
  - destruct (decide (id' = id)) as [->|].
    + rewrite Ht in Ht0. injection Ht0 as <-. exists t', p. rewrite lookup_insert.
      split; [done|]. split; [done|]. split; [done|]. split; [by eapply add_vote_terms|]. right; left. done.
    + exists t, p. rewrite lookup_insert_ne by done. eauto 10.
  - destruct (decide (id' = id)) as [->|].
    + rewrite Ht in Ht0. injection Ht0 as <-. rewrite Hp in Hp0. injection Hp0 as <-.
      exists t, (set_status p st'). rewrite lookup_insert. repeat (split; [done|]). right; right.
      split; [done|]. exists st, st'. split; [done|]. split; [done|]. split; [|done].
      unfold terminal. destruct Hcase as [[_ ->]|[[_ ->]|[_ ->]]]; tauto.
    + exists t, p. rewrite lookup_insert_ne by done. eauto 10.
  - exists t, p. eauto 10.
Qed.
Lemma votes_prim O b s s' k v : prim O b s s' -> s_votes s !! k = Some v -> s_votes s' !! k = Some v.
Proof.
  intros HP H. destruct HP; simpl; try done.
  rewrite lookup_insert_ne; [done|]. intros <-. congruence.
Qed.
Lemma sdone_prim O d b s s' id : sinv d s -> prim O b s s' -> done_at s id -> done_at s' id.
Proof.
  intros HI HP H. unfold done_at, status_of in *.
  destruct (s_props s !! id) as [p|] eqn:Hp; [|destruct H; done].
  destruct (proj1 (si_dom _ _ HI id) ltac:(eauto)) as [t Ht].
  destruct (sprim_get _ _ _ _ _ _ _ _ HI HP Ht Hp) as (t' & p' & _ & -> & _ & _ & Hc). simpl in *.
  destruct Hc as [[_ ->]|[[-> _]|(_ & st & st' & Hst & -> & _ & Hc)]]; [done|done|].
  simpl. unfold status_at in Hst.
  destruct H as [[= H]|[= H]]; rewrite H in Hst; injection Hst as <-;
    destruct Hc as [[(w & ms & ? & _) ->]|[[? ->]|[? ->]]]; try done; tauto.
Qed.
Lemma sfail_prim O d b s x s' :
  sinv d s -> pend b s x -> on_fail s b x = Ok s' -> prim O b s s' \/ s' = s.
Proof.
  intros HI HP H. apply on_fail_shape in H as (dd & id & ms & p & -> & Hp & ->).
  simpl in HP. unfold status_of in HP. rewrite Hp in HP. simpl in HP.
  destruct (proj1 (si_dom _ _ HI id) ltac:(eauto)) as [t Ht].
  destruct HP as [[= HP]|[= HP]].
  - left. eapply prim_fin; [done|done| |].
    + unfold status_at. by rewrite HP.
    + right. right. done.
  - right. assert (set_status p CExecutionFailed = p) as -> by (destruct p; simpl in *; by subst).
    rewrite insert_id by done. by destruct s.
Qed.
Lemma shandle_pend O d s b a m s' subs x :
  sinv d s -> handle O s b a m = Ok (s', subs) -> x ∈ subs -> pend b s' x.
Proof.
  intros HI H Hx. destruct m as [choices|id vote|id|id|c]; simpl in H.
  - apply propose_shape in H as (id & t & st & _ & _ & _ & _ & _ & _ & ->).
    by apply not_elem_of_nil in Hx.
  - apply vote_shape in H as (t & vote' & t' & _ & _ & _ & _ & _ & _ & _ & ->).
    by apply not_elem_of_nil in Hx.
  - apply execute_shape in H as (t & p & w & ms & Ht & _ & Hp & _ & _ & -> & ->).
    apply elem_of_list_singleton in Hx as ->. simpl.
    rewrite (si_id _ _ HI id p Hp). unfold status_of. simpl. rewrite lookup_insert. by left.
  - apply close_shape in H as (t & p & _ & _ & _ & _ & ->). by apply not_elem_of_nil in Hx.
  - apply set_config_shape in H as (c' & _ & _ & _ & ->). by apply not_elem_of_nil in Hx.
Qed.
(** What a call can do to the votes and to the set of proposals. *)
Lemma handle_votes O s b a m s' subs :
  handle O s b a m = Ok (s', subs) ->
  s_votes s' = s_votes s \/
  exists id r t, m = CastVote id r /\ s_votes s' = <[(id, a) := r]> (s_votes s) /\
    s_votes s !! (id, a) = None /\ s_tallies s !! id = Some t /\ is_expired (t_exp t) b = false.
Proof.
  destruct m as [choices|id vote|id|id|c]; simpl; intros H.
  - apply propose_shape in H as (id & t & st & _ & _ & _ & _ & _ & -> & _). by left.
  - apply vote_shape in H as (t & vote' & t' & Ht & _ & A & He & B & _ & -> & _).
    apply vote_new_same in B as ->. right. eauto 10.
  - apply execute_shape in H as (t & p & w & ms & Ht & _ & Hp & _ & _ & -> & _). by left.
  - apply close_shape in H as (t & p & _ & _ & _ & -> & _). by left.
  - apply set_config_shape in H as (c' & _ & _ & -> & _). by left.
Qed.
Lemma handle_births O s b a m s' subs id :
  handle O s b a m = Ok (s', subs) -> s_props s !! id = None -> is_Some (s_props s' !! id) ->
  exists cs, m = Propose cs.
Proof.
  destruct m as [choices|i vote|i|i|c]; simpl; intros H Hn Hs; [eauto|exfalso..].
  - apply vote_shape in H as (t & vote' & t' & _ & _ & _ & _ & _ & _ & -> & _). simpl in Hs.
    rewrite Hn in Hs. by destruct Hs.
  - apply execute_shape in H as (t & p & w & ms & Ht & _ & Hp & _ & _ & -> & _). simpl in Hs.
    destruct (decide (i = id)) as [->|]; [congruence|]. rewrite lookup_insert_ne, Hn in Hs by done. by destruct Hs.
  - apply close_shape in H as (t & p & _ & Hp & _ & -> & _). simpl in Hs.
    destruct (decide (i = id)) as [->|]; [congruence|]. rewrite lookup_insert_ne, Hn in Hs by done. by destruct Hs.
  - apply set_config_shape in H as (c' & _ & _ & -> & _). simpl in Hs. rewrite Hn in Hs. by destruct Hs.
Qed.

(** ** Histories *)
Definition xpend (b : block) (xs : xstate) (x : sub) : Prop := pend b (x_s xs) x.
Notation xtrace O d := (trace (xhandle O) xon_fail xon_ok any_msg (fun _ xs => sinv d (x_s xs)) xpend).

Lemma xhandle_shape O xs b a m xs' subs :
  xhandle O xs b a m = Ok (xs', subs) ->
  (exists m', m = XCond m' /\ handle (O (x_mod xs)) (x_s xs) b a m' = Ok (x_s xs', subs) /\
     x_mod xs' = x_mod xs) \/
  (exists v, m = XExchange v /\ a = s_dao (x_s xs) /\ x_s xs' = x_s xs /\ x_mod xs' = v /\ subs = []).
Proof.
  destruct m as [m|v]; simpl; intros H.
  - destruct (handle _ _ _ _ _) as [[s subs']|] eqn:E; [|discriminate]. injection H as <- <-.
    left. eauto.
  - destruct (a =? _)%N eqn:E; [|discriminate]. apply N.eqb_eq in E. injection H as <- <-.
    right. eauto 10.
Qed.
Lemma xon_fail_shape xs b x xs' :
  xon_fail xs b x = Ok xs' -> on_fail (x_s xs) b x = Ok (x_s xs') /\ x_mod xs' = x_mod xs.
Proof.
  unfold xon_fail. destruct (on_fail _ _ _) as [s|] eqn:E; [|discriminate]. intros [= <-]. done.
Qed.
Lemma xon_ok_shape xs b x d xs' :
  xon_ok xs b x d = Ok xs' -> x_s xs' = x_s xs /\ x_mod xs' = x_mod xs.
Proof. unfold xon_ok, on_ok. intros [= <-]. done. Qed.

Lemma exch_trace O d b0 xs h xs' l :
  sinv d (x_s xs) -> hist_ok b0 h ->
  run_hist (xhandle O) xon_fail xon_ok xs h = (xs', l) ->
  sinv d (x_s xs') /\ xtrace O d b0 xs l (hist_end b0 h) xs'.
Proof.
  intros HI Hh Hr.
  apply (run_hist_trace (xhandle O) xon_fail xon_ok any_msg (fun _ xs => sinv d (x_s xs)) xpend); try done;
    unfold xpend.
  - intros b s1 a m s2 subs HI1 _ H.
    destruct (xhandle_shape _ _ _ _ _ _ _ H) as [(m' & -> & E & _)|(v & -> & _ & E & _ & ->)].
    + split; [eapply sinv_prim; [done|by eapply handle_prim]|]. intros x Hx. by eapply shandle_pend.
    + rewrite E. split; [done|]. intros x Hx. by apply elem_of_nil in Hx.
  - intros b s1 x s2 HI1 HP H. apply xon_fail_shape in H as [H _].
    destruct (sfail_prim (O 0%N) _ _ _ _ _ HI1 HP H) as [HP1| ->]; [by eapply sinv_prim|done].
  - intros b s1 x dd s2 HI1 _ H. apply xon_ok_shape in H as [-> _]. done.
  - intros b s1 a m s2 subs x HI1 _ H. destruct x.
    destruct (xhandle_shape _ _ _ _ _ _ _ H) as [(m' & -> & E & _)|(v & -> & _ & E & _ & ->)]; [|by rewrite E].
    eapply sdone_prim; [done|by eapply handle_prim].
  - intros b s1 x s2 y HI1 HP H. apply xon_fail_shape in H as [H _].
    destruct (sfail_prim (O 0%N) _ _ _ _ _ HI1 HP H) as [HP1| ->]; [|done]. destruct y.
    by eapply (sdone_prim _ _ _ (x_s s1) (x_s s2)).
  - intros b s1 x dd s2 y HI1 _ H. apply xon_ok_shape in H as [-> _]. done.
  - apply hist_all_any.
Qed.
Lemma fresh_sinv s : fresh s -> sinv (s_dao s) s.
Proof.
  intros (E1 & E2 & E3 & _). split; [done| | | |].
  - exists 0. split; [lia|]. intros id. rewrite E2, lookup_empty. split; [intros [? ?]; done|lia].
  - intros id. rewrite E1, E2. split; intros [? H]; rewrite lookup_empty in H; done.
  - intros id a l. rewrite E3, lookup_empty. done.
  - intros id p. rewrite E2, lookup_empty. done.
Qed.
(** Each committed step changes the proposal module by a primitive step under the module of the
    moment, or not at all. *)
Lemma xlegit_prim O d e :
  legit (xhandle O) xon_fail xon_ok any_msg (fun _ xs => sinv d (x_s xs)) xpend e ->
  sinv d (x_s (ev_pre e)) /\ sinv d (x_s (ev_post e)) /\
  (prim (O (x_mod (ev_pre e))) (ev_block e) (x_s (ev_pre e)) (x_s (ev_post e)) \/
   x_s (ev_post e) = x_s (ev_pre e)).
Proof.
  intros (H1 & H2 & H). split; [done|]. split; [done|].
  destruct e as [pre b a m post subs|pre b x [|] post]; simpl in *.
  - destruct H as [_ H].
    destruct (xhandle_shape _ _ _ _ _ _ _ H) as [(m' & -> & E & _)|(v & -> & _ & E & _)]; [|by right].
    left. by eapply handle_prim.
  - destruct H as [_ [dd H]]. apply xon_ok_shape in H as [-> _]. by right.
  - destruct H as [HP H]. apply xon_fail_shape in H as [H _]. by eapply sfail_prim.
Qed.

(** ** One proposal, weighed by an oracle of its own *)
(** [Q] with another power for [a] at height [h]. *)
Definition over (Q : oracle) (d a : addr) (h w : Z) : oracle :=
  Oracle (fun d' a' h' => if (d' =? d)%N && (a' =? a)%N && (h' =? h) then w else vp Q d' a' h')
    (vnow Q) (tnow Q).
Lemma over_typed Q d a h w : typed Q -> 0 <= w -> typed (over Q d a h w).
Proof.
  intros [A B] Hw. split; [|done]. intros d' a' h'. simpl. destruct (_ && _); [done|apply A].
Qed.
Lemma over_at Q d a h w : vp (over Q d a h w) d a h = w.
Proof. simpl. by rewrite !N.eqb_refl, Z.eqb_refl. Qed.
Lemma over_other Q d a h w a' : a' <> a -> vp (over Q d a h w) d a' h = vp Q d a' h.
Proof.
  intros H. simpl. destruct (a' =? a)%N eqn:E; [apply N.eqb_eq in E; done|].
  by rewrite andb_false_r.
Qed.
(** Only the powers of those who have voted matter. *)
Lemma prop_ok_agree Q Q' s b id t p :
  s_tallies s !! id = Some t -> prop_ok Q s b id t p ->
  (forall a, is_Some (s_votes s !! (id, a)) -> vp Q' (s_dao s) a (t_start t) = vp Q (s_dao s) a (t_start t)) ->
  (forall b0, tnow Q' (s_dao s) b0 id = tnow Q (s_dao s) b0 id) ->
  prop_ok Q' s b id t p.
Proof.
  intros Ht [P1 P2 P3 P4 P5 P6 P7 P8 P9 P10 P11] Ha Hn. split; try done.
  - intros x y Hx Hy Hxy. rewrite P4 by done. apply msum_ext. intros [i a] r Hr. simpl.
    destruct (Z.eqb_spec i id) as [->|]; [|done]. unfold start_of. rewrite Ht, Ha by eauto. done.
  - rewrite P5. apply msum_ext. intros [i a] r Hr. simpl.
    destruct (Z.eqb_spec i id) as [->|]; [|done]. unfold start_of. rewrite Ht, Ha by eauto. done.
  - destruct P11 as (b0 & A & B). exists b0. by rewrite Hn.
Qed.
Lemma prop_ok_time O s b b' id t p : block_le b b' -> prop_ok O s b id t p -> prop_ok O s b' id t p.
Proof. intros Hb []. split; try done; [by eapply status_just_time|]. destruct Hb. lia. Qed.

Lemma prop_ok_new O d b s id t p a cs st :
  typed O -> sinv d s -> next_proposal_id s = Ok id -> cs <> [] ->
  tally_new (Z.of_nat (length (cs ++ [[]]))) (tnow O (s_dao s) b id) (height b)
      (after (c_period (s_cfg s)) b) = Ok t ->
  status_at b (new_prop O s b a id cs COpen) t = Ok st -> p = new_prop O s b a id cs st ->
  prop_ok O (State (s_dao s) (s_cfg s) (<[id := t]> (s_tallies s)) (<[id := p]> (s_props s)) (s_votes s))
    b id t p.
Proof.
  intros HT HI Hid Hch Ht Hst ->.
  destruct (next_id _ _ _ HI Hid) as (Hnp & Hnt & Hnv & _).
  unfold tally_new in Ht.
  destruct (matrix_new _) as [m|] eqn:Em; [|discriminate].
  destruct (compute_winner m _) as [w|] eqn:Ew; [|discriminate]. injection Ht as Ht.
  assert (2 <= Z.of_nat (length (cs ++ [[]]))) as Hlen.
  { rewrite app_length. simpl. destruct cs; [done|]. simpl. lia. }
  apply matrix_new_ok in Em as (HM & Hn & HV); [|done].
  apply compute_winner_inv in Ew; [|done].
  destruct HT as [HT1 HT2]. rewrite <- Ht in *. split; simpl; try done.
  - intros x y _ _ _. rewrite HV. unfold margin. symmetry. apply (no_votes_zero O s id (fun l => sg l x y) Hnv).
  - rewrite voted_as_margin. etransitivity; [|symmetry; apply (no_votes_zero O s id (fun _ => 1) Hnv)]. lia.
  - by apply HT2.
  - apply (status_at_ok _ _ _ _ Hst). done.
  - exists b. done.
Qed.

(** A step under [Oc] keeps the account of proposal [id] weighed by [Q], if the two agree on who votes. *)
Lemma prop_ok_prim Q Oc d b s s' id t p :
  typed Q -> sinv d s -> s_tallies s !! id = Some t -> s_props s !! id = Some p ->
  prop_ok Q s b id t p -> prim Oc b s s' ->
  (forall a r, s_votes s !! (id, a) = None -> s_votes s' !! (id, a) = Some r ->
     vp Oc (s_dao s) a (t_start t) = vp Q (s_dao s) a (t_start t)) ->
  exists t' p', s_tallies s' !! id = Some t' /\ s_props s' !! id = Some p' /\ prop_ok Q s' b id t' p' /\
    terms p' = terms p /\ tally_terms t' = tally_terms t.
Proof.
  intros HT HI Ht Hp HPO HP Hag.
  destruct HP as [s a id0 cs t0 st Hid Hch Ht0 Hst
                 |s a id0 t0 vote t' Ht0 Hvp Hnone Hexp Hvote Hadd
                 |s id0 t0 p0 st st' Ht0 Hp0 Hst Hcase
                 |s c c' Hc].
  - destruct (next_id _ _ _ HI Hid) as (Hnp & Hnt & Hnv & _).
    assert (id0 <> id) as Hne by congruence. exists t, p. simpl.
    rewrite !lookup_insert_ne by done. split; [done|]. split; [done|]. split; [|done].
    assert (forall ps c, start_of (State (s_dao s) c (<[id0 := t0]> (s_tallies s)) ps (s_votes s)) id = start_of s id) as Hs.
    { intros ps c. unfold start_of. simpl. by rewrite lookup_insert_ne by done. }
    destruct HPO as [P1 P2 P3 P4 P5 P6 P7 P8 P9 P10 P11]. split; try done.
    + intros x y Hx Hy Hxy. rewrite P4 by done. unfold margin. simpl. by rewrite Hs.
    + rewrite P5. unfold voted_power. simpl. by rewrite Hs.
  - pose proof (add_vote_terms _ _ _ _ Hadd) as Htt. unfold tally_terms in Htt. injection Htt as He Hs Hn'.
    assert (forall x y, margin Q (State (s_dao s) (s_cfg s) (<[id0 := t']> (s_tallies s)) (s_props s)
         (<[(id0, a) := vote]> (s_votes s))) id x y = margin Q s id x y +
         (if id0 =? id then vp Q (s_dao s) a (t_start t0) * sg vote x y else 0)) as Hmg.
    { intros x y. apply (vote_sums Q s id0 t0 t' a vote (fun l => sg l x y) id Ht0 Hs Hnone). }
    assert (voted_power Q (State (s_dao s) (s_cfg s) (<[id0 := t']> (s_tallies s)) (s_props s)
         (<[(id0, a) := vote]> (s_votes s))) id = voted_power Q s id +
         (if id0 =? id then vp Q (s_dao s) a (t_start t0) else 0)) as Hvw.
    { rewrite !voted_as_margin.
      rewrite (vote_sums Q s id0 t0 t' a vote (fun _ => 1) id Ht0 Hs Hnone). destruct (id0 =? id); lia. }
    destruct (decide (id0 = id)) as [->|Hne].
    + assert (t0 = t) as -> by congruence. rewrite Z.eqb_refl in Hmg, Hvw.
      assert (vp Oc (s_dao s) a (t_start t) = vp Q (s_dao s) a (t_start t)) as Eq.
      { apply (Hag a vote Hnone). simpl. by rewrite lookup_insert. }
      rewrite Eq in *.
      pose proof (mo_n _ (po_mat _ _ _ _ _ _ HPO)) as Hn.
      apply vote_new_ok in Hvote as [_ Hrank]; [|lia].
      assert (0 < vp Q (s_dao s) a (t_start t)) as Hpos.
      { destruct HT as [HT _]. specialize (HT (s_dao s) a (t_start t)). lia. }
      pose proof (tally_add_vote_ok _ _ _ _ _ _ _ _ _ HT HPO Hpos Hrank Hadd)
        as (Hle & _ & _ & _ & HM' & Ho & HV & HW).
      exists t', p. simpl. rewrite lookup_insert. split; [done|]. split; [done|].
      split; [|split; [done|by eapply add_vote_terms]].
      destruct HPO as [P1 P2 P3 P4 P5 P6 P7 P8 P9 P10 P11]. split; try done.
      * congruence.
      * rewrite Hn'. intros x y Hx Hy Hxy. rewrite HV, P4, Hmg by done. done.
      * rewrite Hvw. lia.
      * lia.
      * by rewrite Hn'.
      * apply (status_just_vote b (m_n (t_m t)) p t t' (vp Q (s_dao s) a (t_start t))); try done; try lia.
        -- rewrite <- Hn'. by apply mval_is_anti.
        -- intros x y Hx Hy Hxy. rewrite HV by done. pose proof (sg_bounds vote x y). nia.
      * lia.
      * rewrite Hs. done.
    + exists t, p. simpl. rewrite lookup_insert_ne by done. split; [done|]. split; [done|]. split; [|done].
      replace (id0 =? id) with false in Hmg, Hvw by lia.
      destruct HPO as [P1 P2 P3 P4 P5 P6 P7 P8 P9 P10 P11]. split; try done.
      * intros x y Hx Hy Hxy. rewrite P4, Hmg by done. lia.
      * rewrite Hvw. lia.
  - destruct (decide (id0 = id)) as [->|Hne].
    + assert (t0 = t) as -> by congruence. assert (p0 = p) as -> by congruence.
      exists t, (set_status p st'). simpl. rewrite lookup_insert. split; [done|]. split; [done|]. split; [|done].
      destruct HPO as [P1 P2 P3 P4 P5 P6 P7 P8 P9 P10 P11]. split; try done.
      apply (status_at_ok _ _ _ _ Hst) in P9. unfold status_just in *. simpl in *.
      destruct Hcase as [[(w & ms & -> & _) ->]|[[-> ->]|[-> ->]]]; naive_solver.
    + exists t, p. simpl. rewrite lookup_insert_ne by done. split; [done|]. split; [done|]. split; [|done].
      destruct HPO. split; try done.
  - exists t, p. split; [done|]. split; [done|]. split; [|done]. destruct HPO. split; try done.
Qed.

(** ** Whose powers the tallies hold *)
Lemma born_mono l l' id b v : born l id b v -> born (l ++ l') id b v.
Proof.
  intros (pre & a & cs & post & subs & H & R). exists pre, a, cs, post, subs.
  split; [|done]. apply elem_of_app. by left.
Qed.
Lemma cast_mono l l' id a r v : cast l id a r v -> cast (l ++ l') id a r v.
Proof.
  intros (pre & b & post & subs & H & R). exists pre, b, post, subs.
  split; [|done]. apply elem_of_app. by left.
Qed.
Definition told (O : addr -> oracle) (d : addr) (l : log xstate xmsg sub) (b : block) (s : state) : Prop :=
  forall id t p, s_tallies s !! id = Some t -> s_props s !! id = Some p ->
  exists Q v0 b0, typed Q /\ prop_ok Q s b id t p /\ born l id b0 v0 /\ height b0 = t_start t /\
    p_total p = tnow (O v0) d b0 id /\
    forall a r, s_votes s !! (id, a) = Some r ->
      exists v, cast l id a r v /\ vp Q d a (t_start t) = vp (O v) d a (t_start t).
Lemma told_mono O d l l' b s : told O d l b s -> told O d (l ++ l') b s.
Proof.
  intros H id t p Ht Hp. destruct (H id t p Ht Hp) as (Q & v0 & b0 & A & B & C & D & E & F).
  exists Q, v0, b0. split; [done|]. split; [done|]. split; [by apply born_mono|].
  split; [done|]. split; [done|]. intros a r Hr. destruct (F a r Hr) as (v & G & K).
  exists v. split; [by apply cast_mono|done].
Qed.
Lemma told_time O d l b b' s : block_le b b' -> told O d l b s -> told O d l b' s.
Proof.
  intros Hb H id t p Ht Hp. destruct (H id t p Ht Hp) as (Q & v0 & b0 & A & B & C).
  exists Q, v0, b0. split; [done|]. split; [by eapply prop_ok_time|done].
Qed.
Lemma tally_terms_start t t' : tally_terms t' = tally_terms t -> t_start t' = t_start t /\ t_exp t' = t_exp t.
Proof. unfold tally_terms. by intros [= -> -> _]. Qed.
Lemma terms_total p p' : terms p' = terms p -> p_total p' = p_total p.
Proof. unfold terms. congruence. Qed.

(** Steps without a vote. *)
Lemma told_still O d l b s s' Oc :
  sinv d s -> prim Oc b s s' -> s_votes s' = s_votes s ->
  (forall id, s_props s !! id = None -> s_props s' !! id = None) ->
  told O d l b s -> told O d l b s'.
Proof.
  intros HI HP Hv Hn H id t' p' Ht' Hp'.
  destruct (s_props s !! id) as [p|] eqn:Hp; [|rewrite (Hn _ Hp) in Hp'; done].
  destruct (proj1 (si_dom _ _ HI id) ltac:(eauto)) as [t Ht].
  destruct (H id t p Ht Hp) as (Q & v0 & b0 & A & B & C & D & E & F).
  destruct (prop_ok_prim Q Oc d b s s' id t p A HI Ht Hp B HP) as (t1 & p1 & Ht1 & Hp1 & B1 & T1 & T2).
  { intros a r H1 H2. rewrite Hv in H2. congruence. }
  rewrite Ht' in Ht1. injection Ht1 as <-. rewrite Hp' in Hp1. injection Hp1 as <-.
  destruct (tally_terms_start _ _ T2) as [Es _]. apply terms_total in T1.
  exists Q, v0, b0. rewrite Es, T1, Hv. done.
Qed.
Lemma told_step O d l e :
  all_typed O -> legit (xhandle O) xon_fail xon_ok any_msg (fun _ xs => sinv d (x_s xs)) xpend e ->
  told O d l (ev_block e) (x_s (ev_pre e)) -> told O d (l ++ [e]) (ev_block e) (x_s (ev_post e)).
Proof.
  intros HT (HI & HI' & H) HK.
  destruct e as [pre b a m post subs|pre b x ok post]; simpl in *.
  - destruct H as [_ H]. pose proof (told_mono O d l [ECall pre b a m post subs] b (x_s pre) HK) as HK1.
    assert (ECall pre b a m post subs ∈ l ++ [ECall pre b a m post subs]) as Hin.
    { apply elem_of_app. right. by left. }
    destruct (xhandle_shape _ _ _ _ _ _ _ H) as [(m' & -> & E & Em)|(v & -> & _ & E & Em & _)]; [|by rewrite E].
    pose proof (handle_prim _ _ _ _ _ _ _ E) as HP.
    intros id t' p' Ht' Hp'.
    destruct (s_props (x_s pre) !! id) as [p|] eqn:Hp.
    + destruct (proj1 (si_dom _ _ HI id) ltac:(eauto)) as [t Ht].
      destruct (HK1 id t p Ht Hp) as (Q & v0 & b0 & A & B & C & D & Et & F).
      pose proof (si_dao _ _ HI) as Hd.
      destruct (handle_votes _ _ _ _ _ _ _ E) as [Hv|(i & r & t1 & -> & Hv & Hnone & _)].
      { destruct (prop_ok_prim Q _ d b _ _ id t p A HI Ht Hp B HP) as (t1 & p1 & Ht1 & Hp1 & B1 & T1 & T2).
        { intros a' r H1 H2. rewrite Hv in H2. congruence. }
        rewrite Ht' in Ht1. injection Ht1 as <-. rewrite Hp' in Hp1. injection Hp1 as <-.
        destruct (tally_terms_start _ _ T2) as [Es _]. apply terms_total in T1.
        exists Q, v0, b0. rewrite Es, T1, Hv. done. }
      destruct (decide (i = id)) as [->|Hne].
      * set (w := vp (O (x_mod pre)) d a (t_start t)).
        assert (0 <= w) as Hw by apply (HT (x_mod pre)).
        assert (prop_ok (over Q d a (t_start t) w) (x_s pre) b id t p) as B'.
        { eapply prop_ok_agree; [done|exact B| |done]. rewrite Hd. intros a' [r' Hr'].
          apply over_other. intros ->. congruence. }
        destruct (prop_ok_prim (over Q d a (t_start t) w) _ d b _ _ id t p (over_typed _ _ _ _ _ A Hw) HI Ht Hp B' HP)
          as (t2 & p2 & Ht2 & Hp2 & B2 & T1 & T2).
        { intros a' r' H1 H2. rewrite Hv in H2. rewrite Hd.
          destruct (decide (a' = a)) as [->|Hn]; [by rewrite over_at|].
          rewrite lookup_insert_ne in H2 by congruence. congruence. }
        rewrite Ht' in Ht2. injection Ht2 as <-. rewrite Hp' in Hp2. injection Hp2 as <-.
        destruct (tally_terms_start _ _ T2) as [Es _]. apply terms_total in T1.
        exists (over Q d a (t_start t) w), v0, b0. rewrite Es, T1.
        split; [by apply over_typed|]. split; [done|]. split; [done|]. split; [done|]. split; [done|].
        intros a' r' Hr'. rewrite Hv in Hr'. destruct (decide (a' = a)) as [->|Hn].
        -- rewrite lookup_insert in Hr'. injection Hr' as <-. exists (x_mod pre).
           split; [|apply over_at]. exists pre, b, post, subs. done.
        -- rewrite lookup_insert_ne in Hr' by congruence. rewrite over_other by done. by apply F.
      * destruct (prop_ok_prim Q _ d b _ _ id t p A HI Ht Hp B HP) as (t2 & p2 & Ht2 & Hp2 & B2 & T1 & T2).
        { intros a' r' H1 H2. rewrite Hv, lookup_insert_ne in H2 by congruence. congruence. }
        rewrite Ht' in Ht2. injection Ht2 as <-. rewrite Hp' in Hp2. injection Hp2 as <-.
        destruct (tally_terms_start _ _ T2) as [Es _]. apply terms_total in T1.
        exists Q, v0, b0. rewrite Es, T1. split; [done|]. split; [done|]. split; [done|]. split; [done|]. split; [done|].
        intros a' r' Hr'. rewrite Hv, lookup_insert_ne in Hr' by congruence. by apply F.
    + destruct (handle_births _ _ _ _ _ _ _ id E Hp ltac:(eauto)) as [cs ->].
      simpl in E. apply propose_shape in E as (id0 & t0 & st & Hid & _ & Hcs & Ht0 & Hst & Hs' & Hsub).
      destruct (next_id _ _ _ HI Hid) as (_ & _ & Hnv & _).
      pose proof Ht' as Ht1. pose proof Hp' as Hp1. rewrite Hs' in Ht1, Hp1. simpl in Ht1, Hp1.
      destruct (decide (id0 = id)) as [->|Hne]; [|rewrite lookup_insert_ne in Hp1 by done; congruence].
      rewrite lookup_insert in Ht1. injection Ht1 as <-. rewrite lookup_insert in Hp1. injection Hp1 as <-.
      exists (O (x_mod pre)), (x_mod pre), b. split; [apply HT|].
      split; [rewrite Hs'; by eapply prop_ok_new|].
      assert (t_start t0 = height b) as Es.
      { unfold tally_new in Ht0. destruct (matrix_new _); [|discriminate].
        destruct (compute_winner _ _); [|discriminate]. by injection Ht0 as <-. }
      split; [|split; [done|split; [simpl; by rewrite (si_dao _ _ HI)|]]].
      * exists pre, a, cs, post, subs. split; [exact Hin|]. split; [done|]. split; [eauto|done].
      * intros a' r Hr. rewrite Hs' in Hr. simpl in Hr. rewrite Hnv in Hr. done.
  - apply told_mono. destruct ok.
    + destruct H as [_ [dd H]]. apply xon_ok_shape in H as [-> _]. done.
    + destruct H as [HP H]. apply xon_fail_shape in H as [H _].
      destruct (sfail_prim (O 0%N) _ _ _ _ _ HI HP H) as [HP1| ->]; [|done].
      apply on_fail_shape in H as (dd & i & ms & p & -> & Hp & E).
      eapply told_still; [exact HI|exact HP1|by rewrite E| |done].
      intros id Hn. rewrite E. simpl. rewrite lookup_insert_ne; [done|]. congruence.
Qed.
Lemma told_trace O d b0 xs l b1 xs' :
  all_typed O -> xtrace O d b0 xs l b1 xs' -> forall done,
  told O d done b0 (x_s xs) -> told O d (done ++ l) b1 (x_s xs').
Proof.
  intros HT. induction 1 as [b0 b1 s Hb|b0 s e l b1 s' Hb <- Hl Htr IH]; intros done HK.
  - rewrite app_nil_r. by eapply told_time.
  - change (e :: l) with ([e] ++ l). rewrite app_assoc.
    apply IH. apply told_step; [done..|]. by eapply told_time.
Qed.

(** ** Histories whose exchanges are calm *)
Definition calmed (O : addr -> oracle) (d : addr) (l : log xstate xmsg sub) (b : block) (cur : addr)
    (s : state) : Prop :=
  forall id t p, s_tallies s !! id = Some t -> s_props s !! id = Some p -> ~ terminal (p_status p) ->
  exists v b0, prop_ok (O v) s b id t p /\ born l id b0 v /\ height b0 = t_start t /\
    p_total p = tnow (O v) d b0 id /\
    (is_expired (t_exp t) b = false -> forall a, vp (O cur) d a (t_start t) = vp (O v) d a (t_start t)).
Definition ev_calm (O : addr -> oracle) (e : event xstate xmsg sub) : Prop :=
  match e with
  | ECall pre b a (XExchange v) post subs =>
      forall id p t, s_props (x_s pre) !! id = Some p -> s_tallies (x_s pre) !! id = Some t ->
        terminal (p_status p) \/ is_expired (t_exp t) b = true \/
        forall a, vp (O v) (s_dao (x_s pre)) a (t_start t) = vp (O (x_mod pre)) (s_dao (x_s pre)) a (t_start t)
  | _ => True
  end.
Lemma calm_forall O l : calm O l -> Forall (ev_calm O) l.
Proof.
  intros H. apply Forall_forall. intros e He. destruct e as [pre b a m post subs|]; [|done].
  destruct m as [m|v]; [done|]. intros id p t Hp. eapply H; [|exact Hp]. exists a, post, subs. exact He.
Qed.
Lemma calmed_mono O d l l' b cur s : calmed O d l b cur s -> calmed O d (l ++ l') b cur s.
Proof.
  intros H id t p Ht Hp Hn. destruct (H id t p Ht Hp Hn) as (v & b0 & A & B & C).
  exists v, b0. split; [done|]. split; [by apply born_mono|done].
Qed.
Lemma calmed_time O d l b b' cur s : block_le b b' -> calmed O d l b cur s -> calmed O d l b' cur s.
Proof.
  intros Hb H id t p Ht Hp Hn. destruct (H id t p Ht Hp Hn) as (v & b0 & A & B & C & D & E).
  exists v, b0. split; [by eapply prop_ok_time|]. split; [done|]. split; [done|]. split; [done|].
  intros Hx. apply E. destruct (is_expired (t_exp t) b) eqn:Ee; [|done].
  by rewrite (is_expired_mono _ _ _ Hb Ee) in Hx.
Qed.
Lemma calmed_prim O d l b cur s s' :
  all_typed O -> sinv d s -> prim (O cur) b s s' ->
  (forall id a r, s_votes s !! (id, a) = None -> s_votes s' !! (id, a) = Some r ->
     exists t, s_tallies s !! id = Some t /\ is_expired (t_exp t) b = false) ->
  calmed O d l b cur s ->
  forall id t' p', s_tallies s' !! id = Some t' -> s_props s' !! id = Some p' -> ~ terminal (p_status p') ->
    is_Some (s_props s !! id) ->
  exists v b0, prop_ok (O v) s' b id t' p' /\ born l id b0 v /\ height b0 = t_start t' /\
    p_total p' = tnow (O v) d b0 id /\
    (is_expired (t_exp t') b = false -> forall a, vp (O cur) d a (t_start t') = vp (O v) d a (t_start t')).
Proof.
  intros HT HI HP Hv HK id t' p' Ht' Hp' Hn' [p Hp].
  destruct (proj1 (si_dom _ _ HI id) ltac:(eauto)) as [t Ht].
  destruct (sprim_get _ _ _ _ _ _ _ _ HI HP Ht Hp) as (t1 & p1 & Ht1 & Hp1 & T1 & T2 & Hc).
  rewrite Ht' in Ht1. injection Ht1 as <-. rewrite Hp' in Hp1. injection Hp1 as <-.
  assert (~ terminal (p_status p)) as Hn.
  { destruct Hc as [[_ ->]|[[-> _]|(_ & st & st' & _ & -> & Hter & _)]]; [done..|]. by simpl in Hn'. }
  destruct (HK id t p Ht Hp Hn) as (v & b0 & A & B & C & D & E).
  destruct (prop_ok_prim (O v) (O cur) d b s s' id t p (HT v) HI Ht Hp A HP) as (t1 & p1 & Ht1 & Hp1 & A1 & _).
  { intros a r H1 H2. destruct (Hv _ _ _ H1 H2) as (t1 & Ht1 & Hx). rewrite (si_dao _ _ HI).
    apply E. congruence. }
  rewrite Ht' in Ht1. injection Ht1 as <-. rewrite Hp' in Hp1. injection Hp1 as <-.
  destruct (tally_terms_start _ _ T2) as [-> ->]. apply terms_total in T1. rewrite T1. exists v, b0. done.
Qed.
Lemma calmed_step O d l e :
  all_typed O -> legit (xhandle O) xon_fail xon_ok any_msg (fun _ xs => sinv d (x_s xs)) xpend e ->
  ev_calm O e -> calmed O d l (ev_block e) (x_mod (ev_pre e)) (x_s (ev_pre e)) ->
  calmed O d (l ++ [e]) (ev_block e) (x_mod (ev_post e)) (x_s (ev_post e)).
Proof.
  intros HT (HI & HI' & H) Hc HK.
  destruct e as [pre b a m post subs|pre b x ok post]; simpl in *.
  - destruct H as [_ H]. pose proof (calmed_mono O d l [ECall pre b a m post subs] b _ _ HK) as HK1.
    assert (ECall pre b a m post subs ∈ l ++ [ECall pre b a m post subs]) as Hin.
    { apply elem_of_app. right. by left. }
    destruct (xhandle_shape _ _ _ _ _ _ _ H) as [(m' & -> & E & Em)|(v & -> & _ & E & Em & _)].
    + rewrite Em. pose proof (handle_prim _ _ _ _ _ _ _ E) as HP.
      intros id t' p' Ht' Hp' Hn'.
      destruct (s_props (x_s pre) !! id) as [p|] eqn:Hp.
      * eapply calmed_prim; [done|exact HI|exact HP| |exact HK1|done|done|done|eauto].
        intros i a' r H1 H2. destruct (handle_votes _ _ _ _ _ _ _ E) as [Hv|(i' & r' & t1 & -> & Hv & Hnone & Ht1 & Hx)].
        { rewrite Hv in H2. congruence. }
        rewrite Hv in H2. destruct (decide ((i', a) = (i, a'))) as [[= -> ->]|Hne]; [eauto|].
        rewrite lookup_insert_ne in H2 by done. congruence.
      * destruct (handle_births _ _ _ _ _ _ _ id E Hp ltac:(eauto)) as [cs ->].
        simpl in E. apply propose_shape in E as (id0 & t0 & st & Hid & _ & Hcs & Ht0 & Hst & Hs' & Hsub).
        pose proof Ht' as Ht1. pose proof Hp' as Hp1. rewrite Hs' in Ht1, Hp1. simpl in Ht1, Hp1.
        destruct (decide (id0 = id)) as [->|Hne]; [|rewrite lookup_insert_ne in Hp1 by done; congruence].
        rewrite lookup_insert in Ht1. injection Ht1 as <-. rewrite lookup_insert in Hp1. injection Hp1 as <-.
        exists (x_mod pre), b. split; [rewrite Hs'; eapply prop_ok_new; [apply HT|done..]|].
        assert (t_start t0 = height b) as Es.
        { unfold tally_new in Ht0. destruct (matrix_new _); [|discriminate].
          destruct (compute_winner _ _); [|discriminate]. by injection Ht0 as <-. }
        split; [|split; [done|split; [simpl; by rewrite (si_dao _ _ HI)|done]]].
        exists pre, a, cs, post, subs. split; [exact Hin|]. split; [done|]. split; [eauto|done].
    + rewrite E, Em. intros id t p Ht Hp Hn. destruct (HK1 id t p Ht Hp Hn) as (v' & b0 & A & B & C & D & F).
      exists v', b0. split; [done|]. split; [done|]. split; [done|]. split; [done|].
      intros Hx a'. destruct (Hc id p t Hp Ht) as [?|[Hx'|Hq]]; [done|congruence|].
      rewrite (si_dao _ _ HI) in Hq. rewrite Hq. by apply F.
  - apply calmed_mono. destruct ok.
    + destruct H as [_ [dd H]]. apply xon_ok_shape in H as [-> ->]. done.
    + destruct H as [HP H]. apply xon_fail_shape in H as [H ->].
      destruct (sfail_prim (O (x_mod pre)) _ _ _ _ _ HI HP H) as [HP1| ->]; [|done].
      apply on_fail_shape in H as (dd & i & ms & p & -> & Hp & E).
      intros id t' p' Ht' Hp' Hn'.
      eapply calmed_prim; [done|exact HI|exact HP1| |exact HK|done|done|done|].
      * intros i' a' r H1 H2. rewrite E in H2. simpl in H2. congruence.
      * rewrite E in Hp'. simpl in Hp'. destruct (decide (i = id)) as [->|]; [eauto|].
        rewrite lookup_insert_ne in Hp' by done. eauto.
Qed.
Lemma calmed_trace O d b0 xs l b1 xs' :
  all_typed O -> xtrace O d b0 xs l b1 xs' -> Forall (ev_calm O) l -> forall done,
  calmed O d done b0 (x_mod xs) (x_s xs) -> calmed O d (done ++ l) b1 (x_mod xs') (x_s xs').
Proof.
  intros HT. induction 1 as [b0 b1 s Hb|b0 s e l b1 s' Hb <- Hl Htr IH]; intros Hc done HK.
  - rewrite app_nil_r. by eapply calmed_time.
  - inversion Hc as [|? ? Hce Hcl]; subst. change (e :: l) with ([e] ++ l). rewrite app_assoc.
    apply IH; [done|]. apply calmed_step; [done..|]. by eapply calmed_time.
Qed.

(** ** Reached states *)
Lemma reached_xtrace O b xs l : xreached O b xs l ->
  sinv (s_dao (x_s xs)) (x_s xs) /\
  exists b0 xs0, fresh (x_s xs0) /\ xtrace O (s_dao (x_s xs)) b0 xs0 l b xs.
Proof.
  intros (b0 & xs0 & h & Hf & Hh & Hr & Hb).
  destruct (exch_trace O (s_dao (x_s xs0)) b0 xs0 h xs l (fresh_sinv _ Hf) Hh Hr) as [HI HTr].
  rewrite (si_dao _ _ HI). split; [done|]. exists b0, xs0. split; [done|].
  replace l with (l ++ []) by apply app_nil_r. eapply trace_app; [exact HTr|by constructor].
Qed.
Lemma fresh_none s : fresh s -> forall id, s_tallies s !! id = None.
Proof. intros (-> & _) id. apply lookup_empty. Qed.
Lemma reached_told O b xs l : all_typed O -> xreached O b xs l -> told O (s_dao (x_s xs)) l b (x_s xs).
Proof.
  intros HT HR. destruct (reached_xtrace _ _ _ _ HR) as (_ & b0 & xs0 & Hf & HTr).
  apply (told_trace O _ b0 xs0 l b xs HT HTr []). intros id t p Ht. by rewrite fresh_none in Ht.
Qed.
Lemma reached_calmed O b xs l : all_typed O -> xreached O b xs l -> calm O l ->
  calmed O (s_dao (x_s xs)) l b (x_mod xs) (x_s xs).
Proof.
  intros HT HR Hc. destruct (reached_xtrace _ _ _ _ HR) as (_ & b0 & xs0 & Hf & HTr).
  apply (calmed_trace O _ b0 xs0 l b xs HT HTr (calm_forall _ _ Hc) []).
  intros id t p Ht. by rewrite fresh_none in Ht.
Qed.
(** The same in the state before any committed event. *)
Lemma event_told O b xs l e : all_typed O -> xreached O b xs l -> e ∈ l ->
  legit (xhandle O) xon_fail xon_ok any_msg (fun _ ys => sinv (s_dao (x_s xs)) (x_s ys)) xpend e /\
  told O (s_dao (x_s xs)) l (ev_block e) (x_s (ev_pre e)) /\
  (calm O l -> calmed O (s_dao (x_s xs)) l (ev_block e) (x_mod (ev_pre e)) (x_s (ev_pre e))).
Proof.
  intros HT HR He. destruct (reached_xtrace _ _ _ _ HR) as (_ & b0 & xs0 & Hf & HTr).
  apply elem_of_list_split in He as (l1 & l2 & ->).
  destruct (trace_split _ _ _ _ _ _ _ _ _ _ _ _ HTr) as (bm & sm & H1 & H2).
  inversion H2 as [|? ? ? ? ? ? Hle Hpre Hleg Htr]; subst.
  split; [done|]. split.
  - apply told_mono. eapply told_time; [exact Hle|].
    apply (told_trace O _ b0 xs0 l1 bm _ HT H1 []). intros id t p Ht. by rewrite fresh_none in Ht.
  - intros Hc. apply calm_forall, Forall_app in Hc as [Hc _].
    apply calmed_mono. eapply calmed_time; [exact Hle|].
    apply (calmed_trace O _ b0 xs0 l1 bm _ HT H1 Hc []). intros id t p Ht. by rewrite fresh_none in Ht.
Qed.

(** Invariants of the Condorcet module. *)
From Verif Require Import Base BaseProofs Exec ExecProofs VotingModel VotingSpec
  VotingProofs CondModel CondSpec CondMatrix CondWinner.

(** ** Winner specification *)
Definition anti (n : Z) (mg : Z -> Z -> Z) : Prop :=
  forall x y, inr n x -> inr n y -> x <> y -> mg y x = - mg x y.
Lemma ahead_unique n mg c c' : anti n mg -> ahead n mg c 0 -> ahead n mg c' 0 -> c = c'.
Proof.
  intros HA [Hc H] [Hc' H']. destruct (decide (c = c')) as [|Hne]; [done|].
  specialize (H c' Hc' ltac:(congruence)). specialize (H' c Hc Hne).
  rewrite (HA c c') in H' by done. lia.
Qed.
Lemma winner_spec_inj n mg out w w' :
  anti n mg -> winner_spec n mg out w -> winner_spec n mg out w' -> w = w'.
Proof.
  intros HA. pose proof (ahead_unique n mg) as U.
  destruct w as [| |c|c], w' as [| |c'|c']; simpl; intros [H1 H2] [H1' H2']; try done;
    try (exfalso; by eapply H1); try (exfalso; by eapply H1').
  - exfalso. destruct H2' as [c H]. by apply (H2 c).
  - exfalso. destruct H2 as [c H]. by apply (H2' c).
  - f_equal. by apply U.
  - assert (c = c') as -> by (by apply U). done.
  - assert (c = c') as -> by (by apply U). done.
  - f_equal. by apply U.
Qed.
(** Adding one vote of power [p] within the outstanding power. *)
Definition moved (n : Z) (mg mg' : Z -> Z -> Z) (p : Z) : Prop :=
  forall x y, inr n x -> inr n y -> x <> y -> mg x y - p <= mg' x y <= mg x y + p.
Lemma undisputed_stays n mg mg' out p c :
  moved n mg mg' p -> 0 <= p <= out -> winner_spec n mg out (WUndisputed c) ->
  winner_spec n mg' (out - p) (WUndisputed c).
Proof.
  intros HM Hp [[Hc H0] [_ H]]. simpl. split; (split; [done|]); intros y Hy Hne;
    specialize (H y Hy Hne); specialize (HM c y Hc Hy ltac:(congruence)); lia.
Qed.
Lemma never_stays n mg mg' out p :
  2 <= n -> moved n mg mg' p -> 0 <= p <= out -> winner_spec n mg out WNever ->
  winner_spec n mg' (out - p) WNever.
Proof.
  intros Hn HM Hp [H0 H]. simpl. split.
  - intros c [Hc Ha]. destruct (decide (0 < out)) as [Ho|Ho].
    + apply (H c). split; [done|]. split; [done|]. intros y Hy Hne.
      specialize (Ha y Hy Hne). specialize (HM c y Hc Hy ltac:(congruence)). lia.
    + apply (H0 c). split; [done|]. intros y Hy Hne.
      specialize (Ha y Hy Hne). specialize (HM c y Hc Hy ltac:(congruence)). lia.
  - intros c [Ho [Hc Ha]]. apply (H c). split; [lia|]. split; [done|]. intros y Hy Hne.
    specialize (Ha y Hy Hne). specialize (HM c y Hc Hy ltac:(congruence)). lia.
Qed.

(** ** Shapes of the handlers *)
Definition new_prop (O : oracle) (s : state) (b : block) (a : addr) (id : Z)
    (choices : list (list Z)) (st : cstatus) : proposal :=
  Proposal st a (c_quorum (s_cfg s)) (option_map (fun d => after d b) (c_min (s_cfg s)))
    (c_close_on_fail (s_cfg s)) (tnow O (s_dao s) b id) id (choices ++ [[]]).

Lemma update_status_ok b p t p' :
  update_status b p t = Ok p' -> exists st, status_at b p t = Ok st /\ p' = set_status p st.
Proof. unfold update_status. intros H. res_inv H. eauto. Qed.

Lemma propose_shape O s b a choices s' subs :
  execute_propose O s b a choices = Ok (s', subs) ->
  exists id t st, next_proposal_id s = Ok id /\ vnow O (s_dao s) a b id <> 0 /\ choices <> [] /\
    tally_new (Z.of_nat (length (choices ++ [[]]))) (tnow O (s_dao s) b id) (height b)
      (after (c_period (s_cfg s)) b) = Ok t /\
    status_at b (new_prop O s b a id choices COpen) t = Ok st /\
    s' = State (s_dao s) (s_cfg s) (<[id := t]> (s_tallies s))
           (<[id := new_prop O s b a id choices st]> (s_props s)) (s_votes s) /\ subs = [].
Proof.
  unfold execute_propose. intros H.
  destruct (next_proposal_id s) as [id|] eqn:E1; [|discriminate].
  destruct (negb (_ =? 0)) eqn:E2; [|discriminate].
  destruct (negb (length choices =? 0)%nat) eqn:E3; [|discriminate].
  destruct (tally_new _ _ _ _) as [t|] eqn:E4; [|discriminate].
  destruct (update_status _ _ _) as [p|] eqn:E5; [|discriminate].
  apply update_status_ok in E5 as (st & Hst & ->). injection H as <- <-.
  exists id, t, st. split; [done|]. split; [lia|].
  split; [intros ->; discriminate|]. repeat (split; [done|]). done.
Qed.
Lemma vote_shape O s b a id vote s' subs :
  execute_vote O s b a id vote = Ok (s', subs) ->
  exists t vote' t', s_tallies s !! id = Some t /\ vp O (s_dao s) a (t_start t) <> 0 /\
    s_votes s !! (id, a) = None /\ is_expired (t_exp t) b = false /\
    vote_new vote (m_n (t_m t)) = Ok vote' /\
    tally_add_vote t vote' (vp O (s_dao s) a (t_start t)) = Ok t' /\
    s' = State (s_dao s) (s_cfg s) (<[id := t']> (s_tallies s)) (s_props s)
           (<[(id, a) := vote']> (s_votes s)) /\ subs = [].
Proof.
  unfold execute_vote. intros H.
  destruct (s_tallies s !! id) as [t|] eqn:E1; [|discriminate].
  destruct (negb (_ =? 0)) eqn:E2; [|discriminate].
  destruct (s_votes s !! (id, a)) eqn:E3; [discriminate|].
  destruct (negb (is_expired (t_exp t) b)) eqn:E4; [|discriminate].
  destruct (vote_new _ _) as [vote'|] eqn:E5; [|discriminate].
  destruct (tally_add_vote _ _ _) as [t'|] eqn:E6; [|discriminate].
  injection H as <- <-. exists t, vote', t'. split; [done|]. split; [lia|]. split; [done|].
  split; [by apply negb_true_iff|]. done.
Qed.
Lemma execute_shape O s b a id s' subs :
  execute_execute O s b a id = Ok (s', subs) ->
  exists t p w ms, s_tallies s !! id = Some t /\ vp O (s_dao s) a (t_start t) <> 0 /\
    s_props s !! id = Some p /\ status_at b p t = Ok (CPassed w) /\
    p_choices p !! Z.to_nat w = Some ms /\
    s' = State (s_dao s) (s_cfg s) (s_tallies s) (<[id := set_status p CExecuted]> (s_props s))
           (s_votes s) /\ subs = [SExec (s_dao s) (p_id p) ms (p_close_on_fail p)].
Proof.
  unfold execute_execute. intros H.
  destruct (s_tallies s !! id) as [t|] eqn:E1; [|discriminate].
  destruct (negb (_ =? 0)) eqn:E2; [|discriminate].
  destruct (s_props s !! id) as [p|] eqn:E3; [|discriminate].
  destruct (update_status _ _ _) as [p'|] eqn:E5; [|discriminate].
  apply update_status_ok in E5 as (st & Hst & ->). simpl in H.
  destruct st as [| |w| | |]; try discriminate.
  destruct (p_choices p !! Z.to_nat w) as [ms|] eqn:E6; [|discriminate].
  injection H as <- <-. exists t, p, w, ms. split; [done|]. split; [lia|]. done.
Qed.
Lemma close_shape s b id s' subs :
  execute_close s b id = Ok (s', subs) ->
  exists t p, s_tallies s !! id = Some t /\ s_props s !! id = Some p /\
    status_at b p t = Ok CRejected /\
    s' = State (s_dao s) (s_cfg s) (s_tallies s) (<[id := set_status p CClosed]> (s_props s))
           (s_votes s) /\ subs = [].
Proof.
  unfold execute_close. intros H.
  destruct (s_tallies s !! id) as [t|] eqn:E1; [|discriminate].
  destruct (s_props s !! id) as [p|] eqn:E3; [|discriminate].
  destruct (update_status _ _ _) as [p'|] eqn:E5; [|discriminate].
  apply update_status_ok in E5 as (st & Hst & ->). simpl in H.
  destruct st; try discriminate. injection H as <- <-. eauto 10.
Qed.
Lemma set_config_shape s a c s' subs :
  execute_set_config s a c = Ok (s', subs) ->
  exists c', a = s_dao s /\ validate_config c = Ok c' /\
    s' = State (s_dao s) c' (s_tallies s) (s_props s) (s_votes s) /\ subs = [].
Proof.
  unfold execute_set_config. intros H. destruct (a =? s_dao s)%N eqn:E; [|discriminate].
  destruct (validate_config c) as [c'|] eqn:E2; [|discriminate]. injection H as <- <-.
  exists c'. split; [by apply N.eqb_eq|]. done.
Qed.
Lemma on_fail_shape s b x s' :
  on_fail s b x = Ok s' ->
  exists d id ms p, x = SExec d id ms true /\ s_props s !! id = Some p /\
    s' = State (s_dao s) (s_cfg s) (s_tallies s)
           (<[id := set_status p CExecutionFailed]> (s_props s)) (s_votes s).
Proof.
  destruct x as [d id ms [|]]; simpl; [|discriminate].
  destruct (s_props s !! id) as [p|] eqn:E; [|discriminate]. intros [= <-]. eauto 10.
Qed.

(** ** Primitive state changes *)
Inductive prim (O : oracle) (b : block) : state -> state -> Prop :=
| prim_new s a id choices t st :
    next_proposal_id s = Ok id -> choices <> [] ->
    tally_new (Z.of_nat (length (choices ++ [[]]))) (tnow O (s_dao s) b id) (height b)
      (after (c_period (s_cfg s)) b) = Ok t ->
    status_at b (new_prop O s b a id choices COpen) t = Ok st ->
    prim O b s (State (s_dao s) (s_cfg s) (<[id := t]> (s_tallies s))
           (<[id := new_prop O s b a id choices st]> (s_props s)) (s_votes s))
| prim_vote s a id t vote t' :
    s_tallies s !! id = Some t -> vp O (s_dao s) a (t_start t) <> 0 ->
    s_votes s !! (id, a) = None -> is_expired (t_exp t) b = false ->
    vote_new vote (m_n (t_m t)) = Ok vote ->
    tally_add_vote t vote (vp O (s_dao s) a (t_start t)) = Ok t' ->
    prim O b s (State (s_dao s) (s_cfg s) (<[id := t']> (s_tallies s)) (s_props s)
           (<[(id, a) := vote]> (s_votes s)))
| prim_fin s id t p st st' :
    s_tallies s !! id = Some t -> s_props s !! id = Some p -> status_at b p t = Ok st ->
    ((exists w ms, st = CPassed w /\ p_choices p !! Z.to_nat w = Some ms) /\ st' = CExecuted) \/
     (st = CRejected /\ st' = CClosed) \/ (st = CExecuted /\ st' = CExecutionFailed) ->
    prim O b s (State (s_dao s) (s_cfg s) (s_tallies s) (<[id := set_status p st']> (s_props s))
           (s_votes s))
| prim_cfg s c c' :
    validate_config c = Ok c' ->
    prim O b s (State (s_dao s) c' (s_tallies s) (s_props s) (s_votes s)).

Lemma vote_new_same vote n vote' : vote_new vote n = Ok vote' -> vote' = vote.
Proof.
  unfold vote_new. destruct (_ =? _); [|discriminate].
  assert (forall v seen, check_vote v seen n = Ok vote' -> vote' = seen ++ v) as H.
  { induction v as [|x v IH]; intros seen H; simpl in H.
    - injection H as <-. by rewrite app_nil_r.
    - destruct (u32 x) as [x'|] eqn:Eu; [|discriminate]. apply u32_ok in Eu as [-> _].
      destruct (x <? n); [|discriminate]. destruct (negb _); [|discriminate].
      apply IH in H as ->. by rewrite <- app_assoc. }
  apply H.
Qed.
Lemma handle_prim O s b a m s' subs :
  handle O s b a m = Ok (s', subs) -> prim O b s s'.
Proof.
  destruct m as [choices|id vote|id|id|c]; simpl; intros H.
  - apply propose_shape in H as (id & t & st & A & B & C & D & E & -> & ->).
    econstructor; done.
  - apply vote_shape in H as (t & vote' & t' & A & B & C & D & E & F & -> & ->).
    assert (vote' = vote) as -> by (by eapply vote_new_same). econstructor; done.
  - apply execute_shape in H as (t & p & w & ms & A & B & C & D & E & -> & ->).
    eapply prim_fin; eauto 10.
  - apply close_shape in H as (t & p & A & B & C & -> & ->). eapply prim_fin; eauto 10.
  - apply set_config_shape in H as (c' & -> & A & -> & ->). by eapply prim_cfg.
Qed.

(** ** The id counter *)
Lemma max_key_spec {V} (m : gmap Z V) k :
  0 <= k -> (forall id, is_Some (m !! id) <-> 1 <= id <= k) ->
  map_fold (fun id _ acc => Z.max id acc) 0 m = k.
Proof.
  intros Hk Hdom.
  assert (forall m : gmap Z V, (forall id, is_Some (m !! id) -> 1 <= id) ->
     0 <= map_fold (fun id _ acc => Z.max id acc) 0 m /\
     (forall id, is_Some (m !! id) -> id <= map_fold (fun id _ acc => Z.max id acc) 0 m) /\
     (map_fold (fun id _ acc => Z.max id acc) 0 m = 0 \/
      is_Some (m !! map_fold (fun id _ acc => Z.max id acc) 0 m))) as H.
  { clear m Hk Hdom. intros m.
    apply (map_fold_ind (fun r m => (forall id, is_Some (m !! id) -> 1 <= id) ->
      0 <= r /\ (forall id, is_Some (m !! id) -> id <= r) /\ (r = 0 \/ is_Some (m !! r)))).
    - intros _. split; [done|]. split; [|by left]. intros id. rewrite lookup_empty.
      intros [? ?]; discriminate.
    - intros i x m' r Hi IH Hd.
      assert (forall id, is_Some (m' !! id) -> 1 <= id) as Hd'.
      { intros id Hs. apply Hd. destruct (decide (id = i)) as [->|]; [rewrite Hi in Hs; by destruct Hs|].
        by rewrite lookup_insert_ne by done. }
      destruct (IH Hd') as (A & B & C).
      assert (1 <= i) by (apply Hd; rewrite lookup_insert; eauto).
      split; [lia|]. split.
      + intros id Hs. destruct (decide (id = i)) as [->|]; [lia|].
        rewrite lookup_insert_ne in Hs by done. specialize (B id Hs). lia.
      + destruct (decide (i <= r)).
        * replace (Z.max i r) with r by lia. destruct C as [->|C]; [by left|]. right.
          destruct (decide (r = i)) as [->|]; [rewrite lookup_insert; eauto|].
          by rewrite lookup_insert_ne by done.
        * right. replace (Z.max i r) with i by lia. rewrite lookup_insert. eauto. }
  destruct (H m) as (A & B & C).
  { intros id Hs. apply Hdom in Hs. lia. }
  set (r := map_fold _ 0 m) in *.
  destruct C as [C|C].
  - destruct (decide (k = 0)); [lia|].
    assert (is_Some (m !! 1)) as Hs by (apply Hdom; lia). specialize (B 1 Hs). lia.
  - apply Hdom in C. destruct (decide (r = k)); [done|].
    assert (is_Some (m !! k)) as Hs by (apply Hdom; lia). specialize (B k Hs). lia.
Qed.

(** ** Invariant *)
Definition quorum_met (p : proposal) (t : tally) : bool :=
  does_vote_count_pass (p_total p - t_outstanding t) (p_total p) (p_quorum p).
Definition pass_just (b : block) (p : proposal) (t : tally) (w : Z) : Prop :=
  quorum_met p t = true /\
  (t_winner t = WUndisputed w \/ (is_expired (t_exp t) b = true /\ t_winner t = WSome w)).
Definition rej_just (b : block) (p : proposal) (t : tally) : Prop :=
  t_winner t = WNever \/
  (is_expired (t_exp t) b = true /\ (quorum_met p t = false \/ t_winner t = WNone)).
Definition min_over (b : block) (p : proposal) : Prop :=
  forall e, p_min p = Some e -> is_expired e b = true.
Definition status_just (b : block) (p : proposal) (t : tally) : Prop :=
  match p_status p with
  | COpen => True
  | CPassed w => min_over b p /\ pass_just b p t w
  | CExecuted | CExecutionFailed => min_over b p /\ exists w, pass_just b p t w
  | CRejected | CClosed => min_over b p /\ rej_just b p t
  end.

Record prop_ok (O : oracle) (s : state) (b : block) (id : Z) (t : tally) (p : proposal) : Prop := {
  po_id : p_id p = id;
  po_mat : mat_ok (t_m t);
  po_n : m_n (t_m t) = Z.of_nat (length (p_choices p));
  po_mg : forall x y, inr (m_n (t_m t)) x -> inr (m_n (t_m t)) y -> x <> y ->
            mval (t_m t) x y = margin O s id x y;
  po_out : p_total p - t_outstanding t = voted_power O s id;
  po_out0 : 0 <= t_outstanding t;
  po_total : 0 <= p_total p <= U128_MAX;
  po_win : winner_spec (m_n (t_m t)) (mval (t_m t)) (t_outstanding t) (t_winner t);
  po_status : status_just b p t;
  po_start : t_start t <= height b;
  po_tnow : exists b0, height b0 = t_start t /\ p_total p = tnow O (s_dao s) b0 id }.

Record inv (O : oracle) (d : addr) (b : block) (s : state) : Prop := {
  i_dao : s_dao s = d;
  i_ids : exists k, 0 <= k /\ forall id, is_Some (s_props s !! id) <-> 1 <= id <= k;
  i_dom : forall id, is_Some (s_props s !! id) <-> is_Some (s_tallies s !! id);
  i_votes : forall id a l, s_votes s !! (id, a) = Some l ->
      exists t, s_tallies s !! id = Some t /\ ranking (m_n (t_m t)) l;
  i_props : forall id t p, s_tallies s !! id = Some t -> s_props s !! id = Some p ->
      prop_ok O s b id t p }.

Lemma is_expired_le e b b' : block_le b b' -> is_expired e b = true -> is_expired e b' = true.
Proof. intros. by eapply is_expired_mono. Qed.
Lemma status_just_time b b' p t : block_le b b' -> status_just b p t -> status_just b' p t.
Proof.
  intros Hb. unfold status_just, pass_just, rej_just, min_over.
  assert (forall e, is_expired e b = true -> is_expired e b' = true) by (intros; by eapply is_expired_le).
  destruct (p_status p); naive_solver.
Qed.
Lemma inv_time O d b b' s : block_le b b' -> inv O d b s -> inv O d b' s.
Proof.
  intros Hb [A B C D E]. split; try done. intros id t p Ht Hp. destruct (E id t p Ht Hp).
  split; try done; [by eapply status_just_time|]. destruct Hb. lia.
Qed.

Lemma status_at_ok b p t st :
  status_at b p t = Ok st -> status_just b p t -> status_just b (set_status p st) t.
Proof.
  intros H HJ. unfold status_at in H.
  destruct (p_status p) eqn:Es; try (injection H as <-; unfold status_just in *; simpl; by rewrite Es in HJ).
  destruct (match p_min p with Some m => negb (is_expired m b) | None => false end) eqn:Em.
  { injection H as <-. done. }
  assert (min_over b p) as HM.
  { intros e He. rewrite He in Em. by apply negb_false_iff in Em. }
  destruct (sub128 _ _) as [turnout|] eqn:Et; [|discriminate].
  apply sub128_ok in Et as [-> Ht]. fold (quorum_met p t) in H.
  assert (min_over b (set_status p st)) as HM' by done.
  unfold status_just. simpl.
  destruct (is_expired (t_exp t) b) eqn:Ee, (quorum_met p t) eqn:Eq; simpl in H;
    try (injection H as <-; simpl; split; [done|]; unfold rej_just; tauto);
    destruct (t_winner t) eqn:Ew; injection H as <-; simpl; try done; split; try done;
    unfold pass_just, rej_just; rewrite Ew; unfold quorum_met in *; simpl in *; tauto.
Qed.

Lemma voted_nonneg O s id : typed O -> 0 <= voted_power O s id.
Proof.
  intros [HT _]. apply msum_nonneg. intros k v _. destruct (k.1 =? id); [apply HT|lia].
Qed.

Lemma outstanding_le O s id b t p :
  typed O -> prop_ok O s b id t p -> t_outstanding t <= U128_MAX.
Proof.
  intros HT []. pose proof (voted_nonneg O s id HT). lia.
Qed.
Lemma tally_add_vote_ok O s id b t p vote power t' :
  typed O -> prop_ok O s b id t p -> 0 < power -> ranking (m_n (t_m t)) vote ->
  tally_add_vote t vote power = Ok t' ->
  power <= t_outstanding t /\ t_exp t' = t_exp t /\ t_start t' = t_start t /\
  m_n (t_m t') = m_n (t_m t) /\ mat_ok (t_m t') /\
  t_outstanding t' = t_outstanding t - power /\
  (forall x y, inr (m_n (t_m t)) x -> inr (m_n (t_m t)) y -> x <> y ->
     mval (t_m t') x y = mval (t_m t) x y + power * sg vote x y) /\
  winner_spec (m_n (t_m t)) (mval (t_m t')) (t_outstanding t') (t_winner t').
Proof.
  intros HT HP Hp Hr H. unfold tally_add_vote in H.
  destruct (record_vote _ _ _ _) as [m|] eqn:E1; [|discriminate].
  destruct (sub128 _ _) as [out|] eqn:E2; [|discriminate].
  destruct (compute_winner m out) as [w|] eqn:E3; [|discriminate]. injection H as <-. simpl.
  apply sub128_ok in E2 as [-> Hle]. pose proof (outstanding_le _ _ _ _ _ _ HT HP).
  destruct HP as [_ HM _ _ Hout Hout0 Htot _ _ _ _].
  pose proof (mo_n _ HM) as Hn.
  assert (0 < power <= U128_MAX) as Hp' by lia.
  apply ranking_iff in Hr as (_ & Hnd & HF); [|lia].
  apply (record_vote_ok (m_n (t_m t))) in E1 as (HM' & Hn' & HV); [|done..].
  apply compute_winner_inv in E3; [|done]. rewrite Hn' in E3.
  repeat (split; [done|]). split; [|done].
  intros x y Hx Hy Hne. rewrite HV by done. simpl. unfold sg at 2. simpl. lia.
Qed.

Lemma winner_moved n mg mg' out p w w' :
  2 <= n -> anti n mg' -> moved n mg mg' p -> 0 <= p <= out ->
  winner_spec n mg out w -> winner_spec n mg' (out - p) w' ->
  (forall c, w = WUndisputed c -> w' = WUndisputed c) /\ (w = WNever -> w' = WNever).
Proof.
  intros Hn HA HM Hp H H'. split.
  - intros c ->. eapply winner_spec_inj; [done|done|]. by eapply undisputed_stays.
  - intros ->. eapply winner_spec_inj; [done|done|]. by eapply never_stays.
Qed.
Lemma mval_is_anti m : mat_ok m -> anti (m_n m) (mval m).
Proof. intros HM x y Hx Hy Hne. by apply mval_anti. Qed.

Lemma quorum_mono p t t' :
  0 <= p_total p -> t_outstanding t' <= t_outstanding t ->
  quorum_met p t = true -> quorum_met p t' = true.
Proof.
  intros H0 Hle. unfold quorum_met. rewrite !pass_iff by done. intros H.
  eapply near_mono_w; [exact H|lia].
Qed.

Lemma start_insert s id t' id' d c ps vs :
  (forall t, s_tallies s !! id = Some t -> t_start t' = t_start t) ->
  is_Some (s_tallies s !! id) ->
  start_of (State d c (<[id := t']> (s_tallies s)) ps vs) id' = start_of s id'.
Proof.
  intros H [t Ht]. unfold start_of. simpl. destruct (decide (id = id')) as [->|].
  - rewrite lookup_insert, Ht. by apply H.
  - by rewrite lookup_insert_ne by done.
Qed.

(** A vote by [a] on [id] adds its ranking to the margins and its power to the
    voted power. *)
Lemma vote_sums O s id t t' a vote (F : list Z -> Z) id' :
  s_tallies s !! id = Some t -> t_start t' = t_start t -> s_votes s !! (id, a) = None ->
  let s' := State (s_dao s) (s_cfg s) (<[id := t']> (s_tallies s)) (s_props s)
           (<[(id, a) := vote]> (s_votes s)) in
  msum (fun k l => if k.1 =? id' then vp O (s_dao s') k.2 (start_of s' id') * F l else 0) (s_votes s')
  = msum (fun k l => if k.1 =? id' then vp O (s_dao s) k.2 (start_of s id') * F l else 0) (s_votes s)
    + (if id =? id' then vp O (s_dao s) a (t_start t) * F vote else 0).
Proof.
  intros Ht Hst Hv s'.
  assert (start_of s' id' = start_of s id') as ->.
  { apply start_insert; [|eauto]. intros t0 Ht0. congruence. }
  unfold s'. cbn [s_dao s_votes]. rewrite msum_insert_new by done. simpl.
  destruct (Z.eqb_spec id id') as [->|]; [|lia].
  assert (start_of s id' = t_start t) as -> by (unfold start_of; by rewrite Ht). lia.
Qed.
Lemma voted_as_margin O s id :
  voted_power O s id =
  msum (fun k l => if k.1 =? id then vp O (s_dao s) k.2 (start_of s id) * (fun _ : list Z => 1) l else 0) (s_votes s).
Proof. apply msum_ext. intros k v _. destruct (k.1 =? id); lia. Qed.

Lemma no_votes_zero O s id (F : list Z -> Z) :
  (forall a, s_votes s !! (id, a) = None) -> forall st,
  msum (fun (k : Z * addr) l => if k.1 =? id then vp O (s_dao s) k.2 st * F l else 0) (s_votes s) = 0.
Proof.
  intros H st. etransitivity; [|apply (msum_zero (s_votes s))]. apply msum_ext.
  intros [i a] l Hl. simpl. destruct (Z.eqb_spec i id) as [->|]; [|done]. rewrite H in Hl. done.
Qed.

Lemma status_just_vote b n p t t' power :
  2 <= n -> anti n (mval (t_m t')) -> moved n (mval (t_m t)) (mval (t_m t')) power ->
  0 <= power <= t_outstanding t -> 0 <= p_total p ->
  t_outstanding t' = t_outstanding t - power -> t_exp t' = t_exp t ->
  is_expired (t_exp t) b = false ->
  winner_spec n (mval (t_m t)) (t_outstanding t) (t_winner t) ->
  winner_spec n (mval (t_m t')) (t_outstanding t') (t_winner t') ->
  status_just b p t -> status_just b p t'.
Proof.
  intros Hn HA HM Hp H0 Ho He Hexp W W' HJ. rewrite Ho in W'.
  destruct (winner_moved n _ _ _ _ _ _ Hn HA HM Hp W W') as [HU HN].
  assert (forall w, pass_just b p t w -> pass_just b p t' w) as HP.
  { intros w [Hq [Hw|[Hx _]]]; [|congruence]. split; [|left; by apply HU].
    eapply quorum_mono; [done| |done]. lia. }
  assert (rej_just b p t -> rej_just b p t') as HR.
  { intros [Hw|[Hx _]]; [|congruence]. left. by apply HN. }
  unfold status_just in *. destruct (p_status p); naive_solver.
Qed.

Lemma inv_prim O d b s s' : typed O -> inv O d b s -> prim O b s s' -> inv O d b s'.
Proof.
  intros HT HI HP. destruct HI as [Hdao (k & Hk & Hids) Hdom Hvotes Hprops].
  destruct HP as [s a id choices t st Hid Hch Ht Hst
                 |s a id t vote t' Ht Hvp Hnone Hexp Hvote Hadd
                 |s id t p st st' Ht Hp Hst Hcase
                 |s c c' Hc].
  - (* propose *)
    assert (id = k + 1) as ->.
    { unfold next_proposal_id in Hid. apply u32_ok in Hid as [-> _].
      rewrite (max_key_spec _ k Hk Hids). done. }
    assert (s_props s !! (k + 1) = None) as Hnp.
    { apply eq_None_not_Some. rewrite Hids. lia. }
    assert (s_tallies s !! (k + 1) = None) as Hnt.
    { apply eq_None_not_Some. rewrite <- Hdom, Hids. lia. }
    assert (forall a, s_votes s !! (k + 1, a) = None) as Hnv.
    { intros a'. destruct (s_votes s !! (k + 1, a')) as [l|] eqn:E; [|done].
      apply Hvotes in E as (t0 & Ht0 & _). congruence. }
    set (s' := State _ _ _ _ _).
    assert (forall id', id' <> k + 1 -> start_of s' id' = start_of s id') as Hs.
    { intros id' Hne. unfold start_of, s'. simpl. by rewrite lookup_insert_ne by done. }
    unfold tally_new in Ht.
    destruct (matrix_new _) as [m|] eqn:Em; [|discriminate].
    destruct (compute_winner m _) as [w|] eqn:Ew; [|discriminate]. injection Ht as Ht.
    assert (2 <= Z.of_nat (length (choices ++ [[]]))) as Hlen.
    { rewrite app_length. simpl. destruct choices; [done|]. simpl. lia. }
    apply matrix_new_ok in Em as (HM & Hn & HV); [|done].
    apply compute_winner_inv in Ew; [|done].
    split; unfold s' in *; cbn [s_dao s_cfg s_tallies s_props s_votes]; [done| | | |].
    + exists (k + 1). split; [lia|]. intros id. destruct (decide (id = k + 1)) as [->|].
      * rewrite lookup_insert. split; [lia|eauto].
      * rewrite lookup_insert_ne by done. rewrite Hids. lia.
    + intros id. destruct (decide (id = k + 1)) as [->|].
      * rewrite !lookup_insert. split; eauto.
      * rewrite !lookup_insert_ne by done. apply Hdom.
    + intros id a' l Hl. destruct (decide (id = k + 1)) as [->|]; [by rewrite Hnv in Hl|].
      rewrite lookup_insert_ne by done. by eapply Hvotes.
    + intros id t0 p0 Ht0 Hp0. destruct (decide (id = k + 1)) as [->|Hne].
      * rewrite lookup_insert in Ht0. rewrite lookup_insert in Hp0. injection Ht0 as <-. injection Hp0 as <-.
        destruct HT as [HT1 HT2]. rewrite <- Ht in *. split; simpl; try done.
        -- intros x y _ _ _. rewrite HV. unfold margin. symmetry.
           apply (no_votes_zero O s (k + 1) (fun l => sg l x y) Hnv).
        -- rewrite voted_as_margin.
           etransitivity; [|symmetry; apply (no_votes_zero O s (k + 1) (fun _ => 1) Hnv)]. lia.
        -- by apply HT2.
        -- apply (status_at_ok _ _ _ _ Hst). done.
        -- exists b. done.
      * rewrite lookup_insert_ne in Ht0 by done. rewrite lookup_insert_ne in Hp0 by done.
        destruct (Hprops id t0 p0 Ht0 Hp0) as [P1 P2 P3 P4 P5 P6 P7 P8 P9 P10 P11]. split; try done.
        -- intros x y Hx Hy Hxy. rewrite P4 by done. unfold margin. simpl. by rewrite Hs.
        -- rewrite P5. unfold voted_power. simpl. by rewrite Hs.
  - (* vote *)
    assert (is_Some (s_props s !! id)) as [p Hp] by (apply Hdom; eauto).
    pose proof (Hprops id t p Ht Hp) as HPO.
    pose proof (mo_n _ (po_mat _ _ _ _ _ _ HPO)) as Hn.
    apply vote_new_ok in Hvote as [_ Hrank]; [|lia].
    assert (0 < vp O (s_dao s) a (t_start t)) as Hpos.
    { destruct HT as [HT _]. specialize (HT (s_dao s) a (t_start t)). lia. }
    pose proof (tally_add_vote_ok _ _ _ _ _ _ _ _ _ HT HPO Hpos Hrank Hadd)
      as (Hle & He & Hs & Hn' & HM' & Ho & HV & HW).
    split; simpl; [done|by exists k| | |].
    + intros id'. destruct (decide (id = id')) as [->|].
      * rewrite lookup_insert, Hdom, Ht. split; eauto.
      * rewrite lookup_insert_ne by done. apply Hdom.
    + intros id' a' l Hl. destruct (decide ((id, a) = (id', a'))) as [[= -> ->]|Hne].
      * rewrite lookup_insert in Hl. injection Hl as <-. exists t'.
        rewrite lookup_insert. split; [done|]. by rewrite Hn'.
      * rewrite lookup_insert_ne in Hl by done. apply Hvotes in Hl as (t0 & Ht0 & Hr).
        destruct (decide (id = id')) as [->|].
        -- rewrite lookup_insert. exists t'. split; [done|]. rewrite Hn'. congruence.
        -- rewrite lookup_insert_ne by done. eauto.
    + intros id' t0 p0 Ht0 Hp0.
      assert (forall x y, margin O (State (s_dao s) (s_cfg s) (<[id := t']> (s_tallies s)) (s_props s)
           (<[(id, a) := vote]> (s_votes s))) id' x y = margin O s id' x y +
           (if id =? id' then vp O (s_dao s) a (t_start t) * sg vote x y else 0)) as Hmg.
      { intros x y. apply (vote_sums O s id t t' a vote (fun l => sg l x y) id' Ht Hs Hnone). }
      assert (voted_power O (State (s_dao s) (s_cfg s) (<[id := t']> (s_tallies s)) (s_props s)
           (<[(id, a) := vote]> (s_votes s))) id' = voted_power O s id' +
           (if id =? id' then vp O (s_dao s) a (t_start t) else 0)) as Hvw.
      { rewrite !voted_as_margin.
        rewrite (vote_sums O s id t t' a vote (fun _ => 1) id' Ht Hs Hnone).
        destruct (id =? id'); lia. }
      destruct (decide (id = id')) as [->|Hne].
      * rewrite lookup_insert in Ht0. injection Ht0 as <-.
        assert (p0 = p) as -> by congruence. rewrite Z.eqb_refl in Hmg, Hvw.
        destruct HPO as [P1 P2 P3 P4 P5 P6 P7 P8 P9 P10 P11]. split; try done.
        -- congruence.
        -- rewrite Hn'. intros x y Hx Hy Hxy. rewrite HV, P4, Hmg by done. done.
        -- rewrite Hvw. lia.
        -- lia.
        -- by rewrite Hn'.
        -- apply (status_just_vote b (m_n (t_m t)) p t t' (vp O (s_dao s) a (t_start t))); try done; try lia.
           ++ rewrite <- Hn'. by apply mval_is_anti.
           ++ intros x y Hx Hy Hxy. rewrite HV by done. pose proof (sg_bounds vote x y). nia.
        -- lia.
        -- rewrite Hs. done.
      * rewrite lookup_insert_ne in Ht0 by done.
        replace (id =? id') with false in Hmg, Hvw by lia.
        destruct (Hprops id' t0 p0 Ht0 Hp0) as [P1 P2 P3 P4 P5 P6 P7 P8 P9 P10 P11]. split; try done.
        -- intros x y Hx Hy Hxy. rewrite P4, Hmg by done. lia.
        -- rewrite Hvw. lia.
  - (* status change *)
    assert (forall id', is_Some (<[id:=set_status p st']> (s_props s) !! id') <-> is_Some (s_props s !! id')) as Hd.
    { intros id'. destruct (decide (id = id')) as [->|].
      - rewrite lookup_insert, Hp. split; eauto.
      - by rewrite lookup_insert_ne by done. }
    split; simpl; [done| |intros id'; rewrite Hd; apply Hdom|done|].
    + exists k. split; [done|]. intros id'. by rewrite Hd.
    + intros id' t0 p0 Ht0 Hp0. destruct (decide (id = id')) as [->|Hne].
      * rewrite lookup_insert in Hp0. injection Hp0 as <-.
        assert (t0 = t) as -> by congruence.
        destruct (Hprops id' t p Ht Hp) as [P1 P2 P3 P4 P5 P6 P7 P8 P9 P10 P11]. split; try done.
        apply (status_at_ok _ _ _ _ Hst) in P9. unfold status_just in *. simpl in *.
        destruct Hcase as [[(w & ms & -> & _) ->]|[[-> ->]|[-> ->]]]; naive_solver.
      * rewrite lookup_insert_ne in Hp0 by done.
        destruct (Hprops id' t0 p0 Ht0 Hp0). split; try done.
  - split; simpl; try done; [by exists k|].
    intros id t p Ht Hp. destruct (Hprops id t p Ht Hp). split; try done.
Qed.

(** ** Histories *)
Definition pend (b : block) (s : state) (x : sub) : Prop :=
  match x with SExec _ id _ _ => status_of s id = Some CExecuted \/ status_of s id = Some CExecutionFailed end.
(** A pending execution stays executed (or failed). *)
Lemma status_prim O d b s s' id :
  inv O d b s -> prim O b s s' ->
  (status_of s id = Some CExecuted \/ status_of s id = Some CExecutionFailed) ->
  (status_of s' id = Some CExecuted \/ status_of s' id = Some CExecutionFailed).
Proof.
  intros [Hdao (k & Hk & Hids) Hdom Hvotes Hprops] HP H. unfold status_of in *.
  destruct HP as [s a id' choices t st Hid Hch Ht Hst
                 |s a id' t vote t' Ht Hvp Hnone Hexp Hvote Hadd
                 |s id' t p st st' Ht Hp Hst Hcase
                 |s c c' Hc]; simpl; try done.
  - destruct (decide (id' = id)) as [->|]; [|by rewrite lookup_insert_ne by done].
    exfalso. unfold next_proposal_id in Hid. apply u32_ok in Hid as [-> _].
    rewrite (max_key_spec _ k Hk Hids) in H.
    destruct (s_props s !! (k + 1)) as [p|] eqn:E; [|destruct H; done].
    assert (is_Some (s_props s !! (k + 1))) as Hs by eauto. apply Hids in Hs. lia.
  - destruct (decide (id' = id)) as [->|]; [|by rewrite lookup_insert_ne by done].
    rewrite lookup_insert. simpl. rewrite Hp in H. simpl in H. unfold status_at in Hst.
    destruct H as [[= H]|[= H]]; rewrite H in Hst; injection Hst as <-;
      destruct Hcase as [[(w & ms & ? & _) ->]|[[? ->]|[? ->]]]; try done; tauto.
Qed.
Lemma fail_prim O d b s x s' :
  inv O d b s -> pend b s x -> on_fail s b x = Ok s' -> prim O b s s' \/ s' = s.
Proof.
  intros HI HP H. apply on_fail_shape in H as (dd & id & ms & p & -> & Hp & ->).
  simpl in HP. unfold status_of in HP. rewrite Hp in HP. simpl in HP.
  destruct (i_dom _ _ _ _ HI id) as [Hd _]. destruct (Hd ltac:(eauto)) as [t Ht].
  destruct HP as [[= HP]|[= HP]].
  - left. eapply prim_fin; [done|done| |].
    + unfold status_at. by rewrite HP.
    + right. right. done.
  - right. assert (set_status p CExecutionFailed = p) as -> by (destruct p; simpl in *; by subst).
    rewrite insert_id by done. by destruct s.
Qed.
Lemma handle_pend O d s b a m s' subs x :
  inv O d b s -> handle O s b a m = Ok (s', subs) -> x ∈ subs -> pend b s' x.
Proof.
  intros HI H Hx. destruct m as [choices|id vote|id|id|c]; simpl in H.
  - apply propose_shape in H as (id & t & st & _ & _ & _ & _ & _ & _ & ->).
    by apply not_elem_of_nil in Hx.
  - apply vote_shape in H as (t & vote' & t' & _ & _ & _ & _ & _ & _ & _ & ->).
    by apply not_elem_of_nil in Hx.
  - apply execute_shape in H as (t & p & w & ms & Ht & _ & Hp & _ & _ & -> & ->).
    apply elem_of_list_singleton in Hx as ->. simpl.
    destruct (i_props _ _ _ _ HI id t p Ht Hp) as [-> _]. unfold status_of. simpl.
    rewrite lookup_insert. by left.
  - apply close_shape in H as (t & p & _ & _ & _ & _ & ->). by apply not_elem_of_nil in Hx.
  - apply set_config_shape in H as (c' & _ & _ & _ & ->). by apply not_elem_of_nil in Hx.
Qed.

Notation ctrace O d := (trace (handle O) on_fail on_ok any_msg (inv O d) pend).
Lemma cond_trace O d h b0 s s' l :
  typed O -> inv O d b0 s -> hist_ok b0 h ->
  run_hist (handle O) on_fail on_ok s h = (s', l) ->
  inv O d (hist_end b0 h) s' /\ ctrace O d b0 s l (hist_end b0 h) s'.
Proof.
  intros HT HI Hh Hr.
  apply (run_hist_trace (handle O) on_fail on_ok any_msg (inv O d) pend); try done.
  - intros b s1 a m s2 subs HI1 _ H. split.
    + eapply inv_prim; [done|done|by eapply handle_prim].
    + intros x Hx. by eapply handle_pend.
  - intros b s1 x s2 HI1 HP H. destruct (fail_prim _ _ _ _ _ _ HI1 HP H) as [HP1| ->]; [|done].
    by eapply inv_prim.
  - intros b s1 x dd s2 HI1 _ [= <-]. done.
  - intros b s1 a m s2 subs x HI1 _ H. destruct x. apply (status_prim O d b s1 s2); [done|by eapply handle_prim].
  - intros b s1 x s2 y HI1 HP H. destruct (fail_prim _ _ _ _ _ _ HI1 HP H) as [HP1| ->]; [|done].
    destruct y. by apply (status_prim O d b s1 s2).
  - intros b s1 x dd s2 y HI1 _ [= <-]. done.
  - intros b b' s1 Hb HI1. by eapply inv_time.
  - apply hist_all_any.
Qed.
Lemma fresh_inv O b s : fresh s -> inv O (s_dao s) b s.
Proof.
  intros (E1 & E2 & E3 & _). split; [done| | | |].
  - exists 0. split; [lia|]. intros id. rewrite E2, lookup_empty. split; [intros [? ?]; done|lia].
  - intros id. rewrite E1, E2. split; intros [? H]; rewrite lookup_empty in H; done.
  - intros id a l. rewrite E3, lookup_empty. done.
  - intros id t p. rewrite E1, lookup_empty. done.
Qed.
Lemma reached_inv O b s l : typed O -> reached O b s l -> inv O (s_dao s) b s.
Proof.
  intros HT (b0 & s0 & h & Hf & Hh & Hr & Hb).
  destruct (cond_trace O (s_dao s0) h b0 s0 s l HT (fresh_inv O b0 s0 Hf) Hh Hr) as [HI _].
  rewrite (i_dao _ _ _ _ HI). by eapply inv_time.
Qed.
Lemma reached_trace O b s l : typed O -> reached O b s l ->
  exists b0 s0, fresh s0 /\ ctrace O (s_dao s) b0 s0 l b s.
Proof.
  intros HT (b0 & s0 & h & Hf & Hh & Hr & Hb).
  destruct (cond_trace O (s_dao s0) h b0 s0 s l HT (fresh_inv O b0 s0 Hf) Hh Hr) as [HI HTr].
  exists b0, s0. split; [done|]. rewrite (i_dao _ _ _ _ HI).
  replace l with (l ++ []) by apply app_nil_r. eapply trace_app; [exact HTr|by constructor].
Qed.
Lemma later_trace O d b s b' s' l :
  typed O -> inv O d b s -> later O b s b' s' l -> inv O d b' s' /\ ctrace O d b s l b' s'.
Proof.
  intros HT HI (h & Hh & Hr & Hb).
  destruct (cond_trace O d h b s s' l HT HI Hh Hr) as [HI' HTr].
  split; [by eapply inv_time|].
  replace l with (l ++ []) by apply app_nil_r. eapply trace_app; [exact HTr|by constructor].
Qed.
(** Each committed step is a primitive change or none. *)
Lemma legit_prim O d e :
  legit (handle O) on_fail on_ok any_msg (inv O d) pend e ->
  inv O d (ev_block e) (ev_pre e) /\ inv O d (ev_block e) (ev_post e) /\
  (prim O (ev_block e) (ev_pre e) (ev_post e) \/ ev_post e = ev_pre e).
Proof.
  intros (H1 & H2 & H). split; [done|]. split; [done|].
  destruct e as [pre b a m post subs|pre b x [|] post]; simpl in *.
  - left. eapply handle_prim. by apply H.
  - destruct H as [_ [dd [= ->]]]. by right.
  - destruct H as [HP H]. eapply fail_prim; done.
Qed.

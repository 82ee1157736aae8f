(** dao-proposal-single: tallies and outcomes under a sane voting module. *)
From Verif Require Import Base BaseProofs Exec ExecProofs VotingModel VotingSpec
  VotingProofs HooksModel SingleModel SingleSpec SingleProofs SingleLife.

(** ** Threshold ranges *)
Lemma thr_typed_range t : thr_typed t -> validate_threshold t = Ok tt -> thr_range t.
Proof.
  assert (forall p, pct_typed p -> validate_percentage p = Ok tt -> pct_range p) as Hp.
  { intros [|a]; simpl; [done|]. unfold DEC_ONE. intros Ha H.
    destruct (a =? 0); [discriminate|]. destruct (_ <? a) eqn:E; [discriminate|]. lia. }
  assert (forall p, pct_typed p -> validate_quorum p = Ok tt -> pct_range p) as Hq.
  { intros [|a]; simpl; [done|]. unfold DEC_ONE. intros Ha H.
    destruct (_ <? a) eqn:E; [discriminate|]. lia. }
  destruct t as [p|p q|n]; simpl; [by apply Hp| |done].
  intros [Tp Tq] H. destruct (validate_percentage p) as [[]|] eqn:E; [|discriminate].
  split; [by apply Hp|by apply Hq].
Qed.

(** ** Early pass test *)
Definition early_near (t : threshold) (total : Z) (v : votes) : Prop :=
  match t with
  | AbsolutePercentage p => share_near (v_yes v) (total - v_abstain v) p
  | ThresholdQuorum p q =>
      share_near (cast v) total q /\ share_near (v_yes v) (total - v_abstain v) p
  | AbsoluteCount n => n <= v_yes v
  end.

Lemma early_mono t T v v' :
  thr_range t -> at_least_billionth t -> early_near t T v ->
  votes_le v v' -> tally_ok T v' -> early_near t T v' /\ outcome_near t T v'.
Proof.
  unfold early_near, outcome_near, outcome, votes_le, tally_ok, cast.
  destruct t as [p|p q|n]; simpl.
  - intros Hr Hb H (Hy & Hn & Ha) (Py & Pn & Pa & Ht).
    assert (share_near (v_yes v') (T - v_abstain v') p); [|done].
    eapply near_mono; try done; lia.
  - intros [Hr _] Hb [H1 H2] (Hy & Hn & Ha) (Py & Pn & Pa & Ht).
    assert (share_near (v_yes v' + v_no v' + v_abstain v') T q).
    { eapply near_mono_w; [done|]. lia. }
    split; (split; [done|]); eapply near_mono; try done; lia.
  - intros _ _ H (Hy & _) _. lia.
Qed.

Lemma votes_le_refl v : votes_le v v.
Proof. unfold votes_le. lia. Qed.
Lemma votes_le_trans a b c : votes_le a b -> votes_le b c -> votes_le a c.
Proof. unfold votes_le. lia. Qed.

Lemma votes_total_ok T v :
  tally_ok T v -> T <= U128_MAX -> votes_total v = Ok (cast v).
Proof.
  unfold tally_ok, cast, votes_total. intros (A & B & C & D) HT.
  rewrite add128_eq by lia. rewrite add128_eq by lia. done.
Qed.

(** The pass test never aborts and computes the rule. *)
Definition pass_cond (p : proposal) (b : block) : Prop :=
  (p_revote p = true -> is_expired (p_exp p) b = true) /\ min_ok p b /\
  (if is_expired (p_exp p) b then outcome_near (p_thr p) (p_total p) (p_votes p)
   else early_near (p_thr p) (p_total p) (p_votes p)).

Lemma is_passed_spec p b :
  tally_ok (p_total p) (p_votes p) -> p_total p <= U128_MAX ->
  exists r, is_passed p b = Ok r /\ (r = true <-> pass_cond p b).
Proof.
  intros Hok HT. unfold is_passed, pass_cond, min_ok.
  destruct (p_revote p && negb (is_expired (p_exp p) b)) eqn:Er.
  { exists false. split; [done|]. split; [done|]. intros [H _].
    apply andb_true_iff in Er as [Er Ee]. rewrite (H Er) in Ee. done. }
  assert (p_revote p = true -> is_expired (p_exp p) b = true) as Hrev.
  { intros E. rewrite E in Er. by destruct (is_expired (p_exp p) b). }
  destruct (match p_min p with Some m => negb (is_expired m b) | None => false end) eqn:Em.
  { exists false. split; [done|]. split; [done|]. intros (_ & H & _).
    destruct (p_min p); [|done]. rewrite H in Em. done. }
  assert (match p_min p with Some m => is_expired m b = true | None => True end) as Hmin.
  { destruct (p_min p); [|done]. by destruct (is_expired e b). }
  pose proof (votes_total_ok _ _ Hok HT) as Htot.
  destruct Hok as (Hy & Hn & Ha & Hc).
  assert (sub128 (p_total p) (v_abstain (p_votes p)) =
            Ok (p_total p - v_abstain (p_votes p))) as Hopt.
  { apply sub128_eq. unfold cast in Hc. lia. }
  assert (forall P Q : Prop, (P <-> Q) ->
    (P <-> (p_revote p = true -> is_expired (p_exp p) b = true) /\
           match p_min p with Some m => is_expired m b = true | None => True end /\ Q)) as Hwrap.
  { intros P Q HPQ. tauto. }
  destruct (p_thr p) as [pc|t q|n].
  - rewrite Hopt. eexists. split; [done|]. apply Hwrap.
    rewrite pass_iff by (unfold cast in Hc; lia).
    unfold outcome_near, early_near; simpl. by destruct (is_expired _ _).
  - rewrite Htot.
    destruct (does_vote_count_pass (cast (p_votes p)) (p_total p) q) eqn:Eq; simpl.
    + apply pass_iff in Eq; [|unfold cast in *; lia].
      destruct (is_expired (p_exp p) b) eqn:Ex.
      * rewrite sub128_eq by (unfold cast; lia).
        eexists. split; [done|]. apply Hwrap. rewrite pass_iff by (unfold cast; lia).
        unfold outcome_near; simpl.
        replace (cast (p_votes p) - v_abstain (p_votes p))
          with (v_yes (p_votes p) + v_no (p_votes p)) by (unfold cast; lia). tauto.
      * rewrite Hopt. eexists. split; [done|]. apply Hwrap.
        rewrite pass_iff by (unfold cast in Hc; lia). unfold early_near. tauto.
    + exists false. split; [done|]. apply Hwrap. split; [done|].
      assert (~ share_near (cast (p_votes p)) (p_total p) q) as Hnq.
      { rewrite <- pass_iff by (unfold cast in *; lia). by rewrite Eq. }
      unfold outcome_near, early_near; simpl. destruct (is_expired _ _); tauto.
  - eexists. split; [done|]. apply Hwrap. unfold outcome_near, early_near; simpl.
    destruct (is_expired _ _); lia.
Qed.

Lemma rejected_with_fail n o p : rejected_with n o p = does_vote_count_fail n o p.
Proof.
  unfold rejected_with. destruct (decide (p = Percent DEC_ONE)) as [->|]; [|done].
  by rewrite fail_one_special.
Qed.

(** The reject test never aborts; before expiration it excludes every
    continuation. *)
Definition hopeless (p : proposal) : Prop :=
  forall v', votes_le (p_votes p) v' -> tally_ok (p_total p) v' ->
             ~ outcome_met (p_thr p) (p_total p) v'.

Lemma is_rejected_spec p b :
  tally_ok (p_total p) (p_votes p) -> p_total p <= U128_MAX -> thr_range (p_thr p) ->
  exists r, is_rejected p b = Ok r /\
    (r = true -> is_expired (p_exp p) b = false -> p_revote p = false /\ hopeless p).
Proof.
  intros Hok HT Hr. unfold is_rejected.
  destruct (p_revote p && negb (is_expired (p_exp p) b)) eqn:Er.
  { exists false. split; done. }
  assert (is_expired (p_exp p) b = false -> p_revote p = false) as Hrev.
  { intros E. rewrite E in Er. by destruct (p_revote p). }
  pose proof (votes_total_ok _ _ Hok HT) as Htot.
  destruct Hok as (Hy & Hn & Ha & Hc).
  assert (sub128 (p_total p) (v_abstain (p_votes p)) =
            Ok (p_total p - v_abstain (p_votes p))) as Hopt.
  { apply sub128_eq. unfold cast in Hc. lia. }
  unfold hopeless. destruct (p_thr p) as [pc|t q|n]; simpl in Hr.
  - rewrite Hopt. eexists. split; [done|]. rewrite rejected_with_fail.
    intros Hf Hx. split; [by apply Hrev|]. intros v' (L1 & L2 & L3) (O1 & O2 & O3 & O4).
    unfold outcome_met; simpl. unfold cast in *.
    eapply (fail_excludes_met (v_no (p_votes p)) (p_total p - v_abstain (p_votes p)) (v_no v')); try done; lia.
  - rewrite Htot. destruct Hr as [Hr1 Hr2].
    assert (forall o, sub128 (p_total p) (v_abstain (p_votes p)) = Ok o ->
       rejected_with (v_no (p_votes p)) o t = true ->
       forall v', votes_le (p_votes p) v' -> tally_ok (p_total p) v' ->
       ~ outcome_met (ThresholdQuorum t q) (p_total p) v') as Hno.
    { rewrite Hopt. intros o [= <-]. rewrite rejected_with_fail.
      intros Hf v' (L1 & L2 & L3) (O1 & O2 & O3 & O4).
      unfold outcome_met; simpl. unfold cast in *. intros [_ Hs]. revert Hs.
      eapply (fail_excludes_met (v_no (p_votes p)) (p_total p - v_abstain (p_votes p)) (v_no v')); try done; lia. }
    destruct (does_vote_count_pass (cast (p_votes p)) (p_total p) q),
      (is_expired (p_exp p) b) eqn:Ex.
    + rewrite sub128_eq by (unfold cast; lia). eexists. split; done.
    + rewrite Hopt in *. eexists. split; [done|]. eauto.
    + eexists. split; done.
    + rewrite Hopt in *. eexists. split; [done|]. eauto.
  - rewrite Htot. rewrite sub128_eq by done.
    rewrite add128_eq by (unfold cast in *; lia).
    eexists. split; [done|]. intros Hlt Hx. split; [by apply Hrev|].
    intros v' (L1 & L2 & L3) (O1 & O2 & O3 & O4). unfold outcome_met; simpl. unfold cast in *. lia.
Qed.
Lemma is_rejected_unexpired p b b' :
  is_expired (p_exp p) b = false -> is_expired (p_exp p) b' = false ->
  is_rejected p b = is_rejected p b'.
Proof. unfold is_rejected. intros -> ->. done. Qed.

(** Status computation never aborts. *)
Lemma current_status_total b0 p b :
  wprop b0 p -> tally_ok (p_total p) (p_votes p) -> p_total p <= U128_MAX ->
  thr_range (p_thr p) -> exists st, current_status p b = Ok st.
Proof.
  intros Hw Hok HT Hr. unfold current_status.
  destruct (p_status p); try (by eexists).
  - destruct (is_passed_spec p b Hok HT) as (r & -> & _).
    destruct r.
    + destruct (p_veto p) as [vc|] eqn:Ev; [|by eexists].
      destruct (w_veto _ _ Hw vc Ev) as [e ->]. destruct (is_expired e b); by eexists.
    + destruct (is_expired (p_exp p) b); [by eexists|].
      destruct (is_rejected_spec p b Hok HT Hr) as (r & -> & _). destruct r; by eexists.
  - destruct (is_expired e b); by eexists.
Qed.

(** ** Tallies equal ballots (no assumption needed) *)
Definition tally_inv (s : state) : Prop :=
  forall id p v, s_props s !! id = Some p -> tally_of p v = ballot_total s id v.

Lemma ballot_total_insert (m : gmap (Z * addr) ballot) id a bl id' v :
  msum (fun k bl => if decide (k.1 = id' /\ bl_vote bl = v) then bl_power bl else 0)
    (<[(id, a) := bl]> m) =
  msum (fun k bl => if decide (k.1 = id' /\ bl_vote bl = v) then bl_power bl else 0) m
  - (match m !! (id, a) with
     | Some c => if decide (id = id' /\ bl_vote c = v) then bl_power c else 0
     | None => 0 end)
  + (if decide (id = id' /\ bl_vote bl = v) then bl_power bl else 0).
Proof. rewrite msum_insert. destruct (m !! (id, a)); done. Qed.

Lemma add_vote_ok vs v w vs' :
  add_vote vs v w = Ok vs' ->
  vs' = match v with
        | Yes => Votes (v_yes vs + w) (v_no vs) (v_abstain vs)
        | No => Votes (v_yes vs) (v_no vs + w) (v_abstain vs)
        | Abstain => Votes (v_yes vs) (v_no vs) (v_abstain vs + w)
        end.
Proof.
  destruct v; simpl; (destruct (add128 _ _) eqn:E; [|discriminate]);
    apply add128_ok in E as [-> _]; congruence.
Qed.
Lemma remove_vote_ok vs v w vs' :
  remove_vote vs v w = Ok vs' ->
  vs' = match v with
        | Yes => Votes (v_yes vs - w) (v_no vs) (v_abstain vs)
        | No => Votes (v_yes vs) (v_no vs - w) (v_abstain vs)
        | Abstain => Votes (v_yes vs) (v_no vs) (v_abstain vs - w)
        end.
Proof.
  destruct v; simpl; (destruct (sub128 _ _) eqn:E; [|discriminate]);
    apply sub128_ok in E as [-> _]; congruence.
Qed.

Lemma prim_tally O b s s' : winv b s -> tally_inv s -> prim O b s s' -> tally_inv s'.
Proof.
  intros HI HT Hp. destruct Hp; intros i q v' Hq; unfold ballot_total in *; simpl in *.
  - destruct (decide (i = s_count s + 1)) as [->|Hne].
    + rewrite lookup_insert in Hq. injection Hq as <-.
      assert (msum (fun (k : Z * addr) bl => if decide (k.1 = s_count s + 1 /\ bl_vote bl = v')
               then bl_power bl else 0) (s_ballots s) = 0) as ->; [|by destruct v'].
      etransitivity; [|apply (msum_zero (s_ballots s))]. apply msum_ext. intros [i a] bl Hbl.
      cbn beta. destruct (decide ((i, a).1 = _ /\ _)) as [[Ei _]|]; [|done]. simpl in Ei. subst i.
      apply (wi_ballots _ _ HI) in Hbl. apply (wi_ids _ _ HI) in Hbl. lia.
    + rewrite lookup_insert_ne in Hq by done. exact (HT _ _ v' Hq).
  - rewrite ballot_total_insert. destruct (decide (i = id)) as [->|Hne].
    + rewrite lookup_insert in Hq. injection Hq as <-. simpl.
      specialize (HT id p v' H). unfold ballot_total in HT. rewrite <- HT. clear HT.
      unfold vote_result in H2. destruct (s_ballots s !! (id, a)) as [cur|].
      * destruct H2 as (_ & Hne & votes0 & Hr & Ha).
        apply remove_vote_ok in Hr. apply add_vote_ok in Ha. subst.
        destruct (bl_vote cur) eqn:Ec, v, v'; simpl;
          repeat (destruct (decide _) as [[? ?]|?]); try congruence; try tauto; try lia.
      * apply add_vote_ok in H2. subst.
        destruct v, v'; simpl;
          repeat (destruct (decide _) as [[? ?]|?]); try congruence; try tauto; try lia.
    + rewrite lookup_insert_ne in Hq by done. rewrite (HT i q v' Hq). unfold ballot_total.
      destruct (s_ballots s !! (id, a)); repeat (destruct (decide _) as [[? ?]|?]); try congruence; lia.
  - destruct (decide (i = id)) as [->|Hne].
    + rewrite lookup_insert in Hq. injection Hq as <-. exact (HT id p v' H).
    + rewrite lookup_insert_ne in Hq by done. exact (HT _ _ v' Hq).
  - rewrite ballot_total_insert, H. simpl. rewrite (HT i q v' Hq). unfold ballot_total. lia.
  - unfold ballot_total. rewrite H0. rewrite H in Hq. exact (HT _ _ v' Hq).
Qed.
Lemma prims_tally O b s s' : winv b s -> tally_inv s -> rtc (prim O b) s s' -> tally_inv s'.
Proof.
  intros HI HT H. induction H as [|s1 s2 s3 Hp Hr IH]; [done|].
  apply IH; [by eapply prim_winv|by eapply prim_tally].
Qed.
Lemma on_fail_tally s b x s' : tally_inv s -> on_fail s b x = Ok s' -> tally_inv s'.
Proof.
  intros HT H i q v Hq.
  destruct (on_fail_shape s b x s' H) as [(d & id & ms & p & -> & Hp & ->)|(Hx & E1 & E2 & E3 & E4)].
  - simpl in Hq. destruct (decide (i = id)) as [->|Hne].
    + rewrite lookup_insert in Hq. injection Hq as <-. by apply (HT id p v).
    + rewrite lookup_insert_ne in Hq by done. by apply HT.
  - unfold ballot_total. rewrite E2. apply HT. by rewrite <- E1.
Qed.
Lemma fresh_tally s : fresh s -> tally_inv s.
Proof. intros (_ & E & _) id p v. rewrite E, lookup_empty. done. Qed.

(** ** Ballot powers and outcomes *)
Record tprop (O : oracle) (d : addr) (b : block) (p : proposal) : Prop := {
  t_total : p_total p = tp O d (p_start p);
  t_thr : thr_range (p_thr p);
  t_pass : at_least_billionth (p_thr p) -> passed_like (p_status p) ->
    (p_revote p = false /\ early_near (p_thr p) (p_total p) (p_votes p)) \/
    (is_expired (p_exp p) b = true /\ outcome_near (p_thr p) (p_total p) (p_votes p));
  t_rej : rejected_like (p_status p) ->
    (p_revote p = false /\ hopeless p) \/
    (is_expired (p_exp p) b = true /\ ~ outcome_near (p_thr p) (p_total p) (p_votes p));
  t_open : p_status p = Open -> forall b', is_expired (p_exp p) b' = false ->
    is_rejected p b' = Ok false }.

Record tinv (O : oracle) (d : addr) (b : block) (s : state) : Prop := {
  ti_att : attached d s;
  ti_tally : tally_inv s;
  ti_power : forall id a bl p, s_ballots s !! (id, a) = Some bl -> s_props s !! id = Some p ->
    bl_power bl = vp O d a (p_start p) /\ 0 < bl_power bl;
  ti_props : forall id p, s_props s !! id = Some p -> tprop O d b p }.

Lemma tprop_time O d b b' p : block_le b b' -> tprop O d b p -> tprop O d b' p.
Proof.
  intros Hb [A B C D E]. constructor; try done.
  - intros Hbil Hp. destruct (C Hbil Hp) as [?|[? ?]]; [by left|right].
    eauto using is_expired_mono.
  - intros Hp. destruct (D Hp) as [?|[? ?]]; [by left|right]. eauto using is_expired_mono.
Qed.
Lemma tinv_time O d b b' s : block_le b b' -> tinv O d b s -> tinv O d b' s.
Proof. intros Hb [A B C D]. constructor; eauto using tprop_time. Qed.

(** Sums of powers over the voters of one proposal. *)
Lemma voters_sum (f : addr -> Z) (id : Z) (m : gmap (Z * addr) ballot) :
  exists l : list addr, NoDup l /\
    msum (fun (k : Z * addr) (_ : ballot) => if decide (k.1 = id) then f k.2 else 0) m = lsum f l /\
    forall a, a ∈ l <-> is_Some (m !! (id, a)).
Proof.
  induction m as [|[i a] bl m Hm (l & Hnd & Hs & Hl)] using map_ind.
  - exists []. split; [constructor|]. split; [apply msum_empty|].
    intros a. rewrite lookup_empty. split; [by intros ?%elem_of_nil|by intros [? ?]].
  - rewrite msum_insert_new by done. simpl. destruct (decide (i = id)) as [->|Hne].
    + exists (a :: l). split; [|split].
      * constructor; [|done]. rewrite Hl, Hm. by intros [? ?].
      * simpl. lia.
      * intros a'. rewrite elem_of_cons, Hl. destruct (decide (a' = a)) as [->|Hne].
        -- rewrite lookup_insert. split; [by eexists|by left].
        -- rewrite lookup_insert_ne by congruence. tauto.
    + exists l. split; [done|]. split; [lia|]. intros a'. rewrite Hl.
      rewrite lookup_insert_ne by congruence. done.
Qed.

Lemma tinv_tally_ok O d s id p :
  sane O d -> tally_inv s ->
  (forall id a bl p, s_ballots s !! (id, a) = Some bl -> s_props s !! id = Some p ->
    bl_power bl = vp O d a (p_start p) /\ 0 < bl_power bl) ->
  s_props s !! id = Some p -> p_total p = tp O d (p_start p) ->
  tally_ok (p_total p) (p_votes p).
Proof.
  intros (S1 & S2 & S3) HT HP Hp Htot.
  assert (forall v, 0 <= ballot_total s id v) as Hnn.
  { intros v. apply msum_nonneg. intros [i a] bl Hbl.
    destruct (decide _) as [[E _]|]; [|lia]. simpl in E. subst i.
    destruct (HP _ _ _ _ Hbl Hp). lia. }
  pose proof (HT id p Yes Hp) as HY. pose proof (HT id p No Hp) as HN.
  pose proof (HT id p Abstain Hp) as HA. simpl in HY, HN, HA.
  pose proof (Hnn Yes). pose proof (Hnn No). pose proof (Hnn Abstain).
  assert (ballot_total s id Yes + ballot_total s id No + ballot_total s id Abstain <= p_total p) as Hle.
  { unfold ballot_total. rewrite <- !msum_add.
    destruct (voters_sum (fun a => vp O d a (p_start p)) id (s_ballots s)) as (l & Hnd & Hs & _).
    rewrite Htot. etransitivity; [|apply (S3 (p_start p) l Hnd)]. rewrite <- Hs.
    apply msum_le. intros [i a] bl Hbl. simpl.
    destruct (decide (i = id)) as [->|Hne].
    - destruct (HP _ _ _ _ Hbl Hp) as [<- ?].
      destruct (bl_vote bl); repeat (destruct (decide _) as [[? ?]|?]); try congruence; try tauto; lia.
    - repeat (destruct (decide _) as [[? ?]|?]); try congruence; lia. }
  unfold tally_ok, cast. lia.
Qed.

Lemma tprop_tally O d b s id p :
  sane O d -> tinv O d b s -> s_props s !! id = Some p ->
  tally_ok (p_total p) (p_votes p) /\ p_total p <= U128_MAX /\ thr_range (p_thr p).
Proof.
  intros HS [A B C D] Hp. pose proof (D _ _ Hp) as [E F _ _ _].
  split; [by eapply tinv_tally_ok|]. split; [|done]. rewrite E. apply HS.
Qed.

(** Updating the status keeps [tprop]. *)
Lemma pass_dest p b :
  pass_cond p b ->
  (p_revote p = false /\ early_near (p_thr p) (p_total p) (p_votes p)) \/
  (is_expired (p_exp p) b = true /\ outcome_near (p_thr p) (p_total p) (p_votes p)).
Proof.
  intros (Hrev & _ & Hc). destruct (is_expired (p_exp p) b); [by right|left].
  split; [|done]. by destruct (p_revote p); [specialize (Hrev eq_refl)|].
Qed.
Lemma reject_dest p b :
  tally_ok (p_total p) (p_votes p) -> p_total p <= U128_MAX -> thr_range (p_thr p) ->
  (forall b', is_expired (p_exp p) b' = true -> min_ok p b') ->
  is_passed p b = Ok false ->
  (is_expired (p_exp p) b = true \/ is_rejected p b = Ok true) ->
  (p_revote p = false /\ hopeless p) \/
  (is_expired (p_exp p) b = true /\ ~ outcome_near (p_thr p) (p_total p) (p_votes p)).
Proof.
  intros Hok HT Hr Hmin Hp Hd.
  destruct (is_expired (p_exp p) b) eqn:Ex.
  - right. split; [done|]. destruct (is_passed_spec p b Hok HT) as (r & Er & Hiff).
    rewrite Hp in Er. injection Er as <-. intros Hout.
    assert (false = true); [|done]. apply Hiff. unfold pass_cond. rewrite Ex. eauto.
  - left. destruct Hd as [?|Hrej]; [done|].
    destruct (is_rejected_spec p b Hok HT Hr) as (r & Er & H).
    rewrite Hrej in Er. injection Er as <-. by apply H.
Qed.

Lemma tprop_current O d b p st :
  wprop b p -> tprop O d b p -> tally_ok (p_total p) (p_votes p) -> p_total p <= U128_MAX ->
  current_status p b = Ok st -> tprop O d b (set_status p st).
Proof.
  intros Hw [A B C D E] Hok HT Hst. apply current_status_cases in Hst.
  assert (is_passed p b = Ok true ->
    (p_revote p = false /\ early_near (p_thr p) (p_total p) (p_votes p)) \/
    (is_expired (p_exp p) b = true /\ outcome_near (p_thr p) (p_total p) (p_votes p))) as Hpass.
  { intros Hp. apply pass_dest. destruct (is_passed_spec p b Hok HT) as (r & Er & Hiff).
    rewrite Hp in Er. injection Er as <-. by apply Hiff. }
  destruct (p_status p) eqn:Es.
  - destruct Hst as [(-> & Hp & Hv)|[(vc & e & -> & Hp & Hv & He & Hx)|[(-> & Hp & Hr)|(-> & Hp & Hx & Hr)]]];
      constructor; simpl; try done; eauto.
    intros _. exact (reject_dest p b Hok HT B (w_min _ _ Hw) Hp Hr).
  - subst st. constructor; simpl; try done; rewrite ?Es in *; eauto.
  - subst st. constructor; simpl; try done; rewrite ?Es in *; eauto.
  - subst st. constructor; simpl; try done; rewrite ?Es in *; eauto.
  - subst st. constructor; simpl; try done; rewrite ?Es in *; eauto.
  - subst st. constructor; simpl; try done; rewrite ?Es in *; eauto.
  - destruct Hst as [[Hx ->]|[Hx ->]]; constructor; simpl; try done; rewrite ?Es in *; eauto.
  - subst st. constructor; simpl; try done; rewrite ?Es in *; eauto.
Qed.

(** Changing the votes (before expiration) keeps what was decided. *)
Lemma tprop_votes O d b p v :
  wprop b p -> tprop O d b p -> is_expired (p_exp p) b = false ->
  (p_revote p = false -> votes_le (p_votes p) v) -> tally_ok (p_total p) v ->
  p_status p <> Open ->
  tprop O d b (set_votes p v).
Proof.
  intros Hw [A B C D E] Hx Hle Hok Hno. constructor; simpl; try done.
  - intros Hbil Hp. destruct (C Hbil Hp) as [[Hr He]|[? ?]]; [left|congruence].
    split; [done|]. by eapply early_mono; eauto.
  - intros Hp. destruct (D Hp) as [[Hr Hh]|[? ?]]; [left|congruence].
    split; [done|]. intros v' Hv' Hok'. simpl in *. apply Hh; [|done].
    eapply votes_le_trans; eauto.
Qed.
Lemma tprop_open O d b p : 
  p_status p = Open -> p_total p = tp O d (p_start p) -> thr_range (p_thr p) ->
  wprop b p -> tally_ok (p_total p) (p_votes p) -> p_total p <= U128_MAX ->
  forall st, current_status p b = Ok st -> tprop O d b (set_status p st).
Proof.
  intros Es A B Hw Hok HT st Hst. apply current_status_cases in Hst. rewrite Es in Hst.
  assert (is_passed p b = Ok true ->
    (p_revote p = false /\ early_near (p_thr p) (p_total p) (p_votes p)) \/
    (is_expired (p_exp p) b = true /\ outcome_near (p_thr p) (p_total p) (p_votes p))) as Hpass.
  { intros Hp. apply pass_dest. destruct (is_passed_spec p b Hok HT) as (r & Er & Hiff).
    rewrite Hp in Er. injection Er as <-. by apply Hiff. }
  destruct Hst as [(-> & Hp & Hv)|[(vc & e & -> & Hp & Hv & He & Hx)|[(-> & Hp & Hr)|(-> & Hp & Hx & Hr)]]];
      constructor; simpl; try done; eauto.
  - intros _. exact (reject_dest p b Hok HT B (w_min _ _ Hw) Hp Hr).
  - intros _ b' Hb'.
    change (is_rejected p b' = Ok false). by rewrite (is_rejected_unexpired p b' b).
Qed.

Lemma tprop_fin O d b p st fin :
  wprop b p -> tprop O d b p -> tally_ok (p_total p) (p_votes p) -> p_total p <= U128_MAX ->
  current_status p b = Ok st -> allowed st fin -> tprop O d b (set_status p fin).
Proof.
  intros Hw Ht Hok HT Hst Hal.
  pose proof (tprop_current O d b p st Hw Ht Hok HT Hst) as [A B C D E]. simpl in *.
  destruct Hal as [[-> Hal]|[[-> Hal]|[-> ->]]]; constructor; simpl; try done; eauto.
  intros Hbil _. apply C; [done|]. destruct Hal as [->|[e ->]]; done.
Qed.

Lemma vote_result_le s id a p v w votes1 :
  0 <= w -> vote_result s id a p v w votes1 -> p_revote p = false ->
  votes_le (p_votes p) votes1.
Proof.
  intros Hw H Hr. unfold vote_result in H. destruct (s_ballots s !! (id, a)).
  - destruct H as [H _]. congruence.
  - apply add_vote_ok in H. subst. unfold votes_le. destruct v; simpl; lia.
Qed.

Lemma prim_tinv O d b s s' :
  sane O d -> winv b s -> tinv O d b s -> prim O b s s' -> attached d s' -> tinv O d b s'.
Proof.
  intros HS HI HT Hprim Hatt'.
  pose proof (prim_winv _ _ _ _ Hprim HI) as HI'.
  pose proof (prim_tally _ _ _ _ HI (ti_tally _ _ _ _ HT) Hprim) as Htal'.
  destruct Hprim as [s proposer ms st Hst|s id a p v r votes1 st Hp Hx Hpw Hvr Hst|s id p st fin Hp Hst Hal|s id a cur r Hb|s s' E1 E2 E3 E4].
  - destruct HT as [[A1 A2] B C D]. constructor; [done|done|..]; simpl.
    + intros id a bl p Hbl Hp. destruct (decide (id = s_count s + 1)) as [->|Hne].
      * apply (wi_ballots _ _ HI) in Hbl. apply (wi_ids _ _ HI) in Hbl. lia.
      * rewrite lookup_insert_ne in Hp by done. by eapply C.
    + intros id p Hp. destruct (decide (id = s_count s + 1)) as [->|Hne].
      * rewrite lookup_insert in Hp. injection Hp as <-.
        apply (tprop_open O d b (new_prop O s b proposer ms Open)); try done; simpl.
        -- by rewrite A1.
        -- pose proof (wi_cfg _ _ HI) as Hc. apply validate_config_ok in Hc as (Hc & _).
           by apply thr_typed_range.
        -- assert (wprop b (new_prop O s b proposer ms st)) as [W1 W2 W3 _ _ _ _ W8].
           { apply (wi_props _ _ HI' (s_count s + 1)). simpl. apply lookup_insert. }
           constructor; simpl in *; done.
        -- unfold tally_ok, cast. simpl. pose proof HS as (_ & _ & S3).
           specialize (S3 (height b) [] (NoDup_nil_2)). simpl in S3. rewrite A1. lia.
        -- rewrite A1. apply HS.
      * rewrite lookup_insert_ne in Hp by done. by eapply D.
  - pose proof HT as [[A1 A2] B C D].
    assert (forall id' a' bl p', 
      (<[(id, a):={| bl_power := vp O (c_dao (s_cfg s)) a (p_start p); bl_vote := v; bl_rationale := r |}]>
         (s_ballots s)) !! (id', a') = Some bl ->
      (<[id:=set_status (set_votes p votes1) st]> (s_props s)) !! id' = Some p' ->
      bl_power bl = vp O d a' (p_start p') /\ 0 < bl_power bl) as Hpow.
    { intros id' a' bl p' Hbl Hp'.
      assert (exists p0, s_props s !! id' = Some p0 /\ p_start p' = p_start p0) as (p0 & Hp0 & ->).
      { destruct (decide (id' = id)) as [->|Hne].
        - rewrite lookup_insert in Hp'. injection Hp' as <-. eauto.
        - rewrite lookup_insert_ne in Hp' by done. eauto. }
      destruct (decide ((id, a) = (id', a'))) as [[= <- <-]|Hne].
      - rewrite lookup_insert in Hbl. injection Hbl as <-. simpl. rewrite A1 in *.
        rewrite Hp in Hp0. injection Hp0 as <-. split; [done|].
        destruct HS as [S1 _]. specialize (S1 a (p_start p)). lia.
      - rewrite lookup_insert_ne in Hbl by done. by eapply C. }
    constructor; [done|done|exact Hpow|]. simpl.
    intros id' p' Hp'. destruct (decide (id' = id)) as [->|Hne];
      [|rewrite lookup_insert_ne in Hp' by done; by eapply D].
    assert (tally_ok (p_total p') (p_votes p')) as Hok'.
    { eapply (tinv_tally_ok O d _ id p' HS Htal' Hpow Hp').
      rewrite lookup_insert in Hp'. injection Hp' as <-. simpl. apply (t_total _ _ _ _ (D _ _ Hp)). }
    rewrite lookup_insert in Hp'. injection Hp' as <-. simpl in Hok'.
    pose proof (D _ _ Hp) as Dp. pose proof (wi_props _ _ HI _ _ Hp) as Wp.
    assert (p_total p <= U128_MAX) as HT' by (rewrite (t_total _ _ _ _ Dp); apply HS).
    destruct (decide (p_status p = Open)) as [Eo|Eno].
    + apply (tprop_open O d b (set_votes p votes1)); try done.
      * apply (t_total _ _ _ _ Dp).
      * apply (t_thr _ _ _ _ Dp).
      * by apply wprop_votes.
    + apply (tprop_current O d b (set_votes p votes1)); try done; [by apply wprop_votes|].
      apply tprop_votes; try done. intros Hr. eapply vote_result_le; [|done..].
      rewrite A1. apply HS.
  - pose proof (tprop_tally _ _ _ _ _ _ HS HT Hp) as (Hok & HT' & Hthr).
    destruct HT as [A B C D]. constructor; [done|done|..]; simpl.
    + intros id' a bl p' Hbl Hp'.
      destruct (decide (id' = id)) as [->|Hne].
      * rewrite lookup_insert in Hp'. injection Hp' as <-. by eapply (C id a bl p).
      * rewrite lookup_insert_ne in Hp' by done. by eapply C.
    + intros id' p' Hp'. destruct (decide (id' = id)) as [->|Hne].
      * rewrite lookup_insert in Hp'. injection Hp' as <-.
        eapply tprop_fin; eauto. by apply (wi_props _ _ HI id).
      * rewrite lookup_insert_ne in Hp' by done. by eapply D.
  - destruct HT as [A B C D]. constructor; [done|done|..|done]; simpl.
    intros id' a' bl p' Hbl Hp'. destruct (decide ((id, a) = (id', a'))) as [[= <- <-]|Hne].
    + rewrite lookup_insert in Hbl. injection Hbl as <-. simpl. by eapply C.
    + rewrite lookup_insert_ne in Hbl by done. by eapply C.
  - destruct HT as [A B C D]. constructor; [done|done|..]; rewrite ?E1, ?E2; done.
Qed.

(** Primitive steps that stay attached. *)
Definition aprim O d b s s' := prim O b s s' /\ (attached d s -> attached d s').
Lemma handle_aprims O d s b a m s' subs :
  handle O s b a m = Ok (s', subs) -> keeps_dao d a m -> rtc (aprim O d b) s s'.
Proof.
  intros H Hk.
  assert (forall s s', prim O b s s' -> s_cfg s' = s_cfg s -> aprim O d b s s') as Hsame.
  { intros s1 s2 Hp E. split; [done|]. unfold attached. by rewrite E. }
  destruct m; try (apply (admin_shape O s b a) in H; [|exact I];
    destruct H as (_ & _ & Hp & Hb & Hc & Hcfg); apply rtc_once;
    first [ by apply Hsame; [apply prim_admin; auto|]
          | destruct Hcfg as [Hv Hcfg]; split;
             [apply prim_admin; [done..|]; rewrite Hcfg; by right
             |intros _; unfold attached; rewrite Hcfg; exact Hk] ]).
  - simpl in H. apply execute_propose_shape in H
      as (proposer & st & s1 & subs2 & _ & _ & _ & _ & Hst & -> & _ & Hv).
    destruct (pm_vote pm) as [[v r]|].
    + apply execute_vote_shape in Hv as (p & votes1 & st2 & H1 & H2 & H3 & H4 & H5 & -> & _).
      eapply rtc_l; [by apply Hsame; [apply prim_new|]|]. apply rtc_once.
      apply Hsame; [by eapply prim_vote|done].
    + destruct Hv as [-> _]. apply rtc_once. by apply Hsame; [apply prim_new|].
  - simpl in H. apply execute_vote_shape in H as (p & votes1 & st2 & H1 & H2 & H3 & H4 & H5 & -> & _).
    apply rtc_once. apply Hsame; [by eapply prim_vote|done].
  - simpl in H. unfold execute_update_rationale in H.
    destruct (s_ballots s !! (id, a)) as [cur|] eqn:E; [|discriminate].
    injection H as <- <-. apply rtc_once. apply Hsame; [by apply prim_rationale|done].
  - simpl in H. apply execute_execute_shape in H as (p & st & Hp & Hst & Hal & -> & _).
    apply rtc_once. apply Hsame; [|done]. eapply prim_fin; [done..|]. left. split; [done|].
    destruct Hal as [[-> _]|(e & vc & -> & _)]; eauto.
  - simpl in H. apply execute_veto_shape in H as (p & st & vc & Hp & Hst & _ & _ & Hal & -> & _).
    apply rtc_once. apply Hsame; [|done]. eapply prim_fin; [done..|]. right; left. split; [done|].
    destruct Hal as [[-> _]|(e & -> & _)]; eauto.
  - simpl in H. apply execute_close_shape in H as (p & Hp & Hst & -> & _).
    apply rtc_once. apply Hsame; [|done]. eapply prim_fin; [done..|]. right; right. done.
Qed.

Definition sinv O d b s := winv b s /\ tinv O d b s.
Lemma aprims_sinv O d b s s' :
  sane O d -> sinv O d b s -> rtc (aprim O d b) s s' -> sinv O d b s'.
Proof.
  intros HS HI H. induction H as [|s1 s2 s3 [Hp Ha] Hr IH]; [done|].
  destruct HI as [HW HT]. apply IH. split; [by eapply prim_winv|].
  eapply prim_tinv; eauto. apply Ha. apply HT.
Qed.
Lemma on_ok_aprim O d s b x r s' : on_ok s b x r = Ok s' -> aprim O d b s s'.
Proof.
  intros H. split; [by eapply on_ok_prims|].
  destruct x; simpl in H; injection H as <-; done.
Qed.
Lemma on_fail_sinv O d b s x s' :
  sinv O d b s -> pend b s x -> on_fail s b x = Ok s' -> sinv O d b s'.
Proof.
  intros [HW [A B C D]] HP H. split; [by eapply on_fail_winv|].
  pose proof (on_fail_tally _ _ _ _ B H) as B'.
  destruct (on_fail_shape s b x s' H) as [(d0 & id & ms & p & -> & Hp & ->)|(Hx & E1 & E2 & E3 & E4)].
  - destruct (HP d0 id ms true eq_refl) as (p' & Hp' & Hd).
    rewrite Hp in Hp'. injection Hp' as <-.
    constructor; [done|done|..]; simpl.
    + intros id' a bl p' Hbl Hp'.
      destruct (decide (id' = id)) as [->|Hne].
      * rewrite lookup_insert in Hp'. injection Hp' as <-. by eapply (C id a bl p).
      * rewrite lookup_insert_ne in Hp' by done. by eapply C.
    + intros id' p' Hp'. destruct (decide (id' = id)) as [->|Hne].
      * rewrite lookup_insert in Hp'. injection Hp' as <-. destruct (D _ _ Hp) as [T1 T2 T3 T4 T5].
        constructor; simpl; try done. intros Hb _. apply T3; [done|].
        destruct Hd as [->| ->]; done.
      * rewrite lookup_insert_ne in Hp' by done. by eapply D.
  - constructor; unfold attached; rewrite ?E1, ?E2, ?E4; done.
Qed.
Lemma fresh_sinv O d b s : fresh s -> attached d s -> sinv O d b s.
Proof.
  intros Hf Ha. split; [by apply fresh_winv|]. pose proof Hf as (_ & E1 & E2 & _).
  constructor; [done|by apply fresh_tally|..]; rewrite ?E1, ?E2.
  - intros ? ? ? ?. rewrite lookup_empty. done.
  - intros ? ?. rewrite lookup_empty. done.
Qed.

Notation attrace O d := (trace (handle O) on_fail on_ok (keeps_dao d) (sinv O d) pend).
Lemma single_strong O d b0 s h s' l :
  sane O d -> sinv O d b0 s -> hist_ok b0 h -> hist_all (keeps_dao d) h ->
  srun O s h = (s', l) ->
  sinv O d (hist_end b0 h) s' /\ attrace O d b0 s l (hist_end b0 h) s'.
Proof.
  intros HS HI Hh Ha Hr. eapply run_hist_trace; try done.
  - intros b s1 a m s2 subs HI1 Hm H.
    split; [eapply aprims_sinv; [done..|by eapply handle_aprims]|].
    intros x Hx. by eapply handle_pend.
  - intros b s1 x s2 HI1 HP H. by eapply on_fail_sinv.
  - intros b s1 x r s2 HI1 HP H. eapply aprims_sinv; [done..|].
    apply rtc_once. by eapply on_ok_aprim.
  - intros b s1 a m s2 subs x [HI1 _] _ H HP d' id ms c ->.
    eapply done_at_prims; [done|by eapply handle_prims|]. by eapply HP.
  - intros b s1 x s2 y HI1 _ H HP d' id ms c ->. eapply on_fail_done; [done|]. by eapply HP.
  - intros b s1 x r s2 y [HI1 _] _ H HP d' id ms c ->.
    eapply (done_at_prims O b s1); [done|apply rtc_once; by eapply on_ok_prims|]. by eapply HP.
  - intros b b' s1 Hb [HW HT]. split; [by eapply winv_time|by eapply tinv_time].
Qed.

(** Tallies equal ballots over any history, with no assumption at all. *)
Lemma single_tally O b0 s h s' l :
  winv b0 s -> tally_inv s -> hist_ok b0 h -> srun O s h = (s', l) -> tally_inv s'.
Proof.
  intros HI HT Hh Hr.
  edestruct (run_hist_trace (handle O) on_fail on_ok any_msg
     (fun b s => winv b s /\ tally_inv s) pend) as [[_ Hfin] _];
    [..|exact Hh|apply hist_all_any|exact Hr|exact Hfin]; try done.
  - intros b s1 a m s2 subs [HI1 HT1] _ H. split.
    + split; [by eapply handle_winv|]. eapply prims_tally; [done..|by eapply handle_prims].
    + intros x Hx. by eapply handle_pend.
  - intros b s1 x s2 [HI1 HT1] HP H. split; [by eapply on_fail_winv|by eapply on_fail_tally].
  - intros b s1 x r s2 [HI1 HT1] HP H. apply (on_ok_prims O) in H.
    split; [by eapply prim_winv|by eapply prim_tally].
  - intros b s1 a m s2 subs x [HI1 _] _ H HP d' id ms c ->.
    eapply done_at_prims; [done|by eapply handle_prims|]. by eapply HP.
  - intros b s1 x s2 y HI1 _ H HP d' id ms c ->. eapply on_fail_done; [done|]. by eapply HP.
  - intros b s1 x r s2 y [HI1 _] _ H HP d' id ms c ->.
    eapply (done_at_prims O b s1); [done|apply rtc_once; by eapply on_ok_prims|]. by eapply HP.
  - intros b b' s1 Hb [HW HT']. split; [by eapply winv_time|done].
Qed.

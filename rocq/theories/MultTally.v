(** dao-proposal-multiple: tallies and outcomes under a sane voting module. *)
From Verif Require Import Base BaseProofs Exec ExecProofs VotingModel VotingSpec
  VotingProofs HooksModel MultModel MultSpec MultProofs MultRules MultLife.

(** ** Tallies equal ballots (no assumption needed) *)
Definition tally_inv (s : state) : Prop :=
  (forall id p v, s_props s !! id = Some p -> tally_of p v = ballot_total s id v) /\
  (forall id a bl p, s_ballots s !! (id, a) = Some bl -> s_props s !! id = Some p ->
     (bl_vote bl < length (p_choices p))%nat).

Lemma ballot_total_insert (m : gmap (Z * addr) ballot) id a bl id' v :
  msum (fun k bl => if decide (k.1 = id' /\ bl_vote bl = v) then bl_power bl else 0)
    (<[(id, a) := bl]> m) =
  msum (fun k bl => if decide (k.1 = id' /\ bl_vote bl = v) then bl_power bl else 0) m
  - (match m !! (id, a) with
     | Some c => if decide (id = id' /\ bl_vote c = v) then bl_power c else 0
     | None => 0 end)
  + (if decide (id = id' /\ bl_vote bl = v) then bl_power bl else 0).
Proof. rewrite msum_insert. destruct (m !! (id, a)); done. Qed.

Lemma lookup_default_insert (l : list Z) v x v' c :
  l !! v = Some c ->
  default 0 (<[v := x]> l !! v') = (if decide (v' = v) then x else default 0 (l !! v')).
Proof.
  intros Hc. destruct (decide (v' = v)) as [->|Hne].
  - rewrite list_lookup_insert; [done|]. by eapply lookup_lt_Some.
  - by rewrite list_lookup_insert_ne.
Qed.

Lemma prim_tally O b s s' : winv b s -> tally_inv s -> prim O b s s' -> tally_inv s'.
Proof.
  intros HI [HT HB] Hp. split.
  - destruct Hp; intros i q v' Hq; unfold ballot_total in *; simpl in *.
    + destruct (decide (i = s_count s + 1)) as [->|Hne].
      * rewrite lookup_insert in Hq. injection Hq as <-.
        assert (msum (fun (k : Z * addr) bl => if decide (k.1 = s_count s + 1 /\ bl_vote bl = v')
               then bl_power bl else 0) (s_ballots s) = 0) as ->.
        2: { unfold tally_of. simpl. unfold weights_zero.
             destruct (replicate (length ms) 0 !! v') eqn:E; [|done].
             by apply lookup_replicate in E as [-> _]. }
        etransitivity; [|apply (msum_zero (s_ballots s))]. apply msum_ext. intros [i a] bl Hbl.
        cbn beta. destruct (decide ((i, a).1 = _ /\ _)) as [[Ei _]|]; [|done]. simpl in Ei. subst i.
        apply (wi_ballots _ _ HI) in Hbl. apply (wi_ids _ _ HI) in Hbl. lia.
      * rewrite lookup_insert_ne in Hq by done. exact (HT _ _ v' Hq).
    + rewrite ballot_total_insert. destruct (decide (i = id)) as [->|Hne].
      * rewrite lookup_insert in Hq. injection Hq as <-. simpl.
        specialize (HT id p v' H). unfold ballot_total in HT. rewrite <- HT. clear HT.
        unfold tally_of; simpl.
        unfold vote_result in H3. destruct (s_ballots s !! (id, a)) as [cur|].
        -- destruct H3 as (_ & Hne & votes0 & Hr & Ha).
           apply remove_weight_ok in Hr as (c1 & Hc1 & ->).
           apply add_weight_ok in Ha as (c2 & Hc2 & ->).
           rewrite (lookup_default_insert _ _ _ _ _ Hc2).
           rewrite (lookup_default_insert _ _ _ _ _ Hc1).
           rewrite list_lookup_insert_ne in Hc2 by done.
           repeat (destruct (decide _) as [?|?]); subst; try (destruct_and!);
             try congruence; try tauto; rewrite ?Hc1, ?Hc2; simpl; lia.
        -- apply add_weight_ok in H3 as (c2 & Hc2 & ->).
           rewrite (lookup_default_insert _ _ _ _ _ Hc2).
           repeat (destruct (decide _) as [?|?]); subst; try (destruct_and!);
             try congruence; try tauto; rewrite ?Hc2; simpl; lia.
      * rewrite lookup_insert_ne in Hq by done. rewrite (HT i q v' Hq). unfold ballot_total.
        destruct (s_ballots s !! (id, a)); repeat (destruct (decide _) as [[? ?]|?]); try congruence; lia.
    + destruct (decide (i = id)) as [->|Hne].
      * rewrite lookup_insert in Hq. injection Hq as <-. exact (HT id p v' H).
      * rewrite lookup_insert_ne in Hq by done. exact (HT _ _ v' Hq).
    + rewrite ballot_total_insert, H. simpl. rewrite (HT i q v' Hq). unfold ballot_total. lia.
    + unfold ballot_total. rewrite H0. rewrite H in Hq. exact (HT _ _ v' Hq).
  - destruct Hp; intros i a0 bl q Hbl Hq; simpl in *.
    + destruct (decide (i = s_count s + 1)) as [->|Hne].
      * apply (wi_ballots _ _ HI) in Hbl. apply (wi_ids _ _ HI) in Hbl. lia.
      * rewrite lookup_insert_ne in Hq by done. by eapply HB.
    + assert (exists q0, s_props s !! i = Some q0 /\ p_choices q = p_choices q0) as (q0 & Hq0 & ->).
      { destruct (decide (i = id)) as [->|Hne].
        - rewrite lookup_insert in Hq. injection Hq as <-. eauto.
        - rewrite lookup_insert_ne in Hq by done. eauto. }
      destruct (decide ((id, a) = (i, a0))) as [[= <- <-]|Hne].
      * rewrite lookup_insert in Hbl. injection Hbl as <-. simpl. by simplify_eq.
      * rewrite lookup_insert_ne in Hbl by done. by eapply HB.
    + destruct (decide (i = id)) as [->|Hne].
      * rewrite lookup_insert in Hq. injection Hq as <-. simpl. by eapply HB.
      * rewrite lookup_insert_ne in Hq by done. by eapply HB.
    + destruct (decide ((id, a) = (i, a0))) as [[= <- <-]|Hne].
      * rewrite lookup_insert in Hbl. injection Hbl as <-. simpl. by eapply HB.
      * rewrite lookup_insert_ne in Hbl by done. by eapply HB.
    + rewrite H0 in Hbl. rewrite H in Hq. by eapply HB.
Qed.
Lemma prims_tally O b s s' : winv b s -> tally_inv s -> rtc (prim O b) s s' -> tally_inv s'.
Proof.
  intros HI HT H. induction H as [|s1 s2 s3 Hp Hr IH]; [done|].
  apply IH; [by eapply prim_winv|by eapply prim_tally].
Qed.
Lemma on_fail_tally s b x s' : tally_inv s -> on_fail s b x = Ok s' -> tally_inv s'.
Proof.
  intros [HT HB] H.
  destruct (on_fail_shape s b x s' H) as [(d & id & ms & p & -> & Hp & ->)|(Hx & E1 & E2 & E3 & E4)].
  - split.
    + intros i q v Hq. simpl in Hq. destruct (decide (i = id)) as [->|Hne].
      * rewrite lookup_insert in Hq. injection Hq as <-. by apply (HT id p v).
      * rewrite lookup_insert_ne in Hq by done. by apply HT.
    + intros i a bl q Hbl Hq. simpl in *. destruct (decide (i = id)) as [->|Hne].
      * rewrite lookup_insert in Hq. injection Hq as <-. by apply (HB id a bl p).
      * rewrite lookup_insert_ne in Hq by done. by eapply HB.
  - unfold tally_inv, ballot_total. by rewrite E1, E2.
Qed.
Lemma fresh_tally s : fresh s -> tally_inv s.
Proof.
  intros (_ & E & E' & _). split.
  - intros id p v. rewrite E, lookup_empty. done.
  - intros id a bl p. rewrite E', lookup_empty. done.
Qed.

(** Adding up the options gives the power of all ballots. *)
Lemma options_sum (m : gmap (Z * addr) ballot) id n :
  lsum (fun v : nat => msum (fun k bl => if decide (k.1 = id /\ bl_vote bl = v) then bl_power bl else 0) m)
    (seq 0 n) =
  msum (fun k bl => if decide (k.1 = id /\ (bl_vote bl < n)%nat) then bl_power bl else 0) m.
Proof.
  induction n as [|n IH].
  - simpl. symmetry. etransitivity; [|apply (msum_zero m)]. apply msum_ext. intros k bl _.
    destruct (decide _) as [[_ ?]|]; [lia|done].
  - rewrite seq_S, lsum_app, IH. simpl. rewrite Z.add_0_r, <- msum_add. apply msum_ext.
    intros k bl _. repeat (destruct (decide _) as [[? ?]|?]); try lia; exfalso; naive_solver lia.
Qed.
Lemma wsum_seq w : wsum w = lsum (fun v : nat => default 0 (w !! v)) (seq 0 (length w)).
Proof.
  unfold wsum. induction w as [|x w IH] using rev_ind; [done|].
  rewrite app_length. simpl. rewrite Nat.add_1_r, seq_S, !lsum_app. simpl.
  rewrite lookup_app_r, Nat.sub_diag by lia. simpl. f_equal. rewrite IH.
  apply lsum_ext. intros v Hv. apply elem_of_seq in Hv. rewrite lookup_app_l by lia. done.
Qed.

(** ** Ballot powers and outcomes *)
Record tprop (O : oracle) (d : addr) (b : block) (p : proposal) : Prop := {
  t_total : forall l, NoDup l -> lsum (fun a : addr => vp O d a (p_start p)) l <= p_total p;
  t_max : p_total p <= U128_MAX;
  t_pass : passed_like (p_status p) ->
    (p_revote p = false /\ exists i, decided_for (p_quorum p) (p_total p) (p_votes p) i) \/
    (is_expired (p_exp p) b = true /\ exists i, chosen (p_quorum p) (p_total p) (p_votes p) i);
  t_rej : rejected_like (p_status p) ->
    (p_revote p = false /\ hopeless p) \/
    (is_expired (p_exp p) b = true /\ forall i, ~ chosen (p_quorum p) (p_total p) (p_votes p) i);
  t_open : p_status p = Open -> forall b', is_expired (p_exp p) b' = false ->
    is_rejected p b' = Ok false }.

Record tinv (O : oracle) (d : addr) (b : block) (s : state) : Prop := {
  ti_att : attached d s;
  ti_tally : tally_inv s;
  ti_power : forall id a bl p, s_ballots s !! (id, a) = Some bl -> s_props s !! id = Some p ->
    bl_power bl = vp O d a (p_start p) /\ 0 < bl_power bl;
  ti_props : forall id p, s_props s !! id = Some p -> tprop O d b p }.

Lemma tprop_time O d b b' p : block_le b b' -> tprop O d b p -> tprop O d b' p.
Proof.
  intros Hb [A B C D E]. constructor; try done.
  - intros Hp. destruct (C Hp) as [?|[? ?]]; [by left|right].
    eauto using is_expired_mono.
  - intros Hp. destruct (D Hp) as [?|[? ?]]; [by left|right]. eauto using is_expired_mono.
Qed.
Lemma tinv_time O d b b' s : block_le b b' -> tinv O d b s -> tinv O d b' s.
Proof. intros Hb [A B C D]. constructor; eauto using tprop_time. Qed.

(** Sums of powers over the voters of one proposal. *)
Lemma voters_sum (f : addr -> Z) (id : Z) (m : gmap (Z * addr) ballot) :
  exists l : list addr, NoDup l /\
    msum (fun (k : Z * addr) (_ : ballot) => if decide (k.1 = id) then f k.2 else 0) m = lsum f l /\
    forall a, a ∈ l <-> is_Some (m !! (id, a)).
Proof.
  induction m as [|[i a] bl m Hm (l & Hnd & Hs & Hl)] using map_ind.
  - exists []. split; [constructor|]. split; [apply msum_empty|].
    intros a. rewrite lookup_empty. split; [by intros ?%elem_of_nil|by intros [? ?]].
  - rewrite msum_insert_new by done. simpl. destruct (decide (i = id)) as [->|Hne].
    + exists (a :: l). split; [|split].
      * constructor; [|done]. rewrite Hl, Hm. by intros [? ?].
      * simpl. lia.
      * intros a'. rewrite elem_of_cons, Hl. destruct (decide (a' = a)) as [->|Hne].
        -- rewrite lookup_insert. split; [by eexists|by left].
        -- rewrite lookup_insert_ne by congruence. tauto.
    + exists l. split; [done|]. split; [lia|]. intros a'. rewrite Hl.
      rewrite lookup_insert_ne by congruence. done.
Qed.

Lemma tinv_tally_ok O d s id p :
  tally_inv s ->
  (forall id a bl p, s_ballots s !! (id, a) = Some bl -> s_props s !! id = Some p ->
    bl_power bl = vp O d a (p_start p) /\ 0 < bl_power bl) ->
  s_props s !! id = Some p -> length (p_votes p) = length (p_choices p) ->
  (forall l, NoDup l -> lsum (fun a : addr => vp O d a (p_start p)) l <= p_total p) ->
  tally_ok (p_total p) (p_votes p).
Proof.
  intros [HT HB] HP Hp Hlen Htot.
  assert (forall v, 0 <= ballot_total s id v) as Hnn.
  { intros v. apply msum_nonneg. intros [i a] bl Hbl.
    destruct (decide _) as [[E _]|]; [|lia]. simpl in E. subst i.
    destruct (HP _ _ _ _ Hbl Hp). lia. }
  split.
  - apply Forall_lookup. intros v x Hx. specialize (HT id p v Hp). unfold tally_of in HT.
    rewrite Hx in HT. simpl in HT. rewrite HT. apply Hnn.
  - rewrite wsum_seq.
    rewrite (lsum_ext _ (fun v : nat => ballot_total s id v)) by (intros v _; apply (HT id p v Hp)).
    unfold ballot_total. rewrite options_sum.
    destruct (voters_sum (fun a => vp O d a (p_start p)) id (s_ballots s)) as (l & Hnd & Hs & _).
    etransitivity; [|apply (Htot l Hnd)]. rewrite <- Hs.
    apply msum_le. intros [i a] bl Hbl. simpl.
    destruct (decide (i = id)) as [->|Hne].
    + destruct (HP _ _ _ _ Hbl Hp) as [<- ?]. destruct (decide _); lia.
    + destruct (decide _) as [[? ?]|?]; [congruence|lia].
Qed.

Lemma tprop_tally O d b s id p :
  winv b s -> tinv O d b s -> s_props s !! id = Some p ->
  tally_ok (p_total p) (p_votes p) /\ p_total p <= U128_MAX.
Proof.
  intros HI [A B C D] Hp. pose proof (D _ _ Hp) as [E F _ _ _].
  split; [|done]. eapply tinv_tally_ok; eauto. apply (w_len b). by apply (wi_props _ _ HI id).
Qed.

(** Updating the status keeps [tprop]. *)
Lemma pass_dest p b :
  pass_cond p b ->
  (p_revote p = false /\ exists i, decided_for (p_quorum p) (p_total p) (p_votes p) i) \/
  (is_expired (p_exp p) b = true /\ exists i, chosen (p_quorum p) (p_total p) (p_votes p) i).
Proof.
  intros (Hrev & _ & Hc). destruct (is_expired (p_exp p) b); [by right|left].
  split; [|done]. by destruct (p_revote p); [specialize (Hrev eq_refl)|].
Qed.
Lemma reject_dest p b :
  wprop b p -> tally_ok (p_total p) (p_votes p) -> p_total p <= U128_MAX ->
  is_passed p b = Ok false ->
  (is_expired (p_exp p) b = true \/ is_rejected p b = Ok true) ->
  (p_revote p = false /\ hopeless p) \/
  (is_expired (p_exp p) b = true /\ forall i, ~ chosen (p_quorum p) (p_total p) (p_votes p) i).
Proof.
  intros Hw Hok HT Hp Hd. pose proof (wprop_shaped _ _ Hw) as Hsh.
  destruct (is_expired (p_exp p) b) eqn:Ex.
  - right. split; [done|]. destruct (is_passed_spec p b Hsh Hok HT) as (r & Er & Hiff).
    rewrite Hp in Er. injection Er as <-. intros i Hout.
    assert (false = true); [|done]. apply Hiff. unfold pass_cond. rewrite Ex.
    split; [done|]. split; [by apply (w_min _ _ Hw)|eauto].
  - left. destruct Hd as [?|Hrej]; [done|].
    destruct (is_rejected_spec p b Hsh Hok HT) as (r & Er & H).
    rewrite Hrej in Er. injection Er as <-. by apply H.
Qed.
Lemma passed_dest p b :
  wprop b p -> tally_ok (p_total p) (p_votes p) -> p_total p <= U128_MAX ->
  is_passed p b = Ok true ->
  (p_revote p = false /\ exists i, decided_for (p_quorum p) (p_total p) (p_votes p) i) \/
  (is_expired (p_exp p) b = true /\ exists i, chosen (p_quorum p) (p_total p) (p_votes p) i).
Proof.
  intros Hw Hok HT Hp. apply pass_dest.
  destruct (is_passed_spec p b (wprop_shaped _ _ Hw) Hok HT) as (r & Er & Hiff).
  rewrite Hp in Er. injection Er as <-. by apply Hiff.
Qed.

Lemma tprop_current O d b p st :
  wprop b p -> tprop O d b p -> tally_ok (p_total p) (p_votes p) ->
  current_status p b = Ok st -> tprop O d b (set_status p st).
Proof.
  intros Hw [A B C D E] Hok Hst. apply current_status_cases in Hst.
  pose proof (passed_dest p b Hw Hok B) as Hpass.
  destruct (p_status p) eqn:Es.
  - destruct Hst as [(-> & Hp & Hv)|[(vc & e & -> & Hp & Hv & He & Hx)|[(-> & Hp & Hr)|(-> & Hp & Hx & Hr)]]];
      constructor; simpl; try done; eauto.
    intros _. exact (reject_dest p b Hw Hok B Hp Hr).
  - subst st. constructor; simpl; try done; rewrite ?Es in *; eauto.
  - subst st. constructor; simpl; try done; rewrite ?Es in *; eauto.
  - subst st. constructor; simpl; try done; rewrite ?Es in *; eauto.
  - subst st. constructor; simpl; try done; rewrite ?Es in *; eauto.
  - subst st. constructor; simpl; try done; rewrite ?Es in *; eauto.
  - destruct Hst as [[Hx ->]|[Hx ->]]; constructor; simpl; try done; rewrite ?Es in *; eauto.
  - subst st. constructor; simpl; try done; rewrite ?Es in *; eauto.
Qed.

(** Changing the votes (before expiration) keeps what was decided. *)
Lemma tprop_votes O d b p v :
  wprop b p -> tprop O d b p -> is_expired (p_exp p) b = false ->
  (p_revote p = false -> weights_le (p_votes p) v) -> tally_ok (p_total p) v ->
  p_status p <> Open ->
  tprop O d b (set_votes p v).
Proof.
  intros Hw [A B C D E] Hx Hle Hok Hno. constructor; simpl; try done.
  - intros Hp. destruct (C Hp) as [[Hr [i He]]|[? ?]]; [left|congruence].
    split; [done|]. exists i. by eapply decided_mono; eauto.
  - intros Hp. destruct (D Hp) as [[Hr Hh]|[? ?]]; [left|congruence].
    split; [done|]. intros v' i Hv' Hok'. simpl in *. apply Hh; [|done].
    eapply weights_le_trans; eauto.
Qed.
Lemma tprop_open O d b p :
  p_status p = Open ->
  (forall l, NoDup l -> lsum (fun a : addr => vp O d a (p_start p)) l <= p_total p) ->
  wprop b p -> tally_ok (p_total p) (p_votes p) -> p_total p <= U128_MAX ->
  forall st, current_status p b = Ok st -> tprop O d b (set_status p st).
Proof.
  intros Es A Hw Hok HT st Hst. apply current_status_cases in Hst. rewrite Es in Hst.
  pose proof (passed_dest p b Hw Hok HT) as Hpass.
  destruct Hst as [(-> & Hp & Hv)|[(vc & e & -> & Hp & Hv & He & Hx)|[(-> & Hp & Hr)|(-> & Hp & Hx & Hr)]]];
      constructor; simpl; try done; eauto.
  - intros _. exact (reject_dest p b Hw Hok HT Hp Hr).
  - intros _ b' Hb'.
    change (is_rejected p b' = Ok false). by rewrite (is_rejected_unexpired p b' b).
Qed.

Lemma tprop_fin O d b p st fin :
  wprop b p -> tprop O d b p -> tally_ok (p_total p) (p_votes p) ->
  current_status p b = Ok st -> allowed st fin -> tprop O d b (set_status p fin).
Proof.
  intros Hw Ht Hok Hst Hal.
  pose proof (tprop_current O d b p st Hw Ht Hok Hst) as [A B C D E]. simpl in *.
  destruct Hal as [[-> Hal]|[[-> Hal]|[-> ->]]]; constructor; simpl; try done; eauto.
  intros _. apply C. destruct Hal as [->|[e ->]]; done.
Qed.

Lemma weights_le_add l v w c : l !! v = Some c -> 0 <= w -> weights_le l (<[v := c + w]> l).
Proof.
  intros Hc Hw. unfold weights_le. apply Forall2_same_length_lookup.
  split; [by rewrite insert_length|]. intros i x y Hx Hy.
  destruct (decide (i = v)) as [->|Hne].
  - rewrite list_lookup_insert in Hy by (by eapply lookup_lt_Some). simplify_eq. lia.
  - rewrite list_lookup_insert_ne in Hy by done. simplify_eq. lia.
Qed.
Lemma vote_result_le s id a p v w votes1 :
  0 <= w -> vote_result s id a p v w votes1 -> p_revote p = false ->
  weights_le (p_votes p) votes1.
Proof.
  intros Hw H Hr. unfold vote_result in H. destruct (s_ballots s !! (id, a)).
  - destruct H as [H _]. congruence.
  - apply add_weight_ok in H as (c & Hc & ->). by apply weights_le_add.
Qed.

Lemma prim_tinv O d b s s' :
  sane O d -> winv b s -> tinv O d b s -> prim O b s s' -> attached d s' -> tinv O d b s'.
Proof.
  intros HS HI HT Hprim Hatt'.
  pose proof (prim_winv _ _ _ _ Hprim HI) as HI'.
  pose proof (prim_tally _ _ _ _ HI (ti_tally _ _ _ _ HT) Hprim) as Htal'.
  destruct Hprim as [s proposer opts ms st Hio Hst|s id a p v r votes1 st Hp Hlt Hx Hpw Hvr Hst|s id p st fin Hp Hst Hal|s id a cur r Hb|s s' E1 E2 E3 E4].
  - destruct HT as [[A1 A2] B C D]. constructor; [done|done|..]; simpl.
    + intros id a bl p Hbl Hp. destruct (decide (id = s_count s + 1)) as [->|Hne].
      * apply (wi_ballots _ _ HI) in Hbl. apply (wi_ids _ _ HI) in Hbl. lia.
      * rewrite lookup_insert_ne in Hp by done. by eapply C.
    + intros id p Hp. destruct (decide (id = s_count s + 1)) as [->|Hne].
      * rewrite lookup_insert in Hp. injection Hp as <-.
        apply (tprop_open O d b (new_prop O s b proposer ms Open)); try done; simpl.
        -- intros l Hl. rewrite A1. by apply HS.
        -- assert (wprop b (new_prop O s b proposer ms st)) as [W1 W2 W3 _ _ _ _ W8 W9 W10].
           { apply (wi_props _ _ HI' (s_count s + 1)). simpl. apply lookup_insert. }
           constructor; simpl in *; done.
        -- pose proof HS as (_ & _ & S3). split.
           ++ apply Forall_lookup. intros i x Hx. apply lookup_replicate in Hx as [-> _]. lia.
           ++ specialize (S3 b (s_count s + 1) [] (NoDup_nil_2)). simpl in S3. rewrite A1.
              assert (forall n, wsum (weights_zero n) = 0) as Hz.
              { intros n. unfold wsum, weights_zero. induction n; simpl; [done|lia]. }
              rewrite Hz. lia.
        -- rewrite A1. apply HS.
      * rewrite lookup_insert_ne in Hp by done. by eapply D.
  - pose proof HT as [[A1 A2] B C D].
    assert (forall id' a' bl p', 
      (<[(id, a):={| bl_power := vp O (c_dao (s_cfg s)) a (p_start p); bl_vote := v; bl_rationale := r |}]>
         (s_ballots s)) !! (id', a') = Some bl ->
      (<[id:=set_status (set_votes p votes1) st]> (s_props s)) !! id' = Some p' ->
      bl_power bl = vp O d a' (p_start p') /\ 0 < bl_power bl) as Hpow.
    { intros id' a' bl p' Hbl Hp'.
      assert (exists p0, s_props s !! id' = Some p0 /\ p_start p' = p_start p0) as (p0 & Hp0 & ->).
      { destruct (decide (id' = id)) as [->|Hne].
        - rewrite lookup_insert in Hp'. injection Hp' as <-. eauto.
        - rewrite lookup_insert_ne in Hp' by done. eauto. }
      destruct (decide ((id, a) = (id', a'))) as [[= <- <-]|Hne].
      - rewrite lookup_insert in Hbl. injection Hbl as <-. simpl. rewrite A1 in *.
        rewrite Hp in Hp0. injection Hp0 as <-. split; [done|].
        destruct HS as [S1 _]. specialize (S1 a (p_start p)). lia.
      - rewrite lookup_insert_ne in Hbl by done. by eapply C. }
    constructor; [done|done|exact Hpow|]. simpl.
    intros id' p' Hp'. destruct (decide (id' = id)) as [->|Hne];
      [|rewrite lookup_insert_ne in Hp' by done; by eapply D].
    assert (tally_ok (p_total p') (p_votes p')) as Hok'.
    { eapply (tinv_tally_ok O d _ id p' Htal' Hpow Hp').
      - rewrite lookup_insert in Hp'. injection Hp' as <-. simpl.
        rewrite (vote_result_length _ _ _ _ _ _ _ Hvr).
        apply (w_len b). by apply (wi_props _ _ HI id).
      - rewrite lookup_insert in Hp'. injection Hp' as <-. simpl. apply (t_total _ _ _ _ (D _ _ Hp)). }
    rewrite lookup_insert in Hp'. injection Hp' as <-. simpl in Hok'.
    pose proof (D _ _ Hp) as Dp. pose proof (wi_props _ _ HI _ _ Hp) as Wp.
    assert (p_total p <= U128_MAX) as HT' by apply (t_max _ _ _ _ Dp).
    assert (wprop b (set_votes p votes1)) as Wv.
    { apply wprop_votes; [done|]. by eapply vote_result_length. }
    destruct (decide (p_status p = Open)) as [Eo|Eno].
    + apply (tprop_open O d b (set_votes p votes1)); try done.
      apply (t_total _ _ _ _ Dp).
    + apply (tprop_current O d b (set_votes p votes1)); try done.
      apply tprop_votes; try done. intros Hr. eapply vote_result_le; [|done..].
      rewrite A1. apply HS.
  - pose proof (tprop_tally _ _ _ _ _ _ HI HT Hp) as (Hok & HT').
    destruct HT as [A B C D]. constructor; [done|done|..]; simpl.
    + intros id' a bl p' Hbl Hp'.
      destruct (decide (id' = id)) as [->|Hne].
      * rewrite lookup_insert in Hp'. injection Hp' as <-. by eapply (C id a bl p).
      * rewrite lookup_insert_ne in Hp' by done. by eapply C.
    + intros id' p' Hp'. destruct (decide (id' = id)) as [->|Hne].
      * rewrite lookup_insert in Hp'. injection Hp' as <-.
        eapply tprop_fin; eauto. by apply (wi_props _ _ HI id).
      * rewrite lookup_insert_ne in Hp' by done. by eapply D.
  - destruct HT as [A B C D]. constructor; [done|done|..|done]; simpl.
    intros id' a' bl p' Hbl Hp'. destruct (decide ((id, a) = (id', a'))) as [[= <- <-]|Hne].
    + rewrite lookup_insert in Hbl. injection Hbl as <-. simpl. by eapply C.
    + rewrite lookup_insert_ne in Hbl by done. by eapply C.
  - destruct HT as [A B C D]. constructor; [done|done|..]; rewrite ?E1, ?E2; done.
Qed.

(** Primitive steps that stay attached. *)
Definition aprim O d b s s' := prim O b s s' /\ (attached d s -> attached d s').
Lemma handle_aprims O d s b a m s' subs :
  handle O s b a m = Ok (s', subs) -> keeps_dao d a m -> rtc (aprim O d b) s s'.
Proof.
  intros H Hk.
  assert (forall s s', prim O b s s' -> s_cfg s' = s_cfg s -> aprim O d b s s') as Hsame.
  { intros s1 s2 Hp E. split; [done|]. unfold attached. by rewrite E. }
  destruct m; try (apply (admin_shape O s b a) in H; [|exact I];
    destruct H as (_ & _ & Hp & Hb & Hc & Hcfg); apply rtc_once;
    first [ by apply Hsame; [apply prim_admin; auto|]
          | destruct Hcfg as [Hv Hcfg]; split;
             [apply prim_admin; [done..|]; rewrite Hcfg; by right
             |intros _; unfold attached; rewrite Hcfg; exact Hk] ]).
  - simpl in H. apply execute_propose_shape in H
      as (proposer & st & s1 & subs2 & cs & _ & _ & _ & _ & Hcs & Hst & -> & _ & Hv).
    destruct (pm_vote pm) as [[v r]|].
    + apply execute_vote_shape in Hv as (p & votes1 & st2 & H1 & Hlt & H2 & H3 & H4 & H5 & -> & _).
      eapply rtc_l; [by apply Hsame; [eapply prim_new|]|]. apply rtc_once.
      apply Hsame; [by eapply prim_vote|done].
    + destruct Hv as [-> _]. apply rtc_once. by apply Hsame; [eapply prim_new|].
  - simpl in H. apply execute_vote_shape in H as (p & votes1 & st2 & H1 & Hlt & H2 & H3 & H4 & H5 & -> & _).
    apply rtc_once. apply Hsame; [by eapply prim_vote|done].
  - simpl in H. unfold execute_update_rationale in H.
    destruct (s_ballots s !! (id, a)) as [cur|] eqn:E; [|discriminate].
    injection H as <- <-. apply rtc_once. apply Hsame; [by apply prim_rationale|done].
  - simpl in H. apply execute_execute_shape in H as (p & st & c0 & Hp & Hst & Hc0 & Hal & -> & _).
    apply rtc_once. apply Hsame; [|done]. eapply prim_fin; [done..|]. left. split; [done|].
    destruct Hal as [[-> _]|(e & vc & -> & _)]; eauto.
  - simpl in H. apply execute_veto_shape in H as (p & st & vc & Hp & Hst & _ & _ & Hal & -> & _).
    apply rtc_once. apply Hsame; [|done]. eapply prim_fin; [done..|]. right; left. split; [done|].
    destruct Hal as [[-> _]|(e & -> & _)]; eauto.
  - simpl in H. apply execute_close_shape in H as (p & Hp & Hst & -> & _).
    apply rtc_once. apply Hsame; [|done]. eapply prim_fin; [done..|]. right; right. done.
Qed.

Definition sinv O d b s := winv b s /\ tinv O d b s.
Lemma aprims_sinv O d b s s' :
  sane O d -> sinv O d b s -> rtc (aprim O d b) s s' -> sinv O d b s'.
Proof.
  intros HS HI H. induction H as [|s1 s2 s3 [Hp Ha] Hr IH]; [done|].
  destruct HI as [HW HT]. apply IH. split; [by eapply prim_winv|].
  eapply prim_tinv; eauto. apply Ha. apply HT.
Qed.
Lemma on_ok_aprim O d s b x r s' : on_ok s b x r = Ok s' -> aprim O d b s s'.
Proof.
  intros H. split; [by eapply on_ok_prims|].
  destruct x; simpl in H; injection H as <-; done.
Qed.
Lemma on_fail_sinv O d b s x s' :
  sinv O d b s -> pend b s x -> on_fail s b x = Ok s' -> sinv O d b s'.
Proof.
  intros [HW [A B C D]] HP H. split; [by eapply on_fail_winv|].
  pose proof (on_fail_tally _ _ _ _ B H) as B'.
  destruct (on_fail_shape s b x s' H) as [(d0 & id & ms & p & -> & Hp & ->)|(Hx & E1 & E2 & E3 & E4)].
  - destruct (HP d0 id ms true eq_refl) as (p' & Hp' & Hd).
    rewrite Hp in Hp'. injection Hp' as <-.
    constructor; [done|done|..]; simpl.
    + intros id' a bl p' Hbl Hp'.
      destruct (decide (id' = id)) as [->|Hne].
      * rewrite lookup_insert in Hp'. injection Hp' as <-. by eapply (C id a bl p).
      * rewrite lookup_insert_ne in Hp' by done. by eapply C.
    + intros id' p' Hp'. destruct (decide (id' = id)) as [->|Hne].
      * rewrite lookup_insert in Hp'. injection Hp' as <-. destruct (D _ _ Hp) as [T1 T2 T3 T4 T5].
        constructor; simpl; try done. intros _. apply T3.
        destruct Hd as [->| ->]; done.
      * rewrite lookup_insert_ne in Hp' by done. by eapply D.
  - constructor; unfold attached; rewrite ?E1, ?E2, ?E4; done.
Qed.
Lemma fresh_sinv O d b s : fresh s -> attached d s -> sinv O d b s.
Proof.
  intros Hf Ha. split; [by apply fresh_winv|]. pose proof Hf as (_ & E1 & E2 & _).
  constructor; [done|by apply fresh_tally|..]; rewrite ?E1, ?E2.
  - intros ? ? ? ?. rewrite lookup_empty. done.
  - intros ? ?. rewrite lookup_empty. done.
Qed.

Notation attrace O d := (trace (handle O) on_fail on_ok (keeps_dao d) (sinv O d) pend).
Lemma mult_strong O d b0 s h s' l :
  sane O d -> sinv O d b0 s -> hist_ok b0 h -> hist_all (keeps_dao d) h ->
  srun O s h = (s', l) ->
  sinv O d (hist_end b0 h) s' /\ attrace O d b0 s l (hist_end b0 h) s'.
Proof.
  intros HS HI Hh Ha Hr. eapply run_hist_trace; try done.
  - intros b s1 a m s2 subs HI1 Hm H.
    split; [eapply aprims_sinv; [done..|by eapply handle_aprims]|].
    intros x Hx. by eapply handle_pend.
  - intros b s1 x s2 HI1 HP H. by eapply on_fail_sinv.
  - intros b s1 x r s2 HI1 HP H. eapply aprims_sinv; [done..|].
    apply rtc_once. by eapply on_ok_aprim.
  - intros b s1 a m s2 subs x [HI1 _] _ H HP d' id ms c ->.
    eapply done_at_prims; [done|by eapply handle_prims|]. by eapply HP.
  - intros b s1 x s2 y HI1 _ H HP d' id ms c ->. eapply on_fail_done; [done|]. by eapply HP.
  - intros b s1 x r s2 y [HI1 _] _ H HP d' id ms c ->.
    eapply (done_at_prims O b s1); [done|apply rtc_once; by eapply on_ok_prims|]. by eapply HP.
  - intros b b' s1 Hb [HW HT]. split; [by eapply winv_time|by eapply tinv_time].
Qed.

(** Tallies equal ballots over any history, with no assumption at all. *)
Lemma mult_tally O b0 s h s' l :
  winv b0 s -> tally_inv s -> hist_ok b0 h -> srun O s h = (s', l) -> tally_inv s'.
Proof.
  intros HI HT Hh Hr.
  edestruct (run_hist_trace (handle O) on_fail on_ok any_msg
     (fun b s => winv b s /\ tally_inv s) pend) as [[_ Hfin] _];
    [..|exact Hh|apply hist_all_any|exact Hr|exact Hfin]; try done.
  - intros b s1 a m s2 subs [HI1 HT1] _ H. split.
    + split; [by eapply handle_winv|]. eapply prims_tally; [done..|by eapply handle_prims].
    + intros x Hx. by eapply handle_pend.
  - intros b s1 x s2 [HI1 HT1] HP H. split; [by eapply on_fail_winv|by eapply on_fail_tally].
  - intros b s1 x r s2 [HI1 HT1] HP H. apply (on_ok_prims O) in H.
    split; [by eapply prim_winv|by eapply prim_tally].
  - intros b s1 a m s2 subs x [HI1 _] _ H HP d' id ms c ->.
    eapply done_at_prims; [done|by eapply handle_prims|]. by eapply HP.
  - intros b s1 x s2 y HI1 _ H HP d' id ms c ->. eapply on_fail_done; [done|]. by eapply HP.
  - intros b s1 x r s2 y [HI1 _] _ H HP d' id ms c ->.
    eapply (done_at_prims O b s1); [done|apply rtc_once; by eapply on_ok_prims|]. by eapply HP.
  - intros b b' s1 Hb [HW HT']. split; [by eapply winv_time|done].
Qed.

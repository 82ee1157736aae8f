(** dao-proposal-multiple: the winner computation, the pass test and the reject
    test against the specification of MultSpec.v. *)
From Verif Require Import Base BaseProofs Exec ExecProofs VotingModel VotingSpec
  VotingProofs HooksModel MultModel MultSpec MultProofs.

(** ** Weights *)
Lemma weights_total_ok T w : tally_ok T w -> T <= U128_MAX -> weights_total w = Ok (wsum w).
Proof.
  intros [Hn Hs] HT. assert (wsum w <= U128_MAX) as Hm by lia. clear Hs HT.
  induction w as [|x w IH]; [done|]. inversion_clear Hn as [|? ? Hx Hw].
  unfold wsum in *. simpl in *.
  assert (0 <= lsum (fun x : Z => x) w).
  { apply lsum_nonneg. by rewrite Forall_forall in Hw. }
  rewrite IH by (try done; lia). simpl. apply add128_eq. lia.
Qed.
Lemma wsum_nonneg w : Forall (fun x : Z => 0 <= x) w -> 0 <= wsum w.
Proof. intros H. apply lsum_nonneg. by rewrite Forall_forall in H. Qed.

Lemma weights_le_refl w : weights_le w w.
Proof. unfold weights_le. induction w; constructor; [lia|done]. Qed.
Lemma weights_le_trans a b c : weights_le a b -> weights_le b c -> weights_le a c.
Proof. unfold weights_le. apply (transitivity (R := Forall2 Z.le)). Qed.
Lemma weights_le_length a b : weights_le a b -> length a = length b.
Proof. apply Forall2_length. Qed.
Lemma wsum_le a b : weights_le a b -> wsum a <= wsum b.
Proof. unfold wsum. induction 1; simpl; lia. Qed.
Lemma wsum_one a b i x y :
  weights_le a b -> a !! i = Some x -> b !! i = Some y -> y - x <= wsum b - wsum a.
Proof.
  intros H. revert i. induction H as [|p q a b Hpq Hab IH]; intros i Hx Hy; [done|].
  pose proof (wsum_le _ _ Hab) as Hs. unfold wsum in *. simpl.
  destruct i; simpl in *.
  - injection Hx as ->. injection Hy as ->. lia.
  - specialize (IH _ Hx Hy). lia.
Qed.
Lemma wsum_two a b i j x y x' y' :
  weights_le a b -> i <> j ->
  a !! i = Some x -> b !! i = Some x' -> a !! j = Some y -> b !! j = Some y' ->
  (x' - x) + (y' - y) <= wsum b - wsum a.
Proof.
  intros H. revert i j. induction H as [|p q a b Hpq Hab IH]; intros i j Hij Hx Hx' Hy Hy'; [done|].
  destruct i as [|i], j as [|j]; simpl in *; [done|..].
  - injection Hx as ->. injection Hx' as ->.
    pose proof (wsum_one _ _ _ _ _ Hab Hy Hy'). unfold wsum in *. simpl. lia.
  - injection Hy as ->. injection Hy' as ->.
    pose proof (wsum_one _ _ _ _ _ Hab Hx Hx'). unfold wsum in *. simpl. lia.
  - assert (i <> j) by congruence. specialize (IH i j H Hx Hx' Hy Hy').
    unfold wsum in *. simpl. lia.
Qed.
Lemma weights_le_lookup a b i x :
  weights_le a b -> a !! i = Some x -> exists y, b !! i = Some y /\ x <= y.
Proof. intros H Hx. by destruct (Forall2_lookup_l _ _ _ _ _ H Hx) as (y & ? & ?); eauto. Qed.
Lemma weights_le_lookup_r a b i y :
  weights_le a b -> b !! i = Some y -> exists x, a !! i = Some x /\ x <= y.
Proof. intros H Hx. by destruct (Forall2_lookup_r _ _ _ _ _ H Hx) as (x & ? & ?); eauto. Qed.
Lemma weights_le_full a b : weights_le a b -> wsum b <= wsum a -> a = b.
Proof.
  intros H. induction H as [|p q a b Hpq Hab IH]; [done|].
  pose proof (wsum_le _ _ Hab). unfold wsum in *. simpl. intros Hs.
  rewrite IH by lia. f_equal. lia.
Qed.

(** ** The maximum and the winner *)
Lemma fold_max_spec l a :
  (fold_left Z.max l a = a \/ fold_left Z.max l a ∈ l) /\
  a <= fold_left Z.max l a /\ forall x, x ∈ l -> x <= fold_left Z.max l a.
Proof.
  revert a. induction l as [|x l IH]; intros a; simpl.
  - split; [by left|]. split; [lia|]. intros y Hy. by apply elem_of_nil in Hy.
  - destruct (IH (Z.max a x)) as (H1 & H2 & H3). split; [|split; [lia|]].
    + destruct H1 as [H1|H1]; [|right; by right].
      rewrite H1. destruct (Z.max_spec a x) as [[_ ->]|[_ ->]]; [right; left|by left].
    + intros y Hy. apply elem_of_cons in Hy as [->|Hy]; [lia|by apply H3].
Qed.
Lemma max_list_spec w : w <> [] -> exists m, max_list w = Some m /\ m ∈ w /\ forall x, x ∈ w -> x <= m.
Proof.
  destruct w as [|a l]; [done|]. intros _. simpl. eexists. split; [done|].
  destruct (fold_max_spec l a) as (H1 & H2 & H3). split.
  - destruct H1 as [->|H1]; [left|by right].
  - intros x Hx. apply elem_of_cons in Hx as [->|Hx]; eauto.
Qed.
Lemma max_list_none w : max_list w = None -> w = [].
Proof. by destruct w. Qed.

Lemma elem_top w m i x :
  (i, x) ∈ filter (fun y : nat * Z => y.2 = m) (imap pair w) <-> w !! i = Some x /\ x = m.
Proof.
  rewrite elem_of_list_filter. simpl. split.
  - intros [-> (j & y & E & H)%elem_imap]. injection E as -> ->. done.
  - intros [H ->]. split; [done|]. apply elem_of_list_lookup. exists i.
    rewrite list_lookup_imap, H. done.
Qed.
Lemma nodup_imap_pair (w : list Z) : NoDup (imap pair w).*1.
Proof.
  apply NoDup_alt. intros i j x. rewrite !list_lookup_fmap, !list_lookup_imap.
  destruct (w !! i), (w !! j); simpl; congruence.
Qed.

(** The winner computation, given at least one weight. *)
Lemma top_spec w :
  w <> [] ->
  exists m, max_list w = Some m /\
  match filter (fun x : nat * Z => x.2 = m) (imap pair w) with
  | [] => False
  | [(i, _)] => strict_winner w i
  | _ => forall i, ~ strict_winner w i
  end.
Proof.
  intros Hw. destruct (max_list_spec w Hw) as (m & Hm & Hin & Hle).
  exists m. split; [done|].
  apply elem_of_list_lookup in Hin as (k & Hk).
  assert (Hk' : (k, m) ∈ filter (fun x : nat * Z => x.2 = m) (imap pair w)) by by apply elem_top.
  assert (NoDup (filter (fun x : nat * Z => x.2 = m) (imap pair w))) as Hnd.
  { apply NoDup_filter. eapply NoDup_fmap_1. apply nodup_imap_pair. }
  pose proof (elem_top w m) as Htop.
  destruct (filter _ _) as [|[i x] [|[j y] l]].
  - by apply elem_of_nil in Hk'.
  - apply elem_of_list_singleton in Hk' as [= -> ->].
    exists x. split; [done|]. intros j y Hne Hy.
    assert (y <= x) by (apply Hle; by eapply elem_of_list_lookup_2).
    destruct (decide (y = x)) as [->|]; [|lia].
    assert ((j, x) ∈ [(i, x)]) as Hj by by apply Htop.
    apply elem_of_list_singleton in Hj. congruence.
  - assert ((i, x) ∈ (i, x) :: (j, y) :: l) as H1 by left.
    assert ((j, y) ∈ (i, x) :: (j, y) :: l) as H2 by (right; left).
    apply Htop in H1 as [H1 ->]. apply Htop in H2 as [H2 ->].
    apply NoDup_cons in Hnd as [Hnd _].
    assert (i <> j) as Hij. { intros ->. apply Hnd. left. }
    intros a (z & Hz & Hmax).
    assert (z <= m) by (apply Hle; by eapply elem_of_list_lookup_2).
    destruct (decide (a = i)) as [->|Ha].
    + specialize (Hmax j m (not_eq_sym Hij) H2). lia.
    + specialize (Hmax i m (not_eq_sym Ha) H1). lia.
Qed.

(** ** Proposals with well-formed choices *)
Definition well_shaped (p : proposal) : Prop :=
  (exists opts, into_checked opts = Ok (p_choices p)) /\
  length (p_votes p) = length (p_choices p).

Lemma into_checked_ok opts cs :
  into_checked opts = Ok cs ->
  (3 <= length cs <= 21)%nat /\
  forall i c, cs !! i = Some c ->
    ch_index c = i /\ (ch_none c = true <-> length cs = S i) /\
    (ch_none c = true -> ch_msgs c = []) /\
    (ch_none c = false -> opts !! i = Some (ch_msgs c)).
Proof.
  unfold into_checked. destruct (_ && _)%nat eqn:E; [|discriminate].
  apply andb_true_iff in E as [E1 E2]. apply Nat.leb_le in E1, E2.
  intros [= <-]. rewrite app_length, imap_length. simpl. split; [lia|].
  intros i c Hc. apply lookup_app_Some in Hc as [Hc|[Hlen Hc]].
  - rewrite list_lookup_imap in Hc. destruct (opts !! i) as [ms|] eqn:Ei; [|done].
    simpl in Hc. injection Hc as <-. simpl. apply lookup_lt_Some in Ei.
    repeat split; try done. lia.
  - rewrite imap_length in *. apply list_lookup_singleton_Some in Hc as [Hi <-]. simpl.
    repeat split; try done; lia.
Qed.

Lemma calculate_spec p :
  well_shaped p ->
  (exists i c, calculate_vote_result p = Ok (SingleWinner c) /\
     strict_winner (p_votes p) i /\ p_choices p !! i = Some c /\ ch_index c = i /\
     (ch_none c = true <-> none_option (length (p_votes p)) i)) \/
  (calculate_vote_result p = Ok Tie /\ forall i, ~ strict_winner (p_votes p) i).
Proof.
  intros [[opts Ho] Hl]. apply into_checked_ok in Ho as [Hn Hc].
  assert (p_votes p <> []) as Hne by (intros E; rewrite E in Hl; simpl in Hl; lia).
  destruct (top_spec _ Hne) as (m & Hm & Ht). unfold calculate_vote_result. rewrite Hm.
  destruct (filter _ _) as [|[i x] [|[j y] l]]; [done|..].
  - left. destruct (lookup_lt_is_Some_2 (p_choices p) i) as [c Ec].
    { destruct Ht as (z & Hz & _). apply lookup_lt_Some in Hz. lia. }
    exists i, c. rewrite Ec. destruct (Hc i c Ec) as (H1 & H2 & _).
    unfold none_option. rewrite Hl. done.
  - by right.
Qed.

Lemma strict_winner_inj w i j : strict_winner w i -> strict_winner w j -> i = j.
Proof.
  intros (x & Hx & Hi) (y & Hy & Hj). destruct (decide (i = j)) as [|Hne]; [done|].
  specialize (Hi j y (not_eq_sym Hne) Hy). specialize (Hj i x Hne Hx). lia.
Qed.

(** Every other option stays behind [i] whatever the outstanding power does;
    with [slack] one, at most a tie is possible. *)
Definition ahead (total : Z) (w : weights) (i : nat) (slack : Z) : Prop :=
  exists x, w !! i = Some x /\
    forall j y, j <> i -> w !! j = Some y -> y + (total - wsum w) < x + slack.

Lemma unbeatable_spec p i c :
  well_shaped p -> tally_ok (p_total p) (p_votes p) -> p_total p <= U128_MAX ->
  strict_winner (p_votes p) i -> ch_index c = i ->
  exists r, is_choice_unbeatable p c = Ok r /\
    (r = true <-> ahead (p_total p) (p_votes p) i (if ch_none c then 1 else 0)).
Proof.
  intros [[opts Ho] Hl] Hok HT (x & Hx & Hw) Hi. apply into_checked_ok in Ho as [Hn _].
  unfold is_choice_unbeatable. rewrite Hi, Hx.
  set (rest := filter (fun w => w < x) (p_votes p)).
  assert (rest <> []) as Hne.
  { assert (exists j, (j < length (p_votes p))%nat /\ j <> i) as (j & Hj & Hji).
    { destruct (decide (i = 0%nat)); [exists 1%nat|exists 0%nat]; lia. }
    apply lookup_lt_is_Some_2 in Hj as [y Hy]. specialize (Hw j y Hji Hy).
    intros E. assert (y ∈ rest) as Hin; [|rewrite E in Hin; by apply elem_of_nil in Hin].
    apply elem_of_list_filter. split; [done|]. by eapply elem_of_list_lookup_2. }
  destruct (max_list_spec rest Hne) as (sec & Hs & Hin & Hmax). rewrite Hs.
  apply elem_of_list_filter in Hin as [Hsx Hin].
  apply elem_of_list_lookup in Hin as (k & Hk).
  assert (forall j y, j <> i -> p_votes p !! j = Some y -> y <= sec) as Hle.
  { intros j y Hji Hy. apply Hmax. apply elem_of_list_filter.
    split; [by eapply Hw|by eapply elem_of_list_lookup_2]. }
  rewrite (weights_total_ok _ _ Hok HT).
  destruct Hok as [Hnn Hsum].
  assert (0 <= sec) by (rewrite Forall_lookup in Hnn; by eapply Hnn).
  assert (sec <= wsum (p_votes p)).
  { clear -Hnn Hk. revert k Hk. induction (p_votes p) as [|a l IH]; intros k Hk; [done|].
    inversion_clear Hnn as [|? ? Ha Hl]. pose proof (wsum_nonneg l Hl).
    unfold wsum in *. simpl. destruct k; simpl in Hk.
    - injection Hk as ->. lia.
    - specialize (IH Hl k Hk). lia. }
  rewrite sub128_eq by lia. simpl.
  rewrite add128_eq by lia. simpl.
  assert (k <> i) as Hki by (intros ->; rewrite Hk in Hx; injection Hx as ->; lia).
  destruct (ch_none c); eexists; (split; [done|]); split.
  - intros Hb. exists x. split; [done|]. intros j y Hji Hy. specialize (Hle j y Hji Hy). lia.
  - intros (x' & Hx' & Ha). rewrite Hx in Hx'. injection Hx' as <-.
    specialize (Ha k sec Hki Hk). lia.
  - intros Hb. exists x. split; [done|]. intros j y Hji Hy. specialize (Hle j y Hji Hy). lia.
  - intros (x' & Hx' & Ha). rewrite Hx in Hx'. injection Hx' as <-.
    specialize (Ha k sec Hki Hk). lia.
Qed.

(** ** Leading beyond reach *)
Lemma ahead_mono T w w' i k :
  weights_le w w' -> tally_ok T w' -> ahead T w i k -> ahead T w' i k.
Proof.
  intros Hle [_ Hs] (x & Hx & H). destruct (weights_le_lookup _ _ _ _ Hle Hx) as (x' & Hx' & Hxx).
  exists x'. split; [done|]. intros j y' Hji Hy'.
  destruct (weights_le_lookup_r _ _ _ _ Hle Hy') as (y & Hy & Hyy).
  pose proof (wsum_two w w' i j x y x' y' Hle (not_eq_sym Hji) Hx Hx' Hy Hy').
  specialize (H j y Hji Hy). lia.
Qed.
Lemma ahead_winner T w i : tally_ok T w -> ahead T w i 0 -> strict_winner w i.
Proof.
  intros [_ Hs] (x & Hx & H). exists x. split; [done|]. intros j y Hji Hy.
  specialize (H j y Hji Hy). lia.
Qed.

(** Early decision for option [i]. *)
Definition decided_for (q : percentage) (T : Z) (w : weights) (i : nat) : Prop :=
  share_near (wsum w) T q /\ ~ none_option (length w) i /\ ahead T w i 0.

Lemma decided_mono q T w w' i :
  decided_for q T w i -> weights_le w w' -> tally_ok T w' ->
  decided_for q T w' i /\ chosen q T w' i.
Proof.
  intros (Hq & Hn & Ha) Hle Hok. pose proof (ahead_mono _ _ _ _ _ Hle Hok Ha) as Ha'.
  assert (share_near (wsum w') T q) as Hq'.
  { eapply near_mono_w; [done|]. by apply wsum_le. }
  rewrite (weights_le_length _ _ Hle) in Hn.
  split; [done|]. split; [done|]. split; [|done]. by eapply ahead_winner.
Qed.

(** ** The pass test *)
Definition pass_cond (p : proposal) (b : block) : Prop :=
  (p_revote p = true -> is_expired (p_exp p) b = true) /\ min_ok p b /\
  (if is_expired (p_exp p) b
   then exists i, chosen (p_quorum p) (p_total p) (p_votes p) i
   else exists i, decided_for (p_quorum p) (p_total p) (p_votes p) i).

Lemma is_passed_spec p b :
  well_shaped p -> tally_ok (p_total p) (p_votes p) -> p_total p <= U128_MAX ->
  exists r, is_passed p b = Ok r /\ (r = true <-> pass_cond p b).
Proof.
  intros Hsh Hok HT. unfold is_passed, pass_cond, min_ok.
  destruct (p_revote p && negb (is_expired (p_exp p) b)) eqn:Er.
  { exists false. split; [done|]. split; [done|]. intros [H _].
    apply andb_true_iff in Er as [Er Ee]. rewrite (H Er) in Ee. done. }
  assert (p_revote p = true -> is_expired (p_exp p) b = true) as Hrev.
  { intros E. rewrite E in Er. by destruct (is_expired (p_exp p) b). }
  destruct (match p_min p with Some m => negb (is_expired m b) | None => false end) eqn:Em.
  { exists false. split; [done|]. split; [done|]. intros (_ & H & _).
    destruct (p_min p); [|done]. rewrite H in Em. done. }
  assert (match p_min p with Some m => is_expired m b = true | None => True end) as Hmin.
  { destruct (p_min p); [|done]. by destruct (is_expired e b). }
  rewrite (weights_total_ok _ _ Hok HT).
  assert (forall P Q : Prop, (P <-> Q) ->
    (P <-> (p_revote p = true -> is_expired (p_exp p) b = true) /\
           match p_min p with Some m => is_expired m b = true | None => True end /\ Q)) as Hwrap.
  { intros P Q HPQ. tauto. }
  assert (0 <= p_total p) as HT0.
  { destruct Hok as [Hn Hs]. pose proof (wsum_nonneg _ Hn). lia. }
  destruct (does_vote_count_pass (wsum (p_votes p)) (p_total p) (p_quorum p)) eqn:Eq.
  - apply pass_iff in Eq; [|done].
    destruct (calculate_spec p Hsh) as [(i & c & -> & Hw & Hc & Hi & Hnone)|[-> Hno]].
    + destruct (ch_none c) eqn:En.
      * exists false. split; [done|]. apply Hwrap. split; [done|].
        assert (none_option (length (p_votes p)) i) as Hn by by apply Hnone.
        intros H. assert (exists j, strict_winner (p_votes p) j /\ ~ none_option (length (p_votes p)) j)
          as (j & Hj & Hnj).
        { destruct (is_expired (p_exp p) b); destruct H as [j H]; exists j.
          - destruct H as (_ & ? & ?). done.
          - destruct H as (_ & ? & Ha). split; [|done]. by eapply ahead_winner. }
        rewrite (strict_winner_inj _ _ _ Hj Hw) in Hnj. done.
      * assert (~ none_option (length (p_votes p)) i) as Hn.
        { intros H. apply Hnone in H. done. }
        destruct (is_expired (p_exp p) b) eqn:Ex.
        -- exists true. split; [done|]. apply Hwrap. split; [|done]. intros _. exists i. done.
        -- destruct (unbeatable_spec p i c Hsh Hok HT Hw Hi) as (r & -> & Hr).
           rewrite En in Hr. exists r. split; [done|]. apply Hwrap. rewrite Hr. split.
           ++ intros Ha. exists i. done.
           ++ intros (j & _ & Hnj & Ha).
              by rewrite (strict_winner_inj _ _ _ (ahead_winner _ _ _ Hok Ha) Hw) in Ha.
    + exists false. split; [done|]. apply Hwrap. split; [done|].
      intros H. exfalso. destruct (is_expired (p_exp p) b); destruct H as [j H].
      * destruct H as (_ & ? & _). by eapply Hno.
      * destruct H as (_ & _ & Ha). eapply Hno. by eapply ahead_winner.
  - exists false. split; [done|]. apply Hwrap. split; [done|].
    assert (~ share_near (wsum (p_votes p)) (p_total p) (p_quorum p)) as Hnq.
    { rewrite <- pass_iff by done. by rewrite Eq. }
    destruct (is_expired (p_exp p) b); intros [j H]; destruct H as [? _]; done.
Qed.

(** ** The reject test *)
Definition hopeless (p : proposal) : Prop :=
  forall w' i, weights_le (p_votes p) w' -> tally_ok (p_total p) w' ->
               ~ chosen (p_quorum p) (p_total p) w' i.

Lemma is_rejected_spec p b :
  well_shaped p -> tally_ok (p_total p) (p_votes p) -> p_total p <= U128_MAX ->
  exists r, is_rejected p b = Ok r /\
    (r = true -> is_expired (p_exp p) b = false -> p_revote p = false /\ hopeless p).
Proof.
  intros Hsh Hok HT. unfold is_rejected.
  destruct (p_revote p && negb (is_expired (p_exp p) b)) eqn:Er.
  { exists false. split; done. }
  assert (is_expired (p_exp p) b = false -> p_revote p = false) as Hrev.
  { intros E. rewrite E in Er. by destruct (p_revote p). }
  rewrite (weights_total_ok _ _ Hok HT).
  destruct (calculate_spec p Hsh) as [(i & c & -> & Hw & Hc & Hi & Hnone)|[-> Hno]].
  - assert (exists r, (if ch_none c then is_choice_unbeatable p c else Ok false) = Ok r /\
      (r = true -> hopeless p)) as (r & Er' & Hr).
    { destruct (ch_none c) eqn:En; [|by exists false].
      destruct (unbeatable_spec p i c Hsh Hok HT Hw Hi) as (r & -> & Hr).
      rewrite En in Hr. exists r. split; [done|]. intros Hrt. apply Hr in Hrt.
      intros w' j Hle Hok' (_ & Hwin & Hnj).
      destruct (ahead_mono _ _ _ _ _ Hle Hok' Hrt) as (x & Hx & Ha).
      assert (none_option (length (p_votes p)) i) as Hni by by apply Hnone.
      rewrite <- (weights_le_length _ _ Hle) in Hnj.
      destruct Hwin as (y & Hy & Hmax).
      assert (j <> i) as Hji by congruence.
      specialize (Ha j y Hji Hy). specialize (Hmax i x (not_eq_sym Hji) Hx).
      destruct Hok' as [_ Hs']. lia. }
    simpl. destruct (does_vote_count_pass _ _ _), (is_expired (p_exp p) b) eqn:Ex.
    + eexists. split; [done|]. done.
    + rewrite Er'. exists r. split; [done|]. intros Ht _. split; [by apply Hrev|by apply Hr].
    + eexists. split; [done|]. done.
    + rewrite Er'. exists r. split; [done|]. intros Ht _. split; [by apply Hrev|by apply Hr].
  - simpl. destruct (is_expired (p_exp p) b) eqn:Ex.
    + eexists. split; [done|]. done.
    + eexists. split; [done|]. intros He _. split; [by apply Hrev|].
      intros w' j Hle [_ Hs] (_ & Hwin & _).
      assert (p_votes p = w') as <- by (apply weights_le_full; [done|lia]). by eapply Hno.
Qed.
Lemma is_rejected_unexpired p b b' :
  is_expired (p_exp p) b = false -> is_expired (p_exp p) b' = false ->
  is_rejected p b = is_rejected p b'.
Proof. unfold is_rejected. intros -> ->. done. Qed.

Lemma wprop_shaped b p : wprop b p -> well_shaped p.
Proof. intros H. split; [apply (w_choices _ _ H)|apply (w_len _ _ H)]. Qed.

(** Status computation never aborts. *)
Lemma current_status_total b0 p b :
  wprop b0 p -> tally_ok (p_total p) (p_votes p) -> p_total p <= U128_MAX ->
  exists st, current_status p b = Ok st.
Proof.
  intros Hw Hok HT. pose proof (wprop_shaped _ _ Hw) as Hsh. unfold current_status.
  destruct (p_status p); try (by eexists).
  - destruct (is_passed_spec p b Hsh Hok HT) as (r & -> & _).
    destruct r.
    + destruct (p_veto p) as [vc|] eqn:Ev; [|by eexists].
      destruct (w_veto _ _ Hw vc Ev) as [e ->]. destruct (is_expired e b); by eexists.
    + destruct (is_expired (p_exp p) b); [by eexists|].
      destruct (is_rejected_spec p b Hsh Hok HT) as (r & -> & _). destruct r; by eexists.
  - destruct (is_expired e b); by eexists.
Qed.

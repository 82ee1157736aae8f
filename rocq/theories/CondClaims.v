(** Statements about dao-proposal-condorcet, proved from its invariants. *)
From Verif Require Import Base BaseProofs Exec ExecProofs VotingModel VotingSpec
  VotingProofs CondModel CondSpec CondMatrix CondWinner CondProofs CondLife.
Notation crun O := (run_hist (handle O) on_fail on_ok).
Notation ccall O := (run_call (handle O) on_fail on_ok).

Lemma reached_get O b s l id t :
  typed O -> reached O b s l -> s_tallies s !! id = Some t ->
  exists p, s_props s !! id = Some p /\ prop_ok O s b id t p /\ inv O (s_dao s) b s.
Proof.
  intros HT HR Ht. pose proof (reached_inv _ _ _ _ HT HR) as HI.
  destruct (i_dom _ _ _ _ HI id) as [_ Hd]. destruct (Hd ltac:(eauto)) as [p Hp].
  exists p. split; [done|]. split; [by apply HI|done].
Qed.
Lemma reached_getp O b s l id p :
  typed O -> reached O b s l -> s_props s !! id = Some p ->
  exists t, s_tallies s !! id = Some t /\ prop_ok O s b id t p /\ inv O (s_dao s) b s.
Proof.
  intros HT HR Hp. pose proof (reached_inv _ _ _ _ HT HR) as HI.
  destruct (i_dom _ _ _ _ HI id) as [Hd _]. destruct (Hd ltac:(eauto)) as [t Ht].
  exists t. split; [done|]. split; [by apply HI|done].
Qed.

(** * C27 *)
Lemma c27_margins O b s l id t x y :
  typed O -> reached O b s l -> s_tallies s !! id = Some t ->
  0 <= x < m_n (t_m t) -> 0 <= y < m_n (t_m t) -> x <> y ->
  exists c, get (t_m t) x y = Ok c /\ val c = margin O s id x y.
Proof.
  intros HT HR Ht Hx Hy Hne. destruct (reached_get _ _ _ _ _ _ HT HR Ht) as (p & Hp & HPO & _).
  destruct (get_mval (t_m t) x y (po_mat _ _ _ _ _ _ HPO) Hx Hy Hne) as (c & Hg & _ & Hv).
  exists c. split; [done|]. rewrite Hv. by apply (po_mg _ _ _ _ _ _ HPO).
Qed.
Lemma c27_rankings O b s l id a v :
  typed O -> reached O b s l -> s_votes s !! (id, a) = Some v ->
  exists p t, s_props s !! id = Some p /\ s_tallies s !! id = Some t /\
    m_n (t_m t) = Z.of_nat (length (p_choices p)) /\ ranking (Z.of_nat (length (p_choices p))) v.
Proof.
  intros HT HR Hv. pose proof (reached_inv _ _ _ _ HT HR) as HI.
  apply (i_votes _ _ _ _ HI) in Hv as (t & Ht & Hr).
  destruct (reached_get _ _ _ _ _ _ HT HR Ht) as (p & Hp & HPO & _).
  exists p, t. rewrite (po_n _ _ _ _ _ _ HPO) in Hr |- *. done.
Qed.
(** Distinct pairs live in distinct existing cells. *)
Lemma c27_layout n m x y x' y' :
  2 <= n -> matrix_new n = Ok m -> 0 <= y < x -> x < n -> 0 <= y' < x' -> x' < n ->
  exists i i', index m x y = Ok i /\ index m x' y' = Ok i' /\
    is_Some (m_cells m !! Z.to_nat i) /\ is_Some (m_cells m !! Z.to_nat i') /\
    ((x, y) <> (x', y') -> Z.to_nat i <> Z.to_nat i').
Proof.
  intros Hn Hm H1 H2 H3 H4. apply matrix_new_ok in Hm as (HM & <- & _); [|done].
  exists (idx (m_n m) x y), (idx (m_n m) x' y').
  rewrite !index_eq by done. split; [done|]. split; [done|].
  destruct (cell_at_eq m x y HM H1 H2) as (c & -> & _).
  destruct (cell_at_eq m x' y' HM H3 H4) as (c' & -> & _).
  split; [eauto|]. split; [eauto|]. intros Hne E. apply Hne.
  pose proof (idx_range _ _ _ H1 H2). pose proof (idx_range _ _ _ H3 H4).
  assert (idx (m_n m) x y = idx (m_n m) x' y') as E' by lia.
  apply idx_inj in E' as [-> ->]; done.
Qed.
(** A recorded vote: the power of its caster moves every margin towards the
    candidate it prefers, and leaves every other proposal alone. *)
Lemma sg_ranking n v x y :
  ranking n v -> 0 <= x < n -> 0 <= y < n -> x <> y ->
  (prefers v x y = true /\ prefers v y x = false) \/ (prefers v x y = false /\ prefers v y x = true).
Proof.
  intros [Hnd Hin] Hx Hy Hne.
  assert (x ∈ v) as Hxv by (by apply Hin). assert (y ∈ v) as Hyv by (by apply Hin). clear Hin Hx Hy.
  induction v as [|z v IH]; [by apply not_elem_of_nil in Hxv|].
  inversion Hnd as [|? ? Hz Hnd']; subst. simpl. fold (mem y v). fold (mem x v).
  destruct (Z.eqb_spec z x) as [<-|Hzx], (Z.eqb_spec z y) as [<-|Hzy]; [done| | |].
  - left. split; [apply mem_true; apply elem_of_cons in Hyv as [->|?]; done|].
    destruct (prefers v y z) eqn:E; [|done]. apply prefers_in in E as [_ ?]. done.
  - right. split; [|apply mem_true; apply elem_of_cons in Hxv as [->|?]; done].
    destruct (prefers v x z) eqn:E; [|done]. apply prefers_in in E as [_ ?]. done.
  - apply elem_of_cons in Hxv as [->|Hxv]; [done|]. apply elem_of_cons in Hyv as [->|Hyv]; [done|].
    by apply IH.
Qed.
Lemma c27_vote_effect O b s l b' a id v s' subs x y id' :
  typed O -> reached O b s l -> block_le b b' ->
  handle O s b' a (CastVote id v) = Ok (s', subs) ->
  exists p t, s_props s !! id = Some p /\ s_tallies s !! id = Some t /\
   let n := Z.of_nat (length (p_choices p)) in
   ranking n v /\ s_votes s' !! (id, a) = Some v /\
   (0 <= x < n -> 0 <= y < n -> x <> y ->
    margin O s' id' x y = margin O s id' x y +
     (if id' =? id then
        if prefers v x y then vp O (s_dao s) a (t_start t) else - vp O (s_dao s) a (t_start t)
      else 0)).
Proof.
  intros HT HR Hb H. simpl in H.
  apply vote_shape in H as (t & vote & t' & Ht & Hvp & Hnone & Hexp & Hv & Hadd & -> & _).
  pose proof (vote_new_same _ _ _ Hv) as ->.
  destruct (reached_get _ _ _ _ _ _ HT HR Ht) as (p & Hp & HPO & HI).
  exists p, t. split; [done|]. split; [done|]. cbv zeta. rewrite <- (po_n _ _ _ _ _ _ HPO).
  pose proof (mo_n _ (po_mat _ _ _ _ _ _ HPO)) as Hn.
  apply vote_new_ok in Hv as [_ Hrank]; [|lia]. split; [done|].
  split; [simpl; by rewrite lookup_insert|]. intros Hx Hy Hne.
  assert (0 < vp O (s_dao s) a (t_start t)) as Hpos.
  { destruct HT as [HT _]. specialize (HT (s_dao s) a (t_start t)). lia. }
  pose proof (tally_add_vote_ok _ _ _ _ _ _ _ _ _ HT HPO Hpos Hrank Hadd) as (_ & _ & Hs & _).
  unfold margin at 1. rewrite (vote_sums O s id t t' a v (fun l => sg l x y) id' Ht Hs Hnone).
  unfold margin. rewrite (Z.eqb_sym id' id). destruct (id =? id'); [|done].
  f_equal. unfold sg.
  destruct (sg_ranking _ _ _ _ Hrank Hx Hy Hne) as [[-> ->]|[-> ->]]; lia.
Qed.

(** * C28 *)
Lemma winner_reported n mg out w c :
  anti n mg -> winner_spec n mg out w -> reported w = Some c <-> beats_all n mg c.
Proof.
  intros HA HW. rewrite beats_ahead. destruct w as [| |c'|c']; simpl in *; destruct HW as [H1 H2].
  - split; [done|]. intros H. by apply H1 in H.
  - split; [done|]. intros H. by apply H1 in H.
  - split; [by intros [= <-]|]. intros H. f_equal. by eapply ahead_unique.
  - split; [by intros [= <-]|]. intros H. f_equal. by eapply ahead_unique.
Qed.
Lemma margin_anti O s id x y : margin O s id y x = - margin O s id x y.
Proof.
  unfold margin. replace (- msum _ (s_votes s)) with ((-1) * msum (fun k l => if k.1 =? id then vp O (s_dao s) k.2 (start_of s id) * sg l x y else 0) (s_votes s)) by lia.
  rewrite <- msum_scale. apply msum_ext. intros k l _. rewrite (sg_anti l x y).
  destruct (k.1 =? id); lia.
Qed.
Lemma tally_winner_spec O s b id t p :
  prop_ok O s b id t p ->
  winner_spec (m_n (t_m t)) (margin O s id) (t_outstanding t) (t_winner t).
Proof.
  intros HPO. eapply winner_spec_ext; [|apply HPO]. intros x y Hx Hy Hne. by apply HPO.
Qed.
Lemma c28_winner O b s l id t c :
  typed O -> reached O b s l -> s_tallies s !! id = Some t ->
  reported (t_winner t) = Some c <-> beats_all (m_n (t_m t)) (margin O s id) c.
Proof.
  intros HT HR Ht. destruct (reached_get _ _ _ _ _ _ HT HR Ht) as (p & Hp & HPO & _).
  eapply winner_reported; [|by eapply tally_winner_spec].
  intros x y _ _ _. apply margin_anti.
Qed.
Lemma c28_unique O s id n c c' :
  beats_all n (margin O s id) c -> beats_all n (margin O s id) c' -> c = c'.
Proof.
  rewrite !beats_ahead. apply ahead_unique. intros x y _ _ _. apply margin_anti.
Qed.

(** * C29 *)
Lemma profile_bound n l x y :
  profile_ok n l -> - profile_power l <= profile_margin l x y <= profile_power l.
Proof.
  unfold profile_power, profile_margin. induction l as [|[r q] l IH]; simpl; intros H; [lia|].
  inversion H as [|? ? [Hr Hq] H']; subst. simpl in *. specialize (IH H').
  pose proof (sg_bounds r x y). nia.
Qed.
Lemma profile_anti l x y : profile_margin l y x = - profile_margin l x y.
Proof.
  unfold profile_margin. induction l as [|[r q] l IH]; simpl; [done|].
  rewrite IH, (sg_anti r x y). lia.
Qed.
Definition after_profile (mg : Z -> Z -> Z) (l : profile) (x y : Z) : Z :=
  mg x y + profile_margin l x y.
Lemma profile_power_nonneg n l : profile_ok n l -> 0 <= profile_power l.
Proof.
  unfold profile_power. induction l as [|[r q] l IH]; simpl; intros H; [lia|].
  inversion H as [|? ? [Hr Hq] H']; subst. simpl in *. specialize (IH H'). lia.
Qed.

(** Undisputed: whatever complete ballots the outstanding power casts, the same
    candidate beats all others.  Never: no candidate does. *)
Lemma c29_undisputed_continuations O b s l id t c l' :
  typed O -> reached O b s l -> s_tallies s !! id = Some t -> t_winner t = WUndisputed c ->
  profile_ok (m_n (t_m t)) l' -> profile_power l' <= t_outstanding t ->
  beats_all (m_n (t_m t)) (after_profile (margin O s id) l') c.
Proof.
  intros HT HR Ht Hw Hok Hle. destruct (reached_get _ _ _ _ _ _ HT HR Ht) as (p & Hp & HPO & _).
  pose proof (tally_winner_spec _ _ _ _ _ _ HPO) as HW. rewrite Hw in HW. simpl in HW.
  destruct HW as [_ [Hc HW]]. split; [done|]. intros y Hy Hne. specialize (HW y Hy Hne).
  unfold after_profile. pose proof (profile_bound _ _ c y Hok). lia.
Qed.
Lemma c29_never_continuations O b s l id t c l' :
  typed O -> reached O b s l -> s_tallies s !! id = Some t -> t_winner t = WNever ->
  profile_ok (m_n (t_m t)) l' -> profile_power l' <= t_outstanding t ->
  ~ beats_all (m_n (t_m t)) (after_profile (margin O s id) l') c.
Proof.
  intros HT HR Ht Hw Hok Hle. destruct (reached_get _ _ _ _ _ _ HT HR Ht) as (p & Hp & HPO & _).
  pose proof (tally_winner_spec _ _ _ _ _ _ HPO) as HW. rewrite Hw in HW. simpl in HW.
  destruct HW as [H1 H2]. pose proof (profile_power_nonneg _ _ Hok). intros [Hc HB].
  destruct (decide (0 < t_outstanding t)) as [Ho|Ho].
  - apply (H2 c). split; [done|]. split; [done|]. intros y Hy Hne. specialize (HB y Hy Hne).
    unfold after_profile in HB. pose proof (profile_bound _ _ c y Hok). lia.
  - apply (H1 c). split; [done|]. intros y Hy Hne. specialize (HB y Hy Hne).
    unfold after_profile in HB. pose proof (profile_bound _ _ c y Hok). lia.
Qed.
(** The two verdicts are given as early as possible: otherwise some continuation
    changes the outcome. *)
Definition first_then (n c : Z) : list Z := c :: filter (fun x => x <> c) (seqZ 0 n).
Lemma first_then_ranking n c : 0 <= c < n -> ranking n (first_then n c).
Proof.
  intros Hc. split.
  - apply NoDup_cons. split.
    + rewrite elem_of_list_filter. tauto.
    + apply NoDup_filter, NoDup_seqZ.
  - intros x. unfold first_then. rewrite elem_of_cons, elem_of_list_filter, elem_of_seqZ.
    destruct (decide (x = c)); subst; [tauto|]. split; [intros [?|[_ ?]]; [done|lia]|]. intros ?. right. split; [done|lia].
Qed.
Lemma first_then_prefers n c y : 0 <= c < n -> 0 <= y < n -> y <> c -> sg (first_then n c) c y = 1.
Proof.
  intros Hc Hy Hne. pose proof (first_then_ranking n c Hc) as Hr.
  assert (prefers (first_then n c) c y = true) as E.
  { unfold first_then. simpl. rewrite Z.eqb_refl. apply mem_true.
    apply elem_of_list_filter. split; [done|]. apply elem_of_seqZ. lia. }
  unfold sg. destruct (sg_ranking n _ c y Hr Hc Hy ltac:(congruence)) as [[-> ->]|[E' _]]; [done|congruence].
Qed.
Lemma single_profile r q x y : profile_margin [(r, q)] x y = q * sg r x y.
Proof. unfold profile_margin. simpl. lia. Qed.
Lemma c29_none_open O b s l id t :
  typed O -> reached O b s l -> s_tallies s !! id = Some t -> t_winner t = WNone ->
  exists c l', profile_ok (m_n (t_m t)) l' /\ profile_power l' <= t_outstanding t /\
    beats_all (m_n (t_m t)) (after_profile (margin O s id) l') c.
Proof.
  intros HT HR Ht Hw. destruct (reached_get _ _ _ _ _ _ HT HR Ht) as (p & Hp & HPO & _).
  pose proof (tally_winner_spec _ _ _ _ _ _ HPO) as HW. rewrite Hw in HW. simpl in HW.
  destruct HW as [_ (c & Ho & Hc & HA)].
  exists c, [(first_then (m_n (t_m t)) c, t_outstanding t)]. split; [|split].
  - constructor; [|done]. split; [by apply first_then_ranking|simpl; lia].
  - unfold profile_power. simpl. lia.
  - split; [done|]. intros y Hy Hne. specialize (HA y Hy Hne). unfold after_profile.
    rewrite single_profile, first_then_prefers by done. lia.
Qed.
Lemma c29_some_open O b s l id t c :
  typed O -> reached O b s l -> s_tallies s !! id = Some t -> t_winner t = WSome c ->
  exists l', profile_ok (m_n (t_m t)) l' /\ profile_power l' <= t_outstanding t /\
    ~ beats_all (m_n (t_m t)) (after_profile (margin O s id) l') c.
Proof.
  intros HT HR Ht Hw. destruct (reached_get _ _ _ _ _ _ HT HR Ht) as (p & Hp & HPO & _).
  pose proof (tally_winner_spec _ _ _ _ _ _ HPO) as HW. rewrite Hw in HW. simpl in HW.
  destruct HW as [[Hc H0] HN].
  destruct (seqZ_exists_dec (fun y => y <> c /\ margin O s id c y <= t_outstanding t)
     ltac:(intros y; destruct (decide (y = c)), (decide (margin O s id c y <= t_outstanding t)); tauto)
     (seqZ 0 (m_n (t_m t)))) as [(y & Hy & Hne & Hle)|H].
  2:{ exfalso. apply HN. split; [done|]. intros y Hy Hne.
      specialize (H y ltac:(apply elem_of_seqZ; unfold inr in Hy; lia)).
      destruct (decide (margin O s id c y <= t_outstanding t)); [tauto|lia]. }
  apply elem_of_seqZ in Hy.
  exists [(first_then (m_n (t_m t)) y, t_outstanding t)]. split; [|split].
  - constructor; [|done]. split; [apply first_then_ranking; lia|apply HPO].
  - unfold profile_power. simpl. lia.
  - intros [_ HB]. specialize (HB y ltac:(lia) Hne). unfold after_profile in HB.
    rewrite single_profile, sg_anti, first_then_prefers in HB by (unfold inr in *; lia || congruence). lia.
Qed.

Lemma c29_later O b s l b' s' l' id t :
  typed O -> reached O b s l -> later O b s b' s' l' -> s_tallies s !! id = Some t ->
  exists t', s_tallies s' !! id = Some t' /\
   (forall c, t_winner t = WUndisputed c -> t_winner t' = WUndisputed c) /\
   (t_winner t = WNever -> t_winner t' = WNever).
Proof.
  intros HT HR HL Ht. destruct (reached_get _ _ _ _ _ _ HT HR Ht) as (p & Hp & HPO & HI).
  destruct (later_trace _ _ _ _ _ _ _ HT HI HL) as [_ HTr].
  assert (exists t' p', s_tallies s' !! id = Some t' /\ s_props s' !! id = Some p' /\
    (forall c, t_winner t = WUndisputed c -> t_winner t' = WUndisputed c) /\
   (t_winner t = WNever -> t_winner t' = WNever)) as (t' & p' & A & _ & B & C); [|eauto].
  apply (trace_keeps O (s_dao s) (fun _ s' => exists t' p', s_tallies s' !! id = Some t' /\ s_props s' !! id = Some p' /\
    (forall c, t_winner t = WUndisputed c -> t_winner t' = WUndisputed c) /\
   (t_winner t = WNever -> t_winner t' = WNever)) b s l' b' s'); [done| |done|by exists t, p].
  intros b1 s1 s2 HI1 _ HP (t1 & p1 & A & B & C & D).
  destruct (prim_get _ _ _ _ _ _ _ _ HI1 HP A B) as (t2 & p2 & A2 & B2 & _ & _ & Hc).
  exists t2, p2. split; [done|]. split; [done|].
  destruct Hc as [[-> ->]|[(-> & Hexp & a & vote & Hnv & Hvp & Hvote & Hadd)|(-> & _)]]; [done| |done].
  destruct (vote_keeps _ _ _ _ _ _ _ _ _ _ HI1 HT A B Hexp Hvp Hvote Hadd) as (_ & _ & X & Y). naive_solver.
Qed.

(** * C30 *)
Lemma c30_at_most_once O b s l id :
  typed O -> reached O b s l -> dispatches id l <= 1.
Proof.
  intros HT HR. destruct (reached_trace _ _ _ _ HT HR) as (b0 & s0 & _ & HTr).
  by apply (dispatches_done _ _ _ _ _ _ _ id HTr).
Qed.
(** What holds when proposal [id] passes with option [w]: the minimum period is
    over; the turnout reaches the quorum (up to less than a billionth of a vote);
    [w] beats every other option, and either voting is over or it does so
    whatever the outstanding power does. *)
Definition carried (O : oracle) (s : state) (b : block) (id : Z) (p : proposal) (t : tally) (w : Z) : Prop :=
  (forall e, p_min p = Some e -> is_expired e b = true) /\
  share_near (voted_power O s id) (p_total p) (p_quorum p) /\
  beats_all (Z.of_nat (length (p_choices p))) (margin O s id) w /\
  (is_expired (t_exp t) b = true \/
   forall l', profile_ok (Z.of_nat (length (p_choices p))) l' ->
     profile_power l' <= p_total p - voted_power O s id ->
     beats_all (Z.of_nat (length (p_choices p))) (after_profile (margin O s id) l') w).
Lemma pass_carried O d s b id p t w :
  typed O -> inv O d b s -> s_tallies s !! id = Some t -> s_props s !! id = Some p ->
  min_over b p -> pass_just b p t w -> carried O s b id p t w.
Proof.
  intros HT HI Ht Hp HM [Hq Hw]. pose proof (i_props _ _ _ _ HI id t p Ht Hp) as HPO.
  pose proof (tally_winner_spec _ _ _ _ _ _ HPO) as HW.
  unfold carried. rewrite <- (po_n _ _ _ _ _ _ HPO). split; [done|]. split.
  { unfold quorum_met in Hq. apply pass_iff in Hq; [|apply HPO]. by rewrite <- (po_out _ _ _ _ _ _ HPO). }
  destruct Hw as [Hw|[He Hw]]; rewrite Hw in HW; simpl in HW; destruct HW as [H0 H1];
    (split; [by apply beats_ahead|]); [right|by left].
  intros l' Hok Hle. rewrite <- (po_out _ _ _ _ _ _ HPO) in Hle.
  destruct H1 as [Hc H1]. split; [done|]. intros y Hy Hne. specialize (H1 y Hy Hne).
  unfold after_profile. pose proof (profile_bound _ _ w y Hok). lia.
Qed.
Lemma query_unfold s b id st :
  query_status s b id = Ok st <->
  exists p t, s_props s !! id = Some p /\ s_tallies s !! id = Some t /\ status_at b p t = Ok st.
Proof.
  unfold query_status. split.
  - destruct (s_props s !! id) as [p|]; [|discriminate]. destruct (s_tallies s !! id) as [t|]; [|discriminate]. eauto.
  - intros (p & t & -> & -> & H). done.
Qed.

(** Every dispatch. *)
Lemma c30_dispatch O b s l pre b1 a m post subs d id ms c :
  typed O -> reached O b s l -> ECall pre b1 a m post subs ∈ l -> SExec d id ms c ∈ subs ->
  m = Execute id /\ d = s_dao s /\
  exists p t w, s_props pre !! id = Some p /\ s_tallies pre !! id = Some t /\
    query_status pre b1 id = Ok (CPassed w) /\ p_choices p !! Z.to_nat w = Some ms /\
    c = p_close_on_fail p /\ vp O (s_dao s) a (t_start t) <> 0 /\
    carried O pre b1 id p t w /\ status_of post id = Some CExecuted.
Proof.
  intros HT HR He Hx. destruct (reached_trace _ _ _ _ HT HR) as (b0 & s0 & _ & HTr).
  apply trace_forall in HTr. rewrite Forall_forall in HTr. specialize (HTr _ He).
  destruct HTr as (HI & _ & _ & H). simpl in *.
  destruct m as [choices|i vote|i|i|cc]; simpl in H.
  - apply propose_shape in H as (? & ? & ? & _ & _ & _ & _ & _ & _ & ->). by apply not_elem_of_nil in Hx.
  - apply vote_shape in H as (? & ? & ? & _ & _ & _ & _ & _ & _ & _ & ->). by apply not_elem_of_nil in Hx.
  - apply execute_shape in H as (t & p & w & ms' & Ht & Hvp & Hp & Hst & Hms & -> & ->).
    apply elem_of_list_singleton in Hx. injection Hx as -> -> -> ->.
    destruct (i_props _ _ _ _ HI i t p Ht Hp) as [Hid _]. rewrite Hid in *.
    rewrite (i_dao _ _ _ _ HI) in *.
    split; [done|]. split; [done|]. exists p, t, w. split; [done|]. split; [done|].
    split; [apply query_unfold; eauto|]. split; [done|]. split; [done|]. split; [done|].
    split; [|unfold status_of; simpl; by rewrite lookup_insert].
    pose proof (status_at_inv _ _ _ _ _ _ _ _ HI Ht Hp Hst) as [HM HJ]. by eapply pass_carried.
  - apply close_shape in H as (? & ? & _ & _ & _ & _ & ->). by apply not_elem_of_nil in Hx.
  - apply set_config_shape in H as (? & _ & _ & _ & ->). by apply not_elem_of_nil in Hx.
Qed.
(** A vote is recorded only by the caller itself, only once, before expiration,
    with non-zero power at the start height, as a complete ranking. *)
Lemma c30_vote_requires O s b a id v s' subs :
  handle O s b a (CastVote id v) = Ok (s', subs) ->
  exists t, s_tallies s !! id = Some t /\ is_expired (t_exp t) b = false /\
    vp O (s_dao s) a (t_start t) <> 0 /\ s_votes s !! (id, a) = None /\
    s_votes s' = <[(id, a) := v]> (s_votes s) /\ s_props s' = s_props s /\ subs = [].
Proof.
  simpl. intros H. apply vote_shape in H as (t & v' & t' & A & B & C & D & E & F & -> & ->).
  pose proof (vote_new_same _ _ _ E) as ->. exists t. done.
Qed.
Lemma c30_vote_origin O b s l e k :
  typed O -> reached O b s l -> e ∈ l -> s_votes (ev_post e) !! k <> s_votes (ev_pre e) !! k ->
  exists v, ECall (ev_pre e) (ev_block e) k.2 (CastVote k.1 v) (ev_post e) [] = e /\
    s_votes (ev_pre e) !! k = None /\ s_votes (ev_post e) !! k = Some v.
Proof.
  intros HT HR He Hne. destruct (reached_trace _ _ _ _ HT HR) as (b0 & s0 & _ & HTr).
  apply trace_forall in HTr. rewrite Forall_forall in HTr. specialize (HTr _ He).
  destruct HTr as (HI & _ & H). destruct e as [pre b1 a m post subs|pre b1 x [|] post]; simpl in *.
  - destruct H as [_ H]. destruct m as [choices|i vote|i|i|cc]; simpl in H.
    + by apply propose_shape in H as (? & ? & ? & _ & _ & _ & _ & _ & -> & ->).
    + apply vote_shape in H as (t & v' & t' & A & B & C & D & E & F & -> & ->).
      pose proof (vote_new_same _ _ _ E) as ->. simpl in *.
      destruct (decide ((i, a) = k)) as [<-|Hk]; [|by rewrite lookup_insert_ne in Hne].
      exists vote. split; [done|]. split; [done|]. by rewrite lookup_insert.
    + by apply execute_shape in H as (? & ? & ? & ? & _ & _ & _ & _ & _ & -> & ->).
    + by apply close_shape in H as (? & ? & _ & _ & _ & -> & ->).
    + by apply set_config_shape in H as (? & _ & _ & -> & ->).
  - destruct H as [_ [dd [= ->]]]. done.
  - destruct H as [_ H]. by apply on_fail_shape in H as (? & ? & ? & ? & _ & _ & ->).
Qed.
Lemma c30_votes_immutable O b s l b' s' l' k v :
  typed O -> reached O b s l -> later O b s b' s' l' ->
  s_votes s !! k = Some v -> s_votes s' !! k = Some v.
Proof.
  intros HT HR HL. pose proof (reached_inv _ _ _ _ HT HR) as HI.
  destruct (later_trace _ _ _ _ _ _ _ HT HI HL) as [_ HTr]. by eapply votes_kept.
Qed.
Lemma c30_terminal O b s l b' s' l' id st :
  typed O -> reached O b s l -> later O b s b' s' l' ->
  query_status s b id = Ok st -> terminal st ->
  query_status s' b' id = Ok st \/ (st = CExecuted /\ query_status s' b' id = Ok CExecutionFailed).
Proof.
  intros HT HR HL Hq Hterm. pose proof (reached_inv _ _ _ _ HT HR) as HI.
  destruct (later_trace _ _ _ _ _ _ _ HT HI HL) as [HI' HTr].
  apply query_unfold in Hq as (p & t & Hp & Ht & Hst).
  assert (p_status p = st) as Hps.
  { unfold status_at in Hst. destruct Hterm as [->|[->| ->]]; destruct (p_status p); try congruence;
      destruct (match p_min p with Some m => negb (is_expired m b) | None => false end); try congruence;
      destruct (sub128 _ _); try congruence; destruct (_ && _); try congruence;
      destruct (t_winner t), (is_expired (t_exp t) b); simpl in Hst; try congruence;
      destruct (does_vote_count_pass _ _ _); congruence. }
  assert (status_of s id = Some st) as Hs by (unfold status_of; rewrite Hp; simpl; congruence).
  pose proof (terminal_kept _ _ _ _ _ _ _ _ _ HTr Hterm Hs) as HK. unfold status_of in HK.
  destruct (s_props s' !! id) as [p'|] eqn:Hp'; [|destruct HK as [?|[_ ?]]; done].
  destruct (i_dom _ _ _ _ HI' id) as [Hd _]. destruct (Hd ltac:(eauto)) as [t' Ht'].
  rewrite !query_unfold. simpl in HK. destruct HK as [[= HK]|[-> [= HK]]]; [left|right; split; [done|]];
    exists p', t'; (split; [done|]; split; [done|]); unfold status_at; rewrite HK; [|done].
  destruct Hterm as [->|[->| ->]]; done.
Qed.

(** A failed execution changes nothing but the status of that proposal. *)
Lemma c30_failure_contained O b s l pre b1 d id ms c post :
  typed O -> reached O b s l -> ESub pre b1 (SExec d id ms c) false post ∈ l ->
  c = true /\ exists p, s_props pre !! id = Some p /\
  (p_status p = CExecuted \/ p_status p = CExecutionFailed) /\
  post = State (s_dao pre) (s_cfg pre) (s_tallies pre) (<[id := set_status p CExecutionFailed]> (s_props pre)) (s_votes pre).
Proof.
  intros HT HR He. destruct (reached_trace _ _ _ _ HT HR) as (b0 & s0 & _ & HTr).
  apply trace_forall in HTr. rewrite Forall_forall in HTr. specialize (HTr _ He).
  destruct HTr as (HI & _ & HP & H). cbn [ev_pre ev_post ev_block] in *.
  apply on_fail_shape in H as (? & ? & ? & p & [= <- <- <- ->] & Hp & ->).
  split; [done|]. exists p. split; [done|]. split; [|done].
  unfold pend, status_of in HP. rewrite Hp in HP. simpl in HP. destruct HP as [[= ->]|[= ->]]; eauto.
Qed.
Lemma c30_terms_fixed O b s l b' s' l' id t p :
  typed O -> reached O b s l -> later O b s b' s' l' ->
  s_tallies s !! id = Some t -> s_props s !! id = Some p ->
  exists t' p', s_tallies s' !! id = Some t' /\ s_props s' !! id = Some p' /\
    terms p' = terms p /\ tally_terms t' = tally_terms t.
Proof.
  intros HT HR HL. pose proof (reached_inv _ _ _ _ HT HR) as HI.
  destruct (later_trace _ _ _ _ _ _ _ HT HI HL) as [_ HTr]. by eapply terms_kept.
Qed.
Lemma c30_ids O b s l :
  typed O -> reached O b s l ->
  exists k, 0 <= k /\ (forall id, is_Some (s_props s !! id) <-> 1 <= id <= k) /\
    (forall id, is_Some (s_tallies s !! id) <-> 1 <= id <= k) /\
    (forall id p, s_props s !! id = Some p -> p_id p = id).
Proof.
  intros HT HR. pose proof (reached_inv _ _ _ _ HT HR) as HI.
  destruct (i_ids _ _ _ _ HI) as (k & Hk & Hids). exists k. split; [done|]. split; [done|].
  split; [intros id; by rewrite <- (i_dom _ _ _ _ HI)|].
  intros id p Hp. destruct (reached_getp _ _ _ _ _ _ HT HR Hp) as (t & Ht & HPO & _). apply HPO.
Qed.
Lemma c30_set_config O b s l e :
  typed O -> reached O b s l -> e ∈ l -> s_cfg (ev_post e) <> s_cfg (ev_pre e) ->
  exists c c' subs, e = ECall (ev_pre e) (ev_block e) (s_dao s) (SetConfig c) (ev_post e) subs /\
    validate_config c = Ok c' /\ s_cfg (ev_post e) = c'.
Proof.
  intros HT HR He Hne. destruct (reached_trace _ _ _ _ HT HR) as (b0 & s0 & _ & HTr).
  apply trace_forall in HTr. rewrite Forall_forall in HTr. specialize (HTr _ He).
  destruct HTr as (HI & _ & H). destruct e as [pre b1 a m post subs|pre b1 x [|] post]; simpl in *.
  - destruct H as [_ H]. destruct m as [choices|i vote|i|i|cc]; simpl in H.
    + by apply propose_shape in H as (? & ? & ? & _ & _ & _ & _ & _ & -> & ->).
    + by apply vote_shape in H as (? & ? & ? & _ & _ & _ & _ & _ & _ & -> & _).
    + by apply execute_shape in H as (? & ? & ? & ? & _ & _ & _ & _ & _ & -> & _).
    + by apply close_shape in H as (? & ? & _ & _ & _ & -> & _).
    + apply set_config_shape in H as (c' & -> & Hv & -> & ->). rewrite (i_dao _ _ _ _ HI). simpl. eauto 10.
  - destruct H as [_ [dd [= ->]]]. done.
  - destruct H as [_ H]. by apply on_fail_shape in H as (? & ? & ? & ? & _ & _ & ->).
Qed.

(** * C69: outcomes *)
(** The queried status of an existing proposal always exists. *)
Lemma c69_query_total O b s l id :
  typed O -> reached O b s l -> is_Some (s_props s !! id) <-> exists st, query_status s b id = Ok st.
Proof.
  intros HT HR. split.
  - intros [p Hp]. destruct (reached_getp _ _ _ _ _ _ HT HR Hp) as (t & Ht & _ & HI).
    destruct (status_at_total _ _ _ _ _ _ _ HI HT Ht Hp) as [st Hst]. exists st.
    apply query_unfold. eauto.
  - intros [st Hq]. apply query_unfold in Hq as (p & _ & Hp & _). eauto.
Qed.
(** At expiration: passed with [w] exactly when the quorum is met and [w] beats
    every other option; rejected exactly when no option does or the quorum is missed. *)
Lemma c69_at_expiration O b s l id p t :
  typed O -> reached O b s l -> s_props s !! id = Some p -> s_tallies s !! id = Some t ->
  p_status p = COpen -> is_expired (t_exp t) b = true ->
  (forall e, p_min p = Some e -> is_expired e b = true) ->
  (forall w, query_status s b id = Ok (CPassed w) <->
     share_near (voted_power O s id) (p_total p) (p_quorum p) /\
     beats_all (Z.of_nat (length (p_choices p))) (margin O s id) w) /\
  (query_status s b id = Ok CRejected <->
     ~ (share_near (voted_power O s id) (p_total p) (p_quorum p) /\
       exists w, beats_all (Z.of_nat (length (p_choices p))) (margin O s id) w)).
Proof.
  intros HT HR Hp Ht Hs He HM. destruct (reached_get _ _ _ _ _ _ HT HR Ht) as (p' & Hp' & HPO & HI).
  rewrite Hp in Hp'. injection Hp' as <-.
  pose proof (tally_winner_spec _ _ _ _ _ _ HPO) as HW.
  assert (forall c, reported (t_winner t) = Some c <-> beats_all (Z.of_nat (length (p_choices p))) (margin O s id) c) as HB.
  { intros c. rewrite <- (po_n _ _ _ _ _ _ HPO). by eapply c28_winner. }
  assert (quorum_met p t = true <-> share_near (voted_power O s id) (p_total p) (p_quorum p)) as HQ.
  { unfold quorum_met. rewrite (po_out _ _ _ _ _ _ HPO). apply pass_iff, HPO. }
  assert (query_status s b id = status_at b p t) as ->.
  { unfold query_status. by rewrite Hp, Ht. }
  destruct (quorum_met p t) eqn:Eq.
  - assert (share_near (voted_power O s id) (p_total p) (p_quorum p)) as Hsn by (by apply HQ).
    destruct (reported (t_winner t)) as [c|] eqn:Ew.
    + assert (status_at b p t = Ok (CPassed c)) as ->.
      { eapply status_at_passing; try done. split; [done|]. destruct (t_winner t); simplify_eq/=; tauto. }
      assert (beats_all (Z.of_nat (length (p_choices p))) (margin O s id) c) as HBc by (by apply HB).
      split.
      * intros w. rewrite <- HB. split; [intros [= ->]; done|]. intros [_ [= ->]]; done.
      * split; [done|]. intros H. exfalso. eauto.
    + assert (status_at b p t = Ok CRejected) as ->.
      { eapply status_at_failing; try done. unfold rej_just. destruct (t_winner t); simplify_eq/=; tauto. }
      split.
      * intros w. rewrite <- HB. split; [done|]. intros [_ ?]; done.
      * split; [|done]. intros _ [_ [w Hw]]. apply HB in Hw. done.
  - assert (~ share_near (voted_power O s id) (p_total p) (p_quorum p)) as Hsn by (intros X; apply HQ in X; done).
    assert (status_at b p t = Ok CRejected) as ->.
    { eapply status_at_failing; try done. unfold rej_just. tauto. }
    split; [intros w; split; [done|tauto]|tauto].
Qed.
(** Before expiration (but after the minimum period): passed with [w] exactly when
    the quorum is met and [w] wins whatever the outstanding power does; rejected
    exactly when nobody can win any more. *)
Lemma c69_before_expiration O b s l id p t :
  typed O -> reached O b s l -> s_props s !! id = Some p -> s_tallies s !! id = Some t ->
  p_status p = COpen -> is_expired (t_exp t) b = false ->
  (forall e, p_min p = Some e -> is_expired e b = true) ->
  let n := Z.of_nat (length (p_choices p)) in
  let left := p_total p - voted_power O s id in
  (forall w, query_status s b id = Ok (CPassed w) <->
     share_near (voted_power O s id) (p_total p) (p_quorum p) /\
     forall l', profile_ok n l' -> profile_power l' <= left ->
       beats_all n (after_profile (margin O s id) l') w) /\
  (query_status s b id = Ok CRejected <->
     forall l', profile_ok n l' -> profile_power l' <= left ->
       forall w, ~ beats_all n (after_profile (margin O s id) l') w).
Proof.
  intros HT HR Hp Ht Hs He HM n left. destruct (reached_get _ _ _ _ _ _ HT HR Ht) as (p' & Hp' & HPO & HI).
  rewrite Hp in Hp'. injection Hp' as <-.
  assert (quorum_met p t = true <-> share_near (voted_power O s id) (p_total p) (p_quorum p)) as HQ.
  { unfold quorum_met. rewrite (po_out _ _ _ _ _ _ HPO). apply pass_iff, HPO. }
  assert (query_status s b id = status_at b p t) as ->.
  { unfold query_status. by rewrite Hp, Ht. }
  assert (m_n (t_m t) = n) as Hn by apply HPO.
  assert (t_outstanding t = left) as Ho by (unfold left; rewrite <- (po_out _ _ _ _ _ _ HPO); lia).
  assert (profile_ok n [] /\ profile_power [] <= left) as [Hnil Hnil'].
  { split; [constructor|]. pose proof (po_out0 _ _ _ _ _ _ HPO). unfold profile_power; simpl. lia. }
  assert (forall c, beats_all n (after_profile (margin O s id) []) c <-> reported (t_winner t) = Some c) as HB.
  { intros c. rewrite (c28_winner _ _ _ _ _ _ _ HT HR Ht), Hn. unfold beats_all, after_profile, profile_margin. simpl.
    split; intros [? H]; (split; [done|]); intros y Hy Hne; specialize (H y Hy Hne); lia. }
  assert (status_at b p t = Ok (match t_winner t with
     | WNever => CRejected | WUndisputed c => if quorum_met p t then CPassed c else COpen | _ => COpen end)) as ->.
  { pose proof (voted_nonneg O s id HT). unfold status_at. rewrite Hs.
    assert (match p_min p with Some m => negb (is_expired m b) | None => false end = false) as ->.
    { destruct (p_min p) as [e|] eqn:E; [|done]. apply negb_false_iff. by apply HM. }
    rewrite sub128_eq by (pose proof (po_out _ _ _ _ _ _ HPO); pose proof (po_total _ _ _ _ _ _ HPO); pose proof (po_out0 _ _ _ _ _ _ HPO); lia).
    fold (quorum_met p t). rewrite He. simpl. destruct (t_winner t); try done; destruct (quorum_met p t); done. }
  rewrite <- Hn, <- Ho in *. clear left Ho.
  destruct (t_winner t) as [| |c|c] eqn:Ew.
  - split.
    + intros w. split; [done|]. intros [_ H]. specialize (H [] Hnil Hnil'). by apply HB in H.
    + split; [|done]. intros _ l' H1 H2 w. by eapply c29_never_continuations.
  - split.
    + intros w. split; [done|]. intros [_ H]. specialize (H [] Hnil Hnil'). by apply HB in H.
    + split; [done|]. intros H. exfalso.
      destruct (c29_none_open _ _ _ _ _ _ HT HR Ht Ew) as (c & l' & H1 & H2 & H3). by eapply H.
  - split.
    + intros w. split; [done|]. intros [_ H]. exfalso.
      pose proof (H [] Hnil Hnil') as Hw. apply HB in Hw as [= <-].
      destruct (c29_some_open _ _ _ _ _ _ _ HT HR Ht Ew) as (l' & H1 & H2 & H3). apply H3. by apply H.
    + split; [done|]. intros H. exfalso. apply (H [] Hnil Hnil' c). by apply HB.
  - assert (forall l', profile_ok (m_n (t_m t)) l' -> profile_power l' <= t_outstanding t ->
       beats_all (m_n (t_m t)) (after_profile (margin O s id) l') c) as HU.
    { intros l' H1 H2. by eapply c29_undisputed_continuations. }
    split.
    + intros w. destruct (quorum_met p t) eqn:Eq.
      * split; [intros [= <-]; split; [by apply HQ|done]|].
        intros [_ H]. specialize (H [] Hnil Hnil'). apply HB in H as [= ->]. done.
      * split; [done|]. intros [X _]. apply HQ in X. done.
    + split; [by destruct (quorum_met p t)|]. intros H. exfalso. by eapply (H [] Hnil Hnil' c), HU.
Qed.
(** Before the minimum period is over an open proposal is reported open. *)
Lemma c69_min_period O b s l id p t e :
  typed O -> reached O b s l -> s_props s !! id = Some p -> s_tallies s !! id = Some t ->
  p_status p = COpen -> p_min p = Some e -> is_expired e b = false ->
  query_status s b id = Ok COpen.
Proof.
  intros HT HR Hp Ht Hs Hm He. unfold query_status. rewrite Hp, Ht. simpl. unfold status_at. by rewrite Hs, Hm, He.
Qed.
(** A reported outcome is never overturned. *)
Lemma c69_passed_final O b s l b' s' l' id w :
  typed O -> reached O b s l -> later O b s b' s' l' ->
  query_status s b id = Ok (CPassed w) ->
  query_status s' b' id = Ok (CPassed w) \/ query_status s' b' id = Ok CExecuted \/
  query_status s' b' id = Ok CExecutionFailed.
Proof.
  intros HT HR HL Hq. pose proof (reached_inv _ _ _ _ HT HR) as HI.
  destruct (later_trace _ _ _ _ _ _ _ HT HI HL) as [HI' HTr].
  apply query_unfold in Hq as (p & t & Hp & Ht & Hst).
  pose proof (status_at_inv _ _ _ _ _ _ _ _ HI Ht Hp Hst) as [HM HJ].
  assert (passing w id b s) as HPa.
  { exists t, p. split; [done|]. split; [done|]. split; [done|]. split; [done|].
    unfold status_at in Hst. destruct (p_status p) eqn:E; try done; [by left|]. injection Hst as ->. tauto. }
  destruct (passing_kept _ _ _ _ _ _ _ _ _ HT HTr HPa) as (t' & p' & Ht' & Hp' & HM' & HJ' & Hc).
  unfold query_status. rewrite Hp', Ht'. simpl. destruct Hc as [Hc|Hc].
  - left. by eapply status_at_passing.
  - unfold status_at. destruct Hc as [->|[->| ->]]; eauto.
Qed.
Lemma c69_rejected_final O b s l b' s' l' id :
  typed O -> reached O b s l -> later O b s b' s' l' ->
  query_status s b id = Ok CRejected ->
  query_status s' b' id = Ok CRejected \/ query_status s' b' id = Ok CClosed.
Proof.
  intros HT HR HL Hq. pose proof (reached_inv _ _ _ _ HT HR) as HI.
  destruct (later_trace _ _ _ _ _ _ _ HT HI HL) as [HI' HTr].
  apply query_unfold in Hq as (p & t & Hp & Ht & Hst).
  pose proof (status_at_inv _ _ _ _ _ _ _ _ HI Ht Hp Hst) as [HM HJ].
  assert (failing id b s) as HPa.
  { exists t, p. split; [done|]. split; [done|]. split; [done|]. split; [done|].
    unfold status_at in Hst. destruct (p_status p) eqn:E; try done; tauto. }
  destruct (failing_kept _ _ _ _ _ _ _ _ HT HTr HPa) as (t' & p' & Ht' & Hp' & HM' & HJ' & Hc).
  unfold query_status. rewrite Hp', Ht'. simpl. destruct Hc as [Hc|Hc].
  - left. by eapply status_at_failing.
  - unfold status_at. destruct Hc as [->| ->]; eauto.
Qed.
(** Executing and closing are accepted exactly for the queried status. *)
Lemma c69_execute_iff O b s l a id :
  typed O -> reached O b s l ->
  (exists r, handle O s b a (Execute id) = Ok r) <->
  exists t p w, s_tallies s !! id = Some t /\ s_props s !! id = Some p /\
    query_status s b id = Ok (CPassed w) /\ vp O (s_dao s) a (t_start t) <> 0.
Proof.
  intros HT HR. split.
  - intros [[s' subs] H]. simpl in H.
    apply execute_shape in H as (t & p & w & ms & Ht & Hv & Hp & Hst & _ & _ & _).
    exists t, p, w. split; [done|]. split; [done|]. split; [|done]. apply query_unfold. eauto.
  - intros (t & p & w & Ht & Hp & Hq & Hv). destruct (reached_get _ _ _ _ _ _ HT HR Ht) as (p' & Hp' & HPO & HI).
    rewrite Hp in Hp'. injection Hp' as <-.
    apply query_unfold in Hq as (p' & t' & Hp' & Ht' & Hst). simplify_eq.
    pose proof (status_at_inv _ _ _ _ _ _ _ _ HI Ht Hp Hst) as [HM HJ].
    destruct (pass_carried _ _ _ _ _ _ _ _ HT HI Ht Hp HM HJ) as (_ & _ & [Hw _] & _).
    destruct (p_choices p !! Z.to_nat w) as [ms|] eqn:E.
    2:{ apply lookup_ge_None in E. lia. }
    simpl. unfold execute_execute. rewrite Ht.
    destruct (negb (vp O (s_dao s) a (t_start t) =? 0)) eqn:E1; [|lia].
    rewrite Hp. unfold update_status. rewrite Hst. simpl. rewrite E. eauto.
Qed.
Lemma c69_close_iff O b s l a id :
  typed O -> reached O b s l ->
  (exists r, handle O s b a (Close id) = Ok r) <-> query_status s b id = Ok CRejected.
Proof.
  intros HT HR. split.
  - intros [[s' subs] H]. simpl in H. apply close_shape in H as (t & p & Ht & Hp & Hst & _).
    apply query_unfold. eauto.
  - intros Hq. apply query_unfold in Hq as (p & t & Hp & Ht & Hst).
    simpl. unfold execute_close. rewrite Ht, Hp. unfold update_status. rewrite Hst. simpl. eauto.
Qed.
(** A complete ranking from a member who has not voted, before expiration, is
    accepted, provided reported totals cover the members' powers. *)
Lemma vote_voters_sum (f : addr -> Z) (id : Z) (m : gmap (Z * addr) (list Z)) :
  exists l : list addr, NoDup l /\
    msum (fun k _ => if k.1 =? id then f k.2 else 0) m = lsum f l /\
    (forall a, a ∈ l <-> is_Some (m !! (id, a))).
Proof.
  induction m as [|[i a] v m Hk IH] using map_ind.
  - exists []. split; [constructor|]. split; [by rewrite msum_empty|]. intros a.
    rewrite lookup_empty. split; [by intros ?%elem_of_nil|by intros [? ?]].
  - destruct IH as (l & Hnd & Hs & Hl). rewrite msum_insert_new by done. simpl.
    destruct (Z.eqb_spec i id) as [->|Hne].
    + exists (a :: l). split; [constructor; [|done]; rewrite Hl, Hk; by intros [? ?]|].
      split; [simpl; lia|]. intros a'. rewrite elem_of_cons, Hl.
      destruct (decide (a' = a)) as [->|Hne]; [rewrite lookup_insert; naive_solver|].
      rewrite lookup_insert_ne by congruence. naive_solver.
    + exists l. split; [done|]. split; [lia|]. intros a'. rewrite Hl.
      rewrite lookup_insert_ne by congruence. done.
Qed.
Lemma c69_vote_iff_partial O b s l a id v :
  typed O -> covers O -> reached O b s l ->
  (exists r, handle O s b a (CastVote id v) = Ok r) <->
  exists p t, s_props s !! id = Some p /\ s_tallies s !! id = Some t /\
    ranking (Z.of_nat (length (p_choices p))) v /\ is_expired (t_exp t) b = false /\
    s_votes s !! (id, a) = None /\ vp O (s_dao s) a (t_start t) <> 0.
Proof.
  intros HT HC HR. split.
  - intros [[s' subs] H]. pose proof H as H'.
    apply (c27_vote_effect O b s l b a id v s' subs 0 0 0 HT HR (block_le_refl b)) in H' as (p & t & Hp & Ht & Hr & _).
    apply c30_vote_requires in H as (t' & Ht' & A & B & C & _). exists p, t. simplify_eq. done.
  - intros (p & t & Hp & Ht & Hr & He & Hv & Hvp).
    destruct (reached_get _ _ _ _ _ _ HT HR Ht) as (p' & Hp' & HPO & HI). simplify_eq.
    rewrite <- (po_n _ _ _ _ _ _ HPO) in Hr.
    set (q := vp O (s_dao s) a (t_start t)) in *.
    assert (0 < q) as Hq by (destruct HT as [HT _]; specialize (HT (s_dao s) a (t_start t)); unfold q in *; lia).
    assert (q <= t_outstanding t) as Hle.
    { destruct (vote_voters_sum (fun a => vp O (s_dao s) a (t_start t)) id (s_votes s)) as (l0 & Hnd & Hs & Hl).
      assert (voted_power O s id = lsum (fun a => vp O (s_dao s) a (t_start t)) l0) as E.
      { rewrite <- Hs. unfold voted_power, start_of. by rewrite Ht. }
      destruct (po_tnow _ _ _ _ _ _ HPO) as (b0 & Hb0 & Htot).
      pose proof (HC (s_dao s) b0 id (a :: l0)) as HC0. rewrite Hb0 in HC0. simpl in HC0.
      rewrite <- Htot, <- E in HC0. fold q in HC0. pose proof (po_out _ _ _ _ _ _ HPO) as Ho.
      specialize (HC0 ltac:(constructor; [rewrite Hl, Hv; by intros [? ?]|done])). lia. }
    pose proof (po_mat _ _ _ _ _ _ HPO) as HM. pose proof (mo_n _ HM) as Hn. pose proof (mo_sq _ HM) as Hsq.
    pose proof (po_total _ _ _ _ _ _ HPO) as Htot. pose proof (voted_nonneg O s id HT) as Hvn.
    pose proof (po_out _ _ _ _ _ _ HPO) as Hout.
    simpl. unfold execute_vote. rewrite Ht. fold q.
    destruct (negb (q =? 0)) eqn:E1; [|lia]. rewrite Hv, He. simpl.
    rewrite vote_new_total; [|nia|done]. unfold tally_add_vote.
    pose proof (proj1 (ranking_iff (m_n (t_m t)) v ltac:(lia)) Hr) as (_ & Hnd & HF).
    destruct (record_vote_total (m_n (t_m t)) q v [] (t_m t)) as [m' Em]; [done|done|done|done|lia| |].
    { intros u w Hu Hw Hne. rewrite (po_mg _ _ _ _ _ _ HPO) by done.
      assert (sg [] u w = 0) as -> by done.
      assert (- voted_power O s id <= margin O s id u w) as Hm; [|lia].
      unfold margin, voted_power.
      transitivity (msum (fun k (_ : list Z) => -1 * (if k.1 =? id then vp O (s_dao s) k.2 (start_of s id) else 0)) (s_votes s)).
      { rewrite msum_scale. lia. }
      apply msum_le. intros k x _. destruct (k.1 =? id); [|lia].
      destruct HT as [HT _]. specialize (HT (s_dao s) k.2 (start_of s id)). pose proof (sg_bounds x u w). nia. }
    rewrite Em. rewrite sub128_eq by lia.
    apply (record_vote_ok (m_n (t_m t))) in Em as (HM' & _ & _); [|done..|lia].
    destruct (compute_winner_ok m' (t_outstanding t - q) HM') as (w & -> & _). eauto.
Qed.

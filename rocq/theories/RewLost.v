(** Proofs: rewards of dao-rewards-distributor that are lost stay lost. *)
From Verif Require Import Base BaseProofs Exec ExecProofs Plain PlainProofs StoreModel StoreProofs
  ExtModel ExtProofs RewModel RewSpec RewProofs.

(** The books are kept from any state on. *)
Lemma core_leads id b s pd fd b' s' l :
  block_le (e_block s) b -> core id s (e_due s) pd fd ->
  leads e_handle b s b' s' l -> tame id l = true ->
  block_le (e_block s') b' /\
  core id s' (e_due s') (pd + (claimed id l + withdrawn id l)) (fd + funded id l).
Proof.
  intros H0 H1. apply (leads_ind e_handle (fun b1 s1 l1 => tame id l1 = true ->
    block_le (e_block s1) b1 /\
    core id s1 (e_due s1) (pd + (claimed id l1 + withdrawn id l1)) (fd + funded id l1))).
  - clear -H0. intros b1 s1 l1 a m s2 subs IH H Ht. rewrite tame_app in Ht. apply andb_true_iff in Ht as [Ht He].
    destruct (IH Ht) as [Hb HC]. unfold e_handle in H. destruct (e_goes s1 b1) eqn:Hg; [|done].
    pose proof (core_goes _ _ _ _ _ HC Hb Hg) as HC'.
    unfold tame in He. cbn in He. rewrite andb_true_r in He.
    assert (height b1 <= U64_MAX) as Hh by (unfold e_goes in Hg; lia).
    destruct (core_step id (set_block s1 b1) b1 a m s2 subs _ _ s1 HC' eq_refl Hh eq_refl eq_refl eq_refl H He) as [B1 B2].
    rewrite B2. split; [apply block_le_refl|]. unfold claimed, withdrawn, funded in *.
    rewrite !lsum_app. cbn [lsum]. rewrite !Z.add_0_r.
    match goal with |- core _ _ _ ?x ?z => match type of B1 with core _ _ _ ?y ?w =>
      replace x with y by lia; replace z with w by lia end end.
    exact B1.
  - intros b1 s1 l1 sub IH Ht. rewrite tame_app in Ht. apply andb_true_iff in Ht as [Ht _].
    unfold claimed, withdrawn, funded in *. rewrite !lsum_app. cbn. rewrite !Z.add_0_r. by apply IH.
  - intros b1 b2 s1 l1 IH Hb Ht. destruct (IH Ht). split; [|done]. by eapply block_le_trans.
  - intros _. split; [done|]. cbn. by rewrite !Z.add_0_r.
Qed.
Lemma core_paid id s due pd fd : core id s due pd fd -> pd <= fd.
Proof.
  intros HC. destruct (e_dists s !! id) as [d|] eqn:Ed.
  - destruct (co_some _ _ _ _ _ HC d Ed) as (v & _ & _ & HI).
    destruct HI as [_ _ _ (c & A4 & A5) _ _ _]. specialize (A5 [] (NoDup_nil_2)). cbn in A5.
    apply left_nonneg in A4. pose proof SCALE_pos. nia.
  - destruct (co_none _ _ _ _ _ HC Ed) as (_ & -> & ->). lia.
Qed.
(** Nothing accumulated and nothing pending: all that is not to come is lost. *)
Lemma lost_start id s due pd fd d c :
  core id s due pd fd -> e_dists s !! id = Some d -> tp d = 0 -> (forall u, pend s id u = 0) ->
  shape (e_block s) (di_ep d) (di_funded d) c ->
  core id s due 0 (left (di_ep d) (di_funded d) c).
Proof.
  intros HC Hd Ht Hp Hs. pose proof HC as [C1 C2 C3 C4]. split; try done.
  - intros E. by rewrite Hd in E.
  - intros d' Hd'. rewrite Hd in Hd'. injection Hd' as <-. destruct (C4 d Hd) as (v & Hv & Hr & [A1 A2 A3 A4 A5 A6 A7]).
    exists v. split; [done|]. split; [done|]. split; try done.
    + exists c. split; [done|]. intros us _.
      rewrite (lsum_ext _ (fun u => 0 * 0)), lsum_scale; [lia|].
      intros u. unfold owed. rewrite Hp, Ht. pose proof (A2 u). rewrite Ht in *. replace (acc s id u) with 0 by lia. lia.
    + exists c. split; [done|]. rewrite Ht. lia.
Qed.
(** From then on no more is paid than is to come and is brought. *)
Lemma stays_lost id b s l d c b' s' l' :
  ereached b s l -> tame id l = true -> e_dists s !! id = Some d -> tp d = 0 ->
  (forall u, pend s id u = 0) -> shape (e_block s) (di_ep d) (di_funded d) c ->
  leads e_handle b s b' s' l' -> tame id l' = true ->
  claimed id l' + withdrawn id l' <= left (di_ep d) (di_funded d) c + funded id l'.
Proof.
  intros HR Hm Hd Ht Hp Hs HL Hm'.
  destruct HR as (b0 & owner & vs & Hh & HR & _).
  destruct (core_reached id b0 owner vs b s l Hh HR Hm) as [Hb HC].
  pose proof (lost_start _ _ _ _ _ _ _ HC Hd Ht Hp Hs) as H0.
  destruct (core_leads id b s 0 _ b' s' l' Hb H0 HL Hm') as [_ HC']. apply core_paid in HC'. lia.
Qed.

(** Proofs of the statements in RewTokProps.v. *)
From Verif Require Import Base BaseProofs Exec ExecProofs Plain PlainProofs HooksModel StoreModel StoreProofs StakeProofs
  ExtModel ExtProofs ActiveModel TokModel RewModel RewSpec RewProofs RewAccount RewClaims RewHookProofs RewHookClaims
  RewTokModel RewTokSpec RewTokProofs.

(** ** From one log to the other *)
Lemma lsum_calls (f : eevent -> Z) (l : elog) :
  (forall a b c d e, f (ESub a b c d e) = 0) -> lsum f l = lsum f (calls l).
Proof.
  intros H. unfold calls. induction l as [|[] l IH]; cbn; [done|rewrite IH; done|]. by rewrite H, IH.
Qed.
Lemma forallb_calls (f : eevent -> bool) (l : elog) :
  (forall a b c d e, f (ESub a b c d e) = true) -> forallb f l = forallb f (calls l).
Proof.
  intros H. unfold calls. induction l as [|[] l IH]; cbn; [done|rewrite IH; done|]. by rewrite H, IH.
Qed.
Lemma lsum_flat {A B} (f : B -> Z) (g : A -> list B) l : lsum f (flat_map g l) = lsum (fun x => lsum f (g x)) l.
Proof. induction l as [|x l IH]; cbn; [done|]. by rewrite lsum_app, IH. Qed.
Lemma forallb_flat {A B} (f : B -> bool) (g : A -> list B) l :
  forallb f (flat_map g l) = forallb (fun x => forallb f (g x)) l.
Proof. induction l as [|x l IH]; cbn; [done|]. by rewrite forallb_app, IH. Qed.
Lemma pay_subs l : lsum pay (re_subs l) = lsum re_pay l.
Proof.
  unfold re_subs. rewrite lsum_flat. apply lsum_ext. intros [x|[t a n]] _; cbn; lia.
Qed.
Section logs.
  Context (md self : addr) (l : rjlog) (l' : elog) (id : Z).
  Context (Hl : calls l' = flat_map (rew_part md self) l).
  Ltac each e := destruct e as [pre b a [m|m|] post subs|]; cbn;
    [destruct (stakes m); reflexivity| |
     destruct (rj_out pre) as [|[|h st who k] out]; [reflexivity|reflexivity|destruct (h =? self)%N; reflexivity]|reflexivity].
  Lemma funded_eq : funded id l' = jfunded id l.
  Proof.
    unfold funded. rewrite lsum_calls, Hl, lsum_flat by done. apply lsum_ext. intros e _.
    each e. lia.
  Qed.
  Lemma claimed_eq : claimed id l' = jclaimed id l.
  Proof.
    unfold claimed. rewrite lsum_calls, Hl, lsum_flat by done. apply lsum_ext. intros e _.
    each e. destruct m; cbn; try reflexivity. rewrite pay_subs. lia.
  Qed.
  Lemma withdrawn_eq : withdrawn id l' = jwithdrawn id l.
  Proof.
    unfold withdrawn. rewrite lsum_calls, Hl, lsum_flat by done. apply lsum_ext. intros e _.
    each e. destruct m; cbn; try reflexivity. rewrite pay_subs. lia.
  Qed.
  Lemma tame_of : orderly md self id l = true -> tame id l' = true.
  Proof.
    unfold tame, orderly. rewrite forallb_calls, Hl, forallb_flat by done. generalize l.
    intros k0. induction k0 as [|e k IH]; cbn [forallb]; [done|]. intros [H1 H2]%andb_true_iff.
    rewrite IH by done. rewrite andb_true_r. clear IH H2. apply andb_true_iff in H1 as [H1 H2].
    destruct e as [pre b a [m|m|] post subs|]; cbn [rew_part]; [| | |reflexivity].
    - destruct (stakes m) eqn:Hm; [|reflexivity]. cbn [forallb reported steady quiet funds_to]. rewrite !andb_true_r.
      cbn [set_up] in H1. destruct (e_dists (rj_e pre) !! id) as [d|]; [|reflexivity]. rewrite Hm in H1. cbn [negb orb] in H1.
      destruct (di_vp d =? md)%N; [|reflexivity]. cbn [negb orb] in *. apply andb_true_iff in H1 as [H1 H3].
      by rewrite H3, H1.
    - cbn [forallb]. rewrite andb_true_r. cbn [unhurried] in H2.
      assert (quiet id (ECall (rj_e pre) b a m (rj_e post) (re_subs subs)) = true) as -> by exact H2.
      rewrite andb_true_r. destruct m; cbn [reported steady set_up] in *; rewrite ?andb_true_r; done.
    - destruct (rj_out pre) as [|[|h st who k0] out]; [reflexivity|reflexivity|].
      destruct (h =? self)%N; reflexivity.
  Qed.
End logs.

Lemma fresh_module dao denom src d thr t0 :
  t_instantiate dao denom src d thr = Ok t0 -> t_bals t0 = ∅ /\ t_total t0 = snap_empty.
Proof.
  unfold t_instantiate. destruct (validate_duration d) as [[]|]; [|done]. intros H.
  destruct src; [destruct (validate_active _ _) as [[]|] in H|destruct (validate_active _ _) as [[]|] in H; [destruct (negb _) in H|]];
    try done; by injection H as <-.
Qed.
Lemma reached_tied md self b s l :
  rjreached md self b s l -> tied md self b s /\ rj_goes md s b = true /\
  exists l', ereached b (rj_e s) l' /\ calls l' = flat_map (rew_part md self) l.
Proof.
  intros (b0 & owner & vs & dao & denom & src & d & thr & t0 & H0 & Ht & HL & Hg).
  destruct (fresh_module _ _ _ _ _ _ Ht) as [E1 E2].
  destruct (rj_history _ _ _ _ _ _ _ _ _ E1 E2 HL) as (HT & l' & HL' & Hl).
  split; [done|]. split; [done|]. exists l'. split; [|done]. exists b0, owner, ({[md]} ∪ vs). split; [done|]. split; [done|].
  by apply (tied_goes md self b s).
Qed.
(** *** C117: a history of the distributor *)
Lemma c117_history md self b s l :
  rjreached md self b s l ->
  (exists l', ereached b (rj_e s) l' /\ calls l' = flat_map (rew_part md self) l) /\
  exists v, e_vps (rj_e s) !! md = Some v /\
    (forall a, vp_power_at v b a = t_power_at (rj_t s) b a None) /\ vp_total_at v b = t_total_at (rj_t s) b None.
Proof.
  intros HR. destruct (reached_tied _ _ _ _ _ HR) as (HT & _ & HE). split; [done|].
  destruct (td_vp _ _ _ _ HT) as [last E]. eexists. split; [exact E|]. done.
Qed.
(** *** C117: within what was paid in *)
Lemma c117_covered md self id b s l us :
  rjreached md self b s l -> orderly md self id l = true -> e_dists (rj_e s) !! id <> None -> NoDup us ->
  (forall u, 0 <= claimable (rj_e s) b id u) /\
  jclaimed id l + jwithdrawn id l + lsum (claimable (rj_e s) b id) us + remaining (rj_e s) b id <= jfunded id l.
Proof.
  intros HR Ho Hd Hn. destruct (reached_tied _ _ _ _ _ HR) as (_ & _ & l' & HE & Hl).
  rewrite <-(claimed_eq md self l l' id Hl), <-(withdrawn_eq md self l l' id Hl), <-(funded_eq md self l l' id Hl).
  apply (covered id b _ l' us HE); [by apply (tame_of md self l l' id Hl)|done|done].
Qed.
(** *** C117: claims succeed *)
Lemma c117_claim md self b s l id d a n :
  rjreached md self b s l -> e_dists (rj_e s) !! id = Some d -> a <> md ->
  (forall i d', e_dists (rj_e s) !! i = Some d' -> di_denom d' = di_denom d -> orderly md self i l = true) ->
  pending_rewards (rj_e s) b id a = Ok n -> n <> 0 ->
  exists s', rj_handle md self s b a (RRew (EClaim id)) = Ok (s', [RE (EPay (di_denom d) a n)]) /\ rj_t s' = rj_t s.
Proof.
  intros HR Hd Ha Ho Hp Hn. destruct (reached_tied _ _ _ _ _ HR) as (HT & Hg & l' & HE & Hl).
  destruct (claim_goes b (rj_e s) l' id d a n HE Hd) as [e' E]; [|done|done|].
  { intros i d' Hi Hden. apply (tame_of md self l l' i Hl). by eapply Ho. }
  unfold e_handle in E. destruct (e_goes _ _); [|done]. unfold rj_handle. rewrite Hg.
  replace (a =? md)%N with false by (symmetry; by apply N.eqb_neq). cbn [negb andb elsewhere]. rewrite E. by eexists.
Qed.

(** ** Hook callers are registered for their own distributions *)
Definition regs (s : estate) : Prop :=
  forall h i, i ∈ registered s h -> exists d, e_dists s !! i = Some d /\ di_hook d = h.
Definition same_hooks (s s' : estate) : Prop :=
  e_hooks s' = e_hooks s /\
  forall i d, e_dists s !! i = Some d -> exists d', e_dists s' !! i = Some d' /\ di_hook d' = di_hook d.
Lemma regs_same s s' : regs s -> same_hooks s s' -> regs s'.
Proof.
  intros HR [E1 E2] h i. unfold registered. rewrite E1. intros Hi. destruct (HR h i Hi) as (d & Ed & Hd).
  destruct (E2 _ _ Ed) as (d' & Ed' & Hd'). exists d'. split; [done|congruence].
Qed.
Lemma same_trans s1 s2 s3 : same_hooks s1 s2 -> same_hooks s2 s3 -> same_hooks s1 s3.
Proof.
  intros [A1 A2] [B1 B2]. split; [congruence|]. intros i d Hd. destruct (A2 _ _ Hd) as (d1 & E1 & F1).
  destruct (B2 _ _ E1) as (d2 & E2 & F2). exists d2. split; [done|congruence].
Qed.
Lemma same_insert s i d d' :
  e_dists s !! i = Some d -> di_hook d' = di_hook d ->
  forall j x, e_dists s !! j = Some x -> exists y, <[i := d']> (e_dists s) !! j = Some y /\ di_hook y = di_hook x.
Proof.
  intros Hd He j x Hx. destruct (decide (i = j)) as [->|]; [|rewrite lookup_insert_ne by done; eauto].
  rewrite lookup_insert. exists d'. split; [done|congruence].
Qed.
Lemma update_same s b a i s' : update_rewards s b a i = Ok s' -> same_hooks s s'.
Proof.
  intros H. apply update_ok in H as (d & x & v & Hd & _ & _ & _ & ->). split; [done|].
  cbn [e_dists]. by eapply same_insert.
Qed.
Lemma ids_same b a l s s' : update_ids s b a l = Ok s' -> same_hooks s s'.
Proof.
  revert s. induction l as [|i l IH]; intros s H; cbn in H; [injection H as <-; split; eauto|].
  destruct (update_rewards s b a i) as [s1|] eqn:E; [|done].
  eapply same_trans; [by eapply update_same|by apply IH].
Qed.
Lemma all_same b l who s s' : update_all s b who l = Ok s' -> same_hooks s s'.
Proof.
  revert s. induction who as [|a who IH]; intros s H; cbn in H; [injection H as <-; split; eauto|].
  destruct (update_ids s b a l) as [s1|] eqn:E; [|done].
  eapply same_trans; [by eapply ids_same|by apply IH].
Qed.
Lemma fund_linear_hook s b d ct n d' : fund_linear s b d ct n = Ok d' -> di_hook d' = di_hook d.
Proof.
  unfold fund_linear. cbn zeta. intros H.
  destruct (if _ || _ then _ else _) as [d1|] eqn:E in H; [|done].
  assert (di_hook d1 = di_hook d) as E1.
  { destruct (_ || _) in E.
    - destruct (if (_ && _) && _ then _ else _) in E; [|done]. by injection E as <-.
    - destruct (add128 _ _) in E; [|done]. by injection E as <-. }
  rewrite <-E1. destruct (funded_dur _ _) as [len|]; [|done].
  destruct (match len with Some x => _ | None => _ end) as [e'|] in H; [|done].
  destruct (_ && _) in H.
  - destruct (active_puvp _ _ _ _) in H; [|done]. by injection H as <-.
  - by injection H as <-.
Qed.
Lemma transition_hook s b d r d' : transition s b d r = Ok d' -> di_hook d' = di_hook d.
Proof.
  unfold transition. destruct (decide _) as [_|_]; [by intros [= <-]|]. cbn zeta. intros H.
  repeat match type of H with
  | match ?x with Ok _ => _ | Err _ => _ end = _ => destruct x; [|done]
  end.
  by injection H as <-.
Qed.
Lemma fund_same s b sender i d n s' :
  e_dists s !! i = Some d -> fund s b sender i d n = Ok s' -> same_hooks s s'.
Proof.
  intros Hd H. apply fund_ok in H as (d' & -> & Hd'). split; [done|]. cbn [set_dist e_dists set_held].
  apply (same_insert _ _ d); [done|].
  destruct (ep_rate (di_ep d)); [by subst|by destruct Hd' as (x & _ & ->)|by eapply fund_linear_hook].
Qed.
Lemma native_same s b a i f s' : fund_native s b a i f = Ok s' -> same_hooks s s'.
Proof.
  unfold fund_native, get_dist. destruct (e_dists s !! i) as [d|] eqn:Ed; [|done]. destruct (di_denom d) as [[] t]; [done|].
  destruct (must_pay f t) as [n|]; [|done]. by apply fund_same.
Qed.
Lemma subscribe_at m i j h h' :
  j ∈ default [] (subscribe m i h !! h') -> j ∈ default [] (m !! h') \/ (j = i /\ h' = h).
Proof.
  unfold subscribe. destruct (decide (h = h')) as [->|]; [|rewrite lookup_insert_ne by done; by left].
  rewrite lookup_insert. cbn [default]. intros [?|?%elem_of_list_singleton]%elem_of_app; auto.
Qed.
Lemma unsubscribe_at m i j h h' :
  j ∈ default [] (unsubscribe m i h !! h') -> j ∈ default [] (m !! h') /\ (h' = h -> j <> i).
Proof.
  intros H. split; [by eapply unsubscribe_inv|]. intros ->. unfold unsubscribe in H.
  destruct (List.filter _ _) as [|x l] eqn:E.
  - rewrite lookup_delete in H. cbn in H. by apply elem_of_nil in H.
  - rewrite lookup_insert in H. cbn [default from_option id] in H. rewrite <-E in H.
    apply elem_of_list_In, filter_In in H as [_ H]. lia.
Qed.
Lemma regs_step s b sender m s' subs : regs s -> e_step s b sender m = Ok (s', subs) -> regs s'.
Proof.
  intros HK H. assert (forall s1, same_hooks s s1 -> regs s1) as Hm by (intros s1; by apply regs_same).
  assert (same_hooks s s) as Hr by (split; eauto).
  destruct m as [denom rate vp hook op wd funds|i rate vp hook op wd|i funds|funds|from n i|i|i|who|act|vp caller who n|t n]; cbn [e_step] in H.
  - destruct (em_fits rate && _); [|done].
    destruct (create _ _ _ _ _ _ _ _ _ _) as [s1|] eqn:E; [|done]. injection H as <- _.
    unfold create in E. destruct (is_owner _ _); [|done]. destruct (_ <=? U64_MAX); [|done]. cbn zeta in E.
    destruct (q_vp _ _); [|done]. destruct (em_validate _); [|done].
    destruct (e_dists s !! (e_count s + 1)) eqn:EN; [done|].
    set (d := Dist _ _ _ _ _ _ _ _) in E. set (s2 := set_hooks _ _) in E.
    assert (regs s2) as HK2.
    { intros h i. unfold registered, s2. cbn [set_hooks e_hooks e_dists set_dist set_count].
      intros Hi. apply subscribe_at in Hi as [Hi|[-> ->]]; [|exists d; by rewrite lookup_insert].
      destruct (HK _ _ Hi) as (d' & Ed' & Hd'). exists d'. split; [|done].
      rewrite lookup_insert_ne; [done|]. intros E'. rewrite E' in EN. congruence. }
    destruct funds as [|c funds]; [injection E as <-; done|].
    destruct denom as [[] t]; [done|]. destruct (must_pay _ _) as [n|]; [|done].
    eapply regs_same; [exact HK2|]. eapply fund_same; [|exact E].
    unfold s2. cbn [set_hooks e_dists set_dist]. apply lookup_insert.
  - destruct (match rate with Some r => em_fits r | None => true end); [|done].
    destruct (update _ _ _ _ _ _ _ _ _) as [s1|] eqn:E; [|done]. injection H as <- _.
    unfold update in E. destruct (is_owner _ _); [|done]. unfold get_dist in E.
    destruct (e_dists s !! i) as [d|] eqn:Ed; [|done].
    destruct (match rate with Some _ => _ | None => _ end) as [d1|] eqn:E1 in E; [|done].
    assert (di_hook d1 = di_hook d) as Eh.
    { destruct rate as [r|]; [|congruence]. destruct (em_validate r); [|done]. by eapply transition_hook. }
    destruct (match vp with Some _ => _ | None => _ end) as [vp'|] in E; [|done].
    cbn zeta in E. injection E as <-. intros h j. unfold registered. cbn [set_hooks e_hooks e_dists set_dist].
    destruct hook as [h'|]; cbn [default from_option id].
    + intros Hj. apply subscribe_at in Hj as [Hj|[-> ->]].
      * apply unsubscribe_at in Hj as [Hj Hji]. destruct (HK _ _ Hj) as (d' & Ed' & Hd').
        destruct (decide (i = j)) as [->|].
        -- exfalso. assert (d' = d) as -> by congruence. apply Hji; congruence.
        -- exists d'. rewrite lookup_insert_ne by done. done.
      * eexists. rewrite lookup_insert. done.
    + intros Hj. destruct (HK _ _ Hj) as (d' & Ed' & Hd'). destruct (decide (i = j)) as [->|].
      * eexists. rewrite lookup_insert. split; [done|]. cbn. congruence.
      * exists d'. rewrite lookup_insert_ne by done. done.
  - destruct (forallb _ _); [|done]. destruct (fund_native _ _ _ _ _) as [s1|] eqn:E; [|done]. injection H as <- _.
    apply Hm. by eapply native_same.
  - destruct (forallb _ _); [|done]. destruct (fund_native _ _ _ _ _) as [s1|] eqn:E; [|done]. injection H as <- _.
    apply Hm. by eapply native_same.
  - destruct (fits128 n); [|done]. destruct (fund_cw20 _ _ _ _ _ _) as [s1|] eqn:E; [|done]. injection H as <- _.
    unfold fund_cw20, get_dist in E. destruct (e_dists s !! _) as [d|] eqn:Ed; [|done]. destruct (di_denom d) as [[] t]; [|done].
    destruct (_ =? _)%N; [|done]. apply Hm. by eapply fund_same.
  - unfold claim_rewards in H. destruct (update_rewards s b sender i) as [s1|] eqn:E; [|done].
    destruct (get_dist s1 i) as [d|]; [|done]. cbn zeta in H. destruct (negb _); [|done].
    destruct (send _ _ _) as [s3|] eqn:Es; [|done]. apply send_ok in Es as [-> _]. injection H as <- _.
    apply Hm. apply update_same in E as [E1 E2]. by split.
  - unfold withdraw, get_dist in H. destruct (is_owner _ _); [|done]. destruct (e_dists s !! i) as [d|] eqn:Ed; [|done].
    cbn zeta in H. destruct (negb _); [|done]. destruct (rewards_until _ _ _) as [R|]; [|done].
    destruct (sub128 _ _) as [k|]; [|done]. destruct (send _ _ _) as [s1|] eqn:Es; [|done].
    apply send_ok in Es as [-> _]. injection H as <- _. apply Hm. split; [done|].
    cbn [set_dist e_dists set_held]. by apply (same_insert _ _ d).
  - destruct (e_hooks s !! sender) as [ids|]; [|done].
    destruct (update_all s b who ids) as [s1|] eqn:E; [|done]. injection H as <- _.
    apply Hm. apply all_same in E as [E1 E2]. by split.
  - destruct (update_ownership _ _ _ _) as [o|]; [|done]. injection H as <- _. by apply Hm.
  - destruct (fits128 n); [|done]. unfold set_power in H. cbn zeta in H. destruct (_ <=? U128_MAX); [|done].
    injection H as <- _. by apply Hm.
  - destruct (fits128 n); [|done]. destruct (take _ _ _) as [s1|] eqn:E; [|done]. injection H as <- _.
    apply take_ok in E as ->. by apply Hm.
Qed.
Lemma regs_reached b s l : ereached b s l -> regs s.
Proof.
  intros (b0 & owner & vs & _ & HL & _). revert HL. apply (leads_ind e_handle (fun b s l => regs s)).
  - clear. intros b s l a m s' subs IH H. unfold e_handle in H. destruct (e_goes s b); [|done].
    by eapply (regs_step (set_block s b)).
  - done.
  - done.
  - intros h i. unfold registered. cbn. rewrite lookup_empty. cbn. intros E. by apply elem_of_nil in E.
Qed.
(** *** C117: a change of stake goes through *)
Lemma c117_goes_through md self b s l a m t' subs ids :
  rjreached md self b s l -> stakes m = true -> rj_out s = [] ->
  t_hooks (rj_t s) = [self] -> e_hooks (rj_e s) !! md = Some ids ->
  (forall i, i ∈ ids -> orderly md self i l = true /\ jfunded i l <= 10 ^ 38) ->
  t_handle (rj_t s) b a m = Ok (t', subs) ->
  exists s1 s2 x, rj_handle md self s b a (RTok m) = Ok (s1, x) /\
    rj_handle md self s1 b a RDeliver = Ok (s2, []) /\ rj_t s2 = t' /\ rj_out s2 = [].
Proof.
  intros HR Hm Ho Hk Hr Hi Ht. pose proof (reached_tied _ _ _ _ _ HR) as (HT & Hg & l0 & HE0 & _).
  destruct (stake_call _ _ _ _ _ _ (td_bnd _ _ _ _ HT) Hm Ht) as (n & st & k & B1 & B2 & B3 & B4 & B5 & B6).
  assert (hooked self (rj_t s) = true) as Hh by (unfold hooked; rewrite Hk; cbn; by rewrite N.eqb_refl).
  assert (rj_handle md self s b a (RTok m) = Ok (RJ t' (seen md self (rj_e s) b (rj_t s) t' a)
    (List.filter is_hook subs ++ rj_out s) b, map RT (List.filter (fun x => negb (is_hook x)) subs))) as E1.
  { unfold rj_handle. rewrite Hg, Ht, Hm. done. }
  set (s1 := RJ _ _ _ _) in E1. set (x := map RT _) in E1.
  assert (rjreached md self b s1 (l ++ [ECall s b a (RTok m) s1 x] ++ map (fun y => ESub s1 b y true s1) x)) as HR1.
  { destruct HR as (b0 & owner & vs & dao & denom & src & d & thr & t0 & H0 & Hti & HL & _).
    exists b0, owner, vs, dao, denom, src, d, thr, t0. split; [done|]. split; [done|]. split.
    - eapply leads_app; [exact HL|]. exists [(b, Call a (RTok m) [])].
      split; [split; [apply block_le_refl|done]|]. split; [|apply block_le_refl]. cbn -[x s1]. rewrite E1.
      assert (forall y : list rjsub, run_quiet (Msg := rjmsg) no_reply b s1 y = Ok (s1, map (fun y => ESub s1 b y true s1) y)) as Hq.
      { intros y. induction y as [|z y IH]; cbn; [done|]. by rewrite IH. }
      rewrite Hq. by rewrite app_nil_r.
    - unfold rj_goes in *. cbn [rj_block s1]. rewrite !Z.eqb_refl. apply andb_true_iff in Hg as [-> _]. done. }
  destruct (reached_tied _ _ _ _ _ HR1) as (HT1 & Hg1 & l1 & HE1 & Hl1).
  destruct (c115_hook b (rj_e s1) l1 md ids [a] HE1) as [e2 E2].
  { exact Hr. }
  { intros i Hin. destruct (Hi i Hin) as [O1 O2]. rewrite (funded_eq md self _ l1 i Hl1). split.
    - apply (tame_of md self _ l1 i Hl1). unfold orderly in *. rewrite forallb_app, O1. cbn [andb app forallb].
      destruct (regs_reached _ _ _ HE0 md i) as (d & Ed & Hd); [unfold registered; by rewrite Hr|].
      cbn [set_up unhurried]. rewrite Ed, Hd, N.eqb_refl, Hh. cbn [andb]. rewrite orb_true_r. cbn [andb].
      clear. induction x as [|y x IH]; cbn; [done|exact IH].
    - unfold jfunded in *. rewrite lsum_app. cbn [app lsum].
      assert (lsum (fun e : rjevent => match e with
         | ECall pre _ _ (RRew m) _ _ =>
             match funds_to (rj_e pre) m with Some (i0, n) => if i0 =? i then n else 0 | None => 0 end
         | _ => 0 end) (map (fun y => ESub s1 b y true s1) x) = 0) as ->; [|lia].
      clear. induction x as [|y x IH]; cbn; [done|exact IH]. }
  exists s1, (RJ t' e2 [] b), x. split; [exact E1|]. split; [|done].
  unfold rj_handle. rewrite Hg1. cbn [rj_out s1]. rewrite B5, Ho. unfold t_hook_msgs. rewrite Hk. cbn [map app].
  rewrite N.eqb_refl. unfold e_handle in E2. destruct (e_goes _ _); [|done].
  change (rj_e (RJ t' (seen md self (rj_e s) b (rj_t s) t' a) (List.filter is_hook subs ++ rj_out s) b)) with (rj_e s1).
  cbn [rj_e rj_t s1] in E2 |- *. rewrite E2. done.
Qed.

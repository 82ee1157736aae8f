(** The distributor's part of a joint history is a history of the distributor. *)
From Verif Require Import Base BaseProofs Exec ExecProofs Plain PlainProofs HooksModel StoreModel StoreProofs StakeProofs
  ExtModel ExtProofs ActiveModel TokModel RewModel RewSpec RewProofs RewAccount RewClaims RewHookProofs RewTokModel RewTokSpec.

(** ** Single calls *)
Lemma quiet_log (b : block) (s : estate) (subs : list esub) :
  exists l, run_quiet (Msg := emsg) no_reply b s subs = Ok (s, l) /\ calls l = [].
Proof.
  induction subs as [|x subs (l & E & H)]; cbn; [by exists []|].
  rewrite E. eexists. split; [done|]. exact H.
Qed.
Lemma leads_one b s a m s' subs :
  e_handle s b a m = Ok (s', subs) ->
  exists l, leads e_handle b s b s' l /\ calls l = [ECall s b a m s' subs].
Proof.
  intros E. destruct (quiet_log b s' subs) as (q & Eq & Hq).
  exists (ECall s b a m s' subs :: q). split; [|unfold calls in *; cbn; by rewrite Hq].
  exists [(b, Call a m [])]. split; [split; [apply block_le_refl|done]|].
  split; [|apply block_le_refl]. cbn. rewrite E, Eq. by rewrite app_nil_r.
Qed.
Lemma calls_app l l' : calls (l ++ l') = calls l ++ calls l'.
Proof. apply List.filter_app. Qed.

(** ** What a call leaves alone *)
Definition keeps (s s' : estate) : Prop :=
  e_vps s' = e_vps s /\ e_block s' = e_block s /\ e_due s' = e_due s.
Lemma keeps_refl s : keeps s s.
Proof. done. Qed.
Lemma keeps_trans s1 s2 s3 : keeps s1 s2 -> keeps s2 s3 -> keeps s1 s3.
Proof. intros (A & B & C) (A' & B' & C'). repeat split; congruence. Qed.
Lemma update_keeps s b a i s' : update_rewards s b a i = Ok s' -> keeps s s'.
Proof. intros H. by apply update_ok in H as (d & x & v & _ & _ & _ & _ & ->). Qed.
Lemma ids_keeps b a l s s' : update_ids s b a l = Ok s' -> keeps s s'.
Proof.
  revert s. induction l as [|i l IH]; intros s H; cbn in H; [by injection H as <-|].
  destruct (update_rewards s b a i) as [s1|] eqn:E; [|done].
  eapply keeps_trans; [by eapply update_keeps|by apply IH].
Qed.
Lemma all_keeps b l who s s' : update_all s b who l = Ok s' -> keeps s s'.
Proof.
  revert s. induction who as [|a who IH]; intros s H; cbn in H; [by injection H as <-|].
  destruct (update_ids s b a l) as [s1|] eqn:E; [|done].
  eapply keeps_trans; [by eapply ids_keeps|by apply IH].
Qed.
Lemma fund_keeps s b a i d n s' : fund s b a i d n = Ok s' -> keeps s s'.
Proof. intros H. by apply fund_ok in H as (d' & -> & _). Qed.
Lemma native_keeps s b a i f s' : fund_native s b a i f = Ok s' -> keeps s s'.
Proof.
  unfold fund_native. destruct (get_dist s i) as [d|]; [|done]. destruct (di_denom d) as [[] t]; [done|].
  destruct (must_pay f t) as [n|]; [|done]. apply fund_keeps.
Qed.
Lemma step_keeps s b sender m s' subs :
  e_step s b sender m = Ok (s', subs) ->
  match m with
  | EHook who => e_vps s' = e_vps s /\ e_block s' = e_block s /\
      e_due s' = fold_left (fun l a => drop_due sender a l) who (e_due s)
  | EPower vp caller who _ => e_block s' = e_block s /\ (forall x, x <> vp -> e_vps s' !! x = e_vps s !! x) /\
      (e_due s' = e_due s \/ e_due s' = e_due s ++ [(caller, who)])
  | _ => keeps s s'
  end.
Proof.
  intros H.
  destruct m as [denom rate vp hook op wd funds|i rate vp hook op wd|i funds|funds|from n i|i|i|who|act|vp caller who n|t n]; cbn [e_step] in H.
  - destruct (em_fits rate && _); [|done].
    destruct (create _ _ _ _ _ _ _ _ _ _) as [s1|] eqn:E; [|done]. injection H as <- _.
    unfold create in E. destruct (is_owner _ _); [|done]. destruct (_ <=? U64_MAX); [|done]. cbn zeta in E.
    destruct (q_vp _ _); [|done]. destruct (em_validate _); [|done].
    destruct (e_dists s !! (e_count s + 1)) eqn:EN; [done|].
    set (d := Dist _ _ _ _ _ _ _ _) in E. set (s2 := set_hooks _ _) in E.
    assert (keeps s s2) as HK by done.
    destruct funds as [|c funds]; [injection E as <-; done|].
    destruct denom as [[] t]; [done|]. destruct (must_pay _ _) as [n|]; [|done].
    eapply keeps_trans; [exact HK|]. by eapply fund_keeps.
  - destruct (match rate with Some r => em_fits r | None => true end); [|done].
    destruct (update _ _ _ _ _ _ _ _ _) as [s1|] eqn:E; [|done]. injection H as <- _.
    unfold update in E. destruct (is_owner _ _); [|done]. unfold get_dist in E.
    destruct (e_dists s !! i) as [d|] eqn:Ed; [|done].
    destruct (match rate with Some _ => _ | None => _ end) as [d1|] in E; [|done].
    destruct (match vp with Some _ => _ | None => _ end) as [vp'|] in E; [|done].
    cbn zeta in E. by injection E as <-.
  - destruct (forallb _ _); [|done]. destruct (fund_native _ _ _ _ _) as [s1|] eqn:E; [|done]. injection H as <- _.
    by eapply native_keeps.
  - destruct (forallb _ _); [|done]. destruct (fund_native _ _ _ _ _) as [s1|] eqn:E; [|done]. injection H as <- _.
    by eapply native_keeps.
  - destruct (fits128 n); [|done]. destruct (fund_cw20 _ _ _ _ _ _) as [s1|] eqn:E; [|done]. injection H as <- _.
    unfold fund_cw20 in E. destruct (get_dist _ _) as [d|]; [|done]. destruct (di_denom d) as [[] t]; [|done].
    destruct (_ =? _)%N; [|done]. by eapply fund_keeps.
  - unfold claim_rewards in H. destruct (update_rewards s b sender i) as [s1|] eqn:E; [|done].
    destruct (get_dist s1 i) as [d|]; [|done]. cbn zeta in H. destruct (negb _); [|done].
    destruct (send _ _ _) as [s3|] eqn:Es; [|done]. apply send_ok in Es as [-> _]. injection H as <- _.
    apply update_keeps in E as (E1 & E2 & E3). by repeat split.
  - unfold withdraw in H. destruct (is_owner _ _); [|done]. destruct (get_dist s i) as [d|]; [|done].
    cbn zeta in H. destruct (negb _); [|done]. destruct (rewards_until _ _ _) as [R|]; [|done].
    destruct (sub128 _ _) as [k|]; [|done]. destruct (send _ _ _) as [s1|] eqn:Es; [|done].
    apply send_ok in Es as [-> _]. by injection H as <- _.
  - destruct (e_hooks s !! sender) as [ids|]; [|done].
    destruct (update_all s b who ids) as [s1|] eqn:E; [|done]. injection H as <- _.
    apply all_keeps in E as (E1 & E2 & E3). cbn. by rewrite E1, E2, E3.
  - destruct (update_ownership _ _ _ _) as [o|]; [|done]. by injection H as <- _.
  - destruct (fits128 n); [|done]. unfold set_power in H. cbn zeta in H. destruct (_ <=? U128_MAX); [|done].
    injection H as <- _. split; [done|]. split; [intros x Hx; cbn; by rewrite lookup_insert_ne|].
    cbn. destruct (e_hooks s !! caller); auto.
  - destruct (fits128 n); [|done]. destruct (take _ _ _) as [s1|] eqn:E; [|done]. injection H as <- _.
    by apply take_ok in E as ->.
Qed.

(** ** Reports on their way *)
Lemma wl_app h l l' : wl h (l ++ l') = wl h l ++ wl h l'.
Proof. unfold wl. by rewrite List.filter_app, map_app. Qed.
Lemma wl_one h x a : wl h [(x, a)] = if (x =? h)%N then [a] else [].
Proof. unfold wl. cbn. by destruct (x =? h)%N. Qed.
Lemma wl_drop_other h c a l : c <> h -> wl h (drop_due c a l) = wl h l.
Proof.
  intros Hc. induction l as [|[x y] l IH]; [done|]. cbn [drop_due fst snd].
  destruct ((x =? c)%N && (y =? a)%N) eqn:E.
  - apply andb_true_iff in E as [->%N.eqb_eq _]. unfold wl. cbn. by rewrite (proj2 (N.eqb_neq c h) Hc).
  - unfold wl in *. cbn. destruct (x =? h)%N; cbn; by rewrite IH.
Qed.
Lemma wl_drop_others h c who l : c <> h -> wl h (fold_left (fun l a => drop_due c a l) who l) = wl h l.
Proof.
  intros Hc. revert l. induction who as [|a who IH]; intros l; [done|]. cbn [fold_left]. rewrite IH. by apply wl_drop_other.
Qed.
(** Dropping a report that is there, or none. *)
Lemma wl_drop h a l : wl h l ≡ₚ a :: wl h (drop_due h a l) \/ (a ∉ wl h l /\ wl h (drop_due h a l) = wl h l).
Proof.
  induction l as [|[x y] l IH]; [right; split; [apply not_elem_of_nil|done]|].
  cbn [drop_due fst snd]. destruct (x =? h)%N eqn:Ex.
  - apply N.eqb_eq in Ex as ->. cbn [andb]. destruct (y =? a)%N eqn:Ey.
    + apply N.eqb_eq in Ey as ->. left. unfold wl. cbn. by rewrite N.eqb_refl.
    + apply N.eqb_neq in Ey. assert (forall l, wl h ((h, y) :: l) = y :: wl h l) as Hw.
      { intros l'. unfold wl. cbn. by rewrite N.eqb_refl. }
      rewrite !Hw. destruct IH as [IH|[IH1 IH2]]; [left|right].
      * rewrite IH. apply Permutation_swap.
      * rewrite IH2. split; [|done]. by apply not_elem_of_cons.
  - cbn [andb]. assert (forall l, wl h ((x, y) :: l) = wl h l) as Hw.
    { intros l'. unfold wl. cbn. by rewrite Ex. }
    by rewrite !Hw.
Qed.
Definition own_hooks (self : addr) (l : list tsub) : list addr :=
  flat_map (fun x => match x with THook h _ a _ => if (h =? self)%N then [a] else [] | _ => [] end) l.
Lemma own_app self l l' : own_hooks self (l ++ l') = own_hooks self l ++ own_hooks self l'.
Proof. apply flat_map_app. Qed.
Lemma drop_fewer h a l k : wl h l ⊆+ a :: k -> wl h (drop_due h a l) ⊆+ k.
Proof.
  intros H. destruct (wl_drop h a l) as [E|[E1 E2]].
  - rewrite E in H. apply submseteq_cons_l in H as (k' & Hk & H). apply Permutation_cons_inv in Hk. by rewrite Hk.
  - rewrite E2. apply submseteq_cons_r in H as [H|(k' & E & H)]; [done|].
    exfalso. apply E1. rewrite E. apply elem_of_list_here.
Qed.

(** ** Calls to the module *)
Definition bounded (t : tstate) : Prop :=
  (forall x, 0 <= smap_get (t_bals t) x <= U128_MAX) /\ snap_get (t_total t) <= U128_MAX.
Lemma hooks_stay (t : tstate) st a k : List.filter is_hook (t_hook_msgs t st a k) = t_hook_msgs t st a k.
Proof. unfold t_hook_msgs. induction (t_hooks t) as [|x l IH]; cbn; [done|]. by rewrite IH. Qed.
Lemma stake_call t b a m t' subs :
  bounded t -> stakes m = true -> t_handle t b a m = Ok (t', subs) ->
  exists n st k, t_bals t' = smap_save (t_bals t) a (height b) n /\
    t_total t' = snap_save (t_total t) (height b) (snap_get (t_total t) - smap_get (t_bals t) a + n) /\
    fits128 n = true /\ snap_get (t_total t) - smap_get (t_bals t) a + n <= U128_MAX /\
    List.filter is_hook subs = t_hook_msgs t st a k /\ t_hooks t' = t_hooks t.
Proof.
  intros [Hp Hq] Hm H. specialize (Hp a).
  destruct m as [funds|n| | | | | |]; try done; cbn [t_handle] in H.
  - destruct (forallb _ _) eqn:Hf1; [|done]. unfold t_stake in H.
    destruct (must_pay funds (t_denom t)) as [n|] eqn:En; [|done].
    unfold t_arrive in H. destruct (_ <=? U128_MAX); [|done]. cbn [t_bals t_total] in H.
    destruct (add128 (smap_get _ _) n) as [bal|] eqn:Eb; [|done].
    destruct (add128 (snap_get _) n) as [tot|] eqn:Et; [|done].
    apply add128_ok in Eb as [-> Hb], Et as [-> Ht]. injection H as <- <-.
    cbn [t_bals t_total t_hooks].
    assert (0 <= n) as Hn.
    { apply must_pay_ok in En as [-> _]. cbn in Hf1. rewrite andb_true_r in Hf1. unfold fits128 in Hf1. lia. }
    exists (smap_get (t_bals t) a + n), true, n.
    split; [done|]. split; [f_equal; lia|]. split; [unfold fits128; lia|]. split; [lia|].
    split; [|done]. exact (hooks_stay t true a n).
  - destruct (fits128 n) eqn:Hn; [|done]. unfold t_unstake in H. destruct (n =? 0); [done|]. cbn [negb] in H.
    destruct (sub128 (smap_get _ _) n) as [bal|] eqn:Eb; [|done].
    destruct (sub128 (snap_get _) n) as [tot|] eqn:Et; [|done].
    apply sub128_ok in Eb as [-> Hb], Et as [-> Ht]. apply fits128_ok in Hn.
    exists (smap_get (t_bals t) a - n), false, n.
    assert (fits128 (smap_get (t_bals t) a - n) = true) as F by (unfold fits128; lia).
    assert (snap_get (t_total t) - n = snap_get (t_total t) - smap_get (t_bals t) a + (smap_get (t_bals t) a - n)) as E by lia.
    destruct (t_dur t) as [d|].
    + destruct (_ <? TOK_MAX_CLAIMS); [|done]. injection H as <- <-. cbn [t_bals t_total t_hooks].
      split; [done|]. split; [by rewrite E|]. split; [done|]. split; [lia|]. split; [apply hooks_stay|done].
    + destruct (t_leave _ _) as [s2|] eqn:El; [|done]. unfold t_leave in El. destruct (_ <=? _); [|done].
      injection El as <-. injection H as <- <-. cbn [t_bals t_total t_hooks].
      split; [done|]. split; [by rewrite E|]. split; [done|]. split; [lia|]. split; [|done]. cbn [List.filter is_hook]. apply hooks_stay.
Qed.
Lemma other_call t b a m t' subs :
  stakes m = false -> t_handle t b a m = Ok (t', subs) ->
  t_bals t' = t_bals t /\ t_total t' = t_total t /\ List.filter is_hook subs = [].
Proof.
  intros Hm H. destruct m as [funds|n|d| |thr sup|x|x|n]; try done; cbn [t_handle] in H.
  - destruct (fits_dur d); [|done]. unfold t_update_config in H. destruct (_ =? _)%N; [|done].
    destruct (validate_duration d) as [[]|]; [|done]. by injection H as <- <-.
  - unfold t_claim in H. destruct (claim_tokens _ _ _) as [[n cs]|]; [|done]. destruct (n =? 0); [done|]. cbn [negb] in H.
    destruct (t_leave _ _) as [s2|] eqn:El; [|done]. unfold t_leave in El. destruct (_ <=? _); [|done].
    injection El as <-. by injection H as <- <-.
  - destruct (_ && _); [|done]. unfold t_update_threshold in H. destruct (_ =? _)%N; [|done].
    destruct (validate_active _ _) as [[]|]; [|done]. by injection H as <- <-.
  - unfold t_set_hooks in H. destruct (_ =? _)%N; [|done]. destruct (add_hook _ _); [|done]. by injection H as <- <-.
  - unfold t_set_hooks in H. destruct (_ =? _)%N; [|done]. destruct (remove_hook _ _); [|done]. by injection H as <- <-.
  - destruct (fits128 n); [|done]. unfold t_arrive in H. destruct (_ <=? _); [|done]. by injection H as <- <-.
Qed.
Lemma own_hook_msgs self t st a k :
  hooked self t = true -> [a] ⊆+ own_hooks self (t_hook_msgs t st a k).
Proof.
  unfold hooked, t_hook_msgs. induction (t_hooks t) as [|x l IH]; [done|]. cbn. rewrite N.eqb_sym.
  destruct (x =? self)%N; cbn; [|exact IH]. intros _. apply submseteq_skip, submseteq_nil_l.
Qed.
Lemma nobody_none {A} (m : gmap addr A) : m !! nobody m = None.
Proof.
  destruct (m !! nobody m) as [x|] eqn:E; [|done]. exfalso.
  assert (forall k, k ∈ map fst (map_to_list m) -> (k < nobody m)%N) as H.
  { unfold nobody. induction (map fst (map_to_list m)) as [|y l IH]; intros k Hk; [by apply elem_of_nil in Hk|].
    cbn. apply elem_of_cons in Hk as [->|Hk]; [lia|]. specialize (IH k Hk). lia. }
  assert (nobody m < nobody m)%N; [|lia]. apply H. apply elem_of_list_fmap. exists (nobody m, x).
  split; [done|]. by apply elem_of_map_to_list.
Qed.

(** ** Histories *)
Record tied (md self : addr) (b : block) (s : rjstate) : Prop := Tied {
  td_vp : exists last, e_vps (rj_e s) !! md = Some (VP (t_bals (rj_t s)) (t_total (rj_t s)) last);
  td_bnd : bounded (rj_t s);
  td_out : wl md (e_due (rj_e s)) ⊆+ own_hooks self (rj_out s);
  td_block : block_le (rj_block s) b;
  td_when : e_block (rj_e s) = rj_block s \/
    (height (e_block (rj_e s)) < height (rj_block s) /\ e_due (rj_e s) = []) }.
Lemma wl_all md (l : list (addr * addr)) : forallb (fun x => (x.1 =? md)%N) l = true -> wl md l = [] -> l = [].
Proof.
  destruct l as [|[x y] l]; [done|]. cbn [forallb]. unfold wl. cbn [List.filter fst snd].
  destruct (x =? md)%N; intros H1 H2; [discriminate H2|discriminate H1].
Qed.
Lemma no_due md self b s :
  tied md self b s -> rj_out s = [] -> forallb (fun x => (x.1 =? md)%N) (e_due (rj_e s)) = true -> e_due (rj_e s) = [].
Proof.
  intros HT Ho Hd. apply (wl_all md); [done|]. pose proof (td_out _ _ _ _ HT) as H. rewrite Ho in H. cbn in H.
  by apply submseteq_nil_r in H.
Qed.
Lemma tied_goes md self b s :
  tied md self b s -> rj_goes md s b = true ->
  e_goes (rj_e s) b = true /\
  (b = rj_block s \/ height (e_block (rj_e s)) < height b /\ height (rj_block s) < height b /\ e_due (rj_e s) = []).
Proof.
  intros HT Hg. unfold rj_goes in Hg. apply andb_true_iff in Hg as [Hh Hg]. unfold e_goes. rewrite Hh. cbn [andb].
  pose proof (td_block _ _ _ _ HT) as Hb. destruct (td_when _ _ _ _ HT) as [E|[E1 E2]].
  - rewrite E. destruct (height b =? height (rj_block s)) eqn:Eh.
    + split; [done|]. left. destruct b as [h t], (rj_block s) as [h' t']. cbn in *. f_equal; lia.
    + apply andb_true_iff in Hg as [Ho Hd]. destruct (rj_out s) eqn:Er; [|done].
      rewrite (no_due _ _ _ _ HT Er Hd). split; [done|]. right. destruct Hb. split; [lia|]. split; [lia|done].
  - rewrite E2. destruct (height b =? height (rj_block s)) eqn:Eh.
    + split.
      * replace (height b =? height (e_block (rj_e s))) with false by lia. done.
      * left. destruct b as [h t], (rj_block s) as [h' t']. cbn in *. f_equal; lia.
    + destruct Hb. split; [|right; split; [lia|split; [lia|done]]]. by replace (height b =? height (e_block (rj_e s))) with false by lia.
Qed.
Lemma re_subs_map l : re_subs (map RE l) = l.
Proof. unfold re_subs. induction l as [|x l IH]; cbn; [done|]. by rewrite IH. Qed.
Lemma rj_step md self s b a m s' subs :
  tied md self b s -> rj_handle md self s b a m = Ok (s', subs) ->
  tied md self b s' /\
  exists l, leads e_handle b (rj_e s) b (rj_e s') l /\ calls l = rew_part md self (ECall s b a m s' subs).
Proof.
  intros HT H. unfold rj_handle in H. destruct (rj_goes md s b) eqn:Hg; [|done].
  destruct (tied_goes _ _ _ _ HT Hg) as [He Hw]. pose proof HT as [(last & Hv) Hb Ho Hbl Hwh].
  assert (exists l, leads e_handle b (rj_e s) b (rj_e s) l /\ calls l = []) as Hnil.
  { exists []. split; [apply leads_refl, block_le_refl|done]. }
  assert (forall t out, e_block (rj_e (RJ t (rj_e s) out b)) = b \/
    height (e_block (rj_e s)) < height b /\ e_due (rj_e s) = []) as Hwb.
  { intros t out. destruct Hw as [->|(? & ? & ?)]; [|right; done]. cbn. destruct Hwh as [?|?]; auto. }
  destruct m as [m|m|].
  - destruct (t_handle (rj_t s) b a m) as [[t' ts]|] eqn:Et; [|done]. injection H as <- <-. cbn [rew_part].
    destruct (stakes m) eqn:Hm.
    + destruct (stake_call _ _ _ _ _ _ Hb Hm Et) as (n & st & k & B1 & B2 & B3 & B4 & B5 & B6).
      set (c := if hooked self (rj_t s) then md else nobody (e_hooks (rj_e s))).
      assert (e_handle (rj_e s) b a (EPower md c a n) = Ok (seen md self (rj_e s) b (rj_t s) t' a, [])) as E.
      { unfold e_handle. rewrite He. cbn [e_step]. rewrite B3. unfold set_power. cbn [set_block e_vps].
        rewrite Hv. cbn [default from_option id vp_tot vp_pow]. replace (_ <=? U128_MAX) with true by lia.
        unfold seen. cbn [set_block e_own e_count e_dists e_pend e_acc e_hooks e_held e_due e_block].
        rewrite <-B1, <-B2. f_equal. f_equal. f_equal. unfold c.
        destruct (hooked self (rj_t s)); [done|]. rewrite nobody_none. by destruct (e_hooks (rj_e s) !! md). }
      split.
      * split; cbn [rj_t rj_e rj_out rj_block].
        -- exists (height b). unfold seen. cbn [e_vps]. by rewrite lookup_insert.
        -- apply fits128_ok in B3. destruct Hb as [Hb1 Hb2]. split.
           ++ intros x. rewrite B1, smap_get_save. destruct (decide (x = a)); [lia|apply Hb1].
           ++ rewrite B2. cbn. lia.
        -- rewrite B5, own_app. unfold seen. cbn [e_due].
           assert (wl md (e_due (rj_e s)) ⊆+ own_hooks self (t_hook_msgs (rj_t s) st a k) ++ own_hooks self (rj_out s)) as Hle.
           { etransitivity; [exact Ho|]. apply submseteq_inserts_l. reflexivity. }
           destruct (e_hooks (rj_e s) !! md); [|exact Hle]. destruct (hooked self (rj_t s)) eqn:Hh; [|exact Hle].
           rewrite wl_app, wl_one, N.eqb_refl. rewrite (Permutation_app_comm (wl _ _)).
           apply submseteq_app; [by apply own_hook_msgs|exact Ho].
        -- apply block_le_refl.
        -- by left.
      * destruct (leads_one _ _ _ _ _ _ E) as (l & HL & Hl). exists l. split; [exact HL|].
        rewrite Hl. cbn [rj_t rj_e]. by rewrite B1, smap_get_save, decide_True.
    + destruct (other_call _ _ _ _ _ _ Hm Et) as (B1 & B2 & B3). split; [|exact Hnil].
      rewrite B3. split; cbn [rj_t rj_e rj_out rj_block].
      * exists last. by rewrite B1, B2.
      * unfold bounded. by rewrite B1, B2.
      * exact Ho.
      * apply block_le_refl.
      * exact (Hwb t' []).
  - destruct (negb (a =? md)%N && elsewhere md m) eqn:Hc; [|done].
    apply andb_true_iff in Hc as [Hc1 Hc2]. assert (a <> md) as Ha by by apply N.eqb_neq, negb_true_iff.
    destruct (e_step (set_block (rj_e s) b) b a m) as [[e' es]|] eqn:Ee; [|done]. injection H as <- <-.
    assert (e_handle (rj_e s) b a m = Ok (e', es)) as E by (unfold e_handle; by rewrite He).
    split.
    + apply step_keeps in Ee.
      assert (e_vps e' !! md = e_vps (rj_e s) !! md /\ wl md (e_due e') = wl md (e_due (rj_e s)) /\ e_block e' = b) as (K1 & K2 & K3).
      { destruct m; try (destruct Ee as (K1 & K2 & K3); rewrite K1, K2, K3; done).
        - destruct Ee as (K1 & K2 & K3). rewrite K1, K2, K3. split; [done|]. split; [|done]. by apply wl_drop_others.
        - destruct Ee as (K1 & K2 & K3). cbn in Hc2. apply andb_true_iff in Hc2 as [Hc2 Hc3].
          apply negb_true_iff, N.eqb_neq in Hc2. split; [by apply K2|]. split; [|done].
          destruct K3 as [->| ->]; [done|]. rewrite wl_app, wl_one. apply negb_true_iff in Hc3. rewrite Hc3. by rewrite app_nil_r. }
      split; cbn [rj_t rj_e rj_out rj_block].
      * exists last. by rewrite K1.
      * exact Hb.
      * by rewrite K2.
      * apply block_le_refl.
      * by left.
    + destruct (leads_one _ _ _ _ _ _ E) as (l & HL & Hl). exists l. split; [exact HL|].
      rewrite Hl. cbn [rew_part rj_e]. by rewrite re_subs_map.
  - destruct (rj_out s) as [|[|h st who k] out] eqn:Er; [done|done|]. cbn [rew_part]. rewrite Er.
    cbn in Ho. destruct (h =? self)%N eqn:Eh.
    + destruct (e_step (set_block (rj_e s) b) b md (EHook [who])) as [[e' es]|] eqn:Ee; [|done]. injection H as <- <-.
      assert (es = []) as ->.
      { cbn [e_step] in Ee. destruct (e_hooks _ !! md); [|done]. destruct (update_all _ _ _ _); [|done]. congruence. }
      assert (e_handle (rj_e s) b md (EHook [who]) = Ok (e', [])) as E by (unfold e_handle; by rewrite He).
      split.
      * apply step_keeps in Ee as (K1 & K2 & K3). cbn in K3.
        split; cbn [rj_t rj_e rj_out rj_block].
        -- exists last. by rewrite K1.
        -- exact Hb.
        -- rewrite K3. by apply drop_fewer.
        -- apply block_le_refl.
        -- by left.
      * destruct (leads_one _ _ _ _ _ _ E) as (l & HL & Hl). exists l. split; [exact HL|]. by rewrite Hl.
    + injection H as <- <-. split; [|exact Hnil].
      split; cbn [rj_t rj_e rj_out rj_block]; [by exists last|exact Hb|exact Ho|apply block_le_refl|exact (Hwb (rj_t s) out)].
Qed.
Lemma rj_history md self b0 owner vs t0 b s l :
  t_bals t0 = ∅ -> t_total t0 = snap_empty ->
  leads (rj_handle md self) b0 (rj_start md b0 owner vs t0) b s l ->
  tied md self b s /\
  exists l', leads e_handle b0 (e_instantiate b0 owner ({[md]} ∪ vs)) b (rj_e s) l' /\
    calls l' = flat_map (rew_part md self) l.
Proof.
  intros E1 E2. apply (leads_ind (rj_handle md self) (fun b s l => tied md self b s /\
    exists l', leads e_handle b0 (e_instantiate b0 owner ({[md]} ∪ vs)) b (rj_e s) l' /\
      calls l' = flat_map (rew_part md self) l)).
  - clear b s l. intros b s l a m s' subs (HT & l' & HL & Hl) H.
    destruct (rj_step _ _ _ _ _ _ _ _ HT H) as (HT' & l1 & HL1 & Hl1). split; [done|].
    exists (l' ++ l1). split; [by eapply leads_app|]. rewrite calls_app, Hl, Hl1, flat_map_app. cbn. by rewrite app_nil_r.
  - clear b s l. intros b s l sub (HT & l' & HL & Hl). split; [done|]. exists l'. split; [done|].
    rewrite Hl, flat_map_app. cbn. by rewrite app_nil_r.
  - clear b s l. intros b b' s l ([A B C D E] & l' & HL & Hl) Hb. split.
    + split; try done. by eapply block_le_trans.
    + exists l'. split; [by eapply leads_later|done].
  - split.
    + split; cbn.
      * exists 0. rewrite E1, E2. apply lookup_gset_to_gmap_Some. set_solver.
      * split; [|rewrite E2; by vm_compute]. intros x. rewrite E1. unfold smap_get, smap_snap. rewrite lookup_empty. by vm_compute.
      * done.
      * apply block_le_refl.
      * by left.
    + exists []. split; [apply leads_refl, block_le_refl|done].
Qed.

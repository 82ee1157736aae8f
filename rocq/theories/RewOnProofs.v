(** The distributor's part of a history with a staking contract is a history of the distributor. *)
From Verif Require Import Base BaseProofs Exec ExecProofs Plain PlainProofs HooksModel StoreModel StoreProofs StakeProofs
  ExtModel ExtProofs ActiveModel TokModel StakeModel NftModel RewModel RewSpec RewProofs RewAccount RewClaims RewHookProofs
  RewTokModel RewTokSpec RewTokProofs RolesModel RolesProofs GrpModel RewGrpModel RewGrpSpec RewGrpProofs RewOnModel RewOnSpec.

(** ** The three contracts *)
Definition o_bounded {S M X} (I : staking S M X) (k : S) : Prop :=
  (forall x, 0 <= smap_get (st_stakes I k) x <= U128_MAX) /\ snap_get (st_total I k) <= U128_MAX.
Record lawful {S M X} (I : staking S M X) (made : block -> S -> Prop) (ok : S -> Prop) : Prop := Lawful {
  lw_ok : forall k b a m k' subs, ok k -> st_handle I k b a m = Ok (k', subs) -> ok k';
  lw_call : forall k b a m k' subs, ok k -> o_bounded I k -> st_handle I k b a m = Ok (k', subs) ->
    match st_who I a m with
    | Some w => exists n,
        st_stakes I k' = smap_save (st_stakes I k) w (height b) n /\
        st_total I k' = snap_save (st_total I k) (height b) (snap_get (st_total I k) - smap_get (st_stakes I k) w + n) /\
        fits128 n = true /\ snap_get (st_total I k) - smap_get (st_stakes I k) w + n <= U128_MAX /\
        reports (st_report I) subs = map (fun h => (h, w)) (st_hooks I k)
    | None => st_stakes I k' = st_stakes I k /\ st_total I k' = st_total I k /\ reports (st_report I) subs = []
    end;
  lw_made : forall b k, made b k -> ok k /\ st_stakes I k = ∅ /\
    (st_total I k = snap_empty \/ st_total I k = snap_save snap_empty (height b) 0);
  lw_power : forall k b a h, st_power_at I k b a h = smap_at (st_stakes I k) a (default (height b) h);
  lw_total : forall k b h, st_total_at I k b h = snap_get_at (st_total I k) (default (height b) h) }.
Lemma reports_app {X} (f : X -> option (addr * addr)) l l' : reports f (l ++ l') = reports f l ++ reports f l'.
Proof. induction l as [|x l IH]; cbn; [done|]. destruct (f x); cbn; by rewrite IH. Qed.
Lemma reports_map {X Y} (f : X -> option (addr * addr)) (g : Y -> X) w (d : Y -> addr) l :
  (forall y, f (g y) = Some (d y, w)) -> reports f (map g l) = map (fun y => (d y, w)) l.
Proof. intros H. induction l as [|x l IH]; cbn; [done|]. by rewrite H, IH. Qed.
Lemma reports_none {X Y} (f : X -> option (addr * addr)) (g : Y -> X) l :
  (forall y, f (g y) = None) -> reports f (map g l) = [].
Proof. intros H. induction l as [|x l IH]; cbn; [done|]. by rewrite H. Qed.
Lemma tok_reports (l : list tsub) :
  reports (st_report tok_staking) (List.filter is_hook l) = reports (st_report tok_staking) l.
Proof. induction l as [|[x n|h st w n] l IH]; cbn in *; [done|exact IH|]. by rewrite IH. Qed.
Lemma tok_lawful : lawful tok_staking tok_made (fun _ => True).
Proof.
  split; [done| | |done|done].
  - intros k b a m k' subs _ Hb H. cbn [tok_staking st_handle] in H. destruct (stakes m) eqn:Hm.
    + assert (st_who tok_staking a m = Some a) as -> by by destruct m.
      destruct (stake_call _ _ _ _ _ _ Hb Hm H) as (n & st & q & B1 & B2 & B3 & B4 & B5 & B6).
      exists n. split; [done|]. split; [done|]. split; [done|]. split; [done|].
      rewrite <-tok_reports, B5. unfold t_hook_msgs. by apply (reports_map _ _ a (fun h => h)).
    + assert (st_who tok_staking a m = None) as -> by by destruct m.
      destruct (other_call _ _ _ _ _ _ Hm H) as (B1 & B2 & B3).
      split; [done|]. split; [done|]. by rewrite <-tok_reports, B3.
  - intros b k (dao & denom & src & d & thr & H). unfold t_instantiate in H.
    destruct (validate_duration d) as [[]|]; [|done].
    destruct src; [destruct (validate_active _ _) as [[]|] in H|destruct (validate_active _ _) as [[]|] in H; [destruct (negb _) in H|]];
      try done; injection H as <-; (split; [done|]; split; [done|by left]).
Qed.
Lemma stake_nonneg t p x n : 0 <= t -> 0 <= p -> 0 <= x -> amount_to_stake t p x = Ok n -> 0 <= n.
Proof.
  intros Ht Hp Hx H. unfold amount_to_stake in H. destruct ((t =? 0) || (p =? 0)) eqn:E; [congruence|].
  cbn zeta in H. destruct (_ <=? U128_MAX); [|done]. injection H as <-. apply Z.div_pos; [nia|].
  apply orb_false_iff in E as [_ E]. lia.
Qed.
Lemma cw20_ok k b a m k' subs :
  0 <= k_pool k /\ 0 <= snap_get (k_total k) -> k_handle k b a m = Ok (k', subs) ->
  0 <= k_pool k' /\ 0 <= snap_get (k_total k').
Proof.
  intros [Hp Ht] H. destruct m as [from x stk|x| |d|h|h|act|x]; cbn [k_handle] in H.
  - destruct (fits128 x) eqn:Hx; [|done]. apply fits128_ok in Hx. unfold k_receive in H. destruct (_ =? _)%N; [|done].
    unfold k_arrive in H. destruct (_ <=? U128_MAX); [|done]. destruct stk.
    + unfold k_stake in H. cbn [k_total k_pool k_bals] in H.
      destruct (amount_to_stake _ _ _) as [n|] eqn:En; [|done].
      pose proof (stake_nonneg _ _ _ _ Ht Hp (proj1 Hx) En).
      destruct (add128 (smap_get _ _) n) as [bal|] eqn:Eb; [|done].
      destruct (add128 (snap_get _) n) as [tot|] eqn:Et; [|done].
      destruct (add128 (k_pool k) x) as [pool|] eqn:Ep; [|done].
      apply add128_ok in Et as [-> _], Ep as [-> _]. injection H as <- <-. cbn. lia.
    + unfold k_fund in H. cbn [k_pool] in H. destruct (add128 _ _) as [pool|] eqn:Ep; [|done].
      apply add128_ok in Ep as [-> _]. injection H as <- <-. cbn. split; [lia|done].
  - destruct (fits128 x) eqn:Hx; [|done]. apply fits128_ok in Hx. unfold k_unstake in H.
    destruct (negb _); [|done]. destruct (_ <? U128_MAX); [|done]. destruct (x <=? _); [|done].
    destruct (amount_to_claim _ _ _) as [n|]; [|done].
    destruct (sub128 (smap_get _ _) x) as [bal|] eqn:Eb; [|done].
    destruct (sub128 (snap_get _) x) as [tot|] eqn:Et; [|done].
    destruct (sub128 (k_pool k) n) as [pool|] eqn:Ep; [|done].
    apply sub128_ok in Et as [-> ?], Ep as [-> ?].
    destruct (k_dur k) as [d|].
    + destruct (_ <=? MAX_CLAIMS); [|done]. injection H as <- <-. cbn. lia.
    + unfold k_leave in H. destruct (_ <=? _); [|done]. injection H as <- <-. cbn. lia.
  - unfold k_claim in H. destruct (claim_tokens _ _ _) as [[n cs]|]; [|done]. destruct (negb _); [|done].
    unfold k_leave in H. destruct (_ <=? _); [|done]. by injection H as <- <-.
  - destruct (fits_dur d); [|done]. unfold k_update_config in H. destruct (is_owner _ _); [|done].
    destruct (validate_duration d); [|done]. by injection H as <- <-.
  - unfold k_set_hooks in H. destruct (is_owner _ _); [|done]. destruct (add_hook _ _); [|done]. by injection H as <- <-.
  - unfold k_set_hooks in H. destruct (is_owner _ _); [|done]. destruct (remove_hook _ _); [|done]. by injection H as <- <-.
  - unfold k_owner in H. destruct (update_ownership _ _ _ _); [|done]. by injection H as <- <-.
  - destruct (fits128 x); [|done]. unfold k_arrive in H. destruct (_ <=? _); [|done]. by injection H as <- <-.
Qed.
Lemma cw20_lawful : lawful cw20_staking cw20_made (fun k => 0 <= k_pool k /\ 0 <= snap_get (k_total k)).
Proof.
  split; [exact cw20_ok| | |done|done].
  - intros k b a m k' subs [Hpool Htot] Hb H. cbn [cw20_staking st_handle] in H. destruct Hb as [Hp Hq].
    cbn [cw20_staking st_stakes st_total] in Hp, Hq.
    destruct m as [from x stk|x| |d|h|h|act|x]; cbn [k_handle] in H.
    + destruct (fits128 x) eqn:Hx; [|done]. apply fits128_ok in Hx. unfold k_receive in H. destruct (_ =? _)%N; [|done].
      unfold k_arrive in H. destruct (_ <=? U128_MAX); [|done]. destruct stk.
      * unfold k_stake in H. cbn [k_total k_pool k_bals] in H.
        destruct (amount_to_stake _ _ _) as [n|] eqn:En; [|done].
        destruct (add128 (smap_get _ _) n) as [bal|] eqn:Eb; [|done].
        destruct (add128 (snap_get _) n) as [tot|] eqn:Et; [|done].
        destruct (add128 (k_pool k) x) as [pool|] eqn:Ep; [|done].
        apply add128_ok in Eb as [-> Hb], Et as [-> Ht]. injection H as <- <-.
        cbn [cw20_staking st_who st_stakes st_total k_bals k_total st_hooks].
        pose proof (stake_nonneg _ _ _ _ Htot Hpool (proj1 Hx) En) as Hn.
        exists (smap_get (k_bals k) from + n). specialize (Hp from).
        split; [done|]. split; [f_equal; lia|]. split; [unfold fits128; lia|]. split; [lia|].
        unfold k_hook_msgs. by apply (reports_map _ _ from (fun h => h)).
      * unfold k_fund in H. destruct (add128 _ _) as [pool|]; [|done]. by injection H as <- <-.
    + destruct (fits128 x) eqn:Hx; [|done]. apply fits128_ok in Hx. unfold k_unstake in H.
      destruct (negb _); [|done]. destruct (_ <? U128_MAX); [|done]. destruct (x <=? _); [|done].
      destruct (amount_to_claim _ _ _) as [n|]; [|done].
      destruct (sub128 (smap_get _ _) x) as [bal|] eqn:Eb; [|done].
      destruct (sub128 (snap_get _) x) as [tot|] eqn:Et; [|done].
      destruct (sub128 (k_pool k) n) as [pool|]; [|done].
      apply sub128_ok in Eb as [-> Hb], Et as [-> Ht]. specialize (Hp a).
      exists (smap_get (k_bals k) a - x).
      assert (fits128 (smap_get (k_bals k) a - x) = true) as F by (unfold fits128; lia).
      assert (snap_get (k_total k) - x = snap_get (k_total k) - smap_get (k_bals k) a + (smap_get (k_bals k) a - x)) as E by lia.
      destruct (k_dur k) as [d|].
      * destruct (_ <=? MAX_CLAIMS); [|done]. injection H as <- <-. cbn [cw20_staking st_stakes st_total k_bals k_total st_hooks].
        split; [done|]. split; [by rewrite E|]. split; [done|]. split; [lia|].
        unfold k_hook_msgs. by apply (reports_map _ _ a (fun h => h)).
      * unfold k_leave in H. destruct (_ <=? _); [|done]. injection H as <- <-.
        cbn [cw20_staking st_stakes st_total k_bals k_total st_hooks].
        split; [done|]. split; [by rewrite E|]. split; [done|]. split; [lia|].
        cbn [reports st_report]. unfold k_hook_msgs. by apply (reports_map _ _ a (fun h => h)).
    + unfold k_claim in H. destruct (claim_tokens _ _ _) as [[n cs]|]; [|done]. destruct (negb _); [|done].
      unfold k_leave in H. destruct (_ <=? _); [|done]. by injection H as <- <-.
    + destruct (fits_dur d); [|done]. unfold k_update_config in H. destruct (is_owner _ _); [|done].
      destruct (validate_duration d); [|done]. by injection H as <- <-.
    + unfold k_set_hooks in H. destruct (is_owner _ _); [|done]. destruct (add_hook _ _); [|done]. by injection H as <- <-.
    + unfold k_set_hooks in H. destruct (is_owner _ _); [|done]. destruct (remove_hook _ _); [|done]. by injection H as <- <-.
    + unfold k_owner in H. destruct (update_ownership _ _ _ _); [|done]. by injection H as <- <-.
    + destruct (fits128 x); [|done]. unfold k_arrive in H. destruct (_ <=? _); [|done]. by injection H as <- <-.
  - intros b k (token & d & owner & H). unfold k_instantiate in H. destruct (validate_duration d); [|done].
    injection H as <-. split; [done|]. split; [done|by right].
Qed.
Lemma nft_lawful : lawful nft_staking nft_made (fun _ => True).
Proof.
  split; [done| | |done|done].
  - intros k b a m k' subs _ Hb H. cbn [nft_staking st_handle] in H. destruct Hb as [Hp Hq].
    cbn [nft_staking st_stakes st_total] in Hp, Hq.
    destruct m as [from id|ids| |d|h|h|t sup|id]; cbn [n_handle] in H.
    + unfold n_stake in H. destruct (_ =? _)%N; [|done]. destruct (n_arrive _ _) as [held|]; [|done].
      unfold register_staked in H. destruct (add128 (smap_get _ _) 1) as [bal|] eqn:Eb; [|done].
      destruct (add128 (snap_get _) 1) as [tot|] eqn:Et; [|done].
      apply add128_ok in Eb as [-> Hb], Et as [-> Ht]. injection H as <- <-.
      exists (smap_get (n_bals k) from + 1). specialize (Hp from). cbn [nft_staking st_stakes st_total n_bals n_total st_hooks].
      split; [done|]. split; [f_equal; lia|]. split; [unfold fits128; lia|]. split; [lia|].
      by apply (reports_map _ _ from (fun h => h)).
    + unfold n_unstake in H. destruct (negb _); [|done]. unfold register_unstaked in H.
      destruct (remove_staked _ _ _) as [st|]; [|done].
      destruct (sub128 (snap_get _) _) as [tot|] eqn:Et; [|done].
      destruct (sn_cur (smap_snap (n_bals k) a)) as [cur|] eqn:Ec; [|done].
      destruct (sub128 cur _) as [bal|] eqn:Eb; [|done].
      assert (smap_get (n_bals k) a = cur) as Eg by (unfold smap_get; by rewrite Ec).
      apply sub128_ok in Eb as [-> Hb], Et as [-> Ht]. specialize (Hp a). rewrite Eg in Hp.
      set (x := Z.of_nat (length ids)) in *. assert (0 <= x) as Hx by lia.
      exists (cur - x). cbn [nft_staking st_stakes st_total st_hooks] in *. rewrite Eg.
      assert (fits128 (cur - x) = true) as F by (unfold fits128; lia).
      assert (snap_get (n_total k) - x = snap_get (n_total k) - cur + (cur - x)) as E by lia.
      destruct (n_dur k) as [d|].
      * destruct (_ <=? NFT_MAX_CLAIMS); [|done]. injection H as <- <-. cbn [n_bals n_total].
        split; [done|]. split; [by rewrite E|]. split; [done|]. split; [lia|].
        by apply (reports_map _ _ a (fun h => h)).
      * destruct (n_leave _ _) as [held|]; [|done]. injection H as <- <-. cbn [n_bals n_total].
        split; [done|]. split; [by rewrite E|]. split; [done|]. split; [lia|].
        rewrite reports_app. rewrite (reports_none _ (NPay a)) by done. cbn [app].
        by apply (reports_map _ _ a (fun h => h)).
    + unfold n_claim in H. destruct (claim_nfts _ _ _) as [ids cs]. destruct (negb _); [|done].
      destruct (n_leave _ _) as [held|]; [|done]. injection H as <- <-. split; [done|]. split; [done|].
      by apply (reports_none _ (NPay a)).
    + destruct (fits_dur d); [|done]. unfold n_update_config in H. destruct (_ =? _)%N; [|done].
      destruct (validate_duration d); [|done]. by injection H as <- <-.
    + unfold n_set_hooks in H. destruct (_ =? _)%N; [|done]. destruct (add_hook _ _); [|done]. by injection H as <- <-.
    + unfold n_set_hooks in H. destruct (_ =? _)%N; [|done]. destruct (remove_hook _ _); [|done]. by injection H as <- <-.
    + destruct (_ && _); [|done]. unfold n_update_threshold in H. destruct (_ =? _)%N; [|done].
      destruct (validate_active _ _); [|done]. by injection H as <- <-.
    + destruct (n_arrive _ _) as [held|]; [|done]. by injection H as <- <-.
  - intros b k (dao & nft & src & d & thr & H). unfold n_instantiate in H.
    repeat match type of H with
    | match ?x with Ok _ => _ | Err _ => _ end = _ => destruct x; [|done]
    end.
    injection H as <-. split; [done|]. split; [done|by right].
Qed.
Lemma three_lawful S M X (I : staking S M X) made : one_of_three I made -> exists ok, lawful I made ok.
Proof. intros []; eexists; [exact tok_lawful|exact cw20_lawful|exact nft_lawful]. Qed.

(** ** Histories *)
Definition for_self (self : addr) (l : list (addr * addr)) : list addr :=
  flat_map (fun x => if (x.1 =? self)%N then [x.2] else []) l.
Lemma for_self_app self l l' : for_self self (l ++ l') = for_self self l ++ for_self self l'.
Proof. apply flat_map_app. Qed.
Lemma for_self_hooks self w hooks :
  existsb (N.eqb self) hooks = true -> [w] ⊆+ for_self self (map (fun h => (h, w)) hooks).
Proof.
  induction hooks as [|x l IH]; [done|]. cbn. rewrite N.eqb_sym.
  destruct (x =? self)%N; cbn; [|exact IH]. intros _. apply submseteq_skip, submseteq_nil_l.
Qed.
Lemma agrees_save h m m' a v : agrees h m m' -> agrees h (smap_save m a h v) (smap_save m' a h v).
Proof.
  intros H x. rewrite !smap_snap_save. destruct (decide (x = a)) as [->|]; [|apply H]. by apply agree_save.
Qed.
Record oj_tied {S M X} (I : staking S M X) (ok : S -> Prop) (hk md self : addr) (b : block) (s : ojstate S) : Prop := OTied {
  ot_vp : exists v, e_vps (oj_e s) !! md = Some v /\ agrees (height b) (st_stakes I (oj_m s)) (vp_pow v) /\
    agree (height b) (st_total I (oj_m s)) (vp_tot v);
  ot_bnd : o_bounded I (oj_m s);
  ot_ok : ok (oj_m s);
  ot_out : wl hk (e_due (oj_e s)) ⊆+ for_self self (oj_out s);
  ot_block : block_le (oj_block s) b;
  ot_when : e_block (oj_e s) = oj_block s \/
    (height (e_block (oj_e s)) < height (oj_block s) /\ e_due (oj_e s) = []) }.
Arguments ot_vp {_ _ _ _ _ _ _ _ _ _} _.
Arguments ot_bnd {_ _ _ _ _ _ _ _ _ _} _.
Arguments ot_ok {_ _ _ _ _ _ _ _ _ _} _.
Arguments ot_out {_ _ _ _ _ _ _ _ _ _} _.
Arguments ot_block {_ _ _ _ _ _ _ _ _ _} _.
Arguments ot_when {_ _ _ _ _ _ _ _ _ _} _.
Section three.
  Context {S M X : Type} (I : staking S M X) (made : block -> S -> Prop) (ok : S -> Prop) (L : lawful I made ok).
  Context (hk md self : addr).
  Lemma oj_tied_goes b s :
    oj_tied I ok hk md self b s -> oj_goes hk s b = true ->
    e_goes (oj_e s) b = true /\
    (b = oj_block s \/ height (e_block (oj_e s)) < height b /\ height (oj_block s) < height b /\ e_due (oj_e s) = []).
  Proof.
    intros HT Hg. unfold oj_goes in Hg. apply andb_true_iff in Hg as [Hh Hg]. unfold e_goes. rewrite Hh. cbn [andb].
    pose proof (ot_block HT) as Hb.
    assert (forall (Ho : oj_out s = []), forallb (fun x => (x.1 =? hk)%N) (e_due (oj_e s)) = true -> e_due (oj_e s) = []) as Hnd.
    { intros Ho Hd. apply (wl_all hk); [done|]. pose proof (ot_out HT) as H. rewrite Ho in H. cbn in H.
      by apply submseteq_nil_r in H. }
    destruct (ot_when HT) as [E|[E1 E2]].
    - rewrite E. destruct (height b =? height (oj_block s)) eqn:Eh.
      + split; [done|]. left. destruct b as [h t], (oj_block s) as [h' t']. cbn in *. f_equal; lia.
      + apply andb_true_iff in Hg as [Ho Hd]. destruct (oj_out s) eqn:Er; [|done].
        rewrite (Hnd eq_refl Hd). split; [done|]. right. destruct Hb. split; [lia|]. split; [lia|done].
    - rewrite E2. destruct (height b =? height (oj_block s)) eqn:Eh.
      + split.
        * replace (height b =? height (e_block (oj_e s))) with false by lia. done.
        * left. destruct b as [h t], (oj_block s) as [h' t']. cbn in *. f_equal; lia.
      + destruct Hb. split; [|right; split; [lia|split; [lia|done]]]. by replace (height b =? height (e_block (oj_e s))) with false by lia.
  Qed.
  (** The staking contract's calls. *)
  Lemma mod_step s b a m k' subs :
    oj_tied I ok hk md self b s -> e_goes (oj_e s) b = true -> st_handle I (oj_m s) b a m = Ok (k', subs) ->
    exists e', match st_who I a m with
               | Some w => set_power (set_block (oj_e s) b) b md (o_teller I hk self (oj_m s) (oj_e s)) w
                             (smap_get (st_stakes I k') w)
               | None => Ok (oj_e s)
               end = Ok e' /\
      match st_who I a m with Some _ => e_block e' = b | None => e' = oj_e s end /\
      e_hooks e' = e_hooks (oj_e s) /\ e_dists e' = e_dists (oj_e s) /\
      (exists v, e_vps e' !! md = Some v /\ agrees (height b) (st_stakes I k') (vp_pow v) /\
        agree (height b) (st_total I k') (vp_tot v)) /\ o_bounded I k' /\ ok k' /\
      wl hk (e_due e') ⊆+ for_self self (reports (st_report I) subs ++ oj_out s) /\
      match st_who I a m with
      | Some w => e_handle (oj_e s) b a (EPower md (o_teller I hk self (oj_m s) (oj_e s)) w
                    (smap_get (st_stakes I k') w)) = Ok (e', []) /\
          reports (st_report I) subs = map (fun h => (h, w)) (st_hooks I (oj_m s))
      | None => reports (st_report I) subs = []
      end.
  Proof.
    intros HT He Hh. pose proof HT as [(v & Hv & Ha & Hag) Hb Hok Ho Hbl Hwh].
    pose proof (lw_ok _ _ _ L _ _ _ _ _ _ Hok Hh) as Hok'.
    pose proof (lw_call _ _ _ L _ _ _ _ _ _ Hok Hb Hh) as Hc.
    destruct (st_who I a m) as [w|].
    - destruct Hc as (n & B1 & B2 & B3 & B4 & B5).
      assert (smap_get (st_stakes I k') w = n) as En by by rewrite B1, smap_get_save, decide_True.
      rewrite En. set (c := o_teller I hk self (oj_m s) (oj_e s)).
      assert (snap_get (st_total I (oj_m s)) = snap_get (vp_tot v)) as E1 by apply Hag.
      assert (smap_get (st_stakes I (oj_m s)) w = smap_get (vp_pow v) w) as E2 by apply Ha.
      eexists. split.
      { unfold set_power. cbn [set_block e_vps e_own e_count e_dists e_pend e_acc e_hooks e_held e_due e_block].
        rewrite Hv. cbn [default from_option id].
        replace (_ <=? U128_MAX) with true; [reflexivity|]. rewrite <-E1, <-E2. lia. }
      split; [done|]. split; [done|]. split; [done|]. split.
      { cbn [e_vps]. rewrite lookup_insert. eexists. split; [done|]. cbn [vp_pow vp_tot]. rewrite B1, B2, <-E1, <-E2. split.
        - by apply agrees_save.
        - by apply agree_save. }
      split.
      { apply fits128_ok in B3. destruct Hb as [Hb1 Hb2]. split.
        - intros x. rewrite B1, smap_get_save. destruct (decide (x = w)); [lia|apply Hb1].
        - rewrite B2. cbn. lia. }
      split; [done|]. split.
      { rewrite B5, for_self_app. cbn [e_due].
        assert (wl hk (e_due (oj_e s)) ⊆+ for_self self (map (fun h => (h, w)) (st_hooks I (oj_m s))) ++ for_self self (oj_out s)) as Hle.
        { etransitivity; [exact Ho|]. apply submseteq_inserts_l. reflexivity. }
        unfold c, o_teller. destruct (o_hooked I self (oj_m s)) eqn:Hh'.
        - destruct (e_hooks (oj_e s) !! hk); [|exact Hle].
          rewrite wl_app, wl_one, N.eqb_refl. rewrite (Permutation_app_comm (wl _ _)).
          apply submseteq_app; [by apply for_self_hooks|exact Ho].
        - rewrite (nobody_none (e_hooks (oj_e s)) : e_hooks (oj_e s) !! stranger _ = None). exact Hle. }
      split; [|done]. unfold e_handle. rewrite He. cbn [e_step]. rewrite B3.
      unfold set_power. cbn [set_block e_vps e_own e_count e_dists e_pend e_acc e_hooks e_held e_due e_block].
      rewrite Hv. cbn [default from_option id].
      replace (_ <=? U128_MAX) with true; [reflexivity|]. rewrite <-E1, <-E2. lia.
    - destruct Hc as (B1 & B2 & B3). exists (oj_e s). split; [done|]. split; [done|]. split; [done|]. split; [done|].
      split; [exists v; by rewrite B1, B2|]. split; [unfold o_bounded; by rewrite B1, B2|]. split; [done|].
      split; [by rewrite B3|done].
  Qed.
  Lemma oj_step s b a m s' subs :
    oj_tied I ok hk md self b s -> oj_handle I hk md self s b a m = Ok (s', subs) ->
    oj_tied I ok hk md self b s' /\
    exists l, leads e_handle b (oj_e s) b (oj_e s') l /\ calls l = on_part I hk md self (ECall s b a m s' subs).
  Proof.
    intros HT H. unfold oj_handle in H. destruct (oj_goes hk s b) eqn:Hg; [|done].
    destruct (oj_tied_goes _ _ HT Hg) as [He Hw]. pose proof HT as [(v & Hv & Ha & Hag) Hb Hok Ho Hbl Hwh].
    assert (exists l, leads e_handle b (oj_e s) b (oj_e s) l /\ calls l = []) as Hnil.
    { exists []. split; [apply leads_refl, block_le_refl|done]. }
    assert (e_block (oj_e s) = b \/ height (e_block (oj_e s)) < height b /\ e_due (oj_e s) = []) as Hwb.
    { destruct Hw as [->|(? & ? & ?)]; [|right; done]. destruct Hwh as [?|?]; auto. }
    destruct m as [m|m|].
    - destruct (st_handle I (oj_m s) b a m) as [[k' ks]|] eqn:Ek; [|done].
      destruct (mod_step _ _ _ _ _ _ HT He Ek) as (e' & E1 & E2 & _ & _ & E5 & E6 & E6' & E7 & E8).
      rewrite E1 in H. injection H as <- <-. cbn [on_part oj_m oj_e]. split.
      + split; cbn [oj_m oj_e oj_out oj_block]; [done|done|done|done|apply block_le_refl|].
        destruct (st_who I a m); [by left|by subst].
      + destruct (st_who I a m) as [w|]; [|by subst].
        destruct (leads_one _ _ _ _ _ _ (proj1 E8)) as (l & HL & Hl). by exists l.
    - destruct (negb (a =? hk)%N && g_elsewhere hk md m) eqn:Hc; [|done].
      apply andb_true_iff in Hc as [Hc1 Hc2]. assert (a <> hk) as Hne by by apply N.eqb_neq, negb_true_iff.
      destruct (e_step (set_block (oj_e s) b) b a m) as [[e' es]|] eqn:Ee; [|done]. injection H as <- <-.
      assert (e_handle (oj_e s) b a m = Ok (e', es)) as E by (unfold e_handle; by rewrite He).
      split.
      + apply step_keeps in Ee.
        assert (e_vps e' !! md = e_vps (oj_e s) !! md /\ wl hk (e_due e') = wl hk (e_due (oj_e s)) /\ e_block e' = b) as (K1 & K2 & K3).
        { destruct m; try (destruct Ee as (K1 & K2 & K3); rewrite K1, K2, K3; done).
          - destruct Ee as (K1 & K2 & K3). rewrite K1, K2, K3. split; [done|]. split; [|done]. by apply wl_drop_others.
          - destruct Ee as (K1 & K2 & K3). cbn in Hc2. apply andb_true_iff in Hc2 as [Hc2 Hc3].
            apply negb_true_iff, N.eqb_neq in Hc2. split; [by apply K2|]. split; [|done].
            destruct K3 as [->| ->]; [done|]. rewrite wl_app, wl_one. apply negb_true_iff in Hc3. rewrite Hc3. by rewrite app_nil_r. }
        split; cbn [oj_m oj_e oj_out oj_block]; [by exists v; rewrite K1|exact Hb|exact Hok|by rewrite K2|apply block_le_refl|by left].
      + destruct (leads_one _ _ _ _ _ _ E) as (l & HL & Hl). exists l. split; [exact HL|]. by rewrite Hl.
    - destruct (oj_out s) as [|[h who] out] eqn:Er; [done|]. cbn [on_part]. rewrite Er.
      cbn in Ho. destruct (h =? self)%N eqn:Eh.
      + destruct (e_step (set_block (oj_e s) b) b hk (EHook _)) as [[e' es]|] eqn:Ee; [|done]. injection H as <- <-.
        pose proof (hook_subs _ _ _ _ _ _ Ee) as ->.
        assert (e_handle (oj_e s) b hk (EHook [who]) = Ok (e', [])) as E by (unfold e_handle; by rewrite He).
        split.
        * apply step_keeps in Ee as (K1 & K2 & K3). cbn in K3.
          split; cbn [oj_m oj_e oj_out oj_block]; [by exists v; rewrite K1|exact Hb|exact Hok| |apply block_le_refl|by left].
          rewrite K3. by apply drop_fewer.
        * destruct (leads_one _ _ _ _ _ _ E) as (l & HL & Hl). exists l. split; [exact HL|]. by rewrite Hl.
      + injection H as <- <-. split; [|exact Hnil].
        split; cbn [oj_m oj_e oj_out oj_block]; [by exists v|exact Hb|exact Hok|exact Ho|apply block_le_refl|exact Hwb].
  Qed.
  Lemma oj_history b0 owner vs k0 b s l :
    made b0 k0 -> leads (oj_handle I hk md self) b0 (oj_start md b0 owner vs k0) b s l ->
    oj_tied I ok hk md self b s /\
    exists l', leads e_handle b0 (e_instantiate b0 owner ({[md]} ∪ vs)) b (oj_e s) l' /\
      calls l' = flat_map (on_part I hk md self) l.
  Proof.
    intros Hm. apply (leads_ind (oj_handle I hk md self) (fun b s l => oj_tied I ok hk md self b s /\
      exists l', leads e_handle b0 (e_instantiate b0 owner ({[md]} ∪ vs)) b (oj_e s) l' /\
        calls l' = flat_map (on_part I hk md self) l)).
    - clear b s l. intros b s l a m s' subs (HT & l' & HL & Hl) H.
      destruct (oj_step _ _ _ _ _ _ HT H) as (HT' & l1 & HL1 & Hl1). split; [done|].
      exists (l' ++ l1). split; [by eapply leads_app|]. rewrite calls_app, Hl, Hl1, flat_map_app. cbn. by rewrite app_nil_r.
    - clear b s l. intros b s l sub (HT & l' & HL & Hl). split; [done|]. exists l'. split; [done|].
      rewrite Hl, flat_map_app. cbn. by rewrite app_nil_r.
    - clear b s l. intros b b' s l ([(v & A1 & A2 & A3) B C D E F] & l' & HL & Hl) Hb. split.
      + split; try done; [|by eapply block_le_trans]. destruct Hb as [Hb _]. exists v. split; [done|]. split.
        * intros a. by eapply agree_later.
        * by eapply agree_later.
      + exists l'. split; [by eapply leads_later|done].
    - destruct (lw_made _ _ _ L _ _ Hm) as (M1 & M2 & M3). split.
      + assert (forall h, agree h snap_empty snap_empty) as Hem by (intros h; split; [apply snap_before_empty|apply snap_before_empty|done|done]).
        split; cbn [oj_start oj_m oj_e oj_out oj_block].
        * exists (VP ∅ snap_empty 0). split; [apply lookup_gset_to_gmap_Some; set_solver|]. cbn. split.
          -- intros a. rewrite M2. unfold smap_snap. rewrite lookup_empty. apply Hem.
          -- destruct M3 as [->| ->]; [apply Hem|].
             split; [by apply snap_before_save, eq_refl; apply snap_before_empty|apply snap_before_empty|done|].
             intros h0 H0. by rewrite snap_get_at_save.
        * split; [|destruct M3 as [->| ->]; by vm_compute]. intros a. rewrite M2. unfold smap_get, smap_snap. rewrite lookup_empty. by vm_compute.
        * done.
        * done.
        * apply block_le_refl.
        * by left.
      + exists []. split; [apply leads_refl, block_le_refl|done].
  Qed.
End three.

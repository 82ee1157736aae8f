(** The claims about role tokens. *)
From Verif Require Import Base BaseProofs Exec ExecProofs Plain PlainProofs PlainMore
  StoreModel StoreProofs RolesModel RolesSpec RolesProofs.

Lemma powers_sum b s l h accounts :
  rreached b s l -> covers (fun a => v_power s a h) accounts ->
  lsum (fun a => v_power s a h) accounts = v_total s h.
Proof.
  intros R C. pose proof (rreached_inv _ _ _ R) as [_ _ _ _ I5 I6].
  rewrite (msum_covers _ (r_members s)) by
    (try exact C; intros a E; unfold v_power, q_member, smap_load, smap_snap; rewrite E; by destruct h).
  destruct h as [h|].
  - exact (I5 h).
  - exact I6.
Qed.
Lemma total_is_tokens b s l : rreached b s l -> v_total s None = all_held s.
Proof. intros R. by destruct (rreached_inv _ _ _ R) as [_ _ _ -> _ _]. Qed.

(** Tokens never transferred. *)
Lemma held_insert_same s id x y a : r_tokens s !! id = Some x -> ro_owner y = ro_owner x ->
  msum (fun _ z => if decide (ro_owner z = a) then ro_weight z else 0) (<[id := y]> (r_tokens s)) =
  held s a + (if decide (ro_owner x = a) then ro_weight y - ro_weight x else 0).
Proof.
  intros E O. rewrite msum_insert, E, O. unfold held. destruct (decide _); lia.
Qed.
Lemma weight_is_held b s l a :
  rreached b s l -> (forall e, e ∈ l -> ~ moves a e) -> v_power s a None = held s a.
Proof.
  intros (b0 & mi & HL) NM.
  enough (rinv b s /\ ((forall e, e ∈ l -> ~ moves a e) -> v_power s a None = held s a)) as [_ H] by auto.
  clear NM. revert HL. apply (leads_ind r_handle (fun b s l => rinv b s /\
    ((forall e, e ∈ l -> ~ moves a e) -> v_power s a None = held s a))).
  - intros b1 s1 l1 c m s' subs [I IH] H. split; [by eapply rinv_step|]. intros NM.
    assert (v_power s1 a None = held s1 a) as E.
    { apply IH. intros e He. apply NM, elem_of_app. by left. }
    assert (~ moves a (ECall s1 b1 c m s' subs)) as Hmv.
    { apply NM, elem_of_app. right. by left. }
    clear IH NM. apply handle_step in H; [|apply I].
    unfold v_power, q_member in *.
    destruct H as [id ow w Et Hw old L1 L2|id x old Et El L1 L2 new|id w x subs Et Hw old L1 L2 Hs
                |m to id x subs Hm Et|m s' E1 E2 E3 Hm].
    + unfold held. cbn [r_members r_tokens tokens_set].
      rewrite set_member_load, msum_insert, Et. fold (held s1 a). cbn [ro_owner ro_weight].
      destruct (decide (a = ow)) as [->|], (decide (ow = _)); try congruence; cbn; fold old in E;
        rewrite ?E; try lia.
    + unfold held. cbn [r_members r_tokens tokens_set].
      rewrite set_member_load, (msum_delete _ _ _ x Et). fold (held s1 a).
      destruct (decide (a = ro_owner x)) as [->|]; [|by rewrite decide_False by congruence; lia].
      rewrite decide_True by done. rewrite El in E. cbn in E. unfold new.
      destruct (Z.eqb_spec (old - ro_weight x) 0); cbn; lia.
    + unfold held. cbn [r_members r_tokens tokens_set].
      rewrite set_member_load, (held_insert_same _ _ x) by done. cbn [ro_weight].
      destruct (decide (a = ro_owner x)) as [->|]; [|by rewrite decide_False by congruence; lia].
      rewrite decide_True by done. fold old in E. cbn. lia.
    + cbn [r_members tokens_set]. rewrite E. unfold held. cbn [r_tokens tokens_set].
      rewrite msum_insert, Et. cbn [ro_owner ro_weight].
      destruct (decide (ro_owner x = to)) as [->|Ne]; [lia|].
      assert (ro_owner x <> a /\ to <> a) as [? ?].
      { split; intros Ha; apply Hmv; destruct Hm as [[-> _]|[-> _]]; cbn; unfold owner_of;
          rewrite Et; cbn; (split; [congruence|]); (left; congruence) || (right; congruence). }
      rewrite !decide_False by done. lia.
    + unfold held. by rewrite E1, E2.
  - intros b1 s1 l1 x [I IH]. split; [done|]. intros NM. apply IH. intros e He.
    apply NM, elem_of_app. by left.
  - intros b1 b2 s1 l1 [I IH] L. split; [by eapply rinv_time|done].
  - split; [apply rinv_init|]. intros _. unfold v_power, q_member, held, smap_load, smap_snap. cbn.
    by rewrite lookup_empty, msum_empty.
Qed.

(** Powers at a height. *)
Lemma step_past b s a m s' subs c h : rinv b s -> r_handle s b a m = Ok (s', subs) -> h <= height b ->
  v_power s' c (Some h) = v_power s c (Some h) /\ v_total s' (Some h) = v_total s (Some h).
Proof.
  intros I H L. apply handle_step in H; [|apply I]. unfold v_power, v_total, q_member, q_total_weight.
  destruct H as [id ow w Et Hw old L1 L2|id x old Et El L1 L2 new|id w x subs Et Hw old L1 L2 Hs
                |m to id x subs Hm Et|m s' E1 E2 E3 Hm]; cbn [r_members r_total tokens_set].
  - by rewrite set_member_at, snap_get_at_save.
  - by rewrite set_member_at, snap_get_at_save.
  - by rewrite set_member_at, snap_get_at_save.
  - done.
  - by rewrite E2, E3.
Qed.
Lemma powers_past b s l b' s' l' a h :
  rreached b s l -> leads r_handle b s b' s' l' ->
  (h <= height b -> v_power s' a (Some h) = v_power s a (Some h) /\
                    v_total s' (Some h) = v_total s (Some h)) /\
  (height b < h -> v_power s a (Some h) = v_power s a None /\ v_total s (Some h) = v_total s None).
Proof.
  intros R HL. pose proof (rreached_inv _ _ _ R) as I. split.
  - intros L. revert I HL.
    pose (Q := fun (x y : rstate) => v_power y a (Some h) = v_power x a (Some h) /\
      v_total y (Some h) = v_total x (Some h)).
    intros I HL. change (Q s s').
    refine (leads_rel_from r_handle rinv rinv_step rinv_time Q b s b' s' l' _ _ _ I HL).
    + by unfold Q.
    + unfold Q. intros x y z [-> ->] [-> ->]. done.
    + intros b1 s1 c m s2 subs Lb I1 H. eapply step_past; [done|done|]. destruct Lb. lia.
  - intros L. destruct I as [_ I2 I3 _ _ _]. unfold v_power, v_total, q_member, q_total_weight.
    rewrite (snap_at_now _ (height b)) by (try apply I2; lia).
    by rewrite (snap_get_at_now _ (height b)) by (try done; lia).
Qed.

(** ** Hooks *)
Lemma hooks_told b s l pre b1 a m post subs :
  rreached b s l -> ECall pre b1 a m post subs ∈ l -> ~ lowers pre m ->
  forall x, x ∈ subs -> tells_true pre post x.
Proof.
  intros R Hin NL x Hx. destruct (rreached_call _ _ _ _ _ _ _ _ _ R Hin) as [I H].
  apply handle_step in H; [|apply I].
  destruct H as [id ow w Et Hw old L1 L2|id y old Et El L1 L2 new|id w y subs Et Hw old L1 L2 Hs
                |m to id y subs Hm Et|m s' E1 E2 E3 Hm].
  - apply elem_of_list_fmap in Hx as (h & -> & _). cbn [tells_true]. unfold q_member.
    cbn [r_members tokens_set]. rewrite set_member_load, decide_True by done. done.
  - apply elem_of_list_fmap in Hx as (h & -> & _). cbn [tells_true]. unfold q_member.
    cbn [r_members tokens_set]. rewrite set_member_load, decide_True by done. done.
  - destruct Hs as [[Lw ->]|[Lw ->]]; [|exfalso; apply NL; cbn; eauto].
    apply elem_of_list_fmap in Hx as (h & -> & _). cbn [tells_true]. unfold q_member.
    cbn [r_members tokens_set]. rewrite set_member_load, decide_True by done. done.
  - destruct Hm as [[_ ->]|[_ ->]]; [by apply elem_of_nil in Hx|].
    apply elem_of_list_singleton in Hx as ->. done.
  - by apply elem_of_nil in Hx.
Qed.
(** Whose weight changes is told to every hook, in order, once, and nothing else is. *)
Lemma hooks_all b s l pre b1 a m post subs :
  rreached b s l -> ECall pre b1 a m post subs ∈ l ->
  (forall c, v_power post c None = v_power pre c None /\ omap hook_of subs = []) \/
  (exists c, omap hook_of subs = map (fun h => (h, c)) (r_hooks pre) /\
     forall c', c' <> c -> v_power post c' None = v_power pre c' None).
Proof.
  intros R Hin. destruct (rreached_call _ _ _ _ _ _ _ _ _ R Hin) as [I H].
  apply handle_step in H; [|apply I].
  assert (forall c old new, omap hook_of (tell pre c old new) = map (fun h => (h, c)) (r_hooks pre)) as T.
  { intros c old new. unfold tell. induction (r_hooks pre) as [|h hs IH]; cbn; [done|]. by rewrite IH. }
  unfold v_power, q_member.
  destruct H as [id ow w Et Hw old L1 L2|id y old Et El L1 L2 new|id w y subs Et Hw old L1 L2 Hs
                |m to id y subs Hm Et|m s' E1 E2 E3 Hm]; cbn [r_members tokens_set].
  - right. exists ow. split; [apply T|]. intros c N. by rewrite set_member_load, decide_False.
  - right. exists (ro_owner y). split; [apply T|]. intros c N. by rewrite set_member_load, decide_False.
  - right. exists (ro_owner y). split; [destruct Hs as [[_ ->]|[_ ->]]; apply T|].
    intros c N. by rewrite set_member_load, decide_False.
  - left. intros c. split; [done|]. by destruct Hm as [[_ ->]|[_ ->]].
  - left. intros c. by rewrite E2.
Qed.
(** The hooks are those registered last, each once. *)
Lemma hooks_registered b s l :
  rreached b s l -> NoDup (r_hooks s) /\ forall a, a ∈ r_hooks s <-> last_about a l = Some true.
Proof.
  intros (b0 & minter & HL). revert HL.
  apply (leads_ind r_handle (fun b s l =>
    NoDup (r_hooks s) /\ forall a, a ∈ r_hooks s <-> last_about a l = Some true)).
  - clear. intros b s l x m s' subs [N L] H. unfold last_about.
    assert (r_hooks s' = r_hooks s /\ (forall a, m <> RAddHook a) /\ (forall a, m <> RRemoveHook a) \/
      (exists a, m = RAddHook a /\ a ∉ r_hooks s /\ r_hooks s' = r_hooks s ++ [a]) \/
      (exists a, m = RRemoveHook a /\ r_hooks s' = List.filter (fun y => negb (y =? a)%N) (r_hooks s)))
      as [(E & M1 & M2)|[(a & -> & Hn & E)|(a & -> & E)]].
    { unfold r_handle in H. destruct (is_owner (r_own s) x); [|done].
      destruct m as [id o w|id|h|h|id|id w|to id|to id| |act].
      3: { right. left. exists h. destruct (bool_decide_reflect (h ∈ r_hooks s)); [done|].
           cbn in H. by injection H as <- <-. }
      3: { right. right. exists h. destruct (bool_decide (h ∈ r_hooks s)); [|done].
           cbn in H. by injection H as <- <-. }
      all: left; split; [|split; intros; discriminate].
      all: unfold r_mint, r_burn, r_weight in H; try destruct (_ ?= _); res_inv H; try done. }
    + rewrite E. split; [done|]. intros a. rewrite L, fold_left_app. cbn.
      destruct m; try done; [by edestruct M1|by edestruct M2].
    + rewrite E. split.
      { apply NoDup_app. split; [done|]. split; [|apply NoDup_singleton].
        by intros y Hy ->%elem_of_list_singleton. }
      intros a'. rewrite elem_of_app, L, fold_left_app, elem_of_list_singleton. cbn.
      destruct (decide (a = a')) as [->|]; [split; [done|by right]|]. split; [by intros [?|?]|by left].
    + rewrite E. split.
      { clear -N. induction (r_hooks s) as [|y hs IH]; cbn; [done|].
        apply NoDup_cons in N as [N1 N2]. destruct (negb (y =? a)%N); [|by apply IH].
        apply NoDup_cons. split; [|by apply IH]. intros Hin. apply N1.
        apply elem_of_list_In, filter_In in Hin as [Hin _]. by apply elem_of_list_In. }
      intros a'. rewrite elem_of_list_In, filter_In, <-elem_of_list_In, L, fold_left_app. cbn.
      destruct (decide (a = a')) as [->|Hne].
      * rewrite N.eqb_refl. cbn. naive_solver.
      * assert ((a' =? a)%N = false) as -> by (apply N.eqb_neq; congruence). cbn. naive_solver.
  - clear. intros b s l x [N L]. split; [done|]. intros a. rewrite L. unfold last_about.
    by rewrite fold_left_app.
  - done.
  - split; [apply NoDup_nil_2|]. intros a. cbn. split; [by intros ?%elem_of_nil|done].
Qed.

(** ** Ownership *)
(** Nobody but the owner does anything. *)
Lemma only_owner s b a m s' subs :
  r_handle s b a m = Ok (s', subs) -> o_owner (r_own s) = Some a.
Proof.
  unfold r_handle, is_owner. destruct (o_owner (r_own s)) as [o|]; [|done].
  by destruct (N.eqb_spec o a) as [->|].
Qed.
(** The owner stays, or nobody is. *)
Lemma owner_stays b0 minter b s l :
  leads r_handle b0 (r_instantiate minter b0) b s l ->
  o_owner (r_own s) = Some minter \/ o_owner (r_own s) = None.
Proof.
  apply (leads_inv r_handle (fun _ s => o_owner (r_own s) = Some minter \/ o_owner (r_own s) = None)).
  - intros b1 s1 a m s' subs HI H. pose proof (only_owner _ _ _ _ _ _ H) as O.
    assert (a = minter) as -> by (destruct HI; congruence).
    unfold r_handle in H. destruct (is_owner (r_own s1) minter) eqn:Eo; [|done].
    destruct m as [id ow w|id|h|h|id|id w|to id|to id| |act].
    + destruct (fits64 w); [|done]. unfold r_mint in H. res_inv H; cbn; auto.
    + unfold r_burn in H. res_inv H; cbn; auto.
    + res_inv H; cbn; auto.
    + res_inv H; cbn; auto.
    + res_inv H; cbn; auto.
    + destruct (fits64 w); [|done]. unfold r_weight in H. cbn zeta in H.
      destruct (r_tokens s1 !! id); [|done]. res_inv H; cbn; auto.
    + res_inv H; cbn; auto.
    + res_inv H; cbn; auto.
    + res_inv H; cbn; auto.
    + destruct (update_ownership (r_own s1) b1 minter act) as [o|] eqn:Eu; [|done].
      injection H as <- <-. cbn. destruct act; cbn in Eu; rewrite ?Eo in Eu.
      * res_inv Eu; cbn; auto.
      * destruct (o_pending (r_own s1)) as [q|]; [|done].
        destruct (N.eqb_spec q minter) as [Eq|]; [|done]. cbn in Eu.
        destruct (negb _); [|done]. injection Eu as <-. cbn. left. congruence.
      * injection Eu as <-. by right.
  - done.
  - by left.
Qed.

(** After the voting contract has created its token contract nobody can do anything with it. *)
Lemma r_calls_owner ms s b a s' : r_calls s b a ms = Ok s' ->
  (forall m, m ∈ ms -> match m with RMint _ _ _ | ROwn (OTransfer _ _) => True | _ => False end) ->
  o_owner (r_own s) = Some a -> o_owner (r_own s') = Some a.
Proof.
  revert s. induction ms as [|m ms IH]; intros s H Hm O; cbn in H; [by injection H as <-|].
  destruct (r_handle s b a m) as [[s1 subs]|] eqn:E; [|done].
  apply (IH s1 H); [intros x Hx; apply Hm; by right|].
  pose proof (Hm m (elem_of_list_here m ms)) as M. unfold r_handle in E.
  destruct (is_owner (r_own s) a) eqn:Eo; [|done].
  destruct m as [id ow w| | | | | | | | |act]; try done.
  - destruct (fits64 w); [|done]. unfold r_mint in E. res_inv E; cbn; auto.
  - destruct act; try done. cbn in E. rewrite Eo in E. cbn in E.
    destruct (negb _); [|done]. by injection E as <- <-.
Qed.
Lemma stuck voting dao b0 nfts s1 b s l :
  v_setup voting dao b0 nfts = Ok s1 -> leads r_handle b0 s1 b s l ->
  (forall pre b1 m post subs, ECall pre b1 voting m post subs ∉ l) ->
  s = s1 /\ forall pre b1 a m post subs, ECall pre b1 a m post subs ∉ l.
Proof.
  intros Hs HL NV. unfold v_setup in Hs. destruct nfts as [|x nfts]; [done|].
  pose proof (r_calls_owner _ _ _ _ _ Hs) as O. specialize (O ltac:(
    intros m [->|Hm]%elem_of_cons; [done|]; by apply elem_of_list_fmap in Hm as (y & -> & _)) eq_refl).
  clear Hs. revert NV. revert HL. apply (leads_ind r_handle (fun b s l =>
    (forall pre b1 m post subs, ECall pre b1 voting m post subs ∉ l) ->
    s = s1 /\ forall pre b1 a m post subs, ECall pre b1 a m post subs ∉ l)).
  - intros b1 s2 l1 a m s' subs IH H NV. exfalso.
    destruct IH as [-> _]. { intros p ???? Hin. eapply NV, elem_of_app. left. exact Hin. }
    pose proof (only_owner _ _ _ _ _ _ H) as O2. assert (a = voting) as -> by congruence.
    eapply NV, elem_of_app. right. left.
  - intros b1 s2 l1 y IH NV.
    destruct IH as [-> N2]. { intros p ???? Hin. eapply NV, elem_of_app. left. exact Hin. }
    split; [done|]. intros p ????? Hin. apply elem_of_app in Hin as [Hin|Hin].
    + by eapply N2.
    + by apply elem_of_list_singleton in Hin.
  - done.
  - intros _. split; [done|]. intros ?????? Hin. by apply elem_of_nil in Hin.
Qed.

(** The owner can mint, change and burn. *)
Lemma power_le_total b s a : rinv b s ->
  0 <= default 0 (smap_load (r_members s) a) <= snap_get (r_total s).
Proof.
  intros [(P1 & P2 & _) _ _ _ _ I6]. rewrite <-I6, cur_sum_msum.
  assert (forall k sn, r_members s !! k = Some sn -> 0 <= default 0 (sn_cur sn)) as Hp.
  { intros k sn E. destruct (sn_cur sn) as [n|] eqn:En; cbn; [|lia]. apply (P1 k).
    unfold smap_load, smap_snap. by rewrite E. }
  unfold smap_load, smap_snap. destruct (r_members s !! a) as [sn|] eqn:E; cbn.
  - split; [by apply (Hp a)|].
    exact (msum_ge_one (fun _ sn => default 0 (sn_cur sn)) _ a sn Hp E).
  - split; [lia|]. apply msum_nonneg. exact Hp.
Qed.
Lemma is_owner_of o a : o_owner o = Some a -> is_owner o a = true.
Proof. unfold is_owner. intros ->. apply N.eqb_refl. Qed.
Lemma save_load m a h n a' :
  smap_load (smap_save m a h n) a' = if decide (a' = a) then Some n else smap_load m a'.
Proof. exact (set_member_load m a h (Some n) a'). Qed.
Lemma mints b s l a id who w :
  rreached b s l -> o_owner (r_own s) = Some a -> r_tokens s !! id = None -> 0 <= w ->
  v_total s None + w <= U64_MAX ->
  exists s' subs, r_handle s b a (RMint id who w) = Ok (s', subs) /\
    owner_of s' id = Some who /\ v_power s' who None = v_power s who None + w /\
    (forall c, c <> who -> v_power s' c None = v_power s c None) /\
    v_total s' None = v_total s None + w.
Proof.
  intros R Ho Et Hw Hm. pose proof (rreached_inv _ _ _ R) as I.
  pose proof (power_le_total b s who I). cbn in Hm. destruct I as [(_ & P2 & _) _ _ _ _ _].
  unfold r_handle. rewrite (is_owner_of _ _ Ho). unfold fits64, r_mint, add64.
  destruct (Z.leb_spec 0 w); [|lia]. destruct (Z.leb_spec w U64_MAX); [|lia]. cbn.
  destruct (Z.leb_spec (snap_get (r_total s) + w) U64_MAX); [|lia]. cbn.
  destruct (Z.leb_spec (default 0 (smap_load (r_members s) who) + w) U64_MAX); [|lia]. cbn.
  rewrite Et. do 2 eexists. split; [reflexivity|]. split; [|split; [|split]].
  - unfold owner_of. cbn. by rewrite lookup_insert.
  - unfold v_power, q_member. cbn [r_members]. rewrite save_load.
    by rewrite decide_True.
  - intros c Hc. unfold v_power, q_member. cbn [r_members]. rewrite save_load.
    by rewrite decide_False.
  - unfold v_total, q_total_weight. cbn [r_total]. by rewrite snap_get_save.
Qed.
Lemma held_ge b s id x : rinv b s -> r_tokens s !! id = Some x ->
  ro_weight x <= held s (ro_owner x).
Proof.
  intros [(_ & _ & P3) _ _ _ _ _] Et. unfold held.
  pose proof (msum_ge_one
    (fun _ y => if decide (ro_owner y = ro_owner x) then ro_weight y else 0) (r_tokens s) id x) as H.
  cbv beta in H. rewrite decide_True in H by done. apply H; [|done].
  intros k v E. specialize (P3 _ _ E). destruct (decide _); lia.
Qed.
Lemma reweighs b s l a id x w :
  rreached b s l -> o_owner (r_own s) = Some a -> r_tokens s !! id = Some x ->
  (forall e, e ∈ l -> ~ moves (ro_owner x) e) ->
  0 <= w -> w <> ro_weight x -> v_total s None - ro_weight x + w <= U64_MAX ->
  exists s' subs, r_handle s b a (RWeight id w) = Ok (s', subs) /\
    owner_of s' id = Some (ro_owner x) /\
    v_power s' (ro_owner x) None = v_power s (ro_owner x) None - ro_weight x + w /\
    (forall c, c <> ro_owner x -> v_power s' c None = v_power s c None) /\
    v_total s' None = v_total s None - ro_weight x + w.
Proof.
  intros R Ho Et NM Hw Hne Hm. pose proof (weight_is_held _ _ _ _ R NM) as Hh.
  pose proof (rreached_inv _ _ _ R) as I. pose proof (held_ge _ _ _ _ I Et) as Hg.
  pose proof (power_le_total b s (ro_owner x) I). cbn in Hm.
  destruct I as [(_ & P2 & P3) _ _ _ _ _]. specialize (P3 _ _ Et).
  unfold v_power, q_member in Hh.
  unfold r_handle. rewrite (is_owner_of _ _ Ho). unfold fits64, r_weight, add64, sub64.
  destruct (Z.leb_spec 0 w); [|lia]. destruct (Z.leb_spec w U64_MAX); [|lia]. cbn.
  rewrite Et. cbn.
  set (o := default 0 (smap_load (r_members s) (ro_owner x))) in *.
  enough (forall n t (subs : list rsub), n = o - ro_weight x + w -> t = snap_get (r_total s) - ro_weight x + w ->
    exists s' subs0, @Ok (rstate * list rsub) (RState (r_own s) (<[id := Role (ro_owner x) w]> (r_tokens s))
        (smap_save (r_members s) (ro_owner x) (height b) n)
        (snap_save (r_total s) (height b) t) (r_hooks s), subs) = Ok (s', subs0) /\
    owner_of s' id = Some (ro_owner x) /\
    v_power s' (ro_owner x) None = v_power s (ro_owner x) None - ro_weight x + w /\
    (forall c, c <> ro_owner x -> v_power s' c None = v_power s c None) /\
    v_total s' None = v_total s None - ro_weight x + w) as Hk.
  { destruct (Z.compare_spec w (ro_weight x)) as [->|L|G]; [done| |].
    - destruct (Z.leb_spec (ro_weight x - w) o); [|lia]. cbn.
      destruct (Z.leb_spec (ro_weight x - w) (snap_get (r_total s))); [|lia]. cbn.
      apply Hk; lia.
    - destruct (Z.leb_spec (snap_get (r_total s) + (w - ro_weight x)) U64_MAX); [|lia]. cbn.
      destruct (Z.leb_spec (o + (w - ro_weight x)) U64_MAX); [|lia]. cbn.
      apply Hk; lia. }
  intros n t subs -> ->. do 2 eexists. split; [reflexivity|]. split; [|split; [|split]].
  - unfold owner_of. cbn. by rewrite lookup_insert.
  - unfold v_power, q_member. cbn [r_members]. rewrite save_load.
    by rewrite decide_True.
  - intros c Hc. unfold v_power, q_member. cbn [r_members]. rewrite save_load.
    by rewrite decide_False.
  - unfold v_total, q_total_weight. cbn [r_total]. by rewrite snap_get_save.
Qed.
Lemma burns b s l a id x :
  rreached b s l -> o_owner (r_own s) = Some a -> r_tokens s !! id = Some x ->
  (forall e, e ∈ l -> ~ moves (ro_owner x) e) -> 0 < ro_weight x ->
  exists s' subs, r_handle s b a (RBurn id) = Ok (s', subs) /\
    owner_of s' id = None /\
    v_power s' (ro_owner x) None = v_power s (ro_owner x) None - ro_weight x /\
    (forall c, c <> ro_owner x -> v_power s' c None = v_power s c None) /\
    v_total s' None = v_total s None - ro_weight x.
Proof.
  intros R Ho Et NM Hw. pose proof (weight_is_held _ _ _ _ R NM) as Hh.
  pose proof (rreached_inv _ _ _ R) as I. pose proof (held_ge _ _ _ _ I Et) as Hg.
  pose proof (power_le_total b s (ro_owner x) I) as Hp.
  unfold v_power, q_member in Hh.
  unfold r_handle. rewrite (is_owner_of _ _ Ho). unfold r_burn, sub64. rewrite Et. cbn.
  destruct (smap_load (r_members s) (ro_owner x)) as [o|] eqn:El; cbn in Hh, Hp; [|lia]. cbn.
  destruct (Z.leb_spec (ro_weight x) o); [|lia]. cbn.
  destruct (Z.leb_spec (ro_weight x) (snap_get (r_total s))); [|lia]. cbn.
  set (v := if o - ro_weight x =? 0 then None else Some (o - ro_weight x)).
  assert ((if o - ro_weight x =? 0 then smap_drop (r_members s) (ro_owner x) (height b)
    else smap_save (r_members s) (ro_owner x) (height b) (o - ro_weight x)) =
    set_member (r_members s) (ro_owner x) (height b) v) as Ev.
  { unfold v. by destruct (o - ro_weight x =? 0). }
  rewrite Ev. do 2 eexists. split; [reflexivity|]. split; [|split; [|split]].
  - unfold owner_of. cbn. by rewrite lookup_delete.
  - unfold v_power, q_member. cbn [r_members]. rewrite set_member_load, decide_True by done.
    unfold v. destruct (Z.eqb_spec (o - ro_weight x) 0); cbn; lia.
  - intros c Hc. unfold v_power, q_member. cbn [r_members].
    by rewrite set_member_load, decide_False.
  - unfold v_total, q_total_weight. cbn [r_total]. by rewrite snap_get_save.
Qed.

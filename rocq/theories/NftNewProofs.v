(** Proofs about a DAO with an NFT collection of its own. *)
From Verif Require Import Base BaseProofs Exec ExecProofs Plain PlainProofs VotingModel HooksModel
  StoreModel StoreProofs LedgerProofs ActiveModel NftModel NftSpec NftProofs NftClaims C20Proofs CollModel NftNewModel NftNewSpec.

(** ** The collection *)
Lemma owner_toks c id a : owner_of c id = Some a <-> exists t, q_toks c !! id = Some t /\ k_owner t = a.
Proof.
  unfold owner_of. destruct (q_toks c !! id) as [t|]; [|split; [done|by intros (t & ? & _)]].
  split; [intros [= <-]; eauto|]. intros (t' & [= <-] & <-). done.
Qed.
Lemma elem_kept a c id : id ∈ kept a c <-> owner_of c id = Some a.
Proof.
  unfold kept. rewrite elem_of_dom, owner_toks. split.
  - intros [t Ht]. apply map_filter_lookup_Some in Ht as [? ?]. eauto.
  - intros (t & ? & ?). exists t. by apply map_filter_lookup_Some.
Qed.
Definition moved (m : cmsg) (c : coll) (id : N) : option addr :=
  match m with
  | CMint i o => if decide (i = id) then Some o else owner_of c id
  | CTransfer i o | CSend i o => if decide (i = id) then Some o else owner_of c id
  | CBurn i => if decide (i = id) then None else owner_of c id
  | _ => owner_of c id
  end.
Lemma owner_insert c i t id :
  owner_of (with_toks c (<[i := t]> (q_toks c))) id = if decide (i = id) then Some (k_owner t) else owner_of c id.
Proof.
  unfold owner_of. cbn. destruct (decide (i = id)) as [->|]; [by rewrite lookup_insert|by rewrite lookup_insert_ne].
Qed.
Lemma c_effect c b a m c' : c_handle c b a m = Ok c' -> forall id, owner_of c' id = moved m c id.
Proof.
  intros H id. destruct m; cbn [c_handle moved] in *; unfold c_move, c_approvals in H.
  - destruct (is_owner _ _); [|done]. destruct (q_toks c !! id0) eqn:E; [done|]. injection H as <-. apply owner_insert.
  - destruct (q_toks c !! id0) as [t|] eqn:E; [|done]. destruct (can_send _ _ _ _); [|done]. injection H as <-. apply owner_insert.
  - destruct (q_toks c !! id0) as [t|] eqn:E; [|done]. destruct (can_send _ _ _ _); [|done]. injection H as <-. apply owner_insert.
  - destruct (q_toks c !! id0) as [t|] eqn:E; [|done]. destruct (can_approve _ _ _ _); [|done].
    destruct (is_expired _ _); [done|]. injection H as <-. rewrite owner_insert. cbn.
    destruct (decide _) as [->|]; [|done]. unfold owner_of. by rewrite E.
  - destruct (q_toks c !! id0) as [t|] eqn:E; [|done]. destruct (can_approve _ _ _ _); [|done].
    injection H as <-. rewrite owner_insert. cbn.
    destruct (decide _) as [->|]; [|done]. unfold owner_of. by rewrite E.
  - destruct (is_expired _ _); [done|]. by injection H as <-.
  - by injection H as <-.
  - destruct (q_toks c !! id0) as [t|] eqn:E; [|done]. destruct (can_send _ _ _ _); [|done]. injection H as <-.
    unfold owner_of. cbn. destruct (decide _) as [->|]; [by rewrite lookup_delete|by rewrite lookup_delete_ne].
  - destruct (update_ownership _ _ _ _); [|done]. by injection H as <-.
Qed.
(** Nobody else may move the tokens of [x]. *)
Record guarded (x : addr) (c : coll) : Prop := Guard {
  gu_appr : forall id t, q_toks c !! id = Some t -> k_owner t = x -> k_appr t = [];
  gu_ops : forall a, q_ops c !! (x, a) = None }.
Lemma guard_new x m : guarded x (coll_new m).
Proof. split; cbn; intros; [by rewrite lookup_empty in *|apply lookup_empty]. Qed.
Lemma guard_send x c b t a id : guarded x c -> q_toks c !! id = Some t -> k_owner t = x -> can_send c b t a = true -> a = x.
Proof.
  intros [G1 G2] Ht Ho H. unfold can_send, operator in H. rewrite (G1 _ _ Ht Ho), Ho, G2 in H. cbn in H.
  rewrite !orb_false_r in H. by apply N.eqb_eq in H.
Qed.
Lemma guard_approve x c b t a : guarded x c -> k_owner t = x -> can_approve c b t a = true -> a = x.
Proof.
  intros [G1 G2] Ho H. unfold can_approve, operator in H. rewrite Ho, G2 in H.
  rewrite orb_false_r in H. by apply N.eqb_eq in H.
Qed.
Definition harmless (x a : addr) (m : cmsg) : Prop :=
  a <> x \/ match m with CApprove _ _ _ | CRevoke _ _ | CApproveAll _ _ => False | _ => True end.
Lemma guard_step x c b a m c' : guarded x c -> harmless x a m -> c_handle c b a m = Ok c' -> guarded x c'.
Proof.
  intros G Ha H.
  assert (forall i t, (k_owner t = x -> k_appr t = []) -> guarded x (with_toks c (<[i := t]> (q_toks c)))) as Hins.
  { intros i t Ht. split; cbn; [|apply (gu_ops _ _ G)]. intros j u. destruct (decide (i = j)) as [->|].
    - rewrite lookup_insert. by intros [= <-].
    - rewrite lookup_insert_ne by done. apply (gu_appr _ _ G). }
  destruct m; cbn [c_handle harmless] in *; unfold c_move, c_approvals in H.
  - destruct (is_owner _ _); [|done]. destruct (q_toks c !! id) eqn:E; [done|]. injection H as <-. by apply Hins.
  - destruct (q_toks c !! id) as [t|] eqn:E; [|done]. destruct (can_send _ _ _ _); [|done]. injection H as <-. by apply Hins.
  - destruct (q_toks c !! id) as [t|] eqn:E; [|done]. destruct (can_send _ _ _ _); [|done]. injection H as <-. by apply Hins.
  - destruct Ha as [Ha|[]]. destruct (q_toks c !! id) as [t|] eqn:E; [|done]. destruct (can_approve _ _ _ _) eqn:Ec; [|done].
    destruct (is_expired _ _); [done|]. injection H as <-. apply Hins. cbn. intros Ho. by apply (guard_approve _ _ _ _ _ G Ho) in Ec.
  - destruct Ha as [Ha|[]]. destruct (q_toks c !! id) as [t|] eqn:E; [|done]. destruct (can_approve _ _ _ _) eqn:Ec; [|done].
    injection H as <-. apply Hins. cbn. intros Ho. by apply (guard_approve _ _ _ _ _ G Ho) in Ec.
  - destruct Ha as [Ha|[]]. destruct (is_expired _ _); [done|]. injection H as <-. split; cbn; [apply (gu_appr _ _ G)|].
    intros y. rewrite lookup_insert_ne by congruence. apply (gu_ops _ _ G).
  - injection H as <-. split; cbn; [apply (gu_appr _ _ G)|]. intros y. rewrite lookup_delete_None. right. apply (gu_ops _ _ G).
  - destruct (q_toks c !! id) as [t|] eqn:E; [|done]. destruct (can_send _ _ _ _); [|done]. injection H as <-.
    split; cbn; [|apply (gu_ops _ _ G)]. intros j u [_ Hj]%lookup_delete_Some. exact (gu_appr _ _ G _ _ Hj).
  - destruct (update_ownership _ _ _ _); [|done]. injection H as <-. by destruct G.
Qed.
(** What others can do to tokens of [x]: give it more. *)
Lemma guard_keep x c b a m c' id :
  guarded x c -> a <> x -> c_handle c b a m = Ok c' -> owner_of c id = Some x -> owner_of c' id = Some x.
Proof.
  intros G Ha H Ho. rewrite (c_effect _ _ _ _ _ H). apply owner_toks in Ho as (t & Ht & Ho).
  assert (owner_of c id = Some x) as Ho' by (apply owner_toks; eauto).
  destruct m; cbn [moved c_handle] in *; unfold c_move in H; try done; case_decide; try done; subst id0; rewrite Ht in H.
  - by destruct (is_owner _ _).
  - destruct (can_send c b t a) eqn:E; [|done]. by apply (guard_send _ _ _ _ _ _ G Ht Ho) in E.
  - destruct (can_send c b t a) eqn:E; [|done]. by apply (guard_send _ _ _ _ _ _ G Ht Ho) in E.
  - destruct (can_send c b t a) eqn:E; [|done]. by apply (guard_send _ _ _ _ _ _ G Ht Ho) in E.
Qed.
Lemma guard_untouchable x c b id : guarded x c -> owner_of c id = Some x -> untouchable c b id.
Proof. intros G Ho a m c' Ha H. rewrite Ho. eapply guard_keep; [done| |done|done]. congruence. Qed.

(** What a token that becomes [x]'s was before. *)
Lemma gain x c b a m c' :
  guarded x c -> a <> x -> c_handle c b a m = Ok c' ->
  kept x c' = kept x c \/
  exists i, (m = CMint i x \/ m = CTransfer i x \/ m = CSend i x) /\ i ∉ kept x c /\ kept x c' = {[i]} ∪ kept x c.
Proof.
  intros G Ha H. pose proof (c_effect _ _ _ _ _ H) as E.
  assert (forall id, id ∈ kept x c -> id ∈ kept x c') as Hk.
  { intros id. rewrite !elem_kept. by apply guard_keep with (b := b) (a := a) (m := m). }
  assert (forall i o, moved m c = (fun id => if decide (i = id) then Some o else owner_of c id) ->
     (o = x -> m = CMint i x \/ m = CTransfer i x \/ m = CSend i x) ->
     kept x c' = kept x c \/ exists i, (m = CMint i x \/ m = CTransfer i x \/ m = CSend i x) /\ i ∉ kept x c /\ kept x c' = {[i]} ∪ kept x c) as Hm.
  { intros i o Em Ho. destruct (decide (o = x)) as [->|Hne].
    - destruct (decide (i ∈ kept x c)) as [Hi|Hi].
      + left. apply set_eq. intros id. split; [|apply Hk]. rewrite !elem_kept, E, Em. case_decide; [subst; by apply elem_kept in Hi|done].
      + right. exists i. split; [by apply Ho|]. split; [done|]. apply set_eq. intros id. rewrite elem_of_union, elem_of_singleton, !elem_kept, E, Em.
        case_decide; subst; [tauto|]. split; [by right|]. intros [?|?]; [congruence|done].
    - left. apply set_eq. intros id. split; [|apply Hk]. rewrite !elem_kept, E, Em. case_decide; [congruence|done]. }
  destruct m; cbn [moved] in *.
  - apply (Hm id owner); [done|]. intros ->. tauto.
  - apply (Hm id to); [done|]. intros ->. tauto.
  - apply (Hm id to); [done|]. intros ->. tauto.
  - left. apply set_eq. intros id'. by rewrite !elem_kept, E.
  - left. apply set_eq. intros id'. by rewrite !elem_kept, E.
  - left. apply set_eq. intros id'. by rewrite !elem_kept, E.
  - left. apply set_eq. intros id'. by rewrite !elem_kept, E.
  - left. apply set_eq. intros id'. split; [|apply Hk]. rewrite !elem_kept, E. by case_decide.
  - left. apply set_eq. intros id'. by rewrite !elem_kept, E.
Qed.

(** ** Paying out *)
Global Instance nsub_eq_dec : EqDecision nsub.
Proof. solve_decision. Defined.
Lemma pay_hooks1 md c b who id hs : pay_out md c b (map (fun h => NStakeHook h who id) hs) = Ok c.
Proof. induction hs; done. Qed.
Lemma pay_hooks2 md c b who ids hs : pay_out md c b (map (fun h => NUnstakeHook h who ids) hs) = Ok c.
Proof. induction hs; done. Qed.
Lemma pay_app md c b l l' c' :
  pay_out md c b (l ++ l') = Ok c' <-> exists c1, pay_out md c b l = Ok c1 /\ pay_out md c1 b l' = Ok c'.
Proof.
  revert c. induction l as [|[to i|? ? ?|? ? ?] l IH]; intros c; cbn [app pay_out].
  - split; [eauto|]. by intros (? & [= <-] & ?).
  - destruct (c_handle _ _ _ _); [apply IH|]. split; [done|]. by intros (? & ? & ?).
  - apply IH.
  - apply IH.
Qed.
Lemma pay_leave md c b a ids h : a <> md ->
  n_leave (kept md c) ids = Ok h ->
  exists c', pay_out md c b (map (NPay a) ids) = Ok c' /\ kept md c' = h /\ (guarded md c -> guarded md c') /\
    q_own c' = q_own c /\
    (forall id, owner_of c' id = if decide (id ∈ ids) then Some a else owner_of c id).
Proof.
  intros Ha. revert c. induction ids as [|i ids IH]; intros c H; cbn [n_leave map pay_out] in *.
  - injection H as <-. exists c. do 4 (split; [done|]). intros id. rewrite decide_False by apply not_elem_of_nil. done.
  - destruct (bool_decide (i ∈ kept md c)) eqn:E; [|done]. apply bool_decide_eq_true in E.
    apply elem_kept in E as Ho. apply owner_toks in Ho as (t & Ht & Ho).
    assert (c_handle c b md (CTransfer i a) = Ok (with_toks c (<[i := Tok a []]> (q_toks c)))) as Hc.
    { cbn. unfold c_move. rewrite Ht. unfold can_send. rewrite Ho, N.eqb_refl. done. }
    set (c1 := with_toks c (<[i := Tok a []]> (q_toks c))) in *. rewrite Hc.
    assert (kept md c1 = kept md c ∖ {[i]}) as Ek.
    { apply set_eq. intros id. rewrite elem_of_difference, elem_of_singleton, !elem_kept, (c_effect _ _ _ _ _ Hc). cbn.
      case_decide; [subst; split; [congruence|tauto]|]. split; [by split|by intros []]. }
    rewrite <-Ek in H. destruct (IH _ H) as (c' & E1 & E2 & E3 & E4 & E5). exists c'. split; [done|]. split; [done|].
    split; [|split; [done|]].
    + intros G. apply E3. eapply guard_step; [done| |exact Hc]. by right.
    + intros id. rewrite E5, (c_effect _ _ _ _ _ Hc). cbn [moved].
      destruct (decide (id ∈ ids)) as [Hi|Hi], (decide (i = id)) as [Hj|Hj], (decide (id ∈ i :: ids)) as [Hx|Hx]; try done.
      * destruct Hx. by right.
      * destruct Hx. by right.
      * destruct Hx. subst. by left.
      * apply elem_of_cons in Hx as [?|?]; congruence.
Qed.

Lemma holding_id n : holding n (n_held n) = n.
Proof. by destruct n. Qed.
Lemma n_ids n b a m n' subs : n_handle n b a m = Ok (n', subs) -> n_dao n' = n_dao n /\ n_nft n' = n_nft n.
Proof.
  intros H. destruct m as [from id|ids| |d|h|h|t sup|id].
  - apply nstake_step in H as (_ & _ & _ & _ & _ & -> & _). done.
  - apply nunstake_step in H. intuition.
  - apply nclaim_step in H as (_ & _ & -> & _). done.
  - apply nquiet_step in H; [|done]. intuition.
  - apply nquiet_step in H; [|done]. intuition.
  - apply nquiet_step in H; [|done]. intuition.
  - apply nquiet_step in H; [|done]. intuition.
  - apply ndeposit_step in H as (_ & _ & _ & ->). done.
Qed.
Lemma elem_pay a id ids : NPay a id ∈ map (NPay a) ids <-> id ∈ ids.
Proof. rewrite elem_of_list_fmap. split; [by intros (x & [= ->] & ?)|eauto]. Qed.
Lemma nft_pays md c b n a m n' subs :
  n_held n = kept md c -> a <> md -> plain c m = true -> n_handle n b a m = Ok (n', subs) ->
  exists c', pay_out md c b subs = Ok c' /\ kept md c' = n_held n' /\ (guarded md c -> guarded md c') /\
    q_own c' = q_own c /\
    forall id, (NPay a id ∈ subs -> owner_of c' id = Some a) /\ (NPay a id ∉ subs -> owner_of c' id = owner_of c id).
Proof.
  intros Hk Ha Hp H.
  assert (forall subs, pay_out md c b subs = Ok c -> (forall id, NPay a id ∉ subs) -> n_held n' = n_held n ->
    exists c', pay_out md c b subs = Ok c' /\ kept md c' = n_held n' /\ (guarded md c -> guarded md c') /\
    q_own c' = q_own c /\
    forall id, (NPay a id ∈ subs -> owner_of c' id = Some a) /\ (NPay a id ∉ subs -> owner_of c' id = owner_of c id)) as Hn.
  { intros xs E1 E2 E3. exists c. split; [done|]. split; [congruence|]. do 2 (split; [done|]).
    intros id. split; [by intros ?%E2|done]. }
  destruct m as [from id|ids| |d|h|h|t sup|id]; try done.
  - apply nunstake_step in H as (_ & _ & _ & _ & _ & _ & _ & _ & _ & _ & _ & [(_ & Hl & _ & ->)|(d & _ & _ & E & _ & ->)]).
    + rewrite Hk in Hl. destruct (pay_leave md c b a ids _ Ha Hl) as (c' & E1 & E2 & E3 & E4 & E5). exists c'.
      split; [apply pay_app; exists c'; split; [done|apply pay_hooks2]|]. do 3 (split; [done|]).
      intros id. rewrite elem_of_app, elem_pay, E5. split.
      * intros [?|(? & ? & _)%elem_of_list_fmap]; [by rewrite decide_True|done].
      * intros Hx. rewrite decide_False; [done|]. tauto.
    + apply Hn; [apply pay_hooks2| |done]. intros id (? & ? & _)%elem_of_list_fmap. done.
  - apply nclaim_step in H as (_ & Hl & _ & ->). rewrite Hk in Hl.
    destruct (pay_leave md c b a _ _ Ha Hl) as (c' & E1 & E2 & E3 & E4 & E5). exists c'.
    rewrite map_map in E1. split; [done|]. do 3 (split; [done|]). intros id.
    assert (forall l, NPay a id ∈ map (fun c => NPay a (nc_id c)) l <-> id ∈ map nc_id l) as Hx.
    { intros l. rewrite !elem_of_list_fmap. split; [intros (x & [= ->] & ?); eauto|intros (x & -> & ?); eauto]. }
    rewrite Hx, E5. split; intros; [by rewrite decide_True|by rewrite decide_False].
  - apply nquiet_step in H as (_ & _ & _ & _ & _ & E & _ & _ & ->); [|done]. apply Hn; [done| |done]. intros. apply not_elem_of_nil.
  - apply nquiet_step in H as (_ & _ & _ & _ & _ & E & _ & _ & ->); [|done]. apply Hn; [done| |done]. intros. apply not_elem_of_nil.
  - apply nquiet_step in H as (_ & _ & _ & _ & _ & E & _ & _ & ->); [|done]. apply Hn; [done| |done]. intros. apply not_elem_of_nil.
  - apply nquiet_step in H as (_ & _ & _ & _ & _ & E & _ & _ & ->); [|done]. apply Hn; [done| |done]. intros. apply not_elem_of_nil.
Qed.

Lemma nreached_step b n l a m n' subs :
  nreached b n l -> n_handle n b a m = Ok (n', subs) -> exists l', nreached b n' l'.
Proof.
  intros (b0 & dao & nft & src & d & thr & s0 & A & B & C & HL) H.
  destruct (leads_step _ _ _ _ _ _ _ _ _ _ HL H) as [l' HL']. exists l', b0, dao, nft, src, d, thr, s0. done.
Qed.

(** ** The invariant *)
Record pinv (md dao nft : addr) (b : block) (s : pstate) : Prop := PInv {
  pv_n : exists l, nreached b (p_n s) l;
  pv_held : n_held (p_n s) = kept md (p_c s);
  pv_guard : guarded md (p_c s);
  pv_dao : n_dao (p_n s) = dao;
  pv_nft : n_nft (p_n s) = nft }.
Lemma pinv_time md dao nft b b' s : pinv md dao nft b s -> block_le b b' -> pinv md dao nft b' s.
Proof. intros [[l H] ? ? ? ?] Hb. split; try done. exists l. destruct H as (b0 & d0 & n0 & src & d & thr & s0 & A & B & C & HL).
  exists b0, d0, n0, src, d, thr, s0. do 3 (split; [done|]). by eapply leads_later. Qed.

(** A call of the collection by somebody else, or a mint. *)
Lemma coll_step md dao nft b s a m s' subs :
  pinv md dao nft b s -> a <> md \/ (exists i o, m = CMint i o) -> p_coll md s b a m = Ok (s', subs) ->
  pinv md dao nft b s' /\ c_handle (p_c s) b a m = Ok (p_c s') /\ (forall x i, NPay x i ∉ subs) /\
  (forall id, owner_of (p_c s) id = Some md -> owner_of (p_c s') id = Some md) /\
  ((exists id, m = CSend id md /\ id ∉ kept md (p_c s) /\ n_handle (p_n s) b nft (NReceive a id) = Ok (p_n s', subs)) \/
   (n_staked (p_n s') = n_staked (p_n s) /\ n_claims (p_n s') = n_claims (p_n s) /\
    n_bals (p_n s') = n_bals (p_n s) /\ n_total (p_n s') = n_total (p_n s) /\ n_thr (p_n s') = n_thr (p_n s) /\ n_dur (p_n s') = n_dur (p_n s))).
Proof.
  intros HI Ha H. unfold p_coll in H. destruct (c_handle (p_c s) b a m) as [c'|] eqn:Ec; [|done].
  destruct HI as [[ln HR] Hh G Hd Hf].
  assert (guarded md c') as G'.
  { eapply guard_step; [done| |done]. destruct Ha as [?|(i & o & ->)]; [by left|by right]. }
  assert (kept md c' = kept md (p_c s) \/
    exists i, (m = CMint i md \/ m = CTransfer i md \/ m = CSend i md) /\ i ∉ kept md (p_c s) /\ kept md c' = {[i]} ∪ kept md (p_c s)) as Hg.
  { destruct (decide (a = md)) as [->|Hne]; [|by apply (gain md _ b a m)].
    destruct Ha as [?|(i & o & ->)]; [done|]. pose proof (c_effect _ _ _ _ _ Ec) as E. cbn [moved] in E.
    assert (owner_of (p_c s) i = None) as Hi.
    { cbn in Ec. destruct (is_owner _ _); [|done]. unfold owner_of. by destruct (q_toks (p_c s) !! i). }
    destruct (decide (o = md)) as [->|].
    - right. exists i. split; [by left|]. split; [rewrite elem_kept; congruence|]. apply set_eq. intros id.
      rewrite elem_of_union, elem_of_singleton, !elem_kept, E. case_decide; subst; [tauto|]. split; [by right|]. intros [?|?]; congruence.
    - left. apply set_eq. intros id. rewrite !elem_kept, E. case_decide; subst; [|done]. split; congruence. }
  assert (forall id, owner_of (p_c s) id = Some md -> owner_of c' id = Some md) as Hk.
  { intros id. rewrite <-!elem_kept. destruct Hg as [->|(i & _ & _ & ->)]; [done|]. set_solver. }
  assert (forall n1 l1, nreached b n1 l1 -> n_held n1 = kept md c' -> n_dao n1 = dao -> n_nft n1 = nft -> pinv md dao nft b (PS n1 c')) as Hmk.
  { intros. split; cbn; eauto. }
  assert (forall i, i ∉ kept md (p_c s) -> kept md c' = {[i]} ∪ kept md (p_c s) ->
    n_handle (p_n s) b a (NDeposit i) = Ok (holding (p_n s) (kept md c'), [])) as Hdep.
  { intros i Hi Hi'. cbn. unfold n_arrive. rewrite Hh, bool_decide_eq_false_2 by done. cbn. by rewrite Hi'. }
  assert ((exists id, m = CSend id md) \/ s' = PS (holding (p_n s) (kept md c')) c' /\ subs = []) as Hm.
  { destruct m; try (right; by injection H as <- <-). destruct (N.eqb_spec to md) as [->|]; [left; eauto|right; by injection H as <- <-]. }
  destruct Hm as [[id ->]|[-> ->]].
  - rewrite N.eqb_refl in H. destruct Ha as [Ha|(? & ? & ?)]; [|done].
    assert (id ∉ kept md (p_c s)) as Hid.
    { rewrite elem_kept, owner_toks. intros (t & Ht & Ho). cbn in Ec. unfold c_move in Ec. rewrite Ht in Ec.
      destruct (can_send _ _ _ _) eqn:Es; [|done]. by apply (guard_send _ _ _ _ _ _ G Ht Ho) in Es. }
    assert (id ∈ kept md c') as Hid'.
    { apply elem_kept. rewrite (c_effect _ _ _ _ _ Ec). cbn. by rewrite decide_True. }
    assert (kept md c' = {[id]} ∪ kept md (p_c s)) as Ek.
    { destruct Hg as [E|(i & _ & Hi & E)]; [by rewrite E in Hid'|]. rewrite E in Hid' |- *. set_solver. }
    assert (kept md c' ∖ {[id]} = n_held (p_n s)) as Ed by (rewrite Ek, Hh; set_solver).
    rewrite Ed, holding_id in H. destruct (n_handle _ _ _ _) as [[n' xs]|] eqn:En; [|done]. injection H as <- <-.
    assert (n_held n' = kept md c') as Eh.
    { pose proof En as En'. cbn in En'. unfold n_stake in En'. rewrite N.eqb_refl in En'. unfold n_arrive in En'.
      rewrite bool_decide_eq_false_2 in En' by (by rewrite Hh). cbn [negb] in En'. destruct (register_staked _ _ _ _); [|done].
      injection En' as <- _. cbn. by rewrite Hh, Ek. }
    rewrite <-Eh, holding_id, Hf in *. destruct (n_ids _ _ _ _ _ _ En) as [E1 E2].
    destruct (nreached_step _ _ _ _ _ _ _ HR En) as [l' HR'].
    split; [eapply Hmk; [exact HR'|done|congruence|congruence]|]. split; [done|]. split; [|split; [done|left; eauto]].
    apply nstake_step in En as (_ & _ & _ & _ & _ & _ & ->). intros x i (? & ? & _)%elem_of_list_fmap. done.
  - split; [|split; [done|split; [intros; apply not_elem_of_nil|split; [done|by right]]]].
    destruct Hg as [E|(i & _ & Hi & E)].
    + rewrite E, <-Hh, holding_id. eapply Hmk; [done|congruence|done|done].
    + destruct (nreached_step _ _ _ _ _ _ _ HR (Hdep i Hi E)) as [l' HR']. eapply Hmk; [exact HR'|done|done|done].
Qed.
Lemma nft_step md dao nft b s a m s' subs :
  pinv md dao nft b s -> a <> md -> p_nft md s b a m = Ok (s', subs) ->
  pinv md dao nft b s' /\ plain (p_c s) m = true /\ n_handle (p_n s) b a m = Ok (p_n s', subs) /\
  q_own (p_c s') = q_own (p_c s) /\
  forall id, (NPay a id ∈ subs -> owner_of (p_c s') id = Some a) /\ (NPay a id ∉ subs -> owner_of (p_c s') id = owner_of (p_c s) id).
Proof.
  intros [[ln HR] Hh G Hd Hf] Ha H. unfold p_nft in H. destruct (plain (p_c s) m) eqn:Ep; [|done].
  destruct (n_handle (p_n s) b a m) as [[n' xs]|] eqn:En; [|done].
  destruct (nft_pays md (p_c s) b _ _ _ _ _ Hh Ha Ep En) as (c' & E1 & E2 & E3 & E4 & E5). rewrite E1 in H. injection H as <- <-.
  rewrite E2, holding_id. destruct (n_ids _ _ _ _ _ _ En) as [F1 F2]. destruct (nreached_step _ _ _ _ _ _ _ HR En) as [l' HR'].
  split; [split; cbn; [eauto|done|auto|congruence|congruence]|]. done.
Qed.
(** The other way: what the module accepts is carried out. *)
Lemma nft_can md dao nft b s a m n' subs :
  pinv md dao nft b s -> a <> md -> a <> nft -> plain (p_c s) m = true -> n_handle (p_n s) b a m = Ok (n', subs) ->
  exists c', p_handle md s b a (PNft m) = Ok (PS n' c', subs) /\ kept md c' = n_held n' /\
    forall id, (NPay a id ∈ subs -> owner_of c' id = Some a) /\ (NPay a id ∉ subs -> owner_of c' id = owner_of (p_c s) id).
Proof.
  intros [[ln HR] Hh G Hd Hf] Ha Hn Hp H. unfold p_handle, p_nft. rewrite Hp, H, Hf.
  destruct (nft_pays md (p_c s) b _ _ _ _ _ Hh Ha Hp H) as (c' & E1 & E2 & E3 & E4 & E5). exists c'.
  destruct (N.eqb_spec a md); [done|]. destruct (N.eqb_spec a nft); [done|]. cbn [negb andb].
  rewrite E1, E2, holding_id. done.
Qed.
Lemma p_step md dao nft b s a m s' subs :
  pinv md dao nft b s -> p_handle md s b a m = Ok (s', subs) -> a <> md /\ pinv md dao nft b s'.
Proof.
  intros HI H. unfold p_handle in H. destruct (N.eqb_spec a md); [done|]. split; [done|].
  destruct (negb _ && negb _); [|done]. destruct m as [m|m].
  - by eapply nft_step in H as [? _].
  - eapply coll_step in H as [? _]; [done|done|by left].
Qed.

(** ** The set-up *)
Lemma run_mints md dao nft b s ms s' :
  pinv md dao nft b s -> only_mints ms = true -> s_run md s b ms = Ok s' -> pinv md dao nft b s'.
Proof.
  revert s. induction ms as [|x ms IH]; intros s HI Hm H; cbn in *; [by injection H as <-|].
  destruct x as [m|a m]; [|done]. destruct m; try done.
  destruct (p_coll _ _ _ _ _) as [[s1 xs]|] eqn:E; [|done].
  eapply (coll_step md dao nft) in E as [E _]; [|done|right; eauto]. by eapply IH.
Qed.
Lemma start_inv md b dao nft d thr n : fits_dur d && fits_active thr = true ->
  n_instantiate b dao nft FactoryNft d thr = Ok n -> pinv md dao nft b (PS n (coll_new md)).
Proof.
  intros [Hd Ht]%andb_true_iff H. split; cbn.
  - exists [], b, dao, nft, FactoryNft, d, thr, n. do 3 (split; [done|]). apply leads_refl, block_le_refl.
  - unfold n_instantiate in H. assert (n_held n = ∅) as -> by (res_inv H; done). symmetry. apply set_eq. intros id. rewrite elem_kept. done.
  - apply guard_new.
  - unfold n_instantiate in H. res_inv H; done.
  - unfold n_instantiate in H. res_inv H; done.
Qed.
Lemma own_step md s b a act s' subs : p_coll md s b a (COwn act) = Ok (s', subs) ->
  subs = [] /\ exists o, update_ownership (q_own (p_c s)) b a act = Ok o /\
    s' = PS (holding (p_n s) (kept md (p_c s))) (Coll o (q_toks (p_c s)) (q_ops (p_c s))).
Proof.
  unfold p_coll. cbn [c_handle]. destruct (update_ownership _ _ _ _) as [o|]; [|done]. intros [= <- <-].
  split; [done|]. exists o. split; [done|]. done.
Qed.
Lemma setup_ok created b dao md nft d thr ms s :
  new_coll created b dao md nft d thr ms = Ok s ->
  fits_dur d && fits_active thr = true /\ s_msgs ms <> [] /\
  exists n s1, n_instantiate b dao nft FactoryNft d thr = Ok n /\ s_run md (PS n (coll_new md)) b ms = Ok s1 /\
    s = PS (holding (p_n s1) (kept md (p_c s1)))
          (Coll (if created then Own (Some dao) None None else Own (Some md) (Some dao) None) (q_toks (p_c s1)) (q_ops (p_c s1))) /\
    o_owner (q_own (p_c s1)) = Some md /\
    0 < c_supply (p_c s1) /\
    match n_thr (p_n s1) with Some (ACount k) => k <> 0 /\ k <= c_supply (p_c s1) | _ => True end.
Proof.
  unfold new_coll. intros H. destruct (fits_dur d && fits_active thr) eqn:Ef; [|done]. split; [done|].
  destruct (n_instantiate _ _ _ _ _ _) as [n|] eqn:En; [|done].
  destruct (length (s_msgs ms) =? 0)%nat eqn:E0; [done|]. cbn [negb] in H. split; [by intros Hx; rewrite Hx in E0|].
  destruct (s_run _ _ _ _) as [s1|] eqn:Er; [|done].
  destruct (p_coll md s1 b md _) as [[s2 xs]|] eqn:Eo; [|done].
  apply own_step in Eo as (_ & o & Eo & Es2). cbn in Eo.
  destruct (is_owner _ _) eqn:Ei; [|done]. injection Eo as <-. subst s2. cbn [p_c p_n] in H.
  change (c_supply (Coll _ (q_toks (p_c s1)) _)) with (c_supply (p_c s1)) in H.
  destruct (c_supply (p_c s1) =? 0) eqn:Ec; [done|]. cbn [negb] in H. apply Z.eqb_neq in Ec.
  assert (0 <= c_supply (p_c s1)) by (unfold c_supply; lia).
  unfold is_owner in Ei. destruct (o_owner (q_own (p_c s1))) as [y|] eqn:Ey; [|done]. apply N.eqb_eq in Ei. subst y.
  exists n, s1. do 2 (split; [done|]). cbn [n_thr holding] in H.
  assert (match n_thr (p_n s1) with Some (ACount k) => k <> 0 /\ k <= c_supply (p_c s1) | _ => True end /\
    (if created then do! ' (s, _) <- p_coll md {| p_n := holding (p_n s1) (kept md (p_c s1));
           p_c := Coll (Own (Some md) (Some dao) None) (q_toks (p_c s1)) (q_ops (p_c s1)) |} b dao (COwn OAccept); Ok s
     else Ok {| p_n := holding (p_n s1) (kept md (p_c s1));
           p_c := Coll (Own (Some md) (Some dao) None) (q_toks (p_c s1)) (q_ops (p_c s1)) |}) = Ok s) as [Ht H'].
  { destruct (n_thr (p_n s1)) as [[k|k]|]; [|by split|by split]. unfold assert_valid_absolute_count in H.
    destruct (k =? 0) eqn:Ek; [done|]. destruct (k <=? _) eqn:El; [|done]. cbn [negb] in H.
    apply Z.eqb_neq in Ek. apply Z.leb_le in El. split; [by split|done]. }
  split; [|split; [done|split; [lia|done]]]. destruct created.
  - destruct (p_coll _ _ _ _ _) as [[s3 ys]|] eqn:Ea; [|done]. injection H' as <-. apply own_step in Ea as (_ & o & Eo & ->).
    cbn in Eo. rewrite N.eqb_refl in Eo. injection Eo as <-. cbn. done.
  - by injection H' as <-.
Qed.
Lemma setup_inv created b dao md nft d thr ms s :
  new_coll created b dao md nft d thr ms = Ok s -> only_mints ms = true -> pinv md dao nft b s.
Proof.
  intros H Hm. apply setup_ok in H as (Hf & _ & n & s1 & Hn & Hr & -> & _).
  pose proof (run_mints _ _ _ _ _ _ _ (start_inv md _ _ _ _ _ _ Hf Hn) Hm Hr) as [A B C D E].
  rewrite <-B, holding_id. split; cbn; [done|done| |done|done]. by destruct C.
Qed.
Lemma preached_inv created md dao nft ms b s l :
  preached created md dao nft ms b s l -> only_mints ms = true -> pinv md dao nft b s.
Proof.
  intros (_ & _ & _ & b0 & d & thr & s0 & H & HL) Hm.
  eapply (leads_inv (p_handle md) (pinv md dao nft)); [| |exact (setup_inv _ _ _ _ _ _ _ _ _ H Hm)|exact HL].
  - intros. by eapply p_step.
  - intros. by eapply pinv_time.
Qed.
Lemma preached_call created md dao nft ms b s l :
  preached created md dao nft ms b s l -> only_mints ms = true ->
  forall pre b1 a m post subs, ECall pre b1 a m post subs ∈ l ->
  pinv md dao nft b1 pre /\ p_handle md pre b1 a m = Ok (post, subs).
Proof.
  intros (_ & _ & _ & b0 & d & thr & s0 & H & HL) Hm pre b1 a m post subs Hin.
  destruct (leads_call (p_handle md) (pinv md dao nft)
    (fun b s a m s' subs HI H => proj2 (p_step md dao nft b s a m s' subs HI H)) (pinv_time md dao nft)
    _ _ _ _ _ (setup_inv _ _ _ _ _ _ _ _ _ H Hm) HL _ _ _ _ _ _ Hin) as (A & B & _). done.
Qed.

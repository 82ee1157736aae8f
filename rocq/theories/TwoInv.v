(** Invariants of two DAOs of which one approves the proposals of the other, continued. *)
From stdpp Require Import gmap strings.
From Verif Require Import Base BaseProofs Exec ExecProofs VotingModel VotingSpec VotingProofs
  HooksModel SingleModel SingleSpec SingleProofs SingleLife SingleTally SingleFinal PreModel PreSpec
  PreSingle PreProofs PreJoint SettleSingle ApproverModel ApproverClaims DaoProofs TwoModel TwoSpec
  TwoProofs.

Definition it_hook (P : addr) (i : Z) (x : titem) : Z :=
  match x with TJ y => is_hook P i y | _ => 0 end.
Definition it_dec (sid i : Z) (x : titem) : Z :=
  match x with
  | TV (AFromSingle y) => sub_completed sid y
  | TV (AFromAppr (VSApprove k)) | TV (AFromAppr (VSReject k)) => if k =? i then 1 else 0
  | _ => 0
  end.
Definition owned (v : ajstate) (i : Z) : Z :=
  match v_by_pre (aj_v v) !! i with Some _ => 1 | None => 0 end.
Definition decided (j : jstate) (i : Z) : Z :=
  match q_completed (j_q j) !! i with Some _ => 1 | None => 0 end.

Lemma it_hook_TJ P i l : lsum (it_hook P i) (map TJ l) = lsum (is_hook P i) l.
Proof. induction l as [|x l IH]; cbn [map lsum it_hook]; [done|]. by rewrite IH. Qed.
Lemma it_hook_TV P i l : lsum (it_hook P i) (map TV l) = 0.
Proof. induction l as [|x l IH]; cbn [map lsum it_hook]; [done|]. by rewrite IH. Qed.
Lemma it_dec_TJ sid i l : lsum (it_dec sid i) (map TJ l) = 0.
Proof. induction l as [|x l IH]; cbn [map lsum it_dec]; [done|]. by rewrite IH. Qed.
Lemma it_dec_single sid i l :
  lsum (it_dec sid i) (map TV (map AFromSingle l)) = lsum (sub_completed sid) l.
Proof. induction l as [|x l IH]; cbn [map lsum it_dec]; [done|]. by rewrite IH. Qed.
Lemma it_dec_appr sid i ys : (forall y k, y ∈ ys -> y <> VSApprove k /\ y <> VSReject k) ->
  lsum (it_dec sid i) (map TV (map AFromAppr ys)) = 0.
Proof.
  intros H. induction ys as [|y ys IH]; cbn [map lsum]; [done|]. rewrite IH.
  - assert (forall k, y <> VSApprove k /\ y <> VSReject k) as Hy by (intros k; apply H; left).
    destruct y as [| |k|k| |]; cbn; try done; destruct (Hy k); done.
  - intros z k Hz. apply H. by right.
Qed.
Lemma is_hook_nonneg P i x : 0 <= is_hook P i x.
Proof. destruct x as [|[|? []| |]]; cbn; try lia. destruct (decide _); lia. Qed.
Lemma it_hook_nonneg P i l : 0 <= lsum (it_hook P i) l.
Proof. apply lsum_nonneg. intros [x|x|x|x] _; cbn; try lia. apply is_hook_nonneg. Qed.
Lemma it_dec_nonneg sid i l : 0 <= lsum (it_dec sid i) l.
Proof.
  apply lsum_nonneg. intros [x|x|[x|y]|x] _; cbn; try lia.
  - destruct x; cbn; try lia. destruct (_ =? _); lia.
  - destruct y; try lia; destruct (_ =? _); lia.
Qed.
Lemma owned_range v i : 0 <= owned v i <= 1.
Proof. unfold owned. destruct (_ !! _); lia. Qed.
Lemma in_TJ x l rest : TJ x ∈ map TJ l ++ rest -> x ∈ l \/ TJ x ∈ rest.
Proof.
  rewrite elem_of_app. intros [H|H]; [|by right]. left.
  apply elem_of_list_fmap in H as (y & E & Hy). by injection E as ->.
Qed.
Lemma in_TV x l rest : TV x ∈ map TV l ++ rest -> x ∈ l \/ TV x ∈ rest.
Proof.
  rewrite elem_of_app. intros [H|H]; [|by right]. left.
  apply elem_of_list_fmap in H as (y & E & Hy). by injection E as ->.
Qed.
Lemma not_in_map {B} (f : B -> titem) x (l : list B) rest :
  (forall y, f y <> x) -> x ∈ map f l ++ rest -> x ∈ rest.
Proof.
  intros Hf. rewrite elem_of_app. intros [H|H]; [|done].
  apply elem_of_list_fmap in H as (y & E & Hy). by destruct (Hf y).
Qed.
Lemma in_single x (l : list sub) : AFromSingle x ∈ map AFromSingle l -> x ∈ l.
Proof. intros H. apply elem_of_list_fmap in H as (y & E & Hy). by injection E as ->. Qed.
Lemma in_single_appr x (l : list vsub) : AFromSingle x ∈ map AFromAppr l -> False.
Proof. intros H. by apply elem_of_list_fmap in H as (y & E & Hy). Qed.
Lemma in_appr y (l : list vsub) : AFromAppr y ∈ map AFromAppr l -> y ∈ l.
Proof. intros H. apply elem_of_list_fmap in H as (z & E & Hy). by injection E as ->. Qed.
Lemma in_appr_single y (l : list sub) : AFromAppr y ∈ map AFromSingle l -> False.
Proof. intros H. by apply elem_of_list_fmap in H as (z & E & Hy). Qed.

(** ** What always holds *)
Record tinv (O2 : oracle) (d A P : addr) (n0 : Z) (b : block) (j : jstate) (v : ajstate)
    (todo : list titem) : Prop := TInv {
  ti_j : jinv b j;
  ti_A : j_self j = A;
  ti_P : aj_self v = P;
  ti_appr : v_approval (aj_v v) = A;
  ti_kind : q_kind (j_q j) = Approval;
  ti_s : sinv O2 d b (aj_s v);
  ti_ids : forall sid, is_Some (v_by_prop (aj_v v) !! sid) -> 1 <= sid <= s_count (aj_s v);
  ti_pend : forall x, TJ x ∈ todo \/ TJEnd x ∈ todo -> jpend b j x;
  ti_exec : forall dd id ms c, TV (AFromSingle (SExec dd id ms c)) ∈ todo ->
    exec_ok (aj_s v) id ms /\ ms <> [];
  ti_comp : forall r id st, TV (AFromSingle (SCompleted r id st)) ∈ todo ->
    completed_at (aj_s v) id st /\ (s_policy (aj_s v) = Module P -> r = P);
  ti_inv : forall i sid, v_by_pre (aj_v v) !! i = Some sid <-> v_by_prop (aj_v v) !! sid = Some i;
  ti_nodup : NoDup (q_hooks (j_q j));
  ti_once : forall i, lsum (it_hook P i) todo + owned v i <= 1;
  ti_range : forall i, 1 <= lsum (it_hook P i) todo + owned v i -> n0 < i <= q_current (j_q j);
  ti_n0 : n0 <= q_current (j_q j);
  ti_props : forall sid i, v_by_prop (aj_v v) !! sid = Some i -> exists p,
    s_props (aj_s v) !! sid = Some p /\ p_msgs p = [] /\ p_status p <> ExecutionFailed }.

Lemma tinv_v O2 d A P n0 b j v todo s' vb ss todo' :
  tinv O2 d A P n0 b j v todo -> s2step b (aj_s v) s' ss P -> sinv O2 d b s' ->
  v_by_prop vb = v_by_prop (aj_v v) -> v_by_pre vb = v_by_pre (aj_v v) ->
  v_approval vb = v_approval (aj_v v) ->
  (forall x, TJ x ∈ todo' \/ TJEnd x ∈ todo' -> TJ x ∈ todo \/ TJEnd x ∈ todo) ->
  (forall y, TV (AFromSingle y) ∈ todo' -> y ∈ ss \/ TV (AFromSingle y) ∈ todo) ->
  (forall i, lsum (it_hook P i) todo' = lsum (it_hook P i) todo) ->
  tinv O2 d A P n0 b j (AJState (aj_self v) s' vb) todo'.
Proof.
  intros [] HS Hs E1 E2 E3 HJ HV Hc. split; cbn; rewrite ?E1, ?E2, ?E3; try done.
  - intros sid Hsid. apply ti_ids0 in Hsid. pose proof (st_count _ _ _ _ _ HS). lia.
  - intros x Hx. apply ti_pend0. by apply HJ.
  - intros dd id ms c Hx. destruct (HV _ Hx) as [Hx'|Hx'].
    + by eapply st_execs.
    + destruct (ti_exec0 _ _ _ _ Hx') as [H1 H2]. split; [|done]. by eapply st_exec.
  - intros r id st Hx. destruct (HV _ Hx) as [Hx'|Hx'].
    + by eapply st_comps.
    + destruct (ti_comp0 _ _ _ Hx') as [H1 H2]. split; [by eapply st_comp|].
      intros Hp. apply H2. by eapply st_policy.
  - intros i. unfold owned. cbn. rewrite E2, Hc. apply ti_once0.
  - intros i. unfold owned. cbn. rewrite E2, Hc. apply ti_range0.
  - intros sid i Hi. destruct (ti_props0 sid i Hi) as (p & Hp & Em & En).
    destruct (st_msgs _ _ _ _ _ HS sid p Hp) as (p' & Hp' & E). exists p'.
    split; [done|]. split; [congruence|]. intros Ef.
    destruct (st_failed _ _ _ _ _ HS sid p Hp Em) as (p1 & Hp1 & ?); [by exists p'|]. congruence.
Qed.
Lemma tinv_j O2 d A P n0 b j v todo j' todo' :
  tinv O2 d A P n0 b j v todo -> jinv b j' -> jle j j' ->
  NoDup (q_hooks (j_q j')) ->
  (forall x, TJ x ∈ todo' \/ TJEnd x ∈ todo' -> jpend b j' x \/ TJ x ∈ todo \/ TJEnd x ∈ todo) ->
  (forall y, TV (AFromSingle y) ∈ todo' -> TV (AFromSingle y) ∈ todo) ->
  (forall i, lsum (it_hook P i) todo' = lsum (it_hook P i) todo \/
     (lsum (it_hook P i) todo' <= lsum (it_hook P i) todo + 1 /\
      q_current (j_q j) < i <= q_current (j_q j'))) ->
  tinv O2 d A P n0 b j' v todo'.
Proof.
  intros [] HI HL HN HJ HV Hc. split; try done.
  - by rewrite (jl_self _ _ HL).
  - by rewrite (ql_kind _ _ (jl_q _ _ HL)).
  - intros x Hx. destruct (HJ x Hx) as [H|H]; [done|].
    eapply jpend_mono; [by destruct HI|done|by apply ti_pend0].
  - intros dd id ms c Hx. eapply ti_exec0. by apply HV.
  - intros r id st Hx. eapply ti_comp0. by apply HV.
  - intros i. specialize (ti_once0 i). specialize (ti_range0 i).
    pose proof (it_hook_nonneg P i todo). pose proof (owned_range v i).
    destruct (Hc i) as [->|[H1 H2]]; lia.
  - intros i Hi. specialize (ti_range0 i). pose proof (ql_current _ _ (jl_q _ _ HL)).
    destruct (Hc i) as [E|[H1 H2]]; lia.
  - pose proof (ql_current _ _ (jl_q _ _ HL)). lia.
Qed.
Lemma elem_cons_ne (x y : titem) l : x ∈ y :: l -> x <> y -> x ∈ l.
Proof. intros [->|H]%elem_of_cons Hn; done. Qed.

Lemma tinv_step O1 O2 d A P n0 b e j v todo j' v' todo' :
  sane O2 d -> tinv O2 d A P n0 b j v todo -> tstep O1 O2 A P b e j v todo j' v' todo' ->
  (forall a m, e = TAppr a (AJSingle m) -> keeps_dao d a m) ->
  tinv O2 d A P n0 b j' v' todo'.
Proof.
  intros HS HI H Hk.
  assert (forall a m j' l rest, jhandle O1 j b a m = Ok (j', l) ->
    (forall x, TJ x ∈ rest \/ TJEnd x ∈ rest -> TJ x ∈ todo \/ TJEnd x ∈ todo) ->
    (forall y, TV (AFromSingle y) ∈ rest -> TV (AFromSingle y) ∈ todo) ->
    (forall i, lsum (it_hook P i) rest = lsum (it_hook P i) todo) ->
    tinv O2 d A P n0 b j' v (map TJ l ++ rest)) as Hj.
  { intros a m j1 l rest Hc H1 H2 H3. destruct (jhandle_step _ _ _ _ _ _ _ (ti_j _ _ _ _ _ _ _ _ _ HI) Hc) as [S1 S2 S3 _ _ _ _].
    pose proof (jcall_cases _ _ _ _ _ _ _ (ti_kind _ _ _ _ _ _ _ _ _ HI) Hc) as HC.
    eapply tinv_j; [done..| | | |].
    - pose proof (ti_nodup _ _ _ _ _ _ _ _ _ HI) as HN. destruct HC as [? ? ? ? ? Hq ?|? ? ? ? ? ? ? Hq|? ? ? ? ? ? ? ? ? ? ? Hq];
        [by apply Hq|by rewrite Hq..].
    - intros x [Hx|Hx].
      + apply in_TJ in Hx as [Hx|Hx]; [left; by apply S3|right; apply H1; by left].
      + apply not_in_map in Hx; [|done]. right. apply H1. by right.
    - intros y Hy. apply not_in_map in Hy; [|done]. by apply H2.
    - intros i. rewrite lsum_app, it_hook_TJ, H3.
      destruct HC as [_ _ E Hq _ _ _|? ? _ _ E Hq _ _|? ? ? ? _ _ _ _ E Hq _ _].
      + left. rewrite Hq. lia.
      + rewrite Hq by apply HI. destruct (decide _) as [[_ <-]|_]; [right|left]; lia.
      + left. rewrite Hq. lia. }
  assert (forall a m s' ss, handle O2 (aj_s v) b a m = Ok (s', ss) -> keeps_dao d a m ->
    sinv O2 d b s' /\ s2step b (aj_s v) s' ss P) as Hh.
  { intros a m s' ss Hc Hkd. split.
    - eapply aprims_sinv; [done|apply HI|by eapply handle_aprims].
    - eapply handle_s2; [|done]. by destruct (ti_s _ _ _ _ _ _ _ _ _ HI). }
  assert (AJState (aj_self v) (aj_s v) (aj_v v) = v) as Ev by (by destruct v).
  assert (forall todo', (forall x, TJ x ∈ todo' \/ TJEnd x ∈ todo' -> TJ x ∈ todo \/ TJEnd x ∈ todo) ->
    (forall y, TV (AFromSingle y) ∈ todo' -> TV (AFromSingle y) ∈ todo) ->
    (forall i, lsum (it_hook P i) todo' = lsum (it_hook P i) todo) ->
    tinv O2 d A P n0 b j v todo') as Hsame.
  { intros td H1 H2 H3. rewrite <- Ev. eapply tinv_v; [done|apply same_s2|apply HI|done..| |done].
    intros y Hy. right. by apply H2. }
  destruct H as [a m j' l todo -> Ha1 Ha2 Hc|y pm j' l rest Hy Hc|a m v' l todo -> Ha1 Ha2 Hc|
    i act fits v' l rest Hc|id st i y rest Hi Hst|x rest Hx|x rest Hx Hx2|x j' rest Hc|
    x dd j' rest Hd1 Hd2 Hc|x s' rest Hc|x dd s' rest Hd1 Hd2 Hc|y rest].
  - by eapply Hj.
  - eapply Hj; [done|..].
    + intros x [Hx|Hx]; [left|right]; by right.
    + intros z Hz. by right.
    + done.
  - apply vcall_cases in Hc as [m0 s' ss -> Hc -> ->|e0 i act fits s' ss -> Hap _ _ _|q ys -> -> H1 _ H2 H3].
    + destruct (Hh _ _ _ _ Hc) as [A1 A2]; [by apply Hk|].
      eapply tinv_v; [done..| | |].
      * intros x [Hx|Hx]; apply not_in_map in Hx; auto; done.
      * intros y Hy. apply in_TV in Hy as [Hy|Hy]; [left; by apply in_single|by right].
      * intros i. by rewrite lsum_app, it_hook_TV.
    + by rewrite (ti_appr _ _ _ _ _ _ _ _ _ HI) in Hap.
    + eapply tinv_v; [done|apply same_s2|apply HI|done..| | |].
      * intros x [Hx|Hx]; apply not_in_map in Hx; auto; done.
      * intros y Hy. apply in_TV in Hy as [Hy|Hy]; [by apply in_single_appr in Hy|by right].
      * intros i. by rewrite lsum_app, it_hook_TV.
  - pose proof HI as [].
    apply vcall_cases in Hc as [m0 s' ss ? _ _ _|e0 i' act' fits' s' ss E Hap Hc -> ->|q ys -> -> H1 _ H2 H3]; [done| |].
    2:{ by destruct (H3 env0 i act fits). }
    injection E as <- <- <- <-. destruct (Hh _ _ _ _ Hc) as [A1 A2]; [done|].
    pose proof (propose_counts _ _ _ _ _ _ _ Hc) as En.
    assert (lsum (it_hook P i) (TJ (FromPre (XHook P (HApproval i))) :: rest) =
      1 + lsum (it_hook P i) rest) as Ei.
    { cbn [lsum it_hook is_hook]. by rewrite decide_True. }
    assert (v_by_pre (aj_v v) !! i = None) as Hnone.
    { specialize (ti_once0 i). rewrite Ei in ti_once0. pose proof (it_hook_nonneg P i rest).
      unfold owned in ti_once0. destruct (_ !! i); [lia|done]. }
    assert (v_by_prop (aj_v v) !! (s_count (aj_s v) + 1) = None) as Hfree.
    { destruct (v_by_prop (aj_v v) !! (s_count (aj_s v) + 1)) as [k|] eqn:E; [|done]. specialize (ti_ids0 _ (mk_is_Some _ _ E)). lia. }
    split; cbn [j_self aj_self aj_v aj_s v_by_prop v_by_pre v_approval v_base]; try done.
    + intros sid Hsid. destruct (decide (sid = s_count (aj_s v) + 1)) as [->|Hne].
      * pose proof (wi_count _ _ (proj1 ti_s0)). lia.
      * rewrite lookup_insert_ne in Hsid by done. apply ti_ids0 in Hsid. lia.
    + intros x [Hx|Hx]; apply not_in_map in Hx; try done; apply ti_pend0; [left|right]; by right.
    + intros dd id ms c Hx. apply in_TV in Hx as [Hx|Hx].
      * apply in_single in Hx. by eapply st_execs.
      * destruct (ti_exec0 dd id ms c) as [B1 B2]; [by right|]. split; [by eapply st_exec|done].
    + intros r id st Hx. apply in_TV in Hx as [Hx|Hx].
      * apply in_single in Hx. by eapply st_comps.
      * destruct (ti_comp0 r id st) as [B1 B2]; [by right|]. split; [by eapply st_comp|].
        intros Hp. apply B2. by eapply st_policy.
    + intros k sid. destruct (decide (k = i)) as [->|Hk1].
      * rewrite lookup_insert. destruct (decide (sid = s_count (aj_s v) + 1)) as [->|Hk2].
        -- by rewrite lookup_insert.
        -- rewrite lookup_insert_ne by done. split; [congruence|].
           intros E. apply ti_inv0 in E. congruence.
      * rewrite lookup_insert_ne by done. destruct (decide (sid = s_count (aj_s v) + 1)) as [->|Hk2].
        -- rewrite lookup_insert. split; [|congruence].
           intros E. apply ti_inv0 in E. congruence.
        -- rewrite lookup_insert_ne by done. apply ti_inv0.
    + intros k. rewrite lsum_app, it_hook_TV. specialize (ti_once0 k). unfold owned in *.
      cbn [aj_v v_by_pre]. destruct (decide (k = i)) as [->|Hk1].
      * rewrite lookup_insert. rewrite Ei in ti_once0. destruct (_ !! i); lia.
      * rewrite lookup_insert_ne by done. cbn [lsum it_hook is_hook] in ti_once0.
        rewrite decide_False in ti_once0 by naive_solver. lia.
    + intros k. rewrite lsum_app, it_hook_TV. specialize (ti_range0 k). unfold owned in *.
      cbn [aj_v v_by_pre]. destruct (decide (k = i)) as [->|Hk1].
      * intros _. apply ti_range0. rewrite Ei. pose proof (it_hook_nonneg P i rest).
        destruct (_ !! i); lia.
      * rewrite lookup_insert_ne by done. cbn [lsum it_hook is_hook] in ti_range0.
        rewrite decide_False in ti_range0 by naive_solver. intros Hx. apply ti_range0. lia.
    + intros sid k Hs. apply lookup_insert_Some in Hs as [[<- <-]|[_ Hs]].
      * cbn [handle] in Hc. apply execute_propose_shape in Hc
          as (proposer & st & s1 & subs2 & _ & _ & _ & _ & Hst & -> & -> & Hv).
        cbn [pm_vote] in Hv. destruct Hv as [-> ->]. cbn [s_props]. rewrite lookup_insert.
        eexists. split; [done|]. split; [done|]. cbn [p_status new_prop]. intros ->.
        by apply ef_current in Hst.
      * destruct (ti_props0 sid k Hs) as (p & Hp & Em & En2).
        destruct (st_msgs _ _ _ _ _ A2 sid p Hp) as (p' & Hp' & E). exists p'.
        split; [done|]. split; [congruence|]. intros Ef.
        destruct (st_failed _ _ _ _ _ A2 sid p Hp Em) as (p1 & Hp1 & ?); [by exists p'|]. congruence.
  - apply Hsame.
    + intros x Hx. destruct Hx as [Hx|Hx]; [left|right]; right;
        do 2 (apply elem_cons_ne in Hx; [|done]); done.
    + intros z Hz. right. by do 2 (apply elem_cons_ne in Hz; [|done]).
    + done.
  - apply Hsame.
    + intros z [Hz|Hz].
      * left. right. by apply elem_cons_ne in Hz.
      * apply elem_of_cons in Hz as [[= ->]|Hz]; [left; left|right; by right].
    + intros z Hz. right. by apply elem_cons_ne in Hz.
    + intros i. cbn [lsum it_hook]. by rewrite Hx.
  - apply Hsame.
    + intros z [Hz|Hz]; [left|right]; right; by apply elem_cons_ne in Hz.
    + intros z Hz. right. by apply elem_cons_ne in Hz.
    + done.
  - destruct (jfail_step _ _ _ _ (ti_j _ _ _ _ _ _ _ _ _ HI)
      (ti_pend _ _ _ _ _ _ _ _ _ HI x ltac:(left; left)) Hc) as (B1 & B2 & (z & ->) & B3 & _).
    eapply tinv_j; [done..| | | |].
    + rewrite B3. apply HI.
    + intros y [Hy|Hy]; right; [left|right]; by right.
    + intros y Hy. by right.
    + intros i. by left.
  - destruct (jok_step O1 _ _ _ _ _ (ti_j _ _ _ _ _ _ _ _ _ HI)
      (ti_pend _ _ _ _ _ _ _ _ _ HI x ltac:(right; left)) Hc) as (B1 & B2 & B3 & _).
    eapply tinv_j; [done..| | | |].
    + rewrite B3. apply HI.
    + intros y [Hy|Hy]; right; [left|right]; by right.
    + intros y Hy. by right.
    + intros i. by left.
  - assert (forall dd id ms c, x = SExec dd id ms c -> exec_ok (aj_s v) id ms /\ ms <> []) as Hx.
    { intros dd id ms c ->. eapply (ti_exec _ _ _ _ _ _ _ _ _ HI). left. }
    assert (pend b (aj_s v) x) as Hp.
    { intros dd id ms c ->. destruct (Hx _ _ _ _ eq_refl) as [(p & Hp & Hd & _) _]. by exists p. }
    eapply tinv_v; [done|by eapply fail_s2| |done..| | |].
    + eapply on_fail_sinv; [apply HI|done|done].
    + intros z [Hz|Hz]; [left|right]; by right.
    + intros z Hz. right. by right.
    + done.
  - eapply tinv_v; [done|by eapply ok_s2| |done..| | |].
    + eapply aprims_sinv; [done|apply HI|]. apply rtc_once. by eapply on_ok_aprim.
    + intros z [Hz|Hz]; [left|right]; by right.
    + intros z Hz. right. by right.
    + done.
  - apply Hsame.
    + intros z [Hz|Hz]; [left|right]; by right.
    + intros z Hz. by right.
    + done.
Qed.

(** ** What holds until the approver is called back *)
Definition good_y (v : ajstate) (y : vsub) : Prop :=
  (exists x, y = VSBase x) \/
  exists i sid, v_by_prop (aj_v v) !! sid = Some i /\
    ((y = VSApprove i /\ completed_at (aj_s v) sid Executed) \/
     (y = VSReject i /\ completed_at (aj_s v) sid Closed)).
Record uinv (P : addr) (q0 : gmap Z appr) (j : jstate) (v : ajstate) (todo : list titem) : Prop := UInv {
  u_approver : q_approver (j_q j) = P;
  u_y : forall y, TV (AFromAppr y) ∈ todo -> good_y v y;
  u_done : forall i r, q_completed (j_q j) !! i = Some r -> q0 !! i = None ->
    exists sid, v_by_prop (aj_v v) !! sid = Some i /\
      match a_status r with
      | AApproved _ => completed_at (aj_s v) sid Executed
      | ARejected => completed_at (aj_s v) sid Closed
      | APending => False
      end;
  u_count : s_policy (aj_s v) = Module P -> forall sid i, v_by_prop (aj_v v) !! sid = Some i ->
    finished (aj_s v) sid = decided j i + lsum (it_dec sid i) todo }.

Lemma good_y_mono b v s' ss P vb y : s2step b (aj_s v) s' ss P ->
  (forall sid i, v_by_prop (aj_v v) !! sid = Some i -> v_by_prop vb !! sid = Some i) ->
  good_y v y -> good_y (AJState (aj_self v) s' vb) y.
Proof.
  intros HS Hb [[x ->]|(i & sid & H1 & H2)]; [left; eauto|]. right. exists i, sid. cbn.
  split; [by apply Hb|]. destruct H2 as [[-> H2]|[-> H2]]; [left|right]; split; try done; by eapply st_comp.
Qed.
Lemma u_done_mono b v s' ss P vb (r : appr) i : s2step b (aj_s v) s' ss P ->
  (forall sid i, v_by_prop (aj_v v) !! sid = Some i -> v_by_prop vb !! sid = Some i) ->
  (exists sid, v_by_prop (aj_v v) !! sid = Some i /\
      match a_status r with
      | AApproved _ => completed_at (aj_s v) sid Executed
      | ARejected => completed_at (aj_s v) sid Closed
      | APending => False
      end) ->
  exists sid, v_by_prop vb !! sid = Some i /\
      match a_status r with
      | AApproved _ => completed_at s' sid Executed
      | ARejected => completed_at s' sid Closed
      | APending => False
      end.
Proof.
  intros HS Hb (sid & H1 & H2). exists sid. split; [by apply Hb|].
  destruct (a_status r); [done|by eapply st_comp..].
Qed.
Lemma uinv_v b P q0 j v todo s' vb ss todo' :
  uinv P q0 j v todo -> s2step b (aj_s v) s' ss P ->
  v_by_prop vb = v_by_prop (aj_v v) ->
  (forall y, TV (AFromAppr y) ∈ todo' -> TV (AFromAppr y) ∈ todo \/ good_y v y) ->
  (s_policy s' = Module P -> forall sid i, v_by_prop (aj_v v) !! sid = Some i ->
     lsum (it_dec sid i) todo' = lsum (sub_completed sid) ss + lsum (it_dec sid i) todo) ->
  uinv P q0 j (AJState (aj_self v) s' vb) todo'.
Proof.
  intros [] HS E1 Hy Hc. split; cbn; [done|..].
  - intros y H. eapply good_y_mono; [done|by rewrite E1|].
    destruct (Hy y H) as [H'|H']; [by apply u_y0|done].
  - intros i r Hr H0. eapply u_done_mono; [done|by rewrite E1|by apply u_done0].
  - intros Hp sid i Hs. rewrite E1 in Hs. destruct (st_policy _ _ _ _ _ HS Hp) as [Hp0 Hf].
    rewrite (Hc Hp sid i Hs). specialize (Hf sid). rewrite (u_count0 Hp0 sid i Hs) in Hf. lia.
Qed.
Lemma uinv_j P q0 j v todo j' todo' :
  uinv P q0 j v todo -> q_approver (j_q j') = q_approver (j_q j) ->
  q_completed (j_q j') = q_completed (j_q j) ->
  (forall y, TV (AFromAppr y) ∈ todo' -> TV (AFromAppr y) ∈ todo) ->
  (forall sid i, lsum (it_dec sid i) todo' = lsum (it_dec sid i) todo) ->
  uinv P q0 j' v todo'.
Proof.
  intros [] E1 E2 Hy Hc. split; unfold decided; rewrite ?E1, ?E2; try done.
  - intros y H. by apply u_y0, Hy.
  - intros Hp sid i Hs. rewrite Hc. by apply u_count0.
Qed.

Lemma uinv_step O1 O2 d A P n0 q0 b e j v todo j' v' todo' :
  sane O2 d -> (forall i, is_Some (q0 !! i) -> i <= n0) ->
  tinv O2 d A P n0 b j v todo -> uinv P q0 j v todo -> tstep O1 O2 A P b e j v todo j' v' todo' ->
  (forall a env, e <> TAppr a (AJAppr env VReset)) ->
  uinv P q0 j' v' todo'.
Proof.
  intros HS Hq0 HI HU H He.
  assert (forall a m s' ss, handle O2 (aj_s v) b a m = Ok (s', ss) -> s2step b (aj_s v) s' ss P) as Hh.
  { intros a m s' ss Hc. eapply handle_s2; [|done]. by destruct (ti_s _ _ _ _ _ _ _ _ _ HI). }
  assert (AJState (aj_self v) (aj_s v) (aj_v v) = v) as Ev by (by destruct v).
  destruct H as [a m j' l todo -> Ha1 Ha2 Hc|y pm j' l rest Hy Hc|a m v' l todo -> Ha1 Ha2 Hc|
    i act fits v' l rest Hc|id st i y rest Hi Hst|x rest Hx|x rest Hx Hx2|x j' rest Hc|
    x dd j' rest Hd1 Hd2 Hc|x s' rest Hc|x dd s' rest Hd1 Hd2 Hc|y rest].
  - pose proof (u_approver _ _ _ _ _ HU) as Ea.
    apply (jcall_cases _ _ _ _ _ _ _ (ti_kind _ _ _ _ _ _ _ _ _ HI)) in Hc.
    eapply uinv_j; [done|..].
    + destruct Hc as [_ _ _ _ [E|[E _]] _ _|? ? _ _ _ _ E _|? ? ? ? _ _ _ _ _ _ E _]; [done|congruence|done..].
    + destruct Hc as [_ E _ _ _ _ _|? ? _ E _ _ _ _|? ? ? ? _ E _ _ _ _ _ _]; [done..|congruence].
    + intros y Hy. by apply not_in_map in Hy.
    + intros sid i. by rewrite lsum_app, it_dec_TJ.
  - apply (jcall_cases _ _ _ _ _ _ _ (ti_kind _ _ _ _ _ _ _ _ _ HI)) in Hc.
    destruct (u_y _ _ _ _ _ HU y) as [[z ->]|(i & sid & Hs & Hg)]; [left|done|].
    assert (exists p st, ((y = VSApprove i /\ exists pid, st = AApproved pid) \/ (y = VSReject i /\ st = ARejected)) /\
      q_pending (j_q j) !! i = Some p /\
      q_completed (j_q j') = <[i := resolved p st]> (q_completed (j_q j)) /\
      q_approver (j_q j') = q_approver (j_q j)) as (p & st & Hst & Hp & Ec & Ea).
    { destruct Hg as [[-> _]|[-> _]]; cbn in Hy; injection Hy as <-;
        destruct Hc as [Hm _ _ _ _ _ _|? ? ? _ _ _ _ _|e1 i1 p1 st1 Hm _ Hp1 E1 _ _ E2 _]; try done.
      - by destruct (Hm env0 i).
      - destruct Hm as [[[= <- <-] ->]|[? _]]; [|done]. exists p1, (AApproved (s_count (j_s j) + 1)). eauto 10.
      - by destruct (Hm env0 i).
      - destruct Hm as [[? _]|[[= <- <-] ->]]; [done|]. exists p1, ARejected. eauto 10. }
    clear Hc. pose proof HU as []. split.
    + by rewrite Ea.
    + intros z Hz. apply not_in_map in Hz; [|done]. apply u_y0. by right.
    + intros k r Hr H0. rewrite Ec in Hr. apply lookup_insert_Some in Hr as [[<- <-]|[_ Hr]]; [|by apply u_done0].
      exists sid. split; [done|]. cbn. destruct Hst as [[-> [pid ->]]|[-> ->]];
        destruct Hg as [[Ez Hg]|[Ez Hg]]; done.
    + intros Hpol sid' i' Hs'. rewrite lsum_app, it_dec_TJ, (u_count0 Hpol sid' i' Hs').
      assert (lsum (it_dec sid' i') (TV (AFromAppr y) :: rest) =
        (if i =? i' then 1 else 0) + lsum (it_dec sid' i') rest) as ->
        by (destruct Hst as [[-> _]|[-> _]]; done).
      unfold decided. rewrite Ec. destruct (i =? i') eqn:E.
      * apply Z.eqb_eq in E as <-. rewrite lookup_insert.
        destruct (qi_pending _ (ji_q _ _ (ti_j _ _ _ _ _ _ _ _ _ HI)) i p Hp) as (_ & _ & _ & _ & _ & ->). lia.
      * apply Z.eqb_neq in E. rewrite lookup_insert_ne by done. lia.
  - apply vcall_cases in Hc as [m0 s' ss -> Hc -> ->|e0 i act fits s' ss -> Hap _ _ _|q ys -> -> H1 _ H2 H3].
    + eapply uinv_v; [done|by eapply Hh|done|..].
      * intros y Hy. apply in_TV in Hy as [Hy|Hy]; [by apply in_appr_single in Hy|by left].
      * intros _ sid i _. by rewrite lsum_app, it_dec_single.
    + by rewrite (ti_appr _ _ _ _ _ _ _ _ _ HI) in Hap.
    + eapply (uinv_v b); [done|apply same_s2|done|..].
      * intros y Hy. apply in_TV in Hy as [Hy|Hy]; [|by left]. apply in_appr in Hy.
        right. destruct (H1 y Hy) as [?|[e0 ->]]; [by left|]. by destruct (He a e0).
      * intros _ sid i _. rewrite lsum_app, it_dec_appr; [cbn; lia|done].
  - pose proof HI as []. pose proof HU as [].
    apply vcall_cases in Hc as [m0 s' ss ? _ _ _|e0 i' act' fits' s' ss E Hap Hc -> ->|q ys -> -> H1 _ H2 H3];
      [done| |by destruct (H3 env0 i act fits)].
    injection E as <- <- <- <-. pose proof (Hh _ _ _ _ Hc) as A2.
    assert (1 <= lsum (it_hook P i) (TJ (FromPre (XHook P (HApproval i))) :: rest)) as Ei.
    { cbn [lsum it_hook is_hook]. rewrite decide_True by done. pose proof (it_hook_nonneg P i rest). lia. }
    assert (v_by_pre (aj_v v) !! i = None) as Hnone.
    { specialize (ti_once0 i). unfold owned in ti_once0. destruct (_ !! i); [lia|done]. }
    assert (forall sid, v_by_prop (aj_v v) !! sid <> Some i) as Hnone'.
    { intros sid Hsid. apply ti_inv0 in Hsid. congruence. }
    assert (v_by_prop (aj_v v) !! (s_count (aj_s v) + 1) = None) as Hfree.
    { destruct (v_by_prop (aj_v v) !! _) as [k|] eqn:E; [|done].
      specialize (ti_ids0 _ (mk_is_Some _ _ E)). lia. }
    assert (q_completed (j_q j) !! i = None) as Hnd.
    { destruct (q_completed (j_q j) !! i) as [r|] eqn:Er; [|done]. exfalso.
      destruct (q0 !! i) eqn:E0.
      - pose proof (Hq0 i (mk_is_Some _ _ E0)).
        pose proof (ti_range0 i). pose proof (owned_range v i). lia.
      - destruct (u_done0 i r Er E0) as (sid & Hsid & _). by apply (Hnone' sid). }
    assert (forall sid k, v_by_prop (aj_v v) !! sid = Some k ->
      <[s_count (aj_s v) + 1 := i]> (v_by_prop (aj_v v)) !! sid = Some k) as Hgrow.
    { intros sid k Hsid. rewrite lookup_insert_ne; [done|]. congruence. }
    split; cbn [aj_v aj_s v_by_prop].
    + done.
    + intros y Hy. apply in_TV in Hy as [Hy|Hy]; [by apply in_appr_single in Hy|].
      refine (good_y_mono b v s' ss P (VState _ _ _ _) y A2 Hgrow _). apply u_y0. by right.
    + intros k r Hr H0. refine (u_done_mono b v s' ss P (VState (v_base (aj_v v)) (v_approval (aj_v v)) _ (v_by_pre (aj_v v))) r k A2 Hgrow _).
      by apply u_done0.
    + intros Hp sid k Hsid. destruct (st_policy _ _ _ _ _ A2 Hp) as [Hp0 Hf].
      rewrite lsum_app, it_dec_single. specialize (Hf sid).
      apply lookup_insert_Some in Hsid as [[<- <-]|[_ Hsid]].
      * assert (finished (aj_s v) (s_count (aj_s v) + 1) = 0) as E0.
        { unfold finished. destruct (s_props (aj_s v) !! (s_count (aj_s v) + 1)) as [p|] eqn:Ep; [|done].
          pose proof (proj1 (wi_ids _ _ (proj1 ti_s0) _) (mk_is_Some _ _ Ep)). lia. }
        unfold decided. rewrite Hnd.
        assert (lsum (it_dec (s_count (aj_s v) + 1) i) rest = 0) as ->; [|lia].
        assert (forall x, x ∈ rest -> it_dec (s_count (aj_s v) + 1) i x = 0) as Hz.
        { intros [x|x|[x|y]|x] Hx; cbn [it_dec]; try done.
          - destruct x as [| | |r id st|]; cbn; try done. destruct (id =? _) eqn:E; [|done].
            apply Z.eqb_eq in E as ->. exfalso.
            destruct (ti_comp0 r (s_count (aj_s v) + 1) st) as [(p & Hp' & _) _]; [by right|].
            pose proof (proj1 (wi_ids _ _ (proj1 ti_s0) _) (mk_is_Some _ _ Hp')). lia.
          - destruct (u_y0 y) as [[z ->]|(k & sid & Hk & Hy)]; [by right|done|].
            assert (k <> i) as Hki by (intros ->; by apply (Hnone' sid)).
            destruct Hy as [[-> _]|[-> _]]; destruct (k =? i) eqn:E; try done; lia. }
        clear -Hz. induction rest as [|x rest IH]; cbn [lsum]; [done|].
        rewrite Hz, IH; [done| |left]. intros z Hzz. apply Hz. by right.
      * specialize (u_count0 Hp0 sid k Hsid). cbn [lsum it_dec] in u_count0. lia.
  - pose proof HI as []. rewrite <- Ev. eapply (uinv_v b); [done|apply same_s2|done|..].
    + intros z [[= ->]|Hz]%elem_of_cons; [|left; right; by apply elem_cons_ne in Hz].
      right. right. exists i, id. split; [done|].
      destruct (ti_comp0 P id st) as [Hcm _]; [left|]. destruct Hst as [[-> ->]|[-> ->]]; auto.
    + intros _ sid k Hs. cbn [lsum it_dec sub_completed].
      assert (it_dec sid k (TV (AFromAppr y)) = if i =? k then 1 else 0) as E
        by (destruct Hst as [[_ ->]|[_ ->]]; done).
      cbn [it_dec] in E. rewrite E. destruct (decide (i = k)) as [->|Hn].
      * assert (id = sid) as ->. { apply ti_inv0 in Hi, Hs. congruence. }
        rewrite !Z.eqb_refl. lia.
      * assert (id <> sid) as Hn2 by congruence. apply Z.eqb_neq in Hn, Hn2. rewrite Hn, Hn2. lia.
  - eapply uinv_j; [done..| |].
    + intros z Hz. right. by apply elem_cons_ne in Hz.
    + done.
  - rewrite <- Ev. eapply (uinv_v b); [done|apply same_s2|done|..].
    + intros z Hz. left. right. by apply elem_cons_ne in Hz.
    + intros Hp sid i _. cbn [lsum]. assert (it_dec sid i (TV x) = 0) as ->; [|cbn; lia].
      destruct x as [x|y]; cbn [it_dec].
      * destruct x as [| | |r id st|]; cbn; try done.
        destruct (ti_comp _ _ _ _ _ _ _ _ _ HI r id st) as [_ E]; [left|].
        rewrite (E Hp) in Hx. by destruct (Hx id st).
      * specialize (Hx2 y eq_refl). by destruct y.
  - destruct (jfail_step _ _ _ _ (ti_j _ _ _ _ _ _ _ _ _ HI)
      (ti_pend _ _ _ _ _ _ _ _ _ HI x ltac:(left; left)) Hc) as (B1 & B2 & (z & ->) & B3 & _).
    eapply uinv_j; [done|by rewrite B3..| |].
    + intros y Hy. by right.
    + done.
  - destruct (jok_step O1 _ _ _ _ _ (ti_j _ _ _ _ _ _ _ _ _ HI)
      (ti_pend _ _ _ _ _ _ _ _ _ HI x ltac:(right; left)) Hc) as (B1 & B2 & B3 & _).
    eapply uinv_j; [done|by rewrite B3..| |].
    + intros y Hy. by right.
    + done.
  - assert (forall dd id ms c, x = SExec dd id ms c -> exec_ok (aj_s v) id ms /\ ms <> []) as Hx.
    { intros dd id ms c ->. eapply (ti_exec _ _ _ _ _ _ _ _ _ HI). left. }
    assert (pend b (aj_s v) x) as Hp.
    { intros dd id ms c ->. destruct (Hx _ _ _ _ eq_refl) as [(p & Hp & Hd & _) _]. by exists p. }
    eapply uinv_v; [done|by eapply fail_s2|done|..].
    + intros z Hz. left. by right.
    + intros Hpol sid i _. cbn [lsum it_dec].
      assert (sub_completed sid x = 0) as ->; [|lia].
      destruct x as [| | |r id st|]; try done. exfalso. cbn in Hc.
      destruct (s_policy (aj_s v)); [done|]. by injection Hc as <-.
  - eapply uinv_v; [done|by eapply ok_s2|done|..].
    + intros z Hz. left. by right.
    + done.
  - eapply uinv_j; [done..| |].
    + intros z Hz. by right.
    + done.
Qed.

(** ** What holds while the approver is among the hooks, too *)
Definition hinv (P : addr) (n0 : Z) (j : jstate) (v : ajstate) (todo : list titem) : Prop :=
  P ∈ q_hooks (j_q j) /\
  forall i, n0 < i <= q_current (j_q j) -> 1 <= lsum (it_hook P i) todo + owned v i.
Lemma hinv_step O1 O2 d A P n0 q0 b e j v todo j' v' todo' :
  tinv O2 d A P n0 b j v todo -> uinv P q0 j v todo -> hinv P n0 j v todo ->
  tstep O1 O2 A P b e j v todo j' v' todo' ->
  (forall a env, e <> TJoint a (JPre env (PRemoveHook P))) ->
  hinv P n0 j' v' todo'.
Proof.
  intros HI HU [Hin Hall] H He.
  assert (forall a m j' l rest, jhandle O1 j b a m = Ok (j', l) ->
    (forall e0, m <> JPre e0 (PRemoveHook P)) ->
    (forall i, lsum (it_hook P i) rest = lsum (it_hook P i) todo) ->
    hinv P n0 j' v (map TJ l ++ rest)) as Hj.
  { intros a m j1 l rest Hc Hm Hr.
    apply (jcall_cases _ _ _ _ _ _ _ (ti_kind _ _ _ _ _ _ _ _ _ HI)) in Hc.
    destruct Hc as [_ _ E Hl _ _ Hh|? ? _ _ E Hl _ Hh|? ? ? ? _ _ _ _ E Hl _ Hh].
    - split.
      + destruct (Hh P Hin) as [?|[e0 ->]]; [done|by destruct (Hm e0)].
      + intros i Hi. rewrite lsum_app, it_hook_TJ, Hl, Hr. apply Hall. lia.
    - split; [by rewrite Hh|]. intros i Hi. rewrite lsum_app, it_hook_TJ, Hl, Hr by apply HI.
      pose proof (owned_range v i). pose proof (it_hook_nonneg P i todo).
      destruct (decide _) as [_|Hn]; [lia|].
      assert (n0 < i <= q_current (j_q j)) as Hi'; [|specialize (Hall i Hi'); lia].
      assert (q_current (j_q j) + 1 <> i) by (intros E2; apply Hn; done). lia.
    - split; [by rewrite Hh|]. intros k Hk. rewrite lsum_app, it_hook_TJ, Hl, Hr. apply Hall. lia. }
  destruct H as [a m j' l todo -> Ha1 Ha2 Hc|y pm j' l rest Hy Hc|a m v' l todo -> Ha1 Ha2 Hc|
    i act fits v' l rest Hc|id st i y rest Hi Hst|x rest Hx|x rest Hx Hx2|x j' rest Hc|
    x dd j' rest Hd1 Hd2 Hc|x s' rest Hc|x dd s' rest Hd1 Hd2 Hc|y rest].
  - eapply Hj; [done| |done]. intros e0 ->. by destruct (He a e0).
  - eapply Hj; [done| |done]. intros e0 [= _ ->].
    destruct (u_y _ _ _ _ _ HU y) as [[z ->]|(i & sid & Hs & Hg)]; [left|done|].
    destruct Hg as [[-> _]|[-> _]]; done.
  - split; [done|]. intros i Hi. rewrite lsum_app, it_hook_TV. specialize (Hall i Hi).
    apply vcall_cases in Hc as [m0 s' ss -> Hc -> ->|e0 k act fits s' ss -> Hap _ _ _|q ys -> -> H1 _ H2 H3];
      [done| |done]. by rewrite (ti_appr _ _ _ _ _ _ _ _ _ HI) in Hap.
  - split; [done|]. intros k Hk. rewrite lsum_app, it_hook_TV. specialize (Hall k Hk).
    apply vcall_cases in Hc as [m0 s' ss ? _ _ _|e0 i' act' fits' s' ss E Hap Hc -> ->|q ys -> -> H1 _ H2 H3];
      [done| |by destruct (H3 env0 i act fits)].
    injection E as <- <- <- <-. unfold owned in *. cbn [aj_v v_by_pre].
    cbn [lsum it_hook is_hook] in Hall. pose proof (it_hook_nonneg P k rest).
    destruct (decide (k = i)) as [->|Hne].
    + rewrite lookup_insert. lia.
    + rewrite lookup_insert_ne by done. rewrite decide_False in Hall by naive_solver. lia.
  - split; [done|]. exact Hall.
  - split; [done|]. intros i Hi. specialize (Hall i Hi). cbn [lsum it_hook] in *. by rewrite Hx in Hall.
  - split; [done|]. exact Hall.
  - destruct (jfail_step _ _ _ _ (ti_j _ _ _ _ _ _ _ _ _ HI)
      (ti_pend _ _ _ _ _ _ _ _ _ HI x ltac:(left; left)) Hc) as (B1 & B2 & (z & ->) & B3 & _).
    unfold hinv. rewrite B3. done.
  - destruct (jok_step O1 _ _ _ _ _ (ti_j _ _ _ _ _ _ _ _ _ HI)
      (ti_pend _ _ _ _ _ _ _ _ _ HI x ltac:(right; left)) Hc) as (B1 & B2 & B3 & _).
    unfold hinv. rewrite B3. done.
  - split; [done|]. exact Hall.
  - split; [done|]. exact Hall.
  - split; [done|]. exact Hall.
Qed.

(** The claims about the cw4 voting module. *)
From Verif Require Import Base BaseProofs Exec ExecProofs Plain PlainProofs PlainMore
  StoreModel StoreProofs RolesModel RolesProofs GrpModel GrpSpec GrpProofs.

Lemma g_powers_sum b s l h accounts :
  greached b s l -> covers (fun a => gv_power s a h) accounts ->
  lsum (fun a => gv_power s a h) accounts = gv_total s h.
Proof.
  intros R C. pose proof (greached_inv _ _ _ R) as [_ _ _ I4 I5].
  rewrite (msum_covers _ (g_members s)) by
    (try exact C; intros a E; unfold gv_power, q_weight, smap_load, smap_snap; rewrite E; by destruct h).
  destruct h as [h|].
  - exact (I4 h).
  - exact I5.
Qed.

Lemma g_step_past b s a m s' subs c h : g_handle s b a m = Ok (s', subs) -> h <= height b ->
  gv_power s' c (Some h) = gv_power s c (Some h) /\ gv_total s' (Some h) = gv_total s (Some h).
Proof.
  intros H L. apply handle_gstep in H as [_ H].
  destruct H as [x|remove add ms t [_ G _] S Lm F|m hs Hm]; try done.
  unfold gv_power, gv_total, q_weight, q_total. cbn [g_members g_total].
  by rewrite G, snap_get_at_save.
Qed.
Lemma g_powers_past b s l b' s' l' a h :
  greached b s l -> leads g_handle b s b' s' l' ->
  (h <= height b -> gv_power s' a (Some h) = gv_power s a (Some h) /\
                    gv_total s' (Some h) = gv_total s (Some h)) /\
  (height b < h -> gv_power s a (Some h) = gv_power s a None /\ gv_total s (Some h) = gv_total s None).
Proof.
  intros R HL. pose proof (greached_inv _ _ _ R) as I. split.
  - intros L.
    pose (Q := fun (x y : gstate) => gv_power y a (Some h) = gv_power x a (Some h) /\
      gv_total y (Some h) = gv_total x (Some h)).
    change (Q s s').
    refine (leads_rel_from g_handle ginv ginv_step ginv_time Q b s b' s' l' _ _ _ I HL).
    + by unfold Q.
    + unfold Q. intros x y z [-> ->] [-> ->]. done.
    + intros b1 s1 c m s2 subs Lb I1 H. eapply g_step_past; [done|]. destruct Lb. lia.
  - intros L. destruct I as [I1 I2 _ _ _]. unfold gv_power, gv_total, q_weight, q_total.
    rewrite (snap_at_now _ (height b)) by (try apply I1; lia).
    by rewrite (snap_get_at_now _ (height b)) by (try done; lia).
Qed.

Lemma g_as_last admin members b s l a :
  gborn admin members b s l ->
  q_weight s a None = weight_last members a l /\ g_admin s = admin_last admin l.
Proof.
  intros (b0 & s0 & C & HL). apply create_ok in C as (_ & A & _ & _ & _ & _ & L & _). revert HL.
  apply (leads_ind g_handle (fun b s l =>
    q_weight s a None = weight_last members a l /\ g_admin s = admin_last admin l)).
  - intros b1 s1 l1 c m s' subs [IH1 IH2] H. apply handle_gstep in H as [_ H].
    unfold weight_last, admin_last in *. rewrite !fold_left_app. cbn [fold_left].
    rewrite <-IH1, <-IH2. unfold q_weight.
    destruct H as [x|remove add ms t G S Lm F|m hs Hm]; cbn; [done| |].
    + by rewrite Lm.
    + by destruct m.
  - intros b1 s1 l1 x [IH1 IH2]. unfold weight_last, admin_last in *. rewrite !fold_left_app. done.
  - done.
  - split; [apply L|done].
Qed.
Lemma g_by_admin b s l pre b1 a m post subs :
  greached b s l -> ECall pre b1 a m post subs ∈ l -> g_admin pre = Some a /\ m <> GVoting.
Proof.
  intros (ad & ms & b0 & s0 & C & HL) Hin. apply create_ok in C as (I & _).
  destruct (leads_call g_handle ginv ginv_step ginv_time _ _ _ _ _ I HL _ _ _ _ _ _ Hin) as (_ & H & _).
  apply handle_gstep in H as [H1 H2]. split; [done|]. by destruct H2 as [| |[] ? ?].
Qed.
(** A group without admin stays as it is. *)
Lemma g_frozen b s b' s' l' :
  g_admin s = None -> leads g_handle b s b' s' l' -> s' = s.
Proof.
  intros A. enough (leads g_handle b s b' s' l' -> s' = s) by done.
  apply (leads_ind g_handle (fun _ s' _ => s' = s)); try done.
  intros b1 s1 l1 c m s2 subs -> H. apply handle_gstep in H as [H _]. congruence.
Qed.
(** A new group is the DAO's until it names another admin. *)
Lemma g_dao_only dao members b0 s0 b s l :
  gv_new dao b0 members = Ok s0 -> leads g_handle b0 s0 b s l -> keeps_admin dao l ->
  g_admin s = Some dao /\
  forall pre b1 a m post subs, ECall pre b1 a m post subs ∈ l -> a = dao.
Proof.
  intros C HL. unfold gv_new in C. destruct (weights_fit _); [|done].
  destruct members as [|x members]; [done|]. destruct (negb _); [|done].
  apply create_ok in C as (_ & A & _).
  revert HL. apply (leads_ind g_handle (fun b s l => keeps_admin dao l ->
    g_admin s = Some dao /\ forall pre b1 a m post subs, ECall pre b1 a m post subs ∈ l -> a = dao)).
  - intros b1 s1 l1 c m s' subs IH H K.
    destruct IH as [IH1 IH2].
    { intros pre bx cx y post sb Hin. eapply K, elem_of_app. left. exact Hin. }
    apply handle_gstep in H as [H1 H2]. split.
    + destruct H2 as [y|remove add ms t G S Lm F|m hs Hm]; cbn; try done.
      eapply K, elem_of_app. right. left.
    + intros pre bx cx y post sb [Hin|Hin]%elem_of_app; [eauto|].
      apply elem_of_list_singleton in Hin. injection Hin as -> -> -> -> -> ->. congruence.
  - intros b1 s1 l1 y IH K. destruct IH as [IH1 IH2].
    { intros pre bx cx z post sb Hin. eapply K, elem_of_app. left. exact Hin. }
    split; [done|]. intros pre bx cx z post sb [Hin|Hin]%elem_of_app; [eauto|].
    by apply elem_of_list_singleton in Hin.
  - done.
  - intros _. split; [done|]. by intros ? ? ? ? ? ? ?%elem_of_nil.
Qed.

(** ** Set-up *)
Lemma lsum_pos (l : list (addr * Z)) :
  (forall x, x ∈ l -> 0 <= x.2) -> lsum snd l <> 0 -> exists x, x ∈ l /\ 0 < x.2.
Proof.
  induction l as [|y l IH]; cbn; [done|]. intros P N.
  pose proof (P y (elem_of_list_here _ _)) as Py.
  destruct (Z.eq_dec y.2 0) as [E|E].
  - destruct IH as (x & Hx & Px); [intros x Hx; apply P; by right|lia|]. exists x. split; [by right|done].
  - exists y. split; [left|lia].
Qed.
Lemma lsum_nonneg (l : list (addr * Z)) : (forall x, x ∈ l -> 0 <= x.2) -> 0 <= lsum snd l.
Proof.
  induction l as [|y l IH]; cbn; [done|]. intros P.
  pose proof (P y (elem_of_list_here _ _)). assert (0 <= lsum snd l); [|lia].
  apply IH. intros x Hx. apply P. by right.
Qed.
Lemma new_ok dao b members s : gv_new dao b members = Ok s ->
  members <> [] /\ lsum snd members <> 0 /\ g_create (Some dao) members b = Ok s.
Proof.
  intros C. unfold gv_new in C. destruct (weights_fit _); [|done].
  destruct members as [|x members]; [done|].
  destruct (Z.eqb_spec (lsum snd (x :: members)) 0); [done|]. done.
Qed.
Lemma g_setup_new dao b members s :
  gv_new dao b members = Ok s ->
  g_admin s = Some dao /\ NoDup members.*1 /\
  (forall a w, (a, w) ∈ members -> gv_power s a None = w) /\
  (forall a, a ∉ members.*1 -> gv_power s a None = 0) /\
  gv_total s None = lsum snd members.
Proof.
  intros (_ & _ & C)%new_ok. apply create_ok in C as (_ & A & _ & ND & _ & T & L & _).
  split; [done|]. split; [done|]. unfold gv_power, q_weight. split; [|split; [|done]].
  - intros a w Hin. rewrite L, (given_elem _ _ w) by done. done.
  - intros a N. by rewrite L, given_notin.
Qed.
(** Every duplicate is refused, and a group without weight. *)
Lemma g_refused dao b members :
  ~ NoDup members.*1 \/ members = [] \/ (forall x, x ∈ members -> x.2 = 0) ->
  is_ok (gv_new dao b members) = false.
Proof.
  intros H. destruct (gv_new dao b members) as [s|] eqn:E; [|done]. exfalso.
  apply new_ok in E as (N & W & C). apply create_ok in C as (_ & _ & _ & ND & _).
  destruct H as [H|[H|H]]; [done|done|]. apply W. clear -H.
  induction members as [|y l IH]; cbn; [done|].
  rewrite (H y) by left. rewrite IH; [done|]. intros x Hx. apply H. by right.
Qed.
Lemma g_new_power dao b members s h :
  gv_new dao b members = Ok s -> height b < h ->
  0 < gv_total s None /\ 0 < gv_total s (Some h) /\
  exists a, 0 < gv_power s a None /\ 0 < gv_power s a (Some h).
Proof.
  intros (N & W & C)%new_ok Lh. apply create_ok in C as (I & _ & _ & ND & F & T & L & _).
  assert (forall x, x ∈ members -> 0 <= x.2) as P.
  { intros [a w] Hin. apply (given_elem _ _ _ ND) in Hin. apply weights_fit_pos in Hin; [cbn; lia|done]. }
  destruct I as [I1 I2 _ _ _]. unfold gv_total, q_total, gv_power, q_weight.
  rewrite (snap_get_at_now _ (height b)) by (try done; lia). rewrite T.
  pose proof (lsum_nonneg _ P). split; [lia|]. split; [lia|].
  destruct (lsum_pos _ P W) as ([a w] & Hin & Hw). exists a.
  rewrite (snap_at_now _ (height b)) by (try apply I1; lia).
  unfold smap_load in *. rewrite L, (given_elem _ _ w) by done. cbn in Hw |- *. lia.
Qed.
Lemma q_list_elem s a w : (a, w) ∈ q_list s <-> q_weight s a None = Some w.
Proof.
  unfold q_list, q_weight, smap_load, smap_snap. rewrite elem_of_list_omap. split.
  - intros ([c sn] & Hin & E). apply elem_of_map_to_list in Hin. cbn in E.
    destruct (sn_cur sn) eqn:Es; [|done]. injection E as -> ->. by rewrite Hin.
  - destruct (g_members s !! a) as [sn|] eqn:E; cbn; [|done]. intros Es. exists (a, sn).
    split; [by apply elem_of_map_to_list|]. cbn. by rewrite Es.
Qed.
Lemma msum_pos_key (f : addr -> Z) (m : smap) a :
  (forall c, 0 <= f c) -> f a <= sum_of f m \/ m !! a = None.
Proof.
  intros P. destruct (m !! a) as [sn|] eqn:E; [|by right]. left. unfold sum_of.
  rewrite <-(insert_delete m a sn E). rewrite msum_insert, lookup_delete.
  assert (0 <= msum (fun k _ => f k) (delete a m)); [|lia].
  apply msum_nonneg. intros; apply P.
Qed.
Lemma g_old_power b s l :
  greached b s l -> gv_old s = Ok tt ->
  (forall c n, q_weight s c None = Some n -> n <> 0) ->
  0 < gv_total s None /\ exists a, 0 < gv_power s a None.
Proof.
  intros R H NZ. pose proof (greached_inv _ _ _ R) as [_ _ I3 _ I5].
  unfold gv_old in H. destruct (q_list s) as [|[c n] r] eqn:E; [done|].
  assert (q_weight s c None = Some n) as Q. { apply q_list_elem. rewrite E. left. }
  pose proof (I3 c n Q). pose proof (NZ c n Q).
  assert (gv_power s c None = n) as Pw by (unfold gv_power; by rewrite Q).
  split; [|exists c; lia].
  destruct (msum_pos_key (fun a => default 0 (smap_load (g_members s) a)) (g_members s) c) as [Hs|Hs].
  - intros d. destruct (smap_load _ d) eqn:Ed; cbn; [|lia]. by eapply I3.
  - unfold cur_sum in I5. unfold gv_total, q_total. rewrite <-I5. unfold q_weight in Q. rewrite Q in Hs.
    cbn in Hs. lia.
  - unfold q_weight, smap_load, smap_snap in Q. by rewrite Hs in Q.
Qed.

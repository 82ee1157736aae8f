(** Proofs about role tokens. *)
From Verif Require Import Base BaseProofs Exec ExecProofs Plain PlainProofs PlainMore
  StoreModel StoreProofs RolesModel RolesSpec.

(** ** Sums over accounts *)
Lemma lsum_perm {A} (f : A -> Z) l l' : l ≡ₚ l' -> lsum f l = lsum f l'.
Proof. induction 1; cbn; lia. Qed.
Lemma lsum_nz {A} (f : A -> Z) l : lsum f l = lsum f (filter (fun x => f x <> 0) l).
Proof.
  induction l as [|x l IH]; [done|]. cbn [lsum]. rewrite filter_cons.
  destruct (decide (f x <> 0)) as [N|N]; cbn [lsum]; [lia|].
  destruct (Z.eq_dec (f x) 0); [lia|done].
Qed.
Lemma msum_keys {V} (f : addr -> Z) (m : gmap addr V) :
  msum (fun k _ => f k) m = lsum f (map_to_list m).*1.
Proof.
  unfold msum, map_fold. cbn. induction (map_to_list m) as [|[k v] l IH]; cbn; [done|]. lia.
Qed.
Lemma msum_covers {V} (f : addr -> Z) (m : gmap addr V) l :
  (forall a, m !! a = None -> f a = 0) -> covers f l -> lsum f l = msum (fun k _ => f k) m.
Proof.
  intros Z0 [ND C]. rewrite msum_keys, (lsum_nz f l), (lsum_nz f (_.*1)). apply lsum_perm.
  apply NoDup_Permutation.
  - by apply NoDup_filter.
  - apply NoDup_filter, NoDup_fst_map_to_list.
  - intros a. rewrite !elem_of_list_filter. split; intros [N _]; split; try done.
    + destruct (m !! a) as [v|] eqn:E; [|by rewrite Z0 in N].
      apply elem_of_list_fmap. exists (a, v). split; [done|]. by apply elem_of_map_to_list.
    + by apply C.
Qed.

(** ** Snapshots with removal *)
Lemma snap_at_drop s h h0 : h0 <= h -> snap_at (snap_drop s h) h0 = snap_at s h0.
Proof.
  intros. rewrite <-(snap_at_save s h 0 h0) by done. unfold snap_at, snap_drop, snap_save. cbn.
  destruct (existsb _ _) eqn:E; [|cbn; by destruct (Z.leb_spec h0 h); [|lia]].
  apply existsb_exists in E as (e & Hin & He). apply snap_find_acc.
  exists e. split; [by apply elem_of_list_In|lia].
Qed.
Lemma snap_before_drop s h : snap_before h s -> snap_before h (snap_drop s h).
Proof.
  intros H. unfold snap_before, snap_drop. simpl. destruct (existsb _ _); [done|].
  intros e [->|Hin]%elem_of_cons; [simpl; lia|by apply H].
Qed.
(** A new value for a member, or none. *)
Definition set_member (m : smap) (a : addr) (h : Z) (v : option Z) : smap :=
  match v with Some n => smap_save m a h n | None => smap_drop m a h end.
Lemma set_member_snap m a h v a' : smap_snap (set_member m a h v) a' =
  if decide (a' = a)
  then (match v with Some n => snap_save (smap_snap m a) h n | None => snap_drop (smap_snap m a) h end)
  else smap_snap m a'.
Proof.
  destruct v as [n|]; cbn; [apply smap_snap_save|]. unfold smap_snap at 1, smap_drop.
  destruct (decide (a' = a)) as [->|]; [by rewrite lookup_insert|by rewrite lookup_insert_ne by congruence].
Qed.
Lemma set_member_load m a h v a' : smap_load (set_member m a h v) a' =
  if decide (a' = a) then v else smap_load m a'.
Proof. unfold smap_load. rewrite set_member_snap. destruct (decide _); [|done]. by destruct v. Qed.
Lemma set_member_at m a h v a' h0 : h0 <= h ->
  snap_at (smap_snap (set_member m a h v) a') h0 = snap_at (smap_snap m a') h0.
Proof.
  intros. rewrite set_member_snap. destruct (decide (a' = a)) as [->|]; [|done].
  destruct v; [by apply snap_at_save|by apply snap_at_drop].
Qed.
Lemma set_member_before m a h v : smap_before h m -> smap_before h (set_member m a h v).
Proof.
  intros H a'. rewrite set_member_snap. destruct (decide (a' = a)); [|apply H].
  destruct v; [by apply snap_before_save|by apply snap_before_drop].
Qed.

(** The sum over the keys of the members' map of what a query gives. *)
Definition sum_of (f : addr -> Z) (m : smap) : Z := msum (fun k _ => f k) m.
Definition cur_sum (m : smap) : Z := sum_of (fun a => default 0 (smap_load m a)) m.
Definition at_sum (m : smap) (h : Z) : Z :=
  sum_of (fun a => default 0 (snap_at (smap_snap m a) h)) m.
Lemma cur_sum_msum m : cur_sum m = msum (fun _ sn => default 0 (sn_cur sn)) m.
Proof.
  apply msum_ext. intros a sn E. unfold smap_load, smap_snap. by rewrite E.
Qed.
Lemma at_sum_msum m h : at_sum m h = msum (fun _ sn => default 0 (snap_at sn h)) m.
Proof. apply msum_ext. intros a sn E. unfold smap_snap. by rewrite E. Qed.
Definition as_snap (s : snap) (h : Z) (v : option Z) : snap :=
  match v with Some n => snap_save s h n | None => snap_drop s h end.
Lemma set_member_insert m a h v : set_member m a h v = <[a := as_snap (smap_snap m a) h v]> m.
Proof. by destruct v. Qed.
Lemma cur_sum_set m a h v :
  cur_sum (set_member m a h v) = cur_sum m - default 0 (smap_load m a) + default 0 v.
Proof.
  rewrite !cur_sum_msum, set_member_insert, msum_insert.
  assert (sn_cur (as_snap (smap_snap m a) h v) = v) as -> by by destruct v.
  unfold smap_load, smap_snap. destruct (m !! a); cbn; lia.
Qed.
Lemma at_sum_set m a h v h0 : h0 <= h -> at_sum (set_member m a h v) h0 = at_sum m h0.
Proof.
  intros. rewrite !at_sum_msum, set_member_insert, msum_insert.
  assert (snap_at (as_snap (smap_snap m a) h v) h0 = snap_at (smap_snap m a) h0) as ->.
  { destruct v; [by apply snap_at_save|by apply snap_at_drop]. }
  unfold smap_snap. destruct (m !! a) as [sn|]; cbn; lia.
Qed.
Lemma at_sum_now m h h' : smap_before h m -> h < h' -> at_sum m h' = cur_sum m.
Proof.
  intros B L. apply msum_ext. intros a sn E. unfold smap_load. by rewrite (snap_at_now _ h).
Qed.

(** ** Calls in normal form: the weight of an account and the total change alike *)
Definition tokens_set (s : rstate) (m : gmap N role) (ms : smap) (t : snap) : rstate :=
  RState (r_own s) m ms t (r_hooks s).
Inductive rstep (s : rstate) (b : block) : rmsg -> rstate -> list rsub -> Prop :=
| St_mint id a w :
    r_tokens s !! id = None -> 0 <= w ->
    let old := smap_load (r_members s) a in
    default 0 old + w <= U64_MAX -> snap_get (r_total s) + w <= U64_MAX ->
    rstep s b (RMint id a w)
      (tokens_set s (<[id := Role a w]> (r_tokens s))
         (set_member (r_members s) a (height b) (Some (default 0 old + w)))
         (snap_save (r_total s) (height b) (snap_get (r_total s) + w)))
      (tell s a old (Some (default 0 old + w)))
| St_burn id x old :
    r_tokens s !! id = Some x -> smap_load (r_members s) (ro_owner x) = Some old ->
    ro_weight x <= old -> ro_weight x <= snap_get (r_total s) ->
    let new := if old - ro_weight x =? 0 then None else Some (old - ro_weight x) in
    rstep s b (RBurn id)
      (tokens_set s (delete id (r_tokens s))
         (set_member (r_members s) (ro_owner x) (height b) new)
         (snap_save (r_total s) (height b) (snap_get (r_total s) - ro_weight x)))
      (tell s (ro_owner x) (Some old) new)
| St_weight id w x subs :
    r_tokens s !! id = Some x -> 0 <= w ->
    let old := default 0 (smap_load (r_members s) (ro_owner x)) in
    0 <= old + (w - ro_weight x) -> 0 <= snap_get (r_total s) + (w - ro_weight x) ->
    (ro_weight x < w /\ subs = tell s (ro_owner x) (smap_load (r_members s) (ro_owner x))
                                 (Some (old + (w - ro_weight x))) \/
     w < ro_weight x /\ subs = tell s (ro_owner x) None None) ->
    rstep s b (RWeight id w)
      (tokens_set s (<[id := Role (ro_owner x) w]> (r_tokens s))
         (set_member (r_members s) (ro_owner x) (height b) (Some (old + (w - ro_weight x))))
         (snap_save (r_total s) (height b) (snap_get (r_total s) + (w - ro_weight x))))
      subs
| St_transfer m to id x subs :
    (m = RTransfer to id /\ subs = [] \/ m = RSend to id /\ subs = [RReceive to id]) ->
    r_tokens s !! id = Some x ->
    rstep s b m
      (tokens_set s (<[id := Role to (ro_weight x)]> (r_tokens s)) (r_members s) (r_total s)) subs
| St_rest m s' :
    r_tokens s' = r_tokens s -> r_members s' = r_members s -> r_total s' = r_total s ->
    match m with
    | RMint _ _ _ | RBurn _ | RWeight _ _ | RTransfer _ _ | RSend _ _ => False
    | _ => True
    end -> rstep s b m s' [].

Definition members_pos (s : rstate) : Prop :=
  (forall a n, smap_load (r_members s) a = Some n -> 0 <= n) /\ 0 <= snap_get (r_total s) /\
  (forall id x, r_tokens s !! id = Some x -> 0 <= ro_weight x).
Lemma handle_step s b a m s' subs :
  members_pos s -> r_handle s b a m = Ok (s', subs) -> rstep s b m s' subs.
Proof.
  intros (P1 & P2 & P3) H. unfold r_handle in H. destruct (is_owner (r_own s) a) eqn:Eo; [|done].
  destruct m as [id ow w|id|h|h|id|id w|to id|to id| |act].
  - destruct (fits64 w) eqn:Ef; [|done]. unfold fits64 in Ef. unfold r_mint, add64 in H.
    destruct (snap_get (r_total s) + w <=? U64_MAX) eqn:E1; [|done].
    destruct (default 0 (smap_load (r_members s) ow) + w <=? U64_MAX) eqn:E2; [|done].
    destruct (r_tokens s !! id) eqn:Et; [done|]. injection H as <- <-.
    apply (St_mint s b id ow w); try done; lia.
  - unfold r_burn in H. destruct (r_tokens s !! id) as [x|] eqn:Et; [|done].
    destruct (smap_load (r_members s) (ro_owner x)) as [old|] eqn:El; [|done].
    destruct (ro_weight x <=? old) eqn:E1; [|done]. unfold sub64 in H.
    destruct (ro_weight x <=? snap_get (r_total s)) eqn:E2; [|done]. cbn zeta in H.
    injection H as <- <-.
    pose proof (St_burn s b id x old Et El ltac:(lia) ltac:(lia)) as S. cbn zeta in S.
    destruct (old - ro_weight x =? 0); exact S.
  - destruct (negb _); [|done]. injection H as <- <-. by apply St_rest.
  - destruct (bool_decide _); [|done]. injection H as <- <-. by apply St_rest.
  - destruct (r_tokens s !! id); [|done]. injection H as <- <-. by apply St_rest.
  - destruct (fits64 w) eqn:Ef; [|done]. unfold fits64 in Ef. unfold r_weight in H.
    destruct (r_tokens s !! id) as [x|] eqn:Et; [|done]. cbn zeta in H.
    destruct (Z.compare_spec w (ro_weight x)) as [->|L|G]; [done| |].
    + destruct (ro_weight x - w <=? default 0 (smap_load (r_members s) (ro_owner x))) eqn:E1; [|done].
      unfold sub64 in H. destruct (ro_weight x - w <=? snap_get (r_total s)) eqn:E2; [|done].
      injection H as <- <-.
      replace (default 0 (smap_load (r_members s) (ro_owner x)) - (ro_weight x - w))
        with (default 0 (smap_load (r_members s) (ro_owner x)) + (w - ro_weight x)) by lia.
      replace (snap_get (r_total s) - (ro_weight x - w))
        with (snap_get (r_total s) + (w - ro_weight x)) by lia.
      apply (St_weight s b id w x); try done; try lia. right. done.
    + unfold add64 in H.
      destruct (snap_get (r_total s) + (w - ro_weight x) <=? U64_MAX) eqn:E1; [|done].
      destruct (default 0 (smap_load (r_members s) (ro_owner x)) + (w - ro_weight x) <=? U64_MAX) eqn:E2; [|done].
      injection H as <- <-.
      apply (St_weight s b id w x); try done; try lia.
      { destruct (smap_load (r_members s) (ro_owner x)) as [n|] eqn:El; cbn; [|lia].
        specialize (P1 _ _ El). lia. }
      left. split; [lia|done].
  - destruct (r_tokens s !! id) as [x|] eqn:Et; [|done]. injection H as <- <-.
    eapply (St_transfer s b _ to id x); [by left|done].
  - destruct (r_tokens s !! id) as [x|] eqn:Et; [|done]. injection H as <- <-.
    eapply (St_transfer s b _ to id x); [by right|done].
  - injection H as <- <-. by apply St_rest.
  - destruct (update_ownership _ _ _ _); [|done]. injection H as <- <-. by apply St_rest.
Qed.

(** ** The invariant *)
Record rinv (b : block) (s : rstate) : Prop := RInv {
  ri_pos : members_pos s;
  ri_mb : smap_before (height b) (r_members s);
  ri_tb : snap_before (height b) (r_total s);
  ri_tok : all_held s = snap_get (r_total s);
  ri_sum : forall h, at_sum (r_members s) h = snap_get_at (r_total s) h;
  ri_cur : cur_sum (r_members s) = snap_get (r_total s) }.

Lemma rinv_set b s m ms a v t :
  rinv b s -> members_pos (tokens_set s m ms t) ->
  ms = set_member (r_members s) a (height b) v ->
  t = snap_save (r_total s) (height b)
        (snap_get (r_total s) - default 0 (smap_load (r_members s) a) + default 0 v) ->
  msum (fun _ x => ro_weight x) m =
    snap_get (r_total s) - default 0 (smap_load (r_members s) a) + default 0 v ->
  rinv b (tokens_set s m ms t).
Proof.
  intros [I1 I2 I3 I4 I5 I6] P -> -> Hm. split.
  - done.
  - by apply set_member_before.
  - by apply snap_before_save.
  - unfold all_held. cbn. rewrite Hm. done.
  - intros h. cbn [r_members r_total tokens_set]. destruct (Z.le_gt_cases h (height b)).
    + by rewrite at_sum_set, snap_get_at_save.
    + rewrite (at_sum_now _ (height b)); [|by apply set_member_before|lia].
      rewrite (snap_get_at_now _ (height b)); [|by apply snap_before_save|lia].
      rewrite cur_sum_set, I6, snap_get_save. lia.
  - cbn [r_members r_total tokens_set]. rewrite cur_sum_set, I6, snap_get_save. lia.
Qed.
Lemma rinv_step b s a m s' subs : rinv b s -> r_handle s b a m = Ok (s', subs) -> rinv b s'.
Proof.
  intros I H. pose proof I as [(P1 & P2 & P3) I2 I3 I4 I5 I6].
  apply handle_step in H; [|done].
  assert (forall c, 0 <= default 0 (smap_load (r_members s) c)) as D.
  { intros c. destruct (smap_load _ c) as [n|] eqn:E; cbn; [|lia]. by eapply P1. }
  destruct H as [id ow w Et Hw old L1 L2|id x old Et El L1 L2 new|id w x subs Et Hw old L1 L2 Hs
                |m to id x subs Hm Et|m s' E1 E2 E3 Hm].
  - apply (rinv_set b s _ _ ow (Some (default 0 old + w))); try done.
    + split; [|split]; cbn [r_members r_total r_tokens tokens_set].
      * intros c n. rewrite set_member_load. destruct (decide (c = ow)); [|apply P1].
        intros [= <-]. specialize (D ow). fold old in D. lia.
      * rewrite snap_get_save. lia.
      * intros i y. destruct (decide (i = id)) as [->|]; [rewrite lookup_insert; by intros [= <-]|].
        rewrite lookup_insert_ne by congruence. apply P3.
    + cbn. fold old. f_equal. lia.
    + rewrite msum_insert, Et. unfold all_held in I4. rewrite I4. cbn. fold old. lia.
  - apply (rinv_set b s _ _ (ro_owner x) new); try done.
    + split; [|split]; cbn [r_members r_total r_tokens tokens_set].
      * intros c n. rewrite set_member_load. destruct (decide (c = ro_owner x)); [|apply P1].
        unfold new. destruct (Z.eqb_spec (old - ro_weight x) 0); [done|]. intros [= <-]. lia.
      * rewrite snap_get_save. lia.
      * intros i y Hy. apply lookup_delete_Some in Hy as [_ Hy]. by eapply P3.
    + rewrite El. cbn. f_equal. unfold new. destruct (Z.eqb_spec (old - ro_weight x) 0); cbn; lia.
    + rewrite (msum_delete _ _ _ x Et). unfold all_held in I4. rewrite I4, El. cbn. unfold new.
      destruct (Z.eqb_spec (old - ro_weight x) 0); cbn; lia.
  - apply (rinv_set b s _ _ (ro_owner x) (Some (old + (w - ro_weight x)))); try done.
    + split; [|split]; cbn [r_members r_total r_tokens tokens_set].
      * intros c n. rewrite set_member_load. destruct (decide (c = ro_owner x)); [|apply P1].
        intros [= <-]. lia.
      * rewrite snap_get_save. lia.
      * intros i y. destruct (decide (i = id)) as [->|]; [rewrite lookup_insert; by intros [= <-]|].
        rewrite lookup_insert_ne by congruence. apply P3.
    + cbn. fold old. f_equal. lia.
    + rewrite msum_insert, Et. unfold all_held in I4. rewrite I4. cbn. fold old. lia.
  - split; cbn; try done.
    + split; [done|]. split; [done|]. cbn. intros i y.
      destruct (decide (i = id)) as [->|].
      * rewrite lookup_insert. intros [= <-]. cbn. by eapply P3.
      * rewrite lookup_insert_ne by congruence. apply P3.
    + unfold all_held in *. cbn. rewrite msum_insert, Et, I4. cbn. lia.
  - split; unfold members_pos, all_held in *; rewrite ?E1, ?E2, ?E3; done.
Qed.
Lemma rinv_time b b' s : rinv b s -> block_le b b' -> rinv b' s.
Proof.
  intros [I1 I2 I3 I4 I5 I6] [L _]. split; try done.
  - by eapply smap_before_mono.
  - by eapply snap_before_mono.
Qed.
Lemma rinv_init b minter : rinv b (r_instantiate minter b).
Proof.
  split; unfold r_instantiate; cbn.
  - split; [|split]; cbn; [|lia|].
    + intros a n. unfold smap_load, smap_snap. by rewrite lookup_empty.
    + intros id x. by rewrite lookup_empty.
  - apply smap_before_empty.
  - by apply snap_before_save; [apply snap_before_empty|].
  - unfold all_held. cbn. by rewrite msum_empty.
  - intros h. rewrite at_sum_msum, msum_empty. unfold snap_get_at, snap_at. cbn.
    by destruct (h <=? height b).
  - by rewrite cur_sum_msum, msum_empty.
Qed.
Lemma rreached_inv b s l : rreached b s l -> rinv b s.
Proof.
  intros (b0 & mi & HL). revert HL. apply leads_inv; [apply rinv_step|apply rinv_time|apply rinv_init].
Qed.
Lemma rreached_call b s l pre b1 a m post subs :
  rreached b s l -> ECall pre b1 a m post subs ∈ l ->
  rinv b1 pre /\ r_handle pre b1 a m = Ok (post, subs).
Proof.
  intros (b0 & mi & HL) Hin.
  destruct (leads_call _ _ rinv_step rinv_time _ _ _ _ _ (rinv_init b0 mi) HL _ _ _ _ _ _ Hin) as (?&?&_).
  done.
Qed.

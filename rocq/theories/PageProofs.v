(** Proofs about pages. *)
From stdpp Require Import sorting.
From Verif Require Import Base BaseProofs PageModel PageSpec.

(** ** Order *)
Lemma lex_trans a b c : lex a b -> lex b c -> lex a c.
Proof.
  intros H. revert c. induction H as [x l|x y l l' L|x l l' H IH]; intros c Hc; inversion Hc; subst;
    try (by constructor).
  - apply Lex_byte. lia.
  - apply Lex_same. auto.
Qed.
Lemma lex_irrefl a : ~ lex a a.
Proof. induction a as [|x a IH]; intros H; inversion H; subst; [lia|auto]. Qed.
Lemma kcmp_lex a b : match kcmp a b with Lt => lex a b | Eq => a = b | Gt => lex b a end.
Proof.
  revert b. induction a as [|x a IH]; intros [|y b]; cbn; try constructor.
  destruct (N.compare_spec x y) as [->|L|L].
  - specialize (IH b). destruct (kcmp a b); [by subst|by constructor|by constructor].
  - by constructor.
  - by constructor.
Qed.
Lemma kltb_lex a b : kltb a b = true <-> lex a b.
Proof.
  unfold kltb. pose proof (kcmp_lex a b) as H. destruct (kcmp a b); subst; split; try done.
  - intros L. by apply lex_irrefl in L.
  - intros L. exfalso. eapply lex_irrefl, lex_trans; eauto.
Qed.
Lemma kle_lex a b : kle a b <-> lex a b \/ a = b.
Proof.
  unfold kle. pose proof (kcmp_lex a b) as H. destruct (kcmp a b); subst; split; try tauto; try done.
  intros [L| ->]; exfalso; eapply lex_irrefl; [eapply lex_trans; eauto|eauto].
Qed.
Lemma lex_total a b : lex a b \/ a = b \/ lex b a.
Proof. pose proof (kcmp_lex a b). destruct (kcmp a b); auto. Qed.
#[local] Instance ele_total V : Total (@ele V).
Proof.
  intros x y. unfold ele. rewrite !kle_lex. destruct (lex_total (fst x) (fst y)) as [?|[ -> |?]]; auto.
Qed.
#[local] Instance ele_trans V : Transitive (@ele V).
Proof.
  intros x y z. unfold ele. rewrite !kle_lex. intros [A| ->] [B|B]; rewrite <- ?B; auto.
  left. by eapply lex_trans.
Qed.
Lemma before_trans o a b c : before o a b -> before o b c -> before o a c.
Proof. destruct o; cbn; eauto using lex_trans. Qed.
Lemma before_irrefl o a : ~ before o a a.
Proof. destruct o; apply lex_irrefl. Qed.

(** ** Sorted lists *)
Lemma ssorted_app {A} (R : A -> A -> Prop) l k :
  StronglySorted R (l ++ k) <->
  StronglySorted R l /\ StronglySorted R k /\ forall x y, x ∈ l -> y ∈ k -> R x y.
Proof.
  induction l as [|a l IH]; cbn.
  - split; [intros H; split; [constructor|]; split; [done|]; intros x y Hx; by apply elem_of_nil in Hx|tauto].
  - split.
    + intros H. inversion H as [|?? H1 H2]; subst. apply IH in H1 as (H1 & H3 & H4).
      rewrite Forall_app in H2. destruct H2 as [H2 H5]. split; [by constructor|]. split; [done|].
      intros x y [->|Hx]%elem_of_cons Hy; [|auto]. rewrite Forall_forall in H5. auto.
    + intros (H1 & H2 & H3). inversion H1 as [|?? H4 H5]; subst. constructor.
      * apply IH. split; [done|]. split; [done|]. intros x y Hx Hy. apply H3; [by right|done].
      * apply Forall_app. split; [done|]. apply Forall_forall. intros y Hy. apply H3; [left|done].
Qed.
Lemma ssorted_rev {A} (R : A -> A -> Prop) l :
  StronglySorted R l -> StronglySorted (flip R) (reverse l).
Proof.
  induction 1 as [|x l H IH F]; [constructor|]. rewrite reverse_cons. apply ssorted_app.
  split; [done|]. split; [constructor; constructor|]. intros a c Ha Hc. apply elem_of_list_singleton in Hc as ->.
  rewrite elem_of_reverse in Ha. cbn. rewrite Forall_forall in F. auto.
Qed.
Lemma ssorted_filter {A} (R : A -> A -> Prop) (g : A -> bool) l :
  StronglySorted R l -> StronglySorted R (List.filter g l).
Proof.
  induction 1 as [|x l H IH F]; cbn; [constructor|]. destruct (g x); [|done]. constructor; [done|].
  rewrite Forall_forall in F |- *. intros y Hy. apply F.
  apply elem_of_list_In in Hy. apply filter_In in Hy as [Hy _]. by apply elem_of_list_In.
Qed.
Lemma ssorted_map {A B} (R : B -> B -> Prop) (g : A -> B) l :
  StronglySorted (fun x y => R (g x) (g y)) l <-> StronglySorted R (map g l).
Proof.
  induction l as [|x l IH]; cbn; [split; constructor|].
  split; intros H; apply StronglySorted_inv in H as [H1 H2]; (constructor; [by apply IH|]).
  - apply Forall_map. exact H2.
  - exact (proj1 (Forall_map g (R (g x)) l) H2).
Qed.
Lemma elem_of_bfilter {A} (g : A -> bool) l x : x ∈ List.filter g l <-> x ∈ l /\ g x = true.
Proof. rewrite !elem_of_list_In. apply filter_In. Qed.

Lemma filter_length_le' {A} (g : A -> bool) l : (length (List.filter g l) <= length l)%nat.
Proof. induction l as [|x l IH]; cbn; [lia|]. destruct (g x); cbn; lia. Qed.

(** The sorted entries of a map. *)
Definition ents {V} (m : gmap key V) : list (key * V) := merge_sort ele (map_to_list m).
Lemma ents_elem {V} (m : gmap key V) k v : (k, v) ∈ ents m <-> m !! k = Some v.
Proof. unfold ents. rewrite merge_sort_Permutation. apply elem_of_map_to_list. Qed.
Lemma ents_order {V} (m : gmap key V) :
  StronglySorted (fun x y => lex (fst x) (fst y)) (ents m).
Proof.
  assert (NoDup (map fst (ents m))) as N.
  { unfold ents. rewrite (Permutation_map fst (merge_sort_Permutation ele (map_to_list m))).
    apply (NoDup_fst_map_to_list m). }
  assert (StronglySorted ele (ents m)) as S.
  { apply (StronglySorted_merge_sort ele). }
  induction S as [|x l H IH F]; [constructor|]. cbn in N. apply NoDup_cons in N as [N1 N2].
  constructor; [auto|]. rewrite Forall_forall in F |- *. intros y Hy.
  specialize (F y Hy). unfold ele in F. rewrite kle_lex in F. destruct F as [F|F]; [done|].
  exfalso. apply N1. rewrite F. apply elem_of_list_fmap. eauto.
Qed.

(** ** Listings *)
Lemma ssorted_ext {A} (R : A -> A -> Prop) l l' :
  (forall x, ~ R x x) -> (forall x y z, R x y -> R y z -> R x z) ->
  StronglySorted R l -> StronglySorted R l' -> (forall x, x ∈ l <-> x ∈ l') -> l = l'.
Proof.
  intros Ir Tr S. revert l'. induction S as [|x l S IH F]; intros l' S' E.
  - destruct l' as [|y l']; [done|]. exfalso. eapply not_elem_of_nil, E. left.
  - destruct S' as [|y l' S' F'].
    { exfalso. eapply not_elem_of_nil. apply E. left. }
    rewrite Forall_forall in F, F'.
    assert (x = y) as ->.
    { pose proof (proj1 (E x) (elem_of_list_here _ _)) as H1.
      pose proof (proj2 (E y) (elem_of_list_here _ _)) as H2.
      apply elem_of_cons in H1 as [H1|H1]; [done|]. apply elem_of_cons in H2 as [H2|H2]; [done|].
      exfalso. apply (Ir x), (Tr x y x); auto. }
    f_equal. apply IH; [done|]. intros z. split; intros Hz.
    + pose proof (proj1 (E z) (elem_of_list_further _ _ _ Hz)) as H1.
      apply elem_of_cons in H1 as [->|H1]; [|done]. exfalso. by apply (Ir y), F.
    + pose proof (proj2 (E z) (elem_of_list_further _ _ _ Hz)) as H1.
      apply elem_of_cons in H1 as [->|H1]; [|done]. exfalso. by apply (Ir y), F'.
Qed.
Lemma listing_det {V} (o : order) (f : V -> bool) (start : option key) m l l' :
  listing o f start m l -> listing o f start m l' -> l = l'.
Proof.
  intros [O E] [O' E'].
  apply (ssorted_ext (fun x y => before o (fst x) (fst y))).
  - intros x. apply before_irrefl.
  - intros x y z. apply before_trans.
  - exact (proj2 (ssorted_map (before o) fst l) O).
  - exact (proj2 (ssorted_map (before o) fst l') O').
  - intros [k v]. by rewrite E, E'.
Qed.
Lemma unlimited {V} (o : order) (start : option key) (m : gmap key V) : listing o anything start m (paginate_map m start None o).
Proof.
  unfold paginate_map, listing, in_order. destruct o.
  - split.
    + apply (proj1 (ssorted_map lex fst _)). unfold range. cbn. apply ssorted_filter, ents_order.
    + intros k v. unfold range. cbn. rewrite elem_of_bfilter. fold (ents m). rewrite ents_elem. cbn.
      unfold after, anything. cbn. destruct start; rewrite ?andb_true_r, ?kltb_lex; tauto.
  - split.
    + apply (proj1 (ssorted_map (flip lex) fst _)). unfold range. cbn.
      apply (ssorted_rev (fun x y => lex (fst x) (fst y))), ssorted_filter, ents_order.
    + intros k v. unfold range. cbn. rewrite elem_of_reverse, elem_of_bfilter. fold (ents m).
      rewrite ents_elem. cbn. unfold after, anything. cbn. destruct start; rewrite ?kltb_lex; tauto.
Qed.
Lemma listing_filter {V} (o : order) (f : V -> bool) (start : option key) (m : gmap key V) L :
  listing o anything start m L -> listing o f start m (List.filter (fun x => f (snd x)) L).
Proof.
  intros [O E]. split.
  - apply (proj1 (ssorted_map (before o) fst _)), ssorted_filter.
    exact (proj2 (ssorted_map (before o) fst L) O).
  - intros k v. rewrite elem_of_bfilter, E. cbn. unfold anything. tauto.
Qed.
(** What is left after a page. *)
Lemma listing_next {V} (o : order) (f : V -> bool) (start : option key) (m : gmap key V) p r :
  listing o f start m (p ++ r) -> listing o f (next start p) m r.
Proof.
  intros [O E]. unfold in_order in O. rewrite map_app, ssorted_app in O. destruct O as (O1 & O2 & O3).
  unfold next. destruct (last p) as [[kl vl]|] eqn:El.
  - apply last_Some in El as [p' ->]. cbn. split; [done|]. intros k v.
    assert ((kl, vl) ∈ p' ++ [(kl, vl)]) as Hl by (apply elem_of_app; right; left).
    split.
    + intros Hk. destruct (proj1 (E k v)) as (H1 & H2 & H3); [apply elem_of_app; by right|].
      split; [done|]. split; [done|]. cbn. apply O3; apply elem_of_list_fmap.
      * by exists (kl, vl).
      * by exists (k, v).
    + intros (H1 & H2 & H3). cbn in H3.
      destruct (proj1 (E kl vl)) as (_ & _ & H4); [apply elem_of_app; by left|].
      assert ((k, v) ∈ (p' ++ [(kl, vl)]) ++ r) as Hin.
      { apply E. split; [done|]. split; [done|]. destruct start; [|done]. cbn in *.
        by eapply before_trans. }
      apply elem_of_app in Hin as [Hin|]; [|done]. exfalso.
      rewrite map_app, ssorted_app in O1. destruct O1 as (_ & _ & O1).
      apply elem_of_app in Hin as [Hin|Hin].
      * eapply before_irrefl, before_trans; [exact H3|]. apply O1; [|left].
        apply elem_of_list_fmap. by exists (k, v).
      * apply elem_of_list_singleton in Hin. injection Hin as -> ->. by eapply before_irrefl.
  - apply last_None in El as ->. by split.
Qed.

(** ** Pages *)
(** A query gives the first [n] of what it lists. *)
Definition gives {V} (q : gmap key V -> option key -> list (key * V)) (o : order) (f : V -> bool)
  (n : nat) : Prop :=
  forall m start L, listing o f start m L -> q m start = take n L.
Definition has_listing {V} (o : order) (f : V -> bool) : Prop :=
  forall (m : gmap key V) start, exists L, listing o f start m L.
Lemma gives_map {V} (o : order) (n : Z) : gives (fun (m : gmap key V) s => paginate_map m s (Some n) o) o anything (Z.to_nat n).
Proof.
  intros m start L HL. rewrite (listing_det _ _ _ _ _ _ HL (unlimited o start m)).
  unfold paginate_map. by destruct o.
Qed.
Lemma gives_active {V} (f : V -> bool) (n : Z) :
  gives (fun m s => query_active f m s (Some n)) Ascending f (Z.to_nat n).
Proof.
  intros m start L HL. unfold query_active. cbn.
  by rewrite (listing_det _ _ _ _ _ _ HL (listing_filter _ f _ _ _ (unlimited Ascending start m))).
Qed.
Lemma listings {V} (o : order) (f : V -> bool) : has_listing o f.
Proof. intros m start. eexists. apply listing_filter, unlimited. Qed.

Lemma fetch_same {V} (q : gmap key V -> option key -> list (key * V)) (o : order) (f : V -> bool) (n t : nat) (m : gmap key V) (start : option key) L :
  gives q o f n -> listing o f start m L ->
  fetch q start (replicate t m) = map (fun i => take n (drop (i * n) L)) (seq 0 t).
Proof.
  intros G. revert start L. induction t as [|t IH]; intros start L HL; [done|].
  cbn [replicate fetch seq map]. rewrite (G _ _ _ HL). f_equal.
  assert (listing o f (next start (take n L)) m (drop n L)) as HL'.
  { apply listing_next. by rewrite take_drop. }
  rewrite (IH _ _ HL'). rewrite <- (seq_shift t 0), map_map. apply map_ext. intros i.
  by rewrite drop_drop.
Qed.
Lemma concat_pages {A} (n t : nat) (L : list A) :
  concat (map (fun i => take n (drop (i * n) L)) (seq 0 t)) = take (t * n) L.
Proof.
  revert L. induction t as [|t IH]; intros L; [by rewrite take_0|].
  cbn [seq map concat Nat.mul]. rewrite <- seq_shift, map_map.
  rewrite (map_ext _ (fun i => take n (drop (i * n) (drop n L)))) by (intros i; by rewrite drop_drop).
  rewrite IH. cbn [drop]. rewrite drop_0. rewrite <- (take_take_drop L n (t * n)). done.
Qed.
Lemma listing_size {V} (o : order) (m : gmap key V) (L : list (key * V)) : listing o anything None m L -> length L = size m.
Proof.
  intros HL. rewrite (listing_det _ _ _ _ _ _ HL (unlimited o None m)).
  unfold paginate_map, range. change (size m) with (length (map_to_list m)).
  assert (forall l : list (key * V), List.filter (fun _ => true) l = l) as F.
  { induction l; cbn; congruence. }
  destruct o; cbn; rewrite ?reverse_length, F; apply Permutation_length, merge_sort_Permutation.
Qed.

(** With a map that changes. *)
Lemma in_order_app {V} (o : order) (l k : list (key * V)) : in_order o (l ++ k) <->
  in_order o l /\ in_order o k /\ forall x y, x ∈ l -> y ∈ k -> before o (fst x) (fst y).
Proof.
  unfold in_order. rewrite map_app, ssorted_app. split; intros (A & B & C); repeat split; try done.
  - intros x y Hx Hy. apply C; by apply elem_of_list_fmap_1.
  - intros x y Hx Hy. apply elem_of_list_fmap in Hx as (? & -> & ?).
    apply elem_of_list_fmap in Hy as (? & -> & ?). auto.
Qed.
Lemma next_after {V} (o : order) (start : option key) (p : list (key * V)) k :
  in_order o p -> (forall x, x ∈ p -> after o start (fst x)) -> after o (next start p) k ->
  after o start k /\ forall x, x ∈ p -> before o (fst x) k.
Proof.
  intros O A H. unfold next in H. destruct (last p) as [[kl vl]|] eqn:El.
  - apply last_Some in El as [p' ->]. cbn in H.
    assert ((kl, vl) ∈ p' ++ [(kl, vl)]) as Hl by (apply elem_of_app; right; left).
    split.
    + specialize (A _ Hl). destruct start; [|done]. cbn in *. by eapply before_trans.
    + intros x [Hx|Hx]%elem_of_app.
      * apply in_order_app in O as (_ & _ & O). eapply before_trans; [|exact H].
        by apply (O _ (kl, vl)); [|left].
      * by apply elem_of_list_singleton in Hx as ->.
  - apply last_None in El as ->. split; [done|]. intros x Hx. by apply elem_of_nil in Hx.
Qed.
Lemma fetch_changing {V} (q : gmap key V -> option key -> list (key * V)) (o : order) (f : V -> bool) (n : nat) (start : option key) ms :
  gives q o f n ->
  let pages := fetch q start ms in
  in_order o (concat pages) /\
  (forall k v, (k, v) ∈ concat pages ->
    after o start k /\ exists m, m ∈ ms /\ m !! k = Some v /\ f v = true) /\
  (forall p k, last pages = Some p -> (length p < n)%nat -> after o start k ->
    (forall m, m ∈ ms -> exists v, m !! k = Some v /\ f v = true) ->
    exists v, (k, v) ∈ concat pages).
Proof.
  intros G. cbv zeta. revert start. induction ms as [|m ms IH]; intros start.
  { split; [constructor|]. split; [intros k v Hk; by apply elem_of_nil in Hk|done]. }
  cbn [fetch concat]. destruct (listings o f m start) as [L HL].
  set (p := q m start). assert (p = take n L) as Ep by apply (G _ _ _ HL).
  assert (listing o f start m (p ++ drop n L)) as HL' by (rewrite Ep, take_drop; exact HL).
  destruct HL as [O E]. specialize (IH (next start p)) as (I1 & I2 & I3).
  assert (in_order o p) as Op by (destruct HL' as [O' _]; apply in_order_app in O' as [O' _]; exact O').
  assert (forall x, x ∈ p -> after o start (fst x) /\ m !! fst x = Some (snd x) /\ f (snd x) = true) as Ap.
  { intros [k v] Hx. destruct HL' as [_ E']. destruct (proj1 (E' k v)) as (? & ? & ?); [|done].
    apply elem_of_app. by left. }
  split; [|split].
  - apply in_order_app. split; [done|]. split; [done|]. intros x [k v] Hx Hy.
    apply I2 in Hy as [Hy _]. apply (next_after o start p k); [done|apply Ap|done|done].
  - intros k v [Hk|Hk]%elem_of_app.
    + destruct (Ap _ Hk) as (? & ? & ?). split; [done|]. exists m. split; [left|done].
    + apply I2 in Hk as (Ha & m' & Hm & ?).
      split; [by apply (next_after o start p k); [|apply Ap|]|]. exists m'. split; [by right|done].
  - intros p' k Hl Hn Ha Hall.
    destruct (Hall m (elem_of_list_here _ _)) as (v & Hm & Hf).
    assert ((k, v) ∈ p ++ drop n L) as Hin by (apply HL'; done).
    apply elem_of_app in Hin as [Hin|Hin]; [exists v; apply elem_of_app; by left|].
    apply listing_next in HL'. assert (after o (next start p) k) as Ha2 by exact (proj2 (proj2 (proj1 (proj2 HL' k v) Hin))).
    destruct ms as [|m' ms].
    + cbn in Hl. injection Hl as <-. rewrite Ep, take_length in Hn.
      rewrite drop_ge in Hin by lia. by apply elem_of_nil in Hin.
    + destruct (I3 p' k) as [v' Hv']; [by rewrite <- Hl|done|done| |].
      * intros m0 Hm0. apply Hall. by right.
      * exists v'. apply elem_of_app. by right.
Qed.

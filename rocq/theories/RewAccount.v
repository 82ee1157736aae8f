(** The distributor's balances. *)
From Verif Require Import Base BaseProofs Exec Plain PlainProofs StoreModel StoreProofs LedgerProofs
  StakeProofs ExtProofs RewModel RewSpec RewProofs.

Definition dens (s : estate) : gmap Z asset := di_denom <$> e_dists s.
Definition share (t : asset) (g : Z -> Z) (m : gmap Z asset) : Z :=
  msum (fun i t' => if decide (t' = t) then g i else 0) m.
Lemma share_step t g m i t0 k :
  (m !! i = None /\ g i = 0) \/ m !! i = Some t0 ->
  share t (fun j => g j + if i =? j then k else 0) (<[i := t0]> m) =
  share t g m + if decide (t0 = t) then k else 0.
Proof.
  intros Hm. unfold share.
  assert (msum (fun j t' => if decide (t' = t) then g j + (if i =? j then k else 0) else 0) m =
    msum (fun j t' => if decide (t' = t) then g j else 0) m +
    match m !! i with Some t' => if decide (t' = t) then k else 0 | None => 0 end) as E.
  { rewrite (msum_ext _ (fun j t' => (if decide (t' = t) then g j else 0) +
      (if decide (t' = t) then (if i =? j then k else 0) else 0))).
    2:{ intros j t' _. by destruct (decide _). }
    rewrite msum_add. f_equal.
    assert (forall m' : gmap Z asset, m' !! i = None ->
      msum (fun j t' => if decide (t' = t) then (if i =? j then k else 0) else 0) m' = 0) as H0.
    { intros m' Hn. etrans; [apply msum_ext|apply (msum_zero m')]. intros j t' Hj.
      destruct (decide _); [|done]. destruct (i =? j) eqn:Eij; [|done]. apply Z.eqb_eq in Eij as ->. congruence. }
    destruct (m !! i) as [t'|] eqn:Ei; [|by apply H0].
    pose proof (msum_delete (fun j t' => if decide (t' = t) then (if i =? j then k else 0) else 0) m i t' Ei) as Hd.
    rewrite H0 in Hd by apply lookup_delete. cbn in Hd. rewrite Z.eqb_refl in Hd. destruct (decide (t' = t)); lia. }
  rewrite msum_insert, E. destruct Hm as [[-> Hg]| ->].
  - rewrite Z.eqb_refl, Hg. destruct (decide _); lia.
  - rewrite Z.eqb_refl. destruct (decide _); lia.
Qed.

(** What a call does to the books: [nt] for each distribution, [gv] given away. *)
Definition ev_net (id : Z) (e : eevent) : Z := ev_funded id e - ev_claimed id e - ev_withdrawn id e.
Definition books (s s' : estate) (nt : Z -> Z) (gv : asset -> Z) : Prop :=
  (dens s' = dens s /\ (forall t, held s' t = held s t + gv t) /\ forall j, nt j = 0) \/
  (exists i t0 k, (forall t, gv t = 0) /\ dens s' = <[i := t0]> (dens s) /\
    (dens s !! i = None \/ dens s !! i = Some t0) /\
    (forall t, held s' t = held s t + if decide (t0 = t) then k else 0) /\
    (forall j, nt j = if i =? j then k else 0)).

Lemma held_set s t n t' : held (set_held s t n) t' = if decide (t = t') then n else held s t'.
Proof.
  unfold held. cbn. destruct (decide _) as [->|]; [by rewrite lookup_insert|by rewrite lookup_insert_ne].
Qed.
Lemma dens_insert s i d d' o c pe ac hk vs hd du bl :
  e_dists s !! i = Some d -> di_denom d' = di_denom d ->
  dens (EState o c (<[i := d']> (e_dists s)) pe ac hk vs hd du bl) = dens s.
Proof.
  intros Hd Ed. unfold dens. cbn. rewrite fmap_insert, Ed. apply insert_id. by rewrite lookup_fmap, Hd.
Qed.
Lemma dens_at s i d : e_dists s !! i = Some d -> dens s !! i = Some (di_denom d).
Proof. intros Hd. unfold dens. by rewrite lookup_fmap, Hd. Qed.
Lemma update_dens s b a i s' :
  update_rewards s b a i = Ok s' -> dens s' = dens s /\ e_held s' = e_held s.
Proof.
  intros H. apply update_ok in H as (d & x & v & Hd & _ & _ & _ & ->). cbn zeta. split; [|done].
  by eapply dens_insert.
Qed.
Lemma update_ids_dens b a ids s s' :
  update_ids s b a ids = Ok s' -> dens s' = dens s /\ e_held s' = e_held s.
Proof.
  revert s. induction ids as [|i ids IH]; intros s H; cbn in H; [by injection H as <-|].
  destruct (update_rewards s b a i) as [s1|] eqn:E; [|done]. apply update_dens in E as [<- <-]. by apply IH.
Qed.
Lemma update_all_dens b who ids s s' :
  update_all s b who ids = Ok s' -> dens s' = dens s /\ e_held s' = e_held s.
Proof.
  revert s. induction who as [|i who IH]; intros s H; cbn in H; [by injection H as <-|].
  destruct (update_ids s b i ids) as [s1|] eqn:E; [|done]. apply update_ids_dens in E as [<- <-]. by apply IH.
Qed.
Lemma fund_linear_denom s b d ct n d' : fund_linear s b d ct n = Ok d' -> di_denom d' = di_denom d.
Proof.
  unfold fund_linear. cbn zeta. intros H.
  destruct (if _ || _ then _ else _) as [d1|] eqn:E in H; [|done].
  assert (di_denom d1 = di_denom d) as E1.
  { destruct (_ || _) in E.
    - destruct (if (_ && _) && _ then _ else _) in E; [|done]. by injection E as <-.
    - destruct (add128 _ _) in E; [|done]. by injection E as <-. }
  rewrite <-E1. destruct (funded_dur _ _) as [len|]; [|done].
  destruct (match len with Some x => _ | None => _ end) as [e'|] in H; [|done].
  destruct (_ && _) in H.
  - destruct (active_puvp _ _ _ _) in H; [|done]. by injection H as <-.
  - by injection H as <-.
Qed.
Lemma transition_denom s b d r d' : transition s b d r = Ok d' -> di_denom d' = di_denom d.
Proof.
  unfold transition. destruct (decide _) as [_|_]; [by intros [= <-]|]. cbn zeta. intros H.
  repeat match type of H with
  | match ?x with Ok _ => _ | Err _ => _ end = _ => destruct x; [|done]
  end.
  by injection H as <-.
Qed.
Lemma fund_books s b sender i d n s' :
  e_dists s !! i = Some d -> fund s b sender i d n = Ok s' ->
  books s s' (fun j => if i =? j then n else 0) (fun _ => 0).
Proof.
  intros Hd H. apply fund_ok in H as (d' & -> & Hd'). right. exists i, (di_denom d), n. split; [done|].
  assert (di_denom d' = di_denom d) as Ed.
  { destruct (ep_rate (di_ep d)); [by subst|by destruct Hd' as (x & _ & ->)|by eapply fund_linear_denom]. }
  split; [unfold dens; cbn; by rewrite fmap_insert, Ed|]. split; [right; by apply dens_at|]. split; [|done].
  intros t. unfold set_dist, held. cbn. destruct (decide (di_denom d = t)) as [->|Hne].
  - by rewrite lookup_insert.
  - rewrite lookup_insert_ne by done. lia.
Qed.
Lemma books_pre s0 s s' nt gv :
  dens s0 = dens s -> e_held s0 = e_held s -> books s0 s' nt gv -> books s s' nt gv.
Proof.
  intros Ed Eh. unfold books, held. rewrite Ed, Eh. done.
Qed.
Lemma books_same s s' nt gv :
  dens s' = dens s -> e_held s' = e_held s -> (forall j, nt j = 0) -> (forall t, gv t = 0) -> books s s' nt gv.
Proof. intros Ed Eh Hn Hg. left. split; [done|]. split; [|done]. intros t. unfold held. rewrite Eh, Hg. lia. Qed.
Lemma books_ext s s' nt gv nt' gv' :
  (forall j, nt' j = nt j) -> (forall t, gv' t = gv t) -> books s s' nt gv -> books s s' nt' gv'.
Proof.
  intros En Eg [(A & B & C)|(i & t0 & k & A & B & C & D & E)]; [left|right; exists i, t0, k]; repeat split; try done.
  - intros t. by rewrite Eg.
  - intros j. by rewrite En.
  - intros t. by rewrite Eg.
  - intros j. by rewrite En.
Qed.
Lemma native_books s b sender i funds s' :
  fund_native s b sender i funds = Ok s' ->
  books s s' (fun j => if i =? j then lsum snd funds else 0) (fun _ => 0).
Proof.
  intros H. unfold fund_native, get_dist in H.
  destruct (e_dists s !! i) as [d|] eqn:Ed; [|done]. destruct (di_denom d) as [[] t]; [done|].
  destruct (must_pay funds t) as [n|] eqn:Em; [|done]. apply must_pay_ok in Em as [-> _].
  simpl. rewrite Z.add_0_r. by eapply fund_books.
Qed.
Lemma create_books s b sender denom rate vp hook op wd funds s' :
  create s b sender denom rate vp hook op wd funds = Ok s' ->
  books s s' (fun j => if e_count s + 1 =? j then lsum snd funds else 0) (fun _ => 0).
Proof.
  intros H. unfold create in H.
  destruct (is_owner _ _); [|done]. destruct (_ <=? U64_MAX) eqn:E1 in H; [|done]. cbn zeta in H.
  destruct (q_vp s vp); [|done]. destruct (em_validate rate) as [[]|] eqn:Er; [|done].
  destruct (e_dists s !! (e_count s + 1)) eqn:Ed; [done|].
  set (i := e_count s + 1) in *. set (d := Dist _ _ _ _ _ _ _ _) in *. set (s1 := set_hooks _ _) in *.
  assert (dens s !! i = None) as Hi by (unfold dens; by rewrite lookup_fmap, Ed).
  assert (dens s1 = <[i := denom]> (dens s)) as Es1 by (unfold dens; cbn; by rewrite fmap_insert).
  destruct funds as [|c funds].
  - injection H as <-. right. exists i, denom, 0. split; [done|]. split; [done|]. split; [by left|].
    split; [|done]. intros t. unfold held. cbn. destruct (decide _); lia.
  - destruct denom as [[] t]; [done|].
    destruct (must_pay _ t) as [n|] eqn:Em; [|done]. apply must_pay_ok in Em as [Em Hn0]. rewrite Em in *.
    simpl lsum in *. rewrite Z.add_0_r in *.
    apply fund_books in H; [|cbn; by rewrite lookup_insert].
    destruct H as [(A & B & C)|(i0 & t0 & k & A & B & C & D & E)].
    + right. exists i, (false, t), 0. split; [done|]. split; [by rewrite A|]. split; [by left|]. split.
      * intros t'. rewrite B. unfold held. cbn. destruct (decide _); lia.
      * intros j. rewrite C. by destruct (_ =? _).
    + destruct (decide (i0 = i)) as [->|Hne].
      * assert (t0 = (false, t)) as ->.
        { rewrite Es1, lookup_insert in C. destruct C as [?|[= ->]]; done. }
        right. exists i, (false, t), k. split; [done|]. split; [by rewrite B, Es1, insert_insert|].
        split; [by left|]. split; [exact D|exact E].
      * exfalso. assert (e_dists s !! i0 = e_dists s !! i0) by done.
        pose proof (E i0) as Ei. pose proof (E i) as Ej. rewrite Z.eqb_refl in Ei, Ej.
        replace (i =? i0) with false in Ei by lia. replace (i0 =? i) with false in Ej by lia. lia.
Qed.

Lemma step_books s b sender m s' subs pre :
  e_count s = e_count pre -> e_step s b sender m = Ok (s', subs) ->
  let e := ECall pre b sender m s' subs in books s s' (fun j => ev_net j e) (fun t => ev_given t e).
Proof.
  intros G1 H. cbn zeta. unfold ev_net, ev_claimed, ev_withdrawn, ev_funded, funds_to, ev_given. rewrite <-G1.
  destruct m as [denom rate vp hook op wd funds|i rate vp hook op wd|i funds|funds|from n i|i|i|who|act|vp caller who n|t n]; cbn [e_step] in H.
  - destruct (em_fits rate && _) eqn:Ef; [|done].
    destruct (create _ _ _ _ _ _ _ _ _ _) as [s1|] eqn:E; [|done]. injection H as <- <-.
    apply create_books in E. eapply books_ext; [| |exact E]; [intros j; cbv beta iota; destruct (_ =? j); lia|done].
  - destruct (match rate with Some r => em_fits r | None => true end); [|done].
    destruct (update _ _ _ _ _ _ _ _ _) as [s1|] eqn:E; [|done]. injection H as <- <-.
    apply books_same; [| |done|done].
    + unfold update in E. destruct (is_owner _ _); [|done]. unfold get_dist in E.
      destruct (e_dists s !! i) as [d|] eqn:Ed; [|done].
      destruct (match rate with Some r => _ | None => _ end) as [d1|] eqn:E1 in E; [|done].
      destruct (match vp with Some v => _ | None => _ end) as [vp'|] eqn:E2 in E; [|done].
      injection E as <-. unfold set_dist, set_hooks. cbn [e_own e_count e_dists e_pend e_acc e_hooks e_vps e_held e_due e_block]. eapply dens_insert; [exact Ed|]. cbn [di_denom].
      destruct rate as [r|]; [|by injection E1 as <-]. destruct (em_validate r); [|done]. by eapply transition_denom.
    + unfold update in E. destruct (is_owner _ _); [|done]. destruct (get_dist _ _); [|done].
      destruct (match rate with Some r => _ | None => _ end) in E; [|done].
      destruct (match vp with Some v => _ | None => _ end) in E; [|done]. by injection E as <-.
  - destruct (forallb _ _) eqn:Ef; [|done].
    destruct (fund_native _ _ _ _ _) as [s1|] eqn:E; [|done]. injection H as <- <-.
    apply native_books in E. eapply books_ext; [| |exact E]; [intros j; cbv beta iota; destruct (_ =? j); lia|done].
  - destruct (forallb _ _) eqn:Ef; [|done].
    destruct (fund_native _ _ _ _ _) as [s1|] eqn:E; [|done]. injection H as <- <-.
    apply native_books in E. eapply books_ext; [| |exact E]; [intros j; cbv beta iota; destruct (_ =? j); lia|done].
  - destruct (fits128 n) eqn:Ef; [|done].
    destruct (fund_cw20 _ _ _ _ _ _) as [s1|] eqn:E; [|done]. injection H as <- <-.
    unfold fund_cw20, get_dist in E. destruct (e_dists s !! _) as [d|] eqn:Ed; [|done].
    destruct (di_denom d) as [[] t]; [|done]. destruct (t =? sender)%N; [|done].
    apply fund_books in E; [|done]. eapply books_ext; [| |exact E]; [intros j; cbv beta iota; destruct (_ =? j); lia|done].
  - unfold claim_rewards in H. destruct (update_rewards s b sender i) as [s1|] eqn:E1; [|done].
    apply update_dens in E1 as [Ed Eh].
    unfold get_dist in H. destruct (e_dists s1 !! i) as [d|] eqn:Ed1; [|done]. cbn zeta in H.
    destruct (pend s1 i sender =? 0); [done|]. cbn [negb] in H. set (s2 := EState _ _ _ _ _ _ _ _ _ _) in H.
    destruct (send s2 _ _) as [s3|] eqn:Es; [|done]. apply send_ok in Es as [-> _]. injection H as <- <-.
    eapply (books_pre s1); [done|done|]. right. exists i, (di_denom d), (- pend s1 i sender).
    split; [done|]. split; [|split; [|split]].
    + symmetry. assert (forall x y, dens (set_held s2 x y) = dens s1) as -> by done. apply insert_id. by apply dens_at.
    + right. by apply dens_at.
    + intros t. rewrite held_set. change (held s2) with (held s1). destruct (decide _) as [->|_]; lia.
    + intros j. simpl lsum. destruct (i =? j); lia.
  - unfold withdraw in H. destruct (is_owner _ _); [|done].
    unfold get_dist in H. destruct (e_dists s !! i) as [d|] eqn:Ed; [|done]. cbn zeta in H.
    destruct (negb _); [|done].
    destruct (rewards_until _ _ _) as [R|] eqn:ER; [|done].
    destruct (sub128 _ _) as [back|] eqn:Eu; [|done].
    destruct (send _ _ _) as [s1|] eqn:Es; [|done]. apply send_ok in Es as [-> _]. injection H as <- <-.
    right. exists i, (di_denom d), (- back). split; [done|]. split; [|split; [|split]].
    + unfold dens. cbn. by rewrite fmap_insert.
    + right. by apply dens_at.
    + intros t. assert (forall x j y, held (set_dist x j y) t = held x t) as -> by done. rewrite held_set. destruct (decide _) as [->|_]; lia.
    + intros j. simpl lsum. destruct (i =? j); lia.
  - destruct (e_hooks s !! sender) as [ids|] eqn:Eh; [|done].
    destruct (update_all s b who ids) as [s1|] eqn:E; [|done]. injection H as <- <-.
    apply update_all_dens in E as [E1 E2]. by apply books_same.
  - destruct (update_ownership _ _ _ _) as [o|]; [|done]. injection H as <- <-. by apply books_same.
  - destruct (fits128 n) eqn:Ef; [|done].
    destruct (set_power _ _ _ _ _ _) as [s1|] eqn:E; [|done]. injection H as <- <-.
    unfold set_power in E. cbn zeta in E. destruct (_ <=? _) in E; [|done]. injection E as <-. by apply books_same.
  - destruct (fits128 n) eqn:Ef; [|done].
    destruct (take _ _ _) as [s1|] eqn:E; [|done]. injection H as <- <-. apply take_ok in E as ->.
    left. split; [done|]. split; [|done]. intros t'. rewrite held_set. destruct (decide _) as [->|_]; lia.
Qed.

Lemma net_app id (l l' : elog) : net id (l ++ l') = net id l + lsum (ev_net id) l'.
Proof.
  unfold net, funded, claimed, withdrawn, ev_net. rewrite !lsum_app.
  assert (lsum (fun e => ev_funded id e - ev_claimed id e - ev_withdrawn id e) l' =
    lsum (ev_funded id) l' - lsum (ev_claimed id) l' - lsum (ev_withdrawn id) l') as ->; [|lia].
  induction l' as [|e l' IH]; cbn; lia.
Qed.
Lemma accounts b0 owner vs b s (l : elog) t :
  leads e_handle b0 (e_instantiate b0 owner vs) b s l ->
  held s t = given t l + share t (fun i => net i l) (dens s) /\ 0 <= given t l /\
  forall i, dens s !! i = None -> net i l = 0.
Proof.
  apply (leads_ind e_handle (fun b s l =>
    held s t = given t l + share t (fun i => net i l) (dens s) /\ 0 <= given t l /\
    forall i, dens s !! i = None -> net i l = 0)).
  - clear b s l. intros b s l a m s' subs (IH1 & IH2 & IH3) H. unfold e_handle in H.
    destruct (e_goes s b) eqn:Hg; [|done].
    pose proof (step_books (set_block s b) b a m s' subs s eq_refl H) as HB. cbn zeta in HB.
    eapply (books_pre _ s) in HB; [|done|done].
    set (e := ECall s b a m s' subs) in *.
    assert (0 <= ev_given t e) as He.
    { unfold ev_given, e. destruct m; try done. destruct (decide _); [|done]. cbn in H.
      destruct (fits128 n) eqn:Ef; [|done]. apply fits128_ok in Ef. lia. }
    assert (given t (l ++ [e]) = given t l + ev_given t e) as Eg.
    { unfold given. rewrite lsum_app. cbn. lia. }
    assert (forall i, net i (l ++ [e]) = net i l + ev_net i e) as En.
    { intros i. rewrite net_app. cbn. lia. }
    rewrite Eg. destruct HB as [(A & B & C)|(i & t0 & k & A & B & C & D & E)].
    + rewrite A, B, IH1. split; [|split; [lia|]].
      * assert (share t (fun i => net i (l ++ [e])) (dens s) = share t (fun i => net i l) (dens s)) as ->; [|lia].
        apply msum_ext. intros j t' _. rewrite En, C. destruct (decide _); lia.
      * intros j Hj. rewrite En, C, IH3 by done. done.
    + rewrite B, D, A, IH1. split; [|split; [lia|]].
      * assert (share t (fun i => net i (l ++ [e])) (<[i := t0]> (dens s)) =
          share t (fun j => net j l + if i =? j then k else 0) (<[i := t0]> (dens s))) as ->.
        { apply msum_ext. intros j t' _. by rewrite En, E. }
        rewrite share_step; [lia|]. destruct C as [C|C]; [left|by right]. split; [done|]. by apply IH3.
      * intros j Hj. rewrite En, E. destruct (i =? j) eqn:Eij.
        -- apply Z.eqb_eq in Eij as ->. by rewrite lookup_insert in Hj.
        -- rewrite lookup_insert_ne in Hj by lia. rewrite IH3 by done. done.
  - clear b s l. intros b s l sub (IH1 & IH2 & IH3).
    assert (given t (l ++ [ESub s b sub true s]) = given t l) as -> by (unfold given; rewrite lsum_app; cbn; lia).
    assert (forall i, net i (l ++ [ESub s b sub true s]) = net i l) as En by (intros i; rewrite net_app; cbn; unfold ev_net; cbn; lia).
    split; [|split; [done|]].
    + rewrite IH1. f_equal. apply msum_ext. intros j t' _. by rewrite En.
    + intros i Hi. rewrite En. auto.
  - auto.
  - split; [|split; [done|done]]. unfold held, share, dens. cbn. rewrite lookup_empty, fmap_empty, msum_empty. done.
Qed.
Lemma share_dists t g s :
  share t g (dens s) = msum (fun i d => if decide (di_denom d = t) then g i else 0) (e_dists s).
Proof.
  unfold share, dens. induction (e_dists s) as [|i d m Hi IH] using map_ind.
  - by rewrite fmap_empty, !msum_empty.
  - rewrite fmap_insert, !msum_insert_new; [by rewrite IH|done|by rewrite lookup_fmap, Hi].
Qed.

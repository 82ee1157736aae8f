(** The factory of fan tokens: the claims. *)
From Verif Require Import Base BaseProofs FanModel FanSpec.

Lemma mints_ok me d l : forall s t rest,
  fc_tokens s !! d = Some t -> ft_minter t = me ->
  Forall (fun x : addr * Z => 0 < x.2) l -> ft_supply t + given_all l <= ft_max t ->
  exists s', fan_all s me d (map (fun x => MMint x.1 x.2) l ++ rest) = fan_all s' me d rest /\
    fc_tokens s' = <[d := FanToken (ft_authority t) me (ft_max t) (ft_supply t + given_all l) (ft_meta t)]>
      (fc_tokens s) /\
    (forall a, held_of s' d a = held_of s d a + given a l) /\
    (forall e a, e <> d -> held_of s' e a = held_of s e a).
Proof.
  induction l as [|[a n] l IH]; intros s t rest Ht Hm Hp Hs; cbn [map app given given_all fst snd] in *.
  { exists s. split; [done|]. split.
    - rewrite Z.add_0_r, <- Hm. destruct t; cbn. by rewrite insert_id.
    - split; [intros; lia|done]. }
  apply Forall_cons in Hp as [Hn Hp]. cbn in Hn.
  assert (0 <= given_all l) as Hg.
  { clear -Hp. induction Hp as [|x l Hx Hl IH]; cbn [given_all]; lia. }
  cbn [fan_all fan_run]. unfold fc_mint at 1. rewrite Ht, Hm, N.eqb_refl.
  rewrite (proj2 (Z.ltb_lt _ _)) by lia. rewrite (proj2 (Z.leb_le _ _)) by lia.
  set (t1 := FanToken (ft_authority t) me (ft_max t) (ft_supply t + n) (ft_meta t)).
  set (s1 := FanChain (<[d := t1]> (fc_tokens s)) (<[(d, a) := held_of s d a + n]> (fc_held s))).
  destruct (IH s1 t1 rest) as (s' & E & Et & Hh & Ho); [by cbn; rewrite lookup_insert|done|done|cbn; lia|].
  exists s'. split; [done|]. split.
  - rewrite Et. cbn. rewrite insert_insert. do 2 f_equal. lia.
  - split.
    + intros a'. rewrite Hh. unfold held_of at 1. cbn [s1 fc_held].
      destruct (N.eqb_spec a a') as [->|Hne].
      * rewrite lookup_insert. cbn. lia.
      * rewrite lookup_insert_ne by congruence. fold (held_of s d a'). lia.
    + intros e a' Hne. rewrite Ho by done. unfold held_of. cbn [s1 fc_held].
      by rewrite lookup_insert_ne by congruence.
Qed.
Lemma mints_only me d l : forall s t rest s2,
  fc_tokens s !! d = Some t -> ft_minter t = me ->
  fan_all s me d (map (fun x => MMint x.1 x.2) l ++ rest) = Ok s2 ->
  Forall (fun x : addr * Z => 0 < x.2) l /\ (l <> [] -> ft_supply t + given_all l <= ft_max t).
Proof.
  induction l as [|[a n] l IH]; intros s t rest s2 Ht Hm H; [done|].
  cbn [map app fan_all fan_run fst snd] in H. unfold fc_mint in H.
  rewrite Ht, Hm, N.eqb_refl in H.
  destruct (Z.ltb_spec 0 n); [|done]. destruct (Z.leb_spec (ft_supply t + n) (ft_max t)); [|done].
  eapply IH in H; [|by cbn; rewrite lookup_insert|done]. cbn in H. destruct H as [Q1 Q2].
  split; [by constructor|]. intros _. cbn [given_all fst snd].
  destruct l as [|x l]; [cbn; lia|]. specialize (Q2 ltac:(done)). lia.
Qed.

(** The mints asked for, as one list. *)
Definition mint_list (t : newtoken) (dao : addr) : list (addr * Z) :=
  nt_balances t ++ match nt_dao t with Some n => if n =? 0 then [] else [(dao, n)] | None => [] end.
Lemma fan_messages_list t dao :
  fan_messages t dao = map (fun x => MMint x.1 x.2) (mint_list t dao) ++ [MAuthority dao; MMinter dao].
Proof.
  unfold fan_messages, mint_list. rewrite map_app, <- app_assoc. f_equal. f_equal.
  destruct (nt_dao t) as [n|]; [|done]. by destruct (n =? 0).
Qed.
Lemma given_app a l m : given a (l ++ m) = given a l + given a m.
Proof. induction l as [|x l IH]; cbn [given app]; lia. Qed.
Lemma given_all_app l m : given_all (l ++ m) = given_all l + given_all m.
Proof. induction l as [|x l IH]; cbn [given_all app]; lia. Qed.
Lemma mint_list_due t dao a : given a (mint_list t dao) = due t dao a.
Proof.
  unfold mint_list, due, dao_share. rewrite given_app. f_equal.
  rewrite N.eqb_sym. destruct (nt_dao t) as [n|]; [|by destruct (dao =? a)%N].
  destruct (Z.eqb_spec n 0) as [->|]; cbn [given fst snd]; destruct (dao =? a)%N; lia.
Qed.
Lemma mint_list_all t dao : given_all (mint_list t dao) = due_all t.
Proof.
  unfold mint_list, due_all, dao_share. rewrite given_all_app. f_equal.
  destruct (nt_dao t) as [n|]; [|done].
  destruct (Z.eqb_spec n 0) as [->|]; cbn [given_all snd]; lia.
Qed.
Lemma mint_list_pos t dao : Forall (fun x : addr * Z => 0 < x.2) (mint_list t dao) <->
  Forall (fun x : addr * Z => 0 < x.2) (nt_balances t) /\ 0 <= dao_share t.
Proof.
  unfold mint_list, dao_share. rewrite Forall_app. split; intros [H1 H2]; (split; [done|]).
  - destruct (nt_dao t) as [n|]; [|done]. destruct (Z.eqb_spec n 0); [lia|].
    apply Forall_cons in H2 as [H2 _]. assert (0 < n) by exact H2. lia.
  - destruct (nt_dao t) as [n|]; [|done]. destruct (Z.eqb_spec n 0); [done|].
    apply Forall_cons. split; [|done]. enough (0 < n) by done. lia.
Qed.

Lemma fan_tail c me d t dao : fc_tokens c !! d = Some t -> ft_minter t = me -> ft_authority t = me ->
  fan_all c me d [MAuthority dao; MMinter dao] =
  Ok (FanChain (<[d := FanToken dao dao (ft_max t) (ft_supply t) (ft_meta t)]> (fc_tokens c)) (fc_held c)).
Proof.
  intros Ht Hm Ha. cbn [fan_all fan_run]. unfold fc_set_authority. rewrite Ht, Ha, N.eqb_refl.
  unfold fc_set_minter. cbn [fc_tokens]. rewrite lookup_insert. cbn [ft_minter].
  rewrite Hm, N.eqb_refl. cbn. by rewrite insert_insert.
Qed.

Lemma fan_issue_iff s dao d t : 0 <= nt_max t ->
  (exists s', fan_issue s dao d t = Ok s') <->
  (exists x, dao = Some x) /\ fc_tokens (fa_chain s) !! d = None /\
  Forall (fun x : addr * Z => 0 < x.2) (nt_balances t) /\ 0 <= dao_share t /\
  due_all t <= nt_max t.
Proof.
  intros Hmax. unfold fan_issue. destruct dao as [x|]; [|by split; [intros []|intros [[] ?]]].
  unfold fc_issue. cbn [fa_chain fc_tokens].
  destruct (fc_tokens (fa_chain s) !! d) eqn:Ed.
  { split; [by intros []|by intros (_ & ? & _)]. }
  cbn [fan_reply fa_creating fst snd fa_self fa_chain].
  set (t0 := FanToken (fa_self s) (fa_self s) (nt_max t) 0 (nt_meta t)).
  set (c0 := FanChain (<[d := t0]> (fc_tokens (fa_chain s))) (fc_held (fa_chain s))).
  rewrite fan_messages_list.
  assert (fc_tokens c0 !! d = Some t0) as E0 by (by cbn; rewrite lookup_insert).
  split.
  - intros [s' H]. split; [by exists x|]. split; [done|].
    destruct (fan_all c0 (fa_self s) d _) as [c2|] eqn:E; [|done].
    destruct (mints_only _ _ _ _ _ _ _ E0 eq_refl E) as [H1 H2].
    rewrite mint_list_all in H2. apply mint_list_pos in H1 as [H1 H3].
    split; [done|]. split; [done|].
    destruct (mint_list t x) as [|y l] eqn:El; [|specialize (H2 ltac:(done)); cbn in H2; lia].
    rewrite <- (mint_list_all t x), El. done.
  - intros (_ & _ & H1 & H2 & H3).
    destruct (mints_ok (fa_self s) d (mint_list t x) c0 t0 [MAuthority x; MMinter x])
      as (c1 & E & Et & _); [done|done|by apply mint_list_pos|rewrite mint_list_all; cbn; lia|].
    rewrite E. erewrite fan_tail; [eauto|by rewrite Et, lookup_insert|done|done].
Qed.

Lemma fan_issue_result s x d t s' : fan_issue s (Some x) d t = Ok s' -> 0 <= nt_max t ->
  fc_tokens (fa_chain s) !! d = None /\
  fc_tokens (fa_chain s') =
    <[d := FanToken x x (nt_max t) (due_all t) (nt_meta t)]> (fc_tokens (fa_chain s)) /\
  (forall a, held_of (fa_chain s') d a = held_of (fa_chain s) d a + due t x a) /\
  (forall e a, e <> d -> held_of (fa_chain s') e a = held_of (fa_chain s) e a) /\
  fa_creating s' = None /\ fa_self s' = fa_self s.
Proof.
  intros H Hmax.
  pose proof (proj1 (fan_issue_iff s (Some x) d t Hmax) (ex_intro _ s' H)) as (_ & Hd & H1 & H2 & H3).
  unfold fan_issue, fc_issue in H. cbn [fa_chain fc_tokens] in H. rewrite Hd in H.
  cbn [fan_reply fa_creating fst snd fa_self fa_chain] in H.
  set (t0 := FanToken (fa_self s) (fa_self s) (nt_max t) 0 (nt_meta t)) in H.
  set (c0 := FanChain (<[d := t0]> (fc_tokens (fa_chain s))) (fc_held (fa_chain s))) in H.
  rewrite fan_messages_list in H.
  destruct (mints_ok (fa_self s) d (mint_list t x) c0 t0 [MAuthority x; MMinter x])
    as (c1 & E & Et & Hh & Ho);
    [by cbn; rewrite lookup_insert|done|by apply mint_list_pos|rewrite mint_list_all; cbn; lia|].
  rewrite E in H. erewrite fan_tail in H; [|by rewrite Et, lookup_insert|done|done].
  injection H as <-. cbn [fa_chain fa_creating fa_self fc_tokens].
  split; [done|]. split.
  - rewrite Et. cbn. rewrite !insert_insert, mint_list_all. done.
  - split; [intros a; rewrite <- (mint_list_due t x a); apply (Hh a)|]. split; [|done].
    intros e a Hne. apply (Ho e a Hne).
Qed.

(** ** Over histories *)
Lemma fan_idle s s' : fan_leads s s' -> fa_creating s = None ->
  fa_creating s' = None /\ fa_self s' = fa_self s.
Proof.
  intros H Hc. induction H as [|s1 a e s2 H [IH1 IH2] E]; [done|].
  destruct e; cbn [fan_event] in E.
  { unfold fan_issue in E. destruct dao as [x|]; [|done].
    destruct (fc_issue _ _ _ _ _ _); [|done]. cbn [fan_reply fa_creating fst snd fa_self fa_chain] in E.
    destruct (fan_all _ _ _ _); [|done]. injection E as <-. done. }
  all: destruct (negb _); [|done]; destruct (_ : result fanchain); [|done];
    injection E as <-; done.
Qed.
(** The factory gets a right over a token only if the holder of the right gives it, or
    whoever makes a token by other means names it. *)
Lemma fan_no_rights s a e s' d :
  (forall dao d0 t, e = FIssue dao d0 t -> 0 <= nt_max t /\ dao <> Some (fa_self s)) ->
  fan_event s a e = Ok s' -> ~ has_right s (fa_self s) d -> has_right s' (fa_self s) d ->
  (exists x y max meta, e = FNew x y d max meta /\ (x = fa_self s \/ y = fa_self s)) \/
  (e = FAuthority d (fa_self s) \/ e = FMinter d (fa_self s)) /\ has_right s a d.
Proof.
  intros Hdao E Hn (t' & Ht' & Hr).
  assert (forall t, fc_tokens (fa_chain s) !! d = Some t ->
    ft_minter t <> fa_self s /\ ft_authority t <> fa_self s) as Hn'.
  { intros t Ht. split; intros Eq; apply Hn; exists t; auto. }
  destruct e as [dao d0 t|x y d0 max meta|d0 x n|d0 x|d0 x|d0 x n].
  - cbn [fan_event] in E. destruct (Hdao dao d0 t eq_refl) as [Hm Hd].
    destruct dao as [x|]; [|done]. destruct (fan_issue_result s x d0 t s' E Hm) as (_ & Et & _).
    rewrite Et in Ht'. apply lookup_insert_Some in Ht' as [[<- <-]|[_ Ht']].
    + cbn in Hr. exfalso. apply Hd. f_equal. by destruct Hr.
    + exfalso. destruct (Hn' _ Ht') as [H1 H2]. by destruct Hr.
  - left. unfold fan_event in E. destruct (negb _); [|done]. unfold fc_issue in E.
    destruct (fc_tokens (fa_chain s) !! d0); [done|]. injection E as <-.
    cbn in Ht'. apply lookup_insert_Some in Ht' as [[<- <-]|[_ Ht']].
    + exists x, y, max, meta. split; [done|]. cbn in Hr. tauto.
    + exfalso. destruct (Hn' _ Ht') as [H1 H2]. by destruct Hr.
  - unfold fan_event in E. destruct (negb _); [|done]. unfold fc_mint in E.
    destruct (fc_tokens (fa_chain s) !! d0) as [t0|] eqn:E0; [|done].
    destruct (a =? ft_minter t0)%N; [|done]. destruct (0 <? n); [|done].
    destruct (ft_supply t0 + n <=? ft_max t0); [|done]. injection E as <-. exfalso.
    cbn in Ht'. apply lookup_insert_Some in Ht' as [[<- <-]|[_ Ht']].
    + destruct (Hn' _ E0) as [H1 H2]. by destruct Hr.
    + destruct (Hn' _ Ht') as [H1 H2]. by destruct Hr.
  - right. unfold fan_event in E. destruct (negb _); [|done]. unfold fc_set_authority in E.
    destruct (fc_tokens (fa_chain s) !! d0) as [t0|] eqn:E0; [|done].
    destruct (N.eqb_spec a (ft_authority t0)) as [->|]; [|done]. injection E as <-.
    cbn in Ht'. apply lookup_insert_Some in Ht' as [[<- <-]|[_ Ht']].
    + destruct (Hn' _ E0) as [H1 H2]. cbn in Hr. destruct Hr as [|Hx]; [done|]. subst x.
      split; [by left|]. exists t0. auto.
    + exfalso. destruct (Hn' _ Ht') as [H1 H2]. by destruct Hr.
  - right. unfold fan_event in E. destruct (negb _); [|done]. unfold fc_set_minter in E.
    destruct (fc_tokens (fa_chain s) !! d0) as [t0|] eqn:E0; [|done].
    destruct (N.eqb_spec a (ft_minter t0)) as [->|]; [|done]. injection E as <-.
    cbn in Ht'. apply lookup_insert_Some in Ht' as [[<- <-]|[_ Ht']].
    + destruct (Hn' _ E0) as [H1 H2]. cbn in Hr. destruct Hr as [Hx|]; [|done]. subst x.
      split; [by right|]. exists t0. auto.
    + exfalso. destruct (Hn' _ Ht') as [H1 H2]. by destruct Hr.
  - unfold fan_event in E. destruct (negb _); [|done]. unfold fc_send in E.
    destruct ((0 <? n) && (n <=? held_of (fa_chain s) d0 a)); [|done]. injection E as <-.
    exfalso. cbn in Ht'. destruct (Hn' _ Ht') as [H1 H2]. by destruct Hr.
Qed.

(** ** The books *)
Lemma held_all_put (ts ts' : gmap N fantoken) (h : gmap (N * addr) Z) (d : N) (a : addr) (n : Z) (e : N) :
  held_all (FanChain ts (<[(d, a) := n]> h)) e =
  held_all (FanChain ts' h) e + (if (d =? e)%N then n - default 0 (h !! (d, a)) else 0).
Proof.
  unfold held_all. cbn [fc_held]. rewrite msum_insert. cbn [fst].
  destruct (h !! (d, a)); cbn [default]; destruct (d =? e)%N; cbn; lia.
Qed.
Lemma fan_books_issue s d a m max meta s' : fan_books s -> fc_issue s d a m max meta = Ok s' -> fan_books s'.
Proof.
  intros [HB HD] H. unfold fc_issue in H.
  destruct (fc_tokens s !! d) eqn:E; [done|]. injection H as <-. split; [exact HB|].
  intros e. cbn [fc_tokens]. destruct (decide (e = d)) as [->|Hne].
  - rewrite lookup_insert. specialize (HD d). rewrite E in HD. cbn. split; [exact HD|by left].
  - rewrite lookup_insert_ne by done. apply HD.
Qed.
Lemma fan_books_mint s a d x n s' : fan_books s -> fc_mint s a d x n = Ok s' -> fan_books s'.
Proof.
  intros [HB HD] H. unfold fc_mint in H.
  destruct (fc_tokens s !! d) as [t|] eqn:E; [|done].
  destruct (a =? ft_minter t)%N; [|done]. destruct (Z.ltb_spec 0 n); [|done].
  destruct (Z.leb_spec (ft_supply t + n) (ft_max t)); [|done]. injection H as <-. split.
  - intros e y. unfold held_of at 1. cbn [fc_held].
    destruct (decide ((e, y) = (d, x))) as [[= -> ->]|Hne].
    + rewrite lookup_insert. cbn. specialize (HB d x). lia.
    + rewrite lookup_insert_ne by congruence. apply HB.
  - intros e. cbn [fc_tokens]. rewrite (held_all_put _ (fc_tokens s)). fold (held_of s d x).
    specialize (HD e).
    replace (held_all (FanChain (fc_tokens s) (fc_held s)) e) with (held_all s e) by (by destruct s).
    destruct (N.eqb_spec d e) as [->|Hne].
    + rewrite lookup_insert. rewrite E in HD. cbn. destruct HD. split; [lia|right; lia].
    + rewrite lookup_insert_ne by done. rewrite Z.add_0_r. exact HD.
Qed.
Lemma fan_books_right s d t t' : fan_books s -> fc_tokens s !! d = Some t ->
  ft_supply t' = ft_supply t -> ft_max t' = ft_max t ->
  fan_books (FanChain (<[d := t']> (fc_tokens s)) (fc_held s)).
Proof.
  intros [HB HD] E Es Em. split; [exact HB|]. intros e. cbn [fc_tokens].
  destruct (decide (e = d)) as [->|Hne].
  - rewrite lookup_insert, Es, Em. specialize (HD d). rewrite E in HD. exact HD.
  - rewrite lookup_insert_ne by done. apply HD.
Qed.
Lemma fan_books_authority s a d x s' : fan_books s -> fc_set_authority s a d x = Ok s' -> fan_books s'.
Proof.
  intros HB H. unfold fc_set_authority in H. destruct (fc_tokens s !! d) as [t|] eqn:E; [|done].
  destruct (a =? ft_authority t)%N; [|done]. injection H as <-. by eapply fan_books_right.
Qed.
Lemma fan_books_minter s a d x s' : fan_books s -> fc_set_minter s a d x = Ok s' -> fan_books s'.
Proof.
  intros HB H. unfold fc_set_minter in H. destruct (fc_tokens s !! d) as [t|] eqn:E; [|done].
  destruct (a =? ft_minter t)%N; [|done]. injection H as <-. by eapply fan_books_right.
Qed.
Lemma fan_books_send s a d x n s' : fan_books s -> fc_send s a d x n = Ok s' -> fan_books s'.
Proof.
  intros [HB HD] H. unfold fc_send in H. destruct (Z.ltb_spec 0 n); [|done].
  destruct (Z.leb_spec n (held_of s d a)); [|done]. injection H as <-. split.
  - intros e y. unfold held_of at 1. cbn [fc_held].
    destruct (decide ((e, y) = (d, x))) as [[= -> ->]|Hne].
    + rewrite lookup_insert. cbn. unfold held_of. cbn [fc_held].
      destruct (decide (x = a)) as [->|Hx].
      * rewrite lookup_insert. cbn. specialize (HB d a). unfold held_of in *. lia.
      * rewrite lookup_insert_ne by congruence. specialize (HB d x). unfold held_of in HB. lia.
    + rewrite lookup_insert_ne by congruence.
      destruct (decide ((e, y) = (d, a))) as [[= -> ->]|Hne2].
      * rewrite lookup_insert. cbn. lia.
      * rewrite lookup_insert_ne by congruence. apply HB.
  - intros e. cbn [fc_tokens]. rewrite !(held_all_put _ (fc_tokens s)). specialize (HD e).
    replace (held_all (FanChain (fc_tokens s) (fc_held s)) e) with (held_all s e) by (by destruct s).
    match goal with |- match _ with Some _ => ?q = _ /\ _ | None => _ end =>
      replace q with (held_all s e); [exact HD|] end.
    unfold held_of. cbn [fc_held]. destruct (d =? e)%N; lia.
Qed.
Lemma fan_books_all me d l : forall s s', fan_books s -> fan_all s me d l = Ok s' -> fan_books s'.
Proof.
  induction l as [|m l IH]; intros s s' HB H; cbn [fan_all] in H; [by injection H as <-|].
  destruct (fan_run s me d m) as [s1|] eqn:E; [|done]. apply (IH s1); [|exact H].
  destruct m; cbn [fan_run] in E;
    eauto using fan_books_mint, fan_books_authority, fan_books_minter.
Qed.
Lemma fan_books_event s a e s' : fan_books (fa_chain s) -> fan_event s a e = Ok s' -> fan_books (fa_chain s').
Proof.
  intros HB H. destruct e as [dao d t|y m d max meta|d y n|d y|d y|d y n]; unfold fan_event in H.
  { unfold fan_issue in H. destruct dao as [x|]; [|done].
    cbn [fa_chain fa_self fa_creating fan_reply] in H.
    destruct (fc_issue (fa_chain s) d (fa_self s) (fa_self s) (nt_max t) (nt_meta t)) as [c1|] eqn:E1; [|done].
    cbn [fa_chain fa_self fa_creating fan_reply fst snd] in H.
    destruct (fan_all c1 (fa_self s) d (fan_messages t x)) as [c2|] eqn:E2; [|done].
    injection H as <-. cbn [fa_chain]. eauto using fan_books_issue, fan_books_all. }
  all: destruct (negb (a =? fa_self s)%N); [|done].
  all: match type of H with context [match ?q with Ok _ => _ | Err _ => _ end] =>
         destruct q as [c|] eqn:E; [|done] end.
  all: injection H as <-; cbn [fa_chain].
  all: eauto using fan_books_issue, fan_books_mint, fan_books_authority, fan_books_minter, fan_books_send.
Qed.
Lemma fan_books_kept s s' : fan_leads s s' -> fan_books (fa_chain s) -> fan_books (fa_chain s').
Proof. induction 1; eauto using fan_books_event. Qed.

(** Concrete histories of a Condorcet module in a DAO that exchanges its voting module. *)
From stdpp Require Import gmap strings.
From Verif Require Import Base BaseProofs Exec ExecProofs VotingModel VotingSpec CondModel CondSpec
  CondProofs CExchModel CExchSpec CExchProofs CExchClaims.

(** Module 50, a group: accounts 1, 2 and 3 have one vote each.  Module 60, a stake: account 4 has
    three units of a billion, account 5 the others.  Module 70: nobody has anything before height 20,
    then account 1 has everything.  Module 80: account 5 has ten.  Module 90: account 6
    has one. *)
Definition weigh (v a : addr) (h : Z) : Z :=
  if (v =? 50)%N then (if (a =? 1)%N || (a =? 2)%N || (a =? 3)%N then 1 else 0)
  else if (v =? 60)%N then (if (a =? 4)%N then 3 else if (a =? 5)%N then 10 ^ 9 - 3 else 0)
  else if (v =? 70)%N then (if (20 <=? h) && (a =? 1)%N then 100 else 0)
  else if (v =? 80)%N then (if (a =? 5)%N then 10 else 0)
  else if (v =? 90)%N then (if (a =? 6)%N then 1 else 0) else 0.
Definition weigh_all (v : addr) (h : Z) : Z :=
  if (v =? 50)%N then 3 else if (v =? 60)%N then 10 ^ 9
  else if (v =? 70)%N then (if 20 <=? h then 100 else 0) else if (v =? 80)%N then 10
  else if (v =? 90)%N then 1 else 0.
Definition ex_O (v : addr) : oracle :=
  Oracle (fun _ a h => weigh v a h) (fun _ a b _ => weigh v a (height b)) (fun _ b _ => weigh_all v (height b)).

Lemma lsum_within (f : addr -> Z) (ks l : list addr) :
  (forall a, 0 <= f a) -> (forall a, a ∉ ks -> f a = 0) -> NoDup l -> lsum f l <= lsum f ks.
Proof.
  intros Hf Hz Hl.
  assert (lsum f l = lsum f (filter (fun a => a ∈ ks) l)) as ->.
  { clear Hl. induction l as [|x l IH]; [done|]. rewrite filter_cons. simpl.
    destruct (decide (x ∈ ks)) as [Hin|Hin]; simpl; [lia|]. rewrite (Hz x Hin). lia. }
  assert (filter (fun a => a ∈ ks) l ⊆+ ks) as (k & Hk)%submseteq_Permutation.
  { apply NoDup_submseteq; [by apply NoDup_filter|]. by intros x [? _]%elem_of_list_filter. }
  rewrite (lsum_perm _ _ _ Hk), lsum_app. pose proof (lsum_nonneg f k ltac:(auto)). lia.
Qed.
Lemma ex_typed : all_typed ex_O.
Proof.
  intros v. split; cbn [vp tnow ex_O].
  - intros d a h. unfold weigh. repeat case_match; lia.
  - intros d b id. unfold weigh_all, U128_MAX. repeat case_match; lia.
Qed.
Lemma ex_cover : all_cover ex_O.
Proof.
  intros v d b id l Hl. cbn [vp tnow ex_O]. generalize (height b). intros h.
  etransitivity; [apply (lsum_within _ [1; 2; 3; 4; 5; 6]%N); [..|exact Hl]|].
  - intros a. unfold weigh. repeat case_match; lia.
  - intros a Ha. unfold weigh.
    assert ((a =? 1)%N = false /\ (a =? 2)%N = false /\ (a =? 3)%N = false /\ (a =? 4)%N = false /\
      (a =? 5)%N = false /\ (a =? 6)%N = false) as (-> & -> & -> & -> & -> & ->).
    { repeat split; apply N.eqb_neq; intros ->; apply Ha; set_solver. }
    rewrite andb_false_r. simpl. repeat case_match; done.
  - unfold weigh, weigh_all. cbn [lsum].
    destruct (v =? 50)%N; [simpl; lia|]. destruct (v =? 60)%N; [simpl; lia|].
    destruct (v =? 70)%N; [destruct (20 <=? h); simpl; lia|].
    destruct (v =? 80)%N; [simpl; lia|]. destruct (v =? 90)%N; simpl; lia.
Qed.

Definition at_ (h : Z) : block := Block h (h * 5 * NANOS).
(** A majority as quorum, 100 blocks of voting. *)
Definition ex_cfg : config := Config Majority (DHeight 100) None true.
Definition ex_start : xstate := XState (State 9%N ex_cfg ∅ ∅ ∅) 50%N.
Definition ex_run (h : list (block * call xmsg)) := run_hist (xhandle ex_O) xon_fail xon_ok ex_start h.
Definition ex_s h : xstate := fst (ex_run h).
Definition ex_l h : log xstate xmsg sub := snd (ex_run h).
Lemma ex_reached h b :
  hist_ok (at_ 0) h -> block_le (hist_end (at_ 0) h) b -> xreached ex_O b (ex_s h) (ex_l h).
Proof.
  intros Hh Hb. exists (at_ 0), ex_start, h. split; [split; [done|split; [done|split; [done|vm_compute; reflexivity]]]|].
  split; [done|]. split; [|done]. apply surjective_pairing.
Qed.
Definition says (a : addr) (m : msg) : call xmsg := Call a (XCond m) [].
Definition swaps (v : addr) : call xmsg := Call 9%N (XExchange v) [].
(** Two options and "none of the above". *)
Definition proposes (a : addr) : call xmsg := says a (Propose [[7]; [8]]).
Ltac reach := apply ex_reached; [vm_compute; repeat split; discriminate|vm_compute; split; discriminate].

(** Proposal 1 is made in the group; the DAO turns to the stake; account 4 votes and executes. *)
Definition h_small : list (block * call xmsg) :=
  [(at_ 10, proposes 1); (at_ 12, swaps 60); (at_ 13, says 4 (CastVote 1 [0; 1; 2]));
   (at_ 14, says 4 (Execute 1))].
(** Member 1 votes in the group; the DAO turns to a module where only account 5 has power. *)
Definition h_none : list (block * call xmsg) :=
  [(at_ 10, proposes 1); (at_ 11, says 1 (CastVote 1 [1; 0; 2])); (at_ 12, swaps 80)].
(** Votes under two modules: 5 cannot propose, 3 cannot vote twice. *)
Definition h_mixed : list (block * call xmsg) :=
  [(at_ 10, proposes 5); (at_ 10, proposes 1); (at_ 11, says 1 (CastVote 1 [1; 0; 2])); (at_ 12, swaps 90);
   (at_ 13, says 6 (CastVote 1 [0; 1; 2])); (at_ 14, swaps 50); (at_ 15, says 3 (CastVote 1 [2; 0; 1]));
   (at_ 15, says 3 (CastVote 1 [2; 1; 0]))].
(** Passed in the group; when voting is over, the DAO turns to a module that knows no past. *)
Definition h_late : list (block * call xmsg) :=
  [(at_ 10, proposes 1); (at_ 11, says 1 (CastVote 1 [0; 1; 2])); (at_ 11, says 2 (CastVote 1 [0; 2; 1]));
   (at_ 120, swaps 70)].
(** The exchange is what proposal 1 asks for; proposals 2 and 3 are made under the new module. *)
Definition h_calm : list (block * call xmsg) :=
  [(at_ 10, proposes 1); (at_ 11, says 1 (CastVote 1 [0; 1; 2])); (at_ 11, says 2 (CastVote 1 [0; 2; 1]));
   (at_ 12, Call 1%N (XCond (Execute 1)) [Some (0%N, [swaps 60])]);
   (at_ 13, proposes 5); (at_ 14, says 5 (CastVote 2 [1; 0; 2])); (at_ 15, says 5 (Execute 2));
   (at_ 16, proposes 4); (at_ 17, says 4 (CastVote 3 [2; 1; 0]))].
Lemma calm_reached : xreached ex_O (at_ 20) (ex_s h_calm) (ex_l h_calm).
Proof. reach. Qed.
Lemma mixed_reached : xreached ex_O (at_ 20) (ex_s h_mixed) (ex_l h_mixed).
Proof. reach. Qed.
Lemma late_reached : xreached ex_O (at_ 121) (ex_s h_late) (ex_l h_late).
Proof. reach. Qed.

(** Calm, for computed logs. *)
Definition ended (s : state) (b : block) (x : Z * proposal) : bool :=
  match p_status x.2 with CExecuted | CClosed | CExecutionFailed => true | _ => false end ||
  match s_tallies s !! x.1 with Some t => is_expired (t_exp t) b | None => true end.
Definition calm_ev (e : event xstate xmsg sub) : bool :=
  match e with
  | ECall pre b _ (XExchange _) _ _ => forallb (ended (x_s pre) b) (map_to_list (s_props (x_s pre)))
  | _ => true
  end.
Lemma calm_check O l : forallb calm_ev l = true -> calm O l.
Proof.
  intros H pre b v id p t (a & post & subs & He) Hp Ht.
  rewrite forallb_forall in H. specialize (H _ (proj1 (elem_of_list_In _ _) He)). simpl in H.
  rewrite forallb_forall in H. specialize (H (id, p)). unfold ended in H. simpl in H.
  rewrite Ht in H. specialize (H ltac:(apply elem_of_list_In; by apply elem_of_map_to_list)).
  apply orb_true_iff in H as [H'|H']; [left|by right; left]. unfold terminal.
  destruct (p_status p); simpl in H'; try discriminate; tauto.
Qed.
Lemma calm_calm : calm ex_O (ex_l h_calm).
Proof. apply calm_check. vm_compute. reflexivity. Qed.
Lemma late_calm : calm ex_O (ex_l h_late).
Proof. apply calm_check. vm_compute. reflexivity. Qed.

(** ** What goes wrong otherwise *)
(** A share of three in a billion is enough, where the quorum is a majority. *)
Lemma ex_small :
  exists O b xs l a xs' subs p t ms,
    all_typed O /\ all_cover O /\ xreached O b xs l /\
    s_props (x_s xs) !! 1 = Some p /\ s_tallies (x_s xs) !! 1 = Some t /\
    p_quorum p = Majority /\ p_choices p !! 0%nat = Some ms /\ ms <> [] /\
    xhandle O xs b a (XCond (Execute 1)) = Ok (xs', subs) /\
    SExec (s_dao (x_s xs)) 1 ms true ∈ subs /\
    forall v b0, height b0 = t_start t ->
      voted_power (O v) (x_s xs) 1 * 300000000 <= tnow (O v) (s_dao (x_s xs)) b0 1.
Proof.
  set (xs := ex_s (take 3 h_small)).
  destruct (xhandle ex_O xs (at_ 14) 4%N (XCond (Execute 1))) as [[xs' subs]|] eqn:E;
    [|exfalso; revert E; vm_compute; discriminate].
  destruct (s_props (x_s xs) !! 1) as [p|] eqn:Ep; [|exfalso; revert Ep; vm_compute; discriminate].
  destruct (s_tallies (x_s xs) !! 1) as [t|] eqn:Et; [|exfalso; revert Et; vm_compute; discriminate].
  exists ex_O, (at_ 14), xs, (ex_l (take 3 h_small)), 4%N, xs', subs, p, t, [7].
  split; [apply ex_typed|]. split; [apply ex_cover|]. split; [reach|]. split; [exact Ep|]. split; [exact Et|].
  split; [revert Ep; vm_compute; intros [= <-]; reflexivity|].
  split; [revert Ep; vm_compute; intros [= <-]; reflexivity|]. split; [discriminate|]. split; [exact E|].
  split; [revert E; vm_compute; intros [= <- <-]; left|].
  assert (t_start t = 10) as -> by (revert Et; vm_compute; intros [= <-]; reflexivity).
  intros v b0 Hb0.
  assert (voted_power (ex_O v) (x_s xs) 1 = weigh v 4 10) as ->.
  { unfold voted_power. assert (s_votes (x_s xs) = {[(1, 4%N) := [0; 1; 2]]}) as -> by (vm_compute; reflexivity).
    assert (start_of (x_s xs) 1 = 10) as -> by (vm_compute; reflexivity).
    rewrite <- insert_empty, msum_insert_new, msum_empty by apply lookup_empty. simpl. lia. }
  cbn [ex_O tnow]. rewrite Hb0. unfold weigh, weigh_all.
  destruct (v =? 50)%N; [vm_compute; discriminate|]. destruct (v =? 60)%N; [vm_compute; discriminate|].
  destruct (v =? 70)%N; [vm_compute; discriminate|]. destruct (v =? 80)%N; [vm_compute; discriminate|].
  destruct (v =? 90)%N; vm_compute; discriminate.
Qed.
(** Nobody can vote, although voting goes on and there are those with votes. *)
Lemma ex_none :
  exists O b xs l id p t, all_typed O /\ all_cover O /\ xreached O b xs l /\
    s_props (x_s xs) !! id = Some p /\ s_tallies (x_s xs) !! id = Some t /\
    query_status (x_s xs) b id = Ok COpen /\
    (exists a, 0 < vp (O (x_mod xs)) (s_dao (x_s xs)) a (t_start t) /\ s_votes (x_s xs) !! (id, a) = None) /\
    forall b' a r, is_ok (xhandle O xs b' a (XCond (CastVote id r))) = false.
Proof.
  set (xs := ex_s h_none).
  destruct (s_props (x_s xs) !! 1) as [p|] eqn:Ep; [|exfalso; revert Ep; vm_compute; discriminate].
  destruct (s_tallies (x_s xs) !! 1) as [t|] eqn:Et; [|exfalso; revert Et; vm_compute; discriminate].
  exists ex_O, (at_ 20), xs, (ex_l h_none), 1, p, t.
  assert (t_start t = 10 /\ t_outstanding t = 2) as [Es Eo]
    by (revert Et; vm_compute; intros [= <-]; split; reflexivity).
  split; [apply ex_typed|]. split; [apply ex_cover|]. split; [reach|]. split; [exact Ep|]. split; [exact Et|].
  split; [vm_compute; reflexivity|]. split.
  { exists 5%N. rewrite Es. split; vm_compute; reflexivity. }
  intros b' a r. destruct (xhandle _ _ _ _ _) as [[xs' subs]|] eqn:E; [|reflexivity]. exfalso.
  apply xhandle_shape in E as [(m' & [= <-] & E & _)|(? & ? & _)]; [|discriminate].
  cbn [handle] in E. apply vote_shape in E as (t1 & r' & t' & Ht1 & Hvp & _ & _ & _ & Hadd & _).
  rewrite Et in Ht1. injection Ht1 as <-. rewrite Es in *.
  change (weigh 80 a 10 <> 0) in Hvp. change (tally_add_vote t r' (weigh 80 a 10) = Ok t') in Hadd.
  unfold weigh in *. simpl in Hvp, Hadd. destruct (a =? 5)%N; [|done].
  unfold tally_add_vote in Hadd. rewrite Eo in Hadd.
  destruct (record_vote _ _ _ _); discriminate.
Qed.
(** A passed proposal that nobody can execute, though all exchanges are calm. *)
Lemma ex_late :
  exists O b xs l id, all_typed O /\ all_cover O /\ xreached O b xs l /\ calm O l /\
    query_status (x_s xs) b id = Ok (CPassed 0) /\
    forall b' a, is_ok (xhandle O xs b' a (XCond (Execute id))) = false.
Proof.
  set (xs := ex_s h_late).
  destruct (s_tallies (x_s xs) !! 1) as [t|] eqn:Et; [|exfalso; revert Et; vm_compute; discriminate].
  exists ex_O, (at_ 121), xs, (ex_l h_late), 1.
  split; [apply ex_typed|]. split; [apply ex_cover|]. split; [apply late_reached|]. split; [apply late_calm|].
  split; [vm_compute; reflexivity|]. intros b' a.
  assert (t_start t = 10) as Es by (revert Et; vm_compute; intros [= <-]; reflexivity).
  destruct (xhandle _ _ _ _ _) as [[xs' subs]|] eqn:E; [|reflexivity]. exfalso.
  apply xhandle_shape in E as [(m' & [= <-] & E & _)|(? & ? & _)]; [|discriminate].
  cbn [handle] in E. apply execute_shape in E as (t1 & p & w & ms & Ht1 & Hvp & _).
  rewrite Et in Ht1. injection Ht1 as <-. rewrite Es in *. change (weigh 70 a 10 <> 0) in Hvp.
  unfold weigh in Hvp. simpl in Hvp. done.
Qed.

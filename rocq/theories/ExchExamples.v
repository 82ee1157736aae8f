(** Concrete histories of a DAO that exchanges its voting module. *)
From stdpp Require Import gmap strings.
From Verif Require Import Base BaseProofs Exec ExecProofs VotingModel VotingSpec HooksModel SingleModel
  SingleSpec WholeSpec ExchModel ExchSpec ExchProofs ExchClaims SingleProofs.

(** Module 50, a group: accounts 1, 2 and 3 have one vote each.  Module 60, a stake: account 4 has
    four units of a billion, account 5 the others.  Module 70: nobody has anything before height 20,
    then account 1 has everything. *)
Definition weigh (v a : addr) (h : Z) : Z :=
  if (v =? 50)%N then (if (a =? 1)%N || (a =? 2)%N || (a =? 3)%N then 1 else 0)
  else if (v =? 60)%N then (if (a =? 4)%N then 4 else if (a =? 5)%N then 10 ^ 9 - 4 else 0)
  else if (v =? 70)%N then (if (20 <=? h) && (a =? 1)%N then 100 else 0) else 0.
Definition weigh_all (v : addr) (h : Z) : Z :=
  if (v =? 50)%N then 3 else if (v =? 60)%N then 10 ^ 9
  else if (v =? 70)%N then (if 20 <=? h then 100 else 0) else 0.
Definition ex_O (v : addr) : oracle := Oracle (fun _ a h => weigh v a h) (fun _ h => weigh_all v h).

Lemma lsum_within (f : addr -> Z) (ks l : list addr) :
  (forall a, 0 <= f a) -> (forall a, a ∉ ks -> f a = 0) -> NoDup l -> lsum f l <= lsum f ks.
Proof.
  intros Hf Hz Hl.
  assert (lsum f l = lsum f (filter (fun a => a ∈ ks) l)) as ->.
  { clear Hl. induction l as [|x l IH]; [done|]. rewrite filter_cons. simpl.
    destruct (decide (x ∈ ks)) as [Hin|Hin]; simpl; [lia|]. rewrite (Hz x Hin). lia. }
  assert (filter (fun a => a ∈ ks) l ⊆+ ks) as (k & Hk)%submseteq_Permutation.
  { apply NoDup_submseteq; [by apply NoDup_filter|]. by intros x [? _]%elem_of_list_filter. }
  rewrite (lsum_perm _ _ _ Hk), lsum_app. pose proof (lsum_nonneg f k ltac:(auto)). lia.
Qed.
Lemma ex_sane d : all_sane ex_O d.
Proof.
  intros v. unfold ex_O. split; [|split]; cbn [vp tp].
  - intros a h. unfold weigh. repeat case_match; lia.
  - intros h. unfold weigh_all, U128_MAX. repeat case_match; lia.
  - intros h l Hl. etransitivity; [apply (lsum_within _ [1; 2; 3; 4; 5]%N); [..|exact Hl]|].
    + intros a. unfold weigh. repeat case_match; lia.
    + intros a Ha. unfold weigh.
      assert ((a =? 1)%N = false /\ (a =? 2)%N = false /\ (a =? 3)%N = false /\ (a =? 4)%N = false /\
        (a =? 5)%N = false) as (-> & -> & -> & -> & ->).
      { repeat split; apply N.eqb_neq; intros ->; apply Ha; set_solver. }
      rewrite andb_false_r. simpl. repeat case_match; done.
    + unfold weigh, weigh_all. cbn [lsum].
      destruct (v =? 50)%N; [simpl; lia|]. destruct (v =? 60)%N; [simpl; lia|].
      destruct (v =? 70)%N; [|simpl; lia]. destruct (20 <=? h); simpl; lia.
Qed.

Definition at_ (h : Z) : block := Block h (h * 5 * NANOS).
Definition ex_start (c : config) : xstate := XState (State c 0 ∅ ∅ Anyone [] []) 50%N.
Definition ex_run (c : config) (h : list (block * call xmsg)) :=
  run_hist (xhandle ex_O) xon_fail xon_ok (ex_start c) h.
Definition ex_s c h : xstate := fst (ex_run c h).
Definition ex_l c h : log xstate xmsg sub := snd (ex_run c h).
Lemma ex_reached c h b :
  validate_config c = Ok tt -> attached 9 (x_s (ex_start c)) -> hist_ok (at_ 0) h ->
  hist_all (xkeeps 9) h -> block_le (hist_end (at_ 0) h) b ->
  xreached ex_O 9 b (ex_s c h) (ex_l c h).
Proof.
  intros Hc Ha Hh Hk Hb. exists (at_ 0), (ex_start c), h.
  split; [done|]. split; [done|]. split; [done|]. split; [done|].
  split; [|done]. apply surjective_pairing.
Qed.

Definition says (a : addr) (m : msg) : call xmsg := Call a (XSingle m) [].
Definition swaps (v : addr) : call xmsg := Call 9%N (XExchange v) [].
Definition proposes (a : addr) : call xmsg := says a (Propose (ProposeMsg [7] None None true true)).
Definition ex_cfg (t : threshold) (revote members : bool) : config :=
  Config t (DHeight 100) None members revote 9%N true None.
Ltac reach := apply ex_reached; [vm_compute; reflexivity|vm_compute; split; [reflexivity|done]
  |vm_compute; repeat split; discriminate|repeat constructor|vm_compute; split; discriminate].

(** Proposal 1 is made in the group; the DAO turns to the stake; account 4 votes. *)
Definition h_small : list (block * call xmsg) :=
  [(at_ 10, proposes 1); (at_ 12, swaps 60); (at_ 13, says 4 (CastVote 1 Yes None));
   (at_ 14, says 4 (Execute 1))].
Definition c_small := ex_cfg (AbsolutePercentage Majority) false true.
(** As before, with re-voting; account 4 abstains. *)
Definition h_stuck : list (block * call xmsg) :=
  [(at_ 10, proposes 1); (at_ 12, swaps 60); (at_ 13, says 4 (CastVote 1 Abstain None))].
Definition c_stuck := ex_cfg (AbsolutePercentage Majority) true true.
(** Two votes decide. *)
Definition h_count : list (block * call xmsg) := [(at_ 10, proposes 1); (at_ 12, swaps 60)].
Definition c_count := ex_cfg (AbsoluteCount 2) false true.
(** Passed in the group; the DAO turns to a module that knows no past. *)
Definition h_late : list (block * call xmsg) :=
  [(at_ 10, proposes 1); (at_ 11, says 1 (CastVote 1 Yes None)); (at_ 11, says 2 (CastVote 1 Yes None));
   (at_ 12, swaps 70)].
(** The exchange is what proposal 1 asks for; proposals 2 and 3 are made under the new module. *)
Definition h_calm : list (block * call xmsg) :=
  [(at_ 10, proposes 1); (at_ 11, says 1 (CastVote 1 Yes None)); (at_ 11, says 2 (CastVote 1 Yes None));
   (at_ 12, Call 1%N (XSingle (Execute 1)) [Some (0%N, [swaps 60])]);
   (at_ 13, proposes 5); (at_ 14, says 5 (CastVote 2 Yes None)); (at_ 15, says 5 (Execute 2));
   (at_ 16, proposes 4); (at_ 17, says 4 (CastVote 3 No None))].
Lemma small_reached : xreached ex_O 9 (at_ 20) (ex_s c_small h_small) (ex_l c_small h_small).
Proof. reach. Qed.
Lemma stuck_reached : xreached ex_O 9 (at_ 200) (ex_s c_stuck h_stuck) (ex_l c_stuck h_stuck).
Proof. reach. Qed.
Lemma count_reached : xreached ex_O 9 (at_ 20) (ex_s c_count h_count) (ex_l c_count h_count).
Proof. reach. Qed.
Lemma late_reached : xreached ex_O 9 (at_ 20) (ex_s c_small h_late) (ex_l c_small h_late).
Proof. reach. Qed.
Lemma calm_reached : xreached ex_O 9 (at_ 20) (ex_s c_small h_calm) (ex_l c_small h_calm).
Proof. reach. Qed.

(** Calm, for computed logs. *)
Definition ends (p : proposal) (b : block) : bool :=
  is_expired (p_exp p) b ||
  match p_status p with Executed | Closed | Vetoed | ExecutionFailed => true | _ => false end.
Definition calm_ev (e : event xstate xmsg sub) : bool :=
  match e with
  | ECall pre b _ (XExchange _) _ _ => forallb (fun x => ends x.2 b) (map_to_list (s_props (x_s pre)))
  | _ => true
  end.
Lemma calm_check O d l : forallb calm_ev l = true -> calm O d l.
Proof.
  intros H pre b v id p (a & post & subs & He) Hp.
  rewrite forallb_forall in H. specialize (H _ (proj1 (elem_of_list_In _ _) He)). simpl in H.
  rewrite forallb_forall in H. specialize (H (id, p)). simpl in H. unfold ends in H.
  assert (is_expired (p_exp p) b ||
    match p_status p with Executed | Closed | Vetoed | ExecutionFailed => true | _ => false end = true) as H'.
  { apply H. apply elem_of_list_In. by apply elem_of_map_to_list. }
  destruct (is_expired (p_exp p) b); [by right; left|left]. unfold terminal.
  destruct (p_status p); simpl in H'; try discriminate; tauto.
Qed.
Lemma calm_calm : calm ex_O 9 (ex_l c_small h_calm).
Proof. apply calm_check. vm_compute. reflexivity. Qed.

(** ** What goes wrong otherwise *)
(** A share of four in a billion is enough. *)
Lemma ex_small :
  exists O d b xs l a xs' subs p,
    all_sane O d /\ xreached O d b xs l /\ s_props (x_s xs) !! 1 = Some p /\
    p_thr p = AbsolutePercentage Majority /\
    xhandle O xs b a (XSingle (Execute 1)) = Ok (xs', subs) /\
    SExec d 1 (p_msgs p) true ∈ subs /\
    forall v, backing (O v) d (x_s xs) 1 (p_start p) Yes * 250000000 <= tp (O v) d (p_start p).
Proof.
  set (xs := ex_s c_small (take 3 h_small)).
  destruct (xhandle ex_O xs (at_ 14) 4%N (XSingle (Execute 1))) as [[xs' subs]|] eqn:E;
    [|exfalso; revert E; vm_compute; discriminate].
  destruct (s_props (x_s xs) !! 1) as [p|] eqn:Ep; [|exfalso; revert Ep; vm_compute; discriminate].
  exists ex_O, 9%N, (at_ 14), xs, (ex_l c_small (take 3 h_small)), 4%N, xs', subs, p.
  split; [apply ex_sane|]. split; [reach|]. split; [exact Ep|].
  assert (voters (x_s xs) 1 Yes = [4%N]) as Ev by (vm_compute; reflexivity).
  split; [revert Ep; vm_compute; intros [= <-]; reflexivity|]. split; [exact E|].
  split; [revert E Ep; vm_compute; intros [= <- <-] [= <-]; left|].
  assert (p_start p = 10) as -> by (revert Ep; vm_compute; intros [= <-]; reflexivity).
  intros v. unfold backing. rewrite Ev. cbn [lsum ex_O vp tp]. unfold weigh, weigh_all.
  destruct (v =? 50)%N; [vm_compute; discriminate|]. destruct (v =? 60)%N; [vm_compute; discriminate|].
  destruct (v =? 70)%N; vm_compute; discriminate.
Qed.
(** A proposal that can never be ended, whose status cannot be told, and which takes the list of
    proposals with it. *)
Definition p_stuck : proposal := default (Proposal 0 0 None (AtHeight 0) (AbsoluteCount 0) 0 [] Open (Votes 0 0 0) false None) (s_props (x_s (ex_s c_stuck h_stuck)) !! 1).
Lemma dead_stuck : dead p_stuck (at_ 200).
Proof.
  split; [vm_compute; reflexivity|]. intros [h t] st Hb.
  assert (is_expired (p_exp p_stuck) (Block h t) = true) as Hx
    by (eapply is_expired_mono; [exact Hb|vm_compute; reflexivity]).
  clear Hb. revert Hx. vm_compute. intros ->. discriminate.
Qed.
Lemma ex_stuck :
  exists O d b xs l id, all_sane O d /\ xreached O d b xs l /\ is_Some (s_props (x_s xs) !! id) /\
    forall b' xs' l', xlater O d b xs b' xs' l' ->
      is_ok (query_status (x_s xs') b' id) = false /\
      (forall limit, is_ok (query_list (x_s xs') b' 0 (S limit)) = false) /\
      (forall a m, (exists v r, m = CastVote id v r) \/ m = Execute id \/ m = Close id \/ m = Veto id ->
         is_ok (xhandle O xs' b' a (XSingle m)) = false).
Proof.
  assert (s_props (x_s (ex_s c_stuck h_stuck)) !! 1 = Some p_stuck) as Ep by (vm_compute; reflexivity).
  exists ex_O, 9%N, (at_ 200), (ex_s c_stuck h_stuck), (ex_l c_stuck h_stuck), 1.
  split; [apply ex_sane|]. split; [apply stuck_reached|]. split; [rewrite Ep; exact (mk_is_Some _ _ eq_refl)|].
  exact (dead_all _ _ _ _ _ _ stuck_reached Ep dead_stuck).
Qed.
(** Who has votes may vote yes, but neither no nor abstain. *)
Lemma ex_count :
  exists O d b xs l id a, all_sane O d /\ xreached O d b xs l /\ is_Some (s_props (x_s xs) !! id) /\
    is_ok (xhandle O xs b a (XSingle (CastVote id Yes None))) = true /\
    is_ok (xhandle O xs b a (XSingle (CastVote id No None))) = false /\
    is_ok (xhandle O xs b a (XSingle (CastVote id Abstain None))) = false.
Proof.
  exists ex_O, 9%N, (at_ 20), (ex_s c_count h_count), (ex_l c_count h_count), 1, 4%N.
  split; [apply ex_sane|]. split; [apply count_reached|]. split; [vm_compute; eauto|].
  split; [|split]; vm_compute; reflexivity.
Qed.
(** A passed proposal that nobody can execute, although its three voters all wanted it. *)
Lemma ex_late :
  exists O d b xs l id, all_sane O d /\ xreached O d b xs l /\
    query_status (x_s xs) b id = Ok Passed /\
    forall b' a, is_ok (xhandle O xs b' a (XSingle (Execute id))) = false.
Proof.
  exists ex_O, 9%N, (at_ 20), (ex_s c_small h_late), (ex_l c_small h_late), 1.
  split; [apply ex_sane|]. split; [apply late_reached|]. split; [vm_compute; reflexivity|].
  assert (exists p, s_props (x_s (ex_s c_small h_late)) !! 1 = Some p /\ p_veto p = None /\ p_start p = 10)
    as (p & Hp & Hv & Hs).
  { vm_compute. eexists. split; [reflexivity|]. split; reflexivity. }
  refine (nobody_executes _ _ _ p Hp Hv _ _); [vm_compute; reflexivity|].
  rewrite Hs. intros a. vm_compute. reflexivity.
Qed.

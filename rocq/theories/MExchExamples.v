(** Concrete histories of a multiple-choice module in a DAO that exchanges its voting module. *)
From stdpp Require Import gmap strings.
From Verif Require Import Base BaseProofs Exec ExecProofs VotingModel VotingSpec HooksModel MultModel
  MultSpec MExchModel MExchSpec MExchProofs MExchClaims MultProofs.

(** Module 50, a group: accounts 1, 2 and 3 have one vote each.  Module 60, a stake: account 4 has
    four units of a billion, account 5 the others.  Module 70: nobody has anything before height 20,
    then account 1 has everything. *)
Definition weigh (v a : addr) (h : Z) : Z :=
  if (v =? 50)%N then (if (a =? 1)%N || (a =? 2)%N || (a =? 3)%N then 1 else 0)
  else if (v =? 60)%N then (if (a =? 4)%N then 4 else if (a =? 5)%N then 10 ^ 9 - 4 else 0)
  else if (v =? 70)%N then (if (20 <=? h) && (a =? 1)%N then 100 else 0) else 0.
Definition weigh_all (v : addr) (h : Z) : Z :=
  if (v =? 50)%N then 3 else if (v =? 60)%N then 10 ^ 9
  else if (v =? 70)%N then (if 20 <=? h then 100 else 0) else 0.
Definition ex_O (v : addr) : oracle := Oracle (fun _ a h => weigh v a h) (fun _ b _ => weigh_all v (height b)).

Lemma lsum_within (f : addr -> Z) (ks l : list addr) :
  (forall a, 0 <= f a) -> (forall a, a ∉ ks -> f a = 0) -> NoDup l -> lsum f l <= lsum f ks.
Proof.
  intros Hf Hz Hl.
  assert (lsum f l = lsum f (filter (fun a => a ∈ ks) l)) as ->.
  { clear Hl. induction l as [|x l IH]; [done|]. rewrite filter_cons. simpl.
    destruct (decide (x ∈ ks)) as [Hin|Hin]; simpl; [lia|]. rewrite (Hz x Hin). lia. }
  assert (filter (fun a => a ∈ ks) l ⊆+ ks) as (k & Hk)%submseteq_Permutation.
  { apply NoDup_submseteq; [by apply NoDup_filter|]. by intros x [? _]%elem_of_list_filter. }
  rewrite (lsum_perm _ _ _ Hk), lsum_app. pose proof (lsum_nonneg f k ltac:(auto)). lia.
Qed.
Lemma ex_sane d : all_sane ex_O d.
Proof.
  intros v. unfold ex_O. split; [|split]; cbn [vp tnow].
  - intros a h. unfold weigh. repeat case_match; lia.
  - intros b id. unfold weigh_all, U128_MAX. repeat case_match; lia.
  - intros b id l Hl. generalize (height b). intros h. etransitivity; [apply (lsum_within _ [1; 2; 3; 4; 5]%N); [..|exact Hl]|].
    + intros a. unfold weigh. repeat case_match; lia.
    + intros a Ha. unfold weigh.
      assert ((a =? 1)%N = false /\ (a =? 2)%N = false /\ (a =? 3)%N = false /\ (a =? 4)%N = false /\
        (a =? 5)%N = false) as (-> & -> & -> & -> & ->).
      { repeat split; apply N.eqb_neq; intros ->; apply Ha; set_solver. }
      rewrite andb_false_r. simpl. repeat case_match; done.
    + unfold weigh, weigh_all. cbn [lsum].
      destruct (v =? 50)%N; [simpl; lia|]. destruct (v =? 60)%N; [simpl; lia|].
      destruct (v =? 70)%N; [|simpl; lia]. destruct (20 <=? h); simpl; lia.
Qed.

Definition at_ (h : Z) : block := Block h (h * 5 * NANOS).
Definition ex_start (c : config) : xstate := XState (State c 0 ∅ ∅ Anyone [] []) 50%N.
Definition ex_run (c : config) (h : list (block * call xmsg)) :=
  run_hist (xhandle ex_O) xon_fail xon_ok (ex_start c) h.
Definition ex_s c h : xstate := fst (ex_run c h).
Definition ex_l c h : log xstate xmsg sub := snd (ex_run c h).
Lemma ex_reached c h b :
  validate_config c = Ok tt -> attached 9 (x_s (ex_start c)) -> hist_ok (at_ 0) h ->
  hist_all (xkeeps 9) h -> block_le (hist_end (at_ 0) h) b ->
  xreached ex_O 9 b (ex_s c h) (ex_l c h).
Proof.
  intros Hc Ha Hh Hk Hb. exists (at_ 0), (ex_start c), h.
  split; [done|]. split; [done|]. split; [done|]. split; [done|].
  split; [|done]. apply surjective_pairing.
Qed.

Definition says (a : addr) (m : msg) : call xmsg := Call a (XMult m) [].
Definition swaps (v : addr) : call xmsg := Call 9%N (XExchange v) [].
(** Two options and "none of the above". *)
Definition proposes (a : addr) : call xmsg :=
  says a (Propose (ProposeMsg [[7]; [8]] None None true true)).
Definition ex_cfg (min : option duration) (revote : bool) : config :=
  Config Majority (DHeight 100) min true revote 9%N true None.
Ltac reach := apply ex_reached; [vm_compute; reflexivity|vm_compute; split; [reflexivity|done]
  |vm_compute; repeat split; discriminate|repeat constructor|vm_compute; split; discriminate].

(** Proposal 1 is made in the group; the DAO turns to the stake; account 4 votes. *)
Definition h_small : list (block * call xmsg) :=
  [(at_ 10, proposes 1); (at_ 12, swaps 60); (at_ 13, says 4 (CastVote 1 0 None));
   (at_ 120, says 4 (Execute 1))].
Definition c_small := ex_cfg None true.
Definition c_once := ex_cfg None false.
Definition c_min := ex_cfg (Some (DHeight 10)) false.
(** Passed in the group; the DAO turns to a module that knows no past. *)
Definition h_late : list (block * call xmsg) :=
  [(at_ 10, proposes 1); (at_ 11, says 1 (CastVote 1 0 None)); (at_ 11, says 2 (CastVote 1 0 None));
   (at_ 12, swaps 70)].
(** The exchange is what proposal 1 asks for; proposals 2 and 3 are made under the new module. *)
Definition h_calm : list (block * call xmsg) :=
  [(at_ 10, proposes 1); (at_ 11, says 1 (CastVote 1 0 None)); (at_ 11, says 2 (CastVote 1 0 None));
   (at_ 12, Call 1%N (XMult (Execute 1)) [Some (0%N, [swaps 60])]);
   (at_ 13, proposes 5); (at_ 14, says 5 (CastVote 2 1 None)); (at_ 15, says 5 (Execute 2));
   (at_ 16, proposes 4); (at_ 17, says 4 (CastVote 3 2 None))].
Lemma small_reached : xreached ex_O 9 (at_ 120) (ex_s c_small h_small) (ex_l c_small h_small).
Proof. reach. Qed.
Lemma once_reached : xreached ex_O 9 (at_ 20) (ex_s c_once (take 2 h_small)) (ex_l c_once (take 2 h_small)).
Proof. reach. Qed.
Lemma min_reached : xreached ex_O 9 (at_ 30) (ex_s c_min (take 3 h_small)) (ex_l c_min (take 3 h_small)).
Proof. reach. Qed.
Lemma late_reached : xreached ex_O 9 (at_ 20) (ex_s c_once h_late) (ex_l c_once h_late).
Proof. reach. Qed.
Lemma calm_reached : xreached ex_O 9 (at_ 20) (ex_s c_once h_calm) (ex_l c_once h_calm).
Proof. reach. Qed.

(** Calm, for computed logs. *)
Definition ends (p : proposal) (b : block) : bool :=
  is_expired (p_exp p) b ||
  match p_status p with Executed | Closed | Vetoed | ExecutionFailed => true | _ => false end.
Definition calm_ev (e : event xstate xmsg sub) : bool :=
  match e with
  | ECall pre b _ (XExchange _) _ _ => forallb (fun x => ends x.2 b) (map_to_list (s_props (x_s pre)))
  | _ => true
  end.
Lemma calm_check O d l : forallb calm_ev l = true -> calm O d l.
Proof.
  intros H pre b v id p (a & post & subs & He) Hp.
  rewrite forallb_forall in H. specialize (H _ (proj1 (elem_of_list_In _ _) He)). simpl in H.
  rewrite forallb_forall in H. specialize (H (id, p)). simpl in H. unfold ends in H.
  assert (is_expired (p_exp p) b ||
    match p_status p with Executed | Closed | Vetoed | ExecutionFailed => true | _ => false end = true) as H'.
  { apply H. apply elem_of_list_In. by apply elem_of_map_to_list. }
  destruct (is_expired (p_exp p) b); [by right; left|left]. unfold terminal.
  destruct (p_status p); simpl in H'; try discriminate; tauto.
Qed.
Lemma calm_calm : calm ex_O 9 (ex_l c_once h_calm).
Proof. apply calm_check. vm_compute. reflexivity. Qed.

(** ** What goes wrong otherwise *)
(** A share of four in a billion is enough, where the quorum is a majority. *)
Lemma ex_small :
  exists O d b xs l a xs' subs p ch,
    all_sane O d /\ xreached O d b xs l /\ s_props (x_s xs) !! 1 = Some p /\
    p_quorum p = Majority /\ p_choices p !! 0%nat = Some ch /\
    xhandle O xs b a (XMult (Execute 1)) = Ok (xs', subs) /\
    SExec d 1 (ch_msgs ch) true ∈ subs /\
    forall v b0, height b0 = p_start p ->
      backing_all (O v) d (x_s xs) 1 (p_start p) * 250000000 <= tnow (O v) d b0 1.
Proof.
  set (xs := ex_s c_small (take 3 h_small)).
  destruct (xhandle ex_O xs (at_ 120) 4%N (XMult (Execute 1))) as [[xs' subs]|] eqn:E;
    [|exfalso; revert E; vm_compute; discriminate].
  destruct (s_props (x_s xs) !! 1) as [p|] eqn:Ep; [|exfalso; revert Ep; vm_compute; discriminate].
  destruct (p_choices p !! 0%nat) as [ch|] eqn:Ec;
    [|exfalso; revert Ep Ec; vm_compute; intros [= <-]; discriminate].
  exists ex_O, 9%N, (at_ 120), xs, (ex_l c_small (take 3 h_small)), 4%N, xs', subs, p, ch.
  split; [apply ex_sane|]. split; [reach|]. split; [exact Ep|].
  assert (MWholeSpec.voters_by (x_s xs) 1 (fun _ => True) = [4%N]) as Ev by (vm_compute; reflexivity).
  split; [revert Ep; vm_compute; intros [= <-]; reflexivity|]. split; [exact Ec|]. split; [exact E|].
  split; [revert E Ep Ec; vm_compute; intros [= <- <-] [= <-] [= <-]; left|].
  assert (p_start p = 10) as -> by (revert Ep; vm_compute; intros [= <-]; reflexivity).
  intros v b0 Hb0. unfold backing_all. rewrite Ev. cbn [lsum ex_O vp tnow]. rewrite Hb0. unfold weigh, weigh_all.
  destruct (v =? 50)%N; [vm_compute; discriminate|]. destruct (v =? 60)%N; [vm_compute; discriminate|].
  destruct (v =? 70)%N; vm_compute; discriminate.
Qed.
(** Nobody can vote, although voting goes on and there are those with votes. *)
Lemma ex_once :
  exists O d b xs l id p, all_sane O d /\ xreached O d b xs l /\
    s_props (x_s xs) !! id = Some p /\ query_status (x_s xs) b id = Ok Open /\
    (exists a, 0 < vp (O (x_mod xs)) d a (p_start p)) /\
    (forall a, s_ballots (x_s xs) !! (id, a) = None) /\
    forall a v r, is_ok (xhandle O xs b a (XMult (CastVote id v r))) = false.
Proof.
  destruct (s_props (x_s (ex_s c_once (take 2 h_small))) !! 1) as [p|] eqn:Ep;
    [|exfalso; revert Ep; vm_compute; discriminate].
  exists ex_O, 9%N, (at_ 20), (ex_s c_once (take 2 h_small)), (ex_l c_once (take 2 h_small)), 1, p.
  assert (p_start p = 10 /\ length (p_choices p) = 3%nat) as [Es El]
    by (revert Ep; vm_compute; intros [= <-]; split; reflexivity).
  split; [apply ex_sane|]. split; [apply once_reached|]. split; [exact Ep|].
  split; [vm_compute; reflexivity|]. split.
  { exists 4%N. rewrite Es. vm_compute. reflexivity. }
  split; [intros a; vm_compute; reflexivity|]. intros a v r.
  destruct (xhandle _ _ _ _ _) as [[xs' subs]|] eqn:E; [|reflexivity]. exfalso.
  apply xhandle_shape in E as [(m' & [= <-] & E & _)|(? & ? & _)]; [|discriminate].
  assert (a = 4%N \/ a = 5%N) as Ha.
  { apply execute_vote_shape in E as (q & ? & ? & Hq & _ & _ & Hp & _). rewrite Ep in Hq. injection Hq as <-.
    rewrite Es in Hp. change (weigh 60 a 10 <> 0) in Hp. unfold weigh in Hp. simpl in Hp.
    destruct (a =? 4)%N eqn:E4; [apply N.eqb_eq in E4; by left|].
    destruct (a =? 5)%N eqn:E5; [apply N.eqb_eq in E5; by right|]. done. }
  assert (v = 0 \/ v = 1 \/ v = 2)%nat as Hv.
  { apply execute_vote_shape in E as (q & ? & ? & Hq & Hl & _). rewrite Ep in Hq. injection Hq as <-. lia. }
  clear Ep Es El. destruct Ha as [-> | ->]; destruct Hv as [->|[->| ->]]; revert E; vm_compute; discriminate.
Qed.
(** Neither status nor list can be told until voting ends, and the proposal can meanwhile not be executed. *)
Lemma ex_min :
  exists O d b xs l id, all_sane O d /\ xreached O d b xs l /\ is_Some (s_props (x_s xs) !! id) /\
    is_ok (query_status (x_s xs) b id) = false /\ is_ok (query_list (x_s xs) b 0 30) = false /\
    forall a, is_ok (xhandle O xs b a (XMult (Execute id))) = false /\
      is_ok (xhandle O xs b a (XMult (Close id))) = false.
Proof.
  exists ex_O, 9%N, (at_ 30), (ex_s c_min (take 3 h_small)), (ex_l c_min (take 3 h_small)), 1.
  split; [apply ex_sane|]. split; [apply min_reached|]. split; [vm_compute; eauto|].
  split; [vm_compute; reflexivity|]. split; [vm_compute; reflexivity|].
  intros a. split; vm_compute; reflexivity.
Qed.
(** A passed proposal that nobody can execute. *)
Lemma ex_late :
  exists O d b xs l id, all_sane O d /\ xreached O d b xs l /\
    query_status (x_s xs) b id = Ok Passed /\
    forall b' a, is_ok (xhandle O xs b' a (XMult (Execute id))) = false.
Proof.
  exists ex_O, 9%N, (at_ 20), (ex_s c_once h_late), (ex_l c_once h_late), 1.
  split; [apply ex_sane|]. split; [apply late_reached|]. split; [vm_compute; reflexivity|].
  assert (exists p, s_props (x_s (ex_s c_once h_late)) !! 1 = Some p /\ p_veto p = None /\ p_start p = 10)
    as (p & Hp & Hv & Hs).
  { vm_compute. eexists. split; [reflexivity|]. split; reflexivity. }
  refine (nobody_executes _ _ _ p Hp Hv _ _); [vm_compute; reflexivity|].
  rewrite Hs. intros a. vm_compute. reflexivity.
Qed.

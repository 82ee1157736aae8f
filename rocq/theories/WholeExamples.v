(** Histories of a DAO with staked tokens, for the examples, and a refutation. *)
From stdpp Require Import gmap strings.
From Verif Require Import Base BaseProofs Exec Plain PlainProofs VotingModel VotingSpec HooksModel
  SingleModel SingleSpec SingleExamples CoreModel CoreSpec DaoModel DaoSpec DaoProofs DaoExamples
  StoreModel JointModel JointSpec WholeModel WholeSpec WholeProofs WholeClaims.
From Verif Require TokModel TokSpec TokProofs TokExamples.

(** As in [DaoExamples]: DAO 9, its own admin, module 60.  Message 13 is for the voting module:
    withdrawals take ten blocks from now on. *)
Definition wx_K : codes :=
  Codes (fun z => if z =? 13 then inr 300%N else dx_acts z) (call_of dx_K).
Definition wx_v (n : N) : option TokModel.tmsg :=
  if (n =? 300)%N then Some (TokModel.TUpdateConfig (Some (DHeight 10))) else None.
(** More than half of everything must say yes. *)
Definition wx_cfg : config :=
  Config (AbsolutePercentage Majority) (DHeight 100) None false false 9 true None.
(** Half must vote, and more of them yes than no. *)
Definition wx_quorum : config :=
  Config (ThresholdQuorum Majority (Percent (5 * 10 ^ 17))) (DHeight 100) None false false 9 true None.
Notation wtok := (@whole TokModel.tstate).
Notation wlog := (list (@wentry TokModel.tstate TokModel.tmsg)).
Definition wx_s0 (c : config) : wtok := Whole (dx_s0 c) (TokExamples.tini None None).
Lemma wx_start c : validate_config c = Ok tt -> attached 9 (ex_state c) ->
  tok_start (at_ 1) (wx_s0 c).
Proof.
  intros Hc Ha. split; [by apply dx_dstart|]. exists [].
  exists (at_ 1), 9%N, 5%N, (TokModel.ExistingToken 1000), None, None, (TokExamples.tini None None).
  do 3 (split; [vm_compute; reflexivity|]). apply leads_refl, block_le_refl.
Qed.
Lemma wx_sov c : sovereign (w_dao (wx_s0 c)).
Proof. apply dx_sov. Qed.

Definition wx_fine (s : wtok) (e : @wevent TokModel.tmsg) (s' : wtok) : bool :=
  bool_decide (k_voting (d_core (w_dao s')) = k_voting (d_core (w_dao s))) &&
  match e with
  | WDao e => match heard wx_K (w_dao s) e with Some (_, UpdateConfig _) => false | _ => true end
  | WVote _ _ => true
  end.
Fixpoint wrun (b : block) (s : wtok) (evs : list (block * @wevent TokModel.tmsg))
  : option (block * wtok * wlog) :=
  match evs with
  | [] => Some (b, s, [])
  | (b', v) :: evs =>
      if (height b <=? height b') && (time b <=? time b') &&
         match d_todo (w_dao s) with [] => true | _ => (height b =? height b') && (time b =? time b') end
      then
        match w_event TokModel.t_handle tpow ttot wx_v wx_K s b' v with
        | Ok s' =>
            if wx_fine s v s' then
              match wrun b' s' evs with
              | Some (b'', s'', l) => Some (b'', s'', WEntry s b' v s' :: l)
              | None => None
              end
            else None
        | Err _ => None
        end
      else None
  end.
Lemma wrun_leads evs : forall b0 s0 b s l0 b' s' l, tok_leads wx_v wx_K b0 s0 b s l0 ->
  wrun b s evs = Some (b', s', l) -> tok_leads wx_v wx_K b0 s0 b' s' (l0 ++ l).
Proof.
  induction evs as [|[b1 v] evs IH]; intros b0 s0 b s l0 b' s' l H E; cbn [wrun] in E.
  { injection E as <- <- <-. by rewrite app_nil_r. }
  match type of E with (if ?x then _ else _) = _ => destruct x eqn:G; [|done] end.
  apply andb_true_iff in G as [G Gt]. apply andb_true_iff in G as [G1 G2].
  destruct (w_event _ _ _ _ _ s b1 v) as [s1|] eqn:Ev; [|done].
  destruct (wx_fine s v s1) eqn:F; [|done].
  destruct (wrun b1 s1 evs) as [[[b2 s2] l2]|] eqn:Er; [|done]. injection E as <- <- <-.
  unfold wx_fine in F. apply andb_true_iff in F as [F1 F2]. apply bool_decide_eq_true in F1.
  assert (tok_leads wx_v wx_K b0 s0 b1 s1 (l0 ++ [WEntry s b1 v s1])) as H1.
  { apply wl_step with b; try done.
    - split; lia.
    - destruct (d_todo (w_dao s)); [by left|]. right. destruct b, b1. cbn in Gt. f_equal; lia.
    - intros e' -> a m Hm. rewrite Hm in F2. destruct m; done. }
  specialize (IH _ _ _ _ _ _ _ _ H1 Er). by rewrite <-app_assoc in IH.
Qed.
Definition wx_of (c : config) (evs : list (block * @wevent TokModel.tmsg)) : block * wtok * wlog :=
  match wrun (at_ 1) (wx_s0 c) evs with
  | Some x => x
  | None => (Block 0 0, wx_s0 c, [])
  end.
Lemma wx_leads c evs : is_Some (wrun (at_ 1) (wx_s0 c) evs) ->
  tok_leads wx_v wx_K (at_ 1) (wx_s0 c) (wx_of c evs).1.1 (wx_of c evs).1.2 (wx_of c evs).2.
Proof.
  intros [[[b s] l] E]. unfold wx_of. rewrite E. cbn.
  apply (wrun_leads evs _ _ (at_ 1) (wx_s0 c) [] b s l); [constructor|done].
Qed.

(** Members 1, 2, 3 and 4 stake 45, 30, 10 and 15 in block 2. *)
Notation stake a n := (WVote a%N (TokModel.TStake [(5%N, n)])).
Definition wx_staked : list (block * @wevent TokModel.tmsg) :=
  [(at_ 2, stake 1 45); (at_ 2, stake 2 30); (at_ 2, stake 3 10); (at_ 2, stake 4 15)].
(** Members 1 and 4 pass a proposal in which the DAO sets an item and reconfigures the voting
    module; in between member 1 withdraws everything and 2 stakes more. *)
Definition wx_passed : list (block * @wevent TokModel.tmsg) :=
  wx_staked ++
  [ (at_ 10, stake 4 100);
    (at_ 10, WDao (DProp 1 (Propose (ex_pm [7; 13] (Some (Yes, None))))));
    (at_ 10, WVote 1%N (TokModel.TUnstake 45)); (at_ 11, stake 2 400);
    (at_ 12, WDao (DProp 4 (CastVote 1 Yes None)));
    (at_ 13, WDao (DProp 3 (Execute 1))); (at_ 13, WDao DRun); (at_ 13, WDao DSelf);
    (at_ 13, WDao DSend); (at_ 13, WDao (DOver 0)) ].
(** Members 2 and 3 propose and vote yes, 4 votes no; nothing comes of it. *)
Definition wx_refused : list (block * @wevent TokModel.tmsg) :=
  wx_staked ++
  [ (at_ 10, WDao (DProp 2 (Propose (ex_pm [7] (Some (Yes, None))))));
    (at_ 11, WDao (DProp 3 (CastVote 1 Yes None))); (at_ 12, WDao (DProp 4 (CastVote 1 No None)));
    (at_ 200, WDao (DProp 2 (Close 1))) ].
(** The same, where half must vote: executed when voting is over. *)
Definition wx_helped : list (block * @wevent TokModel.tmsg) :=
  wx_staked ++
  [ (at_ 10, WDao (DProp 2 (Propose (ex_pm [7] (Some (Yes, None))))));
    (at_ 11, WDao (DProp 3 (CastVote 1 Yes None))); (at_ 12, WDao (DProp 4 (CastVote 1 No None)));
    (at_ 200, WDao (DProp 2 (Execute 1))); (at_ 200, WDao DRun); (at_ 200, WDao DSelf);
    (at_ 200, WDao (DOver 0)) ].

Lemma wx_runs1 : is_Some (wrun (at_ 1) (wx_s0 wx_cfg) wx_passed).
Proof. apply is_some_true. vm_compute. reflexivity. Qed.
Lemma wx_runs2 : is_Some (wrun (at_ 1) (wx_s0 wx_cfg) wx_refused).
Proof. apply is_some_true. vm_compute. reflexivity. Qed.
Lemma wx_runs3 : is_Some (wrun (at_ 1) (wx_s0 wx_quorum) wx_helped).
Proof. apply is_some_true. vm_compute. reflexivity. Qed.
Lemma wx_reached c evs : validate_config c = Ok tt -> attached 9 (ex_state c) ->
  is_Some (wrun (at_ 1) (wx_s0 c) evs) ->
  tok_reached wx_v wx_K (wx_of c evs).1.1 (wx_of c evs).1.2 (wx_of c evs).2.
Proof.
  intros Hc Ha Hr. exists (at_ 1), (wx_s0 c). split; [by apply wx_start|]. by apply wx_leads.
Qed.

(** Members 2 and 3 have 40 of 100 from the end of block 2 on. *)
Lemma wx_shares (s : TokModel.tstate) h :
  smap_snap (TokModel.t_bals s) 2 = Snap (Some 30) [(2, None)] ->
  smap_snap (TokModel.t_bals s) 3 = Snap (Some 10) [(2, None)] ->
  TokModel.t_total s = Snap (Some 100) [(2, None)] ->
  lsum (fun a => tpow s a h) [2; 3]%N = (if h <=? 2 then 0 else 40) /\
  ttot s h = (if h <=? 2 then 0 else 100).
Proof.
  intros E2 E3 Et. cbn [lsum]. unfold tpow, ttot, TokModel.t_power_at, TokModel.t_total_at, smap_at, snap_get_at.
  rewrite E2, E3, Et. unfold snap_at. cbn. destruct (h <=? 2); done.
Qed.
Lemma wx_short s b r :
  smap_snap (TokModel.t_bals s) 2 = Snap (Some 30) [(2, None)] ->
  smap_snap (TokModel.t_bals s) 3 = Snap (Some 10) [(2, None)] ->
  TokModel.t_total s = Snap (Some 100) [(2, None)] ->
  ~ outcome_near r 0 (Votes 0 0 0) -> ~ outcome_near r 100 (Votes 40 0 0) ->
  short tpow ttot s b r [2; 3]%N.
Proof.
  intros E2 E3 Et H0 H1 h _. destruct (wx_shares s h E2 E3 Et) as [-> ->]. by destruct (h <=? 2).
Qed.
Definition wx_decl (e : @wentry TokModel.tstate TokModel.tmsg) : bool :=
  forallb (fun x : Z * addr * ballot => (x.1.2 =? 2)%N || (x.1.2 =? 3)%N ||
      match bl_vote x.2 with No => true | _ => false end)
    (map_to_list (s_ballots (d_prop (w_dao (we_pre e))))).
Lemma wx_declined e : wx_decl e = true -> others_decline [2; 3]%N (d_prop (w_dao (we_pre e))).
Proof.
  intros H id a bl Hb. unfold wx_decl in H. rewrite forallb_forall in H.
  specialize (H ((id, a), bl)). rewrite <-elem_of_list_In in H.
  specialize (H (proj2 (elem_of_map_to_list _ _ _) Hb)). cbn in H.
  apply orb_true_iff in H as [H|H].
  - left. apply orb_true_iff in H as [H|H]; apply N.eqb_eq in H as ->; [left|right; left].
  - right. by destruct (bl_vote bl).
Qed.
Lemma wx_all_declined (l : wlog) : forallb wx_decl l = true ->
  forall e, e ∈ l -> others_decline [2; 3]%N (d_prop (w_dao (we_pre e))).
Proof.
  intros H e He. rewrite forallb_forall in H. apply wx_declined, H. by apply elem_of_list_In.
Qed.
(** Where a quorum is asked for, those who vote no can make up for it: members 2 and 3 would
    not have had enough, but 4's no makes the DAO act. *)
Lemma c119_quorum_refuted :
  exists for_v K b0 s0 b s l C,
    tok_start b0 s0 /\ sovereign (w_dao s0) /\ tok_leads for_v K b0 s0 b s l /\
    at_least_billionth (c_thr (s_cfg (d_prop (w_dao s0)))) /\
    short tpow ttot (w_v s) b (c_thr (s_cfg (d_prop (w_dao s0)))) C /\
    (forall e, e ∈ l -> others_decline C (d_prop (w_dao (we_pre e)))) /\
    exists e d, e ∈ l /\ dao_entry e = Some d /\ act d <> None.
Proof.
  exists wx_v, wx_K, (at_ 1), (wx_s0 wx_quorum), (wx_of wx_quorum wx_helped).1.1,
    (wx_of wx_quorum wx_helped).1.2, (wx_of wx_quorum wx_helped).2, [2; 3]%N.
  split; [apply wx_start; [reflexivity|by vm_compute]|]. split; [apply wx_sov|].
  split; [apply wx_leads, wx_runs3|]. split; [exact I|]. split.
  { apply wx_short.
    - vm_compute; reflexivity.
    - vm_compute; reflexivity.
    - vm_compute; reflexivity.
    - cbn. unfold share_near, cast. cbn. lia.
    - cbn. unfold share_near, cast. cbn. lia. }
  split; [apply wx_all_declined; vm_compute; reflexivity|].
  assert (match (wx_of wx_quorum wx_helped).2 !! 9%nat with
    | Some e => match dao_entry e with
      | Some d => match act d with Some _ => true | None => false end | None => false end
    | None => false end = true) as C by (vm_compute; reflexivity).
  destruct ((wx_of wx_quorum wx_helped).2 !! 9%nat) as [e|] eqn:E; [|discriminate].
  destruct (dao_entry e) as [d|] eqn:Ed; [|discriminate].
  exists e, d. split; [by apply (elem_of_list_lookup_2 _ 9)|]. split; [done|].
  destruct (act d); [discriminate|clear - C; discriminate].
Qed.

(** Members 3 and 4 vote yes, 2 votes no. *)
Definition wx_outvoted : list (block * @wevent TokModel.tmsg) :=
  wx_staked ++
  [ (at_ 10, WDao (DProp 3 (Propose (ex_pm [7] (Some (Yes, None))))));
    (at_ 11, WDao (DProp 4 (CastVote 1 Yes None))); (at_ 12, WDao (DProp 2 (CastVote 1 No None)));
    (at_ 200, WDao (DProp 3 (Close 1))) ].
Lemma wx_runs4 : is_Some (wrun (at_ 1) (wx_s0 wx_quorum) wx_outvoted).
Proof. apply is_some_true. vm_compute. reflexivity. Qed.
Lemma wx_shares2 (s : TokModel.tstate) h :
  smap_snap (TokModel.t_bals s) 3 = Snap (Some 10) [(2, None)] ->
  smap_snap (TokModel.t_bals s) 4 = Snap (Some 15) [(2, None)] ->
  TokModel.t_total s = Snap (Some 100) [(2, None)] ->
  lsum (fun a => tpow s a h) [3; 4]%N = (if h <=? 2 then 0 else 25) /\
  ttot s h = (if h <=? 2 then 0 else 100).
Proof.
  intros E2 E3 Et. cbn [lsum]. unfold tpow, ttot, TokModel.t_power_at, TokModel.t_total_at, smap_at, snap_get_at.
  rewrite E2, E3, Et. unfold snap_at. cbn. destruct (h <=? 2); done.
Qed.
Definition wx_decl2 (e : @wentry TokModel.tstate TokModel.tmsg) : bool :=
  forallb (fun x : Z * addr * ballot => (x.1.2 =? 3)%N || (x.1.2 =? 4)%N ||
      match bl_vote x.2 with No => true | _ => false end)
    (map_to_list (s_ballots (d_prop (w_dao (we_pre e))))).
Lemma wx_all_declined2 (l : wlog) : forallb wx_decl2 l = true ->
  forall e, e ∈ l -> others_decline [3; 4]%N (d_prop (w_dao (we_pre e))).
Proof.
  intros H e He. rewrite forallb_forall in H. specialize (H e (proj1 (elem_of_list_In _ _) He)).
  intros id a bl Hb. unfold wx_decl2 in H. rewrite forallb_forall in H.
  specialize (H ((id, a), bl)). rewrite <-elem_of_list_In in H.
  specialize (H (proj2 (elem_of_map_to_list _ _ _) Hb)). cbn in H.
  apply orb_true_iff in H as [H|H].
  - left. apply orb_true_iff in H as [H|H]; apply N.eqb_eq in H as ->; [left|right; left].
  - right. by destruct (bl_vote bl).
Qed.

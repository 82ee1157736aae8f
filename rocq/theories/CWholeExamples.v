(** Histories of a Condorcet DAO with staked tokens, for the examples, and a refutation. *)
From stdpp Require Import gmap strings.
From Verif Require Import Base BaseProofs Exec Plain PlainProofs VotingModel VotingSpec
  CondModel CondSpec CondExamples CoreModel CoreSpec CDaoModel CDaoSpec CDaoProofs CDaoExamples
  StoreModel JointModel JointSpec CWholeModel CWholeSpec CWholeProofs CWholeClaims.
From Verif Require TokModel TokSpec TokProofs TokExamples.

(** As in [CDaoExamples]: DAO 9, its own admin, module 60.  Message 13 is for the voting module:
    withdrawals take ten blocks from now on. *)
Definition cw_K : codes :=
  Codes (fun z => if z =? 13 then inr 300%N else qx_acts z) (call_of qx_K).
Definition cw_v (n : N) : option TokModel.tmsg :=
  if (n =? 300)%N then Some (TokModel.TUpdateConfig (Some (DHeight 10))) else None.
(** More than half of everything must vote. *)
Definition cw_cfg : config :=
  Config Majority (DHeight 100) None true.
Notation wtok := (@whole TokModel.tstate).
Notation wlog := (list (@wentry TokModel.tstate TokModel.tmsg)).
Definition cw_s0 (c : config) : wtok := Whole (qx_s0 c) (TokExamples.tini None None).
Lemma cw_start c : validate_config c = Ok c ->
  tok_start (at_ 1) (cw_s0 c).
Proof.
  intros Hc. split; [by apply qx_dstart|]. exists [].
  exists (at_ 1), 9%N, 5%N, (TokModel.ExistingToken 1000), None, None, (TokExamples.tini None None).
  do 3 (split; [vm_compute; reflexivity|]). apply leads_refl, block_le_refl.
Qed.
Lemma cw_sov c : sovereign (w_dao (cw_s0 c)).
Proof. apply qx_sov. Qed.

Definition cw_fine (s s' : wtok) : bool :=
  bool_decide (k_voting (d_core (w_dao s')) = k_voting (d_core (w_dao s))).
Fixpoint wrun (b : block) (s : wtok) (evs : list (block * @wevent TokModel.tmsg))
  : option (block * wtok * wlog) :=
  match evs with
  | [] => Some (b, s, [])
  | (b', v) :: evs =>
      if (height b <=? height b') && (time b <=? time b') &&
         match d_todo (w_dao s) with [] => true | _ => (height b =? height b') && (time b =? time b') end
      then
        match w_event TokModel.t_handle tpow ttot cw_v cw_K s b' v with
        | Ok s' =>
            if cw_fine s s' then
              match wrun b' s' evs with
              | Some (b'', s'', l) => Some (b'', s'', WEntry s b' v s' :: l)
              | None => None
              end
            else None
        | Err _ => None
        end
      else None
  end.
Lemma wrun_leads evs : forall b0 s0 b s l0 b' s' l, tok_leads cw_v cw_K b0 s0 b s l0 ->
  wrun b s evs = Some (b', s', l) -> tok_leads cw_v cw_K b0 s0 b' s' (l0 ++ l).
Proof.
  induction evs as [|[b1 v] evs IH]; intros b0 s0 b s l0 b' s' l H E; cbn [wrun] in E.
  { injection E as <- <- <-. by rewrite app_nil_r. }
  match type of E with (if ?x then _ else _) = _ => destruct x eqn:G; [|done] end.
  apply andb_true_iff in G as [G Gt]. apply andb_true_iff in G as [G1 G2].
  destruct (w_event _ _ _ _ _ s b1 v) as [s1|] eqn:Ev; [|done].
  destruct (cw_fine s s1) eqn:F; [|done].
  destruct (wrun b1 s1 evs) as [[[b2 s2] l2]|] eqn:Er; [|done]. injection E as <- <- <-.
  apply bool_decide_eq_true in F.
  assert (tok_leads cw_v cw_K b0 s0 b1 s1 (l0 ++ [WEntry s b1 v s1])) as H1.
  { apply wl_step with b; try done.
    - split; lia.
    - destruct (d_todo (w_dao s)); [by left|]. right. destruct b, b1. cbn in Gt. f_equal; lia. }
  specialize (IH _ _ _ _ _ _ _ _ H1 Er). by rewrite <-app_assoc in IH.
Qed.
Definition cw_of (c : config) (evs : list (block * @wevent TokModel.tmsg)) : block * wtok * wlog :=
  match wrun (at_ 1) (cw_s0 c) evs with
  | Some x => x
  | None => (Block 0 0, cw_s0 c, [])
  end.
Lemma cw_leads c evs : is_Some (wrun (at_ 1) (cw_s0 c) evs) ->
  tok_leads cw_v cw_K (at_ 1) (cw_s0 c) (cw_of c evs).1.1 (cw_of c evs).1.2 (cw_of c evs).2.
Proof.
  intros [[[b s] l] E]. unfold cw_of. rewrite E. cbn.
  apply (wrun_leads evs _ _ (at_ 1) (cw_s0 c) [] b s l); [constructor|done].
Qed.

(** Members 1, 2, 3 and 4 stake 45, 30, 10 and 15 in block 2. *)
Notation stake a n := (WVote a%N (TokModel.TStake [(5%N, n)])).
Definition cw_staked : list (block * @wevent TokModel.tmsg) :=
  [(at_ 2, stake 1 45); (at_ 2, stake 2 30); (at_ 2, stake 3 10); (at_ 2, stake 4 15)].
(** Members 1 and 4 rank option 1 first, in which the DAO sets an item and reconfigures the voting
    module; in between member 1 withdraws everything and 2 stakes more. *)
Definition cw_passed : list (block * @wevent TokModel.tmsg) :=
  cw_staked ++
  [ (at_ 10, stake 4 100);
    (at_ 10, WDao (DProp 1 (Propose [[12]; [7; 13]])));
    (at_ 10, WVote 1%N (TokModel.TUnstake 45)); (at_ 11, stake 2 400);
    (at_ 11, WDao (DProp 1 (CastVote 1 [1; 0; 2])));
    (at_ 12, WDao (DProp 4 (CastVote 1 [1; 2; 0])));
    (at_ 13, WDao (DProp 3 (Execute 1))); (at_ 13, WDao DRun); (at_ 13, WDao DSelf);
    (at_ 13, WDao DSend); (at_ 13, WDao (DOver 0)) ].
(** Members 3 and 4 rank option 0 first, 2 ranks "none of the above" first; it wins. *)
Definition cw_refused : list (block * @wevent TokModel.tmsg) :=
  cw_staked ++
  [ (at_ 10, WDao (DProp 3 (Propose [[7]; [12]])));
    (at_ 10, WDao (DProp 3 (CastVote 1 [0; 1; 2])));
    (at_ 11, WDao (DProp 4 (CastVote 1 [0; 2; 1]))); (at_ 12, WDao (DProp 2 (CastVote 1 [2; 1; 0])));
    (at_ 200, WDao (DProp 3 (Execute 1))); (at_ 200, WDao DRun); (at_ 200, WDao (DOver 0)) ].
(** Members 2 and 3 rank option 0 first, 4 ranks "none of the above" first: executed when voting
    is over. *)
Definition cw_helped : list (block * @wevent TokModel.tmsg) :=
  cw_staked ++
  [ (at_ 10, WDao (DProp 2 (Propose [[7]; [12]]))); (at_ 10, WDao (DProp 2 (CastVote 1 [0; 1; 2])));
    (at_ 11, WDao (DProp 3 (CastVote 1 [0; 1; 2]))); (at_ 12, WDao (DProp 4 (CastVote 1 [2; 1; 0])));
    (at_ 200, WDao (DProp 2 (Execute 1))); (at_ 200, WDao DRun); (at_ 200, WDao DSelf);
    (at_ 200, WDao (DOver 0)) ].

Lemma cw_runs1 : is_Some (wrun (at_ 1) (cw_s0 cw_cfg) cw_passed).
Proof. apply is_some_true. vm_compute. reflexivity. Qed.
Lemma cw_runs2 : is_Some (wrun (at_ 1) (cw_s0 cw_cfg) cw_refused).
Proof. apply is_some_true. vm_compute. reflexivity. Qed.
Lemma cw_runs3 : is_Some (wrun (at_ 1) (cw_s0 cw_cfg) cw_helped).
Proof. apply is_some_true. vm_compute. reflexivity. Qed.
Lemma cw_reached c evs : validate_config c = Ok c ->
  is_Some (wrun (at_ 1) (cw_s0 c) evs) ->
  tok_reached cw_v cw_K (cw_of c evs).1.1 (cw_of c evs).1.2 (cw_of c evs).2.
Proof.
  intros Hc Hr. exists (at_ 1), (cw_s0 c). split; [by apply cw_start|]. by apply cw_leads.
Qed.

(** Two members have [n] of 100 from the end of block 2 on. *)
Lemma cw_shares (s : TokModel.tstate) x y m n h C : C = [x; y] ->
  smap_snap (TokModel.t_bals s) x = Snap (Some m) [(2, None)] ->
  smap_snap (TokModel.t_bals s) y = Snap (Some n) [(2, None)] ->
  TokModel.t_total s = Snap (Some 100) [(2, None)] ->
  lsum (fun a => tpow s a h) C = (if h <=? 2 then 0 else m + n) /\
  ttot s h = (if h <=? 2 then 0 else 100).
Proof.
  intros -> E2 E3 Et. cbn [lsum]. unfold tpow, ttot, TokModel.t_power_at, TokModel.t_total_at, smap_at, snap_get_at.
  rewrite E2, E3, Et. unfold snap_at. cbn. destruct (h <=? 2); cbn; lia.
Qed.
Definition cw_decl (x y : addr) (e : @wentry TokModel.tstate TokModel.tmsg) : bool :=
  forallb (fun z : Z * addr * list Z => (z.1.2 =? x)%N || (z.1.2 =? y)%N ||
      match s_props (d_prop (w_dao (we_pre e))) !! z.1.1 with
      | Some p => bool_decide (head z.2 = Some (Z.of_nat (length (p_choices p)) - 1))
      | None => true
      end)
    (map_to_list (s_votes (d_prop (w_dao (we_pre e))))).
Lemma cw_all_declined x y (l : wlog) : forallb (cw_decl x y) l = true ->
  forall e, e ∈ l -> others_decline [x; y] (d_prop (w_dao (we_pre e))).
Proof.
  intros H e He. rewrite forallb_forall in H. specialize (H e (proj1 (elem_of_list_In _ _) He)).
  intros id a bl p Hb Hp. unfold cw_decl in H. rewrite forallb_forall in H.
  specialize (H ((id, a), bl)). rewrite <-elem_of_list_In in H.
  specialize (H (proj2 (elem_of_map_to_list _ _ _) Hb)). cbn -[bool_decide] in H. rewrite Hp in H.
  apply orb_true_iff in H as [H|H].
  - left. apply orb_true_iff in H as [H|H]; apply N.eqb_eq in H as ->; [left|right; left].
  - right. by apply bool_decide_eq_true in H.
Qed.
(** Those who rank "none of the above" first can make up the quorum: members 2 and 3 would not
    have had enough, but 4's ranking makes the DAO act. *)
Lemma c128_alone_refuted :
  exists for_v K b0 s0 b s l C,
    tok_start b0 s0 /\ sovereign (w_dao s0) /\ tok_leads for_v K b0 s0 b s l /\
    short_alone tpow ttot (w_v s) b (c_quorum (s_cfg (d_prop (w_dao s0)))) C /\
    (forall e, e ∈ l -> others_decline C (d_prop (w_dao (we_pre e)))) /\
    exists e d, e ∈ l /\ dao_entry e = Some d /\ act d <> None.
Proof.
  exists cw_v, cw_K, (at_ 1), (cw_s0 cw_cfg), (cw_of cw_cfg cw_helped).1.1,
    (cw_of cw_cfg cw_helped).1.2, (cw_of cw_cfg cw_helped).2, [2; 3]%N.
  split; [apply cw_start; reflexivity|]. split; [apply cw_sov|].
  split; [apply cw_leads, cw_runs3|]. split.
  { intros h _.
    destruct (cw_shares (w_v (cw_of cw_cfg cw_helped).1.2) 2 3 30 10 h [2; 3]%N eq_refl) as [E1 E2];
      [vm_compute; reflexivity|vm_compute; reflexivity|vm_compute; reflexivity|].
    intros Hs. rewrite E1, E2 in Hs. revert Hs. clear. unfold share_near. cbn. destruct (h <=? 2); lia. }
  split; [apply cw_all_declined; vm_compute; reflexivity|].
  assert (match (cw_of cw_cfg cw_helped).2 !! 10%nat with
    | Some e => match dao_entry e with
      | Some d => match act d with Some _ => true | None => false end | None => false end
    | None => false end = true) as C by (vm_compute; reflexivity).
  destruct ((cw_of cw_cfg cw_helped).2 !! 10%nat) as [e|] eqn:E; [|discriminate].
  destruct (dao_entry e) as [d|] eqn:Ed; [|discriminate].
  exists e, d. split; [by apply (elem_of_list_lookup_2 _ 10)|]. split; [done|].
  destruct (act d); [discriminate|clear - C; discriminate].
Qed.

(** Histories of a multiple-choice DAO with staked tokens, for the examples, and a refutation. *)
From stdpp Require Import gmap strings.
From Verif Require Import Base BaseProofs Exec Plain PlainProofs VotingModel VotingSpec HooksModel
  MultModel MultSpec MultExamples CoreModel CoreSpec MDaoModel MDaoSpec MDaoProofs MDaoExamples
  StoreModel JointModel JointSpec MWholeModel MWholeSpec MWholeProofs MWholeClaims.
From Verif Require TokModel TokSpec TokProofs TokExamples.

(** As in [MDaoExamples]: DAO 9, its own admin, module 60.  Message 13 is for the voting module:
    withdrawals take ten blocks from now on. *)
Definition mw_K : codes :=
  Codes (fun z => if z =? 13 then inr 300%N else mx_acts z) (call_of mx_K).
Definition mw_v (n : N) : option TokModel.tmsg :=
  if (n =? 300)%N then Some (TokModel.TUpdateConfig (Some (DHeight 10))) else None.
(** More than half of everything must vote. *)
Definition mw_cfg : config :=
  Config Majority (DHeight 100) None false false 9 true None.
Notation wtok := (@whole TokModel.tstate).
Notation wlog := (list (@wentry TokModel.tstate TokModel.tmsg)).
Definition mw_s0 (c : config) : wtok := Whole (mx_s0 c) (TokExamples.tini None None).
Lemma mw_start c : validate_config c = Ok tt -> attached 9 (ex_state c) ->
  tok_start (at_ 1) (mw_s0 c).
Proof.
  intros Hc Ha. split; [by apply mx_dstart|]. exists [].
  exists (at_ 1), 9%N, 5%N, (TokModel.ExistingToken 1000), None, None, (TokExamples.tini None None).
  do 3 (split; [vm_compute; reflexivity|]). apply leads_refl, block_le_refl.
Qed.
Lemma mw_sov c : sovereign (w_dao (mw_s0 c)).
Proof. apply mx_sov. Qed.

Definition mw_fine (s : wtok) (e : @wevent TokModel.tmsg) (s' : wtok) : bool :=
  bool_decide (k_voting (d_core (w_dao s')) = k_voting (d_core (w_dao s))) &&
  match e with
  | WDao e => match heard mw_K (w_dao s) e with Some (_, UpdateConfig _) => false | _ => true end
  | WVote _ _ => true
  end.
Fixpoint wrun (b : block) (s : wtok) (evs : list (block * @wevent TokModel.tmsg))
  : option (block * wtok * wlog) :=
  match evs with
  | [] => Some (b, s, [])
  | (b', v) :: evs =>
      if (height b <=? height b') && (time b <=? time b') &&
         match d_todo (w_dao s) with [] => true | _ => (height b =? height b') && (time b =? time b') end
      then
        match w_event TokModel.t_handle tpow ttot mw_v mw_K s b' v with
        | Ok s' =>
            if mw_fine s v s' then
              match wrun b' s' evs with
              | Some (b'', s'', l) => Some (b'', s'', WEntry s b' v s' :: l)
              | None => None
              end
            else None
        | Err _ => None
        end
      else None
  end.
Lemma wrun_leads evs : forall b0 s0 b s l0 b' s' l, tok_leads mw_v mw_K b0 s0 b s l0 ->
  wrun b s evs = Some (b', s', l) -> tok_leads mw_v mw_K b0 s0 b' s' (l0 ++ l).
Proof.
  induction evs as [|[b1 v] evs IH]; intros b0 s0 b s l0 b' s' l H E; cbn [wrun] in E.
  { injection E as <- <- <-. by rewrite app_nil_r. }
  match type of E with (if ?x then _ else _) = _ => destruct x eqn:G; [|done] end.
  apply andb_true_iff in G as [G Gt]. apply andb_true_iff in G as [G1 G2].
  destruct (w_event _ _ _ _ _ s b1 v) as [s1|] eqn:Ev; [|done].
  destruct (mw_fine s v s1) eqn:F; [|done].
  destruct (wrun b1 s1 evs) as [[[b2 s2] l2]|] eqn:Er; [|done]. injection E as <- <- <-.
  unfold mw_fine in F. apply andb_true_iff in F as [F1 F2]. apply bool_decide_eq_true in F1.
  assert (tok_leads mw_v mw_K b0 s0 b1 s1 (l0 ++ [WEntry s b1 v s1])) as H1.
  { apply wl_step with b; try done.
    - split; lia.
    - destruct (d_todo (w_dao s)); [by left|]. right. destruct b, b1. cbn in Gt. f_equal; lia.
    - intros e' -> a m Hm. rewrite Hm in F2. destruct m; done. }
  specialize (IH _ _ _ _ _ _ _ _ H1 Er). by rewrite <-app_assoc in IH.
Qed.
Definition mw_of (c : config) (evs : list (block * @wevent TokModel.tmsg)) : block * wtok * wlog :=
  match wrun (at_ 1) (mw_s0 c) evs with
  | Some x => x
  | None => (Block 0 0, mw_s0 c, [])
  end.
Lemma mw_leads c evs : is_Some (wrun (at_ 1) (mw_s0 c) evs) ->
  tok_leads mw_v mw_K (at_ 1) (mw_s0 c) (mw_of c evs).1.1 (mw_of c evs).1.2 (mw_of c evs).2.
Proof.
  intros [[[b s] l] E]. unfold mw_of. rewrite E. cbn.
  apply (wrun_leads evs _ _ (at_ 1) (mw_s0 c) [] b s l); [constructor|done].
Qed.

(** Members 1, 2, 3 and 4 stake 45, 30, 10 and 15 in block 2. *)
Notation stake a n := (WVote a%N (TokModel.TStake [(5%N, n)])).
Definition mw_staked : list (block * @wevent TokModel.tmsg) :=
  [(at_ 2, stake 1 45); (at_ 2, stake 2 30); (at_ 2, stake 3 10); (at_ 2, stake 4 15)].
(** Members 1 and 4 choose option 1, in which the DAO sets an item and reconfigures the voting
    module; in between member 1 withdraws everything and 2 stakes more. *)
Definition mw_passed : list (block * @wevent TokModel.tmsg) :=
  mw_staked ++
  [ (at_ 10, stake 4 100);
    (at_ 10, WDao (DProp 1 (Propose (ex_pm [[12]; [7; 13]] (Some (1%nat, None))))));
    (at_ 10, WVote 1%N (TokModel.TUnstake 45)); (at_ 11, stake 2 400);
    (at_ 12, WDao (DProp 4 (CastVote 1 1 None)));
    (at_ 13, WDao (DProp 3 (Execute 1))); (at_ 13, WDao DRun); (at_ 13, WDao DSelf);
    (at_ 13, WDao DSend); (at_ 13, WDao (DOver 0)) ].
(** Members 3 and 4 choose option 0, 2 votes for none of the options; nothing comes of it. *)
Definition mw_refused : list (block * @wevent TokModel.tmsg) :=
  mw_staked ++
  [ (at_ 10, WDao (DProp 3 (Propose (ex_pm [[7]; [12]] (Some (0%nat, None))))));
    (at_ 11, WDao (DProp 4 (CastVote 1 0 None))); (at_ 12, WDao (DProp 2 (CastVote 1 2 None)));
    (at_ 200, WDao (DProp 3 (Close 1))) ].
(** Members 2 and 3 choose option 0, 4 votes for none of the options: executed when voting is
    over. *)
Definition mw_helped : list (block * @wevent TokModel.tmsg) :=
  mw_staked ++
  [ (at_ 10, WDao (DProp 2 (Propose (ex_pm [[7]; [12]] (Some (0%nat, None))))));
    (at_ 11, WDao (DProp 3 (CastVote 1 0 None))); (at_ 12, WDao (DProp 4 (CastVote 1 2 None)));
    (at_ 200, WDao (DProp 2 (Execute 1))); (at_ 200, WDao DRun); (at_ 200, WDao DSelf);
    (at_ 200, WDao (DOver 0)) ].

Lemma mw_runs1 : is_Some (wrun (at_ 1) (mw_s0 mw_cfg) mw_passed).
Proof. apply is_some_true. vm_compute. reflexivity. Qed.
Lemma mw_runs2 : is_Some (wrun (at_ 1) (mw_s0 mw_cfg) mw_refused).
Proof. apply is_some_true. vm_compute. reflexivity. Qed.
Lemma mw_runs3 : is_Some (wrun (at_ 1) (mw_s0 mw_cfg) mw_helped).
Proof. apply is_some_true. vm_compute. reflexivity. Qed.
Lemma mw_reached c evs : validate_config c = Ok tt -> attached 9 (ex_state c) ->
  is_Some (wrun (at_ 1) (mw_s0 c) evs) ->
  tok_reached mw_v mw_K (mw_of c evs).1.1 (mw_of c evs).1.2 (mw_of c evs).2.
Proof.
  intros Hc Ha Hr. exists (at_ 1), (mw_s0 c). split; [by apply mw_start|]. by apply mw_leads.
Qed.

(** Two members have [n] of 100 from the end of block 2 on. *)
Lemma mw_shares (s : TokModel.tstate) x y m n h C : C = [x; y] ->
  smap_snap (TokModel.t_bals s) x = Snap (Some m) [(2, None)] ->
  smap_snap (TokModel.t_bals s) y = Snap (Some n) [(2, None)] ->
  TokModel.t_total s = Snap (Some 100) [(2, None)] ->
  lsum (fun a => tpow s a h) C = (if h <=? 2 then 0 else m + n) /\
  ttot s h = (if h <=? 2 then 0 else 100).
Proof.
  intros -> E2 E3 Et. cbn [lsum]. unfold tpow, ttot, TokModel.t_power_at, TokModel.t_total_at, smap_at, snap_get_at.
  rewrite E2, E3, Et. unfold snap_at. cbn. destruct (h <=? 2); cbn; lia.
Qed.
Definition mw_decl (x y : addr) (e : @wentry TokModel.tstate TokModel.tmsg) : bool :=
  forallb (fun z : Z * addr * ballot => (z.1.2 =? x)%N || (z.1.2 =? y)%N ||
      match s_props (d_prop (w_dao (we_pre e))) !! z.1.1 with
      | Some p => (S (bl_vote z.2) =? length (p_choices p))%nat
      | None => true
      end)
    (map_to_list (s_ballots (d_prop (w_dao (we_pre e))))).
Lemma mw_all_declined x y (l : wlog) : forallb (mw_decl x y) l = true ->
  forall e, e ∈ l -> others_decline [x; y] (d_prop (w_dao (we_pre e))).
Proof.
  intros H e He. rewrite forallb_forall in H. specialize (H e (proj1 (elem_of_list_In _ _) He)).
  intros id a bl p Hb Hp. unfold mw_decl in H. rewrite forallb_forall in H.
  specialize (H ((id, a), bl)). rewrite <-elem_of_list_In in H.
  specialize (H (proj2 (elem_of_map_to_list _ _ _) Hb)). cbn in H. rewrite Hp in H.
  apply orb_true_iff in H as [H|H].
  - left. apply orb_true_iff in H as [H|H]; apply N.eqb_eq in H as ->; [left|right; left].
  - right. unfold none_option. destruct (length (p_choices p)); [discriminate|].
    apply Nat.eqb_eq in H. lia.
Qed.
(** Those who vote for none of the options can make up the quorum: members 2 and 3 would not
    have had enough, but 4's vote makes the DAO act. *)
Lemma c124_alone_refuted :
  exists for_v K b0 s0 b s l C,
    tok_start b0 s0 /\ sovereign (w_dao s0) /\ tok_leads for_v K b0 s0 b s l /\
    short_alone tpow ttot (w_v s) b (c_quorum (s_cfg (d_prop (w_dao s0)))) C /\
    (forall e, e ∈ l -> others_decline C (d_prop (w_dao (we_pre e)))) /\
    exists e d, e ∈ l /\ dao_entry e = Some d /\ act d <> None.
Proof.
  exists mw_v, mw_K, (at_ 1), (mw_s0 mw_cfg), (mw_of mw_cfg mw_helped).1.1,
    (mw_of mw_cfg mw_helped).1.2, (mw_of mw_cfg mw_helped).2, [2; 3]%N.
  split; [apply mw_start; [reflexivity|by vm_compute]|]. split; [apply mw_sov|].
  split; [apply mw_leads, mw_runs3|]. split.
  { intros h _.
    destruct (mw_shares (w_v (mw_of mw_cfg mw_helped).1.2) 2 3 30 10 h [2; 3]%N eq_refl) as [E1 E2];
      [vm_compute; reflexivity|vm_compute; reflexivity|vm_compute; reflexivity|].
    intros Hs. rewrite E1, E2 in Hs. revert Hs. clear. unfold share_near. cbn. destruct (h <=? 2); lia. }
  split; [apply mw_all_declined; vm_compute; reflexivity|].
  assert (match (mw_of mw_cfg mw_helped).2 !! 9%nat with
    | Some e => match dao_entry e with
      | Some d => match act d with Some _ => true | None => false end | None => false end
    | None => false end = true) as C by (vm_compute; reflexivity).
  destruct ((mw_of mw_cfg mw_helped).2 !! 9%nat) as [e|] eqn:E; [|discriminate].
  destruct (dao_entry e) as [d|] eqn:Ed; [|discriminate].
  exists e, d. split; [by apply (elem_of_list_lookup_2 _ 9)|]. split; [done|].
  destruct (act d); [discriminate|clear - C; discriminate].
Qed.

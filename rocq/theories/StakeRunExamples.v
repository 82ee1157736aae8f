(** Three stakers and a pool that does not divide by three. *)
From Verif Require Import Base BaseProofs Exec ExecProofs Plain PlainProofs HooksModel
  StoreModel StoreProofs StakeModel StakeSpec StakeProofs StakeClaims StakeExamples StakeRunSpec StakeRun.

Definition run_h : list (block * call kmsg) :=
  [(kb 2, kstk 1%N 1); (kb 3, kstk 2%N 1); (kb 4, kstk 3%N 1); (kb 5, kfund 7)].
Definition run_s (d : option duration) : kstate := fst (krun d run_h).
Definition run_l (d : option duration) := snd (krun d run_h).
Lemma run_reached : kreached (kb 9) (run_s None) (run_l None).
Proof. kreach. Qed.
Lemma run_reached_slow : kreached (kb 9) (run_s (Some (DTime 50))) (run_l (Some (DTime 50))).
Proof. kreach. Qed.
Definition stakersb (s : kstate) (vs : list addr) : bool :=
  bool_decide (NoDup vs) && forallb (fun a => 0 <? staked s a) vs &&
  forallb (fun a => bool_decide (a ∈ vs)) (map fst (map_to_list (k_bals s))).
Lemma stakersb_spec s vs : stakersb s vs = true -> stakers s vs.
Proof.
  unfold stakersb. rewrite !andb_true_iff, !forallb_forall. intros [[H1 H2] H3].
  split; [by apply bool_decide_eq_true in H1|]. intros a. split.
  - intros Ha. apply elem_of_list_In, H2 in Ha. lia.
  - intros H. unfold staked in H. destruct (k_bals s !! a) as [v|] eqn:E; [|lia].
    specialize (H3 a). rewrite bool_decide_eq_true in H3. apply H3, in_map_iff. exists (a, v). split; [done|].
    by apply elem_of_list_In, elem_of_map_to_list.
Qed.
Definition after_unstake (b : block) (s : kstate) (a : addr) : kstate :=
  match k_handle s b a (KUnstake (staked s a)) with Ok (s', _) => s' | Err _ => s end.
Definition taken (b : block) (s : kstate) (a : addr) : Z := k_pool s - k_pool (after_unstake b s a).

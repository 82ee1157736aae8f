(** A pool of 10 with a stake of 4. *)
From Verif Require Import Base BaseProofs Exec ExecProofs Plain PlainProofs HooksModel
  StoreModel StoreProofs StakeModel StakeSpec StakeProofs StakeClaims StakeExamples StakeSplitSpec StakeSplit.

Definition split_h : list (block * call kmsg) := [(kb 2, kstk 1%N 2); (kb 3, kstk 2%N 2); (kb 5, kfund 6)].
Definition split_s : kstate := fst (krun None split_h).
Lemma split_reached : kreached (kb 9) split_s (snd (krun None split_h)).
Proof. kreach. Qed.
Lemma outs s b a x ps s1 subs n m s2 :
  k_handle s b a (KUnstake x) = Ok (s1, subs) -> k_pool s - k_pool s1 + n = m -> takes_out s1 ps n s2 ->
  takes_out s ((b, a, x) :: ps) m s2.
Proof. intros H <- H2. by econstructor. Qed.
Lemma ins s b a x ps s1 subs n m s2 :
  k_handle s b (k_token s) (KReceive a x true) = Ok (s1, subs) -> staked s1 a - staked s a + n = m ->
  puts_in s1 ps n s2 -> puts_in s ((b, a, x) :: ps) m s2.
Proof. intros H <- H2. by econstructor. Qed.
Definition out_of (r : result (kstate * list ksub)) : kstate :=
  match r with Ok (s, _) => s | Err _ => split_s end.
Definition subs_of (r : result (kstate * list ksub)) : list ksub :=
  match r with Ok (_, x) => x | Err _ => [] end.
Lemma split_out : exists s', takes_out split_s [(kb 9, 1%N, 1); (kb 9, 1%N, 1)] 4 s'.
Proof.
  eexists.
  apply (outs _ _ _ _ _ (out_of (k_handle split_s (kb 9) 1%N (KUnstake 1)))
    (subs_of (k_handle split_s (kb 9) 1%N (KUnstake 1))) 2); [vm_compute; reflexivity|vm_compute; reflexivity|].
  set (s1 := out_of _).
  apply (outs _ _ _ _ _ (out_of (k_handle s1 (kb 9) 1%N (KUnstake 1)))
    (subs_of (k_handle s1 (kb 9) 1%N (KUnstake 1))) 0); [vm_compute; reflexivity|vm_compute; reflexivity|].
  constructor.
Qed.
Lemma split_in : exists s', puts_in split_s [(kb 9, 1%N, 3); (kb 10, 5%N, 2)] 1 s'.
Proof.
  eexists.
  apply (ins _ _ _ _ _ (out_of (k_handle split_s (kb 9) 70%N (KReceive 1%N 3 true)))
    (subs_of (k_handle split_s (kb 9) 70%N (KReceive 1%N 3 true))) 0); [vm_compute; reflexivity|vm_compute; reflexivity|].
  set (s1 := out_of _).
  apply (ins _ _ _ _ _ (out_of (k_handle s1 (kb 10) 70%N (KReceive 5%N 2 true)))
    (subs_of (k_handle s1 (kb 10) 70%N (KReceive 5%N 2 true))) 0); [vm_compute; reflexivity|vm_compute; reflexivity|].
  constructor.
Qed.

(** Who has a stake in a concrete history. *)
From Verif Require Import Base BaseProofs Exec ExecProofs Plain StoreModel StakeModel StakeSpec
  StakeProofs ExtModel ExtSpec ExtShareSpec.

Definition coversb (us : list addr) (s : xstate) : bool :=
  forallb (fun kv => existsb (N.eqb kv.1) us) (map_to_list (k_bals (x_stake s))).
Lemma coversb_spec us s : coversb us s = true -> covers us s.
Proof.
  intros H a Ha. rewrite staked_get. unfold smap_get, smap_snap.
  destruct (k_bals (x_stake s) !! a) as [v|] eqn:E; [|done]. exfalso. apply Ha.
  unfold coversb in H. rewrite forallb_forall in H. specialize (H (a, v)).
  rewrite <-elem_of_list_In, elem_of_map_to_list in H. specialize (H E). apply existsb_exists in H as (x & Hx & Hq).
  apply N.eqb_eq in Hq. cbn in Hq. subst x. by apply elem_of_list_In.
Qed.
Definition coveredb (us : list addr) (l : xlog) : bool :=
  forallb (fun e => match e with ECall pre _ _ _ _ _ => coversb us pre | _ => true end) l.
Lemma coveredb_spec us l : coveredb us l = true -> covered us l.
Proof.
  intros H e He. unfold coveredb in H. rewrite forallb_forall in H. specialize (H e).
  rewrite <-elem_of_list_In in H. specialize (H He). destruct e; [|done]. by apply coversb_spec.
Qed.

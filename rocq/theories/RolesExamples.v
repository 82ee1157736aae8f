(** Role tokens owned by account 1, with hook 50. *)
From Verif Require Import Base BaseProofs Exec ExecProofs Plain PlainProofs StoreModel
  RolesModel RolesSpec.

Definition rb (h : Z) : block := Block h (h * 10).
Definition r0 : rstate := r_instantiate 1 (rb 0).
Definition rc (h : Z) (a : addr) (m : rmsg) : block * call rmsg := (rb h, Call a m []).
Definition rrun (h : list (block * call rmsg)) : rstate * rlog :=
  run_hist r_handle no_fail no_reply r0 h.
Lemma rreached_run h b : hist_ok (rb 0) h -> block_le (hist_end (rb 0) h) b ->
  rreached b (fst (rrun h)) (snd (rrun h)).
Proof.
  intros Hh Hb. exists (rb 0), 1%N.
  exists h. split; [done|]. split; [|done]. unfold rrun. by destruct (run_hist _ _ _ _ h).
Qed.
Ltac rside := vm_compute; repeat split; discriminate || reflexivity.
Ltac rreach := apply rreached_run; rside.

(** Accounts 5 and 6 get tokens of weights 3, 4 and 7; strangers are refused; a token is
    raised to 10, one burned, one minted with no weight. *)
Definition roles : list (block * call rmsg) :=
  [rc 1 1 (RAddHook 50); rc 1 1 (RMint 11 5 3); rc 1 1 (RMint 12 5 4); rc 2 1 (RMint 13 6 7);
   rc 2 6 (RTransfer 7 13); rc 3 5 (RMint 14 5 100); rc 3 1 (RWeight 12 10);
   rc 4 1 (RBurn 11); rc 4 1 (RMint 15 7 0); rc 4 1 (RTransfer 7 15)].
(** Three hooks registered, one removed and registered again. *)
Definition hooked : list (block * call rmsg) :=
  [rc 1 1 (RAddHook 50); rc 1 1 (RAddHook 51); rc 2 1 (RRemoveHook 50); rc 2 1 (RAddHook 52);
   rc 3 1 (RAddHook 50); rc 3 1 (RRemoveHook 52)].
(** The owner transfers token 12 from 5 to 6. *)
Definition moved : list (block * call rmsg) := roles ++ [rc 5 1 (RTransfer 6 12)].
(** The owner lowers token 12 to 1. *)
Definition lowered : list (block * call rmsg) := roles ++ [rc 5 1 (RWeight 12 1)].

(** A transfer leaves the weights where they were; the token can then not be burned. *)
Lemma transfer_refuted : exists b s l a c,
  rreached b s l /\ held s a = 0 /\ v_power s a None = 10 /\
  held s c = 17 /\ v_power s c None = 7 /\
  (exists id, owner_of s id = Some c /\ forall x, is_ok (r_handle s b x (RBurn id)) = false).
Proof.
  exists (rb 5), (fst (rrun moved)), (snd (rrun moved)), 5%N, 6%N.
  split; [rreach|]. do 4 (split; [vm_compute; reflexivity|]).
  exists 12%N. split; [vm_compute; reflexivity|]. intros x.
  assert (is_ok (r_burn (fst (rrun moved)) (rb 5) 12%N) = false) as E by (vm_compute; reflexivity).
  unfold r_handle. destruct (is_owner _ x); [exact E|reflexivity].
Qed.
(** The hook is told neither weight. *)
Lemma lowered_refuted : exists b s l pre b1 a m post subs x,
  rreached b s l /\ ECall pre b1 a m post subs ∈ l /\ x ∈ subs /\ ~ tells_true pre post x.
Proof.
  exists (rb 5), (fst (rrun lowered)), (snd (rrun lowered)). do 6 eexists.
  exists (RHook 50 5 None None). split; [rreach|].
  split; [apply (elem_of_list_lookup_2 _ 14); vm_compute; reflexivity|].
  split; [left|]. intros [E _]. vm_compute in E. discriminate E.
Qed.

(** The voting contract 40 of DAO 30 mints two tokens. *)
Definition minted_roles : list (N * addr * Z) := [(1%N, 5%N, 3); (2%N, 6%N, 4)].
Lemma handover_refuted : exists voting dao b0 nfts s,
  v_setup voting dao b0 nfts = Ok s /\ o_pending (r_own s) = Some dao /\
  voting <> dao /\
  forall b m, is_ok (r_handle s b dao m) = false.
Proof.
  exists 40%N, 30%N, (rb 0), minted_roles. eexists. split; [vm_compute; reflexivity|].
  split; [reflexivity|]. split; [discriminate|]. intros b m. reflexivity.
Qed.

(** Account 5 gets a role with weight 3 and one without; after the first is burned, the other
    cannot be. *)
Definition weightless : list (block * call rmsg) :=
  [rc 1 1 (RMint 11 5 3); rc 1 1 (RMint 15 5 0); rc 2 1 (RBurn 11)].
Definition stays_put (e : revent) : bool :=
  match e with ECall _ _ _ (RTransfer _ _) _ _ | ECall _ _ _ (RSend _ _) _ _ => false | _ => true end.
Lemma stays_put_spec l : forallb stays_put l = true -> forall a e, e ∈ l -> ~ moves a e.
Proof.
  intros C a e He. rewrite forallb_forall in C. specialize (C e).
  rewrite <-elem_of_list_In in C. specialize (C He). destruct e as [? ? ? [] ? ?|]; cbn in *; done || (intros []).
Qed.
Lemma weightless_refuted : exists b s l id x,
  rreached b s l /\ (forall a e, e ∈ l -> ~ moves a e) /\ r_tokens s !! id = Some x /\
  o_owner (r_own s) = Some 1%N /\ forall a, is_ok (r_handle s b a (RBurn id)) = false.
Proof.
  exists (rb 3), (fst (rrun weightless)), (snd (rrun weightless)), 15%N, (Role 5 0).
  split; [rreach|]. split; [apply stays_put_spec; vm_compute; reflexivity|].
  do 2 (split; [vm_compute; reflexivity|]). intros x.
  assert (is_ok (r_burn (fst (rrun weightless)) (rb 3) 15%N) = false) as E by (vm_compute; reflexivity).
  unfold r_handle. destruct (is_owner _ x); [exact E|reflexivity].
Qed.

(** Concrete histories of a DAO with a token of its own. *)
From Verif Require Import Base Exec Plain StoreModel ActiveModel TokModel TokSpec IssuerModel IssuerSpec TokNewModel GovTokModel GovTokSpec.

Definition md : addr := 70%N.
Definition issuer : addr := 60%N.
Definition dao : addr := 1%N.
Definition alice : addr := 2%N.
Definition bob : addr := 3%N.
Definition carol : addr := 4%N.
Definition gb (n : Z) : block := Block n (n * 6).
Definition nt0 : new_token := NewToken [(alice, 100); (bob, 50)] (Some 10) true.
Definition made : result (tstate * istate) := new_setup true (gb 0) dao md issuer 5%N None None nt0.
Definition t0 : tstate := TState dao 5%N None None ∅ snap_empty ∅ [] 0.
Definition i0 : istate :=
  match made with Ok x => snd x | Err _ => i_new issuer md 5%N end.
Lemma made_ok : made = Ok (t0, i0).
Proof. vm_compute. reflexivity. Qed.
Definition grun (h : list (block * call gmsg)) : gstate * glog :=
  run_hist (g_handle md) no_fail no_reply (g_start md t0 i0) h.
Definition gc (n : Z) (a : addr) (m : gmsg) : block * call gmsg := (gb n, Call a m []).
Lemma dreached_run h b :
  hist_ok (gb 0) h -> block_le (hist_end (gb 0) h) b -> dreached md dao i0 b (fst (grun h)) (snd (grun h)).
Proof.
  intros Hh Hb. exists (gb 0), issuer, 5%N, None, None, nt0, t0.
  split; [discriminate|]. split; [discriminate|]. split; [discriminate|]. split; [exact made_ok|].
  exists h. split; [done|]. split; [|done]. unfold grun. by destruct (run_hist _ _ _ _ h).
Qed.
Ltac gside := vm_compute; repeat split; discriminate || reflexivity.
Ltac greach := apply dreached_run; gside.

Definition stakes : list (block * call gmsg) :=
  [gc 1 alice (GTok (TStake [(5%N, 60)])); gc 1 bob (GTok (TStake [(5%N, 50)]))].
(** The DAO lets Carol mint, who mints; somebody sends coins to the module; Alice takes some out. *)
Definition usual : list (block * call gmsg) :=
  stakes ++
  [gc 2 dao (GIss (ISetMinter carol 30)); gc 3 carol (GIss (IMint carol 20)); gc 3 carol (GIss (XSend md 5));
   gc 4 alice (GTok (TUnstake 20)); gc 5 dao (GTok (TUpdateConfig (Some (DHeight 10))));
   gc 6 bob (GTok (TUnstake 30))].
Definition forced : list (block * call gmsg) :=
  stakes ++ [gc 2 dao (GIss (IForce 60 md dao)); gc 3 alice (GTok (TUnstake 50))].
Definition burnt : list (block * call gmsg) :=
  stakes ++ [gc 2 dao (GIss (ISetBurner carol 110)); gc 3 carol (GIss (IBurn md 110))].
Definition froze : list (block * call gmsg) :=
  stakes ++ [gc 2 dao (GIss (ISetHook (Some issuer))); gc 3 dao (GIss (IFreeze true))].
Definition denied : list (block * call gmsg) :=
  stakes ++ [gc 2 dao (GIss (ISetHook (Some issuer))); gc 3 dao (GIss (IDeny bob true))].
Definition us : gstate := fst (grun usual).
Definition ul : glog := snd (grun usual).

Lemma force_out :
  exists md dao i0 b s l a n, dreached md dao i0 b s l /\ tstaked (g_t s) a = n /\ 0 < n /\
    t_power_at (g_t s) b a None = n /\ i_bal_of (g_i s) md = 0 /\
    g_handle md s b a (GTok (TUnstake n)) = Err "insufficient funds".
Proof.
  exists md, dao, i0, (gb 9), (fst (grun forced)), (snd (grun forced)), bob, 50.
  split; [greach|]. do 3 (split; [vm_compute; reflexivity|]). split; vm_compute; reflexivity.
Qed.
Lemma burn_out :
  exists md dao i0 b s l a n c, dreached md dao i0 b s l /\ tstaked (g_t s) a = n /\ 0 < n /\
    t_power_at (g_t s) b a None = n /\ i_bal_of (g_i s) md = 0 /\ c <> dao /\
    (exists pre b1 post subs k, ECall pre b1 c (GIss (IBurn md k)) post subs ∈ l) /\
    g_handle md s b a (GTok (TUnstake n)) = Err "insufficient funds".
Proof.
  exists md, dao, i0, (gb 9), (fst (grun burnt)), (snd (grun burnt)), bob, 50, carol.
  split; [greach|]. do 3 (split; [vm_compute; reflexivity|]). split; [vm_compute; reflexivity|].
  split; [discriminate|]. split; [|vm_compute; reflexivity].
  eexists _, _, _, _, _. apply (elem_of_list_lookup_2 _ 3%nat). vm_compute. reflexivity.
Qed.
Lemma freeze_in :
  exists md dao i0 b s l a n, dreached md dao i0 b s l /\ taken md l = 0 /\ tstaked (g_t s) a = n /\ 0 < n /\
    i_bal_of (g_i s) md = ttotal (g_t s) /\ g_handle md s b a (GTok (TUnstake n)) = Err "ContractFrozen".
Proof.
  exists md, dao, i0, (gb 9), (fst (grun froze)), (snd (grun froze)), bob, 50.
  split; [greach|]. do 3 (split; [vm_compute; reflexivity|]). split; vm_compute; reflexivity.
Qed.
Lemma deny_votes :
  exists md dao i0 b s l a n, dreached md dao i0 b s l /\ taken md l = 0 /\ tstaked (g_t s) a = n /\ 0 < n /\
    t_power_at (g_t s) b a None = n /\ g_handle md s b a (GTok (TUnstake n)) = Err "Denied".
Proof.
  exists md, dao, i0, (gb 9), (fst (grun denied)), (snd (grun denied)), bob, 50.
  split; [greach|]. do 3 (split; [vm_compute; reflexivity|]). split; vm_compute; reflexivity.
Qed.

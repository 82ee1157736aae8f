(** The factory of fan tokens: concrete cases. *)
From Verif Require Import Base BaseProofs FanModel FanSpec FanClaims.

Definition fan0 : factory := Factory 9 None (FanChain ∅ ∅).
Definition fan_token : newtoken := NewToken 5 1000 [(1%N, 60); (2%N, 30); (1%N, 10)] (Some 400).
Definition fan1 : result factory := fan_issue fan0 (Some 7%N) 3 fan_token.
Definition fan_view (s : result factory) (d : N) :=
  match s with
  | Ok s => Some (option_map (fun t => (ft_authority t, ft_minter t, ft_supply t)) (fc_tokens (fa_chain s) !! d),
                  map (held_of (fa_chain s) d) [1%N; 2%N; 7%N; 9%N])
  | Err _ => None
  end.
Example fan1_view : fan_view fan1 3 = Some (Some (7%N, 7%N, 500), [70; 30; 400; 0]).
Proof. vm_compute. reflexivity. Qed.
(** No answer from the sender, a denomination in use, more than the maximum, an empty balance. *)
Example fan_refused :
  map (fun r => match r with Ok _ => "done" | Err e => e end)
    [fan_issue fan0 None 3 fan_token;
     match fan1 with Ok s => fan_issue s (Some 7%N) 3 fan_token | Err e => Err e end;
     fan_issue fan0 (Some 7%N) 3 (NewToken 5 499 (nt_balances fan_token) (Some 400));
     fan_issue fan0 (Some 7%N) 3 (NewToken 5 1000 [(1%N, 0)] None);
     fan_issue fan0 (Some 7%N) 3 (NewToken 5 1000 [(1%N, 1)] (Some 0))] =
  ["query failed"; "denom exists"; "exceeds max supply"; "amount"; "done"].
Proof. vm_compute. reflexivity. Qed.
Lemma fan_empty_refuted :
  exists s x d t s', fan_issue s (Some x) d t = Ok s' /\ fa_creating s = None /\
    nt_balances t = [] /\
    (exists k, fc_tokens (fa_chain s') !! d = Some k /\ ft_supply k = 0 /\ ft_minter k = x) /\
    forall a, held_of (fa_chain s') d a = 0.
Proof.
  exists fan0, 7%N, 3%N, (NewToken 5 1000 [] None). eexists.
  split; [vm_compute; reflexivity|]. split; [done|]. split; [done|]. split.
  - eexists. split; [vm_compute; reflexivity|]. done.
  - intros a. done.
Qed.
(** Account 1 sends 50 of its 70 to account 2. *)
Definition fan_after : factory := match fan1 with Ok s => s | Err _ => fan0 end.
Definition fan_sent : factory :=
  match fan_event fan_after 1 (FSend 3 2 50) with Ok s => s | Err _ => fan0 end.
Lemma fan_sent_ok :
  fan_leads fan0 fan_sent /\ fan_books (fa_chain fan0) /\
  map (held_of (fa_chain fan_sent) 3) [1; 2; 7]%N = [20; 80; 400].
Proof.
  split.
  - apply (fl_step _ fan_after 1%N (FSend 3 2 50)); [|vm_compute; reflexivity].
    apply (fl_step _ fan0 1%N (FIssue (Some 7%N) 3 fan_token)); [constructor|vm_compute; reflexivity].
  - split; [|vm_compute; reflexivity]. split; [done|]. intros d. done.
Qed.

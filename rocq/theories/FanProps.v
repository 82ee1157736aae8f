(** C109: the factory of fan tokens. *)
From Verif Require Import Base BaseProofs FanModel FanSpec FanClaims FanExamples.

(** * C109 *)
Theorem C109_accepted_partial s dao d t : 0 <= nt_max t ->
  (exists s', fan_issue s dao d t = Ok s') <->
  (exists x, dao = Some x) /\ fc_tokens (fa_chain s) !! d = None /\
  Forall (fun x : addr * Z => 0 < x.2) (nt_balances t) /\ 0 <= dao_share t /\
  due_all t <= nt_max t.
Proof. exact (fan_issue_iff s dao d t). Qed.
Print Assumptions C109_accepted_partial.
Theorem C109_result_partial s x d t s' : fan_issue s (Some x) d t = Ok s' -> 0 <= nt_max t ->
  fc_tokens (fa_chain s) !! d = None /\
  fc_tokens (fa_chain s') =
    <[d := FanToken x x (nt_max t) (due_all t) (nt_meta t)]> (fc_tokens (fa_chain s)) /\
  (forall a, held_of (fa_chain s') d a = held_of (fa_chain s) d a + due t x a) /\
  (forall e a, e <> d -> held_of (fa_chain s') e a = held_of (fa_chain s) e a) /\
  fa_creating s' = None /\ fa_self s' = fa_self s.
Proof. exact (fan_issue_result s x d t s'). Qed.
Print Assumptions C109_result_partial.
Theorem C109_idle_partial s s' : fan_leads s s' -> fa_creating s = None ->
  fa_creating s' = None /\ fa_self s' = fa_self s.
Proof. exact (fan_idle s s'). Qed.
Print Assumptions C109_idle_partial.
Theorem C109_no_rights_partial s a e s' d :
  (forall dao d0 t, e = FIssue dao d0 t -> 0 <= nt_max t /\ dao <> Some (fa_self s)) ->
  fan_event s a e = Ok s' -> ~ has_right s (fa_self s) d -> has_right s' (fa_self s) d ->
  (exists x y max meta, e = FNew x y d max meta /\ (x = fa_self s \/ y = fa_self s)) \/
  (e = FAuthority d (fa_self s) \/ e = FMinter d (fa_self s)) /\ has_right s a d.
Proof. exact (fan_no_rights s a e s' d). Qed.
Print Assumptions C109_no_rights_partial.
Theorem C109_nonempty_refuted :
  exists s x d t s', fan_issue s (Some x) d t = Ok s' /\ fa_creating s = None /\
    nt_balances t = [] /\
    (exists k, fc_tokens (fa_chain s') !! d = Some k /\ ft_supply k = 0 /\ ft_minter k = x) /\
    forall a, held_of (fa_chain s') d a = 0.
Proof. exact fan_empty_refuted. Qed.
Print Assumptions C109_nonempty_refuted.
Example C109_case : fan_view fan1 3 = Some (Some (7%N, 7%N, 500), [70; 30; 400; 0]).
Proof. exact fan1_view. Qed.
Example C109_case_refused :
  map (fun r => match r with Ok _ => "done" | Err e => e end)
    [fan_issue fan0 None 3 fan_token;
     fan_issue fan0 (Some 7%N) 3 (NewToken 5 499 (nt_balances fan_token) (Some 400));
     fan_issue fan0 (Some 7%N) 3 (NewToken 5 1000 [(1%N, 0)] None);
     fan_issue fan0 (Some 7%N) 3 (NewToken 5 1000 [(1%N, 1)] (Some 0))] =
  ["query failed"; "exceeds max supply"; "amount"; "done"].
Proof. vm_compute. reflexivity. Qed.
(** All that was minted is held, by accounts that owe nothing, and no more than the maximum is minted, after
    whatever anybody does. *)
Theorem C109_books s s' : fan_leads s s' -> fan_books (fa_chain s) -> fan_books (fa_chain s').
Proof. exact (fan_books_kept s s'). Qed.
Print Assumptions C109_books.
Example C109_books_case :
  fan_leads fan0 fan_sent /\ fan_books (fa_chain fan0) /\
  map (held_of (fa_chain fan_sent) 3) [1; 2; 7]%N = [20; 80; 400].
Proof. exact fan_sent_ok. Qed.

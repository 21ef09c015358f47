(** Properties C49 and C50: the accept loop and shutdown. *)
From Verif Require Import Base Listener ListenerSpec ListenerLemmas.
From Coq Require Import Permutation.

(** * C49 *)
(** After any history [pre] that does not end in a temporary error, the waits during the next k temporary errors are
    5ms, 10ms, ... capped at 1s; a connection resets the count (the rest runs as from the beginning); a permanent
    error ends the loop at once and is returned, whatever would have come after it. *)
Theorem C49_backoff : forall pre k rest, no_perm pre -> calm pre ->
  exists acts, accept_loop 0 pre = (acts, None) /\
  (forall c, accept_loop 0 (pre ++ repeat ATemp k ++ AConn c :: rest)
     = let (a, r) := accept_loop 0 rest in (acts ++ map (fun i => Sleep (backoff i)) (seq 1 k) ++ Start c :: a, r)) /\
  (forall err, accept_loop 0 (pre ++ repeat ATemp k ++ APerm err :: rest)
     = (acts ++ map (fun i => Sleep (backoff i)) (seq 1 k), Some err)) /\
  accept_loop 0 (pre ++ repeat ATemp k) = (acts ++ map (fun i => Sleep (backoff i)) (seq 1 k), None).
Proof. exact backoff_run. Qed.
Print Assumptions C49_backoff.
Example C49_case :
  no_perm [ATemp; AConn 1] /\ calm [ATemp; AConn 1] /\
  accept_loop 0 ([ATemp; AConn 1] ++ repeat ATemp 10 ++ [APerm (str "closed"); AConn 2])
  = ([Sleep 5000000; Start 1] ++ map Sleep [5000000; 10000000; 20000000; 40000000; 80000000; 160000000; 320000000; 640000000;
     1000000000; 1000000000], Some (str "closed")).
Proof. repeat split; [repeat constructor|right; exists [ATemp], 1; reflexivity]. Qed.

(** * C50 *)
Theorem C50_shutdown_partial : forall h m order res cl err m',
  lrun h m -> lstep m (LShutdown order res cl err) m' ->
  NoDup cl /\ (forall ln, In ln cl <-> being_served h ln) /\ m' = [] /\ err = first_error cl res.
Proof. exact shutdown_step. Qed.
Print Assumptions C50_shutdown_partial.
(** Shutdown is always possible, in every iteration order. *)
Theorem C50_shutdown_any_order : forall h m order res, lrun h m -> Permutation order m ->
  exists cl err, lstep m (LShutdown order res cl err) [].
Proof. exact shutdown_any. Qed.
Print Assumptions C50_shutdown_any_order.
(** Not covered: a listener given to two Serve calls at once.  When the first returns, the listener is forgotten
    although the second still runs, and Shutdown misses it. *)
Theorem C50_double_serve_refuted :
  ~ (forall h m order res cl err m' ln, lrun h m -> lstep m (LShutdown order res cl err) m' ->
       forallb (fun e => negb (shuts e)) h = true -> (0 < running h ln)%Z -> In ln cl).
Proof. exact double_serve_refuted. Qed.
Print Assumptions C50_double_serve_refuted.
Example C50_case : (* three listeners, one stopped; both closes fail, the error of the first one closed is returned *)
  exists m, lrun ([] ++ [LServe 1] ++ [LServe 2] ++ [LServe 3] ++ [LStop 2])%nat m /\
  lstep m (LShutdown [3; 1]%nat (fun n => Some (if Nat.eqb n 1 then str "e1" else str "e3")) [3; 1]%nat (Some (str "e3"))) [].
Proof.
  exists [3; 1]%nat. split.
  - rewrite !app_assoc. econstructor; [econstructor; [econstructor; [econstructor; [constructor|]|]|]|]; apply ls_serve || apply (ls_stop [3;2;1]%nat 2).
  - econstructor; [apply Permutation_refl|reflexivity].
Qed.

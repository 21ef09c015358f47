(** Property C72: Serve and Shutdown of one Listener, called by any number of goroutines at the same time, from the text of server.go. *)
From Verif Require Import Base GoBuf GoSyntax Ufs GoRun GoProg GoWp Listener ListenerSpec ServerRun LisConc LisRun LisRunExec LisRunThm.
From Verif Require ListenerRun.

(** l.listeners and the map are read and written only by the goroutine that holds l.mu. *)
Theorem C72_race : forall Li is_net ls x s i m r m', executes Li is_net ls x s -> x i = Some m -> step P m = Ask r m' -> touches Li s r -> rest s = Some i.
Proof. exact exe_race. Qed.
Print Assumptions C72_race.
(** No goroutine panics or gets stuck; each comes, by its own steps, to l.mu, to a call that others see, or to its end. *)
Theorem C72_safe : forall Li is_net ls x s i m, executes Li is_net ls x s -> x i = Some m -> ~ lost Li is_net m s.
Proof. exact exe_safe. Qed.
Print Assumptions C72_safe.
Theorem C72_progress : forall Li is_net ls x s i m, executes Li is_net ls x s -> x i = Some m -> comes Li is_net i m s.
Proof. exact exe_progress. Qed.
Print Assumptions C72_progress.
(** l.mu excludes; while it is held its holder does nothing but close listeners: it neither accepts, sleeps, locks again nor returns. *)
Theorem C72_mutex : forall Li is_net ls1 i ls2 j x s, executes Li is_net (ls1 ++ (i, ELock) :: ls2 ++ [(j, ELock)]) x s -> In (i, EUnlock) ls2.
Proof. exact exe_mutex. Qed.
Print Assumptions C72_mutex.
Theorem C72_held : forall Li is_net ls1 i ls2 e x s, executes Li is_net (ls1 ++ (i, ELock) :: ls2 ++ [(i, e)]) x s -> ~ In (i, EUnlock) ls2 ->
  e = EUnlock \/ exists ln r, e = EClose ln r.
Proof. exact exe_held. Qed.
Print Assumptions C72_held.
(** In the order in which l.mu is released, the calls are one after the other as in C50; when nobody holds l.mu the map in memory has the
    listeners being served. *)
Theorem C72_history : forall Li is_net ls x s, executes Li is_net ls x s -> exists m, lrun (history ls) m.
Proof. exact exe_history. Qed.
Print Assumptions C72_history.
Theorem C72_set : forall Li is_net ls x s, executes Li is_net ls x s -> rest s = None -> exists cn ad tra mp st,
  cells s Li = Some (v_listener (VObj (str "NsCreator") cn) ad tra mp) /\ ListenerRun.holds_set (cells s) mp st /\ forall n, In n st <-> being_served (history ls) n.
Proof. exact exe_set. Qed.
Print Assumptions C72_set.
(** Shutdown closes each listener being served once and no other, while it holds l.mu, and returns the first error. *)
Theorem C72_shutdown : forall Li is_net ls i x s l, executes Li is_net (ls ++ [(i, EUnlock)]) x s -> own ls i = EBegin TShutdown :: l ->
  NoDup (map fst (closes l)) /\ forall n, In n (map fst (closes l)) <-> being_served (history ls) n.
Proof. exact exe_shutdown. Qed.
Print Assumptions C72_shutdown.
Theorem C72_shutdown_end : forall Li is_net ls i r x s l, executes Li is_net (ls ++ [(i, EEnd r)]) x s -> own ls i = EBegin TShutdown :: l ->
  exists cs, l = ELock :: cs ++ [EUnlock] /\ Forall is_close cs /\ r = first_error (map fst (closes cs)) (res_of (closes cs)).
Proof. exact exe_shutdown_end. Qed.
Print Assumptions C72_shutdown_end.
(** A Serve waits and starts connections as in C49, at most one action behind what Accept has returned; when it returns it has stopped being
    tracked and has closed its listener, in this order, and the error is the permanent one of Accept. *)
Theorem C72_serving : forall Li is_net ls x s i ln l, executes Li is_net ls x s -> x i <> None -> own ls i = EBegin (TServe ln) :: l ->
  Forall (fun e => match e with EAccept ln' _ | EClose ln' _ => ln' = ln | _ => True end) l /\
  exists a, fst (accept_loop 0 (outcomes l)) = acts l ++ a /\ (List.length a <= 1)%nat.
Proof. exact exe_serving. Qed.
Print Assumptions C72_serving.
Theorem C72_serve_end : forall Li is_net ls i r x s ln l, executes Li is_net (ls ++ [(i, EEnd r)]) x s -> own ls i = EBegin (TServe ln) :: l ->
  exists b c e, l = ELock :: EUnlock :: b ++ [ELock; EUnlock; EClose ln c] /\ r = Some e /\ Forall (in_loop ln) b /\ accept_loop 0 (outcomes b) = (acts b, Some e).
Proof. exact exe_serve_end. Qed.
Print Assumptions C72_serve_end.
(** But a Shutdown does not stop a Serve that has started and not yet taken l.mu: after Shutdown has returned it goes on to accept
    connections, and its listener is not closed. *)
Theorem C72_after_refuted : ~ (forall Li is_net ls1 j ln ls2 i ls3 r ls4 c x s,
  executes Li is_net (ls1 ++ (j, EBegin (TServe ln)) :: ls2 ++ (i, EBegin TShutdown) :: ls3 ++ (i, EEnd r) :: ls4 ++ [(j, EStart c)]) x s ->
  exists k r, In (k, EClose ln r) (ls2 ++ ls3 ++ ls4)).
Proof.
  intros H. destruct exe_late as (x & s & R).
  destruct (H 5 no_net [] 0%nat 7 [] 1%nat [(1, ELock); (1, EUnlock)]%nat None [(0, ELock); (0, EUnlock); (0, EAccept 7 (AConn 3))]%nat 3 x s R) as (k & r & Hi).
  cbn in Hi. intuition discriminate.
Qed.
Print Assumptions C72_after_refuted.
(** Two Serves; a connection is accepted, an error is waited for; Shutdown closes both listeners; its error is that of the first. *)
Example C72_case : exists x s, executes 5 no_net
  ([(0, EBegin (TServe 7)); (1, EBegin (TServe 8)); (2, EBegin TShutdown); (1, ELock); (1, EUnlock); (0, ELock); (0, EUnlock); (0, EAccept 7 (AConn 3)); (1, EAccept 8 ATemp); (0, EStart 3); (2, ELock); (1, ESleep 5000000)] ++
   [(2, EClose 8 (Some (str "e8"))); (1, EAccept 8 (APerm (str "closed"))); (2, EClose 7 (Some (str "e7"))); (0, EAccept 7 (APerm (str "closed"))); (2, EUnlock); (0, ELock); (2, EEnd (Some (str "e8")));
    (0, EUnlock); (0, EClose 7 None); (0, EEnd (Some (str "closed"))); (1, ELock); (1, EUnlock); (1, EClose 8 None); (1, EEnd (Some (str "closed")))])%nat x s.
Proof. exact exe_later. Qed.

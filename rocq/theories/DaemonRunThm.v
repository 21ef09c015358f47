(** The text of cmd/ufs: what the process does, from its start. *)
From Verif Require Import Base GoBuf GoSyntax Ufs GoRun GoFmt GoProg GoWp Server Listener ListenerLemmas ServerRun ServerRunLemmas ListenerRun ListenerRunLemmas DaemonRun DaemonRunLemmas.

Section Thm.
Context (cmd : cmdline) (listen : bytes -> bytes -> N + bytes) (closing : N -> option bytes) (is_net : bytes -> bool).
Notation INIT := (init cmd listen closing is_net).
Notation PROCESS := (process cmd listen closing is_net).

Lemma init_more n k l : forall s r, INIT n l s = Some r -> INIT (n + k) l s = Some r.
Proof.
  induction l as [|[x e] l IH]; intros s r H; cbn [init] in *; [exact H|].
  destruct (GoWp.run daemon_program (outside cmd listen closing is_net) n (mkM (CE false e) [] [] []) s) as [[out s1]|] eqn:E; [|discriminate H].
  rewrite (run_more _ _ _ k _ _ _ E). destruct out as [[|v [|]]| |]; try discriminate H. apply IH. exact H.
Qed.
Lemma process_more n k ac r : PROCESS n ac = Some r -> PROCESS (n + k) ac = Some r.
Proof.
  unfold process. destruct (INIT n flag_inits _) as [s|] eqn:E; [|discriminate]. rewrite (init_more _ k _ _ _ E). apply run_more.
Qed.
(** The process does one thing only. *)
Lemma process_unique n n' ac r r' : PROCESS n ac = Some r -> PROCESS n' ac = Some r' -> r = r'.
Proof.
  intros H H'. apply (process_more _ n') in H. apply (process_more _ n) in H'. rewrite Nat.add_comm in H'. congruence.
Qed.
Definition main_does (ac : list accepted) (out : ending) (s : memory dworld) : Prop :=
  match listen (s_ntype cmd) (s_addr cmd) with
  | inr err => out = Exited /\ d_log (rest s) = [DParse; DListen (s_ntype cmd) (s_addr cmd); DFatal [VStr (str "Listen failed: %v"); VErr (OSErr err)]]
  | inl ln => let (acts, r) := accept_loop 0 ac in
      (exists os, apart cmd (cells s) (free s) (started acts) os /\ d_conns (rest s) = map o_conn os) /\
      match r with
      | None => out = Panicked /\ d_accepts (rest s) = [] /\
          d_log (rest s) = [DParse; DListen (s_ntype cmd) (s_addr cmd); DL LLock; DL LUnlock] ++ map (fun a => DL (LDo a)) acts
      | Some err => out = Exited /\
          d_log (rest s) = [DParse; DListen (s_ntype cmd) (s_addr cmd); DL LLock; DL LUnlock] ++ map (fun a => DL (LDo a)) acts ++ [DL LLock; DL LUnlock; DL (LClose ln); DFatal [VErr (OSErr err)]]
      end
  end.
Theorem main_text : forall ac, exists n out s, PROCESS n ac = Some (out, s) /\ main_does ac out s.
Proof.
  intros ac.
  assert (W : wp daemon_program (outside cmd listen closing is_net) (start (str "main") [] []) (mkMem defaults 5 (mkDW ac [] false flags variables [])) (main_does ac)).
  { apply main_runs. unfold main_does. destruct (listen (s_ntype cmd) (s_addr cmd)) as [ln|err]; [|intros; auto].
    destruct (accept_loop 0 ac) as [acts [err|]]; cbv zeta; intros; (split; [eexists; split; [eassumption|reflexivity]|]).
    - split; [reflexivity|]. cbn [rest d_log]. rewrite <- !app_assoc. reflexivity.
    - auto. }
  destruct W as (n & out & s & W & HQ). exists (100 + n)%nat, out, s. split; [|exact HQ]. unfold process.
  rewrite (init_more _ n _ _ _ (init_runs cmd listen closing is_net ac)). rewrite Nat.add_comm. apply run_more. exact W.
Qed.
Theorem main_only : forall n ac out s, PROCESS n ac = Some (out, s) -> main_does ac out s.
Proof.
  intros n ac out s H. destruct (main_text ac) as (n' & out' & s' & H' & HQ). pose proof (process_unique _ _ _ _ _ H H') as E. congruence.
Qed.
Theorem main_never_returns : forall n ac vs s, PROCESS n ac <> Some (Returned vs, s).
Proof.
  intros n ac vs s H. apply main_only in H. unfold main_does in H. destruct (listen _ _); [|destruct H; discriminate].
  destruct (accept_loop 0 ac) as [acts [err|]]; destruct H as (_ & H & _); discriminate H.
Qed.
End Thm.

Lemma nodup_parts {A B} (f : A -> list B) : forall l i j x y a, NoDup (flat_map f l) -> nth_error l i = Some x -> nth_error l j = Some y -> i <> j -> In a (f x) -> ~ In a (f y).
Proof.
  assert (K : forall l i x a, nth_error l i = Some x -> In a (f x) -> In a (flat_map f l)).
  { intros l i x a E I. apply in_flat_map. exists x. split; [eapply nth_error_In; exact E|exact I]. }
  assert (D : forall (l m : list B) a, NoDup (l ++ m) -> In a l -> ~ In a m).
  { induction l as [|b l IH]; intros m a N I J; [destruct I|]. inversion N; subst. destruct I as [->|I]; [apply H1, in_or_app; auto|]. exact (IH m a H2 I J). }
  assert (R : forall (l m : list B), NoDup (l ++ m) -> NoDup m).
  { induction l as [|b l IH]; intros m N; [exact N|]. inversion N; subst. auto. }
  induction l as [|z l IH]; intros i j x y a N Ei Ej Hn I J; [destruct i; discriminate Ei|]. cbn [flat_map] in N.
  destruct i as [|i], j as [|j]; cbn [nth_error] in *.
  - congruence.
  - injection Ei as ->. exact (D _ _ _ N I (K _ _ _ _ Ej J)).
  - injection Ej as ->. exact (D _ _ _ N J (K _ _ _ _ Ei I)).
  - apply R in N. exact (IH i j x y a N Ei Ej ltac:(congruence) I J).
Qed.
Lemma apart_disjoint : forall cmd hp nx cs os i j x y a, apart cmd hp nx cs os -> nth_error os i = Some x -> nth_error os j = Some y -> i <> j ->
  In a (own_cells x) -> ~ In a (own_cells y).
Proof. intros cmd hp nx cs os i j x y a (_ & N & _). exact (nodup_parts own_cells os i j x y a N). Qed.

(** The text of the Listener in server.go does what Listener.v says. *)
From Verif Require Import Base GoBuf GoSyntax Ufs GoRun GoFmt GoProg GoWp Server Listener ListenerLemmas ServerRun ServerRunLemmas ListenerRun ListenerRunLemmas.
From Coq Require Import Permutation.

Section Thm.
Context (closing : N -> option bytes) (is_net : bytes -> bool) (option_does : N -> value -> value * option bytes).
Notation ENDS := (ends protocol_program (ListenerRun.outside closing is_net option_does)).
Definition creator (n : N) : value := VObj (str "NsCreator") n.
Definition has_set (cr : value) (ad : bytes) (tra : value) (Li : N) (set : list nat) (s : memory lworld) : Prop := has cr ad tra Li set (cells s) (free s).
(** server.go:96-110 *)
Lemma text_track : forall cr ad tra Li ln (add : bool) set s, has_set cr ad tra Li set s -> k_locked (rest s) = false ->
  exists s', ENDS (start (str "Listener.trackListener") [VPtr (str "Listener") Li []] [VObj (str "net.Listener") ln; VBool add]) s (Returned []) s' /\
    has_set cr ad tra Li (if add then track set (N.to_nat ln) else untrack set (N.to_nat ln)) s' /\
    k_log (rest s') = k_log (rest s) ++ [LLock; LUnlock] /\ k_locked (rest s') = false.
Proof.
  intros cr ad tra Li ln add set [hp nx [ac lg lk od]] H L. cbn [rest k_locked] in L. subst lk. cbn [cells free rest k_log].
  assert (W : wp protocol_program (ListenerRun.outside closing is_net option_does) (start (str "Listener.trackListener") [VPtr (str "Listener") Li []] [VObj (str "net.Listener") ln; VBool add])
    (mkMem hp nx (mkLW ac lg false od)) (fun out s' => out = Returned [] /\ has_set cr ad tra Li (if add then track set (N.to_nat ln) else untrack set (N.to_nat ln)) s' /\
    k_log (rest s') = lg ++ [LLock; LUnlock] /\ k_locked (rest s') = false)).
  { eapply track_runs; [exact H|]. intros hp' nx' H'. apply wp_step. cbn [step ctl stk wp_res]. repeat split; [exact H'|]. cbn [rest k_log]. rewrite <- app_assoc. reflexivity. }
  destruct W as (n & out & s' & W & -> & Q). exists s'. split; [exists n; exact W|exact Q].
Qed.
(** server.go:112-121 and 174-179 *)
Lemma text_shutdown : forall cr ad tra Li set s set' closed err, has_set cr ad tra Li set s -> k_locked (rest s) = false ->
  Permutation (map N.to_nat (k_order (rest s))) set -> close_loop (map N.to_nat (k_order (rest s))) (fun n => closing (N.of_nat n)) set None = (set', closed, err) ->
  exists s', ENDS (start (str "Listener.Shutdown") [VPtr (str "Listener") Li []] []) s (Returned [err_of err]) s' /\
    has_set cr ad tra Li set' s' /\ k_log (rest s') = k_log (rest s) ++ LLock :: map (fun n => LClose (N.of_nat n)) closed ++ [LUnlock] /\ k_locked (rest s') = false.
Proof.
  intros cr ad tra Li set [hp nx [ac lg lk od]] set' closed err H L P C. cbn [rest k_locked k_order] in *. subst lk. cbn [cells free rest k_log].
  assert (W : wp protocol_program (ListenerRun.outside closing is_net option_does) (start (str "Listener.Shutdown") [VPtr (str "Listener") Li []] [])
    (mkMem hp nx (mkLW ac lg false od)) (fun out s' => out = Returned [err_of err] /\ has_set cr ad tra Li set' s' /\
    k_log (rest s') = lg ++ LLock :: map (fun n => LClose (N.of_nat n)) closed ++ [LUnlock] /\ k_locked (rest s') = false)).
  { eapply shutdown_runs; [exact H|exact P|]. intros hp' set2 closed2 err2 H' C'. rewrite C in C'. injection C' as <- <- <-.
    apply wp_step. cbn [step ctl stk wp_res]. repeat split; [exact H'|]. cbn [rest k_log]. rewrite <- !app_assoc. reflexivity. }
  destruct W as (n & out & s' & W & -> & Q). exists s'. split; [exists n; exact W|exact Q].
Qed.
(** server.go:125-158; while it waits in Accept the listener is in the set, and it has done what the model says *)
Lemma text_serve : forall cn ad tra Li set ln s, is_trace tra -> has_set (creator cn) ad tra Li set s -> k_locked (rest s) = false ->
  let (acts, r) := accept_loop 0 (k_accepts (rest s)) in
  exists out s', ENDS (start (str "Listener.Serve") [VPtr (str "Listener") Li []] [VObj (str "net.Listener") ln]) s out s' /\ k_locked (rest s') = false /\
    match r with
    | None => out = Panicked /\ k_accepts (rest s') = [] /\ k_log (rest s') = k_log (rest s) ++ [LLock; LUnlock] ++ map LDo acts /\
              has_set (creator cn) ad tra Li (track set (N.to_nat ln)) s'
    | Some e => out = Returned [VErr (OSErr e)] /\ k_log (rest s') = k_log (rest s) ++ [LLock; LUnlock] ++ map LDo acts ++ [LLock; LUnlock; LClose ln] /\
              has_set (creator cn) ad tra Li (untrack (track set (N.to_nat ln)) (N.to_nat ln)) s'
    end.
Proof.
  intros cn ad tra Li set ln [hp nx [ac lg lk od]] Ht H L. cbn [rest k_locked k_accepts k_log] in *. subst lk.
  destruct (accept_loop 0 ac) as [acts r] eqn:Ea.
  match goal with |- exists out s', ENDS ?m ?s out s' /\ @?q s' /\ @?p out s' => 
    assert (W : wp protocol_program (ListenerRun.outside closing is_net option_does) m s (fun out s' => q s' /\ p out s')) end.
  { eapply lserve_runs; [exact Ht|exact H|]. rewrite Ea. unfold listen_ends. cbn [snd fst]. destruct r.
    - intros hp' nx' ac' H'. cbn [rest k_locked k_log]. repeat split; [|exact H']. rewrite <- !app_assoc. reflexivity.
    - intros hp' nx' H'. cbn [rest k_locked k_log k_accepts]. repeat split; [|exact H']. rewrite <- !app_assoc. reflexivity. }
  destruct W as (n & out & s' & W & Q). exists out, s'. split; [exists n; exact W|exact Q].
Qed.
(** server.go:66-78 *)
Lemma text_new_listener : forall cn opts s,
  let m := mkM (CApply (FUser (str "NewListener") []) true Now [creator cn; VList (map (VObj (str "ListenerOpt")) opts)]) [] [] [] in
  exists s', (forall a, a < free s -> cells s' a = cells s a) /\ rest s' = rest s /\
    match options option_does opts (v_listener (creator cn) [] VNil VNil) with
    | inl v => exists a, ENDS m s (Returned [VPtr (str "Listener") a []; VNil]) s' /\ free s <= a /\ cells s' a = Some v
    | inr e => ENDS m s (Returned [VNil; VErr (OSErr e)]) s'
    end.
Proof.
  intros cn opts [hp nx [ac lg lk od]] m.
  assert (W : wp protocol_program (ListenerRun.outside closing is_net option_does) m (mkMem hp nx (mkLW ac lg lk od)) (fun out s' =>
    (forall a, a < nx -> cells s' a = hp a) /\ rest s' = mkLW ac lg lk od /\
    match options option_does opts (v_listener (creator cn) [] VNil VNil) with
    | inl v => out = Returned [VPtr (str "Listener") nx []; VNil] /\ cells s' nx = Some v
    | inr e => out = Returned [VNil; VErr (OSErr e)]
    end)).
  { apply new_listener_runs. fold (creator cn). destruct options; intros; repeat split; auto. }
  destruct W as (n & out & s' & W & Q1 & Q2 & Q3). exists s'. split; [exact Q1|]. split; [exact Q2|].
  destruct options.
  - destruct Q3 as (-> & Q3). exists nx. split; [exists n; exact W|]. split; [cbn; lia|exact Q3].
  - subst out. exists n. exact W.
Qed.
End Thm.

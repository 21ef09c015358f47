(** Client, server and file server, all from their texts: the calls of NetStoredCase.v. *)
From Verif Require Import Base GoBuf CodecPrim CodecLemmas Types Codec Msgs CodecSpec StubPrim Stubs GoPath Server ServerSpec ServerWitness Rpc GoSyntax Ufs UfsSpec MemOS UfsRun UfsRunThm3 UfsText
  GoRun GoFmt GoProg GoWp ServerRun ServerRunLemmas Client ClientSpec ClientRun ClientRunLemmas ClientRunSim ClientRunNew ClientHist ClientRunThm ClientRunExec ClientWell
  NetRun NetLemmas NetCase NetStore NetClient NetLive NetLiveCase NetEnds NetEnds2 NetEndsCase NetTidy NetStays NetWell NetWellCase UfsFits UfsStored NetUfsCase NetStored NetStoredCase.
Local Opaque NumTags all_tags.

(** The variables of the package, then the file server and its map. *)
Definition t_os : os world := mended srv_cfg mem_os.
Definition t_heap : N -> option value := fun a =>
  if a =? 0 then Some (VStr (str "sys")) else if a =? 1 then Some (VStr (str "/srv")) else if a =? 2 then Some (VI 64 0) else None.
Definition t_store : store world := mkStore t_heap 3 false empty_world [].
Definition t_lay : layout := mkLayout 3 4 0 1 2.
Definition t_run : option (UfsRun.outcome * store world) := UfsRun.run t_os t_lay (N.to_nat 2000) create_server t_store.
Definition t_s0 : store world := match t_run with Some (_, s) => s | None => t_store end.
Lemma t_created : t_run = Some (UfsRun.Returned [VPtr (str "FileServer") 3 []], t_s0).
Proof.
  assert (X : match t_run with Some (UfsRun.Returned [VPtr a b []], _) => beq a (str "FileServer") && (b =? 3) = true | _ => False end) by (vm_compute; reflexivity).
  unfold t_s0. destruct t_run as [[[|] s]|]; try contradiction X. repeat match type of X with match ?e with _ => _ end => destruct e; try contradiction X end. apply andb_prop in X. destruct X as [X1 X2]. apply beq_eq in X1. apply N.eqb_eq in X2. subst. reflexivity.
Qed.
Lemma t_made : fresh_server t_os srv_cfg empty_world t_lay t_s0.
Proof.
  exists t_lay, t_store, (N.to_nat 2000). do 5 (split; [reflexivity|]). split. { intros a Ha. change (3 <= a) in Ha. change (t_heap a = None). unfold t_heap. destruct (N.eqb_spec a 0); [lia|]. destruct (N.eqb_spec a 1); [lia|]. destruct (N.eqb_spec a 2); [lia|reflexivity]. }
  do 3 (split; [reflexivity|]). split; [exact t_created|].
  assert (X : match heap t_s0 3 with Some (VStruct _ fs) => match assoc (str "files") fs with Some (VPtr [] a []) => a =? 4 | _ => false end | _ => false end = true) by (vm_compute; reflexivity).
  cbn [t_lay a_fs a_files]. destruct (heap t_s0 3) as [[]|]; try discriminate X. do 2 eexists. split; [reflexivity|].
  match type of X with match ?e with _ => _ end = true => destruct e as [[]|]; try discriminate X end.
  repeat match type of X with match ?e with _ => _ end = true => destruct e; try discriminate X end. apply N.eqb_eq in X. subst. reflexivity.
Qed.
Notation tst := (tstate srv_cfg t_lay (W := world)).
Definition t_x0 : tst := Specif.exist _ t_s0 (ex_intro _ no_fids (proj1 (made_holds t_os srv_cfg t_lay empty_world t_s0 eq_refl t_made))).
Definition t_srv : NineServer tst := text_server t_os srv_cfg t_lay.

(** The listener accepts the connection. *)
Definition t_before : memory (cworld tst) := mkMem (first_cells new_listener) 2 (mkCW [] [] true t_x0 0 [] []).
Definition t_accept : option (ending * memory (cworld tst)) :=
  run protocol_program (ServerRun.outside t_srv ServerWitness.quiet net_addr 0) (N.to_nat 3000) (start (str "Listener.Accept") [VPtr (str "Listener") 1 []] [VObj (str "net.Conn") 0]) t_before.
Definition t_net_of (r : option (ending * memory (cworld tst))) : option (@net tst) :=
  match r with
  | Some (Returned [VNil], s) => match w_started (GoWp.rest s) with [(f, vs)] => Some (mkNet (first_state true true []) [] (Some (goroutine (f, vs))) s [] false) | _ => None end
  | _ => None
  end.
Definition t_first : option (@net tst) := t_net_of t_accept.
Lemma t_net_of_some r n : t_net_of r = Some n -> exists s f vs, r = Some (Returned [VNil], s) /\ w_started (GoWp.rest s) = [(f, vs)] /\ n = mkNet (first_state true true []) [] (Some (goroutine (f, vs))) s [] false.
Proof.
  unfold t_net_of. generalize (first_state true true []). intros g.
  destruct r as [[[[|[] [|]]| |] s]|]; intros H; try discriminate H. destruct (w_started (GoWp.rest s)) as [|[f vs] [|]] eqn:Es; try discriminate H.
  injection H as <-. exists s, f, vs. auto.
Qed.
Lemma t_accept_ends out s : t_accept = Some (out, s) ->
  ends protocol_program (ServerRun.outside t_srv ServerWitness.quiet net_addr 0) (start (str "Listener.Accept") [VPtr (str "Listener") 1 []] [VObj (str "net.Conn") 0]) t_before out s.
Proof. intros E. exists (N.to_nat 3000). exact E. Qed.
Lemma t_connected n : t_first = Some n -> connected t_srv ServerWitness.quiet net_addr 0 0 (first_opt true true) 1 true true t_x0 n.
Proof.
  intros H. apply t_net_of_some in H. destruct H as (s & f & vs & E & Es & ->). apply t_accept_ends in E.
  split; [apply first_opened|]. split; [|split; [reflexivity|split; reflexivity]]. cbn [n_server n_mem]. exists (goroutine (f, vs)). split; [reflexivity|].
  exists 0, [], (VObj (str "Tracer") 0), VNil, 1, 0, t_before, f, vs.
  split; [right; exists 0; reflexivity|]. split; [reflexivity|]. split; [reflexivity|]. split; [discriminate|]. split; [reflexivity|]. split; [reflexivity|].
  do 6 (split; [reflexivity|]). split; [exact E|]. split; [exact Es|reflexivity].
Qed.
Lemma t_computed : match t_first with
  | Some n0 => match wexec t_srv ServerWitness.quiet net_addr 0 0 (first_opt true true) 1 (cutb 9) s_acts n0 [] [] with Some (ls, _) => seen ls = s_seen | None => False end
  | None => False
  end.
Proof. vm_compute. reflexivity. Qed.
Lemma t_runs : exists n0 l n, connected t_srv ServerWitness.quiet net_addr 0 0 (first_opt true true) 1 true true t_x0 n0 /\
  jsteps t_srv ServerWitness.quiet net_addr 0 0 (first_opt true true) 1 n0 l n /\ seen l = s_seen.
Proof.
  pose proof t_computed as H. destruct t_first as [n0|] eqn:E; [|contradiction]. apply t_connected in E.
  match type of H with match ?x with _ => _ end => destruct x as [[l [[n u] d]]|] eqn:Ej end; [|contradiction].
  apply (wexec_chain _ _ _ _ _ _ _ cut _ (cutb_cut 9)) in Ej.
  exists n0, l, n. split; [exact E|]. split; [|exact H]. eapply wsteps_jsteps. exact (chain_wsteps _ _ _ _ _ _ _ _ n0 [] _ _ _ _ _ _ _ (ws_nil _ _ _ _ _ _ _ _ _) Ej).
Qed.
Definition t_stored := stored_case_of t_srv t_x0 t_runs.

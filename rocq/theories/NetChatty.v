(** What one call has written, a later call reads: with the debug wrapper around the file server from its text; and a run with it. *)
From Verif Require Import Base GoBuf CodecPrim CodecLemmas Types Codec Msgs CodecSpec StubPrim Stubs GoPath Server ServerSpec ServerWitness Rpc GoSyntax Ufs UfsSpec MemOS UfsRun UfsRunThm3 UfsText Debugfs DebugLemmas
  GoRun GoFmt GoProg GoWp ServerRun ServerRunLemmas Client ClientSpec ClientRun ClientRunLemmas ClientRunSim ClientRunNew ClientHist ClientRunThm ClientRunExec ClientWell
  NetRun NetLemmas NetThm2 NetCase NetStore NetClient NetLive NetLiveCase NetEnds NetEnds2 NetEndsCase NetTidy NetStays NetWell NetWellCase UfsFits UfsStored NetUfsCase NetStored NetStoredCase NetText NetTextCase NetAlike.
Local Opaque NumTags all_tags.

(** The replies are those of the file server without the wrapper. *)
Theorem chatty_serial St (ns : NineServer St) K x log E remote srn crn opt C n0 l n : (forall j, e_write E j = None) -> fitting_from K ns x ->
  connected (debugfs St ns) E remote srn crn opt C true true (x, log) n0 -> jsteps (debugfs St ns) E remote srn crn opt C n0 l n -> proper_calls K l ->
  exists reqs cs reps st, writes l = map enc_req reqs /\ Forall (ok_in K) reqs /\ NoDup cs /\ List.length cs = List.length reqs /\
    ServerSpec.answers ns false x (firstn (List.length (reads l)) reqs) = Some (reps, st) /\ reads l = map enc_rep reps /\
    (forall la lb k c, l = la ++ lb -> nth_error cs k = Some c -> (k < List.length (writes la))%nat -> exists t m, nth_error reqs k = Some (t, m) /\ starts c la = [call_request m]) /\
    (forall l1 c r l2, l = l1 ++ LDone c r :: l2 -> exists k t m a, nth_error cs k = Some c /\ nth_error reqs k = Some (t, m) /\ nth_error reps k = Some (t, a) /\
       r = marshalR t a /\ (forall sp, call_result m r sp = returns m a) /\
       exists la y lb, l1 = la ++ LWrite y (marshalT t m) :: lb /\ List.length (writes la) = k /\ starts c la = [call_request m]) /\
    (forall l1 c r l2 k k' c', l = l1 ++ LDone c r :: l2 -> nth_error cs k = Some c -> nth_error cs k' = Some c' -> starts c' l1 = [] -> (k < k')%nat).
Proof.
  intros HE HF HC R Hp. destruct (net_serial (debugfs St ns) E remote srn crn opt C HE (x, log) (debug_fitting ns K x log HF) n0 HC l n R Hp) as (reqs & cs & reps & st & H1 & H2 & H3 & H4 & H5 & H6).
  exists reqs, cs, reps, (fst st, fst (snd st)). do 4 (split; [assumption|]). split; [exact (debug_answers ns _ _ _ _ _ _ H5)|exact H6].
Qed.
Theorem chatty_stored W St c (h : os W) content w L view (ns : NineServer St) x log E remote srn crn opt C n0 l n cw cr fid o d k rw rr a b l1 l2 l3 l4 sp sp' :
  IOunit c = 8192 -> decent c h -> keeps h content -> runs_text h L view ns -> fresh_server h c w L (view x) ->
  (forall j, e_write E j = None) -> connected (debugfs St ns) E remote srn crn opt C true true (x, log) n0 -> jsteps (debugfs St ns) E remote srn crn opt C n0 l n -> proper_calls modest l ->
  let mw := MTwrite (mkTwritePkt fid o d) in let mr := MTread (mkTreadPkt fid o k) in
  fitsT mw -> fitsT mr -> (Z.to_nat k <= List.length d)%nat ->
  l = l1 ++ LDone cw rw :: l2 -> In (LStart cw (call_request mw)) l -> call_result mw rw sp = CallRet (MRwrite a) None ->
  l = l3 ++ LDone cr rr :: l4 -> In (LStart cr (call_request mr)) l -> call_result mr rr sp' = CallRet (MRread (mkRreadPkt b)) None ->
  starts cr l1 = [] ->
  (forall c' q, In (LStart c' q) l3 -> c' <> cw -> c' <> cr -> (exists m, q = call_request m /\ fitsT m /\ looks fid m) \/ exists lx r ly, l = lx ++ LDone c' r :: ly /\ starts cw lx = []) ->
  b = firstn (Z.to_nat k) d \/
  exists reqs more reps x' u f, writes l = map enc_req (reqs ++ more) /\ Forall ok_req (reqs ++ more) /\ ServerSpec.answers ns false x reqs = Some (reps, (true, x')) /\
    UfsRun.holds c L (view x') u /\ u fid = Some f /\ N.land (QID_Type (f_QID f)) QTDIR <> 0.
Proof.
  intros HI HD HK HT HM HE HC R Hp mw mr F1 F2 Hk E1 S1 R1 E2 S2 R2 Hs Ho.
  destruct (stored_by c h content HK w (debugfs St ns) (x, log) (debug_fitting ns _ x log (text_fitting h c L view ns x w HT HM HI HD))
    (fun reqs reps st H => match text_answers_as h c L view ns x w HT HM HI reqs reps _ (debug_answers ns _ _ _ _ _ _ H) with ex_intro _ u (ex_intro _ w' (conj A _)) => ex_intro _ _ A end)
    E remote srn crn opt C HE n0 HC l n cw cr fid o d k rw rr a b l1 l2 l3 l4 sp sp' R Hp F1 F2 Hk E1 S1 R1 E2 S2 R2 Hs Ho) as [X|(reqs & more & reps & u & w' & f & X1 & X2 & X3 & X4 & X5)]; [left; exact X|right].
  destruct (made_holds h c L w _ HI HM) as [Hh Hw]. pose proof (same_answers h c L view ns HT reqs false x no_fids Hh) as Y. rewrite Hw, X3 in Y.
  destruct Y as (x' & Y1 & Y2 & _). exists reqs, more, reps, x', u, f. auto 10.
Qed.

(** The calls of NetStoredCase.v with the wrapper. *)
Notation dst := (tst * list bytes)%type.
Definition d_srv : NineServer dst := debugfs tst t_srv.
Definition d_x0 : dst := (t_x0, []).
Definition d_before : memory (cworld dst) := mkMem (first_cells new_listener) 2 (mkCW [] [] true d_x0 0 [] []).
Definition d_accept : option (ending * memory (cworld dst)) :=
  run protocol_program (ServerRun.outside d_srv ServerWitness.quiet net_addr 0) (N.to_nat 3000) (start (str "Listener.Accept") [VPtr (str "Listener") 1 []] [VObj (str "net.Conn") 0]) d_before.
Definition d_net_of (r : option (ending * memory (cworld dst))) : option (@net dst) :=
  match r with
  | Some (Returned [VNil], s) => match w_started (GoWp.rest s) with [(f, vs)] => Some (mkNet (first_state true true []) [] (Some (goroutine (f, vs))) s [] false) | _ => None end
  | _ => None
  end.
Definition d_first : option (@net dst) := d_net_of d_accept.
Lemma d_net_of_some r n : d_net_of r = Some n -> exists s f vs, r = Some (Returned [VNil], s) /\ w_started (GoWp.rest s) = [(f, vs)] /\ n = mkNet (first_state true true []) [] (Some (goroutine (f, vs))) s [] false.
Proof.
  unfold d_net_of. generalize (first_state true true []). intros g.
  destruct r as [[[[|[] [|]]| |] s]|]; intros H; try discriminate H. destruct (w_started (GoWp.rest s)) as [|[f vs] [|]] eqn:Es; try discriminate H.
  injection H as <-. exists s, f, vs. auto.
Qed.
Lemma d_accept_ends out s : d_accept = Some (out, s) ->
  ends protocol_program (ServerRun.outside d_srv ServerWitness.quiet net_addr 0) (start (str "Listener.Accept") [VPtr (str "Listener") 1 []] [VObj (str "net.Conn") 0]) d_before out s.
Proof. intros E. exists (N.to_nat 3000). exact E. Qed.
Lemma d_connected n : d_first = Some n -> connected d_srv ServerWitness.quiet net_addr 0 0 (first_opt true true) 1 true true d_x0 n.
Proof.
  intros H. apply d_net_of_some in H. destruct H as (s & f & vs & E & Es & ->). apply d_accept_ends in E.
  split; [apply first_opened|]. split; [|split; [reflexivity|split; reflexivity]]. cbn [n_server n_mem]. exists (goroutine (f, vs)). split; [reflexivity|].
  exists 0, [], (VObj (str "Tracer") 0), VNil, 1, 0, d_before, f, vs.
  split; [right; exists 0; reflexivity|]. split; [reflexivity|]. split; [reflexivity|]. split; [discriminate|]. split; [reflexivity|]. split; [reflexivity|].
  do 6 (split; [reflexivity|]). split; [exact E|]. split; [exact Es|reflexivity].
Qed.
(** With the log at the end. *)
Definition d_log (n : @net dst) : list bytes := snd (w_ns (GoWp.rest (n_mem n))).
Definition d_result_of (f : option (@net dst)) := match f with
  | Some n0 => match wexec d_srv ServerWitness.quiet net_addr 0 0 (first_opt true true) 1 (cutb 9) s_acts n0 [] [] with Some (ls, (n, _, _)) => Some (seen ls, d_log n) | None => None end
  | None => None
  end.
Definition d_good (p : list lbl * list bytes) : Prop := fst p = s_seen /\ List.length (snd p) = 12%nat /\ skipn 10 (snd p) = [str ">>> Tread fid 5, off 0, count 3"; str "<<< Rread 3"].
Lemma d_computed : match d_result_of d_first with Some p => d_good p | None => False end.
Proof. vm_compute. split; [reflexivity|split; reflexivity]. Qed.
Lemma d_result_some f (P : list lbl * list bytes -> Prop) : match d_result_of f with Some p => P p | None => False end -> exists n0 l n u d, f = Some n0 /\
  wexec d_srv ServerWitness.quiet net_addr 0 0 (first_opt true true) 1 (cutb 9) s_acts n0 [] [] = Some (l, (n, u, d)) /\ P (seen l, d_log n).
Proof.
  unfold d_result_of. generalize s_acts. intros acts. destruct f as [n0|]; [|intros []].
  destruct (wexec d_srv ServerWitness.quiet net_addr 0 0 (first_opt true true) 1 (cutb 9) acts n0 [] []) as [[l [[n u] d]]|] eqn:Ej; [|intros []].
  intros H. exists n0, l, n, u, d. auto.
Qed.
Lemma d_chain n0 l n u d : wexec d_srv ServerWitness.quiet net_addr 0 0 (first_opt true true) 1 (cutb 9) s_acts n0 [] [] = Some (l, (n, u, d)) -> jsteps d_srv ServerWitness.quiet net_addr 0 0 (first_opt true true) 1 n0 l n.
Proof.
  generalize s_acts. intros acts Ej. apply (wexec_chain _ _ _ _ _ _ _ cut _ (cutb_cut 9)) in Ej.
  eapply wsteps_jsteps. exact (chain_wsteps _ _ _ _ _ _ _ _ n0 [] _ _ _ _ _ _ _ (ws_nil _ _ _ _ _ _ _ _ _) Ej).
Qed.
Lemma d_some : exists n0 l n u d, d_first = Some n0 /\ wexec d_srv ServerWitness.quiet net_addr 0 0 (first_opt true true) 1 (cutb 9) s_acts n0 [] [] = Some (l, (n, u, d)) /\ d_good (seen l, d_log n).
Proof. exact (d_result_some d_first d_good d_computed). Qed.
Lemma d_runs_log : exists n0 l n, connected d_srv ServerWitness.quiet net_addr 0 0 (first_opt true true) 1 true true d_x0 n0 /\
  jsteps d_srv ServerWitness.quiet net_addr 0 0 (first_opt true true) 1 n0 l n /\ seen l = s_seen /\
  List.length (d_log n) = 12%nat /\ skipn 10 (d_log n) = [str ">>> Tread fid 5, off 0, count 3"; str "<<< Rread 3"].
Proof. destruct d_some as (n0 & l & n & u & d & E & Ej & H1 & H2 & H3). exists n0, l, n. exact (conj (d_connected n0 E) (conj (d_chain n0 l n u d Ej) (conj H1 (conj H2 H3)))). Qed.
Lemma d_runs : exists n0 l n, connected d_srv ServerWitness.quiet net_addr 0 0 (first_opt true true) 1 true true d_x0 n0 /\
  jsteps d_srv ServerWitness.quiet net_addr 0 0 (first_opt true true) 1 n0 l n /\ seen l = s_seen.
Proof. destruct d_runs_log as (n0 & l & n & H1 & H2 & H3 & _). exists n0, l, n. split; [exact H1|]. split; [exact H2|exact H3]. Qed.
Definition d_stored := stored_case_of d_srv d_x0 d_runs.

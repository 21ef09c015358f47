(** Client, server, debug wrapper and file server, all from their texts: client.go, server.go, debug.go and filesystem.go. *)
From Verif Require Import Base GoBuf CodecPrim CodecLemmas Types Codec Msgs CodecSpec StubPrim Stubs GoPath Server ServerSpec ServerWitness Rpc GoSyntax Ufs UfsSpec MemOS UfsRun UfsRunThm3 UfsText Debugfs DebugLemmas
  GoRun GoFmt GoProg GoWp ServerRun ServerRunLemmas Client ClientSpec ClientRun ClientRunLemmas ClientRunSim ClientRunNew ClientHist ClientRunThm ClientRunExec ClientWell
  NetRun NetLemmas NetThm2 NetCase NetStore NetClient NetLive NetLiveCase NetEnds NetEnds2 NetEndsCase NetTidy NetStays NetWell NetWellCase UfsFits UfsStored NetUfsCase NetStored NetStoredCase NetText NetTextCase NetAlike NetChatty DebugRun DebugText.
Local Opaque NumTags all_tags.

Section Four.
Context {W St Sd : Type} (c : config) (h : os W) (w : W) (L : layout) (view : St -> store W) (ns : NineServer St) (x : St) (log : list bytes) (A : N)
  (dview : Sd -> memory (St * list bytes)) (dns : NineServer Sd) (d0 : Sd).
Context (HI : IOunit c = 8192) (HD : decent c h) (HT : runs_text h L view ns) (HM : fresh_server h c w L (view x)) (HW : runs_debug ns A dview dns) (HA : wraps A (dview d0) (x, log)).
Lemma four_fitting : fitting_from modest dns d0.
Proof. exact (fitting_alike _ _ _ (text_alike_bare ns A dview dns HW) modest d0 x (ex_intro _ log HA) (text_fitting h c L view ns x w HT HM HI HD)). Qed.
Lemma four_answering : answering modest dns d0.
Proof. exact (answering_alike _ _ _ (text_alike_bare ns A dview dns HW) modest d0 x (ex_intro _ log HA) (text_answering h c L view ns x w HT HM HI HD)). Qed.
Lemma four_as o reqs reps st : ServerSpec.answers dns o d0 reqs = Some (reps, st) -> exists x' log', ServerSpec.answers ns o x reqs = Some (reps, (fst st, x')) /\ wraps A (dview (snd st)) (x', log') /\
  ServerSpec.answers (debugfs St ns) o (x, log) reqs = Some (reps, (fst st, (x', log'))).
Proof.
  intros H. destruct (answers_as (fun (d : Sd) (y : dstate St) => wraps A (dview d) y) _ _ (text_alike ns A dview dns HW) o d0 (x, log) reqs reps st HA H) as ([o1 [x1 log1]] & E1 & E2 & E3).
  cbn [fst snd] in *. subst o1. exists x1, log1. split; [exact (debug_answers ns o x log reqs reps _ E1)|]. auto.
Qed.
Lemma four_does reqs : Forall (ok_in modest) reqs -> exists reps st x' log', ServerSpec.answers dns false d0 reqs = Some (reps, st) /\ Forall fits_rep reps /\
  ServerSpec.answers ns false x reqs = Some (reps, (fst st, x')) /\ wraps A (dview (snd st)) (x', log').
Proof.
  intros Hr. destruct (ServerSpec.answers dns false d0 reqs) as [[reps st]|] eqn:E; [|exact (False_ind _ (four_answering reqs Hr E))].
  destruct (four_as false reqs reps st E) as (x' & log' & E1 & E2 & _). exists reps, st, x', log'. split; [reflexivity|]. split; [exact (four_fitting reqs reps st Hr E)|]. auto.
Qed.
End Four.
Theorem four_serial W St Sd c (h : os W) w L view (ns : NineServer St) x log A dview (dns : NineServer Sd) d0 E remote srn crn opt C n0 l n : IOunit c = 8192 -> decent c h -> runs_text h L view ns -> fresh_server h c w L (view x) -> runs_debug ns A dview dns -> wraps A (dview d0) (x, log) ->
  (forall j, e_write E j = None) -> connected dns E remote srn crn opt C true true d0 n0 -> jsteps dns E remote srn crn opt C n0 l n -> proper_calls modest l ->
  exists reqs cs reps st, writes l = map enc_req reqs /\ Forall (ok_in modest) reqs /\ NoDup cs /\ List.length cs = List.length reqs /\
    ServerSpec.answers ns false x (firstn (List.length (reads l)) reqs) = Some (reps, st) /\ reads l = map enc_rep reps /\
    (forall la lb k c, l = la ++ lb -> nth_error cs k = Some c -> (k < List.length (writes la))%nat -> exists t m, nth_error reqs k = Some (t, m) /\ starts c la = [call_request m]) /\
    (forall l1 c r l2, l = l1 ++ LDone c r :: l2 -> exists k t m a, nth_error cs k = Some c /\ nth_error reqs k = Some (t, m) /\ nth_error reps k = Some (t, a) /\
       r = marshalR t a /\ (forall sp, call_result m r sp = returns m a) /\
       exists la y lb, l1 = la ++ LWrite y (marshalT t m) :: lb /\ List.length (writes la) = k /\ starts c la = [call_request m]) /\
    (forall l1 c r l2 k k' c', l = l1 ++ LDone c r :: l2 -> nth_error cs k = Some c -> nth_error cs k' = Some c' -> starts c' l1 = [] -> (k < k')%nat).
Proof.
  intros HI HD HT HM HW HA HE HC R Hp. destruct (net_serial dns E remote srn crn opt C HE d0 (four_fitting c h w L view ns x log A dview dns d0 HI HD HT HM HW HA) n0 HC l n R Hp) as (reqs & cs & reps & st & H1 & H2 & H3 & H4 & H5 & H6).
  destruct (four_as ns x log A dview dns d0 HW HA false _ _ _ H5) as (x' & log' & E1 & _).
  exists reqs, cs, reps, (fst st, x'). do 4 (split; [assumption|]). split; [exact E1|exact H6].
Qed.
Theorem four_stored W St Sd c (h : os W) content w L view (ns : NineServer St) x log A dview (dns : NineServer Sd) d0 E remote srn crn opt C n0 l n cw cr fid o d k rw rr a b l1 l2 l3 l4 sp sp' : keeps h content -> IOunit c = 8192 -> decent c h -> runs_text h L view ns -> fresh_server h c w L (view x) -> runs_debug ns A dview dns -> wraps A (dview d0) (x, log) ->
  (forall j, e_write E j = None) -> connected dns E remote srn crn opt C true true d0 n0 -> jsteps dns E remote srn crn opt C n0 l n -> proper_calls modest l ->
  let mw := MTwrite (mkTwritePkt fid o d) in let mr := MTread (mkTreadPkt fid o k) in
  fitsT mw -> fitsT mr -> (Z.to_nat k <= List.length d)%nat ->
  l = l1 ++ LDone cw rw :: l2 -> In (LStart cw (call_request mw)) l -> call_result mw rw sp = CallRet (MRwrite a) None ->
  l = l3 ++ LDone cr rr :: l4 -> In (LStart cr (call_request mr)) l -> call_result mr rr sp' = CallRet (MRread (mkRreadPkt b)) None ->
  starts cr l1 = [] ->
  (forall c' q, In (LStart c' q) l3 -> c' <> cw -> c' <> cr -> (exists m, q = call_request m /\ fitsT m /\ looks fid m) \/ exists lx r ly, l = lx ++ LDone c' r :: ly /\ starts cw lx = []) ->
  b = firstn (Z.to_nat k) d \/
  exists reqs more reps x' u f, writes l = map enc_req (reqs ++ more) /\ Forall ok_req (reqs ++ more) /\ ServerSpec.answers ns false x reqs = Some (reps, (true, x')) /\
    UfsRun.holds c L (view x') u /\ u fid = Some f /\ N.land (QID_Type (f_QID f)) QTDIR <> 0.
Proof.
  intros HK HI HD HT HM HW HA HE HC R Hp mw mr F1 F2 Hk E1 S1 R1 E2 S2 R2 Hs Ho.
  destruct (stored_by c h content HK w dns d0 (four_fitting c h w L view ns x log A dview dns d0 HI HD HT HM HW HA)
    (fun reqs reps st H => match four_as ns x log A dview dns d0 HW HA false reqs reps st H with ex_intro _ _ (ex_intro _ _ (conj H1 _)) =>
       match text_answers_as h c L view ns x w HT HM HI reqs reps _ H1 with ex_intro _ u (ex_intro _ w' (conj A _)) => ex_intro _ _ A end end)
    E remote srn crn opt C HE n0 HC l n cw cr fid o d k rw rr a b l1 l2 l3 l4 sp sp' R Hp F1 F2 Hk E1 S1 R1 E2 S2 R2 Hs Ho) as [X|(reqs & more & reps & u & w' & f & X1 & X2 & X3 & X4 & X5)]; [left; exact X|right].
  destruct (made_holds h c L w _ HI HM) as [Hh Hw]. pose proof (same_answers h c L view ns HT reqs false x no_fids Hh) as Y. rewrite Hw, X3 in Y.
  destruct Y as (x' & Y1 & Y2 & _). exists reqs, more, reps, x', u, f. auto 10.
Qed.
Theorem four_exists St (ns : NineServer St) x log : exists A Sd dview (dns : NineServer Sd) d0, runs_debug ns A dview dns /\ wraps A (dview d0) (x, log).
Proof.
  set (s := mkMem (fun a => if a =? 0 then Some v_debug else None) 1 (x, log)). assert (H : cells s 0 = Some v_debug /\ 0 < free s) by (split; reflexivity).
  exists 0, (debug_store (St := St) 0), (fun y => proj1_sig y), (debug_server ns 0), (Specif.exist _ s H). split; [exact (debug_server_runs ns 0)|]. split; [apply H|]. split; [apply H|reflexivity].
Qed.

(** The calls of NetStoredCase.v, with the wrapper from its text. *)
Definition f_s0 : memory (tst * list bytes) := mkMem (fun a => if a =? 0 then Some v_debug else None) 1 (t_x0, []).
Notation wst := (debug_store (St := tst) 0).
Definition f_x0 : wst := Specif.exist _ f_s0 (conj eq_refl eq_refl).
Definition f_srv : NineServer wst := debug_server t_srv 0.
Lemma f_wraps : wraps 0 (proj1_sig f_x0) (t_x0, []).
Proof. split; [reflexivity|]. split; reflexivity. Qed.
Definition f_before : memory (cworld wst) := mkMem (first_cells new_listener) 2 (mkCW [] [] true f_x0 0 [] []).
Definition f_accept : option (ending * memory (cworld wst)) :=
  run protocol_program (ServerRun.outside f_srv ServerWitness.quiet net_addr 0) (N.to_nat 3000) (start (str "Listener.Accept") [VPtr (str "Listener") 1 []] [VObj (str "net.Conn") 0]) f_before.
Definition f_net_of (r : option (ending * memory (cworld wst))) : option (@net wst) :=
  match r with
  | Some (Returned [VNil], s) => match w_started (GoWp.rest s) with [(f, vs)] => Some (mkNet (first_state true true []) [] (Some (goroutine (f, vs))) s [] false) | _ => None end
  | _ => None
  end.
Definition f_first : option (@net wst) := f_net_of f_accept.
Lemma f_net_of_some r n : f_net_of r = Some n -> exists s f vs, r = Some (Returned [VNil], s) /\ w_started (GoWp.rest s) = [(f, vs)] /\ n = mkNet (first_state true true []) [] (Some (goroutine (f, vs))) s [] false.
Proof.
  unfold f_net_of. generalize (first_state true true []). intros g.
  destruct r as [[[[|[] [|]]| |] s]|]; intros H; try discriminate H. destruct (w_started (GoWp.rest s)) as [|[f vs] [|]] eqn:Es; try discriminate H.
  injection H as <-. exists s, f, vs. auto.
Qed.
Lemma f_accept_ends out s : f_accept = Some (out, s) ->
  ends protocol_program (ServerRun.outside f_srv ServerWitness.quiet net_addr 0) (start (str "Listener.Accept") [VPtr (str "Listener") 1 []] [VObj (str "net.Conn") 0]) f_before out s.
Proof. intros E. exists (N.to_nat 3000). exact E. Qed.
Lemma f_connected n : f_first = Some n -> connected f_srv ServerWitness.quiet net_addr 0 0 (first_opt true true) 1 true true f_x0 n.
Proof.
  intros H. apply f_net_of_some in H. destruct H as (s & f & vs & E & Es & ->). apply f_accept_ends in E.
  split; [apply first_opened|]. split; [|split; [reflexivity|split; reflexivity]]. cbn [n_server n_mem]. exists (goroutine (f, vs)). split; [reflexivity|].
  exists 0, [], (VObj (str "Tracer") 0), VNil, 1, 0, f_before, f, vs.
  split; [right; exists 0; reflexivity|]. split; [reflexivity|]. split; [reflexivity|]. split; [discriminate|]. split; [reflexivity|]. split; [reflexivity|].
  do 6 (split; [reflexivity|]). split; [exact E|]. split; [exact Es|reflexivity].
Qed.
(** With the log at the end. *)
Definition f_log (n : @net wst) : list bytes := snd (GoWp.rest (proj1_sig (w_ns (GoWp.rest (n_mem n))))).
Definition f_result_of (f : option (@net wst)) := match f with
  | Some n0 => match wexec f_srv ServerWitness.quiet net_addr 0 0 (first_opt true true) 1 (cutb 9) s_acts n0 [] [] with Some (ls, (n, _, _)) => Some (seen ls, f_log n) | None => None end
  | None => None
  end.
Definition f_good (p : list lbl * list bytes) : Prop := fst p = s_seen /\ List.length (snd p) = 12%nat /\ skipn 10 (snd p) = [str ">>> Tread fid 5, off 0, count 3"; str "<<< Rread 3"].
Lemma f_computed : match f_result_of f_first with Some p => f_good p | None => False end.
Proof. vm_compute. split; [reflexivity|split; reflexivity]. Qed.
Lemma f_result_some f (P : list lbl * list bytes -> Prop) : match f_result_of f with Some p => P p | None => False end -> exists n0 l n u d, f = Some n0 /\
  wexec f_srv ServerWitness.quiet net_addr 0 0 (first_opt true true) 1 (cutb 9) s_acts n0 [] [] = Some (l, (n, u, d)) /\ P (seen l, f_log n).
Proof.
  unfold f_result_of. generalize s_acts. intros acts. destruct f as [n0|]; [|intros []].
  destruct (wexec f_srv ServerWitness.quiet net_addr 0 0 (first_opt true true) 1 (cutb 9) acts n0 [] []) as [[l [[n u] d]]|] eqn:Ej; [|intros []].
  intros H. exists n0, l, n, u, d. auto.
Qed.
Lemma f_chain n0 l n u d : wexec f_srv ServerWitness.quiet net_addr 0 0 (first_opt true true) 1 (cutb 9) s_acts n0 [] [] = Some (l, (n, u, d)) -> jsteps f_srv ServerWitness.quiet net_addr 0 0 (first_opt true true) 1 n0 l n.
Proof.
  generalize s_acts. intros acts Ej. apply (wexec_chain _ _ _ _ _ _ _ cut _ (cutb_cut 9)) in Ej.
  eapply wsteps_jsteps. exact (chain_wsteps _ _ _ _ _ _ _ _ n0 [] _ _ _ _ _ _ _ (ws_nil _ _ _ _ _ _ _ _ _) Ej).
Qed.
Lemma f_some : exists n0 l n u d, f_first = Some n0 /\ wexec f_srv ServerWitness.quiet net_addr 0 0 (first_opt true true) 1 (cutb 9) s_acts n0 [] [] = Some (l, (n, u, d)) /\ f_good (seen l, f_log n).
Proof. exact (f_result_some f_first f_good f_computed). Qed.
Lemma f_runs_log : exists n0 l n, connected f_srv ServerWitness.quiet net_addr 0 0 (first_opt true true) 1 true true f_x0 n0 /\
  jsteps f_srv ServerWitness.quiet net_addr 0 0 (first_opt true true) 1 n0 l n /\ seen l = s_seen /\
  List.length (f_log n) = 12%nat /\ skipn 10 (f_log n) = [str ">>> Tread fid 5, off 0, count 3"; str "<<< Rread 3"].
Proof. destruct f_some as (n0 & l & n & u & d & E & Ej & H1 & H2 & H3). exists n0, l, n. exact (conj (f_connected n0 E) (conj (f_chain n0 l n u d Ej) (conj H1 (conj H2 H3)))). Qed.
Lemma f_runs : exists n0 l n, connected f_srv ServerWitness.quiet net_addr 0 0 (first_opt true true) 1 true true f_x0 n0 /\
  jsteps f_srv ServerWitness.quiet net_addr 0 0 (first_opt true true) 1 n0 l n /\ seen l = s_seen.
Proof. destruct f_runs_log as (n0 & l & n & H1 & H2 & H3 & _). exists n0, l, n. split; [exact H1|]. split; [exact H2|exact H3]. Qed.
Definition f_stored := stored_case_of f_srv f_x0 f_runs.

(** A server that has nothing to do has answered everything. *)
From Verif Require Import Base GoBuf CodecPrim CodecLemmas Types Codec Msgs CodecSpec StubPrim Stubs Server ServerSpec ServerLemmas Rpc GoSyntax Ufs GoRun GoFmt GoProg GoWp
  ServerRun ServerRunLemmas ServerRunThm Client ClientSpec ClientRun ClientRunSim ClientHist ClientRunThm NetRun NetLemmas NetCase NetEats NetServer NetWait.

Section Srv.
Context {St : Type} (ns : NineServer St) (E : Server.env) (remote : bytes) (srn : N).
Notation P := protocol_program.
Notation OUT := (ServerRun.outside ns E remote srn).
Notation PAT := (patient ns E remote srn).
Notation M := (memory (cworld St)).
Notation sstep := (sstep ns E remote srn).

Lemma accepted_waits x m s : accepted ns E remote srn x m s -> 
  forall evs, exists out z, ends P PAT m (more_in s evs) out z /\
    (out = Exited -> exists ps e, eats evs ps e /\ hungry e /\ List.length (w_out (rest z)) = List.length ps).
Proof.
  intros (cn & ad & tra & mp & Li & rn & s0 & f & vs & Ht & HL & HR & N1 & L1 & L2 & W1 & W2 & W3 & W4 & W5 & W6 & R & Es & ->).
  destruct s0 as [hp nx [i o op y n tr st]]. cbn [cells free rest w_in w_out w_open w_turn w_started w_ns] in *. subst.
  set (K := fun (out : ending) (s1 : M) => out = Returned [VNil] /\ exists hp1, s1 = mkMem hp1 (nx + 1 + 1) (mkCW [] [] true x 0 tr [(FUser (str "conn.serve") [VPtr (str "conn") (nx + 1) []], [])]) /\
     hp1 nx = Some (v_server (VObj (str "NineServer") 0) false) /\ hp1 (nx + 1) = Some (v_conn Li nx (VObj (str "net.Conn") rn) [] (VObj (str "chan") 0) false) /\
     (forall a, a <> nx -> a <> nx + 1 -> hp1 a = hp a)).
  destruct (accept_runs ns E remote srn cn ad tra mp Li rn hp nx [] [] true x 0 tr [] K HL L1) as (k1 & out1 & s1 & R1 & -> & hp1 & -> & S1 & C1 & F1).
  { intros hp' P1 P2 P3. split; [reflexivity|]. exists hp'. auto. }
  destruct (ends_unique _ _ _ _ _ _ _ _ R (ex_intro _ k1 R1)) as [_ ->]. cbn [rest w_in w_out w_started] in *. injection Es as <- <-.
  intros evs. unfold more_in, upd_in, with_rest. cbn [rest w_in w_out w_open w_ns w_turn w_traced w_started app cells free].
  destruct (serve_waits ns E remote srn (VObj (str "NsCreator") cn) ad tra mp Li nx (nx + 1) (VObj (str "NineServer") 0) [] false rn (VObj (str "chan") 0)
    hp1 (nx + 1 + 1) evs [] x 0 tr [(FUser (str "conn.serve") [VPtr (str "conn") (nx + 1) []], [])] (at_wait [] evs)) as (k2 & out2 & s2 & R2 & Q); try assumption; try lia.
  - rewrite F1 by lia. exact HL.
  - rewrite F1 by lia. exact HR.
  - exact (fun _ _ h => h).
  - exists out2, s2. split; [exists k2; exact R2|exact Q].
Qed.

(** What the goroutine wants is there. *)
Definition ready (m : machine) (s : M) : Prop := forall r m', step P m = Ask r m' -> there (w_in (rest s)) r = true.
Inductive pruns (m : machine) (s : M) : machine -> M -> Prop :=
| pr_nil : pruns m s m s
| pr_snoc m1 s1 m2 s2 : pruns m s m1 s1 -> ready m1 s1 -> sstep m1 s1 (Some m2) s2 -> pruns m s m2 s2.
Lemma patient_answer r s : there (w_in (rest s)) r = true -> GoWp.answer PAT r s = GoWp.answer OUT r s.
Proof. intros H. unfold GoWp.answer, patient. rewrite H. reflexivity. Qed.
Lemma pruns_ends m s m' s' out z : pruns m s m' s' -> ends P PAT m s out z -> ends P PAT m' s' out z.
Proof.
  intros H R. induction H as [|m1 s1 m2 s2 H IH Hr S]; [exact R|]. destruct IH as (n & R1). clear R. destruct n as [|n]; [discriminate R1|]. cbn [run] in R1.
  inversion S as [m' H1|r m' vs s' H1 Ha|r m' H1 Ha|vs H1|H1|f H1]; subst.
  - exists n. unfold quiet in H1. destruct (step P m1) as [x|b x y|[|v l] x f|[v|] f|q x|vs| |x]; try discriminate H1; injection H1 as <-; exact R1.
  - rewrite H1, (patient_answer _ _ (Hr _ _ H1)), Ha in R1. exists n. exact R1.
Qed.
Lemma ready_more m s l : ready m s -> forall vs s' r m', step P m = Ask r m' -> GoWp.answer OUT r s = Answer vs s' -> ready m (more_in s l).
Proof.
  intros Hr vs s' r m' H Ha r1 m1 H1. rewrite H in H1. injection H1 as <- <-. specialize (Hr _ _ H). clear - Hr. unfold more_in, with_rest, upd_in. cbn [rest w_in].
  unfold there in *. destruct r; try reflexivity. destruct (beq f (str "io.ReadCloser.Read") || beq f (str "net.Conn.Read")).
  - destruct (w_in (rest s)); [discriminate Hr|reflexivity].
  - destruct (beq f (str "io.Copy")); [|reflexivity]. destruct args as [|[] [|[] [|]]]; try reflexivity; destruct fs as [|[? []] [|]]; try reflexivity.
    match type of Hr with (match ?y with _ => _ end) = true => destruct y as [[c r]|] eqn:Ec end.
    + pose proof (proj1 (Nat.eqb_eq _ _) Hr) as Hl. rewrite (copy_more _ _ _ _ _ Ec Hl). exact Hr.
    + rewrite (copy_fails _ _ _ Ec). reflexivity.
Qed.
Lemma pruns_more l m s m' s' : pruns m s m' s' -> pruns m (more_in s l) m' (more_in s' l).
Proof.
  intros H. induction H as [|m1 s1 m2 s2 H IH Hr S]; [constructor|]. inversion S as [m' H1|r m' vs s' H1 Ha|r m' H1 Ha|vs H1|H1|f H1]; subst.
  - eapply pr_snoc; [exact IH| |apply s_quiet, H1]. intros r m3 H3. rewrite H3 in H1. discriminate H1.
  - eapply pr_snoc; [exact IH|exact (ready_more _ _ _ Hr _ _ _ _ H1 Ha)|]. eapply s_ask; [exact H1|]. apply out_more; [exact (Hr _ _ H1)|exact Ha].
Qed.
(** A step whose outcome does not depend on what is still to come. *)
Lemma resume_inj m vs vs' : resume m vs = resume m vs' -> vs = vs'.
Proof. unfold resume. intros H. inversion H. reflexivity. Qed.
Lemma sstep_ask m s om s' r m' : sstep m s om s' -> step P m = Ask r m' -> GoWp.answer OUT r s <> Crash -> exists vs, GoWp.answer OUT r s = Answer vs s' /\ om = Some (resume m' vs).
Proof.
  intros H E1 E2. destruct H as [m2 K|r2 m2 vs s2 K Ha|r2 m2 K Ha|vs K|K|f K]; rewrite E1 in K; try discriminate K; injection K as <- <-; [eauto|contradiction].
Qed.
Lemma uniform_ready m s om s' : (forall more, sstep m (more_in s more) om (more_in s' more)) -> ready m s.
Proof.
  intros H r m' Es. destruct (there (w_in (rest s)) r) eqn:T; [reflexivity|]. exfalso.
  assert (D : forall v1 s1 v2 s2, GoWp.answer OUT r (more_in s []) = Answer v1 s1 -> GoWp.answer OUT r (more_in s [RdErr]) = Answer v2 s2 -> v1 <> v2).
  { clear H. unfold there in T. destruct s as [hp nx [i o op x t tr st]]. cbn [rest w_in] in T. destruct r; try discriminate T. unfold more_in, with_rest, upd_in. cbn [cells free rest w_in w_out w_open w_ns w_turn w_traced w_started GoWp.answer ServerRun.outside].
    intros v1 s1 v2 s2 A1 A2. unfold net_call in A1, A2. cbv zeta in A1, A2. cbn [cells free rest w_in w_out w_open w_ns w_turn w_traced w_started] in A1, A2. intros ->.
    destruct (beq f (str "io.ReadCloser.Read")) eqn:B1; [apply beq_eq in B1; subst f; cbn in A1; mm A1; discriminate A1|]. destruct (beq f (str "net.Conn.Read")) eqn:B2.
    - apply beq_eq in B2. subst f. cbn [orb] in T. destruct i; [|discriminate T]. cbn in A1, A2. mm A1. injection A1 as <- <-. mm A2. discriminate A2.
    - cbn [orb] in T. destruct (beq f (str "io.Copy")) eqn:B3; [|discriminate T]. apply beq_eq in B3. subst f.
      destruct args as [|[] [|[] [|]]]; try discriminate T; destruct fs as [|[? []] [|]]; try discriminate T.
      match type of T with (match copy_limit (Z.to_nat ?n) i with _ => _ end) = false => rename n into n0 end. destruct (copy_limit (Z.to_nat n0) i) as [[c r]|] eqn:Ec; [|discriminate T].
      assert (Ec2 : copy_limit (Z.to_nat n0) (i ++ [RdErr]) = None).
      { destruct (copy_limit (Z.to_nat n0) (i ++ [RdErr])) as [[c' r']|] eqn:Ec'; [|reflexivity]. exfalso.
        destruct (copy_limit_intact _ _ _ _ Ec') as [_ [X|[X _]]]; [|rewrite intact_err in X; discriminate X].
        apply copy_limit_stream in Ec'. apply copy_limit_stream in Ec. destruct Ec' as [Y _]. destruct Ec as [Z _]. rewrite received_err in Y. apply Nat.eqb_neq in T. congruence. }
      rewrite app_nil_r in A1. rewrite Ec in A1. rewrite Ec2 in A2. cbn in A1, A2. mm A1. injection A1 as <- <-. mm A2. discriminate A2. }
  assert (N1 : forall more, GoWp.answer OUT r (more_in s more) <> Crash).
  { intros more. unfold there in T. destruct r; try discriminate T. cbn [GoWp.answer ServerRun.outside]. unfold net_call. cbv zeta.
    destruct (beq f (str "io.ReadCloser.Read")) eqn:B1; [apply beq_eq in B1; subst f; cbn; repeat match goal with |- match ?x with _ => _ end <> _ => destruct x end; discriminate|]. destruct (beq f (str "net.Conn.Read")) eqn:B2.
    - apply beq_eq in B2. subst f. cbn. repeat match goal with |- match ?x with _ => _ end <> _ => destruct x end; discriminate.
    - cbn [orb] in T. destruct (beq f (str "io.Copy")) eqn:B3; [|discriminate T]. apply beq_eq in B3. subst f. cbn.
      repeat match goal with |- match ?x with _ => _ end <> _ => destruct x end; discriminate. }
  pose proof (H []) as H0. pose proof (H [RdErr]) as H1.
  destruct (sstep_ask _ _ _ _ _ _ H0 Es (N1 _)) as (v1 & A1 & B1). destruct (sstep_ask _ _ _ _ _ _ H1 Es (N1 _)) as (v2 & A2 & B2).
  refine (D _ _ _ _ A1 A2 _). apply (resume_inj m'). congruence.
Qed.
Lemma crash_more r s more : GoWp.answer OUT r s = Crash -> GoWp.answer OUT r (more_in s more) = Crash.
Proof.
  intros H. destruct s as [hp nx [i o op x t tr st]].
  unfold more_in, with_rest, upd_in in *. cbn [cells free rest w_in w_out w_open w_ns w_turn w_traced w_started].
  destruct r; cbn [GoWp.answer ServerRun.outside] in *; cbv zeta in *; unfold net_call, slice, with_rest, upd_in, upd_ns, with_cell, with_new in *; cbv zeta in *;
    cbn [cells free rest w_in w_out w_open w_ns w_turn w_traced w_started] in *.
  all: repeat match type of H with
  | (if ?b then _ else _) = Crash => let E := fresh "E" in destruct b eqn:E; try discriminate H
  | match ?x with _ => _ end = Crash => let E := fresh "E" in destruct x eqn:E; try discriminate H
  end; try discriminate H; reflexivity.
Qed.
(** A server that cannot go on without more from the network. *)
Lemma waits x m1 s1 U m s : accepted ns E remote srn x m1 s1 -> pruns m1 (more_in s1 U) m s ->
  (exists om s', forall more, sstep m (more_in s more) om (more_in s' more)) \/
  exists ps e, eats U ps e /\ hungry e /\ List.length (w_out (rest s)) = List.length ps.
Proof.
  intros Ha Hr. destruct (accepted_waits _ _ _ Ha U) as (out & z & R & K). apply (pruns_ends _ _ _ _ _ _ Hr) in R. destruct R as (n & R).
  destruct n as [|n]; [discriminate R|]. cbn [run] in R.
  assert (Q : forall m', quiet (step P m) = Some m' -> exists om s', forall more, sstep m (more_in s more) om (more_in s' more)) by (intros m' Q; exists (Some m'), s; intros more; apply s_quiet, Q).
  destruct (step P m) as [a|b a c|[|v l] a f|[v|] f|q a|vs| |a] eqn:Es; try (left; eapply Q; reflexivity); try discriminate R.
  - left. exists None, s. intros more. eapply s_index, Es.
  - destruct (there (w_in (rest s)) q) eqn:T.
    + left. rewrite (patient_answer _ _ T) in R. destruct (GoWp.answer OUT q s) as [vs s'| |s'|] eqn:Ea; try discriminate R.
      * exists (Some (resume a vs)), s'. intros more. eapply s_ask; [exact Es|]. apply out_more; assumption.
      * exists None, s. intros more. eapply s_crash; [exact Es|]. apply crash_more, Ea.
      * destruct q; cbn in Ea; cbv zeta in Ea; unfold net_call, slice in Ea; cbv zeta in Ea; repeat match type of Ea with match ?x with _ => _ end = Exit _ => destruct x; try discriminate Ea end; try discriminate Ea.
    + assert (Ea : GoWp.answer PAT q s = Exit s). { unfold there in T. destruct q; try discriminate T. cbn [GoWp.answer]. unfold patient, there. rewrite T. reflexivity. }
      rewrite Ea in R. injection R as <- <-. right. exact (K eq_refl).
  - left. exists None, s. intros more. eapply s_return, Es.
  - left. exists None, s. intros more. eapply s_panic, Es.
Qed.
End Srv.

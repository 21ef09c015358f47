(** The server's side of the network: what it has written is the beginning of what it will have written. *)
From Verif Require Import Base GoBuf CodecPrim CodecLemmas Types Codec Msgs CodecSpec StubPrim Stubs Server ServerSpec ServerLemmas Rpc GoSyntax Ufs GoRun GoFmt GoProg GoWp
  ServerRun ServerRunLemmas ServerRunThm Client ClientSpec ClientRun ClientRunSim ClientHist ClientRunThm NetRun NetLemmas.

Section Srv.
Context {St : Type} (ns : NineServer St) (E : Server.env) (remote : bytes) (srn : N).
Notation P := protocol_program.
Notation OUT := (ServerRun.outside ns E remote srn).
Notation M := (memory (cworld St)).
Definition grows (s s' : M) : Prop := exists more, w_out (rest s') = w_out (rest s) ++ more.
Lemma grows_refl s : grows s s. Proof. exists []. rewrite app_nil_r. reflexivity. Qed.
Lemma grows_trans a b c : grows a b -> grows b c -> grows a c.
Proof. intros (x & X) (y & Y). exists (x ++ y). rewrite Y, X, app_assoc. reflexivity. Qed.
Lemma same_grows s s' : w_out (rest s') = w_out (rest s) -> grows s s'. Proof. intros H. exists []. rewrite app_nil_r. exact H. Qed.
Definition answer_grows (s : M) (a : reply (cworld St)) : Prop := match a with Answer _ s' | Exit s' => grows s s' | _ => True end.
Lemma call_grows f vs s : answer_grows s (net_call ns E remote f vs s).
Proof.
  unfold net_call. cbv zeta.
  repeat match goal with
  | |- answer_grows _ NoAnswer => exact Logic.I
  | |- answer_grows _ Crash => exact Logic.I
  | |- answer_grows _ (Answer _ ?x) => first [apply same_grows; reflexivity|eexists; reflexivity]
  | |- answer_grows _ (match ?x with _ => _ end) => destruct x
  end.
Qed.
Lemma answer_growing r s : answer_grows s (answer OUT r s).
Proof.
  unfold answer. destruct r; try (apply same_grows; reflexivity); unfold ServerRun.outside; cbv zeta;
  repeat match goal with
  | |- answer_grows _ (net_call _ _ _ _ _ _) => apply call_grows
  | |- answer_grows _ NoAnswer => exact Logic.I
  | |- answer_grows _ Crash => exact Logic.I
  | |- answer_grows _ (Answer _ ?x) => first [apply same_grows; reflexivity|eexists; reflexivity]
  | |- answer_grows _ (match ?x with _ => _ end) => destruct x
  end.
Qed.
Lemma run_grows n : forall m s out s', run P OUT n m s = Some (out, s') -> grows s s'.
Proof.
  induction n as [|n IH]; intros m s out s' H; [discriminate H|]. cbn [run] in H.
  destruct (step P m) as [m1|b m1 m2|l m1 f|v f|q m1|vs| |x]; try discriminate H; try (injection H as <- <-; apply grows_refl); try (eapply IH; exact H).
  - destruct l; eapply IH; exact H.
  - destruct v; [eapply IH; exact H|injection H as <- <-; apply grows_refl].
  - pose proof (answer_growing q s) as G. destruct (answer OUT q s) as [vs1 s1| |s1|]; try discriminate H; cbn [answer_grows] in G.
    + eapply grows_trans; [exact G|]. eapply IH; exact H.
    + injection H as <- <-. apply grows_refl.
    + injection H as <- <-. exact G.
Qed.
Lemma sstep_grows m s om s' : sstep ns E remote srn m s om s' -> grows s s'.
Proof. intros H. destruct H as [m' H|r m' vs s' H Ha|r m' H Ha|vs H|H|f H]; try apply grows_refl. pose proof (answer_growing r s) as G. rewrite Ha in G. exact G. Qed.
Lemma sstep_ends m s om s' out z : sstep ns E remote srn m s om s' -> ends P OUT m s out z ->
  match om with Some m' => ends P OUT m' s' out z | None => z = s' end.
Proof.
  intros H (n & R). destruct n as [|n]; [discriminate R|]. cbn [run] in R. destruct H as [m' H|r m' vs s' H Ha|r m' H Ha|vs H|H|f H].
  - exists n. unfold quiet in H. destruct (step P m) as [m1|b m1 m2|[|v l] m1 f|[v|] f|q m1|vs| |x]; try discriminate H; injection H as <-; exact R.
  - rewrite H, Ha in R. exists n. exact R.
  - rewrite H, Ha in R. injection R as <- <-. reflexivity.
  - rewrite H in R. injection R as <- <-. reflexivity.
  - rewrite H in R. injection R as <- <-. reflexivity.
  - rewrite H in R. injection R as <- <-. reflexivity.
Qed.
(** Several steps. *)
Inductive sruns (m : machine) (s : M) : option machine -> M -> Prop :=
| sr_nil : sruns m s (Some m) s
| sr_snoc m1 s1 om s2 : sruns m s (Some m1) s1 -> sstep ns E remote srn m1 s1 om s2 -> sruns m s om s2.
Lemma sruns_ends m s om s' out z : sruns m s om s' -> ends P OUT m s out z -> match om with Some m' => ends P OUT m' s' out z | None => z = s' end.
Proof.
  intros H. induction H as [|m1 s1 om s2 H IH S]; intros R; [exact R|]. specialize (IH R). exact (sstep_ends _ _ _ _ _ _ S IH).
Qed.
Lemma sruns_out m s om s' out z : sruns m s om s' -> ends P OUT m s out z -> grows s' z.
Proof.
  intros H R. pose proof (sruns_ends _ _ _ _ _ _ H R) as X. destruct om as [m'|]; [|subst z; apply grows_refl]. destruct X as (n & X). eapply run_grows, X.
Qed.
(** A connection that has been accepted is served. *)
Lemma accepted_serves x m s : accepted ns E remote srn x m s -> w_in (rest s) = [] /\ w_out (rest s) = [] /\
  forall evs, exists out z, ends P OUT m (more_in s evs) out z /\ w_out (rest z) = r_out (serve ns E x evs).
Proof.
  intros (cn & ad & tra & mp & Li & rn & s0 & f & vs & Ht & HL & HR & N1 & L1 & L2 & W1 & W2 & W3 & W4 & W5 & W6 & R & Es & ->).
  destruct s0 as [hp nx [i o op y n tr st]]. cbn [cells free rest w_in w_out w_open w_turn w_started w_ns] in *. subst.
  set (K := fun (out : ending) (s1 : M) => out = Returned [VNil] /\ exists hp1, s1 = mkMem hp1 (nx + 1 + 1) (mkCW [] [] true x 0 tr [(FUser (str "conn.serve") [VPtr (str "conn") (nx + 1) []], [])]) /\
     hp1 nx = Some (v_server (VObj (str "NineServer") 0) false) /\ hp1 (nx + 1) = Some (v_conn Li nx (VObj (str "net.Conn") rn) [] (VObj (str "chan") 0) false) /\
     (forall a, a <> nx -> a <> nx + 1 -> hp1 a = hp a)).
  destruct (accept_runs ns E remote srn cn ad tra mp Li rn hp nx [] [] true x 0 tr [] K HL L1) as (k1 & out1 & s1 & R1 & -> & hp1 & -> & S1 & C1 & F1).
  { intros hp' P1 P2 P3. split; [reflexivity|]. exists hp'. auto. }
  destruct (ends_unique _ _ _ _ _ _ _ _ R (ex_intro _ k1 R1)) as [_ ->]. cbn [rest w_in w_out w_started] in *. injection Es as <- <-.
  split; [reflexivity|]. split; [reflexivity|]. intros evs. unfold more_in, upd_in, with_rest. cbn [rest w_in w_out w_open w_ns w_turn w_traced w_started app cells free].
  destruct (serve_runs ns E remote srn hp nx (VObj (str "NsCreator") cn) ad tra mp Li nx (nx + 1) (VObj (str "NineServer") 0) [] false rn (VObj (str "chan") 0)
    hp1 (nx + 1 + 1) evs [] x 0 tr [(FUser (str "conn.serve") [VPtr (str "conn") (nx + 1) []], [])] (fun _ z => w_out (rest z) = r_out (serve ns E x evs))) as (k2 & out2 & s2 & R2 & Q); try assumption; try lia.
  - rewrite F1 by lia. exact HL.
  - rewrite F1 by lia. exact HR.
  - intros a A1 A2 A3. apply F1; lia.
  - unfold serve_ends. change (serve_from ns E 0 (mkSrv false x) evs) with (serve ns E x evs). destruct (r_crashed (serve ns E x evs)); intros; reflexivity.
  - exists out2, s2. split; [exists k2; exact R2|exact Q].
Qed.
End Srv.

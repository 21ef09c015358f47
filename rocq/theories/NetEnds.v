(** A client and a server that run from their texts come to a stop when no new call is made. *)
From Verif Require Import Base GoBuf CodecPrim Types Codec Msgs CodecSpec StubPrim Stubs Server ServerSpec ServerLemmas Rpc GoSyntax Ufs GoRun GoFmt GoProg GoWp
  ServerRun ServerRunLemmas ServerRunThm Client ClientSpec ClientLemmas ClientLemmas2 ClientLemmas6 ClientRun ClientRunLemmas ClientRunText ClientRunSim ClientRunSim2 ClientRunSim3 ClientRunSim6 ClientHist ClientRunThm
  ClientRank ClientRank2 ClientRank3 NetRun NetLemmas NetModel NetWait NetWait2 NetThm NetClient NetLive.
Local Opaque NumTags all_tags.

(** * Numbers one after the other *)
Definition lexn {A} (R : A -> A -> Prop) (x y : nat * A) : Prop := (fst x < fst y)%nat \/ fst x = fst y /\ R (snd x) (snd y).
Lemma lexn_wf {A} (R : A -> A -> Prop) : well_founded R -> well_founded (lexn R).
Proof.
  intros HR [n a]. revert a. induction (lt_wf n) as [n _ IHn]. intros a. induction (HR a) as [a _ IHa].
  constructor. intros [n' a'] [H|[H1 H2]]; cbn [fst snd] in *; [apply IHn; exact H|]. subst n'. apply IHa. exact H2.
Qed.
Definition lex3 : nat * (nat * nat) -> nat * (nat * nat) -> Prop := lexn (lexn lt).
Definition lex6 : nat * (nat * (nat * (nat * (nat * nat)))) -> nat * (nat * (nat * (nat * (nat * nat)))) -> Prop := lexn (lexn (lexn (lexn (lexn lt)))).
Lemma lex3_wf : well_founded lex3. Proof. apply lexn_wf, lexn_wf, lt_wf. Qed.
Lemma lex6_wf : well_founded lex6. Proof. do 5 apply lexn_wf. apply lt_wf. Qed.
Lemma lex3_c b c c' d d' : (c' < c)%nat -> lex3 (b, (c', d')) (b, (c, d)).
Proof. intros H. right. split; [reflexivity|]. left. exact H. Qed.
Lemma lex3_d b c d d' : (d' < d)%nat -> lex3 (b, (c, d')) (b, (c, d)).
Proof. intros H. right. split; [reflexivity|]. right. split; [reflexivity|]. exact H. Qed.
Lemma lex6_b a b b' x x' : (b' < b)%nat -> lex6 (a, (b', x')) (a, (b, x)).
Proof. intros H. right. split; [reflexivity|]. left. exact H. Qed.
Lemma lex6_c a b c c' x x' : (c' < c)%nat -> lex6 (a, (b, (c', x'))) (a, (b, (c, x))).
Proof. intros H. right. split; [reflexivity|]. right. split; [reflexivity|]. left. exact H. Qed.
Lemma lex6_d a b c d d' x x' : (d' < d)%nat -> lex6 (a, (b, (c, (d', x')))) (a, (b, (c, (d, x)))).
Proof. intros H. right. split; [reflexivity|]. right. split; [reflexivity|]. right. split; [reflexivity|]. left. exact H. Qed.
Lemma tstep_lives RN opt C g l g' : tstep RN opt C g l g' -> g_dead g = false.
Proof. destruct 1; assumption. Qed.

Section Ends.
Context {St : Type} (ns : NineServer St) (E : Server.env) (remote : bytes) (srn crn : N) (opt : oserr + (value * value * value * N)) (C : N).
Notation P := protocol_program.
Notation PAT := (patient ns E remote srn).
Notation jsteps := (jsteps ns E remote srn crn opt C).
Notation jstep := (jstep ns E remote srn crn opt C).
Notation moves := (moves ns E remote srn crn opt C).
Notation net := (@net St).
Notation sstep := (sstep ns E remote srn).
(** y comes after x by itself. *)
Definition next (y x : net) : Prop := exists l, moves x l y.
Notation inv := (inv ns E remote srn crn opt C).
Context (x : St) (g0 : gstate) (m1 : machine) (s1 : memory (cworld St)) (HA : accepted ns E remote srn x m1 s1).
Definition J (n : net) : Prop := exists l U D, inv g0 m1 s1 l n U D.
Lemma J_next n n' l : J n -> moves n l n' -> J n'.
Proof. intros (l0 & U & D & I) H. apply moves_jstep in H. destruct (jstep_inv _ _ _ _ _ _ _ _ _ _ _ _ _ _ _ _ I H) as (U' & D' & I'). exists (l0 ++ l), U', D'. exact I'. Qed.
(** The server comes to a stop after c steps when nothing more arrives. *)
Definition fuel (c : nat) (n : net) : Prop := match n_server n with None => c = 0%nat | Some m => exists r, run P PAT c m (n_mem n) = Some r end.
Lemma fuel_some n : J n -> exists c, fuel c n.
Proof.
  intros (l & U & D & I). unfold fuel. destruct (n_server n) as [m|] eqn:Em; [|eauto].
  destruct (accepted_waits _ _ _ _ _ _ _ HA U) as (out & z & R & _).
  destruct (pruns_ends _ _ _ _ _ _ _ _ _ _ (v_patient _ _ _ _ _ _ _ _ _ _ _ _ _ _ I m Em) R) as (c & Rc). exists c, (out, z). exact Rc.
Qed.
Lemma fuel_less c m s om s' r : run P PAT c m s = Some r -> (forall more, sstep m (more_in s more) om (more_in s' more)) ->
  exists c', (c' < c)%nat /\ match om with None => c' = 0%nat | Some m' => exists r', run P PAT c' m' s' = Some r' end.
Proof.
  intros R Hu. pose proof (uniform_ready _ _ _ _ _ _ _ _ Hu) as Hr. specialize (Hu []). rewrite !more_in_nil in Hu.
  destruct c as [|c]; [discriminate R|]. destruct om as [m'|]; [|exists 0%nat; split; [lia|reflexivity]]. exists c. split; [lia|]. exists r. cbn [run] in R.
  inversion Hu as [m2 K1|q m2 vs s2 K1 Ka|q m2 K1 Ka|vs K1|K1|f K1]; subst.
  - unfold quiet in K1. destruct (step P m) as [y|b y z|[|v l] y f|[v|] f|q y|vs| |y]; try discriminate K1; injection K1 as <-; exact R.
  - rewrite K1, (patient_answer _ _ _ _ _ _ (Hr _ _ K1)), Ka in R. exact R.
Qed.
Definition dleft (n : net) : nat := (List.length (n_down n) + if n_end n then 0 else 1)%nat.
(** * When the client process is dead *)
Lemma dead_ends : forall mu n b c d, mu = (b, (c, d)) -> J n -> g_dead (n_client n) = true -> List.length (n_up n) = b -> fuel c n -> dleft n = d -> Acc next n.
Proof.
  intros mu. induction (lex3_wf mu) as [mu _ IH]. intros n b c d -> Hj Hd Hb Hc Hdl. constructor. intros y (l & Hm). pose proof (J_next _ _ _ Hj Hm) as Hj'. destruct (fuel_some _ Hj') as (c' & Hc').
  inversion Hm as [l0 g Ho He Ht|l0 g Ho He Ht|m m' s Es Hs|ch up Eu Hne|ch dn Ed Hne He|Hx Ed He]; subst l y.
  - specialize (Ht []). rewrite !more_net_nil in Ht. apply tstep_lives in Ht. congruence.
  - apply tstep_lives in Ht. congruence.
  - unfold fuel in Hc. rewrite Es in Hc. destruct Hc as (r & Hc). destruct (fuel_less _ _ _ _ _ _ Hc Hs) as (c2 & Hlt & X).
    eapply (IH (b, (c2, _))); [apply lex3_c; exact Hlt|reflexivity|exact Hj'|exact Hd|exact Hb| |reflexivity]. unfold fuel. cbn [n_server n_mem]. destruct m'; exact X.
  - eapply (IH (List.length up, (c', _))); [left; cbn [fst]|reflexivity|exact Hj'|exact Hd|reflexivity|exact Hc'|reflexivity]. subst b. rewrite Eu, app_length. destruct ch; [contradiction|cbn; lia].
  - eapply (IH (b, (c, _))); [apply lex3_d|reflexivity|exact Hj'|exact Hd|exact Hb|exact Hc|reflexivity].
    cbn [fst snd]. subst d. unfold dleft. cbn [n_down n_end]. rewrite Ed, app_length, He. destruct ch; [contradiction|cbn; lia].
  - eapply (IH (b, (c, _))); [apply lex3_d|reflexivity|exact Hj'|exact Hd|exact Hb|exact Hc|reflexivity].
    cbn [fst snd]. subst d. unfold dleft. cbn [n_down n_end]. rewrite Ed, He. cbn. lia.
Qed.
Lemma dead_stops n : J n -> g_dead (n_client n) = true -> Acc next n.
Proof. intros Hj Hd. destruct (fuel_some _ Hj) as (c & Hc). eapply dead_ends; eauto. Qed.

(** * While it is alive *)
Context (tg fc fs wn rn tn msz : N) (tr hn : bool).
Notation M := (memory nworld).
Notation memory_as := (memory_as crn C tg fc fs wn rn tn msz tr hn).
Notation good_q := (good_q crn opt C tg fc fs wn rn tn msz tr hn).
Notation calm := (calm C tg fc fs wn rn tn msz tr hn).
Notation leads := (leads crn opt).
Definition live (g : gstate) (a e f : nat) : Prop :=
  g_dead g = false /\ exists ls k L, csteps tr (init hn) ls k /\ crashed k = false /\ covers L k /\ good_q False f (g_mem g) (g_users g) (g_threads g) k /\ a = cost L k /\ e = pend (g_mem g).
Lemma good_more cc f s us ths k l : good_q cc f s us ths k -> good_q cc f (more_mem s l) us ths k.
Proof.
  intros (adr & rch & mi & mn & ms & o & f1 & f2 & f3 & Hm & Eth & R1 & R2 & R3 & Ef & Hca).
  assert (Hm' : memory_as adr rch (more_mem s l) us k).
  { apply ma_frame with s; try (apply keep_same; reflexivity); try reflexivity; [exact Hm|]. exact (m_free _ _ _ _ _ _ _ _ _ _ _ _ _ _ _ _ Hm). }
  pose proof (ma_base _ _ _ _ _ _ _ _ _ _ _ _ _ _ _ _ Hm') as Hb'.
  exists adr, rch, mi, mn, ms, o, f1, f2, f3. split; [exact Hm'|]. split; [exact Eth|]. split; [|split; [|split; [|split; [exact Ef|exact Hca]]]].
  - eapply io_rkeep with (s := s); [exact Hb'|apply keep_same; reflexivity|apply keep_keep_calls, keep_same; reflexivity|intros X; exact X|exact R1].
  - eapply rd_rkeep with (s := s); [exact Hb'|apply keep_same; reflexivity|apply keep_same; reflexivity|exact R2].
  - eapply snds_rkeep with (s := s); [exact Hb'|apply keep_same; reflexivity|apply keep_same; reflexivity|exact R3].
Qed.
Lemma live_more g a e f l : live g a e f -> live (more_net g l) a (pend (more_mem (g_mem g) l)) f.
Proof. intros (Hd & ls & k & L & H1 & H2 & H3 & H4 & H5 & H6). split; [exact Hd|]. exists ls, k, L. cbn [more_net g_mem g_users g_threads]. repeat (split; [first [assumption|apply good_more; assumption]|]). reflexivity. Qed.
Lemma live_ends : forall mu n a b c d e f, mu = (a, (b, (c, (d, (e, f))))) -> J n -> live (n_client n) a e f -> List.length (n_up n) = b -> fuel c n -> dleft n = d -> Acc next n.
Proof.
  intros mu. induction (lex6_wf mu) as [mu _ IH]. intros n a b c d e f -> Hj Hl Hb Hc Hdl.
  pose proof Hl as (Hd & ls & k & L & K1 & K2 & K3 & (adr & rch & mi & mn & ms & o & f1 & f2 & f3 & Hm & Eth & R1 & R2 & R3 & Ef & Hca) & Ea & Ee).
  pose proof (inv_steps _ _ _ _ K1) as HI.
  destruct R1 as (I1 & Q1 & D1 & H1 & A1). destruct R2 as (I2 & Q2 & D2 & H2 & A2).
  assert (X3 : exists I3 Q3 m3, I3 (g_mem (n_client n)) /\ leads I3 m3 Q3 /\ third crn opt C tg fc fs wn rn tn msz tr hn k adr rch o f3 I3 Q3 ms m3).
  { destruct o as [B|]; cbn in R3.
    - destruct R3 as (m3 & -> & I3 & Q3 & D3 & H3 & A3). exists I3, Q3, m3. split; [exact H3|]. split; [exact A3|]. right. exists B. auto.
    - destruct R3 as (-> & Es & ->). exists (fun _ => True), (fun _ => True), mi. split; [exact I|]. split; [apply ld_here; exact I|]. left. auto. }
  destruct X3 as (I3 & Q3 & m3 & H3 & A3 & D3). clear R3.
  set (s := g_mem (n_client n)) in *. set (us := g_users (n_client n)) in *.
  assert (En : n_client n = mkG (mi :: mn :: ms) s us false) by (unfold s, us; rewrite <- Eth, <- Hd; destruct (n_client n); reflexivity).
  clearbody s us. clear Eth Hd Hl. revert n ms D3 Hj Hb Hc Hdl En. pattern mi, mn, m3. revert mi mn m3 A1 A2 A3. apply three_leads.
  intros mi mn m3 A1 A2 A3 G1 G2 G3 n ms D3 Hj Hb Hc Hdl En.
  assert (Hl : live (n_client n) a e f).
  { rewrite En. split; [reflexivity|]. exists ls, k, L. cbn [g_mem g_users g_threads]. repeat (split; [assumption|]). split; [|auto].
    exists adr, rch, mi, mn, ms, o, f1, f2, f3. split; [exact Hm|]. split; [reflexivity|]. split; [eapply io_at; eassumption|]. split; [eapply rd_at; eassumption|]. split; [|split; [exact Ef|exact Hca]].
    destruct D3 as [(-> & -> & -> & ->)|(B & -> & -> & D)]; [cbn; auto|]. eapply snd_at; eassumption. }
  (* a step of the client *)
  assert (CL : forall l g en, tstep crn opt C (n_client n) l g -> own l -> n_end n = en -> let y := mkNet g (n_up n ++ sent l) (n_server n) (n_mem n) (n_down n) en in J y -> Acc next y).
  { intros l g en Ht Ho Een y Hjy. assert (Fy : fuel c y) by exact Hc. assert (Dy : dleft y = d) by (unfold y, dleft; cbn [n_down n_end]; rewrite <- Een; exact Hdl).
    rewrite En in Ht.
    destruct (rank_step crn opt C tg fc fs wn rn tn msz tr hn False k HI K2 L K3 adr rch s us Hm o f1 f2 f3 I1 I2 I3 Q1 Q2 Q3 D1 D2 Hca H1 H2 H3 mi mn m3 ms D3 A1 A2 A3 _ _ _ G1 G2 G3 l g Ht Ho (False_ind _) (False_ind _))
      as [X|[(X1 & ls' & k' & f' & L' & X2 & X3 & X4 & X5 & X6 & X7)|(X1 & -> & X)]].
    - apply dead_stops; assumption.
    - eapply (IH (cost L' k', (List.length (n_up y), (c, (d, (pend (g_mem g), f')))))); [|reflexivity|exact Hjy| |reflexivity|exact Fy|exact Dy].
      + rewrite Ea, Ee, Ef. unfold y. cbn [n_up]. destruct X7 as [X7|X7]; [|left; exact X7]. rewrite X7, app_nil_r, Hb. unfold lt3 in X6. unfold lex6, lexn. cbn [fst snd].
        destruct X6 as [X6|(X6 & X8)]; [left; exact X6|right]. split; [exact X6|]. right. split; [reflexivity|]. right. split; [reflexivity|]. right. split; [reflexivity|]. exact X8.
      + split; [exact X1|]. exists (ls ++ ls'), k', L'. split; [eapply csteps_app; eassumption|]. auto 10.
    - cbn [sent] in *. assert (Uy : List.length (n_up y) = b) by (unfold y; cbn [n_up sent]; rewrite app_nil_r; exact Hb).
      destruct X as [(m & -> & X2 & X3)|[(m & -> & X2 & X3)|(m & -> & X2 & X3 & X4)]].
      + eapply X3; eauto.
      + eapply X3; eauto.
      + eapply X4; eauto. }
  constructor. intros y (l & Hmv). pose proof (J_next _ _ _ Hj Hmv) as Hj'. destruct (fuel_some _ Hj') as (c' & Hc').
  inversion Hmv as [l0 g Ho He Ht|l0 g Ho He Ht|m m' s' Es Hs|ch up Eu Hne|ch dn Ed Hne He|Hx Ed He]; subst l y.
  - specialize (Ht []). rewrite !more_net_nil in Ht. apply CL; assumption.
  - apply CL; assumption.
  - unfold fuel in Hc. rewrite Es in Hc. destruct Hc as (r & Hc). destruct (fuel_less _ _ _ _ _ _ Hc Hs) as (c2 & Hlt & X).
    eapply (IH (a, (b, (c2, (_, (e, f)))))); [apply lex6_c; exact Hlt|reflexivity|exact Hj'|exact Hl|exact Hb| |reflexivity]. unfold fuel. cbn [n_server n_mem]. destruct m'; exact X.
  - eapply (IH (a, (List.length up, (c', (_, (e, f)))))); [apply lex6_b|reflexivity|exact Hj'|exact Hl|reflexivity|exact Hc'|reflexivity]. rewrite <- Hb, Eu, app_length. destruct ch; [contradiction|cbn; lia].
  - eapply (IH (a, (b, (c, (_, (_, f)))))); [apply lex6_d|reflexivity|exact Hj'|eapply live_more; exact Hl|exact Hb|exact Hc|reflexivity].
    cbn [fst snd]. rewrite <- Hdl. unfold dleft. cbn [n_down n_end]. rewrite Ed, app_length, He. destruct ch; [contradiction|cbn; lia].
  - eapply (IH (a, (b, (c, (_, (e, f)))))); [apply lex6_d|reflexivity|exact Hj'|exact Hl|exact Hb|exact Hc|reflexivity].
    cbn [fst snd]. rewrite <- Hdl. unfold dleft. cbn [n_down n_end]. rewrite Ed, He. cbn. lia.
Qed.
End Ends.

(** What the text of the Listener does under all interleavings. *)
From Verif Require Import Base GoBuf GoSyntax Ufs GoRun GoFmt GoProg GoWp Listener ServerRun ServerRunLemmas ListenerSpec LisConc LisConcLemmas LisRun LisRunLemmas LisRunText LisRunExec.
From Verif Require ClientRun ListenerRun ListenerRunLemmas.

Section Thm.
Context (Li : N) (is_net : bytes -> bool) (cn : N) (ad : bytes) (tra : value) (Ht : is_trace tra).
Notation cr := (VObj (str "NsCreator") cn).
Notation good := (good Li is_net cr ad tra (at_loop Li)).
Notation cwp := (cwp Li is_net cr ad tra (at_loop Li)).
Notation one := (one Li is_net cr ad tra).
Notation TR := (t_runs Li is_net).
Lemma text_runs s0 ls g s : fresh Li cr ad tra s0 -> TR s0 ls g s -> exists x, m_runs ls x /\ good x s g.
Proof.
  intros (F1 & F2 & F3). induction 1 as [|ls g s l g' s' _ IH Hs].
  - eexists. split; [constructor|]. split; [eexists; exact F1|]. split; [exact F2|]. split; [exact F3|]. split.
    + intros _. exists [(Li, v_l cr ad tra VNil)]. split; [left; auto|]. intros a v [[= <- <-]|[]]. auto.
    + intros i. reflexivity.
  - destruct IH as (x & A & B). destruct (run_step Li is_net cr ad tra (at_loop Li) (loop_follows Li is_net cn ad tra Ht) (begin_follows Li is_net cn ad tra) _ _ _ _ _ _ B Hs) as (x' & C & D).
    exists x'. split; [|exact D]. destruct C as [[-> ->]|(e & -> & C)]; [rewrite app_nil_r; exact A|]. econstructor; eassumption.
Qed.
(** What is next for a goroutine. *)
Lemma next_of x s g i m : good x s g -> g i = Some m -> exists p K, ms_pos x i = Some p /\ knows K s /\ one cwp (held x i) K p m /\ (held x i = None -> privates K).
Proof.
  intros (G1 & G2 & G3 & G4 & G5) Hg. specialize (G5 i). unfold good_at in G5. rewrite Hg in G5. destruct (ms_pos x i) as [p|]; [|contradiction].
  destruct G5 as (K & A & B & C). apply (unfold_cwp _ _ _ _ _ _ (loop_follows Li is_net cn ad tra Ht)) in B as (K' & Hi & B).
  exists p, K'. split; [reflexivity|]. split; [eapply knows_incl; eassumption|]. split; [exact B|]. intros E a v Ha. exact (C E a v (Hi _ Ha)).
Qed.
Lemma race s0 ls g s i m r m' : fresh Li cr ad tra s0 -> TR s0 ls g s -> g i = Some m -> step P m = Ask r m' -> touches Li s r -> rest s = Some i.
Proof.
  intros F R Hg E T. destruct (text_runs _ _ _ _ F R) as (x & _ & G). destruct (next_of _ _ _ _ _ G Hg) as (p & K & Hp & Hk & Ho & Hpr).
  pose proof G as ((mp & G1) & G2 & G3 & _). rewrite G3.
  assert (Hh : held x i <> None -> ms_holder x = Some i) by (intros A; destruct (held x i) eqn:B; [|contradiction]; apply held_self in B as [B _]; exact B).
  assert (Hold : forall a w q, (a = Li /\ match q with [] => True | SF f :: _ => f = str "listeners" | _ => False end) -> In (a, w) K -> held x i <> None).
  { intros a w q [-> _] Hi Hn. destruct (Hpr Hn _ _ Hi) as (t & fs & -> & Hd). rewrite (proj1 (Hk _ _ Hi)) in G1. injection G1 as -> _. auto. }
  destruct Ho as [m1 Eq HR|v' r' F1|f v m1 F1 E1 HR|a q w v m1 F1 E1 E2 HR|r1 vs m1 F1 E1 E2 HR|v m1 F1 E1 HR|d m1 E0 F1|? ? ? ? E0 F1|? ? ? ? ? ? ? E0 F1|? ? ? ? ? ? E0 F1|? ? ? ? E0 F1|? ? E0 F1|? ? ? ? ? E0 F1|? ? F1|? ? F1|? ? ? ? ? F1|? ? ? ? ? ? ? ? F1]; try (rewrite E in F1; try discriminate F1; injection F1 as -> ->); auto; try contradiction.
  - rewrite E in Eq. discriminate.
  - destruct T as [_ ->]. pose proof (E1 VNil) as A. pose proof (E1 (VBool true)) as B. cbn in A, B. congruence.
  - eauto.
  - destruct r1; contradiction.
Qed.
(** It can go on. *)
Lemma goes_on x s g i m : good x s g -> g i = Some m ->
  (exists l m' s', th_step Li is_net i m s l m' s') \/ (exists m', step P m = Ask (RExt (str "sync.Mutex.Lock") [v_mu Li]) m') \/ exists v r, step P m = Ret [v] /\ err_of_v v = Some r.
Proof.
  intros G Hg. destruct (next_of _ _ _ _ _ G Hg) as (p & K & Hp & Hk & Ho & Hpr).
  pose proof G as ((mp & G1) & G2 & G3 & _).
  assert (Hh : forall st, held x i = Some st -> rest s = Some i) by (intros st A; apply held_self in A as [A _]; congruence).
  destruct Ho as [m1 F1 HR|v' r' F1 F2|f v m1 F1 E1 HR|a q w v m1 F1 E1 E2 HR|r1 vs m1 F1 E1 E2 HR|v m1 F1 E1 HR|d m1 E0 F1|mp' b m1 K' E0 F1 E1|a d t k v m1 K' E0 F1 E1|a d t k m1 K' E0 F1 E1|a d t m1 E0 F1 E1 HR (od & E2 & E3)|m1 p' E0 F1|m1 st p' S' K0 E0 F1|m1 ln F1|m1 ln F1|m1 w z p' h' F1|m1 t a v k c p' h' F1 E1 E2].
  - left. eexists [], _, _. apply s_quiet. exact F1.
  - right; right; eauto.
  - left. eexists [], _, _. eapply s_ask; [exact F1|]. cbn [answer]. rewrite G1, E1. reflexivity.
  - left. eexists [], _, _. eapply s_ask; [exact F1|]. cbn [answer]. rewrite (proj1 (Hk _ _ E1)), E2. reflexivity.
  - left. eexists [], _, _. eapply s_ask; [exact F1|]. apply E1.
  - left. eexists [], _, _. eapply s_ask; [exact F1|]. reflexivity.
  - left. eexists [], _, _. eapply s_ask; [exact F1|]. reflexivity.
  - left. eexists [], _, _. eapply s_ask; [exact F1|]. cbn [answer]. rewrite (proj1 (Hk _ _ E1)). reflexivity.
  - left. eexists [], _, _. eapply s_ask; [exact F1|]. cbn [answer]. rewrite (proj1 (Hk _ _ E1)). reflexivity.
  - left. eexists [], _, _. eapply s_ask; [exact F1|]. cbn [answer]. rewrite (proj1 (Hk _ _ E1)). reflexivity.
  - left. eexists [], _, _. eapply s_keys; [exact F1|exact (proj1 (Hk _ _ E1))|exact E2|exact E3].
  - right; left; eauto.
  - left. eexists [_], _, _. eapply s_unlock; [exact F1|]. eapply Hh. exact E0.
  - left. eexists [_], _, _. eapply (s_accept _ _ _ _ _ _ _ ATemp). exact F1.
  - left. eexists [_], _, _. eapply (s_close _ _ _ _ _ _ _ None). exact F1.
  - left. eexists [_], _, _. eapply s_sleep. exact F1.
  - left. eexists [_], _, _. eapply s_go; [exact F1|exact (proj1 (Hk _ _ E1))|exact E2].
Qed.
Lemma safe s0 ls g s i m : fresh Li cr ad tra s0 -> TR s0 ls g s -> g i = Some m -> ~ lost Li is_net m s.
Proof.
  intros F R Hg L. destruct (text_runs _ _ _ _ F R) as (x & _ & G).
  assert (Q : forall l m' s', th_step Li is_net i m s l m' s' -> quiet (step P m) <> None \/ exists r m', step P m = Ask r m').
  { intros l m' s' [? E|? ? ? ? E|? ? ? ? ? E|? E|? ? E|? ? ? E|? ? ? E|? ? ? E|? ? ? ? ? ? E]; try (right; eauto; fail). left. congruence. }
  destruct (goes_on _ _ _ _ _ G Hg) as [(l & m' & s' & A)|[(m' & A)|(v & r & A & B)]].
  - specialize (Q _ _ _ A). destruct L as [E|f E|w E|vs E _|r m2 E E1 _].
    all: try (rewrite E in Q; cbn in Q; destruct Q as [Q|(? & ? & Q)]; [contradiction|discriminate]).
    exact (E1 _ _ _ _ A).
  - destruct L as [E|f E|w E|vs E _|r m2 E _ E1]; rewrite A in E; try discriminate. injection E as <- _. auto.
  - destruct L as [E|f E|w E|vs E E1|r' m2 E _ _]; rewrite A in E; try discriminate. injection E as <-. eauto.
Qed.
(** * A goroutine comes to something *)
Notation judgement := (option (list nat) -> know -> pos -> machine -> Prop).
Lemma cwp_ind' (R : judgement) : (forall p m, at_loop Li p m -> R None [] p m) -> (forall h K K' p m, incl K' K -> R h K' p m -> R h K p m) ->
  (forall h K p m, one R h K p m -> R h K p m) -> forall h K p m, cwp h K p m -> R h K p m.
Proof.
  intros H1 H2 H3. fix IH 5. intros h K p m H. destruct H as [p m Hx|h K K' p m Hi H|h K p m o].
  - exact (H1 _ _ Hx).
  - exact (H2 _ _ _ _ _ Hi (IH _ _ _ _ H)).
  - apply H3. destruct o as [m1 F1 HR|v' r' F1 F2 F3 F4|f v m1 F1 E1 HR|a q w v m1 F1 E1 E2 HR|r1 vs m1 F1 E1 E2 HR|v m1 F1 E1 HR|d m1 E0 F1 HR|mp' b m1 K' E0 F1 E1 E2 HR|a d t k v m1 K' E0 F1 E1 E2 HR|a d t k m1 K' E0 F1 E1 E2 HR|a d t m1 E0 F1 E1 HR E2|m1 p' E0 F1 E1 HR|m1 st p' S' K0 E0 F1 E1 E2 E3 HR|m1 ln F1 HR|m1 ln F1 HR|m1 w z p' h' F1 E1 HR|m1 t a v k c p' h' F1 E1 E2 E3 HR].
    + exact (o_quiet _ _ _ _ _ _ _ _ _ _ m1 F1 (IH _ _ _ _ HR)).
    + exact (o_ret _ _ _ _ _ _ _ _ _ _ v' r' F1 F2 F3 F4).
    + exact (o_fixed _ _ _ _ _ _ _ _ _ _ f v m1 F1 E1 (IH _ _ _ _ HR)).
    + exact (o_load _ _ _ _ _ _ _ _ _ _ a q w v m1 F1 E1 E2 (IH _ _ _ _ HR)).
    + exact (o_lib _ _ _ _ _ _ _ _ _ _ r1 vs m1 F1 E1 E2 (IH _ _ _ _ HR)).
    + exact (o_new _ _ _ _ _ _ _ _ _ _ v m1 F1 E1 (fun a A B => IH _ _ _ _ (HR a A B))).
    + exact (o_mapnew _ _ _ _ _ _ _ _ _ _ d m1 E0 F1 (fun a A B => IH _ _ _ _ (HR a A B))).
    + exact (o_store _ _ _ _ _ _ _ _ _ _ mp' b m1 K' E0 F1 E1 E2 (IH _ _ _ _ HR)).
    + exact (o_set _ _ _ _ _ _ _ _ _ _ a d t k v m1 K' E0 F1 E1 E2 (IH _ _ _ _ HR)).
    + exact (o_del _ _ _ _ _ _ _ _ _ _ a d t k m1 K' E0 F1 E1 E2 (IH _ _ _ _ HR)).
    + exact (o_keys _ _ _ _ _ _ _ _ _ _ a d t m1 E0 F1 E1 (fun od A B => IH _ _ _ _ (HR od A B)) E2).
    + exact (o_lock _ _ _ _ _ _ _ _ _ _ m1 p' E0 F1 E1 (fun S K0 A => IH _ _ _ _ (HR S K0 A))).
    + exact (o_unlock _ _ _ _ _ _ _ _ _ _ m1 st p' S' K0 E0 F1 E1 E2 E3 (IH _ _ _ _ HR)).
    + refine (o_accept _ _ _ _ _ _ _ _ _ _ m1 ln F1 (fun r => _)). destruct (HR r) as (p' & h' & A & B). exact (ex_intro _ p' (ex_intro _ h' (conj A (IH _ _ _ _ B)))).
    + refine (o_close _ _ _ _ _ _ _ _ _ _ m1 ln F1 (fun r => _)). destruct (HR r) as (p' & h' & A & B). exact (ex_intro _ p' (ex_intro _ h' (conj A (IH _ _ _ _ B)))).
    + exact (o_sleep _ _ _ _ _ _ _ _ _ _ m1 w z p' h' F1 E1 (IH _ _ _ _ HR)).
    + exact (o_go _ _ _ _ _ _ _ _ _ _ m1 t a v k c p' h' F1 E1 E2 E3 (IH _ _ _ _ HR)).
Qed.
Notation comes := (comes Li is_net).
Notation TH := (th_step Li is_net).
Lemma comes_quiet i m m' s : quiet (step P m) = Some m' -> comes i m' s -> comes i m s.
Proof.
  intros E H. apply k_step; [eexists _, _; eapply s_quiet; exact E|]. intros l m2 s2 [? F|? ? ? ? F|? ? ? ? ? F|? F|? ? F|? ? ? F|? ? ? F|? ? ? F|? ? ? ? ? ? F].
  all: try (rewrite F in E; discriminate E). rewrite E in F. injection F as <-. auto.
Qed.
(** A request that is answered silently. *)
Lemma comes_ask i m m' r vs s s' : step P m = Ask r m' -> answer (lib is_net) r s = Answer vs s' -> match r with RMapKeys _ | RGo _ _ => False | _ => True end ->
  comes i (resume m' vs) s' -> comes i m s.
Proof.
  intros E A Hr H. apply k_step; [eexists _, _; eapply s_ask; eassumption|]. intros l m2 s2 [? F|? ? ? ? F F1|? ? ? ? ? F|? F|? ? F|? ? ? F|? ? ? F|? ? ? F|? ? ? ? ? ? F]; rewrite E in F; try discriminate F; injection F; intros; subst; try discriminate A; try contradiction.
  rewrite A in F1. injection F1 as <- <-. auto.
Qed.
Lemma comes_adv k n i m s ln m' : adv P k n m = Ask (RExt (str "net.Listener.Accept") [v_net ln]) m' -> comes i m s.
Proof.
  revert m. induction n as [|n IH]; intros m E; cbn [adv] in E; [discriminate|]. destruct (step P m) as [m1|b m1 m2|l m1 m2|o f|r m1|vs| |w] eqn:Es; try discriminate.
  - destruct (stops k m1); [discriminate|]. eapply comes_quiet; [rewrite Es; reflexivity|]. auto.
  - injection E as -> ->. eapply (k_seen _ _ _ _ _ (EAccept ln ATemp)). apply s_accept. exact Es.
Qed.
Lemma comes_all i h K p m : cwp h K p m -> forall s, knows K s -> (exists mp, cells s Li = Some (v_l cr ad tra mp)) -> Li < free s -> (h <> None -> rest s = Some i) -> comes i m s.
Proof.
  revert h K p m. apply (cwp_ind' (fun h K p m => forall s, knows K s -> (exists mp, cells s Li = Some (v_l cr ad tra mp)) -> Li < free s -> (h <> None -> rest s = Some i) -> comes i m s)).
  - intros p m (ln & d & _ & _ & ->) s _ _ _ _. eapply (comes_adv kn 400 _ _ _ ln). machine_delta. reflexivity.
  - intros h K K' p m Hi IH s Hk. apply IH. eapply knows_incl; eassumption.
  - intros h K p m Ho s Hk (mp & G1) G2 Hr.
    destruct Ho as [m1 F1 HR|v' r' F1 F2|f v m1 F1 E1 HR|a q w v m1 F1 E1 E2 HR|r1 vs m1 F1 E1 E2 HR|v m1 F1 E1 HR|d m1 E0 F1 HR|mp' b m1 K' E0 F1 E1 E2 HR|a d t k v m1 K' E0 F1 E1 E2 HR|a d t k m1 K' E0 F1 E1 E2 HR|a d t m1 E0 F1 E1 HR (od & E2 & E3)|m1 p' E0 F1|m1 st p' S' K0 E0 F1|m1 ln F1|m1 ln F1|m1 w z p' h' F1|m1 t a v k c p' h' F1 E1 E2].
    + eapply comes_quiet; [exact F1|]. eauto.
    + eapply k_end; eassumption.
    + eapply comes_ask; [exact F1|cbn [answer]; rewrite G1, E1; reflexivity|exact I|eauto].
    + eapply comes_ask; [exact F1|cbn [answer]; rewrite (proj1 (Hk _ _ E1)), E2; reflexivity|exact I|eauto].
    + eapply comes_ask; [exact F1|apply E1|destruct r1; auto; contradiction|eauto].
    + eapply comes_ask; [exact F1|reflexivity|exact I|]. apply HR; [intros b w Hb; destruct (Hk _ _ Hb); lia|lia|apply knows_new'; exact Hk| |cbn; lia|exact Hr]. exists mp. cbn. rewrite put_other by lia. exact G1.
    + eapply comes_ask; [exact F1|reflexivity|exact I|]. apply HR; [intros b w Hb; destruct (Hk _ _ Hb); lia|lia|apply knows_new'; exact Hk| |cbn; lia|exact Hr]. exists mp. cbn. rewrite put_other by lia. exact G1.
    + assert (A : cells s Li = Some (v_l cr ad tra mp')) by (exact (proj1 (Hk _ _ E1))).
      eapply comes_ask; [exact F1|cbn [answer]; rewrite A; reflexivity|exact I|]. apply HR; [eapply knows_changed; eassumption| |exact G2|exact Hr]. eexists. cbn. apply put_same.
    + destruct (Hk _ _ E1) as [A _]. eapply comes_ask; [exact F1|cbn [answer]; rewrite A; reflexivity|exact I|]. apply HR; [eapply knows_changed; eassumption| |exact G2|exact Hr].
      exists mp. cbn. rewrite put_other; [exact G1|]. intros <-. rewrite G1 in A. discriminate A.
    + destruct (Hk _ _ E1) as [A _]. eapply comes_ask; [exact F1|cbn [answer]; rewrite A; reflexivity|exact I|]. apply HR; [eapply knows_changed; eassumption| |exact G2|exact Hr].
      exists mp. cbn. rewrite put_other; [exact G1|]. intros <-. rewrite G1 in A. discriminate A.
    + destruct (Hk _ _ E1) as [A _]. apply k_step; [eexists _, _; eapply s_keys; eassumption|].
      intros l m2 s2 [? F|? ? ? ? F Fa|? ? ? ? ? F Fa Fb Fc|? F|? ? F|? ? ? F|? ? ? F|? ? ? F|? ? ? ? ? ? F]; rewrite F1 in F; try discriminate F; injection F; intros; subst; [discriminate Fa|]. rewrite A in Fa. injection Fa as <- <-. split; [reflexivity|]. eapply HR; eauto.
    + eapply k_wait. exact F1.
    + eapply (k_seen _ _ _ _ _ EUnlock). eapply s_unlock; [exact F1|]. apply Hr. congruence.
    + eapply (k_seen _ _ _ _ _ (EAccept ln ATemp)). apply s_accept. exact F1.
    + eapply (k_seen _ _ _ _ _ (EClose ln None)). apply s_close. exact F1.
    + eapply (k_seen _ _ _ _ _ (ESleep _)). eapply s_sleep. exact F1.
    + eapply (k_seen _ _ _ _ _ (EStart _)). eapply s_go; [exact F1|exact (proj1 (Hk _ _ E1))|exact E2].
Qed.
Lemma progress s0 ls g s i m : fresh Li cr ad tra s0 -> TR s0 ls g s -> g i = Some m -> comes i m s.
Proof.
  intros F R Hg. destruct (text_runs _ _ _ _ F R) as (x & _ & (G1 & G2 & G3 & G4 & G5)). specialize (G5 i). unfold good_at in G5. rewrite Hg in G5. destruct (ms_pos x i) as [p|]; [|contradiction].
  destruct G5 as (K & A & B & C). eapply comes_all; try eassumption. intros Hn. destruct (held x i) eqn:E; [|contradiction]. apply held_self in E as [E _]. congruence.
Qed.
End Thm.

(** * Executions *)
Section Exe.
Context (Li : N) (is_net : bytes -> bool).
Notation EX := (executes Li is_net).
Lemma exe_model ls x s : EX ls x s -> exists y, m_runs ls y /\ rest s = ms_holder y /\ (forall i, x i <> None -> ms_pos y i <> None) /\
  (ms_holder y = None -> exists cn ad tra mp, cells s Li = Some (v_listener (VObj (str "NsCreator") cn) ad tra mp) /\ ListenerRun.holds_set (cells s) mp (ms_set y)).
Proof.
  intros (cn & ad & tra & s0 & Ht & F & R). destruct (text_runs Li is_net cn ad tra Ht _ _ _ _ F R) as (y & A & (G1 & G2 & G3 & G4 & G5)). exists y. split; [exact A|]. split; [exact G3|]. split.
  - intros i Hi. specialize (G5 i). unfold good_at in G5. destruct (x i); [|contradiction]. destruct (ms_pos y i); [discriminate|contradiction].
  - intros Hh. exists cn, ad, tra. destruct (G4 Hh) as (K0 & [(E & ->)|(a & t & Ha & -> & T)] & Hk).
    + exists VNil. split; [exact (proj1 (Hk _ _ (or_introl eq_refl)))|]. left. auto.
    + eexists. split; [exact (proj1 (Hk _ _ (or_introl eq_refl)))|]. right. exists a, t. split; [reflexivity|]. split; [exact (proj1 (Hk _ _ (or_intror (or_introl eq_refl))))|exact T].
Qed.
Lemma exe_race ls x s i m r m' : EX ls x s -> x i = Some m -> step P m = Ask r m' -> touches Li s r -> rest s = Some i.
Proof. intros (cn & ad & tra & s0 & Ht & F & R). eapply race; eassumption. Qed.
Lemma exe_safe ls x s i m : EX ls x s -> x i = Some m -> ~ lost Li is_net m s.
Proof. intros (cn & ad & tra & s0 & Ht & F & R). eapply safe; eassumption. Qed.
Lemma exe_progress ls x s i m : EX ls x s -> x i = Some m -> comes Li is_net i m s.
Proof. intros (cn & ad & tra & s0 & Ht & F & R). eapply progress; eassumption. Qed.
Lemma exe_mutex ls1 i ls2 j x s : EX (ls1 ++ (i, ELock) :: ls2 ++ [(j, ELock)]) x s -> In (i, EUnlock) ls2.
Proof. intros R. destruct (exe_model _ _ _ R) as (y & A & _). eapply mutex; exact A. Qed.
Lemma exe_held ls1 i ls2 e x s : EX (ls1 ++ (i, ELock) :: ls2 ++ [(i, e)]) x s -> ~ In (i, EUnlock) ls2 -> e = EUnlock \/ exists ln r, e = EClose ln r.
Proof. intros R. destruct (exe_model _ _ _ R) as (y & A & _). eapply held_only; exact A. Qed.
Lemma exe_history ls x s : EX ls x s -> exists m, lrun (history ls) m.
Proof. intros R. destruct (exe_model _ _ _ R) as (y & A & _). eapply history_runs; exact A. Qed.
Lemma exe_set ls x s : EX ls x s -> rest s = None -> exists cn ad tra mp st,
  cells s Li = Some (v_listener (VObj (str "NsCreator") cn) ad tra mp) /\ ListenerRun.holds_set (cells s) mp st /\ forall n, In n st <-> being_served (history ls) n.
Proof. intros R Hr. destruct (exe_model _ _ _ R) as (y & A & B & _ & C). rewrite B in Hr. destruct (C Hr) as (cn & ad & tra & mp & D & E). exists cn, ad, tra, mp, (ms_set y). split; [exact D|]. split; [exact E|]. eapply set_free; eassumption. Qed.
Lemma exe_shutdown ls i x s l : EX (ls ++ [(i, EUnlock)]) x s -> own ls i = EBegin TShutdown :: l ->
  NoDup (map fst (closes l)) /\ forall n, In n (map fst (closes l)) <-> being_served (history ls) n.
Proof. intros R. destruct (exe_model _ _ _ R) as (y & A & _). eapply shutdown_closes; exact A. Qed.
Lemma exe_shutdown_end ls i r x s l : EX (ls ++ [(i, EEnd r)]) x s -> own ls i = EBegin TShutdown :: l ->
  exists cs, l = ELock :: cs ++ [EUnlock] /\ Forall is_close cs /\ r = first_error (map fst (closes cs)) (res_of (closes cs)).
Proof. intros R. destruct (exe_model _ _ _ R) as (y & A & _). eapply shutdown_end; exact A. Qed.
Lemma exe_serve_end ls i r x s ln l : EX (ls ++ [(i, EEnd r)]) x s -> own ls i = EBegin (TServe ln) :: l ->
  exists b c e, l = ELock :: EUnlock :: b ++ [ELock; EUnlock; EClose ln c] /\ r = Some e /\ Forall (in_loop ln) b /\ accept_loop 0 (outcomes b) = (acts b, Some e).
Proof. intros R. destruct (exe_model _ _ _ R) as (y & A & _). eapply serve_end; exact A. Qed.
Lemma exe_serving ls x s i ln l : EX ls x s -> x i <> None -> own ls i = EBegin (TServe ln) :: l ->
  Forall (fun e => match e with EAccept ln' _ | EClose ln' _ => ln' = ln | _ => True end) l /\ exists a, fst (accept_loop 0 (outcomes l)) = acts l ++ a /\ (List.length a <= 1)%nat.
Proof. intros R Hx. destruct (exe_model _ _ _ R) as (y & A & _ & B & _). specialize (B i Hx). destruct (ms_pos y i) eqn:E; [|contradiction]. eapply serving; eassumption. Qed.
End Exe.
Lemma mem0_fresh : fresh 5 (VObj (str "NsCreator") 0) [] VNil mem0.
Proof. split; [reflexivity|]. split; [reflexivity|reflexivity]. Qed.
Lemma exe_late : exists x s, executes 5 no_net late_ls x s.
Proof. eexists _, _. exists 0, [], VNil, mem0. split; [left; reflexivity|]. split; [exact mem0_fresh|exact late_runs]. Qed.
Lemma exe_later : exists x s, executes 5 no_net (before_ls ++ later_ls) x s.
Proof. destruct later_runs as (x & s & R). exists x, s, 0, [], VNil, mem0. split; [left; reflexivity|]. split; [exact mem0_fresh|exact R]. Qed.

(** Several connections: the executions of the text and of the model show the same. *)
From Verif Require Import Base GoBuf CodecPrim Types Codec Msgs StubPrim GoPath GoSyntax GoRun GoProg Ufs UfsSpec GoFmt UfsRun UfsRunThm3 Conns ConnsLemmas ConnsRun ConnsRunLemmas.

Section Conns.
Variable c : config.
Hypothesis Hio : IOunit c = 8192.

(** * One connection *)
Definition making (m : machine) (s : store unit) : Prop := calls_made s = [] /\
  forall us, exists n A M s', run script G n m (lift s us) = Some (Returned [VPtr (str "FileServer") A []], s') /\
    holds c (mkLayout A M 0 1 2) s' no_fids /\ calls_made s' = [].
Definition related (t : thread) (x : conn) : Prop :=
  match th_job t, cn_now x with
  | Idle fs, None => exists M, holds c (mkLayout fs M 0 1 2) (th_mem t) (cn_tab x)
  | Busy New m, None => making m (th_mem t) /\ x = new_conn
  | Busy (For fs q) m, Some a => a_req a = q /\ exists M, agree c q fs M m (th_mem t) (a_left a) (cn_tab x)
  | _, _ => False
  end /\ calls_made (th_mem t) = filter external (conn_trace x).

Lemma making_start : making create_server (boot c).
Proof.
  split; [reflexivity|]. intros us.
  destruct (creator_runs script c 0 0 0 1 2 (heap (boot c)) 3 us [] eq_refl eq_refl eq_refl Hio) as (n & out & s' & Er & A & M & -> & HH & Hw & Hc).
  { intros a Ha. cbn. destruct (N.eqb_spec a 0), (N.eqb_spec a 1), (N.eqb_spec a 2); subst; try lia. reflexivity. }
  exists n, A, M, s'. auto.
Qed.
Lemma making_look m s : making m s -> match look m s with
  | Tau m' s' => making m' s'
  | Finish vs => exists a M, vs = [VPtr (str "FileServer") a []] /\ holds c (mkLayout a M 0 1 2) s no_fids
  | _ => False
  end.
Proof.
  intros [H0 H]. pose proof (look_calls m s) as Hc. destruct (look m s) as [m1 s1|o k|vs| |] eqn:El.
  - split; [congruence|]. intros us. destruct (H us) as ([|n] & A & M & s' & E & H'); [discriminate E|].
    unfold G, flags_at in E. rewrite look_run, El in E. exists n, A, M, s'. auto.
  - destruct (H []) as ([|n] & A & M & s' & E & _ & H'); [discriminate E|]. unfold G, flags_at in E. rewrite look_run, El in E.
    destruct (consume o []) as [x us']. destruct (run_calls _ _ _ _ _ _ _ _ E) as (ev & Hev). destruct Hc as [_ Hc]. rewrite Hc, H0, H' in Hev. discriminate Hev.
  - destruct (H []) as ([|n] & A & M & s' & E & HH & H'); [discriminate E|]. unfold G, flags_at in E. rewrite look_run, El in E. inversion E; subst.
    exists A, M. split; [reflexivity|]. apply (holds_lower _ _ _ [] _ HH).
  - destruct (H []) as ([|n] & A & M & s' & E & _ & H'); [discriminate E|]. unfold G, flags_at in E. rewrite look_run, El in E. discriminate E.
  - destruct (H []) as ([|n] & A & M & s' & E & _ & H'); [discriminate E|]. unfold G, flags_at in E. rewrite look_run, El in E. discriminate E.
Qed.

Inductive c_steps : conn -> list deed -> conn -> Prop :=
| cs_nil x : c_steps x [] x
| cs_cons x l y l' z : c_step c x l y -> c_steps y l' z -> c_steps x (l ++ l') z.
Inductive th_steps : thread -> list deed -> thread -> Prop :=
| ts_nil t : th_steps t [] t
| ts_cons t l t1 l' t2 : th_step t l t1 -> th_steps t1 l' t2 -> th_steps t (l ++ l') t2.
Lemma c_one x l y : c_step c x l y -> c_steps x l y.
Proof. intros H. rewrite <- (app_nil_r l). econstructor; [exact H|constructor]. Qed.
Lemma c_app x l y l' z : c_steps x l y -> c_steps y l' z -> c_steps x (l ++ l') z.
Proof. induction 1 as [|x l y l1 z1 H H1 IH]; intros K; [exact K|]. rewrite <- app_assoc. econstructor; eauto. Qed.
Lemma th_one t l t' : th_step t l t' -> th_steps t l t'.
Proof. intros H. rewrite <- (app_nil_r l). econstructor; [exact H|constructor]. Qed.
Lemma th_app t l t1 l' t2 : th_steps t l t1 -> th_steps t1 l' t2 -> th_steps t (l ++ l') t2.
Proof. induction 1 as [|x l y l1 z1 H H1 IH]; intros K; [exact K|]. rewrite <- app_assoc. econstructor; eauto. Qed.
Lemma settle_steps d pre q p : forall u tr, let '(p', u', tr') := settle p u in
  c_steps (mkConn u d (Some (mkActive pre q tr p))) [] (mkConn u' d (Some (mkActive pre q (tr ++ tr') p'))).
Proof.
  induction p as [a|o k IH|]; intros u tr; cbn [settle]; try (rewrite app_nil_r; constructor).
  destruct (local u o) as [x|] eqn:E; [|rewrite app_nil_r; constructor].
  specialize (IH x (effect o u) (tr ++ [Ev o x])). destruct (settle (k x) (effect o u)) as [[p' u'] tr'].
  destruct (local_some _ _ _ E) as (Ha & He & _). change (@nil deed) with (@nil deed ++ []). econstructor.
  - pose proof (cl_call c u d pre q tr o k x Ha) as S. rewrite He in S. exact S.
  - rewrite <- app_assoc in IH. exact IH.
Qed.
Lemma trace_snoc d s : trace (d ++ [s]) = trace d ++ s_tr s.
Proof. unfold trace. rewrite flat_map_app. cbn. rewrite app_nil_r. reflexivity. Qed.

Lemma text_to_model t l t' x : th_step t l t' -> related t x -> exists x', c_steps x l x' /\ related t' x'.
Proof.
  intros S [R HC]. destruct x as [u d now]. inversion S; subst; cbn [th_job th_mem] in *.
  - destruct w as [|fs q]; cbn [cn_now] in R.
    + destruct now; [contradiction|]. destruct R as [R Ex]. pose proof (making_look m s R) as R'. rewrite H in R'.
      eexists. split; [constructor|]. split; [split; [exact R'|exact Ex]|]. cbn [th_mem]. pose proof (look_calls m s) as Q. rewrite H in Q. congruence.
    + destruct now as [[pre q' tr p]|]; [|contradiction]. destruct R as [Eq (M & R)]. cbn in Eq. subst q'. cbn [a_left cn_tab] in R.
      pose proof (settle_steps d pre q p u tr) as Ss. pose proof (agree_settle _ _ _ _ _ _ _ _ R) as Sa. pose proof (settle_settled _ p u) as Sd.
      destruct (settle p u) as [[p' u'] tr']. destruct Sa as [Sa Hf]. eexists. split; [exact Ss|].
      pose proof (agree_look _ _ _ _ _ _ _ _ Sa Sd) as Q. rewrite H in Q. split; [cbn; eauto|]. cbn [th_mem].
      pose proof (look_calls m s) as Q2. rewrite H in Q2. rewrite Q2, HC. unfold conn_trace. cbn. rewrite !filter_app, Hf, app_nil_r. reflexivity.
  - destruct w as [|fs q]; cbn [cn_now] in R.
    + destruct now; [contradiction|]. destruct R as [R Ex]. pose proof (making_look m s R) as R'. rewrite H in R'. contradiction.
    + destruct now as [[pre q' tr p]|]; [|contradiction]. destruct R as [Eq (M & R)]. cbn in Eq. subst q'. cbn [a_left cn_tab] in R.
      pose proof (settle_steps d pre q p u tr) as Ss. pose proof (agree_settle _ _ _ _ _ _ _ _ R) as Sa. pose proof (settle_settled _ p u) as Sd.
      destruct (settle p u) as [[p' u'] tr']. destruct Sa as [Sa Hf].
      pose proof (agree_look _ _ _ _ _ _ _ _ Sa Sd) as Q. rewrite H in Q. destruct Q as (k' & -> & Q). cbn [settled] in Sd.
      destruct (local_none _ _ Sd x) as (He & Hu & Ha).
      eexists. split.
      * eapply (c_app _ [] _ [_]); [exact Ss|]. apply c_one. pose proof (cl_call c u' d pre q (tr ++ tr') o k' x Ha) as S1. rewrite He in S1. exact S1.
      * rewrite Hu. split; [cbn; eauto|]. cbn [th_mem]. pose proof (look_calls m s) as Q2. rewrite H in Q2. destruct Q2 as [_ Q2]. rewrite Q2, HC.
        unfold conn_trace. cbn. rewrite !filter_app, Hf, app_nil_r. cbn [filter]. rewrite He, <- app_assoc. reflexivity.
  - cbn [cn_now] in R. destruct now; [contradiction|]. destruct R as [R Ex]. pose proof (making_look m s R) as R'. rewrite H in R'.
    destruct R' as (a' & M & Ev & R'). inversion Ev; subst. inversion Ex; subst. eexists. split; [constructor|]. split; [cbn; eauto|exact HC].
  - cbn [cn_now] in R. destruct now; [contradiction|]. destruct R as (M & R). eexists. split; [apply c_one; apply cl_request|].
    split; [cbn; split; [reflexivity|]; exists M; apply agree_request; exact R|]. cbn [th_mem]. rewrite HC. unfold conn_trace. cbn. reflexivity.
  - cbn [cn_now] in R. destruct now as [[pre q' tr p]|]; [|contradiction]. destruct R as [Eq (M & R)]. cbn in Eq. subst q'. cbn [a_left cn_tab] in R.
    pose proof (settle_steps d pre q p u tr) as Ss. pose proof (agree_settle _ _ _ _ _ _ _ _ R) as Sa. pose proof (settle_settled _ p u) as Sd.
    destruct (settle p u) as [[p' u'] tr']. destruct Sa as [Sa Hf].
    pose proof (agree_look _ _ _ _ _ _ _ _ Sa Sd) as Q. rewrite H in Q. destruct Q as (r' & -> & Er & Hh). rewrite H0 in Er. inversion Er; subst r'.
    eexists. split; [eapply (c_app _ [] _ [_]); [exact Ss|]; apply c_one; apply cl_reply|]. split; [cbn; eauto|]. cbn [th_mem]. rewrite HC.
    unfold conn_trace. cbn [cn_done cn_now a_tr]. rewrite trace_snoc, app_nil_r. cbn [s_tr]. rewrite !filter_app, Hf, app_nil_r. reflexivity.
Qed.
Lemma text_panics s w m x : look m s = Die -> related (mkThread s (Busy w m)) x -> exists u d pre q tr, c_steps x [] (mkConn u d (Some (mkActive pre q tr Panic))).
Proof.
  intros H [R HC]. destruct x as [u d now]. cbn [th_job th_mem cn_now] in R. destruct w as [|fs q].
  - destruct now; [contradiction|]. destruct R as [R Ex]. pose proof (making_look m s R) as R'. rewrite H in R'. contradiction.
  - destruct now as [[pre q' tr p]|]; [|contradiction]. destruct R as [Eq (M & R)]. cbn in Eq. subst q'. cbn [a_left cn_tab] in R.
    pose proof (settle_steps d pre q p u tr) as Ss. pose proof (agree_settle _ _ _ _ _ _ _ _ R) as Sa. pose proof (settle_settled _ p u) as Sd.
    destruct (settle p u) as [[p' u'] tr']. destruct Sa as [Sa Hf]. pose proof (agree_look _ _ _ _ _ _ _ _ Sa Sd) as Q. rewrite H in Q. subst p'. eauto 10.
Qed.

(** The other way. *)
Inductive taus : machine -> store unit -> machine -> store unit -> Prop :=
| taus_nil m s : taus m s m s
| taus_cons m s m1 s1 m2 s2 : look m s = Tau m1 s1 -> taus m1 s1 m2 s2 -> taus m s m2 s2.
Lemma taus_steps w m s m' s' : taus m s m' s' -> th_steps (mkThread s (Busy w m)) [] (mkThread s' (Busy w m')).
Proof. induction 1 as [|m s m1 s1 m2 s2 H H1 IH]; [constructor|]. change (@nil deed) with (@nil deed ++ []). econstructor; [apply th_tau; exact H|exact IH]. Qed.
Lemma taus_calls m s m' s' : taus m s m' s' -> calls_made s' = calls_made s.
Proof. induction 1 as [|m s m1 s1 m2 s2 H H1 IH]; [reflexivity|]. pose proof (look_calls m s) as Q. rewrite H in Q. congruence. Qed.
Definition stays (m : machine) (s : store unit) : Prop := match look m s with Tau _ _ => False | _ => True end.
Lemma run_taus fs M n : forall m s us r, run script (mkLayout fs M 0 1 2) n m (lift s us) = Some r -> exists m' s', taus m s m' s' /\ stays m' s'.
Proof.
  induction n as [|n IH]; intros m s us r E; [discriminate E|]. rewrite look_run in E. destruct (look m s) as [m1 s1|o k|vs| |] eqn:El.
  - destruct (IH _ _ _ _ E) as (m' & s' & H1 & H2). exists m', s'. split; [econstructor; eauto|exact H2].
  - exists m, s. split; [constructor|]. unfold stays. rewrite El. exact I.
  - exists m, s. split; [constructor|]. unfold stays. rewrite El. exact I.
  - exists m, s. split; [constructor|]. unfold stays. rewrite El. exact I.
  - discriminate E.
Qed.
Lemma agree_taus q fs M p u m s m' s' : taus m s m' s' -> settled p u -> agree c q fs M m s p u -> agree c q fs M m' s' p u.
Proof. induction 1 as [|m s m1 s1 m2 s2 H H1 IH]; intros Hs A; [exact A|]. apply IH; [exact Hs|]. pose proof (agree_look _ _ _ _ _ _ _ _ A Hs) as Q. rewrite H in Q. exact Q. Qed.
Lemma agree_stays q fs M p u m s : settled p u -> agree c q fs M m s p u -> exists m' s', taus m s m' s' /\ stays m' s' /\ agree c q fs M m' s' p u.
Proof.
  intros Hs A. pose proof (A []) as A0. destruct (run_prog script p u []) as [[[r u'] us'] tr]. destruct A0 as (n & out & s' & E & _).
  destruct (run_taus _ _ _ _ _ _ _ E) as (m' & s1 & H1 & H2). exists m', s1. split; [exact H1|]. split; [exact H2|]. eapply agree_taus; eassumption.
Qed.
Lemma making_done m s : making m s -> exists s' a M, th_steps (mkThread s (Busy New m)) [] (mkThread s' (Idle a)) /\ holds c (mkLayout a M 0 1 2) s' no_fids /\ calls_made s' = [].
Proof.
  intros R. pose proof R as [_ H]. destruct (H []) as (n & A & M & s1 & E & _). unfold G, flags_at in E.
  destruct (run_taus _ _ _ _ _ _ _ E) as (m' & s' & H1 & H2).
  assert (R' : making m' s'). { clear -R H1. induction H1 as [|m s m1 s1 m2 s2 H H1 IH]; [exact R|]. apply IH. pose proof (making_look m s R) as Q. rewrite H in Q. exact Q. }
  pose proof (making_look _ _ R') as Q. unfold stays in H2. destruct (look m' s') eqn:El; try contradiction. destruct Q as (a & M' & -> & Hh).
  exists s', a, M'. split; [|split; [exact Hh|exact (proj1 R')]]. change (@nil deed) with (@nil deed ++ []). eapply th_app; [apply taus_steps; exact H1|]. apply th_one. apply th_made. exact El.
Qed.
Lemma model_to_text t l x x' : c_step c x l x' -> related t x -> exists t', th_steps t l t' /\ related t' x'.
Proof.
  intros S [R HC]. destruct t as [s j]. inversion S; subst; cbn [th_job th_mem cn_now cn_tab a_req a_left] in *.
  - assert (Hi : exists s' a M, th_steps (mkThread s j) [] (mkThread s' (Idle a)) /\ holds c (mkLayout a M 0 1 2) s' u /\ calls_made s' = calls_made s).
    { destruct j as [a|[|fs q] mm]; [|destruct R as [R Ex]; inversion Ex; subst|contradiction].
      - destruct R as (M & R). exists s, a, M. split; [constructor|auto].
      - destruct (making_done _ _ R) as (s' & a & M & H1 & H2 & H3). exists s', a, M. split; [exact H1|]. split; [exact H2|]. rewrite H3. symmetry. exact (proj1 R). }
    destruct Hi as (s' & a & M & H1 & H2 & H3). eexists. split; [eapply (th_app _ [] _ [_]); [exact H1|]; apply th_one; apply th_request|].
    split; [cbn; split; [reflexivity|]; exists M; apply agree_request; exact H2|]. cbn [th_mem]. rewrite H3, HC. reflexivity.
  - destruct j as [a|[|fs q] mm]; try contradiction. destruct R as [-> (M & R)]. destruct (local u o) as [y|] eqn:El.
    + (* on the table *)
      destruct (local_some _ _ _ El) as (_ & He & _).
      assert (y = x0). { destruct o; cbn in El, H; try discriminate El; inversion El; subst; try reflexivity; destruct x0; reflexivity. } subst y.
      rewrite He. eexists. split; [constructor|]. split; [cbn; split; [reflexivity|]; exists M; apply agree_local; assumption|].
      cbn [th_mem]. rewrite HC. unfold conn_trace. cbn [cn_done cn_now a_tr]. rewrite !filter_app. cbn [filter]. rewrite He, app_nil_r. reflexivity.
    + destruct (local_none _ _ El x0) as (He & Hu & _). rewrite He, Hu.
      destruct (agree_stays q fs M (Call o k) u mm s El R) as (m' & s' & H1 & H2 & H3).
      pose proof (agree_look _ _ _ _ _ _ _ _ H3 El) as Q. unfold stays in H2. pose proof (look_calls m' s') as Hc. destruct (look m' s') as [|o' k'|vs| |] eqn:Ek; try contradiction.
      * destruct Q as (k2 & E & Q). pose proof (f_equal (fun p => match p with Call o _ => o | _ => OLock end) E) as Eo. cbn in Eo. subst o'.
        assert (Hk : forall y, agree c q fs M (fst (k' y)) (snd (k' y)) (k y) u).
        { intros y. specialize (Q y). assert (E2 : k2 y = k y); [|rewrite <- E2; exact Q].
          pose proof (f_equal (fun p => match p with Call o1 k1 => fun f : op -> canned => k1 (pick o1 (f o1)) | p => fun _ => p end) E) as Ef. cbn in Ef.
          apply (f_equal (fun g => g (fun _ => can o y))) in Ef. cbv beta in Ef.
          replace (pick o (can o y)) with y in Ef; [symmetry; exact Ef|]. destruct o; try discriminate El; try destruct y; reflexivity. }
        eexists. split; [eapply (th_app _ [] _ [_]); [apply taus_steps; exact H1|]; apply th_one; apply th_do; exact Ek|].
        split; [cbn; eauto|]. cbn [th_mem]. destruct Hc as [_ Hc]. rewrite Hc, (taus_calls _ _ _ _ H1), HC. unfold conn_trace. cbn [cn_done cn_now a_tr].
        rewrite !filter_app. cbn [filter]. rewrite He, <- app_assoc. reflexivity.
      * destruct Q as (r & E & _). discriminate E.
      * discriminate Q.
  - destruct j as [a|[|fs q] mm]; try contradiction. destruct R as [-> (M & R)].
    destruct (agree_stays q fs M (Ret r) u mm s I R) as (m' & s' & H1 & H2 & H3).
    pose proof (agree_look _ _ _ _ _ _ _ _ H3 I) as Q. unfold stays in H2. destruct (look m' s') as [|o' k'|vs| |] eqn:Ek; try contradiction.
    + destruct Q as (k2 & E & Q). discriminate E.
    + destruct Q as (r' & E & Er & Hh). inversion E; subst r'.
      eexists. split; [eapply (th_app _ [] _ [_]); [apply taus_steps; exact H1|]; apply th_one; eapply th_reply; eassumption|].
      split; [cbn; eauto|]. cbn [th_mem]. rewrite (taus_calls _ _ _ _ H1), HC. unfold conn_trace. cbn [cn_done cn_now a_tr]. rewrite trace_snoc, app_nil_r. reflexivity.
    + discriminate Q.
Qed.
Lemma model_panics t u d pre q tr : related t (mkConn u d (Some (mkActive pre q tr Panic))) -> exists s w m, th_steps t [] (mkThread s (Busy w m)) /\ look m s = Die.
Proof.
  intros [R HC]. destruct t as [s j]. cbn [th_job th_mem cn_now cn_tab a_req a_left] in R. destruct j as [a|[|fs q'] mm]; try contradiction. destruct R as [-> (M & R)].
  destruct (agree_stays q' fs M Panic u mm s I R) as (m' & s' & H1 & H2 & H3). exists s', (For fs q'), m'. split; [apply taus_steps; exact H1|].
  pose proof (agree_look _ _ _ _ _ _ _ _ H3 I) as Q. unfold stays in H2. destruct (look m' s') as [|o' k'|vs| |] eqn:Ek; try contradiction; try reflexivity.
  - destruct Q as (k2 & E & Q). discriminate E.
  - destruct Q as (r' & E & _). discriminate E.
Qed.
(** Every stretch of work ends. *)
Lemma agree_surely q fs M p : forall u m s, agree c q fs M m s p u -> surely m s.
Proof.
  induction p as [a|o k IH|]; intros u m s A.
  - destruct (agree_stays q fs M (Ret a) u m s I A) as (m' & s' & H1 & H2 & H3). pose proof (agree_look _ _ _ _ _ _ _ _ H3 I) as Q.
    assert (surely m' s'). { unfold stays in H2. destruct (look m' s') eqn:El; try contradiction; [destruct Q as (? & Q & _); discriminate Q|eapply su_finish; exact El|eapply su_die; exact El]. }
    clear -H1 H. induction H1; [assumption|]. eapply su_tau; eauto.
  - destruct (local u o) as [x|] eqn:El; [eapply IH; apply agree_local; eassumption|].
    destruct (agree_stays q fs M (Call o k) u m s El A) as (m' & s' & H1 & H2 & H3). pose proof (agree_look _ _ _ _ _ _ _ _ H3 El) as Q.
    assert (surely m' s').
    { unfold stays in H2. destruct (look m' s') as [|o' k'|vs| |] eqn:Ek; try contradiction; [|eapply su_finish; exact Ek|eapply su_die; exact Ek].
      eapply su_do; [exact Ek|]. intros y. destruct Q as (k2 & E & Q). specialize (Q y).
      pose proof (f_equal (fun p => match p with Call o _ => o | _ => OLock end) E) as Eo. cbn in Eo. subst o'.
      assert (E2 : k2 y = k y).
      { pose proof (f_equal (fun p => match p with Call o1 k1 => fun f : op -> canned => k1 (pick o1 (f o1)) | p => fun _ => p end) E) as Ef. cbn in Ef.
        apply (f_equal (fun g => g (fun _ => can o y))) in Ef. cbv beta in Ef.
        replace (pick o (can o y)) with y in Ef; [symmetry; exact Ef|]. destruct o; try discriminate El; try destruct y; reflexivity. }
      rewrite E2 in Q. eapply IH; exact Q. }
    clear -H1 H. induction H1; [assumption|]. eapply su_tau; eauto.
  - destruct (agree_stays q fs M Panic u m s I A) as (m' & s' & H1 & H2 & H3). pose proof (agree_look _ _ _ _ _ _ _ _ H3 I) as Q.
    assert (surely m' s'). { unfold stays in H2. destruct (look m' s') eqn:El; try contradiction; [destruct Q as (? & Q & _); discriminate Q|eapply su_finish; exact El|eapply su_die; exact El]. }
    clear -H1 H. induction H1; [assumption|]. eapply su_tau; eauto.
Qed.
End Conns.

(** Several connections: all executions. *)
From Verif Require Import Base GoBuf CodecPrim Types Codec Msgs StubPrim GoPath GoSyntax GoRun GoProg Ufs UfsSpec GoFmt UfsRun UfsRunThm3 Conns ConnsLemmas ConnsRun ConnsRunLemmas ConnsRunThm.

Section All.
Variable c : config.
Hypothesis Hio : IOunit c = 8192.
Definition pairs (x : option threads) (p : option proc) : Prop :=
  match x, p with
  | None, None => True
  | Some x, Some p => forall i, match x i, p i with Some t, Some y => related c t y | None, None => True | _, _ => False end
  | _, _ => False
  end.
Lemma pairs_alike x p : pairs x p -> alike x p.
Proof. destruct x, p; cbn; auto. intros H i. specialize (H i). destruct (t i), (p i); auto. exact (proj2 H). Qed.
Lemma related_new : related c (new_thread c) new_conn.
Proof. split; [split; [apply making_start; exact Hio|reflexivity]|reflexivity]. Qed.

Lemma m_conn ls p i a l b : m_runs c ls (Some p) -> p i = Some a -> c_steps c a l b ->
  exists p', m_runs c (ls ++ map (pair i) l) (Some p') /\ p' i = Some b /\ forall j, j <> i -> p' j = p j.
Proof.
  intros H Hi S. revert ls p H Hi. induction S as [x|x l y l' z S S' IH]; intros ls p H Hi.
  - exists p. cbn. rewrite app_nil_r. auto.
  - destruct (IH (ls ++ map (pair i) l) (set_conn p i (Some y))) as (p' & H1 & H2 & H3).
    + eapply mr_step; [exact H|]. eapply m_acts; eassumption.
    + unfold set_conn. rewrite Nat.eqb_refl. reflexivity.
    + exists p'. rewrite map_app, app_assoc. split; [exact H1|]. split; [exact H2|]. intros j Hj. rewrite H3 by exact Hj. unfold set_conn.
      destruct (Nat.eqb_spec j i); [contradiction|reflexivity].
Qed.
Lemma t_conn ls x i a l b : t_runs c ls (Some x) -> x i = Some a -> th_steps a l b ->
  exists x', t_runs c (ls ++ map (pair i) l) (Some x') /\ x' i = Some b /\ forall j, j <> i -> x' j = x j.
Proof.
  intros H Hi S. revert ls x H Hi. induction S as [y|y l z l' w S S' IH]; intros ls x H Hi.
  - exists x. cbn. rewrite app_nil_r. auto.
  - destruct (IH (ls ++ map (pair i) l) (set_thread x i (Some z))) as (x' & H1 & H2 & H3).
    + eapply tr_step; [exact H|]. eapply t_acts; eassumption.
    + unfold set_thread. rewrite Nat.eqb_refl. reflexivity.
    + exists x'. rewrite map_app, app_assoc. split; [exact H1|]. split; [exact H2|]. intros j Hj. rewrite H3 by exact Hj. unfold set_thread.
      destruct (Nat.eqb_spec j i); [contradiction|reflexivity].
Qed.

Lemma text_runs_model ls x : t_runs c ls x -> exists p, m_runs c ls p /\ pairs x p.
Proof.
  induction 1 as [|ls x l x' H (p & Hp & HR) S].
  - exists (Some (fun _ => None)). split; [constructor|]. intros i. exact I.
  - destruct x as [x|]; [|inversion S]. destruct p as [p|]; [|contradiction].
    inversion S; subst; pose proof (HR i) as Hi.
    + rewrite H1 in Hi. destruct (p i) eqn:Ei; [contradiction|]. exists (Some (set_conn p i (Some new_conn))). split; [eapply mr_step; [exact Hp|]; apply m_open; exact Ei|].
      intros j. unfold set_thread, set_conn. destruct (Nat.eqb_spec j i); [apply related_new|apply HR].
    + rewrite H1 in Hi. destruct (p i) as [y|] eqn:Ei; [|contradiction]. destruct (text_to_model c t l0 t' y H2 Hi) as (y' & Q1 & Q2).
      destruct (m_conn ls p i y l0 y' Hp Ei Q1) as (p' & H3 & H4 & H5). exists (Some p'). split; [exact H3|].
      intros j. unfold set_thread. destruct (Nat.eqb_spec j i) as [->|Hj]; [rewrite H4; exact Q2|rewrite H5 by exact Hj; apply HR].
    + rewrite H1 in Hi. destruct (p i) as [y|] eqn:Ei; [|contradiction]. exists (Some (set_conn p i None)). split; [eapply mr_step; [exact Hp|]; eapply m_close; exact Ei|].
      intros j. unfold set_thread, set_conn. destruct (Nat.eqb_spec j i); [exact I|apply HR].
    + rewrite H1 in Hi. destruct (p i) as [y|] eqn:Ei; [|contradiction]. destruct (text_panics c s w m y H2 Hi) as (u & d & pre & q & tr & Q).
      destruct (m_conn ls p i y [] _ Hp Ei Q) as (p' & H3 & H4 & _). cbn [map] in H3. rewrite app_nil_r in H3. exists None. split; [|exact I].
      eapply mr_step; [exact H3|]. eapply m_panic; exact H4.
Qed.
Lemma model_runs_text ls p : m_runs c ls p -> exists x, t_runs c ls x /\ pairs x p.
Proof.
  induction 1 as [|ls p l p' H (x & Hx & HR) S].
  - exists (Some (fun _ => None)). split; [constructor|]. intros i. exact I.
  - destruct p as [p|]; [|inversion S]. destruct x as [x|]; [|contradiction].
    inversion S; subst; pose proof (HR i) as Hi.
    + rewrite H1 in Hi. destruct (x i) eqn:Ei; [contradiction|]. exists (Some (set_thread x i (Some (new_thread c)))). split; [eapply tr_step; [exact Hx|]; apply t_open; exact Ei|].
      intros j. unfold set_thread, set_conn. destruct (Nat.eqb_spec j i); [apply related_new|apply HR].
    + rewrite H1 in Hi. destruct (x i) as [t|] eqn:Ei; [|contradiction]. destruct (model_to_text c t l0 a b H2 Hi) as (t' & Q1 & Q2).
      destruct (t_conn ls x i t l0 t' Hx Ei Q1) as (x' & H3 & H4 & H5). exists (Some x'). split; [exact H3|].
      intros j. unfold set_conn. destruct (Nat.eqb_spec j i) as [->|Hj]; [rewrite H4; exact Q2|rewrite H5 by exact Hj; apply HR].
    + rewrite H1 in Hi. destruct (x i) as [t|] eqn:Ei; [|contradiction]. exists (Some (set_thread x i None)). split; [eapply tr_step; [exact Hx|]; eapply t_close; exact Ei|].
      intros j. unfold set_thread, set_conn. destruct (Nat.eqb_spec j i); [exact I|apply HR].
    + rewrite H1 in Hi. destruct (x i) as [t|] eqn:Ei; [|contradiction]. destruct (model_panics c t u d pre m tr Hi) as (s & w & m' & Q1 & Q2).
      destruct (t_conn ls x i t [] _ Hx Ei Q1) as (x' & H3 & H4 & _). cbn [map] in H3. rewrite app_nil_r in H3. exists None. split; [|exact I].
      eapply tr_step; [exact H3|]. eapply t_panic; eassumption.
Qed.
Theorem text_model ls x : t_runs c ls x -> exists p, m_runs c ls p /\ alike x p.
Proof. intros H. destruct (text_runs_model ls x H) as (p & H1 & H2). eauto using pairs_alike. Qed.
Theorem model_text ls p : m_runs c ls p -> exists x, t_runs c ls x /\ alike x p.
Proof. intros H. destruct (model_runs_text ls p H) as (x & H1 & H2). eauto using pairs_alike. Qed.

(** * What follows for the connections of the text *)
Lemma m_pruns ls p : m_runs c ls p -> exists is, pruns c is p.
Proof.
  induction 1 as [|ls p l p' H (is & IH) S]; [exists []; constructor|]. inversion S; subst.
  - eexists. eapply pr_step; [exact IH|]. apply p_accept. assumption.
  - eexists. eapply pr_step; [exact IH|]. eapply p_step; [eassumption|]. inversion H1; subst; constructor. assumption.
  - eexists. eapply pr_step; [exact IH|]. eapply p_close. eassumption.
  - eexists. eapply pr_step; [exact IH|]. eapply p_panic. eassumption.
Qed.
Lemma since_app i ls : forall l acc, since i (ls ++ l) acc = since i l (since i ls acc).
Proof. induction ls as [|[j d] ls IH]; intros l acc; [reflexivity|]. cbn [since app]. apply IH. Qed.
Lemma since_other i j l acc : j <> i -> since i (map (pair j) l) acc = acc.
Proof. intros H. revert acc. induction l as [|d l IH]; intros acc; [reflexivity|]. cbn [map since]. destruct (Nat.eqb_spec j i); [contradiction|]. apply IH. Qed.
Lemma since_same i l : ~ In DOpen l -> forall acc, since i (map (pair i) l) acc = acc ++ l.
Proof.
  induction l as [|d l IH]; intros H acc; [cbn; rewrite app_nil_r; reflexivity|]. cbn [map since]. rewrite Nat.eqb_refl.
  assert (E : match d with DOpen => [] | d => acc ++ [d] end = acc ++ [d]) by (destruct d; try reflexivity; exfalso; apply H; left; reflexivity).
  rewrite E, IH; [rewrite <- app_assoc; reflexivity|]. intros K. apply H. right. exact K.
Qed.
Definition seen (y : conn) : list deed :=
  shown (cn_done y) ++ match cn_now y with Some a => DRequest (a_req a) :: map DCall (filter external (a_tr a)) | None => [] end.
Lemma c_step_seen a l b : c_step c a l b -> seen b = seen a ++ l /\ ~ In DOpen l /\
  (Forall (fun s => s_res s <> None) (cn_done a) -> Forall (fun s => s_res s <> None) (cn_done b)).
Proof.
  intros S. inversion S; subst; unfold seen; cbn [cn_done cn_now a_req a_tr].
  - split; [|split; [intros [K|[]]; discriminate K|auto]]. rewrite app_nil_r. reflexivity.
  - split; [|split; [|auto]].
    + rewrite filter_app. cbn [filter]. destruct (external (Ev o x)); rewrite map_app, <- app_assoc; [reflexivity|]. cbn. rewrite !app_nil_r. reflexivity.
    + destruct (external (Ev o x)); [intros [K|[]]; discriminate K|intros []].
  - split; [|split; [intros [K|[]]; discriminate K|]].
    + unfold shown. rewrite flat_map_app. cbn [flat_map s_req s_tr s_res]. rewrite !app_nil_r, <- app_assoc. reflexivity.
    + intros K. apply Forall_app. split; [exact K|]. constructor; [discriminate|constructor].
Qed.
Lemma m_seen ls p : m_runs c ls p -> forall q i y, p = Some q -> q i = Some y -> since i ls [] = seen y /\ Forall (fun s => s_res s <> None) (cn_done y).
Proof.
  induction 1 as [|ls p l p' H IH S]; intros q i y E Hi; [inversion E; subst; discriminate Hi|].
  inversion S; subst; try discriminate; match goal with X : Some _ = Some q |- _ => inversion X; subst; clear X end.
  - unfold set_conn in Hi. destruct (Nat.eqb_spec i i0) as [->|Hn].
    + inversion Hi; subst. rewrite since_app. cbn [since]. rewrite Nat.eqb_refl. split; [reflexivity|constructor].
    + rewrite since_app. cbn [since]. destruct (Nat.eqb_spec i0 i); [congruence|]. eapply IH; [reflexivity|exact Hi].
  - unfold set_conn in Hi. destruct (Nat.eqb_spec i i0) as [->|Hn].
    + inversion Hi; subst. destruct (IH _ _ _ eq_refl H0) as [Q1 Q2]. destruct (c_step_seen _ _ _ H1) as (K1 & K2 & K3).
      rewrite since_app, since_same, Q1 by exact K2. auto.
    + rewrite since_app, since_other by congruence. eapply IH; [reflexivity|exact Hi].
  - unfold set_conn in Hi. destruct (Nat.eqb_spec i i0) as [->|Hn]; [discriminate Hi|].
    rewrite since_app. cbn [since]. destruct (Nat.eqb_spec i0 i); [congruence|]. eapply IH; [reflexivity|exact Hi].
Qed.

(** Between two requests a connection of the text is in a state it can reach alone. *)
Theorem text_as_alone ls x i s fs : t_runs c ls (Some x) -> x i = Some (mkThread s (Idle fs)) ->
  exists h u M, hist c h u /\ Forall (fun y => s_res y <> None) h /\ since i ls [] = shown h /\ holds c (mkLayout fs M 0 1 2) s u.
Proof.
  intros H Hi. destruct (text_runs_model ls _ H) as ([p|] & H1 & H2); [|contradiction]. specialize (H2 i). rewrite Hi in H2.
  destruct (p i) as [[u d now]|] eqn:Ei; [|contradiction]. destruct H2 as [H2 _]. cbn [th_job cn_now] in H2. destruct now; [contradiction|]. destruct H2 as (M & H2).
  destruct (m_pruns _ _ H1) as (is & H3). destruct (m_seen _ _ H1 _ _ _ eq_refl Ei) as [H4 H5]. exists d, u, M.
  split; [eapply connection_hist; eassumption|]. split; [exact H5|]. split; [|exact H2]. rewrite H4. unfold seen. cbn. rewrite app_nil_r. reflexivity.
Qed.
(** A goroutine never gets stuck, and is done after finitely many steps of its own. *)
Theorem text_surely ls x i s w m : t_runs c ls (Some x) -> x i = Some (mkThread s (Busy w m)) -> surely m s.
Proof.
  intros H Hi. destruct (text_runs_model ls _ H) as ([p|] & H1 & H2); [|contradiction]. specialize (H2 i). rewrite Hi in H2.
  destruct (p i) as [[u d now]|] eqn:Ei; [|contradiction]. destruct H2 as [H2 _]. cbn [th_job th_mem cn_now cn_tab] in H2. destruct w as [|fs q].
  - destruct now; [contradiction|]. destruct H2 as [R _]. pose proof R as [_ R2]. destruct (R2 []) as (n & A & M & s1 & E & _). unfold G, flags_at in E.
    destruct (run_taus _ _ _ _ _ _ _ E) as (m' & s' & Q1 & Q2). clear -R Q1 Q2. induction Q1 as [m s|m s m1 s1 m2 s2 El Q1 IH].
    + pose proof (making_look c m s R) as Q. unfold stays in Q2. destruct (look m s) eqn:El; try contradiction. eapply su_finish; exact El.
    + eapply su_tau; [exact El|]. apply IH; [|exact Q2]. pose proof (making_look c m s R) as Q. rewrite El in Q. exact Q.
  - destruct now as [a|]; [|contradiction]. destruct H2 as [_ (M & A)]. eapply agree_surely; exact A.
Qed.
(** What it returns is a reply. *)
Theorem text_replies ls x i s fs q m vs : t_runs c ls (Some x) -> x i = Some (mkThread s (Busy (For fs q) m)) -> look m s = Finish vs -> exists r, reply_of s q vs = Some r.
Proof.
  intros H Hi El. destruct (text_runs_model ls _ H) as ([p|] & H1 & H2); [|contradiction]. specialize (H2 i). rewrite Hi in H2.
  destruct (p i) as [[u d now]|] eqn:Ei; [|contradiction]. destruct H2 as [H2 _]. cbn [th_job th_mem cn_now cn_tab] in H2.
  destruct now as [a|]; [|contradiction]. destruct H2 as [_ (M & A)]. pose proof (agree_settle _ _ _ _ _ _ _ _ A) as Sa. pose proof (settle_settled _ (a_left a) u) as Sd.
  destruct (settle (a_left a) u) as [[p' u'] tr']. destruct Sa as [Sa _]. pose proof (agree_look _ _ _ _ _ _ _ _ Sa Sd) as Q. rewrite El in Q. destruct Q as (r & _ & Q & _). eauto.
Qed.
End All.

(** Connections do not influence each other's fids. *)
From Verif Require Import Base GoBuf CodecPrim Types Codec Msgs StubPrim GoPath PathSpec Ufs UfsSpec UfsLemmas UfsLemmas3 Conns MemOS MemSpec MemLemmas UfsRefute.

Lemma set_conn_same p i x : set_conn p i x i = x.
Proof. unfold set_conn. rewrite Nat.eqb_refl. reflexivity. Qed.
Lemma set_conn_other p i x j : j <> i -> set_conn p i x j = p j.
Proof. unfold set_conn. intros H. destruct (Nat.eqb_spec j i); [contradiction|reflexivity]. Qed.
(** What one connection does does not change another one. *)
Theorem others_unchanged c p i p' j : pstep c (Some p) i (Some p') -> j <> i -> p' j = p j.
Proof. intros H Hj. inversion H; subst; apply set_conn_other; exact Hj. Qed.

(** Every connection looks as if it were alone: its finished requests are a history of one connection (with answers of the
    operating system that need not be those of an undisturbed file system). *)
Definition alone (c : config) (x : conn) : Prop :=
  match cn_now x with
  | None => hist c (cn_done x) (cn_tab x)
  | Some a => hist c (cn_done x) (a_pre a) /\
      forall tr2 r u', exec (a_left a) (cn_tab x) tr2 r u' -> exec (method c (a_req a)) (a_pre a) (a_tr a ++ tr2) r u'
  end.
Lemma cstep_alone c a b : cstep c a b -> alone c a -> alone c b.
Proof.
  intros H Ha. destruct H; unfold alone in *; cbn [cn_now cn_done cn_tab a_pre a_left a_req a_tr] in *.
  - split; [exact Ha|]. intros tr2 r u' X. exact X.
  - destruct Ha as [Hh He]. split; [exact Hh|]. intros tr2 r u' X. rewrite <- app_assoc. apply He. cbn [app exec]. exists x, tr2. repeat split; assumption.
  - destruct Ha as [Hh He]. constructor; [exact Hh|]. specialize (He [] (Some r) u). rewrite app_nil_r in He. apply He. cbn. auto.
Qed.
Theorem connection_alone c is p i x : pruns c is (Some p) -> p i = Some x -> alone c x.
Proof.
  intros H. remember (Some p) as o eqn:Eo. revert p Eo i x. induction H as [|is q i q' Hr IH Hs]; intros p Eo j x Hx.
  - injection Eo as <-. discriminate.
  - subst q'. inversion Hs as [p0 i0 Hn E1 E2 E3|p0 i0 a b Ha Hc E1 E2 E3|p0 i0 a Ha E1 E2 E3|]; subst;
      (destruct (Nat.eq_dec j i) as [->|Hj]; [rewrite set_conn_same in Hx|rewrite set_conn_other in Hx by exact Hj; eapply IH; [reflexivity|exact Hx]]).
    + injection Hx as <-. constructor.
    + injection Hx as <-. eapply cstep_alone; [exact Hc|]. eapply IH; [reflexivity|exact Ha].
    + discriminate.
Qed.
Corollary connection_hist c is p i u d : pruns c is (Some p) -> p i = Some (mkConn u d None) -> hist c d u.
Proof. intros H Hx. exact (connection_alone c is p i _ H Hx). Qed.
Lemma pruns_app c is p js q : pruns c is p -> psteps c p js q -> pruns c (is ++ js) q.
Proof.
  intros H S. revert is H. induction S as [p|p i q js r Hs S IH]; intros is H; [rewrite app_nil_r; exact H|].
  replace (is ++ i :: js) with ((is ++ [i]) ++ js) by (rewrite <- app_assoc; reflexivity). apply IH. econstructor; eassumption.
Qed.
(** As long as a connection does nothing itself, nothing happens to it. *)
Theorem untouched_by_others c p is p' j : psteps c (Some p) is (Some p') -> ~ In j is -> p' j = p j.
Proof.
  intros H. remember (Some p) as a eqn:Ea. remember (Some p') as b eqn:Eb. revert p Ea.
  induction H as [q|q i q' is r Hs Hr IH]; intros p Ea Hj; subst.
  - injection Ea as <-. reflexivity.
  - destruct q' as [q'|]; [|exfalso; inversion Hr as [|? ? ? ? ? Hx]; subst; inversion Hx].
    rewrite (IH eq_refl q' eq_refl) by (intros X; apply Hj; right; exact X).
    eapply others_unchanged; [exact Hs|]. intros ->. apply Hj. left. reflexivity.
Qed.

(** * Open files *)
Lemma can_finish {A} (p : prog A) : forall u, exists tr r u', exec p u tr r u'.
Proof.
  induction p as [a|o k IH|]; intros u.
  - exists [], (Some a), u. cbn. auto.
  - pose proof (answer_allowed mem_os u o empty_world) as Hx. set (x := fst (answer_op mem_os u o empty_world)) in Hx.
    destruct (IH x (effect o u)) as (tr & r & u' & E). exists (Ev o x :: tr), r, u'. cbn. exists x, tr. auto.
  - exists [], None, u. cbn. auto.
Qed.
(** An open file of a fid was opened by the request or was there before. *)
Lemma held_source c m u tr r u' : exec (method c m) u tr r u' -> forall x k, held u' x = Some k -> In k (opens tr) \/ exists y, held u y = Some k.
Proof.
  intros H x k Hk. assert (D : no_open_clone (mkStep u m tr r u') \/ exists q, m = MTwalk q /\ Twalk_Paths q = []).
  { unfold no_open_clone; cbn. destruct m; auto. destruct (Twalk_Paths p) eqn:E; [right; exists p; auto|left; discriminate]. }
  destruct D as [D|(q & -> & Eq)].
  - apply changes_of in H as [_ H]. specialize (H D). cbn [s_pre s_tr s_post] in H.
    destruct H as [H1 Ho _|a k' H1 H2 Ho _|a k' H0 H1 H2 Ho _|a H1 H2 Ho _|k' H1 Ho _]; rewrite Ho.
    1, 5: right; exists x; rewrite <- H1; exact Hk.
    all: destruct (N.eq_dec x a) as [->|Hx]; [rewrite H1 in Hk|rewrite H2 in Hk by exact Hx; right; exists x; exact Hk].
    + injection Hk as <-. left. left. reflexivity.
    + discriminate.
    + discriminate.
  - destruct q as [a b l]. cbn in Eq. subst l. remember (@nil bytes) as els eqn:Ee in H. apply walk_exec in H.
    wcases H; try congruence; try (right; exists x; exact Hk).
    right. destruct (N.eq_dec x b) as [->|Hx]; [rewrite held_same in Hk; exists a; erewrite held_eq by eassumption; exact Hk|rewrite held_other in Hk by exact Hx; exists x; exact Hk].
Qed.
Lemma held_opened c h u : hist c h u -> forall x k, held u x = Some k -> In k (opens (trace h)).
Proof.
  intros H. induction H as [|h u m tr r u' Hh IH He]; intros x k Hk; [discriminate|].
  rewrite trace_snoc, opens_app. apply in_or_app. destruct (held_source _ _ _ _ _ _ He x k Hk) as [X|[y Y]]; [right; exact X|left; eapply IH; exact Y].
Qed.
Lemma used_opened c h u : hist c h u -> uses (fun k => In k (opens (trace h))) (trace h).
Proof.
  intros H. induction H as [|h u m tr r u' Hh IH He]; [apply uses_nil|].
  rewrite trace_snoc, opens_app. intros e k Hin Hk. apply in_or_app. left. apply in_app_iff in Hin as [Hin|Hin]; [eapply IH; eassumption|].
  destruct (handles_used _ _ _ _ _ _ He e k Hin Hk) as (fid & _ & Hf). eapply held_opened; eassumption.
Qed.
(** A connection works on files it opened itself. *)
Theorem own_files c is p i x e k : pruns c is (Some p) -> p i = Some x -> In e (conn_trace x) -> handle_of (ev_op e) = Some k -> In k (opens (conn_trace x)).
Proof.
  intros H Hx He Hk. pose proof (connection_alone c is p i x H Hx) as A. unfold alone, conn_trace in *. rewrite opens_app. apply in_or_app. left.
  destruct (cn_now x) as [a|].
  - destruct A as [A B]. destruct (can_finish (a_left a) (cn_tab x)) as (tr2 & r & u' & E). apply B in E.
    apply in_app_iff in He as [He|He]; [eapply used_opened; eassumption|].
    destruct (handles_used _ _ _ _ _ _ E e k) as (fid & _ & Hf); [apply in_or_app; left; exact He|exact Hk|]. eapply held_opened; eassumption.
  - rewrite app_nil_r in He. eapply used_opened; eassumption.
Qed.
(** So two connections never work on the same open file, if opening gives every connection other files. *)
Corollary files_apart c is p i j x y : pruns c is (Some p) -> p i = Some x -> p j = Some y ->
  (forall k, In k (opens (conn_trace x)) -> ~ In k (opens (conn_trace y))) ->
  forall e1 e2 k1 k2, In e1 (conn_trace x) -> In e2 (conn_trace y) -> handle_of (ev_op e1) = Some k1 -> handle_of (ev_op e2) = Some k2 -> k1 <> k2.
Proof.
  intros H Hx Hy Hd e1 e2 k1 k2 H1 H2 K1 K2 ->. eapply Hd; eapply own_files; eauto.
Qed.

(** * What can be done alone can be done among others *)
Lemma exec_steps c (p : prog (answerOf rmsg)) : forall u tr r u' P i d pre m tr0, exec p u tr r u' ->
  P i = Some (mkConn u d (Some (mkActive pre m tr0 p))) ->
  exists is Q, (forall j, In j is -> j = i) /\ psteps c (Some P) is (Some Q) /\ (forall j, j <> i -> Q j = P j) /\
    Q i = Some (mkConn u' d (Some (mkActive pre m (tr0 ++ tr) (match r with Some a => Ret a | None => Panic end)))).
Proof.
  induction p as [a|o k IH|]; intros u tr r u' P i d pre m tr0 E HP; cbn in E.
  - destruct E as (-> & -> & ->). exists [], P. rewrite app_nil_r. repeat split; [intros ? []|constructor|exact HP].
  - destruct E as (x & tr' & -> & Ha & E).
    destruct (IH x (effect o u) tr' r u' (set_conn P i (Some (mkConn (effect o u) d (Some (mkActive pre m (tr0 ++ [Ev o x]) (k x)))))) i d pre m (tr0 ++ [Ev o x]) E (set_conn_same _ _ _)) as (is & Q & H1 & H2 & H3 & H4).
    exists (i :: is), Q. split; [intros j [<-|Hj]; [reflexivity|apply H1; exact Hj]|]. split; [econstructor; [|exact H2]; econstructor; [exact HP|constructor; exact Ha]|].
    split; [intros j Hj; rewrite H3 by exact Hj; apply set_conn_other; exact Hj|]. rewrite H4, <- app_assoc. reflexivity.
  - destruct E as (-> & -> & ->). exists [], P. rewrite app_nil_r. repeat split; [intros ? []|constructor|exact HP].
Qed.
Lemma request_steps c P i u d m tr r u' : P i = Some (mkConn u d None) -> exec (method c m) u tr r u' ->
  exists is Q, (forall j, In j is -> j = i) /\ psteps c (Some P) is Q /\
    match r with
    | None => Q = None
    | Some a => exists Q', Q = Some Q' /\ (forall j, j <> i -> Q' j = P j) /\ Q' i = Some (mkConn u' (d ++ [mkStep u m tr r u']) None)
    end.
Proof.
  intros HP E. set (P1 := set_conn P i (Some (mkConn u d (Some (mkActive u m [] (method c m)))))).
  assert (S1 : pstep c (Some P) i (Some P1)) by (econstructor; [exact HP|constructor]).
  destruct (exec_steps c (method c m) u tr r u' P1 i d u m [] E (set_conn_same _ _ _)) as (is & Q & H1 & H2 & H3 & H4). cbn [app] in H4.
  assert (App : forall p l q i0 q', psteps c p l q -> pstep c q i0 q' -> psteps c p (l ++ [i0]) q').
  { intros p l q i0 q' S T. induction S; cbn; [econstructor; [exact T|constructor]|econstructor; eauto]. }
  assert (In1 : forall j, In j (i :: is ++ [i]) -> j = i) by (intros j [<-|Hj]; [reflexivity|apply in_app_iff in Hj as [Hj|[<-|[]]]; auto]).
  destruct r as [a|].
  - set (Q' := set_conn Q i (Some (mkConn u' (d ++ [mkStep u m tr (Some a) u']) None))).
    exists (i :: is ++ [i]), (Some Q'). split; [exact In1|]. split; [econstructor; [exact S1|]; eapply App; [exact H2|]; econstructor; [exact H4|constructor]|].
    exists Q'. split; [reflexivity|]. split; [|apply set_conn_same]. intros j Hj. unfold Q'. rewrite set_conn_other, H3 by exact Hj. apply set_conn_other. exact Hj.
  - exists (i :: is ++ [i]), None. split; [exact In1|]. split; [|reflexivity]. econstructor; [exact S1|]. eapply App; [exact H2|]. econstructor. exact H4.
Qed.
Theorem history_among c h u : hist c h u -> Forall (fun s => s_res s <> None) h -> forall P i, P i = None ->
  exists is Q, (forall j, In j is -> j = i) /\ psteps c (Some P) is (Some Q) /\ (forall j, j <> i -> Q j = P j) /\ Q i = Some (mkConn u h None).
Proof.
  assert (App : forall p l q l' q', psteps c p l q -> psteps c q l' q' -> psteps c p (l ++ l') q').
  { intros p l q l' q' S T. induction S; cbn; [exact T|econstructor; eauto]. }
  intros H. induction H as [|h u m tr r u' Hh IH He]; intros Hs P i HP.
  - exists [i], (set_conn P i (Some new_conn)). split; [intros j [<-|[]]; reflexivity|]. split; [econstructor; [constructor; exact HP|constructor]|].
    split; [intros j Hj; apply set_conn_other; exact Hj|apply set_conn_same].
  - apply Forall_app in Hs as [Hs Hl]. inversion Hl as [|s l Hr _]; subst. cbn in Hr. destruct r as [a|]; [|congruence].
    destruct (IH Hs P i HP) as (is & Q & H1 & H2 & H3 & H4). destruct (request_steps c Q i u h m tr (Some a) u' H4 He) as (is' & Q0 & K1 & K2 & Q' & -> & K3 & K4).
    exists (is ++ is'), Q'. split; [intros j Hj; apply in_app_iff in Hj as [Hj|Hj]; auto|]. split; [eapply App; eassumption|].
    split; [intros j Hj; rewrite K3 by exact Hj; apply H3; exact Hj|exact K4].
Qed.

(** * Two connections *)
(** Connection 1 makes a file and keeps it open; connection 0 attaches and clunks the same fid number. *)
Definition conn0 : list tmsg := [attach 1; walk 1 2 []; clunk_ 2].
Lemma no_panic_steps ms s : existsb (fun x => match x with None => true | Some _ => false end) (fst (run_all c0 ms s)) = false ->
  Forall (fun s => s_res s <> None) (steps c0 ms s).
Proof.
  revert s. induction ms as [|m ms IH]; intros s H; cbn [steps run_all] in *; [constructor|]. destruct (run1 c0 m s) as [[r s'] tr].
  destruct (run_all c0 ms s') as [rs s2] eqn:E. cbn [fst existsb] in H. apply orb_false_iff in H as [H1 H2]. constructor.
  - cbn. destruct r; [discriminate|discriminate H1].
  - apply IH. rewrite E. exact H2.
Qed.
Lemma two_connections : exists is p, pruns c0 is (Some p) /\
  p 0%nat = Some (mkConn (fst (after conn0)) (steps c0 conn0 s0) None) /\ p 1%nat = Some (mkConn (fst (after make_a)) (steps c0 make_a s0) None).
Proof.
  assert (A : Forall (fun s => s_res s <> None) (steps c0 make_a s0)) by (apply no_panic_steps; vm_compute; reflexivity).
  assert (B : Forall (fun s => s_res s <> None) (steps c0 conn0 s0)) by (apply no_panic_steps; vm_compute; reflexivity).
  destruct (history_among c0 _ _ (demo_hist make_a) A (fun _ => None) 1%nat eq_refl) as (is1 & P1 & _ & S1 & O1 & E1).
  destruct (history_among c0 _ _ (demo_hist conn0) B P1 0%nat) as (is2 & P2 & _ & S2 & O2 & E2); [rewrite O1 by discriminate; reflexivity|].
  exists (is1 ++ is2), P2. split; [|split; [exact E2|rewrite O2 by discriminate; exact E1]].
  eapply pruns_app; [|exact S2]. change is1 with ([] ++ is1). eapply pruns_app; [constructor|exact S1].
Qed.
(** A request of one connection can end the process, and with it the other connections. *)
Lemma crash_spreads : ~ (forall c is p i q j x, pruns c is (Some p) -> pstep c (Some p) i q -> j <> i -> p j = Some x ->
  exists p', q = Some p' /\ p' j = Some x).
Proof.
  intros F. destruct two_connections as (is & p & R & E0 & E1).
  pose proof (demo_exec make_a (read 2 0 (-1))) as X. destruct (run1 c0 (read 2 0 (-1)) (after make_a)) as [[r s'] tr] eqn:E.
  assert (Hr : r = None) by (apply (f_equal (fun x => fst (fst x))) in E; cbn [fst] in E; rewrite <- E; vm_compute; reflexivity). subst r.
  destruct (request_steps c0 p 1%nat _ _ _ _ _ _ E1 X) as (is' & q & H1 & H2 & ->).
  assert (G : forall p l q, psteps c0 p l q -> forall is P, p = Some P -> q = None -> pruns c0 is p -> (forall j, In j l -> j = 1%nat) ->
    P 0%nat = Some (mkConn (fst (after conn0)) (steps c0 conn0 s0) None) -> False).
  { intros p0 l q0 S. induction S as [p0|p0 i q0 l q1 T S IH]; intros is0 P -> Hq R0 Hl HP; [discriminate|]. subst q1.
    assert (i = 1%nat) by (apply Hl; left; reflexivity). subst i.
    destruct (F c0 is0 P 1%nat q0 0%nat _ R0 T (ltac:(discriminate)) HP) as (p' & -> & Hp').
    eapply (IH (is0 ++ [1%nat]) p' eq_refl eq_refl); [econstructor; eassumption|intros j Hj; apply Hl; right; exact Hj|exact Hp']. }
  eapply (G _ _ _ H2 is p eq_refl eq_refl R H1 E0).
Qed.

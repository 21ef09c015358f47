(** Which file names reach the operating system. *)
From Verif Require Import Base GoBuf CodecPrim Types Codec Msgs StubPrim GoPath PathSpec PathLemmas Ufs UfsSpec UfsLemmas.

(** * Names inside the exported directory *)
Definition neat (c : config) (p : bytes) : Prop := inside (export c) p /\ Clean p = p /\ p <> [].
Definition neat_table (c : config) (u : table) : Prop := forall fid f, u fid = Some f -> neat c (f_fullName f).

Lemma Clean_clean p : Clean (Clean p) = Clean p.
Proof. destruct (names_Clean p) as [H1 H2]. rewrite (Clean_text (Clean p)), H1, H2, <- Clean_text. reflexivity. Qed.
Lemma Join_Clean p q : (p <> [] \/ q <> []) -> exists x, Join p q = Clean x.
Proof. intros H. unfold Join. destruct p, q; try (eexists; reflexivity). exfalso. destruct H as [H|H]; apply H; reflexivity. Qed.
Lemma Join_neat p q : (p <> [] \/ q <> []) -> Clean (Join p q) = Join p q /\ Join p q <> [].
Proof. intros H. destruct (Join_Clean p q H) as [x ->]. split; [apply Clean_clean|apply Clean_ne]. Qed.
Lemma Join_empty q : q <> [] -> Join [] q = Clean q.
Proof. destruct q; [congruence|reflexivity]. Qed.

Lemma names_export c : names (export c) = names (rootPath c) /\ (rootPath c <> [] -> IsAbs (export c) = IsAbs (rootPath c)).
Proof.
  unfold export. destruct (rootPath c) as [|b r] eqn:E.
  - split; [reflexivity|congruence].
  - destruct (names_Join (b :: r) (str "/") ltac:(discriminate)) as [N I]. rewrite N, I. split; [|reflexivity].
    change (elems (str "/")) with [@nil byte; @nil byte]. rewrite !resolve_cons, !enter_empty. cbn [resolve fold_left]. apply rev_involutive.
Qed.
Lemma export_ne c : export c <> [].
Proof. unfold export. apply Join_neat. right. discriminate. Qed.
Lemma neat_attach c s : neat c (Join (rootPath c) (Join (str "/") s)).
Proof.
  destruct (Join_root_rooted s) as [A B].
  split; [|apply Join_neat; right; apply Join_neat; left; discriminate].
  destruct (names_export c) as [N I]. destruct (rootPath c) as [|b r] eqn:E.
  - rewrite Join_empty by (apply Join_neat; left; discriminate). rewrite B. split.
    + rewrite A. unfold export. rewrite E. reflexivity.
    + exists (names (Join (str "/") s)). split; [apply names_rooted; exact A|]. rewrite N. reflexivity.
  - destruct (inside_rooted (b :: r) s ltac:(discriminate)) as (Ha & ns & Hn & En). split; [rewrite Ha; symmetry; apply I; discriminate|].
    exists ns. split; [exact Hn|]. rewrite N. exact En.
Qed.
Lemma neat_join c p s : neat c p -> no_dotdot s -> neat c (Join p s).
Proof.
  intros (A & B & C) Hs. split; [apply inside_no_dotdot; assumption|]. apply Join_neat. left. exact C.
Qed.
Lemma inside_root c : inside (export c) (export c).
Proof. apply inside_refl. Qed.
Lemma neat_absolute c s : IsAbs s = true -> no_dotdot s -> neat c (Join (rootPath c) s).
Proof.
  intros Ha Hs. assert (Hne : s <> []) by (destruct s; [discriminate Ha|discriminate]).
  split; [|apply Join_neat; right; exact Hne].
  destruct (names_export c) as [N I]. destruct (rootPath c) as [|b r] eqn:E.
  - rewrite Join_empty by exact Hne. destruct (names_Clean s) as [H1 H2]. split.
    + rewrite H2, Ha. unfold export. rewrite E. reflexivity.
    + exists (names s). split; [apply names_rooted; exact Ha|]. rewrite H1, N. reflexivity.
  - destruct (inside_no_dotdot (b :: r) (b :: r) s ltac:(discriminate) (inside_refl _) Hs) as (A & ns & Hn & En).
    split; [rewrite A; symmetry; apply I; discriminate|]. exists ns. split; [exact Hn|]. rewrite N. exact En.
Qed.
Lemma neat_relative c p s : neat c p -> strictly_inside (export c) p -> neat c (Join (Dirname p) (Join (str "/") s)).
Proof.
  intros (A & B & C) H. split; [apply inside_rename; assumption|]. apply Join_neat. left. apply Clean_ne.
Qed.
Lemma neat_path_to c els : forall p, neat c p -> Forall no_dotdot els -> neat c (path_to p els).
Proof.
  induction els as [|e els IH]; intros p Hp H; [exact Hp|]. inversion H; subst. apply IH; [apply neat_join; assumption|assumption].
Qed.
Lemma lookups_paths c els : forall p infos, neat c p -> Forall no_dotdot els ->
  forall e q, In e (lookups p els infos) -> In q (paths_of (ev_op e)) -> neat c q.
Proof.
  induction els as [|x els IH]; intros p infos Hp H e q He Hq; [destruct He|]. destruct infos as [|fi infos]; [destruct He|].
  inversion H; subst. cbn in He. destruct He as [<-|He].
  - cbn in Hq. destruct Hq as [<-|[]]. apply neat_join; assumption.
  - apply (IH (Join p x) infos ltac:(apply neat_join; assumption) ltac:(assumption) e q He Hq).
Qed.
Lemma neat_set c u fid f : neat_table c u -> neat c (f_fullName f) -> neat_table c (set_fid u fid (Some f)).
Proof.
  intros Hu Hf x g. unfold set_fid. destruct (x =? fid); [intros E; injection E as <-; exact Hf|apply Hu].
Qed.
Lemma neat_del c u fid : neat_table c u -> neat_table c (set_fid u fid None).
Proof. intros Hu x g. unfold set_fid. destruct (x =? fid); [discriminate|apply Hu]. Qed.

Lemma neat_new_name c f d : neat c (f_fullName f) ->
  (if IsAbs (Dir_Name d) then no_dotdot (Dir_Name d) else strictly_inside (export c) (f_fullName f)) ->
  neat c (new_name c (f_fullName f) (Dir_Name d)).
Proof.
  intros Hn H. unfold new_name. destruct (IsAbs (Dir_Name d)) eqn:E; [apply neat_absolute; assumption|apply neat_relative; assumption].
Qed.

(** One careful request keeps the table neat and only hands out neat names. *)
Definition neat_run (c : config) (tr : list event) : Prop := forall e q, In e tr -> In q (paths_of (ev_op e)) -> neat c q.
Lemma neat_nil c : neat_run c [].
Proof. intros e q []. Qed.
Lemma neat_cons c e tr : Forall (neat c) (paths_of (ev_op e)) -> neat_run c tr -> neat_run c (e :: tr).
Proof. intros H1 H2 x q [<-|Hx] Hq; [rewrite Forall_forall in H1; auto|apply (H2 x); assumption]. Qed.
Lemma neat_app c a b : neat_run c a -> neat_run c b -> neat_run c (a ++ b).
Proof. intros H1 H2 e q He. apply in_app_iff in He as [He|He]; [apply H1|apply H2]; exact He. Qed.
Lemma neat_find c u fid : neat_run c (find_ u fid).
Proof. repeat (apply neat_cons; [constructor|]). apply neat_nil. Qed.

Lemma careful_step (c : config) u m tr r u' : neat_table c u -> careful c (mkStep u m tr r u') -> exec (method c m) u tr r u' ->
  neat_table c u' /\ neat_run c tr.
Proof.
  intros Hu Hc H.
  assert (Hfull : forall x g, u x = Some g -> neat c (f_fullName g)) by exact Hu.
  methods m H; pokes; cbn [careful s_req s_pre Twalk_Paths Tcreate_Name Twstat_B Twstat_OFID] in Hc.
  all: try match goal with Hneat : neat_table ?c _ |- context [new_name ?c (f_fullName ?f) (Dir_Name ?d)] =>
    assert (Hnew : neat c (new_name c (f_fullName f) (Dir_Name d)));
    [apply neat_new_name; [eapply Hfull; eassumption|]; specialize (Hc _ _ _ E0);
     destruct (Dir_Name d) as [|nb nd]; [discriminate|]; specialize (Hc ltac:(discriminate)); destruct (IsAbs (nb :: nd)); [exact Hc|apply Hc; assumption]|] end.
  all: try (split; [repeat first [assumption|apply neat_set; cbn [f_fullName]|apply neat_del]; eauto using neat_attach, neat_join
           |repeat (apply neat_cons; [cbn [paths_of ev_op]; repeat (apply Forall_cons || apply Forall_nil); eauto using neat_attach, neat_join|]); apply neat_nil]).
  wcases H.
  - split; [assumption|apply neat_find].
  - split; [assumption|]. apply neat_app; apply neat_find.
  - split; [apply neat_set; eauto|]. apply neat_app; [apply neat_find|]. repeat (apply neat_cons; [constructor|]). apply neat_nil.
  - split; [assumption|]. apply neat_app; [apply neat_find|]. apply neat_app.
    + intros x q. apply lookups_paths; eauto.
    + apply neat_cons; [|apply neat_nil]. cbn. constructor; [|constructor]. apply neat_path_to; [eauto|].
      rewrite Forall_forall in *. intros y Hy. apply Hc. rewrite <- (firstn_skipn (S (List.length infos)) d). apply in_or_app. left. exact Hy.
  - split; [assumption|]. apply neat_app; [apply neat_find|]. apply neat_app; [|apply neat_find]. intros x q. apply lookups_paths; eauto.
  - split; [apply neat_set; [assumption|]; cbn; apply neat_path_to; eauto|].
    apply neat_app; [apply neat_find|]. apply neat_app; [intros x q; apply lookups_paths; eauto|].
    destruct (a =? b); repeat (apply neat_cons; [constructor|]); apply neat_nil.
Qed.

(** * Histories *)
Theorem confined c h u : hist c h u -> Forall (careful c) h ->
  (forall fid f, u fid = Some f -> inside (export c) (f_fullName f)) /\
  (forall s e p, In s h -> In e (s_tr s) -> In p (paths_of (ev_op e)) -> inside (export c) p).
Proof.
  intros H Hc.
  enough (A : neat_table c u /\ forall s, In s h -> neat_run c (s_tr s)).
  { destruct A as [A B]. split; [intros fid f Hf; apply (A fid f Hf)|]. intros s e p Hs He Hp. apply (B s Hs e p He Hp). }
  induction H as [|h u m tr r u' Hh IH He].
  - split; [intros fid f X; discriminate|intros s []].
  - apply Forall_app in Hc as [Hc1 Hc2]. destruct (IH Hc1) as [A B]. inversion Hc2 as [|x l Hs Hnil]; subst.
    destruct (careful_step c u m tr r u' A Hs He) as [A' B']. split; [exact A'|].
    intros s Hin. apply in_app_iff in Hin as [Hin|[<-|[]]]; [apply B; exact Hin|exact B'].
Qed.

(** * Attach *)
Theorem attach_confined c fid afid uname aname u tr r u' :
  exec (method c (MTattach (mkTattachPkt fid afid uname aname))) u tr r u' ->
  (forall e p, In e tr -> In p (paths_of (ev_op e)) -> inside (export c) p) /\
  (u' = u \/ exists f, u' = set_fid u fid (Some f) /\ inside (export c) (f_fullName f)).
Proof.
  intros H. sx H; cbn [f_fullName].
  - split; [intros e p []|left; reflexivity].
  - split; [|left; reflexivity]. intros e p [<-|[]] [<-|[]]. apply neat_attach.
  - split; [|right; eexists; split; [reflexivity|cbn; apply neat_attach]].
    intros e p [<-|[<-|[]]] Hp; cbn in Hp; [destruct Hp as [<-|[]]; apply neat_attach|destruct Hp].
Qed.

(** * The default export: the whole file system *)
Lemma Join_abs p q : IsAbs p = true -> IsAbs (Join p q) = true.
Proof. intros H. destruct p as [|b p]; [discriminate|]. destruct (names_Join (b :: p) q ltac:(discriminate)) as [_ ->]. exact H. Qed.
Lemma Dirname_abs p : IsAbs p = true -> IsAbs (Dirname p) = true.
Proof.
  intros H. unfold Dirname. destruct (names_Clean (upto_last_slash p)) as [_ ->]. destruct p as [|b p]; [discriminate|]. cbn in *.
  rewrite H. destruct (upto_last_slash p); exact H.
Qed.
Lemma path_to_abs els : forall p, IsAbs p = true -> IsAbs (path_to p els) = true.
Proof. induction els as [|e els IH]; intros p H; [exact H|]. apply IH, Join_abs, H. Qed.
Lemma lookups_abs els : forall p infos e q, IsAbs p = true -> In e (lookups p els infos) -> In q (paths_of (ev_op e)) -> IsAbs q = true.
Proof.
  induction els as [|x els IH]; intros p infos e q Hp He Hq; [destruct He|]. destruct infos; [destruct He|].
  destruct He as [<-|He]; [destruct Hq as [<-|[]]; apply Join_abs, Hp|]. eapply IH; [apply Join_abs, Hp|exact He|exact Hq].
Qed.
Definition abs_run (tr : list event) : Prop := forall e q, In e tr -> In q (paths_of (ev_op e)) -> IsAbs q = true.
Definition abs_table (u : table) : Prop := forall fid f, u fid = Some f -> IsAbs (f_fullName f) = true.
Lemma abs_nil : abs_run []. Proof. intros e q []. Qed.
Lemma abs_cons e tr : Forall (fun q => IsAbs q = true) (paths_of (ev_op e)) -> abs_run tr -> abs_run (e :: tr).
Proof. intros H1 H2 x q [<-|Hx] Hq; [rewrite Forall_forall in H1; auto|apply (H2 x); assumption]. Qed.
Lemma abs_app a b : abs_run a -> abs_run b -> abs_run (a ++ b).
Proof. intros H1 H2 e q He. apply in_app_iff in He as [He|He]; [apply H1|apply H2]; exact He. Qed.
Lemma abs_find u fid : abs_run (find_ u fid).
Proof. repeat (apply abs_cons; [constructor|]). apply abs_nil. Qed.
Lemma abs_set u fid f : abs_table u -> IsAbs (f_fullName f) = true -> abs_table (set_fid u fid (Some f)).
Proof. intros Hu Hf x g. unfold set_fid. destruct (x =? fid); [intros E; injection E as <-; exact Hf|apply Hu]. Qed.
Lemma abs_del u fid : abs_table u -> abs_table (set_fid u fid None).
Proof. intros Hu x g. unfold set_fid. destruct (x =? fid); [discriminate|apply Hu]. Qed.
Lemma abs_new_name c f d : IsAbs (rootPath c) = true -> IsAbs (f_fullName f) = true -> IsAbs (new_name c (f_fullName f) (Dir_Name d)) = true.
Proof. intros Hr Hf. unfold new_name. destruct (IsAbs (Dir_Name d)); apply Join_abs; [exact Hr|apply Dirname_abs, Hf]. Qed.
Lemma abs_step c u m tr r u' : IsAbs (rootPath c) = true -> abs_table u -> exec (method c m) u tr r u' -> abs_table u' /\ abs_run tr.
Proof.
  intros Hr Hu H. assert (Hfull : forall x g, u x = Some g -> IsAbs (f_fullName g) = true) by exact Hu.
  methods m H; pokes.
  all: try (split; [repeat first [assumption|apply abs_set; cbn [f_fullName]|apply abs_del]; eauto using Join_abs, abs_new_name
           |repeat (apply abs_cons; [cbn [paths_of ev_op]; repeat (apply Forall_cons || apply Forall_nil); eauto using Join_abs, abs_new_name|]); apply abs_nil]).
  wcases H.
  - split; [assumption|apply abs_find].
  - split; [assumption|]. apply abs_app; apply abs_find.
  - split; [apply abs_set; eauto|]. apply abs_app; [apply abs_find|]. repeat (apply abs_cons; [constructor|]). apply abs_nil.
  - split; [assumption|]. apply abs_app; [apply abs_find|]. apply abs_app.
    + intros x q Hx Hq. eapply lookups_abs; [eapply Hfull; exact Hf|exact Hx|exact Hq].
    + apply abs_cons; [|apply abs_nil]. cbn [paths_of ev_op]. constructor; [|constructor]. apply path_to_abs. eauto.
  - split; [assumption|]. apply abs_app; [apply abs_find|]. apply abs_app; [|apply abs_find].
    intros x q Hx Hq. eapply lookups_abs; [eapply Hfull; exact Hf|exact Hx|exact Hq].
  - split; [apply abs_set; [assumption|]; cbn [f_fullName]; apply path_to_abs; eauto|].
    apply abs_app; [apply abs_find|]. apply abs_app; [intros x q Hx Hq; eapply lookups_abs; [eapply Hfull; exact Hf|exact Hx|exact Hq]|].
    destruct (a =? b); repeat (apply abs_cons; [constructor|]); apply abs_nil.
Qed.
Lemma abs_hist c h u : IsAbs (rootPath c) = true -> hist c h u -> abs_table u /\ forall s, In s h -> abs_run (s_tr s).
Proof.
  intros Hr H. induction H as [|h u m tr r u' Hh IH He]; [split; [discriminate|intros s []]|]. destruct IH as [A B].
  destruct (abs_step c u m tr r u' Hr A He) as [A' B']. split; [exact A'|].
  intros s Hs. apply in_app_iff in Hs as [Hs|[<-|[]]]; [apply B; exact Hs|exact B'].
Qed.
Lemma inside_slash p : IsAbs p = true -> inside (str "/") p.
Proof. intros H. split; [rewrite H; reflexivity|]. exists (names p). split; [apply names_rooted; exact H|reflexivity]. Qed.
Theorem confined_default c h u : rootPath c = str "/" -> hist c h u ->
  forall s e p, In s h -> In e (s_tr s) -> In p (paths_of (ev_op e)) -> inside (export c) p.
Proof.
  intros Hr H s e p Hs He Hp. unfold export. rewrite Hr. change (Join (str "/") (str "/")) with (str "/"). apply inside_slash.
  destruct (abs_hist c h u ltac:(rewrite Hr; reflexivity) H) as [_ B]. apply (B s Hs e p He Hp).
Qed.

Theorem confined_rename c h u : hist c h u -> Forall (careful c) h ->
  forall s e p p', In s h -> In e (s_tr s) -> ev_op e = ORename p p' -> inside (export c) p /\ inside (export c) p'.
Proof.
  intros Hh Hc s e p p' Hs He Ho. destruct (confined c h u Hh Hc) as [_ X].
  split; apply (X s e); trivial; rewrite Ho; [left|right; left]; reflexivity.
Qed.

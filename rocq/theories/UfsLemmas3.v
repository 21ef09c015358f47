(** Open files: which ones a request works on, whether they get closed; the lock. *)
From Verif Require Import Base GoBuf CodecPrim Types Codec Msgs StubPrim GoPath PathSpec Ufs UfsSpec UfsLemmas.

Ltac fids := cbn [affected subject Tattach_SFID Twalk_SFID Twalk_NewFID Twalk_Paths Topen_OFID Tcreate_OFID Tread_OFID Twrite_OFID
  Tclunk_OFID Tremove_OFID Tstat_OFID Twstat_OFID s_req s_pre s_tr s_res] in *.

(** * Only the fid of the request changes *)
Lemma frame c m u tr r u' : exec (method c m) u tr r u' -> forall x, affected m <> Some x -> u' x = u x.
Proof.
  intros H x Hx. methods m H; pokes; fids.
  all: try (repeat rewrite set_fid_other by congruence; reflexivity).
  wcases H; try rewrite set_fid_other by congruence; reflexivity.
Qed.

(** * The open files a request works on *)
Lemma lookups_handle p els infos e : In e (lookups p els infos) -> handle_of (ev_op e) = None.
Proof.
  revert p infos; induction els as [|x els IH]; intros p infos He; [destruct He|]. destruct infos; [destruct He|].
  destruct He as [<-|He]; [reflexivity|]. eapply IH. exact He.
Qed.
Lemma find_handle u fid e : In e (find_ u fid) -> handle_of (ev_op e) = None.
Proof. intros [<-|[<-|[<-|[]]]]; reflexivity. Qed.
Definition uses (P : handle -> Prop) (tr : list event) : Prop := forall e h, In e tr -> handle_of (ev_op e) = Some h -> P h.
Lemma uses_nil P : uses P []. Proof. intros e h []. Qed.
Lemma uses_cons P e tr : match handle_of (ev_op e) with Some h => P h | None => True end -> uses P tr -> uses P (e :: tr).
Proof. intros H1 H2 x h [<-|Hx] Hh; [rewrite Hh in H1; exact H1|apply (H2 x); assumption]. Qed.
Lemma uses_app P a b : uses P a -> uses P b -> uses P (a ++ b).
Proof. intros H1 H2 e h He. apply in_app_iff in He as [He|He]; [apply H1|apply H2]; exact He. Qed.
Lemma uses_none P tr : (forall e, In e tr -> handle_of (ev_op e) = None) -> uses P tr.
Proof. intros H e h He Hh. rewrite (H e He) in Hh. discriminate. Qed.
Lemma handles_used c m u tr r u' : exec (method c m) u tr r u' ->
  uses (fun h => exists fid, subject m = Some fid /\ held u fid = Some h) tr.
Proof.
  intros H. methods m H; fids.
  all: try (repeat (apply uses_cons; [cbn [ev_op handle_of]; first [exact I|eexists; split; [reflexivity|unfold held; known; first [reflexivity|assumption]]]|]); apply uses_nil).
  wcases H; repeat apply uses_app; try (apply uses_none; intros x Hx; first [eapply find_handle; exact Hx|eapply lookups_handle; exact Hx]);
    try (repeat (apply uses_cons; [exact I|]); apply uses_nil).
  destruct (a =? b); repeat (apply uses_cons; [exact I|]); apply uses_nil.
Qed.

(** * Distinct files *)
Lemma opens_app a b : opens (a ++ b) = opens a ++ opens b.
Proof. unfold opens. apply flat_map_app. Qed.
Lemma closes_app a b : closes (a ++ b) = closes a ++ closes b.
Proof. unfold closes. apply flat_map_app. Qed.
Lemma opens_lookups p els infos : opens (lookups p els infos) = [].
Proof. revert p infos; induction els as [|e els IH]; intros p infos; [reflexivity|]. destruct infos; [reflexivity|]. exact (IH _ _). Qed.
Lemma closes_lookups p els infos : closes (lookups p els infos) = [].
Proof. revert p infos; induction els as [|e els IH]; intros p infos; [reflexivity|]. destruct infos; [reflexivity|]. exact (IH _ _). Qed.
Lemma trace_snoc h s : trace (h ++ [s]) = trace h ++ s_tr s.
Proof. unfold trace. rewrite flat_map_app. cbn. rewrite app_nil_r. reflexivity. Qed.
Lemma held_same u a f : held (set_fid u a f) a = match f with Some f => f_file f | None => None end.
Proof. unfold held. rewrite set_fid_same. reflexivity. Qed.
Lemma held_other u a f x : x <> a -> held (set_fid u a f) x = held u x.
Proof. intros H. unfold held. rewrite set_fid_other by exact H. reflexivity. Qed.

(** What a request does to the open files, if it does not clone an open fid. *)
Inductive change (u : table) (tr : list event) (u' : table) : Prop :=
| ch_same : (forall x, held u' x = held u x) -> opens tr = [] -> closes tr = [] -> change u tr u'
| ch_open a k : held u' a = Some k -> (forall x, x <> a -> held u' x = held u x) -> opens tr = [k] -> closes tr = [] -> change u tr u'
| ch_close a k : held u a = Some k -> held u' a = None -> (forall x, x <> a -> held u' x = held u x) -> opens tr = [] -> closes tr = [k] -> change u tr u'
| ch_drop a : held u' a = None -> (forall x, x <> a -> held u' x = held u x) -> opens tr = [] -> closes tr = [] -> change u tr u'
| ch_leak k : (forall x, held u' x = held u x) -> opens tr = [k] -> closes tr = [] -> change u tr u'.
Definition tidy_change (u : table) (tr : list event) (u' : table) : Prop :=
  ((forall x, held u' x = held u x) /\ opens tr = [] /\ closes tr = []) \/
  (exists a k, held u a = None /\ held u' a = Some k /\ (forall x, x <> a -> held u' x = held u x) /\ opens tr = [k] /\ closes tr = []) \/
  (exists a k, held u a = Some k /\ held u' a = None /\ (forall x, x <> a -> held u' x = held u x) /\ opens tr = [] /\ closes tr = [k]).
Lemma held_set_eq u a f : held u a = f_file f -> forall x, held (set_fid u a (Some f)) x = held u x.
Proof. intros H x. destruct (N.eq_dec x a) as [->|Hx]; [rewrite held_same; auto|apply held_other; exact Hx]. Qed.

Lemma held_del_eq u a : held u a = None -> forall x, held (set_fid u a None) x = held u x.
Proof. intros H x. destruct (N.eq_dec x a) as [->|Hx]; [rewrite held_same; auto|apply held_other; exact Hx]. Qed.
Lemma held_eq u a f : u a = Some f -> held u a = f_file f.
Proof. unfold held. intros ->. reflexivity. Qed.
Ltac heldeq :=
  reflexivity ||
  (intros ?x; repeat (rewrite held_set_eq by (rewrite ?held_same; cbn [f_file]; try (erewrite held_eq by eassumption); congruence));
   try rewrite held_del_eq by (erewrite held_eq by eassumption; congruence); reflexivity).
Definition both (s : step) : Prop :=
  (tidy s -> tidy_change (s_pre s) (s_tr s) (s_post s)) /\ (no_open_clone s -> change (s_pre s) (s_tr s) (s_post s)).
Lemma same_both s : (forall x, held (s_post s) x = held (s_pre s) x) -> opens (s_tr s) = [] -> closes (s_tr s) = [] -> both s.
Proof. intros H1 H2 H3. split; [intros _; left; auto|intros _; apply ch_same; assumption]. Qed.
Lemma drop_both s a f : s_post s = set_fid (s_pre s) a (Some f) -> f_file f = None -> (tidy s -> held (s_pre s) a = None) ->
  opens (s_tr s) = [] -> closes (s_tr s) = [] -> both s.
Proof.
  intros Hp Hf Ht Ho Hc. split; [|intros _; apply ch_drop with a; trivial; rewrite Hp; [rewrite held_same; exact Hf|intros x Hx; apply held_other; exact Hx]].
  intros H. left. rewrite Hp. split; [|auto]. apply held_set_eq. rewrite Hf. auto.
Qed.
Lemma open_both s a f k : s_post s = set_fid (s_pre s) a (Some f) -> f_file f = Some k -> (tidy s -> held (s_pre s) a = None) ->
  opens (s_tr s) = [k] -> closes (s_tr s) = [] -> both s.
Proof.
  intros Hp Hf Ht Ho Hc.
  assert (A : held (s_post s) a = Some k) by (rewrite Hp, held_same; exact Hf).
  assert (B : forall x, x <> a -> held (s_post s) x = held (s_pre s) x) by (intros x Hx; rewrite Hp; apply held_other; exact Hx).
  split; [intros H; right; left; exists a, k; auto|intros _; apply ch_open with a k; trivial].
Qed.
Lemma close_both s a k : s_post s = set_fid (s_pre s) a None -> held (s_pre s) a = Some k ->
  opens (s_tr s) = [] -> closes (s_tr s) = [k] -> both s.
Proof.
  intros Hp Hh Ho Hc.
  assert (A : held (s_post s) a = None) by (rewrite Hp, held_same; reflexivity).
  assert (B : forall x, x <> a -> held (s_post s) x = held (s_pre s) x) by (intros x Hx; rewrite Hp; apply held_other; exact Hx).
  split; [intros H; right; right; exists a, k; auto 6|intros _; apply ch_close with a k; trivial].
Qed.

Lemma changes_of c m u tr r u' : exec (method c m) u tr r u' -> both (mkStep u m tr r u').
Proof.
  intros H. methods m H; pokes.
  all: try (apply same_both; cbn [s_pre s_post s_tr]; [heldeq|reflexivity|reflexivity]; fail).
  (* attach *)
  { eapply drop_both; fids; [reflexivity|reflexivity| |reflexivity|reflexivity]. intros X; exact X. }
  (* walk *)
  { wcases H; try (apply same_both; cbn [s_pre s_post s_tr]; rewrite ?opens_app, ?closes_app, ?opens_lookups, ?closes_lookups; reflexivity).
    - destruct (f_file f) eqn:Ef.
      + unfold both, tidy, no_open_clone; fids. split; [intros X; specialize (X (or_introl eq_refl))|intros X; specialize (X eq_refl)]; rewrite (held_eq _ _ _ Hf) in X; congruence.
      + eapply drop_both; fids; [reflexivity|exact Ef| |reflexivity|reflexivity]. intros _. unfold held. rewrite Hn. reflexivity.
    - eapply drop_both; fids; [reflexivity|reflexivity| | |]; rewrite ?opens_app, ?closes_app, ?opens_lookups, ?closes_lookups.
      + unfold tidy; fids. intros X. destruct Hor as [->|Hn]; [apply X; right; reflexivity|]. unfold held. rewrite Hn. reflexivity.
      + destruct (a =? b); reflexivity.
      + destruct (a =? b); reflexivity. }
  (* open *)
  { eapply drop_both; fids; [reflexivity|reflexivity| |reflexivity|reflexivity]. intros X; exact X. }
  { eapply open_both; fids; [reflexivity|reflexivity| |reflexivity|reflexivity]. intros X; exact X. }
  (* create *)
  { split; [|intros _; apply ch_leak with h; reflexivity]. unfold tidy; fids. intros X. destruct X as [? X]; discriminate. }
  { eapply open_both; fids; [reflexivity|reflexivity| |reflexivity|reflexivity]. intros _. erewrite held_eq by eassumption. assumption. }
  (* clunk, remove *)
  all: eapply close_both; fids; [reflexivity|erewrite held_eq by eassumption; eassumption|reflexivity|reflexivity].
Qed.

(** * Histories *)
Lemma NoDup_app_inv {A} (a b : list A) : NoDup (a ++ b) -> NoDup a /\ NoDup b /\ forall x, In x a -> ~ In x b.
Proof.
  induction a as [|y a IH]; cbn; intros H; [split; [constructor|split; [exact H|intros x []]]|].
  inversion H as [|z l H1 H2]; subst. destruct (IH H2) as (A1 & A2 & A3). split; [|split; [exact A2|]].
  - constructor; [|exact A1]. intros X. apply H1, in_or_app. left. exact X.
  - intros x [<-|Hx]; [|apply A3; exact Hx]. intros X. apply H1, in_or_app. right. exact X.
Qed.

(** No two fids share an open file. *)
Lemma not_shared c h u : hist c h u -> distinct_files h -> Forall no_open_clone h ->
  (forall x k, held u x = Some k -> In k (opens (trace h))) /\
  (forall x y k, held u x = Some k -> held u y = Some k -> x = y).
Proof.
  unfold distinct_files. intros H Hd Hc. induction H as [|h u m tr r u' Hh IH He]; [split; intros; discriminate|].
  rewrite trace_snoc, opens_app in *. cbn [s_tr] in *. apply NoDup_app_inv in Hd as (Hd & _ & Hx). apply Forall_app in Hc as [Hc1 Hc2].
  destruct (IH Hd Hc1) as [A B]. inversion Hc2 as [|s l Hs _]; subst. apply changes_of in He. destruct He as [_ He]. specialize (He Hs).
  cbn [s_pre s_tr s_post] in He. destruct He as [H1 Ho _|a k H1 H2 Ho _|a k H0 H1 H2 Ho _|a H1 H2 Ho _|k H1 Ho _]; rewrite Ho in *.
  - rewrite app_nil_r. split; [intros x k; rewrite H1; apply A|intros x y k; rewrite !H1; apply B].
  - assert (N : forall x, x <> a -> held u' x <> Some k).
    { intros x Hxa X. rewrite H2 in X by exact Hxa. apply (Hx k); [eapply A; exact X|left; reflexivity]. }
    split.
    + intros x j Hj. apply in_or_app. destruct (N.eq_dec x a) as [->|Hxa]; [right; left; congruence|left]. rewrite H2 in Hj by exact Hxa. eapply A; exact Hj.
    + intros x y j Hj Hj'. destruct (N.eq_dec x a) as [->|Hxa], (N.eq_dec y a) as [->|Hya]; trivial.
      * exfalso. apply (N y Hya). congruence.
      * exfalso. apply (N x Hxa). congruence.
      * rewrite H2 in Hj, Hj' by assumption. eapply B; eassumption.
  - rewrite app_nil_r. assert (S : forall x j, held u' x = Some j -> held u x = Some j).
    { intros x j Hj. destruct (N.eq_dec x a) as [->|Hxa]; [congruence|rewrite <- H2 by exact Hxa; exact Hj]. }
    split; [intros x j Hj; eapply A, S; exact Hj|intros x y j Hj Hj'; eapply B; apply S; eassumption].
  - rewrite app_nil_r. assert (S : forall x j, held u' x = Some j -> held u x = Some j).
    { intros x j Hj. destruct (N.eq_dec x a) as [->|Hxa]; [congruence|rewrite <- H2 by exact Hxa; exact Hj]. }
    split; [intros x j Hj; eapply A, S; exact Hj|intros x y j Hj Hj'; eapply B; apply S; eassumption].
  - split; [intros x j; rewrite H1; intros X; apply in_or_app; left; eapply A; exact X|intros x y j; rewrite !H1; apply B].
Qed.

Theorem independent c h u m tr r u' : hist c h u -> exec (method c m) u tr r u' ->
  (forall x, affected m <> Some x -> u' x = u x) /\
  (distinct_files h -> Forall no_open_clone h ->
   forall x k e, subject m <> Some x -> held u x = Some k -> In e tr -> handle_of (ev_op e) <> Some k).
Proof.
  intros H He. split; [exact (frame c m u tr r u' He)|]. intros Hd Hc x k e Hs Hx Hin Hk.
  destruct (handles_used _ _ _ _ _ _ He e k Hin Hk) as (fid & Hf & Hh).
  destruct (not_shared c h u H Hd Hc) as [_ B]. rewrite (B _ _ _ Hh Hx) in Hf. contradiction.
Qed.

(** Opened files are held by one fid or were closed once. *)
Theorem all_closed c h u : hist c h u -> distinct_files h -> Forall tidy h ->
  NoDup (closes (trace h)) /\
  forall k, In k (opens (trace h)) <->
    ((exists fid, held u fid = Some k) \/ In k (closes (trace h))) /\
    ~ ((exists fid, held u fid = Some k) /\ In k (closes (trace h))).
Proof.
  unfold distinct_files. intros H Hd Ht.
  enough (A : NoDup (closes (trace h)) /\ (forall k, In k (closes (trace h)) -> In k (opens (trace h))) /\
    (forall x k, held u x = Some k -> In k (opens (trace h)) /\ ~ In k (closes (trace h))) /\
    (forall k, In k (opens (trace h)) -> (exists fid, held u fid = Some k) \/ In k (closes (trace h))) /\
    (forall x y k, held u x = Some k -> held u y = Some k -> x = y)).
  { destruct A as (A1 & A2 & A3 & A4 & _). split; [exact A1|]. intros k. split.
    - intros Hk. split; [apply A4; exact Hk|]. intros [[x Hx] Hc]. apply (A3 x k Hx). exact Hc.
    - intros [[[x Hx]|Hc] _]; [apply (A3 x k Hx)|apply A2; exact Hc]. }
  induction H as [|h u m tr r u' Hh IH He].
  { cbn. split; [constructor|]. split; [intros k []|]. split; [discriminate|]. split; [intros k []|discriminate]. }
  rewrite trace_snoc, opens_app, closes_app in *. cbn [s_tr] in *. apply NoDup_app_inv in Hd as (Hd & _ & Hx). apply Forall_app in Ht as [Ht1 Ht2].
  destruct (IH Hd Ht1) as (A1 & A2 & A3 & A4 & A5). inversion Ht2 as [|s l Hs _]; subst. apply changes_of in He. destruct He as [He _]. specialize (He Hs).
  cbn [s_pre s_tr s_post] in He.
  destruct He as [(H1 & Ho & Hc)|[(a & k & H0 & H1 & H2 & Ho & Hc)|(a & k & H0 & H1 & H2 & Ho & Hc)]]; rewrite Ho, Hc, ?app_nil_r in *.
  - split; [exact A1|]. split; [exact A2|]. split; [intros x k; rewrite H1; apply A3|]. split; [|intros x y k; rewrite !H1; apply A5].
    intros k Hk. destruct (A4 k Hk) as [[x X]|X]; [left; exists x; rewrite H1; exact X|right; exact X].
  - assert (N1 : ~ In k (opens (trace h))) by (intros X; apply (Hx k X); left; reflexivity).
    split; [exact A1|]. split; [intros j Hj; apply in_or_app; left; apply A2; exact Hj|]. split; [|split].
    + intros x j Hj. destruct (N.eq_dec x a) as [->|Hxa].
      * assert (j = k) by congruence. subst j. split; [apply in_or_app; right; left; reflexivity|]. intros X. apply N1, A2, X.
      * rewrite H2 in Hj by exact Hxa. destruct (A3 x j Hj) as [X Y]. split; [apply in_or_app; left; exact X|exact Y].
    + intros j Hj. apply in_app_iff in Hj as [Hj|[<-|[]]]; [|left; exists a; exact H1].
      destruct (A4 j Hj) as [[x X]|X]; [|right; exact X]. left. exists x. rewrite H2; [exact X|]. intros ->. congruence.
    + intros x y j Hj Hj'. destruct (N.eq_dec x a) as [->|Hxa], (N.eq_dec y a) as [->|Hya]; trivial.
      * exfalso. rewrite H2 in Hj' by exact Hya. apply N1. rewrite H1 in Hj. injection Hj as ->. apply (A3 y j Hj').
      * exfalso. rewrite H2 in Hj by exact Hxa. apply N1. rewrite H1 in Hj'. injection Hj' as ->. apply (A3 x j Hj).
      * rewrite H2 in Hj, Hj' by assumption. eapply A5; eassumption.
  - assert (S : forall x j, held u' x = Some j -> x <> a /\ held u x = Some j).
    { intros x j Hj. destruct (N.eq_dec x a) as [->|Hxa]; [congruence|]. rewrite <- H2 by exact Hxa. auto. }
    destruct (A3 a k H0) as [B1 B2]. split; [|split; [|split; [|split]]].
    + apply NoDup_rev in A1. rewrite <- (rev_involutive (closes (trace h) ++ [k])). apply NoDup_rev. rewrite rev_app_distr. constructor; [|exact A1].
      intros X. apply in_rev in X. contradiction.
    + intros j Hj. apply in_app_iff in Hj as [Hj|[<-|[]]]; [apply A2; exact Hj|exact B1].
    + intros x j Hj. destruct (S x j Hj) as [Hxa Hj']. destruct (A3 x j Hj') as [X Y]. split; [exact X|]. intros Z.
      apply in_app_iff in Z as [Z|[<-|[]]]; [contradiction|]. apply Hxa. eapply A5; eassumption.
    + intros j Hj. destruct (A4 j Hj) as [[x X]|X]; [|right; apply in_or_app; left; exact X].
      destruct (N.eq_dec x a) as [->|Hxa]; [right; apply in_or_app; right; left; congruence|left; exists x; rewrite H2; assumption].
    + intros x y j Hj Hj'. apply S in Hj as [_ Hj]. apply S in Hj' as [_ Hj']. eapply A5; eassumption.
Qed.

(** * The lock *)
Lemma lock_app a b held : lock_state held (a ++ b) = match lock_state held a with Some x => lock_state x b | None => None end.
Proof.
  revert held; induction a as [|e a IH]; intros held; [reflexivity|]. cbn [app lock_state]. destruct (ev_op e), held; cbn; try reflexivity; apply IH.
Qed.
Lemma lock_lookups p els infos held : lock_state held (lookups p els infos) = Some held.
Proof. revert p infos; induction els as [|e els IH]; intros p infos; [reflexivity|]. destruct infos; [reflexivity|]. cbn. apply IH. Qed.
Theorem lock_discipline c m u tr r u' : exec (method c m) u tr r u' -> (forall p, m <> MTattach p) -> disciplined tr.
Proof.
  intros H Hm. unfold disciplined. methods m H.
  all: try (exfalso; eapply Hm; reflexivity).
  all: try reflexivity.
  assert (F : forall x, lock_state false (find_ u x) = Some false) by reflexivity.
  wcases H; repeat (rewrite lock_app, ?F, ?lock_lookups); try reflexivity. destruct (a =? b); reflexivity.
Qed.

From Verif Require Import Base Listener ListenerSpec.
From Coq Require Import Permutation.

(** * Back-off *)
Lemma delays k : forall j d rest, d = (match j with O => 0 | _ => backoff j end) ->
  accept_loop d (repeat ATemp k ++ rest)
  = let (a, r) := accept_loop (match (j + k)%nat with O => 0 | _ => backoff (j + k) end) rest in
    (map (fun i => Sleep (backoff i)) (seq (S j) k) ++ a, r).
Proof.
  induction k as [|k IH]; intros j d rest ->; cbn [repeat app seq map].
  { rewrite Nat.add_0_r. destruct (accept_loop _ rest). reflexivity. }
  cbn [accept_loop].
  assert (E : (let t := if match j with O => 0 | S _ => backoff j end =? 0 then 5000000 else match j with O => 0 | S _ => backoff j end * 2 in
               if 1000000000 <? t then 1000000000 else t) = backoff (S j)).
  { destruct j as [|j]; [reflexivity|]. cbv zeta. unfold backoff.
    replace (N.of_nat (S (S j)) - 1) with (N.succ (N.of_nat (S j) - 1)) by lia.
    rewrite N.pow_succ_r'. set (p := 2 ^ (N.of_nat (S j) - 1)).
    assert (0 < p) by (apply N.neq_0_lt_0, N.pow_nonzero; lia).
    destruct (N.eqb_spec (N.min (5000000 * p) 1000000000) 0); [lia|].
    destruct (N.ltb_spec 1000000000 (N.min (5000000 * p) 1000000000 * 2)); lia. }
  cbv zeta in E. rewrite E.
  rewrite (IH (S j)) by reflexivity. rewrite Nat.add_succ_r. cbn [Nat.add].
  destruct (accept_loop _ rest). reflexivity.
Qed.
Lemma calm_prefix pre : no_perm pre -> calm pre -> forall d rest, (pre = [] -> d = 0) ->
  exists acts, accept_loop d (pre ++ rest) = (let (a, r) := accept_loop 0 rest in (acts ++ a, r)) /\
               accept_loop d pre = (acts, None).
Proof.
  intros Hp Hc. revert Hp. induction pre as [|a pre IH]; intros Hp d rest Hd.
  { rewrite Hd by reflexivity. exists []. split; [|reflexivity]. cbn [app]. destruct (accept_loop 0 rest). reflexivity. }
  inversion Hp as [|? ? Ha Hp']; subst. cbn [app accept_loop].
  assert (Hcc : forall d', (pre = [] -> d' = 0) -> exists acts,
      accept_loop d' (pre ++ rest) = (let (a, r) := accept_loop 0 rest in (acts ++ a, r)) /\ accept_loop d' pre = (acts, None)).
  { intros d' Hd'. destruct pre as [|b pre]; [|apply IH; try assumption].
    - rewrite Hd' by reflexivity. exists []. split; [|reflexivity]. cbn [app]. destruct (accept_loop 0 rest). reflexivity.
    - right. destruct Hc as [X|(p & c & X)]; [discriminate|]. destruct p as [|x p]; [discriminate|]. injection X as _ ->. eauto. }
  destruct a as [c| |e]; [| |contradiction].
  - destruct (Hcc 0) as (acts & -> & ->); [reflexivity|]. exists (Start c :: acts). split; [|reflexivity].
    destruct (accept_loop 0 rest). reflexivity.
  - cbv zeta.
    match goal with |- context [accept_loop ?x (pre ++ rest)] => destruct (Hcc x) as (acts & -> & ->) end.
    + intros ->. destruct Hc as [X|(p & c & X)]; [discriminate|]. destruct p as [|x [|y p]]; discriminate.
    + eexists (Sleep _ :: acts). split; [|reflexivity]. destruct (accept_loop 0 rest). reflexivity.
Qed.
Lemma backoff_run pre k rest : no_perm pre -> calm pre ->
  exists acts, accept_loop 0 pre = (acts, None) /\
  (forall c, accept_loop 0 (pre ++ repeat ATemp k ++ AConn c :: rest)
     = let (a, r) := accept_loop 0 rest in (acts ++ map (fun i => Sleep (backoff i)) (seq 1 k) ++ Start c :: a, r)) /\
  (forall err, accept_loop 0 (pre ++ repeat ATemp k ++ APerm err :: rest)
     = (acts ++ map (fun i => Sleep (backoff i)) (seq 1 k), Some err)) /\
  accept_loop 0 (pre ++ repeat ATemp k) = (acts ++ map (fun i => Sleep (backoff i)) (seq 1 k), None).
Proof.
  intros Hp Hc.
  destruct (calm_prefix pre Hp Hc 0 [] (fun _ => eq_refl)) as (acts & _ & E).
  exists acts. split; [exact E|].
  assert (K : forall r, accept_loop 0 (pre ++ r) = let (a, x) := accept_loop 0 r in (acts ++ a, x)).
  { intros r. destruct (calm_prefix pre Hp Hc 0 r (fun _ => eq_refl)) as (acts2 & E1 & E2). rewrite E1. rewrite E in E2. injection E2 as <-. reflexivity. }
  split; [|split].
  - intros c. rewrite K, (delays k 0) by reflexivity. cbn [accept_loop]. destruct (accept_loop 0 rest). reflexivity.
  - intros err. rewrite K, (delays k 0) by reflexivity. cbn [accept_loop]. rewrite app_nil_r. reflexivity.
  - rewrite K. rewrite <- (app_nil_r (repeat ATemp k)), (delays k 0) by reflexivity. cbn [accept_loop]. rewrite app_nil_r. reflexivity.
Qed.

(** * Listeners *)
Lemma close_loop_spec order res : forall m err, close_loop order res m err =
  (fold_left untrack order m, order, match err with Some e => Some e | None => first_error order res end).
Proof.
  induction order as [|ln order IH]; intros m err; cbn [close_loop fold_left first_error].
  { destruct err; reflexivity. }
  cbv zeta. rewrite IH. destruct err, (res ln); reflexivity.
Qed.
Lemma in_fold_untrack order : forall m x, In x (fold_left untrack order m) <-> In x m /\ ~ In x order.
Proof.
  induction order as [|a order IH]; intros m x; cbn [fold_left]; [tauto|].
  rewrite IH. unfold untrack. cbn [In]. split.
  - intros [H1 H2]. apply in_remove in H1. intuition congruence.
  - intros [H1 H2]. split; [apply in_in_remove; intuition congruence|tauto].
Qed.
Lemma fold_untrack_all order m : Permutation order m -> fold_left untrack order m = [].
Proof.
  intros P. destruct (fold_left untrack order m) as [|x l] eqn:E; [reflexivity|]. exfalso.
  assert (H : In x (fold_left untrack order m)) by (rewrite E; left; reflexivity).
  apply in_fold_untrack in H. destruct H as [H1 H2]. apply H2. eapply Permutation_in; [apply Permutation_sym, P|exact H1].
Qed.
Lemma NoDup_remove_nat m ln : NoDup m -> NoDup (remove Nat.eq_dec ln m).
Proof.
  induction 1 as [|x l Hn Hd IH]; cbn [remove]; [constructor|].
  destruct (Nat.eq_dec ln x); [exact IH|]. constructor; [|exact IH].
  intros H. apply in_remove in H. tauto.
Qed.
Lemma lrun_nodup h m : lrun h m -> NoDup m.
Proof.
  induction 1 as [|h m e m' _ IH S]; [constructor|]. destruct S as [ln|ln|order res m' cl err P E].
  - unfold track. destruct (in_dec _ _ _); [exact IH|constructor; assumption].
  - apply NoDup_remove_nat, IH.
  - rewrite close_loop_spec in E. injection E as <- _ _. rewrite fold_untrack_all by exact P. constructor.
Qed.
Lemma being_served_snoc h e ln :
  being_served (h ++ [e]) ln <-> e = LServe ln \/ (being_served h ln /\ e <> LStop ln /\ shuts e = false).
Proof.
  split.
  - intros (h1 & h2 & E & H1 & H2). destruct h2 as [|x h2] using rev_ind.
    + change (h1 ++ [LServe ln]) with (h1 ++ [LServe ln]) in E. apply app_inj_tail in E. left. apply E.
    + clear IHh2. right. rewrite app_comm_cons, app_assoc in E. apply app_inj_tail in E. destruct E as [-> ->].
      rewrite forallb_app in H2. apply andb_prop in H2. destruct H2 as [H2 H3]. cbn in H3. rewrite andb_true_r in H3.
      split; [|split; [|destruct (shuts x); [discriminate|reflexivity]]].
      * exists h1, h2. split; [reflexivity|]. split; [|exact H2]. intros H. apply H1, in_or_app. left. exact H.
      * intros ->. apply H1, in_or_app. right. left. reflexivity.
  - intros [->|((h1 & h2 & -> & H1 & H2) & Hne & Hs)].
    + exists h, []. split; [reflexivity|]. split; [intros []|reflexivity].
    + exists h1, (h2 ++ [e]). split; [rewrite <- app_assoc; reflexivity|]. split.
      * intros H. apply in_app_or in H. destruct H as [H|[H|[]]]; [exact (H1 H)|]. apply Hne, H.
      * rewrite forallb_app, H2. cbn. rewrite Hs. reflexivity.
Qed.
Lemma lrun_served h m : lrun h m -> forall ln, In ln m <-> being_served h ln.
Proof.
  induction 1 as [|h m e m' _ IH S]; intros ln.
  { split; [intros []|]. intros (h1 & h2 & E & _). destruct h1; discriminate. }
  rewrite being_served_snoc, <- IH. destruct S as [l|l|order res m' cl err P E].
  - unfold track. destruct (in_dec _ l m) as [Hi|Hi]; cbn [In]; split.
    + intros H. right. split; [exact H|]. split; [discriminate|reflexivity].
    + intros [X|[H _]]; [injection X as <-; exact Hi|exact H].
    + intros [->|H]; [left; reflexivity|right]. split; [exact H|]. split; [discriminate|reflexivity].
    + intros [X|[H _]]; [injection X as <-; left; reflexivity|right; exact H].
  - unfold untrack. split.
    + intros H. apply in_remove in H. right. split; [tauto|]. split; [|reflexivity]. intros X. injection X as ->. tauto.
    + intros [X|(H & Hne & _)]; [discriminate|]. apply in_in_remove; [|exact H]. intros ->. apply Hne. reflexivity.
  - rewrite close_loop_spec in E. injection E as <- _ _. rewrite fold_untrack_all by exact P. split; [intros []|].
    intros [X|(_ & _ & X)]; discriminate.
Qed.
Lemma shutdown_step h m order res cl err m' : lrun h m -> lstep m (LShutdown order res cl err) m' ->
  NoDup cl /\ (forall ln, In ln cl <-> being_served h ln) /\ m' = [] /\ err = first_error cl res.
Proof.
  intros R S. inversion S as [| |? ? ? ? ? P E]; subst. rewrite close_loop_spec in E. injection E as <- <- <-.
  split; [eapply Permutation_NoDup; [apply Permutation_sym, P|eapply lrun_nodup, R]|].
  split; [|split; [apply fold_untrack_all, P|reflexivity]].
  intros ln. rewrite <- (lrun_served h m R). split; apply Permutation_in; [exact P|apply Permutation_sym, P].
Qed.
Lemma shutdown_any h m order res : lrun h m -> Permutation order m ->
  exists cl err, lstep m (LShutdown order res cl err) [].
Proof.
  intros R P. exists order, (first_error order res). econstructor; [exact P|].
  rewrite close_loop_spec, fold_untrack_all by exact P. reflexivity.
Qed.
Lemma double_serve_refuted :
  ~ (forall h m order res cl err m' ln, lrun h m -> lstep m (LShutdown order res cl err) m' ->
       forallb (fun e => negb (shuts e)) h = true -> (0 < running h ln)%Z -> In ln cl).
Proof.
  intros H. specialize (H ([] ++ [LServe 1] ++ [LServe 1] ++ [LStop 1])%nat [] [] (fun _ => None) [] None [] 1%nat).
  apply H; [|econstructor; [constructor|reflexivity]|reflexivity|reflexivity].
  rewrite !app_assoc. econstructor; [econstructor; [econstructor; [constructor|]|]|]; apply ls_serve || apply ls_stop.
Qed.

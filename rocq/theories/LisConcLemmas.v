(** Invariants of the model of the Listener's goroutines. *)
From Verif Require Import Base Listener ListenerSpec ListenerLemmas LisConc.
From Coq Require Import Permutation.

Lemma own_snoc ls i e j : own (ls ++ [(i, e)]) j = if Nat.eqb i j then match e with EBegin t => [EBegin t] | _ => own ls j ++ [e] end else own ls j.
Proof. unfold own. rewrite fold_left_app. cbn [fold_left fst snd]. destruct (Nat.eqb i j); [|reflexivity]. destruct e; reflexivity. Qed.
Lemma history_pre ls : forall p h, fst (fold_left (fun a (x : nat * ev) => (fst a ++ [x], if is_unlock (snd x) then snd a ++ section (own (fst a) (fst x)) else snd a)) ls (p, h)) = p ++ ls.
Proof. induction ls as [|x ls IH]; intros p h; cbn [fold_left fst]; [now rewrite app_nil_r|]. rewrite IH, <- app_assoc. reflexivity. Qed.
Lemma history_snoc ls i e : history (ls ++ [(i, e)]) = if is_unlock e then history ls ++ section (own ls i) else history ls.
Proof. unfold history. rewrite fold_left_app. cbn [fold_left fst snd]. rewrite history_pre. destruct (is_unlock e); reflexivity. Qed.

(** What a goroutine has done, by its position. *)
Definition served (ln : N) (b : list ev) : list ev := EBegin (TServe ln) :: ELock :: EUnlock :: b.
Definition after (b : list ev) (d : N) (a : list action) : Prop := forall r, accept_loop 0 (outcomes b ++ r) = let (a', x) := accept_loop d r in (a ++ a', x).
Definition fails (b : list ev) (e : bytes) : Prop := accept_loop 0 (outcomes b) = (acts b, Some e).
Definition err_of_closes (l : list ev) : option bytes := first_error (map fst (closes l)) (res_of (closes l)).
Definition looks (p : pos) (l : list ev) : Prop :=
  match p with
  | AddWait ln => l = [EBegin (TServe ln)]
  | Adding ln => l = [EBegin (TServe ln); ELock]
  | Waiting ln d => exists b, l = served ln b /\ Forall (in_loop ln) b /\ after b d (acts b)
  | Sleeping ln d => exists b, l = served ln b /\ Forall (in_loop ln) b /\ after b d (acts b ++ [Sleep d])
  | Starting ln c => exists b, l = served ln b /\ Forall (in_loop ln) b /\ after b 0 (acts b ++ [Start c])
  | DelWait ln e => exists b, l = served ln b /\ Forall (in_loop ln) b /\ fails b e
  | Deleting ln e => exists b, l = served ln b ++ [ELock] /\ Forall (in_loop ln) b /\ fails b e
  | Closing ln e => exists b, l = served ln b ++ [ELock; EUnlock] /\ Forall (in_loop ln) b /\ fails b e
  | ShutWait => l = [EBegin TShutdown]
  | Shutting err => exists cs, l = EBegin TShutdown :: ELock :: cs /\ Forall is_close cs /\ err = err_of_closes cs
  | Ending r => (exists ln b c e, l = served ln b ++ [ELock; EUnlock; EClose ln c] /\ Forall (in_loop ln) b /\ fails b e /\ r = Some e) \/
                (exists cs, l = EBegin TShutdown :: ELock :: cs ++ [EUnlock] /\ Forall is_close cs /\ r = err_of_closes cs)
  end.
Definition inside (p : pos) : bool := match p with Adding _ | Deleting _ _ | Shutting _ => true | _ => false end.
Definition set_in (ls : list (nat * ev)) (x : mstate) (S0 : list nat) : Prop :=
  match ms_holder x with
  | Some i => match ms_pos x i with Some (Shutting _) => Permutation (map fst (closes (own ls i)) ++ ms_set x) S0 | _ => ms_set x = S0 end
  | None => ms_set x = S0
  end.
Definition inv (ls : list (nat * ev)) (x : mstate) : Prop :=
  (forall i p, ms_pos x i = Some p -> looks p (own ls i)) /\
  (forall i, ms_holder x = Some i <-> exists p, ms_pos x i = Some p /\ inside p = true) /\
  exists S0, lrun (history ls) S0 /\ set_in ls x S0.

Lemma outcomes_app a b : outcomes (a ++ b) = outcomes a ++ outcomes b. Proof. apply flat_map_app. Qed.
Lemma acts_app a b : acts (a ++ b) = acts a ++ acts b. Proof. apply flat_map_app. Qed.
Lemma closes_app a b : closes (a ++ b) = closes a ++ closes b. Proof. apply flat_map_app. Qed.
Lemma res_of_app cl cl' n : res_of (cl ++ cl') n = if in_dec Nat.eq_dec n (map fst cl) then res_of cl n else res_of cl' n.
Proof.
  induction cl as [|[m r] cl IH]; cbn [app res_of map fst]; [destruct in_dec as [[]|]; reflexivity|]. destruct (Nat.eqb_spec m n) as [->|Hn].
  - destruct (in_dec Nat.eq_dec n (n :: map fst cl)) as [|H]; [reflexivity|]. destruct H. left. reflexivity.
  - rewrite IH. destruct in_dec as [a|a], in_dec as [b|b]; try reflexivity.
    + destruct b. right. exact a.
    + destruct b; [congruence|contradiction].
Qed.
Lemma first_error_ext o res res' : (forall n, In n o -> res n = res' n) -> first_error o res = first_error o res'.
Proof. induction o as [|n o IH]; intros H; cbn [first_error]; [reflexivity|]. rewrite (H n) by (left; reflexivity). destruct (res' n); [reflexivity|]. apply IH. intros. apply H. right. assumption. Qed.
Lemma first_error_snoc o n res : first_error (o ++ [n]) res = match first_error o res with Some e => Some e | None => res n end.
Proof. induction o as [|m o IH]; cbn [app first_error]; [destruct (res n); reflexivity|]. destruct (res m); [reflexivity|exact IH]. Qed.
Lemma err_snoc cs ln r : ~ In (N.to_nat ln) (map fst (closes cs)) -> err_of_closes (cs ++ [EClose ln r]) = first_of (err_of_closes cs) r.
Proof.
  intros H. unfold err_of_closes. rewrite closes_app, map_app. cbn [closes flat_map app map fst]. rewrite first_error_snoc.
  rewrite (first_error_ext (map fst (closes cs)) _ (res_of (closes cs))).
  - rewrite res_of_app. destruct in_dec as [|]; [contradiction|]. cbn. rewrite Nat.eqb_refl. unfold first_of. destruct (first_error _ _), r; reflexivity.
  - intros n Hn. rewrite res_of_app. destruct in_dec; [reflexivity|contradiction].
Qed.
Lemma in_loop_own ln l e : in_loop ln e -> (match e with EBegin t => [EBegin t] | _ => l ++ [e] end) = l ++ [e].
Proof. destruct e; cbn; tauto. Qed.
Lemma served_snoc ln b l : served ln b ++ l = served ln (b ++ l). Proof. reflexivity. Qed.

(** One goroutine moves. *)
Lemma looks_next st p e p' st' l : p_next st p e = Some (p', st') -> looks p l ->
  (forall ln r err, p = Shutting err -> e = EClose ln r -> ~ In (N.to_nat ln) (map fst (closes l))) -> looks p' (l ++ [e]).
Proof.
  intros Hn Hl Hf. destruct p; destruct e; cbn [p_next] in Hn; try discriminate.
  - injection Hn as <- _. cbn in Hl |- *. subst l. reflexivity.
  - injection Hn as <- _. cbn in Hl |- *. subst l. exists []. split; [reflexivity|]. split; [constructor|]. intros r. cbn. destruct (accept_loop 0 r). reflexivity.
  - destruct (N.eqb_spec ln ln0) as [<-|]; [|discriminate]. injection Hn as <- _. destruct Hl as (b & -> & Hb & Ha). assert (Hb' : Forall (in_loop ln) (b ++ [EAccept ln r])) by (apply Forall_app; split; [exact Hb|constructor; [reflexivity|constructor]]).
    destruct r as [c| |e]; cbn [looks]; eexists (b ++ [_]).
    all: (split; [reflexivity|]; split; [exact Hb'|]).
    + intros r. rewrite outcomes_app, acts_app, <- app_assoc, Ha. cbn. destruct (accept_loop 0 r). rewrite app_nil_r, <- app_assoc. reflexivity.
    + intros r. rewrite outcomes_app, acts_app, <- app_assoc, Ha. cbn. fold (next_delay d). unfold next_delay. cbv zeta. destruct (accept_loop _ r). rewrite app_nil_r, <- app_assoc. reflexivity.
    + unfold fails. rewrite outcomes_app, acts_app, Ha. reflexivity.
  - destruct (N.eqb_spec d ns) as [<-|]; [|discriminate]. injection Hn as <- _. destruct Hl as (b & -> & Hb & Ha). exists (b ++ [ESleep d]). split; [reflexivity|].
    split; [apply Forall_app; split; [exact Hb|constructor; [exact I|constructor]]|]. intros r. rewrite outcomes_app, acts_app. cbn. rewrite app_nil_r. apply Ha.
  - destruct (N.eqb_spec c c0) as [<-|]; [|discriminate]. injection Hn as <- _. destruct Hl as (b & -> & Hb & Ha). exists (b ++ [EStart c]). split; [reflexivity|].
    split; [apply Forall_app; split; [exact Hb|constructor; [exact I|constructor]]|]. intros r. rewrite outcomes_app, acts_app. cbn. rewrite app_nil_r. apply Ha.
  - injection Hn as <- _. destruct Hl as (b & -> & Hb & Ha). exists b. auto.
  - injection Hn as <- _. destruct Hl as (b & -> & Hb & Ha). exists b. rewrite <- app_assoc. auto.
  - destruct (N.eqb_spec ln ln0) as [<-|]; [|discriminate]. injection Hn as <- _. destruct Hl as (b & -> & Hb & Ha). left. exists ln, b, r, e0. rewrite <- app_assoc. auto.
  - injection Hn as <- _. cbn in Hl |- *. subst l. exists []. split; [reflexivity|]. split; [constructor|reflexivity].
  - destruct st; [|discriminate]. injection Hn as <- _. destruct Hl as (cs & -> & Hc & ->). right. exists cs. auto.
  - destruct in_dec; [|discriminate]. injection Hn as <- _. destruct Hl as (cs & -> & Hc & ->). exists (cs ++ [EClose ln r]). split; [reflexivity|]. split; [apply Forall_app; split; [exact Hc|constructor; [exact I|constructor]]|].
    symmetry. apply err_snoc. exact (Hf ln r _ eq_refl eq_refl).
Qed.
Lemma set_same {A} (f : nat -> option A) i v : set_at f i v i = v. Proof. unfold set_at. rewrite Nat.eqb_refl. reflexivity. Qed.
Lemma set_other {A} (f : nat -> option A) i j v : j <> i -> set_at f i v j = f j. Proof. unfold set_at. intros H. destruct (Nat.eqb_spec j i); [contradiction|reflexivity]. Qed.
Lemma not_begin st p e p' st' l : p_next st p e = Some (p', st') -> match e with EBegin t => [EBegin t] | _ => l ++ [e] end = l ++ [e].
Proof. destruct p, e; cbn; try discriminate; reflexivity. Qed.
(** Only what holds l.mu changes the set, and only Shutdown does so before it releases it. *)
Lemma next_inside st p e p' st' : p_next st p e = Some (p', st') ->
  match e with
  | ELock => inside p = false /\ inside p' = true /\ st' = st
  | EUnlock => inside p = true /\ inside p' = false
  | _ => inside p' = inside p /\ (inside p = false -> st' = st)
  end.
Proof.
  destruct p, e; cbn [p_next]; try discriminate; repeat match goal with |- (if ?b then _ else _) = _ -> _ => destruct b; try discriminate | |- (match ?b with _ => _ end) = _ -> _ => destruct b; try discriminate end;
    intros [= <- <-]; cbn; try (destruct r; cbn); split; try reflexivity; try split; try reflexivity; try discriminate.
Qed.
Lemma nodup_right {A} (a b : list A) : NoDup (a ++ b) -> NoDup b.
Proof. induction a as [|x a IH]; cbn; [auto|]. intros H. apply NoDup_cons_iff in H. tauto. Qed.
Lemma inv_step ls x l x' : inv ls x -> m_step x l x' -> inv (ls ++ [l]) x'.
Proof.
  intros (A & B & S0 & C1 & C2) Hs. destruct Hs as [i t Hp|i p p' st Hp Hh Hn|i p p' st Hp Hh Hn|i p e p' st Hp N1 N2 Hn Hset|i r Hp].
  - split; [|split].
    + intros j q Hq. cbn in Hq. rewrite own_snoc. destruct (Nat.eqb_spec i j) as [<-|Hij]; [rewrite set_same in Hq; injection Hq as <-; destruct t; reflexivity|]. rewrite set_other in Hq by auto. auto.
    + intros j. cbn. rewrite B. destruct (Nat.eq_dec j i) as [->|Hij]; [rewrite set_same, Hp; split; [intros (? & [=] & _)|intros (? & [= <-] & H); destruct t; discriminate]|rewrite set_other by exact Hij; tauto].
    + exists S0. rewrite history_snoc. split; [exact C1|]. unfold set_in in *. cbn. destruct (ms_holder x) as [j|] eqn:E; [|exact C2]. destruct (Nat.eq_dec j i) as [->|Hij]; [destruct (proj1 (B i) ltac:(first [exact E|reflexivity])) as (? & E1 & _); congruence|].
      rewrite set_other, own_snoc by exact Hij. destruct (Nat.eqb_spec i j); [congruence|exact C2].
  - pose proof (next_inside _ _ _ _ _ Hn) as (I1 & I2 & ->). split; [|split].
    + intros j q Hq. cbn in Hq. rewrite own_snoc. destruct (Nat.eqb_spec i j) as [<-|Hij]; [rewrite set_same in Hq; injection Hq as <-|rewrite set_other in Hq by auto; auto].
      eapply looks_next; [exact Hn|auto|discriminate].
    + intros j. cbn. destruct (Nat.eq_dec j i) as [->|Hij]; [rewrite set_same; split; eauto|]. rewrite set_other by exact Hij. split; [congruence|]. intros H. apply B in H. congruence.
    + exists S0. rewrite history_snoc. split; [exact C1|]. unfold set_in in *. cbn. rewrite Hh in C2. rewrite set_same, own_snoc, Nat.eqb_refl. specialize (A _ _ Hp). destruct p; cbn [p_next] in Hn; try discriminate Hn; injection Hn as <-; try exact C2.
      cbn in A. rewrite A. cbn. rewrite C2. reflexivity.
  - pose proof (next_inside _ _ _ _ _ Hn) as (I1 & I2). split; [|split].
    + intros j q Hq. cbn in Hq. rewrite own_snoc. destruct (Nat.eqb_spec i j) as [<-|Hij]; [rewrite set_same in Hq; injection Hq as <-|rewrite set_other in Hq by auto; auto].
      eapply looks_next; [exact Hn|auto|discriminate].
    + intros j. cbn. split; [discriminate|]. intros (q & Hq & Hi). destruct (Nat.eq_dec j i) as [->|Hij]; [rewrite set_same in Hq; injection Hq as <-; congruence|]. rewrite set_other in Hq by exact Hij.
      assert (ms_holder x = Some j) by (apply B; eauto). congruence.
    + rewrite history_snoc. cbn [is_unlock]. unfold set_in in C2. rewrite Hh, Hp in C2. specialize (A _ _ Hp). unfold set_in. cbn.
      destruct p; try discriminate I1; cbn [p_next looks] in Hn, A.
      * injection Hn as <- <-. exists (track (ms_set x) (N.to_nat ln)). split; [|reflexivity]. rewrite A. cbn. eapply lr_snoc; [exact C1|]. rewrite C2. constructor.
      * injection Hn as <- <-. exists (untrack (ms_set x) (N.to_nat ln)). split; [|reflexivity]. destruct A as (b & -> & _). cbn. eapply lr_snoc; [exact C1|]. rewrite C2. constructor.
      * destruct (ms_set x) eqn:Em; [|discriminate]. injection Hn as <- <-. exists []. split; [|reflexivity]. destruct A as (cs & A & _ & _). rewrite A in *. cbn [section closes flat_map app] in *. fold (closes cs) in *.
        rewrite app_nil_r in C2. eapply lr_snoc; [exact C1|]. econstructor; [exact C2|]. rewrite close_loop_spec, fold_untrack_all by exact C2. reflexivity.
  - assert (Hst : ms_holder x <> Some i -> inside p = false) by (intros H; destruct (inside p) eqn:E; [|reflexivity]; destruct H; apply B; eauto).
    pose proof (next_inside _ _ _ _ _ Hn) as I1. assert (I2 : inside p' = inside p /\ (inside p = false -> st = ms_set x)) by (destruct e; tauto). clear I1. destruct I2 as [I1 I2].
    assert (Hu : is_unlock e = false) by (destruct e; try reflexivity; contradiction).
    assert (Hfr : forall ln r err, p = Shutting err -> e = EClose ln r -> ~ In (N.to_nat ln) (map fst (closes (own ls i))) /\ In (N.to_nat ln) (ms_set x) /\ st = untrack (ms_set x) (N.to_nat ln)).
    { intros ln r err -> ->. cbn [p_next] in Hn. destruct in_dec as [Hi|]; [|discriminate]. injection Hn as <- <-. split; [|auto]. assert (ms_holder x = Some i) as Hh by (apply B; eauto). unfold set_in in C2. rewrite Hh, Hp in C2.
      pose proof (lrun_nodup _ _ C1) as Hd. apply (Permutation_NoDup (Permutation_sym C2)) in Hd. intros Hc. apply in_split in Hc as (l1 & l2 & Hc). rewrite Hc in Hd.
      rewrite <- app_assoc in Hd. cbn [app] in Hd. apply NoDup_remove_2 in Hd. apply Hd. rewrite !in_app_iff. auto. }
    split; [|split].
    + intros j q Hq. cbn in Hq. rewrite own_snoc. destruct (Nat.eqb_spec i j) as [<-|Hij]; [rewrite set_same in Hq; injection Hq as <-|rewrite set_other in Hq by auto; auto].
      rewrite (not_begin _ _ _ _ _ _ Hn). eapply looks_next; [exact Hn|auto|]. intros ln r err E1 E2. exact (proj1 (Hfr ln r err E1 E2)).
    + intros j. cbn. rewrite B. destruct (Nat.eq_dec j i) as [->|Hij]; [rewrite set_same, Hp; split; intros (q & [= <-] & H); eexists; split; try reflexivity; congruence|rewrite set_other by exact Hij; tauto].
    + exists S0. rewrite history_snoc, Hu. split; [exact C1|]. unfold set_in in *. cbn. destruct (ms_holder x) as [j|] eqn:E.
      * destruct (Nat.eq_dec j i) as [->|Hij].
        -- rewrite set_same, own_snoc, Nat.eqb_refl, (not_begin _ _ _ _ _ _ Hn). rewrite Hp in C2. assert (Hi : inside p = true) by (destruct (proj1 (B i) ltac:(first [exact E|reflexivity])) as (q & E1 & H); congruence).
           destruct p; try discriminate Hi; destruct e; cbn [p_next] in Hn; try discriminate Hn; try contradiction. destruct (Hfr _ _ _ eq_refl eq_refl) as (F1 & F2 & F3). destruct in_dec; [|discriminate]. injection Hn as <- <-.
           rewrite closes_app, map_app, <- app_assoc. cbn. rewrite <- C2. apply Permutation_app_head.
           apply in_split in F2 as (l1 & l2 & F2). pose proof (lrun_nodup _ _ C1) as Hd. apply (Permutation_NoDup (Permutation_sym C2)) in Hd. apply nodup_right in Hd. rewrite F2 in Hd |- *.
           unfold untrack. rewrite remove_app. cbn [remove]. destruct Nat.eq_dec; [|congruence]. pose proof (NoDup_remove_2 _ _ _ Hd) as Hx. rewrite in_app_iff in Hx. rewrite !notin_remove by tauto. apply Permutation_middle.
        -- rewrite set_other, own_snoc by exact Hij. destruct (Nat.eqb_spec i j); [congruence|]. rewrite I2 by (apply Hst; congruence). exact C2.
      * rewrite I2 by (apply Hst; discriminate). exact C2.
  - split; [|split].
    + intros j q Hq. cbn in Hq. rewrite own_snoc. destruct (Nat.eqb_spec i j) as [<-|Hij]; [rewrite set_same in Hq; discriminate|]. rewrite set_other in Hq by auto. auto.
    + intros j. cbn. rewrite B. destruct (Nat.eq_dec j i) as [->|Hij]; [rewrite set_same, Hp; split; [intros (? & [= <-] & H); discriminate|intros (? & [=] & _)]|rewrite set_other by exact Hij; tauto].
    + exists S0. rewrite history_snoc. split; [exact C1|]. unfold set_in in *. cbn. destruct (ms_holder x) as [j|] eqn:E; [|exact C2]. destruct (Nat.eq_dec j i) as [->|Hij]; [destruct (proj1 (B i) ltac:(first [exact E|reflexivity])) as (? & E1 & H); rewrite Hp in E1; injection E1 as <-; discriminate|].
      rewrite set_other, own_snoc by exact Hij. destruct (Nat.eqb_spec i j); [congruence|exact C2].
Qed.
Lemma inv_runs ls x : m_runs ls x -> inv ls x.
Proof.
  induction 1 as [|ls x l x' _ IH Hs]; [|eapply inv_step; eassumption].
  split; [discriminate|]. split; [intros i; split; [discriminate|intros (? & [=] & _)]|]. exists []. split; constructor.
Qed.

(** * Executions in two parts *)
Inductive path (x : mstate) : list (nat * ev) -> mstate -> Prop :=
| pa_nil : path x [] x
| pa_snoc ls x1 l x2 : path x ls x1 -> m_step x1 l x2 -> path x (ls ++ [l]) x2.
Lemma runs_app ls1 : forall ls2 x, m_runs (ls1 ++ ls2) x -> exists x1, m_runs ls1 x1 /\ path x1 ls2 x.
Proof.
  induction ls2 as [|l ls2 IH] using rev_ind; intros x R; [rewrite app_nil_r in R; exists x; split; [exact R|constructor]|].
  rewrite app_assoc in R. remember ((ls1 ++ ls2) ++ [l]) as L eqn:E. destruct R as [|L' y l' y' R Hs]; [destruct (ls1 ++ ls2); discriminate|]. apply app_inj_tail in E as [-> ->].
  destruct (IH _ R) as (x1 & A & B). exists x1. split; [exact A|]. eapply pa_snoc; eassumption.
Qed.
Lemma runs_last ls l x : m_runs (ls ++ [l]) x -> exists x1, m_runs ls x1 /\ m_step x1 l x.
Proof.
  intros R. remember (ls ++ [l]) as L eqn:E. destruct R as [|L' y l' y' R Hs]; [destruct ls; discriminate|]. apply app_inj_tail in E as [-> ->]. eauto.
Qed.
Lemma lock_kept x ls x' i : path x ls x' -> ms_holder x = Some i -> ~ In (i, EUnlock) ls -> ms_holder x' = Some i.
Proof.
  intros H Hh. induction H as [|ls x1 l x2 _ IH Hs]; intros Hn; [exact Hh|]. rewrite in_app_iff in Hn. assert (E : ms_holder x1 = Some i) by (apply IH; tauto).
  destruct Hs as [j t Hp|j p p' st Hp Hh' Hnx|j p p' st Hp Hh' Hnx|j p e p' st Hp N1 N2 Hnx Hset|j r Hp]; cbn; try exact E; [congruence|]. exfalso. apply Hn. right. left. congruence.
Qed.
Lemma held_from ls1 i ls2 l x : m_runs (ls1 ++ (i, ELock) :: ls2 ++ [l]) x -> ~ In (i, EUnlock) ls2 -> exists x1, m_runs (ls1 ++ (i, ELock) :: ls2) x1 /\ ms_holder x1 = Some i /\ m_step x1 l x.
Proof.
  intros R Hn. change (ls1 ++ (i, ELock) :: ls2 ++ [l]) with (ls1 ++ ((i, ELock) :: ls2) ++ [l]) in R. rewrite app_assoc in R. apply runs_last in R as (x1 & R & Hs). exists x1. split; [exact R|]. split; [|exact Hs].
  change ((i, ELock) :: ls2) with ([(i, ELock)] ++ ls2) in R. rewrite app_assoc in R. apply runs_app in R as (x0 & R & Hp). eapply lock_kept; [exact Hp| |exact Hn].
  apply runs_last in R as (y & _ & Hl). remember (i, ELock) as k eqn:Ek. destruct Hl; try (injection Ek as -> ->); try discriminate Ek; try contradiction. injection Ek as ->. reflexivity.
Qed.
Lemma mutex ls1 i ls2 j x : m_runs (ls1 ++ (i, ELock) :: ls2 ++ [(j, ELock)]) x -> In (i, EUnlock) ls2.
Proof.
  intros R. destruct (existsb (fun k => Nat.eqb (fst k) i && is_unlock (snd k)) ls2) eqn:Ex.
  { apply existsb_exists in Ex as ((j' & e) & Hi & Hb). apply andb_prop in Hb as [Hb1 Hb2]. apply Nat.eqb_eq in Hb1. cbn in *. subst j'. destruct e; try discriminate. exact Hi. }
  exfalso. assert (H : ~ In (i, EUnlock) ls2) by (intros Hi; rewrite (proj2 (existsb_exists _ _)) in Ex; [discriminate|]; exists (i, EUnlock); split; [exact Hi|]; cbn; rewrite Nat.eqb_refl; reflexivity).
  destruct (held_from _ _ _ _ _ R H) as (x1 & _ & Hh & Hs). remember (j, ELock) as k eqn:Ek. destruct Hs; try (injection Ek as -> ->); try discriminate Ek; try contradiction. congruence.
Qed.
Lemma held_only ls1 i ls2 e x : m_runs (ls1 ++ (i, ELock) :: ls2 ++ [(i, e)]) x -> ~ In (i, EUnlock) ls2 -> e = EUnlock \/ exists ln r, e = EClose ln r.
Proof.
  intros R H. destruct (held_from _ _ _ _ _ R H) as (x1 & R1 & Hh & Hs). destruct (inv_runs _ _ R1) as (_ & B & _). destruct (proj1 (B i) Hh) as (p & Hp & Hi).
  remember (i, e) as k eqn:Ek. destruct Hs as [j t Hp'|j q p' st Hp' Hh' Hnx|j q p' st Hp' Hh' Hnx|j q e' p' st Hp' N1 N2 Hnx Hset|j r Hp']; injection Ek as -> Ee; subst e; auto; try congruence.
  - rewrite Hp in Hp'. injection Hp' as <-. match type of Hnx with p_next _ _ ?e = _ => destruct p; try discriminate Hi; destruct e end; try discriminate Hnx; try contradiction. eauto.
  - rewrite Hp in Hp'. injection Hp' as ->. discriminate.
Qed.
Lemma end_looks ls i r x : m_runs (ls ++ [(i, EEnd r)]) x -> looks (Ending r) (own ls i).
Proof.
  intros R. apply runs_last in R as (x1 & R & Hs). destruct (inv_runs _ _ R) as (A & _). remember (i, EEnd r) as k eqn:Ek.
  destruct Hs as [j t Hp'|j q p' st Hp' Hh' Hnx|j q p' st Hp' Hh' Hnx|j q e' p' st Hp' N1 N2 Hnx Hset|j r' Hp']; injection Ek; intros; subst; try discriminate; [destruct q; discriminate|]. apply A. exact Hp'.
Qed.
Lemma serve_end ls i r x ln l : m_runs (ls ++ [(i, EEnd r)]) x -> own ls i = EBegin (TServe ln) :: l ->
  exists b c e, l = ELock :: EUnlock :: b ++ [ELock; EUnlock; EClose ln c] /\ r = Some e /\ Forall (in_loop ln) b /\ accept_loop 0 (outcomes b) = (acts b, Some e).
Proof.
  intros R E. apply end_looks in R. rewrite E in R. destruct R as [(ln' & b & c & e & R & A & B & ->)|(cs & R & _)]; [|discriminate]. injection R as <- ->. exists b, c, e. auto.
Qed.
Lemma shutdown_end ls i r x l : m_runs (ls ++ [(i, EEnd r)]) x -> own ls i = EBegin TShutdown :: l ->
  exists cs, l = ELock :: cs ++ [EUnlock] /\ Forall is_close cs /\ r = first_error (map fst (closes cs)) (res_of (closes cs)).
Proof.
  intros R E. apply end_looks in R. rewrite E in R. destruct R as [(ln' & b & c & e & R & A & B & ->)|(cs & R & A & ->)]; [discriminate|]. injection R as ->. exists cs. auto.
Qed.
Lemma shutdown_closes ls i x l : m_runs (ls ++ [(i, EUnlock)]) x -> own ls i = EBegin TShutdown :: l ->
  NoDup (map fst (closes l)) /\ forall n, In n (map fst (closes l)) <-> being_served (history ls) n.
Proof.
  intros R E. apply runs_last in R as (x1 & R & Hs). destruct (inv_runs _ _ R) as (A & B & S0 & C & D). remember (i, EUnlock) as k eqn:Ek.
  destruct Hs as [j t Hp'|j q p' st Hp' Hh' Hnx|j q p' st Hp' Hh' Hnx|j q e' p' st Hp' N1 N2 Hnx Hset|j r' Hp']; injection Ek; intros; subst; try discriminate; try contradiction.
  pose proof (A _ _ Hp') as L. unfold set_in in D. rewrite Hh', Hp', E in D. rewrite E in L. destruct q; try discriminate Hnx; cbn in L.
  - discriminate L.
  - destruct L as (b & L & _). discriminate L.
  - destruct (ms_set x1); [|discriminate]. cbn [closes flat_map app] in D. rewrite app_nil_r in D. fold (closes l) in D. split; [eapply Permutation_NoDup; [apply Permutation_sym, D|eapply lrun_nodup; exact C]|].
    intros n. rewrite <- (lrun_served _ _ C). split; apply Permutation_in; [exact D|apply Permutation_sym; exact D].
Qed.
Lemma history_runs ls x : m_runs ls x -> exists m, lrun (history ls) m.
Proof. intros R. destruct (inv_runs _ _ R) as (_ & _ & S0 & A & _). eauto. Qed.
Lemma set_free ls x : m_runs ls x -> ms_holder x = None -> forall n, In n (ms_set x) <-> being_served (history ls) n.
Proof. intros R H. destruct (inv_runs _ _ R) as (_ & _ & S0 & A & B). unfold set_in in B. rewrite H in B. subst S0. apply lrun_served. exact A. Qed.
(** A Serve that has not returned. *)
Lemma serving ls x i p ln l : m_runs ls x -> ms_pos x i = Some p -> own ls i = EBegin (TServe ln) :: l ->
  Forall (fun e => match e with EAccept ln' _ | EClose ln' _ => ln' = ln | _ => True end) l /\ exists a, fst (accept_loop 0 (outcomes l)) = acts l ++ a /\ (List.length a <= 1)%nat.
Proof.
  intros R Hp E. destruct (inv_runs _ _ R) as (A & _). specialize (A _ _ Hp). rewrite E in A.
  assert (W : forall b, Forall (in_loop ln) b -> Forall (fun e => match e with EAccept ln' _ | EClose ln' _ => ln' = ln | _ => True end) b) by (intros b; apply Forall_impl; intros []; cbn; tauto).
  assert (Aft : forall b d a, after b d a -> fst (accept_loop 0 (outcomes b)) = a) by (intros b d a H; specialize (H []); rewrite app_nil_r in H; rewrite H; apply app_nil_r).
  destruct p; cbn [looks] in A; try discriminate A.
  - injection A as -> ->. split; [constructor|]. exists []. auto.
  - injection A as -> ->. split; [repeat constructor|]. exists []. auto.
  - destruct A as (b & A & B & C). injection A as <- ->. split; [repeat constructor; auto|]. exists []. rewrite app_nil_r. split; [exact (Aft _ _ _ C)|cbn; lia].
  - destruct A as (b & A & B & C). injection A as <- ->. split; [repeat constructor; auto|]. exists [Sleep d]. split; [exact (Aft _ _ _ C)|cbn; lia].
  - destruct A as (b & A & B & C). injection A as <- ->. split; [repeat constructor; auto|]. exists [Start c]. split; [exact (Aft _ _ _ C)|cbn; lia].
  - destruct A as (b & A & B & C). injection A as <- ->. split; [repeat constructor; auto|]. exists []. rewrite app_nil_r. split; [change (fst (accept_loop 0 (outcomes b)) = acts b); rewrite C; reflexivity|cbn; lia].
  - destruct A as (b & A & B & C). injection A as <- ->. split; [repeat constructor; apply Forall_app; auto|]. exists []. rewrite app_nil_r. split; [|cbn; lia].
    change (fst (accept_loop 0 (outcomes (b ++ [ELock]))) = acts (b ++ [ELock])). rewrite outcomes_app, acts_app. cbn. rewrite !app_nil_r, C. reflexivity.
  - destruct A as (b & A & B & C). injection A as <- ->. split; [repeat constructor; apply Forall_app; auto|]. exists []. rewrite app_nil_r. split; [|cbn; lia].
    change (fst (accept_loop 0 (outcomes (b ++ [ELock; EUnlock]))) = acts (b ++ [ELock; EUnlock])). rewrite outcomes_app, acts_app. cbn. rewrite !app_nil_r, C. reflexivity.
  - destruct A as (cs & A & _). discriminate A.
  - destruct A as [(ln' & b & c & e & A & B & C & _)|(cs & A & _)]; [|discriminate A]. injection A as <- ->. split; [repeat constructor; apply Forall_app; auto|]. exists []. rewrite app_nil_r. split; [|cbn; lia].
    change (fst (accept_loop 0 (outcomes (b ++ [ELock; EUnlock; EClose ln c]))) = acts (b ++ [ELock; EUnlock; EClose ln c])). rewrite outcomes_app, acts_app. cbn. rewrite !app_nil_r, C. reflexivity.
Qed.

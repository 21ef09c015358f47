(** A logic for the goroutines of a Listener: what is known of memory while l.mu is held, and while it is not. *)
From Verif Require Import Base GoBuf GoSyntax Ufs GoRun GoFmt GoProg GoWp Listener ServerRun ServerRunLemmas LisConc LisRun.
From Verif Require ClientRun ListenerRun.

Notation know := (list (N * value)).
Definition knows (K : know) (s : M) : Prop := forall a v, In (a, v) K -> cells s a = Some v /\ a < free s.
(** Cells that no other goroutine knows. *)
Definition private (v : value) : Prop := exists t fs, v = VStruct t fs /\ t <> str "Listener".
Definition privates (K : know) : Prop := forall a v, In (a, v) K -> private v.
Definition tab_of (t : N -> option value) (S : list nat) : Prop := forall k, t k = if in_dec Nat.eq_dec (N.to_nat k) S then Some ListenerRun.v_empty else None.

Section Logic.
Context (Li : N) (is_net : bytes -> bool) (cr : value) (ad : bytes) (tra : value).
Notation LIB := (lib is_net).
Notation MU := (v_mu Li).
Definition v_l (mp : value) : value := v_listener cr ad tra mp.
(** What l.mu protects. *)
Definition guards (S : list nat) (K : know) : Prop :=
  (S = [] /\ K = [(Li, v_l VNil)]) \/ (exists a t, a <> Li /\ K = [(Li, v_l (VPtr [] a [])); (a, VMap ListenerRun.v_empty t)] /\ tab_of t S).
(** The next position of a goroutine that holds l.mu (the set being S) or does not. *)
Definition moves (h : option (list nat)) (p : pos) (e : ev) (p' : pos) (h' : option (list nat)) : Prop :=
  match h with
  | None => (forall S, p_next S p e = Some (p', S)) /\ h' = None
  | Some st => exists S', p_next st p e = Some (p', S') /\ h' = Some S'
  end.
Definition changed (K K' : know) (a : N) (v : value) : Prop := forall b w, In (b, w) K' -> (b = a /\ w = v) \/ (b <> a /\ In (b, w) K).
Notation judgement := (option (list nat) -> know -> pos -> machine -> Prop).
Inductive one (R : judgement) (h : option (list nat)) (K : know) (p : pos) (m : machine) : Prop :=
| o_quiet m' : quiet (step P m) = Some m' -> R h K p m' -> one R h K p m
| o_ret v r : step P m = Ret [v] -> err_of_v v = Some r -> p = Ending r -> h = None -> one R h K p m
| o_fixed f v m' : step P m = Ask (RLoad Li [SF f]) m' -> (forall mp, get_path [SF f] (v_l mp) = Some v) -> R h K p (resume m' [v]) -> one R h K p m
| o_load a q w v m' : step P m = Ask (RLoad a q) m' -> In (a, w) K -> get_path q w = Some v -> R h K p (resume m' [v]) -> one R h K p m
| o_lib r vs m' : step P m = Ask r m' -> (forall s, answer LIB r s = Answer vs s) -> match r with RExt _ _ | RChan _ => True | _ => False end -> R h K p (resume m' vs) -> one R h K p m
| o_new v m' : step P m = Ask (RNew v) m' -> private v -> (forall a, (forall b w, In (b, w) K -> b <> a) -> a <> Li -> R h ((a, v) :: K) p (resume m' [VPtr (type_of v) a []])) -> one R h K p m
| o_mapnew d m' : h <> None -> step P m = Ask (RMapNew d) m' ->
    (forall a, (forall b w, In (b, w) K -> b <> a) -> a <> Li -> R h ((a, VMap d (fun _ => None)) :: K) p (resume m' [VPtr [] a []])) -> one R h K p m
| o_store mp b m' K' : h <> None -> step P m = Ask (RStore Li [SF (str "listeners")] (VPtr [] b [])) m' -> In (Li, v_l mp) K -> changed K K' Li (v_l (VPtr [] b [])) -> R h K' p (resume m' []) -> one R h K p m
| o_set a d t k v m' K' : h <> None -> step P m = Ask (RMapSet a k v) m' -> In (a, VMap d t) K -> changed K K' a (VMap d (put_key t k (Some v))) -> R h K' p (resume m' []) -> one R h K p m
| o_del a d t k m' K' : h <> None -> step P m = Ask (RMapDel a k) m' -> In (a, VMap d t) K -> changed K K' a (VMap d (put_key t k None)) -> R h K' p (resume m' []) -> one R h K p m
| o_keys a d t m' : h <> None -> step P m = Ask (RMapKeys a) m' -> In (a, VMap d t) K ->
    (forall od, NoDup od -> (forall k, In k od <-> t k <> None) -> R h K p (resume m' [VList (map v_net od)])) -> (exists od, NoDup od /\ forall k, In k od <-> t k <> None) -> one R h K p m
| o_lock m' p' : h = None -> step P m = Ask (RExt (str "sync.Mutex.Lock") [MU]) m' -> (forall S, p_next S p ELock = Some (p', S)) ->
    (forall S K0, guards S K0 -> R (Some S) K0 p' (resume m' [])) -> one R h K p m
| o_unlock m' S p' S' K0 : h = Some S -> step P m = Ask (RExt (str "sync.Mutex.Unlock") [MU]) m' -> p_next S p EUnlock = Some (p', S') ->
    guards S' K0 -> incl K0 K -> R None [] p' (resume m' []) -> one R h K p m
| o_accept m' ln : step P m = Ask (RExt (str "net.Listener.Accept") [v_net ln]) m' -> (forall r, exists p' h', moves h p (EAccept ln r) p' h' /\ R h' K p' (resume m' (accept_v r))) -> one R h K p m
| o_close m' ln : step P m = Ask (RExt (str "net.Listener.Close") [v_net ln]) m' -> (forall r, exists p' h', moves h p (EClose ln r) p' h' /\ R h' K p' (resume m' [err_v r])) -> one R h K p m
| o_sleep m' w z p' h' : step P m = Ask (RExt (str "time.Sleep") [VI w z]) m' -> moves h p (ESleep (Z.to_N z)) p' h' -> R h' K p' (resume m' []) -> one R h K p m
| o_go m' t a v k c p' h' : step P m = Ask (RGo (FUser (str "conn.serve") [VPtr t a []]) []) m' -> In (a, v) K -> get_path [SF (str "rwc")] v = Some (VObj k c) ->
    moves h p (EStart c) p' h' -> R h' K p' (resume m' []) -> one R h K p m.

(** Loops: X is an invariant at their heads. *)
Context (X : pos -> machine -> Prop).
Inductive cwp : judgement :=
| c_loop p m : X p m -> cwp None [] p m
| c_weak h K K' p m : incl K' K -> cwp h K' p m -> cwp h K p m
| c_one h K p m : one cwp h K p m -> cwp h K p m.
Hypothesis HX : forall p m, X p m -> one cwp None [] p m.
Lemma unfold_cwp h K p m : cwp h K p m -> exists K', incl K' K /\ one cwp h K' p m.
Proof.
  induction 1 as [p m Hx|h K K' p m Hi H IH|h K p m H].
  - exists []. split; [intros ? []|auto].
  - destruct IH as (K2 & H1 & H2). exists K2. split; [eauto using incl_tran|exact H2].
  - exists K. split; [apply incl_refl|exact H].
Qed.

(** * Soundness *)
Definition held (x : mstate) (i : nat) : option (list nat) := match ms_holder x with Some j => if Nat.eqb j i then Some (ms_set x) else None | None => None end.
Definition good_at (x : mstate) (s : M) (i : nat) (o : option machine) : Prop :=
  match o, ms_pos x i with
  | Some m, Some p => exists K, knows K s /\ cwp (held x i) K p m /\ (held x i = None -> privates K)
  | None, None => held x i = None
  | _, _ => False
  end.
Definition good (x : mstate) (s : M) (g : goroutines) : Prop :=
  (exists mp, cells s Li = Some (v_l mp)) /\ Li < free s /\ rest s = ms_holder x /\
  (ms_holder x = None -> exists K0, guards (ms_set x) K0 /\ knows K0 s) /\ forall i, good_at x s i (g i).

Lemma knows_incl K K' s : incl K' K -> knows K s -> knows K' s.
Proof. intros H1 H2 a v H. apply H2, H1, H. Qed.
Lemma knows_same K s s' : cells s' = cells s -> free s' = free s -> knows K s -> knows K s'.
Proof. intros E1 E2 H a v Hi. rewrite E1, E2. apply H. exact Hi. Qed.
Lemma knows_new K s v : knows K s -> knows K (with_new s v).
Proof. intros H a w Hi. destruct (H a w Hi) as [A B]. cbn [with_new cells free]. rewrite put_other by lia. split; [exact A|lia]. Qed.
Lemma knows_new' K s v : knows K s -> knows ((free s, v) :: K) (with_new s v).
Proof. intros H a w [[= <- <-]|Hi]; [cbn; rewrite put_same; split; [reflexivity|lia]|]. exact (knows_new K s v H a w Hi). Qed.
Lemma knows_changed K K' s a v w : knows K s -> In (a, w) K -> changed K K' a v -> knows K' (with_cell s a v).
Proof.
  intros H Ha Hc b u Hb. cbn [with_cell cells free]. destruct (Hc _ _ Hb) as [[-> ->]|[Hn Hi]].
  - rewrite put_same. split; [reflexivity|]. destruct (H _ _ Ha). assumption.
  - rewrite put_other by assumption. apply H. exact Hi.
Qed.
(** Private cells are not those that l.mu protects. *)
Lemma private_kept K s a w v : knows K s -> privates K -> cells s a = Some w -> ((exists mp, w = v_l mp) \/ exists d t, w = VMap d t) -> knows K (with_cell s a v).
Proof.
  intros H Hp Ha Hw b u Hb. destruct (H _ _ Hb) as [A B]. cbn [with_cell cells free]. destruct (N.eq_dec b a) as [->|Hn]; [|rewrite put_other by assumption; auto].
  exfalso. rewrite Ha in A. injection A as ->. destruct (Hp _ _ Hb) as (t & fs & -> & Ht). destruct Hw as [(mp & E)|(d & t' & E)]; [|discriminate]. unfold v_l, v_listener in E. injection E as -> _. auto.
Qed.

Lemma others x x' s s' i g (p' : option pos) (m' : option machine) : (forall j, j <> i -> held x' j = held x j) ->
  (forall j K, j <> i -> knows K s -> (held x j = None -> privates K) -> knows K s') -> ms_pos x' = set_at (ms_pos x) i p' ->
  (forall j, good_at x s j (g j)) -> good_at x' s' i m' -> forall j, good_at x' s' j (set_at g i m' j).
Proof.
  intros Hh Hk Hp Hg Hi j. unfold set_at. destruct (Nat.eqb_spec j i) as [->|Hn]; [exact Hi|]. specialize (Hg j). unfold good_at in *.
  rewrite Hp. unfold set_at. destruct (Nat.eqb_spec j i); [contradiction|]. destruct (g j), (ms_pos x j); auto; [|rewrite Hh; auto].
  destruct Hg as (K & A & B & C). exists K. rewrite Hh by exact Hn. split; [eapply Hk; eauto|]. auto.
Qed.
Lemma held_self x i st : held x i = Some st -> ms_holder x = Some i /\ st = ms_set x.
Proof. unfold held. destruct (ms_holder x) as [j|]; [|discriminate]. destruct (Nat.eqb_spec j i); [|discriminate]. intros [= <-]. subst. auto. Qed.
Lemma held_not x i : held x i = None <-> ms_holder x <> Some i.
Proof. unfold held. destruct (ms_holder x) as [j|]; [|split; [discriminate|reflexivity]]. destruct (Nat.eqb_spec j i); split; try discriminate; try reflexivity; congruence. Qed.
Lemma held_other x i j : held x i <> None -> j <> i -> held x j = None.
Proof. intros H Hn. apply held_not. destruct (held x i) eqn:E; [|contradiction]. apply held_self in E as [-> _]. congruence. Qed.
(** Nothing was seen. *)
Lemma tau x s g i m' s' K p : good x s g -> ms_pos x i = Some p -> (exists mp, cells s' Li = Some (v_l mp)) -> Li < free s' -> rest s' = rest s ->
  (ms_holder x = None -> exists K0, guards (ms_set x) K0 /\ knows K0 s') ->
  (forall j K, j <> i -> knows K s -> (held x j = None -> privates K) -> knows K s') ->
  knows K s' -> cwp (held x i) K p m' -> (held x i = None -> privates K) -> good x s' (set_at g i (Some m')).
Proof.
  intros (G1 & G2 & G3 & G4 & G5) Hp H1 H2 H3 H4 H5 H6 H7 H8. split; [exact H1|]. split; [exact H2|]. split; [congruence|]. split; [exact H4|].
  intros j. unfold set_at. destruct (Nat.eqb_spec j i) as [->|Hn].
  - unfold good_at. rewrite Hp. exists K. auto.
  - specialize (G5 j). unfold good_at in *. destruct (g j), (ms_pos x j); auto. destruct G5 as (K' & A & B & C). exists K'. split; [eapply H5; eauto|]. auto.
Qed.
Definition seen (x : mstate) (l : list (nat * ev)) (x' : mstate) : Prop := (l = [] /\ x' = x) \/ exists e, l = [e] /\ m_step x e x'.
Lemma tau_new x s g i m' v K p : good x s g -> ms_pos x i = Some p -> knows K s -> (held x i = None -> privates ((free s, v) :: K)) ->
  cwp (held x i) ((free s, v) :: K) p m' -> good x (with_new s v) (set_at g i (Some m')).
Proof.
  intros G Hp Hk Hv H. pose proof G as (G1 & G2 & G3 & G4 & G5). eapply tau; try eassumption.
  - destruct G1 as (mp & G1). exists mp. cbn. rewrite put_other by lia. exact G1.
  - cbn. lia.
  - reflexivity.
  - intros Hh. destruct (G4 Hh) as (K0 & A & B). exists K0. split; [exact A|]. apply knows_new. exact B.
  - intros. apply knows_new. assumption.
  - apply knows_new'. exact Hk.
Qed.
Lemma tau_cell x s g i m' a w v K K' p : good x s g -> ms_pos x i = Some p -> held x i <> None -> knows K s -> In (a, w) K -> ((exists mp, w = v_l mp) \/ exists d t, w = VMap d t) ->
  changed K K' a v -> (a = Li -> exists mp, v = v_l mp) -> cwp (held x i) K' p m' -> good x (with_cell s a v) (set_at g i (Some m')).
Proof.
  intros G Hp Hh Hk Ha Hw Hc Hv H. pose proof G as (G1 & G2 & G3 & G4 & G5). eapply tau; try eassumption.
  - cbn. destruct (N.eq_dec Li a) as [<-|Hn]; [|rewrite put_other by assumption; exact G1]. rewrite put_same. destruct (Hv eq_refl) as (mp & ->). eauto.
  - reflexivity.
  - intros E. destruct (held x i) eqn:Eh; [|contradiction]. apply held_self in Eh as [Eh _]. congruence.
  - intros j K2 Hn Hk2 Hp2. eapply private_kept; [exact Hk2|apply Hp2; eapply held_other; eassumption|exact (proj1 (Hk _ _ Ha))|exact Hw].
  - eapply knows_changed; eassumption.
  - intros E. congruence.
Qed.
(** Something was seen. *)
Lemma act x s g i e p p' h' m' K : good x s g -> ms_pos x i = Some p -> e <> ELock -> e <> EUnlock -> knows K s -> (held x i = None -> privates K) ->
  moves (held x i) p e p' h' -> cwp h' K p' m' -> exists x', m_step x (i, e) x' /\ good x' s (set_at g i (Some m')).
Proof.
  intros G Hp N1 N2 Hk Hpr Hm H. pose proof G as (G1 & G2 & G3 & G4 & G5). unfold moves in Hm. destruct (held x i) as [st|] eqn:Eh.
  - destruct Hm as (S' & Hn & ->). pose proof (held_self _ _ _ Eh) as [Ej ->]. eexists. split; [eapply m_other; try eassumption; congruence|].
    split; [exact G1|]. split; [exact G2|]. split; [exact G3|]. split; [cbn; congruence|]. eapply (others x); try eassumption; try reflexivity.
    + intros j Hj. unfold held. cbn. rewrite Ej. destruct (Nat.eqb_spec i j); [congruence|reflexivity].
    + auto.
    + unfold good_at. cbn. unfold set_at. rewrite Nat.eqb_refl. exists K. unfold held. cbn. rewrite Ej, Nat.eqb_refl. split; [exact Hk|]. split; [exact H|discriminate].
  - destruct Hm as (Hn & ->). eexists. split; [eapply m_other; try eassumption; [apply Hn|auto]|].
    split; [exact G1|]. split; [exact G2|]. split; [exact G3|]. split; [exact G4|]. eapply (others x); try eassumption; try reflexivity.
    + auto.
    + unfold good_at. cbn. unfold set_at. rewrite Nat.eqb_refl. exists K. unfold held in *. cbn. rewrite Eh. auto.
Qed.
Hypothesis HB : forall t, cwp None [] (begins t) (begin Li t).
Lemma act_step x s g i m l m' s' : good x s g -> g i = Some m -> th_step Li is_net i m s l m' s' ->
  exists x', seen x (map (pair i) l) x' /\ good x' s' (set_at g i (Some m')).
Proof.
  intros G Hg Hs. pose proof G as (G1 & G2 & G3 & G4 & G5). pose proof (G5 i) as Gi. unfold good_at in Gi. rewrite Hg in Gi.
  destruct (ms_pos x i) as [p|] eqn:Hp; [|contradiction]. destruct Gi as (K0 & Hk & Hc & Hpr). apply unfold_cwp in Hc as (K & HK & Ho).
  apply (knows_incl _ K) in Hk; [|exact HK]. assert (Hpr' : held x i = None -> privates K) by (intros E a v Hi; exact (Hpr E a v (HK _ Hi))). clear Hpr K0 HK.
  assert (Keep : forall m2 K2, incl K2 K -> cwp (held x i) K2 p m2 -> good x s (set_at g i (Some m2))).
  { intros m2 K2 Hi H2. eapply (tau x s g i m2 s K2 p); auto. - eapply knows_incl; eassumption. - intros E a v Hv. exact (Hpr' E a v (Hi _ Hv)). }
  assert (Nil : forall y, good x s' y -> exists x', seen x (map (pair i) []) x' /\ good x' s' y) by (intros y Hy; exists x; split; [left; auto|exact Hy]).
  destruct Ho as [m1 E HR|v r E E1 E2 E3|f v m1 E E1 HR|a q w v m1 E E1 E2 HR|r vs m1 E E1 E2 HR|v m1 E E1 HR|d m1 E0 E HR|mp v m1 K' E0 E E1 E2 HR|a d t k v m1 K' E0 E E1 E2 HR
    |a d t k m1 K' E0 E E1 E2 HR|a d t m1 E0 E E1 HR E2|m1 p' E0 E E1 HR|m1 st p' S' K0 E0 E E1 E2 E3 HR|m1 ln E HR|m1 ln E HR|m1 w z p' h' E E1 HR|m1 t a v k c p' h' E E1 E2 E3 HR];
  destruct Hs as [m2 F|r2 m2 vs2 s2 F F1|a2 m2 d2 t2 od F F1 F2 F3|m2 F F1|m2 jj F F1|m2 ln2 r2 F|m2 ln2 r2 F|m2 w2 z2 F|m2 t3 a2 v2 k2 c2 F F1 F2];
  try (rewrite F in E; cbn in E; discriminate E); try (rewrite E in F; cbn in F; try discriminate F; first [injection F; intros; subst; clear F|idtac]); try (cbn in F1; discriminate F1).
  all: try (match goal with H : forall s : M, answer _ (RExt _ _) s = Answer _ _ |- _ => specialize (H s); cbn in H; discriminate H end).
  all: try contradiction.
  - apply Nil. eapply Keep; [apply incl_refl|exact HR].
  - destruct G1 as (mp & Gm). cbn [answer] in F1. rewrite Gm, E1 in F1. injection F1 as <- <-. apply Nil. eapply Keep; [apply incl_refl|exact HR].
  - cbn [answer] in F1. rewrite (proj1 (Hk _ _ E1)), E2 in F1. injection F1 as <- <-. apply Nil. eapply Keep; [apply incl_refl|exact HR].
  - rewrite E1 in F1. injection F1 as <- <-. apply Nil. eapply Keep; [apply incl_refl|exact HR].
  - cbn [answer] in F1. injection F1 as <- <-. apply Nil. eapply tau_new; try eassumption.
    + intros Eh a v' [[= <- <-]|Hi]; [exact E1|exact (Hpr' Eh _ _ Hi)].
    + apply HR; [intros b w Hb; destruct (Hk _ _ Hb); lia|lia].
  - cbn [answer] in F1. injection F1 as <- <-. apply Nil. eapply tau_new; try eassumption; [intros Eh; congruence|].
    apply HR; [intros b w Hb; destruct (Hk _ _ Hb); lia|lia].
  - destruct (Hk _ _ E1) as [A B]. cbn [answer] in F1. rewrite A in F1.
    change (Answer [] (with_cell s Li (v_l (VPtr [] v []))) = Answer vs2 s2) in F1. injection F1 as <- <-. apply Nil.
    eapply (tau_cell x s g i _ Li (v_l mp) (v_l (VPtr [] v [])) K K' p); try assumption; [left; eauto|]. intros Ea. eexists. reflexivity.
  - destruct (Hk _ _ E1) as [A B]. cbn [answer] in F1. rewrite A in F1. injection F1 as <- <-. apply Nil. eapply tau_cell; try eassumption; [right; eauto|].
    intros Ea. exfalso. rewrite Ea in A. destruct G1 as (mp & G1). rewrite G1 in A. discriminate A.
  - destruct (Hk _ _ E1) as [A B]. cbn [answer] in F1. rewrite A in F1. injection F1 as <- <-. apply Nil. eapply tau_cell; try eassumption; [right; eauto|].
    intros Ea. exfalso. rewrite Ea in A. destruct G1 as (mp & G1). rewrite G1 in A. discriminate A.
  - destruct (Hk _ _ E1) as [A B]. rewrite A in F1. injection F1 as <- <-. apply Nil. eapply Keep; [apply incl_refl|]. apply HR; assumption.
  - (* lock *)
    assert (Eh : ms_holder x = None) by congruence. destruct (G4 Eh) as (K0 & A & B).
    exists (mkMS (ms_set x) (Some i) (set_at (ms_pos x) i (Some p'))). split; [right; eexists; split; [reflexivity|]; eapply m_lock; eauto|].
    split; [exact G1|]. split; [exact G2|]. split; [reflexivity|]. split; [discriminate|]. eapply (others x); try reflexivity.
    + intros j Hj. unfold held. cbn. rewrite Eh. destruct (Nat.eqb_spec i j); [congruence|reflexivity].
    + intros j K2 _ H2 _. exact H2.
    + exact G5.
    + unfold good_at. cbn. unfold set_at. rewrite Nat.eqb_refl. exists K0. unfold held. cbn. split; [exact B|]. split; [apply HR; exact A|discriminate].
  - (* unlock *)
    pose proof (held_self _ _ _ E0) as [Eh ->].
    exists (mkMS S' None (set_at (ms_pos x) i (Some p'))). split; [right; eexists; split; [reflexivity|]; eapply m_unlock; eauto|].
    split; [exact G1|]. split; [exact G2|]. split; [reflexivity|]. split; [intros _; exists K0; split; [exact E2|eapply knows_incl; eassumption]|]. eapply (others x); try reflexivity.
    + intros j Hj. unfold held. cbn. rewrite Eh. destruct (Nat.eqb_spec i j); [congruence|reflexivity].
    + intros j K2 _ H2 _. exact H2.
    + exact G5.
    + unfold good_at. cbn. unfold set_at. rewrite Nat.eqb_refl. exists []. split; [intros ? ? []|]. split; [exact HR|]. intros _ ? ? [].
  - destruct (HR r2) as (p' & h' & Hm & H2). edestruct act as (x' & A & B); try eassumption; try discriminate. exists x'. split; [right; eexists; split; [reflexivity|exact A]|exact B].
  - destruct (HR r2) as (p' & h' & Hm & H2). edestruct act as (x' & A & B); try eassumption; try discriminate. exists x'. split; [right; eexists; split; [reflexivity|exact A]|exact B].
  - edestruct act as (x' & A & B); try exact HR; try eassumption; try discriminate. exists x'. split; [right; eexists; split; [reflexivity|exact A]|exact B].
  - destruct (Hk _ _ E1) as [A0 _]. rewrite A0 in F1. injection F1 as <-. rewrite E2 in F2. injection F2 as <- <-.
    edestruct act as (x' & A & B); try exact HR; try eassumption; try discriminate. exists x'. split; [right; eexists; split; [reflexivity|exact A]|exact B].
Qed.
Lemma run_step x s g l g' s' : good x s g -> t_step Li is_net g s l g' s' -> exists x', seen x l x' /\ good x' s' g'.
Proof.
  intros G Hs. destruct Hs as [i t Hg|i m l m' s' Hg Hs|i m v r Hg E E1].
  - pose proof G as (G1 & G2 & G3 & G4 & G5). pose proof (G5 i) as Gi. unfold good_at in Gi. rewrite Hg in Gi. destruct (ms_pos x i) as [p|] eqn:Hp; [contradiction|].
    eexists. split; [right; eexists; split; [reflexivity|]; apply m_begin; exact Hp|]. split; [exact G1|]. split; [exact G2|]. split; [exact G3|]. split; [exact G4|].
    eapply (others x); try reflexivity.
    + intros j K2 _ H2 _. exact H2.
    + exact G5.
    + unfold good_at. cbn. unfold set_at. rewrite Nat.eqb_refl. exists []. split; [intros ? ? []|]. split; [|intros _ ? ? []].
      unfold held in *. cbn. rewrite Gi. apply HB.
  - eapply act_step; eassumption.
  - pose proof G as (G1 & G2 & G3 & G4 & G5). pose proof (G5 i) as Gi. unfold good_at in Gi. rewrite Hg in Gi. destruct (ms_pos x i) as [p|] eqn:Hp; [|contradiction].
    destruct Gi as (K & Hk & Hc & Hpr). apply unfold_cwp in Hc as (K' & HK & Ho).
    assert (Ep : p = Ending r /\ held x i = None).
    { destruct Ho as [m1 F HR|v' r' F F1 F2 F3|? ? ? F|? ? ? ? ? F|? ? ? F|? ? F|? ? ? F|? ? ? ? ? F|? ? ? ? ? ? ? ? F|? ? ? ? ? ? ? F|? ? ? ? ? F|? ? ? F|? ? ? ? ? ? F|? ? F|? ? F|? ? ? ? ? F|? ? ? ? ? ? ? ? F]; rewrite E in F; try discriminate F.
      - injection F as <-. rewrite E1 in F1. injection F1 as <-. auto. }
    destruct Ep as [-> Eh]. eexists. split; [right; eexists; split; [reflexivity|]; apply m_end; exact Hp|]. split; [exact G1|]. split; [exact G2|]. split; [exact G3|]. split; [exact G4|].
    eapply (others x); try reflexivity.
    + intros j K2 _ H2 _. exact H2.
    + exact G5.
    + unfold good_at. cbn. unfold set_at. rewrite Nat.eqb_refl. exact Eh.
Qed.
End Logic.

(** Running the machine of GoRun.v in a memory of cells: what it asks of the memory is answered here, the rest by [outside]. *)
From Verif Require Import Base GoSyntax GoRun.

(** Cells by address, the next free address, everything else. *)
Record memory (T : Type) := mkMem { cells : N -> option value; free : N; rest : T }.
Arguments mkMem {T}. Arguments cells {T}. Arguments free {T}. Arguments rest {T}.
Definition put_cell (h : N -> option value) (a : N) (v : value) : N -> option value := fun x => if x =? a then Some v else h x.
Definition put_key (m : N -> option value) (k : N) (v : option value) : N -> option value := fun x => if x =? k then v else m x.
Definition with_cell {T} (s : memory T) (a : N) (v : value) : memory T := mkMem (put_cell (cells s) a v) (free s) (rest s).
Definition with_new {T} (s : memory T) (v : value) : memory T := mkMem (put_cell (cells s) (free s) v) (free s + 1) (rest s).
Definition with_rest {T} (s : memory T) (t : T) : memory T := mkMem (cells s) (free s) t.
(** The answer to a request; [Crash]: a run-time panic; [Exit]: the process ends; [NoAnswer]: not covered. *)
Inductive reply (T : Type) := Answer (vs : list value) (s : memory T) | Crash | Exit (s : memory T) | NoAnswer.
Arguments Answer {T}. Arguments Crash {T}. Arguments Exit {T}. Arguments NoAnswer {T}.
(** How a run ends. *)
Inductive ending := Returned (vs : list value) | Panicked | Exited.

Section Run.
Context {T : Type} (P : program) (outside : req -> memory T -> reply T).
Definition answer (r : req) (s : memory T) : reply T :=
  match r with
  | RNew v => Answer [VPtr (type_of v) (free s) []] (with_new s v)
  | RMapNew d => Answer [VPtr [] (free s) []] (with_new s (VMap d (fun _ => None)))
  | RLoad a p => match cells s a with Some v => match get_path p v with Some x => Answer [x] s | None => NoAnswer end | None => NoAnswer end
  | RStore a p v => match cells s a with Some w => match set_path p v w with Some w => Answer [] (with_cell s a w) | None => NoAnswer end | None => NoAnswer end
  | RMapGet a k =>
      match cells s a with
      | Some (VMap d m) => Answer (match m k with Some v => [v; VBool true] | None => [d; VBool false] end) s
      | _ => NoAnswer
      end
  | RMapSet a k v => match cells s a with Some (VMap d m) => Answer [] (with_cell s a (VMap d (put_key m k (Some v)))) | _ => NoAnswer end
  | RMapDel a k => match cells s a with Some (VMap d m) => Answer [] (with_cell s a (VMap d (put_key m k None))) | _ => NoAnswer end
  | r => outside r s
  end.
Fixpoint run (n : nat) (m : machine) (s : memory T) : option (ending * memory T) :=
  match n with
  | O => None
  | S n =>
    match step P m with
    | Next m => run n m s
    | Branch b m m' => run n (if b then m else m') s
    | Split [] m _ => run n m s
    | Split (v :: l) _ m => run n (m v l) s
    | Maybe (Some v) m => run n (m v) s
    | Maybe None _ => Some (Panicked, s)
    | Ask r m => match answer r s with Answer vs s => run n (resume m vs) s | Crash => Some (Panicked, s) | Exit s => Some (Exited, s) | NoAnswer => None end
    | GoRun.Ret vs => Some (Returned vs, s)
    | GoRun.Panic => Some (Panicked, s)
    | Stuck _ => None
    end
  end.

(** The run from m in s ends, and in a way that satisfies Q. *)
Definition wp (m : machine) (s : memory T) (Q : ending -> memory T -> Prop) : Prop :=
  exists n out s', run n m s = Some (out, s') /\ Q out s'.
Definition wp_res (r : res) (s : memory T) (Q : ending -> memory T -> Prop) : Prop :=
  match r with
  | Next m => wp m s Q
  | Branch b m m' => wp (if b then m else m') s Q
  | Split [] m _ => wp m s Q
  | Split (v :: l) _ m => wp (m v l) s Q
  | Maybe (Some v) m => wp (m v) s Q
  | Maybe None _ => Q Panicked s
  | Ask r m => match answer r s with Answer vs s => wp (resume m vs) s Q | Crash => Q Panicked s | Exit s => Q Exited s | NoAnswer => False end
  | GoRun.Ret vs => Q (Returned vs) s
  | GoRun.Panic => Q Panicked s
  | Stuck _ => False
  end.
Lemma wp_step m s Q : wp_res (step P m) s Q -> wp m s Q.
Proof.
  intros H. unfold wp. unfold wp_res in H.
  destruct (step P m) eqn:E.
  - destruct H as (n & H). exists (S n). cbn [run]. rewrite E. exact H.
  - destruct H as (n & H). exists (S n). cbn [run]. rewrite E. exact H.
  - destruct l; destruct H as (n & H); exists (S n); cbn [run]; rewrite E; exact H.
  - destruct o; [destruct H as (n & H); exists (S n); cbn [run]; rewrite E; exact H|].
    exists 1%nat, Panicked, s. cbn [run]. rewrite E. auto.
  - destruct (answer r s) eqn:E2.
    + destruct H as (n & H). exists (S n). cbn [run]. rewrite E, E2. exact H.
    + exists 1%nat, Panicked, s. cbn [run]. rewrite E, E2. auto.
    + eexists 1%nat, Exited, _. cbn [run]. rewrite E, E2. eauto.
    + destruct H.
  - eexists 1%nat, _, s. cbn [run]. rewrite E. eauto.
  - exists 1%nat, Panicked, s. cbn [run]. rewrite E. auto.
  - destruct H.
Qed.
Lemma wp_cons m s (Q Q' : ending -> memory T -> Prop) : wp m s Q -> (forall o s, Q o s -> Q' o s) -> wp m s Q'.
Proof. intros (n & o & s' & H & HQ) K. exists n, o, s'. auto. Qed.

(** Where to stop: at calls of the functions in [known], at loops, at the end of a function. *)
Variable known : list bytes.
Definition stops (m : machine) : bool :=
  match ctl m with
  | CApply (FUser f _) _ Now _ | CApply (FVal (VFun f)) _ Now _ => mem f known
  | CRange _ _ _ _ _ | CKeys _ _ _ | CLoop _ _ _ => true
  | CRet _ => match stk m, dfr m with KFun _ _ :: _, [] => true | _, _ => false end
  | _ => false
  end.
Fixpoint adv (n : nat) (m : machine) : res :=
  match n with
  | O => Next m
  | S n => match step P m with Next m => if stops m then Next m else adv n m | r => r end
  end.
Lemma wp_adv n m s Q r : adv n m = r -> wp_res r s Q -> wp m s Q.
Proof.
  revert m. induction n as [|n IH]; intros m E H; cbn [adv] in E.
  - subst r. exact H.
  - apply wp_step. destruct (step P m) eqn:Es; try (subst r; exact H).
    destruct (stops m0); [subst r; exact H|]. cbn. eapply IH; eauto.
Qed.
Lemma wp_return vs k e e' d' s Q : wp (mkM (CV vs) k e' d') s Q -> wp (mkM (CRet vs) (KFun e' d' :: k) e []) s Q.
Proof. intros H. apply wp_step. exact H. Qed.

Lemma ask_load a p m s Q v x : cells s a = Some v -> get_path p v = Some x -> wp (resume m [x]) s Q -> wp_res (Ask (RLoad a p) m) s Q.
Proof. intros H1 H2 H. cbn. rewrite H1, H2. exact H. Qed.
Lemma ask_store a p x m s Q v v' : cells s a = Some v -> set_path p x v = Some v' ->
  wp (resume m []) (mkMem (put_cell (cells s) a v') (free s) (rest s)) Q -> wp_res (Ask (RStore a p x) m) s Q.
Proof. intros H1 H2 H. cbn. rewrite H1, H2. exact H. Qed.
Lemma ask_new v m s Q : wp (resume m [VPtr (type_of v) (free s) []]) (mkMem (put_cell (cells s) (free s) v) (free s + 1) (rest s)) Q -> wp_res (Ask (RNew v) m) s Q.
Proof. exact (fun H => H). Qed.
Lemma ask_mapnew v m s Q : wp (resume m [VPtr [] (free s) []]) (mkMem (put_cell (cells s) (free s) (VMap v (fun _ => None))) (free s + 1) (rest s)) Q -> wp_res (Ask (RMapNew v) m) s Q.
Proof. exact (fun H => H). Qed.
Lemma ask_get a k m s Q d t o : cells s a = Some (VMap d t) -> t k = o ->
  wp (resume m (match o with Some v => [v; VBool true] | None => [d; VBool false] end)) s Q -> wp_res (Ask (RMapGet a k) m) s Q.
Proof. intros H1 <- H. cbn. rewrite H1. exact H. Qed.
Lemma ask_set a k v m s Q d t : cells s a = Some (VMap d t) ->
  wp (resume m []) (mkMem (put_cell (cells s) a (VMap d (put_key t k (Some v)))) (free s) (rest s)) Q -> wp_res (Ask (RMapSet a k v) m) s Q.
Proof. intros H1 H. cbn. rewrite H1. exact H. Qed.
Lemma ask_del a k m s Q d t : cells s a = Some (VMap d t) ->
  wp (resume m []) (mkMem (put_cell (cells s) a (VMap d (put_key t k None))) (free s) (rest s)) Q -> wp_res (Ask (RMapDel a k) m) s Q.
Proof. intros H1 H. cbn. rewrite H1. exact H. Qed.
Lemma ask_out r m s Q vs s' : answer r s = Answer vs s' -> wp (resume m vs) s' Q -> wp_res (Ask r m) s Q.
Proof. intros H1 H. cbn [wp_res]. rewrite H1. exact H. Qed.
Lemma ask_crash r m s (Q : ending -> memory T -> Prop) : answer r s = Crash -> Q Panicked s -> wp_res (Ask r m) s Q.
Proof. intros H1 H. cbn [wp_res]. rewrite H1. exact H. Qed.
Lemma ask_exit r m s (Q : ending -> memory T -> Prop) s' : answer r s = Exit s' -> Q Exited s' -> wp_res (Ask r m) s Q.
Proof. intros H1 H. cbn [wp_res]. rewrite H1. exact H. Qed.
End Run.

Lemma put_same hp a v : put_cell hp a v a = Some v.
Proof. unfold put_cell. rewrite N.eqb_refl. reflexivity. Qed.
Lemma put_other hp a b v : b <> a -> put_cell hp a v b = hp b.
Proof. unfold put_cell. destruct (N.eqb_spec b a); congruence. Qed.
Lemma key_same t k v : put_key t k v k = v.
Proof. unfold put_key. rewrite N.eqb_refl. reflexivity. Qed.
Lemma key_other t k j v : j <> k -> put_key t k v j = t j.
Proof. unfold put_key. destruct (N.eqb_spec j k); congruence. Qed.
(** A call of a function or method of the program. *)
Definition start (f : bytes) (recv : list value) (args : list value) : machine := mkM (CApply (FUser f recv) false Now args) [] [] [].

(** Started at m in s, the machine comes to an end. *)
Definition ends {T} (P : program) (o : req -> memory T -> reply T) (m : machine) (s : memory T) (out : ending) (s' : memory T) : Prop :=
  exists n, run P o n m s = Some (out, s').
Lemma run_more {T} P (o : req -> memory T -> reply T) n k : forall m s r, run P o n m s = Some r -> run P o (n + k) m s = Some r.
Proof.
  induction n as [|n IH]; intros m s r H; [discriminate|]. cbn [run Nat.add] in *.
  destruct (step P m) as [m1|b m1 m2|l m1 f|v f|q m1|vs| |x]; try (now apply IH); try assumption.
  - destruct l; now apply IH.
  - destruct v; [now apply IH|assumption].
  - destruct (answer o q s); [now apply IH|assumption|assumption|discriminate].
Qed.
Lemma ends_unique {T} P (o : req -> memory T -> reply T) m s out1 s1 out2 s2 : ends P o m s out1 s1 -> ends P o m s out2 s2 -> out1 = out2 /\ s1 = s2.
Proof.
  intros (n1 & H1) (n2 & H2). apply (run_more P o n1 n2) in H1. apply (run_more P o n2 n1) in H2. rewrite Nat.add_comm in H2. rewrite H1 in H2. injection H2. auto.
Qed.

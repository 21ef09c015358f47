(** Executions of the Listener's goroutines by computation. *)
From Verif Require Import Base GoBuf GoSyntax Ufs GoRun GoFmt GoProg GoWp Listener ServerRun LisConc LisRun.
From Verif Require ClientRun ListenerRun.

Section Exec.
Variable Li : N.
Variable is_net : bytes -> bool.
Definition silent (m : machine) (s : M) : option (machine * M) :=
  match quiet (step P m) with
  | Some m' => Some (m', s)
  | None => match step P m with Ask r m' => match answer (lib is_net) r s with Answer vs s' => Some (resume m' vs, s') | _ => None end | _ => None end
  end.
(** The next thing that is seen of goroutine i, and what it is answered (by Accept, by Close). *)
Definition visible (i : nat) (m : machine) (s : M) (a : accepted) (c : option bytes) : option (ev * machine * M) :=
  match step P m with
  | Ask (RExt f [VPtr t b [SF x]]) m' =>
      if beq t (str "sync.Mutex") && (b =? Li) && beq x (str "mu") then
        if beq f (str "sync.Mutex.Lock") then match rest s with None => Some (ELock, resume m' [], with_rest s (Some i)) | _ => None end
        else if beq f (str "sync.Mutex.Unlock") then match rest s with Some _ => Some (EUnlock, resume m' [], with_rest s None) | None => None end
        else None
      else None
  | Ask (RExt f [VObj k ln]) m' =>
      if beq k (str "net.Listener") then
        if beq f (str "net.Listener.Accept") then Some (EAccept ln a, resume m' (accept_v a), s)
        else if beq f (str "net.Listener.Close") then Some (EClose ln c, resume m' [err_v c], s) else None
      else None
  | Ask (RExt f [VI w z]) m' => if beq f (str "time.Sleep") then Some (ESleep (Z.to_N z), resume m' [], s) else None
  | Ask (RGo (FUser f [VPtr t b []]) []) m' =>
      if beq f (str "conn.serve") then
        match cells s b with Some v => match get_path [SF (str "rwc")] v with Some (VObj k c) => Some (EStart c, resume m' [], s) | _ => None end | None => None end
      else None
  | _ => None
  end.
Inductive turn := Silent (n : nat) | See (a : accepted) (c : option bytes) | Begin (t : task) | End.
Fixpoint silents (n : nat) (i : nat) (x : goroutines) (s : M) : goroutines * M :=
  match n, x i with
  | S n, Some m => match silent m s with Some (m, s) => silents n i (set_at x i (Some m)) s | None => (x, s) end
  | _, _ => (x, s)
  end.
Definition play1 (i : nat) (t : turn) (x : goroutines) (s : M) : option (list (nat * ev) * goroutines * M) :=
  match t, x i with
  | Begin t, None => Some ([(i, EBegin t)], set_at x i (Some (begin Li t)), s)
  | Silent n, _ => let (x, s) := silents n i x s in Some ([], x, s)
  | See a c, Some m => match visible i m s a c with Some (e, m, s) => Some ([(i, e)], set_at x i (Some m), s) | None => None end
  | End, Some m => match step P m with Ret [v] => match err_of_v v with Some r => Some ([(i, EEnd r)], set_at x i None, s) | None => None end | _ => None end
  | _, _ => None
  end.
Fixpoint play (ts : list (nat * turn)) (x : goroutines) (s : M) : option (list (nat * ev) * goroutines * M) :=
  match ts with
  | [] => Some ([], x, s)
  | (i, t) :: ts =>
      match play1 i t x s with
      | Some (l, x, s) => match play ts x s with Some (l', x, s) => Some (l ++ l', x, s) | None => None end
      | None => None
      end
  end.
Lemma beq_eq a : forall b, beq a b = true -> a = b.
Proof. induction a as [|x a IH]; intros [|y b] H; try discriminate H; [reflexivity|]. cbn in H. destruct (Byte.eqb x y) eqn:E; [|discriminate H]. apply Byte.byte_dec_bl in E. subst y. f_equal. auto. Qed.
Lemma silent_sound i m s m' s' : silent m s = Some (m', s') -> th_step Li is_net i m s [] m' s'.
Proof.
  unfold silent. destruct (quiet (step P m)) eqn:E; [intros [= <- <-]; apply s_quiet; exact E|]. destruct (step P m) eqn:Es; try discriminate.
  destruct (answer (lib is_net) r s) eqn:Ea; try discriminate. intros [= <- <-]. eapply s_ask; eassumption.
Qed.
Lemma visible_sound i m s a c e m' s' : visible i m s a c = Some (e, m', s') -> th_step Li is_net i m s [e] m' s'.
Proof.
  unfold visible. intros H.
  repeat (match type of H with match ?x with _ => _ end = _ => destruct x eqn:?; try discriminate H end);
  repeat match goal with E : (_ && _)%bool = true |- _ => apply andb_prop in E; destruct E | E : beq _ _ = true |- _ => apply beq_eq in E; subst | E : (_ =? _) = true |- _ => apply N.eqb_eq in E; subst end; injection H as <- <- <-.
  all: first [eapply s_lock; eassumption|eapply s_unlock; eassumption|apply s_accept; assumption|apply s_close; assumption|eapply s_sleep; eassumption|eapply s_go; eassumption].
Qed.
Notation TR := (t_runs Li is_net).
Lemma silents_sound s0 i n : forall ls x s x' s', TR s0 ls x s -> silents n i x s = (x', s') -> TR s0 ls x' s'.
Proof.
  induction n as [|n IH]; intros ls x s x' s' R H; cbn [silents] in H; [injection H as <- <-; exact R|]. destruct (x i) as [m|] eqn:Ex; [|injection H as <- <-; exact R].
  destruct (silent m s) as [[m1 s1]|] eqn:E; [|injection H as <- <-; exact R]. eapply IH; [|exact H]. rewrite <- (app_nil_r ls). eapply tr_step; [exact R|]. apply (t_act _ _ _ _ i m []); [exact Ex|]. apply silent_sound. exact E.
Qed.
Lemma play1_sound s0 ls x s i t l x' s' : TR s0 ls x s -> play1 i t x s = Some (l, x', s') -> TR s0 (ls ++ l) x' s'.
Proof.
  intros R H. unfold play1 in H. destruct t as [n|a c|t|].
  - destruct (silents n i x s) as [x1 s1] eqn:E. injection H as <- <- <-. rewrite app_nil_r. eapply silents_sound; eassumption.
  - destruct (x i) as [m|] eqn:Ex; [|discriminate H]. destruct (visible i m s a c) as [[[e m1] s1]|] eqn:E; [|discriminate]. injection H as <- <- <-. eapply tr_step; [exact R|].
    apply (t_act _ _ _ _ i m [e]); [exact Ex|]. eapply visible_sound. exact E.
  - destruct (x i) eqn:Ex; [discriminate|]. injection H as <- <- <-. eapply tr_step; [exact R|]. apply t_begin. exact Ex.
  - destruct (x i) as [m|] eqn:Ex; [|discriminate H]. destruct (step P m) as [?|? ? ?|? ? ?|? ?|? ?|vs| |?] eqn:Es; try discriminate. destruct vs as [|v [|? ?]]; try discriminate. destruct (err_of_v v) eqn:Ev; [|discriminate].
    injection H as <- <- <-. eapply tr_step; [exact R|]. eapply t_end; eassumption.
Qed.
Lemma play_sound s0 ts : forall ls x s l x' s', TR s0 ls x s -> play ts x s = Some (l, x', s') -> TR s0 (ls ++ l) x' s'.
Proof.
  induction ts as [|[i t] ts IH]; intros ls x s l x' s' R H; cbn [play] in H; [injection H as <- <- <-; rewrite app_nil_r; exact R|].
  destruct (play1 i t x s) as [[[l1 x1] s1]|] eqn:E1; [|discriminate]. destruct (play ts x1 s1) as [[[l2 x2] s2]|] eqn:E2; [|discriminate]. injection H as <- <- <-.
  rewrite app_assoc. eapply IH; [|exact E2]. eapply play1_sound; eassumption.
Qed.
End Exec.
(** * Two executions *)
Definition see i a c : list (nat * turn) := [(i, Silent 400); (i, See a c)].
Definition on i : list (nat * turn) := see i ATemp None.
Definition finish i : list (nat * turn) := [(i, Silent 400); (i, End)].
Definition mem0 : M := mkMem (put_cell (fun _ => None) 5 (v_listener (VObj (str "NsCreator") 0) [] VNil VNil)) 6 None.
Definition no_net (e : bytes) : bool := false.
Definition starts {A} (o : option (A * goroutines * M)) : goroutines * M := match o with Some (_, x, s) => (x, s) | None => (fun _ => None, mem0) end.
(** A Shutdown comes between the start of Serve and its first Lock. *)
Definition late : list (nat * turn) :=
  ([(0, Begin (TServe 7)); (1, Begin TShutdown)] ++ on 1 ++ on 1 ++ finish 1 ++ on 0 ++ on 0 ++ see 0 (AConn 3) None ++ on 0)%nat.
Definition late_ls : list (nat * ev) :=
  [(0, EBegin (TServe 7)); (1, EBegin TShutdown); (1, ELock); (1, EUnlock); (1, EEnd None); (0, ELock); (0, EUnlock); (0, EAccept 7 (AConn 3)); (0, EStart 3)]%nat.
Lemma play_from Li is_net s0 ts ls x s l : t_runs Li is_net s0 ls x s -> match play Li is_net ts x s with Some (l', _, _) => l' = l | None => False end ->
  t_runs Li is_net s0 (ls ++ l) (fst (starts (play Li is_net ts x s))) (snd (starts (play Li is_net ts x s))).
Proof. intros R H. destruct (play Li is_net ts x s) as [[[l' x'] s']|] eqn:E; [|contradiction]. subst l'. cbn [starts fst snd]. eapply play_sound; eassumption. Qed.
Lemma late_runs : t_runs 5 no_net mem0 late_ls (fst (starts (play 5 no_net late (fun _ => None) mem0))) (snd (starts (play 5 no_net late (fun _ => None) mem0))).
Proof.
  refine (play_from 5 no_net mem0 late [] (fun _ => None) mem0 late_ls (tr_nil _ _ _) _). vm_compute. reflexivity.
Qed.
(** Two Serves and a Shutdown, which closes both listeners; the two Serves return. *)
Definition before : list (nat * turn) :=
  ([(0, Begin (TServe 7)); (1, Begin (TServe 8)); (2, Begin TShutdown)] ++ on 1 ++ [(0, Silent 400)] ++ on 1 ++ on 0 ++ on 0 ++ see 0 (AConn 3) None ++ see 1 ATemp None ++ on 0 ++ on 2 ++ on 1 ++ [(2, Silent 400)])%nat.
Definition later : list (nat * turn) :=
  (see 2 ATemp (Some (str "e8")) ++ see 1 (APerm (str "closed")) None ++ see 2 ATemp (Some (str "e7")) ++ see 0 (APerm (str "closed")) None ++ on 2 ++ on 0 ++ finish 2 ++ on 0 ++ on 0 ++ finish 0 ++ on 1 ++ on 1 ++ on 1 ++ finish 1)%nat.
Definition before_ls : list (nat * ev) :=
  [(0, EBegin (TServe 7)); (1, EBegin (TServe 8)); (2, EBegin TShutdown); (1, ELock); (1, EUnlock); (0, ELock); (0, EUnlock); (0, EAccept 7 (AConn 3)); (1, EAccept 8 ATemp); (0, EStart 3); (2, ELock); (1, ESleep 5000000)]%nat.
Definition later_ls : list (nat * ev) :=
  [(2, EClose 8 (Some (str "e8"))); (1, EAccept 8 (APerm (str "closed"))); (2, EClose 7 (Some (str "e7"))); (0, EAccept 7 (APerm (str "closed"))); (2, EUnlock); (0, ELock); (2, EEnd (Some (str "e8")));
   (0, EUnlock); (0, EClose 7 None); (0, EEnd (Some (str "closed"))); (1, ELock); (1, EUnlock); (1, EClose 8 None); (1, EEnd (Some (str "closed")))]%nat.
Definition ranging (x : goroutines) (i : nat) : machine := match x i with Some m => match step P m with Ask (RMapKeys _) m' => m' | _ => m end | None => begin 0 TShutdown end.
Lemma keys_from Li is_net s0 ls x s i od (t : N -> option value) : t_runs Li is_net s0 ls x s -> NoDup od -> (forall k, In k od <-> t k <> None) ->
  match x i with Some m => match step P m with Ask (RMapKeys a) _ => match cells s a with Some (VMap _ t') => forall k, t' k = t k | _ => False end | _ => False end | None => False end ->
  t_runs Li is_net s0 ls (set_at x i (Some (resume (ranging x i) [VList (map v_net od)]))) s.
Proof.
  intros R Hd Hod H. unfold ranging. rewrite <- (app_nil_r ls). eapply tr_step; [exact R|]. destruct (x i) as [m|] eqn:Ex; [|contradiction]. destruct (step P m) as [| | | |r m'| | |] eqn:Es; try contradiction.
  destruct r; try contradiction. destruct (cells s a) as [[]|] eqn:Ec; try contradiction. apply (t_act _ _ _ _ i m []); [exact Ex|]. eapply s_keys; [exact Es|exact Ec|exact Hd|]. intros k. rewrite H. apply Hod.
Qed.
Definition mid : goroutines * M := starts (play 5 no_net before (fun _ => None) mem0).
Definition mid2 : goroutines := set_at (fst mid) 2%nat (Some (resume (ranging (fst mid) 2) [VList (map v_net [8; 7])])).
Lemma before_runs : t_runs 5 no_net mem0 before_ls (fst mid) (snd mid).
Proof.
  refine (play_from 5 no_net mem0 before [] (fun _ => None) mem0 before_ls (tr_nil _ _ _) _). vm_compute. reflexivity.
Qed.
Lemma mid_runs : t_runs 5 no_net mem0 before_ls mid2 (snd mid).
Proof.
  refine (keys_from 5 no_net mem0 before_ls (fst mid) (snd mid) 2 [8; 7] (put_key (put_key (fun _ => None) 8 (Some ListenerRun.v_empty)) 7 (Some ListenerRun.v_empty)) before_runs _ _ _).
  - repeat constructor; cbn; intuition discriminate.
  - intros k. unfold put_key. cbn [In]. destruct (N.eqb_spec k 7), (N.eqb_spec k 8); split; intuition (try discriminate; subst; auto; try lia).
  - vm_compute. intros k. reflexivity.
Qed.
Lemma later_runs : exists x s, t_runs 5 no_net mem0 (before_ls ++ later_ls) x s.
Proof.
  eexists _, _. refine (play_from 5 no_net mem0 later before_ls mid2 (snd mid) later_ls mid_runs _). vm_compute. reflexivity.
Qed.

(** A joint execution of the two texts by computation: what is done next is given in a list. *)
From Verif Require Import Base GoBuf CodecPrim Types Codec Msgs CodecSpec StubPrim Stubs Server ServerSpec ServerWitness Rpc GoSyntax Ufs GoRun GoFmt GoProg GoWp
  ServerRun ServerRunLemmas Client ClientSpec ClientRun ClientRunLemmas ClientRunSim ClientRunNew ClientHist ClientRunThm ClientRunExec NetRun.
Local Opaque NumTags all_tags.

(** Is what the request wants from the connection there? *)
Definition there (evs : list rev) (r : req) : bool :=
  match r with
  | RExt f args =>
      if beq f (str "io.ReadCloser.Read") || beq f (str "net.Conn.Read") then match evs with [] => false | _ => true end
      else if beq f (str "io.Copy") then
        match args with
        | [VPtr _ a p; VStruct _ [(_, VI _ n)]] => match copy_limit (Z.to_nat n) evs with Some (c, _) => Nat.eqb (List.length c) (Z.to_nat n) | None => true end
        | _ => true
        end
      else true
  | _ => true
  end.
Lemma read_more n evs more : evs <> [] -> net_read n (evs ++ more) = match net_read n evs with RdData b r => RdData b (r ++ more) | x => x end.
Proof. destruct evs as [|[c|] l]; [contradiction| |reflexivity]. intros _. cbn [app net_read]. destruct (skipn n c); reflexivity. Qed.
Lemma copy_more evs more : forall n c r, copy_limit n evs = Some (c, r) -> List.length c = n -> copy_limit n (evs ++ more) = Some (c, r ++ more).
Proof.
  induction evs as [|[d|] l IH]; intros n c r H L; destruct n as [|n]; cbn [copy_limit app] in *; try (injection H as <- <-; reflexivity).
  - injection H as <- <-. destruct more; reflexivity.
  - injection H as <- <-. discriminate L.
  - destruct (skipn (S n) d) as [|y ys] eqn:E; [|injection H as <- <-; reflexivity].
    destruct (copy_limit (S n - List.length d) l) as [[b r']|] eqn:E2; [|discriminate H]. injection H as <- <-. rewrite (IH _ _ _ E2); [reflexivity|].
    rewrite app_length in L. lia.
  - discriminate H.
Qed.
Lemma copy_fails evs more : forall n, copy_limit n evs = None -> copy_limit n (evs ++ more) = None.
Proof.
  induction evs as [|[d|] l IH]; intros n H; destruct n as [|n]; cbn [copy_limit app] in *; try discriminate H; [|reflexivity].
  destruct (skipn (S n) d) as [|y ys]; [|discriminate H]. destruct (copy_limit (S n - List.length d) l) as [[b r]|] eqn:E; [discriminate H|]. rewrite (IH _ E). reflexivity.
Qed.
Ltac mm H := repeat match type of H with
  | (if ?b then _ else _) = Answer _ _ => let E := fresh "E" in destruct b eqn:E; try discriminate H
  | match ?x with _ => _ end = Answer _ _ => let E := fresh "E" in destruct x eqn:E; try discriminate H
  end.

Section Case.
Context {St : Type} (ns : NineServer St) (E : Server.env) (remote : bytes) (srn : N) (crn : N) (opt : oserr + (value * value * value * N)) (C : N).
Notation P := protocol_program.
Notation OUT := (ServerRun.outside ns E remote srn).
Notation LIB := (lib crn opt).

Lemma lib_more r s vs s' more : there (w_net (rest s)) r = true -> answer LIB r s = Answer vs s' -> answer LIB r (more_mem s more) = Answer vs (more_mem s' more).
Proof.
  intros T H. destruct s as [hp nx [ch nxt net gos]]. cbn [rest w_net] in T.
  unfold more_mem, with_rest in *. cbn [cells free rest w_chans w_next w_net w_gos].
  destruct r; cbn [answer lib] in *; cbv zeta in *; unfold lib_call, with_rest, set_chan, with_cell, with_new in *; cbv zeta in *; cbn [cells free rest w_chans w_next w_net w_gos] in *;
    mm H; try (injection H as <- <-; cbn [cells free rest w_chans w_next w_net w_gos] in *; reflexivity).
  all: try discriminate H.
  all: unfold there in T;
    repeat match goal with K : beq ?f _ = true |- _ => apply beq_eq in K; subst f | K : beq ?f _ = false |- _ => clear K end;
    cbn in T.
  - match goal with K : net_read ?n net = _ |- _ => assert (Hn : net <> []) by (intros X; rewrite X in T; discriminate T); rewrite (read_more n net more Hn), K end. injection H as <- <-. reflexivity.
  - match goal with K : net_read ?n net = _ |- _ => assert (Hn : net <> []) by (intros X; rewrite X in T; discriminate T); rewrite (read_more n net more Hn), K end. injection H as <- <-. reflexivity.
  - match goal with K : net_read ?n net = _ |- _ => assert (Hn : net <> []) by (intros X; rewrite X in T; discriminate T); rewrite (read_more n net more Hn), K end. injection H as <- <-. reflexivity.
  - match goal with K : copy_limit ?n net = _ |- _ => rewrite K in T; apply Nat.eqb_eq in T; rewrite (copy_more net more _ _ _ K T) end. injection H as <- <-. reflexivity.
  - match goal with K : copy_limit ?n net = _ |- _ => rewrite (copy_fails net more _ K) end. injection H as <- <-. reflexivity.
Qed.
Lemma event_more r vs s more : event r vs (more_mem s more) = event r vs s.
Proof. reflexivity. Qed.
Lemma out_more r s vs s' more : there (w_in (rest s)) r = true -> answer OUT r s = Answer vs s' -> answer OUT r (more_in s more) = Answer vs (more_in s' more).
Proof.
  intros T H. destruct s as [hp nx [i o op x t tr st]]. cbn [rest w_in] in T.
  unfold more_in, with_rest, upd_in in *. cbn [cells free rest w_in w_out w_open w_ns w_turn w_traced w_started].
  destruct r; cbn [answer ServerRun.outside] in *; cbv zeta in *; unfold net_call, slice, with_rest, upd_in, upd_ns, with_cell, with_new in *; cbv zeta in *;
    cbn [cells free rest w_in w_out w_open w_ns w_turn w_traced w_started] in *;
    mm H; try (injection H as <- <-; cbn [cells free rest w_in w_out w_open w_ns w_turn w_traced w_started] in *; reflexivity).
  all: try discriminate H.
  all: unfold there in T;
    repeat match goal with K : beq ?f _ = true |- _ => apply beq_eq in K; subst f | K : beq ?f _ = false |- _ => clear K end;
    cbn in T.
  - match goal with K : copy_limit ?n i = _ |- _ => rewrite K in T; apply Nat.eqb_eq in T; rewrite (copy_more i more _ _ _ K T) end. injection H as <- <-. reflexivity.
  - match goal with K : copy_limit ?n i = _ |- _ => rewrite (copy_fails i more _ K) end. injection H as <- <-. reflexivity.
  - match goal with K : net_read ?n i = _ |- _ => assert (Hn : i <> []) by (intros X; rewrite X in T; discriminate T); rewrite (read_more n i more Hn), K end. injection H as <- <-. reflexivity.
  - match goal with K : net_read ?n i = _ |- _ => assert (Hn : i <> []) by (intros X; rewrite X in T; discriminate T); rewrite (read_more n i more Hn), K end. injection H as <- <-. reflexivity.
  - match goal with K : net_read ?n i = _ |- _ => assert (Hn : i <> []) by (intros X; rewrite X in T; discriminate T); rewrite (read_more n i more Hn), K end. injection H as <- <-. reflexivity.
Qed.

(** Goroutine i of the client, as far as what it reads is there. *)
Definition client_one (i : nat) (g : gstate) : option (lbl * gstate) :=
  match nth_error (g_threads g) i with
  | None => None
  | Some m => match step P m with
              | Ask r _ => if there (w_net (rest (g_mem g))) r then one crn opt i g else None
              | _ => one crn opt i g
              end
  end.
Ltac ss H := repeat match type of H with
  | (if ?b then _ else _) = Some _ => let E := fresh "E" in destruct b eqn:E; try discriminate H
  | match ?x with _ => _ end = Some _ => let E := fresh "E" in destruct x eqn:E; try discriminate H
  end.
Lemma one_more i g l g' more : (forall m r m', nth_error (g_threads g) i = Some m -> step P m = Ask r m' -> there (w_net (rest (g_mem g))) r = true) ->
  one crn opt i g = Some (l, g') -> one crn opt i (more_net g more) = Some (l, more_net g' more).
Proof.
  intros T H. unfold one in *. destruct g as [th s us d]. cbn [more_net g_dead g_threads g_mem g_users] in *. destruct d; [discriminate H|].
  destruct (nth_error th i) as [m|] eqn:En; [|discriminate H].
  assert (Qt : (match quiet (step P m) with Some m' => Some (LTau, mkG (put_nth i m' th) s us false) | None => None end) = Some (l, g') ->
               (match quiet (step P m) with Some m' => Some (LTau, mkG (put_nth i m' th) (more_mem s more) us false) | None => None end) = Some (l, more_net g' more)).
  { intros K. destruct (quiet (step P m)) as [m'|]; [|discriminate K]. injection K as <- <-. reflexivity. }
  destruct (step P m) as [m'|b m1 m2|vs m1 f|o f|r m'| | |] eqn:Es; try exact (Qt H). clear Qt. specialize (T m r m' eq_refl Es).
  assert (K : (match answer LIB r s with Answer vs s' => Some (event r vs s', mkG (put_nth i (resume m' vs) th) s' us false) | _ => None end) = Some (l, g') ->
              (match answer LIB r (more_mem s more) with Answer vs s' => Some (event r vs s', mkG (put_nth i (resume m' vs) th) s' us false) | _ => None end) = Some (l, more_net g' more)).
  { intros K. destruct (answer LIB r s) as [vs s'| |s'|] eqn:Ea; try discriminate K. rewrite (lib_more r s vs s' more T Ea), event_more. injection K as <- <-. reflexivity. }
  destruct r as [v|a p|a p v|d|a x|a x v|a x|a|x|x v|f args|f args|ch v|ch|n]; try exact (K H).
  - destruct args as [|o [|[] [|]]]; try exact (K H). destruct (beq f (str "io.WriteCloser.Write")); [|exact (K H)]. injection H as <- <-. reflexivity.
  - injection H as <- <-. reflexivity.
  - destruct ch; try exact (K H). change (w_chans (rest (more_mem s more))) with (w_chans (rest s)). ss H. injection H as <- <-. reflexivity.
  - destruct ch; try exact (K H). change (w_chans (rest (more_mem s more))) with (w_chans (rest s)). ss H; injection H as <- <-; reflexivity.
Qed.
Lemma client_one_sound i g l g' more : client_one i g = Some (l, g') -> tstep crn opt C (more_net g more) l (more_net g' more).
Proof.
  unfold client_one. intros H. apply (one_sound crn opt C i). apply one_more.
  - intros m r m' En Es. rewrite En, Es in H. destruct (there _ r); [reflexivity|discriminate H].
  - destruct (nth_error (g_threads g) i) as [m|]; [|discriminate H]. destruct (step P m); try exact H. destruct (there _ r); [exact H|discriminate H].
Qed.
(** What the callers do, and a meeting of two goroutines. *)
Definition calls (a : act) : bool := match a with AMeet _ _ | AStart _ _ | AEnqueue _ | ADeliver _ _ => true | _ => false end.
Lemma do_more a g ls g' more : calls a = true -> do_act crn opt C a g = Some (ls, g') -> do_act crn opt C a (more_net g more) = Some (ls, more_net g' more).
Proof.
  intros Ha H. unfold do_act in *. destruct g as [th s us d]. cbn [more_net g_dead g_threads g_mem g_users] in *. destruct d; [discriminate H|].
  destruct a; try discriminate Ha; unfold field in *; cbn [more_mem with_rest cells rest w_chans free w_next w_net w_gos] in *; ss H; injection H as <- <-; reflexivity.
Qed.

(** The server's goroutine. *)
Definition server_one (m : machine) (s : memory (cworld St)) : option (option machine * memory (cworld St)) :=
  match step P m with
  | Ask r m' => if there (w_in (rest s)) r then match answer OUT r s with Answer vs s' => Some (Some (resume m' vs), s') | _ => None end else None
  | GoRun.Ret _ => Some (None, s)
  | r => match quiet r with Some m' => Some (Some m', s) | None => None end
  end.
Lemma server_one_sound m s m' s' more : server_one m s = Some (m', s') -> sstep ns E remote srn m (more_in s more) m' (more_in s' more).
Proof.
  unfold server_one. intros H. assert (Qt : (match quiet (step P m) with Some m' => Some (Some m', s) | None => None end) = Some (m', s') -> sstep ns E remote srn m (more_in s more) m' (more_in s' more)).
  { intros K. destruct (quiet (step P m)) as [m1|] eqn:Eq; [|discriminate K]. injection K as <- <-. apply s_quiet, Eq. }
  destruct (step P m) as [m1|b m1 m2|vs m1 f|o f|r m1|vs| |] eqn:Es; try exact (Qt H).
  - destruct (there (w_in (rest s)) r) eqn:T; [|discriminate H]. destruct (answer OUT r s) as [vs s1| | |] eqn:Ea; try discriminate H. injection H as <- <-.
    eapply s_ask; [exact Es|]. apply out_more; assumption.
  - injection H as <- <-. eapply s_return, Es.
Qed.

(** * Together *)
Inductive jact :=
| JClient (i n : nat)          (* goroutine i of the client goes on, for n steps or until it cannot alone *)
| JCall (a : act)
| JServer (n : nat)            (* the server goes on *)
| JUp (k : nat)                (* k bytes arrive at the server *)
| JDown (k : nat).
Notation net := (@net St).
Notation jstep := (jstep ns E remote srn crn opt C).
Notation jsteps := (jsteps ns E remote srn crn opt C).
Fixpoint client_several (i n : nat) (x : net) : list lbl * net :=
  match n with
  | O => ([], x)
  | S n => if n_end x then ([], x) else
           match client_one i (n_client x) with
           | Some (l, g) => let '(ls, y) := client_several i n (mkNet g (n_up x ++ sent l) (n_server x) (n_mem x) (n_down x) false) in (l :: ls, y)
           | None => ([], x)
           end
  end.
Fixpoint server_several (n : nat) (x : net) : net :=
  match n with
  | O => x
  | S n => match n_server x with
           | Some m => match server_one m (n_mem x) with
                       | Some (m', s) => server_several n (mkNet (n_client x) (n_up x) m' s (n_down x ++ concat (skipn (List.length (w_out (rest (n_mem x)))) (w_out (rest s)))) (n_end x))
                       | None => x
                       end
           | None => x
           end
  end.
Definition jdo (a : jact) (x : net) : option (list lbl * net) :=
  match a with
  | JClient i n => Some (client_several i n x)
  | JCall a => if calls a && negb (n_end x) then
                 match do_act crn opt C a (n_client x) with
                 | Some ([l], g) => Some ([l], mkNet g (n_up x ++ sent l) (n_server x) (n_mem x) (n_down x) false)
                 | _ => None
                 end
               else None
  | JServer n => Some ([], server_several n x)
  | JUp k => Some ([], mkNet (n_client x) (skipn k (n_up x)) (n_server x) (more_in (n_mem x) [Chunk (firstn k (n_up x))]) (n_down x) (n_end x))
  | JDown k => if n_end x then None else Some ([], mkNet (more_net (n_client x) [Chunk (firstn k (n_down x))]) (n_up x) (n_server x) (n_mem x) (skipn k (n_down x)) false)
  end.
Fixpoint jexec (l : list jact) (x : net) : option (list lbl * net) :=
  match l with
  | [] => Some ([], x)
  | a :: l => match jdo a x with
              | Some (ls, y) => match jexec l y with Some (ls', z) => Some (ls ++ ls', z) | None => None end
              | None => None
              end
  end.
Lemma jsteps_one x l y : jstep x l y -> jsteps x l y.
Proof. intros H. apply (js_snoc _ _ _ _ _ _ _ x [] x l y); [apply js_nil|exact H]. Qed.
Lemma jsteps_app x l1 y l2 z : jsteps x l1 y -> jsteps y l2 z -> jsteps x (l1 ++ l2) z.
Proof. intros H1 H2. induction H2; [rewrite app_nil_r; exact H1|]. rewrite app_assoc. eapply js_snoc; eassumption. Qed.
Lemma client_several_sound i n : forall x ls y, client_several i n x = (ls, y) -> jsteps x ls y.
Proof.
  induction n as [|n IH]; cbn [client_several]; intros x ls y H; [injection H as <- <-; apply js_nil|].
  destruct (n_end x) eqn:Ee; [injection H as <- <-; apply js_nil|]. destruct (client_one i (n_client x)) as [[l g]|] eqn:Eo; [|injection H as <- <-; apply js_nil].
  destruct (client_several i n _) as [ls2 z] eqn:E2. injection H as <- <-. apply (jsteps_app x [l] _ ls2 z (jsteps_one _ _ _ (j_client _ _ _ _ _ _ _ x l g Ee (fun more => client_one_sound i _ _ _ more Eo)))).
  apply IH, E2.
Qed.
Lemma server_several_sound n : forall x, jsteps x [] (server_several n x).
Proof.
  induction n as [|n IH]; cbn [server_several]; intros x; [apply js_nil|]. destruct (n_server x) as [m|] eqn:Em; [|apply js_nil].
  destruct (server_one m (n_mem x)) as [[m' s]|] eqn:Eo; [|apply js_nil].
  apply (jsteps_app x [] _ [] _ (jsteps_one _ _ _ (j_server _ _ _ _ _ _ _ x m m' s Em (fun more => server_one_sound _ _ _ _ more Eo)))). apply IH.
Qed.
Lemma jdo_sound a x ls y : jdo a x = Some (ls, y) -> jsteps x ls y.
Proof.
  destruct a as [i n|a|n|k|k]; cbn [jdo]; intros H.
  - injection H as H. apply client_several_sound with (i := i) (n := n), H.
  - destruct (calls a) eqn:Ea; [|discriminate H]. destruct (n_end x) eqn:Ee; [discriminate H|]. cbn [andb negb] in H.
    destruct (do_act crn opt C a (n_client x)) as [[[|l [|]] g]|] eqn:Ed; try discriminate H. injection H as <- <-. apply jsteps_one, (j_client _ _ _ _ _ _ _ x l g Ee).
    intros more. apply (do_more _ _ _ _ more Ea) in Ed. apply do_sound in Ed. inversion Ed as [|ls g1 l1 g2 R T E1 E2]. destruct ls as [|? [|]]; try discriminate E1.
    inversion R as [E3|? ? ? ? ? ? E3]; [|destruct ls; discriminate E3]. subst. injection E1 as <-. exact T.
  - injection H as <- <-. apply server_several_sound.
  - injection H as <- <-. apply jsteps_one, j_up. symmetry. apply firstn_skipn.
  - destruct (n_end x) eqn:Ee; [discriminate H|]. injection H as <- <-. apply jsteps_one, j_down; [symmetry; apply firstn_skipn|exact Ee].
Qed.
Lemma jexec_sound l : forall x ls y, jexec l x = Some (ls, y) -> jsteps x ls y.
Proof.
  induction l as [|a l IH]; cbn [jexec]; intros x ls y H; [injection H as <- <-; apply js_nil|].
  destruct (jdo a x) as [[l1 y1]|] eqn:Ea; [|discriminate H]. destruct (jexec l y1) as [[l2 y2]|] eqn:E2; [|discriminate H]. injection H as <- <-.
  eapply jsteps_app; [apply jdo_sound with (a := a), Ea|apply IH, E2].
Qed.
Lemma jexec_reaches l x (Q : list lbl -> net -> Prop) : match jexec l x with Some (ls, y) => Q ls y | None => False end -> exists ls y, jsteps x ls y /\ Q ls y.
Proof. destruct (jexec l x) as [[ls y]|] eqn:Ex; [|contradiction]. intros H. exists ls, y. split; [apply jexec_sound with (l := l), Ex|exact H]. Qed.
End Case.

(** The call of NetLiveCase goes on by itself, and returns. *)
From Verif Require Import Base GoBuf CodecPrim Types Codec Msgs CodecSpec StubPrim Stubs Server ServerSpec ServerWitness Rpc GoSyntax Ufs GoRun GoFmt GoProg GoWp
  ServerRun ServerRunLemmas Client ClientSpec ClientRun ClientRunLemmas ClientRunSim ClientRunNew ClientHist ClientRunThm ClientRunExec NetRun NetLemmas NetCase NetStore NetClient NetLive NetLiveCase NetEnds NetEnds2.
Local Opaque NumTags all_tags.
Section Case.
Context {St : Type} (ns : NineServer St) (E : Server.env) (remote : bytes) (srn : N) (crn : N) (opt : oserr + (value * value * value * N)) (C : N).
Notation net := (@net St).
Notation moves := (moves ns E remote srn crn opt C).
Notation msteps := (msteps ns E remote srn crn opt C).
Notation jexec := (jexec ns E remote srn crn opt C).
Notation jdo := (jdo ns E remote srn crn opt C).
Definition ownb (l : lbl) : bool := match l with LStart _ _ | LTag _ | LFid _ => false | _ => true end.
Lemma ownb_own l : ownb l = true -> own l. Proof. destruct l; intros H; try discriminate H; exact I. Qed.
Definition nilb {A} (l : list A) : bool := match l with [] => true | _ => false end.
(** An action that needs no caller and no failure. *)
Definition alone (a : jact) (x : net) : bool :=
  match a with JUp k => negb (nilb (firstn k (n_up x))) | JDown k => negb (nilb (firstn k (n_down x))) | _ => true end.
Fixpoint mexec (l : list jact) (x : net) : option (list lbl * net) :=
  match l with
  | [] => Some ([], x)
  | a :: l => if alone a x then
                match jdo a x with
                | Some (ls, y) => if forallb ownb ls then match mexec l y with Some (ls', z) => Some (ls ++ ls', z) | None => None end else None
                | None => None
                end
              else None
  end.
Lemma msteps_one x l y : moves x l y -> msteps x l y.
Proof. intros H. exact (ms_snoc _ _ _ _ _ _ _ x [] x l y (ms_nil _ _ _ _ _ _ _ x) H). Qed.
Lemma msteps_app x l1 y l2 z : msteps x l1 y -> msteps y l2 z -> msteps x (l1 ++ l2) z.
Proof. intros H1 H2. induction H2; [rewrite app_nil_r; exact H1|]. rewrite app_assoc. eapply ms_snoc; eassumption. Qed.
Lemma client_several_moves i n : forall x ls y, client_several crn opt i n x = (ls, y) -> forallb ownb ls = true -> msteps x ls y.
Proof.
  induction n as [|n IH]; cbn [client_several]; intros x ls y H Ho; [injection H as <- <-; apply ms_nil|].
  destruct (n_end x) eqn:Ee; [injection H as <- <-; apply ms_nil|]. destruct (client_one crn opt i (n_client x)) as [[l g]|] eqn:Eo; [|injection H as <- <-; apply ms_nil].
  destruct (client_several crn opt i n _) as [ls2 z] eqn:E2. injection H as <- <-. cbn [forallb] in Ho. apply andb_prop in Ho. destruct Ho as [Ho1 Ho2].
  apply (msteps_app x [l] _ ls2 z (msteps_one _ _ _ (mv_client _ _ _ _ _ _ _ x l g (ownb_own _ Ho1) Ee (fun more => client_one_sound crn opt C i _ _ _ more Eo)))).
  apply IH; assumption.
Qed.
Lemma server_several_moves n : forall x, msteps x [] (server_several ns E remote srn n x).
Proof.
  induction n as [|n IH]; cbn [server_several]; intros x; [apply ms_nil|]. destruct (n_server x) as [m|] eqn:Em; [|apply ms_nil].
  destruct (server_one ns E remote srn m (n_mem x)) as [[m' s]|] eqn:Eo; [|apply ms_nil].
  apply (msteps_app x [] _ [] _ (msteps_one _ _ _ (mv_server _ _ _ _ _ _ _ x m m' s Em (fun more => server_one_sound ns E remote srn _ _ _ _ more Eo)))). apply IH.
Qed.
Lemma not_nil {A} (l : list A) : negb (nilb l) = true -> l <> []. Proof. destruct l; [discriminate|discriminate]. Qed.
Lemma jdo_moves a x ls y : jdo a x = Some (ls, y) -> alone a x = true -> forallb ownb ls = true -> msteps x ls y.
Proof.
  destruct a as [i n|a|n|k|k]; cbn [NetCase.jdo alone]; intros H Ha Ho.
  - injection H as H. exact (client_several_moves i n _ _ _ H Ho).
  - destruct (calls a) eqn:Ec; [|discriminate H]. destruct (n_end x) eqn:Ee; [discriminate H|]. cbn [andb negb] in H.
    destruct (do_act crn opt C a (n_client x)) as [[[|l [|]] g]|] eqn:Ed; try discriminate H. injection H as <- <-. cbn [forallb] in Ho. apply andb_prop in Ho. destruct Ho as [Ho _].
    apply msteps_one, (mv_client _ _ _ _ _ _ _ x l g (ownb_own _ Ho) Ee).
    intros more. apply (do_more _ _ _ _ _ _ _ more Ec) in Ed. apply do_sound in Ed. inversion Ed as [|ls g1 l1 g2 R T E1 E2]. destruct ls as [|? [|]]; try discriminate E1.
    inversion R as [E3|? ? ? ? ? ? E3]; [|destruct ls; discriminate E3]. subst. injection E1 as <-. exact T.
  - injection H as <- <-. apply server_several_moves.
  - injection H as <- <-. apply msteps_one, mv_up; [symmetry; apply firstn_skipn|apply not_nil, Ha].
  - destruct (n_end x) eqn:Ee; [discriminate H|]. injection H as <- <-. apply msteps_one, mv_down; [symmetry; apply firstn_skipn|apply not_nil, Ha|exact Ee].
Qed.
Lemma mexec_moves l : forall x ls y, mexec l x = Some (ls, y) -> msteps x ls y.
Proof.
  induction l as [|a l IH]; cbn [mexec]; intros x ls y H; [injection H as <- <-; apply ms_nil|].
  destruct (alone a x) eqn:Ea; [|discriminate H]. destruct (jdo a x) as [[l1 y1]|] eqn:Ej; [|discriminate H]. destruct (forallb ownb l1) eqn:Eo; [|discriminate H].
  destruct (mexec l y1) as [[l2 y2]|] eqn:E2; [|discriminate H]. injection H as <- <-. eapply msteps_app; [exact (jdo_moves a _ _ _ Ej Ea Eo)|apply IH, E2].
Qed.
End Case.

Definition rest_acts : list jact := [JUp 100; JServer 2000; JDown 7; JClient 1 2000; JDown 100; JClient 1 2000; JCall (AMeet 1 0); JClient 0 2000; JCall (ADeliver 0 0); JClient 0 2000; JClient 1 2000].
Definition rest_seen : list lbl :=
  [LRead (marshalR 1 (MRversion (mkRversionPkt 8192 (str "9P2000")))); LDone 0 (marshalR 1 (MRversion (mkRversionPkt 8192 (str "9P2000"))))].
Lemma rest_computed : match first_net (str "old") with
  | Some n0 => match jexec onefile ServerWitness.quiet net_addr 0 0 (first_opt true true) 1 half_acts n0 with
               | Some (ls, n) => match mexec onefile ServerWitness.quiet net_addr 0 0 (first_opt true true) 1 rest_acts n with
                                 | Some (ls', n') => seen ls = half_seen /\ seen ls' = rest_seen /\ g_dead (n_client n') = false | None => False end
               | None => False end
  | None => False
  end.
Proof. vm_compute. repeat split; reflexivity. Qed.
Lemma half_goes_on : exists n0 l n l' n', together (str "old") n0 /\ jsteps onefile ServerWitness.quiet net_addr 0 0 (first_opt true true) 1 n0 l n /\ proper_calls (fun _ => True) l /\ (forall t, ~ In (LTag t) l) /\
  seen l = half_seen /\ msteps onefile ServerWitness.quiet net_addr 0 0 (first_opt true true) 1 n l' n' /\ seen l' = rest_seen /\ g_dead (n_client n') = false.
Proof.
  pose proof rest_computed as H. destruct (first_net (str "old")) as [n0|] eqn:E; [|contradiction]. apply first_connected in E.
  destruct (jexec _ _ _ _ _ _ _ half_acts n0) as [[l n]|] eqn:Ej; [|contradiction]. destruct (mexec _ _ _ _ _ _ _ rest_acts n) as [[l' n']|] eqn:Em; [|contradiction].
  apply jexec_sound in Ej. apply mexec_moves in Em. destruct H as (S1 & S2 & S3). exists n0, l, n, l', n'. split; [exact E|]. split; [exact Ej|].
  assert (Hin : forall y, In y l -> y <> LTau -> (forall c q, y <> LWrite c q) -> In y half_seen).
  { intros y Hy N1 N2. rewrite <- S1. unfold seen. apply in_flat_map. exists y. split; [exact Hy|]. destruct y; try (left; reflexivity); [destruct N1; reflexivity|destruct (N2 c q); reflexivity]. }
  split; [|split; [|auto]].
  - intros c q Hy. apply Hin in Hy; [|discriminate|discriminate]. destruct Hy as [Hy|[Hy|[]]]; [|discriminate Hy]. injection Hy as <- <-.
    exists m_version. split; [reflexivity|]. split; [vm_compute; repeat split; first [reflexivity | discriminate]|split; [vm_compute; reflexivity|exact Logic.I]].
  - intros t Hy. apply Hin in Hy; [|discriminate|discriminate]. destruct Hy as [Hy|[Hy|[]]]; discriminate Hy.
Qed.

(** Executions without failures, by computation. *)
From Verif Require Import Base GoBuf CodecPrim CodecLemmas Types Codec Msgs CodecSpec StubPrim Stubs Server ServerSpec ServerWitness Rpc GoSyntax Ufs GoRun GoFmt GoProg GoWp
  ServerRun ServerRunLemmas Client ClientSpec ClientRun ClientRunLemmas ClientRunSim ClientRunNew ClientHist ClientRunThm ClientRunExec ClientWell
  NetRun NetLemmas NetCase NetStore NetClient NetLive NetLiveCase NetEnds NetEnds2 NetEndsCase NetTidy NetStays NetWell.
Local Opaque NumTags all_tags.

(** Does a write fail between the two? *)
Definition failed (m m' : machine) : bool :=
  match step protocol_program m with
  | Ask (RExt f [_; VBytes _]) _ => beq f (str "io.WriteCloser.Write") && match ctl m' with CV [VI _ _; VErr _] => true | _ => false end
  | _ => false
  end.
Fixpoint none_failed (l l' : list machine) : bool := match l, l' with m :: l, m' :: l' => negb (failed m m') && none_failed l l' | _, _ => true end.
Lemma none_failed_nth l : forall l' i m m', none_failed l l' = true -> nth_error l i = Some m -> nth_error l' i = Some m' -> failed m m' = false.
Proof.
  induction l as [|x l IH]; intros [|x' l'] [|i] m m' H A B; try discriminate A; try discriminate B; cbn [none_failed] in H; apply andb_prop in H; destruct H as [H1 H2].
  - injection A as <-. injection B as <-. apply negb_true_iff, H1.
  - exact (IH _ _ _ _ H2 A B).
Qed.
Lemma none_failed_not g g' : none_failed (g_threads g) (g_threads g') = true -> ~ failing g g'.
Proof.
  intros H (i & m & x & b & m1 & z & e & Ei & Es & Et). assert (B : nth_error (g_threads g') i = Some (resume m1 [VI 64 z; VErr e])) by (rewrite Et, nth_put, Nat.eqb_refl, Ei; reflexivity).
  pose proof (none_failed_nth _ _ _ _ _ H Ei B) as F. unfold failed in F. rewrite Es in F. discriminate F.
Qed.
(** Do whole messages, and then nothing or the beginning of a message with its header, make up d? *)
Fixpoint cutb (fuel : nat) (d : bytes) : bool :=
  match fuel, d with
  | _, [] => true
  | S fuel, a :: b :: c :: e :: t :: t0 :: t1 :: r =>
      let n := unle [a; b; c; e] in (7 <=? n) && (if (N.to_nat n - 7 <=? List.length r)%nat then cutb fuel (skipn (N.to_nat n - 7) r) else true)
  | _, _ => false
  end.
Lemma framed_of a b c e t t0 t1 r : unle [a; b; c; e] = 7 + blen r -> NetLemmas.framed (a :: b :: c :: e :: t :: t0 :: t1 :: r).
Proof.
  intros H. pose proof (unle_lt [a; b; c; e]) as B1. pose proof (unle_lt [t]) as B2. pose proof (unle_lt [t0; t1]) as B3. cbn [List.length] in *.
  change (cap 4) with 4294967296 in B1. change (cap 1) with 256 in B2. change (cap 2) with 65536 in B3.
  exists (unle [t]), (unle [t0; t1]), r. split; [|split; [assumption|split; [assumption|congruence]]].
  unfold raw. rewrite <- H. rewrite !le_unle by reflexivity. reflexivity.
Qed.
Lemma cut_cons o d : NetLemmas.framed o -> cut d -> cut (o ++ d).
Proof. intros H (os & p & q & -> & H1 & H2). exists (o :: os), p, q. cbn [concat]. rewrite app_assoc. auto. Qed.
Lemma cutb_cut fuel : forall d, cutb fuel d = true -> cut d.
Proof.
  induction fuel as [|fuel IH]; intros d H; [destruct d; [apply cut_nil|discriminate H]|].
  do 7 (destruct d as [|? d]; [first [apply cut_nil|discriminate H]|]). cbn [cutb] in H. apply andb_prop in H. destruct H as [H1 H2]. apply N.leb_le in H1.
  destruct (Nat.leb_spec (N.to_nat (unle [b; b0; b1; b2]) - 7) (List.length d)) as [L|L].
  - apply IH in H2. set (n := (N.to_nat (unle [b; b0; b1; b2]) - 7)%nat) in *.
    replace (b :: b0 :: b1 :: b2 :: b3 :: b4 :: b5 :: d) with ((b :: b0 :: b1 :: b2 :: b3 :: b4 :: b5 :: firstn n d) ++ skipn n d) by (cbn [app]; rewrite firstn_skipn; reflexivity).
    apply cut_cons; [|exact H2]. apply framed_of. unfold blen. rewrite firstn_length. lia.
  - exists [], (b :: b0 :: b1 :: b2 :: b3 :: b4 :: b5 :: d), (repeat x00 (N.to_nat (unle [b; b0; b1; b2]) - 7 - List.length d)). cbn [concat app]. split; [reflexivity|]. split; [constructor|]. right.
    split; [|cbn [List.length]; lia]. apply framed_of. unfold blen. rewrite app_length, repeat_length. lia.
Qed.

Section Case.
Context {St : Type} (ns : NineServer St) (E : Server.env) (remote : bytes) (srn : N) (crn : N) (opt : oserr + (value * value * value * N)) (C : N) (ok : bytes -> Prop) (okb : bytes -> bool).
Context (okb_ok : forall d, okb d = true -> ok d).
Notation net := (@net St).
Notation wstep := (wstep ns E remote srn crn opt C ok).
Notation wsteps := (wsteps ns E remote srn crn opt C ok).
Notation wmoves := (wmoves ns E remote srn crn opt C ok).
Inductive chain (x : net) (u d : bytes) : list lbl -> net -> bytes -> bytes -> Prop :=
| c_nil : chain x u d [] x u d
| c_cons l y u1 d1 ls z u2 d2 : wstep x u d l y u1 d1 -> chain y u1 d1 ls z u2 d2 -> chain x u d (l ++ ls) z u2 d2.
Lemma chain_one x u d l y u1 d1 : wstep x u d l y u1 d1 -> chain x u d l y u1 d1.
Proof. intros H. rewrite <- (app_nil_r l). eapply c_cons; [exact H|apply c_nil]. Qed.
Lemma chain_app x u d l y u1 d1 ls z u2 d2 : chain x u d l y u1 d1 -> chain y u1 d1 ls z u2 d2 -> chain x u d (l ++ ls) z u2 d2.
Proof. intros H K. induction H as [|x u d l y u1 d1 l1 z1 u3 d3 H H1 IH]; [exact K|]. rewrite <- app_assoc. eapply c_cons; [exact H|auto]. Qed.
Lemma chain_wsteps n0 l n u d ls y u1 d1 : wsteps n0 l n u d -> chain n u d ls y u1 d1 -> wsteps n0 (l ++ ls) y u1 d1.
Proof. intros R H. revert l R. induction H as [|x u d l1 y u1 d1 ls z u2 d2 H H1 IH]; intros l R; [rewrite app_nil_r; exact R|]. rewrite app_assoc. apply IH. eapply ws_snoc; eassumption. Qed.
Lemma chain_wmoves n0 u0 d0 l n u d ls y u1 d1 : wmoves n0 u0 d0 l n u d -> chain n u d ls y u1 d1 -> forallb ownb ls = true -> wmoves n0 u0 d0 (l ++ ls) y u1 d1.
Proof.
  intros R H. revert l R. induction H as [|x u d l1 y u1 d1 ls z u2 d2 H H1 IH]; intros l R Ho; [rewrite app_nil_r; exact R|]. rewrite forallb_app in Ho. apply andb_prop in Ho. destruct Ho as [Ho1 Ho2].
  rewrite app_assoc. apply IH; [|exact Ho2]. eapply wm_snoc; [exact R|exact H|]. intros a Ha. rewrite forallb_forall in Ho1. apply ownb_own, Ho1, Ha.
Qed.
Fixpoint wclient (i n : nat) (x : net) : list lbl * net :=
  match n with
  | O => ([], x)
  | S n => if n_end x then ([], x) else
           match client_one crn opt i (n_client x) with
           | Some (l, g) => if none_failed (g_threads (n_client x)) (g_threads g) then
                              let '(ls, y) := wclient i n (mkNet g (n_up x ++ sent l) (n_server x) (n_mem x) (n_down x) false) in (l :: ls, y)
                            else ([], x)
           | None => ([], x)
           end
  end.
Definition wdo (a : jact) (x : net) (u d : bytes) : option (list lbl * (net * bytes * bytes)) :=
  match a with
  | JClient i n => let '(ls, y) := wclient i n x in Some (ls, (y, u, d))
  | JCall a => if calls a && negb (n_end x) then
                 match do_act crn opt C a (n_client x) with
                 | Some ([l], g) => if none_failed (g_threads (n_client x)) (g_threads g) then Some ([l], (mkNet g (n_up x ++ sent l) (n_server x) (n_mem x) (n_down x) false, u, d)) else None
                 | _ => None
                 end
               else None
  | JServer n => Some ([], (server_several ns E remote srn n x, u, d))
  | JUp k => let c := firstn k (n_up x) in
             if negb (nilb c) && okb (u ++ c) then Some ([], (mkNet (n_client x) (skipn k (n_up x)) (n_server x) (more_in (n_mem x) [Chunk c]) (n_down x) (n_end x), u ++ c, d)) else None
  | JDown k => let c := firstn k (n_down x) in
               if negb (n_end x) && (negb (nilb c) && okb (d ++ c)) then Some ([], (mkNet (more_net (n_client x) [Chunk c]) (n_up x) (n_server x) (n_mem x) (skipn k (n_down x)) false, u, d ++ c)) else None
  end.
Fixpoint wexec (l : list jact) (x : net) (u d : bytes) : option (list lbl * (net * bytes * bytes)) :=
  match l with
  | [] => Some ([], (x, u, d))
  | a :: l => match wdo a x u d with
              | Some (ls, (y, u1, d1)) => match wexec l y u1 d1 with Some (ls', z) => Some (ls ++ ls', z) | None => None end
              | None => None
              end
  end.
Lemma wclient_chain i n u d : forall x ls y, wclient i n x = (ls, y) -> chain x u d ls y u d.
Proof.
  induction n as [|n IH]; cbn [wclient]; intros x ls y H; [injection H as <- <-; apply c_nil|].
  destruct (n_end x) eqn:Ee; [injection H as <- <-; apply c_nil|]. destruct (client_one crn opt i (n_client x)) as [[l g]|] eqn:Eo; [|injection H as <- <-; apply c_nil].
  destruct (none_failed _ _) eqn:Ef; [|injection H as <- <-; apply c_nil]. destruct (wclient i n _) as [ls2 z] eqn:E2. injection H as <- <-.
  apply (c_cons x u d [l] _ u d ls2 z u d (wl_client _ _ _ _ _ _ _ _ x u d l g Ee (fun more => client_one_sound crn opt C i _ _ _ more Eo) (none_failed_not _ _ Ef))).
  apply IH; assumption.
Qed.
Lemma wserver_chain n u d : forall x, chain x u d [] (server_several ns E remote srn n x) u d.
Proof.
  induction n as [|n IH]; cbn [server_several]; intros x; [apply c_nil|]. destruct (n_server x) as [m|] eqn:Em; [|apply c_nil].
  destruct (server_one ns E remote srn m (n_mem x)) as [[m' s]|] eqn:Eo; [|apply c_nil].
  apply (c_cons x u d [] _ u d [] _ u d (wl_server _ _ _ _ _ _ _ _ x u d m m' s Em (fun more => server_one_sound ns E remote srn _ _ _ _ more Eo))). apply IH.
Qed.
Lemma wdo_chain a x u d ls y u1 d1 : wdo a x u d = Some (ls, (y, u1, d1)) -> chain x u d ls y u1 d1.
Proof.
  destruct a as [i n|a|n|k|k]; cbn [wdo]; intros H.
  - destruct (wclient i n x) as [l z] eqn:Ew. injection H as <- <- <- <-. exact (wclient_chain i n _ _ _ _ _ Ew).
  - destruct (calls a) eqn:Ec; [|discriminate H]. destruct (n_end x) eqn:Ee; [discriminate H|]. cbn [andb negb] in H.
    destruct (do_act crn opt C a (n_client x)) as [[[|l [|]] g]|] eqn:Ed; try discriminate H. destruct (none_failed _ _) eqn:Ef; [|discriminate H]. injection H as <- <- <- <-.
    apply chain_one, (wl_client _ _ _ _ _ _ _ _ x u d l g Ee); [|exact (none_failed_not _ _ Ef)].
    intros more. apply (do_more _ _ _ _ _ _ _ more Ec) in Ed. apply do_sound in Ed. inversion Ed as [|ls g1 l1 g2 R T E1 E2]. destruct ls as [|? [|]]; try discriminate E1.
    inversion R as [E3|? ? ? ? ? ? E3]; [|destruct ls; discriminate E3]. subst. injection E1 as <-. exact T.
  - injection H as <- <- <- <-. apply wserver_chain.
  - destruct (nilb (firstn k (n_up x))) eqn:En; [discriminate H|]. destruct (okb (u ++ firstn k (n_up x))) eqn:Eo; [|discriminate H]. injection H as <- <- <- <-.
    apply chain_one, wl_up; [symmetry; apply firstn_skipn|apply not_nil; rewrite En; reflexivity|apply okb_ok, Eo].
  - destruct (n_end x) eqn:Ee; [discriminate H|]. destruct (nilb (firstn k (n_down x))) eqn:En; [discriminate H|]. destruct (okb (d ++ firstn k (n_down x))) eqn:Eo; [|discriminate H]. injection H as <- <- <- <-.
    apply chain_one, wl_down; [symmetry; apply firstn_skipn|apply not_nil; rewrite En; reflexivity|apply okb_ok, Eo|exact Ee].
Qed.
Lemma wexec_chain l : forall x u d ls y u1 d1, wexec l x u d = Some (ls, (y, u1, d1)) -> chain x u d ls y u1 d1.
Proof.
  induction l as [|a l IH]; cbn [wexec]; intros x u d ls y u1 d1 H; [injection H as <- <- <- <-; apply c_nil|].
  destruct (wdo a x u d) as [[l1 [[y1 u2] d2]]|] eqn:Ej; [|discriminate H].
  destruct (wexec l y1 u2 d2) as [[l2 y2]|] eqn:E2; [|discriminate H]. injection H as <- ->. eapply chain_app; [exact (wdo_chain a _ _ _ _ _ _ _ Ej)|apply IH, E2].
Qed.
End Case.

Notation WEXEC okb := (wexec onefile ServerWitness.quiet net_addr 0 0 (first_opt true true) 1 okb).
Notation WSTEPS ok := (wsteps onefile ServerWitness.quiet net_addr 0 0 (first_opt true true) 1 ok).
Notation WMOVES ok := (wmoves onefile ServerWitness.quiet net_addr 0 0 (first_opt true true) 1 ok).
(** The call of NetLiveCase, whose request arrives in two pieces and whose answer arrives in two. *)
Lemma well_computed : match first_net (str "old") with
  | Some n0 => match WEXEC (cutb 9) half_acts n0 [] [] with
               | Some (ls, (n, u, d)) => match WEXEC (cutb 9) rest_acts n u d with
                                 | Some (ls', (n', u', d')) => seen ls = half_seen /\ seen ls' = rest_seen /\ forallb ownb ls' = true /\
                                     u = firstn 12 (marshalT 1 m_version) /\ d = [] /\ u' = marshalT 1 m_version /\ d' = marshalR 1 (MRversion (mkRversionPkt 8192 (str "9P2000"))) | None => False end
               | None => False end
  | None => False
  end.
Proof. vm_compute. repeat split; reflexivity. Qed.
(** The same call, when only three bytes of the answer arrive. *)
Definition third_acts : list jact := half_acts ++ [JUp 100; JServer 2000; JDown 3; JClient 1 2000].
Lemma third_computed : match first_net (str "old") with
  | Some n0 => match WEXEC (fun _ => true) third_acts n0 [] [] with
               | Some (ls, (n, u, d)) => seen ls = half_seen ++ [LEof] /\ u = marshalT 1 m_version /\ d = firstn 3 (marshalR 1 (MRversion (mkRversionPkt 8192 (str "9P2000"))))
               | None => False end
  | None => False
  end.
Proof. vm_compute. repeat split; reflexivity. Qed.
Lemma onefile_answers x : answering (fun _ => True) onefile x.
Proof.
  intros reqs _. revert x. generalize false. induction reqs as [|[t m] reqs IH]; intros o x; [discriminate|]. cbn [answers].
  destruct (ServerSpec.answer onefile o x m) as [[[o' x'] r]|] eqn:Ea.
  - specialize (IH o' x'). destruct (answers onefile o' x' reqs) as [[? ?]|]; [discriminate|exact IH].
  - exfalso. destruct m as [[]|[]|[]|[]|[]|[]|[]|[]|[]|[]|[]|[]], o; discriminate Ea.
Qed.
Lemma half_proper l : seen l = half_seen -> proper_calls (fun _ => True) l /\ forall t, ~ In (LTag t) l.
Proof.
  intros S1. assert (Hin : forall y, In y l -> y <> LTau -> (forall c q, y <> LWrite c q) -> In y half_seen).
  { intros y Hy N1 N2. rewrite <- S1. unfold seen. apply in_flat_map. exists y. split; [exact Hy|]. destruct y; try (left; reflexivity); [destruct N1; reflexivity|destruct (N2 c q); reflexivity]. }
  split.
  - intros c q Hy. apply Hin in Hy; [|discriminate|discriminate]. destruct Hy as [Hy|[Hy|[]]]; [|discriminate Hy]. injection Hy as <- <-.
    exists m_version. split; [reflexivity|]. split; [vm_compute; repeat split; first [reflexivity | discriminate]|split; [vm_compute; reflexivity|exact Logic.I]].
  - intros t Hy. apply Hin in Hy; [|discriminate|discriminate]. destruct Hy as [Hy|[Hy|[]]]; discriminate Hy.
Qed.
Lemma well_goes_on : exists n0 l n l' n', together (str "old") n0 /\ WSTEPS cut n0 l n (firstn 12 (marshalT 1 m_version)) [] /\ proper_calls (fun _ => True) l /\ (forall t, ~ In (LTag t) l) /\ seen l = half_seen /\
  WMOVES cut n (firstn 12 (marshalT 1 m_version)) [] l' n' (marshalT 1 m_version) (marshalR 1 (MRversion (mkRversionPkt 8192 (str "9P2000")))) /\ seen l' = rest_seen.
Proof.
  pose proof well_computed as H. destruct (first_net (str "old")) as [n0|] eqn:E; [|contradiction]. apply first_connected in E.
  destruct (WEXEC (cutb 9) half_acts n0 [] []) as [[l [[n u] d]]|] eqn:Ej; [|contradiction]. destruct (WEXEC (cutb 9) rest_acts n u d) as [[l' [[n' u'] d']]|] eqn:Em; [|contradiction].
  destruct H as (S1 & S2 & S3 & -> & -> & -> & ->). apply (wexec_chain _ _ _ _ _ _ _ cut _ (cutb_cut 9)) in Ej. apply (wexec_chain _ _ _ _ _ _ _ cut _ (cutb_cut 9)) in Em.
  destruct (half_proper _ S1) as [P1 P2]. exists n0, l, n, l', n'. split; [exact E|]. split; [exact (chain_wsteps _ _ _ _ _ _ _ _ n0 [] _ _ _ _ _ _ _ (ws_nil _ _ _ _ _ _ _ _ _) Ej)|]. split; [exact P1|]. split; [exact P2|]. split; [exact S1|].
  split; [|exact S2]. exact (chain_wmoves _ _ _ _ _ _ _ _ n _ _ [] _ _ _ _ _ _ _ (wm_nil _ _ _ _ _ _ _ _ _ _ _) Em S3).
Qed.
(** Without a failure, but when a piece ends inside a header, the client takes the connection to be at its end. *)
Lemma pieces_end : exists n0 l n, together (str "old") n0 /\ WSTEPS (fun _ => True) n0 l n (marshalT 1 m_version) (firstn 3 (marshalR 1 (MRversion (mkRversionPkt 8192 (str "9P2000"))))) /\ proper_calls (fun _ => True) l /\ In LEof l.
Proof.
  pose proof third_computed as H. destruct (first_net (str "old")) as [n0|] eqn:E; [|contradiction]. apply first_connected in E.
  destruct (WEXEC (fun _ => true) third_acts n0 [] []) as [[l [[n u] d]]|] eqn:Ej; [|contradiction]. destruct H as (S1 & -> & ->).
  apply (wexec_chain _ _ _ _ _ _ _ (fun _ => True) _ (fun _ _ => I)) in Ej. exists n0, l, n. split; [exact E|]. split; [exact (chain_wsteps _ _ _ _ _ _ _ _ n0 [] _ _ _ _ _ _ _ (ws_nil _ _ _ _ _ _ _ _ _) Ej)|].
  assert (Hin : forall y, In y l -> y <> LTau -> (forall c q, y <> LWrite c q) -> In y (half_seen ++ [LEof])).
  { intros y Hy N1 N2. rewrite <- S1. unfold seen. apply in_flat_map. exists y. split; [exact Hy|]. destruct y; try (left; reflexivity); [destruct N1; reflexivity|destruct (N2 c q); reflexivity]. }
  split.
  - intros c q Hy. apply Hin in Hy; [|discriminate|discriminate]. destruct Hy as [Hy|[Hy|[Hy|[]]]]; try discriminate Hy. injection Hy as <- <-.
    exists m_version. split; [reflexivity|]. split; [vm_compute; repeat split; first [reflexivity | discriminate]|split; [vm_compute; reflexivity|exact Logic.I]].
  - assert (X : In LEof (seen l)) by (rewrite S1; right; right; left; reflexivity). unfold seen in X. apply in_flat_map in X. destruct X as (y & Hy & X). destruct y; try contradiction X; destruct X as [X|[]]; try discriminate X. exact Hy.
Qed.

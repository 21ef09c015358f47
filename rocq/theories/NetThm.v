(** A client and a server that run from their texts: all executions. *)
From Verif Require Import Base GoBuf CodecPrim CodecLemmas Types Codec Msgs CodecSpec StubPrim Stubs Server ServerSpec ServerLemmas ServerLemmas4 Rpc GoSyntax Ufs GoRun GoFmt GoProg GoWp
  ServerRun ServerRunLemmas ServerRunThm Client ClientSpec ClientLemmas7 ClientRun ClientRunSim ClientHist ClientRunThm NetRun NetLemmas NetModel NetServer NetWait2.
Local Opaque NumTags all_tags.

(** * More arrives *)
Lemma more_in_more {St} (s : memory (cworld St)) a b : more_in (more_in s a) b = more_in s (a ++ b).
Proof. destruct s as [hp nx [i o op x n tr st]]. unfold more_in, upd_in, with_rest. cbn. rewrite app_assoc. reflexivity. Qed.
Lemma more_in_nil {St} (s : memory (cworld St)) : more_in s [] = s.
Proof. destruct s as [hp nx [i o op x n tr st]]. unfold more_in, upd_in, with_rest. cbn. rewrite app_nil_r. reflexivity. Qed.
Lemma more_net_more g a b : more_net (more_net g a) b = more_net g (a ++ b).
Proof. destruct g as [ths [hp nx [ch n net gs]] us d]. unfold more_net, more_mem, with_rest. cbn. rewrite app_assoc. reflexivity. Qed.
Lemma more_net_nil g : more_net g [] = g.
Proof. destruct g as [ths [hp nx [ch n net gs]] us d]. unfold more_net, more_mem, with_rest. cbn. rewrite app_nil_r. reflexivity. Qed.
Lemma all_nil_eq (L L' : list value) n : List.length L = n -> List.length L' = n -> (forall i, (i < n)%nat -> nth_error L i = Some VNil) -> (forall i, (i < n)%nat -> nth_error L' i = Some VNil) -> L = L'.
Proof.
  revert L L'. induction n as [|n IH]; intros [|a L] [|a' L'] H1 H2 H3 H4; try discriminate; [reflexivity|]. f_equal.
  - specialize (H3 0%nat ltac:(lia)). specialize (H4 0%nat ltac:(lia)). cbn in *. congruence.
  - apply IH; [cbn in H1; lia|cbn in H2; lia| |]; intros i Hi; [apply (H3 (S i)); lia|apply (H4 (S i)); lia].
Qed.
(** Nothing NewClient does depends on what will arrive. *)
Lemma opened_more RN opt tr hn C g A : opened RN opt [] tr hn C g -> opened RN opt A tr hn C (more_net g A).
Proof.
  intros [(hp & ch & n & wn & rn & tn & msz & o & s & -> & Hn & Hf & Hx & He & (S1 & S2 & S3 & S4 & S5) & Ht) Hu Hd].
  destruct (text_new RN wn rn tn msz tr hn o (mkMem hp C (mkNW ch n [] []))) as (s' & He' & ((L & N1 & N2 & N3) & N4 & N5 & N6 & N7 & N8 & N9 & N10 & N11) & N12).
  destruct (text_new RN wn rn tn msz tr hn o (mkMem hp C (mkNW ch n A []))) as (s2 & He2 & ((L2 & M1 & M2 & M3) & M4 & M5 & M6 & M7 & M8 & M9 & M10 & M11) & M12).
  cbn [rest cells free w_gos w_net w_next w_chans app] in *.
  destruct (ends_unique _ _ _ _ _ _ _ _ He He') as [_ <-]. clear He'.
  assert (L2 = L) as -> by (apply (all_nil_eq L2 L NumTags); assumption).
  constructor; [|exact Hu|exact Hd].
  exists hp, ch, n, wn, rn, tn, msz, o, s2. split; [reflexivity|]. split; [exact Hn|]. split; [exact Hf|]. split; [exact Hx|]. split; [exact He2|].
  destruct g as [ths [hp1 nx1 [ch1 n1 net1 g1]] us dead]. cbn [more_net more_mem with_rest g_threads g_mem cells free rest w_chans w_next w_net] in *. split.
  - unfold same_memory, with_rest. cbn [cells free rest w_chans w_next w_net]. split; [|split; [|split; [|split]]].
    + intros a. rewrite <- S1. destruct (N.eq_dec a C) as [->|Ha]; [congruence|]. rewrite M4, N4 by exact Ha. reflexivity.
    + rewrite M5, <- S2, N5. reflexivity.
    + intros x. rewrite <- S3. destruct (N.eq_dec x n) as [->|]; [congruence|]. destruct (N.eq_dec x (n + 1)) as [->|]; [congruence|]. destruct (N.eq_dec x (n + 2)) as [->|]; [congruence|].
      rewrite M9, N9 by lia. reflexivity.
    + rewrite M10, <- S4, N10. reflexivity.
    + rewrite M11, <- S5, N11. reflexivity.
  - rewrite Ht, N12, M12. reflexivity.
Qed.

(** * Streams *)
Lemma received_app a b : received (a ++ b) = received a ++ (if intact a then received b else []).
Proof. induction a as [|[c|] a IH]; [reflexivity| |]; cbn [app received intact]; [|reflexivity]. rewrite IH, app_assoc. reflexivity. Qed.
Lemma intact_snoc a c : intact (a ++ [Chunk c]) = intact a.
Proof. induction a as [|[x|] a IH]; [reflexivity|exact IH|reflexivity]. Qed.
Lemma intact_err a : intact (a ++ [RdErr]) = false.
Proof. induction a as [|[x|] a IH]; [reflexivity|exact IH|reflexivity]. Qed.
Lemma received_err a : received (a ++ [RdErr]) = received a.
Proof. rewrite received_app. destruct (intact a); apply app_nil_r. Qed.
Lemma firstn_answers {St} (ns : NineServer St) l v s reps st n : answers ns v s l = Some (reps, st) -> (n <= List.length reps)%nat -> exists st', answers ns v s (firstn n l) = Some (firstn n reps, st').
Proof.
  intros H Hn. rewrite <- (firstn_skipn n l) in H. destruct (answers_app _ _ _ _ _ _ H) as (r1 & v1 & s1 & r2 & A & B & D). cbn [fst] in D. subst reps.
  assert (Hl : List.length r1 = n).
  { pose proof (answers_length _ _ _ _ _ _ A) as X. apply (f_equal (@List.length N)) in X. rewrite !map_length in X. rewrite X, firstn_length.
    pose proof (answers_length _ _ _ _ _ _ H) as Y. apply (f_equal (@List.length N)) in Y. rewrite !map_length in Y. rewrite firstn_skipn in Y. cbn [fst] in Y. lia. }
  exists (v1, s1). rewrite A, firstn_app, Hl, Nat.sub_diag, <- Hl, firstn_all. cbn [firstn]. rewrite app_nil_r. reflexivity.
Qed.
Lemma ok_all K reqs : Forall (ok_in K) reqs -> Forall ok_req reqs.
Proof. apply Forall_impl. intros y [H _]. exact H. Qed.
Lemma ok_firstn K n reqs : Forall (ok_in K) reqs -> Forall (ok_in K) (firstn n reqs).
Proof. intros H. rewrite <- (firstn_skipn n reqs) in H. apply Forall_app in H. apply H. Qed.
Lemma requests_of K ws : (forall w, In w ws -> exists x, w = enc_req x /\ ok_in K x /\ good_tag (fst x)) -> exists reqs, ws = map enc_req reqs /\ Forall (ok_in K) reqs /\ Forall (fun x => good_tag (fst x)) reqs.
Proof.
  induction ws as [|w ws IH]; intros H; [exists []; repeat constructor|].
  destruct (H w (or_introl eq_refl)) as (x & -> & H1 & H2). destruct IH as (reqs & -> & H3 & H4); [intros; apply H; right; assumption|].
  exists (x :: reqs). split; [reflexivity|]. split; constructor; assumption.
Qed.
Lemma prefix_firstn {A} (a b c : list A) : a ++ b = c -> a = firstn (List.length a) c.
Proof. intros <-. rewrite firstn_app, firstn_all, Nat.sub_diag. cbn. rewrite app_nil_r. reflexivity. Qed.

Section Net.
Context {St : Type} (ns : NineServer St) (E : Server.env) (remote : bytes) (srn crn : N) (opt : oserr + (value * value * value * N)) (C : N).
Context (HE : forall j, e_write E j = None) (x : St).
Notation jsteps := (jsteps ns E remote srn crn opt C).
Notation jstep := (jstep ns E remote srn crn opt C).
Notation tsteps := (tsteps crn opt C).

Record inv (g0 : gstate) (m1 : machine) (s1 : memory (cworld St)) (l : list lbl) (n : net) (U D : list rev) : Prop := {
  v_client : if n_end n then tsteps (more_net g0 D) l (n_client n) else forall more, tsteps (more_net g0 (D ++ more)) l (more_net (n_client n) more);
  v_server : forall more, sruns ns E remote srn m1 (more_in s1 (U ++ more)) (n_server n) (more_in (n_mem n) more);
  v_up : exists tail, received U ++ tail = concat (writes l) /\ (intact U = true -> tail = n_up n);
  v_down : exists os ot tail, w_out (rest (n_mem n)) = os ++ ot /\ received D ++ tail = concat os /\
             (intact D = true -> if n_end n then tail = [] else ot = [] /\ tail = n_down n);
  v_patient : forall m, n_server n = Some m -> pruns ns E remote srn m1 (more_in s1 U) m (n_mem n)
}.
Lemma w_out_more s a : w_out (rest (@more_in St s a)) = w_out (rest s).
Proof. reflexivity. Qed.
Lemma jstep_inv g0 m1 s1 l n U D y n' : inv g0 m1 s1 l n U D -> jstep n y n' -> exists U' D', inv g0 m1 s1 (l ++ y) n' U' D'.
Proof.
  intros [A B (ta & F1 & F2) (os & ot & tb & G0 & G1 & G2) Pt] S. destruct S as [y g He Ht|y g He Ht|m m' s Hm Hs|c up Hu|c dn Hd He| |He|Ho Hd].
  - exists U, D. rewrite He in *. constructor; cbn [n_client n_up n_server n_mem n_down n_end]; try assumption.
    + intros more. eapply ts_snoc; [apply A|apply Ht].
    + exists (ta ++ sent y). rewrite writes_app, concat_app, app_assoc, F1. split; [f_equal; destruct y; cbn; rewrite ?app_nil_r; reflexivity|]. intros H. rewrite (F2 H). reflexivity.
    + exists os, ot, tb. auto.
  - exists U, D. rewrite He in *. constructor; cbn [n_client n_up n_server n_mem n_down n_end]; try assumption.
    + eapply ts_snoc; [apply A|apply Ht].
    + exists (ta ++ sent y). rewrite writes_app, concat_app, app_assoc, F1. split; [f_equal; destruct y; cbn; rewrite ?app_nil_r; reflexivity|]. intros H. rewrite (F2 H). reflexivity.
    + exists os, ot, tb. auto.
  - exists U, D. rewrite app_nil_r. pose proof (Hs []) as H0. apply sstep_grows in H0. destruct H0 as (new & H0). rewrite !w_out_more in H0.
    constructor; cbn [n_client n_up n_server n_mem n_down n_end]; try assumption.
    + intros more. eapply sr_snoc; [rewrite <- Hm; apply B|apply Hs].
    + exists ta. auto.
    + rewrite H0. rewrite skipn_app, skipn_all, Nat.sub_diag. cbn [app skipn].
      destruct (n_end n) eqn:En.
      * exists os, (ot ++ new), tb. rewrite G0, app_assoc. auto.
      * destruct (intact D) eqn:Ei.
        -- destruct (G2 eq_refl) as [-> ->]. exists (os ++ new), [], (n_down n ++ concat new). rewrite G0, !app_nil_r, concat_app, app_assoc, G1. auto.
        -- exists os, (ot ++ new), tb. rewrite G0, app_assoc. split; [reflexivity|]. split; [exact G1|]. discriminate.
    + intros m2 ->. specialize (Hs []) as H1. rewrite !more_in_nil in H1. eapply pr_snoc; [exact (Pt _ Hm)|exact (uniform_ready _ _ _ _ _ _ _ _ Hs)|exact H1].
  - rewrite app_nil_r. exists (U ++ [Chunk c]), D. constructor; cbn [n_client n_up n_server n_mem n_down n_end]; try assumption.
    + intros more. rewrite more_in_more, <- app_assoc. cbn [app]. apply B.
    + rewrite received_app, intact_snoc. destruct (intact U) eqn:Ei.
      * specialize (F2 eq_refl). subst ta. rewrite Hu in F1. exists up. cbn [received]. rewrite app_nil_r, <- app_assoc. split; [exact F1|reflexivity].
      * exists ta. rewrite app_nil_r. split; [exact F1|discriminate].
    + exists os, ot, tb. auto.
    + intros m Hm. rewrite <- more_in_more. apply pruns_more, Pt, Hm.
  - rewrite app_nil_r. rewrite He in *. exists U, (D ++ [Chunk c]). constructor; cbn [n_client n_up n_server n_mem n_down n_end]; try assumption.
    + intros more. rewrite more_net_more, <- app_assoc. cbn [app]. apply A.
    + exists ta. auto.
    + rewrite received_app, intact_snoc. destruct (intact D) eqn:Ei.
      * destruct (G2 eq_refl) as [-> ->]. exists os, [], dn. rewrite Hd in G1. split; [exact G0|]. split; [|auto]. cbn [received]. rewrite app_nil_r, <- app_assoc. exact G1.
      * exists os, ot, tb. split; [exact G0|]. rewrite app_nil_r. split; [exact G1|discriminate].
  - rewrite app_nil_r. exists (U ++ [RdErr]), D. constructor; cbn [n_client n_up n_server n_mem n_down n_end]; try assumption.
    + intros more. rewrite more_in_more, <- app_assoc. cbn [app]. apply B.
    + rewrite received_err, intact_err. exists ta. split; [exact F1|discriminate].
    + exists os, ot, tb. auto.
    + intros m Hm. rewrite <- more_in_more. apply pruns_more, Pt, Hm.
  - rewrite app_nil_r. rewrite He in *. exists U, (D ++ [RdErr]). constructor; cbn [n_client n_up n_server n_mem n_down n_end]; try assumption.
    + intros more. rewrite more_net_more, <- app_assoc. cbn [app]. apply A.
    + exists ta. auto.
    + rewrite received_err, intact_err. exists os, ot, tb. split; [exact G0|]. split; [exact G1|discriminate].
  - rewrite app_nil_r. exists U, D. constructor; cbn [n_client n_up n_server n_mem n_down n_end]; try assumption.
    + destruct (n_end n); [exact A|]. specialize (A []). rewrite app_nil_r, more_net_nil in A. exact A.
    + exists ta. auto.
    + exists os, ot, tb. split; [exact G0|]. split; [exact G1|]. intros Hi. specialize (G2 Hi). destruct (n_end n); [exact G2|]. destruct G2 as [_ ->]. exact Hd.
Qed.

Context (tr hn : bool) (n0 : net) (HC : connected ns E remote srn crn opt C tr hn x n0).
Lemma start_inv : exists m1, accepted ns E remote srn x m1 (n_mem n0) /\ opened crn opt [] tr hn C (n_client n0) /\ inv (n_client n0) m1 (n_mem n0) [] n0 [] [].
Proof.
  destruct HC as (H1 & (m1 & H2 & H3) & H4 & H5 & H6). exists m1. split; [exact H3|]. split; [exact H1|].
  destruct (accepted_serves _ _ _ _ _ _ _ H3) as (_ & Ho & _). constructor.
  - rewrite H6. intros more. cbn [app]. constructor.
  - intros more. rewrite H2. cbn [app]. constructor.
  - exists []. rewrite H4. auto.
  - exists [], [], []. rewrite H5, H6, Ho. auto.
  - intros m Hm. rewrite H2 in Hm. injection Hm as <-. rewrite more_in_nil. constructor.
Qed.
Lemma jsteps_inv m1 l n : inv (n_client n0) m1 (n_mem n0) [] n0 [] [] -> jsteps n0 l n -> exists U D, inv (n_client n0) m1 (n_mem n0) l n U D.
Proof.
  intros H0 R. induction R as [|l y z n' R IH S]; [eauto|]. destruct IH as (U & D & H). exact (jstep_inv _ _ _ _ _ _ _ _ _ H S).
Qed.
(** The client's part. *)
Lemma client_part m1 l n U D : opened crn opt [] tr hn C (n_client n0) -> inv (n_client n0) m1 (n_mem n0) l n U D ->
  exists net ls k, csteps tr (init hn) ls k /\ seen ls = seen l /\ crashed k = g_dead (n_client n) /\ (exists up, packets net = reads l ++ up) /\
    received net = received D /\ (if n_end n then net = D else intact net = false).
Proof.
  intros O [A _ _ _ _]. destruct (n_end n).
  - destruct (text_client _ _ _ _ _ _ _ _ _ (opened_more _ _ _ _ _ _ D O) A) as (ls & k & H1 & H2 & H3 & H4 & _).
    exists D, ls, k. auto 10.
  - specialize (A [RdErr]). destruct (text_client _ _ _ _ _ _ _ _ _ (opened_more _ _ _ _ _ _ (D ++ [RdErr]) O) A) as (ls & k & H1 & H2 & H3 & H4 & _).
    exists (D ++ [RdErr]), ls, k. rewrite received_err, intact_err. auto 10.
Qed.
End Net.

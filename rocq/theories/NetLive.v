(** A client and a server that run from their texts: as long as a call has no answer, something can happen. *)
From Verif Require Import Base GoBuf CodecPrim CodecLemmas Types Codec Msgs CodecSpec StubPrim Stubs Server ServerSpec ServerLemmas ServerLemmas4 Rpc GoSyntax Ufs GoRun GoFmt GoProg GoWp
  ServerRun ServerRunLemmas ServerRunThm Client ClientSpec ClientLemmas ClientLemmas2 ClientLemmas3 ClientLemmas4 ClientLemmas7 ClientRun ClientRunText ClientRunSim ClientRunSim6 ClientHist ClientRunThm
  NetRun NetLemmas NetCase NetEats NetModel NetServer NetWait2 NetThm NetThm2 NetClient.
Local Opaque NumTags all_tags.

Section Net.
Context {St : Type} (ns : NineServer St) (E : Server.env) (remote : bytes) (srn crn : N) (opt : oserr + (value * value * value * N)) (C : N).
Notation tstep := (tstep crn opt C).
(** What happens by itself: the client goes on, without a new call; the server goes on; bytes arrive; the client finds the end of the
    connection that the server has closed. *)
Inductive moves (x : net) : list lbl -> net -> Prop :=
| mv_client l g : own l -> n_end x = false -> (forall more, tstep (more_net (n_client x) more) l (more_net g more)) ->
    moves x [l] (mkNet g (n_up x ++ sent l) (n_server x) (n_mem x) (n_down x) false)
| mv_ended l g : own l -> n_end x = true -> tstep (n_client x) l g ->
    moves x [l] (mkNet g (n_up x ++ sent l) (n_server x) (n_mem x) (n_down x) true)
| mv_server m m' s : n_server x = Some m -> (forall more, sstep ns E remote srn m (more_in (n_mem x) more) m' (more_in s more)) ->
    moves x [] (mkNet (n_client x) (n_up x) m' s (n_down x ++ concat (skipn (List.length (w_out (rest (n_mem x)))) (w_out (rest s)))) (n_end x))
| mv_up c up : n_up x = c ++ up -> c <> [] -> moves x [] (mkNet (n_client x) up (n_server x) (more_in (n_mem x) [Chunk c]) (n_down x) (n_end x))
| mv_down c down : n_down x = c ++ down -> c <> [] -> n_end x = false -> moves x [] (mkNet (more_net (n_client x) [Chunk c]) (n_up x) (n_server x) (n_mem x) down false)
| mv_end : n_server x = None \/ w_open (rest (n_mem x)) = false -> n_down x = [] -> n_end x = false -> moves x [] (mkNet (n_client x) (n_up x) (n_server x) (n_mem x) [] true).
Lemma moves_jstep (x : @net St) l y : moves x l y -> jstep ns E remote srn crn opt C x l y.
Proof. destruct 1; econstructor; eassumption. Qed.

Context (HE : forall j, e_write E j = None) (x : St) {K : tmsg -> Prop} (HF : fitting_from K ns x).
Notation jsteps := (jsteps ns E remote srn crn opt C).
Context (n0 : @net St) (HC : connected ns E remote srn crn opt C true true x n0).

Lemma out_framed m1 l n U D reqs : accepted ns E remote srn x m1 (n_mem n0) -> inv ns E remote srn crn opt C (n_client n0) m1 (n_mem n0) l n U D ->
  writes l = map enc_req reqs -> Forall (ok_in K) reqs -> Forall NetLemmas.framed (w_out (rest (n_mem n))).
Proof.
  intros Ha I Ew HK. pose proof (ok_all _ _ HK) as Hok. destruct I as [_ Hs (ta & F1 & _) _ _].
  destruct (accepted_serves _ _ _ _ _ _ _ Ha) as (_ & _ & Hv). destruct (Hv (U ++ [RdErr])) as (out & z & Hz & Hout).
  destruct (sruns_out _ _ _ _ _ _ _ _ _ _ (Hs [RdErr]) Hz) as (m2 & Hm2). rewrite w_out_more, Hout in Hm2.
  rewrite Ew in F1. destruct (serve_beginning ns E HE reqs (U ++ [RdErr]) ta 0 false x Hok) as (n' & reps & st & L1 & A & B & L2).
  { rewrite NetThm.received_err. exact F1. }
  { apply NetThm.intact_err. }
  change (serve_from ns E 0 (mkSrv false x) (U ++ [RdErr])) with (serve ns E x (U ++ [RdErr])) in B. rewrite B in Hm2.
  pose proof (HF _ _ _ (ok_firstn K n' reqs HK) A) as Hfit.
  apply Forall_forall. intros o Io. assert (X : In o (map enc_rep reps)) by (rewrite Hm2, !in_app_iff; tauto). apply in_map_iff in X. destruct X as ([t a] & <- & X).
  rewrite Forall_forall in Hfit. destruct (Hfit _ X) as (Q1 & Q2 & Q3). apply rep_framed; assumption.
Qed.
(** The packets that a client has read that waits for more. *)
Lemma client_starved m1 l n U D : opened crn opt [] true true C (n_client n0) -> inv ns E remote srn crn opt C (n_client n0) m1 (n_mem n0) l n U D ->
  n_end n = false -> g_dead (n_client n) = false -> reading crn opt (n_client n) -> exists e, eats D (reads l) e /\ hungry e.
Proof.
  intros O [A _ _ _ _] He Hd (m & r & m' & vs & s' & N1 & Es & T & _ & Hr). rewrite He in A.
  assert (G : forall more, exists tg fc fs wn rn tn msz k ls, related crn opt C tg fc fs wn rn tn msz true true (D ++ more) (more_net (n_client n) more) k ls /\ reads ls = reads l).
  { intros more. destruct (opened_related _ _ _ _ _ _ _ (opened_more _ _ _ _ _ _ (D ++ more) O)) as (tg & fc & fs & wn & rn & tn & msz & Hrel).
    destruct (sim_steps _ _ _ _ _ _ _ _ _ _ _ _ _ _ _ _ _ _ Hrel (A more)) as (ls & k & H1 & H2 & H3). exists tg, fc, fs, wn, rn, tn, msz, k, ls. split; [exact H3|].
    rewrite <- (reads_seen ls), H2, reads_seen. reflexivity. }
  assert (G' : forall more, ((exists o a, r = RExt (str "io.ReadCloser.Read") [o; VSl a 0 7]) -> packets (D ++ more) = reads l ++ packets (w_net (rest (g_mem (n_client n))) ++ more)) /\
    (forall b z, r = RExt (str "io.Copy") [VPtr (str "bytes.Buffer") b []; VStruct (str "io.LimitedReader") [(str "N", VI 64 z)]] ->
     exists e h, packets (D ++ more) = reads l ++ packets e /\ net_read 7 e = RdData h (w_net (rest (g_mem (n_client n))) ++ more) /\ List.length h = 7%nat /\ Z.to_nat z = N.to_nat (psize h - 7))).
  { intros more. destruct (G more) as (tg & fc & fs & wn & rn & tn & msz & k & ls & R & Er). rewrite <- Er.
    exact (reader_at _ _ _ _ _ _ _ _ _ _ _ _ _ _ m r m' R Hd N1 Es). }
  clear G. destruct Hr as [Hr|(b & z & Hr)].
  - assert (En : w_net (rest (g_mem (n_client n))) = []).
    { destruct Hr as (o & a & ->). cbn in T. destruct (w_net (rest (g_mem (n_client n)))); [reflexivity|discriminate T]. }
    apply starved.
    + destruct (G' [RdErr]) as [X _]. rewrite (X Hr), En. cbn [app]. rewrite packets_none by reflexivity. apply app_nil_r.
    + right. destruct (G' [Chunk seven]) as [X _]. rewrite (X Hr), En. cbn [app]. rewrite seven_packets. reflexivity.
  - subst r. unfold there in T. cbn in T. destruct (copy_limit (Z.to_nat z) (w_net (rest (g_mem (n_client n))))) as [[c r']|] eqn:Ec; [|discriminate T]. apply Nat.eqb_neq in T.
    apply starved.
    + destruct (G' [RdErr]) as [_ X]. destruct (X _ _ eq_refl) as (e & h & -> & X2 & X3 & X4). rewrite packets_none; [apply app_nil_r|].
      unfold packet. rewrite X2. do 7 (destruct h as [|? h]; [discriminate|]). destruct h; [|discriminate]. unfold psize in X4. cbn [nth] in X4. rewrite <- X4.
      destruct (copy_limit (Z.to_nat z) (_ ++ [RdErr])) as [[c' r2]|] eqn:Cl'; [|reflexivity]. exfalso.
      destruct (copy_limit_intact _ _ _ _ Cl') as [_ [Y|[Y _]]]; [|rewrite NetThm.intact_err in Y; discriminate Y].
      apply copy_limit_stream in Cl'. apply copy_limit_stream in Ec. destruct Cl' as [Y' _]. destruct Ec as [Z' _]. rewrite NetThm.received_err in Y'. congruence.
    + left. destruct (G' []) as [_ X]. destruct (X _ _ eq_refl) as (e & h & Y & X2 & X3 & X4). rewrite app_nil_r in Y, X2. rewrite Y.
      pose proof (packet_of e h _ _ c r' X2 X3 X4 Ec) as Hp. rewrite (packets_cons _ _ _ Hp). intros Z'. apply (f_equal (@List.length bytes)) in Z'. rewrite app_length in Z'. cbn in Z'. lia.
Qed.
Lemma starts_in c q ls : In (LStart c q) ls -> In q (starts c ls).
Proof. intros H. unfold starts. apply in_flat_map. exists (LStart c q). split; [exact H|]. rewrite Nat.eqb_refl. left. reflexivity. Qed.
Theorem net_live l n c q : jsteps n0 l n -> proper_calls K l -> (forall t, ~ In (LTag t) l) -> g_dead (n_client n) = false -> In (LStart c q) l ->
  (exists r, In (LDone c r) l) \/ exists l' n', moves n l' n'.
Proof.
  intros R Hp Ht Hd Hs. pose proof (net_causal ns E remote srn crn opt C HE x HF n0 HC l n R Hp) as Hc.
  destruct (requests ns E remote srn crn opt C HE x n0 HC l n R Hp Hc) as (reqs & Ew & HK & _). pose proof (ok_all _ _ HK) as Hok.
  destruct (start_inv _ _ _ _ _ _ _ x true true n0 HC) as (m1 & Ha & Ho & I0).
  destruct (jsteps_inv _ _ _ _ _ _ _ n0 m1 l n I0 R) as (U & D & I).
  pose proof (out_framed m1 l n U D reqs Ha I Ew HK) as Hof.
  (* the client *)
  assert (T : tsteps crn opt C (more_net (n_client n0) D) l (n_client n)).
  { destruct I as [A _ _ _ _]. destruct (n_end n); [exact A|]. specialize (A []). rewrite app_nil_r, more_net_nil in A. exact A. }
  destruct (opened_related _ _ _ _ _ _ _ (opened_more _ _ _ _ _ _ D Ho)) as (tg & fc & fs & wn & rn & tn & msz & Hrel).
  destruct (sim_steps _ _ _ _ _ _ _ _ _ _ _ _ _ _ _ _ _ _ Hrel T) as (ls & k & H1 & H2 & H3). cbn [app] in H3. clear Hrel T.
  destruct (inorder ls k H1 (causal_seen _ _ H2 Hc)) as (h & IO). pose proof (j_reach tagged tagged_answers h (io_reach _ _ _ IO)) as HJ.
  assert (Hck : crashed k = false) by (rewrite <- (r_dead _ _ _ _ _ _ _ _ _ _ _ _ _ _ _ _ H3); exact Hd).
  pose proof (io_client _ _ _ IO Hck) as Hk.
  assert (Hrv : rcv k = rcv (cl h) /\ tags k = tags (cl h)) by (destruct Hk as [<-|(_ & _ & ->)]; auto). destruct Hrv as [Hrv Htg].
  assert (HG : can crn opt C (n_client n) -> exists l' n', moves n l' n').
  { intros (lb & g' & Hown & Hst). destruct (n_end n) eqn:En.
    - specialize (Hst []). rewrite !more_net_nil in Hst. eexists _, _. eapply mv_ended; eassumption.
    - eexists _, _. eapply mv_client; eassumption. }
  destruct (client_can _ _ _ _ _ _ _ _ _ _ _ _ _ _ H3 Hd) as [X|W].
  { intros b t c' Hv. rewrite Hrv in Hv. pose proof (j_deliver _ _ HJ _ _ _ Hv) as X. destruct (flight_slot tagged h t HJ) as (c1 & q1 & Y1 & Y2 & _).
    { unfold ClientLemmas2.flight. rewrite Hv, !in_app_iff. cbn. tauto. }
    assert (c1 = c') by congruence. subst c1. exists q1. rewrite <- (io_callers _ _ _ IO). exact Y2. }
  { intros t Hv. rewrite Hrv in Hv. rewrite Htg. eapply tags_short; [apply (j_inv _ _ HJ)|exact Hv]. }
  { right. apply HG, X. }
  destruct W as [W1 W2 W3 W4]. destruct (n_end n) eqn:En.
  { right. destruct W3 as (m & r & m' & vs & s' & N1 & Es & _ & An & _). eexists _, _. eapply mv_ended; [apply (event_own r vs s')|exact En|].
    eapply t_one; [exact Hd|exact N1|]. eapply l_ask; eassumption. }
  assert (DN : n_down n <> [] -> exists l' n', moves n l' n').
  { intros X. eexists _, _. eapply (mv_down n (n_down n) []); [symmetry; apply app_nil_r|exact X|exact En]. }
  destruct (n_server n) as [m|] eqn:Em.
  2: { right. destruct (n_down n) as [|y ys] eqn:Ed; [|apply DN; discriminate]. eexists _, _. eapply mv_end; auto. }
  destruct (waits _ _ _ _ _ _ _ _ _ _ Ha (v_patient _ _ _ _ _ _ _ _ _ _ _ _ _ _ I m Em)) as [(om & s' & Hst)|(ps & e & E1 & E2 & E3)].
  { right. eexists _, _. eapply mv_server; eassumption. }
  destruct (n_up n) as [|u us] eqn:Eu.
  2: { right. eexists _, _. eapply (mv_up n (n_up n) []); [symmetry; apply app_nil_r|rewrite Eu; discriminate]. }
  destruct (n_down n) as [|d ds] eqn:Ed; [|right; apply DN; discriminate].
  destruct (client_starved m1 l n U D Ho I En Hd W3) as (e' & E4 & E5).
  destruct I as [_ _ (ta & F1 & F2) (os & ot & tb & G0 & G1 & G2) _].
  rewrite (F2 (eats_intact _ _ _ E1 E2)), Eu, app_nil_r in F1. rewrite En, Ed in G2. destruct (G2 (eats_intact _ _ _ E4 E5)) as [-> ->]. rewrite app_nil_r in G0, G1.
  assert (Lp : ps = writes l).
  { apply (eats_all _ _ _ E1 E2); [|exact F1]. rewrite Ew. apply Forall_forall. intros y Hy. apply in_map_iff in Hy. destruct Hy as (z & <- & Hz).
    apply enc_framed. rewrite Forall_forall in Hok. exact (Hok _ Hz). }
  assert (Lr : reads l = os) by (apply (eats_all _ _ _ E4 E5); [rewrite <- G0; exact Hof|exact G1]).
  assert (Len : List.length (reads l) = List.length (writes l)) by congruence.
  (* all requests have been answered *)
  assert (Ek : cl h = k) by (destruct Hk as [X|(_ & _ & X)]; [exact X|rewrite X in W2; discriminate W2]).
  assert (Hu : unans h = []).
  { rewrite (io_unans _ _ _ IO). apply skipn_all2. rewrite <- (map_length snd), <- writes_c, <- (writes_seen ls), H2, writes_seen, <- (reads_seen ls), H2, reads_seen, Len. lia. }
  destruct (hist _ _ _ _ H1) as (A1 & A2 & A3 & _).
  assert (Hus : Client.user k = []).
  { destruct (Client.user k) as [|t u]; [reflexivity|]. exfalso. assert (X : In t (got_tags ls)) by (rewrite A3; apply -> in_rev; left; reflexivity).
    unfold got_tags in X. apply in_flat_map in X. destruct X as (y & Hy & X). destruct y; try contradiction X. destruct X as [->|[]].
    apply (Ht t). apply in_seen in Hy; [|discriminate|discriminate]. rewrite H2 in Hy. apply in_seen in Hy; [exact Hy|discriminate|discriminate]. }
  pose proof HJ as [J1 J2 J3 J4 _ _ _ _ _ _ _ _ _ _ _]. rewrite Ek in J1, J4.
  assert (HO : forall t, outst k t = 0%nat).
  { intros t. specialize (J4 t). unfold ClientLemmas2.flight in J4. rewrite Ek, Hu, (io_infl _ _ _ IO), W1, W2 in J4. cbn [map app rtags vtags] in J4. rewrite cnt_nil in J4.
    destruct W4 as [[X _]|[(c' & q' & X) _]]; rewrite X in J4; cbn [sslot] in J4; lia. }
  destruct W4 as [[X1 X2]|[(c' & q' & X1) X2]].
  2: { exfalso. pose proof (i_tags _ J1 1) as Y. rewrite X2, X1, W1, Hus, HO in Y. cbn [sheld vheld] in Y. rewrite !cnt_nil in Y.
       assert (V : valid 1 = 1%nat) by (apply valid_good; unfold good_tag; lia). lia. }
  assert (Hq : In q (starts c ls)) by (rewrite <- (starts_seen c ls), H2, starts_seen; apply starts_in, Hs).
  rewrite A1 in Hq. destruct (callers k c) as [|q1|q1|q1 r1] eqn:Ecc; cbn [q_of] in Hq.
  - contradiction Hq.
  - right. apply HG. eapply call_can; [exact H3|exact Hd|exact Ecc|]. rewrite X2. apply numtags_pos.
  - exfalso. destruct (i_located _ J1 c q1 Ecc) as [Y|(t & Y)].
    + rewrite X2, X1 in Y. cbn in Y. lia.
    + specialize (HO t). unfold outst in HO. rewrite Y, Ecc in HO. discriminate HO.
  - left. exists r1. apply dones_in. rewrite <- (dones_seen c l), <- H2, dones_seen, A2, Ecc. left. reflexivity.
Qed.
End Net.

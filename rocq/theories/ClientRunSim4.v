(** Every execution of the text of client.go is one of the model. *)
From Verif Require Import Base GoBuf CodecPrim Types Codec Rpc GoSyntax Ufs GoRun GoFmt GoProg GoWp Server ServerRun ServerRunLemmas
  Client ClientLemmas ClientLemmas2 ClientLemmas6 ClientRun ClientRunLemmas ClientRunText ClientRunSim ClientRunSim2 ClientRunSim3.
From Coq Require String Ascii.
Local Opaque NumTags all_tags.

Lemma slotted tr hn ls k : csteps tr (init hn) ls k -> forall c t q, snd_ k = SSlotted c t q -> callers k c <> CIdle.
Proof.
  intros H. induction H as [|ls s1 l s2 H IH St]; [discriminate|]. pose proof (inv_steps _ _ _ _ H) as I.
  destruct St; cbn [snd_ callers]; intros c0 t0 q0 E; try (eapply IH; eassumption); try discriminate.
  - unfold upd. destruct (Nat.eqb c0 c); [discriminate|eauto].
  - unfold upd. destruct (Nat.eqb c0 c); [discriminate|eauto].
  - inversion E; subst. destruct (sending s1 c0 I) as ((q1 & X) & _); [rewrite H1; cbn; rewrite Nat.eqb_refl; lia|congruence].
  - unfold upd. destruct (Nat.eqb c0 c); [discriminate|eauto].
Qed.

Section Sim.
Context (RN : N) (opt : oserr + (value * value * value * N)) (C tg fc fs wn rn tn msz : N) (tr hn : bool).
Notation M := (memory nworld).
Notation P := protocol_program.
Notation leads := (leads RN opt).
Notation lstep := (lstep RN opt).
Notation ldie := (ldie RN opt).
Notation LIB := (lib RN opt).
Notation v_cl := (v_cl tg fc fs wn rn tn msz tr hn).
Notation Base := (base RN C tg fc fs wn rn tn msz tr hn).
Notation Boxed := (boxed RN C tg fc fs wn rn tn msz tr hn).
Notation HasReply := (has_reply RN C tg fc fs wn rn tn msz tr hn).
Notation HasBoth := (has_both RN C tg fc fs wn rn tn msz tr hn).
Notation HasCall := (has_call RN C tg fc fs wn rn tn msz tr hn).
Notation HasArr := (has_arr RN C tg fc fs wn rn tn msz tr hn).
Notation HasBuf := (has_buf RN C tg fc fs wn rn tn msz tr hn).
Notation io_ph := (io_ph RN opt C tg fc fs wn rn tn msz tr hn).
Notation snd_ph := (snd_ph RN opt C tg fc fs wn rn tn msz tr hn).
Notation rd_ph := (rd_ph RN opt C tg fc fs wn rn tn msz tr hn).
Notation snds := (snds RN opt C tg fc fs wn rn tn msz tr hn).
Notation memory_as := (memory_as RN C tg fc fs wn rn tn msz tr hn).
Notation threads_as := (threads_as RN opt C tg fc fs wn rn tn msz tr hn).
Notation good := (good RN opt C tg fc fs wn rn tn msz tr hn).
Notation after := (after RN opt C tg fc fs wn rn tn msz tr hn).
Notation related := (related RN opt C tg fc fs wn rn tn msz tr hn).
Notation tstep := (tstep RN opt C).

(** * Places where a goroutine sends or receives *)
Ltac by_place H E :=
  let Q := fresh "Q" in
  pose proof (ask_leads _ _ _ _ _ _ _ (proj2 H) E eq_refl) as Q; rewrite E in Q.
Lemma io_go adr rch s cl m o v f vs m1 : io_ph adr rch s cl m o v -> step P m = Ask (RGo f vs) m1 ->
  o = None /\ v = VWait /\ exists B, f = snd_start B /\ vs = [] /\ Boxed B s /\ forall Q, leads (Boxed B) (io_loop B) Q -> leads (Boxed B) (resume m1 []) Q.
Proof.
  intros H E. destruct H as [H|B H|B H|B Hcl H|B a b H|B a b H|B a b t c H|B t H]; by_place H E.
  - destruct Q as (m2 & X & _). discriminate.
  - destruct Q as (m2 & X & Q). inversion X; subst. split; [reflexivity|]. split; [reflexivity|]. exists B. split; [reflexivity|]. split; [reflexivity|]. split; [exact (proj1 H)|exact Q].
  - destruct Q as (m2 & X & _). discriminate.
  - destruct Q as [X|(g & X)]; discriminate.
  - unfold at_have in Q. destruct (doomed tr b); [destruct Q as [X|(g & X)]; discriminate|]. destruct Q as (m2 & X & _). discriminate.
  - destruct Q as [X|(g & X)]; discriminate.
  - destruct Q as (m2 & X & _). discriminate.
  - destruct Q as (m2 & X & _). discriminate.
Qed.
Lemma io_sends adr rch s cl m o v kk n x m1 : io_ph adr rch s cl m o v -> step P m = Ask (RSend (VObj kk n) x) m1 ->
  (exists B a b t c, o = Some B /\ v = VDeliver b t c /\ n = rch c /\ x = VBytes b /\ HasBoth B a b (adr c) (rch c) s /\ leads (Boxed B) (resume m1 []) (at_vreturn RN opt C tg fc fs wn rn tn msz tr hn B t)) \/
  (exists t, v = VReturn t /\ n = tg /\ x = VU 16 t).
Proof.
  intros H E. destruct H as [H|B H|B H|B Hcl H|B a b H|B a b H|B a b t c H|B t H]; by_place H E.
  - destruct Q as (m2 & X & _). discriminate.
  - destruct Q as (m2 & X & _). discriminate.
  - destruct Q as (m2 & X & _). discriminate.
  - destruct Q as [X|(g & X)]; discriminate.
  - unfold at_have in Q. destruct (doomed tr b); [destruct Q as [X|(g & X)]; discriminate|]. destruct Q as (m2 & X & _). discriminate.
  - destruct Q as [X|(g & X)]; discriminate.
  - destruct Q as (m2 & X & Q). inversion X; subst. left. exists B, a, b, t, c. repeat (split; [reflexivity|]). split; [exact (proj1 H)|exact Q].
  - destruct Q as (m2 & X & Q). inversion X; subst. right. eauto.
Qed.
Lemma io_receives adr rch s cl m o v kk n m1 : io_ph adr rch s cl m o v -> step P m = Ask (RRecv (VObj kk n)) m1 ->
  exists B, o = Some B /\ v = VWait /\ n = fs /\ Boxed B s /\
    forall a b, (7 <= List.length b)%nat -> leads (HasReply B a b) (resume m1 [VPtr (str "RPCReply") a []]) (at_have RN opt C tg fc fs wn rn tn msz tr hn B a b).
Proof.
  intros H E. destruct H as [H|B H|B H|B Hcl H|B a b H|B a b H|B a b t c H|B t H]; by_place H E.
  - destruct Q as (m2 & X & _). discriminate.
  - destruct Q as (m2 & X & _). discriminate.
  - destruct Q as (m2 & X & Q & _). inversion X; subst. exists B. repeat (split; [reflexivity|]). split; [exact (proj1 H)|exact Q].
  - destruct Q as [X|(g & X)]; discriminate.
  - unfold at_have in Q. destruct (doomed tr b); [destruct Q as [X|(g & X)]; discriminate|]. destruct Q as (m2 & X & _). discriminate.
  - destruct Q as [X|(g & X)]; discriminate.
  - destruct Q as (m2 & X & _). discriminate.
  - destruct Q as (m2 & X & _). discriminate.
Qed.
(** The requests of the reader and the sender that are none of these. *)
Definition channel_request (r : req) : bool := match r with RSend _ _ | RRecv _ | RGo _ _ => true | _ => false end.
Lemma rd_requests s m up x r m1 : rd_ph s m up x -> step P m = Ask r m1 -> channel_request r = true ->
  exists a p, r = RSend (v_chan fs) (VPtr (str "RPCReply") a []) /\ x = RHave p /\ hn = true /\ up = packets (w_net (rest s)) /\ (7 <= List.length p)%nat /\ cells s a = Some (v_reply p) /\
    Base s /\ forall Q, leads Base (net_loop C fs rn) Q -> leads Base (resume m1 []) Q.
Proof.
  intros H E Hr. assert (Hh : hidden r = false) by (destruct r; try discriminate; reflexivity).
  destruct H as [H|H|Hn Hu H|Hn Hu H|a Hn Hu H|a h e Hn Hu Hre Hh' H|a h b e Hn Hu Hre Hh' H|a h b p Hn Hu Hp H|a p Hn Hu Hp Ea H|H|H|H];
    pose proof (ask_leads _ _ _ _ _ _ _ (proj2 H) E Hh) as Q; rewrite E in Q.
  - destruct Q as (m2 & X & _). inversion X; subst. discriminate.
  - destruct Q as (m2 & X). discriminate.
  - destruct Q as (m2 & X & _). inversion X; subst. discriminate.
  - destruct Q as (m2 & X & _). inversion X; subst. discriminate.
  - destruct Q as (m2 & X & _). inversion X; subst. discriminate.
  - destruct Q as (m2 & X & _). inversion X; subst. discriminate.
  - destruct Q as (m2 & (n & X & _) & _). inversion X; subst. discriminate.
  - destruct Q as (m2 & X & _). inversion X; subst. discriminate.
  - destruct Q as (m2 & X & Q). inversion X; subst. exists a, p. repeat (split; [first [reflexivity|assumption]|]). split; [exact (proj1 H)|exact Q].
  - destruct Q as (m2 & X & _). inversion X; subst. discriminate.
  - destruct Q as (m2 & X & _). inversion X; subst. discriminate.
  - destruct Q as (m2 & X). discriminate.
Qed.
Lemma snd_requests adr rch s m B x r m1 : snd_ph adr rch s m B x -> step P m = Ask r m1 -> channel_request r = true -> r = RRecv (v_chan fc) \/ r = RRecv (v_chan tg).
Proof.
  intros H E Hr. assert (Hh : hidden r = false) by (destruct r; try discriminate; reflexivity).
  destruct H as [H|c q Hq H|c t q Hq H|c t q Hq H|c t q H|c t q H|c t q H|c t q H];
    pose proof (ask_leads _ _ _ _ _ _ _ (proj2 H) E Hh) as Q; rewrite E in Q.
  - destruct Q as (m2 & X & _). inversion X; subst. auto.
  - destruct Q as (m2 & X & _). inversion X; subst. auto.
  - destruct Q as (m2 & X & _). inversion X; subst. discriminate.
  - destruct Q as (m2 & X & _). inversion X; subst. discriminate.
  - destruct Q as (m2 & X & _). inversion X; subst. discriminate.
  - destruct Q as (m2 & X & _). inversion X; subst. discriminate.
  - destruct Q as (m2 & X & _). inversion X; subst. discriminate.
  - destruct Q as (vs & m2 & X). inversion X; subst. discriminate.
Qed.

(** * The end of the process *)
Lemma die_ask m s l r m1 : ldie m s l -> step P m = Ask r m1 ->
  (answer LIB r s = Crash) \/ (exists kk n c v, r = RSend (VObj kk n) v /\ w_chans (rest s) n = Some c /\ ch_closed c = true) \/ (exists vs, r = RExt (str "log.Fatalf") vs /\ l = LFatal).
Proof.
  intros D E. destruct D; rewrite E in H; try discriminate; inversion H; subst.
  - auto.
  - right; left. eauto 8.
  - right; right. eauto.
Qed.
Lemma die_panic m s l : ldie m s l -> at_panic (step P m) -> l = LCrash.
Proof. intros D [E|(f & E)]; destruct D; try reflexivity; rewrite E in H; discriminate. Qed.
Lemma die_io adr rch s us k up mi mn ms o l : Inv k -> crashed k = false -> memory_as adr rch s us k -> threads_as adr rch s (mi :: mn :: ms) k up mi mn ms o ->
  ldie mi s l -> l = LCrash /\ exists ls, csteps tr k ls (crash (match rcv k with VHave b => mkC (tags k) (fid k) (rpc k) (queue k) (callers k) (snd_ k) (rdr k) (receive tr k b) (Client.user k) (fids k) false | _ => k end)) /\ seen ls = [LCrash] /\ reads ls = [].
Proof.
  intros HI Hc Hm [_ Hio _ _] D. remember (rcv k) as v eqn:Ev. remember (closed k) as cl eqn:Ecl.
  assert (One : cstep tr k LCrash (crash k) -> exists ls, csteps tr k ls (crash k) /\ seen ls = [LCrash] /\ reads ls = []).
  { intros St. exists [LCrash]. split; [apply csteps_one, St|]. auto. }
  destruct Hio as [H|B H|B H|B Hcl H|B a b H|B a b H|B a b t c H|B t H]; pose proof (ldie_leads _ _ _ _ _ _ _ (proj1 H) (proj2 H) D) as Q.
  - destruct Q as (m1 & E & _). destruct (die_ask _ _ _ _ _ D E) as [X|[(kk & n & c & x & X & _)|(vs & X & _)]]; discriminate.
  - destruct Q as (m1 & E & _). destruct (die_ask _ _ _ _ _ D E) as [X|[(kk & n & c & x & X & _)|(vs & X & _)]]; discriminate.
  - destruct Q as (m1 & E & _). destruct (die_ask _ _ _ _ _ D E) as [X|[(kk & n & c & x & X & _)|(vs & X & _)]]; discriminate.
  - split; [exact (die_panic _ _ _ D Q)|]. apply One. apply cs_closed; auto. subst cl. unfold closed in Hcl. destruct (rdr k); try discriminate. reflexivity.
  - unfold at_have in Q. destruct (doomed tr b) eqn:Ed.
    + split; [exact (die_panic _ _ _ D Q)|]. exists [LTau; LCrash]. split; [|auto].
      assert (Erec : receive tr k b = VDoomed).
      { unfold doomed in Ed. unfold receive. destruct (tag_of b <? 1); [reflexivity|]. destruct (N.of_nat NumTags <=? tag_of b - 1); [reflexivity|]. destruct tr; [discriminate|reflexivity]. }
      rewrite Erec. apply (css_snoc tr k [LTau] (mkC (tags k) (fid k) (rpc k) (queue k) (callers k) (snd_ k) (rdr k) VDoomed (Client.user k) (fids k) false)).
      * apply csteps_one. rewrite <- Erec. apply cs_lookup; auto.
      * apply cs_doomed; reflexivity.
    + destruct Q as (m1 & E & _). destruct (die_ask _ _ _ _ _ D E) as [X|[(kk & n & c & x & X & _)|(vs & X & _)]]; try discriminate.
      destruct (m_client _ _ _ _ _ _ _ _ _ _ _ _ _ _ _ _ Hm) as (L & dd & Ec & _). cbn [answer] in X. rewrite Ec in X. discriminate.
  - split; [exact (die_panic _ _ _ D Q)|]. apply One. apply cs_doomed; auto.
  - destruct Q as (m1 & E & _). destruct (die_ask _ _ _ _ _ D E) as [X|[(kk & n & c' & x & X & X1 & X2)|(vs & X & _)]]; try discriminate. inversion X; subst.
    symmetry in Ev. destruct (i_deliver_t k HI _ _ _ Ev) as (_ & q & Hq).
    destruct (m_call _ _ _ _ _ _ _ _ _ _ _ _ _ _ _ _ Hm c) as (q' & _ & _ & Ech & _); [destruct Hq as [Hq|(r & Hq)]; rewrite Hq; discriminate|]. rewrite Ech in X1. inversion X1 as [X3]; rewrite <- X3 in X2; discriminate X2.
  - destruct Q as (m1 & E & _). destruct (die_ask _ _ _ _ _ D E) as [X|[(kk & n & c' & x & X & X1 & X2)|(vs & X & _)]]; try discriminate. inversion X; subst.
    rewrite (m_tags _ _ _ _ _ _ _ _ _ _ _ _ _ _ _ _ Hm) in X1. inversion X1 as [X3]; rewrite <- X3 in X2; discriminate X2.
Qed.
Lemma die_rd adr rch s us k up mi mn ms o l : crashed k = false -> memory_as adr rch s us k -> threads_as adr rch s (mi :: mn :: ms) k up mi mn ms o -> ldie mn s l -> False.
Proof.
  intros Hc Hm [_ _ Hrd _] D. remember (rdr k) as x eqn:Ex.
  destruct (m_client _ _ _ _ _ _ _ _ _ _ _ _ _ _ _ _ Hm) as (Lr & dd & Ecl & _).
  pose proof (m_fs _ _ _ _ _ _ _ _ _ _ _ _ _ _ _ _ Hm) as Ef. unfold closed in Ef. rewrite <- Ex in Ef.
  destruct Hrd as [H|H|Hn Hu H|Hn Hu H|a Hn Hu H|a h e Hn Hu Hr Hh H|a h b e Hn Hu Hr Hh H|a h b p Hn Hu Hp H|a p Hn Hu Hp Ea H|H|H|H];
    pose proof (ldie_leads _ _ _ _ _ _ _ (proj1 H) (proj2 H) D) as Q.
  - destruct Q as (m1 & E & _). destruct (die_ask _ _ _ _ _ D E) as [X|[(kk & n & c' & y & X & _)|(vs & X & _)]]; try discriminate. cbn [answer] in X. rewrite Ecl in X. discriminate.
  - destruct Q as (vs & E). destruct D as [D|? D|? ? D|? ? ? ? ? D|? ? D]; rewrite E in D; discriminate.
  - destruct Q as (m1 & E & _). destruct (die_ask _ _ _ _ _ D E) as [X|[(kk & n & c' & y & X & _)|(vs & X & _)]]; try discriminate. cbn [answer] in X. rewrite Ecl in X. discriminate.
  - destruct Q as (m1 & E & _). destruct (die_ask _ _ _ _ _ D E) as [X|[(kk & n & c' & y & X & _)|(vs & X & _)]]; discriminate.
  - destruct Q as (m1 & E & _). destruct (die_ask _ _ _ _ _ D E) as [X|[(kk & n & c' & y & X & _)|(vs & X & _)]]; try discriminate.
    cbn in X. rewrite (proj2 (proj1 H)) in X. destruct (net_read _ _); discriminate.
  - destruct Q as (m1 & E & _). destruct (die_ask _ _ _ _ _ D E) as [X|[(kk & n & c' & y & X & _)|(vs & X & _)]]; try discriminate.
    cbn in X. rewrite (proj2 (proj1 H)) in X. discriminate.
  - destruct Q as (m1 & (n & E & _) & _). destruct (die_ask _ _ _ _ _ D E) as [X|[(kk & n' & c' & y & X & _)|(vs & X & _)]]; try discriminate.
    cbn in X. rewrite (proj2 (proj1 H)) in X. destruct (copy_limit _ _) as [[? ?]|]; discriminate.
  - destruct Q as (m1 & E & _). destruct (die_ask _ _ _ _ _ D E) as [X|[(kk & n & c' & y & X & _)|(vs & X & _)]]; discriminate.
  - destruct Q as (m1 & E & _). destruct (die_ask _ _ _ _ _ D E) as [X|[(kk & n & c' & y & X & X1 & X2)|(vs & X & _)]]; try discriminate.
    inversion X; subst. rewrite Ef in X1. inversion X1 as [X3]; rewrite <- X3 in X2; discriminate X2.
  - destruct Q as (m1 & E & _). destruct (die_ask _ _ _ _ _ D E) as [X|[(kk & n & c' & y & X & _)|(vs & X & _)]]; try discriminate. cbn [answer] in X. rewrite Ecl in X. discriminate.
  - destruct Q as (m1 & E & _). destruct (die_ask _ _ _ _ _ D E) as [X|[(kk & n & c' & y & X & _)|(vs & X & _)]]; try discriminate. cbn in X. rewrite Ef in X. discriminate.
  - destruct Q as (vs & E). destruct D as [D|? D|? ? D|? ? ? ? ? D|? ? D]; rewrite E in D; discriminate.
Qed.
Lemma die_snd adr rch s us k m B l : crashed k = false -> memory_as adr rch s us k -> snd_ph adr rch s m B (snd_ k) -> ldie m s l -> l = LFatal /\ cstep tr k LFatal (crash k).
Proof.
  intros Hc Hm Hsn D. remember (snd_ k) as x eqn:Ex.
  destruct (m_client _ _ _ _ _ _ _ _ _ _ _ _ _ _ _ _ Hm) as (Lr & dd & Ecl & _).
  destruct Hsn as [H|c q Hq H|c t q Hq H|c t q Hq H|c t q H|c t q H|c t q H|c t q H]; pose proof (ldie_leads _ _ _ _ _ _ _ (proj1 H) (proj2 H) D) as Q.
  - destruct Q as (m1 & E & _). destruct (die_ask _ _ _ _ _ D E) as [X|[(kk & n & c' & y & X & _)|(vs & X & _)]]; discriminate.
  - destruct Q as (m1 & E & _). destruct (die_ask _ _ _ _ _ D E) as [X|[(kk & n & c' & y & X & _)|(vs & X & _)]]; discriminate.
  - destruct Q as (m1 & E & _). destruct (die_ask _ _ _ _ _ D E) as [X|[(kk & n & c' & y & X & _)|(vs & X & _)]]; try discriminate. cbn [answer] in X. rewrite (proj2 (proj1 H)) in X. discriminate.
  - destruct Q as (m1 & E & _). destruct (die_ask _ _ _ _ _ D E) as [X|[(kk & n & c' & y & X & _)|(vs & X & _)]]; try discriminate. cbn [answer] in X. rewrite (proj2 (proj1 H)) in X. discriminate.
  - destruct Q as (m1 & E & _). destruct (die_ask _ _ _ _ _ D E) as [X|[(kk & n & c' & y & X & _)|(vs & X & _)]]; try discriminate. cbn [answer] in X. rewrite Ecl in X. discriminate.
  - destruct Q as (m1 & E & _). destruct (die_ask _ _ _ _ _ D E) as [X|[(kk & n & c' & y & X & _)|(vs & X & _)]]; discriminate.
  - destruct Q as (m1 & E & _). destruct (die_ask _ _ _ _ _ D E) as [X|[(kk & n & c' & y & X & _)|(vs & X & _)]]; try discriminate. cbn [answer] in X. rewrite Ecl in X. discriminate.
  - destruct Q as (vs & m1 & E). destruct (die_ask _ _ _ _ _ D E) as [X|[(kk & n & c' & y & X & _)|(vs' & X & ->)]]; try discriminate. split; [reflexivity|]. eapply cs_fatal; eauto.
Qed.
End Sim.

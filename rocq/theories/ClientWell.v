(** The client goes on as long as nothing fails. *)
From Verif Require Import Base GoBuf CodecPrim Types Codec Rpc GoSyntax Ufs GoRun GoFmt GoProg GoWp Server ServerLemmas ServerRun ServerRunLemmas
  Client ClientLemmas ClientLemmas2 ClientLemmas6 ClientRun ClientRunLemmas ClientRunText ClientRunSim ClientRunSim2 ClientRunSim3 ClientRunSim4 ClientRunSim5 ClientRunSim6 ClientRunThm ClientRank ClientRank2 ClientRank3 NetRun NetClient.
From Coq Require String Ascii.
Local Opaque NumTags all_tags.

(** A write of the client fails between g and g'. *)
Definition failing (g g' : gstate) : Prop := exists i m x b m1 z e, nth_error (g_threads g) i = Some m /\
  step protocol_program m = Ask (RExt (str "io.WriteCloser.Write") [x; VBytes b]) m1 /\ g_threads g' = put_nth i (resume m1 [VI 64 z; VErr e]) (g_threads g).

Section Well.
Context (RN : N) (opt : oserr + (value * value * value * N)) (C tg fc fs wn rn tn msz : N) (tr hn : bool).
Notation M := (memory nworld).
Notation P := protocol_program.
Notation leads := (leads RN opt).
Notation memory_as := (memory_as RN C tg fc fs wn rn tn msz tr hn).
Notation good_q := (good_q RN opt C tg fc fs wn rn tn msz tr hn True).
Notation calm := (calm C tg fc fs wn rn tn msz tr hn).
Notation io_r := (io_r RN opt C tg fc fs wn rn tn msz tr hn).
Notation io_q := (io_q RN opt C tg fc fs wn rn tn msz tr hn).
Notation snd_q := (snd_q RN opt C tg fc fs wn rn tn msz tr hn).
Notation snds_r := (snds_r RN opt C tg fc fs wn rn tn msz tr hn).
Notation rd_r := (rd_r RN opt C tg fc fs wn rn tn msz tr hn).
Notation v_cl := (v_cl tg fc fs wn rn tn msz tr hn).
Lemma leads_going_true I m Q : leads I m Q -> going RN opt I Q (fun _ => True) m.
Proof.
  intros H. destruct H as [H|m1 E H|r m1 f E Hh Ha H].
  - left. exact H.
  - right. intros s l m' s' Hs St. destruct St; try (rewrite H0 in E; discriminate E). rewrite E in H0. inversion H0; subst. auto.
  - right. intros s l m' s' Hs St. destruct St; rewrite E in H0; try (inversion H0; subst; discriminate).
    inversion H0; subst. rewrite (Ha s Hs) in H1. inversion H1; subst. rewrite hidden_event by assumption. auto.
Qed.
Lemma io_radr adr rch adr' rch' s k f m o : Inv k -> (forall c, callers k c <> CIdle -> adr' c = adr c /\ rch' c = rch c) ->
  io_r adr rch s (closed k) f m o (rcv k) -> io_r adr' rch' s (closed k) f m o (rcv k).
Proof.
  intros HI He (I & Q & H & Ho). exists I, Q. split; [|exact Ho]. remember (rcv k) as v eqn:Ev. remember (closed k) as cl eqn:Ecl.
  destruct H as [|B|B|B Hc'|B a b|B a b|B a b t c|B t]; try (econstructor; eassumption).
  symmetry in Ev. destruct (i_deliver_t k HI _ _ _ Ev) as (_ & q & Hq). destruct (He c) as (E1 & E2); [destruct Hq as [Hq|(r & Hq)]; rewrite Hq; discriminate|].
  rewrite <- E1, <- E2. apply iq_del.
Qed.
Lemma snd_qadr adr rch adr' rch' k f B I Q : Inv k -> (forall c t q, snd_ k = SSlotted c t q -> callers k c <> CIdle) ->
  (forall c, callers k c <> CIdle -> adr' c = adr c /\ rch' c = rch c) -> snd_q adr rch B f I Q (snd_ k) -> snd_q adr' rch' B f I Q (snd_ k).
Proof.
  intros HI Hs He H. assert (Hx : forall c, (0 < scall c (snd_ k))%nat -> adr' c = adr c /\ rch' c = rch c).
  { intros c Hc. apply He. destruct (sending k c HI Hc) as ((q & E) & _). rewrite E. discriminate. }
  remember (snd_ k) as x eqn:Ex.
  destruct H as [|c q Hq|c t q Hq|c t q Hq|c t q|c t q|c t q|c t q]; try (econstructor; eassumption);
    (destruct (Hx c) as (E1 & E2); [cbn; rewrite Nat.eqb_refl; lia|]) || (destruct (He c) as (E1 & E2); [eapply Hs; reflexivity|]); rewrite <- E1, <- ?E2; econstructor; eassumption.
Qed.

Lemma well_step ls k f s us mi mn ms l g' : csteps tr (init hn) ls k -> crashed k = false -> good_q f s us (mi :: mn :: ms) k ->
  tstep RN opt C (mkG (mi :: mn :: ms) s us false) l g' -> (nth_error (g_threads g') 1 <> Some mn -> fed mn s) -> ~ failing (mkG (mi :: mn :: ms) s us false) g' ->
  l <> LEof /\ l <> LFatal /\ (g_dead g' = false -> exists ls' k' f', csteps tr (init hn) ls' k' /\ crashed k' = false /\ good_q f' (g_mem g') (g_users g') (g_threads g') k').
Proof.
  intros K1 K2 (adr & rch & mi' & mn' & ms' & o & f1 & f2 & f3 & Hm & Eth & R1 & R2 & R3 & Ef & Hca) St Hfe Hnf. injection Eth as <- <- <-.
  pose proof (inv_steps _ _ _ _ K1) as HI. destruct (covered _ _ _ _ K1) as (L & HL).
  pose proof R1 as (I1 & Q1 & D1 & H1 & A1). pose proof R2 as (I2 & Q2 & D2 & H2 & A2).
  assert (X3 : exists I3 Q3 m3, I3 s /\ leads I3 m3 Q3 /\ third RN opt C tg fc fs wn rn tn msz tr hn k adr rch o f3 I3 Q3 ms m3).
  { destruct o as [B|]; cbn in R3.
    - destruct R3 as (m3 & -> & I3 & Q3 & D3 & H3 & A3). exists I3, Q3, m3. split; [exact H3|]. split; [exact A3|]. right. exists B. auto.
    - destruct R3 as (-> & Es & ->). exists (fun _ => True), (fun _ => True), mi. split; [exact I|]. split; [apply ld_here; exact I|]. left. auto. }
  destruct X3 as (I3 & Q3 & m3 & H3 & A3 & D3).
  pose proof (calm_label RN opt C tg fc fs wn rn tn msz tr hn True k K2 adr rch s us o f1 f2 f3 I1 I2 I3 Q1 Q2 Q3 D1 D2 Hca H1 H2 H3 mi mn m3 ms D3 A1 A2 A3 _ _ _
      (leads_going_true _ _ _ A1) (leads_going_true _ _ _ A2) (leads_going_true _ _ _ A3) l g' (Hca I) St) as [Hl1 Hl2].
  split; [exact Hl1|]. split; [exact Hl2|]. intros Hd.
  assert (Own : own l -> exists ls' k' f', csteps tr (init hn) ls' k' /\ crashed k' = false /\ good_q f' (g_mem g') (g_users g') (g_threads g') k').
  { intros Ho.
    destruct (rank_step RN opt C tg fc fs wn rn tn msz tr hn True k HI K2 L HL adr rch s us Hm o f1 f2 f3 I1 I2 I3 Q1 Q2 Q3 D1 D2 Hca H1 H2 H3 mi mn m3 ms D3 A1 A2 A3 _ _ _
      (leads_going_true _ _ _ A1) (leads_going_true _ _ _ A2) (leads_going_true _ _ _ A3) l g' St Ho (fun _ => Hfe))
      as [X|[(X1 & ls' & k' & f' & L' & X2 & X3 & X4 & X5 & X6 & X7)|(X1 & -> & X)]].
    - intros _ i m x b m1 z e Ei Es Et. apply Hnf. exists i, m, x, b, m1, z, e. auto.
    - congruence.
    - exists (ls ++ ls'), k', f'. split; [eapply csteps_app; eassumption|]. auto.
    - exists ls, k, f. split; [exact K1|]. split; [exact K2|].
      destruct X as [(m & -> & X2 & X3)|[(m & -> & X2 & X3)|(m & -> & X2 & X3 & X4)]]; cbn [g_mem g_users g_threads].
      + exists adr, rch, m, mn, ms, o, f1, f2, f3. split; [exact Hm|]. split; [reflexivity|]. split; [eapply io_at; eassumption|]. auto.
      + exists adr, rch, mi, m, ms, o, f1, f2, f3. split; [exact Hm|]. split; [reflexivity|]. split; [exact R1|]. split; [eapply rd_at; eassumption|]. auto.
      + exists adr, rch, mi, mn, [m], o, f1, f2, f3. split; [exact Hm|]. split; [reflexivity|]. split; [exact R1|]. split; [exact R2|]. split; [|auto].
        destruct X2 as [(_ & X & _)|(B & -> & _ & D)]; [discriminate X|]. eapply snd_at; eassumption. }
  destruct (Hca I) as ((ff & Lu & Eu0) & C2 & C3 & C4).
  destruct (m_client _ _ _ _ _ _ _ _ _ _ _ _ _ _ _ _ Hm) as (Lr & dd & Ecl' & El & Hl). assert (Edd : ff = fid k /\ Lu = Lr /\ dd = false) by (rewrite Ecl' in Eu0; inversion Eu0; auto). destruct Edd as (-> & -> & ->). clear Eu0.
  remember (mkG (mi :: mn :: ms) s us false) as g eqn:Eg.
  destruct St as [i m l m' s' D Ei St|i m l D Ei St|i m ff vs m' D Ei Es|i j m1 m2 kk kk' n v m1' m2' c D Hij E1 E2 Es Er Ec Ecap Ecl|c q D Eu Hq s0 w|c q a n kk ff b D Eu Ef' Ech Hroom Ecl|i m kk n r m' c q b D Ei Es Ech Ecap Ecl Eu|kk n b t l D Ef' Ech Eb|n s' D Ea];
    subst g; cbn [g_threads g_mem g_users g_dead] in *.
  - apply Own. destruct St; try exact I. apply event_own.
  - discriminate Hd.
  - apply Own, I.
  - apply Own, I.
  - clear Own. pose proof (m_user _ _ _ _ _ _ _ _ _ _ _ _ _ _ _ _ Hm c) as Mu. rewrite Eu in Mu.
    assert (Hi : callers k c = CIdle) by (destruct (callers k c); cbn in Mu; try discriminate; reflexivity).
    pose proof (cs_start tr k c q K2 Hi Hq) as Cs. match type of Cs with cstep _ _ _ ?k1 => set (k' := k1) in * end.
    eexists _, k', f. split; [eapply csteps_app; [exact K1|apply csteps_one, Cs]|]. split; [reflexivity|]. fold (started s q).
    assert (Hm' : memory_as (upd adr c (free s)) (upd rch c (w_next w)) (started s q) (upd us c (USend q (free s) (w_next w))) k') by (apply (ma_start _ _ _ _ _ _ _ _ _ _ _ _ _ _ _ k); auto).
    pose proof (ma_base _ _ _ _ _ _ _ _ _ _ _ _ _ _ _ _ Hm') as Hb'.
    assert (Kp : forall kd, keep kd s (started s q)).
    { intros kd. apply (keep_new kd s (v_call q (w_next w))). apply (m_free _ _ _ _ _ _ _ _ _ _ _ _ _ _ _ _ Hm). reflexivity. }
    assert (Old : forall c', callers k c' <> CIdle -> upd adr c (free s) c' = adr c' /\ upd rch c (w_next w) c' = rch c').
    { intros c' Hc'. assert (c' <> c) by (intros ->; contradiction). rewrite !upd_other by assumption. auto. }
    eexists _, _, mi, mn, ms, o, f1, f2, f3. split; [exact Hm'|]. split; [reflexivity|]. split; [|split; [|split; [|split; [exact Ef|intros _; split; [|auto]]]]].
    + apply io_rkeep with (s := s) (cl := closed k); [exact Hb'|apply Kp|apply keep_keep_calls, Kp|intros X; exact X|]. change (rcv k') with (rcv k). apply (io_radr adr rch); auto.
    + apply rd_rkeep with (s := s); [exact Hb'|apply Kp|apply Kp|exact R2].
    + apply snds_rkeep with (s := s); [exact Hb'|apply Kp|apply Kp|]. change (snd_ k') with (snd_ k). destruct o as [B|]; cbn in R3 |- *; [|exact R3].
      destruct R3 as (m & -> & Ix & Qx & Dx & Ox). exists m. split; [reflexivity|]. exists Ix, Qx. split; [|exact Ox]. apply (snd_qadr adr rch); auto. exact (slotted _ _ _ _ K1).
    + exists (fid k), Lr. apply (Kp 3%nat); [reflexivity|exact Ecl'].
  - apply Own, I.
  - apply Own, I.
  - clear Own. unfold field in Ef'. cbn [g_mem] in Ef'. rewrite Ecl' in Ef'. cbn in Ef'. inversion Ef'; subst kk n. clear Ef'.
    pose proof (m_tags _ _ _ _ _ _ _ _ _ _ _ _ _ _ _ _ Hm) as Mt. pose proof (m_fs _ _ _ _ _ _ _ _ _ _ _ _ _ _ _ _ Hm) as Ms. pose proof Mt as Mt'. rewrite Mt in Ech. inversion Ech; subst b. clear Ech. cbn [ch_buf ch_cap ch_closed] in *.
    destruct (tags k) as [|t0 ts] eqn:Et; [discriminate|]. cbn in Eb. inversion Eb; subst t0 l. clear Eb.
    pose proof (cs_gettag tr k t ts K2 Et) as Cs. match type of Cs with cstep _ _ _ ?k1 => set (k' := k1) in * end.
    eexists _, k', f. split; [eapply csteps_app; [exact K1|apply csteps_one, Cs]|]. split; [reflexivity|].
    assert (Nfs : fs <> tg) by (intros X; rewrite X, Mt in Ms; discriminate Ms).
    match goal with |- good_q _ ?s1 ?u1 _ ?k1 => assert (Hm' : memory_as adr rch s1 u1 k1) end.
    { apply (ma_chan _ _ _ _ _ _ _ _ _ _ _ _ _ _ _ _ _ _ _ _ Hm Mt'); try reflexivity; auto.
      - apply put_chan_same.
      - rewrite put_chan_other by (apply not_eq_sym, (m_distinct _ _ _ _ _ _ _ _ _ _ _ _ _ _ _ _ Hm)). apply (m_fc _ _ _ _ _ _ _ _ _ _ _ _ _ _ _ _ Hm).
      - rewrite put_chan_other by exact Nfs. exact Ms. }
    pose proof (ma_base _ _ _ _ _ _ _ _ _ _ _ _ _ _ _ _ Hm') as Hb'.
    exists adr, rch, mi, mn, ms, o, f1, f2, f3. split; [exact Hm'|]. split; [reflexivity|]. split; [|split; [|split; [|split; [exact Ef|intros _; split; [|auto]]]]].
    + apply io_rkeep with (s := s) (cl := closed k); [exact Hb'|apply keep_same; reflexivity|apply keep_keep_calls, keep_same; reflexivity|intros X; exact X|exact R1].
    + apply rd_rkeep with (s := s); [exact Hb'|apply keep_same; reflexivity|apply keep_same; reflexivity|exact R2].
    + apply snds_rkeep with (s := s); [exact Hb'|apply keep_same; reflexivity|apply keep_same; reflexivity|exact R3].
    + exists (fid k), Lr. exact Ecl'.
  - clear Own. cbn in Ea. rewrite Ecl' in Ea. cbn in Ea. inversion Ea as [[X1 X2]]. clear Ea.
    pose proof (cs_getfid tr k K2) as Cs. cbv zeta in Cs. match type of Cs with cstep _ _ _ ?k1 => set (k' := k1) in * end.
    eexists _, k', f. split; [eapply csteps_app; [exact K1|apply csteps_one, Cs]|]. split; [reflexivity|].
    assert (Hm' := ma_client _ _ _ _ _ _ _ _ _ _ _ _ _ _ _ k k' Lr false Hm El Hl eq_refl eq_refl eq_refl eq_refl).
    pose proof (ma_base _ _ _ _ _ _ _ _ _ _ _ _ _ _ _ _ Hm') as Hb'.
    assert (Kp : forall kd, kd <> 3%nat -> keep kd s (with_cell s C (v_cl ((fid k + 1) mod 18446744073709551616) Lr false))) by (intros kd Hk; eapply keep_cell; [exact Ecl'|]; cbn; auto).
    exists adr, rch, mi, mn, ms, o, f1, f2, f3. split; [exact Hm'|]. split; [reflexivity|]. split; [|split; [|split; [|split; [exact Ef|intros _; split; [|auto]]]]].
    + apply io_rkeep with (s := s) (cl := closed k); [exact Hb'|apply Kp; lia|apply keep_keep_calls, Kp; lia|intros X; exact X|exact R1].
    + apply rd_rkeep with (s := s); [exact Hb'|apply Kp; lia|apply Kp; lia|exact R2].
    + apply snds_rkeep with (s := s); [exact Hb'|apply Kp; lia|apply Kp; lia|exact R3].
    + eexists _, Lr. apply put_cell_same.
Qed.
End Well.

(** At the beginning. *)
Lemma opened_well RN opt net tr C g : opened RN opt net tr true C g -> exists tg fc fs wn rn tn msz f, good_q RN opt C tg fc fs wn rn tn msz tr true True f (g_mem g) (g_users g) (g_threads g) (init true).
Proof.
  intros O. destruct (opened_related _ _ _ _ _ _ _ O) as (tg & fc & fs & wn & rn & tn & msz & [_ _ (up & _ & Hk)]).
  destruct (Hk eq_refl) as (adr & rch & mi & mn & ms & o & Hm & _).
  destruct O as [(hp & ch & n & wn' & rn' & tn' & msz' & o' & s & -> & Hn & Hf & Hx & He & (S1 & S2 & S3 & S4 & S5) & Ht) Hu Hd].
  destruct (text_new RN wn' rn' tn' msz' tr true o' (mkMem hp C (mkNW ch n net []))) as (s' & He' & ((L & N1 & N2 & N3) & N4 & N5 & N6 & N7 & N8 & N9 & N10 & N11) & N12).
  cbn [rest cells free w_gos w_net w_next w_chans app] in *. destruct (ends_unique _ _ _ _ _ _ _ _ He He') as [_ <-]. clear He He'.
  rewrite N12 in Ht. cbn [map] in Ht.
  pose proof (ma_base _ _ _ _ _ _ _ _ _ _ _ _ _ _ _ _ Hm) as Hb.
  exists tg, fc, fs, wn, rn, tn, msz, 33%nat. rewrite Ht.
  eexists adr, rch, _, _, [], None, 13%nat, 20%nat, 0%nat. split; [exact Hm|split; [reflexivity|split; [|split; [|split; [|split; [reflexivity|]]]]]].
  - eapply io_at; [apply iq_0|exact Hb|apply io_start_leads].
  - eapply rd_at; [apply rq_load; reflexivity|exact Hb|]. exact (net_start_leads RN _ C tg fc fs wn rn tn msz tr true).
  - cbn. auto.
  - intros _. split; [|split; [lia|split; discriminate]]. destruct (m_client _ _ _ _ _ _ _ _ _ _ _ _ _ _ _ _ Hm) as (L1 & d1 & X1 & _).
    exists 1, L. rewrite S1 in N1. rewrite X1 in N1. pose proof N1 as N1'. inversion N1'; subst. exact X1.
Qed.

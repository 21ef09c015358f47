(** The goroutines of client.go never do anything that the machine does not know. *)
From Verif Require Import Base GoBuf CodecPrim Types Codec Rpc GoSyntax Ufs GoRun GoFmt GoProg GoWp Server ServerRun ServerRunLemmas
  Client ClientLemmas ClientLemmas2 ClientLemmas6 ClientRun ClientRunLemmas ClientRunText ClientRunSim ClientRunSim2 ClientRunSim3 ClientRunSim4 ClientRunSim5 ClientRunNew.
From Coq Require String Ascii.
Local Opaque NumTags all_tags.

Section Sim.
Context (RN : N) (opt : oserr + (value * value * value * N)) (C tg fc fs wn rn tn msz : N) (tr hn : bool).
Notation M := (memory nworld).
Notation P := protocol_program.
Notation LIB := (lib RN opt).
Notation lost := (lost RN opt).
Notation v_cl := (v_cl tg fc fs wn rn tn msz tr hn).
Notation io_ph := (io_ph RN opt C tg fc fs wn rn tn msz tr hn).
Notation snd_ph := (snd_ph RN opt C tg fc fs wn rn tn msz tr hn).
Notation rd_ph := (rd_ph RN opt C tg fc fs wn rn tn msz tr hn).
Notation memory_as := (memory_as RN C tg fc fs wn rn tn msz tr hn).
Notation related := (related RN opt C tg fc fs wn rn tn msz tr hn).

Lemma lost_ask m s r m1 : lost m s -> step P m = Ask r m1 -> answer LIB r s = NoAnswer /\
     match r with RRecv (VObj _ n) | RSend (VObj _ n) _ => w_chans (rest s) n = None | RGo _ _ => False
     | RExt f vs => beq f (str "log.Fatalf") = false /\ ~ (exists o b, f = str "io.WriteCloser.Write" /\ vs = [o; VBytes b]) | _ => True end.
Proof. intros [(w & E)|(r' & m' & E & H)] E'; rewrite E in E'; inversion E'; subst. exact H. Qed.
Lemma lost_panic m s : lost m s -> at_panic (step P m) -> False.
Proof. intros [(w & E)|(r' & m' & E & H)] [X|(f & X)]; congruence. Qed.
Lemma lost_end m s : lost m s -> at_end (step P m) -> False.
Proof. intros [(w & E)|(r' & m' & E & H)] (vs & X); congruence. Qed.
Lemma lost_io adr rch s us k m o : Inv k -> memory_as adr rch s us k -> io_ph adr rch s (closed k) m o (rcv k) -> lost m s -> False.
Proof.
  intros HI Hm Hio D. remember (rcv k) as v eqn:Ev. remember (closed k) as cl eqn:Ecl.
  destruct Hio as [H|B H|B H|B Hcl H|B a b H|B a b H|B a b t c H|B t H]; pose proof (lost_leads _ _ _ _ _ _ (proj1 H) (proj2 H) D) as Q.
  - destruct Q as (m1 & E & _). destruct (lost_ask _ _ _ _ D E) as (X & _). discriminate X.
  - destruct Q as (m1 & E & _). destruct (lost_ask _ _ _ _ D E) as (_ & []).
  - destruct Q as (m1 & E & _). destruct (lost_ask _ _ _ _ D E) as (_ & X). cbn in X. rewrite (m_fs _ _ _ _ _ _ _ _ _ _ _ _ _ _ _ _ Hm) in X. discriminate X.
  - exact (lost_panic _ _ D Q).
  - unfold at_have in Q. destruct (doomed tr b); [exact (lost_panic _ _ D Q)|]. destruct Q as (m1 & E & _). destruct (lost_ask _ _ _ _ D E) as (X & _).
    destruct (m_client _ _ _ _ _ _ _ _ _ _ _ _ _ _ _ _ Hm) as (L & dd & Ec & _). cbn [answer] in X. rewrite Ec in X. discriminate X.
  - exact (lost_panic _ _ D Q).
  - destruct Q as (m1 & E & _). destruct (lost_ask _ _ _ _ D E) as (_ & X). symmetry in Ev. destruct (i_deliver_t k HI _ _ _ Ev) as (_ & q & Hq).
    destruct (m_call _ _ _ _ _ _ _ _ _ _ _ _ _ _ _ _ Hm c) as (q' & _ & _ & Ech & _); [destruct Hq as [Hq|(r & Hq)]; rewrite Hq; discriminate|]. cbn in X. rewrite Ech in X. discriminate X.
  - destruct Q as (m1 & E & _). destruct (lost_ask _ _ _ _ D E) as (_ & X). cbn in X. rewrite (m_tags _ _ _ _ _ _ _ _ _ _ _ _ _ _ _ _ Hm) in X. discriminate X.
Qed.
Lemma lost_rd adr rch s us k m up : memory_as adr rch s us k -> rd_ph s m up (rdr k) -> lost m s -> False.
Proof.
  intros Hm Hrd D. remember (rdr k) as x eqn:Ex.
  destruct (m_client _ _ _ _ _ _ _ _ _ _ _ _ _ _ _ _ Hm) as (Lr & dd & Ecl & _).
  pose proof (m_fs _ _ _ _ _ _ _ _ _ _ _ _ _ _ _ _ Hm) as Ef. unfold closed in Ef. rewrite <- Ex in Ef.
  destruct Hrd as [H|H|Hn Hu H|Hn Hu H|a Hn Hu H|a h e Hn Hu Hr Hh H|a h b e Hn Hu Hr Hh H|a h b p Hn Hu Hp H|a p Hn Hu Hp Ea H|H|H|H];
    pose proof (lost_leads _ _ _ _ _ _ (proj1 H) (proj2 H) D) as Q.
  - destruct Q as (m1 & E & _). destruct (lost_ask _ _ _ _ D E) as (X & _). cbn [answer] in X. rewrite Ecl in X. discriminate X.
  - exact (lost_end _ _ D Q).
  - destruct Q as (m1 & E & _). destruct (lost_ask _ _ _ _ D E) as (X & _). cbn [answer] in X. rewrite Ecl in X. discriminate X.
  - destruct Q as (m1 & E & _). destruct (lost_ask _ _ _ _ D E) as (X & _). discriminate X.
  - destruct Q as (m1 & E & _). destruct (lost_ask _ _ _ _ D E) as (X & _). cbn in X. rewrite (proj2 (proj1 H)) in X. destruct (net_read _ _); discriminate X.
  - destruct Q as (m1 & E & _). destruct (lost_ask _ _ _ _ D E) as (X & _). cbn in X. rewrite (proj2 (proj1 H)) in X. discriminate X.
  - destruct Q as (m1 & (n & E & _) & _). destruct (lost_ask _ _ _ _ D E) as (X & _). cbn in X. rewrite (proj2 (proj1 H)) in X. destruct (copy_limit _ _) as [[? ?]|]; discriminate X.
  - destruct Q as (m1 & E & _). destruct (lost_ask _ _ _ _ D E) as (X & _). discriminate X.
  - destruct Q as (m1 & E & _). destruct (lost_ask _ _ _ _ D E) as (_ & X). cbn in X. rewrite Ef in X. discriminate X.
  - destruct Q as (m1 & E & _). destruct (lost_ask _ _ _ _ D E) as (X & _). cbn [answer] in X. rewrite Ecl in X. discriminate X.
  - destruct Q as (m1 & E & _). destruct (lost_ask _ _ _ _ D E) as (X & _). cbn in X. rewrite Ef in X. discriminate X.
  - exact (lost_end _ _ D Q).
Qed.
Lemma lost_snd adr rch s us k m B : memory_as adr rch s us k -> snd_ph adr rch s m B (snd_ k) -> lost m s -> False.
Proof.
  intros Hm Hsn D. remember (snd_ k) as x eqn:Ex.
  destruct (m_client _ _ _ _ _ _ _ _ _ _ _ _ _ _ _ _ Hm) as (Lr & dd & Ecl & _).
  destruct Hsn as [H|c q Hq H|c t q Hq H|c t q Hq H|c t q H|c t q H|c t q H|c t q H]; pose proof (lost_leads _ _ _ _ _ _ (proj1 H) (proj2 H) D) as Q.
  - destruct Q as (m1 & E & _). destruct (lost_ask _ _ _ _ D E) as (_ & X). cbn in X. rewrite (m_fc _ _ _ _ _ _ _ _ _ _ _ _ _ _ _ _ Hm) in X. discriminate X.
  - destruct Q as (m1 & E & _). destruct (lost_ask _ _ _ _ D E) as (_ & X). cbn in X. rewrite (m_tags _ _ _ _ _ _ _ _ _ _ _ _ _ _ _ _ Hm) in X. discriminate X.
  - destruct Q as (m1 & E & _). destruct (lost_ask _ _ _ _ D E) as (X & _). cbn [answer] in X. rewrite (proj2 (proj1 H)) in X. discriminate X.
  - destruct Q as (m1 & E & _). destruct (lost_ask _ _ _ _ D E) as (X & _). cbn [answer] in X. rewrite (proj2 (proj1 H)) in X. discriminate X.
  - destruct Q as (m1 & E & _). destruct (lost_ask _ _ _ _ D E) as (X & _). cbn [answer] in X. rewrite Ecl in X. discriminate X.
  - destruct Q as (m1 & E & _). destruct (lost_ask _ _ _ _ D E) as (_ & _ & X). apply X. eauto.
  - destruct Q as (m1 & E & _). destruct (lost_ask _ _ _ _ D E) as (X & _). cbn [answer] in X. rewrite Ecl in X. discriminate X.
  - destruct Q as (vs & m1 & E). destruct (lost_ask _ _ _ _ D E) as (_ & X & _). discriminate X.
Qed.
Lemma never_lost evs g k ls m : related evs g k ls -> g_dead g = false -> In m (g_threads g) -> ~ lost m (g_mem g).
Proof.
  intros R Hd Hin D. pose proof (inv_steps _ _ _ _ (r_model _ _ _ _ _ _ _ _ _ _ _ _ _ _ _ _ R)) as HI. destruct R as [Hmo Hd' (up & Hr & Hg)].
  destruct Hg as (adr & rch & mi & mn & ms & o & Hm & [Eth Hio Hrd Hsn]); [congruence|]. rewrite Eth in Hin. destruct Hin as [Hin|[Hin|Hin]].
  - subst. eapply lost_io; eassumption.
  - subst. eapply lost_rd; eassumption.
  - destruct o as [B|]; cbn in Hsn; [|destruct Hsn as [-> _]; destruct Hin]. destruct Hsn as (m0 & -> & Hsn). destruct Hin as [Hin|[]]. subst. eapply lost_snd; eassumption.
Qed.
Lemma sim_steps evs g0 k0 ls0 l g : related evs g0 k0 ls0 -> tsteps RN opt C g0 l g -> exists ls k, csteps tr k0 ls k /\ seen ls = seen l /\ related evs g k (ls0 ++ ls).
Proof.
  intros R H. induction H as [|ls g1 l g2 H IH St].
  - exists [], k0. split; [constructor|]. split; [reflexivity|]. rewrite app_nil_r. exact R.
  - destruct IH as (ls1 & k1 & H1 & H2 & H3). destruct (sim_step _ _ _ _ _ _ _ _ _ _ _ _ _ _ _ _ _ _ H3 St) as (ls' & k' & H4 & H5 & H6).
    exists (ls1 ++ ls'), k'. split; [eapply csteps_app; eassumption|]. split; [|rewrite app_assoc; exact H6].
    rewrite !seen_app, H2, H5. cbn [seen flat_map]. rewrite app_nil_r. reflexivity.
Qed.

(** * After NewClient *)
Lemma new_related us hp nx ch n net g L : (forall c, us c = UIdle) -> C = nx -> tg = n -> fc = n + 1 -> fs = n + 2 ->
  hp RN = Some v_names -> hp nx = Some (v_cl 1 L false) -> List.length L = NumTags -> (forall i, (i < NumTags)%nat -> nth_error L i = Some VNil) ->
  (forall a, nx < a -> hp a = None) -> (forall x, n + 2 < x -> ch x = None) ->
  ch n = Some (mkCh 65534 (first_tags (N.to_nat 65534)) false) -> ch (n + 1) = Some (mkCh 65534 [] false) -> ch (n + 2) = Some (mkCh 0 [] false) ->
  related net (mkG [start (str "Client.IO") [v_c C] []; start (str "Client.readNetPackets") [v_c C] []] (mkMem hp (nx + 1) (mkNW ch (n + 3) net g)) us false) (init hn) [].
Proof.
  intros Hu EC Etg Efc Efs Hn Hc Hl HL Hf Hx Ht Hfc Hfs.
  set (s := mkMem hp (nx + 1) (mkNW ch (n + 3) net g)).
  assert (Hm : memory_as (fun _ => 0) (fun _ => 0) s us (init hn)).
  { constructor; cbn [cells free rest w_chans w_next s tags fid rpc queue callers init map].
    - exact Hn.
    - exists L, false. rewrite EC. split; [exact Hc|]. split; [exact Hl|]. intros t H1 H2. cbn [slot]. apply HL. lia.
    - rewrite Etg, Ht, numtags_N, all_tags_first. reflexivity.
    - rewrite Efc, Hfc, numtags_N. reflexivity.
    - rewrite Efs, Hfs. f_equal. f_equal. unfold closed. cbn [rdr init]. destruct hn; reflexivity.
    - lia.
    - intros c. apply Hu.
    - intros c H. destruct H. reflexivity.
    - intros c q [H|[]]. discriminate H.
    - intros c c' H. destruct H. reflexivity.
    - intros a Ha. apply Hf. lia.
    - intros x H. apply Hx. lia. }
  pose proof (ma_base _ _ _ _ _ _ _ _ _ _ _ _ _ _ _ _ Hm) as Hb.
  constructor; [constructor|reflexivity|]. exists (packets net). split; [reflexivity|]. intros _.
  exists (fun _ => 0), (fun _ => 0), (start (str "Client.IO") [v_c C] []), (start (str "Client.readNetPackets") [v_c C] []), [], None.
  split; [exact Hm|]. constructor; cbn [g_mem g_threads rcv rdr snd_ init].
  - reflexivity.
  - apply io_0. split; [exact Hb|apply io_start_leads].
  - pose proof (net_start_leads RN opt C tg fc fs wn rn tn msz tr hn) as HL2. destruct hn eqn:Eh.
    + apply rp_load; [reflexivity|reflexivity|]. split; [exact Hb|exact HL2].
    + apply rp_gone. split; [exact Hb|exact HL2].
  - split; reflexivity.
Qed.
End Sim.

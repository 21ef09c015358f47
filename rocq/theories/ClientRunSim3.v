(** Every step of a goroutine of client.go is one of the model, or none. *)
From Verif Require Import Base GoBuf CodecPrim Types Codec Rpc GoSyntax Ufs GoRun GoFmt GoProg GoWp Server ServerRun ServerRunLemmas
  Client ClientLemmas ClientLemmas2 ClientLemmas6 ClientRun ClientRunLemmas ClientRunText ClientRunSim ClientRunSim2.
From Coq Require String Ascii.
Local Opaque NumTags all_tags.

Lemma net_read_most n e b r : net_read n e = RdData b r -> (List.length b <= n)%nat.
Proof. unfold net_read. destruct e as [|[c|] e]; intros H; inversion H; subst. rewrite firstn_length. lia. Qed.

(** * What a request can lead to *)
Section Requests.
Context (RN : N) (opt : oserr + (value * value * value * N)).
Notation P := protocol_program.
Notation lstep := (lstep RN opt).
Notation LIB := (lib RN opt).
Definition plain (r : req) : bool := match r with RRecv _ | RSend _ _ => false | RExt f _ => negb (beq f (str "io.WriteCloser.Write")) | _ => true end.
Lemma lstep_plain m s l m' s' r m1 : lstep m s l m' s' -> step P m = Ask r m1 -> plain r = true ->
  exists vs, answer LIB r s = Answer vs s' /\ m' = resume m1 vs /\ l = event r vs s'.
Proof.
  intros St E Hp. destruct St; rewrite E in H; try (inversion H; subst; discriminate).
  inversion H; subst. eauto.
Qed.
Lemma lstep_recv m s l m' s' k n m1 c : lstep m s l m' s' -> step P m = Ask (RRecv (VObj k n)) m1 -> w_chans (rest s) n = Some c ->
  l = LTau /\ ((exists v b, ch_buf c = v :: b /\ m' = resume m1 [v] /\ s' = set_chan s n (mkCh (ch_cap c) b (ch_closed c))) \/
               (ch_buf c = [] /\ ch_closed c = true /\ m' = resume m1 [VNil] /\ s' = s)).
Proof.
  intros St E Hc. destruct St; rewrite E in H; try (inversion H; subst; discriminate).
  - inversion H; subst. rewrite Hc in H0. inversion H0; subst. split; [reflexivity|]. left. eauto.
  - inversion H; subst. rewrite Hc in H0. inversion H0; subst. split; [reflexivity|]. right. auto.
Qed.
Lemma lstep_send m s l m' s' k n v m1 c : lstep m s l m' s' -> step P m = Ask (RSend (VObj k n) v) m1 -> w_chans (rest s) n = Some c ->
  l = LTau /\ ch_closed c = false /\ blen (ch_buf c) < ch_cap c /\ m' = resume m1 [] /\ s' = set_chan s n (mkCh (ch_cap c) (ch_buf c ++ [v]) false).
Proof.
  intros St E Hc. destruct St; rewrite E in H; try (inversion H; subst; discriminate).
  inversion H; subst. rewrite Hc in H0. inversion H0; subst. auto.
Qed.
Lemma lstep_write m s l m' s' o q m1 : lstep m s l m' s' -> step P m = Ask (RExt (str "io.WriteCloser.Write") [o; VBytes q]) m1 ->
  s' = s /\ ((l = LWrite 0 q /\ exists z, m' = resume m1 [VI 64 z; VNil]) \/ (l = LTau /\ exists z e, m' = resume m1 [VI 64 z; VErr e])).
Proof.
  intros St E. destruct St; rewrite E in H; try (inversion H; subst; discriminate).
  - inversion H; subst. split; [reflexivity|]. left. eauto.
  - inversion H; subst. split; [reflexivity|]. right. eauto.
Qed.
Lemma lstep_panic m s l m' s' : lstep m s l m' s' -> at_panic (step P m) -> False.
Proof. intros St [E|(f & E)]; destruct St; rewrite E in H; discriminate. Qed.
Lemma lstep_end m s l m' s' : lstep m s l m' s' -> at_end (step P m) -> False.
Proof. intros St (f & E); destruct St; rewrite E in H; discriminate. Qed.
Lemma lstep_fatal m s l m' s' vs m1 : lstep m s l m' s' -> step P m = Ask (RExt (str "log.Fatalf") vs) m1 -> False.
Proof. intros St E; destruct St; rewrite E in H; inversion H; subst; discriminate. Qed.
End Requests.

Section Sim.
Context (RN : N) (opt : oserr + (value * value * value * N)) (C tg fc fs wn rn tn msz : N) (tr hn : bool).
Notation M := (memory nworld).
Notation P := protocol_program.
Notation leads := (leads RN opt).
Notation lstep := (lstep RN opt).
Notation v_cl := (v_cl tg fc fs wn rn tn msz tr hn).
Notation Base := (base RN C tg fc fs wn rn tn msz tr hn).
Notation Boxed := (boxed RN C tg fc fs wn rn tn msz tr hn).
Notation HasReply := (has_reply RN C tg fc fs wn rn tn msz tr hn).
Notation HasBoth := (has_both RN C tg fc fs wn rn tn msz tr hn).
Notation HasCall := (has_call RN C tg fc fs wn rn tn msz tr hn).
Notation HasArr := (has_arr RN C tg fc fs wn rn tn msz tr hn).
Notation HasBuf := (has_buf RN C tg fc fs wn rn tn msz tr hn).
Notation io_ph := (io_ph RN opt C tg fc fs wn rn tn msz tr hn).
Notation snd_ph := (snd_ph RN opt C tg fc fs wn rn tn msz tr hn).
Notation rd_ph := (rd_ph RN opt C tg fc fs wn rn tn msz tr hn).
Notation snds := (snds RN opt C tg fc fs wn rn tn msz tr hn).
Notation memory_as := (memory_as RN C tg fc fs wn rn tn msz tr hn).
Notation threads_as := (threads_as RN opt C tg fc fs wn rn tn msz tr hn).
Definition good (s : M) (us : nat -> user) (ths : list machine) (k : cst) (up : list bytes) : Prop :=
  exists adr rch mi mn ms o, memory_as adr rch s us k /\ threads_as adr rch s ths k up mi mn ms o.
Definition after (k : cst) (l : lbl) (s : M) (us : nat -> user) (ths : list machine) (up : list bytes) : Prop :=
  exists ls k' up', csteps tr k ls k' /\ seen ls = seen1 l /\ up = reads ls ++ up' /\ crashed k' = false /\ good s us ths k' up'.
Lemma after_none k s us ths up : crashed k = false -> good s us ths k up -> after k LTau s us ths up.
Proof. intros Hc H. exists [], k, up. repeat split; auto. constructor. Qed.
Lemma after_one k l l' k' s us ths up : cstep tr k l' k' -> seen1 l' = seen1 l -> reads [l'] = [] -> crashed k' = false -> good s us ths k' up -> after k l s us ths up.
Proof.
  intros St E Er Hc H. exists [l'], k', up. split; [apply csteps_one, St|]. cbn [seen flat_map]. rewrite Er, app_nil_r. auto.
Qed.
Lemma snds_keep adr rch s s' ms o x : Base s' -> keep 0 s s' -> keep 2 s s' -> snds adr rch s ms o x -> snds adr rch s' ms o x.
Proof. intros Hb K0 K2. destruct o; cbn; [|auto]. intros (m & E & H). exists m. split; [exact E|]. eapply snd_keep; eauto. Qed.
Lemma good_tags k t : Inv k -> In t (tags k) -> 1 <= t /\ t <= N.of_nat NumTags.
Proof.
  intros I H. pose proof (i_tags k I t) as X. rewrite cnt_in in H. pose proof (valid_le t). assert (V : valid t = 1%nat) by lia.
  unfold valid in V. destruct (N.leb_spec 1 t), (N.leb_spec t (N.of_nat NumTags)); cbn in V; try discriminate. auto.
Qed.
Lemma queued k c q : Inv k -> In (c, q) (queue k) -> exists q, callers k c = CWait q.
Proof.
  intros I H. pose proof (i_once k I c) as X. assert (Hi : In c (map fst (queue k))) by (apply in_map_iff; exists (c, q); auto).
  rewrite cntc_in in Hi. destruct (callers k c); cbn in X; try lia. eauto.
Qed.
Lemma sending k c : Inv k -> (0 < scall c (snd_ k))%nat -> (exists q, callers k c = CWait q) /\ forall q, ~ In (c, q) (queue k).
Proof.
  intros I H. pose proof (i_once k I c) as X. split.
  - destruct (callers k c); cbn in X; try lia. eauto.
  - intros q Hq. assert (Hi : In c (map fst (queue k))) by (apply in_map_iff; exists (c, q); auto).
    rewrite cntc_in in Hi. destruct (callers k c); cbn in X; lia.
Qed.

Ltac inv_on H := destruct H as [?HI ?HL].
Ltac th := constructor; [reflexivity|..]; cbn [rcv rdr snd_ closed].
Lemma sim_io adr rch s us k up mi mn ms o l m' s' : Inv k -> crashed k = false -> memory_as adr rch s us k -> threads_as adr rch s (mi :: mn :: ms) k up mi mn ms o ->
  lstep mi s l m' s' -> after k l s' us (m' :: mn :: ms) up.
Proof.
  intros HI Hc Hm [_ Hio Hrd Hsn] St. pose proof (ma_base _ _ _ _ _ _ _ _ _ _ _ _ _ _ _ _ Hm) as Hb.
  assert (Same : forall (I : M -> Prop) Q, I s -> leads I mi Q -> (on RN opt I m' Q s -> io_ph adr rch s (closed k) m' o (rcv k)) ->
     Q (step P mi) \/ after k l s' us (m' :: mn :: ms) up).
  { intros I Q Is Il Hk. destruct (lstep_leads _ _ _ _ _ _ _ _ _ Is Il St) as [Hq|(-> & -> & L)]; [left; exact Hq|right].
    apply after_none; [exact Hc|]. exists adr, rch, m', mn, ms, o. split; [exact Hm|]. constructor; auto. apply Hk. split; auto. }
  remember (rcv k) as v eqn:Ev. remember (closed k) as cl eqn:Ecl.
  destruct Hio as [H|B H|B H|B Hcl H|B a b H|B a b H|B a b t c H|B t H].
  - (* box *) destruct H as [H L]. destruct (Same _ _ H L) as [Q|D]; [intros; apply io_0; assumption| |exact D].
    destruct Q as (m1 & E & Q). destruct (lstep_plain _ _ _ _ _ _ _ _ _ St E eq_refl) as (vs & Ea & -> & ->). cbn in Ea. inversion Ea; subst. cbn [event].
    assert (Hm' := ma_new _ _ _ _ _ _ _ _ _ _ _ _ _ _ _ _ (v_c C) Hm). pose proof (ma_base _ _ _ _ _ _ _ _ _ _ _ _ _ _ _ _ Hm') as Hb'.
    assert (Hf := m_free _ _ _ _ _ _ _ _ _ _ _ _ _ _ _ _ Hm (free s) (N.le_refl _)).
    apply after_none; [exact Hc|]. exists adr, rch, (resume m1 [VPtr (str "Client") (free s) []]), mn, ms, None. split; [exact Hm'|]. constructor.
    + reflexivity.
    + rewrite <- Ev. apply io_1 with (free s). split; [|apply Q]. split; [exact Hb'|]. cbn. apply put_cell_same.
    + eapply rd_keep with (s := s); [exact Hb'|apply keep_new, Hf|apply keep_new, Hf|reflexivity|exact Hrd].
    + exact Hsn.
  - (* go: not a step of its own *) destruct H as [H L]. destruct (Same _ _ H L) as [Q|D]; [intros; apply io_1 with B; assumption| |exact D].
    destruct Q as (m1 & E & Q). destruct (lstep_plain _ _ _ _ _ _ _ _ _ St E eq_refl) as (vs & Ea & _). discriminate.
  - (* receive *) destruct H as [H L]. destruct (Same _ _ H L) as [Q|D]; [intros; apply io_wait; assumption| |exact D].
    destruct Q as (m1 & E & Q1 & Q2). pose proof (m_fs _ _ _ _ _ _ _ _ _ _ _ _ _ _ _ _ Hm) as Ef.
    destruct (lstep_recv _ _ _ _ _ _ _ _ _ _ _ St E Ef) as (-> & [(v & b & Eb & _)|(_ & Ec & -> & ->)]); [discriminate|]. cbn in Ec.
    apply after_none; [exact Hc|]. exists adr, rch, (resume m1 [VNil]), mn, ms, (Some B). split; [exact Hm|]. constructor; auto.
    rewrite <- Ev, Ec. apply io_nil; [reflexivity|]. split; auto.
  - (* nil *) destruct H as [H L]. destruct (Same _ _ H L) as [Q|D]; [intros; apply io_nil; assumption| |exact D]. destruct (lstep_panic _ _ _ _ _ _ _ St Q).
  - (* look up *) destruct H as [H L]. destruct (Same _ _ H L) as [Q|D]; [intros; apply io_have with a; assumption| |exact D].
    unfold at_have in Q. destruct (doomed tr b) eqn:Ed; [destruct (lstep_panic _ _ _ _ _ _ _ St Q)|].
    destruct Q as (m1 & E & Q). destruct (lstep_plain _ _ _ _ _ _ _ _ _ St E eq_refl) as (vs & Ea & -> & ->).
    destruct (m_client _ _ _ _ _ _ _ _ _ _ _ _ _ _ _ _ Hm) as (Lr & dd & Ecl' & El & Hl). cbn [answer] in Ea. rewrite Ecl' in Ea. cbn in Ea. inversion Ea; subst vs s'.
    cbn [event]. unfold doomed in Ed. rewrite !orb_false_iff in Ed. destruct Ed as ((E1 & E2) & E3). apply negb_false_iff in E3.
    destruct (Q Lr El) as [QN QS].
    eapply after_one; [apply (cs_lookup tr k b); auto|reflexivity|reflexivity|reflexivity|].
    assert (Hm' : memory_as adr rch s us (mkC (tags k) (fid k) (rpc k) (queue k) (callers k) (snd_ k) (rdr k) (receive tr k b) (Client.user k) (fids k) false)) by (apply (ma_ext _ _ _ _ _ _ _ _ _ _ _ _ _ _ _ _ _ Hm); reflexivity).
    eexists adr, rch, _, mn, ms, (Some B). split; [exact Hm'|]. constructor; cbn [rcv rdr snd_]; [reflexivity| |exact Hrd|exact Hsn].
    assert (Erec : receive tr k b = match rpc k (tag_of b) with None => VDoomed | Some c => VDeliver b (tag_of b) c end) by (unfold receive; rewrite E1, E2, E3; reflexivity).
    rewrite Erec. apply N.ltb_ge in E1. apply N.leb_gt in E2.
    specialize (Hl (tag_of b) ltac:(lia) ltac:(lia)). destruct (rpc k (tag_of b)) as [c|] eqn:Er; cbn [slot] in Hl.
    + apply io_del with a. split; [|apply QS; exact Hl]. split; [exact H|].
      destruct (i_slot k HI c _ Er) as (_ & q & Hq). destruct (m_call _ _ _ _ _ _ _ _ _ _ _ _ _ _ _ _ Hm c) as (q' & Eq & _); [destruct Hq as [Hq|(r & Hq)]; rewrite Hq; discriminate|]. eauto.
    + apply io_doom with a b. split; [exact H|]. apply QN. exact Hl.
  - (* doomed *) destruct H as [H L]. destruct (Same _ _ H L) as [Q|D]; [intros; eapply io_doom; eassumption| |exact D]. destruct (lstep_panic _ _ _ _ _ _ _ St Q).
  - (* deliver: needs the caller *) destruct H as [H L]. destruct (Same _ _ H L) as [Q|D]; [intros; eapply io_del; eassumption| |exact D].
    destruct Q as (m1 & E & Q). symmetry in Ev. destruct (i_deliver_t k HI _ _ _ Ev) as (_ & q & Hq).
    destruct (m_call _ _ _ _ _ _ _ _ _ _ _ _ _ _ _ _ Hm c) as (q' & Eq & _ & Ech & _); [destruct Hq as [Hq|(r & Hq)]; rewrite Hq; discriminate|].
    destruct (lstep_send _ _ _ _ _ _ _ _ _ _ _ _ St E Ech) as (_ & _ & X & _). cbn in X. lia.
  - (* return the tag *) destruct H as [H L]. destruct (Same _ _ H L) as [Q|D]; [intros; eapply io_ret; eassumption| |exact D].
    destruct Q as (m1 & E & Q). pose proof (m_tags _ _ _ _ _ _ _ _ _ _ _ _ _ _ _ _ Hm) as Et.
    destruct (lstep_send _ _ _ _ _ _ _ _ _ _ _ _ St E Et) as (-> & _ & X & -> & ->). cbn [ch_cap ch_buf] in *.
    assert (Hlen : (List.length (tags k) < NumTags)%nat) by (unfold blen in X; rewrite map_length in X; lia).
    eapply after_one; [apply (cs_return tr k t); auto|reflexivity|reflexivity|reflexivity|].
    match goal with |- good _ _ _ ?k1 _ => set (k' := k1) end.
    assert (Hne : tg <> fs). { intros X1. pose proof (m_fs _ _ _ _ _ _ _ _ _ _ _ _ _ _ _ _ Hm) as Ef. rewrite <- X1, Et in Ef. discriminate. }
    assert (Hm' : memory_as adr rch (set_chan s tg (mkCh (N.of_nat NumTags) (map (VU 16) (tags k) ++ [VU 16 t]) false)) us k').
    { apply (ma_chan _ _ _ _ _ _ _ _ _ _ _ _ _ _ _ _ _ _ _ _ Hm Et); try reflexivity; auto.
      - rewrite put_chan_same. cbn [tags k']. rewrite map_app. reflexivity.
      - rewrite put_chan_other; [apply (m_fc _ _ _ _ _ _ _ _ _ _ _ _ _ _ _ _ Hm)|]. intros X1. apply (m_distinct _ _ _ _ _ _ _ _ _ _ _ _ _ _ _ _ Hm). auto.
      - rewrite put_chan_other by auto. apply (m_fs _ _ _ _ _ _ _ _ _ _ _ _ _ _ _ _ Hm). }
    pose proof (ma_base _ _ _ _ _ _ _ _ _ _ _ _ _ _ _ _ Hm') as Hb'.
    eexists adr, rch, _, mn, ms, (Some B). split; [exact Hm'|]. constructor; cbn [rcv rdr snd_ k']; [reflexivity| | |].
    + apply io_wait. split; [split; [exact Hb'|exact (proj2 H)]|]. apply Q, io_loop_leads.
    + eapply rd_keep with (s := s); [exact Hb'|apply keep_same; reflexivity|apply keep_same; reflexivity|reflexivity|exact Hrd].
    + eapply snds_keep with (s := s); [exact Hb'|apply keep_same; reflexivity|apply keep_same; reflexivity|exact Hsn].
Qed.

Lemma sim_snd adr rch s us k up mi mn m B l m' s' : Inv k -> crashed k = false -> memory_as adr rch s us k -> threads_as adr rch s (mi :: mn :: [m]) k up mi mn [m] (Some B) ->
  lstep m s l m' s' -> after k l s' us (mi :: mn :: [m']) up.
Proof.
  intros HI Hc Hm [_ Hio Hrd Hsn] St. pose proof (ma_base _ _ _ _ _ _ _ _ _ _ _ _ _ _ _ _ Hm) as Hb.
  destruct Hsn as (m0 & E0 & Hsn). inversion E0; subst m0; clear E0.
  assert (Same : forall (I : M -> Prop) Q, I s -> leads I m Q -> (on RN opt I m' Q s -> snd_ph adr rch s m' B (snd_ k)) ->
     Q (step P m) \/ after k l s' us (mi :: mn :: [m']) up).
  { intros I Q Is Il Hk. destruct (lstep_leads _ _ _ _ _ _ _ _ _ Is Il St) as [Hq|(-> & -> & L)]; [left; exact Hq|right].
    apply after_none; [exact Hc|]. exists adr, rch, mi, mn, [m'], (Some B). split; [exact Hm|]. constructor; auto. exists m'. split; [reflexivity|]. apply Hk. split; auto. }
  assert (Htf : tg <> fs). { intros X1. pose proof (m_fs _ _ _ _ _ _ _ _ _ _ _ _ _ _ _ _ Hm) as Ef. rewrite <- X1, (m_tags _ _ _ _ _ _ _ _ _ _ _ _ _ _ _ _ Hm) in Ef. discriminate. }
  assert (Hcf : fc <> fs). { intros X1. pose proof (m_fs _ _ _ _ _ _ _ _ _ _ _ _ _ _ _ _ Hm) as Ef. rewrite <- X1, (m_fc _ _ _ _ _ _ _ _ _ _ _ _ _ _ _ _ Hm) in Ef. discriminate. }
  assert (Htc := m_distinct _ _ _ _ _ _ _ _ _ _ _ _ _ _ _ _ Hm).
  remember (snd_ k) as x eqn:Ex.
  destruct Hsn as [H|c q Hq H|c t q Hq H|c t q Hq H|c t q H|c t q H|c t q H|c t q H]; destruct H as [H L].
  - destruct (Same _ _ H L) as [Q|D]; [intros; apply sp_idle; assumption| |exact D].
    destruct Q as (m1 & E & Q). pose proof (m_fc _ _ _ _ _ _ _ _ _ _ _ _ _ _ _ _ Hm) as Ef.
    destruct (lstep_recv _ _ _ _ _ _ _ _ _ _ _ St E Ef) as (-> & [(v & b & Eb & -> & ->)|(_ & X & _)]); [|discriminate]. cbn [ch_buf ch_cap ch_closed] in *.
    destruct (queue k) as [|[c q] qs] eqn:Eq; [discriminate|]. cbn in Eb. inversion Eb; subst v b. clear Eb.
    eapply after_one; [eapply (cs_take tr k c q qs); auto|reflexivity|reflexivity|reflexivity|].
    match goal with |- good _ _ _ ?k1 _ => set (k' := k1) end.
    assert (Hm' : memory_as adr rch (set_chan s fc (mkCh (N.of_nat NumTags) (map (fun x => p_call adr (fst x)) qs) false)) us k').
    { apply (ma_chan _ _ _ _ _ _ _ _ _ _ _ _ _ _ _ _ _ _ _ _ Hm Ef); try reflexivity; auto.
      - rewrite put_chan_other by auto. apply (m_tags _ _ _ _ _ _ _ _ _ _ _ _ _ _ _ _ Hm).
      - rewrite put_chan_same. reflexivity.
      - rewrite put_chan_other by auto. apply (m_fs _ _ _ _ _ _ _ _ _ _ _ _ _ _ _ _ Hm).
      - cbn [queue k']. rewrite Eq. intros y Hy. right. exact Hy. }
    pose proof (ma_base _ _ _ _ _ _ _ _ _ _ _ _ _ _ _ _ Hm') as Hb'.
    assert (Hin : In (c, q) (queue k)) by (rewrite Eq; left; reflexivity).
    assert (Ecall := m_send _ _ _ _ _ _ _ _ _ _ _ _ _ _ _ _ Hm c q (or_intror Hin)).
    assert (Hq : (7 <= List.length q)%nat).
    { destruct (queued k c q HI Hin) as (q0 & Hq0). destruct (m_call _ _ _ _ _ _ _ _ _ _ _ _ _ _ _ _ Hm c) as (q' & E' & Hl' & _); [congruence|].
      rewrite Ecall in E'. inversion E'; subst. exact Hl'. }
    eexists adr, rch, mi, mn, _, (Some B). split; [exact Hm'|]. constructor; cbn [rcv rdr snd_ k']; [reflexivity| | |].
    + eapply io_keep with (s := s); [exact Hb'|apply keep_same; reflexivity|apply keep_keep_calls, keep_same; reflexivity| |exact Hio]. auto.
    + eapply rd_keep with (s := s); [exact Hb'|apply keep_same; reflexivity|apply keep_same; reflexivity|reflexivity|exact Hrd].
    + eexists. split; [reflexivity|]. apply sp_call; [exact Hq|]. split.
      * split; [split; [exact Hb'|exact (proj2 H)]|exact Ecall].
      * eapply ld_stronger; [|apply Q]. intros s1 (H1 & _). exact H1.
  - destruct (Same _ _ H L) as [Q|D]; [intros; apply sp_call; assumption| |exact D].
    destruct Q as (m1 & E & Q). pose proof (m_tags _ _ _ _ _ _ _ _ _ _ _ _ _ _ _ _ Hm) as Ef.
    destruct (lstep_recv _ _ _ _ _ _ _ _ _ _ _ St E Ef) as (-> & [(v & b & Eb & -> & ->)|(_ & X & _)]); [|discriminate]. cbn [ch_buf ch_cap ch_closed] in *.
    destruct (tags k) as [|t ts] eqn:Et; [discriminate|]. cbn in Eb. inversion Eb; subst v b. clear Eb.
    destruct (good_tags k t HI) as (Ht1 & Ht2); [rewrite Et; left; reflexivity|].
    eapply after_one; [eapply (cs_tag tr k c q t ts); auto|reflexivity|reflexivity|reflexivity|].
    match goal with |- good _ _ _ ?k1 _ => set (k' := k1) end.
    assert (Hm' : memory_as adr rch (set_chan s tg (mkCh (N.of_nat NumTags) (map (VU 16) ts) false)) us k').
    { apply (ma_chan _ _ _ _ _ _ _ _ _ _ _ _ _ _ _ _ _ _ _ _ Hm Ef); try reflexivity; auto.
      - rewrite put_chan_same. reflexivity.
      - rewrite put_chan_other by auto. apply (m_fc _ _ _ _ _ _ _ _ _ _ _ _ _ _ _ _ Hm).
      - rewrite put_chan_other by auto. apply (m_fs _ _ _ _ _ _ _ _ _ _ _ _ _ _ _ _ Hm). }
    pose proof (ma_base _ _ _ _ _ _ _ _ _ _ _ _ _ _ _ _ Hm') as Hb'.
    eexists adr, rch, mi, mn, _, (Some B). split; [exact Hm'|]. constructor; cbn [rcv rdr snd_ k']; [reflexivity| | |].
    + eapply io_keep with (s := s); [exact Hb'|apply keep_same; reflexivity|apply keep_keep_calls, keep_same; reflexivity| |exact Hio]. auto.
    + eapply rd_keep with (s := s); [exact Hb'|apply keep_same; reflexivity|apply keep_same; reflexivity|reflexivity|exact Hrd].
    + eexists. split; [reflexivity|]. apply sp_5; [exact Hq|]. destruct H as ((_ & H1) & H2). split; [|apply Q; assumption].
      split; [split; [exact Hb'|exact H1]|exact H2].
  - destruct (Same _ _ H L) as [Q|D]; [intros; apply sp_5; assumption| |exact D].
    destruct Q as (m1 & E & Q). destruct (lstep_plain _ _ _ _ _ _ _ _ _ St E eq_refl) as (vs & Ea & -> & ->).
    destruct H as ((_ & H1) & H2). cbn [answer] in Ea. rewrite H2 in Ea.
    change (set_path [SF (str "b"); SI 5] (VU 8 (t mod 256)) (v_call q (rch c))) with (Some (v_call (set5 t q) (rch c))) in Ea. inversion Ea; subst vs s'. cbn [event].
    destruct (sending k c HI) as ((q0 & Hq0) & Hnq); [rewrite <- Ex; cbn; rewrite Nat.eqb_refl; lia|].
    assert (Hm' : memory_as adr rch (with_cell s (adr c) (v_call (set5 t q) (rch c))) us k).
    { apply (ma_call _ _ _ _ _ _ _ _ _ _ _ _ _ _ _ _ k _ _ Hm); try reflexivity; try congruence; [exact Hnq| |rewrite set5_length; assumption].
      intros [c' q'] Hx. destruct (queued _ _ _ HI Hx) as (q1 & E1). cbn. congruence. }
    pose proof (ma_base _ _ _ _ _ _ _ _ _ _ _ _ _ _ _ _ Hm') as Hb'.
    assert (K0 : keep 0 s (with_cell s (adr c) (v_call (set5 t q) (rch c)))) by (eapply keep_cell; [exact H2|discriminate]).
    assert (K1 : keep 1 s (with_cell s (adr c) (v_call (set5 t q) (rch c)))) by (eapply keep_cell; [exact H2|discriminate]).
    apply after_none; [exact Hc|]. eexists adr, rch, mi, mn, _, (Some B). split; [exact Hm'|]. constructor; [reflexivity| | |].
    + eapply io_keep with (s := s); [exact Hb'|exact K0| |intros X; exact X|exact Hio].
      intros a q1 ch1 E1. cbn. destruct (N.eq_dec a (adr c)) as [->|n]; [rewrite put_cell_same; rewrite H2 in E1; inversion E1; subst; eauto|rewrite put_cell_other by exact n; eauto].
    + eapply rd_keep with (s := s); [exact Hb'|exact K0|exact K1|reflexivity|exact Hrd].
    + eexists. split; [reflexivity|]. rewrite <- Ex. apply sp_6; [exact Hq|]. split; [|exact Q].
      split; [split; [exact Hb'|apply K0; [reflexivity|exact H1]]|]. cbn. apply put_cell_same.
  - destruct (Same _ _ H L) as [Q|D]; [intros; apply sp_6; assumption| |exact D].
    destruct Q as (m1 & E & Q). destruct (lstep_plain _ _ _ _ _ _ _ _ _ St E eq_refl) as (vs & Ea & -> & ->).
    destruct H as ((_ & H1) & H2). cbn [answer] in Ea. rewrite H2 in Ea.
    change (set_path [SF (str "b"); SI 6] (VU 8 (N.shiftr t 8 mod 256)) (v_call (set5 t q) (rch c)))
      with (Some (v_call (firstn 6 (set5 t q) ++ u8 (N.shiftr t 8 mod 256) :: skipn 7 (set5 t q)) (rch c))) in Ea. rewrite set6 in Ea by exact Hq. inversion Ea; subst vs s'. cbn [event].
    destruct (sending k c HI) as ((q0 & Hq0) & Hnq); [rewrite <- Ex; cbn; rewrite Nat.eqb_refl; lia|].
    assert (Hm' : memory_as adr rch (with_cell s (adr c) (v_call (set_tag t q) (rch c))) us k).
    { apply (ma_call _ _ _ _ _ _ _ _ _ _ _ _ _ _ _ _ k _ _ Hm); try reflexivity; try congruence; [exact Hnq| |rewrite set_tag_length; assumption].
      intros [c' q'] Hx. destruct (queued _ _ _ HI Hx) as (q1 & E1). cbn. congruence. }
    pose proof (ma_base _ _ _ _ _ _ _ _ _ _ _ _ _ _ _ _ Hm') as Hb'.
    assert (K0 : keep 0 s (with_cell s (adr c) (v_call (set_tag t q) (rch c)))) by (eapply keep_cell; [exact H2|discriminate]).
    assert (K1 : keep 1 s (with_cell s (adr c) (v_call (set_tag t q) (rch c)))) by (eapply keep_cell; [exact H2|discriminate]).
    apply after_none; [exact Hc|]. eexists adr, rch, mi, mn, _, (Some B). split; [exact Hm'|]. constructor; [reflexivity| | |].
    + eapply io_keep with (s := s); [exact Hb'|exact K0| |intros X; exact X|exact Hio].
      intros a q1 ch1 E1. cbn. destruct (N.eq_dec a (adr c)) as [->|n]; [rewrite put_cell_same; rewrite H2 in E1; inversion E1; subst; eauto|rewrite put_cell_other by exact n; eauto].
    + eapply rd_keep with (s := s); [exact Hb'|exact K0|exact K1|reflexivity|exact Hrd].
    + eexists. split; [reflexivity|]. rewrite <- Ex. apply sp_slot. split; [|exact Q].
      split; [split; [exact Hb'|apply K0; [reflexivity|exact H1]]|]. cbn. apply put_cell_same.
  - destruct (Same _ _ H L) as [Q|D]; [intros; apply sp_slot; assumption| |exact D].
    destruct Q as (m1 & E & Q). destruct (lstep_plain _ _ _ _ _ _ _ _ _ St E eq_refl) as (vs & Ea & -> & ->).
    destruct (m_client _ _ _ _ _ _ _ _ _ _ _ _ _ _ _ _ Hm) as (Lr & dd & Ecl & El & Hl).
    cbn [answer] in Ea. rewrite Ecl in Ea.
    change (set_path [SF (str "RPC"); SI (N.to_nat t - 1)] (VPtr (str "RPCCall") (adr c) []) (v_cl (fid k) Lr dd))
      with (Some (v_cl (fid k) (set_nth (N.to_nat t - 1) (p_call adr c) Lr) dd)) in Ea. inversion Ea; subst vs s'. cbn [event]. clear Ea.
    assert (Ht : 1 <= t /\ t <= N.of_nat NumTags).
    { pose proof (i_tags k HI t) as X. rewrite <- Ex in X. cbn in X. rewrite N.eqb_refl in X. pose proof (valid_le t). assert (V : valid t = 1%nat) by lia.
      unfold valid in V. destruct (N.leb_spec 1 t), (N.leb_spec t (N.of_nat NumTags)); cbn in V; try discriminate. auto. }
    eapply after_one; [apply (cs_slot tr k c t q); auto|reflexivity|reflexivity|reflexivity|].
    match goal with |- good _ _ _ ?k1 _ => set (k' := k1) end.
    assert (Hm' : memory_as adr rch (with_cell s C (v_cl (fid k') (set_nth (N.to_nat t - 1) (p_call adr c) Lr) dd)) us k').
    { apply (ma_client _ _ _ _ _ _ _ _ _ _ _ _ _ _ _ k k' _ dd Hm); try reflexivity.
      - rewrite set_nth_length. exact El.
      - intros t' H1 H2. rewrite nth_set_nth by (try reflexivity; lia). cbn [rpc k']. unfold updN.
        destruct (Nat.eqb_spec (N.to_nat t' - 1) (N.to_nat t - 1)), (N.eqb_spec t' t); try lia; [reflexivity|]. apply Hl; assumption. }
    pose proof (ma_base _ _ _ _ _ _ _ _ _ _ _ _ _ _ _ _ Hm') as Hb'. cbn [fid k'] in Hm', Hb'.
    match type of Hb' with base _ _ _ _ _ _ _ _ _ _ _ ?x => set (s' := x) in * end.
    assert (KK : forall n, n <> 3%nat -> keep n s s') by (intros n Hn; eapply keep_cell; [exact Ecl|cbn; auto]).
    eexists adr, rch, mi, mn, _, (Some B). split; [exact Hm'|]. constructor; cbn [rcv rdr snd_ k']; [reflexivity| | |].
    + eapply io_keep with (s := s); [exact Hb'|apply KK; lia|apply keep_keep_calls, KK; lia|intros X; exact X|exact Hio].
    + eapply rd_keep with (s := s); [exact Hb'|apply KK; lia|apply KK; lia|reflexivity|exact Hrd].
    + eexists. split; [reflexivity|]. apply sp_write. destruct H as ((_ & H1) & H2). split; [|exact Q].
      split; [split; [exact Hb'|apply (KK 0%nat); [lia|reflexivity|exact H1]]|]. apply (KK 2%nat); [lia|reflexivity|exact H2].
  - destruct (Same _ _ H L) as [Q|D]; [intros; apply sp_write; assumption| |exact D].
    destruct Q as (m1 & E & Q1 & Q2). destruct (lstep_write _ _ _ _ _ _ _ _ _ _ St E) as (-> & [(-> & z & ->)|(-> & z & e & ->)]).
    + eapply after_one; [apply (cs_write tr k c t q); auto|reflexivity|reflexivity|reflexivity|].
      eexists adr, rch, mi, mn, _, (Some B). split; [apply (ma_ext _ _ _ _ _ _ _ _ _ _ _ _ _ _ _ _ _ Hm); reflexivity|]. constructor; cbn [rcv rdr snd_]; [reflexivity|exact Hio|exact Hrd|].
      eexists. split; [reflexivity|]. apply sp_idle. split; [exact (proj1 H)|]. apply Q1, snd_loop_leads.
    + apply after_none; [exact Hc|]. eexists adr, rch, mi, mn, _, (Some B). split; [exact Hm|]. constructor; [reflexivity|exact Hio|exact Hrd|].
      eexists. split; [reflexivity|]. rewrite <- Ex. apply sp_dead. split; [exact (proj1 H)|]. apply Q2.
  - destruct (Same _ _ H L) as [Q|D]; [intros; apply sp_dead; assumption| |exact D].
    destruct Q as (m1 & E & Q). destruct (lstep_plain _ _ _ _ _ _ _ _ _ St E eq_refl) as (vs & Ea & -> & ->).
    destruct (m_client _ _ _ _ _ _ _ _ _ _ _ _ _ _ _ _ Hm) as (Lr & dd & Ecl & El & Hl).
    cbn [answer] in Ea. rewrite Ecl in Ea. change (set_path [SF (str "Dead")] (VBool true) (v_cl (fid k) Lr dd)) with (Some (v_cl (fid k) Lr true)) in Ea. inversion Ea; subst vs s'. cbn [event]. clear Ea.
    assert (Hm' := ma_client _ _ _ _ _ _ _ _ _ _ _ _ _ _ _ k k Lr true Hm El Hl eq_refl eq_refl eq_refl eq_refl).
    pose proof (ma_base _ _ _ _ _ _ _ _ _ _ _ _ _ _ _ _ Hm') as Hb'.
    match type of Hb' with base _ _ _ _ _ _ _ _ _ _ _ ?x => set (s' := x) in * end.
    assert (KK : forall n, n <> 3%nat -> keep n s s') by (intros n Hn; eapply keep_cell; [exact Ecl|cbn; auto]).
    apply after_none; [exact Hc|]. eexists adr, rch, mi, mn, _, (Some B). split; [exact Hm'|]. constructor; [reflexivity| | |].
    + eapply io_keep with (s := s); [exact Hb'|apply KK; lia|apply keep_keep_calls, KK; lia|intros X; exact X|exact Hio].
    + eapply rd_keep with (s := s); [exact Hb'|apply KK; lia|apply KK; lia|reflexivity|exact Hrd].
    + eexists. split; [reflexivity|]. rewrite <- Ex. apply sp_fatal. split; [|exact Q]. split; [exact Hb'|apply (KK 0%nat); [lia|reflexivity|exact (proj2 H)]].
  - destruct (Same _ _ H L) as [Q|D]; [intros; apply sp_fatal; assumption| |exact D].
    destruct Q as (vs & m1 & E). destruct (lstep_fatal _ _ _ _ _ _ _ _ _ St E).
Qed.

Lemma sim_rd adr rch s us k up mi mn ms o l m' s' : Inv k -> crashed k = false -> memory_as adr rch s us k -> threads_as adr rch s (mi :: mn :: ms) k up mi mn ms o ->
  lstep mn s l m' s' -> after k l s' us (mi :: m' :: ms) up.
Proof.
  intros HI Hc Hm [_ Hio Hrd Hsn] St. pose proof (ma_base _ _ _ _ _ _ _ _ _ _ _ _ _ _ _ _ Hm) as Hb.
  assert (Same : forall (I : M -> Prop) Q, I s -> leads I mn Q -> (on RN opt I m' Q s -> rd_ph s m' up (rdr k)) ->
     Q (step P mn) \/ after k l s' us (mi :: m' :: ms) up).
  { intros I Q Is Il Hk. destruct (lstep_leads _ _ _ _ _ _ _ _ _ Is Il St) as [Hq|(-> & -> & L)]; [left; exact Hq|right].
    apply after_none; [exact Hc|]. exists adr, rch, mi, m', ms, o. split; [exact Hm|]. constructor; auto. apply Hk. split; auto. }
  assert (Hf := m_free _ _ _ _ _ _ _ _ _ _ _ _ _ _ _ _ Hm (free s) (N.le_refl _)).
  assert (HF := m_free _ _ _ _ _ _ _ _ _ _ _ _ _ _ _ _ Hm).
  destruct (m_client _ _ _ _ _ _ _ _ _ _ _ _ _ _ _ _ Hm) as (Lr & dd & Ecl & El & Hl).
  (* a step the model does not have *)
  assert (Still : forall s1 m1 : _, memory_as adr rch s1 us k -> keep 0 s s1 -> keep 2 s s1 -> (Base s1 -> rd_ph s1 m1 up (rdr k)) -> after k LTau s1 us (mi :: m1 :: ms) up).
  { intros s1 m1 Hm1 K0 K2 Hr. pose proof (ma_base _ _ _ _ _ _ _ _ _ _ _ _ _ _ _ _ Hm1) as Hb1. apply after_none; [exact Hc|].
    exists adr, rch, mi, m1, ms, o. split; [exact Hm1|]. constructor; auto.
    - eapply io_keep with (s := s); [exact Hb1|exact K0|apply keep_keep_calls, K2|intros X; exact X|exact Hio].
    - eapply snds_keep with (s := s); [exact Hb1|exact K0|exact K2|exact Hsn]. }
  assert (New : forall v m1, (Base (with_new s v) -> rd_ph (with_new s v) m1 up (rdr k)) -> after k LTau (with_new s v) us (mi :: m1 :: ms) up).
  { intros v m1 Hr. apply Still; [apply ma_new, Hm|apply keep_new, Hf|apply keep_new, Hf|exact Hr]. }
  assert (Dead : forall m1, (Base (with_cell s C (v_cl (fid k) Lr true)) -> rd_ph (with_cell s C (v_cl (fid k) Lr true)) m1 up (rdr k)) ->
     after k LTau (with_cell s C (v_cl (fid k) Lr true)) us (mi :: m1 :: ms) up).
  { intros m1 Hr. apply Still; [|eapply keep_cell; [exact Ecl|discriminate]|eapply keep_cell; [exact Ecl|discriminate]|exact Hr].
    exact (ma_client _ _ _ _ _ _ _ _ _ _ _ _ _ _ _ k k Lr true Hm El Hl eq_refl eq_refl eq_refl eq_refl). }
  (* the reader's own cell a, and the network *)
  assert (Own : forall k' a w v n, cells s a = Some w -> kind w = 1%nat -> tags k' = tags k -> fid k' = fid k -> rpc k' = rpc k -> queue k' = queue k -> callers k' = callers k -> closed k' = closed k ->
     let s1 := mkMem (put_cell (cells s) a v) (free s) (mkNW (w_chans (rest s)) (w_next (rest s)) n (w_gos (rest s))) in
     memory_as adr rch s1 us k' /\ keep 0 s s1 /\ keep 2 s s1).
  { intros k' a w v n Ea Hk E1 E2 E3 E4 E5 E6 s1. assert (KK : forall n, n <> 1%nat -> keep n s s1).
    { intros j Hj b x Hx Eb. cbn. rewrite put_cell_other; [exact Eb|]. intros ->. congruence. }
    split; [|split; apply KK; lia]. apply (ma_ext _ _ _ _ _ _ _ _ _ _ _ _ _ _ _ k); try assumption.
    apply ma_frame with s; try (apply KK; lia); try reflexivity; [exact Hm|]. cbn. intros b Hb1. rewrite put_cell_other; [apply HF, Hb1|]. intros ->. rewrite HF in Ea by exact Hb1. discriminate. }
  remember (rdr k) as x eqn:Ex.
  destruct Hrd as [H|H|Hn Hu H|Hn Hu H|a Hn Hu H|a h e Hn Hu Hr Hh H|a h b e Hn Hu Hr Hh H|a h b p Hn Hu Hp H|a p Hn Hu Hp Ea H|H|H|H]; destruct H as [H L].
  - destruct (Same _ _ H L) as [Q|D]; [intros; apply rp_gone; assumption| |exact D].
    destruct Q as (m1 & E & Q). destruct (lstep_plain _ _ _ _ _ _ _ _ _ St E eq_refl) as (vs & Ea & -> & ->).
    cbn [answer] in Ea. rewrite Ecl in Ea. change (set_path [SF (str "Dead")] (VBool true) (v_cl (fid k) Lr dd)) with (Some (v_cl (fid k) Lr true)) in Ea. inversion Ea; subst vs s'. cbn [event]. clear Ea.
    apply Dead. intros Hb'. apply rp_gone2. split; assumption.
  - destruct (Same _ _ H L) as [Q|D]; [intros; apply rp_gone2; assumption| |exact D]. destruct (lstep_end _ _ _ _ _ _ _ St Q).
  - destruct (Same _ _ H L) as [Q|D]; [intros; apply rp_load; assumption| |exact D].
    destruct Q as (m1 & E & Q1 & Q2). destruct (lstep_plain _ _ _ _ _ _ _ _ _ St E eq_refl) as (vs & Ea & -> & ->).
    cbn [answer] in Ea. rewrite Ecl in Ea. change (get_path [SF (str "Dead")] (v_cl (fid k) Lr dd)) with (Some (VBool dd)) in Ea. inversion Ea; subst vs s'. cbn [event]. clear Ea.
    apply Still; [exact Hm|apply keep_same; reflexivity|apply keep_same; reflexivity|]. intros Hb'. destruct dd; [apply rp_close|apply rp_make]; try assumption; split; assumption.
  - destruct (Same _ _ H L) as [Q|D]; [intros; apply rp_make; assumption| |exact D].
    destruct Q as (m1 & E & Q). destruct (lstep_plain _ _ _ _ _ _ _ _ _ St E eq_refl) as (vs & Ea & -> & ->). cbn in Ea. inversion Ea; subst vs s'. clear Ea.
    apply New. intros Hb'. apply rp_read with (free s); try assumption. split.
    + split; [exact Hb'|]. cbn. apply put_cell_same.
    + eapply ld_stronger; [|apply Q]. intros s1 (H1 & _). exact H1.
  - destruct (Same _ _ H L) as [Q|D]; [intros; apply rp_read with a; assumption| |exact D].
    destruct Q as (m1 & E & Q1 & Q2 & Q3). destruct (lstep_plain _ _ _ _ _ _ _ _ _ St E eq_refl) as (vs & Ea & -> & ->).
    destruct H as (H1 & H2). cbn in Ea. rewrite H2 in Ea. change (Pos.to_nat 7) with 7%nat in Ea.
    destruct (net_read 7 (w_net (rest s))) as [| |b r] eqn:En; inversion Ea; subst vs s'; clear Ea; cbn [event].
    + apply Still; [exact Hm|apply keep_same; reflexivity|apply keep_same; reflexivity|]. intros Hb'. apply rp_dead. split; [exact Hb'|apply Q3].
    + apply Still; [exact Hm|apply keep_same; reflexivity|apply keep_same; reflexivity|]. intros Hb'. apply rp_dead. split; [exact Hb'|apply Q3].
    + destruct (Own k a _ (VArr (overlay [x00; x00; x00; x00; x00; x00; x00] b)) r H2 eq_refl eq_refl eq_refl eq_refl eq_refl eq_refl eq_refl) as (Hm' & K0 & K2).
      apply Still; [exact Hm'|exact K0|exact K2|]. intros Hb'.
      assert (Hle := net_read_most _ _ _ _ En).
      destruct (Nat.eq_dec (List.length b) 7) as [e7|n7].
      * apply rp_buf with a b (w_net (rest s)); try assumption. replace (Z.of_N (blen b)) with 7%Z by (unfold blen; rewrite e7; reflexivity).
        split; [|apply Q1, e7]. split; [exact Hb'|]. cbn. rewrite put_cell_same. f_equal. f_equal. unfold overlay. rewrite e7. cbn. apply app_nil_r.
      * apply rp_dead. split; [exact Hb'|]. apply Q2. unfold blen. lia.
  - destruct (Same _ _ H L) as [Q|D]; [intros; apply rp_buf with a h e; assumption| |exact D].
    destruct Q as (m1 & E & Q). destruct (lstep_plain _ _ _ _ _ _ _ _ _ St E eq_refl) as (vs & Ea & -> & ->).
    destruct H as (H1 & H2). cbn in Ea. rewrite H2 in Ea. change (Pos.to_nat 7) with 7%nat in Ea. rewrite (firstn_all2 h) in Ea by lia. inversion Ea; subst vs s'; clear Ea.
    cbn [event]. apply New. intros Hb'. apply rp_copy with a h (free s) e; try assumption. split.
    + split; [split; [exact Hb'|]|]; cbn; [|apply put_cell_same]. rewrite put_cell_other; [exact H2|]. intros ->. congruence.
    + eapply ld_stronger; [|apply Q]. intros s1 (H3 & _). exact H3.
  - destruct (Same _ _ H L) as [Q|D]; [intros; apply rp_copy with a h b e; assumption| |exact D].
    destruct Q as (m1 & (n & E & En) & Q1 & Q2). destruct (lstep_plain _ _ _ _ _ _ _ _ _ St E eq_refl) as (vs & Ea & -> & ->).
    destruct H as (H1 & H2). cbn in Ea. rewrite H2 in Ea. destruct (copy_limit (Z.to_nat n) (w_net (rest s))) as [[c r]|] eqn:Ec; inversion Ea; subst vs s'; clear Ea.
    + assert (Ep : packet e = Some (h ++ c, r)) by (eapply packet_of; eassumption).
      replace (event _ _ _) with (LRead (h ++ c)) by (cbn; rewrite put_cell_same; reflexivity).
      destruct (Own (mkC (tags k) (fid k) (rpc k) (queue k) (callers k) (snd_ k) (RHave (h ++ c)) (rcv k) (Client.user k) (fids k) false)
        b _ (VBuf (Buf (h ++ c) [])) r H2 eq_refl eq_refl eq_refl eq_refl eq_refl eq_refl) as (Hm' & K0 & K2); [unfold closed; cbn; rewrite <- Ex; reflexivity|].
      pose proof (ma_base _ _ _ _ _ _ _ _ _ _ _ _ _ _ _ _ Hm') as Hb'.
      exists [LRead (h ++ c)]. eexists. exists (packets r). split; [apply csteps_one, cs_read; auto; rewrite app_length; lia|]. split; [reflexivity|]. split; [rewrite Hu, (packets_cons _ _ _ Ep); reflexivity|]. split; [reflexivity|].
      exists adr, rch, mi. eexists. exists ms, o. split; [exact Hm'|]. constructor; cbn [rcv rdr snd_]; [reflexivity| | |].
      * eapply io_keep with (s := s); [exact Hb'|exact K0|apply keep_keep_calls, K2| |exact Hio]. unfold closed. cbn. rewrite <- Ex. auto.
      * apply rp_reply with a h b; auto; [rewrite app_length; lia|]. split; [|apply Q1].
        split; [split; [exact Hb'|]|]; cbn; [|apply put_cell_same]. rewrite put_cell_other; [exact (proj2 H1)|]. intros X. rewrite X in H1. destruct H1 as (_ & H1). congruence.
      * eapply snds_keep with (s := s); [exact Hb'|exact K0|exact K2|exact Hsn].
    + cbn [event]. change (beq (str "io.Copy") (str "io.Copy")) with true. cbn iota.
      apply Still; [exact Hm|apply keep_same; reflexivity|apply keep_same; reflexivity|]. intros Hb'. apply rp_dead. split; [exact Hb'|apply Q2].
  - destruct (Same _ _ H L) as [Q|D]; [intros; apply rp_reply with a h b; assumption| |exact D].
    destruct Q as (m1 & E & Q). destruct (lstep_plain _ _ _ _ _ _ _ _ _ St E eq_refl) as (vs & Ea & -> & ->). cbn in Ea. inversion Ea; subst vs s'. clear Ea.
    apply New. intros Hb'. apply rp_send with (free s); try assumption; [cbn; apply put_cell_same|]. split; [exact Hb'|apply Q].
  - destruct (Same _ _ H L) as [Q|D]; [intros; apply rp_send with a; assumption| |exact D].
    destruct Q as (m1 & E & Q). destruct (lstep_send _ _ _ _ _ _ _ _ _ _ _ _ St E (m_fs _ _ _ _ _ _ _ _ _ _ _ _ _ _ _ _ Hm)) as (_ & _ & X & _). cbn in X. lia.
  - destruct (Same _ _ H L) as [Q|D]; [intros; apply rp_dead; assumption| |exact D].
    destruct Q as (m1 & E & Q). destruct (lstep_plain _ _ _ _ _ _ _ _ _ St E eq_refl) as (vs & Ea & -> & ->).
    cbn [answer] in Ea. rewrite Ecl in Ea. change (set_path [SF (str "Dead")] (VBool true) (v_cl (fid k) Lr dd)) with (Some (v_cl (fid k) Lr true)) in Ea. inversion Ea; subst vs s'. cbn [event]. clear Ea.
    apply Dead. intros Hb'. apply rp_close. split; assumption.
  - destruct (Same _ _ H L) as [Q|D]; [intros; apply rp_close; assumption| |exact D].
    destruct Q as (m1 & E & Q). destruct (lstep_plain _ _ _ _ _ _ _ _ _ St E eq_refl) as (vs & Ea & -> & ->).
    pose proof (m_fs _ _ _ _ _ _ _ _ _ _ _ _ _ _ _ _ Hm) as Ef. unfold closed in Ef. rewrite <- Ex in Ef. cbn in Ea. rewrite Ef in Ea. cbn in Ea. inversion Ea; subst vs s'; clear Ea.
    change (event _ _ _) with LEof.
    eapply after_one; [apply (cs_eof tr k); auto|reflexivity|reflexivity|reflexivity|].
    match goal with |- good _ _ _ ?k1 _ => set (k' := k1) end.
    assert (Htf : tg <> fs). { intros X1. rewrite <- X1, (m_tags _ _ _ _ _ _ _ _ _ _ _ _ _ _ _ _ Hm) in Ef. discriminate. }
    assert (Hcf : fc <> fs). { intros X1. rewrite <- X1, (m_fc _ _ _ _ _ _ _ _ _ _ _ _ _ _ _ _ Hm) in Ef. discriminate. }
    assert (Hm' : memory_as adr rch (set_chan s fs (mkCh 0 [] true)) us k').
    { apply (ma_chan _ _ _ _ _ _ _ _ _ _ _ _ _ _ _ _ _ _ _ _ Hm Ef); try reflexivity; auto.
      - rewrite put_chan_other by auto. apply (m_tags _ _ _ _ _ _ _ _ _ _ _ _ _ _ _ _ Hm).
      - rewrite put_chan_other by auto. apply (m_fc _ _ _ _ _ _ _ _ _ _ _ _ _ _ _ _ Hm).
      - rewrite put_chan_same. reflexivity. }
    pose proof (ma_base _ _ _ _ _ _ _ _ _ _ _ _ _ _ _ _ Hm') as Hb'.
    exists adr, rch, mi. eexists. exists ms, o. split; [exact Hm'|]. constructor; cbn [rcv rdr snd_ k']; [reflexivity| | |].
    + eapply io_keep with (s := s); [exact Hb'|apply keep_same; reflexivity|apply keep_keep_calls, keep_same; reflexivity| |exact Hio]. intros _. reflexivity.
    + apply rp_end. split; [exact Hb'|exact Q].
    + eapply snds_keep with (s := s); [exact Hb'|apply keep_same; reflexivity|apply keep_same; reflexivity|exact Hsn].
  - destruct (Same _ _ H L) as [Q|D]; [intros; apply rp_end; assumption| |exact D]. destruct (lstep_end _ _ _ _ _ _ _ St Q).
Qed.
End Sim.

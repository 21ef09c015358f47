(** A client that runs from its text: when nothing more can happen in it before something arrives. *)
From Verif Require Import Base GoBuf CodecPrim Types Codec Msgs CodecSpec StubPrim Stubs Server ServerSpec Rpc GoSyntax Ufs GoRun GoFmt GoProg GoWp
  ServerRun ServerRunLemmas Client ClientSpec ClientLemmas ClientLemmas2 ClientLemmas6 ClientRun ClientRunLemmas ClientRunText ClientRunSim ClientRunSim2 ClientRunSim6 ClientHist ClientRunThm
  NetRun NetLemmas NetCase NetEats.
From Coq Require String Ascii.
Local Opaque NumTags all_tags.

(** What the client does by itself: not a new call, and not GetTag or GetFID. *)
Definition own (l : lbl) : Prop := match l with LStart _ _ | LTag _ | LFid _ => False | _ => True end.

Lemma hidden_there evs r : hidden r = true -> there evs r = true.
Proof.
  destruct r; try discriminate; try reflexivity. unfold hidden, there. intros H.
  destruct (beq f (str "io.ReadCloser.Read")) eqn:E1; [exfalso; apply beq_eq in E1; subst f; discriminate|].
  destruct (beq f (str "net.Conn.Read")) eqn:E2; [exfalso; apply beq_eq in E2; subst f; discriminate|].
  destruct (beq f (str "io.Copy")) eqn:E3; [exfalso; apply beq_eq in E3; subst f; discriminate|]. reflexivity.
Qed.
Lemma event_own r vs s : own (event r vs s).
Proof. unfold event. repeat match goal with |- own (match ?x with _ => _ end) => destruct x | |- own (if ?x then _ else _) => destruct x end; exact I. Qed.

Lemma not_gone tr ls k : csteps tr (init true) ls k -> rdr k <> RGone.
Proof.
  assert (H : forall k0 ls k, csteps tr k0 ls k -> rdr k0 <> RGone -> rdr k <> RGone).
  { intros k0 ls0 k1 R0. induction R0 as [|ls1 s1 l s2 R0 IH S]; intros X; [exact X|]. specialize (IH X). clear - IH S. destruct S; cbn; try assumption; discriminate. }
  intros R. apply (H _ _ _ R). discriminate.
Qed.

Section Client.
Context (RN : N) (opt : oserr + (value * value * value * N)) (C tg fc fs wn rn tn msz : N).
Notation M := (memory nworld).
Notation P := protocol_program.
Notation LIB := (lib RN opt).
Notation related := (related RN opt C tg fc fs wn rn tn msz true true).
(** Something can happen in the client, whatever will arrive. *)
Definition can (g : gstate) : Prop := exists l g', own l /\ forall more, tstep RN opt C (more_net g more) l (more_net g' more).

Section Steps.
Context (g : gstate) (Hd : g_dead g = false).
Lemma tone th s us i m l m' s' : nth_error th i = Some m -> lstep RN opt m s l m' s' -> tstep RN opt C (mkG th s us false) l (mkG (put_nth i m' th) s' us false).
Proof. intros H1 H2. exact (t_one RN opt C (mkG th s us false) i m l m' s' eq_refl H1 H2). Qed.
Lemma tdie th s us i m l : nth_error th i = Some m -> ldie RN opt m s l -> tstep RN opt C (mkG th s us false) l (mkG th s us true).
Proof. intros H1 H2. exact (t_die RN opt C (mkG th s us false) i m l eq_refl H1 H2). Qed.
Ltac here l th s us d := exists l, (mkG th s us d); split; [exact I|intros more; unfold more_net; cbn [g_threads g_mem g_users g_dead]].
Lemma can_quiet i m m' : nth_error (g_threads g) i = Some m -> quiet (step P m) = Some m' -> can g.
Proof. intros Hi H. here LTau (put_nth i m' (g_threads g)) (g_mem g) (g_users g) false. rewrite Hd; eapply tone; [exact Hi|]. apply l_quiet, H. Qed.
Lemma can_ask i m r m' vs s' : nth_error (g_threads g) i = Some m -> step P m = Ask r m' -> answer LIB r (g_mem g) = Answer vs s' -> there (w_net (rest (g_mem g))) r = true -> can g.
Proof.
  intros Hi H A T. exists (event r vs s'), (mkG (put_nth i (resume m' vs) (g_threads g)) s' (g_users g) false). split; [apply event_own|intros more; unfold more_net; cbn [g_threads g_mem g_users g_dead]].
  rewrite Hd; eapply tone; [exact Hi|]. cbn [g_mem]. rewrite <- (event_more r vs s' more). eapply l_ask; [exact H|]. apply lib_more; assumption.
Qed.
Lemma can_leads i m I Q : nth_error (g_threads g) i = Some m -> on RN opt I m Q (g_mem g) -> can g \/ Q (step P m).
Proof.
  intros Hi [HI H]. destruct H as [H|m1 E H|r m1 f E Hh Ha H]; [right; exact H| |]; left.
  - eapply can_quiet; eassumption.
  - eapply can_ask; [exact Hi|exact E|apply Ha, HI|apply hidden_there, Hh].
Qed.
Lemma can_recv i m k n m' c v b : nth_error (g_threads g) i = Some m -> step P m = Ask (RRecv (VObj k n)) m' -> w_chans (rest (g_mem g)) n = Some c -> ch_buf c = v :: b -> can g.
Proof.
  intros Hi H Hc Hb. here LTau (put_nth i (resume m' [v]) (g_threads g)) (set_chan (g_mem g) n (mkCh (ch_cap c) b (ch_closed c))) (g_users g) false.
  rewrite Hd; eapply tone; [exact Hi|]. exact (l_recv RN opt m (more_mem (g_mem g) more) k n m' c v b H Hc Hb).
Qed.
Lemma can_closed i m k n m' c : nth_error (g_threads g) i = Some m -> step P m = Ask (RRecv (VObj k n)) m' -> w_chans (rest (g_mem g)) n = Some c -> ch_buf c = [] -> ch_closed c = true -> can g.
Proof.
  intros Hi H Hc Hb Hx. here LTau (put_nth i (resume m' [VNil]) (g_threads g)) (g_mem g) (g_users g) false.
  rewrite Hd; eapply tone; [exact Hi|]. exact (l_closed RN opt m (more_mem (g_mem g) more) k n m' c H Hc Hb Hx).
Qed.
Lemma can_send i m k n m' c v : nth_error (g_threads g) i = Some m -> step P m = Ask (RSend (VObj k n) v) m' -> w_chans (rest (g_mem g)) n = Some c -> ch_closed c = false -> blen (ch_buf c) < ch_cap c -> can g.
Proof.
  intros Hi H Hc Hx Hb. here LTau (put_nth i (resume m' []) (g_threads g)) (set_chan (g_mem g) n (mkCh (ch_cap c) (ch_buf c ++ [v]) false)) (g_users g) false.
  rewrite Hd; eapply tone; [exact Hi|]. exact (l_send RN opt m (more_mem (g_mem g) more) k n m' c v H Hc Hx Hb).
Qed.
Lemma can_write i m o b m' : nth_error (g_threads g) i = Some m -> step P m = Ask (RExt (str "io.WriteCloser.Write") [o; VBytes b]) m' -> can g.
Proof.
  intros Hi H. here (LWrite 0 b) (put_nth i (resume m' [VI 64 (Z.of_N (blen b)); VNil]) (g_threads g)) (g_mem g) (g_users g) false.
  rewrite Hd; eapply tone; [exact Hi|]. exact (l_write RN opt m (more_mem (g_mem g) more) o b m' H).
Qed.
Lemma can_panic i m : nth_error (g_threads g) i = Some m -> at_panic (step P m) -> can g.
Proof.
  intros Hi H. here LCrash (g_threads g) (g_mem g) (g_users g) true. rewrite Hd; eapply tdie; [exact Hi|]. destruct H as [H|(f & H)]; [exact (d_panic _ _ _ _ H)|exact (d_index _ _ _ _ _ H)].
Qed.
Lemma can_fatal i m : nth_error (g_threads g) i = Some m -> at_sfatal (step P m) -> can g.
Proof.
  intros Hi (vs & m1 & H). here LFatal (g_threads g) (g_mem g) (g_users g) true. rewrite Hd; eapply tdie; [exact Hi|]. exact (d_fatal _ _ _ _ _ _ H).
Qed.
Lemma can_go i m f vs m' : nth_error (g_threads g) i = Some m -> step P m = Ask (RGo f vs) m' -> can g.
Proof.
  intros Hi H. here LTau (put_nth i (resume m' []) (g_threads g) ++ [mkM (CApply f false Now vs) [] [] []]) (g_mem g) (g_users g) false. eapply (t_go RN opt C (mkG (g_threads g) (more_mem (g_mem g) more) (g_users g) (g_dead g))); eassumption.
Qed.
Lemma can_meet i j m1 m2 k k' n v m1' m2' c : i <> j -> nth_error (g_threads g) i = Some m1 -> nth_error (g_threads g) j = Some m2 ->
    step P m1 = Ask (RSend (VObj k n) v) m1' -> step P m2 = Ask (RRecv (VObj k' n)) m2' ->
    w_chans (rest (g_mem g)) n = Some c -> ch_cap c = 0 -> ch_closed c = false -> can g.
Proof.
  intros. here LTau (put_nth i (resume m1' []) (put_nth j (resume m2' [v]) (g_threads g))) (g_mem g) (g_users g) false.
  eapply (t_meet RN opt C (mkG (g_threads g) (more_mem (g_mem g) more) (g_users g) (g_dead g))); eassumption.
Qed.
Lemma can_enqueue c q a n k f b : g_users g c = USend q a n -> field C (g_mem g) (str "FromClient") = Some (VObj k f) ->
    w_chans (rest (g_mem g)) f = Some b -> blen (ch_buf b) < ch_cap b -> ch_closed b = false -> can g.
Proof.
  intros H1 H2 H3 H4 H5. here LTau (g_threads g) (set_chan (g_mem g) f (mkCh (ch_cap b) (ch_buf b ++ [VPtr (str "RPCCall") a []]) false)) (upd (g_users g) c (UWait q n)) false.
  exact (t_enqueue RN opt C (mkG (g_threads g) (more_mem (g_mem g) more) (g_users g) (g_dead g)) c q a n k f b Hd H1 H2 H3 H4 H5).
Qed.
Lemma can_deliver i m k n r m' c q b : nth_error (g_threads g) i = Some m -> step P m = Ask (RSend (VObj k n) (VBytes r)) m' ->
    w_chans (rest (g_mem g)) n = Some b -> ch_cap b = 0 -> ch_closed b = false -> g_users g c = UWait q n -> can g.
Proof.
  intros H1 H2 H3 H4 H5 H6. here (LDone c r) (put_nth i (resume m' []) (g_threads g)) (g_mem g) (upd (g_users g) c (UDone q r)) false.
  exact (t_deliver RN opt C (mkG (g_threads g) (more_mem (g_mem g) more) (g_users g) (g_dead g)) i m k n r m' c q b Hd H1 H2 H3 H4 H5 H6).
Qed.
End Steps.

(** The goroutine that reads packets waits for the network. *)
Definition reading (g : gstate) : Prop := exists m r m' vs s', nth_error (g_threads g) 1 = Some m /\ step P m = Ask r m' /\ there (w_net (rest (g_mem g))) r = false /\
  answer LIB r (g_mem g) = Answer vs s' /\
  ((exists o a, r = RExt (str "io.ReadCloser.Read") [o; VSl a 0 7]) \/
   exists b n, r = RExt (str "io.Copy") [VPtr (str "bytes.Buffer") b []; VStruct (str "io.LimitedReader") [(str "N", VI 64 n)]]).
Record waiting (g : gstate) (k : cst) : Prop := {
  wt_rcv : rcv k = VWait;
  wt_rdr : rdr k = RRead;
  wt_reader : reading g;
  wt_snd : snd_ k = SIdle /\ queue k = [] \/ (exists c q, snd_ k = SCall c q) /\ tags k = []
}.
Lemma blen_map {A B} (f : A -> B) l : blen (map f l) = N.of_nat (List.length l).
Proof. unfold blen. rewrite map_length. reflexivity. Qed.
Theorem client_can evs g k ls : related evs g k ls -> g_dead g = false ->
  (forall b t c, rcv k = VDeliver b t c -> exists q, callers k c = CWait q) -> (forall t, rcv k = VReturn t -> (List.length (tags k) < NumTags)%nat) ->
  can g \/ waiting g k.
Proof.
  intros R Hd HV HT. pose proof (inv_steps _ _ _ _ (r_model _ _ _ _ _ _ _ _ _ _ _ _ _ _ _ _ R)) as HI. destruct R as [Hmo Hd' (up & Hr & Hg)].
  destruct Hg as (adr & rch & mi & mn & ms & o & Hm & [Eth Hio Hrd Hsn]); [congruence|].
  assert (N0 : nth_error (g_threads g) 0 = Some mi) by (rewrite Eth; reflexivity).
  assert (N1 : nth_error (g_threads g) 1 = Some mn) by (rewrite Eth; reflexivity).
  destruct (m_client _ _ _ _ _ _ _ _ _ _ _ _ _ _ _ _ Hm) as (L & dd & Ec & HL & _).
  pose proof (m_fs _ _ _ _ _ _ _ _ _ _ _ _ _ _ _ _ Hm) as Ef. pose proof (m_tags _ _ _ _ _ _ _ _ _ _ _ _ _ _ _ _ Hm) as Et. pose proof (m_fc _ _ _ _ _ _ _ _ _ _ _ _ _ _ _ _ Hm) as Eq.
  (* IO *)
  assert (IO : can g \/ rcv k = VWait /\ exists B m1, o = Some B /\ step P mi = Ask (RRecv (v_chan fs)) m1).
  { remember (rcv k) as v eqn:Ev. remember (closed k) as cl eqn:Ecl. symmetry in Ev.
    destruct Hio as [H|B H|B H|B Hcl H|B a b H|B a b H|B a b t c H|B t H]; destruct (can_leads g Hd 0 _ _ _ N0 H) as [X|Q]; try (left; exact X).
    - left. destruct Q as (m1 & E & _). eapply can_ask; [exact Hd|exact N0|exact E|reflexivity|reflexivity].
    - left. destruct Q as (m1 & E & _). eapply (can_go g Hd); [exact N0|exact E].
    - right. split; [reflexivity|]. destruct Q as (m1 & E & _). exists B, m1. auto.
    - left. eapply (can_panic g Hd); [exact N0|exact Q].
    - left. unfold at_have in Q. destruct (doomed true b); [eapply (can_panic g Hd); [exact N0|exact Q]|]. destruct Q as (m1 & E & _).
      eapply can_ask; [exact Hd|exact N0|exact E|cbn [answer]; rewrite Ec; reflexivity|reflexivity].
    - left. eapply (can_panic g Hd); [exact N0|exact Q].
    - left. destruct Q as (m1 & E & _). destruct (HV _ _ _ eq_refl) as (q & Hq). pose proof (m_user _ _ _ _ _ _ _ _ _ _ _ _ _ _ _ _ Hm c) as Mu. rewrite Hq in Mu. cbn in Mu.
      destruct (m_call _ _ _ _ _ _ _ _ _ _ _ _ _ _ _ _ Hm c) as (q' & _ & _ & Ech & _); [rewrite Hq; discriminate|].
      eapply can_deliver; [exact Hd|exact N0|exact E|exact Ech|reflexivity|reflexivity|exact Mu].
    - left. destruct Q as (m1 & E & _). eapply can_send; [exact Hd|exact N0|exact E|exact Et|reflexivity|]. cbn [ch_buf ch_cap]. rewrite blen_map. specialize (HT _ eq_refl). lia. }
  destruct IO as [X|(Hrc & B & mi1 & Ho & Ei)]; [left; exact X|].
  (* the reader *)
  assert (RD : can g \/ rdr k = RRead /\ reading g).
  { remember (rdr k) as x eqn:Ex. unfold closed in Ef. rewrite <- Ex in Ef.
    assert (RDR : forall x', x' = rdr k -> x' <> RGone) by (intros x' ->; exact (not_gone _ _ _ Hmo)).
    destruct Hrd as [H|H|Hn Hu H|Hn Hu H|a Hn Hu H|a h e Hn Hu Hr' Hh H|a h b e Hn Hu Hr' Hh H|a h b p Hn Hu Hp H|a p Hn Hu Hp Ea H|H|H|H];
      destruct (can_leads g Hd 1 _ _ _ N1 H) as [X|Q]; try (left; exact X).
    - exfalso. exact (RDR _ Ex eq_refl).
    - exfalso. exact (RDR _ Ex eq_refl).
    - left. destruct Q as (m1 & E & _). eapply can_ask; [exact Hd|exact N1|exact E|cbn [answer]; rewrite Ec; reflexivity|reflexivity].
    - left. destruct Q as (m1 & E & _). eapply can_ask; [exact Hd|exact N1|exact E|reflexivity|reflexivity].
    - destruct Q as (m1 & E & _).
      assert (A : exists vs s', answer LIB (RExt (str "io.ReadCloser.Read") [VObj (str "io.ReadCloser") rn; VSl a 0 7]) (g_mem g) = Answer vs s').
      { cbn. rewrite (proj2 (proj1 H)). destruct (net_read _ _); eexists _, _; reflexivity. }
      destruct A as (vs & s' & A). destruct (there (w_net (rest (g_mem g))) (RExt (str "io.ReadCloser.Read") [VObj (str "io.ReadCloser") rn; VSl a 0 7])) eqn:T.
      + left. eapply (can_ask g Hd); [exact N1|exact E|exact A|exact T].
      + right. split; [reflexivity|]. eexists _, _, _, vs, s'. split; [exact N1|]. split; [exact E|]. split; [exact T|]. split; [exact A|]. left. eauto.
    - left. destruct Q as (m1 & E & _). eapply can_ask; [exact Hd|exact N1|exact E|cbn; rewrite (proj2 (proj1 H)); reflexivity|reflexivity].
    - destruct Q as (m1 & (n & E & _) & _). match type of E with _ = Ask ?r _ => set (rq := r) in * end.
      assert (A : exists vs s', answer LIB rq (g_mem g) = Answer vs s').
      { unfold rq. cbn. rewrite (proj2 (proj1 H)). destruct (copy_limit _ _) as [[? ?]|]; eexists _, _; reflexivity. }
      destruct A as (vs & s' & A). destruct (there (w_net (rest (g_mem g))) rq) eqn:T.
      + left. eapply (can_ask g Hd); [exact N1|exact E|exact A|exact T].
      + right. split; [reflexivity|]. eexists _, _, _, vs, s'. split; [exact N1|]. split; [exact E|]. split; [exact T|]. split; [exact A|]. right. unfold rq. eauto.
    - left. destruct Q as (m1 & E & _). eapply can_ask; [exact Hd|exact N1|exact E|reflexivity|reflexivity].
    - left. destruct Q as (m1 & E & _). eapply (can_meet g Hd 1 0); [discriminate|exact N1|exact N0|exact E|exact Ei|exact Ef|reflexivity|reflexivity].
    - left. destruct Q as (m1 & E & _).
      assert (A : exists vs s', answer LIB (RStore C [SF (str "Dead")] (VBool true)) (g_mem g) = Answer vs s') by (cbn [answer]; rewrite Ec; eexists _, _; reflexivity).
      destruct A as (vs & s' & A). eapply can_ask; [exact Hd|exact N1|exact E|exact A|reflexivity].
    - left. destruct Q as (m1 & E & _). 
      assert (A : exists vs s', answer LIB (RExt (str "close") [v_chan fs]) (g_mem g) = Answer vs s') by (cbn; rewrite Ef; eexists _, _; reflexivity).
      destruct A as (vs & s' & A). eapply can_ask; [exact Hd|exact N1|exact E|exact A|reflexivity].
    - left. eapply can_closed; [exact Hd|exact N0|exact Ei|exact Ef|reflexivity|reflexivity]. }
  destruct RD as [X|[Hrr Hre]]; [left; exact X|].
  (* the sender *)
  assert (SN : can g \/ (snd_ k = SIdle /\ queue k = [] \/ (exists c q, snd_ k = SCall c q) /\ tags k = [])).
  { rewrite Ho in Hsn. destruct Hsn as (m & -> & Hsn). assert (N2 : nth_error (g_threads g) 2 = Some m) by (rewrite Eth; reflexivity).
    remember (snd_ k) as x eqn:Ex.
    destruct Hsn as [H|c q Hq H|c t q Hq H|c t q Hq H|c t q H|c t q H|c t q H|c t q H]; destruct (can_leads g Hd 2 _ _ _ N2 H) as [X|Q]; try (left; exact X).
    - destruct Q as (m1 & E & _). destruct (queue k) as [|x0 qs]; [right; left; auto|]. left. eapply can_recv; [exact Hd|exact N2|exact E|exact Eq|reflexivity].
    - destruct Q as (m1 & E & _). destruct (tags k) as [|x0 qs]; [right; right; eauto|]. left. eapply can_recv; [exact Hd|exact N2|exact E|exact Et|reflexivity].
    - left. destruct Q as (m1 & E & _).
      assert (A : exists vs s', answer LIB (RStore (adr c) [SF (str "b"); SI 5] (VU 8 (t mod 256))) (g_mem g) = Answer vs s').
      { cbn [answer]. rewrite (proj2 (proj1 H)). do 7 (destruct q as [|? q]; [cbn in Hq; lia|]). eexists _, _; reflexivity. }
      destruct A as (vs & s' & A). eapply can_ask; [exact Hd|exact N2|exact E|exact A|reflexivity].
    - left. destruct Q as (m1 & E & _).
      assert (A : exists vs s', answer LIB (RStore (adr c) [SF (str "b"); SI 6] (VU 8 (N.shiftr t 8 mod 256))) (g_mem g) = Answer vs s').
      { cbn [answer]. rewrite (proj2 (proj1 H)). do 7 (destruct q as [|? q]; [cbn in Hq; lia|]). eexists _, _; reflexivity. }
      destruct A as (vs & s' & A). eapply can_ask; [exact Hd|exact N2|exact E|exact A|reflexivity].
    - left. destruct Q as (m1 & E & _).
      assert (A : exists vs s', answer LIB (RStore C [SF (str "RPC"); SI (N.to_nat t - 1)] (VPtr (str "RPCCall") (adr c) [])) (g_mem g) = Answer vs s').
      { cbn [answer]. rewrite Ec. eexists _, _. reflexivity. }
      destruct A as (vs & s' & A). eapply can_ask; [exact Hd|exact N2|exact E|exact A|reflexivity].
    - left. destruct Q as (m1 & E & _). eapply (can_write g Hd); [exact N2|exact E].
    - left. destruct Q as (m1 & E & _).
      assert (A : exists vs s', answer LIB (RStore C [SF (str "Dead")] (VBool true)) (g_mem g) = Answer vs s') by (cbn [answer]; rewrite Ec; eexists _, _; reflexivity).
      destruct A as (vs & s' & A). eapply can_ask; [exact Hd|exact N2|exact E|exact A|reflexivity].
    - left. eapply (can_fatal g Hd); [exact N2|exact Q]. }
  destruct SN as [X|Hss]; [left; exact X|].
  right. constructor; assumption.
Qed.
(** A call that wants to be sent, and there is room for it. *)
Theorem call_can evs g k ls c q : related evs g k ls -> g_dead g = false -> callers k c = CSend q -> (List.length (queue k) < NumTags)%nat -> can g.
Proof.
  intros [_ Hd' (up & _ & Hg)] Hd Hc Hq. destruct Hg as (adr & rch & mi & mn & ms & o & Hm & _); [congruence|].
  destruct (m_client _ _ _ _ _ _ _ _ _ _ _ _ _ _ _ _ Hm) as (L & dd & Ec & HL & _). pose proof (m_fc _ _ _ _ _ _ _ _ _ _ _ _ _ _ _ _ Hm) as Eq.
  pose proof (m_user _ _ _ _ _ _ _ _ _ _ _ _ _ _ _ _ Hm c) as Mu. rewrite Hc in Mu. cbn in Mu.
  eapply can_enqueue; [exact Hd|exact Mu|unfold field; rewrite Ec; reflexivity|exact Eq| |reflexivity]. cbn [ch_buf ch_cap]. rewrite blen_map. lia.
Qed.
(** Where the goroutine that reads packets is in what arrives. *)
Theorem reader_at evs g k ls m r m' : related evs g k ls -> g_dead g = false -> nth_error (g_threads g) 1 = Some m -> step P m = Ask r m' ->
  ((exists o a, r = RExt (str "io.ReadCloser.Read") [o; VSl a 0 7]) -> packets evs = reads ls ++ packets (w_net (rest (g_mem g)))) /\
  (forall b n, r = RExt (str "io.Copy") [VPtr (str "bytes.Buffer") b []; VStruct (str "io.LimitedReader") [(str "N", VI 64 n)]] ->
     exists e h, packets evs = reads ls ++ packets e /\ net_read 7 e = RdData h (w_net (rest (g_mem g))) /\ List.length h = 7%nat /\ Z.to_nat n = N.to_nat (psize h - 7)).
Proof.
  intros [_ Hd' (up & Hr & Hg)] Hd N1 Es. destruct Hg as (adr & rch & mi & mn & ms & o & Hm & [Eth Hio Hrd Hsn]); [congruence|].
  rewrite Eth in N1. cbn in N1. injection N1 as ->.
  split.
  - intros (ob & a0 & ->). rewrite Hr. f_equal.
    destruct Hrd as [H|H|Hn Hu H|Hn Hu H|a Hn Hu H|a h e Hn Hu Hr' Hh H|a h b e Hn Hu Hr' Hh H|a h b p Hn Hu Hp H|a p Hn Hu Hp Ea H|H|H|H];
      pose proof (ask_leads _ _ _ _ _ _ _ (proj2 H) Es eq_refl) as Q; try exact Hu; exfalso; rewrite Es in Q.
    + destruct Q as (m1 & E & _). discriminate E.
    + destruct Q as (vs & E). discriminate E.
    + destruct Q as (m1 & E & _). discriminate E.
    + destruct Q as (m1 & (n & E & _) & _). discriminate E.
    + destruct Q as (m1 & E & _). discriminate E.
    + destruct Q as (m1 & E & _). discriminate E.
    + destruct Q as (vs & E). discriminate E.
  - intros b0 n0 ->.
    destruct Hrd as [H|H|Hn Hu H|Hn Hu H|a Hn Hu H|a h e Hn Hu Hr' Hh H|a h b e Hn Hu Hr' Hh H|a h b p Hn Hu Hp H|a p Hn Hu Hp Ea H|H|H|H];
      pose proof (ask_leads _ _ _ _ _ _ _ (proj2 H) Es eq_refl) as Q; rewrite Es in Q.
    all: try (destruct Q as (m1 & (n & E & En) & _)).
    all: try (destruct Q as (m1 & E & _); discriminate E).
    all: try (destruct Q as (vs & E); discriminate E).
    assert (n0 = n) as -> by congruence. exists e, h. rewrite Hr, Hu. auto.
Qed.
End Client.

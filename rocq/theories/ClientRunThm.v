(** A client made by NewClient: its executions. *)
From Verif Require Import Base GoBuf CodecPrim Types Codec Msgs CodecSpec StubPrim Server ServerSpec Rpc GoSyntax Ufs GoRun GoFmt GoProg GoWp ServerRun ServerRunLemmas ServerWitness
  Client ClientSpec ClientLemmas ClientLemmas2 ClientLemmas3 ClientLemmas4 ClientLemmas5 ClientLemmas6 ClientLemmas7 ClientRun ClientRunLemmas ClientRunText
  ClientRunSim ClientRunSim2 ClientRunSim3 ClientRunSim4 ClientRunSim5 ClientRunSim6 ClientRunNew ClientRunExec ClientHist.
Local Opaque NumTags all_tags.

(** Two memories with the same contents. *)
Definition same_memory (s s' : memory nworld) : Prop :=
  (forall a, cells s a = cells s' a) /\ free s = free s' /\ (forall x, w_chans (rest s) x = w_chans (rest s') x) /\
  w_next (rest s) = w_next (rest s') /\ w_net (rest s) = w_net (rest s').
Definition goroutine (x : callee * list value) : machine := mkM (CApply (fst x) false Now (snd x)) [] [] [].
(** What a ClientOpt function may set: ToNet, FromNet (or nothing), Trace (or nothing), Msize. *)
Definition sets (wn rn tn msz : N) (tr hn : bool) : oserr + (value * value * value * N) :=
  inr (VObj (str "io.WriteCloser") wn, if hn then VObj (str "io.ReadCloser") rn else VNil, if tr then VObj (str "Tracer") tn else VNil, msz).
(** NewClient has run, in a memory where nothing is used from nx and n on, and the goroutines it has started are about to begin. *)
Record opened (RN : N) (opt : oserr + (value * value * value * N)) (net : list rev) (tr hn : bool) (C : N) (g : gstate) : Prop := {
  o_made : exists hp ch n wn rn tn msz o s, opt = sets wn rn tn msz tr hn /\ hp RN = Some v_names /\ (forall a, C <= a -> hp a = None) /\ (forall x, n <= x -> ch x = None) /\
    ends protocol_program (lib_new RN opt) (start (str "NewClient") [] [VObj (str "ClientOpt") o]) (mkMem hp C (mkNW ch n net [])) (Returned [VPtr (str "Client") C []; VNil]) s /\
    same_memory s (g_mem g) /\ g_threads g = map goroutine (w_gos (rest s));
  o_users : forall c, g_users g c = UIdle;
  o_dead : g_dead g = false
}.

Theorem text_new_fails RN er o (s : memory nworld) : exists s', ends protocol_program (lib_new RN (inl er)) (start (str "NewClient") [] [VObj (str "ClientOpt") o]) s (Returned [VNil; VErr er]) s' /\
  w_gos (rest s') = w_gos (rest s) /\ w_net (rest s') = w_net (rest s) /\ (forall a, a <> free s -> cells s' a = cells s a) /\ (forall x, x <> w_next (rest s) -> w_chans (rest s') x = w_chans (rest s) x).
Proof.
  destruct s as [hp nx [ch n net g]]. cbn [rest cells free w_gos w_net w_next w_chans].
  destruct (NewClient_fails RN er o hp nx ch n net g (fun out s' => out = Returned [VNil; VErr er] /\ w_gos (rest s') = g /\ w_net (rest s') = net /\
    (forall a, a <> nx -> cells s' a = hp a) /\ (forall x, x <> n -> w_chans (rest s') x = ch x))) as (k & out & s' & R & -> & H).
  - intros hp' ch' H1 H2. cbn [rest cells w_gos w_net w_chans]. auto.
  - exists s'. split; [exists k; exact R|]. intuition congruence.
Qed.
(** A new client as a value: everything but its goroutines. *)
Definition new_memory (C n : N) (wn rn tn msz : N) (tr hn : bool) (s s' : memory nworld) : Prop :=
  (exists L, cells s' C = Some (v_client (v_chan n) (v_chan (n + 1)) (v_chan (n + 2)) (VObj (str "io.WriteCloser") wn) (if hn then VObj (str "io.ReadCloser") rn else VNil)
                                  (if tr then VObj (str "Tracer") tn else VNil) msz 1 L false) /\ List.length L = NumTags /\ forall i, (i < NumTags)%nat -> nth_error L i = Some VNil) /\
  (forall a, a <> C -> cells s' a = cells s a) /\ free s' = C + 1 /\
  w_chans (rest s') n = Some (mkCh 65534 (map (VU 16) all_tags) false) /\ w_chans (rest s') (n + 1) = Some (mkCh 65534 [] false) /\ w_chans (rest s') (n + 2) = Some (mkCh 0 [] false) /\
  (forall x, x < n \/ n + 2 < x -> w_chans (rest s') x = w_chans (rest s) x) /\ w_next (rest s') = n + 3 /\ w_net (rest s') = w_net (rest s).
Theorem text_new RN wn rn tn msz tr hn o (s : memory nworld) : let C := free s in
  exists s', ends protocol_program (lib_new RN (sets wn rn tn msz tr hn)) (start (str "NewClient") [] [VObj (str "ClientOpt") o]) s (Returned [VPtr (str "Client") C []; VNil]) s' /\
    new_memory C (w_next (rest s)) wn rn tn msz tr hn s s' /\
    w_gos (rest s') = w_gos (rest s) ++ [(FUser (str "Client.IO") [VPtr (str "Client") C []], []); (FUser (str "Client.readNetPackets") [VPtr (str "Client") C []], [])].
Proof.
  destruct s as [hp nx [ch n net g]]. cbn [rest cells free w_gos w_net w_next w_chans].
  destruct (NewClient_opens RN wn rn tn msz tr hn o hp nx ch n net g (fun out s' => out = Returned [VPtr (str "Client") nx []; VNil] /\ new_memory nx n wn rn tn msz tr hn (mkMem hp nx (mkNW ch n net g)) s' /\
    w_gos (rest s') = g ++ [(FUser (str "Client.IO") [VPtr (str "Client") nx []], []); (FUser (str "Client.readNetPackets") [VPtr (str "Client") nx []], [])])) as (k & out & s' & R & -> & H1 & H2).
  - intros hp' ch' L A1 A2 A3 A4 A5 A6 A7 A8. split; [reflexivity|]. split; [|reflexivity].
    unfold new_memory. cbn [rest cells free w_gos w_net w_next w_chans]. split; [exists L; auto|]. split; [exact A1|]. split; [reflexivity|].
    rewrite all_tags_first. auto 10.
  - exists s'. split; [exists k; exact R|]. auto.
Qed.
Theorem opened_related RN opt net tr hn C g : opened RN opt net tr hn C g -> exists tg fc fs wn rn tn msz, related RN opt C tg fc fs wn rn tn msz tr hn net g (init hn) [].
Proof.
  intros [(hp & ch & n & wn & rn & tn & msz & o & s & -> & Hn & Hf & Hx & He & (S1 & S2 & S3 & S4 & S5) & Ht) Hu Hd].
  destruct (text_new RN wn rn tn msz tr hn o (mkMem hp C (mkNW ch n net []))) as (s' & He' & ((L & N1 & N2 & N3) & N4 & N5 & N6 & N7 & N8 & N9 & N10 & N11) & N12).
  cbn [rest cells free w_gos w_net w_next w_chans app] in *.
  destruct (ends_unique _ _ _ _ _ _ _ _ He He') as [_ <-]. clear He He'.
  exists n, (n + 1), (n + 2), wn, rn, tn, msz.
  destruct g as [ths [hp1 nx1 [ch1 n1 net1 g1]] us dead]. cbn [g_threads g_mem g_users g_dead cells free rest w_chans w_next w_net] in *. subst.
  rewrite N12, N5, N10. cbn [map].
  assert (HRN : RN <> C) by (intros ->; rewrite Hf in Hn by lia; discriminate Hn).
  apply (new_related RN _ C n (n + 1) (n + 2) wn rn tn msz tr hn us hp1 C ch1 n _ g1 L Hu eq_refl eq_refl eq_refl eq_refl).
  - rewrite <- S1, N4 by exact HRN. exact Hn.
  - rewrite <- S1. exact N1.
  - exact N2.
  - exact N3.
  - intros a Ha. rewrite <- S1, N4 by lia. apply Hf. lia.
  - intros x Ha. rewrite <- S3, N9 by lia. apply Hx. lia.
  - rewrite <- S3, N6, all_tags_first. reflexivity.
  - rewrite <- S3. exact N7.
  - rewrite <- S3. exact N8.
Qed.

(** * Executions *)
Definition state_as (x : caller) (u : user) : Prop :=
  match x, u with
  | CIdle, UIdle => True
  | CSend q, USend q' _ _ | CWait q, UWait q' _ => q = q'
  | CDone q r, UDone q' r' => q = q' /\ r = r'
  | _, _ => False
  end.
Theorem text_client RN opt net tr hn C g0 l g : opened RN opt net tr hn C g0 -> tsteps RN opt C g0 l g ->
  exists ls k, csteps tr (init hn) ls k /\ seen ls = seen l /\ crashed k = g_dead g /\ (exists up, packets net = reads l ++ up) /\
    (g_dead g = false -> (forall c, state_as (callers k c) (g_users g c)) /\ forall m, In m (g_threads g) -> ~ lost RN opt m (g_mem g)).
Proof.
  intros O R. destruct (opened_related _ _ _ _ _ _ _ O) as (tg & fc & fs & wn & rn & tn & msz & Hr).
  destruct (sim_steps _ _ _ _ _ _ _ _ _ _ _ _ _ _ _ _ _ _ Hr R) as (ls & k & H1 & H2 & H3). cbn [app] in H3.
  exists ls, k. split; [exact H1|]. split; [exact H2|]. pose proof H3 as [_ Hd (up & Hp & Hm)]. split; [symmetry; exact Hd|]. split.
  - exists up. rewrite Hp, <- (reads_seen ls), H2, reads_seen. reflexivity.
  - intros D. rewrite <- Hd in Hm. destruct (Hm D) as (adr & rch & mi & mn & ms & o & Hma & _). split.
    + intros c. pose proof (m_user _ _ _ _ _ _ _ _ _ _ _ _ _ _ _ _ Hma c) as X. unfold user_as in X. unfold state_as. destruct (callers k c); rewrite X; auto.
    + intros m Hi. exact (never_lost _ _ _ _ _ _ _ _ _ _ _ _ _ _ _ _ _ H3 D Hi).
Qed.

(** * What is seen of any execution *)
Lemma dones_in c r ls : In (LDone c r) ls <-> In r (dones c ls).
Proof.
  unfold dones. rewrite in_flat_map. split.
  - intros H. exists (LDone c r). split; [exact H|]. rewrite Nat.eqb_refl. left. reflexivity.
  - intros (l & H & X). destruct l; try contradiction. destruct (Nat.eqb_spec c0 c) as [->|]; [|contradiction]. destruct X as [->|[]]. exact H.
Qed.
Lemma reads_in b ls : In (LRead b) ls <-> In b (reads ls).
Proof.
  unfold reads. rewrite in_flat_map. split.
  - intros H. exists (LRead b). split; [exact H|left; reflexivity].
  - intros (l & H & X). destruct l; try contradiction. destruct X as [->|[]]. exact H.
Qed.
Lemma tsteps_prefix RN opt C g l1 l2 g' : tsteps RN opt C g (l1 ++ l2) g' -> exists g1, tsteps RN opt C g l1 g1.
Proof.
  revert g'. induction l2 as [|x l2 IH] using List.rev_ind; intros g' H.
  - rewrite app_nil_r in H. exists g'. exact H.
  - rewrite app_assoc in H. remember ((l1 ++ l2) ++ [x]) as y eqn:E. destruct H as [|ls g1 l g2 H S]; [destruct (l1 ++ l2); discriminate E|].
    apply app_inj_tail in E. destruct E as [-> _]. apply (IH _ H).
Qed.
Section Seen.
Context RN opt net tr hn C g0 (O : opened RN opt net tr hn C g0).
(** A call is started once and answered once at most, after it was started, with a packet that was read before. *)
Theorem text_reply l1 c r l2 g : tsteps RN opt C g0 (l1 ++ LDone c r :: l2) g ->
  In (LRead r) l1 /\ (exists q, starts c l1 = [q] /\ starts c (l1 ++ LDone c r :: l2) = [q]) /\ dones c (l1 ++ LDone c r :: l2) = [r] /\ tr = true /\ hn = true.
Proof.
  intros R. destruct (text_client _ _ _ _ _ _ _ _ _ O R) as (ls & k & H1 & H2 & _ & _ & _). destruct (hist _ _ _ _ H1) as (A & B & _ & _).
  assert (X : dones c ls = dones c (l1 ++ LDone c r :: l2)) by (rewrite <- (dones_seen c ls), H2, dones_seen; reflexivity).
  assert (D1 : dones c (l1 ++ LDone c r :: l2) = [r] /\ exists q, callers k c = CDone q r).
  { specialize (B c). assert (I : In r (dones c (l1 ++ LDone c r :: l2))) by (apply dones_in; apply in_app_iff; right; left; reflexivity).
    rewrite X in B. destruct (callers k c) as [|q|q|q r'] eqn:Ec; rewrite B in I; try contradiction I. destruct I as [->|[]]. split; [exact B|exists q; reflexivity]. }
  destruct D1 as [D1 (q & Ec)].
  (* the part up to the reply, and the part before it *)
  change (LDone c r :: l2) with ([LDone c r] ++ l2) in R. rewrite app_assoc in R. destruct (tsteps_prefix _ _ _ _ _ _ _ R) as (g1 & R1).
  destruct (text_client _ _ _ _ _ _ _ _ _ O R1) as (ls1 & k1 & H3 & H4 & _ & _ & _).
  rewrite seen_app in H4. destruct (seen_last ls1 (seen l1) (LDone c r) H4) as (la & x & lb & -> & E1 & E2 & E3).
  assert (x = LDone c r) as -> by (destruct x; try discriminate E2; injection E2 as -> ->; reflexivity).
  change (LDone c r :: lb) with ([LDone c r] ++ lb) in H3. rewrite app_assoc in H3.
  assert (Y : exists k0 k2, csteps tr (init hn) la k0 /\ cstep tr k0 (LDone c r) k2).
  { clear - H3. revert k1 H3. induction lb as [|y lb IH] using List.rev_ind; intros k1 H3.
    - rewrite app_nil_r in H3. apply snoc_inv in H3. destruct H3 as (k0 & Z1 & Z2). exists k0, k1. auto.
    - rewrite app_assoc in H3. apply snoc_inv in H3. destruct H3 as (k0 & Z1 & _). exact (IH _ Z1). }
  destruct Y as (k0 & k2 & H5 & S).
  assert (Hc : exists q0, callers k0 c = CWait q0 /\ exists t, rcv k0 = VDeliver r t c).
  { inversion S. eauto. }
  destruct Hc as (q0 & Hc & t & Hv).
  destruct (reply_read _ _ _ _ H5) as (_ & Hr & _ & _). specialize (Hr r t c (or_intror Hv)).
  destruct (hist _ _ _ _ H5) as (A0 & _ & _ & _). specialize (A0 c). rewrite Hc in A0. cbn [q_of] in A0.
  assert (St : starts c l1 = [q0]) by (rewrite <- (starts_seen c l1), <- E1, starts_seen; exact A0).
  split; [apply reads_in; rewrite <- (reads_seen l1), <- E1, reads_seen; apply reads_in, Hr|].
  split; [exists q0; split; [exact St|]|].
  { specialize (A c). rewrite Ec in A. cbn [q_of] in A. rewrite <- (starts_seen c ls), H2, starts_seen in A. pose proof A as A'.
    unfold starts in A'. rewrite flat_map_app in A'. fold (starts c l1) in A'. rewrite St in A'. cbn [app] in A'. injection A' as <- _. exact A. }
  split; [exact D1|]. split.
  - destruct tr; [reflexivity|]. destruct (untraced_inv _ _ _ H1) as [_ N]. exfalso. apply (N c r). apply dones_in. rewrite X, D1. left. reflexivity.
  - destruct hn; [reflexivity|]. destruct (nonet_inv _ _ _ H1) as (_ & _ & N). exfalso. exact (N c q r Ec).
Qed.
(** Packets are read in the order in which they arrive, none after the end of the connection. *)
Theorem text_reads l g : tsteps RN opt C g0 l g -> exists up, packets net = reads l ++ up.
Proof. intros R. destruct (text_client _ _ _ _ _ _ _ _ _ O R) as (ls & k & _ & _ & _ & H & _). exact H. Qed.
Theorem text_gettags l g : tsteps RN opt C g0 l g -> NoDup (got_tags l) /\ forall t, In t (got_tags l) -> 1 <= t <= 65534.
Proof.
  intros R. destruct (text_client _ _ _ _ _ _ _ _ _ O R) as (ls & k & H1 & H2 & _ & _ & _). destruct (hist _ _ _ _ H1) as (_ & _ & A & _).
  destruct (user_nodup _ _ _ _ H1) as [N G]. rewrite <- (tags_seen ls), H2, tags_seen in A. rewrite A. split; [apply NoDup_rev, N|].
  intros t Ht. apply G. apply in_rev in Ht. exact Ht.
Qed.
Theorem text_getfids l g k : tsteps RN opt C g0 l g -> (k < List.length (got_fids l))%nat -> nth_error (got_fids l) k = Some ((N.of_nat k + 2) mod 4294967296).
Proof.
  intros R. destruct (text_client _ _ _ _ _ _ _ _ _ O R) as (ls & s & H1 & H2 & _ & _ & _). destruct (hist _ _ _ _ H1) as (_ & _ & _ & A).
  rewrite <- (fids_seen ls), H2, fids_seen in A. rewrite A. intros Hk. destruct (fid_inv _ _ _ _ H1) as [E _]. rewrite E. erewrite map_nth_error; [reflexivity|].
  rewrite (nth_error_nth' _ 0%nat) by (rewrite seq_length; exact Hk). rewrite seq_nth by exact Hk. reflexivity.
Qed.
End Seen.
(** At a server that answers requests at most once and with their tag, nothing goes wrong, and a call gets the answer to its own request. *)
Theorem text_honest RN opt net C g0 srv l u f g : opened RN opt net true true C g0 -> tsteps RN opt C g0 l g -> answers_with_tag srv -> honest srv l u f ->
  g_dead g = false /\ forall c q r, g_users g c = UDone q r -> exists t, 1 <= t <= 65534 /\ srv (set_tag t q) r.
Proof.
  intros O R HS HH. destruct (text_client _ _ _ _ _ _ _ _ _ O R) as (ls & k & H1 & H2 & Hd & _ & Hu).
  destruct (honest_reach true srv ls u f (honest_same _ _ _ _ HH ls H2) k H1) as (h & Hh & <- & _).
  assert (D : g_dead g = false) by (rewrite <- Hd; apply (honest_no_crash srv h HS Hh)). split; [exact D|].
  intros c q r E. destruct (Hu D) as [Hs _]. specialize (Hs c). rewrite E in Hs. destruct (callers (cl h) c) as [|x|x|x y] eqn:Ec; try contradiction Hs.
  destruct Hs as [-> ->]. destruct (right_caller srv h c q r HS Hh Ec) as (t & T1 & T2 & _). exists t. auto.
Qed.

(** A goroutine that hands a reply to a channel nobody waits at: no call is ever answered again. *)
Theorem text_wedged RN opt net tr hn C g0 l g m x n r m' : opened RN opt net tr hn C g0 -> tsteps RN opt C g0 l g -> g_dead g = false ->
  In m (g_threads g) -> step protocol_program m = Ask (RSend (VObj x n) (VBytes r)) m' -> (forall c q, g_users g c <> UWait q n) ->
  forall l' g', tsteps RN opt C g l' g' -> (forall c r, ~ In (LDone c r) l') /\ (g_dead g' = false -> forall c q n', g_users g c = UWait q n' -> exists n'', g_users g' c = UWait q n'').
Proof.
  intros O R Hd Hi Es Hw l' g' R'. destruct (opened_related _ _ _ _ _ _ _ O) as (tg & fc & fs & wn & rn & tn & msz & Hr).
  destruct (sim_steps _ _ _ _ _ _ _ _ _ _ _ _ _ _ _ _ _ _ Hr R) as (ls & k & H1 & H2 & H3). cbn [app] in H3. clear Hr.
  pose proof (inv_steps _ _ _ _ H1) as HI. pose proof H3 as [_ Hd' (up & _ & Hg)]. assert (Hc : crashed k = false) by congruence.
  destruct (Hg Hc) as (adr & rch & mi & mn & ms & o & Hm & [Eth Hio Hrd Hsn]). rewrite Eth in Hi. apply In_nth_error in Hi. destruct Hi as (i & Ei).
  assert (W : wedged k).
  { destruct (three _ _ _ _ _ _ _ _ _ _ _ _ _ _ _ _ _ _ _ _ _ _ Hsn Ei) as [(-> & ->)|[(-> & ->)|(-> & B & -> & -> & Hp)]].
    2: { destruct (rd_requests _ _ _ _ _ _ _ _ _ _ _ _ _ _ _ _ _ _ Hrd Es eq_refl) as (a & p & X & _). discriminate X. }
    2: { destruct (snd_requests _ _ _ _ _ _ _ _ _ _ _ _ _ _ _ _ _ _ _ _ Hp Es eq_refl) as [X|X]; discriminate X. }
    destruct (io_sends _ _ _ _ _ _ _ _ _ _ _ _ _ _ _ _ _ _ _ _ _ _ _ Hio Es) as [(B & a & b' & t & c' & -> & Ev & -> & X & Hbo & HQ)|(t & _ & _ & X)]; [|discriminate X].
    destruct (i_deliver_t k HI _ _ _ Ev) as (_ & q' & [Hq'|(r' & Hq')]).
    - exfalso. pose proof (m_user _ _ _ _ _ _ _ _ _ _ _ _ _ _ _ _ Hm c') as Mu. rewrite Hq' in Mu. exact (Hw _ _ Mu).
    - exists b', t, c', q', r'. auto. }
  destruct (sim_steps _ _ _ _ _ _ _ _ _ _ _ _ _ _ _ _ _ _ H3 R') as (ls' & k' & H1' & H2' & H3').
  destruct (wedged_forever tr k ls' k' HI W H1') as (_ & F1 & F2). split.
  - intros c r' X. apply (F2 c r'). apply dones_in. rewrite <- (dones_seen c ls'), H2', dones_seen. apply dones_in, X.
  - intros D c q n' Hu. pose proof (m_user _ _ _ _ _ _ _ _ _ _ _ _ _ _ _ _ Hm c) as Mu. rewrite Hu in Mu.
    assert (Hq : callers k c = CWait q) by (destruct (callers k c); cbn in Mu; inversion Mu; reflexivity).
    destruct H3' as [_ Hdd (up' & _ & Hg')]. rewrite <- Hdd in Hg'. destruct (Hg' D) as (adr' & rch' & mi' & mn' & ms' & o' & Hm' & _).
    pose proof (m_user _ _ _ _ _ _ _ _ _ _ _ _ _ _ _ _ Hm' c) as Mu'. rewrite (F1 c q Hq) in Mu'. eauto.
Qed.

(** * A first state, for computing *)
Definition first_cell (C : N) (v : value) : N -> option value := fun a => if a =? 0 then Some v_names else if a =? C then Some v else None.
Fixpoint count_up (t : N) (n : nat) : list N := match n with O => [] | S n => t :: count_up (t + 1) n end.
Lemma count_up_all : count_up 1 NumTags = all_tags.
Proof.
  Transparent all_tags. unfold all_tags. Opaque all_tags. enough (H : forall n k, count_up (N.of_nat k) n = map N.of_nat (seq k n)) by exact (H NumTags 1%nat).
  induction n as [|n IH]; intros k; [reflexivity|]. cbn [count_up seq map]. f_equal. rewrite <- IH. f_equal. lia.
Qed.
Definition first_state (tr hn : bool) (net : list rev) : gstate :=
  let c := v_client (v_chan 0) (v_chan 1) (v_chan 2) (VObj (str "io.WriteCloser") 0) (if hn then VObj (str "io.ReadCloser") 1 else VNil) (if tr then VObj (str "Tracer") 2 else VNil) 8192 1 (repeat VNil NumTags) false in
  let tags := map (VU 16) (count_up 1 NumTags) in
  mkG (map goroutine [(FUser (str "Client.IO") [VPtr (str "Client") 1 []], []); (FUser (str "Client.readNetPackets") [VPtr (str "Client") 1 []], [])])
    (mkMem (first_cell 1 c) 2 (mkNW (fun x => if x =? 0 then Some (mkCh 65534 tags false) else if x =? 1 then Some (mkCh 65534 [] false) else if x =? 2 then Some (mkCh 0 [] false) else None) 3 net []))
    (fun _ => UIdle) false.
Definition first_opt (tr hn : bool) := sets 0 1 2 8192 tr hn.
Lemma first_opened tr hn net : opened 0 (first_opt tr hn) net tr hn 1 (first_state tr hn net).
Proof.
  constructor; [|reflexivity|reflexivity].
  set (hp := fun a => if a =? 0 then Some v_names else None). set (ch := fun _ : N => @None chan).
  destruct (text_new 0 0 1 2 8192 tr hn 0 (mkMem hp 1 (mkNW ch 0 net []))) as (s & He & ((L & N1 & N2 & N3) & N4 & N5 & N6 & N7 & N8 & N9 & N10 & N11) & N12).
  cbn [rest cells free w_gos w_net w_next w_chans app] in *.
  exists hp, ch, 0, 0, 1, 2, 8192, 0, s. split; [reflexivity|]. split; [reflexivity|].
  split; [intros a Ha; unfold hp; destruct (N.eqb_spec a 0); [lia|reflexivity]|]. split; [reflexivity|]. split; [exact He|]. split.
  - unfold same_memory, first_state. cbv zeta. rewrite count_up_all. cbn [g_mem cells free rest w_chans w_next w_net]. split; [|split; [exact N5|split; [|split; [exact N10|exact N11]]]].
    + intros a. unfold first_cell. destruct (N.eqb_spec a 1) as [->|Hn].
      * rewrite N1. cbn [N.eqb Pos.eqb]. do 2 f_equal.
        assert (E : L = repeat VNil NumTags).
        { clear - N2 N3. rewrite <- N2. rewrite <- N2 in N3. clear N2. induction L as [|x L IH]; [reflexivity|]. cbn [List.length repeat]. f_equal.
          - specialize (N3 0%nat). cbn in N3. assert (X : Some x = Some VNil) by (apply N3; lia). injection X as ->. reflexivity.
          - apply IH. intros i Hi. apply (N3 (S i)). cbn. lia. }
        rewrite <- E. reflexivity.
      * rewrite N4 by exact Hn. unfold hp. destruct (a =? 0); reflexivity.
    + intros x. destruct (N.eqb_spec x 0) as [->|H0]; [exact N6|]. destruct (N.eqb_spec x 1) as [->|H1]; [exact N7|]. destruct (N.eqb_spec x 2) as [->|H2]; [exact N8|].
      rewrite N9 by lia. reflexivity.
  - rewrite N12. reflexivity.
Qed.

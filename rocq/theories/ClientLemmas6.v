(** Disconnection, hostile servers, tracing, packets, the file server behind the client. *)
From Verif Require Import Base GoBuf CodecPrim Types Codec Msgs CodecSpec MsgThm CodecLemmas CodecLemmas2 CodecLemmas3 CodecLemmas4 StubPrim Stubs
  Server ServerSpec ServerLemmas ServerLemmas2 ServerLemmas3 Rpc ServerLemmas4
  Client ClientSpec ClientLemmas ClientLemmas2 ClientLemmas3 ClientLemmas4 ClientLemmas5.

Lemma numtags_N : N.of_nat NumTags = 65534. Proof. unfold NumTags. apply N2Nat.id. Qed.
Lemma all_tags_cons : exists ts, all_tags = 1 :: ts.
Proof.
  unfold all_tags, NumTags. replace (N.to_nat 65534) with (S (N.to_nat 65533)) by lia. cbn [seq map]. eexists. reflexivity.
Qed.
Local Opaque NumTags.

Lemma csteps_app tr s1 ls1 s2 ls2 s3 : csteps tr s1 ls1 s2 -> csteps tr s2 ls2 s3 -> csteps tr s1 (ls1 ++ ls2) s3.
Proof.
  intros H. induction 1 as [|ls x l y _ IH S]; [rewrite app_nil_r; exact H|]. rewrite app_assoc. eapply css_snoc; eassumption.
Qed.
Lemma csteps_one tr s l s' : cstep tr s l s' -> csteps tr s [l] s'.
Proof. intros H. change [l] with ([] ++ [l]). eapply css_snoc; [constructor|exact H]. Qed.

(** * Disconnection *)
Definition wedged (s : cst) : Prop := exists b t c q r, rcv s = VDeliver b t c /\ callers s c = CDone q r.
Lemma closed_crashes tr hn ls s : csteps tr (init hn) ls s -> crashed s = false -> In LEof ls ->
  exists ls' s', csteps tr s ls' s' /\ (crashed s' = true \/ wedged s') /\ (List.length ls' <= 4)%nat /\ (forall b, ~ In (LRead b) ls').
Proof.
  intros H Hc He. pose proof (inv_steps _ _ _ _ H) as I. destruct (reply_read _ _ _ _ H) as (_ & _ & _ & D). specialize (D He). clear H He.
  assert (R : forall s t, Inv s -> crashed s = false -> rdr s = RClosed -> rcv s = VReturn t ->
    exists s', csteps tr s ([LTau] ++ [LCrash]) s' /\ crashed s' = true).
  { intros s0 t I0 A B C. eexists. split; [eapply csteps_app; [apply csteps_one, cs_return; [exact A|exact C|exact (tags_short s0 I0 t C)]|apply csteps_one, cs_closed; simpj; trivial]|reflexivity]. }
  assert (V : forall s b t c, Inv s -> crashed s = false -> rdr s = RClosed -> rcv s = VDeliver b t c ->
    exists ls' s', csteps tr s ls' s' /\ (crashed s' = true \/ wedged s') /\ (List.length ls' <= 3)%nat /\ (forall b, ~ In (LRead b) ls')).
  { intros s0 b t c I0 A B C. destruct (i_deliver_t s0 I0 b t c C) as [_ (q & [Y|(r & Y)])].
    - pose proof (cs_deliver tr s0 b t c q A C Y) as S1.
      destruct (R _ t (inv_step _ _ _ _ I0 S1) eq_refl B eq_refl) as (s' & S2 & Z).
      exists ([LDone c b] ++ [LTau] ++ [LCrash]), s'. split; [eapply csteps_app; [apply csteps_one, S1|exact S2]|]. split; [left; exact Z|].
      split; [cbn; lia|]. intros b' X. cbn in X. intuition discriminate.
    - exists [], s0. split; [constructor|]. split; [right; exists b, t, c, q, r; auto|]. split; [cbn; lia|]. intros b' []. }
  destruct (rcv s) as [|b| |b t c|t] eqn:Hv.
  - exists [LCrash], (crash s). split; [apply csteps_one, cs_closed; assumption|]. split; [left; reflexivity|]. split; [cbn; lia|].
    intros b [X|[]]; discriminate.
  - pose proof (cs_lookup tr s b Hc Hv) as S1. destruct (receive_cases tr s b) as [X|(c & _ & _ & _ & X)]; rewrite X in S1.
    + pose proof (cs_doomed tr _ (eq_refl : crashed (mkC (tags s) (fid s) (rpc s) (queue s) (callers s) (snd_ s) (rdr s) VDoomed (user s) (fids s) false) = false) eq_refl) as S2.
      exists ([LTau] ++ [LCrash]). eexists. split; [eapply csteps_app; [apply csteps_one, S1|apply csteps_one, S2]|]. split; [left; reflexivity|].
      split; [cbn; lia|]. intros b' Y. cbn in Y. intuition discriminate.
    + destruct (V _ b (tag_of b) c (inv_step _ _ _ _ I S1) eq_refl D eq_refl) as (ls' & s' & S2 & Y & L & N).
      exists ([LTau] ++ ls'), s'. split; [eapply csteps_app; [apply csteps_one, S1|exact S2]|]. split; [exact Y|]. split; [cbn; lia|].
      intros b' [Z|Z]; [discriminate|exact (N b' Z)].
  - exists [LCrash], (crash s). split; [apply csteps_one, cs_doomed; assumption|]. split; [left; reflexivity|]. split; [cbn; lia|].
    intros b [X|[]]; discriminate.
  - destruct (V s b t c I Hc D Hv) as (ls' & s' & A & B & C & E). exists ls', s'. split; [exact A|]. split; [exact B|]. split; [lia|exact E].
  - destruct (R s t I Hc D Hv) as (s' & S2 & Z). exists ([LTau] ++ [LCrash]), s'. split; [exact S2|]. split; [left; exact Z|].
    split; [cbn; lia|]. intros b' X. cbn in X. intuition discriminate.
Qed.
Lemma lost_refuted : ~ (forall tr ls s, csteps tr (init true) ls s -> In LEof ls -> crashed s = false).
Proof.
  intros H. assert (X : crashed (crash (init true)) = false); [|discriminate X].
  assert (S1 : cstep true (init true) LEof _) by (apply cs_eof; reflexivity).
  assert (S2 : cstep true (mkC (tags (init true)) (fid (init true)) (rpc (init true)) (queue (init true)) (callers (init true)) (snd_ (init true)) RClosed (rcv (init true)) (user (init true)) (fids (init true)) false) LCrash _) by (apply cs_closed; reflexivity).
  pose proof (csteps_app _ _ _ _ _ _ (csteps_one _ _ _ _ S1) (csteps_one _ _ _ _ S2)) as S.
  specialize (H true _ _ S). apply H. cbn. tauto.
Qed.
(** A client without a connection never completes a call. *)
Lemma nonet_inv tr ls s : csteps tr (init false) ls s -> rdr s = RGone /\ rcv s = VWait /\ forall c q r, callers s c <> CDone q r.
Proof.
  induction 1 as [|ls s1 l s2 _ (A & B & C) S]; [unfold init; simpj; repeat split; discriminate|].
  destruct S; simpj; try congruence; try (unfold crash; simpj); split; trivial; split; trivial; try congruence.
  all: intros c' q' r'; unfold upd; destruct (Nat.eqb c' c); [discriminate|apply C].
Qed.

(** * Hostile servers *)
(** A bad packet: its tag is reserved or has never been used. *)
Definition bad_tag (s : cst) (b : bytes) : Prop := tag_of b = 0 \/ tag_of b = 65535 \/ rpc s (tag_of b) = None.
Lemma tag_lt b : tag_of b < 65536.
Proof.
  unfold tag_of. pose proof (b2n_lt (nth 5 b x00)). pose proof (b2n_lt (nth 6 b x00)).
  rewrite N.shiftl_mul_pow2. change (2 ^ 8) with 256. rewrite N.mod_small by lia.
  change 256 with (2 ^ 8). rewrite lor_low_add by (change (2 ^ 8) with 256; lia). change (2 ^ 8) with 256. lia.
Qed.
Lemma receive_good s b c : good_tag (tag_of b) -> rpc s (tag_of b) = Some c -> receive true s b = VDeliver b (tag_of b) c.
Proof.
  intros [G1 G2] H. unfold receive. rewrite numtags_N, H. cbv zeta.
  destruct (N.ltb_spec (tag_of b) 1); [lia|]. destruct (N.leb_spec 65534 (tag_of b - 1)); [lia|]. reflexivity.
Qed.
Lemma receive_bad s b : bad_tag s b -> receive true s b = VDoomed.
Proof.
  intros H. unfold receive. rewrite numtags_N. cbv zeta.
  destruct (N.ltb_spec (tag_of b) 1); [reflexivity|]. destruct (N.leb_spec 65534 (tag_of b - 1)); [reflexivity|].
  destruct H as [H|[H|H]]; try lia. rewrite H. reflexivity.
Qed.
Lemma not_bad s b : ~ bad_tag s b -> good_tag (tag_of b) /\ exists c, rpc s (tag_of b) = Some c.
Proof.
  intros H. unfold bad_tag, good_tag in *. pose proof (tag_lt b). destruct (rpc s (tag_of b)) as [c|].
  - split; [|exists c; reflexivity]. destruct (N.eq_dec (tag_of b) 0), (N.eq_dec (tag_of b) 65535); try (exfalso; tauto). lia.
  - exfalso. tauto.
Qed.
(** The receiver panics after it has found a bad packet, or when the connection has ended. *)
Lemma crash_iff s : crashed s = false -> ((exists s', cstep true s LCrash s') <-> rcv s = VDoomed \/ (rcv s = VWait /\ rdr s = RClosed)).
Proof.
  intros Hc. split.
  - intros (s' & S). inversion S; subst; auto.
  - intros [Hv|[Hv Hr]]; exists (crash s); [apply cs_doomed|apply cs_closed]; assumption.
Qed.
Lemma doomed_iff s : crashed s = false -> rcv s <> VDoomed ->
  ((exists l s', cstep true s l s' /\ rcv s' = VDoomed) <-> exists b, rcv s = VHave b /\ bad_tag s b).
Proof.
  intros Hc Hn. split.
  - intros (l & s' & S & E). destruct S; simpj; try congruence; try (exfalso; apply Hn; exact E).
    exists b. split; [assumption|]. destruct (rpc s (tag_of b)) as [c|] eqn:Es; [|unfold bad_tag; tauto]. unfold bad_tag.
    destruct (N.eq_dec (tag_of b) 0); [tauto|]. destruct (N.eq_dec (tag_of b) 65535); [tauto|]. exfalso.
    pose proof (tag_lt b). rewrite (receive_good s b c) in E by (assumption || unfold good_tag; lia). discriminate.
  - intros (b & Hv & Hb). eexists LTau, _. split; [apply (cs_lookup true s b Hc Hv)|]. apply receive_bad, Hb.
Qed.
Lemma doomed_stays s l s' : cstep true s l s' -> rcv s = VDoomed -> rcv s' = VDoomed.
Proof. intros S H. destruct S; cbn [crash rcv]; congruence. Qed.
(** Who gets a reply, and nobody else notices. *)
Lemma done_step tr hn ls s c b s' : csteps tr (init hn) ls s -> cstep tr s (LDone c b) s' ->
  holds s c (tag_of b) /\ In (LRead b) ls /\ (exists q, callers s c = CWait q /\ callers s' c = CDone q b) /\
  forall c', c' <> c -> callers s' c' = callers s c'.
Proof.
  intros H S. pose proof (inv_steps _ _ _ _ H) as I. destruct (reply_read _ _ _ _ H) as (_ & B & _ & _).
  inversion S as [| | | | | | | | | | | | |b0 t c0 q X0 X1 X2 X3 X4| | |]; subst.
  destruct (i_deliver_t s I b t c X1) as [-> _]. simpj. split; [|split; [|split]].
  - split; [exists q; exact X2|]. right. eapply (i_deliver s I); eassumption.
  - eapply B. right. exact X1.
  - exists q. split; [exact X2|apply upd_same].
  - intros c' N. apply upd_other, N.
Qed.
Lemma good_reply s b c q : crashed s = false -> rdr s = RHave b -> rcv s = VWait -> Inv s -> callers s c = CWait q -> rpc s (tag_of b) = Some c ->
  exists s1 s2 s3, cstep true s LTau s1 /\ cstep true s1 LTau s2 /\ cstep true s2 (LDone c b) s3 /\ callers s3 c = CDone q b /\ (forall c', c' <> c -> callers s3 c' = callers s c').
Proof.
  intros Hc Hr Hv I Hq Hs. destruct (i_slot s I c _ Hs) as [V _]. apply valid_good in V.
  pose proof (cs_pass true s b Hc Hr Hv) as S1. match type of S1 with cstep _ _ _ ?x => pose proof (cs_lookup true x b eq_refl eq_refl) as S2; rewrite (receive_good x b c V Hs) in S2 end.
  eexists _, _, _. split; [exact S1|]. split; [exact S2|]. split; [eapply (cs_deliver true _ b (tag_of b) c q); trivial|]. simpj.
  split; [apply upd_same|]. intros c' N. apply upd_other, N.
Qed.

(** A reply that uses the tag of a finished call blocks the receiver for ever. *)
Lemma wedged_forever tr s ls s' : Inv s -> wedged s -> csteps tr s ls s' ->
  wedged s' /\ (forall c q, callers s c = CWait q -> callers s' c = CWait q) /\ (forall c r, ~ In (LDone c r) ls).
Proof.
  intros I (b & t & c & q & r & Hv & Hd) H.
  enough (G : rcv s' = VDeliver b t c /\ callers s' c = CDone q r /\ (forall c q, callers s c = CWait q -> callers s' c = CWait q) /\ (forall c r, ~ In (LDone c r) ls)).
  { destruct G as (G1 & G2 & G3 & G4). split; [exists b, t, c, q, r; auto|]. auto. }
  induction H as [|ls s1 l s2 H (A & B & C & D) S]; [repeat split; auto|].
  assert (D' : forall x, (forall c r, x <> LDone c r) -> forall c r, ~ In (LDone c r) (ls ++ [x])).
  { intros x N c' r' X. apply in_app_iff in X. destruct X as [X|[X|[]]]; [eapply D, X|eapply N, X]. }
  destruct S; try congruence; simpj; (split; [congruence || assumption|split; [|split; [|apply D'; discriminate]]]); try assumption.
  - rewrite upd_other; [exact B|]. congruence.
  - intros c' q' X. rewrite upd_other; [apply C, X|]. intros ->. apply C in X. congruence.
  - rewrite upd_other; [exact B|]. congruence.
  - intros c' q' X. rewrite upd_other; [apply C, X|]. intros ->. apply C in X. congruence.
Qed.

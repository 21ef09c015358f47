(** The invariant of client and honest server is kept. *)
From Verif Require Import Base GoBuf CodecPrim Types Codec Server Rpc Client ClientSpec ClientLemmas ClientLemmas2.
Local Opaque NumTags.

Ltac simpj := cbn [cl unans infl answered tags fid rpc queue callers snd_ rdr rcv user fids crashed sheld vheld scall sslot sslotc map fst rtags vtags flight back app] in *.

Lemma uniq_in {B} (l : list (nat * B)) c x y : (cntc c (map fst l) <= 1)%nat -> In (c, x) l -> In (c, y) l -> x = y.
Proof.
  induction l as [|[c' z] l IH]; [contradiction|]. cbn [map fst]. rewrite cntc_cons. intros H [E|E] [E'|E'].
  - congruence.
  - injection E as -> ->. rewrite Nat.eqb_refl in H. apply (in_map fst) in E'. apply cntc_in in E'. cbn in E'. lia.
  - injection E' as -> ->. rewrite Nat.eqb_refl in H. apply (in_map fst) in E. apply cntc_in in E. cbn in E. lia.
  - apply IH; trivial. lia.
Qed.

Lemma j_init srv : J srv hinit.
Proof.
  constructor; try exact (inv_init true); unfold hinit, init; simpj; try contradiction; try discriminate.
  - reflexivity.
  - split; discriminate.
  - intros t. reflexivity.
  - intros c. cbn. lia.
  - exact Logic.I.
Qed.

(** Steps that change only what J does not look at. *)
Lemma j_tau srv h s' : J srv h -> Inv s' -> crashed s' = false -> rpc s' = rpc (cl h) -> queue s' = queue (cl h) -> callers s' = callers (cl h) ->
  snd_ s' = snd_ (cl h) -> rdr s' = rdr (cl h) -> vtags (rcv s') = [] -> vtags (rcv (cl h)) = [] ->
  (forall b t c, rcv s' <> VDeliver b t c) -> (forall b t c, rcv (cl h) <> VDeliver b t c) -> rcv s' <> VDoomed ->
  J srv (mkH s' (unans h) (infl h) (answered h)).
Proof.
  intros [A B C D E F G H I K L L' M O P] Hi H1 H2 H3 H4 H5 H6 H7 H8 H9 H10 H11. constructor; simpj.
  - exact Hi.
  - exact H1.
  - rewrite H6. exact C.
  - intros t. specialize (D t). unfold flight, outst in *. simpj. rewrite H6, H7. rewrite H8 in D. rewrite H5, H2, H4. exact D.
  - intros c q X. unfold req_ok. rewrite H2, H4. apply (E c q X).
  - intros a X. rewrite H2. apply F. unfold back in *. simpj. rewrite H6 in X.
    destruct (rcv s') eqn:Y; try (exfalso; eapply H9; reflexivity); destruct (rcv (cl h)) eqn:Z; try (exfalso; eapply H10; reflexivity); try discriminate; exact X.
  - rewrite H4. exact G.
  - rewrite H3, H5, H4. exact H.
  - rewrite H3, H4. exact I.
  - rewrite H5. unfold req_ok in *. rewrite H4, H2. exact K.
  - rewrite H4. exact L.
  - rewrite H4. exact L'.
  - intros b t c X. exfalso. eapply H9, X.
  - rewrite H4. exact O.
  - exact H11.
Qed.

Lemma flight_slot srv h t : J srv h -> In t (flight h) -> exists c q, rpc (cl h) t = Some c /\ callers (cl h) c = CWait q /\ good_tag t.
Proof.
  intros HJ X. apply cnt_in in X. pose proof (j_flight srv h HJ t) as D. pose proof (i_tags _ (j_inv srv h HJ) t) as A.
  assert (Y : (0 < outst (cl h) t)%nat) by lia. pose proof (valid_le t). unfold outst in *. destruct (rpc (cl h) t) as [c|]; [|lia].
  destruct (callers (cl h) c) eqn:Z; cbn in *; try lia. exists c, q. split; [reflexivity|split; [exact Z|]]. apply valid_good. lia.
Qed.
Lemma in_back_flight h a : In a (back h) -> In (tag_of a) (flight h) \/ exists t c, rcv (cl h) = VDeliver a t c.
Proof.
  unfold back, flight. rewrite !in_app_iff. intros [X|[X|X]].
  - left. right. left. apply in_map. exact X.
  - left. right. right. left. destruct (rdr (cl h)); try contradiction. destruct X as [->|[]]. left. reflexivity.
  - destruct (rcv (cl h)); try contradiction; destruct X as [->|[]]; [left|right; eauto]. right. right. right. left. reflexivity.
Qed.

Lemma req_ok_upd s c v c' q s' : callers s' = upd (callers s) c v -> c' <> c -> req_ok s c' q -> req_ok s' c' q.
Proof. intros H N (q0 & X & Y). exists q0. split; [exact X|]. rewrite H, upd_other by exact N. exact Y. Qed.

Section Step.
Context (srv : bytes -> bytes -> Prop) (HS : answers_with_tag srv).

Lemma j_start h c q : J srv h -> callers (cl h) c = CIdle -> (7 <= List.length q)%nat ->
  let s := cl h in forall s', Inv s' ->
  s' = mkC (tags s) (fid s) (rpc s) (queue s) (upd (callers s) c (CSend q)) (snd_ s) (rdr s) (rcv s) (user s) (fids s) false ->
  J srv (mkH s' (unans h) (infl h) (answered h)).
Proof.
  intros HJ Hc Hq s s' Hi ->. subst s. pose proof HJ as [A B C D E F G H I K L L' M O P].
  assert (N0 : forall c' q', callers (cl h) c' = CWait q' -> c' <> c) by (intros; congruence).
  assert (R : forall c' q', req_ok (cl h) c' q' -> req_ok (mkC (tags (cl h)) (fid (cl h)) (rpc (cl h)) (queue (cl h)) (upd (callers (cl h)) c (CSend q)) (snd_ (cl h)) (rdr (cl h)) (rcv (cl h)) (user (cl h)) (fids (cl h)) false) c' q').
  { intros c' q' X. eapply req_ok_upd; [reflexivity| |exact X]. destruct X as (q0 & _ & X). eapply N0, X. }
  constructor; simpj; try assumption; try reflexivity.
  - intros t. specialize (D t). unfold flight, outst in *. simpj. rewrite waiting_upd; [exact D|]. rewrite Hc. reflexivity.
  - intros c' q' X. destruct (E c' q' X). split; [assumption|]. apply R. assumption.
  - intros c' q' a X. destruct (G c' q' a X) as (G1 & G2 & G3 & G4 & q0 & G5 & G6). split; [exact G1|split; [exact G2|split; [exact G3|split; [exact G4|]]]]. exists q0. split; [exact G5|].
    unfold upd. destruct (Nat.eqb_spec c' c) as [->|]; [|exact G6]. destruct G6; congruence.
  - intros c'. specialize (H c'). unfold upd. destruct (Nat.eqb_spec c' c) as [->|]; [|exact H]. rewrite Hc in H. exact H.
  - intros c' q' X. destruct (I c' q' X) as [X1 X2]. split; [|exact X2]. rewrite upd_other; [exact X1|]. eapply N0, X1.
  - destruct (snd_ (cl h)) as [|c' q'|c' t' q'|c' t' q'].
    + trivial.
    + destruct K as [K1 K2]. split; [|exact K2]. rewrite upd_other; [exact K1|]. eapply N0, K1.
    + destruct K as [K1 K2]. split; [exact K1|]. apply R, K2.
    + destruct K as (K1 & K2 & K3). split; [exact K1|]. split; [apply R, K2|exact K3].
  - intros c' q'. unfold upd. destruct (Nat.eqb_spec c' c); [intros X; injection X as <-; exact Hq|]. apply L.
  - intros c' q'. unfold upd. destruct (Nat.eqb_spec c' c); [discriminate|]. apply L'.
  - intros c' q' r. unfold upd. destruct (Nat.eqb_spec c' c); [discriminate|]. apply O.
Qed.

Lemma j_enqueue h c q : J srv h -> callers (cl h) c = CSend q ->
  let s := cl h in forall s', Inv s' ->
  s' = mkC (tags s) (fid s) (rpc s) (queue s ++ [(c, q)]) (upd (callers s) c (CWait q)) (snd_ s) (rdr s) (rcv s) (user s) (fids s) false ->
  J srv (mkH s' (unans h) (infl h) (answered h)).
Proof.
  intros HJ Hc s s' Hi ->. subst s. pose proof HJ as [A B C D E F G H I K L L' M O P].
  assert (N0 : forall c' q', callers (cl h) c' = CWait q' -> c' <> c) by (intros; congruence).
  assert (R : forall c' q', req_ok (cl h) c' q' -> req_ok (mkC (tags (cl h)) (fid (cl h)) (rpc (cl h)) (queue (cl h) ++ [(c, q)]) (upd (callers (cl h)) c (CWait q)) (snd_ (cl h)) (rdr (cl h)) (rcv (cl h)) (user (cl h)) (fids (cl h)) false) c' q').
  { intros c' q' X. eapply req_ok_upd; [reflexivity| |exact X]. destruct X as (q0 & _ & X). eapply N0, X. }
  constructor; simpj; try assumption; try reflexivity.
  - intros t. specialize (D t). unfold flight, outst in *. simpj. destruct (rpc (cl h) t) as [c'|] eqn:Y; [|exact D].
    rewrite upd_other; [exact D|]. intros ->. destruct (i_slot _ A c t Y) as [_ (q1 & [X|(r & X)])]; congruence.
  - intros c' q' X. destruct (E c' q' X). split; [assumption|]. apply R. assumption.
  - intros c' q' a X. destruct (G c' q' a X) as (G1 & G2 & G3 & G4 & q0 & G5 & G6). split; [exact G1|split; [exact G2|split; [exact G3|split; [exact G4|]]]]. exists q0. split; [exact G5|].
    unfold upd. destruct (Nat.eqb_spec c' c) as [->|]; [|exact G6]. destruct G6; congruence.
  - intros c'. specialize (H c'). rewrite map_app, cntc_app. cbn [map fst]. rewrite cntc_cons, cntc_nil. unfold upd.
    rewrite (Nat.eqb_sym c c'). destruct (Nat.eqb_spec c' c) as [->|]; [|lia]. rewrite Hc in H. cbn in *. lia.
  - intros c' q' X. apply in_app_or in X. destruct X as [X|[X|[]]].
    + destruct (I c' q' X) as [X1 X2]. split; [|exact X2]. rewrite upd_other; [exact X1|]. eapply N0, X1.
    + injection X as <- <-. split; [apply upd_same|]. eapply L, Hc.
  - destruct (snd_ (cl h)) as [|c' q'|c' t' q'|c' t' q'].
    + trivial.
    + destruct K as [K1 K2]. split; [|exact K2]. rewrite upd_other; [exact K1|]. eapply N0, K1.
    + destruct K as [K1 K2]. split; [exact K1|]. apply R, K2.
    + destruct K as (K1 & K2 & K3). split; [exact K1|]. split; [apply R, K2|exact K3].
  - intros c' q'. unfold upd. destruct (Nat.eqb_spec c' c); [discriminate|]. apply L.
  - intros c' q'. unfold upd. destruct (Nat.eqb_spec c' c) as [->|]; [intros X; injection X as <-; eapply L, Hc|]. apply L'.
  - intros c' q' r. unfold upd. destruct (Nat.eqb_spec c' c); [discriminate|]. apply O.
Qed.

Lemma good16 t : good_tag t -> t < 65536. Proof. unfold good_tag. lia. Qed.

Lemma j_client h l s' : J srv h -> cstep true (cl h) l s' -> (forall c q, l <> LWrite c q) -> (forall b, l <> LRead b) -> l <> LEof -> l <> LFatal ->
  J srv (mkH s' (unans h) (infl h) (answered h)).
Proof.
  intros HJ S N1 N2 N3 N4. pose proof (inv_step _ _ _ _ (j_inv srv h HJ) S) as HI.
  destruct S as
    [c q Hc Hi Hq|c q Hc Hi Hq|c q qs Hc Hs Hq|c q t ts Hc Hs Ht|c t q Hc Hs|c t q Hc Hs|c t q Hc Hs|b Hc Hr Hb|Hc Hr
    |b Hc Hr Hv|b Hc Hv|Hc Hv|Hc Hr Hv|b t c q Hc Hv Hq|t Hc Hv Hl|t ts Hc Ht|Hc n]; try (exfalso; congruence).
  - (* start *) eapply j_start with (1 := HJ) (2 := Hi) (3 := Hq) (4 := HI). reflexivity.
  - (* enqueue *) eapply j_enqueue with (1 := HJ) (2 := Hi) (3 := HI). reflexivity.
  - (* take *) pose proof HJ as [A B C D E F G H I K L L' M O P]. rewrite Hs, Hq in *. constructor; simpj; try assumption; try reflexivity.
    + intros c'. specialize (H c'). rewrite cntc_cons in H. lia.
    + intros c' q' X. apply I. right. exact X.
    + apply I. left. reflexivity.
  - (* tag *) pose proof HJ as [A B C D E F G H I K L L' M O P].
    assert (T : good_tag t).
    { apply valid_good. pose proof (i_tags _ A t) as X. rewrite Ht, cnt_cons, N.eqb_refl in X. pose proof (valid_le t). lia. }
    rewrite Hs in *. destruct K as [K1 K2]. constructor; simpj; try assumption; try reflexivity.
    + assert (X : tag_of (set_tag t q) = t) by (apply tag_set; [apply good16, T|exact K2]). split; [exact X|].
      exists q. split; [rewrite X; reflexivity|exact K1].
  - (* slot *) pose proof HJ as [A B C D E F G H I K L L' M O P]. pose proof (i_tags _ A t) as T. pose proof (valid_le t) as V.
    rewrite Hs in *. simpj. rewrite N.eqb_refl in T. destruct K as [K1 (q0 & K2 & K3)].
    assert (NF : forall t', In t' (flight h) -> t' <> t).
    { intros t' X ->. apply cnt_in in X. specialize (D t). lia. }
    assert (OW : forall t' c', rpc (cl h) t' = Some c' -> forall q', callers (cl h) c' = CWait q' -> t' <> t).
    { intros t' c' X q' Y ->. unfold outst in T. rewrite X, Y in T. cbn in T. lia. }
    constructor; simpj; try assumption; try reflexivity.
    + intros t'. specialize (D t'). unfold flight, outst in *. simpj. unfold updN. rewrite (N.eqb_sym t t').
      destruct (N.eqb_spec t' t) as [X|]; [subst t'|lia]. rewrite K3. cbn [waiting].
      destruct (rpc (cl h) t) as [c'|]; lia.
    + intros c' q' X. destruct (E c' q' X) as [E1 E2]. split; [|exact E2]. destruct E2 as (q1 & _ & E2).
      rewrite updN_other; [exact E1|]. eapply OW; eassumption.
    + intros a X. destruct (F a X) as (c' & q' & F1 & F2). exists c', q'. split; [|exact F2]. rewrite updN_other; [exact F1|].
      destruct (in_back_flight _ _ X) as [Y|(t1 & c1 & Y)].
      * simpj. apply NF. exact Y.
      * simpj. destruct (i_deliver_t _ A _ _ _ Y) as [<- _]. apply NF. unfold flight. rewrite Y. rewrite !in_app_iff. cbn. tauto.
    + intros c'. specialize (H c'). lia.
    + split; [exact K1|]. split; [exists q0; split; assumption|]. apply updN_same.
    + intros b t' c' X. rewrite updN_other; [apply (M b t' c' X)|]. apply NF. unfold flight. rewrite X, !in_app_iff. cbn. tauto.
  - (* pass *) pose proof HJ as [A B C D E F G H I K L L' M O P]. constructor; simpj; try assumption.
    + reflexivity.
    + split; discriminate.
    + intros t. specialize (D t). unfold flight, outst in *. simpj. rewrite Hr, Hv in D. cbn [rtags vtags] in D.
      rewrite !cnt_app in *. rewrite cnt_nil in *. lia.
    + intros a X. apply F. unfold back in *. simpj. rewrite Hr, Hv. rewrite app_nil_r. exact X.
    + discriminate.
    + discriminate.
  - (* lookup *) destruct (j_back srv h HJ b) as (c & q & F1 & F2).
    { unfold back. rewrite Hv. rewrite !in_app_iff. right. right. left. reflexivity. }
    destruct (flight_slot srv h (tag_of b) HJ) as (c' & q' & X1 & X2 & X3).
    { unfold flight. rewrite Hv, !in_app_iff. cbn. tauto. }
    destruct (receive_cases true (cl h) b) as [X|(c1 & Y1 & Y2 & _ & Y3)].
    { exfalso. revert X. unfold receive. rewrite F1. cbv zeta. unfold good_tag in X3.
      destruct (N.ltb_spec (tag_of b) 1); [lia|]. 
      assert (EN : N.of_nat NumTags = 65534) by reflexivity || (unfold NumTags; apply N2Nat.id).
      rewrite EN. destruct (N.leb_spec 65534 (tag_of b - 1)); [lia|]. discriminate. }
    rewrite Y3 in *. pose proof HJ as [A B C D E F G H I K L L' M O P]. constructor; simpj; try assumption.
    + reflexivity.
    + intros t. specialize (D t). unfold flight, outst in *. simpj. rewrite Hv in D. exact D.
    + intros a X. apply F. unfold back in *. simpj. rewrite Hv. exact X.
    + intros b' t c'' X. injection X as <- <- <-. exact Y1.
    + discriminate.
  - (* doomed *) exfalso. apply (j_doom srv h HJ Hv).
  - (* closed *) exfalso. destruct (j_rdr srv h HJ). congruence.
  - (* deliver *)
    pose proof HJ as [A B C D E F G H I K L L' M O P]. pose proof (M b t c Hv) as Hr. destruct (i_deliver_t _ A _ _ _ Hv) as [Htag _].
    pose proof (i_tags _ A t) as T. pose proof (valid_le t) as V.
    assert (HO : outst (cl h) t = 1%nat). { unfold outst in *. rewrite Hr, Hq in *. reflexivity. }
    pose proof (D t) as Dt. rewrite HO in Dt.
    assert (NF : forall t', t' = t -> In t' (map (fun x => tag_of (snd x)) (unans h) ++ map tag_of (infl h) ++ rtags (rdr (cl h))) -> False).
    { intros t' -> X. apply cnt_in in X. unfold flight in Dt. rewrite Hv in Dt. rewrite !app_assoc, cnt_app in Dt. rewrite !app_assoc in X.
      cbn [vtags] in Dt. rewrite cnt_cons, N.eqb_refl in Dt. lia. }
    assert (NS : sslot t (snd_ (cl h)) = 0%nat).
    { unfold flight in Dt. rewrite Hv in Dt. rewrite !app_assoc, cnt_app in Dt. cbn [vtags] in Dt. rewrite cnt_cons, N.eqb_refl in Dt. lia. }
    destruct (F b) as (c1 & qw & F1 & F2). { unfold back. rewrite Hv, !in_app_iff. cbn. tauto. }
    rewrite <- Htag in F1. assert (c1 = c) by congruence. subst c1.
    assert (UQ : forall c' q', c' = c -> req_ok (cl h) c' q' -> rpc (cl h) (tag_of q') = Some c' -> tag_of q' = t).
    { intros c' q' -> _ X. eapply (i_inj _ A); eassumption. }
    assert (NW : forall c' q', callers (cl h) c' = CWait q' -> c' <> c -> upd (callers (cl h)) c (CDone q b) c' = CWait q').
    { intros. rewrite upd_other; assumption. }
    constructor; simpj; try assumption; try reflexivity.
    + intros t'. specialize (D t'). unfold flight, outst in *. simpj. rewrite Hv in D. rewrite !cnt_app in *. cbn [vtags] in D.
      rewrite cnt_cons, cnt_nil in D. rewrite cnt_nil. destruct (N.eqb_spec t t') as [X|Hne]; [subst t'|].
      * rewrite Hr in *. rewrite upd_same. rewrite Hq in D. cbn [waiting] in *. lia.
      * destruct (rpc (cl h) t') as [c'|] eqn:X; [|lia]. rewrite upd_other; [lia|]. intros ->. apply Hne. eapply (i_inj _ A); eassumption.
    + intros c' q' X. destruct (E c' q' X) as [E1 E2]. split; [exact E1|]. eapply req_ok_upd; [reflexivity| |exact E2].
      intros ->. apply (NF (tag_of q')); [apply (i_inj _ A _ _ c); assumption|]. apply in_app_iff. left.
      apply (in_map (fun x => tag_of (snd x))) in X. exact X.
    + intros a X. apply F. unfold back in *. simpj. rewrite app_nil_r in X. rewrite app_assoc, in_app_iff. left. exact X.
    + intros c' q' a X. destruct (G c' q' a X) as (G1 & G2 & G3 & G4 & q0 & G5 & G6). split; [exact G1|split; [exact G2|split; [exact G3|split; [exact G4|]]]]. exists q0. split; [exact G5|].
      unfold upd. destruct (Nat.eqb_spec c' c) as [->|]; [|exact G6]. right.
      assert (Y : (qw, b) = (q', a)).
      { eapply uniq_in; [|exact F2|exact X]. specialize (H c). rewrite Hq in H. cbn in H. lia. }
      injection Y as -> ->. destruct G6 as [G6|G6]; congruence.
    + intros c'. specialize (H c'). unfold upd. destruct (Nat.eqb_spec c' c) as [->|]; [|exact H]. rewrite Hq in H. exact H.
    + intros c' q' X. destruct (I c' q' X) as [X1 X2]. split; [|exact X2]. apply NW; [exact X1|]. intros ->.
      pose proof (i_noslot _ A c t Hr) as Y. apply (in_map fst) in X. apply cntc_in in X. cbn [fst] in X. lia.
    + destruct (snd_ (cl h)) as [|c' q'|c' t' q'|c' t' q'] eqn:Hs; simpj.
      * trivial.
      * destruct K as [K1 K2]. split; [|exact K2]. apply NW; [exact K1|]. intros ->.
        pose proof (i_noslot _ A c t Hr) as Y. rewrite Hs in Y. cbn in Y. rewrite Nat.eqb_refl in Y. lia.
      * destruct K as [K1 K2]. split; [exact K1|]. eapply req_ok_upd; [reflexivity| |exact K2]. intros ->.
        pose proof (i_noslot _ A c t Hr) as Y. rewrite Hs in Y. cbn in Y. rewrite Nat.eqb_refl in Y. lia.
      * destruct K as (K1 & K2 & K3). split; [exact K1|]. split; [|exact K3]. eapply req_ok_upd; [reflexivity| |exact K2]. intros ->.
        assert (X : t' = t) by (eapply (i_inj _ A); eassumption). rewrite X, N.eqb_refl in NS. discriminate.
    + intros c' q'. unfold upd. destruct (Nat.eqb_spec c' c); [discriminate|]. apply L.
    + intros c' q'. unfold upd. destruct (Nat.eqb_spec c' c); [discriminate|]. apply L'.
    + discriminate.
    + intros c' q' r. unfold upd. destruct (Nat.eqb_spec c' c) as [->|]; [|apply O]. intros X. injection X as <- <-.
      destruct (G c qw b F2) as (_ & _ & _ & _ & q0 & G5 & G6). exists (tag_of qw).
      assert (q0 = q) by (destruct G6; congruence). subst q0. rewrite <- G5. exact F2.
    + discriminate.
  - (* return *) apply j_tau with (1 := HJ); simpj; try reflexivity; try assumption; try discriminate; rewrite Hv; trivial; discriminate.
  - (* gettag *) pose proof HJ as [A B C D E F G H I K L L' M O P]. constructor; simpj; assumption || reflexivity.
  - (* getfid *) pose proof HJ as [A B C D E F G H I K L L' M O P]. constructor; simpj; assumption || reflexivity.
Qed.

Lemma j_write h c q s' : J srv h -> cstep true (cl h) (LWrite c q) s' -> J srv (mkH s' (unans h ++ [(c, q)]) (infl h) (answered h)).
Proof.
  intros HJ S. pose proof (inv_step _ _ _ _ (j_inv srv h HJ) S) as HI. pose proof HJ as [A B C D E F G H I K L L' M O P].
  inversion S as [| | | | |c0 t q0 Hc Hs Ec Es| | | | | | | | | | |]; subst.
  rewrite Hs in *. destruct K as (K1 & K2 & K3). constructor; simpj; try assumption; try reflexivity.
  - intros t'. specialize (D t'). unfold flight, outst in *. simpj. rewrite map_app. cbn [map snd].
    rewrite !cnt_app in *. rewrite cnt_cons, cnt_nil. rewrite K1. lia.
  - intros c' q' X. apply in_app_or in X. destruct X as [X|[X|[]]]; [apply E, X|]. injection X as <- <-. rewrite K1. split; assumption.
  - intros c'. specialize (H c'). rewrite map_app, cntc_app. cbn [map fst]. rewrite cntc_cons, cntc_nil. lia.
Qed.

Lemma j_answer h u1 c q u2 a : J srv h -> unans h = u1 ++ (c, q) :: u2 -> srv q a ->
  J srv (mkH (cl h) (u1 ++ u2) (infl h ++ [a]) ((c, (q, a)) :: answered h)).
Proof.
  intros HJ Hu Ha. destruct (HS q a Ha) as [Hl Ht]. pose proof HJ as [A B C D E F G H I K L L' M O P].
  destruct (E c q) as [E1 E2]. { rewrite Hu. apply in_app_iff. right. left. reflexivity. }
  assert (T : good_tag (tag_of q)).
  { destruct (flight_slot srv h (tag_of q) HJ) as (_ & _ & _ & _ & X); [|exact X]. unfold flight. rewrite Hu, map_app, !in_app_iff. cbn. tauto. }
  constructor; simpj; try assumption.
  - intros t. specialize (D t). unfold flight, outst in *. simpj. rewrite Hu in D. rewrite !map_app in *. cbn [map snd] in *.
    rewrite !cnt_app in *. rewrite cnt_cons in *. rewrite cnt_nil in *. rewrite Ht. lia.
  - intros c' q' X. apply E. rewrite Hu. apply in_app_iff. apply in_app_iff in X. cbn. tauto.
  - intros b X. unfold back in *. simpj. rewrite <- app_assoc in X. apply in_app_iff in X. cbn [app] in X. destruct X as [X|[X|X]].
    + destruct (F b) as (c' & q' & Y & Z); [apply in_app_iff; tauto|]. exists c', q'. split; [exact Y|right; exact Z].
    + subst b. exists c, q. rewrite Ht. split; [exact E1|left; reflexivity].
    + destruct (F b) as (c' & q' & Y & Z); [apply in_app_iff; tauto|]. exists c', q'. split; [exact Y|right; exact Z].
  - intros c' q' a' [X|X]; [|apply G, X]. injection X as <- <- <-. split; [exact Ha|split; [exact Hl|split; [exact Ht|split; [exact T|]]]].
    destruct E2 as (q0 & Z1 & Z2). exists q0. split; [exact Z1|left; exact Z2].
  - intros c'. specialize (H c'). rewrite Hu in H. rewrite !map_app in *. cbn [map fst] in *. rewrite !cntc_app in *. rewrite cntc_cons in *. lia.
  - intros c' q' r X. destruct (O c' q' r X) as (t & Y). exists t. right. exact Y.
Qed.

Lemma j_read h b rest s' : J srv h -> infl h = b :: rest -> cstep true (cl h) (LRead b) s' -> J srv (mkH s' (unans h) rest (answered h)).
Proof.
  intros HJ Hb S. pose proof (inv_step _ _ _ _ (j_inv srv h HJ) S) as HI. pose proof HJ as [A B C D E F G H I K L L' M O P].
  inversion S as [| | | | | | |b0 Hc Hr Hl| | | | | | | | |]; subst.
  constructor; simpj; try assumption; try reflexivity.
  - split; discriminate.
  - intros t. specialize (D t). unfold flight, outst in *. simpj. rewrite Hb, Hr in D. cbn [map rtags] in D.
    rewrite !cnt_app in *. rewrite cnt_cons in *. rewrite cnt_nil in *. lia.
  - intros a X. apply F. unfold back in *. simpj. rewrite Hb, Hr. cbn [app]. rewrite in_app_iff in X. cbn [app] in X.
    cbn. rewrite in_app_iff. cbn in X. tauto.
Qed.

Lemma j_step h l h' : J srv h -> hstep true srv h l h' -> J srv h'.
Proof.
  intros HJ S. destruct S as [l s' S N1 N2 N3 N4|c q s' S|u1 c q u2 a Hu Ha|b rest s' Hb S].
  - eapply j_client; eassumption.
  - eapply j_write; eassumption.
  - eapply j_answer; eassumption.
  - eapply j_read; eassumption.
Qed.
Lemma j_reach h : hreach true srv h -> J srv h.
Proof. induction 1 as [|h l h' _ IH S]; [apply j_init|eapply j_step; eassumption]. Qed.
End Step.

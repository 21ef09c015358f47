(** Progress and termination of the calls. *)
From Verif Require Import Base GoBuf CodecPrim Types Codec Server Rpc Client ClientSpec ClientLemmas ClientLemmas2 ClientLemmas3.
Local Opaque NumTags.

(** * Replies reach the right caller *)
Lemma right_caller srv h c q r : answers_with_tag srv -> hreach true srv h -> callers (cl h) c = CDone q r ->
  exists t, good_tag t /\ srv (set_tag t q) r /\ In (c, (set_tag t q, r)) (answered h) /\
    (forall x, In (c, x) (answered h) -> x = (set_tag t q, r)).
Proof.
  intros HS R H. pose proof (j_reach srv HS h R) as HJ. destruct (j_done srv h HJ c q r H) as (t & X).
  destruct (j_log srv h HJ _ _ _ X) as (G1 & G2 & G3 & G4 & q0 & G5 & G6).
  assert (q0 = q) by (destruct G6; congruence). subst q0.
  exists (tag_of (set_tag t q)). rewrite <- G5. split; [exact G4|]. split; [exact G1|]. split; [exact X|].
  intros x Y. eapply uniq_in; [|exact Y|exact X]. pose proof (j_cnt srv h HJ c) as Z. rewrite H in Z. cbn in Z. lia.
Qed.
Lemma honest_no_crash srv h : answers_with_tag srv -> hreach true srv h -> crashed (cl h) = false.
Proof. intros HS R. apply (j_live srv h (j_reach srv HS h R)). Qed.

(** * Work left *)
Definition wcaller (x : caller) : nat := match x with CIdle => 12 | CSend _ => 11 | _ => 0 end.
Definition wsender (x : sender) : nat := match x with SIdle => 0 | SCall _ _ => 9 | STagged _ _ _ => 8 | SSlotted _ _ _ => 7 end.
Definition wreader (x : reader) : nat := match x with RHave _ => 4 | _ => 0 end.
Definition wrecv (x : recv) : nat := match x with VHave _ => 3 | VDeliver _ _ _ => 2 | VReturn _ => 1 | VWait | VDoomed => 0 end.
Fixpoint sumw (f : nat -> caller) (n : nat) : nat := match n with O => 0 | S m => wcaller (f m) + sumw f m end.
Definition work (n : nat) (h : hst) : nat :=
  (sumw (callers (cl h)) n + 10 * List.length (queue (cl h)) + wsender (snd_ (cl h)) + 6 * List.length (unans h)
   + 5 * List.length (infl h) + wreader (rdr (cl h)) + wrecv (rcv (cl h)))%nat.

Lemma sumw_ext f g n : (forall x, (x < n)%nat -> f x = g x) -> sumw f n = sumw g n.
Proof. induction n; intros H; cbn; [reflexivity|]. rewrite H by lia. rewrite IHn; [reflexivity|]. intros; apply H; lia. Qed.
Lemma sumw_upd f c v n : (c < n)%nat -> (sumw (upd f c v) n + wcaller (f c) = sumw f n + wcaller v)%nat.
Proof.
  induction n; intros H; [lia|]. cbn. destruct (Nat.eq_dec c n) as [->|Hn].
  - rewrite upd_same. rewrite (sumw_ext (upd f n v) f); [lia|]. intros x Hx. apply upd_other. lia.
  - rewrite (upd_other f c v n) by lia. specialize (IHn ltac:(lia)). lia.
Qed.
Lemma sumw_init n : sumw (fun _ => CIdle) n = (12 * n)%nat.
Proof. induction n; cbn [sumw wcaller]; lia. Qed.

Lemma tags_short s : Inv s -> forall t, rcv s = VReturn t -> (List.length (tags s) < NumTags)%nat.
Proof.
  intros I t Ht.
  assert (ND : NoDup (t :: tags s)).
  { apply (NoDup_count_occ N.eq_dec). intros x. pose proof (i_tags s I x) as A. pose proof (valid_le x). rewrite Ht in A.
    change (cnt x (t :: tags s) <= 1)%nat. rewrite cnt_cons. cbn [vheld] in A. lia. }
  assert (IN : incl (t :: tags s) all_tags).
  { intros x X. apply cnt_in. rewrite cnt_all. pose proof (i_tags s I x) as A. rewrite Ht in A. apply cnt_in in X. rewrite cnt_cons in X.
    cbn [vheld] in A. lia. }
  apply NoDup_incl_length in IN; [|exact ND]. cbn [List.length] in IN.
  assert (L : List.length all_tags = NumTags) by (unfold all_tags; rewrite map_length, seq_length; reflexivity). lia.
Qed.

Lemma least_idle f m : (exists c, (c < m)%nat /\ f c = CIdle) -> exists c, (c < m)%nat /\ f c = CIdle /\ forall p, (p < c)%nat -> f p <> CIdle.
Proof.
  induction m as [|m IH]; intros (c & Hc & E); [lia|].
  destruct (Nat.eq_dec c m) as [->|Hn].
  - assert (D : (exists x, (x < m)%nat /\ f x = CIdle) \/ forall x, (x < m)%nat -> f x <> CIdle).
    { clear. induction m as [|m [(x & X & Y)|X]].
      - right. lia.
      - left. exists x. split; [lia|exact Y].
      - destruct (f m) eqn:E; [left; exists m; split; [lia|exact E]| | |];
          right; intros x Hx; (destruct (Nat.eq_dec x m) as [->|]; [congruence|apply X; lia]). }
    destruct D as [D|D]; [|exists m; auto].
    destruct (IH D) as (x & X & Y). exists x. split; [lia|exact Y].
  - destruct IH as (x & X & Y); [exists c; split; [lia|exact E]|]. exists x. split; [lia|exact Y].
Qed.

Lemma numtags_pos : (0 < NumTags)%nat.
Proof. Transparent NumTags. unfold NumTags. change 0%nat with (N.to_nat 0). lia. Opaque NumTags. Qed.

Section W.
Context (srv : bytes -> bytes -> Prop) (HS : answers_with_tag srv) (n : nat) (pre : nat -> list nat).

Record K (h : hst) : Prop := {
  k_j : J srv h;
  k_user : user (cl h) = [];
  k_calls : forall c, (n <= c)%nat -> callers (cl h) c = CIdle
}.
Lemma wstep_K h h' : K h -> wstep srv n pre h h' -> K h' /\ work n h = S (work n h').
Proof.
  intros [HJ HU HC] (l & S & Hl). pose proof (j_step srv HS h l h' HJ S) as HJ'.
  destruct S as [l s' S N1 N2 N3 N4|c q s' S|u1 c q u2 a Hu Ha|b rest s' Hb S].
  - assert (NC : l <> LCrash).
    { intros ->. pose proof (j_live _ _ HJ') as X. cbn [cl] in X. inversion S; subst; discriminate. }
    destruct S as
      [c q Hc Hi Hq|c q Hc Hi Hq|c q qs Hc Hs Hq|c q t ts Hc Hs Ht|c t q Hc Hs|c t q Hc Hs|c t q Hc Hs|b Hc Hr Hb|Hc Hr
      |b Hc Hr Hv|b Hc Hv|Hc Hv|Hc Hr Hv|b t c q Hc Hv Hq|t Hc Hv Hl'|t ts Hc Ht|Hc m]; try (exfalso; congruence); try contradiction.
    + destruct Hl as [Hl _]. split.
      * constructor; [exact HJ'|exact HU|]. intros c' X. simpj. rewrite upd_other by lia. apply HC, X.
      * unfold work. simpj. pose proof (sumw_upd (callers (cl h)) c (CSend q) n Hl) as X. rewrite Hi in X. cbn [wcaller] in X. lia.
    + assert (Hn : (c < n)%nat). { destruct (Nat.lt_ge_cases c n); [assumption|]. rewrite HC in Hi by assumption. discriminate. }
      split.
      * constructor; [exact HJ'|exact HU|]. intros c' X. simpj. rewrite upd_other by lia. apply HC, X.
      * unfold work. simpj. rewrite app_length. pose proof (sumw_upd (callers (cl h)) c (CWait q) n Hn) as X. rewrite Hi in X. cbn [wcaller List.length] in *. lia.
    + split; [constructor; assumption|]. unfold work. simpj. rewrite Hs, Hq. cbn [wsender List.length]. lia.
    + split; [constructor; assumption|]. unfold work. simpj. rewrite Hs. cbn [wsender]. lia.
    + split; [constructor; assumption|]. unfold work. simpj. rewrite Hs. cbn [wsender]. lia.
    + split; [constructor; assumption|]. unfold work. simpj. rewrite Hr, Hv. cbn [wreader wrecv]. lia.
    + destruct (receive_cases true (cl h) b) as [X|(c1 & Y1 & Y2 & _ & Y3)].
      { exfalso. apply (j_doom _ _ HJ'). exact X. }
      rewrite Y3 in *. split; [constructor; assumption|]. unfold work. simpj. rewrite Hv. cbn [wreader wrecv]. lia.
    + assert (Hn : (c < n)%nat). { destruct (Nat.lt_ge_cases c n); [assumption|]. rewrite HC in Hq by assumption. discriminate. }
      split.
      * constructor; [exact HJ'|exact HU|]. intros c' X. simpj. rewrite upd_other by lia. apply HC, X.
      * unfold work. simpj. pose proof (sumw_upd (callers (cl h)) c (CDone q b) n Hn) as X. rewrite Hq in X. rewrite Hv. cbn [wcaller wrecv] in *. lia.
    + split; [constructor; assumption|]. unfold work. simpj. rewrite Hv. cbn [wrecv]. lia.
  - inversion S as [| | | | |c0 t q0 Hc Hs Ec Es| | | | | | | | | | |]; subst.
    split; [constructor; assumption|]. unfold work. simpj. rewrite Hs, app_length. cbn [wsender List.length]. lia.
  - split; [constructor; assumption|]. unfold work. simpj. rewrite Hu, !app_length. cbn [List.length]. lia.
  - inversion S as [| | | | | | |b0 Hc Hr Hlen| | | | | | | | |]; subst.
    split; [constructor; assumption|]. unfold work. simpj. rewrite Hb, Hr. cbn [wreader List.length]. lia.
Qed.
Lemma k_init : K hinit.
Proof. constructor; [apply j_init| |]; reflexivity. Qed.
Lemma wsteps_K k h : wsteps srv n pre k h -> K h /\ (work n h + k = 12 * n)%nat.
Proof.
  induction 1 as [|k h h' _ [IH IH'] S].
  - split; [apply k_init|]. unfold work, hinit, init. simpj. rewrite sumw_init. cbn. lia.
  - destruct (wstep_K h h' IH S) as [X Y]. split; [exact X|lia].
Qed.

(** A call that is not done: something can happen. *)
Lemma progress h c : (forall q, (7 <= List.length q)%nat -> exists a, srv q a) -> (forall c p, In p (pre c) -> (p < c)%nat) ->
  K h -> (c < n)%nat -> ~ done h c -> exists h', wstep srv n pre h h'.
Proof.
  intros HT HP [HJ HU HC] Hc Hd. pose proof HJ as [A B C D E F G H I KK L L' M O PD].
  assert (CL : forall l s', cstep true (cl h) l s' -> (forall c q, l <> LWrite c q) -> (forall b, l <> LRead b) -> l <> LEof -> l <> LFatal ->
     match l with LTag _ | LFid _ => False | LStart c _ => (c < n)%nat /\ forall p, In p (pre c) -> done h p | _ => True end ->
     exists h', wstep srv n pre h h').
  { intros l s' S N1 N2 N3 N4 X. eexists. exists l. split; [apply h_client; eassumption|exact X]. }
  destruct (rcv (cl h)) as [|b| |b t c'|t] eqn:Hv; [|eapply CL; [eapply cs_lookup; eassumption|..]; try discriminate; exact Logic.I|congruence| |].
  2:{ (* deliver *) pose proof (M b t c' eq_refl) as X. destruct (flight_slot srv h t HJ) as (c1 & q & Y1 & Y2 & _).
      { unfold flight. rewrite Hv, !in_app_iff. cbn. tauto. }
      assert (c1 = c') by congruence. subst c1. eapply CL; [eapply cs_deliver; eassumption|..]; try discriminate. exact Logic.I. }
  2:{ (* return *) eapply CL; [eapply cs_return; [exact B|exact Hv|eapply tags_short; eassumption]|..]; try discriminate. exact Logic.I. }
  destruct (rdr (cl h)) as [|b| |] eqn:Hr; try (exfalso; destruct C; congruence).
  2:{ (* pass *) eapply CL; [eapply cs_pass; eassumption|..]; try discriminate; exact Logic.I. }
  destruct (infl h) as [|b rest] eqn:Hi.
  2:{ (* read *) destruct (F b) as (c' & q & X1 & X2). { unfold back. rewrite Hi. left. reflexivity. }
      destruct (G _ _ _ X2) as (_ & X3 & _). eexists. exists (LRead b). split; [eapply h_read; [exact Hi|]|exact Logic.I]. apply cs_read; assumption. }
  destruct (unans h) as [|[c' q] u] eqn:Hu.
  2:{ (* answer *) destruct (E c' q) as (X1 & q0 & X2 & X3). { left. reflexivity. }
      assert (X4 : (7 <= List.length q)%nat).
      { rewrite X2. unfold set_tag. rewrite !app_length. cbn [List.length].
        destruct (Nat.lt_ge_cases (List.length q0) 7) as [Y|Y]; [|rewrite firstn_length, skipn_length; lia].
        specialize (L' c' q0 X3). lia. }
      destruct (HT q X4) as (a & Ha). eexists. exists LTau. split; [eapply (h_answer _ _ _ [] c' q u a); [exact Hu|exact Ha]|exact Logic.I]. }
  assert (HF : forall t, outst (cl h) t = sslot t (snd_ (cl h))).
  { intros t. specialize (D t). unfold flight in D. rewrite Hv, Hr, Hi, Hu in D. cbn [map app rtags vtags] in D. rewrite cnt_nil in D. lia. }
  destruct (snd_ (cl h)) as [|c' q|c' t q|c' t q] eqn:Hs.
  - (* idle *) destruct (queue (cl h)) as [|[c' q] qs] eqn:Hq.
    + assert (HW : forall c' q, callers (cl h) c' <> CWait q).
      { intros c' q X. destruct (i_located _ A c' q X) as [Y|(t & Y)].
        - rewrite Hq, Hs in Y. cbn in Y. lia.
        - specialize (HF t). unfold outst in HF. rewrite Y, X in HF. cbn in HF. lia. }
      destruct (callers (cl h) c) as [|q|q|q r] eqn:Hcc.
      * (* some call has not started *)
        destruct (least_idle (callers (cl h)) n) as (c1 & X1 & X2 & X3); [exists c; split; assumption|].
        assert (Y : (exists p q, (p < c1)%nat /\ callers (cl h) p = CSend q) \/ forall p, (p < c1)%nat -> done h p).
        { clear - X3 HW. induction c1 as [|m IH]; [right; lia|].
          destruct IH as [(p & q & P1 & P2)|P]; [intros p Hp; apply X3; lia|left; exists p, q; split; [lia|exact P2]|].
          destruct (callers (cl h) m) as [|q|q|q r] eqn:X.
          - exfalso. apply (X3 m); [lia|exact X].
          - left. exists m, q. split; [lia|exact X].
          - exfalso. eapply HW, X.
          - right. intros p Hp. destruct (Nat.eq_dec p m) as [->|]; [exists q, r; exact X|apply P; lia]. }
        destruct Y as [(p & q & P1 & P2)|P].
        -- eapply CL; [eapply cs_enqueue; [exact B|exact P2|rewrite Hq; apply numtags_pos]|..]; try discriminate. exact Logic.I.
        -- eapply CL; [eapply (cs_start _ _ c1 (repeat x00 7)); [exact B|exact X2|cbn; lia]|..]; try discriminate.
           split; [exact X1|]. intros p Hp. apply P. apply HP, Hp.
      * eapply CL; [eapply cs_enqueue; [exact B|exact Hcc|rewrite Hq; apply numtags_pos]|..]; try discriminate. exact Logic.I.
      * exfalso. eapply HW, Hcc.
      * exfalso. apply Hd. exists q, r. exact Hcc.
    + eapply CL; [eapply cs_take; eassumption|..]; try discriminate. exact Logic.I.
  - (* needs a tag *) destruct (tags (cl h)) as [|t ts] eqn:Ht.
    + exfalso. pose proof (i_tags _ A 1) as X. rewrite Ht, HU, Hs, Hv, HF in X. cbn [sslot sheld vheld] in X. rewrite cnt_nil in X.
      assert (V : valid 1 = 1%nat) by (apply valid_good; unfold good_tag; lia). lia.
    + eapply CL; [eapply cs_tag; eassumption|..]; try discriminate. exact Logic.I.
  - eapply CL; [eapply cs_slot; eassumption|..]; try discriminate. exact Logic.I.
  - eexists. exists (LWrite c' q). split; [eapply h_write, cs_write; eassumption|exact Logic.I].
Qed.
End W.

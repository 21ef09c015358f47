(** Invariants of the client. *)
From Verif Require Import Base GoBuf CodecPrim Types Codec Server Rpc Client.
Local Opaque NumTags.

Definition cnt (t : N) (l : list N) : nat := count_occ N.eq_dec l t.
Definition cntc (c : nat) (l : list nat) : nat := count_occ Nat.eq_dec l c.
Lemma cnt_app t a b : cnt t (a ++ b) = (cnt t a + cnt t b)%nat. Proof. apply count_occ_app. Qed.
Lemma cnt_cons t x l : cnt t (x :: l) = ((if N.eqb x t then 1 else 0) + cnt t l)%nat.
Proof. unfold cnt. cbn. destruct (N.eq_dec x t), (N.eqb_spec x t); congruence || reflexivity. Qed.
Lemma cnt_nil t : cnt t [] = 0%nat. Proof. reflexivity. Qed.
Lemma cntc_app t a b : cntc t (a ++ b) = (cntc t a + cntc t b)%nat. Proof. apply count_occ_app. Qed.
Lemma cntc_cons t x l : cntc t (x :: l) = ((if Nat.eqb x t then 1 else 0) + cntc t l)%nat.
Proof. unfold cntc. cbn. destruct (Nat.eq_dec x t), (Nat.eqb_spec x t); congruence || reflexivity. Qed.
Lemma cntc_nil t : cntc t [] = 0%nat. Proof. reflexivity. Qed.
Lemma cnt_in t l : In t l <-> (0 < cnt t l)%nat. Proof. apply count_occ_In. Qed.
Lemma cntc_in t l : In t l <-> (0 < cntc t l)%nat. Proof. apply count_occ_In. Qed.

(** Where tags can be besides the pool. *)
Definition sheld (t : N) (x : sender) : nat := match x with STagged _ t' _ => if N.eqb t' t then 1 else 0 | _ => 0 end.
Definition vheld (t : N) (x : recv) : nat := match x with VReturn t' => if N.eqb t' t then 1 else 0 | _ => 0 end.
Definition waiting (x : caller) : nat := match x with CWait _ => 1 | _ => 0 end.
Definition outst (s : cst) (t : N) : nat := match rpc s t with Some c => waiting (callers s c) | None => 0 end.
Definition valid (t : N) : nat := if (1 <=? t) && (t <=? N.of_nat NumTags) then 1 else 0.
(** The call the sender holds that has no slot yet. *)
Definition scall (c : nat) (x : sender) : nat :=
  match x with SCall c' _ | STagged c' _ _ => if Nat.eqb c' c then 1 else 0 | _ => 0 end.

Record Inv (s : cst) : Prop := {
  i_tags : forall t, (cnt t (tags s) + sheld t (snd_ s) + outst s t + vheld t (rcv s) + cnt t (user s) = valid t)%nat;
  i_inj : forall t t' c, rpc s t = Some c -> rpc s t' = Some c -> t = t';
  i_once : forall c, (cntc c (map fst (queue s)) + scall c (snd_ s) <= waiting (callers s c))%nat;
  i_noslot : forall c t, rpc s t = Some c -> (cntc c (map fst (queue s)) + scall c (snd_ s) = 0)%nat;
  i_slot : forall c t, rpc s t = Some c -> valid t = 1%nat /\ (exists q, callers s c = CWait q \/ exists r, callers s c = CDone q r);
  i_deliver : forall b t c q, rcv s = VDeliver b t c -> callers s c = CWait q -> rpc s t = Some c;
  i_deliver_t : forall b t c, rcv s = VDeliver b t c -> t = tag_of b /\ exists q, callers s c = CWait q \/ exists r, callers s c = CDone q r;
  i_located : forall c q, callers s c = CWait q -> (0 < cntc c (map fst (queue s)) + scall c (snd_ s))%nat \/ exists t, rpc s t = Some c
}.

Lemma cnt_all t : cnt t all_tags = valid t.
Proof.
  unfold all_tags, valid.
  assert (G : forall n k, cnt t (map N.of_nat (seq k n)) = if (N.of_nat k <=? t) && (t <? N.of_nat (k + n)) then 1%nat else 0%nat).
  { induction n as [|n IH]; intros k; cbn [seq map].
    - rewrite cnt_nil. destruct (N.leb_spec (N.of_nat k) t), (N.ltb_spec t (N.of_nat (k + 0))); cbn; lia.
    - rewrite cnt_cons, IH.
      destruct (N.eqb_spec (N.of_nat k) t), (N.leb_spec (N.of_nat (S k)) t), (N.ltb_spec t (N.of_nat (S k + n))),
        (N.leb_spec (N.of_nat k) t), (N.ltb_spec t (N.of_nat (k + S n))); cbn; lia. }
  rewrite G. change (N.of_nat 1) with 1. replace (t <? N.of_nat (1 + NumTags)) with (t <=? N.of_nat NumTags); [reflexivity|].
  destruct (N.leb_spec t (N.of_nat NumTags)), (N.ltb_spec t (N.of_nat (1 + NumTags))); lia.
Qed.
Lemma inv_init b : Inv (init b).
Proof.
  constructor; unfold init; cbn [tags snd_ rcv rpc queue callers user map]; try discriminate.
  - intros t. unfold outst. cbn [rpc callers sheld vheld]. rewrite cnt_all, cnt_nil. lia.
  - intros c. cbn. lia.
Qed.

Ltac simp := cbn [tags fid rpc queue callers snd_ rdr rcv user fids crashed sheld vheld scall map fst] in *;
  unfold outst in *; cbn [rpc callers] in *.
Lemma upd_same {A} (f : nat -> A) k v : upd f k v k = v.
Proof. unfold upd. rewrite Nat.eqb_refl. reflexivity. Qed.
Lemma upd_other {A} (f : nat -> A) k v x : x <> k -> upd f k v x = f x.
Proof. unfold upd. destruct (Nat.eqb_spec x k); congruence. Qed.
Lemma updN_same {A} (f : N -> A) k v : updN f k v k = v.
Proof. unfold updN. rewrite N.eqb_refl. reflexivity. Qed.
Lemma updN_other {A} (f : N -> A) k v x : x <> k -> updN f k v x = f x.
Proof. unfold updN. destruct (N.eqb_spec x k); congruence. Qed.
Lemma valid_le t : (valid t <= 1)%nat. Proof. unfold valid. destruct (_ && _); lia. Qed.

Lemma crash_inv s : Inv s -> Inv (crash s).
Proof. intros [A B C D E F F' G]. constructor; assumption. Qed.
Lemma receive_cases tr s b : receive tr s b = VDoomed \/
  exists c, rpc s (tag_of b) = Some c /\ valid (tag_of b) = 1%nat /\ tr = true /\ receive tr s b = VDeliver b (tag_of b) c.
Proof.
  unfold receive. cbv zeta. destruct (N.ltb_spec (tag_of b) 1); [left; reflexivity|].
  destruct (N.leb_spec (N.of_nat NumTags) (tag_of b - 1)); [left; reflexivity|].
  destruct tr; [|left; reflexivity]. destruct (rpc s (tag_of b)) as [c|] eqn:E; [|left; reflexivity].
  right. exists c. repeat split; try assumption. unfold valid.
  destruct (N.leb_spec 1 (tag_of b)), (N.leb_spec (tag_of b) (N.of_nat NumTags)); cbn; lia.
Qed.

Lemma waiting_upd s c v t : waiting (callers s c) = waiting v ->
  match rpc s t with Some c' => waiting (upd (callers s) c v c') | None => 0%nat end = outst s t.
Proof.
  intros H. unfold outst. destruct (rpc s t) as [c'|]; [|reflexivity].
  unfold upd. destruct (Nat.eqb_spec c' c) as [->|]; congruence.
Qed.

Lemma inv_step tr s l s' : Inv s -> cstep tr s l s' -> Inv s'.
Proof.
  intros I S. destruct S as
    [c q Hc Hi Hq|c q Hc Hi Hq|c q qs Hc Hs Hq|c q t ts Hc Hs Ht|c t q Hc Hs|c t q Hc Hs|c t q Hc Hs|b Hc Hr Hb|Hc Hr
    |b Hc Hr Hv|b Hc Hv|Hc Hv|Hc Hr Hv|b t c q Hc Hv Hq|t Hc Hv Hl|t ts Hc Ht|Hc n]; try (apply crash_inv; exact I);
    destruct I as [A B C D E F F' G].
  - (* start *) constructor; simp.
    + intros t. rewrite waiting_upd; [apply A|]. rewrite Hi. reflexivity.
    + exact B.
    + intros c'. specialize (C c'). unfold upd. destruct (Nat.eqb_spec c' c) as [->|]; [|exact C]. rewrite Hi in C. exact C.
    + exact D.
    + intros c' t H. destruct (E c' t H) as [V X]. split; [exact V|]. unfold upd. destruct (Nat.eqb_spec c' c) as [->|]; [|exact X].
      exfalso. destruct X as (q' & [X|(r & X)]); congruence.
    + intros b t c' q' H. unfold upd. destruct (Nat.eqb_spec c' c) as [->|]; [discriminate|]. apply F with (1 := H).
    + intros b t c' H. destruct (F' b t c' H) as [X Y]. split; [exact X|]. rewrite upd_other; [exact Y|].
      intros ->. destruct Y as (q' & [Y|(r & Y)]); congruence.
    + intros c' q'. unfold upd. destruct (Nat.eqb_spec c' c) as [->|]; [discriminate|]. apply G.
  - (* enqueue *)
    assert (Hns : forall t, rpc s t <> Some c).
    { intros t H. destruct (E c t H) as [_ (q' & [X|(r & X)])]; congruence. }
    constructor; simp.
    + intros t. specialize (A t). destruct (rpc s t) as [c'|] eqn:R; [|exact A].
      rewrite upd_other by (intros ->; eapply Hns, R). exact A.
    + exact B.
    + intros c'. specialize (C c'). rewrite map_app, cntc_app. cbn [map fst]. rewrite cntc_cons, cntc_nil.
      unfold upd. rewrite (Nat.eqb_sym c c'). destruct (Nat.eqb_spec c' c) as [->|]; [|lia]. rewrite Hi in C. cbn [waiting] in *. lia.
    + intros c' t H. rewrite map_app, cntc_app. cbn [map fst]. rewrite cntc_cons, cntc_nil.
      destruct (Nat.eqb_spec c c') as [->|]; [exfalso; eapply Hns, H|]. specialize (D c' t H). lia.
    + intros c' t H. destruct (E c' t H) as [V X]. split; [exact V|]. rewrite upd_other; [exact X|]. intros ->. eapply Hns, H.
    + intros b t c' q' H. unfold upd. destruct (Nat.eqb_spec c' c) as [->|]; [|apply F with (1 := H)].
      exfalso. destruct (F' b t c H) as [_ (q1 & [X|(r & X)])]; congruence.
    + intros b t c' H. destruct (F' b t c' H) as [X Y]. split; [exact X|]. unfold upd.
      destruct (Nat.eqb_spec c' c) as [->|]; [exists q; left; reflexivity|exact Y].
    + intros c' q'. rewrite map_app, cntc_app. cbn [map fst]. rewrite cntc_cons, cntc_nil. unfold upd.
      rewrite (Nat.eqb_sym c c'). destruct (Nat.eqb_spec c' c) as [->|]; [intros _; left; lia|]. intros H.
      destruct (G c' q' H) as [X|X]; [left; lia|right; exact X].
  - (* take *) rewrite Hs, Hq in *. constructor; simp; try assumption.
    + intros c'. specialize (C c'). rewrite cntc_cons in C. lia.
    + intros c' t H. specialize (D c' t H). rewrite cntc_cons in D. lia.
    + intros c' q' H. destruct (G c' q' H) as [X|X]; [left; rewrite cntc_cons in X; lia|right; exact X].
  - (* tag *) rewrite Hs, Ht in *. constructor; simp; try assumption.
    intros t'. specialize (A t'). rewrite cnt_cons in A. lia.
  - (* slot *) rewrite Hs in *. simp.
    assert (Hns : forall t', rpc s t' <> Some c).
    { intros t' H. specialize (D c t' H). rewrite Nat.eqb_refl in D. lia. }
    assert (Hw : waiting (callers s c) = 1%nat).
    { specialize (C c). rewrite Nat.eqb_refl in C. destruct (callers s c); cbn in *; lia. }
    assert (Ht : valid t = 1%nat).
    { specialize (A t). rewrite N.eqb_refl in A. pose proof (valid_le t). lia. }
    assert (Ho : match rpc s t with Some c0 => waiting (callers s c0) | None => 0%nat end = 0%nat).
    { specialize (A t). rewrite N.eqb_refl in A. lia. }
    constructor; simp.
    + intros t'. specialize (A t'). unfold updN. rewrite (N.eqb_sym t t') in A. destruct (N.eqb_spec t' t) as [X|]; [subst t'|lia].
      rewrite Ho in A. rewrite Hw. lia.
    + intros t1 t2 c'. unfold updN. destruct (N.eqb_spec t1 t) as [->|], (N.eqb_spec t2 t) as [->|]; intros H1 H2; try reflexivity.
      * injection H1 as <-. exfalso. eapply Hns, H2.
      * injection H2 as <-. exfalso. eapply Hns, H1.
      * eapply B; eassumption.
    + intros c'. specialize (C c'). lia.
    + intros c' t'. unfold updN. destruct (N.eqb_spec t' t) as [->|].
      * intros X. injection X as <-. specialize (C c). rewrite Nat.eqb_refl in C. lia.
      * intros H. specialize (D c' t' H). lia.
    + intros c' t'. unfold updN. destruct (N.eqb_spec t' t) as [->|]; [|apply E].
      intros X. injection X as <-. split; [exact Ht|]. destruct (callers s c) eqn:X; cbn in Hw; try discriminate. eauto.
    + intros b t' c' q' H H'. unfold updN. pose proof (F b t' c' q' H H') as X. destruct (N.eqb_spec t' t) as [->|]; [|exact X].
      exfalso. rewrite X, H' in Ho. discriminate.
    + exact F'.
    + intros c' q' H. destruct (Nat.eq_dec c' c) as [->|Hne]; [right; exists t; apply updN_same|].
      destruct (G c' q' H) as [X|(t' & X)].
      * left. destruct (Nat.eqb_spec c c'); [congruence|lia].
      * right. exists t'. rewrite updN_other; [exact X|]. intros ->. rewrite X, H in Ho. discriminate.
  - (* write *) rewrite Hs in *. constructor; simp; assumption.
  - (* read *) constructor; simp; assumption.
  - (* eof *) constructor; simp; assumption.
  - (* pass *) rewrite Hv in *. constructor; simp; try assumption; discriminate.
  - (* lookup *) rewrite Hv in *. destruct (receive_cases tr s b) as [->|(c & Hr1 & Hr2 & Hr3 & ->)]; constructor; simp; try assumption; try discriminate.
    + intros b' t c' q' X. injection X as <- <- <-. intros _. exact Hr1.
    + intros b' t c' X. injection X as <- <- <-. split; [reflexivity|]. apply (E c _ Hr1).
  - (* deliver *)
    pose proof (F b t c q Hv Hq) as Hr. destruct (F' b t c Hv) as [Htag _]. rewrite Hv in *. simp.
    constructor; simp.
    + intros t'. specialize (A t'). destruct (N.eqb_spec t t') as [<-|Hne].
      * rewrite Hr in *. rewrite upd_same, Hq in *. cbn [waiting] in *. lia.
      * destruct (rpc s t') as [c'|] eqn:X; [|lia]. rewrite upd_other; [lia|]. intros ->. apply Hne. eapply B; eassumption.
    + exact B.
    + intros c'. specialize (C c'). specialize (D c t Hr). unfold upd. destruct (Nat.eqb_spec c' c) as [->|]; [cbn; lia|exact C].
    + exact D.
    + intros c' t' H. destruct (E c' t' H) as [V X]. split; [exact V|]. unfold upd.
      destruct (Nat.eqb_spec c' c) as [->|]; [exists q; right; exists b; reflexivity|exact X].
    + discriminate.
    + discriminate.
    + intros c' q'. unfold upd. destruct (Nat.eqb_spec c' c) as [->|]; [discriminate|]. apply G.
  - (* return *) rewrite Hv in *. simp. constructor; simp; try assumption; try discriminate.
    intros t'. specialize (A t'). rewrite cnt_app, cnt_cons, cnt_nil. lia.
  - (* gettag *) rewrite Ht in *. constructor; simp; try assumption.
    intros t'. specialize (A t'). rewrite cnt_cons in *. lia.
  - (* getfid *) constructor; simp; assumption.
Qed.
Lemma inv_steps tr hn ls s : csteps tr (init hn) ls s -> Inv s.
Proof. induction 1 as [|ls s1 l s2 _ IH S]; [apply inv_init|eapply inv_step; eassumption]. Qed.

(** Fids, disconnection, hostile servers, tracing, packets. *)
From Verif Require Import Base GoBuf CodecPrim Types Codec Msgs CodecSpec MsgThm CodecLemmas CodecLemmas2 CodecLemmas3 CodecLemmas4 StubPrim Stubs
  Server ServerSpec ServerLemmas ServerLemmas2 ServerLemmas3 Rpc ServerLemmas4
  Client ClientSpec ClientLemmas ClientLemmas2 ClientLemmas3 ClientLemmas4.

(** * Fids *)
Definition nth_fid (k : nat) : N := (N.of_nat k + 2) mod 4294967296.
Lemma fid_inv tr hn ls s : csteps tr (init hn) ls s ->
  fids s = map nth_fid (seq 0 (List.length (fids s))) /\ fid s = (N.of_nat (List.length (fids s)) + 1) mod 18446744073709551616.
Proof.
  induction 1 as [|ls s1 l s2 _ [IH IH'] S]; [split; reflexivity|].
  destruct S; try (split; [exact IH|exact IH']).
  - simpj. rewrite app_length, Nat.add_1_r, seq_S, map_app. cbn [map Nat.add]. split.
    + rewrite <- IH. f_equal. f_equal. subst n. unfold nth_fid. rewrite IH'.
      rewrite N.add_mod_idemp_l by discriminate.
      replace 18446744073709551616 with (4294967296 * 4294967296) by reflexivity.
      rewrite N.mod_mul_r by discriminate.
      rewrite (N.mul_comm 4294967296 (_ mod _)), N.mod_add by discriminate.
      rewrite N.mod_mod by discriminate. f_equal. lia.
    + subst n. rewrite IH'. rewrite N.add_mod_idemp_l by discriminate. f_equal. lia.
Qed.
Lemma fids_run tr hn k : exists ls s, csteps tr (init hn) ls s /\ crashed s = false /\ List.length (fids s) = k.
Proof.
  induction k as [|k (ls & s & A & B & C)].
  - exists [], (init hn). repeat split. constructor.
  - eexists _, _. split; [eapply css_snoc; [exact A|apply cs_getfid; exact B]|]. split; [reflexivity|].
    simpj. rewrite app_length. cbn. lia.
Qed.
Lemma fids_distinct tr hn ls s : csteps tr (init hn) ls s -> N.of_nat (List.length (fids s)) <= 4294967293 ->
  NoDup (fids s) /\ ~ In 4294967295 (fids s).
Proof.
  intros H L. destruct (fid_inv _ _ _ _ H) as [E _]. revert E L. generalize (List.length (fids s)) as k. intros k -> L.
  assert (F : forall i, (i < k)%nat -> nth_fid i = N.of_nat i + 2) by (intros i Hi; unfold nth_fid; apply N.mod_small; lia).
  split.
  - assert (G : forall j n, (j + n <= k)%nat -> NoDup (map nth_fid (seq j n))).
    { intros j n. revert j. induction n as [|n IH]; intros j Hj; cbn [seq map]; constructor.
      - rewrite in_map_iff. intros (x & X & Y). apply in_seq in Y. rewrite !F in X by lia. lia.
      - apply IH. lia. }
    apply G. lia.
  - rewrite in_map_iff. intros (x & X & Y). apply in_seq in Y. rewrite F in X by lia. lia.
Qed.
Lemma fids_nofid : ~ (forall tr hn ls s, csteps tr (init hn) ls s -> ~ In 4294967295 (fids s)).
Proof.
  intros H. destruct (fids_run true true (N.to_nat 4294967294)) as (ls & s & A & _ & C).
  apply (H _ _ _ _ A). destruct (fid_inv _ _ _ _ A) as [E _]. rewrite E, C.
  apply in_map_iff. exists (N.to_nat 4294967293). split; [|apply in_seq; lia].
  unfold nth_fid. rewrite N2Nat.id. reflexivity.
Qed.
Lemma fids_repeat : ~ (forall tr hn ls s, csteps tr (init hn) ls s -> NoDup (fids s)).
Proof.
  intros H. destruct (fids_run true true (N.to_nat 4294967297)) as (ls & s & A & _ & C).
  specialize (H _ _ _ _ A). destruct (fid_inv _ _ _ _ A) as [E _]. rewrite C in E.
  assert (G : forall k, k < 4294967297 -> nth_error (fids s) (N.to_nat k) = Some ((k + 2) mod 4294967296)).
  { intros k Hk. rewrite E. erewrite map_nth_error.
    2:{ rewrite (nth_error_nth' _ 0%nat) by (rewrite seq_length; lia). rewrite seq_nth by lia. reflexivity. }
    unfold nth_fid. cbn [Nat.add]. rewrite N2Nat.id. reflexivity. }
  pose proof (G 0 eq_refl) as X0. pose proof (G 4294967296 eq_refl) as X1. change (N.to_nat 0) with 0%nat in X0.
  change ((0 + 2) mod 4294967296) with 2 in X0. change ((4294967296 + 2) mod 4294967296) with 2 in X1.
  rewrite NoDup_nth_error in H. specialize (H 0%nat (N.to_nat 4294967296)).
  assert (0%nat = N.to_nat 4294967296) by (apply H; [apply nth_error_Some; rewrite X0; discriminate|rewrite X0, X1; reflexivity]). lia.
Qed.

Local Opaque NumTags.

(** * Replies come from the network *)
Lemma reply_read tr hn ls s : csteps tr (init hn) ls s ->
  (forall b, rdr s = RHave b -> In (LRead b) ls) /\ (forall b t c, rcv s = VHave b \/ rcv s = VDeliver b t c -> In (LRead b) ls) /\
  (forall c q r, callers s c = CDone q r -> In (LRead r) ls) /\ (In LEof ls -> rdr s = RClosed).
Proof.
  assert (IL : forall (x l : lbl) ls, In x ls -> In x (ls ++ [l])) by (intros; apply in_app_iff; left; assumption).
  assert (SN : forall (x l : lbl) ls, In x (ls ++ [l]) -> x <> l -> In x ls).
  { intros x l ls0 X N. apply in_app_iff in X. destruct X as [X|[X|[]]]; [exact X|congruence]. }
  induction 1 as [|ls s1 l s2 _ (A & B & C & D) S].
  - unfold init. simpj. repeat split; try discriminate; [destruct hn; discriminate|intros b t c [X|X]; discriminate|intros []].
  - assert (ID : crash s1 = s2 -> l <> LEof -> (forall b, rdr s2 = RHave b -> In (LRead b) (ls ++ [l])) /\ (forall b t c, rcv s2 = VHave b \/ rcv s2 = VDeliver b t c -> In (LRead b) (ls ++ [l])) /\
  (forall c q r, callers s2 c = CDone q r -> In (LRead r) (ls ++ [l])) /\ (In LEof (ls ++ [l]) -> rdr s2 = RClosed)).
    { intros <- NE. unfold crash. simpj. split; [|split; [|split]].
      - intros b H. apply IL, A, H.
      - intros b t c H. eapply IL, B, H.
      - intros c q r H. eapply IL, C, H.
      - intros H. apply D. eapply SN; [exact H|]. congruence. }
    destruct S; try (apply ID; [reflexivity|discriminate]); simpj.
    all: try (split; [|split; [|split]]; [try discriminate; intros b' X; eapply IL, A, X|intros b' t' c' X; try (destruct X; discriminate); eapply IL, B, X|
       intros c' q' r' X; first [solve [apply IL; eapply C, X]|unfold upd in X; destruct (Nat.eqb c' c); [discriminate|apply IL; eapply C, X]]|
       intros X; apply D; eapply SN; [exact X|discriminate]]).
    + (* read *) split; [|split; [|split]].
      * intros b' X. injection X as <-. apply in_app_iff. right. left. reflexivity.
      * intros b' t' c' X. eapply IL, B, X.
      * intros c' q' r' X. eapply IL, C, X.
      * intros X. exfalso. enough (rdr s1 = RClosed) by congruence. apply D. eapply SN; [exact X|discriminate].
    + (* eof *) split; [|split; [|split]].
      * discriminate.
      * intros b' t' c' X. eapply IL, B, X.
      * intros c' q' r' X. eapply IL, C, X.
      * reflexivity.
    + (* pass *) split; [|split; [|split]].
      * discriminate.
      * intros b' t' c' [Y|Y]; [|discriminate]. injection Y as <-. apply IL, A, H0.
      * intros c' q' r' Y. eapply IL, C, Y.
      * intros Y. exfalso. enough (rdr s1 = RClosed) by congruence. apply D. eapply SN; [exact Y|discriminate].
    + (* lookup *) split; [|split; [|split]].
      * intros b' X. eapply IL, A, X.
      * intros b' t' c' Y. destruct (receive_cases tr s1 b) as [X|(c & _ & _ & _ & X)]; rewrite X in *; destruct Y as [Y|Y]; try discriminate.
        injection Y as <- <- <-. apply IL. eapply (B b 0 0%nat). left. exact H0.
      * intros c' q' r' Y. eapply IL, C, Y.
      * intros X. apply D. eapply SN; [exact X|discriminate].
    + (* deliver *) split; [|split; [|split]].
      * intros b' X. eapply IL, A, X.
      * intros b' t' c' [X|X]; discriminate.
      * intros c' q' r'. unfold upd. destruct (Nat.eqb c' c); [|intros X; eapply IL, C, X]. intros X. injection X as <- <-.
        eapply IL, B. right. exact H0.
      * intros X. apply D. eapply SN; [exact X|discriminate].
Qed.

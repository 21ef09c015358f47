(** The client model at a server that answers one request after the other. *)
From Verif Require Import Base GoBuf CodecPrim CodecLemmas Types Codec Msgs CodecSpec StubPrim Stubs Server ServerSpec ServerLemmas4 Rpc
  Client ClientSpec ClientLemmas ClientLemmas2 ClientLemmas3 ClientLemmas4 ClientLemmas7 ClientRunSim ClientHist NetRun.
Local Opaque NumTags all_tags.

Definition tagged (q a : bytes) : Prop := (7 <= List.length a)%nat /\ tag_of a = tag_of q.
Lemma tagged_answers : answers_with_tag tagged. Proof. intros q a H. exact H. Qed.
Definition cwrites (ls : list lbl) : list (nat * bytes) := flat_map (fun l => match l with LWrite c b => [(c, b)] | _ => [] end) ls.
Lemma cwrites_app a b : cwrites (a ++ b) = cwrites a ++ cwrites b. Proof. apply flat_map_app. Qed.
Lemma writes_app a b : writes (a ++ b) = writes a ++ writes b. Proof. apply flat_map_app. Qed.
Lemma writes_c ls : writes ls = map snd (cwrites ls).
Proof. induction ls as [|l ls IH]; [reflexivity|]. destruct l; try exact IH. cbn. f_equal. exact IH. Qed.
Lemma writes_seen ls : writes (seen ls) = writes ls.
Proof. induction ls as [|l ls IH]; [reflexivity|]. change (l :: ls) with ([l] ++ ls). rewrite seen_app, !writes_app, IH. f_equal. destruct l; reflexivity. Qed.
(** Every packet read is the answer to the first request that had none: it has the tag of that request. *)
Definition causal (ls : list lbl) : Prop := forall la b lb, ls = la ++ LRead b :: lb ->
  exists w, nth_error (writes la) (List.length (reads la)) = Some w /\ tagged w b.
Lemma causal_prefix a b : causal (a ++ b) -> causal a.
Proof. intros H la x lb ->. apply (H la x (lb ++ b)). rewrite <- app_assoc. reflexivity. Qed.

Fixpoint zip (cw : list (nat * bytes)) (rs : list bytes) : list (nat * (bytes * bytes)) :=
  match cw, rs with (c, w) :: cw, r :: rs => (c, (w, r)) :: zip cw rs | _, _ => [] end.
Lemma zip_snoc cw : forall rs c w b, nth_error cw (List.length rs) = Some (c, w) -> zip cw (rs ++ [b]) = zip cw rs ++ [(c, (w, b))].
Proof.
  induction cw as [|[c0 w0] cw IH]; intros rs c w b H; [destruct rs; discriminate H|]. destruct rs as [|r rs]; cbn in *.
  - injection H as -> ->. destruct cw as [|[]]; reflexivity.
  - f_equal. apply IH, H.
Qed.
Lemma zip_more cw : forall rs x, (List.length rs <= List.length cw)%nat -> zip (cw ++ x) rs = zip cw rs.
Proof.
  induction cw as [|[c0 w0] cw IH]; intros rs x H.
  - destruct rs; [|cbn in H; lia]. destruct x as [|[]]; reflexivity.
  - destruct rs as [|r rs]; cbn in *; [reflexivity|]. f_equal. apply IH. lia.
Qed.
Lemma zip_in cw : forall rs c w r, In (c, (w, r)) (zip cw rs) -> exists k, nth_error cw k = Some (c, w) /\ nth_error rs k = Some r.
Proof.
  induction cw as [|[c0 w0] cw IH]; intros rs c w r H; [contradiction|]. destruct rs as [|r0 rs]; [contradiction|]. destruct H as [H|H].
  - injection H as <- <- <-. exists 0%nat. auto.
  - destruct (IH _ _ _ _ H) as (k & A & B). exists (S k). auto.
Qed.
Lemma zip_fst cw : forall rs, map fst (zip cw rs) = firstn (List.length rs) (map fst cw).
Proof.
  induction cw as [|[c0 w0] cw IH]; intros rs; [destruct rs; reflexivity|]. destruct rs as [|r0 rs]; [reflexivity|]. cbn. f_equal. apply IH.
Qed.

Definition closed (s : cst) : cst := mkC (tags s) (fid s) (rpc s) (queue s) (callers s) (snd_ s) RClosed (rcv s) (user s) (fids s) (crashed s).
Definition plain (l : lbl) : Prop := (forall b, l <> LRead b) /\ l <> LEof /\ l <> LFatal.
Lemma closed_step s l s2 : cstep true (closed s) l s2 -> rdr s = RRead ->
  (crashed s2 = true /\ callers s2 = callers s /\ (l = LFatal \/ l = LCrash)) \/
  (plain l /\ exists s', cstep true s l s' /\ s2 = closed s' /\ rdr s' = RRead).
Proof.
  intros S Hr. destruct S as
    [c q Hc Hi Hq|c q Hc Hi Hq|c q qs Hc Hs Hq|c q t ts Hc Hs Ht|c t q Hc Hs|c t q Hc Hs|c t q Hc Hs|b Hc Hr' Hb|Hc Hr'
    |b Hc Hr' Hv|b Hc Hv|Hc Hv|Hc Hr' Hv|b t c q Hc Hv Hq|t Hc Hv Hl'|t ts Hc Ht|Hc m]; unfold closed in *; cbn [tags fid rpc queue callers snd_ rdr rcv user fids crashed crash] in *;
    try discriminate; try (left; split; [reflexivity|]; split; [reflexivity|]; auto; fail);
    right; (split; [repeat split; discriminate|]).
  - eexists. split; [eapply cs_start; eassumption|]. split; [reflexivity|exact Hr].
  - eexists. split; [eapply cs_enqueue; eassumption|]. split; [reflexivity|exact Hr].
  - eexists. split; [eapply cs_take; eassumption|]. split; [reflexivity|exact Hr].
  - eexists. split; [eapply cs_tag; eassumption|]. split; [reflexivity|exact Hr].
  - eexists. split; [eapply cs_slot; eassumption|]. split; [reflexivity|exact Hr].
  - eexists. split; [eapply cs_write; eassumption|]. split; [reflexivity|exact Hr].
  - eexists. split; [eapply cs_lookup; eassumption|]. split; [reflexivity|exact Hr].
  - eexists. split; [eapply cs_deliver; eassumption|]. split; [reflexivity|exact Hr].
  - eexists. split; [eapply cs_return; eassumption|]. split; [reflexivity|exact Hr].
  - eexists. split; [eapply cs_gettag; eassumption|]. split; [reflexivity|exact Hr].
  - eexists. split; [eapply cs_getfid; eassumption|]. split; [reflexivity|exact Hr].
Qed.
Lemma classic_lbl l : (plain l /\ forall c q, l <> LWrite c q) \/ (exists b, l = LRead b) \/ l = LEof \/ l = LFatal \/ exists c q, l = LWrite c q.
Proof. unfold plain. destruct l; try (left; repeat split; discriminate); right; eauto 6. Qed.
Lemma skipn_nth {A} (l : list A) n x : nth_error l n = Some x -> skipn n l = x :: skipn (S n) l.
Proof. revert l. induction n as [|n IH]; intros [|y l] H; try discriminate H; cbn in *; [congruence|]. apply IH, H. Qed.

Record in_order (ls : list lbl) (k : cst) (h : hst) : Prop := {
  io_reach : hreach true tagged h;
  io_infl : infl h = [];
  io_len : (List.length (reads ls) <= List.length (cwrites ls))%nat;
  io_unans : unans h = skipn (List.length (reads ls)) (cwrites ls);
  io_answered : answered h = List.rev (zip (cwrites ls) (reads ls));
  io_callers : callers (cl h) = callers k;
  io_client : crashed k = false -> cl h = k \/ In LEof ls /\ rdr (cl h) = RRead /\ k = closed (cl h);
  io_same : ~ In LEof ls -> ~ In LFatal ls -> cl h = k
}.
Lemma cstep_alive tr s l s' : cstep tr s l s' -> crashed s = false.
Proof. destruct 1; assumption. Qed.
Theorem inorder ls k : csteps true (init true) ls k -> causal ls -> exists h, in_order ls k h.
Proof.
  induction 1 as [|ls s1 l s2 R IH Sx]; intros HC.
  { exists hinit. constructor; try reflexivity; [constructor|left; reflexivity]. }
  destruct (IH (causal_prefix _ _ HC)) as (h & [A B D E F G H I]). clear IH.
  pose proof (cstep_alive _ _ _ _ Sx) as Ha. specialize (H Ha).
  assert (NI : forall x, ~ In x (ls ++ [l]) -> ~ In x ls /\ l <> x) by (intros x Hx; rewrite in_app_iff in Hx; cbn in Hx; split; [tauto|intros ->; tauto]).
  (* the ordinary steps *)
  assert (Other : plain l -> (forall c q, l <> LWrite c q) -> forall s', cstep true (cl h) l s' -> callers s' = callers s2 ->
    (crashed s2 = false -> s' = s2 \/ In LEof (ls ++ [l]) /\ rdr s' = RRead /\ s2 = closed s') -> (cl h = s1 -> s' = s2) -> exists h', in_order (ls ++ [l]) s2 h').
  { intros (P1 & P2 & P3) P4 s' S' Ec Hs Hs'.
    assert (Er : reads (ls ++ [l]) = reads ls) by (rewrite reads_app; destruct l; try apply app_nil_r; destruct (P1 b); reflexivity).
    assert (Ew : cwrites (ls ++ [l]) = cwrites ls) by (rewrite cwrites_app; destruct l; try apply app_nil_r; destruct (P4 c q); reflexivity).
    exists (mkH s' (unans h) (infl h) (answered h)). constructor; cbn [cl unans infl answered]; rewrite ?Er, ?Ew; try assumption.
    - eapply hr_step; [exact A|]. exact (h_client true tagged h l s' S' P4 P1 P2 P3).
    - intros N1 N2. apply NI in N1. apply NI in N2. apply Hs', I; tauto. }
  assert (Write : forall c q, l = LWrite c q -> forall s', cstep true (cl h) l s' -> callers s' = callers s2 ->
    (crashed s2 = false -> s' = s2 \/ In LEof (ls ++ [l]) /\ rdr s' = RRead /\ s2 = closed s') -> (cl h = s1 -> s' = s2) -> exists h', in_order (ls ++ [l]) s2 h').
  { intros c q -> s' S' Ec Hs Hs'.
    assert (Er : reads (ls ++ [LWrite c q]) = reads ls) by (rewrite reads_app; apply app_nil_r).
    assert (Ew : cwrites (ls ++ [LWrite c q]) = cwrites ls ++ [(c, q)]) by (rewrite cwrites_app; reflexivity).
    exists (mkH s' (unans h ++ [(c, q)]) (infl h) (answered h)). constructor; cbn [cl unans infl answered]; rewrite ?Er, ?Ew; try assumption.
    - eapply hr_step; [exact A|]. exact (h_write true tagged h c q s' S').
    - rewrite app_length. lia.
    - rewrite E, skipn_app. f_equal. replace (_ - _)%nat with 0%nat by lia. reflexivity.
    - rewrite zip_more by exact D. exact F.
    - intros N1 N2. apply NI in N1. apply NI in N2. apply Hs', I; tauto. }
  (* nothing more can happen *)
  assert (Dead : (l = LFatal \/ l = LCrash) -> crashed s2 = true -> callers s2 = callers s1 -> (l = LCrash -> cl h <> s1) -> exists h', in_order (ls ++ [l]) s2 h').
  { intros Hl Hd Ec Hn. 
    assert (Er : reads (ls ++ [l]) = reads ls) by (rewrite reads_app; destruct Hl; subst; apply app_nil_r).
    assert (Ew : cwrites (ls ++ [l]) = cwrites ls) by (rewrite cwrites_app; destruct Hl; subst; apply app_nil_r).
    exists h. constructor; rewrite ?Er, ?Ew; try assumption; try congruence.
    intros N1 N2. apply NI in N1. apply NI in N2. destruct Hl as [->| ->]; [destruct N2 as [_ N2]; destruct N2; reflexivity|].
    exfalso. apply (Hn eq_refl), I; tauto. }
  destruct H as [H|(Hin & Hr & Hk)].
  - subst s1. destruct (classic_lbl l) as [Hp|[(b & ->)|[->|[->|(c & q & ->)]]]].
    + destruct Hp as [Hp Hw]. apply (Other Hp Hw s2 Sx eq_refl); auto.
    + (* a packet *)
      destruct (HC ls b [] eq_refl) as (w & Hw & Ht). rewrite writes_c, nth_error_map in Hw.
      destruct (nth_error (cwrites ls) (List.length (reads ls))) as [[c w']|] eqn:Ew; [|discriminate Hw]. injection Hw as ->.
      pose proof (skipn_nth _ _ _ Ew) as Es.
      assert (Er : reads (ls ++ [LRead b]) = reads ls ++ [b]) by (rewrite reads_app; reflexivity).
      assert (Ec : cwrites (ls ++ [LRead b]) = cwrites ls) by (rewrite cwrites_app; apply app_nil_r).
      exists (mkH s2 (skipn (S (List.length (reads ls))) (cwrites ls)) [] ((c, (w, b)) :: answered h)).
      constructor; cbn [cl unans infl answered]; rewrite ?Er, ?Ec; try reflexivity.
      * rewrite Es in E. eapply hr_step; [eapply hr_step; [exact A|]|].
        -- apply (h_answer _ _ _ [] c w _ b E Ht).
        -- rewrite B. cbn [app]. apply (h_read true tagged (mkH (cl h) (skipn (S (List.length (reads ls))) (cwrites ls)) [b] ((c, (w, b)) :: answered h)) b []); [reflexivity|exact Sx].
      * rewrite app_length. cbn. pose proof (proj1 (nth_error_Some (cwrites ls) (List.length (reads ls))) ltac:(congruence)). lia.
      * rewrite app_length. cbn [List.length]. rewrite Nat.add_1_r. reflexivity.
      * rewrite (zip_snoc _ _ _ _ _ Ew), rev_app_distr. cbn. f_equal. exact F.
      * left. reflexivity.
    + (* the end *)
      assert (Er : reads (ls ++ [LEof]) = reads ls) by (rewrite reads_app; apply app_nil_r).
      assert (Ew : cwrites (ls ++ [LEof]) = cwrites ls) by (rewrite cwrites_app; apply app_nil_r).
      inversion Sx as [| | | | | | | |Hc Hrd| | | | | | | |]; subst.
      exists h. constructor; rewrite ?Er, ?Ew; try assumption.
      * intros _. right. split; [apply in_app_iff; right; left; reflexivity|]. split; [exact Hrd|]. unfold closed. rewrite Hc. reflexivity.
      * intros N1. exfalso. apply N1, in_app_iff. right. left. reflexivity.
    + inversion Sx; subst. apply Dead; auto. discriminate.
    + apply (Write c q eq_refl s2 Sx eq_refl); auto.
  - subst s1. assert (Eof : In LEof (ls ++ [l])) by (apply in_app_iff; tauto).
    assert (Ne : cl h <> closed (cl h)) by (intros X; apply (f_equal rdr) in X; rewrite Hr in X; discriminate X).
    destruct (closed_step _ _ _ Sx Hr) as [(X1 & X2 & X3)|(Hp & s' & S' & -> & Hr')].
    + apply Dead; auto.
    + destruct (classic_lbl l) as [[_ Hw]|[(b & ->)|[->|[->|(c & q & ->)]]]].
      * apply (Other Hp Hw s' S' eq_refl); [right; auto|intros X; destruct (Ne X)].
      * destruct Hp as (X & _). destruct (X b). reflexivity.
      * destruct Hp as (_ & X & _). destruct X. reflexivity.
      * destruct Hp as (_ & _ & X). destruct X. reflexivity.
      * apply (Write c q eq_refl s' S' eq_refl); [right; auto|intros X; destruct (Ne X)].
Qed.

Lemma csteps_prefix tr s a b k : csteps tr s (a ++ b) k -> exists k', csteps tr s a k'.
Proof.
  revert k. induction b as [|x b IH] using List.rev_ind; intros k H; [rewrite app_nil_r in H; exists k; exact H|].
  rewrite app_assoc in H. apply snoc_inv in H. destruct H as (k1 & H & _). exact (IH _ H).
Qed.
Lemma starts_app c a b : starts c (a ++ b) = starts c a ++ starts c b. Proof. apply flat_map_app. Qed.
Lemma dones_app c a b : dones c (a ++ b) = dones c a ++ dones c b. Proof. apply flat_map_app. Qed.
Section Model.
Context (ls : list lbl) (k : cst) (R : csteps true (init true) ls k) (HC : causal ls).
(** What has been written is the request of a call with a tag in it. *)
Lemma written c w : In (c, w) (cwrites ls) -> exists q, w = set_tag (tag_of w) q /\ good_tag (tag_of w) /\ starts c ls = [q].
Proof.
  intros Hw. destruct (inorder ls k R HC) as (h & [A B D E F G _ _]). pose proof (j_reach tagged tagged_answers h A) as HJ.
  destruct (hist _ _ _ _ R) as (Hs & _). specialize (Hs c). rewrite <- G in Hs.
  rewrite <- (firstn_skipn (List.length (reads ls)) (cwrites ls)) in Hw. apply in_app_or in Hw. destruct Hw as [Hw|Hw].
  - assert (X : exists a, In (c, (w, a)) (answered h)).
    { rewrite F. clear - Hw D. setoid_rewrite <- in_rev. revert Hw D. generalize (reads ls) as rs. induction (cwrites ls) as [|[c0 w0] cw IH]; intros rs Hw D.
      - rewrite firstn_nil in Hw. contradiction Hw.
      - destruct rs as [|r rs]; [contradiction Hw|]. cbn in Hw, D. destruct Hw as [Hw|Hw].
        + injection Hw as <- <-. exists r. left. reflexivity.
        + destruct (IH rs Hw ltac:(lia)) as (a & X). exists a. right. exact X. }
    destruct X as (a & X). destruct (j_log _ _ HJ _ _ _ X) as (_ & _ & _ & G4 & q & G5 & G6). exists q. split; [exact G5|]. split; [exact G4|].
    rewrite Hs. destruct G6 as [-> | ->]; reflexivity.
  - rewrite <- E in Hw. destruct (j_unans _ _ HJ _ _ Hw) as (_ & q & E1 & E2). exists q. split; [exact E1|]. split.
    + destruct (flight_slot tagged h (tag_of w) HJ) as (_ & _ & _ & _ & X); [|exact X]. unfold flight. rewrite !in_app_iff. left.
      apply (in_map (fun x => tag_of (snd x))) in Hw. exact Hw.
    + rewrite Hs, E2. reflexivity.
Qed.
Lemma one_write : NoDup (map fst (cwrites ls)).
Proof.
  destruct (inorder ls k R HC) as (h & [A B D E F G _ _]). pose proof (j_reach tagged tagged_answers h A) as HJ.
  apply (NoDup_count_occ Nat.eq_dec). intros c. pose proof (j_cnt _ _ HJ c) as X.
  assert (Y : cntc c (map fst (answered h)) = cntc c (firstn (List.length (reads ls)) (map fst (cwrites ls)))).
  { rewrite F, map_rev, zip_fst. unfold cntc. apply count_occ_rev. }
  assert (Z : cntc c (map fst (unans h)) = cntc c (skipn (List.length (reads ls)) (map fst (cwrites ls)))).
  { rewrite E, skipn_map. reflexivity. }
  assert (W : (started (callers (cl h) c) <= 1)%nat) by (destruct (callers (cl h) c); cbn; lia).
  change (cntc c (map fst (cwrites ls)) <= 1)%nat. rewrite <- (firstn_skipn (List.length (reads ls)) (map fst (cwrites ls))), cntc_app. lia.
Qed.
(** A call that is done has got what was read as the answer to its request. *)
Lemma done_call c q r : callers k c = CDone q r -> exists j t, nth_error (cwrites ls) j = Some (c, set_tag t q) /\ nth_error (reads ls) j = Some r /\ good_tag t.
Proof.
  intros Hd. destruct (inorder ls k R HC) as (h & [A B D E F G _ _]). rewrite <- G in Hd.
  destruct (right_caller tagged h c q r tagged_answers A Hd) as (t & Ht & _ & Hi & _). rewrite F, <- in_rev in Hi.
  destruct (zip_in _ _ _ _ _ Hi) as (j & X & Y). exists j, t. auto.
Qed.
Lemma alive : ~ In LEof ls -> ~ In LFatal ls -> crashed k = false.
Proof. intros N1 N2. destruct (inorder ls k R HC) as (h & H). rewrite <- (io_same _ _ _ H N1 N2). apply (honest_no_crash tagged h tagged_answers), H. Qed.
End Model.
Lemma cwrites_split ls : forall j c w, nth_error (cwrites ls) j = Some (c, w) -> exists la lb, ls = la ++ LWrite c w :: lb /\ List.length (cwrites la) = j.
Proof.
  induction ls as [|l ls IH]; intros j c w H; [destruct j; discriminate H|].
  assert (X : forall P : Prop, cwrites (l :: ls) = cwrites ls -> ((exists la lb, ls = la ++ LWrite c w :: lb /\ List.length (cwrites la) = j) -> P) -> P).
  { intros P E K. apply K, IH. rewrite <- E. exact H. }
  destruct l as [|c0 q0|c0 q0|b0| |c0 r0|t0|f0| |].
  3: { cbn in H. destruct j as [|j]; cbn in H.
       - injection H as -> ->. exists [], ls. auto.
       - destruct (IH _ _ _ H) as (la & lb & -> & <-). exists (LWrite c0 q0 :: la), lb. auto. }
  all: apply X; [reflexivity|]; intros (la & lb & -> & <-); match goal with |- context [?a :: la ++ _] => exists (a :: la), lb end; auto.
Qed.
Lemma seen_split l : forall a x b, seen l = a ++ x :: b -> exists la y lb, l = la ++ y :: lb /\ seen la = a /\ seen1 y = [x] /\ seen lb = b.
Proof.
  induction l as [|z l IH]; intros a x b H; [destruct a; discriminate H|]. change (z :: l) with ([z] ++ l) in H. rewrite seen_app in H.
  destruct (seen1 z) as [|y [|y' w]] eqn:E.
  - cbn [seen flat_map] in H. rewrite E in H. cbn [app] in H. destruct (IH _ _ _ H) as (la & y & lb & -> & <- & E1 & <-). exists (z :: la), y, lb.
    split; [reflexivity|]. split; [cbn [seen flat_map]; rewrite E; reflexivity|]. auto.
  - cbn [seen flat_map] in H. rewrite E in H. cbn [app] in H. destruct a as [|a0 a]; cbn [app] in H; injection H as -> H.
    + exists [], z, l. auto.
    + destruct (IH _ _ _ H) as (la & y & lb & -> & <- & E1 & <-). exists (z :: la), y, lb.
      split; [reflexivity|]. split; [cbn [seen flat_map]; rewrite E; reflexivity|]. auto.
  - destruct z; discriminate E.
Qed.
Lemma seen_split_eq l ls : seen ls = seen l -> forall la x lb, ls = la ++ x :: lb -> x <> LTau -> exists la' x' lb', l = la' ++ x' :: lb' /\ seen la' = seen la /\ seen1 x' = seen1 x.
Proof.
  intros E la x lb -> Hx. change (x :: lb) with ([x] ++ lb) in E. rewrite !seen_app in E.
  assert (X : exists y, seen1 x = [y]) by (destruct x; try (eexists; reflexivity); destruct Hx; reflexivity). destruct X as (y & X).
  cbn [seen flat_map] in E. rewrite X in E. cbn [app] in E. symmetry in E. destruct (seen_split _ _ _ _ E) as (la' & x' & lb' & -> & E1 & E2 & _).
  exists la', x', lb'. rewrite X. auto.
Qed.
Lemma causal_seen l ls : seen ls = seen l -> causal l -> causal ls.
Proof.
  intros E H la b lb Hl. destruct (seen_split_eq _ _ E la (LRead b) lb Hl ltac:(discriminate)) as (la' & x & lb' & -> & E1 & E2).
  assert (x = LRead b) as -> by (destruct x; try discriminate E2; injection E2 as ->; reflexivity).
  destruct (H la' b lb' eq_refl) as (w & X & Y). exists w. rewrite <- (writes_seen la), <- (reads_seen la), <- E1, writes_seen, reads_seen. auto.
Qed.
Lemma seen1_eq x y : seen1 x = seen1 y -> y <> LTau -> (forall c q, y <> LWrite c q) -> x = y.
Proof. intros E H1 H2. destruct y; try (destruct x; try discriminate E; injection E; intros; subst; reflexivity); try (destruct x; try discriminate E; reflexivity). destruct (H2 c q); reflexivity. Qed.

Lemma seen_cut ls : forall a b, seen ls = a ++ b -> exists la lb, ls = la ++ lb /\ seen la = a /\ seen lb = b.
Proof.
  induction ls as [|l ls IH]; intros a b H.
  - symmetry in H. apply app_eq_nil in H. destruct H as [-> ->]. exists [], []. auto.
  - destruct a as [|x a].
    + exists [], (l :: ls). auto.
    + destruct (seen1 l) as [|y [|z w]] eqn:El.
      * cbn [seen flat_map] in H. rewrite El in H. cbn [app] in H. destruct (IH (x :: a) b H) as (la & lb & -> & <- & <-). exists (l :: la), lb. split; [reflexivity|]. split; [|reflexivity].
        cbn [seen flat_map]. rewrite El. reflexivity.
      * cbn [seen flat_map] in H. rewrite El in H. cbn [app] in H. injection H as -> H. destruct (IH a b H) as (la & lb & -> & <- & <-). exists (l :: la), lb. split; [reflexivity|]. split; [|reflexivity].
        cbn [seen flat_map]. rewrite El. reflexivity.
      * destruct l; discriminate El.
Qed.
(** * The same for what is seen of an execution *)
Section Text.
Context (l ls : list lbl) (k : cst) (R : csteps true (init true) ls k) (E : seen ls = seen l) (HC : causal l).
Theorem t_written w : In w (writes l) -> exists c q t, In (LStart c q) l /\ w = set_tag t q /\ good_tag t.
Proof.
  rewrite <- (writes_seen l), <- E, writes_seen, writes_c. intros H. apply in_map_iff in H. destruct H as ((c & w') & Ew & H). cbn in Ew. subst w'.
  destruct (written ls k R (causal_seen _ _ E HC) c w H) as (q & A & B & D). exists c, q, (tag_of w). split; [|auto].
  assert (X : starts c l = [q]) by (rewrite <- (starts_seen c l), <- E, starts_seen; exact D).
  assert (Y : In q (starts c l)) by (rewrite X; left; reflexivity). unfold starts in Y. apply in_flat_map in Y. destruct Y as (x & Hx & Y).
  destruct x as [|c0 q0| | | | | | | |]; try contradiction Y. destruct (Nat.eqb_spec c0 c) as [->|]; [|contradiction Y]. destruct Y as [->|[]]. exact Hx.
Qed.
Theorem t_done : exists cs, NoDup cs /\ List.length cs = List.length (writes l) /\
  (forall la lb j c, l = la ++ lb -> nth_error cs j = Some c -> (j < List.length (writes la))%nat ->
     exists q t, starts c la = [q] /\ nth_error (writes la) j = Some (set_tag t q) /\ good_tag t) /\
  forall l1 c r l2, l = l1 ++ LDone c r :: l2 -> exists q t la x lb, nth_error cs (List.length (writes la)) = Some c /\
    l1 = la ++ LWrite x (set_tag t q) :: lb /\ starts c la = [q] /\ nth_error (reads l1) (List.length (writes la)) = Some r /\ good_tag t.
Proof.
  pose proof (causal_seen _ _ E HC) as HC'. exists (map fst (cwrites ls)). split; [eapply one_write; eassumption|]. split.
  { rewrite map_length, <- (writes_seen l), <- E, writes_seen, writes_c, map_length. reflexivity. }
  split.
  { intros la lb j c El Hj Hl. assert (E' : seen ls = seen la ++ seen lb) by (rewrite E, El; apply seen_app).
    destruct (seen_cut _ _ _ E') as (ma & mb & -> & Ea & _). destruct (csteps_prefix _ _ _ _ _ R) as (k1 & R1). apply causal_prefix in HC'.
    rewrite nth_error_map, cwrites_app in Hj. rewrite nth_error_app1 in Hj.
    2: { rewrite <- (map_length snd), <- writes_c, <- (writes_seen ma), Ea, writes_seen. exact Hl. }
    destruct (nth_error (cwrites ma) j) as [[c' w]|] eqn:En; [|discriminate Hj]. injection Hj as <-. pose proof (nth_error_In _ _ En) as Ei.
    destruct (written _ _ R1 HC' c' w Ei) as (q & W1 & W2 & S1). exists q, (tag_of w). split; [rewrite <- (starts_seen c' la), <- Ea, starts_seen; exact S1|].
    split; [|exact W2]. rewrite <- W1, <- (writes_seen la), <- Ea, writes_seen, writes_c, nth_error_map, En. reflexivity. }
  intros l1 c r l2 El. subst l. symmetry in E.
  destruct (seen_split_eq _ _ E l1 (LDone c r) l2 eq_refl ltac:(discriminate)) as (m1 & x & m2 & Em & E1 & E2).
  apply seen1_eq in E2; [|discriminate|discriminate]. subst x. subst ls.
  change (LDone c r :: m2) with ([LDone c r] ++ m2) in *. rewrite app_assoc in R, HC'. destruct (csteps_prefix _ _ _ _ _ R) as (k1 & R1). apply causal_prefix in HC'.
  assert (Hd : exists q, callers k1 c = CDone q r).
  { destruct (hist _ _ _ _ R1) as (_ & B & _). specialize (B c). rewrite dones_app in B. cbn [dones flat_map] in B. rewrite Nat.eqb_refl in B.
    destruct (callers k1 c) as [|q|q|q r'] eqn:X; try (exfalso; destruct (dones c m1); discriminate B).
    change ([r] ++ [])with [r] in B. destruct (dones c m1) as [|y [|z w]]; cbn [app] in B; [|discriminate B..]. injection B as ->. exists q. reflexivity. }
  destruct Hd as (q & Hd). destruct (done_call _ _ R1 HC' c q r Hd) as (j & t & H1 & H2 & Ht).
  rewrite cwrites_app, app_nil_r in H1. rewrite reads_app, app_nil_r in H2.
  destruct (cwrites_split _ _ _ _ H1) as (na & nb & -> & Hj).
  destruct (seen_split_eq _ _ E1 na (LWrite c (set_tag t q)) nb eq_refl ltac:(discriminate)) as (la & x & lb & -> & E3 & E4).
  exists q, t, la. assert (X : exists x', x = LWrite x' (set_tag t q)) by (destruct x; try discriminate E4; injection E4 as ->; eexists; reflexivity).
  destruct X as (x' & ->). exists x', lb.
  assert (Ew : List.length (writes la) = j) by (rewrite <- (writes_seen la), E3, writes_seen, writes_c, map_length; exact Hj). rewrite Ew.
  split; [|split; [reflexivity|split; [|split; [|exact Ht]]]].
  - rewrite nth_error_map. rewrite cwrites_app. rewrite nth_error_app1; [rewrite H1; reflexivity|]. apply nth_error_Some. congruence.
  - (* the call had been started *)
    rewrite <- (starts_seen c la), E3, starts_seen.
    assert (R2 : exists k2, csteps true (init true) (na ++ [LWrite c (set_tag t q)]) k2 /\ causal (na ++ [LWrite c (set_tag t q)])).
    { change (LWrite c (set_tag t q) :: nb) with ([LWrite c (set_tag t q)] ++ nb) in R1, HC'. rewrite app_assoc in R1, HC'. rewrite <- app_assoc in R1, HC'.
      destruct (csteps_prefix _ _ _ _ _ R1) as (k2 & R2). exists k2. split; [exact R2|]. eapply causal_prefix, HC'. }
    destruct R2 as (k2 & R2 & HC2). destruct (written _ _ R2 HC2 c (set_tag t q)) as (q' & _ & _ & S1).
    { rewrite cwrites_app. apply in_app_iff. right. left. reflexivity. }
    rewrite starts_app, app_nil_r in S1. destruct (hist _ _ _ _ R1) as (A & _). specialize (A c). rewrite Hd in A. cbn [q_of] in A.
    rewrite !starts_app, S1 in A. cbn [app] in A. injection A as -> _. exact S1.
  - rewrite <- (reads_seen (la ++ _)), <- E1, reads_seen. exact H2.
Qed.
Theorem t_alive : ~ In LEof l -> ~ In LFatal l -> crashed k = false.
Proof.
  intros N1 N2. apply (alive ls k R (causal_seen _ _ E HC)).
  - intros H. apply N1. apply in_seen in H; [|discriminate|discriminate]. rewrite E in H. apply in_seen in H; [exact H|discriminate|discriminate].
  - intros H. apply N2. apply in_seen in H; [|discriminate|discriminate]. rewrite E in H. apply in_seen in H; [exact H|discriminate|discriminate].
Qed.
End Text.

(** What is written is what is read: the file server on an operating system that keeps the contents of open files, behind client and network. *)
From Verif Require Import Base GoBuf CodecPrim CodecLemmas Types Codec Msgs CodecSpec StubPrim GoPath Server ServerSpec Ufs UfsSpec MemOS MemSpec MemLemmas NetLemmas UfsFits.

(** * An operating system with files *)
(** These calls change no file. *)
Definition only_looks (o : op) : bool :=
  match o with OLock | OUnlock | OGet _ | OPut _ _ | ODel _ | OSet _ _ | OLstat _ | OStat _ | OReaddir _ | OReadAt _ _ _ | OSeek _ | OSync _ => true | _ => false end.
Record keeps {W} (h : os W) (content : W -> handle -> option bytes) : Prop := {
  k_write : forall hd b off w k w', h (OWriteAt hd b off) w = ((k, None), w') -> exists d, content w hd = Some d /\ content w' hd = Some (write_at d (Z.to_nat off) b);
  k_read : forall hd n off w b e w', h (OReadAt hd n off) w = ((b, e), w') -> e = None \/ e = Some EOF -> exists d, content w hd = Some d /\ b = MemOS.slice d (Z.to_nat off) (N.to_nat n);
  k_look : forall o w hd, only_looks o = true -> content (snd (h o w)) hd = content w hd
}.
(** Requests that leave an open fid and its file as they are (a walk moves a fid only to itself: a fid in use is refused as the new one), or write it. *)
Definition looks (fid : N) (m : tmsg) : Prop :=
  match m with
  | MTread _ | MTstat _ | MTflush _ | MTversion _ => True
  | MTattach (mkTattachPkt f _ _ _) => f <> fid
  | MTwalk (mkTwalkPkt f g _) => f <> fid \/ g <> fid
  | _ => False
  end.
Definition tame (fid : N) (m : tmsg) : Prop := looks fid m \/ exists o b, m = MTwrite (mkTwritePkt fid o b).
Definition apply_to (d : bytes) (m : tmsg) : bytes := match m with MTwrite (mkTwritePkt _ o b) => write_at d (Z.to_nat (i64 o)) b | _ => d end.
Definition contents (d : bytes) (ms : list tmsg) : bytes := fold_left apply_to ms d.
(** The fid is open, on hd; the file server takes it for a file. *)
Definition open_on (u : table) (fid : N) (hd : handle) : Prop := exists f, u fid = Some f /\ f_file f = Some hd /\ N.land (QID_Type (f_QID f)) QTDIR = 0.

Section Stored.
Context {W : Type} (c : config) (h : os W) (content : W -> handle -> option bytes) (HK : keeps h content).
Section One.
Context (fid : N) (hd : handle).
Fixpoint iwp {A} (p : prog A) (u : table) : Prop :=
  match p with
  | Ret _ | Panic => True
  | Call o k => only_looks o = true /\ open_on (effect o u) fid hd /\ forall x, allowed u o x -> iwp (k x) (effect o u)
  end.
Lemma run_iwp {A} (p : prog A) : forall u w d, iwp p u -> open_on u fid hd -> content w hd = Some d ->
  let '(r, u', w', _) := run_prog h p u w in open_on u' fid hd /\ content w' hd = Some d.
Proof.
  induction p as [a|o k IH|]; intros u w d H Ho Hc; cbn [run_prog iwp] in *; [auto| |auto]. destruct H as (H1 & H2 & H3).
  assert (X : allowed u o (fst (answer_op h u o w)) /\ content (snd (answer_op h u o w)) hd = Some d).
  { pose proof (k_look _ _ HK o w hd H1) as L. rewrite Hc in L. destruct o; cbn in *; try discriminate H1; auto. }
  destruct (answer_op h u o w) as [x w1]. cbn [fst snd] in X. specialize (IH x (effect o u) w1 d (H3 x (proj1 X)) H2 (proj2 X)).
  destruct (run_prog h (k x) (effect o u) w1) as [[[r u'] w'] tr]. exact IH.
Qed.
Lemma iwp_wrap {A} (f : A -> rmsg) (p : prog (answerOf A)) : forall u, iwp p u -> iwp (wrapR f p) u.
Proof. unfold wrapR. induction p as [a|o k IH|]; intros u H; cbn [bind iwp] in *; auto. destruct H as (H1 & H2 & H3). auto. Qed.
Lemma poke_open u fid2 f fl : open_on u fid hd -> u fid2 = Some f -> open_on (poke u fid2 (mkFile (f_QID f) (f_fullName f) (f_file f) fl)) fid hd.
Proof.
  intros (g & G1 & G2 & G3) Hf. unfold open_on, poke. rewrite Hf. unfold set_fid. destruct (N.eqb_spec fid fid2) as [->|].
  - rewrite Hf in G1. injection G1 as ->. eexists. split; [reflexivity|]. auto.
  - exists g. auto.
Qed.
Lemma poked u fid2 f g : u fid2 = Some f -> poke u fid2 g fid2 = Some g.
Proof. intros H. unfold poke. rewrite H. unfold set_fid. rewrite N.eqb_refl. reflexivity. Qed.
Lemma iwp_getFile {A} fid2 (k : answerOf file -> prog A) u : open_on u fid hd -> (forall e, iwp (k (inl e)) u) -> (forall f, u fid2 = Some f -> iwp (k (inr f)) u) -> iwp (bind (getFile fid2) k) u.
Proof.
  intros Ho H1 H2. unfold getFile. cbn [bind iwp effect only_looks]. split; [reflexivity|]. split; [exact Ho|]. intros _ _. split; [reflexivity|]. split; [exact Ho|]. intros f ->.
  split; [reflexivity|]. split; [exact Ho|]. intros _ _. destruct (u fid2) as [f|] eqn:E; cbn [bind fail ok]; auto.
Qed.
Lemma put_open u g f : g <> fid -> open_on u fid hd -> open_on (set_fid u g (Some f)) fid hd.
Proof. intros Hg (x & X1 & X2 & X3). exists x. unfold set_fid. destruct (N.eqb_spec fid g); [congruence|]. auto. Qed.
Lemma iwp_walk {A} (k : walked -> prog A) u : open_on u fid hd -> (forall y, iwp (k y) u) -> forall paths p q, iwp (bind (walk_loop p paths q) k) u.
Proof.
  intros Ho Hk. induction paths as [|e paths IH]; intros p q; cbn [walk_loop bind]; [apply Hk|]. cbv zeta. cbn [bind iwp only_looks effect]. split; [reflexivity|]. split; [exact Ho|].
  intros [e'|st] _; cbn [bind]; [apply Hk|apply IH].
Qed.
Ltac one := cbn [iwp only_looks effect]; split; [reflexivity|]; split; [assumption|].
Lemma walk_kept a b paths u : a <> fid \/ b <> fid -> open_on u fid hd -> iwp (Rwalk_ a b paths) u.
Proof.
  intros Hab Ho. assert (Hb : u b = None -> b <> fid) by (intros Hu ->; destruct Ho as (x & X & _); congruence).
  assert (Put : forall f (q : list QID), b <> fid -> iwp (OPut b f ;;; OUnlock ;;; ok (mkRwalkPkt q)) u).
  { intros f q Hn. pose proof (put_open u b f Hn Ho) as Hp. one. intros _ _. one. intros _ _. exact Logic.I. }
  unfold Rwalk_. one. intros _ _. one. intros f ->. one. intros _ _. destruct (u a) as [f|]; [|exact Logic.I]. destruct paths as [|e paths].
  - one. intros _ _. one. intros g ->. destruct (u b) as [g|]; [one; intros _ _; exact Logic.I|]. apply Put, Hb. reflexivity.
  - apply iwp_walk; [exact Ho|]. intros [q|p q]; [destruct q; exact Logic.I|]. one. intros _ _. cbv zeta. destruct (N.eqb_spec a b) as [->|Hn]; cbn [negb].
    + apply Put. destruct Hab; assumption.
    + one. intros g ->. destruct (u b) as [g|]; [one; intros _ _; exact Logic.I|]. apply Put, Hb. reflexivity.
Qed.
Lemma looks_kept m u : looks fid m -> open_on u fid hd -> iwp (method c m) u.
Proof.
  intros Hm Ho. destruct m as [[]|[a]|[]|[a b]|[]|[]|[a o n]|[]|[]|[]|[a]|[]]; try (exact (False_ind _ Hm)); cbn [method]; apply iwp_wrap; try exact Logic.I.
  1: unfold Rversion_; destruct (list_eq_dec _ _ _); exact Logic.I.
  1: { unfold Rattach_. destruct (negb _); [exact Logic.I|]. cbv zeta. one. intros [e|st] _; [exact Logic.I|]. cbn [looks] in Hm.
       pose proof (fun f => put_open u a f Hm Ho) as Hp. cbn [iwp only_looks effect]. split; [reflexivity|]. split; [apply Hp|]. intros _ _. exact Logic.I. }
  1: exact (walk_kept _ _ _ u Hm Ho).
  all: unfold Rread_, Rstat_; apply iwp_getFile; [exact Ho|intros e; exact Logic.I|intros f Hf].
  - destruct (f_file f) as [h2|] eqn:Hh; [|exact Logic.I]. cbv zeta. rewrite <- Hh.
    assert (P : forall fl v, open_on v fid hd -> v a = Some (mkFile (f_QID f) (f_fullName f) (f_file f) fl) \/ v a = Some f -> forall fl', open_on (poke v a (mkFile (f_QID f) (f_fullName f) (f_file f) fl')) fid hd).
    { intros fl v Hv [Hx|Hx] fl'; [exact (poke_open v a _ fl' Hv Hx)|exact (poke_open v a _ fl' Hv Hx)]. }
    assert (En : forall b v fl, open_on v fid hd -> v a = Some (mkFile (f_QID f) (f_fullName f) (f_file f) fl) \/ v a = Some f ->
       iwp (OSet a (mkFile (f_QID f) (f_fullName f) (f_file f) []) ;;; if (n <? Z.of_N (blen b))%Z then OSet a (mkFile (f_QID f) (f_fullName f) (f_file f) b) ;;; ok (mkRreadPkt [])
         else st <-- OReaddir h2 ;; match st with inl EOF => ok (mkRreadPkt b) | inl e => fail (err_text e)
           | inr st => if (n <? Z.of_N (blen (Marshaldir (dirTo9p2000Dir (user c) st))))%Z then ok (mkRreadPkt []) else ok (mkRreadPkt (Marshaldir (dirTo9p2000Dir (user c) st))) end) v).
    { intros b v fl Hv Hx. cbn [iwp only_looks effect]. split; [reflexivity|]. split; [apply (P fl); assumption|]. intros _ _.
      assert (Hy : poke v a (mkFile (f_QID f) (f_fullName f) (f_file f) []) a = Some (mkFile (f_QID f) (f_fullName f) (f_file f) [])) by (destruct Hx as [Hx|Hx]; exact (poked v a _ _ Hx)).
      assert (Hz : open_on (poke v a (mkFile (f_QID f) (f_fullName f) (f_file f) [])) fid hd) by (apply (P fl); assumption).
      destruct (n <? Z.of_N (blen b))%Z; cbn [iwp only_looks effect].
      - split; [reflexivity|]. split; [apply (P []); auto|]. intros _ _. exact Logic.I.
      - split; [reflexivity|]. split; [exact Hz|]. intros [[|]|st] _; try exact Logic.I. destruct (n <? _)%Z; exact Logic.I. }
    destruct (negb (N.land (QID_Type (f_QID f)) QTDIR =? 0)).
    + destruct (o =? 0); [|apply (En _ _ []); auto]. cbn [iwp only_looks effect]. split; [reflexivity|]. split; [apply (P []); auto|]. intros _ _.
      split; [reflexivity|]. split; [apply (P []); auto|]. intros [e|] _; [exact Logic.I|]. apply (En _ _ []); [apply (P []); auto|]. left. exact (poked u a f _ Hf).
    + destruct (n <? 0)%Z; [exact Logic.I|]. cbn [iwp only_looks effect]. split; [reflexivity|]. split; [exact Ho|]. intros [b [[|]|]] _; try exact Logic.I; destruct (n <? Z.of_N (blen b))%Z; exact Logic.I.
  - cbn [iwp only_looks effect]. split; [reflexivity|]. split; [exact Ho|]. intros [e|st] _; exact Logic.I.
Qed.
(** * One request *)
Lemma write_kept o b u w d : open_on u fid hd -> content w hd = Some d ->
  let '(r, u', w', _) := run_prog h (method c (MTwrite (mkTwritePkt fid o b))) u w in
  forall a, r = Some (inr a) -> (exists z, a = MRwrite z) /\ u' = u /\ content w' hd = Some (write_at d (Z.to_nat (i64 o)) b).
Proof.
  intros (f & F1 & F2 & F3) Hc. cbn [method]. unfold wrapR, Rwrite_, getFile. cbn [bind run_prog answer_op effect]. rewrite F1. cbn [ok bind run_prog]. rewrite F2. cbn [bind run_prog answer_op effect].
  destruct (h (OWriteAt hd b (i64 o)) w) as [[k e] w1] eqn:E. destruct e as [e|]; cbn [fail ok bind run_prog]; intros a H; [discriminate H|]. injection H as <-.
  destruct (k_write _ _ HK _ _ _ _ _ _ E) as (d' & D1 & D2). rewrite Hc in D1. injection D1 as <-. split; [eauto|]. split; [reflexivity|exact D2].
Qed.
Lemma read_kept o n u w d : open_on u fid hd -> content w hd = Some d ->
  let '(r, u', w', _) := run_prog h (method c (MTread (mkTreadPkt fid o n))) u w in
  forall a, r = Some (inr a) -> a = MRread (mkRreadPkt (MemOS.slice d (Z.to_nat (i64 o)) (Z.to_nat n))) /\ (0 <= n)%Z.
Proof.
  intros (f & F1 & F2 & F3) Hc. cbn [method]. unfold wrapR, Rread_, getFile. cbn [bind run_prog answer_op effect]. rewrite F1. cbn [ok bind run_prog]. rewrite F2. cbv zeta. rewrite F3. cbn [N.eqb negb].
  destruct (Z.ltb_spec n 0); [cbn [bind run_prog]; intros a X; discriminate X|]. cbn [bind run_prog answer_op effect].
  destruct (h (OReadAt hd (Z.to_N n) (i64 o)) w) as [[b e] w1] eqn:E.
  assert (X : e = None \/ e = Some EOF -> b = MemOS.slice d (Z.to_nat (i64 o)) (Z.to_nat n)).
  { intros He. destruct (k_read _ _ HK _ _ _ _ _ _ _ E He) as (d' & D1 & ->). rewrite Hc in D1. injection D1 as <-. f_equal. lia. }
  destruct e as [[|t]|]; cbn [fail ok bind run_prog]; [|intros a Y; discriminate Y|].
  all: destruct (n <? Z.of_N (blen b))%Z; cbn [fail ok bind run_prog]; intros a Y; [discriminate Y|]; injection Y as <-; rewrite X by auto; auto.
Qed.
Lemma looks_stays m u w d : looks fid m -> open_on u fid hd -> content w hd = Some d ->
  let '(r, u', w', _) := run_prog h (method c m) u w in open_on u' fid hd /\ content w' hd = Some d.
Proof. intros Hm Ho Hc. exact (run_iwp (method c m) u w d (looks_kept m u Hm Ho) Ho Hc). Qed.
(** * Requests one after another *)
Lemma tame_answer m u w v' u' w' a d : tame fid m -> open_on u fid hd -> content w hd = Some d -> ServerSpec.answer (ufs c h) true (u, w) m = Some (v', (u', w'), a) ->
  (forall p, m = MTwrite p -> exists z, a = MRwrite z) -> v' = true /\ open_on u' fid hd /\ content w' hd = Some (apply_to d m).
Proof.
  intros Hm Ho Hc H Hw. unfold ServerSpec.answer in H. cbn [orb] in H. rewrite ufs_method in H. destruct Hm as [Hm|(o & b & ->)].
  - pose proof (looks_stays m u w d Hm Ho Hc) as X. destruct (run_prog h (method c m) u w) as [[[r u1] w1] tr].
    assert (Y : v' = true /\ u' = u1 /\ w' = w1) by (destruct r as [[e|x]|]; [injection H as <- <- <- <-|injection H as <- <- <- <-|discriminate H]; auto).
    destruct Y as (-> & -> & ->). split; [reflexivity|]. destruct X as [X1 X2]. split; [exact X1|]. rewrite X2. destruct m as [[]|[]|[]|[]|[]|[]|[]|[]|[]|[]|[]|[]]; try (exact (False_ind _ Hm)); reflexivity.
  - pose proof (write_kept o b u w d Ho Hc) as X. destruct (run_prog h (method c (MTwrite (mkTwritePkt fid o b))) u w) as [[[r u1] w1] tr].
    destruct (Hw _ eq_refl) as (z & ->). destruct r as [[e|x]|]; [discriminate H| |discriminate H]. injection H as <- <- <- ->. destruct (X _ eq_refl) as (_ & -> & X2). auto.
Qed.
Lemma tame_answers reqs : forall u w d reps v' u' w', Forall (fun y => tame fid (snd y)) reqs -> open_on u fid hd -> content w hd = Some d ->
  answers (ufs c h) true (u, w) reqs = Some (reps, (v', (u', w'))) -> (forall k t p a, nth_error reqs k = Some (t, MTwrite p) -> nth_error reps k = Some a -> exists z, snd a = MRwrite z) ->
  v' = true /\ open_on u' fid hd /\ content w' hd = Some (contents d (map snd reqs)).
Proof.
  induction reqs as [|[t m] reqs IH]; intros u w d reps v' u' w' Hr Ho Hc H Hw; cbn [answers] in H; [injection H as <- <- <- <-; auto|].
  destruct (ServerSpec.answer (ufs c h) true (u, w) m) as [[[v1 [u1 w1]] a]|] eqn:Ea; [|discriminate H]. inversion Hr as [|? ? Hm Hr']; subst. cbn [snd] in Hm.
  assert (A : exists reps', answers (ufs c h) v1 (u1, w1) reqs = Some (reps', (v', (u', w'))) /\ reps = (t, a) :: reps').
  { destruct (answers (ufs c h) v1 (u1, w1) reqs) as [[rs st]|]; [|discriminate H]. injection H as <- ->. eauto. }
  destruct A as (reps' & A & ->).
  destruct (tame_answer m u w v1 u1 w1 a d Hm Ho Hc Ea) as (-> & Ho1 & Hc1). { intros p ->. exact (Hw 0%nat t p (t, a) eq_refl eq_refl). }
  destruct (IH u1 w1 (apply_to d m) reps' v' u' w' Hr' Ho1 Hc1 A) as (B1 & B2 & B3). { intros k t' p a' K1 K2. exact (Hw (S k) t' p a' K1 K2). }
  split; [exact B1|]. split; [exact B2|exact B3].
Qed.
(** A read returns what the writes before it have left. *)
Theorem sequence reqs u w d t o n reps st b : open_on u fid hd -> content w hd = Some d -> Forall (fun y => tame fid (snd y)) reqs ->
  answers (ufs c h) true (u, w) (reqs ++ [(t, MTread (mkTreadPkt fid o n))]) = Some (reps ++ [(t, MRread (mkRreadPkt b))], st) ->
  (forall k t p a, nth_error reqs k = Some (t, MTwrite p) -> nth_error reps k = Some a -> exists z, snd a = MRwrite z) ->
  b = MemOS.slice (contents d (map snd reqs)) (Z.to_nat (i64 o)) (Z.to_nat n).
Proof.
  intros Ho Hc Hr H Hw. destruct (answers_app _ _ _ _ _ _ H) as (r1 & v1 & [u1 w1] & r2 & A & B & D). cbn [fst snd] in *. cbn [answers] in B.
  destruct (ServerSpec.answer (ufs c h) v1 (u1, w1) (MTread (mkTreadPkt fid o n))) as [[[v2 s2] a]|] eqn:Ea; [|discriminate B]. injection B as <- B. apply app_inj_tail in D. destruct D as [<- D]. injection D as <-.
  destruct (tame_answers reqs u w d reps v1 u1 w1 Hr Ho Hc A Hw) as (-> & Ho1 & Hc1). unfold ServerSpec.answer in Ea. cbn [orb] in Ea. rewrite ufs_method in Ea.
  pose proof (read_kept o n u1 w1 _ Ho1 Hc1) as X. destruct (run_prog h (method c (MTread (mkTreadPkt fid o n))) u1 w1) as [[[r u2] w2] tr].
  destruct r as [[e|x]|]; [discriminate Ea| |discriminate Ea]. injection Ea as <- <- ->. destruct (X _ eq_refl) as (Y & _). injection Y as ->. reflexivity.
Qed.
End One.
Lemma slice_back D o d n : (n <= List.length d)%nat -> MemOS.slice (write_at D o d) o n = firstn n d.
Proof. intros H. rewrite <- (write_back D o d) at 2. unfold MemOS.slice. rewrite firstn_firstn, Nat.min_l by exact H. reflexivity. Qed.
Lemma looks_contents fid ms d : Forall (looks fid) ms -> contents d ms = d.
Proof. unfold contents. revert d. induction ms as [|m ms IH]; intros d H; [reflexivity|]. inversion H as [|? ? Hm Hr]; subst. cbn [fold_left]. rewrite IH by exact Hr. destruct m as [[]|[]|[]|[]|[]|[]|[]|[]|[]|[]|[]|[]]; try (exact (False_ind _ Hm)); reflexivity. Qed.
(** A write without an error found an open fid. *)
Lemma wrote_open fid o b v u w v' s' z : ServerSpec.answer (ufs c h) v (u, w) (MTwrite (mkTwritePkt fid o b)) = Some (v', s', MRwrite z) ->
  exists f hd d w', v = true /\ v' = true /\ u fid = Some f /\ f_file f = Some hd /\ s' = (u, w') /\ content w' hd = Some (write_at d (Z.to_nat (i64 o)) b).
Proof.
  unfold ServerSpec.answer. destruct v; cbn [orb is_version]; [|intros H; discriminate H]. rewrite ufs_method. cbn [method]. unfold wrapR, Rwrite_, getFile. cbn [bind run_prog answer_op effect].
  destruct (u fid) as [f|] eqn:F1; cbn [ok fail bind run_prog]; [|intros H; discriminate H]. destruct (f_file f) as [hd|] eqn:F2; cbn [fail bind run_prog answer_op effect]; [|intros H; discriminate H].
  destruct (h (OWriteAt hd b (i64 o)) w) as [[k e] w1] eqn:E. destruct e as [e|]; cbn [fail ok bind run_prog]; intros H; [discriminate H|]. injection H as <- <- <-.
  destruct (k_write _ _ HK _ _ _ _ _ _ E) as (d & D1 & D2). exists f, hd, d, w1. auto 10.
Qed.
(** A write, then requests that only look, then a read. *)
Theorem write_look_read A B C0 t1 t2 fid o n d v s reps st z b : (Z.to_nat n <= List.length d)%nat -> Forall (fun y => looks fid (snd y)) B ->
  answers (ufs c h) v s (A ++ (t1, MTwrite (mkTwritePkt fid o d)) :: B ++ (t2, MTread (mkTreadPkt fid o n)) :: C0) = Some (reps, st) ->
  nth_error reps (List.length A) = Some (t1, MRwrite z) -> nth_error reps (List.length A + S (List.length B)) = Some (t2, MRread (mkRreadPkt b)) ->
  b = firstn (Z.to_nat n) d \/ exists reps0 u w f, answers (ufs c h) v s A = Some (reps0, (true, (u, w))) /\ u fid = Some f /\ N.land (QID_Type (f_QID f)) QTDIR <> 0.
Proof.
  intros Hn HB H H1 H2. destruct (answers_app _ _ _ _ _ _ H) as (r1 & v1 & [u1 w1] & r2 & A1 & A2 & A3). cbn [fst snd] in *. subst reps.
  assert (L1 : List.length r1 = List.length A) by (pose proof (answers_length _ _ _ _ _ _ A1) as X; apply (f_equal (@List.length N)) in X; rewrite !map_length in X; exact X).
  rewrite nth_error_app2 in H1, H2 by lia. replace (List.length A - List.length r1)%nat with 0%nat in H1 by lia. replace (List.length A + S (List.length B) - List.length r1)%nat with (S (List.length B)) in H2 by lia.
  cbn [answers] in A2. destruct (ServerSpec.answer (ufs c h) v1 (u1, w1) (MTwrite (mkTwritePkt fid o d))) as [[[v2 s2] a]|] eqn:Ea; [|discriminate A2].
  destruct (answers (ufs c h) v2 s2 (B ++ (t2, MTread (mkTreadPkt fid o n)) :: C0)) as [[r3 st3]|] eqn:E3; [|discriminate A2]. injection A2 as <- <-. cbn [nth_error] in H1, H2. injection H1 as ->.
  destruct (wrote_open _ _ _ _ _ _ _ _ _ Ea) as (f & hd & D & w2 & -> & -> & F1 & F2 & -> & F3).
  destruct (N.eq_dec (N.land (QID_Type (f_QID f)) QTDIR) 0) as [Hq|Hq]; [|right; exists r1, u1, w1, f; auto]. left.
  change ((t2, MTread (mkTreadPkt fid o n)) :: C0) with ([(t2, MTread (mkTreadPkt fid o n))] ++ C0) in E3. rewrite app_assoc in E3.
  destruct (answers_app _ _ _ _ _ _ E3) as (r4 & v4 & s4 & r5 & B1 & _ & B3). cbn [fst] in B3. subst r3.
  assert (L4 : List.length r4 = S (List.length B)) by (pose proof (answers_length _ _ _ _ _ _ B1) as X; apply (f_equal (@List.length N)) in X; rewrite !map_length, app_length in X; cbn [List.length] in X; lia).
  destruct (@exists_last _ r4) as (r6 & y & ->). { intros ->. discriminate L4. }
  rewrite app_length in L4. cbn [List.length] in L4. rewrite nth_error_app1 in H2 by (rewrite app_length; cbn [List.length]; lia). rewrite nth_error_app2 in H2 by lia.
  replace (List.length B - List.length r6)%nat with 0%nat in H2 by lia. injection H2 as ->.
  assert (X : b = MemOS.slice (contents (write_at D (Z.to_nat (i64 o)) d) (map snd B)) (Z.to_nat (i64 o)) (Z.to_nat n)).
  { apply (sequence fid hd B u1 w2 _ t2 o n r6 (v4, s4) b); [exists f; auto|exact F3| |exact B1|].
    - eapply Forall_impl; [|exact HB]. intros y Hy. left. exact Hy.
    - intros k t p a Hk. apply nth_error_In in Hk. rewrite Forall_forall in HB. destruct p. destruct (HB _ Hk). }
  rewrite X, (looks_contents fid); [apply slice_back, Hn|]. apply Forall_map. exact HB.
Qed.
End Stored.

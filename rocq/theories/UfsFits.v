(** The file server answers every modest request with a message, when the operating system is decent. *)
From Verif Require Import Base GoBuf CodecPrim CodecLemmas CodecLemmas2 Types Codec Msgs CodecSpec StubPrim Stubs GoPath Server ServerSpec Ufs NetRun NetLemmas NetStays.

(** * What is asked *)
(** The requests that the file server can answer whatever they are about: a read does not ask for less than nothing (C54), and the texts of the
    version and of the names of a walk, which are repeated in an error, are not near the longest that a message can hold. *)
Definition modest (m : tmsg) : Prop :=
  match m with
  | MTversion p => blen (Tversion_TVersion p) < 65000
  | MTwalk p => blen (concat (Twalk_Paths p)) + blen (Twalk_Paths p) < 65000
  | MTread p => (0 <= Tread_Len p)%Z
  | _ => True
  end.
(** * What the operating system answers *)
(** Texts of errors and file names are not too long, inode numbers have 64 bits, ReadAt reads no more than it was asked for. *)
Definition fine_err (e : oserr) : Prop := short (err_text e).
Definition fine_info (c : config) (fi : FileInfo) : Prop :=
  blen (fi_Name fi) + 2 * blen (user c) < 65000 /\ match fi_Sys fi with Some i => i < 18446744073709551616 | None => True end.
Definition fine (c : config) (o : op) : ret_of o -> Prop :=
  match o return ret_of o -> Prop with
  | OLstat _ | OStat _ | OReaddir _ => fun x => match x with inl e => fine_err e | inr fi => fine_info c fi end
  | OOpen _ _ _ => fun x => match x with inl e => fine_err e | inr _ => True end
  | OReadAt _ n _ => fun x => blen (fst x) <= n /\ match snd x with Some e => fine_err e | None => True end
  | OWriteAt _ _ _ => fun x => match snd x with Some e => fine_err e | None => True end
  | OMkdir _ _ | OChmod _ _ | ORename _ _ | OTruncate _ _ | OChtimes _ _ _ | ORemove _ | OSeek _ | OSync _ | OClose _ =>
      fun x => match x with Some e => fine_err e | None => True end
  | _ => fun _ => True
  end.
Definition decent {W} (c : config) (h : os W) : Prop := IOunit c < 4294967296 /\ forall o w, fine c o (fst (h o w)).

Section Fits.
Context (c : config).
Definition fine_file (f : file) : Prop := fitsQID (f_QID f) /\ blen (f_oflow f) < 65536.
Definition fine_table (u : table) : Prop := forall fid f, u fid = Some f -> fine_file f.
(** All that a program can do with fine answers. *)
Fixpoint wpp {A} (p : prog A) (u : table) (Q : option A -> table -> Prop) : Prop :=
  match p with
  | Ret a => Q (Some a) u
  | Panic => Q None u
  | Call o k => forall x, allowed u o x -> fine c o x -> wpp (k x) (effect o u) Q
  end.
Lemma wpp_bind {A B} (p : prog A) (k : A -> prog B) : forall u Q,
  wpp p u (fun r u' => match r with Some a => wpp (k a) u' Q | None => Q None u' end) -> wpp (bind p k) u Q.
Proof. induction p as [a|o f IH|]; intros u Q H; cbn [bind wpp] in *; auto. Qed.
Lemma wpp_mono {A} (p : prog A) : forall u (Q Q' : option A -> table -> Prop), (forall r u', Q r u' -> Q' r u') -> wpp p u Q -> wpp p u Q'.
Proof. induction p as [a|o f IH|]; intros u Q Q' HQ H; cbn [wpp] in *; auto. intros x Hx Hf. eapply IH; [exact HQ|]. auto. Qed.
Lemma run_wpp {A W} (h : os W) (p : prog A) : decent c h -> forall u w Q, wpp p u Q -> let '(r, u', _, _) := run_prog h p u w in Q r u'.
Proof.
  intros [_ Hh]. induction p as [a|o f IH|]; intros u w Q H; cbn [run_prog wpp] in *; auto.
  assert (X : allowed u o (fst (answer_op h u o w)) /\ fine c o (fst (answer_op h u o w))).
  { specialize (Hh o w). destruct o; cbn in *; auto. }
  destruct (answer_op h u o w) as [x w1]. cbn [fst] in X. specialize (IH x (effect o u) w1 Q (H x (proj1 X) (proj2 X))).
  destruct (run_prog h (f x) (effect o u) w1) as [[[r u'] w'] tr]. exact IH.
Qed.

(** * Lengths *)
Lemma dec_aux_len f : forall n acc, (List.length (dec_aux f n acc) <= f + List.length acc)%nat.
Proof. induction f as [|f IH]; intros n acc; cbn [dec_aux]; [lia|]. destruct (n / 10 =? 0); cbn [List.length]; [lia|]. specialize (IH (n / 10) (u8 (48 + n mod 10) :: acc)). cbn [List.length] in IH. lia. Qed.
Lemma dec_len n : n < 4294967296 -> blen (dec n) <= 33.
Proof.
  intros H. unfold dec, blen. pose proof (dec_aux_len (S (N.to_nat (N.log2 n))) n []) as L. cbn [List.length] in L.
  assert (N.log2 n < 32); [|lia]. destruct (N.eq_dec n 0) as [->|]; [reflexivity|]. apply N.log2_lt_pow2; [lia|exact H].
Qed.
Lemma spaced_len l : blen (spaced l) <= blen (concat l) + blen l.
Proof. induction l as [|e [|e2 l] IH]; [reflexivity| |]. { cbn [spaced concat]. rewrite app_nil_r. lia. } cbn [spaced concat] in *. rewrite !blen_app, !blen_cons in *. change (blen (str " ")) with 1. lia. Qed.
Lemma info_qid fi : fine_info c fi -> fitsQID (fileInfoToQID fi).
Proof.
  intros [_ H]. unfold fileInfoToQID, fitsQID. cbn [QID_Type QID_Version QID_Path]. split; [|split].
  - unfold dirToQIDType, u8n. destruct (IsDir fi), (negb _); reflexivity.
  - unfold u32n, u32_of_z. lia.
  - unfold u64n. destruct (fi_Sys fi); [exact H|]. unfold u64_of_z. lia.
Qed.
Lemma set_len2_len x y r : blen (set_len2 ([x; y] ++ r)) = 2 + blen r.
Proof. unfold set_len2, overlay. cbv zeta. rewrite blen_app. reflexivity. Qed.
Lemma info_record fi : fine_info c fi -> short (Marshaldir (dirTo9p2000Dir (user c) fi)).
Proof.
  intros [H _]. unfold short, Marshaldir, dirTo9p2000Dir.
  cbn [Dir_Type Dir_Dev Dir_QID Dir_Mode Dir_Atime Dir_Mtime Dir_Length Dir_Name Dir_User Dir_Group Dir_ModUser].
  rewrite set_len2_len. rewrite !blen_app, !blen_cons, !blen_nil. lia.
Qed.
(** The texts of the errors of Unmarshaldir. *)
Definition err_ok {A} (r : ures A) : Prop := match r with URet _ _ _ (Some e) => short e | _ => True end.
Lemma rd_ok {A} M n u b (fl : buf -> ures A) k : buf_len b < M -> (forall x, buf_len x < M -> err_ok (fl x)) -> (forall v x, buf_len x < M -> err_ok (k v x)) -> err_ok (rd n u b fl k).
Proof.
  intros Hb Hf Hk. unfold rd, buf_read. destruct (unread b) eqn:E; [apply Hf, Hb|]. apply Hk. rewrite <- E. unfold buf_len, blen in *. cbn [unread]. rewrite skipn_length. lia.
Qed.
Lemma next_ok M l b : buf_len b < M -> buf_len (buf_next l b) < M.
Proof. unfold buf_next. intros H. destruct (_ <=? _); unfold buf_len, blen in *; cbn [unread List.length]; rewrite ?skipn_length; lia. Qed.
Lemma reslice_ok {A} l b (k : bytes -> ures A) : (forall x, err_ok (k x)) -> err_ok (reslice l b UPanic k).
Proof. intros H. unfold reslice. destruct (buf_reslice l b); [apply H|exact Logic.I]. Qed.
Lemma two_len u i j : N.lor (ub u i) (N.shiftl (ub u j) 8) < 4294967296.
Proof.
  unfold ub. pose proof (b2n_lt (nth i u x00)) as A. pose proof (b2n_lt (nth j u x00)) as B. rewrite N.shiftl_mul_pow2. change (2 ^ 8) with 256.
  destruct (N.eq_dec (N.lor (b2n (nth i u x00)) (b2n (nth j u x00) * 256)) 0) as [->|Hn]; [reflexivity|].
  change 4294967296 with (2 ^ 32). apply N.log2_lt_pow2; [lia|]. rewrite N.log2_lor. apply N.max_lub_lt.
  - destruct (N.eq_dec (b2n (nth i u x00)) 0) as [->|]; [reflexivity|]. apply N.log2_lt_pow2; [lia|]. change (2 ^ 32) with 4294967296. lia.
  - destruct (N.eq_dec (b2n (nth j u x00) * 256) 0) as [->|]; [reflexivity|]. apply N.log2_lt_pow2; [lia|]. change (2 ^ 32) with 4294967296. lia.
Qed.
Lemma record_err b : blen b < 65536 -> err_ok (Unmarshaldir (Buf b [])).
Proof.
  intros Hb. assert (H0 : buf_len (Buf b []) < 65536) by exact Hb. unfold Unmarshaldir. cbv zeta. apply (next_ok 65536 2) in H0. revert H0. generalize (buf_next 2 (Buf b [])). intros b1 H1.
  repeat (first [eapply (rd_ok 65536); [first [eassumption | apply next_ok; eassumption]|intros ? ?; cbn [err_ok]|intros ? ? ?]
    | match goal with |- err_ok (if ?x then _ else _) => destruct x; [cbn [err_ok]|] end | apply reslice_ok; intros ? ]).
  all: try exact Logic.I.
  all: unfold short; rewrite !blen_app; repeat match goal with |- context [blen (dec (buf_len ?x))] => let L := fresh in pose proof (dec_len (buf_len x) ltac:(lia)) as L; revert L; generalize (blen (dec (buf_len x))); intros ? ? end.
  all: repeat match goal with |- context [dec (N.lor (ub ?u ?i) (N.shiftl (ub ?u ?j) 8))] => let L := fresh in pose proof (dec_len _ (two_len u i j)) as L; revert L; generalize (blen (dec (N.lor (ub u i) (N.shiftl (ub u j) 8)))); intros ? ? end.
  all: repeat match goal with |- context [blen (str ?x)] => let v := eval vm_compute in (blen (str x)) in change (blen (str x)) with v end; lia.
Qed.

(** * The table *)
Lemma fine_set u fid f : fine_table u -> match f with Some f => fine_file f | None => True end -> fine_table (set_fid u fid f).
Proof. intros H Hf x g. unfold set_fid. destruct (x =? fid); [|apply H]. intros ->. exact Hf. Qed.
Lemma fine_poke u fid f : fine_table u -> fine_file f -> fine_table (poke u fid f).
Proof. intros H Hf. unfold poke. destruct (u fid); [|exact H]. apply fine_set; assumption. Qed.

(** * The answers *)
Definition fits_answer (r : rmsg) : Prop := fitsR r /\ blen (marshalR 0 r) < 4294967296.
Definition answered (r : option (answerOf rmsg)) (u : table) : Prop :=
  fine_table u /\ match r with Some (inl e) => short e | Some (inr a) => fits_answer a | None => False end.
Definition made {A} (f : A -> rmsg) (r : option (answerOf A)) (u : table) : Prop :=
  fine_table u /\ match r with Some (inl e) => short e | Some (inr a) => fits_answer (f a) | None => False end.
Lemma wpp_wrap {A} (f : A -> rmsg) p u : wpp p u (made f) -> wpp (wrapR f p) u answered.
Proof. intros H. unfold wrapR. apply wpp_bind. eapply wpp_mono; [|exact H]. intros [[e|a]|] u' [X Y]; split; assumption. Qed.
Lemma got {A} u fid (k : answerOf file -> prog A) Q : fine_table u -> wpp (k (inl (str "does not exist"))) u Q -> (forall f, u fid = Some f -> fine_file f -> wpp (k (inr f)) u Q) -> wpp (bind (getFile fid) k) u Q.
Proof.
  intros Hu H1 H2. unfold getFile. cbn [bind wpp]. intros [] _ _ x Hx _ [] _ _. cbn in Hx |- *. subst x. destruct (u fid) as [f|] eqn:E; cbn [fail ok bind]; [|exact H1]. apply H2; [reflexivity|exact (Hu _ _ E)].
Qed.
Lemma size_of r n : blen (concat (snd (wireR r))) <= n -> n + 7 < 4294967296 -> blen (marshalR 0 r) < 4294967296.
Proof. intros H1 H2. pose proof (marshalM_blen 0 (MR r)) as L0. cbn [marshalM wireM] in L0. rewrite L0. lia. Qed.
Lemma fits_small r : fitsR r -> blen (concat (snd (wireR r))) < 4294960000 -> fits_answer r.
Proof. intros H1 H2. split; [exact H1|]. apply (size_of r (blen (concat (snd (wireR r))))); lia. Qed.
Lemma qid_len q : blen (concat (qid13 q)) = 13.
Proof. unfold qid13. cbn [concat]. rewrite !blen_app, !le_blen. reflexivity. Qed.
Lemma fits_qids l : Forall fitsQID l -> blen l < 65536 -> fits_answer (MRwalk (mkRwalkPkt l)).
Proof.
  intros H1 H2. apply fits_small; [split; [exact H2|exact H1]|]. cbn [wireR snd concat]. rewrite app_nil_r, blen_app, le_blen.
  assert (X : blen (flat_map (fun q => concat (qid13 q)) l) = 13 * blen l).
  { clear. induction l as [|q l IH]; [reflexivity|]. cbn [flat_map]. rewrite blen_app, qid_len, IH, blen_cons. lia. }
  rewrite X. lia.
Qed.
Ltac small := apply fits_small; [cbn [fitsR]; try exact Logic.I|cbn [wireR snd]; rewrite ?concat_app, ?blen_app, ?qid_len; cbn [concat]; unfold blob, count32; rewrite ?blen_app, ?blen_text, ?le_blen, ?blen_nil; try reflexivity].
(** What the methods do and answer. *)
Ltac texts := repeat match goal with |- context [blen (str ?x)] => let v := eval vm_compute in (blen (str x)) in change (blen (str x)) with v end.
Ltac word := unfold short; rewrite ?blen_app; texts; try reflexivity; try lia; try (change bytes with (list byte) in *; lia).
Lemma made_fail {A} (f : A -> rmsg) u e : fine_table u -> short e -> wpp (fail e) u (made f).
Proof. intros H1 H2. split; assumption. Qed.
Lemma made_ok {A} (f : A -> rmsg) u a : fine_table u -> fits_answer (f a) -> wpp (ok a) u (made f).
Proof. intros H1 H2. split; assumption. Qed.

Lemma m_version a b u : fine_table u -> a < 4294967296 -> blen b < 65000 -> wpp (Rversion_ a b) u (made MRversion).
Proof.
  intros Hu Ha Hb. unfold Rversion_. destruct (list_eq_dec _ _ _) as [->|_].
  - apply made_ok; [exact Hu|]. small. split; [exact Ha|reflexivity].
  - apply made_fail; [exact Hu|]. word.
Qed.
Lemma m_attach a b d e u : fine_table u -> wpp (Rattach_ c a b d e) u (made MRattach).
Proof.
  intros Hu. unfold Rattach_. destruct (negb _); [apply made_fail; [exact Hu|word]|]. cbv zeta. cbn [wpp]. intros [x|fi] _ Hx; cbn in Hx; [apply made_fail; assumption|].
  cbn [wpp]. intros [] _ _. pose proof (info_qid _ Hx) as Q. apply made_ok.
  - apply fine_set; [exact Hu|]. split; [exact Q|reflexivity].
  - cbn [f_QID]. small. exact Q.
Qed.
Lemma walk_fine ps : forall p q u (Q : option walked -> table -> Prop), Forall fitsQID q ->
  (forall w, match w with WFail q' => Forall fitsQID q' /\ (List.length q' <= List.length q + List.length ps)%nat | WAll _ q' => Forall fitsQID q' /\ List.length q' = (List.length q + List.length ps)%nat end -> Q (Some w) u) -> wpp (walk_loop p ps q) u Q.
Proof.
  induction ps as [|e ps IH]; intros p q u Q Hq H; cbn [walk_loop wpp]; cbv zeta.
  - apply H. split; [exact Hq|cbn; lia].
  - intros [x|fi] _ Hx; cbn in Hx; cbn [wpp effect].
    + apply H. split; [exact Hq|lia].
    + apply IH; [apply Forall_app; split; [exact Hq|constructor; [exact (info_qid _ Hx)|constructor]]|]. intros w Hw. apply H. destruct w; rewrite app_length in Hw; cbn [List.length] in *; (split; [apply Hw|lia]).
Qed.
Lemma last_fine q : Forall fitsQID q -> fitsQID (last q zeroQID).
Proof. induction 1 as [|a l Ha _ IH]; [repeat split; reflexivity|]. destruct l; [exact Ha|exact IH]. Qed.
Lemma m_walk a b d u : fine_table u -> a < 4294967296 -> b < 4294967296 -> blen d < 65536 -> blen (concat d) + blen d < 65000 -> wpp (Rwalk_ a b d) u (made MRwalk).
Proof.
  intros Hu Ha Hb Hl Hd. pose proof (dec_len a Ha) as La. pose proof (dec_len b Hb) as Lb. pose proof (spaced_len d) as Ls. unfold Rwalk_. cbn [wpp]. intros [] _ _ x Hx _ [] _ _. cbn in Hx. cbn [effect].
  destruct x as [f|]; [|apply made_fail; [exact Hu|word]]. pose proof (Hu _ _ (eq_sym Hx)) as Hf. destruct d as [|d0 d].
  - cbn [wpp]. intros [] _ _ g _ _. cbn [effect]. destruct g as [g|]; cbn [wpp].
    + intros [] _ _. apply made_fail; [exact Hu|word].
    + intros [] _ _ [] _ _. apply made_ok; [apply fine_set; [exact Hu|exact Hf]|]. apply fits_qids; [constructor|reflexivity].
  - apply wpp_bind. apply walk_fine; [constructor|]. intros [q|p q] [W1 W2].
    + destruct q as [|q0 q]; [apply made_fail; [exact Hu|word]|]. apply made_ok; [exact Hu|]. apply fits_qids; [exact W1|]. unfold blen in *. cbn [List.length] in *. change bytes with (list byte) in *. lia.
    + cbn [wpp]. intros [] _ _. cbv zeta. cbn [effect]. assert (St : wpp (OPut b (mkFile (last q zeroQID) p None []) ;;; OUnlock ;;; ok (mkRwalkPkt q)) u (made MRwalk)).
      { cbn [wpp]. intros [] _ _ [] _ _. apply made_ok; [apply fine_set; [exact Hu|split; [apply last_fine, W1|reflexivity]]|]. apply fits_qids; [exact W1|]. unfold blen in *. cbn [List.length] in *. change bytes with (list byte) in *. lia. }
      destruct (negb _); [|exact St]. cbn [wpp]. intros g _ _. cbn [effect]. destruct g as [g|]; [|exact St]. cbn [wpp]. intros [] _ _. apply made_fail; [exact Hu|]. word.
Qed.
Lemma m_open a b u : IOunit c < 4294967296 -> fine_table u -> wpp (Ropen_ c a b) u (made MRopen).
Proof.
  intros Hc Hu. unfold Ropen_. cbn [wpp]. intros [] _ _ x Hx _ [] _ _. cbn in Hx. cbn [effect].
  destruct x as [f|]; [|apply made_fail; [exact Hu|word]]. pose proof (Hu _ _ (eq_sym Hx)) as [Q L]. cbn [wpp]. intros [e|h] _ He; cbn in He; cbn [wpp effect]; intros [] _ _.
  - apply made_fail; [|exact He]. apply fine_poke; [exact Hu|split; assumption].
  - apply made_ok; [apply fine_poke; [exact Hu|split; assumption]|]. small. split; assumption.
Qed.
Lemma m_create a b d e u : fine_table u -> wpp (Rcreate_ a b d e) u (made MRcreate).
Proof.
  intros Hu. unfold Rcreate_. apply got; [exact Hu|apply made_fail; [exact Hu|word]|]. intros f _ [Q L]. destruct (f_file f); [apply made_fail; [exact Hu|word]|]. cbv zeta.
  assert (St : forall v w, wpp (q <~ stat_ (Join (f_fullName f) b) ;; match q with inl e => fail e | inr q => OSet a (mkFile q v w (f_oflow f)) ;;; ok (mkRcreatePkt q 8000) end) u (made MRcreate)).
  { intros v w. unfold stat_. cbn [bind wpp]. intros [x|fi] _ Hx; cbn in Hx; cbn [bind fail ok effect]; [apply made_fail; [exact Hu|word]|]. pose proof (info_qid _ Hx) as Q1. cbn [wpp]. intros [] _ _.
    apply made_ok; [apply fine_poke; [exact Hu|split; assumption]|]. small. split; [exact Q1|reflexivity]. }
  destruct (negb _); cbn [wpp].
  - intros x _ _. apply St.
  - intros [x|h] _ Hx; cbn in Hx; [apply made_fail; assumption|]. apply St.
Qed.
Lemma m_clunk {A} fid u (k : answerOf file -> prog A) Q : fine_table u -> wpp (k (inl (str "does not exist"))) u Q -> (forall f u', fine_table u' -> wpp (k (inr f)) u' Q) -> wpp (bind (clunk fid) k) u Q.
Proof.
  intros Hu H1 H2. unfold clunk. cbn [bind wpp]. intros [] _ _ x _ _. cbn [effect]. destruct x as [f|]; cbn [bind wpp]; [|intros [] _ _; exact H1].
  intros [] _ _. cbn [effect]. assert (Hd : fine_table (set_fid u fid None)) by (apply fine_set; [exact Hu|exact Logic.I]).
  destruct (f_file f); cbn [bind wpp]; [intros y _ _|]; intros [] _ _; cbn [effect]; apply H2, Hd.
Qed.
Lemma m_rclunk a u : fine_table u -> wpp (Rclunk_ a) u (made MRclunk).
Proof. intros Hu. unfold Rclunk_. apply m_clunk; [exact Hu|apply made_fail; [exact Hu|word]|]. intros f u' Hu'. apply made_ok; [exact Hu'|]. small. Qed.
Lemma m_remove a u : fine_table u -> wpp (Rremove_ a) u (made MRremove).
Proof.
  intros Hu. unfold Rremove_. apply m_clunk; [exact Hu|apply made_fail; [exact Hu|word]|]. intros f u' Hu'. cbn [wpp]. intros [e|] _ He; cbn in He; cbn [effect].
  - apply made_fail; assumption.
  - apply made_ok; [exact Hu'|]. small.
Qed.
Lemma m_stat a u : fine_table u -> wpp (Rstat_ c a) u (made MRstat).
Proof.
  intros Hu. unfold Rstat_. apply got; [exact Hu|apply made_fail; [exact Hu|word]|]. intros f _ _. cbn [wpp]. intros [e|fi] _ He; cbn in He; cbn [effect].
  - apply made_fail; [exact Hu|word].
  - pose proof (info_record _ He) as L. apply made_ok; [exact Hu|]. small; [exact L|]. unfold short in L. lia.
Qed.
Lemma m_read a b d u : fine_table u -> in_i32 d -> (0 <= d)%Z -> wpp (Rread_ c a b d) u (made MRread).
Proof.
  intros Hu Hi Hd. assert (Hr : forall l u', fine_table u' -> (Z.of_N (blen l) <= d)%Z -> wpp (ok (mkRreadPkt l)) u' (made MRread)).
  { intros l u' H1 H2. apply made_ok; [exact H1|]. unfold in_i32 in Hi. small; unfold u32n; cbn [Rread_Data]; lia. }
  unfold Rread_. apply got; [exact Hu|apply made_fail; [exact Hu|word]|]. intros f _ [Q L]. destruct (f_file f) as [h|]; [|apply made_fail; [exact Hu|word]]. cbv zeta.
  assert (Sf : forall l u', fine_table u' -> blen l < 65536 -> fine_table (poke u' a (mkFile (f_QID f) (f_fullName f) (Some h) l))) by (intros l u' H1 H2; apply fine_poke; [exact H1|split; assumption]).
  destruct (negb _).
  - assert (En : forall l u', fine_table u' -> blen l < 65536 -> wpp (OSet a (mkFile (f_QID f) (f_fullName f) (Some h) []) ;;; if (d <? Z.of_N (blen l))%Z then OSet a (mkFile (f_QID f) (f_fullName f) (Some h) l) ;;; ok (mkRreadPkt []) else
        st <-- OReaddir h ;; match st with inl EOF => ok (mkRreadPkt l) | inl e => fail (err_text e) | inr st => if (d <? Z.of_N (blen (Marshaldir (dirTo9p2000Dir (user c) st))))%Z then ok (mkRreadPkt []) else ok (mkRreadPkt (Marshaldir (dirTo9p2000Dir (user c) st))) end) u' (made MRread)).
    { intros l u' H1 H2. cbn [wpp]. intros [] _ _. cbn [effect]. pose proof (Sf [] u' H1 eq_refl) as H3. destruct (Z.ltb_spec d (Z.of_N (blen l))); cbn [wpp].
      - intros [] _ _. cbn [effect]. apply Hr; [apply Sf; assumption|exact Hd].
      - intros [e|fi] _ He; cbn in He; cbn [effect].
        + destruct e; [apply Hr; [exact H3|assumption]|apply made_fail; assumption].
        + destruct (Z.ltb_spec d (Z.of_N (blen (Marshaldir (dirTo9p2000Dir (user c) fi))))); apply Hr; assumption. }
    destruct (b =? 0); [|apply En; assumption]. cbn [wpp]. intros [] _ _ [e|] _ He; cbn in He; cbn [effect].
    + apply made_fail; [apply Sf; [exact Hu|reflexivity]|exact He].
    + apply En; [apply Sf; [exact Hu|reflexivity]|reflexivity].
  - destruct (Z.ltb_spec d 0); [lia|]. cbn [wpp]. intros [l e] _ [H1 H2]. cbn [fst snd] in H1, H2. cbn [effect].
    destruct e as [[|t]|]; [| apply made_fail; assumption|]; (destruct (Z.ltb_spec d (Z.of_N (blen l))); [lia|apply Hr; [exact Hu|assumption]]).
Qed.
Lemma m_write a b d u : fine_table u -> wpp (Rwrite_ a b d) u (made MRwrite).
Proof.
  intros Hu. unfold Rwrite_. apply got; [exact Hu|apply made_fail; [exact Hu|word]|]. intros f _ _. destruct (f_file f) as [h|]; [|apply made_fail; [exact Hu|word]]. cbn [wpp]. intros [n e] _ He. cbn in He. cbn [effect].
  destruct e as [e|]; [apply made_fail; assumption|]. apply made_ok; [exact Hu|]. small. cbn [Rwrite_RLen]. unfold in_i32, i32. destruct (_ <? _)%Z eqn:E; lia.
Qed.
Lemma wpp_when {A} (f : A -> rmsg) cond p k u : (cond = true -> forall Q : option (answerOf unit) -> table -> Prop, (forall r : answerOf unit, match r with inl e => short e | inr _ => True end -> Q (Some r) u) -> wpp p u Q) -> wpp k u (made f) -> fine_table u -> wpp (when cond p k) u (made f).
Proof.
  intros Hp Hk Hu. unfold when. destruct cond; [|exact Hk]. apply wpp_bind. apply Hp; [reflexivity|]. intros [e|x] He; [apply made_fail; assumption|exact Hk].
Qed.
Lemma wpp_try (r : option oserr) u (Q : option (answerOf unit) -> table -> Prop) : match r with Some e => fine_err e | None => True end -> (forall r : answerOf unit, match r with inl e => short e | inr _ => True end -> Q (Some r) u) -> wpp (try_ r) u Q.
Proof. intros Hr HQ. destruct r as [e|]; cbn [try_ wpp fail ok]; apply HQ; [exact Hr|exact Logic.I]. Qed.
Lemma m_wstat a b u : fine_table u -> blen b < 65536 -> wpp (Rwstat_ c a b) u (made MRwstat).
Proof.
  intros Hu Hb. unfold Rwstat_. apply got; [exact Hu|apply made_fail; [exact Hu|word]|]. intros f _ Hf. pose proof (record_err b Hb) as He.
  destruct (Unmarshaldir (Buf b [])) as [d t rest err|] eqn:Eu; [|destruct (nopanicDir _ Eu)]. cbn [err_ok] in He. destruct err as [err|]; [apply made_fail; assumption|]. clear He. cbv zeta.
  assert (Ok : forall u', fine_table u' -> wpp (ok mkRwstatPkt) u' (made MRwstat)) by (intros u' H; apply made_ok; [exact H|small]).
  apply wpp_when; [|destruct (_ || _); [apply made_fail; [exact Hu|word]|]|exact Hu].
  - intros _ Q HQ. cbn [wpp]. intros r _ Hr. cbn in Hr. apply wpp_try; assumption.
  - apply wpp_bind. unfold wstat_rename.
    assert (Rest : forall f' u', fine_table u' -> wpp (when (negb (Dir_Length d =? dontcare64)) (r <-- OTruncate (f_fullName f') (i64 (Dir_Length d)) ;; try_ r)
              (when (negb (Dir_Mtime d =? dontcare32) || negb (Dir_Atime d =? dontcare32)) (wstat_times f' d)
              (if negb (negb (Dir_Mode d =? dontcare32) || negb (is_nil (Dir_Name d)) || negb (Dir_Length d =? dontcare64) || (negb (Dir_Mtime d =? dontcare32) || negb (Dir_Atime d =? dontcare32))) then
                match f_file f' with Some h => _ <-- OSync h ;; ok mkRwstatPkt | None => ok mkRwstatPkt end else ok mkRwstatPkt))) u' (made MRwstat)).
    { intros f' u' H. apply wpp_when; [| |exact H].
      - intros _ Q HQ. cbn [wpp]. intros r _ Hr. cbn in Hr. apply wpp_try; assumption.
      - apply wpp_when; [| |exact H].
        + intros _ Q HQ. unfold wstat_times. cbv zeta. destruct (_ || _); cbn [wpp].
          * intros [e|fi] _ He; cbn in He; cbn [wpp fail effect]; [apply HQ, He|]. intros r _ Hr. cbn in Hr. apply wpp_try; assumption.
          * intros r _ Hr. cbn in Hr. apply wpp_try; assumption.
        + destruct (negb _); [|apply Ok, H]. destruct (f_file f'); [|apply Ok, H]. cbn [wpp]. intros r _ _. apply Ok, H. }
    destruct (is_nil (Dir_Name d)); [cbn [ok wpp]; apply Rest, Hu|]. cbv zeta. cbn [wpp]. intros st _ _. cbn [effect]. destruct (match st with inl _ => _ | inr _ => _ end); [split; [exact Hu|word]|].
    cbn [wpp]. intros [e|] _ He; cbn in He; cbn [wpp fail ok effect]; [split; [exact Hu|exact He]|]. intros [] _ _. apply Rest, fine_poke; [exact Hu|exact Hf].
Qed.
Theorem method_fits m u : IOunit c < 4294967296 -> fitsT m -> modest m -> fine_table u -> wpp (method c m) u answered.
Proof.
  intros Hc Hf Hm Hu. destruct m as [[]|[]|[]|[]|[]|[]|[]|[]|[]|[]|[]|[]]; cbn [fitsT modest method] in *; apply wpp_wrap.
  all: first [apply m_version; try assumption; apply Hf | apply m_attach; assumption | apply m_walk; try assumption; apply Hf | apply m_open; assumption | apply m_create; assumption
    | apply m_rclunk; assumption | apply m_remove; assumption | apply m_stat; assumption | apply m_read; try assumption; apply Hf | apply m_write; assumption | apply m_wstat; try assumption; apply Hf | idtac].
  apply made_ok; [exact Hu|small].
Qed.
End Fits.
Lemma ufs_method {W} c (h : os W) m u w : invoke (ufs c h) (u, w) m = match run_prog h (method c m) u w with (None, _, _, _) => NSPanic | (Some (inl e), u', w', _) => NSErr (u', w') e | (Some (inr a), u', w', _) => NSOk (u', w') a end.
Proof.
  assert (X : forall A (f : A -> rmsg) (p : prog (answerOf A)), nsmap f (to_ns h p (u, w)) = match run_prog h (wrapR f p) u w with (None, _, _, _) => NSPanic | (Some (inl e), u', w', _) => NSErr (u', w') e | (Some (inr a), u', w', _) => NSOk (u', w') a end).
  { intros A f p. unfold to_ns, wrapR. cbn [fst snd]. revert u w. induction p as [a|o k IH|]; intros u w; cbn [bind run_prog]; [destruct a; reflexivity| |reflexivity].
    destruct (answer_op h u o w) as [x w1]. specialize (IH x (effect o u) w1). destruct (run_prog h (k x) (effect o u) w1) as [[[r1 u1] z1] t1].
    destruct (run_prog h (bind (k x) _) (effect o u) w1) as [[[r2 u2] z2] t2]. exact IH. }
  destruct m as [[]|[]|[]|[]|[]|[]|[]|[]|[]|[]|[]|[]]; cbn [invoke method]; exact (X _ _ _).
Qed.
Lemma ufs_answers {W} c (h : os W) : decent c h -> forall reqs v u w, Forall (ok_in modest) reqs -> fine_table u ->
  exists reps st, answers (ufs c h) v (u, w) reqs = Some (reps, st) /\ Forall fits_rep reps.
Proof.
  intros Hd. induction reqs as [|[t m] reqs IH]; intros v u w Hr Hu; [eexists _, _; split; [reflexivity|constructor]|].
  inversion Hr as [|? ? [(Ht & Hf & Hl) Hm] Hr']; subst. cbn [fst snd] in *. cbn [answers]. unfold ServerSpec.answer. destruct (v || is_version m).
  - rewrite ufs_method. pose proof (run_wpp c h (method c m) Hd u w (answered) (method_fits c m u (proj1 Hd) Hf Hm Hu)) as X.
    destruct (run_prog h (method c m) u w) as [[[r u'] w'] tr]. destruct X as [Hu' X]. destruct r as [[e|a]|]; [| |contradiction X].
    + destruct (IH true u' w' Hr' Hu') as (reps & st & -> & F). eexists _, _. split; [reflexivity|]. constructor; [|exact F]. split; [exact Ht|]. apply error_fits, X.
    + destruct (IH true u' w' Hr' Hu') as (reps & st & -> & F). eexists _, _. split; [reflexivity|]. constructor; [|exact F]. split; [exact Ht|exact X].
  - destruct (IH false u w Hr' Hu) as (reps & st & -> & F). eexists _, _. split; [reflexivity|]. constructor; [|exact F]. split; [exact Ht|]. apply error_fits.
    pose proof (names_short (fst (wireT m))) as L. unfold short. rewrite !blen_app. change (blen (str "Dispatch: ")) with 10. change (blen (str " not allowed before Tversion")) with 28. lia.
Qed.
Lemma no_fids_fine : fine_table no_fids.
Proof. intros fid f H. discriminate H. Qed.
Theorem ufs_fitting {W} c (h : os W) w : decent c h -> fitting_from modest (ufs c h) (no_fids, w).
Proof. intros Hd reqs reps st Hr H. destruct (ufs_answers c h Hd reqs false no_fids w Hr no_fids_fine) as (reps' & st' & E & F). rewrite E in H. injection H as <- <-. exact F. Qed.
Theorem ufs_answering {W} c (h : os W) w : decent c h -> answering modest (ufs c h) (no_fids, w).
Proof. intros Hd reqs Hr H. destruct (ufs_answers c h Hd reqs false no_fids w Hr no_fids_fine) as (reps' & st' & E & F). congruence. Qed.

(** The serve loop against the message-level specification. *)
From Verif Require Import Base GoBuf CodecPrim Types Codec Gen GenThm GenInv Msgs GenEq CodecSpec MsgThm
  CodecLemmas CodecLemmas2 CodecLemmas3 CodecLemmas4 StubPrim Stubs Server ServerSpec ServerLemmas.

Definition finish {St} (e : env) (i : nat) (rest : list rev) (r : srvres (srv St)) : iter St :=
  match r with
  | SrvPanic => ICrash
  | SrvReply st out => match e_write e i with Some k => IDead st (Some (firstn k out)) | None => INext st out rest end
  end.

(** * Frames *)
Lemma frames_total n : forall bs, (List.length bs < n)%nat -> exists fs, frames_of bs fs.
Proof.
  induction n as [|n IH]; intros bs H; [lia|].
  destruct (Nat.lt_ge_cases (List.length bs) 7) as [L|L]; [exists []; constructor; exact L|].
  destruct bs as [|l0 [|l1 [|l2 [|l3 [|l4 [|l5 [|l6 rest]]]]]]]; cbn [List.length] in L; try lia.
  destruct (header_bytes l0 l1 l2 l3 l4 l5 l6) as (size & ty & tag & A & B & C & D & _).
  destruct (IH (skipn (N.to_nat (size - 7)) rest)) as [fs F]; [rewrite skipn_length; cbn [List.length] in H; lia|].
  exists (mkFrame ty tag (firstn (N.to_nat (size - 7)) rest) :: fs).
  change (l0 :: l1 :: l2 :: l3 :: l4 :: l5 :: l6 :: rest) with ([l0; l1; l2; l3; l4; l5; l6] ++ rest).
  rewrite D, <- !app_assoc. constructor; assumption.
Qed.
Lemma frames_exist bs : exists fs, frames_of bs fs.
Proof. apply (frames_total (S (List.length bs))). lia. Qed.

Lemma header_inj s1 ty1 t1 r1 s2 ty2 t2 r2 :
  s1 < 4294967296 -> ty1 < 256 -> t1 < 65536 -> s2 < 4294967296 -> ty2 < 256 -> t2 < 65536 ->
  le 4 s1 ++ le 1 ty1 ++ le 2 t1 ++ r1 = le 4 s2 ++ le 1 ty2 ++ le 2 t2 ++ r2 ->
  s1 = s2 /\ ty1 = ty2 /\ t1 = t2 /\ r1 = r2.
Proof.
  intros A B C D E F H. apply peel_le in H. destruct H as [H1 H]. apply peel_le in H. destruct H as [H2 H].
  apply peel_le in H. destruct H as [H3 H]. change (cap 4) with 4294967296 in H1. change (cap 1) with 256 in H2.
  rewrite cap2 in H3. rewrite !N.mod_small in H1, H2, H3 by assumption. auto.
Qed.
Lemma frames_inv bs fs : frames_of bs fs ->
  ((List.length bs < 7)%nat /\ fs = []) \/
  exists size ty tag rest fs', size < 4294967296 /\ ty < 256 /\ tag < 65536 /\
    bs = le 4 size ++ le 1 ty ++ le 2 tag ++ rest /\
    fs = mkFrame ty tag (firstn (N.to_nat (size - 7)) rest) :: fs' /\
    frames_of (skipn (N.to_nat (size - 7)) rest) fs'.
Proof. destruct 1; [left; auto|right]. do 5 eexists. repeat (split; [eassumption || reflexivity|]). assumption. Qed.
Lemma frames_det bs fs1 : frames_of bs fs1 -> forall fs2, frames_of bs fs2 -> fs1 = fs2.
Proof.
  induction 1 as [bs L|size ty tag rest fs A B C F IH]; intros fs2 G; apply frames_inv in G;
    destruct G as [[L' ->]|(size' & ty' & tag' & rest' & fs' & A' & B' & C' & E & -> & F')].
  - reflexivity.
  - subst bs. rewrite !app_length, !le_length in L. lia.
  - rewrite !app_length, !le_length in L'. lia.
  - apply header_inj in E; try assumption. destruct E as (-> & -> & -> & ->). f_equal. auto.
Qed.

(** * One turn of the loop *)
Lemma iter_cases {St} (ns : NineServer St) e i st evs :
  serve_iter ns e i st evs = IDead st None \/
  exists size ty tag rb rest,
    size < 4294967296 /\ ty < 256 /\ tag < 65536 /\
    stream evs = le 4 size ++ le 1 ty ++ le 2 tag ++ rb /\
    stream rest = skipn (N.to_nat (size - 7)) rb /\ (pending rest < pending evs)%nat /\
    serve_iter ns e i st evs
    = finish e i rest (Dispatch ns st (Buf (le 2 tag ++ firstn (N.to_nat (size - 7)) rb) (e_spare e i)) ty).
Proof.
  unfold serve_iter. destruct (net_read 7 evs) as [| |l evs1] eqn:R; [left; reflexivity..|].
  destruct l as [|l0 [|l1 [|l2 [|l3 [|l4 [|l5 [|l6 [|]]]]]]]]; try (left; reflexivity).
  destruct (header_bytes l0 l1 l2 l3 l4 l5 l6) as (size & ty & tag & A & B & C & D & -> & -> & ->).
  destruct (copy_limit _ evs1) as [[body evs2]|] eqn:X; [|left; reflexivity].
  apply copy_limit_stream in X. destruct X as (-> & X & P).
  pose proof (net_read_pending _ _ _ _ R) as P'. apply net_read_stream in R. destruct R as [R _].
  right. exists size, ty, tag, (stream evs1), evs2. repeat (split; [assumption|]).
  split; [rewrite R, D, <- !app_assoc; reflexivity|]. split; [exact X|].
  split; [cbn [List.length] in P'; lia|]. reflexivity.
Qed.

Lemma serve_frames {St} (ns : NineServer St) e : forall n evs i st, (pending evs < n)%nat ->
  exists fs fs', frames_of (stream evs) (fs ++ fs') /\ replies fs (r_out (serve_from ns e i st evs)).
Proof.
  induction n as [|n IH]; intros evs i st Hn; [lia|].
  rewrite serve_unfold.
  destruct (iter_cases ns e i st evs) as [E|(size & ty & tag & rb & rest & A & B & C & D & R & P & E)]; rewrite E.
  - destruct (frames_exist (stream evs)) as [fs F]. exists [], fs. split; [exact F|constructor].
  - destruct (Dispatch ns st _ ty) as [st' out|] eqn:X; cbn [finish].
    2:{ destruct (frames_exist (stream evs)) as [fs F]. exists [], fs. split; [exact F|constructor]. }
    apply Dispatch_reply in X; [|exact C].
    set (f := mkFrame ty tag (firstn (N.to_nat (size - 7)) rb)).
    assert (Hf : reply_to f out) by exact X.
    destruct (e_write e i) as [k|].
    + destruct (frames_exist (skipn (N.to_nat (size - 7)) rb)) as [fs F]. exists [f], fs. split.
      * rewrite D. constructor; assumption.
      * constructor. exact Hf.
    + destruct (IH rest (S i) st') as (fs & fs' & F & G); [lia|]. exists (f :: fs), fs'. split.
      * rewrite D. cbn [app]. constructor; try assumption. rewrite <- R. exact F.
      * cbn [r_out]. constructor; assumption.
Qed.

(** * Chunks *)
Lemma skipn_skipn {A} a : forall b (l : list A), skipn a (skipn b l) = skipn (b + a) l.
Proof.
  intros b. induction b as [|b IH]; intros l; [reflexivity|]. destruct l; [rewrite !skipn_nil; reflexivity|apply IH].
Qed.
Fixpoint dropc (n : nat) (cs : list bytes) : list bytes :=
  match cs with
  | [] => []
  | c :: r => match skipn n c with [] => dropc (n - List.length c) r | c' => c' :: r end
  end.
Lemma dropc_concat cs : forall n, concat (dropc n cs) = skipn n (concat cs).
Proof.
  induction cs as [|c r IH]; intros n; cbn [dropc concat]; [rewrite skipn_nil; reflexivity|].
  rewrite skipn_app. destruct (skipn n c) eqn:E.
  - rewrite IH. reflexivity.
  - cbn [concat]. f_equal.
    assert (n < List.length c)%nat.
    { apply (f_equal (@List.length byte)) in E. rewrite skipn_length in E. cbn [List.length] in E. lia. }
    replace (n - List.length c)%nat with 0%nat by lia. reflexivity.
Qed.
Lemma dropc_dropc cs : forall a b, dropc b (dropc a cs) = dropc (a + b) cs.
Proof.
  induction cs as [|c r IH]; intros a b; cbn [dropc]; [reflexivity|].
  destruct (skipn a c) as [|x l] eqn:E.
  - pose proof (skipn_nil_le _ _ E) as L. rewrite (skipn_all2 c) by lia. rewrite IH. f_equal. lia.
  - assert (a < List.length c)%nat.
    { pose proof (f_equal (@List.length byte) E) as G. rewrite skipn_length in G. cbn [List.length] in G. lia. }
    cbn [dropc]. rewrite <- E, skipn_skipn.
    destruct (skipn (a + b) c); [|reflexivity]. rewrite skipn_length. f_equal. lia.
Qed.
Lemma dropc_nonempty cs : forall n, nonempty cs -> nonempty (dropc n cs).
Proof.
  induction cs as [|c r IH]; intros n H; cbn [dropc]; [constructor|]. inversion H; subst.
  destruct (skipn n c) eqn:E; [apply IH; assumption|]. constructor; [discriminate|assumption].
Qed.
Lemma dropc_0 cs : nonempty cs -> dropc 0 cs = cs.
Proof. intros H. destruct H as [|c r Hc]; cbn [dropc skipn]; [reflexivity|]. destruct c; [contradiction|reflexivity]. Qed.
Lemma dropc_cut cs : forall n p, (n <= List.length (concat cs))%nat -> cut_at (dropc n cs) p -> p = 0%nat \/ cut_at cs (n + p).
Proof.
  induction cs as [|c r IH]; intros n p Hn (l1 & l2 & E & ->); cbn [dropc] in E.
  - destruct l1; [left; reflexivity|discriminate].
  - destruct (skipn n c) eqn:F.
    + pose proof (skipn_nil_le _ _ F) as L. cbn [concat] in Hn. rewrite app_length in Hn.
      destruct (IH (n - List.length c)%nat (List.length (concat l1))) as [H|H]; [lia|exists l1, l2; auto|left; exact H|].
      right. destruct H as (k1 & k2 & -> & H). exists (c :: k1), k2. split; [reflexivity|]. cbn [concat]. rewrite app_length. lia.
    + assert (n < List.length c)%nat.
      { pose proof (f_equal (@List.length byte) F) as G. rewrite skipn_length in G. cbn [List.length] in G. lia. }
      destruct l1 as [|x l1]; [left; reflexivity|]. injection E as <- ->. right.
      exists (c :: l1), l2. split; [reflexivity|]. cbn [concat]. rewrite !app_length, <- F, skipn_length. lia.
Qed.
Lemma header_shift bs n : header_at bs n -> forall o, header_at (skipn n bs) o -> (n <= List.length bs)%nat -> header_at bs (n + o).
Proof.
  intros H o G L. induction G as [|o G IH X]; [rewrite Nat.add_0_r; exact H|].
  rewrite skipn_length in X. rewrite Nat.add_assoc. rewrite skipn_skipn.
  apply ha_next; [exact IH|lia].
Qed.
Lemma skipn_beyond {A} n (l : list A) : (List.length l <= n)%nat -> skipn n l = [].
Proof. intros. apply skipn_all2. assumption. Qed.
Lemma headers_whole_drop cs n : headers_whole cs -> header_at (concat cs) n -> headers_whole (dropc n cs).
Proof.
  intros H Hn o p Ho Hp L. rewrite dropc_concat in *. rewrite skipn_length in L.
  destruct (Nat.le_gt_cases n (List.length (concat cs))) as [G|G]; [|lia].
  apply dropc_cut in Hp; [|exact G]. destruct Hp as [->|Hp]; [lia|].
  specialize (H (n + o)%nat (n + p)%nat (header_shift _ _ Hn _ Ho G) Hp). lia.
Qed.

Lemma net_read_drop (c : bytes) (cs : list bytes) : (7 <= List.length c)%nat -> nonempty cs ->
  net_read 7 (map Chunk (c :: cs)) = RdData (firstn 7 (concat (c :: cs))) (map Chunk (dropc 7 (c :: cs))).
Proof.
  intros L H. cbn [map net_read dropc concat]. rewrite firstn_app_le by exact L. f_equal.
  destruct (skipn 7 c) eqn:E; [|reflexivity].
  assert (List.length c = 7)%nat as -> by (apply skipn_nil_le in E; lia).
  rewrite Nat.sub_diag, dropc_0 by exact H. reflexivity.
Qed.
Lemma copy_limit_drop cs : forall n, nonempty cs -> copy_limit n (map Chunk cs) = Some (firstn n (concat cs), map Chunk (dropc n cs)).
Proof.
  induction cs as [|c r IH]; intros n H.
  - destruct n; reflexivity.
  - destruct n as [|n]; [cbn [map copy_limit firstn]; rewrite dropc_0 by exact H; reflexivity|].
    inversion H; subst. cbn [map copy_limit dropc concat]. rewrite firstn_app.
    destruct (skipn (S n) c) eqn:E.
    + rewrite IH by assumption. rewrite (firstn_all2 c) by (apply skipn_nil_le, E). reflexivity.
    + assert (S n < List.length c)%nat.
      { apply (f_equal (@List.length byte)) in E. rewrite skipn_length in E. cbn [List.length] in E. lia. }
      replace (S n - List.length c)%nat with 0%nat by lia. cbn [firstn]. rewrite app_nil_r. reflexivity.
Qed.

Lemma iter_short {St} (ns : NineServer St) e i st evs : (List.length (stream evs) < 7)%nat -> serve_iter ns e i st evs = IDead st None.
Proof.
  intros H. destruct (iter_cases ns e i st evs) as [E|(size & ty & tag & rb & rest & A & B & C & D & _)]; [exact E|].
  rewrite D, !app_length, !le_length in H. lia.
Qed.
Lemma iter_chunks {St} (ns : NineServer St) e i st cs :
  nonempty cs -> headers_whole cs -> (7 <= List.length (concat cs))%nat ->
  exists size ty tag rb cs',
    size < 4294967296 /\ ty < 256 /\ tag < 65536 /\
    concat cs = le 4 size ++ le 1 ty ++ le 2 tag ++ rb /\
    concat cs' = skipn (N.to_nat (size - 7)) rb /\ nonempty cs' /\ headers_whole cs' /\
    serve_iter ns e i st (map Chunk cs)
    = finish e i (map Chunk cs') (Dispatch ns st (Buf (le 2 tag ++ firstn (N.to_nat (size - 7)) rb) (e_spare e i)) ty).
Proof.
  intros Hne Hw L. destruct cs as [|c cs]; [cbn in L; lia|]. inversion Hne as [|? ? Hc Hne']; subst.
  assert (Lc : (7 <= List.length c)%nat).
  { specialize (Hw 0%nat (List.length c) (ha_0 _)).
    assert (0 < List.length c)%nat by (destruct c; [contradiction|cbn; lia]).
    destruct (Nat.le_gt_cases 7 (List.length c)); [assumption|]. exfalso. apply Hw; try lia.
    exists [c], cs. split; [reflexivity|]. cbn [concat]. rewrite app_nil_r. reflexivity. }
  assert (exists l0 l1 l2 l3 l4 l5 l6 rb, concat (c :: cs) = [l0; l1; l2; l3; l4; l5; l6] ++ rb) as (l0 & l1 & l2 & l3 & l4 & l5 & l6 & rb & Q).
  { revert L. generalize (concat (c :: cs)) as x. intros x L.
    destruct x as [|l0 [|l1 [|l2 [|l3 [|l4 [|l5 [|l6 rb]]]]]]]; cbn [List.length] in L; try lia.
    exists l0, l1, l2, l3, l4, l5, l6, rb. reflexivity. }
  destruct (header_bytes l0 l1 l2 l3 l4 l5 l6) as (size & ty & tag & A & B & C & D & X1 & X2 & X3).
  exists size, ty, tag, rb, (dropc (N.to_nat (size - 7)) (dropc 7 (c :: cs))).
  repeat (split; [assumption|]).
  assert (Q' : concat (c :: cs) = le 4 size ++ le 1 ty ++ le 2 tag ++ rb) by (rewrite Q, D, <- !app_assoc; reflexivity).
  assert (Q7 : skipn 7 (concat (c :: cs)) = rb) by (rewrite Q; reflexivity).
  split; [exact Q'|]. split; [rewrite !dropc_concat, Q7; reflexivity|].
  split; [apply dropc_nonempty, dropc_nonempty; exact Hne|].
  split.
  { rewrite dropc_dropc. apply headers_whole_drop; [exact Hw|].
    replace (7 + N.to_nat (size - 7))%nat with (0 + Nat.max 7 (N.to_nat (unle (firstn 4 (skipn 0 (concat (c :: cs)))))))%nat.
    - apply ha_next; [constructor|lia].
    - cbn [skipn]. rewrite Q'. replace (firstn 4 (le 4 size ++ le 1 ty ++ le 2 tag ++ rb)) with (le 4 size) by reflexivity.
      rewrite unle_le_small by exact A. lia. }
  pose proof (net_read_drop c cs Lc Hne') as NR. rewrite Q in NR. cbn [firstn app] in NR.
  unfold serve_iter. rewrite NR.
  rewrite X1, X2. rewrite copy_limit_drop by (apply dropc_nonempty; exact Hne).
  rewrite dropc_concat, Q7. change (l5 :: l6 :: firstn (N.to_nat (size - 7)) rb) with ([l5; l6] ++ firstn (N.to_nat (size - 7)) rb).
  rewrite X3. reflexivity.
Qed.

(** Properties of generated codecs, for every schema. *)
From Verif Require Import Base GoBuf CodecPrim Gen.

(** * Well-formed schemas and values *)
Definition ok0 (l : leaf0) : Prop := match l with LInt w => (1 <= w <= 8)%nat | _ => True end.
Definition okl (l : leaf) : Prop :=
  match l with L0 l => ok0 l | LSlice es => Forall ok0 es | LData k => (1 <= k <= 8)%nat end.
Definition wf0 (l : leaf0) (v : v0) : Prop :=
  match l, v with
  | LInt w, VI n => n < cap w
  | LCount, VC z => in_i32 z
  | LStr, VS s => blen s < 65536
  | _, _ => False
  end.
Definition wf0s := Forall2 wf0.
Definition wf (l : leaf) (v : val) : Prop :=
  match l, v with
  | L0 l, V0 v => wf0 l v
  | LSlice es, VSl vs => glen vs < 65536 /\ Forall (wf0s es) vs
  | LData k, VD d => blen d < cap k
  | _, _ => False
  end.
Definition wfs := Forall2 wf.
Definition nodata (l : leaf) : Prop := match l with LData _ => False | _ => True end.

(** * Arithmetic of the scratch array *)
Lemma cap_pow k : cap k = 2 ^ (8 * N.of_nat k).
Proof. unfold cap. rewrite N.pow_mul_r. reflexivity. Qed.
Lemma cap2 : cap 2 = 65536. Proof. reflexivity. Qed.

Lemma unle_firstn_S n u :
  unle (firstn (S n) u) = unle (firstn n u) + ub u n * 2 ^ (8 * N.of_nat n).
Proof.
  revert u; induction n as [|n IH]; intros [|b u].
  - reflexivity.
  - cbn [firstn unle]. unfold ub. cbn [nth N.of_nat]. rewrite N.mul_0_r, N.pow_0_r. lia.
  - cbn [firstn unle]. reflexivity.
  - change (firstn (S (S n)) (b :: u)) with (b :: firstn (S n) u).
    change (firstn (S n) (b :: u)) with (b :: firstn n u).
    cbn [unle]. rewrite IH. unfold ub. cbn [nth].
    replace (8 * N.of_nat (S n)) with (8 + 8 * N.of_nat n) by lia.
    rewrite N.pow_add_r. change (2 ^ 8) with 256. lia.
Qed.

Lemma genint_unle w u : (1 <= w)%nat -> genint w u = unle (firstn w u).
Proof.
  intros Hw. destruct w as [|w]; [lia|]. clear Hw. unfold genint.
  replace (S w - 1)%nat with w by lia.
  induction w as [|w IH].
  - rewrite unle_firstn_S. cbn [seq fold_left firstn unle N.of_nat].
    rewrite N.mul_0_r, N.pow_0_r. lia.
  - rewrite seq_S, fold_left_app, IH. cbn [fold_left].
    rewrite (unle_firstn_S (S w)).
    change (1 + w)%nat with (S w).
    rewrite N.shiftl_mul_pow2. apply lor_low_add.
    rewrite <- cap_pow. eapply N.lt_le_trans; [apply unle_lt|].
    unfold cap. apply N.pow_le_mono_r; [lia|]. rewrite firstn_length. lia.
Qed.

Lemma gencount_genint u : (4 <= List.length u)%nat -> gencount u = i32 (genint 4 u).
Proof.
  intros H. rewrite genint_unle by lia. rewrite <- getint_unle, <- getcount_getint by exact H.
  unfold gencount, getcount. cbn [fold_left seq]. unfold ub.
  rewrite N.mul_0_r, N.shiftl_0_r. reflexivity.
Qed.

Lemma tagint u : N.lor (ub u 0) (N.shiftl (ub u 1) 8) = genint 2 u.
Proof. reflexivity. Qed.

Lemma genint_lt w u : (1 <= w)%nat -> genint w u < cap w.
Proof.
  intros H. rewrite genint_unle by exact H. eapply N.lt_le_trans; [apply unle_lt|].
  unfold cap. apply N.pow_le_mono_r; [lia|]. rewrite firstn_length. lia.
Qed.

(** * Round trip *)
Lemma overlay_length u x : (List.length x <= List.length u)%nat -> List.length (overlay u x) = List.length u.
Proof. intros H. unfold overlay. rewrite app_length, skipn_length. lia. Qed.

Lemma rd_exact {R} n u x r sp (f : buf -> R) k :
  List.length x = n -> (1 <= n)%nat ->
  rd n u (Buf (x ++ r) sp) f k = k (overlay u x) (Buf r sp).
Proof.
  intros Hx Hn. unfold rd, buf_read. cbn [unread spare].
  destruct (x ++ r) as [|a l] eqn:E.
  { destruct x; cbn in *; [lia|discriminate]. }
  rewrite <- E. subst n.
  rewrite firstn_app, skipn_app, Nat.sub_diag, firstn_all, skipn_all. cbn [firstn skipn].
  rewrite app_nil_r. reflexivity.
Qed.

Lemma genint_overlay w u n : (1 <= w)%nat -> n < cap w -> genint w (overlay u (le w n)) = n.
Proof.
  intros Hw Hn. rewrite genint_unle by exact Hw. unfold overlay.
  rewrite firstn_app, le_length, Nat.sub_diag. cbn [firstn]. rewrite app_nil_r.
  rewrite firstn_all2 by (rewrite le_length; lia). apply unle_le_small, Hn.
Qed.

Lemma buf_next_app s r sp l : l = blen s -> buf_next l (Buf (s ++ r) sp) = Buf r sp.
Proof.
  intros ->. unfold buf_next, buf_len. cbn [unread spare]. rewrite blen_app.
  destruct (N.leb_spec (blen s + blen r) (blen s)) as [H|H].
  - rewrite (blen_0 r) by lia. reflexivity.
  - unfold blen. rewrite Nat2N.id, skipn_app, skipn_all, Nat.sub_diag. reflexivity.
Qed.
Lemma buf_reslice_app s r sp l : l = blen s -> buf_reslice l (Buf (s ++ r) sp) = Some s.
Proof.
  intros ->. unfold buf_reslice. cbn [unread spare]. rewrite blen_app.
  destruct (N.leb_spec (blen s) (blen s + blen r + blen sp)) as [H|H]; [|lia].
  unfold blen. rewrite Nat2N.id, <- app_assoc, firstn_app, firstn_all, Nat.sub_diag.
  cbn [firstn]. rewrite app_nil_r. reflexivity.
Qed.
Lemma buf_len_app s r sp : buf_len (Buf (s ++ r) sp) = blen s + blen r.
Proof. unfold buf_len. cbn [unread]. apply blen_app. Qed.

Lemma dec0_enc0 l v u r sp :
  ok0 l -> wf0 l v -> List.length u = 8%nat ->
  exists u', List.length u' = 8%nat /\ dec0 l u (Buf (enc0 l v ++ r) sp) = LNext v u' (Buf r sp).
Proof.
  intros Hok Hwf Hu. destruct l as [w| |]; destruct v as [n|z|s]; cbn [wf0] in Hwf; try contradiction; cbn [enc0 dec0].
  - cbn [ok0] in Hok. rewrite putint_le, rd_exact by (rewrite ?le_length; lia).
    rewrite genint_overlay by (try lia; exact Hwf).
    eexists; split; [|reflexivity].
    rewrite overlay_length; rewrite ?le_length; lia.
  - rewrite putint_z_4, putint_le, rd_exact by (rewrite ?le_length; lia).
    rewrite gencount_genint by (rewrite overlay_length; rewrite ?le_length; lia).
    rewrite genint_overlay by (try lia; apply u32_of_z_lt).
    rewrite i32_u32 by exact Hwf.
    eexists; split; [|reflexivity].
    rewrite overlay_length; rewrite ?le_length; lia.
  - rewrite putint_le, <- app_assoc, rd_exact by (rewrite ?le_length; lia).
    rewrite genint_overlay by (try lia; exact Hwf).
    rewrite buf_len_app. destruct (N.ltb_spec (blen s + blen r) (blen s)) as [H|_]; [lia|].
    unfold reslice. rewrite buf_reslice_app, buf_next_app by reflexivity.
    eexists; split; [|reflexivity].
    rewrite overlay_length; rewrite ?le_length; lia.
Qed.

Lemma dec0s_enc0s ls vs u r sp :
  Forall ok0 ls -> wf0s ls vs -> List.length u = 8%nat ->
  exists u', List.length u' = 8%nat /\ dec0s ls u (Buf (enc0s ls vs ++ r) sp) = LNext vs u' (Buf r sp).
Proof.
  intros Hok Hwf. revert u Hok. induction Hwf as [|l v ls vs H Hwf IH]; intros u Hok Hu; cbn [dec0s enc0s].
  - eexists; split; [exact Hu|reflexivity].
  - inversion Hok; subst. rewrite <- app_assoc.
    destruct (dec0_enc0 l v u (enc0s ls vs ++ r) sp) as (u1 & Hu1 & E); auto. rewrite E. cbn [lbind].
    destruct (IH u1) as (u2 & Hu2 & E2); auto. rewrite E2. cbn [lmap lbind]. eauto.
Qed.

Lemma for_range_enc es vs (z : list v0) u r sp {R} (p : R) ret k :
  Forall ok0 es -> Forall (wf0s es) vs -> List.length u = 8%nat ->
  exists u', List.length u' = 8%nat /\
    for_range z (List.length vs) u (Buf (flat_map (enc0s es) vs ++ r) sp) (dec0s es) p ret k
    = k vs u' (Buf r sp).
Proof.
  intros Hok Hwf. revert u ret k. induction Hwf as [|v vs H Hwf IH]; intros u ret k Hu; cbn [for_range flat_map List.length].
  - eexists; split; [exact Hu|reflexivity].
  - rewrite <- app_assoc.
    destruct (dec0s_enc0s es v u (flat_map (enc0s es) vs ++ r) sp) as (u1 & Hu1 & E); auto. rewrite E.
    destruct (IH u1 (fun l b e => ret (v :: l) b e) (fun l u b => k (v :: l) u b) Hu1) as (u2 & Hu2 & E2).
    eauto.
Qed.

Lemma dec1_enc l v u r sp :
  okl l -> wf l v -> List.length u = 8%nat ->
  exists u', List.length u' = 8%nat /\ dec1 l u (Buf (enc l v ++ r) sp) = LNext v u' (Buf r sp).
Proof.
  intros Hok Hwf Hu. destruct l as [l|es|k]; destruct v as [v|vs|d]; cbn [wf] in Hwf; try contradiction; cbn [enc dec1 okl] in *.
  - destruct (dec0_enc0 l v u r sp) as (u' & H & E); auto. rewrite E. eauto.
  - destruct Hwf as [Hlen Hwf].
    rewrite putint_le, <- app_assoc, rd_exact by (rewrite ?le_length; lia).
    rewrite genint_overlay by (try lia; exact Hlen).
    unfold glen. rewrite Nat2N.id.
    apply for_range_enc; auto. rewrite overlay_length; rewrite ?le_length; lia.
  - rewrite putint_le, <- app_assoc, rd_exact by (rewrite ?le_length; lia).
    rewrite genint_overlay by (try lia; exact Hwf).
    unfold reslice. rewrite buf_reslice_app, buf_next_app by reflexivity.
    eexists; split; [|reflexivity].
    rewrite overlay_length; rewrite ?le_length; lia.
Qed.

Lemma decs_encs_app ls1 ls2 vs u r sp :
  Forall okl ls1 -> wfs ls1 vs -> List.length u = 8%nat ->
  exists u', List.length u' = 8%nat /\
    decs (ls1 ++ ls2) u (Buf (encs ls1 vs ++ r) sp)
    = lbind (decs ls2 u' (Buf r sp)) (fun vs2 u b => LNext (vs ++ vs2) u b) (fun vs2 => vs ++ vs2).
Proof.
  intros Hok Hwf. revert u Hok. induction Hwf as [|l v ls vs H Hwf IH]; intros u Hok Hu; cbn [decs encs app].
  - exists u; split; [exact Hu|]. destruct (decs ls2 u (Buf r sp)); reflexivity.
  - inversion Hok; subst. rewrite <- app_assoc.
    destruct (dec1_enc l v u (encs ls vs ++ r) sp) as (u1 & Hu1 & E); auto. rewrite E. cbn [lbind].
    destruct (IH u1) as (u2 & Hu2 & E2); auto. rewrite E2.
    exists u2; split; [exact Hu2|]. destruct (decs ls2 u2 (Buf r sp)); reflexivity.
Qed.
Lemma decs_encs ls vs u r sp :
  Forall okl ls -> wfs ls vs -> List.length u = 8%nat ->
  exists u', List.length u' = 8%nat /\ decs ls u (Buf (encs ls vs ++ r) sp) = LNext vs u' (Buf r sp).
Proof.
  intros Hok Hwf Hu.
  destruct (decs_encs_app ls [] vs u r sp Hok Hwf Hu) as (u' & H & E).
  rewrite app_nil_r in E. exists u'; split; [exact H|]. rewrite E. cbn [decs lbind]. rewrite app_nil_r. reflexivity.
Qed.

(** Decoding a well-formed message followed by [r]. *)
Theorem unmarshal_marshal ls vs t r sp :
  Forall okl ls -> wfs ls vs -> t < 65536 ->
  unmarshal_pkt ls (Buf (le 2 t ++ encs ls vs ++ r) sp)
  = URet vs t (Buf r sp) (if 0 <? blen r then Some (err_long (Buf r sp)) else None).
Proof.
  intros Hok Hwf Ht. unfold unmarshal_pkt.
  rewrite rd_exact by (rewrite ?le_length; lia).
  rewrite tagint, genint_overlay by (try lia; exact Ht).
  rewrite N.mod_small by exact Ht.
  destruct (decs_encs ls vs (overlay u_zero (le 2 t)) r sp Hok Hwf) as (u' & _ & E); [reflexivity|].
  rewrite E. unfold buf_len. cbn [unread]. destruct (0 <? blen r); reflexivity.
Qed.

(** * What a marshalled packet looks like *)
Lemma set_len4_spec r :
  set_len4 ([x00; x00; x00; x00] ++ r) = le 4 (4 + blen r) ++ r.
Proof.
  unfold set_len4. rewrite blen_app. change (blen [x00; x00; x00; x00]) with 4.
  unfold overlay. cbn [List.length app skipn].
  rewrite <- putint_le. unfold putint. cbn [seq map].
  rewrite N.mul_0_r, N.shiftr_0_r. reflexivity.
Qed.
Theorem marshal_pkt_bytes ls ty t vs :
  marshal_pkt ls ty t vs = le 4 (7 + blen (encs ls vs)) ++ u8 ty :: le 2 t ++ encs ls vs.
Proof.
  unfold marshal_pkt.
  change ([x00; x00; x00; x00; u8 ty] ++ putint 2 t ++ encs ls vs)
    with ([x00; x00; x00; x00] ++ (u8 ty :: putint 2 t ++ encs ls vs)).
  rewrite set_len4_spec, blen_cons, blen_app, !putint_le, le_blen.
  f_equal. f_equal. lia.
Qed.
Lemma marshal_pkt_body ls ty t vs : skipn 5 (marshal_pkt ls ty t vs) = le 2 t ++ encs ls vs.
Proof. rewrite marshal_pkt_bytes. reflexivity. Qed.
Theorem marshal_stat_bytes ls vs :
  marshal_stat ls vs = le 2 (blen (encs ls vs)) ++ encs ls vs.
Proof.
  unfold marshal_stat, set_len2. rewrite blen_app. change (blen [x00; x00]) with 2.
  unfold overlay. cbn [List.length app skipn].
  rewrite <- putint_le. unfold putint. cbn [seq map].
  rewrite N.mul_0_r, N.shiftr_0_r. replace (2 + blen (encs ls vs) - 2) with (blen (encs ls vs)) by lia.
  reflexivity.
Qed.
Theorem unmarshal_stat_marshal ls vs r sp :
  Forall okl ls -> wfs ls vs ->
  unmarshal_stat ls (Buf (marshal_stat ls vs ++ r) sp) = URet vs 0 (Buf r sp) None.
Proof.
  intros Hok Hwf. rewrite marshal_stat_bytes. unfold unmarshal_stat.
  rewrite <- app_assoc, buf_next_app by (rewrite le_blen; reflexivity).
  destruct (decs_encs ls vs u_zero r sp Hok Hwf) as (u' & _ & E); [reflexivity|].
  rewrite E. reflexivity.
Qed.

(** * No panics without byte-slice fields *)
Lemma buf_reslice_le l b : l <= buf_len b -> buf_reslice l b = Some (firstn (N.to_nat l) (unread b)).
Proof.
  intros H. unfold buf_reslice. unfold buf_len in H.
  destruct (N.leb_spec l (blen (unread b) + blen (spare b))); [|lia].
  rewrite firstn_app. unfold blen in *.
  replace (N.to_nat l - List.length (unread b))%nat with O by lia.
  cbn [firstn]. rewrite app_nil_r. reflexivity.
Qed.

Lemma dec0_nopanic l u b : dec0 l u b <> LPanic.
Proof.
  destruct l; cbn [dec0]; unfold rd; destruct (buf_read _ b) as [[x b']|]; try discriminate.
  destruct (N.ltb_spec (buf_len b') (genint 2 (overlay u x))); [discriminate|].
  unfold reslice. rewrite buf_reslice_le by lia. discriminate.
Qed.
Lemma lbind_nopanic {A B} (r : lres A) (f : A -> bytes -> buf -> lres B) g :
  r <> LPanic -> (forall a u b, f a u b <> LPanic) -> lbind r f g <> LPanic.
Proof. intros H Hf. destruct r; cbn [lbind]; [apply Hf|discriminate|congruence]. Qed.
Lemma dec0s_nopanic ls u b : dec0s ls u b <> LPanic.
Proof.
  revert u b. induction ls as [|l ls IH]; intros u b; cbn [dec0s]; [discriminate|].
  apply lbind_nopanic; [apply dec0_nopanic|]. intros. apply lbind_nopanic; [apply IH|discriminate].
Qed.
Lemma for_range_nopanic {A B} (z : A) n u b body (f : list A -> B) :
  (forall u b, body u b <> LPanic) ->
  for_range z n u b body LPanic (fun vs b e => LRet (f vs) b e) (fun vs u b => LNext (f vs) u b) <> LPanic.
Proof.
  intros Hb. revert u b f. induction n as [|n IH]; intros u b f; cbn [for_range]; [discriminate|].
  specialize (Hb u b). destruct (body u b); [|discriminate|congruence].
  apply (IH u0 b0 (fun l => f (a :: l))).
Qed.
Lemma dec1_nopanic l u b : nodata l -> dec1 l u b <> LPanic.
Proof.
  intros H. destruct l as [l|es|k]; cbn [dec1 nodata] in *; [| |contradiction].
  - apply lbind_nopanic; [apply dec0_nopanic|discriminate].
  - unfold rd. destruct (buf_read 2 b) as [[x b']|]; [|discriminate].
    apply (for_range_nopanic _ _ _ _ _ VSl). intros. apply dec0s_nopanic.
Qed.
Lemma decs_nopanic ls u b : Forall nodata ls -> decs ls u b <> LPanic.
Proof.
  intros H. revert u b. induction H as [|l ls Hl H IH]; intros u b; cbn [decs]; [discriminate|].
  apply lbind_nopanic; [apply dec1_nopanic, Hl|]. intros. apply lbind_nopanic; [apply IH|discriminate].
Qed.
Theorem unmarshal_nopanic ls b : Forall nodata ls -> unmarshal_pkt ls b <> UPanic.
Proof.
  intros H. unfold unmarshal_pkt, rd. destruct (buf_read 2 b) as [[x b']|]; [|discriminate].
  pose proof (decs_nopanic ls (overlay u_zero x) b' H).
  destruct (decs ls (overlay u_zero x) b'); [|discriminate|congruence].
  destruct (0 <? buf_len b0); discriminate.
Qed.
Theorem unmarshal_stat_nopanic ls b : Forall nodata ls -> unmarshal_stat ls b <> UPanic.
Proof.
  intros H. unfold unmarshal_stat. pose proof (decs_nopanic ls u_zero (buf_next 2 b) H).
  destruct (decs ls u_zero (buf_next 2 b)); congruence.
Qed.

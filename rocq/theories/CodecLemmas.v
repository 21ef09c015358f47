(** Lemmas behind the codec properties C01-C13. *)
From Verif Require Import Base GoBuf CodecPrim Types Codec Gen GenThm GenInv Msgs GenEq CodecSpec MsgThm.

(** * Layout *)
Fixpoint encl (ls : list leaf) (vs : list val) : list bytes :=
  match ls, vs with l :: ls, v :: vs => enc l v :: encl ls vs | _, _ => [] end.
Lemma encs_encl ls vs : encs ls vs = concat (encl ls vs).
Proof. revert vs; induction ls as [|l ls IH]; intros [|v vs]; cbn; [..|rewrite IH]; reflexivity. Qed.
Lemma encl_firstn j ls vs : encl (firstn j ls) (firstn j vs) = firstn j (encl ls vs).
Proof. revert ls vs; induction j as [|j IH]; intros [|l ls] [|v vs]; cbn; [reflexivity..|rewrite IH; reflexivity]. Qed.

Lemma putint_count z : putint_z 4 z = count32 z.
Proof. rewrite putint_z_4, putint_le. reflexivity. Qed.
Lemma enc0_str s : enc0 LStr (VS s) = text s.
Proof. cbn [enc0]. rewrite putint_le. reflexivity. Qed.
Lemma enc0_int w n : enc0 (LInt w) (VI n) = le w n.
Proof. apply putint_le. Qed.
Lemma enc0s_qid q : enc0s schQID (valsQID q) = concat (qid13 q).
Proof. unfold schQID, valsQID, qid13. cbn [enc0s concat]. rewrite !enc0_int. reflexivity. Qed.

Lemma enclT m : encl (schT (ttype m)) (valsT m) = snd (wireT m).
Proof.
  destruct m as [[]|[]|[]|[]|[]|[]|[]|[]|[]|[]|[]|[]]; cbn [valsT wireT snd];
    match goal with |- context [schT ?x] => let s := eval compute in (schT x) in change (schT x) with s end;
    cbn [encl enc]; rewrite ?enc0_int, ?enc0_str, ?putint_le; try reflexivity.
  all: cbn [enc0]; rewrite ?putint_le, ?putint_count; try reflexivity.
  - rewrite glen_map, flat_map_map. do 4 f_equal. apply flat_map_ext'. intros s. cbn [enc0s]. rewrite enc0_str, app_nil_r. reflexivity.
Qed.
Lemma enclR m : encl (schR (rtype m)) (valsR m) = snd (wireR m).
Proof.
  destruct m as [[]|[[]]|[]|[]|[]|[[]]|[[]]|[]|[]|[]|[]|[]|[]]; cbn [valsR wireR snd];
    match goal with |- context [schR ?x] => let s := eval compute in (schR x) in change (schR x) with s end;
    cbn [encl enc map valsQID app qid13]; rewrite ?enc0_int, ?enc0_str, ?putint_le; try reflexivity.
  - rewrite glen_map, flat_map_map. do 2 f_equal. apply flat_map_ext'. intros q.
    change [LInt 1; LInt 4; LInt 8] with schQID. apply enc0s_qid.
  - cbn [enc0]. rewrite putint_count. reflexivity.
Qed.
Lemma enclDir d : encl schDir (valsDir d) = wireDir d.
Proof.
  unfold schDir, valsDir, wireDir, schQID, valsQID, qid13. cbn [encl enc map app].
  rewrite !enc0_int, !enc0_str. reflexivity.
Qed.

Lemma ttype_wire m : fst (wireT m) = ttype m.
Proof. destruct m as [[]|[]|[]|[]|[]|[]|[]|[]|[]|[]|[]|[]]; reflexivity. Qed.
Lemma rtype_wire m : fst (wireR m) = rtype m.
Proof. destruct m as [[]|[]|[]|[]|[]|[]|[]|[]|[]|[]|[]|[]|[]]; reflexivity. Qed.

Lemma marshal_pkt_frame ls ty t vs : marshal_pkt ls ty t vs = frame ty t (encl ls vs).
Proof. rewrite marshal_pkt_bytes, encs_encl. reflexivity. Qed.
Lemma layoutT t m : marshalT t m = frame (fst (wireT m)) t (snd (wireT m)).
Proof. rewrite marshalT_gen, marshal_pkt_frame, enclT, ttype_wire. reflexivity. Qed.
Lemma layoutR t m : marshalR t m = frame (fst (wireR m)) t (snd (wireR m)).
Proof. rewrite marshalR_gen, marshal_pkt_frame, enclR, rtype_wire. reflexivity. Qed.
Lemma layoutDir d : Marshaldir d = le 2 (blen (concat (wireDir d))) ++ concat (wireDir d).
Proof. rewrite Marshaldir_gen, marshal_stat_bytes, encs_encl, enclDir. reflexivity. Qed.
Lemma frame_body ty t fs : skipn 5 (frame ty t fs) = le 2 t ++ concat fs.
Proof. reflexivity. Qed.

(** * Round trip, trailing bytes *)
Lemma umap_inv {A B} (f : A -> B) r y t rest e :
  umap f r = URet y t rest e -> exists x, r = URet x t rest e /\ f x = y.
Proof. destruct r; cbn; intros H; [|discriminate]. injection H as <- <- <- <-. eauto. Qed.

Lemma decodeT_full m t r sp :
  fitsT m -> t < 65536 ->
  unmarshalT (ttype m) (Buf (le 2 t ++ concat (snd (wireT m)) ++ r) sp)
  = Some (URet m t (Buf r sp) (if 0 <? blen r then Some (err_long (Buf r sp)) else None)).
Proof.
  intros Hf Ht.
  destruct (unmarshalT_gen (ttype m) (Buf (le 2 t ++ concat (snd (wireT m)) ++ r) sp) (is_ttype_ttype m)) as (x & -> & E & T).
  rewrite <- enclT, <- encs_encl in E at 1.
  rewrite unmarshal_marshal in E by (auto using okT; apply wfT_fits, Hf).
  apply umap_inv in E. destruct E as (m' & -> & V). do 2 f_equal.
  apply valsT_inj; [|exact V]. eapply T. reflexivity.
Qed.
Lemma decodeR_full m t r sp :
  fitsR m -> t < 65536 ->
  unmarshalR (rtype m) (Buf (le 2 t ++ concat (snd (wireR m)) ++ r) sp)
  = Some (URet m t (Buf r sp) (if 0 <? blen r then Some (err_long (Buf r sp)) else None)).
Proof.
  intros Hf Ht.
  destruct (unmarshalR_gen (rtype m) (Buf (le 2 t ++ concat (snd (wireR m)) ++ r) sp) (is_rtype_rtype m)) as (x & -> & E & T).
  rewrite <- enclR, <- encs_encl in E at 1.
  rewrite unmarshal_marshal in E by (auto using okR; apply wfR_fits, Hf).
  apply umap_inv in E. destruct E as (m' & -> & V). do 2 f_equal.
  apply valsR_inj; [|exact V]. eapply T. reflexivity.
Qed.
Lemma roundtripT m t sp :
  fitsT m -> t < 65536 ->
  unmarshalT (ttype m) (Buf (skipn 5 (marshalT t m)) sp) = Some (URet m t (Buf [] sp) None).
Proof.
  intros. rewrite layoutT, frame_body, <- (app_nil_r (concat _)), decodeT_full by assumption. reflexivity.
Qed.
Lemma roundtripR m t sp :
  fitsR m -> t < 65536 ->
  unmarshalR (rtype m) (Buf (skipn 5 (marshalR t m)) sp) = Some (URet m t (Buf [] sp) None).
Proof.
  intros. rewrite layoutR, frame_body, <- (app_nil_r (concat _)), decodeR_full by assumption. reflexivity.
Qed.
Lemma roundtripDir d r sp :
  fitsDir d -> Unmarshaldir (Buf (Marshaldir d ++ r) sp) = URet d 0 (Buf r sp) None.
Proof.
  intros Hf. pose proof (Unmarshaldir_gen (Buf (Marshaldir d ++ r) sp)) as E.
  rewrite Marshaldir_gen in E at 2.
  rewrite unmarshal_stat_marshal in E by (auto using okDir; apply wfDir_fits, Hf).
  apply umap_inv in E. destruct E as (d' & -> & V). f_equal. apply valsDir_inj, V.
Qed.
Lemma trailingT m t r sp :
  fitsT m -> t < 65536 -> r <> [] ->
  unmarshalT (ttype m) (Buf (skipn 5 (marshalT t m) ++ r) sp)
  = Some (URet m t (Buf r sp) (Some (str "Packet too long: " ++ dec (blen r) ++ str " bytes left over after decode"))).
Proof.
  intros Hf Ht Hr. rewrite layoutT, frame_body, <- app_assoc, decodeT_full by assumption.
  destruct r as [|a r]; [contradiction|]. rewrite blen_cons.
  destruct (N.ltb_spec 0 (1 + blen r)) as [_|]; [|lia].
  unfold err_long, buf_len. cbn [unread]. rewrite blen_cons. reflexivity.
Qed.
Lemma trailingR m t r sp :
  fitsR m -> t < 65536 -> r <> [] ->
  unmarshalR (rtype m) (Buf (skipn 5 (marshalR t m) ++ r) sp)
  = Some (URet m t (Buf r sp) (Some (str "Packet too long: " ++ dec (blen r) ++ str " bytes left over after decode"))).
Proof.
  intros Hf Ht Hr. rewrite layoutR, frame_body, <- app_assoc, decodeR_full by assumption.
  destruct r as [|a r]; [contradiction|]. rewrite blen_cons.
  destruct (N.ltb_spec 0 (1 + blen r)) as [_|]; [|lia].
  unfold err_long, buf_len. cbn [unread]. rewrite blen_cons. reflexivity.
Qed.

(** * Unique decodability *)
Lemma layoutM t m : marshalM t m = frame (fst (wireM m)) t (snd (wireM m)).
Proof. destruct m; [apply layoutT|apply layoutR]. Qed.
Lemma marshalM_blen t m : blen (marshalM t m) = 7 + blen (concat (snd (wireM m))).
Proof. rewrite layoutM. unfold frame. rewrite !blen_app, !le_blen. lia. Qed.
Lemma wire_lt m : fst (wireM m) < 256.
Proof. destruct m as [m|m]; cbn [wireM]; [rewrite ttype_wire|rewrite rtype_wire]; destruct m; reflexivity. Qed.
Lemma app_inj_len {A} (a b c d : list A) : List.length a = List.length b -> a ++ c = b ++ d -> a = b /\ c = d.
Proof.
  revert b; induction a as [|x a IH]; intros [|y b] H E; cbn in *; try discriminate; [auto|].
  injection E as -> E. destruct (IH b) as [-> ->]; auto.
Qed.
Lemma unique_decoding m1 t1 r1 m2 t2 r2 :
  fitsM m1 -> fitsM m2 -> t1 < 65536 -> t2 < 65536 ->
  blen (marshalM t1 m1) < 4294967296 -> blen (marshalM t2 m2) < 4294967296 ->
  marshalM t1 m1 ++ r1 = marshalM t2 m2 ++ r2 -> m1 = m2 /\ t1 = t2 /\ r1 = r2.
Proof.
  intros F1 F2 T1 T2 L1 L2 E. rewrite !marshalM_blen in *.
  rewrite !layoutM in E. unfold frame in E. rewrite <- !app_assoc in E.
  apply app_inj_len in E; [|rewrite !le_length; reflexivity]. destruct E as [E0 E].
  apply app_inj_len in E; [|rewrite !le_length; reflexivity]. destruct E as [E1 E].
  apply app_inj_len in E; [|rewrite !le_length; reflexivity]. destruct E as [E2 E].
  apply le_inj in E0; [|change (cap 4) with 4294967296; lia..].
  apply le_inj in E1; [|apply wire_lt..].
  apply le_inj in E2; [|assumption..].
  apply app_inj_len in E; [|unfold blen in E0; lia]. destruct E as [E3 ->].
  split; [|auto]. subst t2.
  destruct m1 as [m1|m1], m2 as [m2|m2]; cbn [wireM fitsM] in *.
  - rewrite !ttype_wire in E1.
    pose proof (decodeT_full m1 t1 [] [] F1 T1) as D1. pose proof (decodeT_full m2 t1 [] [] F2 T1) as D2.
    rewrite E1, E3, D2 in D1. injection D1 as ->. reflexivity.
  - exfalso. rewrite ttype_wire, rtype_wire in E1. destruct m1, m2; discriminate E1.
  - exfalso. rewrite ttype_wire, rtype_wire in E1. destruct m1, m2; discriminate E1.
  - rewrite !rtype_wire in E1.
    pose proof (decodeR_full m1 t1 [] [] F1 T1) as D1. pose proof (decodeR_full m2 t1 [] [] F2 T1) as D2.
    rewrite E1, E3, D2 in D1. injection D1 as ->. reflexivity.
Qed.

(** * Truncation *)
Lemma cut_fieldT m t sp j :
  fitsT m -> t < 65536 -> (j < List.length (snd (wireT m)))%nat ->
  exists m' rest e, unmarshalT (ttype m) (Buf (le 2 t ++ concat (firstn j (snd (wireT m)))) sp)
                    = Some (URet m' t rest (Some e)).
Proof.
  intros Hf Ht Hj. rewrite <- enclT in *. rewrite <- encl_firstn, <- encs_encl.
  set (ls := schT (ttype m)) in *. set (vs := valsT m) in *.
  assert (W : wfs ls vs) by (apply wfT_fits, Hf).
  assert (Hlen : List.length (encl ls vs) = List.length ls).
  { clear -W. induction W; cbn; auto. }
  rewrite Hlen in Hj.
  assert (Hsplit : exists l ls2, ls = firstn j ls ++ l :: ls2).
  { destruct (skipn j ls) as [|l ls2] eqn:E.
    - apply (f_equal (@List.length leaf)) in E. rewrite skipn_length in E. cbn in E. lia.
    - exists l, ls2. rewrite <- E, firstn_skipn. reflexivity. }
  destruct Hsplit as (l & ls2 & Hs).
  destruct (unmarshalT_gen (ttype m) (Buf (le 2 t ++ encs (firstn j ls) (firstn j vs)) sp) (is_ttype_ttype m)) as (x & -> & E & T).
  fold ls in E. rewrite Hs in E at 1.
  rewrite unmarshal_cut_at_field in E.
  - apply umap_inv in E. destruct E as (m' & -> & _). eauto.
  - apply Forall_forall. intros y Hy. pose proof (okT (ttype m)) as O. rewrite Forall_forall in O. apply O.
    fold ls. rewrite <- (firstn_skipn j ls). apply in_or_app. left. exact Hy.
  - clear -W. revert j. induction W; intros [|j]; cbn; constructor; auto. apply IHW.
  - exact Ht.
Qed.
Lemma cut_fieldR m t sp j :
  fitsR m -> t < 65536 -> (j < List.length (snd (wireR m)))%nat ->
  exists m' rest e, unmarshalR (rtype m) (Buf (le 2 t ++ concat (firstn j (snd (wireR m)))) sp)
                    = Some (URet m' t rest (Some e)).
Proof.
  intros Hf Ht Hj. rewrite <- enclR in *. rewrite <- encl_firstn, <- encs_encl.
  set (ls := schR (rtype m)) in *. set (vs := valsR m) in *.
  assert (W : wfs ls vs) by (apply wfR_fits, Hf).
  assert (Hlen : List.length (encl ls vs) = List.length ls).
  { clear -W. induction W; cbn; auto. }
  rewrite Hlen in Hj.
  assert (Hsplit : exists l ls2, ls = firstn j ls ++ l :: ls2).
  { destruct (skipn j ls) as [|l ls2] eqn:E.
    - apply (f_equal (@List.length leaf)) in E. rewrite skipn_length in E. cbn in E. lia.
    - exists l, ls2. rewrite <- E, firstn_skipn. reflexivity. }
  destruct Hsplit as (l & ls2 & Hs).
  destruct (unmarshalR_gen (rtype m) (Buf (le 2 t ++ encs (firstn j ls) (firstn j vs)) sp) (is_rtype_rtype m)) as (x & -> & E & T).
  fold ls in E. rewrite Hs in E at 1.
  rewrite unmarshal_cut_at_field in E.
  - apply umap_inv in E. destruct E as (m' & -> & _). eauto.
  - apply Forall_forall. intros y Hy. pose proof (okR (rtype m)) as O. rewrite Forall_forall in O. apply O.
    fold ls. rewrite <- (firstn_skipn j ls). apply in_or_app. left. exact Hy.
  - clear -W. revert j. induction W; intros [|j]; cbn; constructor; auto. apply IHW.
  - exact Ht.
Qed.

(** * Panics *)
Lemma nodataT ty : has_dataT ty = false -> Forall nodata (schT ty).
Proof.
  change (has_dataT ty) with ((ty =? Twrite_t) || (ty =? Twstat_t)). unfold schT. intros H. apply orb_false_iff in H. destruct H as [-> ->].
  repeat match goal with |- context [if ?c then _ else _] => destruct c end; repeat constructor.
Qed.
Lemma nodataR ty : has_dataR ty = false -> Forall nodata (schR ty).
Proof.
  change (has_dataR ty) with ((ty =? Rread_t) || (ty =? Rstat_t)). unfold schR. intros H. apply orb_false_iff in H. destruct H as [-> ->].
  repeat match goal with |- context [if ?c then _ else _] => destruct c end; repeat constructor.
Qed.
Lemma nopanicT ty b : is_ttype ty = true -> has_dataT ty = false -> unmarshalT ty b <> Some UPanic.
Proof.
  intros Ht Hd H. destruct (unmarshalT_gen ty b Ht) as (r & E & V & _). rewrite E in H. injection H as ->.
  cbn [umap] in V. symmetry in V. revert V. apply unmarshal_nopanic, nodataT, Hd.
Qed.
Lemma nopanicR ty b : is_rtype ty = true -> has_dataR ty = false -> unmarshalR ty b <> Some UPanic.
Proof.
  intros Ht Hd H. destruct (unmarshalR_gen ty b Ht) as (r & E & V & _). rewrite E in H. injection H as ->.
  cbn [umap] in V. symmetry in V. revert V. apply unmarshal_nopanic, nodataR, Hd.
Qed.
Lemma nopanicDir b : Unmarshaldir b <> UPanic.
Proof.
  intros H. pose proof (Unmarshaldir_gen b) as E. rewrite H in E. cbn [umap] in E. symmetry in E. revert E.
  apply unmarshal_stat_nopanic. repeat constructor.
Qed.

(** * Canonicity *)
Lemma canonicalT ty b m t rest :
  unmarshalT ty b = Some (URet m t rest None) ->
  ttype m = ty /\ fitsT m /\ t < 65536 /\
  exists ext, le 2 t ++ concat (snd (wireT m)) = unread b ++ ext /\
              (has_dataT ty = false -> blen ext <= 7).
Proof.
  intros H.
  assert (Ht : is_ttype ty = true).
  { revert H. unfold unmarshalT, is_ttype. cbn [existsb].
    repeat match goal with |- context [if ?c then _ else _] => destruct c eqn:?; [reflexivity|] end. discriminate. }
  destruct (unmarshalT_gen ty b Ht) as (r & E & V & T). rewrite E in H. injection H as ->.
  cbn [umap] in V. symmetry in V. apply unmarshal_canonical in V; [|apply okT].
  destruct V as (W & Hlt & _ & ext & X & Y).
  pose proof (T _ _ _ _ eq_refl) as HT. subst ty. rewrite encs_encl, enclT in X.
  split; [reflexivity|]. split; [apply wfT_fits, W|]. split; [exact Hlt|].
  exists ext. split; [exact X|]. intros D. specialize (Y (nodataT _ D)). unfold blen. lia.
Qed.
Lemma canonicalR ty b m t rest :
  unmarshalR ty b = Some (URet m t rest None) ->
  rtype m = ty /\ fitsR m /\ t < 65536 /\
  exists ext, le 2 t ++ concat (snd (wireR m)) = unread b ++ ext /\
              (has_dataR ty = false -> blen ext <= 7).
Proof.
  intros H.
  assert (Ht : is_rtype ty = true).
  { revert H. unfold unmarshalR, is_rtype. cbn [existsb].
    repeat match goal with |- context [if ?c then _ else _] => destruct c eqn:?; [reflexivity|] end. discriminate. }
  destruct (unmarshalR_gen ty b Ht) as (r & E & V & T). rewrite E in H. injection H as ->.
  cbn [umap] in V. symmetry in V. apply unmarshal_canonical in V; [|apply okR].
  destruct V as (W & Hlt & _ & ext & X & Y).
  pose proof (T _ _ _ _ eq_refl) as HT. subst ty. rewrite encs_encl, enclR in X.
  split; [reflexivity|]. split; [apply wfR_fits, W|]. split; [exact Hlt|].
  exists ext. split; [exact X|]. intros D. specialize (Y (nodataR _ D)). unfold blen. lia.
Qed.

(** * Strings *)
Lemma Forall_strs_T L m : Forall (strs L) (valsT m) -> Forall (fun s => infix s L) (stringsT m).
Proof.
  destruct m as [p|p|p|p|p|p|p|p|p|p|p|p]; cbn [valsT stringsT]; intros H;
    repeat match goal with H : Forall _ (_ :: _) |- _ => inversion H; clear H; subst end; repeat constructor; try assumption.
  cbn [strs] in *. match goal with H : Forall (Forall _) _ |- _ => rewrite Forall_map in H; eapply Forall_impl; [|exact H] end.
  intros s Hs. inversion Hs; subst. assumption.
Qed.
Lemma Forall_strs_R L m : Forall (strs L) (valsR m) -> Forall (fun s => infix s L) (stringsR m).
Proof.
  destruct m as [p|p|p|p|p|p|p|p|p|p|p|p|p]; cbn [valsR stringsR]; intros H; try constructor;
    repeat match goal with H : Forall _ (_ :: _) |- _ => inversion H; clear H; subst end; repeat constructor; try assumption.
Qed.
Lemma stringsT_from ty b m t rest e s :
  unmarshalT ty b = Some (URet m t rest e) -> In s (stringsT m) -> infix s (unread b).
Proof.
  intros H.
  assert (Ht : is_ttype ty = true).
  { revert H. unfold unmarshalT, is_ttype. cbn [existsb].
    repeat match goal with |- context [if ?c then _ else _] => destruct c eqn:?; [reflexivity|] end. discriminate. }
  destruct (unmarshalT_gen ty b Ht) as (r & E & V & T). rewrite E in H. injection H as ->.
  cbn [umap] in V. symmetry in V. apply unmarshal_strings in V. apply Forall_strs_T in V.
  rewrite Forall_forall in V. apply V.
Qed.
Lemma stringsR_from ty b m t rest e s :
  unmarshalR ty b = Some (URet m t rest e) -> In s (stringsR m) -> infix s (unread b).
Proof.
  intros H.
  assert (Ht : is_rtype ty = true).
  { revert H. unfold unmarshalR, is_rtype. cbn [existsb].
    repeat match goal with |- context [if ?c then _ else _] => destruct c eqn:?; [reflexivity|] end. discriminate. }
  destruct (unmarshalR_gen ty b Ht) as (r & E & V & T). rewrite E in H. injection H as ->.
  cbn [umap] in V. symmetry in V. apply unmarshal_strings in V. apply Forall_strs_R in V.
  rewrite Forall_forall in V. apply V.
Qed.

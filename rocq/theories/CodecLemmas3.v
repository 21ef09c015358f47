(** Further codec lemmas: streams, cuts inside strings, over-long walks. *)
From Verif Require Import Base GoBuf CodecPrim Types Codec Gen GenThm GenInv Msgs GenEq CodecSpec MsgThm CodecLemmas CodecLemmas2.

(** * Streams *)
Lemma marshalM_nonempty t m r : marshalM t m ++ r <> [].
Proof.
  intros H. apply (f_equal blen) in H. rewrite blen_app, marshalM_blen, blen_nil in H. lia.
Qed.
Definition okM (x : N * msg) : Prop :=
  fst x < 65536 /\ fitsM (snd x) /\ blen (marshalM (fst x) (snd x)) < 4294967296.
Lemma stream_unique l1 l2 :
  Forall okM l1 -> Forall okM l2 ->
  flat_map (fun x => marshalM (fst x) (snd x)) l1 = flat_map (fun x => marshalM (fst x) (snd x)) l2 -> l1 = l2.
Proof.
  intros H1. revert l2. induction H1 as [|[t1 m1] l1 (A1 & A2 & A3) H1 IH]; intros l2 H2 E.
  - destruct l2 as [|[t m] l2]; [reflexivity|]. symmetry in E. apply marshalM_nonempty in E. contradiction.
  - destruct H2 as [|[t2 m2] l2 (B1 & B2 & B3) H2]; [apply marshalM_nonempty in E; contradiction|].
    cbn [flat_map fst snd] in *. apply unique_decoding in E; auto. destruct E as (-> & -> & E).
    f_equal. auto.
Qed.

(** * Cuts inside the characters of a string *)
Lemma for_range_enc_app es vs (z : list v0) m u r sp {R} (p : R) ret k :
  Forall ok0 es -> Forall (wf0s es) vs -> List.length u = 8%nat ->
  exists u', List.length u' = 8%nat /\
    for_range z (List.length vs + m) u (Buf (flat_map (enc0s es) vs ++ r) sp) (dec0s es) p ret k
    = for_range z m u' (Buf r sp) (dec0s es) p (fun l b e => ret (vs ++ l) b e) (fun l u b => k (vs ++ l) u b).
Proof.
  intros Hok Hwf. revert u ret k. induction Hwf as [|v vs H Hwf IH]; intros u ret k Hu; cbn [for_range flat_map List.length Nat.add app].
  - eexists; split; [exact Hu|reflexivity].
  - rewrite <- app_assoc.
    destruct (dec0s_enc0s es v u (flat_map (enc0s es) vs ++ r) sp) as (u1 & Hu1 & E); auto. rewrite E.
    destruct (IH u1 (fun l b e => ret (v :: l) b e) (fun l u b => k (v :: l) u b) Hu1) as (u2 & Hu2 & E2).
    exists u2. split; [exact Hu2|]. rewrite E2. reflexivity.
Qed.
Lemma dec0s_cut s k u sp :
  blen s < 65536 -> (k < List.length s)%nat ->
  dec0s [LStr] u (Buf (le 2 (blen s) ++ firstn k s) sp)
  = LRet [VS []] (Buf (firstn k s) sp) (err_str (blen s) (Buf (firstn k s) sp)).
Proof.
  intros Hs Hk. cbn [dec0s dec0]. rewrite rd_exact by (rewrite ?le_length; lia).
  rewrite genint_overlay by (try lia; exact Hs). unfold buf_len at 1. cbn [unread].
  assert (blen (firstn k s) < blen s) by (unfold blen; rewrite firstn_length; lia).
  destruct (N.ltb_spec (blen (firstn k s)) (blen s)) as [_|]; [|lia]. reflexivity.
Qed.
Lemma unmarshal_cut_in_slice ls1 vs ss s n k t sp :
  Forall okl ls1 -> wfs ls1 vs -> t < 65536 -> blen s < 65536 -> Forall short ss -> (k < List.length s)%nat ->
  n < 65536 -> blen ss < n ->
  exists v rest e, unmarshal_pkt (ls1 ++ [LSlice [LStr]])
    (Buf (le 2 t ++ encs ls1 vs ++ le 2 n ++ flat_map text ss ++ le 2 (blen s) ++ firstn k s) sp)
  = URet v t rest (Some e).
Proof.
  intros Hok Hwf Ht Hs Hss Hk Hn Hlt. unfold unmarshal_pkt.
  rewrite rd_exact by (rewrite ?le_length; lia).
  rewrite tagint, genint_overlay by (try lia; exact Ht).
  rewrite N.mod_small by exact Ht.
  destruct (decs_encs_app ls1 [LSlice [LStr]] vs (overlay u_zero (le 2 t)) (le 2 n ++ flat_map text ss ++ le 2 (blen s) ++ firstn k s) sp Hok Hwf) as (u' & Hu' & E); [reflexivity|].
  rewrite E. cbn [decs dec1]. rewrite rd_exact by (rewrite ?le_length; lia).
  rewrite genint_overlay by (try lia; exact Hn).
  assert (Hsp : N.to_nat n = (List.length (map (fun s => [VS s]) ss) + S (N.to_nat n - S (List.length ss)))%nat).
  { rewrite map_length. unfold blen in Hlt. lia. }
  assert (Hm : flat_map text ss = flat_map (enc0s [LStr]) (map (fun s => [VS s]) ss)).
  { clear. induction ss as [|a ss IH]; [reflexivity|]. cbn [map flat_map enc0s]. rewrite enc0_str, app_nil_r, IH. reflexivity. }
  rewrite Hsp, Hm.
  edestruct (for_range_enc_app [LStr] (map (fun s => [VS s]) ss) (map zero0 [LStr]) (S (N.to_nat n - S (List.length ss))))
    as (u2 & Hu2 & E2); [| | |rewrite E2].
  - repeat constructor.
  - apply Forall_map. eapply Forall_impl; [|exact Hss]. intros a Ha. repeat constructor. exact Ha.
  - rewrite overlay_length; [exact Hu'|]. rewrite le_length, Hu'. lia.
  - cbn [for_range]. rewrite dec0s_cut by assumption. cbn [lbind]. eauto.
Qed.

Lemma walk_cuts_in names : forall pre p s, In (p, s) (walk_cuts pre names) ->
  exists l1 l2, names = l1 ++ s :: l2 /\ p = pre ++ flat_map text l1 ++ le 2 (blen s).
Proof.
  induction names as [|a names IH]; intros pre p s H; [contradiction|].
  destruct H as [H|H].
  - injection H as <- <-. exists [], names. split; reflexivity.
  - apply IH in H. destruct H as (l1 & l2 & -> & ->). exists (a :: l1), l2. split; [reflexivity|].
    cbn [flat_map]. rewrite <- !app_assoc. reflexivity.
Qed.
Lemma cut_strT_aux ty ls1 vs ls2 s k t sp pre :
  is_ttype ty = true -> schT ty = ls1 ++ L0 LStr :: ls2 -> wfs ls1 vs -> pre = encs ls1 vs ++ le 2 (blen s) ->
  t < 65536 -> short s -> (k < List.length s)%nat ->
  exists m rest e, unmarshalT ty (Buf (le 2 t ++ pre ++ firstn k s) sp) = Some (URet m t rest (Some e)).
Proof.
  intros Hty Hs Hw -> Ht Hsh Hk.
  destruct (unmarshalT_gen ty (Buf (le 2 t ++ (encs ls1 vs ++ le 2 (blen s)) ++ firstn k s) sp) Hty) as (r & -> & E & T).
  rewrite Hs, <- app_assoc, unmarshal_cut_in_string in E; auto.
  - apply umap_inv in E. destruct E as (m & -> & _). eauto.
  - pose proof (okT ty) as O. rewrite Hs in O. apply Forall_app in O. apply O.
Qed.
Lemma cut_stringT m t sp pre s k :
  fitsT m -> t < 65536 -> In (pre, s) (string_cutsT m) -> (k < List.length s)%nat ->
  exists m' rest e, unmarshalT (ttype m) (Buf (le 2 t ++ pre ++ firstn k s) sp) = Some (URet m' t rest (Some e)).
Proof.
  intros Hf Ht Hin Hk.
  destruct m as [[]|[]|[]|[]|[]|[]|[]|[]|[]|[]|[]|[]]; cbn [string_cutsT fitsT] in *; try contradiction; cbn in Hf.
  - destruct Hin as [Hin|[]]. injection Hin as <- <-.
    refine (cut_strT_aux Tversion_t [L0 (LInt 4)] [V0 (VI Tversion_TMsize)] [] _ k t sp _ eq_refl eq_refl _ _ Ht _ Hk); try apply Hf.
    + repeat constructor; apply Hf.
    + cbn [encs enc]. rewrite enc0_int, app_nil_r. reflexivity.
  - destruct Hin as [Hin|[Hin|[]]]; injection Hin as <- <-.
    + refine (cut_strT_aux Tattach_t [L0 (LInt 4); L0 (LInt 4)] [V0 (VI Tattach_SFID); V0 (VI Tattach_AFID)] [_] _ k t sp _ eq_refl eq_refl _ _ Ht _ Hk); try apply Hf.
      * repeat constructor; apply Hf.
      * cbn [encs enc]. rewrite !enc0_int, app_nil_r, <- !app_assoc. reflexivity.
    + refine (cut_strT_aux Tattach_t [L0 (LInt 4); L0 (LInt 4); L0 LStr] [V0 (VI Tattach_SFID); V0 (VI Tattach_AFID); V0 (VS Tattach_Uname)] [] _ k t sp _ eq_refl eq_refl _ _ Ht _ Hk); try apply Hf.
      * repeat constructor; apply Hf.
      * cbn [encs enc]. rewrite !enc0_int, enc0_str, app_nil_r, <- !app_assoc. reflexivity.
  - apply walk_cuts_in in Hin. destruct Hin as (l1 & l2 & -> & ->).
    destruct Hf as (F1 & F2 & F3 & F4). apply Forall_app in F4. destruct F4 as [F4 F5]. inversion F5; subst.
    match goal with |- context [unmarshalT (ttype ?mm) ?b] =>
      destruct (unmarshalT_gen (ttype mm) b eq_refl) as (r & -> & E & T) end.
    edestruct (unmarshal_cut_in_slice [L0 (LInt 4); L0 (LInt 4)] [V0 (VI Twalk_SFID); V0 (VI Twalk_NewFID)] l1 s (blen (l1 ++ s :: l2)) k t sp)
      as (v & rest & e & G); try assumption.
    + repeat constructor.
    + repeat constructor; assumption.
    + rewrite blen_app, blen_cons. lia.
    + cbn [encs enc] in G. rewrite !enc0_int, app_nil_r in G. rewrite <- !app_assoc in G.
      rewrite <- !app_assoc in E. cbn [ttype] in E.
      change (schT Twalk_t) with ([L0 (LInt 4); L0 (LInt 4)] ++ [LSlice [LStr]]) in E.
      rewrite G in E. apply umap_inv in E. destruct E as (m' & -> & _). eauto.
  - destruct Hin as [Hin|[]]. injection Hin as <- <-.
    refine (cut_strT_aux Tcreate_t [L0 (LInt 4)] [V0 (VI Tcreate_OFID)] [_; _] _ k t sp _ eq_refl eq_refl _ _ Ht _ Hk); try apply Hf.
    + repeat constructor; apply Hf.
    + cbn [encs enc]. rewrite enc0_int, app_nil_r. reflexivity.
Qed.
Lemma cut_strR_aux ty ls1 vs ls2 s k t sp pre :
  is_rtype ty = true -> schR ty = ls1 ++ L0 LStr :: ls2 -> wfs ls1 vs -> pre = encs ls1 vs ++ le 2 (blen s) ->
  t < 65536 -> short s -> (k < List.length s)%nat ->
  exists m rest e, unmarshalR ty (Buf (le 2 t ++ pre ++ firstn k s) sp) = Some (URet m t rest (Some e)).
Proof.
  intros Hty Hs Hw -> Ht Hsh Hk.
  destruct (unmarshalR_gen ty (Buf (le 2 t ++ (encs ls1 vs ++ le 2 (blen s)) ++ firstn k s) sp) Hty) as (r & -> & E & T).
  rewrite Hs, <- app_assoc, unmarshal_cut_in_string in E; auto.
  - apply umap_inv in E. destruct E as (m & -> & _). eauto.
  - pose proof (okR ty) as O. rewrite Hs in O. apply Forall_app in O. apply O.
Qed.
Lemma cut_stringR m t sp pre s k :
  fitsR m -> t < 65536 -> In (pre, s) (string_cutsR m) -> (k < List.length s)%nat ->
  exists m' rest e, unmarshalR (rtype m) (Buf (le 2 t ++ pre ++ firstn k s) sp) = Some (URet m' t rest (Some e)).
Proof.
  intros Hf Ht Hin Hk.
  destruct m as [[]|[]|[]|[]|[]|[]|[]|[]|[]|[]|[]|[]|[]]; cbn [string_cutsR fitsR] in *; try contradiction; cbn in Hf.
  - destruct Hin as [Hin|[]]. injection Hin as <- <-.
    refine (cut_strR_aux Rversion_t [L0 (LInt 4)] [V0 (VI Rversion_RMsize)] [] _ k t sp _ eq_refl eq_refl _ _ Ht _ Hk); try apply Hf.
    + repeat constructor; apply Hf.
    + cbn [encs enc]. rewrite enc0_int, app_nil_r. reflexivity.
  - destruct Hin as [Hin|[]]. injection Hin as <- <-.
    refine (cut_strR_aux Rerror_t [] [] [] _ k t sp _ eq_refl eq_refl _ _ Ht _ Hk); try apply Hf.
    + constructor.
    + reflexivity.
Qed.

(** * Walks with names that fit *)
Lemma texts_prefix a : forall b ext, Forall short a -> Forall short b ->
  (List.length a <= List.length b)%nat ->
  flat_map text a = flat_map text b ++ ext -> a = b /\ ext = [].
Proof.
  induction a as [|x a IH]; intros [|y b] ext Ha Hb Hl E; cbn [flat_map] in E; cbn [List.length] in Hl; try lia.
  - auto.
  - symmetry in E. apply app_eq_nil in E. destruct E as [E _]. apply app_eq_nil in E. destruct E as [E _]. discriminate.
  - inversion Ha; inversion Hb; subst. unfold text in E. rewrite <- !app_assoc in E.
    apply peel_le in E. destruct E as [L E]. rewrite cap2, !N.mod_small in L by assumption.
    apply app_inj_len in E; [|unfold blen in L; lia]. destruct E as [-> E].
    apply IH in E; auto; [|lia]. destruct E as [-> ->]. auto.
Qed.
Lemma accepted_walk p t sp m' t' rest :
  machineT (MTwalk p) -> Forall short (Twalk_Paths p) -> t < 65536 ->
  unmarshalT Twalk_t (Buf (skipn 5 (marshalT t (MTwalk p))) sp) = Some (URet m' t' rest None) ->
  m' = MTwalk p /\ t' = t.
Proof.
  intros Hm Hsh Ht H.
  destruct (N.lt_ge_cases (blen (Twalk_Paths p)) 65536) as [Hl|Hl].
  { change Twalk_t with (ttype (MTwalk p)) in H. rewrite roundtripT in H; [injection H as <- <- _; auto| |exact Ht].
    cbn [fitsT machineT] in *. unfold u16n. tauto. }
  exfalso. rewrite layoutT, frame_body in H.
  apply canonicalT in H. destruct H as (HT & Hf & _ & ext & X & _). cbn [unread] in X.
  rewrite <- app_assoc in X. apply peel_le in X. destruct X as [_ X].
  destruct p as [f nf names]. destruct m' as [[]|[]|[]|[f' nf' names']|[]|[]|[]|[]|[]|[]|[]|[]]; try discriminate HT; clear HT.
  cbn -[le text blob count32 blen N.add N.lt N.mul] in Hf, X, Hl, Hm, Hsh. rewrite <- ?app_assoc in X.
  apply peel_le in X. destruct X as [_ X]. apply peel_le in X. destruct X as [_ X].
  apply peel_le in X. destruct X as [L X]. rewrite cap2 in L. cbn [app] in X. rewrite app_nil_r in X.
  destruct Hf as (_ & _ & Hn & Hs'). rewrite (N.mod_small (blen names')) in L by exact Hn.
  apply texts_prefix in X; auto.
  - destruct X as [-> _]. unfold u16n in Hn. lia.
  - unfold blen, u16n in *. lia.
Qed.

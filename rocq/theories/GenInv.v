(** What acceptance by a generated decoder implies about the input bytes. *)
From Verif Require Import Base GoBuf CodecPrim Gen GenThm.

(** [consumed P b b' canon]: going from b to b' used up exactly the bytes [canon], or the input
    ended early: everything was used up and [canon] has [ext] more (at most 7 bytes more
    under condition P). *)
Definition consumed (P : Prop) (b b' : buf) (canon : bytes) : Prop :=
  spare b' = spare b /\
  (unread b = canon ++ unread b' \/
   (unread b' = [] /\ exists ext, ext <> [] /\ canon = unread b ++ ext /\ (P -> (List.length ext <= 7)%nat))).

Lemma consumed_refl P b : consumed P b b [].
Proof. split; [reflexivity|left; reflexivity]. Qed.

Lemma consumed_trans (P1 P2 P : Prop) b b1 b2 c1 c2 :
  (P -> P1) -> (P -> P2) ->
  consumed P1 b b1 c1 -> consumed P2 b1 b2 c2 -> (unread b1 = [] -> c2 = []) ->
  consumed P b b2 (c1 ++ c2).
Proof.
  intros HP1 HP2 [S1 H1] [S2 H2] Hc. split; [congruence|].
  destruct H1 as [H1|(E1 & ext & Hext & H1 & B1)].
  - destruct H2 as [H2|(E2 & ext & Hext & H2 & B2)].
    + left. rewrite H1, H2, app_assoc. reflexivity.
    + right. split; [exact E2|]. exists ext. split; [exact Hext|]. split; [|auto].
      rewrite H1, H2, app_assoc. reflexivity.
  - rewrite (Hc E1), app_nil_r in *. rewrite E1 in H2.
    assert (unread b2 = []).
    { destruct H2 as [H2|(E2 & _)]; [|exact E2]. destruct (unread b2); [reflexivity|discriminate]. }
    right. split; [assumption|]. exists ext. auto.
Qed.
Lemma consumed_weaken (P Q : Prop) b b' c : (Q -> P) -> consumed P b b' c -> consumed Q b b' c.
Proof.
  intros HQ [S H]. split; [exact S|]. destruct H as [H|(E & ext & A & B & C)]; [left; exact H|right].
  split; [exact E|]. exists ext. auto.
Qed.

Lemma rd_case w u b x b' :
  (1 <= w <= 8)%nat -> List.length u = 8%nat -> buf_read w b = Some (x, b') ->
  unread b <> [] /\ List.length (overlay u x) = 8%nat /\
  consumed True b b' (le w (genint w (overlay u x))).
Proof.
  intros Hw Hu H. unfold buf_read in H. destruct (unread b) as [|a l] eqn:E; [discriminate|].
  split; [discriminate|].
  remember (a :: l) as L. injection H as <- <-.
  assert (Hl : List.length (overlay u (firstn w L)) = 8%nat).
  { rewrite overlay_length; [exact Hu|]. rewrite firstn_length. lia. }
  split; [exact Hl|].
  rewrite genint_unle by lia.
  rewrite le_unle by (rewrite firstn_length; lia).
  split; [reflexivity|]. cbn [unread].
  destruct (Nat.le_gt_cases w (List.length L)) as [Hle|Hgt].
  - left. rewrite E. unfold overlay.
    rewrite firstn_app, firstn_length, Nat.min_l by exact Hle. rewrite Nat.sub_diag. cbn [firstn].
    rewrite app_nil_r, firstn_firstn, Nat.min_id, firstn_skipn. reflexivity.
  - right. rewrite E, skipn_all2 by lia. split; [reflexivity|].
    rewrite (firstn_all2 L) by lia. unfold overlay.
    rewrite firstn_app, firstn_all2 by lia.
    eexists. split; [|split; [reflexivity|]].
    + intros C. apply (f_equal (@List.length byte)) in C. rewrite firstn_length, skipn_length in C. cbn [List.length] in C.
      destruct L; [discriminate|]. cbn [List.length] in *. lia.
    + intros _. rewrite firstn_length. subst L. cbn [List.length] in *. lia.
Qed.

Lemma next_split l b : l <= buf_len b ->
  unread b = firstn (N.to_nat l) (unread b) ++ unread (buf_next l b) /\ spare (buf_next l b) = spare b.
Proof.
  intros H. unfold buf_next. destruct (N.leb_spec (buf_len b) l) as [Hl|Hl]; cbn [unread spare].
  - unfold buf_len, blen in *. rewrite firstn_all2 by lia. rewrite app_nil_r. auto.
  - rewrite firstn_skipn. auto.
Qed.
Lemma blen_firstn (l : N) (s : bytes) : l <= blen s -> blen (firstn (N.to_nat l) s) = l.
Proof. unfold blen. intros H. rewrite firstn_length. lia. Qed.

Lemma dec0_inv l u b v u' b' :
  ok0 l -> List.length u = 8%nat -> dec0 l u b = LNext v u' b' ->
  unread b <> [] /\ List.length u' = 8%nat /\ wf0 l v /\ consumed True b b' (enc0 l v).
Proof.
  intros Hok Hu H. destruct l as [w| |]; cbn [dec0 ok0] in *; unfold rd in H;
    destruct (buf_read _ b) as [[x b1]|] eqn:E; try discriminate.
  - destruct (rd_case w u b x b1 Hok Hu E) as (A & B & C).
    injection H as <- <- <-. cbn [enc0 wf0]. rewrite putint_le.
    repeat split; try assumption; try apply C. apply genint_lt; lia.
  - destruct (rd_case 4 u b x b1 ltac:(lia) Hu E) as (A & B & C).
    injection H as <- <- <-. cbn [enc0 wf0]. rewrite putint_z_4, putint_le.
    rewrite gencount_genint by lia.
    rewrite u32_i32 by (apply (genint_lt 4); lia).
    repeat split; try assumption; try apply C; apply i32_range.
  - destruct (rd_case 2 u b x b1 ltac:(lia) Hu E) as (A & B & C).
    destruct (N.ltb_spec (buf_len b1) (genint 2 (overlay u x))) as [|Hl]; [discriminate|].
    unfold reslice in H. rewrite buf_reslice_le in H by lia. injection H as <- <- <-.
    destruct (next_split (genint 2 (overlay u x)) b1 Hl) as [N1 N2].
    assert (Hlen : blen (firstn (N.to_nat (genint 2 (overlay u x))) (unread b1)) = genint 2 (overlay u x)).
    { apply blen_firstn. exact Hl. }
    split; [exact A|]. split; [exact B|]. cbn [wf0 enc0]. rewrite Hlen, putint_le.
    split; [apply (genint_lt 2); lia|].
    eapply (consumed_trans True True); [auto|auto|exact C| |].
    + split; [exact N2|left; exact N1].
    + intros E1. rewrite E1, firstn_nil. reflexivity.
Qed.

Lemma dec0s_inv ls : forall u b vs u' b',
  Forall ok0 ls -> List.length u = 8%nat -> dec0s ls u b = LNext vs u' b' ->
  (ls = [] \/ unread b <> []) /\ List.length u' = 8%nat /\ wf0s ls vs /\ consumed True b b' (enc0s ls vs).
Proof.
  induction ls as [|l ls IH]; intros u b vs u' b' Hok Hu H; cbn [dec0s] in H.
  - injection H as <- <- <-. repeat split; auto. constructor.
  - inversion Hok; subst.
    destruct (dec0 l u b) as [v u1 b1| |] eqn:E; cbn [lbind] in H; try discriminate.
    destruct (dec0_inv l u b v u1 b1) as (A & B & C & D); auto.
    destruct (dec0s ls u1 b1) as [vs1 u2 b2| |] eqn:E1; cbn [lmap lbind] in H; try discriminate.
    injection H as <- <- <-.
    destruct (IH u1 b1 vs1 u2 b2) as (A1 & B1 & C1 & D1); auto.
    split; [right; exact A|]. split; [exact B1|]. split; [constructor; assumption|].
    cbn [enc0s]. eapply (consumed_trans True True); [auto|auto|exact D|exact D1|].
    intros En. destruct A1 as [->|A1]; [|contradiction]. inversion C1; subst. reflexivity.
Qed.

Lemma for_range_inv es z n {R : Type} : forall (f : list (list v0) -> val) u b v u' b',
  Forall ok0 es -> List.length u = 8%nat ->
  for_range z n u b (dec0s es) LPanic (fun l b e => LRet (f l) b e) (fun l u b => LNext (f l) u b) = LNext v u' b' ->
  exists vs, v = f vs /\ List.length vs = n /\ List.length u' = 8%nat /\ Forall (wf0s es) vs /\
    consumed True b b' (flat_map (enc0s es) vs) /\ (unread b = [] -> flat_map (enc0s es) vs = []).
Proof.
  induction n as [|n IH]; intros f u b v u' b' Hok Hu H; cbn [for_range] in H.
  - injection H as <- <- <-. exists []. repeat split; auto.
  - destruct (dec0s es u b) as [w u1 b1| |] eqn:E; try discriminate.
    destruct (dec0s_inv es u b w u1 b1) as (A & B & C & D); auto.
    destruct (IH (fun l => f (w :: l)) u1 b1 v u' b' Hok B H) as (vs & -> & L & U & W & S & Z).
    exists (w :: vs). cbn [List.length flat_map]. rewrite L.
    split; [reflexivity|]. split; [reflexivity|]. split; [exact U|]. split; [constructor; assumption|].
    split.
    + eapply (consumed_trans True True); eauto.
    + intros En. destruct A as [->|A]; [|contradiction]. inversion C; subst. cbn [enc0s app].
      clear. induction vs; cbn; auto.
Qed.

Lemma dec1_inv l u b v u' b' :
  okl l -> List.length u = 8%nat -> dec1 l u b = LNext v u' b' ->
  unread b <> [] /\ List.length u' = 8%nat /\ wf l v /\ consumed (nodata l) b b' (enc l v).
Proof.
  intros Hok Hu H. destruct l as [l|es|k]; cbn [dec1 okl nodata] in *.
  - destruct (dec0 l u b) as [v0 u1 b1| |] eqn:E; cbn [lmap lbind] in H; try discriminate.
    injection H as <- <- <-. cbn [wf enc]. apply (dec0_inv l u b); auto.
  - unfold rd in H. destruct (buf_read 2 b) as [[x b1]|] eqn:E; try discriminate.
    destruct (rd_case 2 u b x b1 ltac:(lia) Hu E) as (A & B & C).
    destruct (for_range_inv es (map zero0 es) _ (R:=nat) VSl (overlay u x) b1 v u' b' Hok B H)
      as (vs & -> & L & U & W & S & Z).
    split; [exact A|]. split; [exact U|]. cbn [wf enc].
    assert (Hg : glen vs = genint 2 (overlay u x)).
    { unfold glen. rewrite L. apply N2Nat.id. }
    rewrite Hg, putint_le. split; [split; [apply (genint_lt 2); lia|exact W]|].
    eapply (consumed_trans True True); eauto.
  - unfold rd in H. destruct (buf_read k b) as [[x b1]|] eqn:E; try discriminate.
    destruct (rd_case k u b x b1 Hok Hu E) as (A & B & C).
    unfold reslice in H. destruct (buf_reslice (genint k (overlay u x)) b1) as [d|] eqn:R; [|discriminate].
    injection H as <- <- <-. split; [exact A|]. split; [exact B|].
    unfold buf_reslice in R.
    destruct (N.leb_spec (genint k (overlay u x)) (blen (unread b1) + blen (spare b1))) as [Hl|]; [|discriminate].
    injection R as <-.
    set (L := genint k (overlay u x)) in *.
    assert (Hlen : blen (firstn (N.to_nat L) (unread b1 ++ spare b1)) = L).
    { apply blen_firstn. rewrite blen_app. exact Hl. }
    cbn [wf enc]. rewrite Hlen, putint_le. split; [apply genint_lt; lia|].
    destruct (N.le_gt_cases L (buf_len b1)) as [Hs|Hs].
    + destruct (next_split L b1 Hs) as [N1 N2].
      replace (firstn (N.to_nat L) (unread b1 ++ spare b1)) with (firstn (N.to_nat L) (unread b1)).
      2:{ rewrite firstn_app. unfold buf_len, blen in Hs.
          replace (N.to_nat L - List.length (unread b1))%nat with O by lia.
          cbn [firstn]. rewrite app_nil_r. reflexivity. }
      eapply (consumed_trans True True); [auto|auto|exact C| |].
      * split; [exact N2|left; exact N1].
      * intros E1. rewrite E1, firstn_nil. reflexivity.
    + destruct C as [S1 C]. unfold buf_len in Hs.
      assert (Hn : buf_next L b1 = Buf [] (spare b1)).
      { unfold buf_next, buf_len. destruct (N.leb_spec (blen (unread b1)) L); [reflexivity|lia]. }
      rewrite Hn. split; [exact S1|]. right. split; [reflexivity|].
      assert (Hf : exists e, e <> [] /\ firstn (N.to_nat L) (unread b1 ++ spare b1) = unread b1 ++ e).
      { rewrite firstn_app, firstn_all2 by (unfold blen in Hs; lia).
        eexists; split; [|reflexivity]. intros C0. apply (f_equal (@List.length byte)) in C0.
        rewrite firstn_length in C0. cbn [List.length] in C0. unfold blen in *. lia. }
      destruct Hf as (e & He & Hf). rewrite Hf.
      destruct C as [C|(E1 & ext & X & C & _)].
      * exists e. split; [exact He|]. split; [|contradiction]. rewrite C, app_assoc. reflexivity.
      * exists (ext ++ e). split; [destruct ext; [contradiction|discriminate]|]. split; [|contradiction].
        rewrite E1, C. cbn [app]. rewrite app_assoc. reflexivity.
Qed.

Lemma decs_inv ls : forall u b vs u' b',
  Forall okl ls -> List.length u = 8%nat -> decs ls u b = LNext vs u' b' ->
  (ls = [] \/ unread b <> []) /\ wfs ls vs /\ consumed (Forall nodata ls) b b' (encs ls vs).
Proof.
  induction ls as [|l ls IH]; intros u b vs u' b' Hok Hu H; cbn [decs] in H.
  - injection H as <- <- <-. repeat split; auto. constructor.
  - inversion Hok; subst.
    destruct (dec1 l u b) as [v u1 b1| |] eqn:E; cbn [lbind] in H; try discriminate.
    destruct (dec1_inv l u b v u1 b1) as (A & B & C & D); auto.
    destruct (decs ls u1 b1) as [vs1 u2 b2| |] eqn:E1; cbn [lmap lbind] in H; try discriminate.
    injection H as <- <- <-.
    destruct (IH u1 b1 vs1 u2 b2) as (A1 & C1 & D1); auto.
    split; [right; exact A|]. split; [constructor; assumption|].
    cbn [encs]. eapply consumed_trans; [| |exact D|exact D1|].
    + intros F. inversion F; assumption.
    + intros F. inversion F; assumption.
    + intros En. destruct A1 as [->|A1]; [|contradiction]. inversion C1; subst. reflexivity.
Qed.

(** Accepted input is the canonical encoding of what was decoded, except that its last bytes may
    be missing: at most 7 when there is no byte-slice field. *)
Theorem unmarshal_canonical ls b vs t rest :
  Forall okl ls -> unmarshal_pkt ls b = URet vs t rest None ->
  wfs ls vs /\ t < 65536 /\ rest = Buf [] (spare b) /\
  exists ext, le 2 t ++ encs ls vs = unread b ++ ext /\
              (Forall nodata ls -> (List.length ext <= 7)%nat).
Proof.
  intros Hok H. unfold unmarshal_pkt, rd in H.
  destruct (buf_read 2 b) as [[x b1]|] eqn:E; [|discriminate].
  destruct (rd_case 2 u_zero b x b1 ltac:(lia) eq_refl E) as (A & B & C).
  rewrite tagint in H.
  destruct (decs ls (overlay u_zero x) b1) as [vs1 u2 b2| |] eqn:D; try discriminate.
  destruct (N.ltb_spec 0 (buf_len b2)) as [|Hz]; [discriminate|]. injection H as <- <- <-.
  rewrite N.mod_small by (apply (genint_lt 2); lia).
  destruct (decs_inv ls _ b1 vs1 u2 b2 Hok B D) as (A1 & W & D1).
  assert (CC : consumed (Forall nodata ls) b b2 (le 2 (genint 2 (overlay u_zero x)) ++ encs ls vs1)).
  { eapply consumed_trans; [| |exact C|exact D1|]; auto.
    intros En. destruct A1 as [->|A1]; [|contradiction]. inversion W; subst. reflexivity. }
  assert (Hb2 : unread b2 = []) by (apply blen_0; unfold buf_len in Hz; lia).
  destruct CC as [S CC].
  split; [exact W|]. split; [apply (genint_lt 2); lia|].
  split; [destruct b2 as [ub2 sb2]; cbn [unread spare] in *; subst; reflexivity|].
  destruct CC as [CC|(_ & ext & X & CC & Y)].
  - exists []. rewrite CC, Hb2, !app_nil_r. split; [reflexivity|cbn; lia].
  - exists ext. auto.
Qed.

(** * Strings come out of the message *)

Definition suffix (s l : bytes) : Prop := exists p, l = p ++ s.
Lemma infix_nil l : infix [] l. Proof. exists [], l. reflexivity. Qed.
Lemma infix_suffix s l l' : infix s l -> suffix l l' -> infix s l'.
Proof. intros (p & q & ->) (r & ->). exists (r ++ p), q. rewrite <- app_assoc. reflexivity. Qed.
Lemma suffix_trans a b c : suffix a b -> suffix b c -> suffix a c.
Proof. intros (p & ->) (q & ->). exists (q ++ p). rewrite <- app_assoc. reflexivity. Qed.
Lemma suffix_refl a : suffix a a. Proof. exists []. reflexivity. Qed.

Definition str0 (L : bytes) (v : v0) : Prop := match v with VS s => infix s L | _ => True end.
(** Every string in the value is a contiguous part of L. *)
Definition strs (L : bytes) (v : val) : Prop :=
  match v with V0 v => str0 L v | VSl vs => Forall (Forall (str0 L)) vs | VD _ => True end.
(** Both outcomes of a decoding step: the values read and (if it goes on) the rest. *)
Definition lres_from {A} (P : bytes -> A -> Prop) (b : buf) (r : lres A) : Prop :=
  match r with
  | LNext a _ b' => P (unread b) a /\ suffix (unread b') (unread b)
  | LRet a _ _ => P (unread b) a
  | LPanic => True
  end.
Lemma str0_suffix l l' v : str0 l v -> suffix l l' -> str0 l' v.
Proof. destruct v; cbn; auto. apply infix_suffix. Qed.
Lemma strs_suffix l l' v : strs l v -> suffix l l' -> strs l' v.
Proof.
  destruct v as [v|vs|d]; cbn; [apply str0_suffix| |auto].
  intros H Hs. eapply Forall_impl; [|exact H]. intros x Hx. eapply Forall_impl; [|exact Hx].
  intros y Hy. eapply str0_suffix; eauto.
Qed.
Lemma buf_read_suffix n b x b' : buf_read n b = Some (x, b') -> suffix (unread b') (unread b).
Proof.
  unfold buf_read. destruct (unread b) as [|a l] eqn:E; [discriminate|]. intros H. injection H as <- <-.
  exists (firstn n (a :: l)). cbn [unread]. rewrite firstn_skipn. reflexivity.
Qed.
Lemma buf_next_suffix l b : suffix (unread (buf_next l b)) (unread b).
Proof.
  unfold buf_next. destruct (buf_len b <=? l); cbn [unread].
  - exists (unread b). rewrite app_nil_r. reflexivity.
  - exists (firstn (N.to_nat l) (unread b)). rewrite firstn_skipn. reflexivity.
Qed.
Lemma dec0_from l u b : lres_from str0 b (dec0 l u b).
Proof.
  destruct l; cbn [dec0]; unfold rd; destruct (buf_read _ b) as [[x b1]|] eqn:E; cbn [lres_from str0];
    try solve [split; [exact I|eapply buf_read_suffix; eauto] | exact I | apply infix_nil].
  apply buf_read_suffix in E.
  destruct (N.ltb_spec (buf_len b1) (genint 2 (overlay u x))); cbn [lres_from str0]; [apply infix_nil|].
  unfold reslice. rewrite buf_reslice_le by lia. cbn [lres_from str0]. split.
  - apply infix_suffix with (unread b1); [|exact E].
    exists [], (skipn (N.to_nat (genint 2 (overlay u x))) (unread b1)). cbn [app]. rewrite firstn_skipn. reflexivity.
  - eapply suffix_trans; [apply buf_next_suffix|exact E].
Qed.
Lemma Forall_str0_zero L ls : Forall (str0 L) (map zero0 ls).
Proof. induction ls as [|[]]; cbn; constructor; cbn; auto using infix_nil. Qed.
Lemma dec0s_from ls : forall u b, lres_from (fun L => Forall (str0 L)) b (dec0s ls u b).
Proof.
  induction ls as [|l ls IH]; intros u b; cbn [dec0s].
  - cbn. split; [constructor|apply suffix_refl].
  - pose proof (dec0_from l u b) as H. destruct (dec0 l u b) as [v u1 b1|v b1 e|]; cbn [lbind lres_from] in *; [|constructor; [exact H|apply Forall_str0_zero]|exact I].
    destruct H as [H Hs]. specialize (IH u1 b1).
    destruct (dec0s ls u1 b1) as [vs u2 b2|vs b2 e|]; cbn [lmap lbind lres_from] in *; [|constructor; [exact H|]|exact I].
    + destruct IH as [IH Hs2]. split; [|eapply suffix_trans; eauto].
      constructor; [exact H|]. eapply Forall_impl; [|exact IH]. intros. eapply str0_suffix; eauto.
    + eapply Forall_impl; [|exact IH]. intros. eapply str0_suffix; eauto.
Qed.
Lemma for_range_from es z n : Forall (str0 []) z -> forall f u b L,
  suffix (unread b) L ->
  (forall l, Forall (Forall (str0 L)) l -> strs L (f l)) ->
  match for_range z n u b (dec0s es) LPanic (fun l b e => LRet (f l) b e) (fun l u b => LNext (f l) u b) with
  | LNext a _ b' => strs L a /\ suffix (unread b') L
  | LRet a _ _ => strs L a
  | LPanic => True
  end.
Proof.
  intros Hz. induction n as [|n IH]; intros f u b L Hs Hf; cbn [for_range].
  - split; [apply Hf; constructor|exact Hs].
  - pose proof (dec0s_from es u b) as H. destruct (dec0s es u b) as [w u1 b1|w b1 e|]; cbn [lres_from] in H; [| |exact I].
    + destruct H as [H Hs1].
      assert (Hw : Forall (str0 L) w).
      { eapply Forall_impl; [|exact H]. intros. eapply str0_suffix; eauto. }
      apply (IH (fun l => f (w :: l))).
      * eapply suffix_trans; eauto.
      * intros l Hl. apply Hf. constructor; assumption.
    + apply Hf. constructor.
      * eapply Forall_impl; [|exact H]. intros. eapply str0_suffix; eauto.
      * clear -Hz Hs. induction n; cbn; constructor; [|exact IHn].
        eapply Forall_impl; [|exact Hz]. intros a Ha. eapply str0_suffix; [exact Ha|]. exists L. rewrite app_nil_r. reflexivity.
Qed.
Lemma dec1_from l u b : lres_from strs b (dec1 l u b).
Proof.
  destruct l as [l|es|k]; cbn [dec1].
  - pose proof (dec0_from l u b) as H. destruct (dec0 l u b); cbn [lmap lbind lres_from strs] in *; exact H.
  - unfold rd. destruct (buf_read 2 b) as [[x b1]|] eqn:E; [|cbn; constructor].
    apply buf_read_suffix in E.
    apply (for_range_from es (map zero0 es) _ (Forall_str0_zero [] es) VSl (overlay u x) b1 (unread b) E).
    intros l Hl. exact Hl.
  - unfold rd. destruct (buf_read k b) as [[x b1]|] eqn:E; [|exact I].
    apply buf_read_suffix in E. unfold reslice.
    destruct (buf_reslice (genint k (overlay u x)) b1); [|exact I].
    cbn. split; [exact I|]. eapply suffix_trans; [apply buf_next_suffix|exact E].
Qed.
Lemma Forall_strs_zero L ls : Forall (strs L) (map zero ls).
Proof. induction ls as [|[[]| |]]; cbn; constructor; cbn; auto using infix_nil. Qed.
Lemma decs_from ls : forall u b, lres_from (fun L => Forall (strs L)) b (decs ls u b).
Proof.
  induction ls as [|l ls IH]; intros u b; cbn [decs].
  - cbn. split; [constructor|apply suffix_refl].
  - pose proof (dec1_from l u b) as H. destruct (dec1 l u b) as [v u1 b1|v b1 e|]; cbn [lbind lres_from] in *; [|constructor; [exact H|apply Forall_strs_zero]|exact I].
    destruct H as [H Hs]. specialize (IH u1 b1).
    destruct (decs ls u1 b1) as [vs u2 b2|vs b2 e|]; cbn [lmap lbind lres_from] in *; [|constructor; [exact H|]|exact I].
    + destruct IH as [IH Hs2]. split; [|eapply suffix_trans; eauto].
      constructor; [exact H|]. eapply Forall_impl; [|exact IH]. intros. eapply strs_suffix; eauto.
    + eapply Forall_impl; [|exact IH]. intros. eapply strs_suffix; eauto.
Qed.
(** Every string a decoder hands out, also on an error, is a contiguous part of the input. *)
Theorem unmarshal_strings ls b vs t rest err :
  unmarshal_pkt ls b = URet vs t rest err -> Forall (strs (unread b)) vs.
Proof.
  unfold unmarshal_pkt, rd. destruct (buf_read 2 b) as [[x b1]|] eqn:E.
  - apply buf_read_suffix in E. pose proof (decs_from ls (overlay u_zero x) b1) as H.
    destruct (decs ls (overlay u_zero x) b1) as [vs1 u2 b2|vs1 b2 e|]; cbn [lres_from] in H; [| |discriminate].
    + destruct H as [H _].
      assert (Forall (strs (unread b)) vs1).
      { eapply Forall_impl; [|exact H]. intros. eapply strs_suffix; eauto. }
      destruct (0 <? buf_len b2); intros Q; injection Q as <- <- <- <-; assumption.
    + intros Q; injection Q as <- <- <- <-. eapply Forall_impl; [|exact H]. intros. eapply strs_suffix; eauto.
  - intros Q; injection Q as <- <- <- <-. apply Forall_strs_zero.
Qed.

(** * Truncated messages *)
Definition first_err (l : leaf) : buf -> bytes :=
  err_int (match l with L0 (LInt w) => w | L0 LCount => 4 | L0 LStr => 2 | LSlice _ => 2 | LData k => k end).
Lemma dec1_empty l u sp : dec1 l u (Buf [] sp) = LRet (zero l) (Buf [] sp) (first_err l (Buf [] sp)).
Proof. destruct l as [[]| |]; reflexivity. Qed.

(** Cut at a field boundary: rejected, with the fields before the cut intact. *)
Theorem unmarshal_cut_at_field ls1 l ls2 vs t sp :
  Forall okl ls1 -> wfs ls1 vs -> t < 65536 ->
  unmarshal_pkt (ls1 ++ l :: ls2) (Buf (le 2 t ++ encs ls1 vs) sp)
  = URet (vs ++ zero l :: map zero ls2) t (Buf [] sp) (Some (first_err l (Buf [] sp))).
Proof.
  intros Hok Hwf Ht. unfold unmarshal_pkt.
  rewrite rd_exact by (rewrite ?le_length; lia).
  rewrite tagint, genint_overlay by (try lia; exact Ht).
  rewrite N.mod_small by exact Ht.
  rewrite <- (app_nil_r (encs ls1 vs)).
  destruct (decs_encs_app ls1 (l :: ls2) vs (overlay u_zero (le 2 t)) [] sp Hok Hwf) as (u' & _ & E); [reflexivity|].
  rewrite E. cbn [decs]. rewrite dec1_empty. reflexivity.
Qed.
(** Cut inside the bytes of a string: rejected. *)
Theorem unmarshal_cut_in_string ls1 ls2 vs s k t sp :
  Forall okl ls1 -> wfs ls1 vs -> t < 65536 -> blen s < 65536 -> (k < List.length s)%nat ->
  unmarshal_pkt (ls1 ++ L0 LStr :: ls2) (Buf (le 2 t ++ encs ls1 vs ++ le 2 (blen s) ++ firstn k s) sp)
  = URet (vs ++ V0 (VS []) :: map zero ls2) t (Buf (firstn k s) sp)
      (Some (err_str (blen s) (Buf (firstn k s) sp))).
Proof.
  intros Hok Hwf Ht Hs Hk. unfold unmarshal_pkt.
  rewrite rd_exact by (rewrite ?le_length; lia).
  rewrite tagint, genint_overlay by (try lia; exact Ht).
  rewrite N.mod_small by exact Ht.
  destruct (decs_encs_app ls1 (L0 LStr :: ls2) vs (overlay u_zero (le 2 t)) (le 2 (blen s) ++ firstn k s) sp Hok Hwf) as (u' & _ & E); [reflexivity|].
  rewrite E. cbn [decs dec1 dec0]. rewrite rd_exact by (rewrite ?le_length; lia).
  rewrite genint_overlay by (try lia; exact Hs).
  unfold buf_len at 1. cbn [unread].
  assert (blen (firstn k s) < blen s) by (unfold blen; rewrite firstn_length; lia).
  destruct (N.ltb_spec (blen (firstn k s)) (blen s)) as [_|]; [|lia].
  reflexivity.
Qed.

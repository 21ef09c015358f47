(** Over-long strings, byte-slice fields, and counterexamples (C06, C08-C11). *)
From Verif Require Import Base GoBuf CodecPrim Types Codec Gen GenThm GenInv Msgs GenEq CodecSpec MsgThm CodecLemmas.

Lemma peel_le k a b r s : le k a ++ r = le k b ++ s -> a mod cap k = b mod cap k /\ r = s.
Proof.
  intros H. apply app_inj_len in H; [|rewrite !le_length; reflexivity]. destruct H as [H ->].
  split; [|reflexivity]. rewrite <- !unle_le, H. reflexivity.
Qed.
Lemma blen_text s : blen (text s) = 2 + blen s.
Proof. unfold text. rewrite blen_app, le_blen. reflexivity. Qed.
Lemma blen_blob w s : blen (blob w s) = N.of_nat w + blen s.
Proof. unfold blob. rewrite blen_app, le_blen. reflexivity. Qed.
(** Same leading count, accepted string short: the lengths agree modulo 2^16. *)
Lemma peel_text s s' r r' : text s' ++ r' = text s ++ r -> short s' -> blen s' <= blen s /\ blen s' = blen s mod 65536.
Proof.
  unfold text, short. rewrite <- !app_assoc. intros H Hs. apply peel_le in H. destruct H as [H _].
  rewrite cap2, (N.mod_small (blen s')) in H by exact Hs. split; [|exact H].
  rewrite H. apply N.mod_le. lia.
Qed.

Lemma blob_text d : blob 2 d = text d.
Proof. reflexivity. Qed.

Lemma blen_qids l : blen (flat_map (fun q => concat (qid13 q)) l) = 13 * blen l.
Proof.
  induction l as [|q l IH]; [reflexivity|]. cbn [flat_map]. rewrite blen_app, IH, blen_cons.
  change (blen (concat (qid13 q))) with 13. lia.
Qed.

Ltac lens H := apply (f_equal blen) in H; unfold count32, text, blob in H; rewrite ?blen_app, ?le_blen, ?blen_nil in H.

(** Except for Twalk, a message that is accepted after a round trip is the message sent. *)
Lemma accepted_sameT m t sp m' t' rest :
  machineT m -> t < 65536 -> blen (marshalT t m) < 4294967296 ->
  (forall p, m <> MTwalk p) ->
  unmarshalT (ttype m) (Buf (skipn 5 (marshalT t m)) sp) = Some (URet m' t' rest None) ->
  m' = m /\ t' = t.
Proof.
  intros Hm Ht Hl Hw H.
  assert (F : fitsT m \/ ~ fitsT m).
  { destruct m as [p|p|p|p|p|p|p|p|p|p|p|p]; cbn [fitsT machineT] in *; unfold short, u16n, u32n in *; try (left; tauto);
      try (match goal with |- context [blen ?x < 65536] => destruct (N.lt_decidable (blen x) 65536) end; try tauto;
           match goal with |- context [blen ?x < 65536] => destruct (N.lt_decidable (blen x) 65536) end; tauto).
    - destruct (N.lt_decidable (blen (Tattach_Uname p)) 65536), (N.lt_decidable (blen (Tattach_Aname p)) 65536); tauto.
    - exfalso. eapply Hw. reflexivity.
    - destruct (N.lt_decidable (blen (Twrite_Data p)) 4294967296); tauto. }
  destruct F as [F|F].
  { rewrite roundtripT in H by assumption. injection H as <- <- _. auto. }
  exfalso. rewrite layoutT, frame_body in H.
  apply canonicalT in H. destruct H as (HT & Hf & _ & ext & X & _). cbn [unread] in X.
  assert (Hlen : blen (marshalT t m) = 7 + blen (concat (snd (wireT m)))) by exact (marshalM_blen t (MT m)).
  rewrite Hlen in Hl. clear Hlen.
  rewrite <- app_assoc in X. apply peel_le in X. destruct X as [_ X].
  destruct m as [[]|[]|[]|[]|[]|[]|[]|[]|[]|[]|[]|[]]; cbn [fitsT machineT] in *; try tauto;
    destruct m' as [[]|[]|[]|[]|[]|[]|[]|[]|[]|[]|[]|[]]; try discriminate HT; clear HT;
    cbn -[le text blob count32 blen N.add N.lt N.mul] in Hf, X, Hl, F, Hm; rewrite <- ?app_assoc in X.
  - apply peel_le in X. destruct X as [_ X].
    pose proof (peel_text _ _ _ _ X (proj2 Hf)) as [A B]. lens X. destruct Hf as [_ Hf].
    unfold short in *. assert (~ blen Tversion_TVersion < 65536) by tauto. lia.
  - apply peel_le in X. destruct X as [_ X]. apply peel_le in X. destruct X as [_ X].
    destruct Hf as (_ & _ & Hu & Ha).
    pose proof (peel_text _ _ _ _ X Hu) as [A B]. lens X.
    unfold short in *.
    assert (65536 <= blen Tattach_Uname \/ 65536 <= blen Tattach_Aname).
    { destruct (N.lt_ge_cases (blen Tattach_Uname) 65536), (N.lt_ge_cases (blen Tattach_Aname) 65536); tauto. }
    assert (65536 <= blen Tattach_Uname -> blen Tattach_Uname0 + 65536 <= blen Tattach_Uname).
    { intros G. rewrite B. pose proof (N.div_mod (blen Tattach_Uname) 65536 ltac:(lia)) as D.
      assert (1 <= blen Tattach_Uname / 65536) by (apply N.div_le_lower_bound; lia). lia. }
    lia.
  - exfalso. eapply Hw. reflexivity.
  - apply peel_le in X. destruct X as [_ X].
    destruct Hf as (_ & Hu & _ & _).
    pose proof (peel_text _ _ _ _ X Hu) as [A B]. lens X. unfold short in *.
    assert (~ blen Tcreate_Name < 65536) by tauto. lia.
  - apply F. repeat split; try tauto. unfold u32n. rewrite !blen_app, blen_blob in Hl. lia.
  - apply peel_le in X. destruct X as [_ X]. rewrite !blob_text in X.
    destruct Hf as [_ Hf].
    pose proof (peel_text _ _ _ _ X Hf) as [A B]. lens X. unfold short in *.
    assert (~ blen Twstat_B < 65536) by tauto. lia.
Qed.
Lemma accepted_sameR m t sp m' t' rest :
  machineR m -> t < 65536 -> blen (marshalR t m) < 4294967296 ->
  unmarshalR (rtype m) (Buf (skipn 5 (marshalR t m)) sp) = Some (URet m' t' rest None) ->
  m' = m /\ t' = t.
Proof.
  intros Hm Ht Hl H.
  assert (F : fitsR m \/ ~ fitsR m).
  { destruct m as [p|p|p|p|p|p|p|p|p|p|p|p|p]; cbn [fitsR machineR] in *; unfold short, u16n, u32n in *; try (left; tauto).
    - destruct (N.lt_decidable (blen (Rversion_RVersion p)) 65536); tauto.
    - destruct (N.lt_decidable (blen (Rerror_Error p)) 65536); tauto.
    - destruct (N.lt_decidable (blen (Rwalk_QIDs p)) 65536); tauto.
    - destruct (N.lt_decidable (blen (Rread_Data p)) 4294967296); tauto.
    - destruct (N.lt_decidable (blen (Rstat_B p)) 65536); tauto. }
  destruct F as [F|F].
  { rewrite roundtripR in H by assumption. injection H as <- <- _. auto. }
  exfalso. rewrite layoutR, frame_body in H.
  apply canonicalR in H. destruct H as (HT & Hf & _ & ext & X & _). cbn [unread] in X.
  assert (Hlen : blen (marshalR t m) = 7 + blen (concat (snd (wireR m)))) by exact (marshalM_blen t (MR m)).
  rewrite Hlen in Hl. clear Hlen.
  rewrite <- app_assoc in X. apply peel_le in X. destruct X as [_ X].
  destruct m as [[]|[]|[]|[]|[]|[]|[]|[]|[]|[]|[]|[]|[]]; cbn [fitsR machineR] in *; try tauto;
    destruct m' as [[]|[]|[]|[]|[]|[]|[]|[]|[]|[]|[]|[]|[]]; try discriminate HT; clear HT;
    cbn -[le text blob count32 blen N.add N.lt N.mul] in Hf, X, Hl, F, Hm; rewrite <- ?app_assoc in X.
  - apply peel_le in X. destruct X as [_ X].
    pose proof (peel_text _ _ _ _ X (proj2 Hf)) as [A B]. lens X. destruct Hf as [_ Hf].
    unfold short in *. assert (~ blen Rversion_RVersion < 65536) by tauto. lia.
  - pose proof (peel_text _ _ _ _ X Hf) as [A B]. lens X. unfold short in *. lia.
  - apply peel_le in X. destruct X as [B X]. rewrite cap2 in B. destruct Hf as [Hf _]. unfold u16n in *.
    rewrite (N.mod_small (blen Rwalk_QIDs0)) in B by exact Hf.
    assert (~ blen Rwalk_QIDs < 65536) by tauto.
    apply (f_equal blen) in X. cbn [app] in X. rewrite ?app_nil_r, blen_app, !blen_qids in X. lia.
  - apply F. unfold u32n. rewrite blen_app, blen_blob in Hl. lia.
  - rewrite !blob_text in X. pose proof (peel_text _ _ _ _ X Hf) as [A B]. lens X. unfold short in *. lia.
Qed.

(** * Byte-slice fields: exactly what the unchecked count does *)
Lemma buf_next_spec l d sp : buf_next l (Buf d sp) = Buf (skipn (N.to_nat l) d) sp.
Proof.
  unfold buf_next, buf_len. cbn [unread spare]. destruct (N.leb_spec (blen d) l) as [H|H]; [|reflexivity].
  rewrite skipn_all2; [reflexivity|]. unfold blen in H. lia.
Qed.
Lemma unmarshal_data ls1 vs k t l d sp :
  Forall okl ls1 -> wfs ls1 vs -> (1 <= k <= 8)%nat -> t < 65536 -> l < cap k ->
  unmarshal_pkt (ls1 ++ [LData k]) (Buf (le 2 t ++ encs ls1 vs ++ le k l ++ d) sp)
  = if blen d + blen sp <? l then UPanic
    else URet (vs ++ [VD (firstn (N.to_nat l) (d ++ sp))]) t (Buf (skipn (N.to_nat l) d) sp)
           (if blen d <=? l then None
            else Some (str "Packet too long: " ++ dec (blen d - l) ++ str " bytes left over after decode")).
Proof.
  intros Hok Hwf Hk Ht Hl. unfold unmarshal_pkt.
  rewrite rd_exact by (rewrite ?le_length; lia).
  rewrite tagint, genint_overlay by (try lia; exact Ht).
  rewrite N.mod_small by exact Ht.
  destruct (decs_encs_app ls1 [LData k] vs (overlay u_zero (le 2 t)) (le k l ++ d) sp Hok Hwf) as (u' & _ & E); [reflexivity|].
  rewrite E. cbn [decs dec1]. rewrite rd_exact by (rewrite ?le_length; lia).
  rewrite genint_overlay by (try lia; exact Hl).
  unfold reslice, buf_reslice. cbn [unread spare].
  destruct (N.ltb_spec (blen d + blen sp) l) as [H|H]; destruct (N.leb_spec l (blen d + blen sp)) as [H'|H']; try lia; [reflexivity|].
  cbn [lbind lmap]. rewrite buf_next_spec. unfold buf_len at 1. cbn [unread].
  assert (Hs : blen (skipn (N.to_nat l) d) = blen d - l).
  { unfold blen. rewrite skipn_length. lia. }
  rewrite Hs.
  destruct (N.ltb_spec 0 (blen d - l)), (N.leb_spec (blen d) l); try lia; [|reflexivity].
  unfold err_long, buf_len. cbn [unread]. rewrite Hs. reflexivity.
Qed.

Definition data_outcome {M} (mk : bytes -> M) (t l : N) (d sp : bytes) : ures M :=
  if blen d + blen sp <? l then UPanic
  else URet (mk (firstn (N.to_nat l) (d ++ sp))) t (Buf (skipn (N.to_nat l) d) sp)
         (if blen d <=? l then None
          else Some (str "Packet too long: " ++ dec (blen d - l) ++ str " bytes left over after decode")).

Lemma umap_panic {A B} (f : A -> B) r : umap f r = UPanic -> r = UPanic.
Proof. destruct r; [discriminate|reflexivity]. Qed.

Lemma twrite_data t f o l d sp :
  t < 65536 -> u32n f -> u64n o -> u32n l ->
  unmarshalT Twrite_t (Buf (le 2 t ++ le 4 f ++ le 8 o ++ le 4 l ++ d) sp)
  = Some (data_outcome (fun x => MTwrite (mkTwritePkt f o x)) t l d sp).
Proof.
  intros Ht Hf Ho Hl.
  destruct (unmarshalT_gen Twrite_t (Buf (le 2 t ++ le 4 f ++ le 8 o ++ le 4 l ++ d) sp) eq_refl) as (r & -> & E & T).
  pose proof (unmarshal_data [L0 (LInt 4); L0 (LInt 8)] [V0 (VI f); V0 (VI o)] 4 t l d sp) as G.
  cbn [encs enc] in G. rewrite !enc0_int, app_nil_r, <- !app_assoc in G. cbn [app] in G.
  change (schT Twrite_t) with [L0 (LInt 4); L0 (LInt 8); LData 4] in E. rewrite G in E; clear G;
    [|repeat constructor|repeat constructor; assumption|lia|assumption|assumption].
  f_equal. unfold data_outcome. destruct (blen d + blen sp <? l).
  - apply umap_panic in E. exact E.
  - apply umap_inv in E. destruct E as (m' & -> & V). f_equal.
    apply valsT_inj; [exact (T _ _ _ _ eq_refl)|exact V].
Qed.
Lemma twstat_data t f l d sp :
  t < 65536 -> u32n f -> u16n l ->
  unmarshalT Twstat_t (Buf (le 2 t ++ le 4 f ++ le 2 l ++ d) sp)
  = Some (data_outcome (fun x => MTwstat (mkTwstatPkt f x)) t l d sp).
Proof.
  intros Ht Hf Hl.
  destruct (unmarshalT_gen Twstat_t (Buf (le 2 t ++ le 4 f ++ le 2 l ++ d) sp) eq_refl) as (r & -> & E & T).
  pose proof (unmarshal_data [L0 (LInt 4)] [V0 (VI f)] 2 t l d sp) as G.
  cbn [encs enc] in G. rewrite !enc0_int, app_nil_r in G. cbn [app] in G.
  change (schT Twstat_t) with [L0 (LInt 4); LData 2] in E. rewrite G in E; clear G;
    [|repeat constructor|repeat constructor; assumption|lia|assumption|assumption].
  f_equal. unfold data_outcome. destruct (blen d + blen sp <? l).
  - apply umap_panic in E. exact E.
  - apply umap_inv in E. destruct E as (m' & -> & V). f_equal.
    apply valsT_inj; [exact (T _ _ _ _ eq_refl)|exact V].
Qed.
Lemma rread_data t l d sp :
  t < 65536 -> u32n l ->
  unmarshalR Rread_t (Buf (le 2 t ++ le 4 l ++ d) sp)
  = Some (data_outcome (fun x => MRread (mkRreadPkt x)) t l d sp).
Proof.
  intros Ht Hl.
  destruct (unmarshalR_gen Rread_t (Buf (le 2 t ++ le 4 l ++ d) sp) eq_refl) as (r & -> & E & T).
  pose proof (unmarshal_data [] [] 4 t l d sp) as G. cbn [encs app] in G.
  change (schR Rread_t) with [LData 4] in E. rewrite G in E; clear G;
    [|repeat constructor|repeat constructor; assumption|lia|assumption|assumption].
  f_equal. unfold data_outcome. destruct (blen d + blen sp <? l).
  - apply umap_panic in E. exact E.
  - apply umap_inv in E. destruct E as (m' & -> & V). f_equal.
    apply valsR_inj; [exact (T _ _ _ _ eq_refl)|exact V].
Qed.
Lemma rstat_data t l d sp :
  t < 65536 -> u16n l ->
  unmarshalR Rstat_t (Buf (le 2 t ++ le 2 l ++ d) sp)
  = Some (data_outcome (fun x => MRstat (mkRstatPkt x)) t l d sp).
Proof.
  intros Ht Hl.
  destruct (unmarshalR_gen Rstat_t (Buf (le 2 t ++ le 2 l ++ d) sp) eq_refl) as (r & -> & E & T).
  pose proof (unmarshal_data [] [] 2 t l d sp) as G. cbn [encs app] in G.
  change (schR Rstat_t) with [LData 2] in E. rewrite G in E; clear G;
    [|repeat constructor|repeat constructor; assumption|lia|assumption|assumption].
  f_equal. unfold data_outcome. destruct (blen d + blen sp <? l).
  - apply umap_panic in E. exact E.
  - apply umap_inv in E. destruct E as (m' & -> & V). f_equal.
    apply valsR_inj; [exact (T _ _ _ _ eq_refl)|exact V].
Qed.

(** * Cut inside a string *)
Lemma cut_string_Rerror t s k sp :
  t < 65536 -> short s -> (k < List.length s)%nat ->
  exists rest e, UnmarshalRerrorPkt (Buf (le 2 t ++ le 2 (blen s) ++ firstn k s) sp)
                 = URet (mkRerrorPkt []) t rest (Some e).
Proof.
  intros Ht Hs Hk.
  pose proof (UnmarshalRerror_gen (Buf (le 2 t ++ le 2 (blen s) ++ firstn k s) sp)) as E.
  pose proof (unmarshal_cut_in_string [] [] [] s k t sp) as G. cbn [encs app] in G.
  change (schR Rerror_t) with [L0 LStr] in E. rewrite G in E; clear G;
    [|repeat constructor|constructor|assumption|assumption|assumption].
  apply umap_inv in E. destruct E as ([e] & -> & V). injection V as ->. eauto.
Qed.

(** * Counterexamples *)
(** A name of 65536 bytes: its count wraps to 0 and the peer parses the name's own bytes. *)
Definition over_fill : bytes := repeat x61 (N.to_nat 65532).
Definition over_name : bytes := le 2 65532 ++ over_fill ++ le 2 4.
Definition over_walk : tmsg := MTwalk (mkTwalkPkt 1 2 [over_name; []; []]).
Definition over_walk' : tmsg := MTwalk (mkTwalkPkt 1 2 [[]; over_fill; repeat x00 4]).
Lemma over_fill_blen : blen over_fill = 65532.
Proof. unfold over_fill, blen. rewrite repeat_length. apply N2Nat.id. Qed.
Lemma over_name_blen : blen over_name = 65536.
Proof. unfold over_name. rewrite !blen_app, over_fill_blen. reflexivity. Qed.
Opaque over_fill.
Lemma over_walk_wire : concat (snd (wireT over_walk)) = concat (snd (wireT over_walk')).
Proof.
  unfold over_walk, over_walk', wireT. cbn [snd concat flat_map]. unfold text.
  rewrite over_name_blen, over_fill_blen. unfold over_name.
  change (blen [[]; over_fill; repeat x00 4]) with 3. change (blen [over_name; []; []]) with 3.
  change (le 2 65536) with [x00; x00]. change (le 2 (blen (@nil byte))) with [x00; x00].
  change (le 2 4) with [x04; x00]. change (le 2 (blen (repeat x00 4))) with [x04; x00].
  rewrite !app_nil_r, <- !app_assoc. reflexivity.
Qed.
Lemma over_walk'_fits : fitsT over_walk'.
Proof.
  unfold over_walk'. cbn [fitsT Twalk_SFID Twalk_NewFID Twalk_Paths].
  split; [reflexivity|]. split; [reflexivity|]. split; [reflexivity|].
  constructor; [reflexivity|]. constructor; [|repeat constructor].
  unfold short. rewrite over_fill_blen. reflexivity.
Qed.
Lemma over_walk_differs : over_walk' <> over_walk.
Proof. intros H. injection H. intros H'. apply (f_equal blen) in H'. discriminate. Qed.
Lemma over_walk_accepted t sp : t < 65536 ->
  unmarshalT (ttype over_walk) (Buf (skipn 5 (marshalT t over_walk)) sp) = Some (URet over_walk' t (Buf [] sp) None).
Proof.
  intros Ht. rewrite layoutT, frame_body, over_walk_wire.
  rewrite <- (app_nil_r (concat _)). exact (decodeT_full over_walk' t [] sp over_walk'_fits Ht).
Qed.

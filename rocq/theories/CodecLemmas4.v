(** Refutations and sizes for the codec properties. *)
From Verif Require Import Base GoBuf CodecPrim Types Codec Gen GenThm GenInv Msgs GenEq CodecSpec MsgThm CodecLemmas CodecLemmas2 CodecLemmas3.

Lemma c06_refuted :
  ~ (forall m t sp m' t' rest,
       machineT m -> t < 65536 -> blen (marshalT t m) < 4294967296 ->
       unmarshalT (ttype m) (Buf (skipn 5 (marshalT t m)) sp) = Some (URet m' t' rest None) ->
       m' = m).
Proof.
  intros H. apply over_walk_differs.
  apply (H over_walk 7 [] over_walk' 7 (Buf [] [])).
  - split; reflexivity.
  - reflexivity.
  - change (marshalT 7 over_walk) with (marshalM 7 (MT over_walk)). rewrite marshalM_blen. cbn [wireM].
    rewrite over_walk_wire. unfold over_walk', wireT. cbn [snd concat flat_map]. unfold text.
    rewrite over_fill_blen, !blen_app, !le_blen, over_fill_blen. reflexivity.
  - apply over_walk_accepted. reflexivity.
Qed.
Lemma c06_partial m t sp m' t' rest :
  machineT m -> t < 65536 -> blen (marshalT t m) < 4294967296 ->
  (forall p, m = MTwalk p -> Forall short (Twalk_Paths p)) ->
  unmarshalT (ttype m) (Buf (skipn 5 (marshalT t m)) sp) = Some (URet m' t' rest None) ->
  m' = m /\ t' = t.
Proof.
  intros Hm Ht Hl Hw H.
  assert (D : (exists p, m = MTwalk p) \/ forall p, m <> MTwalk p).
  { destruct m; try (right; discriminate). eauto. }
  destruct D as [[p ->]|D].
  - eapply accepted_walk; eauto.
  - eapply accepted_sameT; eauto.
Qed.

(** A message cut after the first byte of a 4-byte field is accepted. *)
Lemma c08_refuted :
  ~ (forall m t sp k,
       fitsT m -> t < 65536 -> (k < List.length (skipn 5 (marshalT t m)))%nat ->
       exists m' t' rest e,
         unmarshalT (ttype m) (Buf (firstn k (skipn 5 (marshalT t m))) sp) = Some (URet m' t' rest (Some e))).
Proof.
  intros H. specialize (H (MTclunk (mkTclunkPkt 5)) 7 [] 3%nat eq_refl eq_refl).
  destruct H as (m' & t' & rest & e & H); [vm_compute; lia|].
  vm_compute in H. discriminate.
Qed.
(** Twrite cut inside its data: never an error. *)
Lemma c08_twrite t f o d k sp :
  t < 65536 -> u32n f -> u64n o -> u32n (blen d) -> (k < List.length d)%nat ->
  unmarshalT Twrite_t (Buf (le 2 t ++ le 4 f ++ le 8 o ++ le 4 (blen d) ++ firstn k d) sp)
  = Some (if blen sp <? blen d - N.of_nat k then UPanic
          else URet (MTwrite (mkTwritePkt f o (firstn k d ++ firstn (List.length d - k) sp))) t (Buf [] sp) None).
Proof.
  intros Ht Hf Ho Hd Hk. rewrite twrite_data by assumption. unfold data_outcome. f_equal.
  assert (Hb : blen (firstn k d) = N.of_nat k).
  { unfold blen. rewrite firstn_length. lia. }
  rewrite Hb. unfold blen in *.
  destruct (N.ltb_spec (N.of_nat k + N.of_nat (List.length sp)) (N.of_nat (List.length d)));
    destruct (N.ltb_spec (N.of_nat (List.length sp)) (N.of_nat (List.length d) - N.of_nat k)); try lia; [reflexivity|].
  destruct (N.leb_spec (N.of_nat k) (N.of_nat (List.length d))); [|lia].
  rewrite Nat2N.id. f_equal.
  - do 3 f_equal. rewrite firstn_app, firstn_firstn, firstn_length. do 2 f_equal; lia.
  - f_equal. apply skipn_all2. rewrite firstn_length. lia.
Qed.

Lemma c09_refuted :
  ~ (forall ty b, unmarshalT ty b <> Some UPanic).
Proof.
  intros H. apply (H Twstat_t (Buf (le 2 7 ++ le 4 1 ++ le 2 100) (repeat x00 20))). vm_compute. reflexivity.
Qed.
Lemma c09_partial :
  (forall ty b, ty <> Twrite_t -> ty <> Twstat_t -> unmarshalT ty b <> Some UPanic) /\
  (forall ty b, ty <> Rread_t -> ty <> Rstat_t -> unmarshalR ty b <> Some UPanic) /\
  (forall b, Unmarshaldir b <> UPanic).
Proof.
  split; [|split; [|exact nopanicDir]].
  - intros ty b H1 H2 E. revert E. destruct (is_ttype ty) eqn:Ht.
    + apply nopanicT; [exact Ht|]. apply orb_false_iff. split; apply N.eqb_neq; assumption.
    + clear H1 H2. revert Ht. unfold is_ttype, unmarshalT. cbn [existsb].
      repeat match goal with |- context [if ?c then _ else _] => destruct c eqn:?; [discriminate|] end. discriminate.
  - intros ty b H1 H2 E. revert E. destruct (is_rtype ty) eqn:Ht.
    + apply nopanicR; [exact Ht|]. apply orb_false_iff. split; apply N.eqb_neq; assumption.
    + clear H1 H2. revert Ht. unfold is_rtype, unmarshalR. cbn [existsb].
      repeat match goal with |- context [if ?c then _ else _] => destruct c eqn:?; [discriminate|] end. discriminate.
Qed.
Lemma data_panics {M} (mk : bytes -> M) t l d sp : data_outcome mk t l d sp = UPanic <-> blen d + blen sp < l.
Proof.
  unfold data_outcome. destruct (N.ltb_spec (blen d + blen sp) l); split; intros; try reflexivity; try discriminate; lia.
Qed.

Lemma c09_twrite t f o l d sp :
  t < 65536 -> u32n f -> u64n o -> u32n l ->
  unmarshalT Twrite_t (Buf (le 2 t ++ le 4 f ++ le 8 o ++ le 4 l ++ d) sp) = Some UPanic <-> blen d + blen sp < l.
Proof.
  intros. rewrite twrite_data by assumption. rewrite <- (data_panics (fun x => MTwrite (mkTwritePkt f o x)) t).
  split; [intros E; injection E; auto|intros ->; reflexivity].
Qed.
Lemma c09_twstat t f l d sp :
  t < 65536 -> u32n f -> u16n l ->
  unmarshalT Twstat_t (Buf (le 2 t ++ le 4 f ++ le 2 l ++ d) sp) = Some UPanic <-> blen d + blen sp < l.
Proof.
  intros. rewrite twstat_data by assumption. rewrite <- (data_panics (fun x => MTwstat (mkTwstatPkt f x)) t).
  split; [intros E; injection E; auto|intros ->; reflexivity].
Qed.
Lemma c09_rread t l d sp :
  t < 65536 -> u32n l ->
  unmarshalR Rread_t (Buf (le 2 t ++ le 4 l ++ d) sp) = Some UPanic <-> blen d + blen sp < l.
Proof.
  intros. rewrite rread_data by assumption. rewrite <- (data_panics (fun x => MRread (mkRreadPkt x)) t).
  split; [intros E; injection E; auto|intros ->; reflexivity].
Qed.
Lemma c09_rstat t l d sp :
  t < 65536 -> u16n l ->
  unmarshalR Rstat_t (Buf (le 2 t ++ le 2 l ++ d) sp) = Some UPanic <-> blen d + blen sp < l.
Proof.
  intros. rewrite rstat_data by assumption. rewrite <- (data_panics (fun x => MRstat (mkRstatPkt x)) t).
  split; [intros E; injection E; auto|intros ->; reflexivity].
Qed.

(** The data block of a decoded message. *)
Definition dataT (m : tmsg) : bytes :=
  match m with MTwrite p => Twrite_Data p | MTwstat p => Twstat_B p | _ => [] end.
Lemma c10_refuted :
  ~ (forall ty b m t rest, unmarshalT ty b = Some (URet m t rest None) -> infix (dataT m) (unread b)).
Proof.
  intros H.
  specialize (H Twrite_t (Buf (le 2 7 ++ le 4 1 ++ le 8 0 ++ le 4 3) [x53; x45; x43])
                (MTwrite (mkTwritePkt 1 0 [x53; x45; x43])) 7 (Buf [] [x53; x45; x43]) eq_refl).
  destruct H as (p & q & H). cbn [dataT Twrite_Data unread] in H.
  assert (HH : In x53 (le 2 7 ++ le 4 1 ++ le 8 0 ++ le 4 3)).
  { rewrite H. apply in_or_app; right. left. reflexivity. }
  vm_compute in HH. repeat (destruct HH as [HH|HH]; [discriminate|]). contradiction.
Qed.
Lemma firstn_app_le {A} n (a b : list A) : (n <= List.length a)%nat -> firstn n (a ++ b) = firstn n a.
Proof. intros H. rewrite firstn_app. replace (n - List.length a)%nat with 0%nat by lia. cbn [firstn]. apply app_nil_r. Qed.
Lemma data_honest {M} (mk : bytes -> M) t l d sp m t' rest e :
  data_outcome mk t l d sp = URet m t' rest e -> l <= blen d -> m = mk (firstn (N.to_nat l) d).
Proof.
  unfold data_outcome. destruct (blen d + blen sp <? l); [discriminate|]. intros E Hl. injection E as <- _ _ _.
  rewrite firstn_app_le; [reflexivity|]. unfold blen in Hl. lia.
Qed.

Lemma c11_refuted :
  ~ (forall ty b m t rest, unmarshalT ty b = Some (URet m t rest None) ->
       skipn 5 (marshalT t m) = unread b).
Proof.
  intros H. specialize (H Tclunk_t (Buf [x07; x00; x05] []) (MTclunk (mkTclunkPkt 5)) 7 (Buf [] []) eq_refl).
  vm_compute in H. discriminate.
Qed.

(** * Sizes *)
Lemma size_twrite t f o d : blen (marshalT t (MTwrite (mkTwritePkt f o d))) = 23 + blen d.
Proof.
  change (marshalT t (MTwrite (mkTwritePkt f o d))) with (marshalM t (MT (MTwrite (mkTwritePkt f o d)))).
  rewrite marshalM_blen. cbn [wireM wireT snd concat]. unfold blob. rewrite !blen_app, !le_blen, blen_nil. lia.
Qed.
Lemma size_rread t d : blen (marshalR t (MRread (mkRreadPkt d))) = 11 + blen d.
Proof.
  change (marshalR t (MRread (mkRreadPkt d))) with (marshalM t (MR (MRread (mkRreadPkt d)))).
  rewrite marshalM_blen. cbn [wireM wireR snd concat]. unfold blob. rewrite !blen_app, !le_blen, blen_nil. lia.
Qed.
Lemma c13 d t f o msize :
  blen (marshalT t (MTwrite (mkTwritePkt f o d))) = blen d + 23 /\
  blen (marshalR t (MRread (mkRreadPkt d))) = blen d + 11 /\
  (IOHDRSZ <= msize -> blen d <= msize - IOHDRSZ ->
   blen (marshalT t (MTwrite (mkTwritePkt f o d))) <= msize /\
   blen (marshalR t (MRread (mkRreadPkt d))) <= msize).
Proof. rewrite size_twrite, size_rread. change IOHDRSZ with 24. lia. Qed.

(** * The generator *)
Lemma c12_roundtrip ls ty t vs sp :
  Forall okl ls -> wfs ls vs -> t < 65536 ->
  unmarshal_pkt ls (Buf (skipn 5 (marshal_pkt ls ty t vs)) sp) = URet vs t (Buf [] sp) None.
Proof.
  intros Hok Hwf Ht. rewrite marshal_pkt_body, <- (app_nil_r (encs ls vs)), unmarshal_marshal by assumption. reflexivity.
Qed.

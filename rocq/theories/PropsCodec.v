(** Properties C01-C13: the message codec.  Statements only; proofs are in GenThm, GenInv, MsgThm
    and CodecLemmas*.  [marshalT t m] are the bytes the Marshal function for request m writes,
    [unmarshalT ty b] is the Unmarshal function for message type ty applied to a buffer with
    unread bytes and spare capacity ([Buf unread spare]); the server and the client strip the
    first 5 bytes (size and type) before unmarshalling.  wireT, wireR, wireDir, fits* and the like
    are the independent description of 9P2000 in CodecSpec.v. *)
From Verif Require Import Base GoBuf CodecPrim Types Codec Gen GenThm GenInv Msgs CodecSpec.
From Verif Require Import MsgThm GenEq CodecLemmas CodecLemmas2 CodecLemmas3 CodecLemmas4.

(** * C01 *)
Theorem C01_request_roundtrip : forall m t sp,
  fitsT m -> t < 65536 ->
  unmarshalT (ttype m) (Buf (skipn 5 (marshalT t m)) sp) = Some (URet m t (Buf [] sp) None).
Proof. exact roundtripT. Qed.
Print Assumptions C01_request_roundtrip.
Example C01_case : fitsT (MTwalk (mkTwalkPkt 1 2 [str "usr"; []; str "glenda"])) /\ 65535 < 65536.
Proof. split; [|reflexivity]. repeat split; try reflexivity. repeat constructor. Qed.

(** * C02 *)
Theorem C02_reply_roundtrip : forall m t sp,
  fitsR m -> t < 65536 ->
  unmarshalR (rtype m) (Buf (skipn 5 (marshalR t m)) sp) = Some (URet m t (Buf [] sp) None).
Proof. exact roundtripR. Qed.
Print Assumptions C02_reply_roundtrip.
Example C02_case : fitsR (MRwalk (mkRwalkPkt [mkQID 128 3 17; mkQID 0 0 18446744073709551615])).
Proof. repeat split; try reflexivity. repeat constructor. Qed.

(** * C03 *)
Theorem C03_dir_roundtrip : forall d r sp,
  fitsDir d -> Unmarshaldir (Buf (Marshaldir d ++ r) sp) = URet d 0 (Buf r sp) None.
Proof. exact roundtripDir. Qed.
Print Assumptions C03_dir_roundtrip.
Example C03_case :
  fitsDir (mkDir 0 0 (mkQID 128 1 2) 2147484141 1 2 4096 (str "bin") (str "sys") (str "sys") []).
Proof. repeat split; reflexivity. Qed.

(** * C04 *)
Theorem C04_request_layout : forall t m, marshalT t m = frame (fst (wireT m)) t (snd (wireT m)).
Proof. exact layoutT. Qed.
Print Assumptions C04_request_layout.
Theorem C04_reply_layout : forall t m, marshalR t m = frame (fst (wireR m)) t (snd (wireR m)).
Proof. exact layoutR. Qed.
Print Assumptions C04_reply_layout.
Theorem C04_dir_layout : forall d,
  Marshaldir d = le 2 (blen (concat (wireDir d))) ++ concat (wireDir d).
Proof. exact layoutDir. Qed.
Print Assumptions C04_dir_layout.
Example C04_case : (* Tversion tag 0xFFFF msize 8192 "9P2000", the bytes from the manual *)
  marshalT 65535 (MTversion (mkTversionPkt 8192 (str "9P2000")))
  = [x13;x00;x00;x00; x64; xff;xff; x00;x20;x00;x00; x06;x00; x39;x50;x32;x30;x30;x30].
Proof. reflexivity. Qed.

(** * C05 *)
Theorem C05_unique_split : forall m1 t1 r1 m2 t2 r2,
  fitsM m1 -> fitsM m2 -> t1 < 65536 -> t2 < 65536 ->
  blen (marshalM t1 m1) < 4294967296 -> blen (marshalM t2 m2) < 4294967296 ->
  marshalM t1 m1 ++ r1 = marshalM t2 m2 ++ r2 -> m1 = m2 /\ t1 = t2 /\ r1 = r2.
Proof. exact unique_decoding. Qed.
Print Assumptions C05_unique_split.
Theorem C05_unique_stream : forall l1 l2,
  Forall okM l1 -> Forall okM l2 ->
  flat_map (fun x => marshalM (fst x) (snd x)) l1 = flat_map (fun x => marshalM (fst x) (snd x)) l2 -> l1 = l2.
Proof. exact stream_unique. Qed.
Print Assumptions C05_unique_stream.
Example C05_case : Forall okM [(1, MT (MTclunk (mkTclunkPkt 9))); (1, MR (MRclunk mkRclunkPkt)); (2, MR (MRerror (mkRerrorPkt (str "no"))))].
Proof. repeat constructor. Qed.

(** * C06: false for walks, true otherwise *)
Theorem C06_overlong_refuted :
  ~ (forall m t sp m' t' rest,
       machineT m -> t < 65536 -> blen (marshalT t m) < 4294967296 ->
       unmarshalT (ttype m) (Buf (skipn 5 (marshalT t m)) sp) = Some (URet m' t' rest None) ->
       m' = m).
Proof. exact c06_refuted. Qed.
Print Assumptions C06_overlong_refuted.
(** What remains true: only a walk with a name of 65536 bytes or more can be misread. *)
Theorem C06_request_overlong_partial : forall m t sp m' t' rest,
  machineT m -> t < 65536 -> blen (marshalT t m) < 4294967296 ->
  (forall p, m = MTwalk p -> Forall short (Twalk_Paths p)) ->
  unmarshalT (ttype m) (Buf (skipn 5 (marshalT t m)) sp) = Some (URet m' t' rest None) ->
  m' = m /\ t' = t.
Proof. exact c06_partial. Qed.
Print Assumptions C06_request_overlong_partial.
Theorem C06_reply_overlong : forall m t sp m' t' rest,
  machineR m -> t < 65536 -> blen (marshalR t m) < 4294967296 ->
  unmarshalR (rtype m) (Buf (skipn 5 (marshalR t m)) sp) = Some (URet m' t' rest None) ->
  m' = m /\ t' = t.
Proof. exact accepted_sameR. Qed.
Print Assumptions C06_reply_overlong.
Example C06_case : (* the walk of the refutation, and what the peer makes of it *)
  unmarshalT Twalk_t (Buf (skipn 5 (marshalT 7 over_walk)) []) = Some (URet over_walk' 7 (Buf [] []) None)
  /\ over_walk' <> over_walk /\ blen over_name = 65536.
Proof. exact (conj (over_walk_accepted 7 [] eq_refl) (conj over_walk_differs over_name_blen)). Qed.

(** * C07 *)
Theorem C07_request_trailing : forall m t r sp,
  fitsT m -> t < 65536 -> r <> [] ->
  unmarshalT (ttype m) (Buf (skipn 5 (marshalT t m) ++ r) sp)
  = Some (URet m t (Buf r sp) (Some (str "Packet too long: " ++ dec (blen r) ++ str " bytes left over after decode"))).
Proof. exact trailingT. Qed.
Print Assumptions C07_request_trailing.
Theorem C07_reply_trailing : forall m t r sp,
  fitsR m -> t < 65536 -> r <> [] ->
  unmarshalR (rtype m) (Buf (skipn 5 (marshalR t m) ++ r) sp)
  = Some (URet m t (Buf r sp) (Some (str "Packet too long: " ++ dec (blen r) ++ str " bytes left over after decode"))).
Proof. exact trailingR. Qed.
Print Assumptions C07_reply_trailing.
Example C07_case : fitsT (MTread (mkTreadPkt 1 0 (-1))) /\ [x00] <> [].
Proof. split; [repeat split; reflexivity || (vm_compute; discriminate)|discriminate]. Qed.

(** * C08: false; cuts at a field boundary and inside a string are rejected *)
Theorem C08_truncated_refuted :
  ~ (forall m t sp k,
       fitsT m -> t < 65536 -> (k < List.length (skipn 5 (marshalT t m)))%nat ->
       exists m' t' rest e,
         unmarshalT (ttype m) (Buf (firstn k (skipn 5 (marshalT t m))) sp) = Some (URet m' t' rest (Some e))).
Proof. exact c08_refuted. Qed.
Print Assumptions C08_truncated_refuted.
Theorem C08_request_cut_at_field_partial : forall m t sp j,
  fitsT m -> t < 65536 -> (j < List.length (snd (wireT m)))%nat ->
  exists m' rest e, unmarshalT (ttype m) (Buf (le 2 t ++ concat (firstn j (snd (wireT m)))) sp)
                    = Some (URet m' t rest (Some e)).
Proof. exact cut_fieldT. Qed.
Print Assumptions C08_request_cut_at_field_partial.
Theorem C08_reply_cut_at_field_partial : forall m t sp j,
  fitsR m -> t < 65536 -> (j < List.length (snd (wireR m)))%nat ->
  exists m' rest e, unmarshalR (rtype m) (Buf (le 2 t ++ concat (firstn j (snd (wireR m)))) sp)
                    = Some (URet m' t rest (Some e)).
Proof. exact cut_fieldR. Qed.
Print Assumptions C08_reply_cut_at_field_partial.
Theorem C08_request_cut_in_string_partial : forall m t sp pre s k,
  fitsT m -> t < 65536 -> In (pre, s) (string_cutsT m) -> (k < List.length s)%nat ->
  exists m' rest e, unmarshalT (ttype m) (Buf (le 2 t ++ pre ++ firstn k s) sp) = Some (URet m' t rest (Some e)).
Proof. exact cut_stringT. Qed.
Print Assumptions C08_request_cut_in_string_partial.
Theorem C08_reply_cut_in_string_partial : forall m t sp pre s k,
  fitsR m -> t < 65536 -> In (pre, s) (string_cutsR m) -> (k < List.length s)%nat ->
  exists m' rest e, unmarshalR (rtype m) (Buf (le 2 t ++ pre ++ firstn k s) sp) = Some (URet m' t rest (Some e)).
Proof. exact cut_stringR. Qed.
Print Assumptions C08_reply_cut_in_string_partial.
(** A Twrite cut inside its data is never rejected: it crashes the decoder or is completed
    with foreign memory. *)
Theorem C08_write_cut_in_data : forall t f o d k sp,
  t < 65536 -> u32n f -> u64n o -> u32n (blen d) -> (k < List.length d)%nat ->
  unmarshalT Twrite_t (Buf (le 2 t ++ le 4 f ++ le 8 o ++ le 4 (blen d) ++ firstn k d) sp)
  = Some (if blen sp <? blen d - N.of_nat k then UPanic
          else URet (MTwrite (mkTwritePkt f o (firstn k d ++ firstn (List.length d - k) sp))) t (Buf [] sp) None).
Proof. exact c08_twrite. Qed.
Print Assumptions C08_write_cut_in_data.
Example C08_case :
  In (le 4 1 ++ le 4 2 ++ le 2 2 ++ text (str "usr") ++ le 2 6, str "glenda")
     (string_cutsT (MTwalk (mkTwalkPkt 1 2 [str "usr"; str "glenda"])))
  /\ (4 < List.length (str "glenda"))%nat.
Proof. split; [right; left; reflexivity|cbn; lia]. Qed.

(** * C09: false for the four kinds with a data block, true for all others *)
Theorem C09_decoders_crash_refuted : ~ (forall ty b, unmarshalT ty b <> Some UPanic).
Proof. exact c09_refuted. Qed.
Print Assumptions C09_decoders_crash_refuted.
Theorem C09_decoders_never_crash_partial :
  (forall ty b, ty <> Twrite_t -> ty <> Twstat_t -> unmarshalT ty b <> Some UPanic) /\
  (forall ty b, ty <> Rread_t -> ty <> Rstat_t -> unmarshalR ty b <> Some UPanic) /\
  (forall b, Unmarshaldir b <> UPanic).
Proof. exact c09_partial. Qed.
Print Assumptions C09_decoders_never_crash_partial.
(** Exactly when the four crash: the count exceeds what is left of the buffer including its
    spare capacity. *)
Theorem C09_write_crashes_iff : forall t f o l d sp,
  t < 65536 -> u32n f -> u64n o -> u32n l ->
  unmarshalT Twrite_t (Buf (le 2 t ++ le 4 f ++ le 8 o ++ le 4 l ++ d) sp) = Some UPanic <-> blen d + blen sp < l.
Proof. exact c09_twrite. Qed.
Print Assumptions C09_write_crashes_iff.
Theorem C09_wstat_crashes_iff : forall t f l d sp,
  t < 65536 -> u32n f -> u16n l ->
  unmarshalT Twstat_t (Buf (le 2 t ++ le 4 f ++ le 2 l ++ d) sp) = Some UPanic <-> blen d + blen sp < l.
Proof. exact c09_twstat. Qed.
Print Assumptions C09_wstat_crashes_iff.
Theorem C09_rread_crashes_iff : forall t l d sp,
  t < 65536 -> u32n l ->
  unmarshalR Rread_t (Buf (le 2 t ++ le 4 l ++ d) sp) = Some UPanic <-> blen d + blen sp < l.
Proof. exact c09_rread. Qed.
Print Assumptions C09_rread_crashes_iff.
Theorem C09_rstat_crashes_iff : forall t l d sp,
  t < 65536 -> u16n l ->
  unmarshalR Rstat_t (Buf (le 2 t ++ le 2 l ++ d) sp) = Some UPanic <-> blen d + blen sp < l.
Proof. exact c09_rstat. Qed.
Print Assumptions C09_rstat_crashes_iff.
Example C09_case : (* a 17-byte Rread message body claiming 4 GiB *)
  unmarshalR Rread_t (Buf (le 2 7 ++ le 4 4294967295 ++ [x61; x62]) (repeat x00 512)) = Some UPanic.
Proof. reflexivity. Qed.

(** * C10: false for data blocks, true for strings and for honest counts *)
Theorem C10_data_refuted :
  ~ (forall ty b m t rest, unmarshalT ty b = Some (URet m t rest None) -> infix (dataT m) (unread b)).
Proof. exact c10_refuted. Qed.
Print Assumptions C10_data_refuted.
Theorem C10_request_strings : forall ty b m t rest e s,
  unmarshalT ty b = Some (URet m t rest e) -> In s (stringsT m) -> infix s (unread b).
Proof. exact stringsT_from. Qed.
Print Assumptions C10_request_strings.
Theorem C10_reply_strings : forall ty b m t rest e s,
  unmarshalR ty b = Some (URet m t rest e) -> In s (stringsR m) -> infix s (unread b).
Proof. exact stringsR_from. Qed.
Print Assumptions C10_reply_strings.
(** The four data decoders, completely: the block is the first l bytes of message *and memory behind it*. *)
Theorem C10_write_data_partial : forall t f o l d sp,
  t < 65536 -> u32n f -> u64n o -> u32n l ->
  unmarshalT Twrite_t (Buf (le 2 t ++ le 4 f ++ le 8 o ++ le 4 l ++ d) sp)
  = Some (if blen d + blen sp <? l then UPanic
          else URet (MTwrite (mkTwritePkt f o (firstn (N.to_nat l) (d ++ sp)))) t (Buf (skipn (N.to_nat l) d) sp)
                 (if blen d <=? l then None
                  else Some (str "Packet too long: " ++ dec (blen d - l) ++ str " bytes left over after decode"))).
Proof. exact twrite_data. Qed.
Print Assumptions C10_write_data_partial.
Theorem C10_wstat_data_partial : forall t f l d sp,
  t < 65536 -> u32n f -> u16n l ->
  unmarshalT Twstat_t (Buf (le 2 t ++ le 4 f ++ le 2 l ++ d) sp)
  = Some (if blen d + blen sp <? l then UPanic
          else URet (MTwstat (mkTwstatPkt f (firstn (N.to_nat l) (d ++ sp)))) t (Buf (skipn (N.to_nat l) d) sp)
                 (if blen d <=? l then None
                  else Some (str "Packet too long: " ++ dec (blen d - l) ++ str " bytes left over after decode"))).
Proof. exact twstat_data. Qed.
Print Assumptions C10_wstat_data_partial.
Theorem C10_rread_data_partial : forall t l d sp,
  t < 65536 -> u32n l ->
  unmarshalR Rread_t (Buf (le 2 t ++ le 4 l ++ d) sp)
  = Some (if blen d + blen sp <? l then UPanic
          else URet (MRread (mkRreadPkt (firstn (N.to_nat l) (d ++ sp)))) t (Buf (skipn (N.to_nat l) d) sp)
                 (if blen d <=? l then None
                  else Some (str "Packet too long: " ++ dec (blen d - l) ++ str " bytes left over after decode"))).
Proof. exact rread_data. Qed.
Print Assumptions C10_rread_data_partial.
Theorem C10_rstat_data_partial : forall t l d sp,
  t < 65536 -> u16n l ->
  unmarshalR Rstat_t (Buf (le 2 t ++ le 2 l ++ d) sp)
  = Some (if blen d + blen sp <? l then UPanic
          else URet (MRstat (mkRstatPkt (firstn (N.to_nat l) (d ++ sp)))) t (Buf (skipn (N.to_nat l) d) sp)
                 (if blen d <=? l then None
                  else Some (str "Packet too long: " ++ dec (blen d - l) ++ str " bytes left over after decode"))).
Proof. exact rstat_data. Qed.
Print Assumptions C10_rstat_data_partial.
Example C10_case : (* 3 bytes claimed, none sent, "SEC" happens to lie behind the buffer *)
  unmarshalT Twrite_t (Buf (le 2 7 ++ le 4 1 ++ le 8 0 ++ le 4 3) (str "SECRET"))
  = Some (URet (MTwrite (mkTwritePkt 1 0 (str "SEC"))) 7 (Buf [] (str "SECRET")) None).
Proof. reflexivity. Qed.

(** * C11: false; accepted bytes are a prefix of a canonical encoding, at most 7 bytes short *)
Theorem C11_canonical_refuted :
  ~ (forall ty b m t rest, unmarshalT ty b = Some (URet m t rest None) ->
       skipn 5 (marshalT t m) = unread b).
Proof. exact c11_refuted. Qed.
Print Assumptions C11_canonical_refuted.
Theorem C11_request_canonical_prefix_partial : forall ty b m t rest,
  unmarshalT ty b = Some (URet m t rest None) ->
  ttype m = ty /\ fitsT m /\ t < 65536 /\
  exists ext, le 2 t ++ concat (snd (wireT m)) = unread b ++ ext /\ (has_dataT ty = false -> blen ext <= 7).
Proof. exact canonicalT. Qed.
Print Assumptions C11_request_canonical_prefix_partial.
Theorem C11_reply_canonical_prefix_partial : forall ty b m t rest,
  unmarshalR ty b = Some (URet m t rest None) ->
  rtype m = ty /\ fitsR m /\ t < 65536 /\
  exists ext, le 2 t ++ concat (snd (wireR m)) = unread b ++ ext /\ (has_dataR ty = false -> blen ext <= 7).
Proof. exact canonicalR. Qed.
Print Assumptions C11_reply_canonical_prefix_partial.
Example C11_case : (* one byte of a 4-byte fid *)
  unmarshalT Tclunk_t (Buf [x07; x00; x05] []) = Some (URet (MTclunk (mkTclunkPkt 5)) 7 (Buf [] []) None).
Proof. reflexivity. Qed.

(** * C12: any struct the generator supports, and the checked-in code *)
Theorem C12_generated_roundtrip : forall ls ty t vs sp,
  Forall okl ls -> wfs ls vs -> t < 65536 ->
  unmarshal_pkt ls (Buf (skipn 5 (marshal_pkt ls ty t vs)) sp) = URet vs t (Buf [] sp) None.
Proof. exact c12_roundtrip. Qed.
Print Assumptions C12_generated_roundtrip.
Theorem C12_generated_stat_roundtrip : forall ls vs r sp,
  Forall okl ls -> wfs ls vs ->
  unmarshal_stat ls (Buf (marshal_stat ls vs ++ r) sp) = URet vs 0 (Buf r sp) None.
Proof. exact unmarshal_stat_marshal. Qed.
Print Assumptions C12_generated_stat_roundtrip.
Theorem C12_request_encoders_are_generated : forall t m,
  marshalT t m = marshal_pkt (schT (ttype m)) (ttype m) t (valsT m).
Proof. exact marshalT_gen. Qed.
Print Assumptions C12_request_encoders_are_generated.
Theorem C12_reply_encoders_are_generated : forall t m,
  marshalR t m = marshal_pkt (schR (rtype m)) (rtype m) t (valsR m).
Proof. exact marshalR_gen. Qed.
Print Assumptions C12_reply_encoders_are_generated.
Theorem C12_request_decoders_are_generated : forall ty b, is_ttype ty = true ->
  exists r, unmarshalT ty b = Some r /\ umap valsT r = unmarshal_pkt (schT ty) b /\
            forall m t rest e, r = URet m t rest e -> ttype m = ty.
Proof. exact unmarshalT_gen. Qed.
Print Assumptions C12_request_decoders_are_generated.
Theorem C12_reply_decoders_are_generated : forall ty b, is_rtype ty = true ->
  exists r, unmarshalR ty b = Some r /\ umap valsR r = unmarshal_pkt (schR ty) b /\
            forall m t rest e, r = URet m t rest e -> rtype m = ty.
Proof. exact unmarshalR_gen. Qed.
Print Assumptions C12_reply_decoders_are_generated.
Theorem C12_dir_codec_is_generated :
  (forall d, Marshaldir d = marshal_stat schDir (valsDir d)) /\
  (forall b, umap valsDir (Unmarshaldir b) = unmarshal_stat schDir b).
Proof. exact (conj Marshaldir_gen Unmarshaldir_gen). Qed.
Print Assumptions C12_dir_codec_is_generated.
Example C12_case : (* a struct that is not in protocol.go: slice of structs between a string and data *)
  Forall okl [L0 LStr; LSlice [LInt 2; LStr; LCount]; LData 2; L0 (LInt 8)] /\
  wfs [L0 LStr; LSlice [LInt 2; LStr; LCount]; LData 2; L0 (LInt 8)]
      [V0 (VS (str "a")); VSl [[VI 1; VS []; VC (-5)]; [VI 65535; VS (str "xy"); VC 0]]; VD [x00]; V0 (VI 9)].
Proof. split; repeat constructor; reflexivity || (vm_compute; discriminate). Qed.

(** * C13 *)
Theorem C13_header_overhead : forall d t f o msize,
  blen (marshalT t (MTwrite (mkTwritePkt f o d))) = blen d + 23 /\
  blen (marshalR t (MRread (mkRreadPkt d))) = blen d + 11 /\
  (IOHDRSZ <= msize -> blen d <= msize - IOHDRSZ ->
   blen (marshalT t (MTwrite (mkTwritePkt f o d))) <= msize /\
   blen (marshalR t (MRread (mkRreadPkt d))) <= msize).
Proof. exact c13. Qed.
Print Assumptions C13_header_overhead.
Example C13_case : IOHDRSZ <= 224 /\ blen (repeat x00 200) <= 224 - IOHDRSZ.
Proof. split; vm_compute; discriminate. Qed.

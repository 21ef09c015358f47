(** Segmentation, sequences of requests, the time before version, crashes. *)
From Verif Require Import Base GoBuf CodecPrim Types Codec Gen GenThm GenInv Msgs GenEq CodecSpec MsgThm
  CodecLemmas CodecLemmas2 CodecLemmas3 CodecLemmas4 StubPrim Stubs Server ServerSpec ServerLemmas ServerLemmas2.

Lemma concat_split_len (a b : bytes) (n : nat) : a = b -> List.length a = n -> List.length b = n.
Proof. congruence. Qed.

(** * Segmentation *)
Lemma segmentation {St} (ns : NineServer St) e : forall n cs1 cs2 i st,
  (List.length (concat cs1) < n)%nat ->
  nonempty cs1 -> nonempty cs2 -> headers_whole cs1 -> headers_whole cs2 -> concat cs1 = concat cs2 ->
  serve_from ns e i st (map Chunk cs1) = serve_from ns e i st (map Chunk cs2).
Proof.
  induction n as [|n IH]; intros cs1 cs2 i st Hn N1 N2 W1 W2 E; [lia|].
  rewrite (serve_unfold ns e i st (map Chunk cs1)), (serve_unfold ns e i st (map Chunk cs2)).
  destruct (Nat.lt_ge_cases (List.length (concat cs1)) 7) as [L|L].
  { rewrite (iter_short ns e i st (map Chunk cs1)) by (rewrite stream_chunks; exact L).
    rewrite (iter_short ns e i st (map Chunk cs2)) by (rewrite stream_chunks, <- E; exact L). reflexivity. }
  destruct (iter_chunks ns e i st cs1 N1 W1 L) as (size & ty & tag & rb & cs1' & A & B & C & D & R & N1' & W1' & ->).
  rewrite E in L.
  destruct (iter_chunks ns e i st cs2 N2 W2 L) as (size2 & ty2 & tag2 & rb2 & cs2' & A2 & B2 & C2 & D2 & R2 & N2' & W2' & ->).
  rewrite E, D2 in D. apply header_inj in D; try assumption. destruct D as (-> & -> & -> & ->).
  destruct (Dispatch ns st _ ty) as [st' out|]; cbn [finish]; [|reflexivity].
  destruct (e_write e i); [reflexivity|]. cbv zeta.
  rewrite (IH cs1' cs2'); try assumption; [reflexivity| |congruence].
  rewrite R, skipn_length. rewrite E, D2, !app_length, !le_length in Hn. lia.
Qed.

(** * Every frame gets its reply *)
Lemma all_frames {St} (ns : NineServer St) e : (forall j, e_write e j = None) -> forall n cs i st fs,
  (List.length (concat cs) < n)%nat -> nonempty cs -> headers_whole cs ->
  frames_of (concat cs) fs -> r_crashed (serve_from ns e i st (map Chunk cs)) = false ->
  Forall2 reply_to fs (r_out (serve_from ns e i st (map Chunk cs))).
Proof.
  intros Hwr. induction n as [|n IH]; intros cs i st fs Hn Hne Hw F; [lia|].
  rewrite serve_unfold.
  destruct (Nat.lt_ge_cases (List.length (concat cs)) 7) as [L|L].
  { rewrite iter_short by (rewrite stream_chunks; exact L). cbn [r_out r_crashed]. intros _.
    rewrite (frames_det _ _ F [] (fr_end _ L)). constructor. }
  destruct (iter_chunks ns e i st cs Hne Hw L) as (size & ty & tag & rb & cs' & A & B & C & D & R & N' & W' & ->).
  rewrite D in F. apply frames_inv in F. destruct F as [[L' _]|(size' & ty' & tag' & rest' & fs' & A' & B' & C' & E & -> & F')].
  { rewrite !app_length, !le_length in L'. lia. }
  apply header_inj in E; try assumption. destruct E as (-> & -> & -> & ->).
  destruct (Dispatch ns st _ ty') as [st' out|] eqn:X; cbn [finish]; [|discriminate].
  rewrite Hwr. cbv zeta. cbn [r_out r_crashed]. intros Hcr.
  constructor; [apply Dispatch_reply in X; [exact X|assumption]|].
  apply IH; try assumption; [|rewrite R; exact F'].
  rewrite R, skipn_length. rewrite D, !app_length, !le_length in Hn. lia.
Qed.

(** * Sequences of well-formed requests *)
Lemma enc_req_header t m : marshalT t m = le 4 (blen (marshalT t m)) ++ le 1 (ttype m) ++ le 2 t ++ concat (snd (wireT m)).
Proof.
  pose proof (marshalM_blen t (MT m)) as L. cbn [marshalM wireM] in L. rewrite L, layoutT, ttype_wire. reflexivity.
Qed.

Lemma serve_requests {St} (ns : NineServer St) e : (forall j, e_write e j = None) -> forall reqs cs i v s,
  Forall ok_req reqs -> nonempty cs -> headers_whole cs -> concat cs = flat_map enc_req reqs ->
  match answers ns v s reqs with
  | Some (reps, (v', s')) =>
      serve_from ns e i (mkSrv v s) (map Chunk cs)
      = mkRun (map (fun x => marshalR (fst x) (snd x)) reps) false (mkSrv v' s')
  | None => r_crashed (serve_from ns e i (mkSrv v s) (map Chunk cs)) = true
  end.
Proof.
  intros Hwr. induction reqs as [|[t m] reqs IH]; intros cs i v s Hok Hne Hw E; cbn [answers flat_map] in *.
  { rewrite serve_unfold, iter_short by (rewrite stream_chunks, E; cbn; lia). reflexivity. }
  inversion Hok as [|? ? (Ht & Hf & Hl) Hok']; subst. cbn [fst snd] in *. unfold enc_req in Hl. cbn [fst snd] in Hl.
  rewrite serve_unfold.
  unfold enc_req at 1 in E. cbn [fst snd] in E.
  assert (L : (7 <= List.length (concat cs))%nat).
  { rewrite E, (enc_req_header t m), !app_length, !le_length. lia. }
  destruct (iter_chunks ns e i (mkSrv v s) cs Hne Hw L) as (size & ty & tag & rb & cs' & A & B & C & D & R & N' & W' & ->).
  rewrite E in D. rewrite (enc_req_header t m) in D. rewrite <- !app_assoc in D.
  pose proof (wire_lt (MT m)) as Hty. cbn [wireM] in Hty. rewrite ttype_wire in Hty.
  apply header_inj in D; try assumption. destruct D as (Hsz & <- & <- & Hrb).
  assert (Hbody : N.to_nat (size - 7) = List.length (concat (snd (wireT m)))).
  { rewrite <- Hsz. pose proof (marshalM_blen t (MT m)) as Lm. cbn [marshalM wireM] in Lm. rewrite Lm. unfold blen. lia. }
  rewrite Hbody in *. rewrite <- Hrb in *. rewrite firstn_app_le by lia. rewrite firstn_all.
  rewrite skipn_app, skipn_all, Nat.sub_diag in R. cbn [app skipn] in R.
  assert (Hb : le 2 t ++ concat (snd (wireT m)) = skipn 5 (marshalT t m)) by (rewrite layoutT, frame_body; reflexivity).
  rewrite Hb, Dispatch_request by assumption.
  destruct (answer ns v s m) as [[[v1 s1] r]|]; cbn [finish]; [|reflexivity].
  rewrite Hwr. cbv zeta. specialize (IH cs' (S i) v1 s1 Hok' N' W' R).
  destruct (answers ns v1 s1 reqs) as [[reps [v2 s2]]|]; [|exact IH].
  rewrite IH. reflexivity.
Qed.

(** * Before version *)
Lemma Dispatch_unversioned {St} (ns : NineServer St) s body sp ty t : t < 65536 -> ty <> 100 ->
  Dispatch ns (mkSrv false s) (Buf (le 2 t ++ body) sp) ty
  = SrvReply (mkSrv false s) (marshalR t (MRerror (mkRerrorPkt (msg_before_version ty)))).
Proof.
  intros Ht Hty. unfold Dispatch. cbn [Versioned NS].
  destruct (N.eqb_spec ty Tversion_t) as [->|_]; [contradiction|].
  rewrite le2_bytes. cbn [unread app]. rewrite tag_of_bytes16 by exact Ht. reflexivity.
Qed.
Lemma before_version {St} (ns : NineServer St) e s : (forall j, e_write e j = None) -> forall n cs i fs1 fs2,
  (List.length (concat cs) < n)%nat -> nonempty cs -> headers_whole cs ->
  frames_of (concat cs) (fs1 ++ fs2) -> Forall (fun f => f_type f <> 100) fs1 ->
  exists cs', nonempty cs' /\ headers_whole cs' /\ frames_of (concat cs') fs2 /\
    serve_from ns e i (mkSrv false s) (map Chunk cs)
    = let r := serve_from ns e (i + List.length fs1) (mkSrv false s) (map Chunk cs') in
      mkRun (map refusal fs1 ++ r_out r) (r_crashed r) (r_st r).
Proof.
  intros Hwr. induction n as [|n IH]; intros cs i fs1 fs2 Hn Hne Hw F Hv; [lia|].
  destruct fs1 as [|f fs1].
  { exists cs. repeat (split; [assumption|]). cbn [List.length map app]. rewrite Nat.add_0_r. cbv zeta.
    destruct (serve_from _ _ _ _ _); reflexivity. }
  cbn [app] in F. rewrite serve_unfold.
  apply frames_inv in F. destruct F as [[_ X]|(size' & ty' & tag' & rest' & fs' & A' & B' & C' & E & X & F')]; [discriminate|].
  injection X as -> <-.
  assert (L : (7 <= List.length (concat cs))%nat) by (rewrite E, !app_length, !le_length; lia).
  destruct (iter_chunks ns e i (mkSrv false s) cs Hne Hw L) as (size & ty & tag & rb & cs' & A & B & C & D & R & N' & W' & ->).
  rewrite E in D. apply header_inj in D; try assumption. destruct D as (-> & -> & -> & ->).
  inversion Hv as [|? ? Hty Hv']; subst. cbn [f_type] in Hty.
  rewrite Dispatch_unversioned by assumption. cbn [finish]. rewrite Hwr.
  destruct (IH cs' (S i) fs1 fs2) as (cs2 & N2 & W2 & F2 & G); try assumption.
  - rewrite R, skipn_length. rewrite E, !app_length, !le_length in Hn. lia.
  - rewrite R. exact F'.
  - exists cs2. repeat (split; [assumption|]). rewrite G. cbv zeta. cbn [List.length map app r_out r_crashed r_st].
    rewrite Nat.add_succ_r. reflexivity.
Qed.

(** * Crashes *)
Lemma Dispatch_panic {St} (ns : NineServer St) st body sp ty t : t < 65536 ->
  (forall s m, invoke ns s m <> NSPanic) ->
  Dispatch ns st (Buf (le 2 t ++ body) sp) ty = SrvPanic <->
  (Versioned st = true /\ unmarshalT ty (Buf (le 2 t ++ body) sp) = Some UPanic).
Proof.
  intros Ht Hns. unfold Dispatch.
  assert (K : forall v, dispatch_switch ns v (NS st) (Buf (le 2 t ++ body) sp) ty = SrvPanic <->
     unmarshalT ty (Buf (le 2 t ++ body) sp) = Some UPanic).
  { intros v. destruct (is_ttype ty) eqn:Hty.
    - rewrite dispatch_known by exact Hty.
      destruct (unmarshalT_gen ty (Buf (le 2 t ++ body) sp) Hty) as (r & -> & _).
      destruct r as [m t' rest e|]; [|tauto]. split; [|discriminate].
      specialize (Hns (NS st) m). destruct (invoke ns (NS st) m); cbn; try discriminate. congruence.
    - rewrite dispatch_unknown by assumption. split; [discriminate|].
      revert Hty. unfold is_ttype, unmarshalT. cbn [existsb].
      repeat match goal with |- context [if ?c then _ else _] => destruct c eqn:?; [discriminate|] end. discriminate. }
  destruct (N.eqb_spec ty Tversion_t) as [->|Hty].
  - rewrite K. split; [|tauto]. intros H. exfalso. revert H. apply nopanicT; reflexivity.
  - destruct (Versioned st); [rewrite K; tauto|].
    rewrite le2_bytes. cbn [unread app]. split; [discriminate|]. intros [? _]. discriminate.
Qed.
Lemma decoder_panic_types ty b : unmarshalT ty b = Some UPanic -> ty = 118 \/ ty = 126.
Proof.
  intros H. destruct (N.eq_dec ty Twrite_t); [left; assumption|]. destruct (N.eq_dec ty Twstat_t); [right; assumption|].
  exfalso. revert H. apply c09_partial; assumption.
Qed.
Lemma crash_cause {St} (ns : NineServer St) e : (forall s m, invoke ns s m <> NSPanic) -> forall n evs i st fs,
  (pending evs < n)%nat -> frames_of (stream evs) fs -> r_crashed (serve_from ns e i st evs) = true ->
  exists k f, nth_error fs k = Some f /\ (f_type f = 118 \/ f_type f = 126) /\
    unmarshalT (f_type f) (Buf (le 2 (f_tag f) ++ f_body f) (e_spare e (i + k))) = Some UPanic.
Proof.
  intros Hns. induction n as [|n IH]; intros evs i st fs Hn F; [lia|].
  rewrite serve_unfold.
  destruct (iter_cases ns e i st evs) as [E|(size & ty & tag & rb & rest & A & B & C & D & R & P & E)]; rewrite E; [discriminate|].
  rewrite D in F. apply frames_inv in F. destruct F as [[L' _]|(size' & ty' & tag' & rest' & fs' & A' & B' & C' & E' & -> & F')].
  { rewrite !app_length, !le_length in L'. lia. }
  apply header_inj in E'; try assumption. destruct E' as (-> & -> & -> & ->).
  destruct (Dispatch ns st _ ty') as [st' out|] eqn:X; cbn [finish].
  - destruct (e_write e i); [discriminate|]. cbv zeta. cbn [r_crashed]. intros Hcr.
    destruct (IH rest (S i) st' fs') as (k & f & Hk & Hf); try assumption; [lia|rewrite R; exact F'|].
    exists (S k), f. split; [exact Hk|]. rewrite Nat.add_succ_r. exact Hf.
  - intros _. apply Dispatch_panic in X; try assumption. destruct X as [_ X].
    exists 0%nat. eexists. split; [reflexivity|]. cbn [f_type f_tag f_body]. rewrite Nat.add_0_r.
    split; [eapply decoder_panic_types, X|exact X].
Qed.

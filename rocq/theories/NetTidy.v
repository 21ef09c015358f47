(** Streams that arrive in pieces that do not end inside a header. *)
From Verif Require Import Base GoBuf CodecPrim CodecLemmas CodecLemmas2 Types Codec Msgs CodecSpec StubPrim Stubs Server ServerSpec ServerLemmas ServerLemmas2 ServerLemmas3 ServerLemmas4 Rpc
  Client ClientSpec ClientRunSim ClientHist NetRun NetLemmas NetCase NetEats.
Local Opaque NumTags all_tags.

(** Whole messages, and then nothing or the beginning of a message with its header. *)
Definition cut (d : bytes) : Prop := exists os p q, d = concat os ++ p /\ Forall NetLemmas.framed os /\ (p = [] \/ NetLemmas.framed (p ++ q) /\ (7 <= List.length p)%nat).
(** After d, all pieces of D end like that. *)
Fixpoint tidy (d : bytes) (D : list rev) : Prop :=
  match D with [] => True | Chunk c :: D => c <> [] /\ cut (d ++ c) /\ tidy (d ++ c) D | RdErr :: _ => False end.

Lemma cut_nil : cut []. Proof. exists [], [], []. repeat split; [constructor|left; reflexivity]. Qed.
Lemma cut_whole os : Forall NetLemmas.framed os -> cut (concat os).
Proof. intros H. exists os, [], []. rewrite app_nil_r. auto. Qed.
Lemma framed_long o : NetLemmas.framed o -> (7 <= List.length o)%nat.
Proof. intros (ty & tag & body & -> & _). unfold raw. rewrite !app_length, !le_length. lia. Qed.
Lemma framed_inj o x o' x' : NetLemmas.framed o -> NetLemmas.framed o' -> o ++ x = o' ++ x' -> o = o' /\ x = x'.
Proof.
  intros (ty & tag & body & -> & A & B & D) (ty' & tag' & body' & -> & A' & B' & D') H. unfold raw in H. rewrite <- !app_assoc in H.
  apply header_inj in H; try assumption. destruct H as (H & -> & -> & H1). apply app_inj_len in H1; [|unfold blen in H; lia]. destruct H1 as [-> ->]. auto.
Qed.
Lemma cut_tail o x : NetLemmas.framed o -> cut (o ++ x) -> cut x.
Proof.
  intros Ho (os & p & q & E & Hf & Hp). destruct os as [|o' os].
  - cbn [concat app] in E. destruct Hp as [->|[Hp _]].
    + apply app_eq_nil in E. destruct E as [-> _]. apply framed_long in Ho. cbn in Ho. lia.
    + assert (X : o ++ (x ++ q) = (p ++ q) ++ []) by (rewrite app_nil_r, app_assoc, E; reflexivity). apply framed_inj in X; [|assumption|assumption].
      destruct X as [_ X]. apply app_eq_nil in X. destruct X as [-> _]. apply cut_nil.
  - inversion Hf as [|? ? Ho' Hf']; subst. cbn [concat] in E. rewrite <- app_assoc in E. apply framed_inj in E; [|assumption|assumption]. destruct E as [_ ->]. exists os, p, q. auto.
Qed.
Lemma cut_tails os x : Forall NetLemmas.framed os -> cut (concat os ++ x) -> cut x.
Proof. induction 1 as [|o os Ho _ IH]; [auto|]. cbn [concat]. rewrite <- app_assoc. intros H. apply IH. eapply cut_tail; eassumption. Qed.
Lemma cut_long c : cut c -> c <> [] -> (7 <= List.length c)%nat.
Proof.
  intros (os & p & q & -> & Hf & Hp) Hn. destruct os as [|o os].
  - destruct Hp as [->|[_ Hp]]; [contradiction|exact Hp].
  - inversion Hf as [|? ? Ho _]; subst. apply framed_long in Ho. cbn [concat]. rewrite !app_length. lia.
Qed.
Lemma tidy_intact D : forall d, tidy d D -> intact D = true.
Proof. induction D as [|[c|] D IH]; intros d H; [reflexivity| |contradiction H]. destruct H as (_ & _ & H). exact (IH _ H). Qed.
Lemma tidy_snoc D : forall d c, tidy d D -> c <> [] -> cut (d ++ received D ++ c) -> tidy d (D ++ [Chunk c]).
Proof.
  induction D as [|[x|] D IH]; intros d c H Hc Hx; cbn [app tidy received] in *; [auto| |contradiction H].
  destruct H as (A & B & E). split; [exact A|]. split; [exact B|]. apply IH; [exact E|exact Hc|]. rewrite <- app_assoc in Hx. rewrite <- app_assoc. exact Hx.
Qed.
Lemma tidy_read n d D b r : (0 < n)%nat -> tidy d D -> net_read n D = RdData b r -> tidy (d ++ b) r.
Proof.
  intros Hn H E. destruct D as [|[c|] D]; try discriminate E. unfold net_read in E. injection E as <- <-. destruct H as (A & B & F).
  destruct (skipn n c) as [|y ys] eqn:Es.
  - apply skipn_nil_le in Es. rewrite firstn_all2 by exact Es. exact F.
  - rewrite <- Es. rewrite <- (firstn_skipn n c) in B, F. rewrite app_assoc in B, F. split; [rewrite Es; discriminate|]. split; [exact B|exact F].
Qed.
Lemma copy_unfold n c D : copy_limit (S n) (Chunk c :: D) = match skipn (S n) c with [] => match copy_limit (S n - List.length c) D with Some (bs, r') => Some (c ++ bs, r') | None => None end | c' => Some (firstn (S n) c, Chunk c' :: D) end.
Proof. reflexivity. Qed.
Lemma tidy_copy D : forall n d b r, tidy d D -> copy_limit n D = Some (b, r) -> tidy (d ++ b) r.
Proof.
  induction D as [|[c|] D IH]; intros [|n] d b r H E; try (cbn in E; injection E as <- <-; rewrite app_nil_r; exact H); try contradiction H.
  - destruct H as (A & B & F). rewrite copy_unfold in E. destruct (skipn (S n) c) as [|y ys] eqn:Es.
    + destruct (copy_limit (S n - List.length c) D) as [[bs r']|] eqn:Ec; [|discriminate E]. injection E as <- <-. rewrite app_assoc. eapply IH; [exact F|exact Ec].
    + injection E as <- <-. rewrite <- Es. rewrite <- (firstn_skipn (S n) c) in B, F. rewrite app_assoc in B, F. split; [rewrite Es; discriminate|]. split; [exact B|exact F].
Qed.
Lemma copy_intact D : forall n, intact D = true -> copy_limit n D <> None.
Proof.
  induction D as [|[c|] D IH]; intros [|n] H; try discriminate. rewrite copy_unfold. destruct (skipn (S n) c); [|discriminate].
  specialize (IH (S n - List.length c)%nat H). destruct (copy_limit _ D) as [[]|]; [discriminate|contradiction].
Qed.
(** A whole message is read as it was sent. *)
Lemma whole_packet os0 D o os : tidy (concat os0) D -> Forall NetLemmas.framed os0 -> NetLemmas.framed o -> received D = concat (o :: os) ->
  exists r, packet D = Some (o, r) /\ received r = concat os /\ tidy (concat (os0 ++ [o])) r.
Proof.
  intros HD H0 Ho E. assert (L : (7 <= List.length (received D))%nat) by (rewrite E; cbn [concat]; rewrite app_length; apply framed_long in Ho; lia).
  pose proof (tidy_intact _ _ HD) as Hi.
  assert (Hp : exists b r, packet D = Some (b, r) /\ tidy (concat os0 ++ b) r).
  { destruct D as [|[c|] D]; [cbn in L; lia| |discriminate Hi]. pose proof HD as (A & B & _). pose proof (cut_long _ (cut_tails _ _ H0 B) A) as Lc. clear A B.
    unfold packet. destruct (net_read 7 (Chunk c :: D)) as [| |h D1] eqn:R; try discriminate R.
    assert (Lh : List.length h = 7%nat) by (unfold net_read in R; apply (f_equal (fun x => match x with RdData h _ => h | _ => [] end)) in R; cbv beta iota in R; rewrite <- R; apply firstn_length_le, Lc).
    pose proof (net_read_intact _ _ _ _ R) as I1. pose proof (tidy_read 7 _ _ _ _ ltac:(lia) HD R) as T1.
    destruct h as [|l0 [|l1 [|l2 [|l3 [|l4 [|l5 [|l6 [|]]]]]]]]; try discriminate Lh. set (n := N.to_nat _).
    destruct (copy_limit n D1) as [[bd D2]|] eqn:Cl; [|destruct (copy_intact D1 n); [congruence|exact Cl]].
    eexists _, _. split; [reflexivity|]. rewrite app_assoc. eapply tidy_copy; [exact T1|exact Cl]. }
  destruct Hp as (b & r & Hp & Ht). destruct (packet_frame D b r o os [] Hp Ho ltac:(rewrite app_nil_r; exact E) (fun _ => eq_refl)) as (-> & E2 & _). rewrite app_nil_r in E2.
  exists r. split; [exact Hp|]. split; [exact E2|]. rewrite concat_app. cbn [concat]. rewrite app_nil_r. exact Ht.
Qed.
Lemma packet_no D : received D = [] -> packet D = None.
Proof. intros H. destruct (packet D) as [[b r]|] eqn:E; [|reflexivity]. destruct (packet_pending _ _ _ E) as [_ L]. rewrite H in L. cbn in L. lia. Qed.
Lemma whole_packets os : forall os0 D, tidy (concat os0) D -> Forall NetLemmas.framed os0 -> Forall NetLemmas.framed os -> received D = concat os -> packets D = os.
Proof.
  induction os as [|o os IH]; intros os0 D HD H0 Hos E; [apply packets_none, packet_no, E|].
  inversion Hos as [|? ? Ho Hos']; subst. destruct (whole_packet _ _ _ _ HD H0 Ho E) as (r & Hp & Er & Ht).
  rewrite (packets_cons _ _ _ Hp). f_equal. eapply IH; [exact Ht| |exact Hos'|exact Er]. apply Forall_app. split; [exact H0|constructor; [exact Ho|constructor]].
Qed.
(** The server gives the answers. *)
Lemma whole_serve {St} (ns : NineServer St) e : (forall j, e_write e j = None) -> forall reqs os0 D i v s reps st, tidy (concat os0) D -> Forall NetLemmas.framed os0 -> Forall ok_req reqs ->
  received D = concat (map enc_req reqs) -> answers ns v s reqs = Some (reps, st) -> r_out (serve_from ns e i (mkSrv v s) D) = map enc_rep reps.
Proof.
  intros Hw. induction reqs as [|[t m] reqs IH]; intros os0 D i v s reps st HD H0 Hok E1 Ha; rewrite serve_unfold, iter_packet.
  - rewrite (packet_no _ E1). injection Ha as <- <-. reflexivity.
  - inversion Hok as [|? ? Ho Hok']; subst. cbn [map] in E1. destruct (whole_packet _ _ _ _ HD H0 (enc_framed _ Ho) E1) as (r & Hp & Er & Ht). rewrite Hp.
    pose proof (enc_framed _ Ho) as Hfr. destruct Ho as (Ht' & Hf & Hl). unfold enc_req in *. cbn [fst snd] in *.
    assert (Hb : b2n (nth 4 (marshalT t m) x00) = ttype m).
    { rewrite (enc_req_header t m). cbn [le app nth]. pose proof (wire_lt (MT m)) as Hty. cbn [wireM] in Hty. rewrite ttype_wire in Hty. rewrite b2n_u8. apply N.mod_small, Hty. }
    rewrite Hb, Dispatch_request by assumption. cbn [answers] in Ha. destruct (answer ns v s m) as [[[v1 s1] a]|] eqn:Ea; [|discriminate Ha].
    destruct (answers ns v1 s1 reqs) as [[reps' st']|] eqn:Eas; [|discriminate Ha]. injection Ha as <- <-.
    rewrite Hw. cbv zeta. cbn [r_out map]. f_equal. eapply IH; [exact Ht| |exact Hok'|exact Er|exact Eas].
    apply Forall_app. split; [exact H0|constructor; [exact Hfr|constructor]].
Qed.
Lemma seven_framed : NetLemmas.framed seven.
Proof. exists 0, 0, []. repeat split; reflexivity. Qed.
(** A message of a type that there is not gets an answer too, and the file server has no part in it. *)
Lemma whole_serve_more {St} (ns : NineServer St) e : (forall j, e_write e j = None) -> forall reqs os0 D i v s reps st, tidy (concat os0) D -> Forall NetLemmas.framed os0 -> Forall ok_req reqs ->
  received D = concat (map enc_req reqs ++ [seven]) -> answers ns v s reqs = Some (reps, st) -> exists w ws, r_out (serve_from ns e i (mkSrv v s) D) = map enc_rep reps ++ w :: ws.
Proof.
  intros Hw. induction reqs as [|[t m] reqs IH]; intros os0 D i v s reps st HD H0 Hok E1 Ha; rewrite serve_unfold, iter_packet.
  - destruct (whole_packet _ _ _ _ HD H0 seven_framed E1) as (r & Hp & Er & Ht). rewrite Hp. injection Ha as <- <-.
    assert (X : exists st' out, Dispatch ns (mkSrv v s) (Buf (skipn 5 seven) (e_spare e i)) (b2n (nth 4 seven x00)) = SrvReply st' out) by (destruct v; eexists _, _; reflexivity).
    destruct X as (st' & out & ->). rewrite Hw. cbv zeta. cbn [r_out map app]. eauto.
  - inversion Hok as [|? ? Ho Hok']; subst. cbn [map app] in E1. destruct (whole_packet _ _ _ _ HD H0 (enc_framed _ Ho) E1) as (r & Hp & Er & Ht). rewrite Hp.
    pose proof (enc_framed _ Ho) as Hfr. destruct Ho as (Ht' & Hf & Hl). unfold enc_req in *. cbn [fst snd] in *.
    assert (Hb : b2n (nth 4 (marshalT t m) x00) = ttype m).
    { rewrite (enc_req_header t m). cbn [le app nth]. pose proof (wire_lt (MT m)) as Hty. cbn [wireM] in Hty. rewrite ttype_wire in Hty. rewrite b2n_u8. apply N.mod_small, Hty. }
    rewrite Hb, Dispatch_request by assumption. cbn [answers] in Ha. destruct (answer ns v s m) as [[[v1 s1] a]|] eqn:Ea; [|discriminate Ha].
    destruct (answers ns v1 s1 reqs) as [[reps' st']|] eqn:Eas; [|discriminate Ha]. injection Ha as <- <-.
    rewrite Hw. cbv zeta. cbn [r_out map app]. edestruct IH as (w & ws & X); [exact Ht| |exact Hok'|exact Er|exact Eas|].
    + apply Forall_app. split; [exact H0|constructor; [exact Hfr|constructor]].
    + exists w, ws. f_equal. exact X.
Qed.
(** What arrives after whole messages makes a difference. *)
Lemma undecided D tail os : tidy [] D -> received D ++ tail = concat os -> Forall NetLemmas.framed os -> exists m1 m2, packets (D ++ m1) <> packets (D ++ m2).
Proof.
  intros HD E Hos. pose proof (tidy_intact _ _ HD) as Hi.
  assert (Hs : exists m1, tidy [] (D ++ m1) /\ received (D ++ m1) = concat os /\ intact (D ++ m1) = true).
  { destruct tail as [|y ys].
    - exists []. rewrite app_nil_r in *. auto.
    - exists [Chunk (y :: ys)]. assert (X : received (D ++ [Chunk (y :: ys)]) = concat os) by (rewrite received_app, Hi; cbn [received]; rewrite app_nil_r; exact E).
      split; [|split; [exact X|rewrite intact_app, Hi; reflexivity]]. apply tidy_snoc; [exact HD|discriminate|]. cbn [app]. rewrite E. apply cut_whole, Hos. }
  destruct Hs as (m1 & H1 & H2 & H3).
  assert (X : received ((D ++ m1) ++ [Chunk seven]) = concat (os ++ [seven])) by (rewrite received_app, H3, H2, concat_app; cbn [received concat]; reflexivity).
  assert (Hos' : Forall NetLemmas.framed (os ++ [seven])) by (apply Forall_app; split; [exact Hos|constructor; [apply seven_framed|constructor]]).
  assert (H4 : tidy [] ((D ++ m1) ++ [Chunk seven])).
  { apply tidy_snoc; [exact H1|discriminate|]. cbn [app]. rewrite H2. replace (concat os ++ seven) with (concat (os ++ [seven])) by (rewrite concat_app; cbn [concat]; rewrite app_nil_r; reflexivity). apply cut_whole, Hos'. }
  exists m1, (m1 ++ [Chunk seven]). rewrite app_assoc.
  rewrite (whole_packets os [] (D ++ m1) H1 (Forall_nil _) Hos H2), (whole_packets (os ++ [seven]) [] _ H4 (Forall_nil _) Hos' X).
  intros Y. apply (f_equal (@List.length bytes)) in Y. rewrite app_length in Y. cbn [List.length] in Y. change (list byte) with bytes in Y. lia.
Qed.

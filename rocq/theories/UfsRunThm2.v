(** The text of package ufs does what Ufs.v says: the methods. *)
From Verif Require Import Base GoBuf CodecPrim Types Codec Msgs StubPrim GoPath GoSyntax GoRun GoProg Ufs CodecLemmas GoFmt UfsRun UfsRunLemmas UfsRunThm.

Section Methods.
Context {W : Type} (h : os W) (c : config) (A M U RT DB : N).
Notation L := (mkLayout A M U RT DB).
Notation WP := (wp h L).
Notation st := (@mkStore W).
Definition post (m : tmsg) (u : table) (w : W) (ev : list event) (out : outcome) (s' : store W) : Prop :=
  sim h (method c m) u w ev (fun r u' w' ev' => same_result m r out s' /\ (r <> None -> holds c L s' u') /\ osw s' = w' /\ calls_made s' = ev').

Variables (hp : N -> option value) (nx : N) (u : table) (root ver : value) (t : N -> option value) (w : W) (ev : list event).
Hypothesis HA : hp A = Some (v_fs root ver c L).
Hypothesis HU : hp U = Some (VStr (user c)).
Hypothesis HM : hp M = Some (VMap VNil t).
Hypothesis HT : forall fid, match t fid, u fid with
       | None, None => True
       | Some v, Some f => exists a o, v = VPtr (str "file") a [] /\ hp a = Some (v_file f o) /\ bytes_v o = Some (f_oflow f)
       | _, _ => False
       end.
Hypothesis HI : forall fid fid' a, t fid = Some (VPtr (str "file") a []) -> t fid' = Some (VPtr (str "file") a []) -> fid = fid'.
Hypothesis HN : forall a, nx <= a -> hp a = None.
Lemma A_below : A < nx. Proof. eapply below; eauto. Qed.
Lemma U_below : U < nx. Proof. eapply below; eauto. Qed.
Lemma M_below : M < nx. Proof. eapply below; eauto. Qed.
Lemma AM : A <> M. Proof. intros ->. clash. Qed.
Lemma AU : A <> U. Proof. intros ->. clash. Qed.
Lemma MU : M <> U. Proof. intros ->. clash. Qed.
(** A fid is in the map or not. *)
Lemma fid_cases fid :
  (t fid = None /\ u fid = None) \/
  (exists a f o, t fid = Some (VPtr (str "file") a []) /\ u fid = Some f /\ hp a = Some (v_file f o) /\ bytes_v o = Some (f_oflow f) /\ a < nx /\ a <> A /\ a <> M /\ a <> U).
Proof.
  specialize (HT fid). destruct (t fid) as [v|], (u fid) as [f|]; try contradiction; [right|left; auto].
  destruct HT as (a & o & -> & Ha & Ho). exists a, f, o. repeat split; auto; try (intros ->; clash). eapply below; eauto.
Qed.
Ltac setup := pose proof A_below; pose proof U_below; pose proof M_below; pose proof AM; pose proof AU; pose proof MU.
Ltac fresh_cells := intros; cell; auto with lia.
Ltac others := first [lia | solve [intros; cell] | solve [intros; cell; apply HN; lia] | idtac].
Ltac keep := intros _; eapply (holds_same c A M U RT DB hp nx u root ver t HA HU HM HT HI HN); others.
Ltac poked := intros _; eapply (holds_poke c A M U RT DB hp nx u root ver t HA HU HM HT HI HN); [eassumption|..]; [..|repeat (eapply poke_at); eassumption|intros; rewrite ?poke_other by assumption; reflexivity]; others.
Ltac put := intros _; eapply (holds_put c A M U RT DB hp nx u root ver t HA HU HM HT HI HN); others.
Ltac deleted := intros _; eapply (holds_del c A M U RT DB hp nx u root ver t HA HU HM HT HI HN); others.
(** The model up to its next answer. *)
Ltac model := cbn [sim bind fail ok answer_op effect external ev_op ev_ret wrapR getFile stat_ clunk f_QID f_fullName f_file f_oflow].
Ltac ossy x w E := lazymatch goal with |- let (_, _) := h ?o ?w0 in _ => destruct (h o w0) as [x w] eqn:E end.
Lemma eta_qid q : mkQID (QID_Type q) (QID_Version q) (QID_Path q) = q. Proof. destruct q; reflexivity. Qed.
Ltac result := split; [first [reflexivity | cbn [same_result reply_of last qid_of]; rewrite ?eta_qid; reflexivity | idtac] | split; [|split; reflexivity]].

Lemma perm_bits d : uwrap 32 (Z.land (Z.of_N d) 511) = N.land d 511.
Proof.
  replace (Z.land (Z.of_N d) 511) with (Z.of_N (N.land d 511)) by (destruct d; reflexivity). unfold uwrap.
  change 511 with (N.ones 9). rewrite N.land_ones. change (2 ^ 9) with 512. rewrite Z.mod_small; [apply N2Z.id|].
  pose proof (N.mod_lt d 512). cbn [pow2]. lia.
Qed.
Lemma flag_bits n : Z.to_N (Z.lor (Z.lor (Z.of_N n) 64) 512) = N.lor (N.lor n 64) 512.
Proof. destruct n; reflexivity. Qed.
Lemma swrap_i64 n : swrap 64 (Z.of_N n) = i64 n.
Proof. unfold swrap, i64. rewrite N2Z.inj_mod by lia. reflexivity. Qed.
Lemma swrap_i32 z : swrap 32 z = i32 (u32_of_z z).
Proof.
  unfold swrap, i32, u32_of_z. change (Z.of_N (pow2 32)) with 4294967296%Z. pose proof (Z.mod_pos_bound z 4294967296).
  rewrite N.mod_small by lia. rewrite Z2N.id by lia. reflexivity.
Qed.
(** At the end: the model, with the same answers. *)
Ltac rewr := match goal with
  | E : h ?o ?w = _ |- context [h ?o' ?w] => first [rewrite E | change (h o' w) with (h o w); rewrite E]
  | E : u ?x = _ |- context [u ?x] => rewrite E
  | E : f_file ?x = _ |- context [f_file ?x] => rewrite E
  | E : _ = f_oflow ?x |- context [f_oflow ?x] => rewrite <- E
  | E : ?b = true |- context [if ?b' then _ else _] => rewrite E
  | E : ?b = false |- context [if ?b' then _ else _] => rewrite E
  end.
Ltac finish := unfold post, method, Rattach_, Rflush_, Rwalk_, Ropen_, Rcreate_, Rclunk_, Rremove_, Rstat_, Rread_, Rwrite_, NOFID, DMDIR, QTDIR, O_CREATE, O_TRUNC; model; repeat (rewr; model); result.

Lemma version_runs a b : WP (request L (MTversion (mkTversionPkt a b))) (st hp nx false w ev) (post (MTversion (mkTversionPkt a b)) u w ev).
Proof.
  setup. go1. fork E; go; unfold post, method, Rversion_;  destruct (list_eq_dec _ _ _); try discriminate E; model; result; keep.
Qed.
Lemma attach_runs a b d e : WP (request L (MTattach (mkTattachPkt a b d e))) (st hp nx false w ev) (post (MTattach (mkTattachPkt a b d e)) u w ev).
Proof.
  setup. go1. fork E; go.
  - finish. keep.
  - ossy x w' Eh. destruct x as [er|fi]; cbv beta iota delta [e_info]; go.
    + finish. keep.
    + apply fileInfoToQID_runs; go. finish. put.
Qed.
Lemma flush_runs a : WP (request L (MTflush (mkTflushPkt a))) (st hp nx false w ev) (post (MTflush (mkTflushPkt a)) u w ev).
Proof. setup. go. finish. keep. Qed.
Lemma open_runs a b : WP (request L (MTopen (mkTopenPkt a b))) (st hp nx false w ev) (post (MTopen (mkTopenPkt a b)) u w ev).
Proof.
  setup. destruct (fid_cases a) as [[Et Eu]|(fa & f & o & Et & Eu & Hf & Ho & Hb & F1 & F2 & F3)].
  - go. finish. keep.
  - unfold v_file in Hf. go. apply modeToUnixFlags_runs; go. ossy x w' Eh. destruct x as [er|hd]; cbv beta iota delta [e_file]; go; rewrite N2Z.id in *.
    + finish. poked.
    + finish. poked.
Qed.
Lemma create_runs a b d e : WP (request L (MTcreate (mkTcreatePkt a b d e))) (st hp nx false w ev) (post (MTcreate (mkTcreatePkt a b d e)) u w ev).
Proof.
  setup. go. eapply getFile_runs; [exact HA|exact HM|]. cbv zeta.
  destruct (fid_cases a) as [[Et Eu]|(fa & f & o & Et & Eu & Hf & Ho & Hb & F1 & F2 & F3)]; rewrite Et.
  - go. finish. keep.
  - exists fa. split; [reflexivity|]. unfold v_file in Hf. destruct (f_file f) as [hd|] eqn:Ef.
    { go. finish. keep. }
    go. fork E; go.
    + rewrite perm_bits. ossy x w' Eh. cbv beta iota delta [e_err err_v].
      destruct x as [er|]; go; (eapply stat_runs; [|exact HU|]; [lia|]); ossy y w2 Eh2; destruct y as [er2|fi].
      * go. finish. keep.
      * intros hp' Hp'. go. finish. poked.
      * go. finish. keep.
      * intros hp' Hp'. go. finish. poked.
    + apply modeToUnixFlags_runs; go. rewrite flag_bits.
      ossy x w' Eh. cbv beta iota delta [e_file]. destruct x as [er|hd]; go.
      * finish. keep.
      * eapply stat_runs; [|exact HU|]; [lia|]. ossy y w2 Eh2; destruct y as [er2|fi].
        -- go. finish. keep.
        -- intros hp' Hp'. go. finish. poked.
Qed.
Lemma clunk_req_runs a : WP (request L (MTclunk (mkTclunkPkt a))) (st hp nx false w ev) (post (MTclunk (mkTclunkPkt a)) u w ev).
Proof.
  setup. go. eapply clunk_runs; [exact HA|exact HM|].
  destruct (fid_cases a) as [[Et Eu]|(fa & f & o & Et & Eu & Hf & Ho & Hb & F1 & F2 & F3)]; rewrite Et.
  - go. finish. keep.
  - exists fa, f, o. repeat (split; [solve [auto]|]). destruct (f_file f) as [hd|] eqn:Ef.
    + ossy x w' Eh. go. finish. deleted.
    + go. finish. deleted.
Qed.
Lemma remove_runs a : WP (request L (MTremove (mkTremovePkt a))) (st hp nx false w ev) (post (MTremove (mkTremovePkt a)) u w ev).
Proof.
  setup. go. eapply clunk_runs; [exact HA|exact HM|].
  destruct (fid_cases a) as [[Et Eu]|(fa & f & o & Et & Eu & Hf & Ho & Hb & F1 & F2 & F3)]; rewrite Et.
  - go. finish. keep.
  - exists fa, f, o. repeat (split; [solve [auto]|]). unfold v_file in Hf. destruct (f_file f) as [hd|] eqn:Ef.
    + ossy x w' Eh. go. ossy y w2 Eh2. cbv beta iota delta [e_err err_v]; destruct y; go; finish; deleted.
    + go. ossy y w2 Eh2. cbv beta iota delta [e_err err_v]; destruct y; go; finish; deleted.
Qed.
Lemma stat_req_runs a : WP (request L (MTstat (mkTstatPkt a))) (st hp nx false w ev) (post (MTstat (mkTstatPkt a)) u w ev).
Proof.
  setup. go. eapply getFile_runs; [exact HA|exact HM|]. cbv zeta.
  destruct (fid_cases a) as [[Et Eu]|(fa & f & o & Et & Eu & Hf & Ho & Hb & F1 & F2 & F3)]; rewrite Et.
  - go. finish. keep.
  - exists fa. split; [reflexivity|]. unfold v_file in Hf. go.
    ossy x w' Eh; destruct x as [er|fi]; cbv beta iota delta [e_info].
    + go. finish. keep.
    + go. eapply dirTo9p2000Dir_runs; [|exact HU|]; [lia|]. intros hp' Hd Hp'. unfold v_dir in Hd. go.
      finish. keep.
Qed.
Lemma write_runs a b d : WP (request L (MTwrite (mkTwritePkt a b d))) (st hp nx false w ev) (post (MTwrite (mkTwritePkt a b d)) u w ev).
Proof.
  setup. go. eapply getFile_runs; [exact HA|exact HM|]. cbv zeta.
  destruct (fid_cases a) as [[Et Eu]|(fa & f & o & Et & Eu & Hf & Ho & Hb & F1 & F2 & F3)]; rewrite Et.
  - go. finish. keep.
  - exists fa. split; [reflexivity|]. unfold v_file in Hf. destruct (f_file f) as [hd|] eqn:Ef.
    + go. rewrite swrap_i64. ossy x w' Eh; destruct x as [n [er|]]; cbv beta iota delta [err_v fst snd]; go; rewrite ?swrap_i32.
      * finish. keep.
      * finish. keep.
    + go. finish. keep.
Qed.
Lemma buf_len_unread b s : buf_len (Buf b s) = blen b. Proof. reflexivity. Qed.
Lemma whole n : bounds_ok 0 (Z.of_N n) (Z.of_N n) = true.
Proof. unfold bounds_ok. lia. Qed.
Lemma bounds0 n : bounds_ok 0 0 (Z.of_N n) = true.
Proof. unfold bounds_ok. lia. Qed.
Ltac branch := lazymatch goal with |- wp _ _ (if ?b then _ else _) _ _ =>
    first [rewrite whole | rewrite bounds0 | replace b with true by (unfold bounds_ok; cbn [length] in *; lia) | rewrite (proj2 (Bool.not_true_iff_false b)) by (unfold bounds_ok; lia) | fail "branch" b]; cbv iota end.
Ltac entry :=
  let E1 := fresh "E" in
  fork E1; rewrite buf_len_unread in E1;
  [ go; branch; go; branch; go; finish; poked
  | go; let y := fresh "y" in let w2 := fresh "w" in let Eh2 := fresh "Eh" in let fi := fresh "fi" in ossy y w2 Eh2; destruct y as [[]|fi]; cbv beta iota delta [e_infos]; go;
    [ finish; poked
    | finish; poked
    | eapply dirTo9p2000Dir_runs; [|cell|]; [lia|]; let hp' := fresh "hp" in let Hd := fresh "Hd" in let Hp := fresh "Hp" in intros hp' Hd Hp; unfold v_dir in Hd; go;
      let E2 := fresh "E" in fork E2; rewrite buf_len_unread in E2; change (Marshaldir _) with (Marshaldir (dirTo9p2000Dir (user c) fi)) in *; go; finish; poked ]].
Lemma read_bound n (bs : bytes) : (0 <=? n)%Z = true -> bounds_ok 0 (Z.of_N (blen bs)) (Z.of_N (Z.to_N n)) = negb (n <? Z.of_N (blen bs))%Z.
Proof. unfold bounds_ok. lia. Qed.
Lemma read_contents z (bs : bytes) : firstn (N.to_nat (Z.to_N (Z.of_N (blen bs)))) (skipn 0 (overlay z bs)) = bs.
Proof. cbn [skipn]. unfold overlay, blen. rewrite N2Z.id, Nat2N.id. apply firstn_app_l || (rewrite firstn_app, Nat.sub_diag, firstn_all; cbn; apply app_nil_r). Qed.
Lemma read_runs a b n : WP (request L (MTread (mkTreadPkt a b n))) (st hp nx false w ev) (post (MTread (mkTreadPkt a b n)) u w ev).
Proof.
  setup. go. eapply getFile_runs; [exact HA|exact HM|]. cbv zeta.
  destruct (fid_cases a) as [[Et Eu]|(fa & f & o & Et & Eu & Hf & Ho & Hb & F1 & F2 & F3)]; rewrite Et.
  - go. finish. keep.
  - exists fa. split; [reflexivity|]. unfold v_file in Hf. destruct (f_file f) as [hd|] eqn:Ef.
    + go. fork E.
      * go. fork E0; go.
        -- ossy x w' Eh. cbv beta iota delta [err_v]. destruct x; go.
           ++ finish. poked.
           ++ entry.
        -- destruct o; try discriminate Ho; injection Ho as Ho; go; entry.
      * go. fork E0.
        -- assert (En : (n <? 0)%Z = false) by lia. go. rewrite swrap_i64. ossy x w' Eh. rewrite hset_same. destruct x as [bs [[]|]]; cbn [fst snd]; go.

           1,3: rewrite read_bound by exact E0; fork E1; go;
             [apply negb_true_iff in E1; finish; [|keep] | apply negb_false_iff in E1; finish; intros []; reflexivity];
             cbn [same_result reply_of last contents heap fst snd]; rewrite hset_same; rewrite read_contents; reflexivity.
           finish. keep.
        -- assert (En : (n <? 0)%Z = true) by lia. go. finish. intros []; reflexivity.
   + go. finish. keep.
Qed.
(** The loop of Rwalk. *)
Definition v_qids (qs : list QID) : list value := map v_qid qs.
Definition no_qid : value := VStruct (str "QID") [(str "Type", VU 8 0); (str "Version", VU 32 0); (str "Path", VU 64 0)].
Definition walk_env (a b : N) (l : list bytes) (fa : N) (i : Z) (q : list value) (p : bytes) : list frame :=
  [[(str "i", VI 64 i); (str "q", VList q); (str "p", VStr p); (str "ok", VBool true); (str "f", VPtr (str "file") fa []); (str "e", VPtr (str "FileServer") A []);
    (str "fid", VU 32 a); (str "newfid", VU 32 b); (str "paths", VList (v_strings l))]].
Lemma sim_total T (p : prog T) : forall u w ev, exists r u' w' ev', forall Q, sim h p u w ev Q <-> Q r u' w' ev'.
Proof.
  induction p as [x|o k IH|]; intros u0 w0 ev0; cbn [sim].
  - exists (Some x), u0, w0, ev0. tauto.
  - destruct (answer_op h u0 o w0) as [x w1]. apply IH.
  - exists None, u0, w0, ev0. tauto.
Qed.
Lemma sim_mono T (p : prog T) : forall u w ev (Q Q' : option T -> table -> W -> list event -> Prop), (forall r u w ev, Q r u w ev -> Q' r u w ev) -> sim h p u w ev Q -> sim h p u w ev Q'.
Proof. induction p as [x|o k IH|]; intros u0 w0 ev0 Q Q' HQ; cbn [sim]; auto. destruct (answer_op h u0 o w0). apply IH. exact HQ. Qed.
Lemma sim_walk l : forall p q u w ev Q, sim h (walk_loop p l q) u w ev Q -> sim h (walk_loop p l q) u w ev (fun r u' w' ev' => r <> None /\ u' = u /\
  match r with Some (WAll _ q') => length q' = (length q + length l)%nat | _ => True end /\ Q r u' w' ev').
Proof.
  induction l as [|x l IH]; intros p q u0 w0 ev0 Q H; cbn [walk_loop sim bind] in *.
  - split; [discriminate|]. split; [reflexivity|]. split; [cbn [length]; lia|exact H].
  - destruct (answer_op h u0 _ w0) as [[e|fi] w1]; cbn [sim effect] in *.
    + split; [discriminate|]. auto.
    + apply IH in H. eapply sim_mono; [|exact H]. intros r u1 w2 ev2 (H1 & H2 & H3 & H4). repeat (split; [assumption|]). split; [|exact H4].
      destruct r as [[|]|]; try exact H3. rewrite app_length in H3. cbn [length] in *. lia.
Qed.
Lemma qids_of_v qs : qids_of (v_qids qs) = Some qs.
Proof. induction qs as [|[] qs IH]; [reflexivity|]. cbn [v_qids map qids_of]. fold (v_qids qs). rewrite IH. reflexivity. Qed.
Lemma show_paths ps : elements (v_strings ps) = Some ps.
Proof. unfold elements. induction ps as [|p ps IH]; [reflexivity|]. cbn [v_strings map all_of]. unfold v_strings in IH. rewrite IH. reflexivity. Qed.
Lemma last_qid qs (ps : list bytes) : length qs = length ps -> (0 < length ps)%nat ->
  nth_error (v_qids qs) (Z.to_nat (Z.of_nat (length ps) - 1)) = Some (v_qid (last qs zeroQID)).
Proof.
  intros <- Hl. destruct (exists_last (l := qs)) as (qs' & q & ->); [intros ->; cbn in Hl; lia|]. unfold v_qids.
  rewrite last_last, map_app, nth_error_app2; rewrite ?map_length, ?app_length; cbn [length]; [|lia].
  replace (Z.to_nat _ - length qs')%nat with 0%nat by lia. reflexivity.
Qed.
Lemma nth_paths ps pre x r : ps = pre ++ x :: r -> nth_error (v_strings ps) (Z.to_nat (Z.of_N (N.of_nat (length pre)))) = Some (VStr x).
Proof. intros ->. replace (Z.to_nat _) with (length pre) by lia. unfold v_strings. rewrite nth_error_map, nth_error_app2, Nat.sub_diag by lia. reflexivity. Qed.
Lemma qids_len qs m : blen (v_qids qs ++ repeat no_qid m) = N.of_nat (length qs + m).
Proof. unfold blen, v_qids. rewrite app_length, map_length, repeat_length. reflexivity. Qed.
Lemma qids_done qs (pre : list bytes) m : length qs = length pre -> firstn (Z.to_nat (Z.of_N (N.of_nat (length pre)))) (v_qids qs ++ repeat no_qid m) = v_qids qs.
Proof.
  intros E. replace (Z.to_nat _) with (length (v_qids qs) + 0)%nat by (unfold v_qids; rewrite map_length; lia).
  rewrite firstn_app_2. cbn. apply app_nil_r.
Qed.
Lemma set_nth_app (l : list value) v x r : set_nth (length l) v (l ++ x :: r) = l ++ like x v :: r.
Proof. induction l as [|y l IH]; cbn; [reflexivity|]. rewrite IH. reflexivity. Qed.
Lemma qids_more qs (pre : list bytes) m q : length qs = length pre ->
  set_nth (Z.to_nat (Z.of_N (N.of_nat (length pre)))) (v_qid q) (v_qids qs ++ repeat no_qid (S m)) = v_qids (qs ++ [q]) ++ repeat no_qid m.
Proof.
  intros E. replace (Z.to_nat _) with (length (v_qids qs)) by (unfold v_qids; rewrite map_length; lia). cbn [repeat].
  rewrite set_nth_app. unfold v_qids. rewrite map_app, <- app_assoc. reflexivity.
Qed.
Ltac walked S Eps := rewrite ?Eps in *; unfold post, method, Rwalk_; model; repeat (rewr; model); apply sim_bind, sim_bind, S; cbv beta iota; model; repeat (rewr; model).
Lemma walk_runs a b l : WP (request L (MTwalk (mkTwalkPkt a b l))) (st hp nx false w ev) (post (MTwalk (mkTwalkPkt a b l)) u w ev).
Proof.
  setup. destruct (fid_cases a) as [[Et Eu]|(fa & f & o & Et & Eu & Hf & Ho & Hb & F1 & F2 & F3)].
  - go. finish. keep.
  - pose proof Hf as Hf2. unfold v_file in Hf. destruct l as [|p0 l].
    + go. change (Z.of_N (blen (v_strings [])) =? 0)%Z with true. cbv iota.
      destruct (fid_cases b) as [[Etb Eub]|(fb & f2 & o2 & Etb & Eub & Hf22 & Ho2 & Hb2 & G1 & G2 & G3)].
      * go. finish. put.
      * go. finish; [|keep]. cbn [same_result reply_of last err_text]. rewrite app_nil_r. reflexivity.
    + go. change (Z.of_N (blen (v_strings (p0 :: l))) =? 0)%Z with false. cbv iota. go.
      remember (p0 :: l) as ps eqn:Eps.
      lazymatch goal with |- wp _ _ (mkM (CRange ?def ?lhs _ _ ?body) ?k _ ?d) _ ?Q =>
        assert (LOOP : forall r pre qs p i0 w ev, ps = pre ++ r -> length qs = length pre -> i0 = Z.max 0 (Z.of_nat (length pre) - 1) ->
          sim h (walk_loop p r qs) u w ev (fun res u' w' ev' =>
            match res with
            | Some (WFail []) => Q (Returned [VNil; VErr (OSErr (str "file does not exist"))]) (st hp nx false w' ev')
            | Some (WFail qs) => Q (Returned [VList (v_qids qs); VNil]) (st hp nx false w' ev')
            | Some (WAll p qs) => WP (mkM CEnd k (walk_env a b ps fa (Z.of_nat (length ps) - 1) (v_qids qs) p) d) (st hp nx false w' ev') Q
            | None => True
            end) ->
          WP (mkM (CRange def lhs (N.of_nat (length pre)) (v_strings r) body) k (walk_env a b ps fa i0 (v_qids qs ++ repeat no_qid (length r)) p) d) (st hp nx false w ev) Q)
      end.
      { intros r. induction r as [|x r IH]; intros pre qs p i0 w1 ev1 Eq Lq -> Hs.
        - apply wp_step. cbn [walk_loop sim] in Hs. cbn [step wp_res v_strings map repeat]. rewrite app_nil_r in Eq |- *. subst pre.
          replace (Z.max 0 _) with (Z.of_nat (length ps) - 1)%Z by (subst ps; cbn [length]; lia). exact Hs.
        - apply wp_step. cbn [step ctl stk env dfr]. change (v_strings (x :: r)) with (VStr x :: v_strings r). cbn [wp_res]. unfold walk_env.
          go. rewrite (nth_paths ps pre x r Eq). go.
          cbn [walk_loop sim bind answer_op effect external ev_op ev_ret] in Hs. 
          ossy y w2 Eh. destruct y as [er|fi]; cbv beta iota delta [e_info]; go.
          + destruct pre as [|p1 pre].
            * change (Z.of_N (N.of_nat (length (@nil bytes))) =? 0)%Z with true. cbv iota. go. destruct qs; [|discriminate Lq]. exact Hs.
            * fork E0; [cbn [length] in E0; lia|]. go. rewrite qids_len. branch. 
              rewrite qids_done by exact Lq. go. destruct qs as [|q0 qs]; [discriminate Lq|]. exact Hs.
          + rewrite qids_len. branch. go. apply fileInfoToQID_runs. go.
            change (length (x :: r)) with (S (length r)). lazymatch goal with |- context [set_nth ?i ?v ?l] => change (set_nth i v l) with (set_nth i (v_qid (fileInfoToQID fi)) l) end.
            rewrite (qids_more _ _ _ _ Lq). replace (N.of_nat (length pre) + 1) with (N.of_nat (length (pre ++ [x]))) by (rewrite app_length; cbn [length]; lia).
            eapply (IH (pre ++ [x])); [rewrite <- app_assoc; exact Eq|rewrite !app_length, Lq; reflexivity| |exact Hs].
            rewrite app_length; cbn [length]; lia. }
      lazymatch goal with |- wp _ _ _ (mkStore _ _ _ ?w0 ?ev0) _ => destruct (sim_total _ (walk_loop (f_fullName f) ps []) u w0 ev0) as (r & u' & w2 & ev3 & S) end.
      assert (Hr : r <> None /\ u' = u /\ match r with Some (WAll _ q') => length q' = length ps | _ => True end).
      { pose proof (proj2 (S (fun _ _ _ _ => True)) I) as T. apply sim_walk in T. apply S in T. tauto. }
      destruct Hr as (Hr & -> & Lq).
      replace (Z.to_nat (Z.of_N (blen (v_strings ps)))) with (length ps) by (unfold blen, v_strings; rewrite map_length; lia).
      apply (LOOP ps [] [] (f_fullName f) 0%Z); [reflexivity|reflexivity|reflexivity|]. clear LOOP. apply S.
      assert (Lps : (0 < length ps)%nat) by (rewrite Eps; cbn [length]; lia).
      destruct r as [[[|q0 qs]|p qs]|]; [..|congruence].
      * walked S Eps. result. keep.
      * walked S Eps. result; [|keep]. cbn [same_result reply_of last]. rewrite qids_of_v. reflexivity.
      * unfold walk_env. go. fork E.
        -- destruct (fid_cases b) as [[Etb Eub]|(fb & f2 & o2 & Etb & Eub & Hf22 & Ho2 & Hb2 & G1 & G2 & G3)].
           ++ go. rewrite (last_qid _ _ Lq Lps). go. walked S Eps. result; [|put]. cbn [same_result reply_of last]. rewrite qids_of_v. reflexivity.
           ++ pose proof (show_paths ps) as Hsp. go. walked S Eps. result; [|keep]. cbn [same_result reply_of last err_text]. rewrite app_nil_r. repeat rewrite <- app_assoc. reflexivity.
        -- go. rewrite (last_qid _ _ Lq Lps). go. walked S Eps. result; [|put]. cbn [same_result reply_of last]. rewrite qids_of_v. reflexivity.
Qed.
(** Rwstat, from its last statements to its first. *)
Definition body_of (f : bytes) : list stmt := match assoc f (p_funcs ufs_program) with Some x => f_body x | None => [] end.
Definition wstat_from (k : nat) : list stmt := Eval vm_compute in skipn k (body_of (str "FileServer.Rwstat")).
Definition wstat_env (a : N) (b : bytes) (fa : N) (d : Dir) (ch : bool) : list frame :=
  [[(str "dir", v_dir d); (str "err", VNil); (str "f", VPtr (str "file") fa []); (str "changed", VBool ch); (str "e", VPtr (str "FileServer") A []);
    (str "fid", VU 32 a); (str "b", VBytes b)]].
Definition wpost (a : N) (b : bytes) (p : prog (answerOf RwstatPkt)) (u : table) (w : W) (ev : list event) (out : outcome) (s' : store W) : Prop :=
  sim h (wrapR MRwstat p) u w ev (fun r u' w' ev' => same_result (MTwstat (mkTwstatPkt a b)) r out s' /\ (r <> None -> holds c L s' u') /\ osw s' = w' /\ calls_made s' = ev').
Lemma wp_mono (Q Q' : outcome -> store W -> Prop) m s : (forall out s', Q out s' -> Q' out s') -> WP m s Q -> WP m s Q'.
Proof. intros HQ (n & out & s' & E & H). exists n, out, s'. auto. Qed.
Definition m_sync (f : Ufs.file) (ch : bool) : prog (answerOf RwstatPkt) :=
  if negb ch then match f_file f with Some h => _ <-- OSync h ;; ok mkRwstatPkt | None => ok mkRwstatPkt end else ok mkRwstatPkt.
Definition times (d : Dir) : bool := negb (Dir_Mtime d =? dontcare32) || negb (Dir_Atime d =? dontcare32).
Definition m_times (f : Ufs.file) (d : Dir) (ch : bool) := when (times d) (wstat_times f d) (m_sync f (ch || times d)).
Definition trunc (d : Dir) : bool := negb (Dir_Length d =? dontcare64).
Definition m_trunc (f : Ufs.file) (d : Dir) (ch : bool) := when (trunc d) (r <-- OTruncate (f_fullName f) (i64 (Dir_Length d)) ;; try_ r) (m_times f d (ch || trunc d)).
Definition m_rename (fid : N) (f : Ufs.file) (d : Dir) (ch : bool) : prog (answerOf RwstatPkt) :=
  f <~ wstat_rename c fid f d ;; match f with inl e => fail e | inr f => m_trunc f d (ch || negb (is_nil (Dir_Name d))) end.
Definition m_user (fid : N) (f : Ufs.file) (d : Dir) (ch : bool) : prog (answerOf RwstatPkt) :=
  if negb (is_nil (Dir_User d)) || negb (is_nil (Dir_Group d)) then fail (str "Permission denied") else m_rename fid f d ch.
Definition chmod (d : Dir) : bool := negb (Dir_Mode d =? dontcare32).
Definition m_chmod (fid : N) (f : Ufs.file) (d : Dir) : prog (answerOf RwstatPkt) :=
  when (chmod d) (r <-- OChmod (f_fullName f) (N.land (Dir_Mode d) 511) ;; try_ r) (m_user fid f d (chmod d)).
Lemma Rwstat_split fid b : Rwstat_ c fid b =
  (f <~ getFile fid ;;
   match f with
   | inl e => fail e
   | inr f => match Unmarshaldir (Buf b []) with UPanic => Panic | URet _ _ _ (Some err) => fail err | URet d _ _ None => m_chmod fid f d end
   end).
Proof. reflexivity. Qed.
(** The state in between: only the entry under fid has changed. *)
Definition mid (a fa : N) (f : Ufs.file) (o : value) (hp' : N -> option value) (nx' : N) (u' : table) : Prop :=
  nx <= nx' /\ hp' A = Some (v_fs root ver c L) /\ hp' fa = Some (v_file f o) /\ (forall b, b < nx -> b <> fa -> hp' b = hp b) /\
  (forall b, nx' <= b -> hp' b = None) /\ u' a = Some f /\ (forall x, x <> a -> u' x = u x).
Lemma back n m s r (Q : outcome -> store W -> Prop) : WP m s Q -> adv n m = r -> wp_res h L r s Q.
Proof.
  revert m. induction n as [|n IH]; intros m (k & out & s' & E & H) R; cbn [adv] in R.
  - subst r. exists k, out, s'. auto.
  - destruct k as [|k]; [discriminate E|]. cbn [run] in E.
    destruct (step ufs_program m) eqn:Es; try (subst r; cbn [wp_res]).
    + assert (X : WP m0 s Q) by (exists k, out, s'; auto). destruct (stops m0); [exact X|]. exact (IH _ X eq_refl).
    + exists k, out, s'. auto.
    + destruct l; exists k, out, s'; auto.
    + destruct o; [exists k, out, s'; auto|]. inversion E; subst. exact H.
    + lazymatch goal with |- context [serve_req h L ?q s] => destruct (serve_req h L q s) end; [exists k, out, s'; auto| |discriminate E]. inversion E; subst. exact H.
    + inversion E; subst. exact H.
    + inversion E; subst. exact H.
    + discriminate E.
Qed.
(** The goal is the state the machine in H gets to. *)
Ltac onward H := let X := fresh in pose proof H as X; unfold wstat_env, wstat_from in X; eapply (back 400) in X; [|machine_delta; reflexivity]; cbv beta iota delta [wp_res] in X; exact X.
Section Stages.
Variables (a : N) (b : bytes) (fa : N) (o : value).
Hypothesis Et : t a = Some (VPtr (str "file") fa []).
Hypothesis Hb : fa < nx.
Hypothesis FA : fa <> A.
Ltac stage := intros (Hn & HA' & Hf' & Hs' & HN' & Hu' & Hx'); unfold wstat_env, wstat_from; cbn [skipn].
Ltac ended := model; repeat (rewr; model); result.
Ltac midheld := intros _; eapply (holds_poke c A M U RT DB hp nx u root ver t HA HU HM HT HI HN); [exact Et|lia|cell|cell|eassumption|intros; cell; auto|intros; cell; match goal with H : _ |- _ => apply H; lia end|eassumption|eassumption].
Lemma stage_sync f d ch hp' nx' u' w' ev' : mid a fa f o hp' nx' u' -> bytes_v o = Some (f_oflow f) ->
  WP (mkM (CSeq (wstat_from 10)) [KFun [] []] (wstat_env a b fa d ch) []) (st hp' nx' false w' ev') (wpost a b (m_sync f ch) u' w' ev').
Proof.
  stage. intros Ho. pose proof Hf' as Hf2. unfold v_file in Hf2. go. fork E.
  - destruct (f_file f) as [hd|] eqn:Ef; go.
    + ossy x w2 Eh. cbv beta iota delta [e_err err_v]. destruct x; go; unfold wpost, m_sync; ended; midheld.
    + unfold wpost, m_sync. ended. midheld.
  - go. unfold wpost, m_sync. ended. midheld.
Qed.
Ltac bt := change (4294967296 - 1 - 0) with dontcare32; change (18446744073709551616 - 1) with dontcare64; repeat match goal with E : (_ =? _) = _ |- _ => rewrite E end; cbn [negb]; cbv iota; go.
Lemma stage_times f d ch hp' nx' u' w' ev' : mid a fa f o hp' nx' u' -> bytes_v o = Some (f_oflow f) ->
  WP (mkM (CSeq (wstat_from 9)) [KFun [] []] (wstat_env a b fa d ch) []) (st hp' nx' false w' ev') (wpost a b (m_times f d ch) u' w' ev').
Proof.
  intros MID Ho. pose proof (stage_sync f d ch hp' nx' u' w' ev' MID Ho) as NEXT. revert MID.
  stage. pose proof Hf' as Hf2. unfold v_file in Hf2. 
  go. unfold m_times, times, wstat_times in *.
  destruct (Dir_Mtime d =? dontcare32) eqn:E1, (Dir_Atime d =? dontcare32) eqn:E2; cbn [negb orb when].
  - bt. bt. rewrite Bool.orb_false_r. onward NEXT.
  - bt. bt. bt. ossy x w2 Eh. destruct x; go.
    + unfold wpost. ended. midheld.
    + ossy x w3 Eh'.  cbv beta iota delta [e_err err_v]. destruct x; go; unfold wpost, try_, m_sync; rewrite Bool.orb_true_r; ended; midheld.
  - bt. bt. bt. ossy x w2 Eh. destruct x; go.
    + unfold wpost. ended. midheld.
    + ossy x w3 Eh'.  cbv beta iota delta [e_err err_v]. destruct x; go; unfold wpost, try_, m_sync; rewrite Bool.orb_true_r; ended; midheld.
  - bt. bt. bt. 
    + ossy x w3 Eh'.  cbv beta iota delta [e_err err_v]. destruct x; go; unfold wpost, try_, m_sync; rewrite Bool.orb_true_r; ended; midheld.
Qed.
Lemma stage_trunc f d ch hp' nx' u' w' ev' : mid a fa f o hp' nx' u' -> bytes_v o = Some (f_oflow f) ->
  WP (mkM (CSeq (wstat_from 8)) [KFun [] []] (wstat_env a b fa d ch) []) (st hp' nx' false w' ev') (wpost a b (m_trunc f d ch) u' w' ev').
Proof.
  intros MID Ho. pose proof (fun ch w' ev' => stage_times f d ch hp' nx' u' w' ev' MID Ho) as NEXT. revert MID.
  stage. pose proof Hf' as Hf2. unfold v_file in Hf2. 
  go. unfold m_trunc, trunc in *.
  change (18446744073709551615) with dontcare64. fork E; cbn [when]; rewrite ?Bool.orb_false_r, ?Bool.orb_true_r.
  - go. ossy x w2 Eh. rewrite swrap_i64 in *. cbv beta iota delta [e_err err_v]. destruct x; go.
    + unfold wpost, try_; ended; midheld.
    + eapply wp_mono; [|onward (NEXT true w2 (ev' ++ [Ev (OTruncate (f_fullName f) (i64 (Dir_Length d))) None]))].
      unfold wpost, try_. intros out s'. model. rewr. model. exact (fun X => X).
  - go. onward (NEXT ch w' ev').
Qed.
Lemma dec_nil s : (if list_eq_dec byte_eq_dec s [] then true else false) = is_nil s.
Proof. destruct s; [reflexivity|]. destruct (list_eq_dec byte_eq_dec (b0 :: s) []); [discriminate|reflexivity]. Qed.
Lemma mid_set f f2 hp' nx' u' : mid a fa f o hp' nx' u' -> mid a fa f2 o (hset hp' fa (v_file f2 o)) nx' (poke u' a f2).
Proof.
  intros (Hn & HA' & Hf' & Hs' & HN' & Hu' & Hx'). repeat split; auto.
  - rewrite hset_other; auto.
  - apply hset_same.
  - intros x Hx1 Hx2. rewrite hset_other; auto.
  - intros x Hx1. rewrite hset_other; [auto|lia].
  - eapply poke_at. eassumption.
  - intros x Hx1. rewrite poke_other; auto.
Qed.
Ltac fwd := lazymatch goal with |- WP _ (mkStore _ _ _ ?w3 ?ev3) ?Q => lazymatch goal with
  | NN : forall w3 ev3 Q, (forall out s', wpost _ _ ?p ?u3 _ _ _ _ -> _) -> _ |- _ =>
      let HQ := fresh in assert (HQ : forall out s', wpost a b p u3 w3 ev3 out s' -> Q out s');
      [unfold wpost, try_; try match goal with nn := _ |- _ => subst nn end; intros out s'; model; repeat (rewr; model); exact (fun X => X) | onward (NN _ _ _ HQ)] end end.
Lemma stage_rename f d ch hp' nx' u' w' ev' : mid a fa f o hp' nx' u' -> bytes_v o = Some (f_oflow f) ->
  WP (mkM (CSeq (wstat_from 7)) [KFun [] []] (wstat_env a b fa d ch) []) (st hp' nx' false w' ev') (wpost a b (m_rename a f d ch) u' w' ev').
Proof.
  intros MID Ho. pose proof (fun f hp' nx' u' ch w' ev' => stage_trunc f d ch hp' nx' u' w' ev') as NEXT.
  pose proof (NEXT f hp' nx' u' ch w' ev' MID Ho) as NEXT0. revert MID.
  stage. pose proof Hf' as Hf2. unfold v_file in Hf2. pose proof HA' as HA2. unfold v_fs in HA2.
  go. unfold m_rename, wstat_rename in *. rewrite dec_nil.
  destruct (is_nil (Dir_Name d)) eqn:E; cbn [negb]; cbv iota; rewrite ?Bool.orb_false_r, ?Bool.orb_true_r.
  - go. onward NEXT0.
  - set (nn := new_name c (f_fullName f) (Dir_Name d)).
    assert (NN : forall w3 ev3 (Q : outcome -> store W -> Prop), (forall out s', wpost a b (m_trunc (mkFile (f_QID f) nn (f_file f) (f_oflow f)) d true) (poke u' a (mkFile (f_QID f) nn (f_file f) (f_oflow f))) w3 ev3 out s' -> Q out s') ->
      WP (mkM (CSeq (wstat_from 8)) [KFun [] []] (wstat_env a b fa d true) []) (st (hset hp' fa (v_file (mkFile (f_QID f) nn (f_file f) (f_oflow f)) o)) nx' false w3 ev3) Q).
    { intros w3 ev3 Q HQ. eapply wp_mono; [exact HQ|]. apply NEXT; [apply (mid_set f); repeat split; assumption|exact Ho]. }
    unfold new_name in nn. go. fork Ea; go; ossy x w2 Eh.
    + destruct x as [e|fi]; go; [|fork Ed; go].
      * ossy y w3 Eh'. cbv beta iota delta [e_err err_v]. destruct y; go; [|fwd]. unfold wpost. subst nn. ended. midheld.
      * unfold wpost. subst nn. ended. midheld.
      * ossy y w3 Eh'. cbv beta iota delta [e_err err_v]. destruct y; go; [|fwd]. unfold wpost. subst nn. ended. midheld.
    + destruct x as [e|fi]; go; [|fork Ed; go].
      * ossy y w3 Eh'. cbv beta iota delta [e_err err_v]. destruct y; go; [|fwd]. unfold wpost. subst nn. ended. midheld.
      * unfold wpost. subst nn. ended. midheld.
      * ossy y w3 Eh'. cbv beta iota delta [e_err err_v]. destruct y; go; [|fwd]. unfold wpost. subst nn. ended. midheld.
Qed.
Lemma stage_user f d ch hp' nx' u' w' ev' : mid a fa f o hp' nx' u' -> bytes_v o = Some (f_oflow f) ->
  WP (mkM (CSeq (wstat_from 6)) [KFun [] []] (wstat_env a b fa d ch) []) (st hp' nx' false w' ev') (wpost a b (m_user a f d ch) u' w' ev').
Proof.
  intros MID Ho. pose proof (stage_rename f d ch hp' nx' u' w' ev' MID Ho) as NEXT. revert MID.
  stage. pose proof Hf' as Hf2. unfold v_file in Hf2. 
  go. unfold m_user. rewrite dec_nil. destruct (is_nil (Dir_User d)) eqn:E1; cbn [negb orb]; cbv iota; go.
  - rewrite dec_nil. destruct (is_nil (Dir_Group d)) eqn:E2; cbn [negb orb]; cbv iota; go; [onward NEXT|]. unfold wpost. ended. midheld.
  - unfold wpost. ended. midheld.
Qed.
Lemma stage_chmod f d hp' nx' u' w' ev' : mid a fa f o hp' nx' u' -> bytes_v o = Some (f_oflow f) ->
  WP (mkM (CSeq (wstat_from 5)) [KFun [] []] (wstat_env a b fa d false) []) (st hp' nx' false w' ev') (wpost a b (m_chmod a f d) u' w' ev').
Proof.
  intros MID Ho. pose proof (fun ch w' ev' => stage_user f d ch hp' nx' u' w' ev' MID Ho) as NEXT. revert MID.
  assert (NN : forall w3 ev3 (Q : outcome -> store W -> Prop), (forall out s', wpost a b (m_user a f d true) u' w3 ev3 out s' -> Q out s') ->
      WP (mkM (CSeq (wstat_from 6)) [KFun [] []] (wstat_env a b fa d true) []) (st hp' nx' false w3 ev3) Q).
  { intros w3 ev3 Q HQ. eapply wp_mono; [exact HQ|]. apply NEXT. }
  stage. pose proof Hf' as Hf2. unfold v_file in Hf2. 
  go. unfold m_chmod, chmod in *. change 4294967295 with dontcare32. fork E; cbn [when]; go.
  - ossy x w2 Eh. cbv beta iota delta [e_err err_v]. destruct x; go; [|fwd].
    unfold wpost, try_; ended; midheld.
  - onward (NEXT false w' ev').
Qed.
End Stages.
Lemma wstat_runs a b : WP (request L (MTwstat (mkTwstatPkt a b))) (st hp nx false w ev) (post (MTwstat (mkTwstatPkt a b)) u w ev).
Proof.
  setup. go. eapply getFile_runs; [exact HA|exact HM|]. cbv zeta.
  destruct (fid_cases a) as [[Et Eu]|(fa & f & o & Et & Eu & Hf & Ho & Hb & F1 & F2 & F3)]; rewrite Et.
  - go. unfold post, method. rewrite Rwstat_split. model. repeat (rewr; model). result. keep.
  - exists fa. split; [reflexivity|]. unfold post, method. rewrite Rwstat_split.
    destruct (Unmarshaldir (Buf b [])) as [d tt' rest [err|]|] eqn:Ed; [| |destruct (nopanicDir _ Ed)].
    + go. model. repeat (rewr; model). result. keep.
    + go. lazymatch goal with |- WP _ (mkStore ?hp' ?nx' _ ?w' ?ev') ?Q =>
        assert (MID : mid a fa f o hp' nx' u); [|pose proof (stage_chmod a b fa o Et Hb F1 f d hp' nx' u w' ev' MID Ho) as X; eapply (wp_mono _ Q) in X; [onward X|]] end.
      * repeat split; try assumption; try lia; try (intros; cell). apply HN. lia.
      * unfold wpost. intros out s'. model. repeat (rewr; model). exact (fun X => X).
Qed.
End Methods.

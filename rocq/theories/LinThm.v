(** Reads and writes on several connections are atomic. *)
From Verif Require Import Base GoBuf CodecPrim Types Codec Msgs StubPrim CodecLemmas GoPath PathSpec Ufs UfsSpec UfsRun UfsLemmas UfsLemmas5 UfsLemmas6 MemOS MemSpec MemLemmas Conns ConnsLemmas ConnsRun ConnsRunThm2 LinSpec ConnsRunExec.

(** * Requests and replies in executions *)
Section Runs.
Variable c : config.
Lemma m_label p l p' : m_step c p l p' -> l = [] \/ exists a, l = [a].
Proof. intros S. inversion S; subst; eauto. inversion H0; subst; cbn; eauto. destruct (external (Ev o x)); cbn; eauto. Qed.
Lemma m_prefix ls p : m_runs c ls p -> forall l1 a l2, ls = l1 ++ a :: l2 -> exists p0 p1, m_runs c l1 p0 /\ m_step c p0 [a] p1.
Proof.
  induction 1 as [|ls p l p' H IH S]; intros l1 a l2 E; [destruct l1; discriminate E|].
  destruct (m_label _ _ _ S) as [->|(b & ->)]; [rewrite app_nil_r in E; eauto|].
  destruct (exists_last (l := a :: l2)) as (l3 & d & El); [discriminate|]. rewrite El, app_assoc in E. apply app_inj_tail in E as [-> ->].
  destruct l3 as [|a' l3].
  - inversion El; subst. rewrite app_nil_r in H. eauto.
  - inversion El; subst. eapply IH. reflexivity.
Qed.
Fixpoint last_request (l : list deed) (acc : option (tmsg * list event)) : option (tmsg * list event) :=
  match l with
  | [] => acc
  | d :: l => last_request l (match d with DRequest q => Some (q, []) | DCall e => match acc with Some (q, es) => Some (q, es ++ [e]) | None => None end | _ => acc end)
  end.
Lemma last_app l : forall l' acc, last_request (l ++ l') acc = last_request l' (last_request l acc).
Proof. induction l as [|d l IH]; intros l' acc; [reflexivity|]. cbn [app last_request]. apply IH. Qed.
Lemma last_calls es : forall q l, last_request (map DCall es) (Some (q, l)) = Some (q, l ++ es).
Proof. induction es as [|e es IH]; intros q l; cbn [map last_request]; [rewrite app_nil_r; reflexivity|]. rewrite IH, <- app_assoc. reflexivity. Qed.
Lemma since_mine j l : (exists es, mine j l = map DCall es) -> forall acc, since j l acc = acc ++ mine j l.
Proof.
  induction l as [|[i d] l IH]; intros (es & E) acc; [cbn; rewrite app_nil_r; reflexivity|]. cbn [since]. unfold mine in *. cbn [filter fst] in *.
  destruct (Nat.eqb i j); [|apply IH; eauto]. cbn [map snd] in *. destruct es as [|e es]; [discriminate E|]. inversion E; subst.
  rewrite IH by eauto. rewrite <- app_assoc. reflexivity.
Qed.
Lemma m_reply p j r p1 : m_step c p [(j, DReply r)] p1 -> exists p0 u d pre m tr, p = Some p0 /\ p0 j = Some (mkConn u d (Some (mkActive pre m tr (Ret r)))) /\
  p1 = Some (set_conn p0 j (Some (mkConn u (d ++ [mkStep pre m tr (Some r) u]) None))).
Proof.
  intros S. remember [(j, DReply r)] as L eqn:El. destruct S as [p i Hp|p i a l b Hp Hc|p i a Hp|p i u d pre m tr Hp]; try discriminate El.
  destruct l as [|d [|d' l]]; try discriminate El. cbn in El. inversion El; subst. remember [DReply r] as L eqn:El2.
  destruct Hc as [u d m|u d pre m tr o k x Ha|u d pre m tr r']; [discriminate El2|destruct (external (Ev o x)); discriminate El2|]. inversion El2; subst. repeat eexists. exact Hp.
Qed.
Theorem answered_exec ls p j q r l1 l2 l3 : m_runs c ls p -> answered ls j q r l1 l2 l3 ->
  exists u tr u', exec (method c q) u tr (Some r) u' /\ mine j l2 = map DCall (filter external tr).
Proof.
  intros H [E (es & Hm)]. destruct (m_prefix _ _ H (l1 ++ (j, DRequest q) :: l2) (j, DReply r) l3) as (p0 & p1 & H0 & S).
  { rewrite E. rewrite <- app_assoc. reflexivity. }
  destruct (m_reply _ _ _ _ S) as (p2 & u & d0 & pre & m & tr & -> & H3 & ->).
  pose proof (mr_step c _ _ _ _ H0 S) as H5.
  destruct (m_pruns c _ _ H5) as (is & H6).
  assert (H7 : hist c (d0 ++ [mkStep pre m tr (Some r) u]) u). { eapply connection_hist; [exact H6|]. apply set_conn_same. }
  assert (H8 : exec (method c m) pre tr (Some r) u).
  { inversion H7 as [Eh|h u0 m0 tr0 r0 u1 Hh He Eh]; [destruct d0; discriminate|]. apply app_inj_tail in Eh as [_ Eh]. inversion Eh; subst. assumption. }
  pose proof (m_seen c _ _ H0 _ _ _ eq_refl H3) as [Hs _]. unfold seen in Hs. cbn [cn_done cn_now a_req a_tr] in Hs.
  rewrite since_app in Hs. cbn [since] in Hs. rewrite Nat.eqb_refl in Hs. rewrite since_mine, Hm, <- app_assoc in Hs by eauto.
  apply (f_equal (fun l => last_request l None)) in Hs. rewrite !last_app in Hs. cbn [last_request] in Hs. rewrite !last_calls in Hs. inversion Hs; subst.
  exists pre, tr, u. split; [assumption|exact Hm].
Qed.
End Runs.

Lemma calls_external tr : calls (filter external tr) = calls tr.
Proof.
  unfold calls. induction tr as [|e tr IH]; [reflexivity|]. cbn [filter].
  assert (E : external e = false -> is_table (ev_op e) = true) by (destruct e as [[]]; cbn; congruence).
  destruct (external e); cbn [filter]; [rewrite IH; reflexivity|]. rewrite E by reflexivity. exact IH.
Qed.
Lemma mine_in j e l : In (DCall e) (mine j l) -> exists la lb, l = la ++ (j, DCall e) :: lb.
Proof.
  unfold mine. intros H. apply in_map_iff in H as ([i d] & E & H). cbn in E. subst d. apply filter_In in H as [H E]. cbn in E. apply Nat.eqb_eq in E. subst i. apply in_split. exact H.
Qed.

(** * What the methods do *)
Lemma write_call c fid o b u tr a u' : exec (method c (MTwrite (mkTwritePkt fid o b))) u tr (Some (inr a)) u' ->
  exists h k, calls tr = [Ev (OWriteAt h b (i64 o)) (k, None)] /\ a = MRwrite (mkRwritePkt (i32 (u32_of_z k))).
Proof.
  intros H. sx H; units; try discriminate; cbn [calls filter is_table ev_op negb].
  all: match goal with X : Some (inr _) = Some (inr _) |- _ => inversion X; subst | X : inr _ = inr _ |- _ => inversion X; subst | _ => idtac end; eauto.
Qed.
Lemma read_call c fid o n u tr a u' : exec (method c (MTread (mkTreadPkt fid o n))) u tr (Some (inr a)) u' ->
  exists b, a = MRread (mkRreadPkt b) /\
    ((exists h e, (0 <= n)%Z /\ calls tr = [Ev (OReadAt h (Z.to_N n) (i64 o)) (b, e)] /\ (e = None \/ e = Some EOF)) \/
     forallb (fun e => dir_call (ev_op e)) (calls tr) = true).
Proof.
  intros H. sx H; units; try discriminate; cbn [calls filter is_table ev_op negb].
  all: repeat match goal with X : Some (inr _) = Some (inr _) |- _ => inversion X; subst; clear X | X : inr _ = inr _ |- _ => inversion X; subst; clear X end.
  all: eexists; split; [reflexivity|]; try (right; reflexivity).
  all: left; repeat match goal with X : (_ <? _)%Z = false |- _ => apply Z.ltb_ge in X end; eauto 10.
Qed.

(** * Contents *)
Lemma on_files_app a : forall b w w', on_files w (a ++ b) w' <-> exists w1, on_files w a w1 /\ on_files w1 b w'.
Proof.
  induction a as [|[i d] a IH]; intros b w w'; cbn [app on_files]; [split; [intros H; exists w; auto|intros (w1 & -> & H); exact H]|].
  destruct d; try apply IH. rewrite IH. split; [intros (A & w1 & B & C); eauto|intros (w1 & (A & B) & C); eauto].
Qed.
Lemma on_files_wf ls : forall w w', on_files w ls w' -> wf w -> wf w' /\ w_next w <= w_next w'.
Proof.
  induction ls as [|[i d] ls IH]; intros w w' H Hw; cbn [on_files] in H; [subst; split; [exact Hw|lia]|]. destruct d; try (apply IH; assumption).
  destruct H as [_ H]. destruct (wf_os (ev_op e) w Hw) as [A B]. destruct (IH _ _ H A). split; [assumption|lia].
Qed.
Lemma call_data w e i : i < w_next w -> ev_ret e = fst (mem_os (ev_op e) w) -> ~ cuts w (ev_op e) i ->
  data (snd (mem_os (ev_op e) w)) i = match write_to w e i with Some x => write_at (data w i) (fst x) (snd x) | None => data w i end.
Proof.
  intros Hi Hr Hc. destruct e as [o r]. cbn [ev_op ev_ret] in *.
  assert (D : touched w o <> Some i -> (forall h b off, o <> OWriteAt h b off) -> data (snd (mem_os o w)) i = match write_to w (Ev o r) i with Some x => write_at (data w i) (fst x) (snd x) | None => data w i end).
  { intros Ht Hn. rewrite untouched by assumption. destruct o; try reflexivity. exfalso. eapply Hn. reflexivity. }
  destruct o; try (apply D; [cbn; discriminate|discriminate]).
  - apply D; [|discriminate]. cbn [touched cuts] in *. destruct (N.eqb_spec (N.land flags O_TRUNC) 0); [discriminate|]. intros E. apply Hc. auto.
  - apply D; [|discriminate]. exact Hc.
  - unfold write_to. cbn [ev_op ev_ret mem_os] in *. unfold os_writeat in *. destruct (w_files w h) as [f|]; [|subst r; reflexivity].
    destruct (negb (o_write f)); [subst r; reflexivity|]. destruct (off <? 0)%Z; [subst r; reflexivity|]. subst r. cbn [fst snd].
    rewrite data_set, (N.eqb_sym i). destruct (N.eqb_spec (o_ino f) i); [subst; reflexivity|reflexivity].
Qed.
Lemma stretch_data i ls : forall w w', on_files w ls w' -> wf w -> i < w_next w -> uncut w ls i -> data w' i = apply_writes (writes_to w ls i) (data w i).
Proof.
  induction ls as [|[j d] ls IH]; intros w w' H Hw Hi Hu; cbn [on_files uncut writes_to] in *; [subst; reflexivity|]. destruct d; try (apply IH; assumption).
  destruct H as [Hr H], Hu as [Hc Hu]. destruct (wf_os (ev_op e) w Hw) as [A B]. rewrite (IH _ _ H A ltac:(lia) Hu), (call_data _ _ _ Hi Hr Hc).
  unfold apply_writes. rewrite fold_left_app. destruct (write_to w e i); reflexivity.
Qed.
Lemma read_slice w h n o b e : o < 18446744073709551616 -> (b, e) = fst (mem_os (OReadAt h n (i64 o)) w) -> e = None \/ e = Some EOF ->
  exists f, w_files w h = Some f /\ b = slice (data w (o_ino f)) (N.to_nat o) (N.to_nat n).
Proof.
  intros Ho H He. cbn [mem_os] in H. unfold os_readat in H. destruct (w_files w h) as [f|]; [|inversion H; subst; destruct He; discriminate].
  destruct (negb (o_read f)); [inversion H; subst; destruct He; discriminate|]. destruct (n_dir _); [inversion H; subst; destruct He; discriminate|].
  destruct (Z.ltb_spec (i64 o) 0); [inversion H; subst; destruct He; discriminate|]. inversion H; subst. exists f. split; [reflexivity|].
  rewrite i64_small by assumption. unfold data. rewrite <- Z_N_nat, N2Z.id. reflexivity.
Qed.

(** * The claims *)
Section Claims.
Variable c : config.
Hypothesis Hio : IOunit c = 8192.
Lemma events_calls es : events (map DCall es) = es.
Proof. induction es as [|e es IH]; [reflexivity|]. cbn. f_equal. exact IH. Qed.
Lemma calls_in e es : In e (calls es) -> In e es.
Proof. intros H. apply filter_In in H. tauto. Qed.
Theorem write_atomic ls x j fid o b a l1 l2 l3 : t_runs c ls x -> answered ls j (MTwrite (mkTwritePkt fid o b)) (inr a) l1 l2 l3 ->
  exists h k la lb, l2 = la ++ (j, DCall (Ev (OWriteAt h b (i64 o)) (k, None))) :: lb /\ calls (events (mine j l2)) = [Ev (OWriteAt h b (i64 o)) (k, None)] /\
    a = MRwrite (mkRwritePkt (i32 (u32_of_z k))).
Proof.
  intros H A. destruct (text_model c Hio _ _ H) as (p & Hp & _). destruct (answered_exec c _ _ _ _ _ _ _ _ Hp A) as (u & tr & u' & He & Hm).
  destruct (write_call _ _ _ _ _ _ _ _ He) as (h & k & Hc & ->).
  assert (Hi : In (DCall (Ev (OWriteAt h b (i64 o)) (k, None))) (mine j l2)).
  { rewrite Hm. apply in_map. apply calls_in. rewrite calls_external, Hc. left. reflexivity. }
  destruct (mine_in _ _ _ Hi) as (la & lb & E). exists h, k, la, lb. split; [exact E|]. split; [|reflexivity]. rewrite Hm, events_calls, calls_external. exact Hc.
Qed.
Theorem read_atomic ls x j fid o n a l1 l2 l3 : t_runs c ls x -> answered ls j (MTread (mkTreadPkt fid o n)) (inr a) l1 l2 l3 ->
  exists b, a = MRread (mkRreadPkt b) /\
    ((exists h e la lb, (0 <= n)%Z /\ (e = None \/ e = Some EOF) /\ l2 = la ++ (j, DCall (Ev (OReadAt h (Z.to_N n) (i64 o)) (b, e))) :: lb /\
        calls (events (mine j l2)) = [Ev (OReadAt h (Z.to_N n) (i64 o)) (b, e)]) \/
     forallb (fun e => dir_call (ev_op e)) (calls (events (mine j l2))) = true).
Proof.
  intros H A. destruct (text_model c Hio _ _ H) as (p & Hp & _). destruct (answered_exec c _ _ _ _ _ _ _ _ Hp A) as (u & tr & u' & He & Hm).
  destruct (read_call _ _ _ _ _ _ _ _ He) as (b & -> & [(h & e & Hn & Hc & Hx)|Hd]).
  - exists b. split; [reflexivity|]. left.
    assert (Hi : In (DCall (Ev (OReadAt h (Z.to_N n) (i64 o)) (b, e))) (mine j l2)).
    { rewrite Hm. apply in_map. apply calls_in. rewrite calls_external, Hc. left. reflexivity. }
    destruct (mine_in _ _ _ Hi) as (la & lb & E). exists h, e, la, lb. split; [exact Hn|]. split; [exact Hx|]. split; [exact E|]. rewrite Hm, events_calls, calls_external. exact Hc.
  - exists b. split; [reflexivity|]. right. rewrite Hm, events_calls, calls_external. exact Hd.
Qed.
(** What a read of a file answers: the writes of all connections, in the order of their calls. *)
Theorem read_sees ls x w0 w' j fid o n b l1 l2 l3 : t_runs c ls x -> wf w0 -> on_files w0 ls w' -> o < 18446744073709551616 ->
  answered ls j (MTread (mkTreadPkt fid o n)) (inr (MRread (mkRreadPkt b))) l1 l2 l3 -> forallb (fun e => dir_call (ev_op e)) (calls (events (mine j l2))) = false ->
  exists la lb h e f w1, l2 = la ++ (j, DCall (Ev (OReadAt h (Z.to_N n) (i64 o)) (b, e))) :: lb /\
    let before := l1 ++ (j, DRequest (MTread (mkTreadPkt fid o n))) :: la in
    on_files w0 before w1 /\ w_files w1 h = Some f /\
    forall pa pb wa, before = pa ++ pb -> on_files w0 pa wa -> o_ino f < w_next wa -> uncut wa pb (o_ino f) ->
      let ws := writes_to wa pb (o_ino f) in let old := data wa (o_ino f) in
      List.length b = Nat.min (Z.to_nat n) (size_after ws (List.length old) - N.to_nat o) /\
      (forall k, (k < List.length b)%nat -> nth k b x00 = byte_after ws (N.to_nat o + k) (nth (N.to_nat o + k) old x00)).
Proof.
  intros H Hw Hf Ho A Hd. destruct (read_atomic _ _ _ _ _ _ _ _ _ _ H A) as (b' & Eb & [(h & e & la & lb & Hn & He & El & _)|Hd']); [|congruence].
  inversion Eb; subst b'. destruct A as [El0 _].
  assert (Hf2 : on_files w0 ((l1 ++ (j, DRequest (MTread (mkTreadPkt fid o n))) :: la) ++ (j, DCall (Ev (OReadAt h (Z.to_N n) (i64 o)) (b, e))) :: lb ++
     (j, DReply (inr (MRread (mkRreadPkt b)))) :: l3) w').
  { rewrite El0, El in Hf. repeat (rewrite <- ?app_assoc in Hf; cbn [app] in Hf). repeat (rewrite <- ?app_assoc; cbn [app]). exact Hf. }
  apply on_files_app in Hf2 as (w1 & H1 & H2). cbn [on_files ev_op ev_ret] in H2. destruct H2 as [H2 _].
  destruct (read_slice _ _ _ _ _ _ Ho H2 He) as (f & Hh & Hb). exists la, lb, h, e, f, w1. split; [exact El|]. split; [exact H1|]. split; [exact Hh|].
  intros pa pb wa Epq Ha Hi Hu ws old. rewrite Epq in H1. apply on_files_app in H1 as (wa' & Ha' & Hb').
  assert (wa' = wa). { clear -Ha Ha'. revert w0 Ha Ha'. induction pa as [|[i d] pa IH]; intros w0 Ha Ha'; cbn [on_files] in *; [congruence|]. destruct d; try (eapply IH; eassumption). eapply IH; [exact (proj2 Ha)|exact (proj2 Ha')]. }
  subst wa'. destruct (on_files_wf _ _ _ Ha Hw) as [Hwa _]. rewrite (stretch_data _ _ _ _ Hb' Hwa Hi Hu) in Hb. fold ws old in Hb. subst b. unfold slice.
  rewrite Z_N_nat. split; [rewrite firstn_length, skipn_length, length_writes; reflexivity|].
  intros k Hk. rewrite firstn_length in Hk. rewrite nth_firstn by lia. rewrite nth_skipn. apply nth_writes.
Qed.
(** A read that is asked for after a write to the file was answered sees it, if nothing was written to the file or cut off since. *)
Theorem read_after_write_elsewhere ls x w0 w' k j fid1 fid2 o n d a b l1 l2 m1 m2 m3 : t_runs c ls x -> wf w0 -> on_files w0 ls w' -> o < 18446744073709551616 ->
  answered ls k (MTwrite (mkTwritePkt fid1 o d)) (inr a) l1 l2 (m1 ++ (j, DRequest (MTread (mkTreadPkt fid2 o n))) :: m2 ++ (j, DReply (inr (MRread (mkRreadPkt b)))) :: m3) ->
  (exists es, mine j m2 = map DCall es) -> forallb (fun e => dir_call (ev_op e)) (calls (events (mine j m2))) = false -> d <> [] -> (Z.to_nat n <= List.length d)%nat ->
  exists la lb h1 z ma mb h2 e wa wb f1 f2,
    l2 = la ++ (k, DCall (Ev (OWriteAt h1 d (i64 o)) (z, None))) :: lb /\ m2 = ma ++ (j, DCall (Ev (OReadAt h2 (Z.to_N n) (i64 o)) (b, e))) :: mb /\
    let between := lb ++ (k, DReply (inr a)) :: m1 ++ (j, DRequest (MTread (mkTreadPkt fid2 o n))) :: ma in
    on_files w0 (l1 ++ (k, DRequest (MTwrite (mkTwritePkt fid1 o d))) :: la ++ [(k, DCall (Ev (OWriteAt h1 d (i64 o)) (z, None)))]) wa /\ on_files wa between wb /\
    w_files wa h1 = Some f1 /\ w_files wb h2 = Some f2 /\
    (o_ino f1 = o_ino f2 -> writes_to wa between (o_ino f1) = [] -> uncut wa between (o_ino f1) -> b = firstn (Z.to_nat n) d).
Proof.
  intros H Hw Hf Ho A Hm Hd Hne Hlen.
  destruct (write_atomic _ _ _ _ _ _ _ _ _ _ H A) as (h1 & z & la & lb & El2 & _ & Ea).
  assert (A2 : answered ls j (MTread (mkTreadPkt fid2 o n)) (inr (MRread (mkRreadPkt b))) (l1 ++ (k, DRequest (MTwrite (mkTwritePkt fid1 o d))) :: l2 ++ (k, DReply (inr a)) :: m1) m2 m3).
  { split; [|exact Hm]. destruct A as [-> _]. rewrite <- app_assoc. cbn [app]. rewrite <- app_assoc. reflexivity. }
  destruct (read_atomic _ _ _ _ _ _ _ _ _ _ H A2) as (b' & Eb & [(h2 & e & ma & mb & Hn & He & Em2 & _)|Hd']); [|congruence].
  inversion Eb; subst b'. destruct A as [El0 _].
  set (between := lb ++ (k, DReply (inr a)) :: m1 ++ (j, DRequest (MTread (mkTreadPkt fid2 o n))) :: ma).
  assert (Hf2 : on_files w0 ((l1 ++ (k, DRequest (MTwrite (mkTwritePkt fid1 o d))) :: la) ++ (k, DCall (Ev (OWriteAt h1 d (i64 o)) (z, None))) :: between ++
     (j, DCall (Ev (OReadAt h2 (Z.to_N n) (i64 o)) (b, e))) :: mb ++ (j, DReply (inr (MRread (mkRreadPkt b)))) :: m3) w').
  { unfold between. rewrite El0, El2, Em2 in Hf. repeat (rewrite <- ?app_assoc in *; cbn [app] in * ). exact Hf. }
  apply on_files_app in Hf2 as (wp & H1 & H2). cbn [on_files ev_op ev_ret] in H2. destruct H2 as [Hz H2].
  set (wa := snd (mem_os (OWriteAt h1 d (i64 o)) wp)) in *. apply on_files_app in H2 as (wb & H2 & H3). cbn [on_files ev_op ev_ret] in H3. destruct H3 as [H3 _].
  destruct (read_slice _ _ _ _ _ _ Ho H3 He) as (f2 & Hh2 & Hb).
  assert (W : exists f1, w_files wp h1 = Some f1 /\ wa = set_data wp (o_ino f1) (write_at (data wp (o_ino f1)) (N.to_nat o) d)).
  { unfold wa. cbn [mem_os] in Hz |- *. unfold os_writeat in Hz |- *. destruct (w_files wp h1) as [f1|]; [|inversion Hz]. exists f1. split; [reflexivity|].
    destruct (negb (o_write f1)); [inversion Hz|]. destruct (Z.ltb_spec (i64 o) 0); [inversion Hz|]. cbn [snd]. unfold data. rewrite i64_small by assumption. rewrite <- Z_N_nat, N2Z.id. reflexivity. }
  destruct W as (f1 & Hh1 & Wa). exists la, lb, h1, z, ma, mb, h2, e, wa, wb, f1, f2. split; [exact El2|]. split; [exact Em2|]. cbv zeta. split; [|split; [exact H2|]].
  { change (la ++ [(k, DCall (Ev (OWriteAt h1 d (i64 o)) (z, None)))]) with (la ++ [(k, DCall (Ev (OWriteAt h1 d (i64 o)) (z, None)))]).
    replace (l1 ++ (k, DRequest (MTwrite (mkTwritePkt fid1 o d))) :: la ++ [(k, DCall (Ev (OWriteAt h1 d (i64 o)) (z, None)))])
      with ((l1 ++ (k, DRequest (MTwrite (mkTwritePkt fid1 o d))) :: la) ++ [(k, DCall (Ev (OWriteAt h1 d (i64 o)) (z, None)))]) by (rewrite <- app_assoc; reflexivity).
    apply on_files_app. exists wp. split; [exact H1|]. cbn [on_files ev_op ev_ret]. split; [exact Hz|reflexivity]. }
  split; [rewrite Wa; exact Hh1|]. split; [exact Hh2|]. intros Ef Hws Hu.
  destruct (on_files_wf _ _ _ H1 Hw) as [Hwp _].
  assert (Hi : o_ino f1 < w_next wp) by (eapply (proj2 Hwp); exact Hh1).
  assert (Hwa : wf wa) by (rewrite Wa; apply wf_set_node; exact Hwp).
  assert (Hia : o_ino f1 < w_next wa) by (rewrite Wa; exact Hi).
  fold between in Hws, Hu.   rewrite <- Ef, (stretch_data _ _ _ _ H2 Hwa Hia Hu), Hws in Hb. unfold apply_writes in Hb. cbn [fold_left] in Hb.
  rewrite Wa, data_set, N.eqb_refl in Hb. subst b. unfold slice. rewrite Z_N_nat. unfold write_at. destruct d as [|d0 d]; [contradiction|].
  set (D := data wp (o_ino f1)). set (O := N.to_nat o).
  assert (Hl : List.length (firstn O D ++ repeat x00 (O - List.length D)) = O) by (rewrite app_length, firstn_length, repeat_length; lia).
  rewrite app_assoc. rewrite skipn_app, Hl, Nat.sub_diag. rewrite skipn_all2 by lia. rewrite app_nil_l, skipn_O. rewrite firstn_app.
  replace (Z.to_nat n - List.length (d0 :: d))%nat with 0%nat by lia. rewrite app_nil_r. reflexivity.
Qed.
End Claims.

(** An execution on the file system of MemOS.v. *)
From Verif Require Import GoSyntax GoRun.
Lemma turn_files t qs w : match turn t qs w with Took l _ _ w' => forall i, on_files w (map (pair i) l) w' | _ => True end.
Proof.
  destruct t as [s [fs|p m]]; unfold turn; cbn [th_job th_mem]; [destruct qs; cbn; auto|]. destruct (look m s) as [m' s'|o k|vs| |]; cbn; auto.
  - destruct (answer_op mem_os no_fids o w) as [x w'] eqn:E. intros i. cbn. assert (E2 : mem_os o w = (x, w')) by (destruct o; exact E). rewrite E2. auto.
  - destruct p as [|fs q]; [|destruct (reply_of s q vs); cbn; auto]. destruct vs as [|v [|? ?]]; auto; [|destruct v; auto; destruct p; auto]. destruct v; auto. destruct p; auto. match goal with |- context [if ?z then _ else _] => destruct z end; cbn; auto.
Qed.
Lemma play_files w0 turns : forall z, on_files w0 (out z) (files_now z) -> on_files w0 (out (fst (play turns z))) (files_now (fst (play turns z))).
Proof.
  induction turns as [|[|] turns IH]; intros z H; cbn [play]; [exact H| |].
  - pose proof (turn_files (t0 z) (q0 z) (files_now z)) as T. destruct (turn _ _ _); [|exact H|apply IH; exact H]. apply IH. cbn [out files_now]. apply on_files_app. eauto.
  - pose proof (turn_files (t1 z) (q1 z) (files_now z)) as T. destruct (turn _ _ _); [|exact H|apply IH; exact H]. apply IH. cbn [out files_now]. apply on_files_app. eauto.
Qed.

(** The file server on the operating system of MemOS.v: file contents. *)
From Verif Require Import Base GoBuf CodecPrim Types Codec Msgs StubPrim CodecLemmas GoPath PathSpec Ufs UfsSpec UfsLemmas UfsLemmas5 UfsLemmas6 MemOS MemSpec.

(** * From runs to calls *)
Fixpoint follows (w : world) (tr : list event) (w' : world) : Prop :=
  match tr with
  | [] => w' = w
  | e :: tr => if is_table (ev_op e) then follows w tr w' else
               ev_ret e = fst (mem_os (ev_op e) w) /\ follows (snd (mem_os (ev_op e) w)) tr w'
  end.
Lemma run_follows {A} (p : prog A) : forall u w r u' w' tr, run_prog mem_os p u w = (r, u', w', tr) -> follows w tr w'.
Proof.
  induction p as [a|o k IH|]; intros u w r u' w' tr; cbn [run_prog].
  - intros E. injection E as <- <- <- <-. reflexivity.
  - destruct (answer_op mem_os u o w) as [x w1] eqn:Ea. destruct (run_prog mem_os (k x) (effect o u) w1) as [[[r1 u1] w2] tr1] eqn:E.
    intros X. injection X as <- <- <- <-. apply IH in E. cbn [follows ev_op ev_ret].
    destruct o; cbn [is_table]; unfold answer_op in Ea; cbv beta iota in Ea; try (injection Ea as <- <-; exact E); rewrite Ea; split; trivial.
  - intros E. injection E as <- <- <- <-. reflexivity.
Qed.
Lemma follows_calls w tr w' : follows w tr w' -> follows w (calls tr) w'.
Proof.
  revert w. induction tr as [|e tr IH]; intros w; [trivial|]. cbn [follows calls filter]. destruct (is_table (ev_op e)) eqn:E; cbn [negb]; [apply IH|].
  cbn [follows]. rewrite E. intros [A B]. split; [exact A|]. apply IH, B.
Qed.
Lemma run1_spec c m s r s' tr : run1 c m s = (r, s', tr) ->
  exec (method c m) (fst s) tr r (fst s') /\ follows (snd s) (calls tr) (snd s').
Proof.
  unfold run1. destruct (run_prog mem_os (method c m) (fst s) (snd s)) as [[[r0 u0] w0] tr0] eqn:E. intros X. injection X as <- <- <-.
  split; [eapply run_exec; exact E|]. apply follows_calls. eapply run_follows. exact E.
Qed.
Lemma steps_hist c ms : forall h s, hist c h (fst s) -> hist c (h ++ steps c ms s) (fst (last_state c ms s)).
Proof.
  induction ms as [|m ms IH]; intros h s H; cbn [steps last_state]; [rewrite app_nil_r; exact H|].
  destruct (run1 c m s) as [[r s'] tr] eqn:E. apply run1_spec in E as [E _].
  change (mkStep (fst s) m tr r (fst s') :: steps c ms s') with ([mkStep (fst s) m tr r (fst s')] ++ steps c ms s'). rewrite app_assoc. apply IH.
  constructor; assumption.
Qed.
(** Every run on a new connection is a history. *)
Lemma mem_hist c ms w : hist c (steps c ms (no_fids, w)) (fst (last_state c ms (no_fids, w))).
Proof. change (steps c ms (no_fids, w)) with ([] ++ steps c ms (no_fids, w)). apply steps_hist. constructor. Qed.

(** * Contents *)
(** The node whose contents a call may change. *)
Definition touched (w : world) (o : op) : option N :=
  match o with
  | OOpen p flags _ => if N.land flags O_TRUNC =? 0 then None else lookup w p
  | OTruncate p _ => lookup w p
  | OWriteAt h _ _ => match w_files w h with Some f => Some (o_ino f) | None => None end
  | _ => None
  end.
Lemma upd_same {A} (f : N -> A) k v : upd f k v k = v.
Proof. unfold upd. rewrite N.eqb_refl. reflexivity. Qed.
Lemma upd_other {A} (f : N -> A) k v x : x <> k -> upd f k v x = f x.
Proof. unfold upd. intros H. destruct (N.eqb_spec x k); [congruence|reflexivity]. Qed.
Lemma data_set w i d x : data (set_data w i d) x = if x =? i then d else data w x.
Proof. unfold data, set_data, set_node. cbn. unfold upd. destruct (x =? i); reflexivity. Qed.
Lemma data_node w i n x : n_data n = data w i -> data (set_node w i n) x = data w x.
Proof. intros H. unfold data, set_node in *. cbn. unfold upd. destruct (N.eqb_spec x i); [subst; exact H|reflexivity]. Qed.
Lemma data_add w p n x : x < w_next w -> data (add_node w p n) x = data w x.
Proof. intros H. unfold data, add_node. cbn. rewrite upd_other by lia. reflexivity. Qed.

Lemma untouched o w i : i < w_next w -> touched w o <> Some i -> data (snd (mem_os o w)) i = data w i.
Proof.
  intros Hi Ht. destruct o; cbn [mem_os touched] in *; try reflexivity.
  - unfold os_open. destruct (lookup w p) as [j|] eqn:El.
    + destruct (_ && _); [reflexivity|]. destruct (N.land flags O_TRUNC =? 0); cbn; [reflexivity|].
      change (data (set_data w j []) i = data w i). rewrite data_set. destruct (N.eqb_spec i j); [congruence|reflexivity].
    + destruct (N.land flags O_CREATE =? 0); [reflexivity|]. destruct (negb _); [reflexivity|].
      change (data (add_node w p (mkNode false perm [] (w_now w) (w_now w))) i = data w i). apply data_add. exact Hi.
  - unfold os_mkdir. destruct (lookup w p); [reflexivity|]. destruct (negb _); [reflexivity|]. apply data_add. exact Hi.
  - unfold on_node. destruct (lookup w p); [|reflexivity]. apply data_node. reflexivity.
  - unfold os_rename. destruct (lookup w p); [|reflexivity]. repeat (destruct (_ : bool); [reflexivity|]). reflexivity.
  - unfold os_truncate. destruct (lookup w p) as [j|] eqn:El; [|reflexivity]. repeat (destruct (_ : bool); [reflexivity|]).
    cbn [snd]. rewrite data_set. destruct (N.eqb_spec i j); [congruence|reflexivity].
  - unfold on_node. destruct (lookup w p); [|reflexivity]. apply data_node. reflexivity.
  - unfold os_remove. destruct (lookup w p); [|reflexivity]. destruct (existsb _ _); reflexivity.
  - unfold os_readdir. destruct (w_files w h) as [f|]; [|reflexivity]. destruct (negb _); [reflexivity|].
    destruct (match o_left f with Some l => l | None => children w (o_ino f) end) as [|p l]; [reflexivity|]. destruct (lookup w p); reflexivity.
  - unfold os_readat. destruct (w_files w h) as [f|]; [|reflexivity]. repeat (destruct (_ : bool); [reflexivity|]). reflexivity.
  - unfold os_writeat. destruct (w_files w h) as [f|]; [|reflexivity]. repeat (destruct (_ : bool); [reflexivity|]).
    cbn [snd]. rewrite data_set. destruct (N.eqb_spec i (o_ino f)); [congruence|reflexivity].
  - destruct (w_files w h); reflexivity.
  - unfold with_file. destruct (w_files w h); reflexivity.
  - unfold with_file. destruct (w_files w h); reflexivity.
Qed.

(** * The invariant *)
Lemma bytes_eqb_spec a b : reflect (a = b) (bytes_eqb a b).
Proof. unfold bytes_eqb. destruct (list_eq_dec _ a b); constructor; assumption. Qed.
Lemma find_name_In l p i : find_name l p = Some i -> In (p, i) l.
Proof.
  induction l as [|[q j] l IH]; cbn; [discriminate|]. destruct (bytes_eqb_spec p q); [|right; auto].
  subst. intros X. injection X as <-. left. reflexivity.
Qed.
Lemma wf_lookup w p i : wf w -> lookup w p = Some i -> i < w_next w.
Proof. intros [A _] H. apply find_name_In in H. apply (A _ H). Qed.
Lemma wf_set_node w i n : wf w -> wf (set_node w i n).
Proof. intros H. exact H. Qed.
Lemma wf_set_file w h f : wf w -> h < w_nexth w -> (forall g, f = Some g -> o_ino g < w_next w) -> wf (set_file w h f).
Proof.
  intros [A B] Hh Hf. split; [exact A|]. cbn. intros k g. unfold upd. destruct (N.eqb_spec k h); [subst; intros E; split; [apply Hf, E|exact Hh]|apply B].
Qed.
Lemma wf_add_node w p n : wf w -> wf (add_node w p n).
Proof.
  intros [A B]. split; cbn.
  - intros q [<-|H]; [cbn; lia|]. apply A in H. lia.
  - intros h f H. apply B in H. lia.
Qed.
Lemma wf_open w i flags : wf w -> i < w_next w -> wf (snd (open_ w i flags)).
Proof.
  intros [A B] Hi. split; [exact A|]. cbn. intros h f. unfold upd. destruct (N.eqb_spec h (w_nexth w)); [intros X; injection X as <-; cbn; lia|].
  intros H. apply B in H. lia.
Qed.
Lemma wf_os o w : wf w -> wf (snd (mem_os o w)) /\ w_next w <= w_next (snd (mem_os o w)).
Proof.
  intros Hw. pose proof Hw as [HA HB].
  assert (Hsame : wf w /\ w_next w <= w_next w) by (split; [exact Hw|lia]).
  destruct o; cbn [mem_os]; try exact Hsame.
  - unfold os_open. destruct (lookup w p) as [j|] eqn:El.
    + destruct (_ && _); [exact Hsame|]. apply wf_lookup in El; [|exact Hw].
      destruct (negb _); cbn [open_ snd]; (split; [|cbn; lia]); [change (wf (snd (open_ (set_data w j []) j flags)))|change (wf (snd (open_ w j flags)))];
        apply wf_open; assumption.
    + destruct (N.land flags O_CREATE =? 0); [exact Hsame|]. destruct (negb _); [exact Hsame|]. split; [|cbn; lia].
      cbn [snd]. change (wf (snd (open_ (add_node w p (mkNode false perm [] (w_now w) (w_now w))) (w_next w) flags))). apply wf_open; [apply wf_add_node, Hw|cbn; lia].
  - unfold os_mkdir. destruct (lookup w p); [exact Hsame|]. destruct (negb _); [exact Hsame|]. split; [apply wf_add_node, Hw|cbn; lia].
  - unfold on_node. destruct (lookup w p); exact Hsame.
  - unfold os_rename. destruct (lookup w p); [|exact Hsame]. repeat (destruct (_ : bool); [exact Hsame|]). split; [|cbn; lia]. split; [|exact HB].
    cbn. intros q Hq. apply in_map_iff in Hq as [q' [<- Hq']]. apply filter_In in Hq' as [Hq' _]. cbn. apply HA, Hq'.
  - unfold os_truncate. destruct (lookup w p); [|exact Hsame]. repeat (destruct (_ : bool); [exact Hsame|]). exact Hsame.
  - unfold on_node. destruct (lookup w p); exact Hsame.
  - unfold os_remove. destruct (lookup w p); [|exact Hsame]. destruct (existsb _ _); [exact Hsame|]. split; [|cbn; lia]. split; [|exact HB].
    cbn. intros q Hq. apply filter_In in Hq as [Hq _]. apply HA, Hq.
  - unfold os_readdir. destruct (w_files w h) as [f|] eqn:Ef; [|exact Hsame]. destruct (negb _); [exact Hsame|]. destruct (HB _ _ Ef) as [B1 B2].
    assert (X : forall l, wf (set_file w h (Some (mkOfile (o_ino f) (o_read f) (o_write f) (Some l)))) /\
      w_next w <= w_next (set_file w h (Some (mkOfile (o_ino f) (o_read f) (o_write f) (Some l))))).
    { intros l. split; [|cbn; lia]. apply wf_set_file; [exact Hw|exact B2|]. intros g E. injection E as <-. exact B1. }
    destruct (match o_left f with Some l => l | None => children w (o_ino f) end) as [|p l]; [apply X|]. destruct (lookup w p); apply X.
  - unfold os_readat. destruct (w_files w h) as [f|]; [|exact Hsame]. repeat (destruct (_ : bool); [exact Hsame|]). exact Hsame.
  - unfold os_writeat. destruct (w_files w h) as [f|]; [|exact Hsame]. repeat (destruct (_ : bool); [exact Hsame|]). exact Hsame.
  - destruct (w_files w h) as [f|] eqn:Ef; [|exact Hsame]. destruct (HB _ _ Ef) as [B1 B2]. split; [|cbn; lia].
    apply wf_set_file; [exact Hw|exact B2|]. intros g E. injection E as <-. exact B1.
  - unfold with_file. destruct (w_files w h); exact Hsame.
  - unfold with_file. destruct (w_files w h) as [f|] eqn:Ef; [|exact Hsame]. destruct (HB _ _ Ef) as [B1 B2]. split; [|cbn; lia].
    apply wf_set_file; [exact Hw|exact B2|discriminate].
Qed.
Lemma follows_wf : forall tr w w', follows w tr w' -> wf w -> wf w' /\ w_next w <= w_next w'.
Proof.
  induction tr as [|e tr IH]; intros w w' H Hw; cbn in H; [subst; split; [exact Hw|lia]|].
  destruct (is_table (ev_op e)); [apply IH; assumption|]. destruct H as [_ H]. destruct (wf_os (ev_op e) w Hw) as [A B]. apply IH in H; [|exact A].
  split; [apply H|lia].
Qed.
Lemma wf_empty : wf empty_world.
Proof. split; cbn; [intros q [<-|[<-|[]]]; cbn; lia|discriminate]. Qed.
Lemma follows_app a b w w' : follows w (a ++ b) w' <-> exists w1, follows w a w1 /\ follows w1 b w'.
Proof.
  revert w. induction a as [|e a IH]; intros w; cbn [app follows].
  - split; [intros H; exists w; auto|intros [w1 [-> H]]; exact H].
  - destruct (is_table (ev_op e)); [apply IH|]. rewrite IH. split; [intros [A [w1 [B C]]]; eauto|intros [w1 [[A B] C]]; eauto].
Qed.
(** Calls that cannot change contents in any world. *)
Definition harmless (o : op) : bool :=
  match o with OOpen _ flags _ => N.land flags O_TRUNC =? 0 | OTruncate _ _ | OWriteAt _ _ _ => false | _ => true end.
Lemma harmless_untouched w o : harmless o = true -> touched w o = None.
Proof. destruct o; cbn; try discriminate; try reflexivity. intros ->. reflexivity. Qed.
Lemma follows_harmless i : forall tr w w', follows w tr w' -> wf w -> i < w_next w -> forallb (fun e => harmless (ev_op e)) tr = true -> data w' i = data w i.
Proof.
  induction tr as [|e tr IH]; intros w w' H Hw Hi Hh; cbn [follows forallb] in *; [subst; reflexivity|].
  apply andb_true_iff in Hh as [H1 H2]. destruct (is_table (ev_op e)); [apply IH; assumption|]. destruct H as [_ H].
  destruct (wf_os (ev_op e) w Hw) as [A B]. rewrite (IH _ _ H A ltac:(lia) H2). apply untouched; [exact Hi|]. rewrite (harmless_untouched _ _ H1). discriminate.
Qed.

(** * Names *)
Lemma under_longer p q : under p q = true -> (List.length p < List.length q)%nat.
Proof.
  unfold under. destruct (bytes_eqb_spec (firstn (List.length p + 1) q) (p ++ [slash])) as [E|]; [|discriminate]. intros _.
  apply (f_equal (@List.length byte)) in E. rewrite firstn_length, app_length in E. cbn in E. lia.
Qed.
Lemma find_moved l p p' : p <> p' ->
  find_name (map (fun q => (moved p p' (fst q), snd q)) (filter (fun q => negb (bytes_eqb (fst q) p')) l)) p' = find_name l p.
Proof.
  intros Hp. induction l as [|[q j] l IH]; [reflexivity|]. cbn [filter fst find_name].
  destruct (bytes_eqb_spec q p') as [->|Hq]; cbn [negb].
  - rewrite IH. destruct (bytes_eqb_spec p p'); [congruence|reflexivity].
  - cbn [map find_name fst snd]. unfold moved at 1. destruct (bytes_eqb_spec q p) as [->|Hqp].
    + destruct (bytes_eqb_spec p' p'); [|congruence]. destruct (bytes_eqb_spec p p); [reflexivity|congruence].
    + destruct (bytes_eqb_spec p q); [congruence|]. destruct (under p q) eqn:Eu.
      * destruct (bytes_eqb_spec p' (p' ++ skipn (List.length p) q)) as [E|]; [|exact IH]. exfalso. apply under_longer in Eu.
        apply (f_equal (@List.length byte)) in E. rewrite app_length, skipn_length in E. lia.
      * destruct (bytes_eqb_spec p' q); [congruence|exact IH].
Qed.
Lemma rename_lookup w p p' : fst (os_rename w p p') = None -> lookup (snd (os_rename w p p')) p' = lookup w p.
Proof.
  unfold os_rename. destruct (lookup w p) as [i|] eqn:El; [|discriminate]. destruct (bytes_eqb_spec p p') as [<-|Hp]; [intros _; exact El|].
  repeat (destruct (_ : bool); [discriminate|]). intros _. cbn [snd]. unfold lookup, set_names. cbn. rewrite find_moved by exact Hp. exact El.
Qed.
(** Calls that leave the names alone. *)
Lemma chmod_lookup w p m q : lookup (snd (mem_os (OChmod p m) w)) q = lookup w q.
Proof. cbn. unfold on_node. destruct (lookup w p); reflexivity. Qed.
Lemma truncate_lookup w p n q : lookup (snd (mem_os (OTruncate p n) w)) q = lookup w q.
Proof. cbn. unfold os_truncate. destruct (lookup w p); [|reflexivity]. repeat (destruct (_ : bool); [reflexivity|]). reflexivity. Qed.

(** * Requests and contents *)
(** The contents of node i after the request. *)
Definition after_write (s : table * world) (m : tmsg) (r : option (answerOf rmsg)) (i : N) (d : bytes) : bytes :=
  match m, r with
  | MTwrite p, Some (inr _) =>
      match node_of s (Twrite_OFID p) with
      | Some j => if j =? i then write_at d (N.to_nat (Twrite_Off p)) (Twrite_Data p) else d
      | None => d
      end
  | _, _ => d
  end.

Lemma lookups_harmless : forall els p infos, forallb (fun e => harmless (ev_op e)) (lookups p els infos) = true.
Proof. induction els as [|e els IH]; intros p [|fi infos]; cbn; try reflexivity. apply IH. Qed.
(** Requests all of whose calls are harmless. *)
Lemma harmless_request c m u tr r u' : exec (method c m) u tr r u' ->
  match m with MTopen _ | MTcreate _ | MTwrite _ | MTwstat _ => True | _ => forallb (fun e => harmless (ev_op e)) (calls tr) = true end.
Proof.
  intros H. destruct m as [[]|[]|[]|[]|[]|[]|[]|[]|[]|[]|[]|[]]; try exact I.
  all: try (sx H; units; reflexivity).
  destruct (u Twalk_SFID) as [f|] eqn:Ef.
  - destruct Twalk_Paths as [|e els].
    + pose proof (clone_semantics _ _ _ _ _ _ _ _ Ef H) as [X _]. rewrite X. reflexivity.
    + pose proof (walk_semantics _ _ _ _ _ _ _ _ _ Ef H ltac:(discriminate)) as [infos [(_ & [x X] & _)|(_ & X & _)]]; rewrite X.
      * rewrite forallb_app, lookups_harmless. reflexivity.
      * apply lookups_harmless.
  - sxu H. repeat (first [rewrite Ef in H|sx1 H]; cbn [exec bind allowed effect] in H); subst; reflexivity.
Qed.
Lemma trunc_flag mode : (N.land (modeToUnixFlags mode) O_TRUNC =? 0) = negb (N.testbit mode 4).
Proof. rewrite modeToUnixFlags_spec. destruct (N.testbit mode 4); [|rewrite N.add_0_r]; destruct (N.land mode 3) as [|[[]|[]|]]; reflexivity. Qed.
Lemma i64_small o : o < 18446744073709551616 -> (0 <= i64 o)%Z -> i64 o = Z.of_N o.
Proof. intros H. unfold i64. rewrite N.mod_small by exact H. destruct (Z.ltb_spec (Z.of_N o) 9223372036854775808); lia. Qed.

Lemma write_contents c fid o b s r s' tr : o < 18446744073709551616 ->
  run1 c (MTwrite (mkTwritePkt fid o b)) s = (r, s', tr) ->
  (exists a i, r = Some (inr a) /\ node_of s fid = Some i /\ a = MRwrite (mkRwritePkt (i32 (u32_of_z (Z.of_N (blen b))))) /\
     fst s' = fst s /\ snd s' = set_data (snd s) i (write_at (data (snd s) i) (N.to_nat o) b))
  \/ (exists e, r = Some (inl e) /\ s' = s).
Proof.
  intros Ho H. destruct s as [u w], s' as [u' w']. apply run1_spec in H as [H Hf]. cbn [fst snd] in *.
  sx H; units; cbn [calls filter is_table ev_op negb follows ev_ret] in Hf; try (subst w'; right; eexists; split; [reflexivity|reflexivity]).
  all: destruct Hf as [Hx Hw]; subst w'; cbn [mem_os] in *; unfold os_writeat in *; unfold node_of, held; cbn [fst snd];
    match goal with Hu : _ = Some ?f, Hh : f_file ?f = Some ?h |- _ => rewrite Hu, Hh; destruct (w_files w h) as [g|] eqn:Eg end;
    [|inversion Hx; subst; try discriminate; right; eexists; split; reflexivity].
  all: destruct (negb (o_write g)); [inversion Hx; subst; try discriminate; right; eexists; split; reflexivity|].
  all: destruct (Z.ltb_spec (i64 o) 0); [inversion Hx; subst; try discriminate; right; eexists; split; reflexivity|].
  all: inversion Hx; subst; try discriminate.
  left. eexists _, (o_ino g). split; [reflexivity|]. split; [reflexivity|]. split; [reflexivity|]. split; [reflexivity|].
  cbn [snd]. unfold data. rewrite i64_small by assumption. rewrite <- Z_N_nat, N2Z.id. reflexivity.
Qed.
(** One event at a time. *)
Lemma follows_cons e tr w w' : is_table (ev_op e) = false -> follows w (e :: tr) w' -> follows (snd (mem_os (ev_op e) w)) tr w' /\ ev_ret e = fst (mem_os (ev_op e) w).
Proof. intros E. cbn [follows]. rewrite E. intros [A B]. split; assumption. Qed.
Lemma follows_untouched i e tr w w' : is_table (ev_op e) = false -> follows w (e :: tr) w' -> wf w -> i < w_next w -> touched w (ev_op e) <> Some i ->
  exists w1, w1 = snd (mem_os (ev_op e) w) /\ ev_ret e = fst (mem_os (ev_op e) w) /\ follows w1 tr w' /\ wf w1 /\ i < w_next w1 /\ data w1 i = data w i.
Proof.
  intros E H Hw Hi Ht. apply follows_cons in H as [H Hr]; [|exact E]. destruct (wf_os (ev_op e) w Hw) as [A B].
  eexists. split; [reflexivity|]. split; [exact Hr|]. split; [exact H|]. split; [exact A|]. split; [lia|]. apply untouched; assumption.
Qed.
(** In the calls of a wstat, the first truncation is of the file. *)
Lemma wstat_contents c fid b i s r s' tr : wf (snd s) -> i < w_next (snd s) ->
  run1 c (MTwstat (mkTwstatPkt fid b)) s = (r, s', tr) -> ~ resets s (MTwstat (mkTwstatPkt fid b)) i -> data (snd s') i = data (snd s) i.
Proof.
  intros Hw Hi H Hn. destruct s as [u w], s' as [u' w']. apply run1_spec in H as [H Hf]. cbn [fst snd] in *.
  unfold resets, named in Hn. cbn [fst snd Twstat_OFID Twstat_B] in Hn.
  destruct (u fid) as [f|] eqn:Ef.
  2: { sxu H. repeat (first [rewrite Ef in H|sx1 H]; cbn [exec bind allowed effect] in H); subst; units; cbn in Hf; subst; reflexivity. }
  destruct (Unmarshaldir (Buf b [])) as [d t rest [err|]|] eqn:Ed.
  1: { pose proof (wstat_undecodable _ _ _ _ _ _ _ _ _ _ _ _ Ef Ed H) as [X _]. rewrite X in Hf. cbn in Hf. subst. reflexivity. }
  2: { sxu H. repeat (first [rewrite Ef in H|rewrite Ed in H|sx1 H]; cbn [exec bind allowed effect] in H); subst; units; cbn in Hf; subst; reflexivity. }
  destruct (N.eq_dec (Dir_Length d) keep64) as [Hl|Hl].
  - pose proof (wstat_values _ _ _ _ _ _ _ _ _ _ _ Ef Ed H) as Hv. apply (follows_harmless i) in Hf; [exact Hf|exact Hw|exact Hi|].
    apply forallb_forall. intros e He. specialize (Hv e He). destruct (ev_op e); cbn in Hv |- *; try reflexivity; try contradiction.
    destruct Hv as (_ & X & _). congruence.
  - assert (Hi2 : lookup w (f_fullName f) <> Some i) by (intros X; apply Hn; split; [exact X|exists d, t, rest; split; [reflexivity|exact Hl]]).
    clear Hn. sxw H Ef Ed; cbn [calls filter is_table ev_op negb f_fullName] in Hf.
    all: repeat match type of Hf with
      | follows ?w0 (Ev (OTruncate ?p ?n) ?x :: ?tr0) ?w1 =>
          let Hnx := fresh "Hn" in
          assert (Hnx : lookup w0 p <> Some i) by first [assumption];
          apply (follows_untouched i) in Hf; [|reflexivity|assumption|assumption|exact Hnx];
          let y := fresh "y" in let e := fresh "e" in let Hy := fresh "Hy" in let Hwy := fresh "Hwy" in let Hiy := fresh "Hiy" in let D := fresh "D" in
          destruct Hf as (y & e & Hy & Hf & Hwy & Hiy & D); cbn [ev_op ev_ret] in e, Hy;
          assert (lookup y p <> Some i) by (rewrite e, truncate_lookup; exact Hnx); clear e
      | follows ?w0 (Ev (OChmod ?p ?n) ?x :: ?tr0) ?w1 =>
          apply (follows_untouched i) in Hf; [|reflexivity|assumption|assumption|discriminate];
          let y := fresh "y" in let e := fresh "e" in let Hy := fresh "Hy" in let Hwy := fresh "Hwy" in let Hiy := fresh "Hiy" in let D := fresh "D" in
          destruct Hf as (y & e & Hy & Hf & Hwy & Hiy & D); cbn [ev_op ev_ret] in e, Hy;
          assert (lookup y (f_fullName f) <> Some i) by (rewrite e, chmod_lookup; assumption); clear e
      | follows ?w0 (Ev (ORename ?p ?n) ?x :: ?tr0) ?w1 =>
          apply (follows_untouched i) in Hf; [|reflexivity|assumption|assumption|discriminate];
          let y := fresh "y" in let e := fresh "e" in let Hy := fresh "Hy" in let Hwy := fresh "Hwy" in let Hiy := fresh "Hiy" in let D := fresh "D" in
          destruct Hf as (y & e & Hy & Hf & Hwy & Hiy & D); cbn [ev_op ev_ret mem_os] in e, Hy;
          try (assert (lookup y n <> Some i) by (rewrite e, rename_lookup by (symmetry; exact Hy); assumption)); clear e
      | follows ?w0 (Ev (OStat ?p) ?x :: ?tr0) ?w1 => apply follows_cons in Hf as [Hf _]; [|reflexivity]; cbn [ev_op mem_os snd] in Hf
      | follows ?w0 (Ev (OChtimes ?p ?a ?m) ?x :: ?tr0) ?w1 =>
          apply (follows_untouched i) in Hf; [|reflexivity|assumption|assumption|discriminate];
          let y := fresh "y" in let Hwy := fresh "Hwy" in let Hiy := fresh "Hiy" in let D := fresh "D" in
          destruct Hf as (y & _ & _ & Hf & Hwy & Hiy & D)
      | follows ?w0 (Ev (OSync ?h) ?x :: ?tr0) ?w1 =>
          apply (follows_untouched i) in Hf; [|reflexivity|assumption|assumption|discriminate];
          let y := fresh "y" in let Hwy := fresh "Hwy" in let Hiy := fresh "Hiy" in let D := fresh "D" in
          destruct Hf as (y & _ & _ & Hf & Hwy & Hiy & D)
      end.
    all: cbn [follows] in Hf; subst w'; congruence.
Qed.
Lemma open_contents c m i s r s' tr : match m with MTopen _ | MTcreate _ => True | _ => False end -> wf (snd s) -> i < w_next (snd s) ->
  run1 c m s = (r, s', tr) -> ~ resets s m i -> data (snd s') i = data (snd s) i.
Proof.
  intros Hm Hw Hi H Hn. destruct s as [u w], s' as [u' w']. apply run1_spec in H as [H Hf]. cbn [fst snd] in *.
  destruct m as [p|p|p|p|[fid mode]|[fid name perm mode]|p|p|p|p|p|p]; try contradiction; clear Hm; unfold resets, named in Hn;
    cbn [fst snd Topen_OFID Topen_Omode Tcreate_OFID Tcreate_Name Tcreate_CreatePerm] in Hn; sx H; units; cbn [calls filter is_table ev_op negb f_fullName] in Hf.
  all: try (cbn [follows] in Hf; subst w'; reflexivity).
  all: match type of Hf with
    | follows _ (Ev (OOpen ?p ?fl ?pe) ?x :: _) _ =>
        assert (Ht : touched w (OOpen p fl pe) <> Some i) by
          (cbn [touched]; first [rewrite trunc_flag; destruct (N.testbit _ 4) eqn:Eb; cbn [negb]; [intros X; apply Hn; split; [exact X|reflexivity]|discriminate]
            |destruct (N.land fl O_TRUNC =? 0); [discriminate|]; intros X; apply Hn; eexists; split; [reflexivity|]; split; [assumption|]; split; [|exact X];
             match goal with E : negb (_ =? 0) = false |- _ => apply negb_false_iff, N.eqb_eq in E; exact E end]);
        apply (follows_untouched i) in Hf; [|reflexivity|assumption|assumption|exact Ht];
        destruct Hf as (y & _ & _ & Hf & Hwy & Hiy & D); apply (follows_harmless i) in Hf; [rewrite Hf; exact D|assumption|assumption|reflexivity]
    | _ => apply (follows_harmless i) in Hf; [exact Hf|assumption|assumption|reflexivity]
    end.
Qed.
(** A request changes contents only by writing, unless it truncates. *)
Theorem contents_step c m i s r s' tr : wf (snd s) -> i < w_next (snd s) -> (forall p, m = MTwrite p -> Twrite_Off p < 18446744073709551616) ->
  run1 c m s = (r, s', tr) -> ~ resets s m i ->
  data (snd s') i = after_write s m r i (data (snd s) i).
Proof.
  intros Hw Hi Ho H Hn. pose proof H as H0. apply run1_spec in H0 as [He Hf]. apply harmless_request in He.
  destruct m as [p|p|p|p|p|p|p|[fid o b]|p|p|p|[fid b]]; unfold after_write.
  all: try (eapply open_contents; [|exact Hw|exact Hi|exact H|exact Hn]; exact I).
  all: try (eapply follows_harmless; [exact Hf|exact Hw|exact Hi|exact He]).
  - eapply write_contents in H; [|apply (Ho _ eq_refl)]. cbn [Twrite_OFID Twrite_Off Twrite_Data].
    destruct H as [(a & j & -> & -> & _ & _ & ->)|(e & -> & ->)]; [|reflexivity]. rewrite data_set, N.eqb_sym. destruct (N.eqb_spec j i); [subst; reflexivity|reflexivity].
  - eapply wstat_contents; [exact Hw|exact Hi|exact H|exact Hn].
Qed.

(** * Histories *)
Lemma nth_skipn {A} (l : list A) n k x : nth k (skipn n l) x = nth (n + k) l x.
Proof. revert l. induction n as [|n IH]; intros l; [reflexivity|]. destruct l; [destruct k; reflexivity|]. apply IH. Qed.
Lemma nth_firstn {A} (l : list A) n k x : (k < n)%nat -> nth k (firstn n l) x = nth k l x.
Proof. revert l k. induction n as [|n IH]; intros l k H; [lia|]. destruct l; [reflexivity|]. destruct k; [reflexivity|]. cbn. apply IH. lia. Qed.
Lemma nth_write d o b k : nth k (write_at d o b) x00 = if covers k (o, b) then nth (k - o) b x00 else nth k d x00.
Proof.
  unfold covers. cbn [fst snd]. destruct b as [|x b].
  - cbn [write_at List.length]. destruct (Nat.ltb_spec k (o + 0)); [|rewrite andb_false_r; reflexivity]. destruct (Nat.leb_spec o k); [lia|reflexivity].
  - unfold write_at. set (bb := x :: b).
    assert (L1 : List.length (firstn o d ++ repeat x00 (o - List.length d)) = o) by (rewrite app_length, firstn_length, repeat_length; lia).
    destruct (Nat.leb_spec o k) as [Ho|Ho]; cbn [andb].
    + rewrite app_assoc, app_nth2 by lia. rewrite L1. destruct (Nat.ltb_spec k (o + List.length bb)).
      * apply app_nth1. lia.
      * rewrite app_nth2 by lia. rewrite nth_skipn. f_equal. lia.
    + rewrite app_assoc, app_nth1 by lia. destruct (Nat.lt_ge_cases k (List.length d)).
      * rewrite app_nth1 by (rewrite firstn_length; lia). apply nth_firstn. lia.
      * rewrite app_nth2 by (rewrite firstn_length; lia). rewrite nth_repeat. symmetry. apply nth_overflow. lia.
Qed.

Lemma length_write d o b : List.length (write_at d o b) = match b with [] => List.length d | _ => Nat.max (List.length d) (o + List.length b) end.
Proof. unfold write_at. destruct b as [|x b]; [reflexivity|]. rewrite !app_length, firstn_length, repeat_length, skipn_length. lia. Qed.
Definition apply_writes (ws : list (nat * bytes)) (d : bytes) : bytes := fold_left (fun d x => write_at d (fst x) (snd x)) ws d.
Lemma nth_writes k : forall ws d, nth k (apply_writes ws d) x00 = byte_after ws k (nth k d x00).
Proof.
  induction ws as [|[o b] ws IH]; intros d; [reflexivity|]. unfold apply_writes, byte_after in *. cbn [fold_left]. rewrite IH. cbn [fst snd].
  rewrite nth_write. reflexivity.
Qed.
Lemma length_writes : forall ws d, List.length (apply_writes ws d) = size_after ws (List.length d).
Proof.
  induction ws as [|[o b] ws IH]; intros d; [reflexivity|]. unfold apply_writes, size_after in *. cbn [fold_left]. rewrite IH. cbn [fst snd].
  rewrite length_write. destruct b; reflexivity.
Qed.
Lemma after_wrote s m r i d : after_write s m r i d = match wrote s m r i with Some (o, b) => write_at d o b | None => d end.
Proof.
  destruct m; try reflexivity. unfold after_write, wrote. destruct r as [[e|a]|]; try reflexivity.
  destruct (node_of s (Twrite_OFID p)) as [j|]; [|reflexivity]. destruct (j =? i); reflexivity.
Qed.
Theorem contents_history c i : forall ms s, wf (snd s) -> i < w_next (snd s) -> undisturbed c ms s i ->
  let s' := last_state c ms s in
  wf (snd s') /\ i < w_next (snd s') /\ data (snd s') i = apply_writes (writes c ms s i) (data (snd s) i).
Proof.
  induction ms as [|m ms IH]; intros s Hw Hi Hu; cbn [last_state writes]; [split; [exact Hw|]; split; [exact Hi|reflexivity]|].
  cbn [undisturbed] in Hu. destruct Hu as (Hn & Ho & Hu). destruct (run1 c m s) as [[r s'] tr] eqn:E. cbn [fst snd] in Hu.
  pose proof (contents_step _ _ _ _ _ _ _ Hw Hi Ho E Hn) as Hd. apply run1_spec in E as [_ E]. apply follows_wf in E as [A B]; [|exact Hw].
  destruct (IH s' A ltac:(lia) Hu) as (P & Q & R). split; [exact P|]. split; [exact Q|]. rewrite R, Hd, after_wrote.
  unfold apply_writes. rewrite fold_left_app. destruct (wrote s m r i) as [[o b]|]; reflexivity.
Qed.
Lemma read_contents c fid o n (s : table * world) b s' tr f i : o < 18446744073709551616 -> fst s fid = Some f -> N.land (QID_Type (f_QID f)) QTDIR = 0 -> node_of s fid = Some i ->
  run1 c (MTread (mkTreadPkt fid o n)) s = (Some (inr (MRread (mkRreadPkt b))), s', tr) ->
  (0 <= n)%Z /\ s' = s /\ b = slice (data (snd s) i) (N.to_nat o) (Z.to_nat n).
Proof.
  intros Ho Hf Hq Hi H. destruct s as [u w], s' as [u' w']. apply run1_spec in H as [H Hw]. cbn [fst snd] in *.
  pose proof (file_read _ _ _ _ _ _ _ _ _ Hf Hq H) as (Hn & -> & h & e & Hh & Hc & He). rewrite Hc in Hw. cbn [follows is_table ev_op ev_ret] in Hw.
  destruct Hw as [Hx ->]. unfold node_of, held in Hi. cbn [fst snd] in Hi. rewrite Hf, Hh in Hi.
  cbn [mem_os] in Hx |- *. unfold os_readat in Hx |- *. destruct (w_files w h) as [g|]; [|discriminate]. injection Hi as <-.
  destruct (negb (o_read g)); [injection Hx as -> ->; destruct He; discriminate|].
  destruct (n_dir _); [injection Hx as -> ->; destruct He; discriminate|].
  destruct (Z.ltb_spec (i64 o) 0); [injection Hx as -> ->; destruct He; discriminate|].
  injection Hx as -> _. split; [lia|]. split; [reflexivity|]. unfold data. rewrite i64_small by assumption. rewrite Z_N_nat. f_equal. rewrite <- Z_N_nat, N2Z.id. reflexivity.
Qed.
(** Reading after any requests. *)
Theorem read_after_writes c ms s i fid o n b s2 tr f : wf (snd s) -> i < w_next (snd s) -> undisturbed c ms s i ->
  let s1 := last_state c ms s in
  fst s1 fid = Some f -> N.land (QID_Type (f_QID f)) QTDIR = 0 -> node_of s1 fid = Some i -> o < 18446744073709551616 ->
  run1 c (MTread (mkTreadPkt fid o n)) s1 = (Some (inr (MRread (mkRreadPkt b))), s2, tr) ->
  let old := data (snd s) i in
  List.length b = Nat.min (Z.to_nat n) (size_after (writes c ms s i) (List.length old) - N.to_nat o) /\
  (forall k, (k < List.length b)%nat -> nth k b x00 = byte_after (writes c ms s i) (N.to_nat o + k) (nth (N.to_nat o + k) old x00)) /\
  s2 = s1.
Proof.
  intros Hw Hi Hu s1 Hf Hq Hn Ho H old. destruct (contents_history c i ms s Hw Hi Hu) as (_ & _ & Hd). subst s1 old.
  destruct (read_contents _ _ _ _ _ _ _ _ _ _ Ho Hf Hq Hn H) as (_ & Hs & Hb). rewrite Hd in Hb. subst b. unfold slice.
  split; [rewrite firstn_length, skipn_length, length_writes; reflexivity|]. split; [|exact Hs].
  intros k Hk. rewrite firstn_length in Hk. rewrite nth_firstn by lia. rewrite nth_skipn. apply nth_writes.
Qed.
(** Reading back what was written last. *)
Lemma write_back d o b : slice (write_at d o b) o (List.length b) = b.
Proof.
  destruct b as [|x b]; [reflexivity|]. unfold slice, write_at. set (bb := x :: b).
  assert (L1 : List.length (firstn o d ++ repeat x00 (o - List.length d)) = o) by (rewrite app_length, firstn_length, repeat_length; lia).
  rewrite app_assoc. rewrite <- L1 at 1. rewrite skipn_app, skipn_all, Nat.sub_diag. cbn [app skipn]. rewrite firstn_app, firstn_all, Nat.sub_diag. apply app_nil_r.
Qed.

(** * Create *)
Lemma find_name_cons p i l q : find_name ((p, i) :: l) q = if bytes_eqb q p then Some i else find_name l q.
Proof. reflexivity. Qed.
Lemma lookup_add w p n q : lookup (add_node w p n) q = if bytes_eqb q p then Some (w_next w) else lookup w q.
Proof. reflexivity. Qed.
Lemma create_new c fid name perm mode (s : table * world) a s' tr f : fst s fid = Some f ->
  run1 c (MTcreate (mkTcreatePkt fid name perm mode)) s = (Some (inr a), s', tr) ->
  let n := Join (f_fullName f) name in lookup (snd s) n = None ->
  let i := w_next (snd s) in
  lookup (snd s') n = Some i /\ (forall q, q <> n -> lookup (snd s') q = lookup (snd s) q) /\
  n_dir (w_nodes (snd s') i) = negb (N.land perm DMDIR =? 0) /\ n_mode (w_nodes (snd s') i) = N.land perm 511 /\ data (snd s') i = [] /\
  (exists g, fst s' fid = Some g /\ f_fullName g = n /\ QID_Path (f_QID g) = i /\ f_file f = None /\
     a = MRcreate (mkRcreatePkt (f_QID g) 8000)) /\
  node_of s' fid = (if N.land perm DMDIR =? 0 then Some i else None) /\
  is_dir (snd s) (Dirname n) = true.
Proof.
  intros Hf H n Hl i. destruct s as [u w], s' as [u' w']. apply run1_spec in H as [H Hw]. cbn [fst snd] in *.
  destruct (create_semantics _ _ _ _ _ _ _ _ _ H) as (f' & fi & Hf' & Hn & -> & X). assert (f' = f) by congruence; subst f'. clear Hf'. fold n in X.
  destruct (N.land perm DMDIR =? 0) eqn:Ep.
  - destruct X as (h & flags & Hc & _ & _ & Ht & ->). rewrite Ht in Hw. cbn [follows is_table ev_op ev_ret] in Hw. destruct Hw as (Ho & Hs & Hw).
    cbn [mem_os] in Ho, Hs, Hw. unfold os_open in Ho, Hs, Hw. rewrite Hl, Hc in Ho, Hs, Hw. cbn [N.eqb O_CREATE] in Ho, Hs, Hw.
    destruct (is_dir w (Dirname n)) eqn:Ed; [|discriminate Ho]. cbn [negb] in Ho, Hs, Hw. cbn [open_ fst snd] in Ho, Hs, Hw. injection Ho as Ho. subst h w'.
    cbn [snd]. set (w1 := mkWorld _ _ _ _ _ _) in *.
    assert (Hl1 : forall q, lookup w1 q = if bytes_eqb q n then Some (w_next w) else lookup w q) by reflexivity.
    assert (Hln : lookup w1 n = Some i) by (rewrite Hl1; destruct (bytes_eqb_spec n n); [reflexivity|congruence]).
    rewrite Hln in Hs. injection Hs as Hs.
    assert (Hnode : w_nodes w1 i = mkNode false (N.land perm 511) [] (w_now w) (w_now w)) by apply upd_same.
    split; [exact Hln|]. split; [intros q Hq; rewrite Hl1; destruct (bytes_eqb_spec q n); [congruence|reflexivity]|].
    unfold data. rewrite Hnode. split; [reflexivity|]. split; [reflexivity|]. split; [reflexivity|].
    split; [|split; [|reflexivity]].
    + eexists. split; [apply set_fid_same|]. cbn [f_fullName f_QID]. split; [reflexivity|]. split; [rewrite Hs; reflexivity|]. split; [exact Hn|reflexivity].
    + unfold node_of, held. cbn [fst snd]. rewrite set_fid_same. cbn [f_file]. unfold w1. cbn. rewrite upd_same. reflexivity.
  - destruct X as (x & Ht & ->). rewrite Ht in Hw. cbn [follows is_table ev_op ev_ret] in Hw. destruct Hw as (Ho & Hs & Hw).
    cbn [mem_os] in Ho, Hs, Hw. unfold os_mkdir in Ho, Hs, Hw. rewrite Hl in Ho, Hs, Hw.
    destruct (is_dir w (Dirname n)) eqn:Ed; cbn [negb fst snd] in Ho, Hs, Hw; [|rewrite Hl in Hs; discriminate Hs]. subst w'. cbn [snd]. set (w1 := add_node _ _ _) in *.
    assert (Hl1 : forall q, lookup w1 q = if bytes_eqb q n then Some (w_next w) else lookup w q) by reflexivity.
    assert (Hln : lookup w1 n = Some i) by (rewrite Hl1; destruct (bytes_eqb_spec n n); [reflexivity|congruence]).
    rewrite Hln in Hs. injection Hs as Hs.
    assert (Hnode : w_nodes w1 i = mkNode true (N.land perm 511) [] (w_now w) (w_now w)) by apply upd_same.
    split; [exact Hln|]. split; [intros q Hq; rewrite Hl1; destruct (bytes_eqb_spec q n); [congruence|reflexivity]|].
    unfold data. rewrite Hnode. split; [reflexivity|]. split; [reflexivity|]. split; [reflexivity|].
    split; [|split; [|reflexivity]].
    + eexists. split; [apply set_fid_same|]. cbn [f_fullName f_QID]. split; [reflexivity|]. split; [rewrite Hs; reflexivity|]. split; [exact Hn|reflexivity].
    + unfold node_of, held. cbn [fst snd]. rewrite set_fid_same. reflexivity.
Qed.
(** Over an existing name. *)
Lemma create_over c fid name perm mode (s : table * world) a s' tr f i : fst s fid = Some f ->
  run1 c (MTcreate (mkTcreatePkt fid name perm mode)) s = (Some (inr a), s', tr) ->
  lookup (snd s) (Join (f_fullName f) name) = Some i ->
  if N.land perm DMDIR =? 0 then data (snd s') i = [] /\ (forall q, lookup (snd s') q = lookup (snd s) q) /\ n_dir (w_nodes (snd s) i) = false
  else snd s' = snd s.
Proof.
  intros Hf H Hl. destruct s as [u w], s' as [u' w']. apply run1_spec in H as [H Hw]. cbn [fst snd] in *.
  destruct (create_semantics _ _ _ _ _ _ _ _ _ H) as (f' & fi & Hf' & Hn & -> & X). assert (f' = f) by congruence; subst f'. clear Hf'.
  destruct (N.land perm DMDIR =? 0) eqn:Ep.
  - destruct X as (h & flags & Hc & Hr & _ & Ht & ->). rewrite Ht in Hw. cbn [follows is_table ev_op ev_ret] in Hw. destruct Hw as (Ho & _ & Hw).
    cbn [mem_os] in Ho, Hw. unfold os_open in Ho, Hw. rewrite Hl in Ho, Hw.
    assert (Hfl : flags =? 0 = false) by (apply N.eqb_neq; intros ->; discriminate Hc). rewrite Hfl in Ho, Hw. cbn [negb] in Ho, Hw. rewrite andb_true_r in Ho, Hw.
    destruct (n_dir (w_nodes w i)) eqn:Ed; [discriminate Ho|]. rewrite Hr in Hw. cbn [O_TRUNC N.eqb negb open_ snd] in Hw. subst w'. split; [|split; [intros q|]; reflexivity].
    unfold data. cbn. rewrite upd_same. reflexivity.
  - destruct X as (x & Ht & ->). rewrite Ht in Hw. cbn [follows is_table ev_op ev_ret] in Hw. destruct Hw as (Ho & _ & Hw).
    cbn [mem_os snd] in Hw. unfold os_mkdir in Hw. rewrite Hl in Hw. exact Hw.
Qed.

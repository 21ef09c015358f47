(** The goroutines of a Listener followed through the text of server.go. *)
From Verif Require Import Base GoBuf GoSyntax Ufs GoRun GoFmt GoProg GoWp Listener ServerRun ServerRunLemmas LisConc LisRun LisRunLemmas.
From Verif Require ClientRun ListenerRun ListenerRunLemmas.
From Coq Require String Ascii.

Notation accept_at := ListenerRunLemmas.accept_at.
Notation accept_body := ListenerRunLemmas.accept_body.
Notation close_body := ListenerRunLemmas.close_body.
Notation close_kont := ListenerRunLemmas.close_kont.
Notation v_empty := ListenerRun.v_empty.
Section Text.
Context (Li : N) (is_net : bytes -> bool) (cn : N) (ad : bytes) (tra : value).
Notation cr := (VObj (str "NsCreator") cn).
Notation LIB := (lib is_net).
Notation MU := (v_mu Li).
(** The head of the loop of Serve. *)
Definition at_loop (p : pos) (m : machine) : Prop := exists ln d, d <= 1000000000 /\ p = Waiting ln d /\ m = accept_at Li ln (Z.of_N d).
Notation one := (one Li is_net cr ad tra).
Notation cwp := (cwp Li is_net cr ad tra at_loop).
Notation v_l := (v_l cr ad tra).
Notation guards := (guards Li cr ad tra).
Definition cres h K p (r : res) : Prop :=
  match r with
  | Next m => cwp h K p m
  | Branch b m m' => cwp h K p (if b then m else m')
  | Split [] m _ => cwp h K p m
  | Split (v :: l) _ m => cwp h K p (m v l)
  | Maybe (Some v) m => cwp h K p (m v)
  | r => forall m, step P m = r -> one cwp h K p m
  end.
Lemma c_step h K p m : cres h K p (step P m) -> one cwp h K p m.
Proof.
  intros H. destruct (step P m) as [m1|b m1 m2|[|v l] m1 m2|[v|] f|r m1|vs| |w] eqn:E; cbn [cres] in H; try (eapply o_quiet; [rewrite E; reflexivity|exact H]); exact (H m E).
Qed.
Lemma c_adv' kn n h K p m r : adv P kn (S n) m = r -> cres h K p r -> one cwp h K p m.
Proof.
  revert m. induction n as [|n IH]; intros m E H; apply c_step.
  - cbn [adv] in E. destruct (step P m) eqn:Es; try (subst r; exact H). destruct (stops kn m0); subst r; exact H.
  - change (match step P m with Next m => if stops kn m then Next m else adv P kn (S n) m | r => r end = r) in E. destruct (step P m) eqn:Es; try (subst r; exact H). destruct (stops kn m0); [subst r; exact H|]. cbn. apply c_one. eapply IH; eauto.
Qed.
Lemma c_adv kn n h K p m r : adv P kn (S n) m = r -> cres h K p r -> cwp h K p m.
Proof. intros. apply c_one. eapply c_adv'; eassumption. Qed.
Lemma c_return h K p vs k e e' d' : cwp h K p (mkM (CV vs) k e' d') -> cwp h K p (mkM (CRet vs) (KFun e' d' :: k) e []).
Proof. intros H. apply c_one, c_step. exact H. Qed.
Lemma a_fixed h K p f v m : (forall mp, get_path [SF f] (v_l mp) = Some v) -> cwp h K p (resume m [v]) -> cres h K p (Ask (RLoad Li [SF f]) m).
Proof. intros H1 H2 m0 E. eapply o_fixed; eassumption. Qed.
Lemma a_load h K p a q w v m : In (a, w) K -> get_path q w = Some v -> cwp h K p (resume m [v]) -> cres h K p (Ask (RLoad a q) m).
Proof. intros H1 H2 H3 m0 E. eapply o_load; eassumption. Qed.
Lemma a_lib h K p r vs m : (forall s, answer LIB r s = Answer vs s) -> match r with RExt _ _ | RChan _ => True | _ => False end -> cwp h K p (resume m vs) -> cres h K p (Ask r m).
Proof. intros H1 H2 H3 m0 E. eapply o_lib; eassumption. Qed.
Lemma a_new h K p v m : private v -> (forall a, (forall b w, In (b, w) K -> b <> a) -> a <> Li -> cwp h ((a, v) :: K) p (resume m [VPtr (type_of v) a []])) -> cres h K p (Ask (RNew v) m).
Proof. intros H1 H2 m0 E. eapply o_new; eassumption. Qed.
Lemma a_mapnew st K p d m : (forall a, (forall b w, In (b, w) K -> b <> a) -> a <> Li -> cwp (Some st) ((a, VMap d (fun _ => None)) :: K) p (resume m [VPtr [] a []])) -> cres (Some st) K p (Ask (RMapNew d) m).
Proof. intros H m0 E. eapply o_mapnew; try eassumption. discriminate. Qed.
Lemma a_store st K K' p mp b m : In (Li, v_l mp) K -> changed K K' Li (v_l (VPtr [] b [])) -> cwp (Some st) K' p (resume m []) -> cres (Some st) K p (Ask (RStore Li [SF (str "listeners")] (VPtr [] b [])) m).
Proof. intros H1 H2 H3 m0 E. eapply o_store; try eassumption. discriminate. Qed.
Lemma a_set st K K' p a d t k v m : In (a, VMap d t) K -> changed K K' a (VMap d (put_key t k (Some v))) -> cwp (Some st) K' p (resume m []) -> cres (Some st) K p (Ask (RMapSet a k v) m).
Proof. intros H1 H2 H3 m0 E. eapply o_set; try eassumption. discriminate. Qed.
Lemma a_del st K K' p a d t k m : In (a, VMap d t) K -> changed K K' a (VMap d (put_key t k None)) -> cwp (Some st) K' p (resume m []) -> cres (Some st) K p (Ask (RMapDel a k) m).
Proof. intros H1 H2 H3 m0 E. eapply o_del; try eassumption. discriminate. Qed.
Lemma a_keys st K p a d t m : In (a, VMap d t) K -> (exists od, NoDup od /\ forall k, In k od <-> t k <> None) ->
  (forall od, NoDup od -> (forall k, In k od <-> t k <> None) -> cwp (Some st) K p (resume m [VList (map v_net od)])) -> cres (Some st) K p (Ask (RMapKeys a) m).
Proof. intros H1 H2 H3 m0 E. eapply o_keys; try eassumption. discriminate. Qed.
Lemma a_lock K p p' m : (forall S, p_next S p ELock = Some (p', S)) -> (forall S K0, guards S K0 -> cwp (Some S) K0 p' (resume m [])) ->
  cres None K p (Ask (RExt (str "sync.Mutex.Lock") [MU]) m).
Proof. intros H1 H2 m0 E. eapply o_lock; try eassumption. reflexivity. Qed.
Lemma a_unlock st K K0 p p' S' m : p_next st p EUnlock = Some (p', S') -> guards S' K0 -> incl K0 K -> cwp None [] p' (resume m []) ->
  cres (Some st) K p (Ask (RExt (str "sync.Mutex.Unlock") [MU]) m).
Proof. intros H1 H2 H3 H4 m0 E. eapply o_unlock; try eassumption. reflexivity. Qed.
Lemma a_accept K ln d m : (forall r, exists p', p_next [] (Waiting ln d) (EAccept ln r) = Some (p', []) /\ cwp None K p' (resume m (accept_v r))) ->
  cres None K (Waiting ln d) (Ask (RExt (str "net.Listener.Accept") [v_net ln]) m).
Proof.
  intros H m0 E. eapply o_accept; [eassumption|]. intros r. destruct (H r) as (p' & A & B). exists p', None. split; [|exact B]. split; [|reflexivity].
  intros st. cbn [p_next] in A |- *. rewrite N.eqb_refl in A |- *. injection A as <-. reflexivity.
Qed.
Lemma a_closing K ln e m : (forall r, cwp None K (Ending (Some e)) (resume m [err_v r])) -> cres None K (Closing ln e) (Ask (RExt (str "net.Listener.Close") [v_net ln]) m).
Proof. intros H m0 E. eapply o_close; [eassumption|]. intros r. eexists _, None. split; [split; [intros; cbn; rewrite N.eqb_refl; reflexivity|reflexivity]|apply H]. Qed.
Lemma a_shutting st K ln err m : In (N.to_nat ln) st -> (forall r, cwp (Some (untrack st (N.to_nat ln))) K (Shutting (first_of err r)) (resume m [err_v r])) ->
  cres (Some st) K (Shutting err) (Ask (RExt (str "net.Listener.Close") [v_net ln]) m).
Proof. intros Hi H m0 E. eapply o_close; [eassumption|]. intros r. eexists _, _. split; [exists (untrack st (N.to_nat ln)); split; [cbn; destruct in_dec; [reflexivity|contradiction]|reflexivity]|apply H]. Qed.
Lemma a_sleep K ln d w z m : z = Z.of_N d -> cwp None K (Waiting ln d) (resume m []) -> cres None K (Sleeping ln d) (Ask (RExt (str "time.Sleep") [VI w z]) m).
Proof. intros -> H m0 E. eapply o_sleep; [eassumption| |exact H]. split; [intros; cbn; rewrite N2Z.id, N.eqb_refl; reflexivity|reflexivity]. Qed.
Lemma a_go K ln c t a v k m : In (a, v) K -> get_path [SF (str "rwc")] v = Some (VObj k c) -> cwp None K (Waiting ln 0) (resume m []) ->
  cres None K (Starting ln c) (Ask (RGo (FUser (str "conn.serve") [VPtr t a []]) []) m).
Proof. intros H1 H2 H3 m0 E. eapply o_go; try eassumption. split; [intros; cbn; rewrite N.eqb_refl; reflexivity|reflexivity]. Qed.
Lemma a_ret K r v : err_of_v v = Some r -> cres None K (Ending r) (Ret [v]).
Proof. intros H m0 E. eapply o_ret; eauto. Qed.
End Text.
Definition kn : list bytes := [str "Listener.trackListener"; str "Listener.logf"].
Ltac machine_delta ::=
  lazy beta iota zeta delta [kn adv step stops start fst snd
    resume stuck mapkey as_nat as_z bound foreign qualified is_path builtins named method_of has_field GoRun.bind pairs keys_of
    unboxed1 unboxed default_case zip defines lookup assign declare part
    basic_ints type_name int_of int_type zero_of zero type_of const_n literal pow2 wle wlt convert unify GoRun.is_nil eqv arith unary
    get_path like set_field set_path assoc also mem beq Byte.eqb Byte.to_bits Bool.eqb andb orb
    p_funcs p_types p_consts p_vars protocol_program ctl stk GoRun.env dfr f_name f_recv f_params f_body
    str String.list_byte_of_string String.list_ascii_of_string Ascii.byte_of_ascii Byte.of_bits map hd tl values_of first1
    v_server v_conn v_listener ListenerRun.v_empty answer lib lib_call with_rest with_cell with_new cells free rest
    ListenerRunLemmas.accept_at ListenerRunLemmas.accept_body ListenerRunLemmas.close_body ListenerRunLemmas.close_kont v_l begin v_net err_v accept_v].
Ltac known_cell := solve [cbn [In]; eauto].
Ltac chg := intros ? ? Hin; cbn [In] in Hin |- *; repeat (destruct Hin as [Hin|Hin]; [injection Hin as <- <-; first [left; split; reflexivity | right; split; [congruence|auto]]|]); destruct Hin.
Ltac cask :=
  lazymatch goal with
  | |- cres _ _ _ _ _ _ _ _ (Next _) => cbv beta iota delta [cres]
  | |- cres _ _ _ _ _ _ _ _ (Split _ _ _) => cbv beta iota delta [cres]
  | |- cres ?x1 ?x2 ?x3 ?x4 ?x5 ?h ?K ?p (Branch ?b ?m ?m') =>
      let b' := eval lazy beta iota delta [negb bounds_ok andb Z.leb Z.ltb Z.eqb Z.compare Pos.compare Pos.compare_cont Z.of_N Z.to_N blen N.of_nat List.length Pos.of_succ_nat Pos.succ] in b in
      let b' := lazymatch b' with true => b' | false => b' | _ => let c := eval cbn [negb] in b in c end in
      lazymatch b' with
      | true => change (cres x1 x2 x3 x4 x5 h K p (Branch true m m'))
      | false => change (cres x1 x2 x3 x4 x5 h K p (Branch false m m'))
      | _ => try match goal with X : b' = true |- _ => change b with b'; rewrite X | X : b' = false |- _ => change b with b'; rewrite X end
      end; cbv beta iota delta [cres]
  | |- cres _ _ _ _ _ _ _ _ (Ask (RLoad _ _) _) =>
      first [eapply a_fixed; [intros; machine_delta; reflexivity |]
            |eapply a_load; [known_cell | machine_delta; reflexivity |]]
  | |- cres _ _ _ _ _ _ _ _ (Ask (RNew _) _) => let a := fresh "a" in let H := fresh "Ha" in let H1 := fresh "Hl" in eapply a_new; [eexists _, _; split; [reflexivity|discriminate]|intros a H H1]
  | |- cres _ _ _ _ _ _ _ _ (Ask (RExt _ _) _) => first [eapply a_lib; [intros; machine_delta; reflexivity | exact I |] | idtac]
  | |- cres _ _ _ _ _ _ _ _ (Ask (RChan _) _) => eapply a_lib; [intros; machine_delta; reflexivity | exact I |]
  | |- _ => idtac
  end.
Ltac cgo1 := eapply (c_adv _ _ _ _ _ kn 400); [machine_delta; constructed|]; cask.
Ltac cgo2 :=
  lazymatch goal with
  | |- cwp _ _ _ _ _ _ _ _ _ ?m =>
      lazymatch m with
      | mkM (CRet _) (KFun _ _ :: _) _ [] => apply c_return
      | mkM _ ?k _ _ => tryif is_var k then fail else let b := eval lazy in (stops kn m) in lazymatch b with false => cgo1 end
      | resume _ ?vs => evaluated vs; cgo1
      end
  end.
Ltac cgo := repeat cgo2.
Ltac cfork E := lazymatch goal with |- cwp _ _ _ _ _ _ _ _ _ (if ?b then _ else _) => destruct b eqn:E end.
Ltac csee :=
  lazymatch goal with
  | |- cwp _ _ _ _ _ _ ?h ?kk ?p (if ?b then _ else _) => idtac "SEE branch" b
  | |- cwp _ _ _ _ _ _ ?h ?kk ?p (mkM ?c ?k ?e _) => idtac "SEE at" c "ENV" e h kk p; match k with ?x :: _ => idtac "STACK" x | _ => idtac k end
  | |- cwp _ _ _ _ _ _ ?h ?kk ?p (resume (mkM ?c ?k ?e _) ?v) => idtac "SEE answer" v "ENV" e h kk p; match k with ?x :: _ => idtac "STACK" x | _ => idtac k end
  | |- cres _ _ _ _ _ _ _ _ (Ask ?r _) => idtac "SEE ask" r
  | |- cres _ _ _ _ _ _ _ _ (Stuck ?r) => idtac "SEE stuck" r
  | |- ?g => idtac "SEE" g
  end.
Section Follow.
Context (Li : N) (is_net : bytes -> bool) (cn : N) (ad : bytes) (tra : value) (Ht : is_trace tra).
Notation cr := (VObj (str "NsCreator") cn).
Notation cwp := (cwp Li is_net cr ad tra (at_loop Li)).
Notation v_l := (v_l cr ad tra).
Notation guards := (guards Li cr ad tra).
Lemma tab_track t st ln : tab_of t st -> tab_of (put_key t ln (Some v_empty)) (track st (N.to_nat ln)).
Proof. exact (ListenerRunLemmas.keys_track t st ln). Qed.
Lemma tab_untrack t st ln : tab_of t st -> tab_of (put_key t ln None) (untrack st (N.to_nat ln)).
Proof. exact (ListenerRunLemmas.keys_untrack t st ln). Qed.
Lemma track_follows ln (add : bool) p p1 p2 k e d : (forall S, p_next S p ELock = Some (p1, S)) ->
  (forall S, p_next S p1 EUnlock = Some (p2, if add then track S (N.to_nat ln) else untrack S (N.to_nat ln))) ->
  cwp None [] p2 (mkM (CV []) k e d) ->
  cwp None [] p (mkM (CApply (FUser (str "Listener.trackListener") [VPtr (str "Listener") Li []]) false Now [VObj (str "net.Listener") ln; VBool add]) k e d).
Proof.
  intros H1 H2 H. cgo1; cgo. eapply a_lock; [exact H1|]. intros st K0 [(-> & ->)|(a & t & Ha & -> & Htab)]; cgo.
  - assert (Htab : tab_of (fun _ => None) []) by (intros k0; destruct in_dec as [[]|]; reflexivity).
    eapply a_mapnew. intros a Hf Ha. cgo. apply (a_store _ _ _ _ _ _ _ [(Li, v_l (VPtr [] a [])); (a, VMap v_empty (fun _ => None))] _ VNil); [known_cell|chg|]. cgo. destruct add; cgo.
    + apply (a_set _ _ _ _ _ _ _ [(Li, v_l (VPtr [] a [])); (a, VMap v_empty (put_key (fun _ => None) ln (Some v_empty)))] _ _ v_empty (fun _ => None)); [known_cell|chg|]. cgo.
      eapply a_unlock; [apply H2| |apply incl_refl|].
      * right. eexists a, _. split; [exact Ha|]. split; [reflexivity|]. apply tab_track; exact Htab.
      * cgo. apply H.
    + apply (a_del _ _ _ _ _ _ _ [(Li, v_l (VPtr [] a [])); (a, VMap v_empty (put_key (fun _ => None) ln None))] _ _ v_empty (fun _ => None)); [known_cell|chg|]. cgo.
      eapply a_unlock; [apply H2| |apply incl_refl|].
      * right. eexists a, _. split; [exact Ha|]. split; [reflexivity|]. apply tab_untrack; exact Htab.
      * cgo. apply H.
  - destruct add; cgo.
    + apply (a_set _ _ _ _ _ _ _ [(Li, v_l (VPtr [] a [])); (a, VMap v_empty (put_key t ln (Some v_empty)))] _ _ v_empty t); [known_cell|chg|]. cgo.
      eapply a_unlock; [apply H2| |apply incl_refl|].
      * right. eexists a, _. split; [exact Ha|]. split; [reflexivity|]. apply tab_track; exact Htab.
      * cgo. apply H.
    + apply (a_del _ _ _ _ _ _ _ [(Li, v_l (VPtr [] a [])); (a, VMap v_empty (put_key t ln None))] _ _ v_empty t); [known_cell|chg|]. cgo.
      eapply a_unlock; [apply H2| |apply incl_refl|].
      * right. eexists a, _. split; [exact Ha|]. split; [reflexivity|]. apply tab_untrack; exact Htab.
      * cgo. apply H.
Qed.
Notation close_at c err := (mkM c (close_kont Li []) [[(str "err", err_v err); (str "l", VPtr (str "Listener") Li [])]] []).
(** server.go:113-122; every listener is closed once. *)
Lemma close_follows a : a <> Li -> forall od t st err, NoDup od -> tab_of t st -> (forall k, In k st <-> In (N.of_nat k) od) -> 
  cwp (Some st) [(Li, v_l (VPtr [] a [])); (a, VMap v_empty t)] (Shutting err) (close_at (CKeys [EId (str "ln")] (map (VObj (str "net.Listener")) od) close_body) err).
Proof.
  intros Ha. induction od as [|n od IH]; intros t st err Hd Htab Hst; cbn [map].
  - assert (st = []) as -> by (destruct st as [|x st]; [reflexivity|]; destruct (proj1 (Hst x) (or_introl eq_refl))).
    apply c_one, c_step. cbn [cres step ctl]. change (cwp (Some []) [(Li, v_l (VPtr [] a [])); (a, VMap v_empty t)] (Shutting err) (close_at CEnd err)).
    destruct err; cgo1; cgo; (eapply a_unlock; [reflexivity|right; eexists a, _; split; [exact Ha|]; split; [reflexivity|exact Htab]|apply incl_refl|]); cgo; (apply a_ret; reflexivity).
  - apply NoDup_cons_iff in Hd as [Hn Hd].
    assert (In (N.to_nat n) st) as Hi by (apply Hst; rewrite N2Nat.id; left; reflexivity).
    assert (IH' : forall err', cwp (Some (untrack st (N.to_nat n))) [(Li, v_l (VPtr [] a [])); (a, VMap v_empty (put_key t n None))] (Shutting err') (close_at (CKeys [EId (str "ln")] (map (VObj (str "net.Listener")) od) close_body) err')).
    { intros err'. apply IH; [exact Hd|apply tab_untrack; exact Htab|]. intros k. rewrite ListenerRunLemmas.in_untrack, Hst. cbn [In]. split; [intros [[A|A] B]; [lia|exact A]|].
      intros A. split; [auto|]. intros ->. rewrite N2Nat.id in A. contradiction. }
    clear IH. unfold close_kont, close_body in *.
    destruct err as [err|]; cgo1; cgo; (apply a_shutting; [exact Hi|]); intros [c|]; cbn [err_v]; cgo;
    (apply (a_del _ _ _ _ _ _ _ [(Li, v_l (VPtr [] a [])); (a, VMap v_empty (put_key t n None))] _ _ v_empty t); [known_cell|chg|]); cgo; exact (IH' (first_of _ _)).
Qed.
(** Every set of keys can be put in an order. *)
Lemma tab_keys t st : tab_of t st -> exists od : list N, NoDup od /\ forall k, In k od <-> t k <> None.
Proof.
  intros H. exists (map N.of_nat (nodup Nat.eq_dec st)). split.
  - apply FinFun.Injective_map_NoDup; [intros x y E; lia|apply NoDup_nodup].
  - intros k. rewrite H, in_map_iff. split.
    + intros (x & <- & Hx). apply nodup_In in Hx. rewrite Nat2N.id. destruct in_dec; [discriminate|contradiction].
    + intros Hk. destruct in_dec as [Hi|]; [|contradiction]. exists (N.to_nat k). rewrite N2Nat.id, nodup_In. auto.
Qed.
(** server.go:174-179 *)
Lemma shutdown_follows : cwp None [] ShutWait (begin Li TShutdown).
Proof.
  cgo1; cgo. eapply (a_lock _ _ _ _ _ _ _ (Shutting None)); [reflexivity|]. intros st K0 [(-> & ->)|(a & t & Ha & -> & Htab)]; cgo.
  - eapply a_unlock; [reflexivity|left; auto|apply incl_refl|]. cgo. apply a_ret. reflexivity.
  - eapply a_keys; [known_cell|eapply tab_keys; exact Htab|]. intros od Hd Hod. cgo1. apply (close_follows a Ha od t st None Hd Htab). intros k. rewrite Hod, Htab, Nat2N.id. destruct in_dec; split; intros; congruence.
Qed.
(** server.go:185-189 *)
Lemma logf_follows p f vs k e d : cwp None [] p (mkM (CV []) k e d) ->
  cwp None [] p (mkM (CApply (FUser (str "Listener.logf") [VPtr (str "Listener") Li []]) false Now (VStr f :: vs)) k e d).
Proof. intros H. cgo1. cgo. destruct Ht as [->|(n & ->)]; cgo; apply H. Qed.
(** server.go:125-158 *)
Lemma loop_follows p m : at_loop Li p m -> one Li is_net cr ad tra cwp None [] p m.
Proof.
  intros (ln & d & Hd & -> & ->). eapply (c_adv' _ _ _ _ _ kn 400); [machine_delta; constructed|]. cask. apply a_accept. intros [c| |err].
  - eexists. split; [cbn; rewrite N.eqb_refl; reflexivity|]. cbn [accept_v]. cgo. eapply a_go; [known_cell|machine_delta; reflexivity|]. cgo.
    eapply c_weak; [|apply c_loop; exists ln, 0; split; [lia|]; split; [reflexivity|reflexivity]]. intros ? [].
  - eexists. split; [cbn [p_next]; rewrite N.eqb_refl; reflexivity|]. cbn [accept_v].
    assert (Hd2 : next_delay d <= 1000000000) by (unfold next_delay; destruct (N.ltb_spec 1000000000 (if d =? 0 then 5000000 else d * 2)); lia).
    assert (K : cwp None [] (Waiting ln (next_delay d)) (accept_at Li ln (Z.of_N (next_delay d)))) by (apply c_loop; exists ln, (next_delay d); auto).
    cgo. cfork E1; cgo; rewrite ?(swrap64 (1 * 1000000000)) in * by lia.
    + assert (d = 0) as -> by lia. change (swrap 64 (5 * 1000000)) with 5000000%Z in *. change (1 * 1000000000 <? 5000000)%Z with false. cbv iota. cgo. apply logf_follows. cgo. apply a_sleep; [reflexivity|]. cgo. exact K.
    + rewrite swrap64 by lia. unfold next_delay in *. destruct (N.eqb_spec d 0) as [->|Hz]; [discriminate|].
      cfork E2; cgo; apply logf_follows; cgo; (destruct (N.ltb_spec 1000000000 (d * 2)); [|]; try lia).
      * apply a_sleep; [reflexivity|]. cgo. exact K.
      * assert (Ez2 : (Z.of_N d * 2)%Z = Z.of_N (d * 2)) by lia. apply a_sleep; [exact Ez2|]. rewrite Ez2. cgo. exact K.
  - eexists. split; [cbn; rewrite N.eqb_refl; reflexivity|]. cbn [accept_v]. cgo.
    destruct (is_net err) eqn:En; cgo; (eapply track_follows; [reflexivity|reflexivity|]); cgo; apply a_closing; intros [e|]; cbn [err_v]; cgo; apply a_ret; reflexivity.
Qed.
Lemma serve_follows ln : cwp None [] (AddWait ln) (begin Li (TServe ln)).
Proof.
  cgo1; cgo. eapply track_follows; [reflexivity|reflexivity|]. cgo. apply c_loop. exists ln, 0. split; [lia|]. split; reflexivity.
Qed.
Lemma begin_follows t : cwp None [] (begins t) (begin Li t).
Proof. destruct t; [apply serve_follows|apply shutdown_follows]. Qed.
End Follow.

(** Following the functions of the Listener in server.go through the machine. *)
From Verif Require Import Base GoBuf GoSyntax Ufs GoRun GoFmt GoProg GoWp Server Listener ListenerLemmas ServerRun ServerRunLemmas ListenerRun.
From Coq Require String Ascii.
From Coq Require Import Permutation.

Definition accept_body : list stmt := Eval vm_compute in
  match assoc (str "Listener.Serve") (p_funcs protocol_program) with
  | Some f => match last (f_body f) SBreak with SFor _ _ _ b => b | _ => [] end
  | None => [] end.
Definition accept_at (Li ln : N) (d : Z) : machine :=
  mkM (CLoop None None accept_body) [KSeq []; KFun [] []] [[(str "tempDelay", VI 64 d); (str "l", VPtr (str "Listener") Li []); (str "ln", VObj (str "net.Listener") ln)]]
    [(FUser (str "Listener.trackListener") [VPtr (str "Listener") Li []], [VObj (str "net.Listener") ln; VBool false]); (FExt (str "net.Listener.Close") [VObj (str "net.Listener") ln], [])].

Ltac machine_delta ::=
  lazy beta iota zeta delta [adv step stops known start fst snd
    resume stuck mapkey as_nat as_z bound foreign qualified is_path builtins named method_of has_field GoRun.bind pairs keys_of
    unboxed1 unboxed default_case zip defines lookup assign declare part
    basic_ints type_name int_of int_type zero_of zero type_of const_n literal pow2 wle wlt convert unify GoRun.is_nil eqv arith unary
    get_path like set_field set_path assoc also mem beq Byte.eqb Byte.to_bits Bool.eqb andb orb
    p_funcs p_types p_consts p_vars protocol_program ctl stk GoRun.env dfr f_name f_recv f_params f_body
    str String.list_byte_of_string String.list_ascii_of_string Ascii.byte_of_ascii Byte.of_bits map hd tl values_of first1
    v_server v_conn v_listener v_empty ListenerRun.listener_call ListenerRun.outside answer ListenerRun.logs err_of temp_error with_rest with_cell with_new cells free rest
    k_accepts k_log k_locked k_order accept_at accept_body].


Lemma in_track m ln k : In k (track m ln) <-> k = ln \/ In k m.
Proof. unfold track. destruct in_dec as [H|H]; cbn [In]; intuition (subst; auto). Qed.
Lemma in_untrack m ln k : In k (untrack m ln) <-> In k m /\ k <> ln.
Proof. unfold untrack. split; [intros H; apply in_remove in H; tauto | intros (H1 & H2); apply in_in_remove; auto]. Qed.
Lemma keys_track t set ln : (forall k, t k = if in_dec Nat.eq_dec (N.to_nat k) set then Some v_empty else None) ->
  forall k, put_key t ln (Some v_empty) k = if in_dec Nat.eq_dec (N.to_nat k) (track set (N.to_nat ln)) then Some v_empty else None.
Proof.
  intros H k. unfold put_key. destruct (N.eqb_spec k ln) as [->|Hk].
  - destruct in_dec as [?|n]; [reflexivity|]. destruct n. apply in_track. auto.
  - rewrite H. destruct in_dec as [i|n], in_dec as [i'|n']; try reflexivity.
    + destruct n'. apply in_track. auto.
    + apply in_track in i'. destruct i'; [lia|contradiction].
Qed.
Lemma keys_untrack t set ln : (forall k, t k = if in_dec Nat.eq_dec (N.to_nat k) set then Some v_empty else None) ->
  forall k, put_key t ln None k = if in_dec Nat.eq_dec (N.to_nat k) (untrack set (N.to_nat ln)) then Some v_empty else None.
Proof.
  intros H k. unfold put_key. destruct (N.eqb_spec k ln) as [->|Hk].
  - destruct in_dec as [i|n]; [|reflexivity]. apply in_untrack in i. tauto.
  - rewrite H. destruct in_dec as [i|n], in_dec as [i'|n']; try reflexivity.
    + destruct n'. apply in_untrack. split; [auto|lia].
    + apply in_untrack in i'. tauto.
Qed.

Section Listen.
Context (closing : N -> option bytes) (is_net : bytes -> bool) (option_does : N -> value -> value * option bytes).
Notation WP := (wp protocol_program (ListenerRun.outside closing is_net option_does)).
Notation store hp nx ac lg lk od := (mkMem hp nx (mkLW ac lg lk od)).
(** The Listener in cell Li has the listeners [set]. *)
Definition has (cr : value) (ad : bytes) (tra : value) (Li : N) (set : list nat) (hp : N -> option value) (nx : N) : Prop :=
  exists mp, hp Li = Some (v_listener cr ad tra mp) /\ Li < nx /\ (forall a, mp = VPtr [] a [] -> a < nx /\ a <> Li) /\ holds_set hp mp set.

Lemma track_runs cr ad tra Li ln (add : bool) set k e d hp nx ac lg od Q : has cr ad tra Li set hp nx ->
  (forall hp' nx', has cr ad tra Li (if add then track set (N.to_nat ln) else untrack set (N.to_nat ln)) hp' nx' ->
     WP (mkM (CV []) k e d) (store hp' nx' ac ((lg ++ [LLock]) ++ [LUnlock]) false od) Q) ->
  WP (mkM (CApply (FUser (str "Listener.trackListener") [VPtr (str "Listener") Li []]) false Now [VObj (str "net.Listener") ln; VBool add]) k e d)
     (store hp nx ac lg false od) Q.
Proof.
  intros (mp & HL & L & Hd & Hs) H. destruct Hs as [(-> & ->)|(a & t & -> & Ha & Ht)].
  - assert (Ht : forall k, (fun _ : N => @None value) k = if in_dec Nat.eq_dec (N.to_nat k) [] then Some v_empty else None) by (intros; destruct in_dec as [[]|]; reflexivity).
    go1. go. destruct add; go; apply H; eexists; (split; [cell|split; [lia|split; [intros a [= <-]; lia | right; eexists _, _; split; [reflexivity|split; [cell|]]]]]).
    + apply keys_track; exact Ht.
    + apply keys_untrack; exact Ht.
  - destruct (Hd a eq_refl) as (La & Na). go1. go. destruct add; go; apply H; eexists; (split; [cell|split; [lia|split; [intros a' [= <-]; lia | right; eexists _, _; split; [reflexivity|split; [cell|]]]]]).
    + apply keys_track; exact Ht.
    + apply keys_untrack; exact Ht.
Qed.

Definition close_body : list stmt := Eval vm_compute in
  match assoc (str "Listener.closeListenersLocked") (p_funcs protocol_program) with
  | Some f => match nth_error (f_body f) 1 with Some (SRange _ _ b) => b | _ => [] end
  | None => [] end.

Definition close_kont (Li : N) (k : list kont) : list kont :=
  KSeq [SReturn [EId (str "err")]] :: KFun [[(str "l", VPtr (str "Listener") Li [])]] [(FExt (str "sync.Mutex.Unlock") [VPtr (str "sync.Mutex") Li [SF (str "mu")]], [])]
  :: KRet :: KSeq [] :: KFun [] [] :: k.
Notation close_at c Li k err := (mkM c (close_kont Li k) [[(str "err", err_of err); (str "l", VPtr (str "Listener") Li [])]] []).
Lemma close_loop_runs cr ad tra a Li k nx ac od0 Q : Li < nx -> a < nx -> a <> Li -> forall od hp t set err lg,
  hp Li = Some (v_listener cr ad tra (VPtr [] a [])) -> hp a = Some (VMap v_empty t) -> (forall k, t k = if in_dec Nat.eq_dec (N.to_nat k) set then Some v_empty else None) ->
  (forall hp' set' closed err', has cr ad tra Li set' hp' nx -> close_loop (map N.to_nat od) (fun n => closing (N.of_nat n)) set err = (set', closed, err') ->
     WP (close_at CEnd Li k err') (store hp' nx ac (lg ++ map (fun n => LClose (N.of_nat n)) closed) true od0) Q) ->
  WP (close_at (CKeys [EId (str "ln")] (map (VObj (str "net.Listener")) od) close_body) Li k err) (store hp nx ac lg true od0) Q.
Proof.
  intros L La Na. induction od as [|n od IH]; intros hp t set err lg HL Ha Ht H; cbn [map].
  - apply wp_step. specialize (H hp set [] err). cbn [map] in H. rewrite app_nil_r in H. refine (H _ eq_refl).
    eexists. split; [eassumption|]. split; [lia|]. split; [intros ? [= <-]; lia|]. right. eauto.
  - assert (IH' := fun hp' err' => IH hp' (put_key t n None) (untrack set (N.to_nat n)) err' (lg ++ [LClose n])). clear IH.
    assert (forall hp' err', 
     hp' Li = Some (v_listener cr ad tra (VPtr [] a [])) -> hp' a = Some (VMap v_empty (put_key t n None)) ->
     err' = (match closing n, err with Some e, None => Some e | _, _ => err end) ->
     WP (close_at (CKeys [EId (str "ln")] (map (VObj (str "net.Listener")) od) close_body) Li k err') (store hp' nx ac (lg ++ [LClose n]) true od0) Q) as K.
    { intros hp' err' B1 B2 B3. apply IH'; [exact B1|exact B2|apply keys_untrack; exact Ht|].
      intros hp2 set2 cl2 err2 C1 C2. rewrite <- app_assoc. cbn [app].
      assert (X := H hp2 set2 (N.to_nat n :: cl2) err2 C1). cbn [map close_loop] in X. rewrite !N2Nat.id in X. apply X. clear X.
      rewrite <- B3. rewrite C2. reflexivity. }
    clear IH' H. unfold close_kont, close_body in *.
    destruct err as [err|]; go1; go; (destruct (closing n) as [c|] eqn:Ec); go; (first [eapply (K _ (Some _)); [cell|cell|reflexivity] | eapply (K _ None); [cell|cell|reflexivity]]).
Qed.
Lemma shutdown_runs cr ad tra Li set k hp nx ac lg od Q : has cr ad tra Li set hp nx -> Permutation (map N.to_nat od) set ->
  (forall hp' set' closed err, has cr ad tra Li set' hp' nx -> close_loop (map N.to_nat od) (fun n => closing (N.of_nat n)) set None = (set', closed, err) ->
     WP (mkM (CV [err_of err]) k [] []) (store hp' nx ac (((lg ++ [LLock]) ++ map (fun n => LClose (N.of_nat n)) closed) ++ [LUnlock]) false od) Q) ->
  WP (mkM (CApply (FUser (str "Listener.Shutdown") [VPtr (str "Listener") Li []]) false Now []) k [] []) (store hp nx ac lg false od) Q.
Proof.
  intros (mp & HL & L & Hd & Hs) P H. destruct Hs as [(-> & ->)|(a & t & -> & Ha & Ht)].
  - apply Permutation_sym, Permutation_nil in P. rewrite P in H. go1; go. specialize (H hp [] [] None). cbn [map] in H. rewrite app_nil_r in H. apply H; [|reflexivity].
    eexists. split; [eassumption|]. split; [lia|]. split; [intros ? [=]|]. left; auto.
  - destruct (Hd a eq_refl) as (La & Na). go1; go.
    eapply (close_loop_runs cr ad tra a Li k nx ac od Q L La Na od hp t set None); try eassumption.
    intros hp' set' cl err' B1 B2. unfold close_kont. assert (exists mp, hp' Li = Some (v_listener cr ad tra mp)) as (mp & HL') by (destruct B1 as (mp & ? & _); eauto).
    destruct err'; go1; go; apply (H _ _ _ _ B1 B2).
Qed.
Lemma llogf_runs cr ad tra mp Li f vs k e d hp nx ac lg lk od Q : is_trace tra -> hp Li = Some (v_listener cr ad tra mp) ->
  WP (mkM (CV []) k e d) (store hp nx ac lg lk od) Q ->
  WP (mkM (CApply (FUser (str "Listener.logf") [VPtr (str "Listener") Li []]) false Now (VStr f :: vs)) k e d) (store hp nx ac lg lk od) Q.
Proof. intros Ht HL H. go1. go. destruct Ht as [->|(n & ->)]; go; apply H. Qed.
Lemma laccept_runs cn ad tra Li set c k e d hp nx ac lg lk od Q : has (VObj (str "NsCreator") cn) ad tra Li set hp nx ->
  (forall hp' nx', has (VObj (str "NsCreator") cn) ad tra Li set hp' nx' ->
     WP (mkM (CV [VNil]) k e d) (store hp' nx' ac (lg ++ [LDo (Start c)]) lk od) Q) ->
  WP (mkM (CApply (FUser (str "Listener.Accept") [VPtr (str "Listener") Li []]) false Now [VObj (str "net.Conn") c]) k e d) (store hp nx ac lg lk od) Q.
Proof.
  intros (mp & HL & L & Hd & Hs) H. go1; go. go1; go. apply H. exists mp. split; [cell|]. split; [lia|]. split; [intros a Ea; specialize (Hd a Ea); lia|].
  destruct Hs as [?|(a & t & Ea & Ha & Ht)]; [left; auto|right]. destruct (Hd a Ea). exists a, t. split; [auto|]. split; [cell|auto].
Qed.

(** How Serve ends: [None] is the stop of the run at an Accept for which there is nothing more. *)
Definition listen_ends (Q : ending -> memory lworld -> Prop) cr ad tra Li set ln lg od (r : list action * option bytes) : Prop :=
  match snd r with
  | None => forall hp nx, has cr ad tra Li set hp nx -> Q Panicked (store hp nx [] (lg ++ map LDo (fst r)) false od)
  | Some e => forall hp nx ac, has cr ad tra Li (untrack set (N.to_nat ln)) hp nx ->
      Q (Returned [VErr (OSErr e)]) (store hp nx ac ((((lg ++ map LDo (fst r)) ++ [LLock]) ++ [LUnlock]) ++ [LClose ln]) false od)
  end.
Lemma listen_more Q cr ad tra Li set ln lg od a acts r : listen_ends Q cr ad tra Li set ln lg od (a :: acts, r) -> listen_ends Q cr ad tra Li set ln (lg ++ [LDo a]) od (acts, r).
Proof.
  unfold listen_ends. cbn [fst snd map]. assert ((lg ++ [LDo a]) ++ map LDo acts = lg ++ LDo a :: map LDo acts) as -> by (rewrite <- app_assoc; reflexivity). exact (fun H => H).
Qed.
Lemma accept_loop_runs cn ad tra Li set ln od Q : is_trace tra -> forall ac d hp nx lg, d <= 1000000000 ->
  has (VObj (str "NsCreator") cn) ad tra Li set hp nx -> listen_ends Q (VObj (str "NsCreator") cn) ad tra Li set ln lg od (accept_loop d ac) ->
  WP (accept_at Li ln (Z.of_N d)) (store hp nx ac lg false od) Q.
Proof.
  intros Ht. induction ac as [|[c| |err] ac IH]; intros d hp nx lg Hd Hh H; cbn [accept_loop] in H.
  - go1; go. unfold listen_ends in H. cbn [fst snd map] in H. rewrite app_nil_r in H. apply H. exact Hh.
  - destruct (accept_loop 0 ac) as [acts r] eqn:Ea. go1; go. eapply laccept_runs; [exact Hh|]. intros hp' nx' Hh'. go.
    apply (IH 0); [lia|exact Hh'|]. rewrite Ea. apply listen_more. exact H.
  - set (d1 := if d =? 0 then 5000000 else d * 2) in H.
    set (d2 := if 1000000000 <? d1 then 1000000000 else d1) in H.
    assert (Hd2 : d2 <= 1000000000) by (unfold d2; destruct (N.ltb_spec 1000000000 d1); lia).
    assert (K : forall hp' nx', has (VObj (str "NsCreator") cn) ad tra Li set hp' nx' -> WP (accept_at Li ln (Z.of_N d2)) (store hp' nx' ac (lg ++ [LDo (Sleep d2)]) false od) Q).
    { intros hp' nx' Hh'. apply IH; [exact Hd2|exact Hh'|]. destruct (accept_loop d2 ac) as [acts r]. apply listen_more. exact H. }
    clear IH H. destruct Hh as (mp & HL & Hr).
    assert (Hh : has (VObj (str "NsCreator") cn) ad tra Li set hp nx) by (exists mp; auto). clear Hr.
    go1; go. fork E1; go; rewrite ?(swrap64 (1 * 1000000000)) in * by lia.
    + assert (d = 0) as -> by lia. change (swrap 64 (5 * 1000000)) with 5000000%Z in *. change (1 * 1000000000 <? 5000000)%Z with false. cbv iota. go. eapply llogf_runs; [exact Ht|exact HL|]. go. apply K. exact Hh.
    + rewrite swrap64 by lia. assert (d1 = d * 2) as Ed1 by (unfold d1; destruct (N.eqb_spec d 0); lia). clearbody d1. subst d1.
      fork E2; go; (eapply llogf_runs; [exact Ht|exact HL|]); go.
      * assert (d2 = 1000000000) as -> by (unfold d2; destruct (N.ltb_spec 1000000000 (d * 2)); lia). apply K. exact Hh.
      * assert (d2 = d * 2) as Ed2 by (unfold d2; destruct (N.ltb_spec 1000000000 (d * 2)); lia). clearbody d2. subst d2.
        assert (Ez : Z.to_N (Z.of_N d * 2) = d * 2) by lia. assert (Ez2 : Z.of_N (d * 2) = (Z.of_N d * 2)%Z) by lia. rewrite Ez. rewrite Ez2 in K. apply K. exact Hh.
  - unfold listen_ends in H. cbn [fst snd map] in H. rewrite app_nil_r in H. go1; go.
    destruct (is_net err) eqn:En; go; (eapply track_runs; [exact Hh|]); intros hp' nx' Hh'; go; destruct (closing ln) eqn:Ec; go; apply H; exact Hh'.
Qed.
(** server.go:125-158 *)
Lemma lserve_runs cn ad tra Li set ln hp nx ac lg od Q : is_trace tra -> has (VObj (str "NsCreator") cn) ad tra Li set hp nx ->
  listen_ends Q (VObj (str "NsCreator") cn) ad tra Li (track set (N.to_nat ln)) ln ((lg ++ [LLock]) ++ [LUnlock]) od (accept_loop 0 ac) ->
  WP (start (str "Listener.Serve") [VPtr (str "Listener") Li []] [VObj (str "net.Listener") ln]) (store hp nx ac lg false od) Q.
Proof.
  intros Ht Hh H. go1; go. eapply track_runs; [eassumption|]. intros hp' nx' Hh'. go. 
  apply (accept_loop_runs cn ad tra Li (track set (N.to_nat ln)) ln od Q Ht ac 0); [lia|exact Hh'|exact H].
Qed.

(** server.go:66-78, with the options applied in order up to the first error *)
Fixpoint options (opts : list N) (v : value) : value + bytes :=
  match opts with
  | [] => inl v
  | o :: opts => match option_does o v with (v, None) => options opts v | (_, Some e) => inr e end
  end.
Definition opt_body : list stmt := Eval vm_compute in
  match assoc (str "NewListener") (p_funcs protocol_program) with
  | Some f => match nth_error (f_body f) 1 with Some (SForRange _ _ _ b) => b | _ => [] end
  | None => [] end.
Lemma option_loop_runs cn ov hp nx ac lg lk od (Q : ending -> memory lworld -> Prop) opts : forall i v hp1, hp1 nx = Some v -> (forall a, a < nx -> hp1 a = hp a) ->
  (match options opts v with
   | inl v => forall hp', hp' nx = Some v -> (forall a, a < nx -> hp' a = hp a) -> Q (Returned [VPtr (str "Listener") nx []; VNil]) (store hp' (nx + 1) ac lg lk od)
   | inr e => forall hp', (forall a, a < nx -> hp' a = hp a) -> Q (Returned [VNil; VErr (OSErr e)]) (store hp' (nx + 1) ac lg lk od)
   end) ->
  WP (mkM (CRange true [EId (str "_"); EId (str "o")] i (map (VObj (str "ListenerOpt")) opts) opt_body) [KSeq [SReturn [EId (str "l"); EId (str "nil")]]; KFun [] []]
        [[(str "l", VPtr (str "Listener") nx []); (str "nsCreator", VObj (str "NsCreator") cn); (str "opts", ov)]] []) (store hp1 (nx + 1) ac lg lk od) Q.
Proof.
  unfold opt_body. induction opts as [|o opts IH]; intros i v hp1 Hv Hf H; cbn [options map] in *.
  - go1; go. apply H; assumption.
  - destruct (option_does o v) as [w [e|]] eqn:Eo.
    + go1; go. apply H. intros a A. rewrite put_other by lia. auto.
    + go1; go. eapply IH; [cell| |exact H]. intros a A. rewrite put_other by lia. auto.
Qed.
Lemma new_listener_runs cn opts hp nx ac lg lk od (Q : ending -> memory lworld -> Prop) :
  (match options opts (v_listener (VObj (str "NsCreator") cn) [] VNil VNil) with
   | inl v => forall hp', hp' nx = Some v -> (forall a, a < nx -> hp' a = hp a) -> Q (Returned [VPtr (str "Listener") nx []; VNil]) (store hp' (nx + 1) ac lg lk od)
   | inr e => forall hp', (forall a, a < nx -> hp' a = hp a) -> Q (Returned [VNil; VErr (OSErr e)]) (store hp' (nx + 1) ac lg lk od)
   end) ->
  WP (mkM (CApply (FUser (str "NewListener") []) true Now [VObj (str "NsCreator") cn; VList (map (VObj (str "ListenerOpt")) opts)]) [] [] []) (store hp nx ac lg lk od) Q.
Proof.
  intros H. go1; go. eapply (option_loop_runs cn _ hp); [cell| |exact H]. intros a A. apply put_other. lia.
Qed.
End Listen.

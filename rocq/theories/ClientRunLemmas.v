(** Following the text of client.go through the machine: each goroutine, from one request that others can notice to the next. *)
From Verif Require Import Base GoBuf CodecPrim Types Codec Rpc GoSyntax Ufs GoRun GoFmt GoProg GoWp Server ServerRun ServerRunLemmas Client ClientLemmas ClientRun.
From Coq Require String Ascii.
Local Opaque NumTags.

Section Leads.
Context (RN : N) (opt : oserr + (value * value * value * N)).
Notation M := (memory nworld).
Notation P := protocol_program.
Notation LIB := (lib RN opt).
(** Requests that change nothing. *)
Definition hidden (r : req) : bool :=
  match r with
  | RLoad _ _ | RVar _ | RMapGet _ _ => true
  | RExt f _ => mem f [str "fmt.Sprintf"; str "log.Printf"; str "Tracer"; str "io.LimitReader"; str "bytes.Buffer.Len"; str "bytes.Buffer.Bytes"; str "io.ReadCloser.Close"]
  | _ => false
  end.
(** However memory changes, as long as I holds of it: from m on, only hidden requests until the machine does something in Q. *)
Inductive leads (I : M -> Prop) (m : machine) (Q : res -> Prop) : Prop :=
| ld_here : Q (step P m) -> leads I m Q
| ld_quiet m' : quiet (step P m) = Some m' -> leads I m' Q -> leads I m Q
| ld_ask r m' f : step P m = Ask r m' -> hidden r = true -> (forall s, I s -> answer LIB r s = Answer (f s) s) -> (forall s, I s -> leads I (resume m' (f s)) Q) -> leads I m Q.
Definition lres (I : M -> Prop) (r : res) (Q : res -> Prop) : Prop :=
  match r with
  | Next m => leads I m Q
  | Branch b m m' => leads I (if b then m else m') Q
  | Split [] m _ => leads I m Q
  | Split (v :: l) _ m => leads I (m v l) Q
  | Maybe (Some v) m => leads I (m v) Q
  | Ask q m => Q r \/ (hidden q = true /\ exists f, (forall s, I s -> answer LIB q s = Answer (f s) s) /\ (forall s, I s -> leads I (resume m (f s)) Q))
  | r => Q r
  end.
Lemma ld_step I m Q : lres I (step P m) Q -> leads I m Q.
Proof.
  intros H. destruct (step P m) eqn:E; cbn [lres] in H.
  - eapply ld_quiet; [rewrite E; reflexivity|exact H].
  - eapply ld_quiet; [rewrite E; reflexivity|exact H].
  - destruct l; (eapply ld_quiet; [rewrite E; reflexivity|exact H]).
  - destruct o; [eapply ld_quiet; [rewrite E; reflexivity|exact H]|]. apply ld_here. rewrite E. exact H.
  - destruct H as [H|(Hh & f & H1 & H2)]; [apply ld_here; rewrite E; exact H|]. eapply ld_ask; eauto.
  - apply ld_here. rewrite E. exact H.
  - apply ld_here. rewrite E. exact H.
  - apply ld_here. rewrite E. exact H.
Qed.
Lemma ld_adv kn n I m Q r : adv P kn n m = r -> lres I r Q -> leads I m Q.
Proof.
  revert m. induction n as [|n IH]; intros m E H; cbn [adv] in E.
  - subst r. exact H.
  - apply ld_step. destruct (step P m) eqn:Es; try (subst r; exact H).
    destruct (stops kn m0); [subst r; exact H|]. cbn. eapply IH; eauto.
Qed.
Lemma ld_stronger (I I' : M -> Prop) m Q : (forall s, I' s -> I s) -> leads I m Q -> leads I' m Q.
Proof.
  intros HI H. induction H.
  - now apply ld_here.
  - eapply ld_quiet; eauto.
  - eapply ld_ask; eauto.
Qed.
Lemma ld_weaker I m (Q Q' : res -> Prop) : (forall r, Q r -> Q' r) -> leads I m Q -> leads I m Q'.
Proof.
  intros HQ H. induction H.
  - apply ld_here. auto.
  - eapply ld_quiet; eauto.
  - eapply ld_ask; eauto.
Qed.
Lemma ld_return I vs k e e' d' Q : leads I (mkM (CV vs) k e' d') Q -> leads I (mkM (CRet vs) (KFun e' d' :: k) e []) Q.
Proof. intros H. apply ld_step. exact H. Qed.

(** The client in cell C: the fields that never change, and those that do. *)
Context (C tg fc fs wn rn tn msz : N) (tr hn : bool).
Definition fromv : value := if hn then VObj (str "io.ReadCloser") rn else VNil.
Definition trv : value := if tr then VObj (str "Tracer") tn else VNil.
Definition v_cl (fid : N) (L : list value) (dd : bool) : value :=
  v_client (v_chan tg) (v_chan fc) (v_chan fs) (VObj (str "io.WriteCloser") wn) fromv trv msz fid L dd.
Definition base (s : M) : Prop :=
  (exists fid L dd, cells s C = Some (v_cl fid L dd) /\ List.length L = NumTags) /\ cells s RN = Some v_names.
Definition boxed (B : N) (s : M) : Prop := base s /\ cells s B = Some (VPtr (str "Client") C []).
Definition has_reply (B a : N) (b : bytes) (s : M) : Prop := boxed B s /\ cells s a = Some (v_reply b).
Definition has_both (B a : N) (b : bytes) (ac ch : N) (s : M) : Prop := has_reply B a b s /\ exists q, cells s ac = Some (v_call q ch).
Definition has_call (B a : N) (q : bytes) (ch : N) (s : M) : Prop := boxed B s /\ cells s a = Some (v_call q ch).
Definition has_arr (a : N) (h : bytes) (s : M) : Prop := base s /\ cells s a = Some (VArr h).
Definition has_buf (a : N) (h : bytes) (b : N) (u : buf) (s : M) : Prop := has_arr a h s /\ cells s b = Some (VBuf u).

Lemma ld_fixed (I : M -> Prop) f v m Q : (forall s, I s -> base s) -> (forall fid L dd, get_path [SF f] (v_cl fid L dd) = Some v) ->
  leads I (resume m [v]) Q -> lres I (Ask (RLoad C [SF f]) m) Q.
Proof.
  intros HI Ha H. right. split; [reflexivity|]. exists (fun _ => [v]). split; [|auto].
  intros s Hs. destruct (HI s Hs) as ((fid & L & dd & E & _) & _). cbn [answer]. rewrite E, Ha. reflexivity.
Qed.
Lemma ld_rpc (I : M -> Prop) m Q : (forall s, I s -> base s) -> (forall L, List.length L = NumTags -> leads I (resume m [VList L]) Q) -> lres I (Ask (RLoad C [SF (str "RPC")]) m) Q.
Proof.
  intros HI H. right. split; [reflexivity|].
  exists (fun s => [match cells s C with Some v => match get_path [SF (str "RPC")] v with Some x => x | None => VNil end | None => VNil end]). split.
  - intros s Hs. destruct (HI s Hs) as ((fid & L & dd & E & _) & _). cbn [answer]. rewrite E. reflexivity.
  - intros s Hs. destruct (HI s Hs) as ((fid & L & dd & E & EL) & _). rewrite E. cbn. auto.
Qed.
Lemma ld_load (I : M -> Prop) a p w v m Q : (forall s, I s -> cells s a = Some w) -> get_path p w = Some v -> leads I (resume m [v]) Q -> lres I (Ask (RLoad a p) m) Q.
Proof.
  intros HI Ha H. right. split; [reflexivity|]. exists (fun _ => [v]). split; [|auto]. intros s Hs. cbn [answer]. rewrite (HI s Hs), Ha. reflexivity.
Qed.
Lemma ld_chan (I : M -> Prop) a ch m Q : (forall s, I s -> exists q, cells s a = Some (v_call q ch)) -> leads I (resume m [VObj (str "chan") ch]) Q -> lres I (Ask (RLoad a [SF (str "Reply")]) m) Q.
Proof.
  intros HI H. right. split; [reflexivity|]. exists (fun _ => [v_chan ch]). split; [|auto]. intros s Hs. destruct (HI s Hs) as (q & E). cbn [answer]. rewrite E. reflexivity.
Qed.
Lemma ld_names (I : M -> Prop) k m Q : (forall s, I s -> cells s RN = Some v_names) -> (forall b, leads I (resume m [VStr (RPCNames k); VBool b]) Q) -> lres I (Ask (RMapGet RN k) m) Q.
Proof.
  intros HI H. right. split; [reflexivity|]. destruct (names_map k) as (w & E1 & E2).
  exists (fun _ => match w with Some v => [v; VBool true] | None => [VStr []; VBool false] end). split.
  - intros s Hs. cbn [answer]. rewrite (HI s Hs). unfold v_names. rewrite E1. reflexivity.
  - intros _ _. destruct w; rewrite E2; apply H.
Qed.
Lemma ld_lib (I : M -> Prop) r m Q vs : hidden r = true -> (forall s, I s -> answer LIB r s = Answer vs s) -> leads I (resume m vs) Q -> lres I (Ask r m) Q.
Proof. intros Hh HI H. right. split; [exact Hh|]. exists (fun _ => vs). auto. Qed.

Lemma ld_len (I : M -> Prop) t b u m Q : (forall s, I s -> cells s b = Some (VBuf u)) -> leads I (resume m [VI 64 (Z.of_N (buf_len u))]) Q -> lres I (Ask (RExt (str "bytes.Buffer.Len") [VPtr t b []]) m) Q.
Proof. intros HI H. eapply ld_lib; [reflexivity| |exact H]. intros s Hs. cbn. rewrite (HI s Hs). reflexivity. Qed.
Lemma ld_bytes (I : M -> Prop) t b u m Q : (forall s, I s -> cells s b = Some (VBuf u)) -> leads I (resume m [VBytes (unread u)]) Q -> lres I (Ask (RExt (str "bytes.Buffer.Bytes") [VPtr t b []]) m) Q.
Proof. intros HI H. eapply ld_lib; [reflexivity| |exact H]. intros s Hs. cbn. rewrite (HI s Hs). reflexivity. Qed.

(** The loops of IO and readNetPackets. *)
Definition body_of (f : bytes) : list stmt := match assoc f (p_funcs P) with Some f => f_body f | None => [] end.
Definition loop_of (l : list stmt) : option expr * list stmt :=
  match find (fun s => match s with SFor _ _ _ _ => true | _ => false end) l with Some (SFor _ c _ b) => (c, b) | _ => (None, []) end.
End Leads.
Definition io_text : list stmt := Eval vm_compute in body_of (str "Client.IO").
Definition io_body : list stmt := Eval vm_compute in snd (loop_of io_text).
Definition snd_text : list stmt := Eval vm_compute in match io_text with SGo (ECall (EFunc _ _ b) _) :: _ => b | _ => [] end.
Definition snd_body : list stmt := Eval vm_compute in snd (loop_of snd_text).
Definition net_cond : option expr := Eval vm_compute in fst (loop_of (body_of (str "Client.readNetPackets"))).
Definition net_body : list stmt := Eval vm_compute in snd (loop_of (body_of (str "Client.readNetPackets"))).
Definition net_tail : list stmt := Eval vm_compute in
  (fix go (l : list stmt) := match l with SFor _ _ _ _ :: l => l | _ :: l => go l | [] => [] end) (body_of (str "Client.readNetPackets")).
Definition v_c (C : N) : value := VPtr (str "Client") C [].
Definition io_loop (B : N) : machine := mkM (CLoop None None io_body) [KSeq []; KFun [] []] [[(str "c", VBox (str "Client") B)]] [].
Definition snd_loop (B : N) : machine := mkM (CLoop None None snd_body) [KSeq []; KFun [] []] [[]; [(str "c", VBox (str "Client") B)]] [].
Definition snd_start (B : N) : callee := FVal (VClos [] snd_text [[(str "c", VBox (str "Client") B)]]).
Definition net_loop (C fs rn : N) : machine :=
  mkM (CLoop net_cond None net_body) [KSeq net_tail; KFun [] []] [[(str "c", v_c C)]]
      [(FBuiltin (str "close") [], [v_chan fs]); (FExt (str "io.ReadCloser.Close") [VObj (str "io.ReadCloser") rn], [])].

(** * Tactics *)
Ltac machine_delta ::=
  lazy beta iota zeta delta [adv step stops start fst snd
    resume stuck mapkey as_nat as_z bound foreign qualified is_path builtins named method_of has_field GoRun.bind pairs keys_of
    unboxed1 unboxed default_case zip defines lookup assign declare part
    basic_ints type_name int_of int_type zero_of zero type_of const_n literal pow2 wle wlt convert unify GoRun.is_nil eqv arith unary
    get_path like set_field set_path assoc also mem beq Byte.eqb Byte.to_bits Bool.eqb andb orb
    p_funcs p_types p_consts p_vars protocol_program ctl stk GoRun.env dfr f_name f_recv f_params f_body
    str String.list_byte_of_string String.list_ascii_of_string Ascii.byte_of_ascii Byte.of_bits map hd tl values_of first1
    answer lib lib_call with_rest with_cell with_new cells free rest
    io_loop snd_loop snd_start io_body snd_body snd_text io_text net_cond net_body net_tail net_loop
    v_cl v_client v_call v_reply v_chan v_c fromv trv hidden].
Ltac facts := let s := fresh "s" in let H := fresh "H" in intros s H; unfold has_both, has_reply, has_call, has_buf, has_arr, boxed, base in *; intuition eauto.
Ltac lask :=
  lazymatch goal with
  | |- lres _ _ _ (Next _) _ => cbv beta iota delta [lres]
  | |- lres _ _ _ (Split _ _ _) _ => cbv beta iota delta [lres]
  | |- lres ?x ?o ?i (Branch ?b ?m ?m') ?q =>
      let b' := eval lazy beta iota delta [negb bounds_ok andb Z.leb Z.ltb Z.eqb Z.compare Pos.compare Pos.compare_cont Z.of_N Z.to_N blen N.of_nat List.length Pos.of_succ_nat Pos.succ] in b in
      let b' := lazymatch b' with true => b' | false => b' | _ => let c := eval cbn [negb] in b in c end in
      lazymatch b' with
      | true => change (lres x o i (Branch true m m') q)
      | false => change (lres x o i (Branch false m m') q)
      | _ => try match goal with X : b' = true |- _ => change b with b'; rewrite X | X : b' = false |- _ => change b with b'; rewrite X end
      end; cbv beta iota delta [lres]
  | |- lres ?x ?o ?i (Maybe ?y ?f) ?q =>
      let o' := eval lazy beta iota delta [nth_error Z.to_nat Pos.to_nat Pos.iter_op Init.Nat.add unread repeat firstn skipn app N.to_nat N.add Z.to_N overlay List.length] in y in
      lazymatch o' with
      | Some ?v => change (lres x o i (Maybe (Some v) f) q)
      | _ => idtac
      end; cbv beta iota delta [lres]
  | |- lres _ _ _ (Ask (RLoad _ _) _) _ =>
      first [eapply ld_fixed; [solve [facts] | machine_delta; reflexivity |]
            |eapply ld_load; [solve [facts] | machine_delta; reflexivity |]
            |eapply ld_chan; [solve [facts] |]]
  | |- lres _ _ _ (Ask (RMapGet _ _) _) _ => eapply ld_names; [solve [facts] | let b := fresh "found" in intros b]
  | |- lres _ _ _ (Ask _ _) _ => first [eapply ld_len; [solve [facts] |] | eapply ld_bytes; [solve [facts] |] | eapply ld_lib; [machine_delta; reflexivity | let s := fresh "s" in let H := fresh "Hs" in intros s H; machine_delta; reflexivity |]]
  | |- _ => idtac
  end.
Ltac lgo1 := eapply (ld_adv _ _ [] 400); [machine_delta; constructed|]; lask.
Ltac lgo2 :=
  lazymatch goal with
  | |- leads _ _ _ ?m _ =>
      lazymatch m with
      | mkM (CRet _) (KFun _ _ :: _) _ [] => apply ld_return
      | mkM _ ?k _ _ => tryif is_var k then fail else let b := eval lazy in (stops [] m) in lazymatch b with false => lgo1 end
      | resume _ ?vs => evaluated vs; lgo1
      end
  end.
Ltac lgo := repeat lgo2.
Ltac lfork E := lazymatch goal with |- leads _ _ _ (if ?b then _ else _) _ => destruct b eqn:E end.
Ltac lsee :=
  lazymatch goal with
  | |- leads _ _ _ (if ?b then _ else _) _ => idtac "SEE branch" b
  | |- leads _ _ _ (mkM ?c ?k ?e _) _ => idtac "SEE at" c "ENV" e; match k with ?x :: _ => idtac "STACK" x | _ => idtac k end
  | |- leads _ _ _ (resume (mkM ?c ?k ?e _) ?v) _ => idtac "SEE answer" v "ENV" e; match k with ?x :: _ => idtac "STACK" x | _ => idtac k end
  | |- lres _ _ _ (Ask ?r _) _ => idtac "SEE ask" r
  | |- lres _ _ _ (Stuck ?r) _ => idtac "SEE stuck" r
  | |- lres _ _ _ (Maybe ?r _) _ => idtac "SEE maybe" r
  | |- ?g => idtac "SEE" g
  end.
Ltac lhere := eapply (ld_adv _ _ [] 400); [machine_delta; constructed|]; first [left; eexists; split; [reflexivity|] | cbv beta iota delta [lres]].
Ltac lrpc L EL := eapply (ld_adv _ _ [] 400); [machine_delta; constructed|]; eapply ld_rpc; [solve [facts]|]; intros L EL.

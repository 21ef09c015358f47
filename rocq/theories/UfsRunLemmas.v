(** Following the text of package ufs through the machine: rules and tactics. *)
From Verif Require Import Base GoBuf CodecPrim Types Codec Msgs StubPrim GoPath GoSyntax GoRun GoProg Ufs GoFmt UfsRun.
From Coq Require String Ascii.

Section Rules.
Context {W : Type} (h : os W) (L : layout).
Definition wp (m : machine) (s : store W) (Q : outcome -> store W -> Prop) : Prop :=
  exists n out s', run h L n m s = Some (out, s') /\ Q out s'.
Definition wp_res (r : res) (s : store W) (Q : outcome -> store W -> Prop) : Prop :=
  match r with
  | Next m => wp m s Q
  | Branch b m m' => wp (if b then m else m') s Q
  | Split [] m _ => wp m s Q
  | Split (v :: l) _ m => wp (m v l) s Q
  | Maybe (Some v) m => wp (m v) s Q
  | Maybe None _ => Q Panicked s
  | Ask r m => match serve_req h L r s with Answer vs s => wp (resume m vs) s Q | Crash => Q Panicked s | NoAnswer => False end
  | GoRun.Ret vs => Q (Returned vs) s
  | GoRun.Panic => Q Panicked s
  | Stuck _ => False
  end.
Lemma wp_step m s Q : wp_res (step ufs_program m) s Q -> wp m s Q.
Proof.
  intros H. unfold wp. unfold wp_res in H.
  destruct (step ufs_program m) eqn:E.
  - destruct H as (n & H). exists (S n). cbn [run]. rewrite E. exact H.
  - destruct H as (n & H). exists (S n). cbn [run]. rewrite E. exact H.
  - destruct l; destruct H as (n & H); exists (S n); cbn [run]; rewrite E; exact H.
  - destruct o; [destruct H as (n & H); exists (S n); cbn [run]; rewrite E; exact H|].
    exists 1%nat, Panicked, s. cbn [run]. rewrite E. auto.
  - destruct (serve_req h L r s) eqn:E2.
    + destruct H as (n & H). exists (S n). cbn [run]. rewrite E, E2. exact H.
    + exists 1%nat, Panicked, s. cbn [run]. rewrite E, E2. auto.
    + destruct H.
  - eexists 1%nat, _, s. cbn [run]. rewrite E. eauto.
  - exists 1%nat, Panicked, s. cbn [run]. rewrite E. auto.
  - destruct H.
Qed.

(** Functions that have a lemma of their own. *)
Definition known : list bytes :=
  [str "fileInfoToQID"; str "dirTo9p2000Dir"; str "modeToUnixFlags"; str "dirToQIDType"; str "dirTo9p2000Mode"; str "stat"; str "FileServer.getFile"; str "FileServer.clunk"].
Definition stops (m : machine) : bool :=
  match ctl m with
  | CApply (FUser f _) _ Now _ => mem f known
  | CRange _ _ _ _ _ => true
  | CRet _ => match stk m, dfr m with KFun _ _ :: _, [] => true | _, _ => false end
  | _ => false
  end.
(** On to the next call of a known function, loop, or request. *)
Fixpoint adv (n : nat) (m : machine) : res :=
  match n with
  | O => Next m
  | S n => match step ufs_program m with Next m => if stops m then Next m else adv n m | r => r end
  end.
Lemma wp_adv n m s Q r : adv n m = r -> wp_res r s Q -> wp m s Q.
Proof.
  revert m. induction n as [|n IH]; intros m E H; cbn [adv] in E.
  - subst r. exact H.
  - apply wp_step. destruct (step ufs_program m) eqn:Es; try (subst r; exact H).
    destruct (stops m0); [subst r; exact H|]. cbn. eapply IH; eauto.
Qed.

Lemma wp_return vs k e e' d' s Q : wp (mkM (CV vs) k e' d') s Q -> wp (mkM (CRet vs) (KFun e' d' :: k) e []) s Q.
Proof. intros H. apply wp_step. exact H. Qed.

(** * Requests *)
Lemma ask_load a p m s Q v x : heap s a = Some v -> get_path p v = Some x -> wp (resume m [x]) s Q -> wp_res (Ask (RLoad a p) m) s Q.
Proof. intros H1 H2 H. cbn. rewrite H1, H2. exact H. Qed.
Lemma ask_store a p x m s Q v v' : heap s a = Some v -> set_path p x v = Some v' ->
  wp (resume m []) (mkStore (hset (heap s) a v') (next s) (locked s) (osw s) (calls_made s)) Q -> wp_res (Ask (RStore a p x) m) s Q.
Proof. intros H1 H2 H. cbn. rewrite H1, H2. exact H. Qed.
Lemma ask_new v m s Q : wp (resume m [VPtr (type_of v) (next s) []]) (new_cell s v) Q -> wp_res (Ask (RNew v) m) s Q.
Proof. exact (fun H => H). Qed.
Lemma ask_mapnew v m s Q : wp (resume m [VPtr [] (next s) []]) (new_cell s (VMap v (fun _ => None))) Q -> wp_res (Ask (RMapNew v) m) s Q.
Proof. exact (fun H => H). Qed.
Lemma ask_get a k m s Q d t o : heap s a = Some (VMap d t) -> t k = o ->
  wp (resume m (match o with Some v => [v; VBool true] | None => [d; VBool false] end)) s Q -> wp_res (Ask (RMapGet a k) m) s Q.
Proof. intros H1 <- H. cbn. rewrite H1. exact H. Qed.
Lemma ask_set a k v m s Q d t : heap s a = Some (VMap d t) ->
  wp (resume m []) (mkStore (hset (heap s) a (VMap d (kset t k (Some v)))) (next s) (locked s) (osw s) (calls_made s)) Q -> wp_res (Ask (RMapSet a k v) m) s Q.
Proof. intros H1 H. cbn. rewrite H1. exact H. Qed.
Lemma ask_del a k m s Q d t : heap s a = Some (VMap d t) ->
  wp (resume m []) (mkStore (hset (heap s) a (VMap d (kset t k None))) (next s) (locked s) (osw s) (calls_made s)) Q -> wp_res (Ask (RMapDel a k) m) s Q.
Proof. intros H1 H. cbn. rewrite H1. exact H. Qed.
Lemma ask_user m s Q : wp (resume m [VPtr (str "string") (a_user L) []]) s Q -> wp_res (Ask (RVar (str "user")) m) s Q.
Proof. exact (fun H => H). Qed.
Lemma ask_root m s Q : wp (resume m [VPtr (str "string") (a_root L) []]) s Q -> wp_res (Ask (RVar (str "root")) m) s Q.
Proof. exact (fun H => H). Qed.
Lemma ask_debug m s Q : wp (resume m [VPtr (str "int") (a_debug L) []]) s Q -> wp_res (Ask (RVar (str "debug")) m) s Q.
Proof. exact (fun H => H). Qed.
Lemma ask_ans f args m s Q vs : library f args s = LAns vs -> wp (resume m vs) s Q -> wp_res (Ask (RExt f args) m) s Q.
Proof. intros H1 H. cbn [wp_res serve_req]. rewrite H1. exact H. Qed.
Lemma ask_lib f args m s Q l : library f args s = l ->
  match l with
  | LAns vs => wp (resume m vs) s Q
  | LNew v ans => wp (resume m [ans (next s)]) (new_cell s v) Q
  | LSet a v vs => wp (resume m vs) (mkStore (hset (heap s) a v) (next s) (locked s) (osw s) (calls_made s)) Q
  | LOs o enc => let (x, w) := h o (osw s) in wp (resume m (enc x)) (mkStore (heap s) (next s) (locked s) w (calls_made s ++ [Ev o x])) Q
  | LRead a o enc =>
      let (x, w) := h o (osw s) in
      match heap s a with
      | Some (VArr z) => wp (resume m (fst (enc x))) (mkStore (hset (heap s) a (VArr (overlay z (snd (enc x))))) (next s) (locked s) w (calls_made s ++ [Ev o x])) Q
      | _ => False
      end
  | LLock b => locked s = negb b /\ wp (resume m []) (mkStore (heap s) (next s) b (osw s) (calls_made s ++ [if b then Ev OLock tt else Ev OUnlock tt])) Q
  | LPanic => Q Panicked s
  | LStuck => False
  end -> wp_res (Ask (RExt f args) m) s Q.
Proof.
  intros H1 H. cbn [wp_res serve_req]. rewrite H1. destruct l; try exact H.
  - unfold os_call. destruct (h o (osw s)) as [x w]. exact H.
  - unfold os_call. destruct (h o (osw s)) as [x w]. destruct (enc x). cbn [fst snd heap] in *.
    destruct (heap s a) as [[]|]; try contradiction. exact H.
  - destruct H as [-> H]. destruct b; exact H.
Qed.
End Rules.

Lemma hset_same hp a v : hset hp a v a = Some v.
Proof. unfold hset. rewrite N.eqb_refl. reflexivity. Qed.
Lemma hset_other hp a b v : b <> a -> hset hp a v b = hp b.
Proof. unfold hset. destruct (N.eqb_spec b a); congruence. Qed.
Lemma kset_same t k v : kset t k v k = v.
Proof. unfold kset. rewrite N.eqb_refl. reflexivity. Qed.
Lemma kset_other t k j v : j <> k -> kset t k v j = t j.
Proof. unfold kset. destruct (N.eqb_spec j k); congruence. Qed.

(** Evaluate the machine, but nothing of what the values are made of. *)
Ltac machine_delta :=
  lazy beta iota zeta delta [adv step stops known request start method_call fst snd a_fs a_files a_user a_root a_debug
    resume stuck mapkey as_nat as_z bound foreign qualified is_path builtins named method_of has_field GoRun.bind pairs keys_of
    unboxed1 unboxed default_case zip defines lookup assign declare part
    basic_ints type_name int_of int_type zero_of zero type_of const_n literal pow2 wle wlt convert unify GoRun.is_nil eqv arith unary
    get_path like set_field set_path assoc also mem beq Byte.eqb Byte.to_bits Bool.eqb andb orb
    p_funcs p_types p_consts p_vars ufs_program ctl stk env dfr f_name f_recv f_params f_body
    str String.list_byte_of_string String.list_ascii_of_string Ascii.byte_of_ascii Byte.of_bits map hd tl values_of first1
    v_fs v_file v_qid v_dir library e_info e_infos e_file e_err err_v bytes_v dir_of qid_of format show show_basic bracket join2].
Ltac head t := lazymatch t with ?f _ => head f | _ => constr:(t) end.
Ltac evaluated vs := lazymatch vs with [] => idtac | ?v :: ?r => let c := head v in is_constructor c; evaluated r end.
Ltac constructed := lazymatch goal with |- ?x = _ => let c := head x in is_constructor c; reflexivity end.
(** What is in a cell. *)
Ltac cell := cbn [heap];
  repeat (first [apply hset_same | rewrite hset_other by lia
                | match goal with H : forall b, b <> ?n -> ?hp b = _ |- ?hp ?a = _ => rewrite (H a) by lia end]); try eassumption; try reflexivity.
Ltac libcall :=
  lazymatch goal with
  | |- library _ (VPtr _ ?a _ :: _) ?s = _ =>
      machine_delta;
      try (lazymatch goal with |- context [heap s a] => let H := fresh in let v := open_constr:(_ : value) in assert (H : heap s a = Some v) by cell; rewrite H; clear H; machine_delta end);
      try (lazymatch goal with H : Unmarshaldir _ = _ |- context [Unmarshaldir _] => rewrite H; machine_delta end);
      constructed
  | _ => machine_delta; try (lazymatch goal with H : elements _ = _ |- context [elements _] => rewrite H; machine_delta end); constructed
  end.
Ltac ask :=
  lazymatch goal with
  | |- wp_res _ _ (Next _) _ _ => cbv beta iota delta [wp_res]
  | |- wp_res _ _ (Branch ?b ?m ?m') ?s ?q =>
      let b' := eval cbn [negb] in b in
      lazymatch b' with
      | true => (lazymatch goal with |- wp_res ?h ?l _ _ _ => change (wp_res h l (Branch true m m') s q) end)
      | false => (lazymatch goal with |- wp_res ?h ?l _ _ _ => change (wp_res h l (Branch false m m') s q) end)
      | _ => idtac
      end; cbv beta iota delta [wp_res]
  | |- wp_res ?h ?l (Maybe ?o ?f) ?s ?q =>
      let o' := eval lazy beta iota delta [nth_error Z.to_nat Pos.to_nat Pos.iter_op Init.Nat.add] in o in
      lazymatch o' with
      | Some ?v => change (wp_res h l (Maybe (Some v) f) s q)
      | _ => idtac
      end; cbv beta iota delta [wp_res]
  | |- wp_res _ _ (Ask (RLoad _ _) _) _ _ => eapply ask_load; [cell | machine_delta; reflexivity |]
  | |- wp_res _ _ (Ask (RStore _ _ _) _) _ _ => eapply ask_store; [cell | machine_delta; reflexivity | cbn [heap next locked osw calls_made]]
  | |- wp_res _ _ (Ask (RMapNew _) _) _ _ => apply ask_mapnew; cbv beta iota delta [new_cell heap next locked osw calls_made]
  | |- wp_res _ _ (Ask (RNew _) _) _ _ => apply ask_new; cbv beta iota delta [new_cell heap next locked osw calls_made]
  | |- wp_res _ _ (Ask (RMapGet _ _) _) _ _ => eapply ask_get; [cell | eassumption | cbv iota]
  | |- wp_res _ _ (Ask (RMapSet _ _ _) _) _ _ => eapply ask_set; [cell | cbn [heap next locked osw calls_made]]
  | |- wp_res _ _ (Ask (RMapDel _ _) _) _ _ => eapply ask_del; [cell | cbn [heap next locked osw calls_made]]
  | |- wp_res _ _ (Ask (RVar _) _) _ _ => first [apply ask_user | apply ask_root | apply ask_debug]; cbn [a_user a_root a_debug]
  | |- wp_res _ _ (Ask (RExt _ _) _) _ _ => eapply ask_lib; [libcall | cbv beta iota delta [new_cell heap next locked osw calls_made]; try (split; [reflexivity|])]
  | |- wp_res _ _ (GoRun.Ret _) _ _ => cbv beta iota delta [wp_res]
  | |- wp_res _ _ GoRun.Panic _ _ => cbv beta iota delta [wp_res]
  end.
Ltac go1 := eapply (wp_adv _ _ 400); [machine_delta; constructed|]; ask.
Ltac go2 :=
  lazymatch goal with
  | |- wp _ _ ?m _ _ =>
      lazymatch m with
      | mkM (CRet _) (KFun _ _ :: _) _ [] => apply wp_return
      | mkM _ ?k _ _ => tryif is_var k then fail else let b := eval lazy in (stops m) in lazymatch b with false => go1 end
      | resume _ ?vs => evaluated vs; go1
      | request _ _ => go1
      end
  end.
Ltac go := repeat go2.
Ltac fork E := lazymatch goal with |- wp _ _ (if ?b then _ else _) _ _ => destruct b eqn:E end.
Ltac see :=
  lazymatch goal with
  | |- wp _ _ (if ?b then _ else _) _ _ => idtac "branch" b
  | |- wp _ _ (mkM ?c ?k ?e _) ?s _ => idtac "at" c "env" e "store" s; match k with ?x :: _ => idtac "stack" x | _ => idtac k end
  | |- wp_res _ _ (Ask ?r _) ?s _ => idtac "ask" r s
  | |- wp_res _ _ (Stuck ?r) ?s _ => idtac "stuck" r
  | |- ?g => idtac g
  end.


Section Pure.
Context {W : Type} (h : os W) (A M U RT DB : N).
Notation WP := (wp h (mkLayout A M U RT DB)).
Notation apply_to f args k e d := (mkM (CApply (FUser (str f) []) false Now args) k e d).
Lemma wp_val vs vs' k e d s Q : WP (mkM (CV vs') k e d) s Q -> vs = vs' -> WP (mkM (CV vs) k e d) s Q.
Proof. intros H ->. exact H. Qed.
Ltac forks := repeat (lazymatch goal with |- wp _ _ (if ?b then _ else _) _ _ => let E := fresh "E" in destruct b eqn:E; go end).
Lemma modeToUnixFlags_runs mode k e d s Q : WP (mkM (CV [VI 64 (Z.of_N (modeToUnixFlags mode))]) k e d) s Q ->
  WP (apply_to "modeToUnixFlags" [VU 8 mode] k e d) s Q.
Proof.
  intros H. go1. go. forks.
  all: eapply wp_val; [exact H|]; unfold modeToUnixFlags, OREAD, ORDWR, OWRITE, OEXEC, OTRUNC;
    repeat match goal with X : _ = _ |- _ => rewrite ?X; clear X end; reflexivity.
Qed.
Lemma dirToQIDType_runs fi k e d s Q : WP (mkM (CV [VU 8 (dirToQIDType fi)]) k e d) s Q -> WP (apply_to "dirToQIDType" [VFI fi] k e d) s Q.
Proof.
  intros H. go1. go. forks.
  all: eapply wp_val; [exact H|]; unfold dirToQIDType, ModeSymlink;
    repeat match goal with X : _ = _ |- _ => rewrite ?X; clear X end; reflexivity.
Qed.
Lemma dirTo9p2000Mode_runs fi k e d s Q : WP (mkM (CV [VU 32 (dirTo9p2000Mode fi)]) k e d) s Q -> WP (apply_to "dirTo9p2000Mode" [VFI fi] k e d) s Q.
Proof.
  intros H. go1. go. forks.
  all: eapply wp_val; [exact H|]; unfold dirTo9p2000Mode;
    repeat match goal with X : _ = _ |- _ => rewrite ?X; clear X end; reflexivity.
Qed.
Lemma fileInfoToQID_runs fi k e d s Q : WP (mkM (CV [v_qid (fileInfoToQID fi)]) k e d) s Q -> WP (apply_to "fileInfoToQID" [VFI fi] k e d) s Q.
Proof.
  intros H. go1. go. unfold fileInfoToQID in H. destruct (fi_Sys fi) as [ino|]; cbv beta iota in H; go; apply dirToQIDType_runs; go; exact H.
Qed.
Lemma dirTo9p2000Dir_runs fi user k e d hp nx lk w ev Q : U <> nx -> hp U = Some (VStr user) ->
  (forall hp', hp' nx = Some (v_dir (dirTo9p2000Dir user fi)) -> (forall b, b <> nx -> hp' b = hp b) ->
   WP (mkM (CV [VPtr (str "Dir") nx []; VNil]) k e d) (mkStore hp' (nx + 1) lk w ev) Q) ->
  WP (apply_to "dirTo9p2000Dir" [VFI fi] k e d) (mkStore hp nx lk w ev) Q.
Proof.
  intros Hu Hv H. go1. go. apply fileInfoToQID_runs; go. apply dirTo9p2000Mode_runs; go.
  apply H; [cell|intros b Hb; cell].
Qed.
(** The Dir that stat returns is not used by any caller. *)
Lemma stat_runs p k e d hp nx lk w ev Q user : U <> nx -> hp U = Some (VStr user) ->
  (let (x, w) := h (OLstat p) w in
   match x with
   | inl _ => WP (mkM (CV [VNil; v_qid zeroQID; VErr (OSErr (str "does not exist"))]) k e d) (mkStore hp nx lk w (ev ++ [Ev (OLstat p) x])) Q
   | inr fi => forall hp', (forall b, b <> nx -> hp' b = hp b) -> 
      WP (mkM (CV [VPtr (str "Dir") nx []; v_qid (fileInfoToQID fi); VNil]) k e d) (mkStore hp' (nx + 1) lk w (ev ++ [Ev (OLstat p) x])) Q
   end) ->
  WP (apply_to "stat" [VStr p] k e d) (mkStore hp nx lk w ev) Q.
Proof.
  intros Hu Hv H. go1. destruct (h (OLstat p) w) as [[er|fi] w']; cbv beta iota delta [e_info]; go; [exact H|].
  eapply dirTo9p2000Dir_runs; [exact Hu|exact Hv|]. intros hp' H1 H2. go. apply fileInfoToQID_runs; go. apply H. exact H2.
Qed.

(** * Methods *)
Notation method_to f args k e d := (mkM (CApply (FUser (str f) [VPtr (str "FileServer") A []]) false Now args) k e d).
Lemma getFile_runs root ver c fid k e d t hp nx w ev Q :
  hp A = Some (v_fs root ver c (mkLayout A M U RT DB)) -> hp M = Some (VMap VNil t) ->
  (let s := mkStore hp nx false w ((ev ++ [Ev OLock tt]) ++ [Ev OUnlock tt]) in
   match t fid with
   | None => WP (mkM (CV [VNil; VErr (OSErr (str "does not exist"))]) k e d) s Q
   | Some v => exists a, v = VPtr (str "file") a [] /\ WP (mkM (CV [v; VNil]) k e d) s Q
   end) ->
  WP (method_to "FileServer.getFile" [VU 32 fid] k e d) (mkStore hp nx false w ev) Q.
Proof.
  intros HA HM H. cbv zeta in H. go1. go. destruct (t fid) as [v|] eqn:E.
  - destruct H as (a & -> & H). go. exact H.
  - go. exact H.
Qed.
Lemma clunk_runs root ver c fid k e d t hp nx w ev Q :
  hp A = Some (v_fs root ver c (mkLayout A M U RT DB)) -> hp M = Some (VMap VNil t) ->
  (match t fid with
   | None => WP (mkM (CV [VNil; VErr (OSErr (str "does not exist"))]) k e d) (mkStore hp nx false w ((ev ++ [Ev OLock tt]) ++ [Ev OUnlock tt])) Q
   | Some v => exists a f o, v = VPtr (str "file") a [] /\ a <> M /\ hp a = Some (v_file f o) /\
       match f_file f with
       | None => WP (mkM (CV [v; VNil]) k e d) (mkStore (hset hp M (VMap VNil (kset t fid None))) nx false w ((ev ++ [Ev OLock tt]) ++ [Ev OUnlock tt])) Q
       | Some hd => let (x, w) := h (OClose hd) w in
                    WP (mkM (CV [v; VNil]) k e d) (mkStore (hset hp M (VMap VNil (kset t fid None))) nx false w (((ev ++ [Ev OLock tt]) ++ [Ev (OClose hd) x]) ++ [Ev OUnlock tt])) Q
       end
   end) ->
  WP (method_to "FileServer.clunk" [VU 32 fid] k e d) (mkStore hp nx false w ev) Q.
Proof.
  intros HA HM H. go1. go. destruct (t fid) as [v|] eqn:E; [|go; exact H].
  destruct H as (a & f & o & -> & Ha & Hf & H). unfold v_file in Hf. destruct (f_file f) as [hd|]; go; [|exact H].
  destruct (h (OClose hd) w) as [[er|] w'] eqn:Eh; cbv beta iota delta [e_err err_v]; go; exact H.
Qed.
End Pure.

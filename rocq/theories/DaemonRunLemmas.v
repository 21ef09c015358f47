(** Following main of cmd/ufs through the machine. *)
From Verif Require Import Base GoBuf GoSyntax Ufs GoRun GoFmt GoProg GoWp Server Listener ListenerLemmas ServerRun ServerRunLemmas ListenerRun ListenerRunLemmas DaemonRun.
From Coq Require String Ascii.

Definition variables : list (bytes * value) :=
  [(str "debug", VPtr (str "int") 0 []); (str "root", VPtr (str "string") 1 []); (str "user", VPtr (str "string") 2 []);
   (str "ntype", VPtr (str "string") 3 []); (str "naddr", VPtr (str "string") 4 [])].
Definition flags : list (bytes * N) := [(str "debug", 0); (str "root", 1); (str "user", 2); (str "ntype", 3); (str "addr", 4)].
Definition defaults : N -> option value :=
  put_cell (put_cell (put_cell (put_cell (put_cell (fun _ => None) 0 (VI 64 0)) 1 (VStr (str "/"))) 2 (VStr (str "harvey"))) 3 (VStr (str "tcp4"))) 4 (VStr (str ":5640")).
Definition daccept_body : list stmt := Eval vm_compute in
  match assoc (str "Listener.Serve") (p_funcs daemon_program) with
  | Some f => match last (f_body f) SBreak with SFor _ _ _ b => b | _ => [] end
  | None => [] end.
Definition daccept_at (Li ln : N) (d : Z) (k : list kont) (e : list frame) (dd : list (callee * list value)) : machine :=
  mkM (CLoop None None daccept_body) (KSeq [] :: KFun e dd :: k) [[(str "tempDelay", VI 64 d); (str "l", VPtr (str "Listener") Li []); (str "ln", VObj (str "net.Listener") ln)]]
    [(FUser (str "Listener.trackListener") [VPtr (str "Listener") Li []], [VObj (str "net.Listener") ln; VBool false]); (FExt (str "net.Listener.Close") [VObj (str "net.Listener") ln], [])].
(** The function literal of NewUFS, with the variables it sees. *)
Definition create_body : list stmt := Eval vm_compute in
  match assoc (str "NewUFS") (p_funcs daemon_program) with Some f => match f_body f with SAssign _ _ [EFunc _ _ b] :: _ => b | _ => [] end | None => [] end.
Definition create_value : value := VClos [] create_body [[(str "opts", VBox [] 7)]].
Definition v_fileserver (root : bytes) (files : N) : value :=
  VStruct (str "FileServer") [(str "root", VNil); (str "rootPath", VStr root); (str "Versioned", VBool false); (str "IOunit", VU 32 8192);
    (str "mu", VStruct (str "sync.Mutex") []); (str "files", VPtr [] files [])].

Ltac machine_delta ::=
  lazy beta iota zeta delta [adv step stops known start fst snd
    resume stuck mapkey as_nat as_z bound foreign qualified is_path builtins named method_of has_field GoRun.bind pairs keys_of
    unboxed1 unboxed default_case zip defines lookup assign declare part
    basic_ints type_name int_of int_type zero_of zero type_of const_n literal pow2 wle wlt convert unify GoRun.is_nil eqv arith unary
    get_path like set_field set_path assoc also mem beq Byte.eqb Byte.to_bits Bool.eqb andb orb
    p_funcs p_types p_consts p_vars daemon_program ctl stk GoRun.env dfr f_name f_recv f_params f_body
    str String.list_byte_of_string String.list_ascii_of_string Ascii.byte_of_ascii Byte.of_bits map hd tl values_of first1
    v_server v_conn v_listener v_empty daemon_call DaemonRun.outside answer note accept_left lock_is new_flag err_of temp_error with_rest with_cell with_new cells free rest
    d_accepts d_log d_locked d_flags d_vars d_conns daccept_at daccept_body create_value create_body v_fileserver variables].

Section Daemon.
Context (cmd : cmdline) (listen : bytes -> bytes -> N + bytes) (closing : N -> option bytes) (is_net : bytes -> bool).
Notation WP := (wp daemon_program (DaemonRun.outside cmd listen closing is_net)).
Notation store hp nx ac lg lk fl vs cs := (mkMem hp nx (mkDW ac lg lk fl vs cs)).
Lemma init_runs ac : init cmd listen closing is_net 100 flag_inits (mkMem (fun _ => None) 0 (mkDW ac [] false [] [] [])) = Some (store defaults 5 ac [] false flags variables []).
Proof. vm_compute. reflexivity. Qed.

(** What the flags say. *)
Definition s_debug : Z := or_default (given_int cmd (str "debug")) 0%Z.
Definition s_root : bytes := or_default (given_string cmd (str "root")) (str "/").
Definition s_ntype : bytes := or_default (given_string cmd (str "ntype")) (str "tcp4").
Definition s_addr : bytes := or_default (given_string cmd (str "addr")) (str ":5640").
Lemma flags_parsed : let hp := parse_flags cmd flags defaults in
  hp 0 = Some (VI 64 s_debug) /\ hp 1 = Some (VStr s_root) /\ hp 3 = Some (VStr s_ntype) /\ hp 4 = Some (VStr s_addr).
Proof. vm_compute. auto. Qed.


(** What a connection has for itself: the cells of its conn, its Server, the wrapper for -debug, its FileServer, the map of fids. *)
Record own := mkOwn { o_conn : N; o_server : N; o_wrap : option N; o_fs : N; o_files : N }.
Definition own_cells (o : own) : list N := [o_conn o; o_server o; o_fs o; o_files o] ++ match o_wrap o with Some a => [a] | None => [] end.
Definition has_own (hp : N -> option value) (c : N) (o : own) : Prop :=
  hp (o_conn o) = Some (v_conn 8 (o_server o) (VObj (str "net.Conn") c) [] (VObj (str "chan") 0) false) /\
  hp (o_server o) = Some (v_server (match o_wrap o with Some a => VPtr (str "DebugFileServer") a [] | None => VPtr (str "FileServer") (o_fs o) [] end) false) /\
  (match o_wrap o with
   | Some a => s_debug <> 0%Z /\ hp a = Some (VStruct (str "DebugFileServer") [(str "FileServer", VPtr (str "FileServer") (o_fs o) [])])
   | None => s_debug = 0%Z
   end) /\
  hp (o_fs o) = Some (v_fileserver s_root (o_files o)) /\ hp (o_files o) = Some (VMap VNil (fun _ => None)).

Lemma daccept_runs mp c k e d hp nx ac lg lk fl cs Q : 10 <= nx -> hp 8 = Some (v_listener create_value [] VNil mp) -> hp 0 = Some (VI 64 s_debug) -> hp 1 = Some (VStr s_root) ->
  (forall hp' nx' o, (forall a, a < nx -> hp' a = hp a) -> nx <= nx' -> has_own hp' c o -> NoDup (own_cells o) -> Forall (fun a => nx <= a < nx') (own_cells o) ->
     WP (mkM (CV [VNil]) k e d) (store hp' nx' ac (lg ++ [DL (LDo (Start c))]) lk fl variables (cs ++ [o_conn o])) Q) ->
  WP (mkM (CApply (FUser (str "Listener.Accept") [VPtr (str "Listener") 8 []]) false Now [VObj (str "net.Conn") c]) k e d) (store hp nx ac lg lk fl variables cs) Q.
Proof.
  intros L HL H0 H1 H. unfold create_value, create_body in *. go1; go. go1; go. destruct (s_debug =? 0)%Z eqn:Ed; cbn [negb]; go.
  - apply (H _ _ (mkOwn (nx + 1 + 1 + 1) (nx + 1 + 1) None nx (nx + 1))); unfold own_cells; cbn [o_conn o_server o_wrap o_fs o_files app].
    + intros a A. cell.
    + lia.
    + unfold has_own; cbn [o_conn o_server o_wrap o_fs o_files]. repeat split; [cell|cell|lia|cell|cell].
    + repeat constructor; cbn [In]; lia.
    + repeat constructor; lia.
  - apply (H _ _ (mkOwn (nx + 1 + 1 + 1 + 1) (nx + 1 + 1 + 1) (Some (nx + 1 + 1)) nx (nx + 1))); unfold own_cells; cbn [o_conn o_server o_wrap o_fs o_files app].
    + intros a A. cell.
    + lia.
    + unfold has_own; cbn [o_conn o_server o_wrap o_fs o_files]. repeat split; [cell|cell|lia|cell|cell|cell].
    + repeat constructor; cbn [In]; lia.
    + repeat constructor; lia.
Qed.


(** The connections started in a list of actions. *)
Fixpoint started (acts : list action) : list N :=
  match acts with [] => [] | Start c :: acts => c :: started acts | Sleep _ :: acts => started acts end.
(** Every connection has its own cells, among those from 10 on. *)
Definition apart (hp : N -> option value) (nx : N) (cs : list N) (os : list own) : Prop :=
  Forall2 (has_own hp) cs os /\ NoDup (flat_map own_cells os) /\ Forall (fun a => 10 <= a < nx) (flat_map own_cells os).
Lemma has_own_frame hp hp' c o : has_own hp c o -> (forall a, In a (own_cells o) -> hp' a = hp a) -> has_own hp' c o.
Proof.
  intros (A & B & C & D & E) H. unfold has_own. unfold own_cells in H. rewrite !H by (cbn [app In]; auto 10). repeat split; auto.
  destruct (o_wrap o) as [w|]; [|exact C]. destruct C as (C1 & C2). split; [exact C1|]. rewrite H; [exact C2|]. cbn [app In]. auto 10.
Qed.
Lemma apart_frame hp nx hp' nx' cs os : apart hp nx cs os -> nx <= nx' -> (forall a, 10 <= a < nx -> hp' a = hp a) -> apart hp' nx' cs os.
Proof.
  intros (A & B & C) L H. split; [|split; [exact B|]].
  - revert C. clear B. induction A as [|c o cs os A1 A IH]; intros C; constructor.
    + eapply has_own_frame; [exact A1|]. intros a I. apply H. rewrite Forall_forall in C. apply C. cbn [flat_map]. apply in_or_app. auto.
    + apply IH. cbn [flat_map] in C. apply Forall_app in C. tauto.
  - eapply Forall_impl; [|exact C]. cbn. intros. lia.
Qed.
Lemma apart_more hp nx hp' nx' cs os c o : apart hp nx cs os -> 10 <= nx -> nx <= nx' -> (forall a, a < nx -> hp' a = hp a) ->
  has_own hp' c o -> NoDup (own_cells o) -> Forall (fun a => nx <= a < nx') (own_cells o) -> apart hp' nx' (cs ++ [c]) (os ++ [o]).
Proof.
  intros HA L L' F H N R. assert (HA' : apart hp' nx' cs os) by (eapply apart_frame; [exact HA|exact L'|]; intros; apply F; lia).
  destruct HA as (_ & _ & C0). destruct HA' as (A & B & C). unfold apart. rewrite flat_map_app. cbn [flat_map]. rewrite app_nil_r. split; [|split].
  - apply Forall2_app; [exact A|]. constructor; [exact H|constructor].
  - clear - B N C0 R. induction (flat_map own_cells os) as [|a l IH]; [exact N|]. inversion B; subst. inversion C0; subst. cbn. constructor; [|auto].
    intros I. apply in_app_or in I. destruct I as [I|I]; [contradiction|]. rewrite Forall_forall in R. specialize (R _ I). lia.
  - apply Forall_app. split; [exact C|]. eapply Forall_impl; [|exact R]. cbn. intros. lia.
Qed.
(** What Serve leaves behind: when it waits in Accept for ever, and when it returns. *)
Definition serve_ends (Q : ending -> memory dworld -> Prop) k e d ln lg fl cs0 (r : list action * option bytes) : Prop :=
  match snd r with
  | None => forall hp nx os, apart hp nx (cs0 ++ started (fst r)) os -> Q Panicked (store hp nx [] (lg ++ map (fun a => DL (LDo a)) (fst r)) false fl variables (map o_conn os))
  | Some err => forall hp nx ac os, apart hp nx (cs0 ++ started (fst r)) os -> 
      WP (mkM (CV [VErr (OSErr err)]) k e d) (store hp nx ac ((((lg ++ map (fun a => DL (LDo a)) (fst r)) ++ [DL LLock]) ++ [DL LUnlock]) ++ [DL (LClose ln)]) false fl variables (map o_conn os)) Q
  end.
Lemma serve_more Q k e d ln lg fl cs0 a acts r : serve_ends Q k e d ln lg fl cs0 (a :: acts, r) ->
  serve_ends Q k e d ln (lg ++ [DL (LDo a)]) fl (cs0 ++ started [a]) (acts, r).
Proof.
  unfold serve_ends. cbn [fst snd map]. assert ((lg ++ [DL (LDo a)]) ++ map (fun a => DL (LDo a)) acts = lg ++ DL (LDo a) :: map (fun a => DL (LDo a)) acts) as -> by (rewrite <- app_assoc; reflexivity).
  assert ((cs0 ++ started [a]) ++ started acts = cs0 ++ started (a :: acts)) as -> by (rewrite <- app_assoc; destruct a; reflexivity). exact (fun H => H).
Qed.
Lemma daccept_loop_runs k e dd ln fl Q : forall ac d hp nx lg cs os ocs t, ocs = map o_conn os -> d <= 1000000000 -> 10 <= nx ->
  hp 8 = Some (v_listener create_value [] VNil (VPtr [] 9 [])) -> hp 9 = Some (VMap v_empty t) -> hp 0 = Some (VI 64 s_debug) -> hp 1 = Some (VStr s_root) ->
  apart hp nx cs os -> serve_ends Q k e dd ln lg fl cs (accept_loop d ac) ->
  WP (daccept_at 8 ln (Z.of_N d) k e dd) (store hp nx ac lg false fl variables ocs) Q.
Proof.
  induction ac as [|[c| |err] ac IH]; intros d hp nx lg cs os ocs t Eo Hd L HL H9 H0 H1 Hc H; cbn [accept_loop] in H.
  - go1; go. unfold serve_ends in H. cbn [fst snd map started] in H. rewrite !app_nil_r in H. rewrite Eo. apply H. exact Hc.
  - destruct (accept_loop 0 ac) as [acts r] eqn:Ea. go1; go. eapply daccept_runs; [exact L|exact HL|exact H0|exact H1|]. intros hp' nx' o F L' Ho No Ro.
    go.
    eapply (IH 0) with (t := t) (os := os ++ [o]); [rewrite Eo, map_app; reflexivity|lia|lia|rewrite F by lia; exact HL|rewrite F by lia; exact H9|rewrite F by lia; exact H0|rewrite F by lia; exact H1|eapply apart_more; eassumption|].
    rewrite Ea. apply serve_more in H. exact H.
  - set (d1 := if d =? 0 then 5000000 else d * 2) in H.
    set (d2 := if 1000000000 <? d1 then 1000000000 else d1) in H.
    assert (Hd2 : d2 <= 1000000000) by (unfold d2; destruct (N.ltb_spec 1000000000 d1); lia).
    assert (K : WP (daccept_at 8 ln (Z.of_N d2) k e dd) (store hp nx ac (lg ++ [DL (LDo (Sleep d2))]) false fl variables ocs) Q).
    { eapply IH; try eassumption. destruct (accept_loop d2 ac) as [acts r]. apply serve_more in H. cbn [started] in H. rewrite app_nil_r in H. exact H. }
    clear IH H.
    go1; go. fork E1; go; rewrite ?(swrap64 (1 * 1000000000)) in * by lia.
    + assert (d = 0) as -> by lia. change (swrap 64 (5 * 1000000)) with 5000000%Z in *. change (1 * 1000000000 <? 5000000)%Z with false. cbv iota. go. go1; go. apply K.
    + rewrite swrap64 by lia. assert (d1 = d * 2) as Ed1 by (unfold d1; destruct (N.eqb_spec d 0); lia). clearbody d1. subst d1.
      fork E2; go; go1; go.
      * assert (d2 = 1000000000) as -> by (unfold d2; destruct (N.ltb_spec 1000000000 (d * 2)); lia). apply K.
      * assert (d2 = d * 2) as Ed2 by (unfold d2; destruct (N.ltb_spec 1000000000 (d * 2)); lia). clearbody d2. subst d2.
        assert (Ez : Z.to_N (Z.of_N d * 2) = d * 2) by lia. assert (Ez2 : Z.of_N (d * 2) = (Z.of_N d * 2)%Z) by lia. rewrite Ez. rewrite Ez2 in K. apply K.
  - unfold serve_ends in H. cbn [fst snd map started] in H. rewrite !app_nil_r in H. go1; go.
    destruct (is_net err) eqn:En; go; go1; go; destruct (closing ln) eqn:Ec; go; (rewrite Eo; apply H; eapply apart_frame; [exact Hc|lia|]; intros a A; rewrite put_other by lia; reflexivity).
Qed.

Lemma main_runs ac (Q : ending -> memory dworld -> Prop) :
  (match listen s_ntype s_addr with
   | inr err => forall hp nx, Q Exited (store hp nx ac [DParse; DListen s_ntype s_addr; DFatal [VStr (str "Listen failed: %v"); VErr (OSErr err)]] false flags variables [])
   | inl ln => let (acts, r) := accept_loop 0 ac in
       let lg := [DParse; DListen s_ntype s_addr; DL LLock; DL LUnlock] ++ map (fun a => DL (LDo a)) acts in
       match r with
       | None => forall hp nx os, apart hp nx (started acts) os -> Q Panicked (store hp nx [] lg false flags variables (map o_conn os))
       | Some err => forall hp nx ac' os, apart hp nx (started acts) os ->
           Q Exited (store hp nx ac' (lg ++ [DL LLock; DL LUnlock; DL (LClose ln); DFatal [VErr (OSErr err)]]) false flags variables (map o_conn os))
       end
   end) ->
  WP (start (str "main") [] []) (store defaults 5 ac [] false flags variables []) Q.
Proof.
  destruct flags_parsed as (H0 & H1 & H3 & H4). intros H.
  go1. generalize dependent (parse_flags cmd flags defaults). intros hp H0 H1 H3 H4. unfold variables. go.
  destruct (listen s_ntype s_addr) as [ln|err] eqn:El. 
  - go. go1. go. go1. go. go1. go. change (5 + 1) with 6 in *. change (6 + 1) with 7 in *. change (7 + 1) with 8 in *. change (8 + 1) with 9 in *. change (9 + 1) with 10 in *.
    fold variables. destruct (accept_loop 0 ac) as [acts r] eqn:Ea.
    eapply (daccept_loop_runs _ _ _ ln flags Q ac 0 _ 10 _ [] []); [reflexivity|lia|lia|cell|cell|cell|cell|repeat constructor|].
    rewrite Ea. unfold serve_ends. cbn [fst snd app]. destruct r as [err|].
    + intros hp' nx' ac' os Ho. specialize (H hp' nx' ac' os Ho). cbv zeta in H. generalize dependent (map (fun a => DL (LDo a)) acts). generalize dependent (map o_conn os). intros lo la H. go. cbn [app] in *. rewrite <- !app_assoc in *. cbn [app] in *. rewrite <- ?app_assoc. exact H.
    + intros hp' nx' os Ho. apply H. exact Ho.
  - go. apply H.
Qed.
End Daemon.

(** Running the stubs of genout.go: the functions Srv*, CallT* and ServerError, which call the Marshal and Unmarshal functions. *)
From Verif Require Import Base GoBuf CodecPrim Types Codec StubPrim Stubs GoSyntax GoSem GenoutProg GenoutSem GenoutWalk.

(** What a method of a NineServer returns, as Go values; z: the values that come with an error. *)
Definition nsout {St A} (vs : A -> list value) (z : list value) (r : nsres St A) : option (list value * St) :=
  match r with NSOk s r => Some (also (vs r) [VErr None], s) | NSErr s e => Some (also z [VErr (Some e)], s) | NSPanic => None end.
Lemma run_one {X} (W : outside X) f d name args b x : find_func name genout = Some f -> run W genout (S d) name args b x = call_func W (run W genout d) f args b x.
Proof. intros H. cbn [run]. rewrite H. reflexivity. Qed.
(** The strings in a slice of strings. *)
Definition strings (vs : list value) : list bytes := flat_map (fun v => match v with VStr s => [s] | _ => [] end) vs.
Lemma strings_map l : strings (map VStr l) = l.
Proof. induction l as [|a l IH]; [reflexivity|]. cbn. f_equal. exact IH. Qed.

(** * Statements one at a time *)
Lemma exec_if {X} (W : outside X) call res i c th el l s k :
  execs W call res (SIf (Some i) c th el :: l) s k =
  exec W call res i (push s) (fun s => eval W call c s (one (fun v s => match v with
    | VBool b => if b then execs W call res th (push s) (fun s => execs W call res l (pop (pop s)) k)
                 else execs W call res el (push s) (fun s => execs W call res l (pop (pop s)) k)
    | _ => Stuck end))).
Proof. reflexivity. Qed.
Lemma exec_cons {X} (W : outside X) call res st l s k : execs W call res (st :: l) s k = exec W call res st s (fun s' => execs W call res l s' k).
Proof. reflexivity. Qed.
Declare Reduction ex :=
  lazy -[N.modulo N.shiftl N.shiftr N.lor N.ltb N.eqb N.add Z.shiftr Z.shiftl Z.lor Z.ltb Z.modulo Z.to_N Z.to_nat Z.of_N Z.of_nat swrap dec dec_z
    ub b2n u8 u8z i32 buf_read buf_len buf_next buf_reslice overlay blen glen reset_spare write_spare for_loop for_range N.to_nat copied nth_error List.length repeat set_nth skipn
    method].
Ltac ex_eval := lazymatch goal with |- context[?l = _] => let r := eval ex in l in change l with r end.
Ltac enter :=
  lazymatch goal with |- context[call_func ?W ?call ?f ?args ?b ?x] =>
    let l := eval vm_compute in (f_body f) in
    let fr := eval lazy in (first_frame f args) in let res := eval vm_compute in (map fst (f_results f)) in
    change (call_func W call f args b x) with (execs W call res l (mkState fr b x) (return_bare res))
  end.

(** The first statement, with the rest put aside as a variable. *)
Ltac first_exec :=
  lazymatch goal with |- context[exec ?W ?call ?res ?st ?s ?k] =>
    let rest := fresh "rest" in let E := fresh in remember k as rest eqn:E;
    let r := eval ex in (exec W call res st s rest) in change (exec W call res st s rest) with r end.
Ltac by_call H := lazymatch goal with |- context[match ?c with Ret _ _ _ => _ | Panic => _ | Stuck => _ end] =>
  let E := fresh in eassert (E : c = _) by (refine (H _ _)); rewrite E; clear E end.
Ltac by_method H := lazymatch goal with |- context[match ?c with Some _ => _ | None => Panic end] =>
  let E := fresh in eassert (E : c = _) by (refine (H _ _ _)); rewrite E; clear E end.
Ltac by_call_sp H r := lazymatch goal with |- context[match ?c with Ret _ _ _ => _ | Panic => _ | Stuck => _ end] =>
  let E := fresh in let sp := fresh "sp" in eassert (E : exists sp, c = Ret [] (Buf _ sp) _) by (refine (H _ r _ _)); destruct E as [sp E]; rewrite E; clear E; exists sp end.
Ltac srv_text HM He Hu Hn Hm :=
  enter; rewrite exec_cons; first_exec; by_call Hu;
  match goal with |- context[match ?u with UPanic => Panic | _ => _ end] => destruct u as [? ? ? ?|]; [|exists []; reflexivity] end;
  ex_eval; subst; rewrite exec_if; first_exec; rewrite HM; by_method Hn; unfold nsout;
  match goal with |- context[match ?r with NSPanic => SrvPanic | _ => _ end] =>
    let s := fresh in let r' := fresh in destruct r as [s r'|s r'|]; [| |exists []; reflexivity]; subst; ex_eval;
    [by_call_sp Hm r' | by_call_sp He r']; reflexivity
  end.
Ltac one_stmt := rewrite exec_cons; first_exec; subst.
Lemma exec_if0 {X} (W : outside X) call res c th el l s k :
  execs W call res (SIf None c th el :: l) s k =
  eval W call c (push s) (one (fun v s => match v with
    | VBool b => if b then execs W call res th (push s) (fun s => execs W call res l (pop (pop s)) k)
                 else execs W call res el (push s) (fun s => execs W call res l (pop (pop s)) k)
    | _ => Stuck end)).
Proof. reflexivity. Qed.
Lemma lt_5 {A} (l : list A) c : nth_error l 4 = Some c -> blen l <? 5 = false.
Proof. intros H. apply N.ltb_ge. unfold blen. do 5 (destruct l as [|? l]; [discriminate|]). cbn [List.length]. lia. Qed.
Ltac first_eval :=
  lazymatch goal with |- context[eval ?W ?call ?e ?s ?k] =>
    let rest := fresh "rest" in let E := fresh in remember k as rest eqn:E;
    let r := eval ex in (eval W call e s rest) in change (eval W call e s rest) with r end.
Ltac call_text M He Hu Hm :=
  let tr := fresh in match goal with W : outside _ |- _ => destruct W as [? ? ? ? ? tr ?] end; cbn [send recv];
  enter; one_stmt; destruct tr; one_stmt; one_stmt; one_stmt; one_stmt;
  rewrite exec_cons; first_exec;
  (lazymatch goal with |- context[match ?c with Ret _ _ _ => _ | Panic => _ | Stuck => _ end] =>
    let E := fresh in let sp := fresh "sp" in
    eassert (E : exists sp, c = Ret [] (Buf _ sp) _) by (refine (Hm _ _)); destruct E as [sp E]; rewrite E; clear E; exists (Buf M sp) end);
  subst; one_stmt; rewrite exec_cons; first_exec;
  (match goal with |- context[let (_, _) := ?r in _] => destruct r as [[? ?] ?] end); cbn [unread spare]; subst;
  rewrite exec_if0; first_eval; nats;
  (match goal with |- context[nth_error ?l 4] => let c := fresh in let L := fresh in destruct (nth_error l 4) as [c|] eqn:L; [|reflexivity]; apply lt_5 in L; subst;
    ex_eval; nats; change (b2n c =? Rerror_t) with (b2n c =? 107);
    rewrite L; destruct (b2n c =? 107); [by_call He|by_call Hu] end);
  match goal with |- context[match ?u with UPanic => CallPanic | _ => _ end] => destruct u as [? ? ? [?|]|]; reflexivity end.

(** The four functions of genout.go with loops: walk requests and replies. *)
From Verif Require Import Base GoBuf CodecPrim Types Codec GoSyntax GoSem GenoutProg GenoutSem.

Ltac walk_eval :=
  lazy -[N.modulo N.shiftl N.shiftr N.lor N.ltb N.eqb N.add Z.shiftr Z.shiftl Z.lor Z.ltb Z.modulo Z.to_N Z.to_nat Z.of_N Z.of_nat swrap dec dec_z
    ub b2n u8 u8z i32 buf_read buf_len buf_next buf_reslice overlay blen glen reset_spare write_spare for_loop for_range N.to_nat app copied nth_error List.length repeat set_nth flat_map].
Definition body_MarshalTwalkPkt : func := Eval vm_compute in fn (str "MarshalTwalkPkt").
Definition body_MarshalRwalkPkt : func := Eval vm_compute in fn (str "MarshalRwalkPkt").
Definition body_UnmarshalTwalkPkt : func := Eval vm_compute in fn (str "UnmarshalTwalkPkt").
Definition body_UnmarshalRwalkPkt : func := Eval vm_compute in fn (str "UnmarshalRwalkPkt").

(** * Writing in a loop *)
Lemma loop_writes X A (elems : list A) (enc : A -> bytes) (env : list frame) (x : X) body :
  (forall j a un sp k, nth_error elems j = Some a -> exists sp', body j (mkState env (Buf un sp) x) k = k (mkState env (Buf (un ++ enc a) sp') x)) ->
  forall un sp k, exists sp', for_loop (List.length elems) 0 body (mkState env (Buf un sp) x) k = k (mkState env (Buf (un ++ flat_map enc elems) sp') x).
Proof.
  intros H. assert (G : forall rest pre un sp k, elems = pre ++ rest -> exists sp',
    for_loop (List.length rest) (List.length pre) body (mkState env (Buf un sp) x) k = k (mkState env (Buf (un ++ flat_map enc rest) sp') x)).
  { induction rest as [|a rest IH]; intros pre un sp k E; cbn [List.length for_loop flat_map].
    - exists sp. rewrite app_nil_r. reflexivity.
    - destruct (H (List.length pre) a un sp (fun s => for_loop (List.length rest) (S (List.length pre)) body s k)) as [sp' ->].
      { rewrite E, nth_error_app2, Nat.sub_diag by lia. reflexivity. }
      destruct (IH (pre ++ [a]) (un ++ enc a) sp' k) as [sp'' Hs].
      { rewrite E, <- app_assoc. reflexivity. }
      rewrite app_length in Hs. cbn [List.length] in Hs. rewrite Nat.add_1_r in Hs. exists sp''. rewrite Hs, <- app_assoc. reflexivity. }
  intros un sp k. exact (G elems [] un sp k eq_refl).
Qed.
Lemma nth_map {A B} (f : A -> B) l vs j a : vs = map f l -> nth_error l j = Some a -> nth_error vs j = Some (f a).
Proof. intros -> H. rewrite nth_error_map, H. reflexivity. Qed.
Lemma writes_on {X} (k : state -> out X) e (A B M : bytes) (x : X) : A = M -> exists sp, k (mkState e (Buf A B) x) = k (mkState e (Buf M sp) x).
Proof. intros ->. exists B. reflexivity. Qed.

Lemma blen_map {A B} {f : A -> B} {l vs} (E : vs = map f l) : blen vs = glen l.
Proof. rewrite E. unfold glen, blen. rewrite map_length. reflexivity. Qed.
(** * Running a function in three parts: before, in and after its loop *)
Fixpoint before (l : list stmt) : list stmt := match l with [] => [] | SRange _ _ _ :: _ => [] | st :: l => st :: before l end.
Fixpoint from (l : list stmt) : list stmt := match l with [] => [] | SRange _ _ _ :: _ => l | _ :: l => from l end.
Lemma exec_range {X} (W : outside X) call res i e body post s k vs :
  lookup e (env s) = Some (VList vs) ->
  execs W call res (SRange i (EId e) body :: post) s k =
  for_loop (List.length vs) 0 (fun j s k => execs W call res body (with_env s ([(i, VI 64 (Z.of_nat j))] :: env s)) (fun s => k (pop s))) s
    (fun s => execs W call res post s k).
Proof. intros H. cbn [execs exec eval]. rewrite H. reflexivity. Qed.
Definition first_frame (f : func) (args : list value) : list frame :=
  match bind (f_params f) args, zeros (f_results f) with Some ps, Some rs => [also (receiver (f_recv f)) (also ps rs)] | _, _ => [] end.
(** The code from the loop on becomes the variable K. *)
Ltac split_at_loop K EK :=
  lazymatch goal with |- context[call_func ?W ?call ?f ?args ?b ?x] =>
    let pre := eval vm_compute in (before (f_body f)) in let l := eval vm_compute in (from (f_body f)) in
    let fr := eval lazy in (first_frame f args) in let res := eval vm_compute in (map fst (f_results f)) in
    remember (fun s => execs W call res l s (return_bare res)) as K eqn:EK;
    replace (call_func W call f args b x) with (execs W call res pre (mkState fr b x) K) by (rewrite EK; reflexivity)
  end.
(** Evaluating up to the loop, the loop, and what comes after it. *)
Ltac loop_marshal vs elems Evs enc :=
  let rest := fresh "rest" in let Er := fresh in split_at_loop rest Er; walk_eval; subst rest; cbv beta; rewrite (exec_range _ _ _ _ _ _ _ _ _ vs) by reflexivity;
  rewrite (f_equal (@List.length _) Evs), map_length;
  lazymatch goal with |- context[for_loop _ _ ?body (mkState ?env (Buf ?un ?sp) ?x) ?k] =>
    let B := fresh in
    assert (B : forall j a un' sp' k', nth_error elems j = Some a -> exists sp'', body j (mkState env (Buf un' sp') x) k' = k' (mkState env (Buf (un' ++ enc a) sp'') x));
    [ let Ha := fresh in
      intros ? ? ? ? ? Ha; walk_eval; rewrite !Nat2Z.id, !(nth_map _ _ _ _ _ Evs Ha); walk_eval; apply writes_on;
      rewrite <- ?app_assoc; cbn [app]; autorewrite with go; reflexivity
    | destruct (loop_writes _ _ elems enc env x body B un sp k) as [? ->]; clear B ]
  end;
  walk_eval; apply writes; rewrite copied_eq by (rewrite ?app_length; cbn [List.length]; lia);
  rewrite <- ?app_assoc; cbn [app];
  let L := fresh in pose proof (blen_map Evs) as L; try unfold bytes in L; rewrite <- L; autorewrite with go; reflexivity.
Lemma text_MarshalTwalkPkt X (W : outside X) call b x t SFID NewFID Paths :
  exists sp, call_func W call body_MarshalTwalkPkt [VBuf; VU 16 t; VU 32 SFID; VU 32 NewFID; VList (map VStr Paths)] b x
             = Ret [] (Buf (MarshalTwalkPkt t SFID NewFID Paths) sp) x.
Proof.
  remember (map VStr Paths) as vs eqn:Evs.
  loop_marshal vs Paths Evs (fun p : bytes => [u8 (N.shiftr (blen p) 0); u8 (N.shiftr (blen p) 8)] ++ p).
Qed.
Lemma text_MarshalRwalkPkt X (W : outside X) call b x t QIDs :
  exists sp, call_func W call body_MarshalRwalkPkt [VBuf; VU 16 t; VList (map qidv QIDs)] b x = Ret [] (Buf (MarshalRwalkPkt t QIDs) sp) x.
Proof.
  remember (map qidv QIDs) as vs eqn:Evs.
  loop_marshal vs QIDs Evs (fun q => [u8 (N.shiftr (QID_Type q) 0);
      u8 (N.shiftr (QID_Version q) 0); u8 (N.shiftr (QID_Version q) 8); u8 (N.shiftr (QID_Version q) 16); u8 (N.shiftr (QID_Version q) 24);
      u8 (N.shiftr (QID_Path q) 0); u8 (N.shiftr (QID_Path q) 8); u8 (N.shiftr (QID_Path q) 16); u8 (N.shiftr (QID_Path q) 24);
      u8 (N.shiftr (QID_Path q) 32); u8 (N.shiftr (QID_Path q) 40); u8 (N.shiftr (QID_Path q) 48); u8 (N.shiftr (QID_Path q) 56)]).
Qed.

(** * Reading in a loop *)
Lemma for_range_ext {A R} (z : A) n u b body (p : R) r r' k k' :
  (forall l b e, r l b e = r' l b e) -> (forall l u b, k l u b = k' l u b) -> for_range z n u b body p r k = for_range z n u b body p r' k'.
Proof.
  revert u b r r' k k'. induction n as [|n IH]; intros u b r r' k k' Hr Hk; cbn [for_range]; [apply Hk|].
  destruct (body u b); [apply IH; intros; [apply Hr|apply Hk]|apply Hr|reflexivity].
Qed.
Lemma for_range_match {A R S} (f : R -> S) (z : A) n u b body p r k :
  f (for_range z n u b body p r k) = for_range z n u b body (f p) (fun l b e => f (r l b e)) (fun l u b => f (k l u b)).
Proof.
  revert u b r k. induction n as [|n IH]; intros u b r k; cbn [for_range]; [reflexivity|].
  destruct (body u b); [apply IH|reflexivity|reflexivity].
Qed.
Lemma set_nth_app j v pre w l : j = List.length pre -> set_nth j v (pre ++ w :: l) = pre ++ v :: l.
Proof. intros ->. induction pre as [|a pre IH]; [reflexivity|]. cbn. f_equal. exact IH. Qed.
Lemma loop_reads X A (inj : A -> value) (z : A) (mk : list value -> bytes -> N -> buf -> state (X := X)) (fin : list value -> buf -> bytes -> out X)
    body (step : bytes -> buf -> lres A) (g : bytes -> N -> N) :
  (forall j vs u l b k, nth_error vs j = Some (inj z) ->
     body j (mk vs u l b) k =
     match step u b with
     | LPanic => Panic
     | LRet a b err => fin (set_nth j (inj a) vs) b err
     | LNext a u b => k (mk (set_nth j (inj a) vs) u (g u l) b)
     end) ->
  forall k k', (forall vs u l b, k (mk (map inj vs) u l b) = k' vs u b) ->
  forall n u l b, for_loop n 0 body (mk (repeat (inj z) n) u l b) k = for_range z n u b step Panic (fun vs b err => fin (map inj vs) b err) k'.
Proof.
  intros H k k' Hk.
  assert (G : forall n pre u l b,
    for_loop n (List.length pre) body (mk (map inj pre ++ repeat (inj z) n) u l b) k =
    for_range z n u b step Panic (fun vs b err => fin (map inj (pre ++ vs)) b err) (fun vs u b => k' (pre ++ vs) u b)).
  { induction n as [|n IH]; intros pre u l b; cbn [for_loop for_range repeat].
    - rewrite !app_nil_r. apply Hk.
    - rewrite H by (rewrite nth_error_app2, map_length, Nat.sub_diag by (rewrite map_length; lia); reflexivity).
      destruct (step u b) as [a u' b'|a b' err|]; [| |reflexivity].
      + rewrite set_nth_app by (rewrite map_length; reflexivity).
        specialize (IH (pre ++ [a]) u' (g u' l) b'). rewrite app_length, map_app, <- app_assoc in IH. cbn [List.length map app] in IH. rewrite Nat.add_1_r in IH.
        rewrite IH. apply for_range_ext; intros; rewrite <- app_assoc; reflexivity.
      + rewrite set_nth_app by (rewrite map_length; reflexivity). f_equal. rewrite map_app. cbn [map]. f_equal. f_equal.
        clear. induction n; [reflexivity|]. cbn. f_equal. assumption. }
  intros n u l b. exact (G n [] u l b).
Qed.
Lemma nth_set j v (vs : list value) w : nth_error vs j = Some w -> nth_error (set_nth j v vs) j = Some v.
Proof. revert vs. induction j as [|j IH]; intros [|a vs] H; try discriminate; cbn in *; [reflexivity|exact (IH _ H)]. Qed.
Lemma set_set j v w vs : set_nth j v (set_nth j w vs) = set_nth j v vs.
Proof. revert vs. induction j as [|j IH]; intros [|a vs]; cbn; [reflexivity..|]. f_equal. apply IH. Qed.
Ltac un_eval :=
  lazy -[N.modulo N.shiftl N.shiftr N.lor N.ltb N.eqb N.add Z.shiftr Z.shiftl Z.lor Z.ltb Z.modulo Z.to_N Z.to_nat Z.of_N Z.of_nat swrap dec dec_z
    ub b2n u8 u8z i32 buf_read buf_len buf_next buf_reslice overlay blen glen reset_spare write_spare for_loop for_range N.to_nat copied nth_error List.length repeat set_nth].
Lemma set_same j v vs : nth_error vs j = Some v -> set_nth j v vs = vs.
Proof. revert vs. induction j as [|j IH]; intros [|a vs] H; try discriminate; cbn in *; [congruence|f_equal; exact (IH _ H)]. Qed.
Ltac leaf_of Hj := try reflexivity; rewrite ?(set_same _ _ _ Hj); autorewrite with go; reflexivity.
Ltac step_of Hj :=
  lazymatch goal with
  | |- (if (?z <? 0)%Z then _ else _) = _ => let H := fresh in assert (H : (z <? 0)%Z = false) by leaf; rewrite H; clear H
  | |- match ?s with _ => _ end = match (match ?s2 with _ => _ end) with _ => _ end =>
      same s s2;
      lazymatch s2 with
      | buf_read _ _ => destruct s2 as [[? ?]|]; [repeat match goal with |- context[overlay ?a ?b] => generalize (overlay a b); intro end | leaf_of Hj]
      | buf_reslice _ _ => destruct s2 as [?|]; [|leaf_of Hj]
      | _ => destruct s2; [try leaf_of Hj|]
      end
  end.
(** One statement of a loop body, in which element j of a slice is [Hj]. *)
Ltac stmt Hj :=
  lazymatch goal with |- execs ?W ?call ?res (?st :: ?l) ?s ?k = _ =>
    let rest := fresh "rest" in let Er := fresh in
    transitivity (exec W call res st s (fun s' => execs W call res l s' k)); [reflexivity|];
    remember (fun s' => execs W call res l s' k) as rest eqn:Er;
    un_eval; nats; rewrite ?Nat2Z.id, ?(nth_set _ _ _ _ Hj), ?set_set, ?Hj; un_eval; repeat step_of Hj; subst rest; cbv beta
  end.
Lemma text_UnmarshalTwalkPkt X (W : outside X) call b x :
  call_func W call body_UnmarshalTwalkPkt [VBuf] b x =
  match UnmarshalTwalkPkt b with
  | UPanic => Panic
  | URet f t b err => Ret [VU 32 (Twalk_SFID f); VU 32 (Twalk_NewFID f); VList (map VStr (Twalk_Paths f)); VU 16 t; VErr err] b x
  end.
Proof.
  let rest := fresh "rest" in let Er := fresh in split_at_loop rest Er.
  un_eval. nats. repeat step. autorewrite with go.
  lazymatch goal with |- ?r (mkState [[_; _; _; (_, VU _ ?a); (_, VU _ ?c); _; (_, VU _ ?t); _]] _ _) = _ => generalize a as SFID, c as NewFID, t as tag; intros end.
  subst rest. cbv beta. erewrite exec_range; [|reflexivity].
  rewrite repeat_length.
  etransitivity; [|symmetry; exact (for_range_match (fun r => match r with UPanic => Panic
     | URet f t b err => Ret [VU 32 (Twalk_SFID f); VU 32 (Twalk_NewFID f); VList (map VStr (Twalk_Paths f)); VU 16 t; VErr err] b x end) _ _ _ _ _ _ _ _)].
  refine (loop_reads X bytes VStr [] (fun vs u l b => mkState [[(str "l", VU 64 l); (str "u", VArr 8 u); (str "b", VBuf); (str "SFID", VU 32 SFID); (str "NewFID", VU 32 NewFID);
    (str "Paths", VList vs); (str "t", VU 16 tag); (str "err", VErr None)]] b x) (fun vs b err => Ret [VU 32 SFID; VU 32 NewFID; VList vs; VU 16 tag; VErr (Some err)] b x) _ _
      (fun u _ => N.lor (ub u 0) (N.shiftl (ub u 1) 8)) _ _ _ _ _ _ _ _).
  - intros j vs u l b' k Hj. cbv beta. repeat stmt Hj.
    autorewrite with go. reflexivity.
  - intros vs u l b'. un_eval. same (0 <? Z.of_N (buf_len b'))%Z (0 <? buf_len b'). destruct (0 <? buf_len b'); leaf.
Qed.
Lemma text_UnmarshalRwalkPkt X (W : outside X) call b x :
  call_func W call body_UnmarshalRwalkPkt [VBuf] b x =
  match UnmarshalRwalkPkt b with
  | UPanic => Panic
  | URet f t b err => Ret [VList (map qidv (Rwalk_QIDs f)); VU 16 t; VErr err] b x
  end.
Proof.
  let rest := fresh "rest" in let Er := fresh in split_at_loop rest Er.
  un_eval. nats. repeat step. autorewrite with go.
  lazymatch goal with |- ?r (mkState [[_; _; _; _; (_, VU _ ?t); _]] _ _) = _ => generalize t as tag; intros end.
  subst rest. cbv beta. erewrite exec_range; [|reflexivity].
  rewrite repeat_length.
  etransitivity; [|symmetry; exact (for_range_match (fun r => match r with UPanic => Panic
     | URet f t b err => Ret [VList (map qidv (Rwalk_QIDs f)); VU 16 t; VErr err] b x end) _ _ _ _ _ _ _ _)].
  refine (loop_reads X QID qidv zeroQID (fun vs u l b => mkState [[(str "l", VU 64 l); (str "u", VArr 8 u); (str "b", VBuf);
    (str "QIDs", VList vs); (str "t", VU 16 tag); (str "err", VErr None)]] b x) (fun vs b err => Ret [VList vs; VU 16 tag; VErr (Some err)] b x) _ _
      (fun _ l => l) _ _ _ _ _ _ _ _).
  - intros j vs u l b' k Hj. cbv beta. lazy -[nth_error] in Hj. repeat stmt Hj.
    autorewrite with go. reflexivity.
  - intros vs u l b'. un_eval. same (0 <? Z.of_N (buf_len b'))%Z (0 <? buf_len b'). destruct (0 <? buf_len b'); leaf.
Qed.

(** path.Clean resolves a name lexically; the consequences for confinement. *)
From Verif Require Import Base GoPath PathSpec.

Lemma bytes_eqb_spec a b : Bool.reflect (a = b) (bytes_eqb a b).
Proof. unfold bytes_eqb. destruct list_eq_dec; constructor; assumption. Qed.
Lemma bytes_eqb_refl a : bytes_eqb a a = true.
Proof. destruct (bytes_eqb_spec a a); congruence. Qed.
Lemma is_slash_spec b : Bool.reflect (b = slash) (is_slash b).
Proof.
  unfold is_slash. destruct (Byte.eqb b slash) eqn:E; constructor.
  - apply Byte.byte_dec_bl. exact E.
  - intros ->. discriminate.
Qed.
Lemma is_dot_spec b : Bool.reflect (b = dot) (is_dot b).
Proof.
  unfold is_dot. destruct (Byte.eqb b dot) eqn:E; constructor.
  - apply Byte.byte_dec_bl. exact E.
  - intros ->. discriminate.
Qed.

(** * Elements *)
Lemma elems_ne p : elems p <> [].
Proof. destruct p as [|b r]; cbn; [discriminate|]. destruct (is_slash b); [discriminate|]. destruct (elems r); discriminate. Qed.

Lemma elems_app_slash p q : elems (p ++ slash :: q) = elems p ++ elems q.
Proof.
  induction p as [|b p IH]; cbn [app elems].
  - change (is_slash slash) with true. reflexivity.
  - destruct (is_slash b); [rewrite IH; reflexivity|]. rewrite IH.
    destruct (elems p) eqn:E; [exfalso; exact (elems_ne p E)|reflexivity].
Qed.

Lemma elems_noslash e : ~ In slash e -> elems e = [e].
Proof.
  induction e as [|b e IH]; cbn [elems]; intros H; [reflexivity|].
  destruct (is_slash_spec b) as [->|]; [exfalso; apply H; left; reflexivity|].
  rewrite IH by (intros X; apply H; right; exact X). reflexivity.
Qed.

Lemma elems_noslash_in p : Forall (fun e : bytes => ~ In slash e) (elems p).
Proof.
  induction p as [|b p IH]; cbn [elems]; [constructor; [intros []|constructor]|].
  destruct (is_slash_spec b) as [->|Hb]; [constructor; [intros []|exact IH]|].
  destruct (elems p) as [|e es]; [constructor; [intros [|[]]; congruence|constructor]|].
  inversion IH; subst. constructor; [|assumption]. intros [|]; [congruence|contradiction].
Qed.

Lemma joined_cons2 e e' ns : joined (e :: e' :: ns) = e ++ slash :: joined (e' :: ns).
Proof. reflexivity. Qed.
Lemma elems_joined (ns : list bytes) : ns <> [] -> Forall (fun e : bytes => ~ In slash e) ns -> elems (joined ns) = ns.
Proof.
  induction ns as [|e ns IH]; intros Hn H; [congruence|]. inversion H; subst.
  destruct ns as [|e' ns]; [cbn [joined]; apply elems_noslash; assumption|].
  rewrite joined_cons2, elems_app_slash. rewrite IH; [|discriminate|assumption]. rewrite elems_noslash by assumption. reflexivity.
Qed.

(** * Resolution *)
Lemma resolve_app r at_ es es' : resolve r at_ (es ++ es') = resolve r (resolve r at_ es) es'.
Proof. unfold resolve. apply fold_left_app. Qed.
Lemma resolve_cons r at_ e es : resolve r at_ (e :: es) = resolve r (enter r at_ e) es.
Proof. reflexivity. Qed.
Lemma enter_empty r at_ : enter r at_ [] = at_.
Proof. reflexivity. Qed.
Lemma enter_plain r at_ e : plain e -> enter r at_ e = e :: at_.
Proof.
  intros (A & B & C & _). unfold enter.
  destruct (bytes_eqb_spec e []); [congruence|]. destruct (bytes_eqb_spec e (str ".")); [congruence|].
  destruct (bytes_eqb_spec e dotdot); [congruence|reflexivity].
Qed.
Lemma resolve_plain r ns : forall at_, Forall plain ns -> resolve r at_ ns = rev ns ++ at_.
Proof.
  induction ns as [|e ns IH]; intros at_ H; [reflexivity|]. inversion H; subst.
  rewrite resolve_cons, enter_plain, IH by assumption. cbn [rev]. rewrite <- app_assoc. reflexivity.
Qed.

(** The shape of a resolved path: some ".." (none when rooted), then plain names. *)
Definition shape (r : bool) (at_ : list bytes) : Prop :=
  exists st k, at_ = st ++ repeat dotdot k /\ Forall plain st /\ (r = true -> k = 0%nat).
Lemma shape_nil r : shape r [].
Proof. exists [], 0%nat. repeat split. constructor. Qed.
Lemma shape_enter r at_ e : ~ In slash e -> shape r at_ -> shape r (enter r at_ e).
Proof.
  intros He (st & k & -> & Hst & Hk). unfold enter.
  destruct (bytes_eqb_spec e []) as [|H1]; [exists st, k; auto|].
  destruct (bytes_eqb_spec e (str ".")) as [|H2]; [exists st, k; auto|]. cbn [orb].
  destruct (bytes_eqb_spec e dotdot) as [->|H3].
  - destruct st as [|t st]; cbn [app].
    + destruct k as [|k]; cbn [repeat].
      * destruct r; [apply shape_nil|]. exists [], 1%nat. repeat split; [constructor|discriminate].
      * rewrite bytes_eqb_refl. exists [], (S (S k)). repeat split; [constructor|]. intros Hr. specialize (Hk Hr). discriminate.
    + inversion Hst as [|? ? Hp Hst']; subst. destruct (bytes_eqb_spec t dotdot) as [->|_]; [destruct Hp as (_ & _ & X & _); congruence|].
      exists st, k. auto.
  - exists (e :: st), k. cbn. repeat split; auto. constructor; [|assumption]. unfold plain. auto.
Qed.
Lemma shape_resolve r es : forall at_, Forall (fun e : bytes => ~ In slash e) es -> shape r at_ -> shape r (resolve r at_ es).
Proof.
  induction es as [|e es IH]; intros at_ H Hs; [exact Hs|]. inversion H; subst. rewrite resolve_cons. apply IH; [assumption|].
  apply shape_enter; assumption.
Qed.
Lemma shape_elems r p : shape r (resolve r [] (elems p)).
Proof. apply shape_resolve; [apply elems_noslash_in|apply shape_nil]. Qed.

(** * The byte loop *)
Definition base (rooted : bool) (k : nat) : bytes := if rooted then [slash] else rev (joined (repeat dotdot k)).
Fixpoint obuf (rooted : bool) (k : nat) (st : list bytes) : bytes :=
  match st with
  | [] => base rooted k
  | e :: st => rev e ++ (if negb (Nat.eqb (List.length (obuf rooted k st)) (if rooted then 1 else 0)) then slash :: obuf rooted k st else obuf rooted k st)
  end.
Definition lim (rooted : bool) (k : nat) : nat := List.length (base rooted k).

Lemma obuf_len r k st : Forall plain st -> (if st then List.length (obuf r k st) = lim r k else lim r k < List.length (obuf r k st))%nat.
Proof.
  induction st as [|e st IH]; intros H; [reflexivity|]. inversion H as [|? ? Hp H']; subst. specialize (IH H').
  cbn [obuf]. rewrite app_length, rev_length.
  destruct e as [|b e]; [destruct Hp; congruence|]. cbn [List.length].
  destruct (negb _); cbn [List.length]; destruct st; lia.
Qed.

Lemma drop_elem_mid d e x : ~ In slash e -> (d <= List.length x)%nat -> e <> [] ->
  drop_elem d (e ++ slash :: x) = x.
Proof.
  intros He Hd Hn. clear Hn. induction e as [|b e IH]; cbn [app drop_elem].
  - change (is_slash slash) with true. rewrite orb_true_r. reflexivity.
  - destruct (is_slash_spec b) as [->|]; [exfalso; apply He; left; reflexivity|]. rewrite orb_false_r.
    rewrite IH by (intros X; apply He; right; exact X).
    destruct (Nat.leb_spec (List.length (e ++ slash :: x)) d) as [L|]; [|reflexivity].
    rewrite app_length in L. cbn [List.length] in L. lia.
Qed.
Lemma drop_elem_base e x : ~ In slash e -> e <> [] -> drop_elem (List.length x) (e ++ x) = x.
Proof.
  intros He Hn. induction e as [|b e IH]; [congruence|]. cbn [app drop_elem].
  destruct (is_slash_spec b) as [->|]; [exfalso; apply He; left; reflexivity|]. rewrite orb_false_r.
  destruct e as [|b' e].
  - cbn [app]. rewrite (proj2 (Nat.leb_le _ _)) by lia. reflexivity.
  - rewrite IH by (try discriminate; intros X; apply He; right; exact X).
    destruct (Nat.leb_spec (List.length ((b' :: e) ++ x)) (List.length x)) as [L|]; [|reflexivity].
    rewrite app_length in L. cbn [List.length] in L. lia.
Qed.

Lemma drop_obuf r k e st : Forall plain (e :: st) -> drop_elem (lim r k) (obuf r k (e :: st)) = obuf r k st.
Proof.
  intros H. inversion H as [|? ? (Hne & _ & _ & Hs) Hst]; subst. cbn [obuf].
  assert (Hs' : ~ In slash (rev e)) by (rewrite <- in_rev; exact Hs).
  assert (Hne' : rev e <> []) by (intros X; apply Hne; rewrite <- (rev_involutive e), X; reflexivity).
  pose proof (obuf_len r k st Hst) as L.
  destruct (Nat.eqb_spec (List.length (obuf r k st)) (if r then 1 else 0)) as [E|E]; cbn [negb].
  - assert (X : lim r k = List.length (obuf r k st)).
    { destruct st; [symmetry; exact L|]. unfold lim, base in *. destruct r; cbn [List.length] in *; lia. }
    rewrite X. apply drop_elem_base; assumption.
  - apply drop_elem_mid; [assumption| |assumption]. destruct st; lia.
Qed.

(** Cutting the first element off a path. *)
Fixpoint first_elem (p : bytes) : bytes * bytes :=
  match p with
  | [] => ([], [])
  | b :: r => if is_slash b then ([], p) else let (e, r') := first_elem r in (b :: e, r')
  end.
Lemma first_elem_app p : fst (first_elem p) ++ snd (first_elem p) = p.
Proof. induction p as [|b p IH]; cbn; [reflexivity|]. destruct (is_slash b); [reflexivity|]. destruct (first_elem p). cbn in *. rewrite IH. reflexivity. Qed.
Lemma first_elem_end p : at_end (snd (first_elem p)) = true.
Proof. induction p as [|b p IH]; cbn; [reflexivity|]. destruct (is_slash b) eqn:E; [exact E|]. destruct (first_elem p). exact IH. Qed.
Lemma first_elem_noslash p : ~ In slash (fst (first_elem p)).
Proof.
  induction p as [|b p IH]; cbn; [intros []|]. destruct (is_slash_spec b) as [->|]; [intros []|]. destruct (first_elem p). cbn in *.
  intros [|]; [congruence|contradiction].
Qed.
Lemma copy_elem_spec p : forall out, copy_elem p out = (snd (first_elem p), rev (fst (first_elem p)) ++ out).
Proof.
  induction p as [|b p IH]; intros out; cbn; [reflexivity|]. destruct (is_slash b); [reflexivity|]. rewrite IH.
  destruct (first_elem p). cbn. rewrite <- app_assoc. reflexivity.
Qed.
Lemma first_unique e r : ~ In slash e -> at_end r = true -> first_elem (e ++ r) = (e, r).
Proof.
  intros He Hr. induction e as [|b e IH]; cbn [app].
  - destruct r as [|b r]; [reflexivity|]. cbn in Hr |- *. rewrite Hr. reflexivity.
  - cbn. destruct (is_slash_spec b) as [->|]; [exfalso; apply He; left; reflexivity|].
    rewrite IH by (intros X; apply He; right; exact X). reflexivity.
Qed.
(** Processing from the end of an element on. *)
Lemma resolve_first r at_ e rest : ~ In slash e -> at_end rest = true ->
  resolve r at_ (elems (e ++ rest)) = resolve r (enter r at_ e) (elems rest).
Proof.
  intros He Hr. destruct rest as [|b rest].
  - rewrite app_nil_r, elems_noslash by assumption. reflexivity.
  - cbn in Hr. destruct (is_slash_spec b) as [->|]; [|discriminate].
    rewrite elems_app_slash, elems_noslash by assumption. cbn [app]. rewrite resolve_cons.
    cbn [elems]. change (is_slash slash) with true. cbn iota. rewrite resolve_cons, enter_empty. reflexivity.
Qed.

Lemma app_dots k : repeat dotdot k ++ [dotdot] = repeat dotdot (S k).
Proof. induction k as [|k IH]; [reflexivity|]. cbn [repeat app]. rewrite IH. reflexivity. Qed.
Lemma joined_snoc ns e : ns <> [] -> joined (ns ++ [e]) = joined ns ++ slash :: e.
Proof.
  induction ns as [|a ns IH]; intros H; [congruence|]. destruct ns as [|b ns]; [reflexivity|].
  cbn [app]. rewrite !joined_cons2. change (b :: ns ++ [e]) with ((b :: ns) ++ [e]). rewrite IH by discriminate.
  rewrite <- app_assoc. reflexivity.
Qed.
Lemma base_S k : (if Nat.ltb 0 (List.length (base false k)) then slash :: base false k else base false k) = 
  match k with O => [] | S _ => slash :: base false k end.
Proof.
  destruct k as [|k]; [reflexivity|]. unfold base. rewrite rev_length.
  destruct k; [reflexivity|]. cbn [repeat]. rewrite joined_cons2, app_length. reflexivity.
Qed.
Lemma base_next k : dot :: dot :: (match k with O => [] | S _ => slash :: base false k end) = base false (S k).
Proof.
  destruct k as [|k]; [reflexivity|]. unfold base. rewrite <- (app_dots (S k)), joined_snoc by discriminate.
  rewrite rev_app_distr. reflexivity.
Qed.

Lemma loop_spec rooted : forall fuel p st k, (List.length p <= fuel)%nat -> Forall plain st -> (rooted = true -> k = 0%nat) ->
  exists st' k', clean_loop fuel rooted p (obuf rooted k st) (lim rooted k) = obuf rooted k' st' /\ Forall plain st' /\
    (rooted = true -> k' = 0%nat) /\
    resolve rooted (st ++ repeat dotdot k) (elems p) = st' ++ repeat dotdot k'.
Proof.
  induction fuel as [|fuel IH]; intros p st k Hf Hst Hk.
  { destruct p; [|cbn in Hf; lia]. exists st, k. repeat split; auto. }
  cbn [clean_loop]. destruct p as [|b p1].
  { exists st, k. repeat split; auto. }
  cbn [List.length] in Hf.
  destruct (is_slash_spec b) as [->|Hb].
  { destruct (IH p1 st k ltac:(lia) Hst Hk) as (st' & k' & E & H1 & H2 & H3). exists st', k'. repeat split; auto. }
  pose proof (first_elem_app (b :: p1)) as Ep. pose proof (first_elem_end (b :: p1)) as Ee.
  pose proof (first_elem_noslash (b :: p1)) as En. pose proof (copy_elem_spec (b :: p1)) as Ec.
  destruct (is_dot b && at_end p1) eqn:D1.
  { apply andb_true_iff in D1 as [D1 D2]. destruct (is_dot_spec b) as [->|]; [|discriminate].
    destruct (IH p1 st k ltac:(lia) Hst Hk) as (st' & k' & E & H1 & H2 & H3). exists st', k'. repeat split; auto.
    change (dot :: p1) with ([dot] ++ p1). rewrite resolve_first by (trivial; intros [|[]]; discriminate). exact H3. }
  destruct (is_dot b && match p1 with b1 :: path2 => is_dot b1 && at_end path2 | [] => false end) eqn:D2.
  { apply andb_true_iff in D2 as [D2 D3]. destruct (is_dot_spec b) as [->|]; [|discriminate].
    destruct p1 as [|b1 p2]; [discriminate|]. apply andb_true_iff in D3 as [D3 D4].
    destruct (is_dot_spec b1) as [->|]; [|discriminate]. cbn [skipn]. cbn [List.length] in Hf.
    change (dot :: dot :: p2) with (dotdot ++ p2).
    rewrite resolve_first by (trivial; intros [|[|[]]]; discriminate).
    pose proof (obuf_len rooted k st Hst) as L.
    destruct st as [|t st].
    - rewrite L. rewrite Nat.ltb_irrefl. unfold enter. cbn [app]. change (bytes_eqb dotdot []) with false.
      change (bytes_eqb dotdot (str ".")) with false. cbn [orb]. rewrite (bytes_eqb_refl dotdot).
      destruct rooted; cbn [negb].
      + rewrite (Hk eq_refl). cbn [repeat]. destruct (IH p2 [] 0%nat ltac:(lia) Hst (fun _ => eq_refl)) as (st' & k' & E & H1 & H2 & H3).
        exists st', k'. repeat split; auto.
      + cbn [obuf]. change (if Nat.ltb 0 (lim false k) then slash :: base false k else base false k) with
          (if Nat.ltb 0 (List.length (base false k)) then slash :: base false k else base false k).
        rewrite base_S, base_next.
        destruct (IH p2 [] (S k) ltac:(lia) Hst ltac:(discriminate)) as (st' & k' & E & H1 & H2 & H3).
        exists st', k'. repeat split; auto. rewrite <- H3. f_equal.
        destruct k; [reflexivity|]. cbn [repeat]. rewrite bytes_eqb_refl. reflexivity.
    - rewrite (proj2 (Nat.ltb_lt _ _)) by exact L. rewrite drop_obuf by exact Hst.
      inversion Hst as [|? ? Hp Hst']; subst.
      destruct (IH p2 st k ltac:(lia) Hst' Hk) as (st' & k' & E & H1 & H2 & H3). exists st', k'. repeat split; auto.
      rewrite <- H3. f_equal. unfold enter. change (bytes_eqb dotdot []) with false.
      change (bytes_eqb dotdot (str ".")) with false. cbn [orb app]. rewrite (bytes_eqb_refl dotdot).
      destruct (bytes_eqb_spec t dotdot) as [->|]; [destruct Hp as (_ & _ & X & _); congruence|reflexivity]. }
  rewrite Ec.
  set (e := fst (first_elem (b :: p1))) in *. set (r := snd (first_elem (b :: p1))) in *.
  assert (He : plain e).
  { assert (Hne : e <> []). { unfold e. cbn. destruct (is_slash_spec b); [congruence|]. destruct (first_elem p1). discriminate. }
    repeat split; [exact Hne| | |exact En].
    - intros X. rewrite X in Ep. cbn [app str] in Ep. injection Ep as Eb Er. rewrite <- Eb in D1. rewrite Er in Ee.
      rewrite Ee in D1. discriminate.
    - intros X. rewrite X in Ep. cbn in Ep. injection Ep as Eb Er. rewrite <- Eb, <- Er in D2. rewrite Ee in D2. discriminate. }
  assert (Hr : (List.length r <= fuel)%nat).
  { assert (Hl : (List.length (e ++ r) = S (List.length p1))%nat) by (rewrite Ep; reflexivity).
    rewrite app_length in Hl. destruct e; [destruct He; congruence|]. cbn [List.length] in Hl. lia. }
  destruct (IH r (e :: st) k Hr ltac:(constructor; assumption) Hk) as (st' & k' & E & H1 & H2 & H3).
  exists st', k'. split; [|split; [exact H1|split; [exact H2|]]].
  - rewrite <- E. f_equal. cbn [obuf]. f_equal. destruct rooted; reflexivity.
  - rewrite <- Ep, resolve_first by assumption. rewrite enter_plain by exact He. exact H3.
Qed.

Lemma obuf_text rooted k st : Forall plain st -> (rooted = true -> k = 0%nat) ->
  rev (obuf rooted k st) = if rooted then slash :: joined (rev st) else joined (repeat dotdot k ++ rev st).
Proof.
  induction st as [|e st IH]; intros H Hk.
  { cbn [obuf rev]. unfold base. destruct rooted; [reflexivity|]. rewrite rev_involutive, app_nil_r. reflexivity. }
  inversion H as [|? ? Hp Hst]; subst. specialize (IH Hst Hk). pose proof (obuf_len rooted k st Hst) as L.
  cbn [obuf rev]. rewrite rev_app_distr, rev_involutive.
  destruct (Nat.eqb_spec (List.length (obuf rooted k st)) (if rooted then 1 else 0)%nat) as [E|E]; cbn [negb].
  - rewrite IH. destruct rooted.
    + destruct st as [|t st]; [reflexivity|]. unfold lim, base in L. cbn [List.length] in L. lia.
    + destruct st as [|t st]; [|lia]. cbn [obuf] in E. unfold base in E. rewrite rev_length in E.
      destruct k as [|[|k]]; cbn in E; try discriminate. reflexivity.
  - cbn [rev]. rewrite IH, <- app_assoc. cbn [app]. destruct rooted.
    + cbn [app]. f_equal. rewrite joined_snoc; [reflexivity|]. intros X. apply E.
      destruct st; [exact L|cbn in X; destruct (rev st); discriminate].
    + rewrite app_assoc, joined_snoc; [reflexivity|]. intros X. apply app_eq_nil in X as [X1 X2]. apply E.
      destruct k; [|discriminate]. destruct st; [reflexivity|cbn in X2; destruct (rev st); discriminate].
Qed.

Lemma joined_nil_inv (ns : list bytes) : Forall (fun e : bytes => e <> []) ns -> joined ns = [] -> ns = [].
Proof.
  destruct ns as [|e ns]; intros H E; [reflexivity|]. inversion H; subst. exfalso. destruct ns; cbn in E; [congruence|].
  destruct e; [congruence|discriminate].
Qed.
Lemma shape_ne rooted at_ : shape rooted at_ -> Forall (fun e : bytes => e <> []) (rev at_).
Proof.
  intros (st & k & -> & H & _). rewrite Forall_forall in *. intros e He. rewrite <- in_rev in He.
  apply in_app_iff in He as [He|He]; [destruct (H e He); assumption|]. apply repeat_spec in He. subst. discriminate.
Qed.

Theorem Clean_text p : Clean p = text (IsAbs p) (names p).
Proof.
  destruct p as [|b p1]; [reflexivity|]. unfold Clean, names. cbn [IsAbs].
  destruct (is_slash_spec b) as [->|Hb].
  - destruct (loop_spec true (List.length (slash :: p1)) p1 [] 0%nat ltac:(cbn; lia) ltac:(constructor) (fun _ => eq_refl)) as (st & k & E & H1 & H2 & H3).
    change (obuf true 0 []) with [slash] in E. change (lim true 0) with 1%nat in E. rewrite E.
    cbn [elems]. change (is_slash slash) with true. cbn iota. rewrite resolve_cons, enter_empty. cbn [app repeat] in H3. rewrite H3.
    rewrite (H2 eq_refl) in *. cbn [repeat]. rewrite app_nil_r.
    pose proof (obuf_text true 0 st H1 (fun _ => eq_refl)) as T. cbn iota in T.
    destruct (obuf true 0 st) eqn:Eo; [cbn in T; discriminate|]. rewrite T. reflexivity.
  - destruct (loop_spec false (List.length (b :: p1)) (b :: p1) [] 0%nat ltac:(cbn; lia) ltac:(constructor) ltac:(discriminate)) as (st & k & E & H1 & _ & H3).
    change (obuf false 0 []) with (@nil byte) in E. change (lim false 0) with 0%nat in E. rewrite E.
    cbn [app repeat] in H3. rewrite H3.
    pose proof (obuf_text false k st H1 ltac:(discriminate)) as T. cbn iota in T.
    assert (Er : rev (st ++ repeat dotdot k) = repeat dotdot k ++ rev st).
    { rewrite rev_app_distr. f_equal. clear. induction k as [|k IH]; [reflexivity|]. cbn [repeat rev]. rewrite IH. apply app_dots. }
    rewrite Er. unfold text. destruct (obuf false k st) as [|b0 l] eqn:Eo.
    + cbn [rev] in T. symmetry in T. apply joined_nil_inv in T; [rewrite T; reflexivity|].
      rewrite <- Er. apply (shape_ne false). exists st, k. repeat split; auto; discriminate.
    + rewrite T. destruct (repeat dotdot k ++ rev st) eqn:Ex; [|reflexivity].
      cbn [joined] in T. change (b0 :: l) with ([b0] ++ l) in T. rewrite rev_app_distr in T. cbn in T. destruct (rev l); discriminate.
Qed.

(** * Names of cleaned and joined paths *)
Lemma IsAbs_text r ns : Forall (fun e : bytes => e <> [] /\ ~ In slash e) ns -> IsAbs (text r ns) = r.
Proof.
  intros H. destruct r; [reflexivity|]. destruct ns as [|e ns]; [reflexivity|]. inversion H as [|? ? [Hn Hs] _]; subst.
  destruct e as [|b e]; [congruence|]. unfold text.
  assert (X : exists x, joined (@cons bytes (b :: e) ns) = b :: x) by (destruct ns; cbn; eexists; reflexivity).
  destruct X as [x ->]. cbn. destruct (is_slash_spec b) as [->|]; [exfalso; apply Hs; left; reflexivity|reflexivity].
Qed.
Lemma shape_good r at_ : shape r at_ -> Forall (fun e : bytes => e <> [] /\ ~ In slash e) (rev at_).
Proof.
  intros (st & k & -> & H & _). rewrite Forall_forall in *. intros e He. rewrite <- in_rev in He.
  apply in_app_iff in He as [He|He]; [destruct (H e He) as (A & _ & _ & B); split; assumption|]. apply repeat_spec in He. subst.
  split; [discriminate|]. intros [|[|[]]]; discriminate.
Qed.
Lemma rev_dots k : rev (repeat dotdot k) = repeat dotdot k.
Proof. induction k as [|k IH]; [reflexivity|]. cbn [repeat rev]. rewrite IH. apply app_dots. Qed.
Lemma resolve_dots k : forall j, resolve false (repeat dotdot j) (repeat dotdot k) = repeat dotdot (k + j).
Proof.
  induction k as [|k IH]; intros j; [reflexivity|]. cbn [repeat]. rewrite resolve_cons.
  replace (enter false (repeat dotdot j) dotdot) with (repeat dotdot (S j)); [rewrite IH; f_equal; lia|].
  destruct j; reflexivity.
Qed.
Lemma resolve_shape r at_ : shape r at_ -> resolve r [] (rev at_) = at_.
Proof.
  intros (st & k & -> & H & Hk). rewrite rev_app_distr, resolve_app, rev_dots.
  assert (X : resolve r [] (repeat dotdot k) = repeat dotdot k).
  { destruct r; [rewrite (Hk eq_refl); reflexivity|]. pose proof (resolve_dots k 0) as X. rewrite Nat.add_0_r in X. exact X. }
  rewrite X, resolve_plain by (apply Forall_rev; exact H). rewrite rev_involutive. reflexivity.
Qed.
Lemma names_text r at_ : shape r at_ -> names (text r (rev at_)) = rev at_.
Proof.
  intros H. unfold names. rewrite IsAbs_text by (apply (shape_good r); exact H). f_equal.
  pose proof (shape_good r at_ H) as G. pose proof (resolve_shape r at_ H) as R.
  assert (G' : Forall (fun e : bytes => ~ In slash e) (rev at_)) by (eapply Forall_impl; [|exact G]; intros e [_ X]; exact X).
  destruct (rev at_) as [|e ns] eqn:E.
  - destruct r; cbn in *; exact R.
  - destruct r; cbn [text].
    + change (slash :: joined (e :: ns)) with ([] ++ slash :: joined (e :: ns)). rewrite elems_app_slash, elems_joined by (assumption || discriminate).
      cbn [elems app]. rewrite resolve_cons, enter_empty. exact R.
    + rewrite elems_joined by (assumption || discriminate). exact R.
Qed.
Lemma names_Clean p : names (Clean p) = names p /\ IsAbs (Clean p) = IsAbs p.
Proof.
  rewrite Clean_text. pose proof (shape_elems (IsAbs p) p) as S. split.
  - apply (names_text (IsAbs p) _ S).
  - apply IsAbs_text, (shape_good (IsAbs p)), S.
Qed.

(** Joining: the second name is resolved starting from the first. *)
Lemma IsAbs_app p q : p <> [] -> IsAbs (p ++ q) = IsAbs p.
Proof. destruct p; [congruence|reflexivity]. Qed.
Lemma names_Join p q : p <> [] -> names (Join p q) = rev (resolve (IsAbs p) (rev (names p)) (elems q)) /\ IsAbs (Join p q) = IsAbs p.
Proof.
  intros Hp. assert (E : Join p q = Clean (p ++ slash :: q)) by (destruct p; [congruence|destruct q; reflexivity]).
  rewrite E. destruct (names_Clean (p ++ slash :: q)) as [-> ->]. unfold names. rewrite IsAbs_app, elems_app_slash, resolve_app by exact Hp.
  rewrite rev_involutive. split; reflexivity.
Qed.
Lemma Join_ne p q : p <> [] -> Join p q <> [].
Proof.
  intros Hp. assert (E : Join p q = Clean (p ++ slash :: q)) by (destruct p; [congruence|destruct q; reflexivity]).
  rewrite E, Clean_text. destruct (IsAbs (p ++ slash :: q)); cbn; [discriminate|].
  pose proof (shape_ne _ _ (shape_elems (IsAbs (p ++ slash :: q)) (p ++ slash :: q))) as H. fold (names (p ++ slash :: q)) in H.
  destruct (names (p ++ slash :: q)) as [|e ns]; [discriminate|]. inversion H; subst. intros X.
  apply (joined_nil_inv (e :: ns)) in X; [discriminate|assumption].
Qed.
Lemma Clean_ne p : Clean p <> [].
Proof.
  rewrite Clean_text. destruct (IsAbs p); cbn; [discriminate|].
  pose proof (shape_ne _ _ (shape_elems (IsAbs p) p)) as H. fold (names p) in H.
  destruct (names p) as [|e ns]; [discriminate|]. inversion H; subst. intros X.
  apply (joined_nil_inv (e :: ns)) in X; [discriminate|assumption].
Qed.

(** * Confinement *)
Lemma plain_or es : Forall (fun e : bytes => ~ In slash e) es -> ~ In dotdot es ->
  forall r at_, exists ns, Forall plain ns /\ resolve r at_ es = rev ns ++ at_.
Proof.
  induction es as [|e es IH]; intros Hs Hd r at_; [exists []; split; [constructor|reflexivity]|].
  inversion Hs; subst. rewrite resolve_cons.
  assert (X : enter r at_ e = at_ \/ (plain e /\ enter r at_ e = e :: at_)).
  { unfold enter. destruct (bytes_eqb_spec e []) as [|A]; [left; reflexivity|]. destruct (bytes_eqb_spec e (str ".")) as [|B]; [left; reflexivity|].
    cbn [orb]. destruct (bytes_eqb_spec e dotdot) as [->|C]; [exfalso; apply Hd; left; reflexivity|]. right. unfold plain. auto. }
  destruct (IH ltac:(assumption) ltac:(intros Y; apply Hd; right; exact Y) r (enter r at_ e)) as (ns & Hn & ->).
  destruct X as [-> |[Hp ->]].
  - exists ns. split; [exact Hn|reflexivity].
  - exists (e :: ns). split; [constructor; assumption|]. cbn [rev]. rewrite <- app_assoc. reflexivity.
Qed.
(** Resolution from the root only leaves plain names. *)
Lemma names_rooted q : IsAbs q = true -> Forall plain (names q).
Proof.
  intros H. unfold names. rewrite H. destruct (shape_elems true q) as (st & k & -> & Hst & Hk). rewrite (Hk eq_refl).
  cbn [repeat]. rewrite app_nil_r. apply Forall_rev. exact Hst.
Qed.
Lemma inside_refl root : inside root root.
Proof. split; [reflexivity|]. exists []. split; [constructor|]. rewrite app_nil_r. reflexivity. Qed.
(** A rooted, cleaned name below any path. *)
Lemma elems_names_rooted q : IsAbs q = true -> Clean q = q -> resolve false [] [] = [] /\ elems q = [] :: (match names q with [] => [[]] | ns => ns end).
Proof.
  intros H E. split; [reflexivity|]. rewrite <- E at 1. rewrite Clean_text, H. cbn [text].
  change (slash :: joined (names q)) with ([] ++ slash :: joined (names q)). rewrite elems_app_slash. cbn [elems app]. f_equal.
  destruct (names q) as [|e ns] eqn:En; [reflexivity|]. apply elems_joined; [discriminate|].
  rewrite <- En. pose proof (names_rooted q H) as P. eapply Forall_impl; [|exact P]. intros x (_ & _ & _ & X). exact X.
Qed.
Lemma Join_root_rooted s : IsAbs (Join (str "/") s) = true /\ Clean (Join (str "/") s) = Join (str "/") s.
Proof.
  assert (E : Join (str "/") s = Clean (str "/" ++ slash :: s)) by (destruct s; reflexivity).
  rewrite E. destruct (names_Clean (str "/" ++ slash :: s)) as [H1 H2]. split; [rewrite H2; reflexivity|].
  rewrite (Clean_text (Clean _)), H1, H2, <- Clean_text. reflexivity.
Qed.
Lemma resolve_rooted_clean r at_ q : IsAbs q = true -> Clean q = q -> resolve r at_ (elems q) = rev (names q) ++ at_.
Proof.
  intros H E. destruct (elems_names_rooted q H E) as [_ ->]. rewrite resolve_cons, enter_empty.
  pose proof (names_rooted q H) as P. destruct (names q) as [|e ns] eqn:En; [reflexivity|]. rewrite resolve_plain by exact P. reflexivity.
Qed.

(** Attach: whatever aname is. *)
Lemma inside_rooted root s : root <> [] -> inside root (Join root (Join (str "/") s)).
Proof.
  intros Hr. destruct (Join_root_rooted s) as [A B]. destruct (names_Join root (Join (str "/") s) Hr) as [N I].
  split; [exact I|]. exists (names (Join (str "/") s)). split; [apply names_rooted; exact A|].
  rewrite N, (resolve_rooted_clean _ _ _ A B), rev_app_distr, !rev_involutive. reflexivity.
Qed.
(** Walk, create and absolute rename: names without "..". *)
Lemma inside_no_dotdot root p s : p <> [] -> inside root p -> no_dotdot s -> inside root (Join p s).
Proof.
  intros Hp (Ha & ns & Hn & E) Hs. destruct (names_Join p s Hp) as [N I]. split; [rewrite I; exact Ha|].
  destruct (plain_or (elems s) (elems_noslash_in s) Hs (IsAbs p) (rev (names p))) as (ms & Hm & R).
  exists (ns ++ ms). split; [apply Forall_app; split; assumption|].
  rewrite N, R, rev_app_distr, !rev_involutive, E, app_assoc. reflexivity.
Qed.

(** path.Dir of a cleaned path drops the last name. *)
Lemma upto_snoc p e : ~ In slash e -> upto_last_slash (p ++ slash :: e) = p ++ [slash].
Proof.
  intros He. assert (H0 : upto_last_slash e = []).
  { clear p. induction e as [|b e IH]; [reflexivity|]. cbn. rewrite IH by (intros X; apply He; right; exact X).
    destruct (is_slash_spec b) as [->|]; [exfalso; apply He; left; reflexivity|reflexivity]. }
  induction p as [|b p IH]; cbn [app upto_last_slash].
  - rewrite H0. reflexivity.
  - rewrite IH. destruct p; reflexivity.
Qed.
Lemma upto_none e : ~ In slash e -> upto_last_slash e = [].
Proof.
  induction e as [|b e IH]; intros He; [reflexivity|]. cbn. rewrite IH by (intros X; apply He; right; exact X).
  destruct (is_slash_spec b) as [->|]; [exfalso; apply He; left; reflexivity|reflexivity].
Qed.
Lemma names_Dirname p ns e : Clean p = p -> names p = ns ++ [e] -> e <> dotdot ->
  names (Dirname p) = ns /\ IsAbs (Dirname p) = IsAbs p.
Proof.
  intros Hc Hn Hd. unfold Dirname.
  pose proof (shape_elems (IsAbs p) p) as Sh. pose proof (shape_good _ _ Sh) as G. fold (names p) in G. rewrite Hn in G.
  assert (Hs : ~ In slash e) by (apply Forall_app in G as [_ G]; inversion G as [|? ? [_ X] _]; exact X).
  assert (T : p = text (IsAbs p) (ns ++ [e])) by (rewrite <- Hn, <- Clean_text; symmetry; exact Hc).
  (* the shape of the remaining names *)
  assert (Sh' : shape (IsAbs p) (rev ns)).
  { destruct Sh as (st & k & E & Hst & Hk). unfold names in Hn. rewrite E in Hn.
    assert (E2 : st ++ repeat dotdot k = e :: rev ns) by (rewrite <- (rev_involutive (st ++ _)), Hn, rev_app_distr; reflexivity).
    destruct st as [|t st]; cbn [app] in E2.
    - destruct k as [|k]; cbn in E2; [discriminate|]. injection E2 as E3 E4. exfalso. apply Hd. symmetry. exact E3.
    - injection E2 as -> E3. inversion Hst; subst. exists st, k. auto. }
  destruct (IsAbs p) eqn:Ea.
  - destruct ns as [|n ns].
    + rewrite T. cbn [app text joined]. change (slash :: e) with ([] ++ slash :: e). rewrite upto_snoc by exact Hs. split; reflexivity.
    + assert (U : upto_last_slash p = text true (n :: ns) ++ [slash]).
      { rewrite T. cbn [text]. rewrite joined_snoc by discriminate.
        change (slash :: joined (n :: ns) ++ slash :: e) with ((slash :: joined (n :: ns)) ++ slash :: e). apply upto_snoc. exact Hs. }
      rewrite U. destruct (names_Clean (text true (n :: ns) ++ [slash])) as [-> ->]. split; [|reflexivity].
      unfold names. cbn [app IsAbs text]. change (is_slash slash) with true.
      change (slash :: joined (n :: ns) ++ [slash]) with (text true (n :: ns) ++ slash :: []). rewrite elems_app_slash, resolve_app.
      cbn [elems]. rewrite resolve_cons, enter_empty. cbn [resolve fold_left].
      pose proof (names_text true (rev (n :: ns)) Sh') as NT. rewrite rev_involutive in NT. unfold names in NT. exact NT.
  - destruct ns as [|n ns].
    + assert (U : upto_last_slash p = []) by (rewrite T; cbn; apply upto_none; exact Hs). rewrite U. split; reflexivity.
    + assert (U : upto_last_slash p = text false (n :: ns) ++ [slash]).
      { rewrite T. cbn [text]. rewrite joined_snoc by discriminate. change (match (n :: ns) ++ [e] with [] => [dot] | _ => joined (n :: ns) ++ slash :: e end) with (joined (n :: ns) ++ slash :: e).
        apply upto_snoc. exact Hs. }
      pose proof (names_text false (rev (n :: ns)) Sh') as NT. rewrite rev_involutive in NT.
      pose proof (shape_good _ _ Sh') as G'. rewrite rev_involutive in G'. pose proof (IsAbs_text false (n :: ns) G') as IT.
      rewrite U. destruct (names_Clean (text false (n :: ns) ++ [slash])) as [-> ->].
      assert (Hne : text false (n :: ns) <> []).
      { intros X. apply (joined_nil_inv (n :: ns)) in X; [discriminate|]. eapply Forall_impl; [|exact G']. intros ? [Y _]; exact Y. }
      rewrite IsAbs_app by exact Hne. split; [|exact IT].
      unfold names. rewrite IsAbs_app by exact Hne. rewrite IT. change (text false (n :: ns) ++ [slash]) with (text false (n :: ns) ++ slash :: []).
      rewrite elems_app_slash, resolve_app. cbn [elems]. rewrite resolve_cons, enter_empty. cbn [resolve fold_left].
      unfold names in NT. rewrite IT in NT. exact NT.
Qed.

(** Relative rename of a file strictly below the root: any name at all. *)
Lemma inside_rename root p s : Clean p = p -> strictly_inside root p -> inside root (Join (Dirname p) (Join (str "/") s)).
Proof.
  intros Hc (Ha & ns & Hn & Hp & E). destruct (exists_last Hn) as (ms & e & ->).
  apply Forall_app in Hp as [Hm He]. inversion He as [|? ? (_ & _ & Hd & _) _]; subst.
  rewrite app_assoc in E. destruct (names_Dirname p _ _ Hc E Hd) as [N I].
  destruct (Join_root_rooted s) as [A B].
  destruct (names_Join (Dirname p) (Join (str "/") s) (Clean_ne _)) as [N2 I2].
  split; [rewrite I2, I; exact Ha|]. exists (ms ++ names (Join (str "/") s)). split.
  - apply Forall_app. split; [exact Hm|apply names_rooted; exact A].
  - rewrite N2, (resolve_rooted_clean _ _ _ A B), rev_app_distr, !rev_involutive, N, app_assoc. reflexivity.
Qed.
Lemma Join_clean p q : p <> [] -> Clean (Join p q) = Join p q.
Proof.
  intros Hp. assert (E : Join p q = Clean (p ++ slash :: q)) by (destruct p; [congruence|destruct q; reflexivity]). rewrite E.
  destruct (names_Clean (p ++ slash :: q)) as [H1 H2]. rewrite (Clean_text (Clean _)), H1, H2, <- Clean_text. reflexivity.
Qed.

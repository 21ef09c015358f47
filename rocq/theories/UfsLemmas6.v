(** Writing attributes; reading directories. *)
From Verif Require Import Base GoBuf CodecPrim Types Codec Msgs StubPrim CodecSpec CodecLemmas GoPath PathSpec Ufs UfsSpec UfsLemmas UfsLemmas5.

(** * wstat *)
(** Undecodable records. *)
Theorem wstat_undecodable c fid b u f d t rest err tr r u' : u fid = Some f ->
  Unmarshaldir (Buf b []) = URet d t rest (Some err) ->
  exec (method c (MTwstat (mkTwstatPkt fid b))) u tr r u' -> calls tr = [] /\ u' = u /\ r = Some (inl err).
Proof. intros Hf Hd H. sx H; units; try congruence. split; [reflexivity|]. split; [reflexivity|]. injection Hd as _ _ _ ->. reflexivity. Qed.

(** All runs with a decodable record. *)
Definition is_ok (r : option (answerOf rmsg)) : bool := match r with Some (inr _) => true | _ => false end.
Lemma name_after_new c f d : is_nil (Dir_Name d) = false -> name_after c f d = new_name c (f_fullName f) (Dir_Name d) /\ Dir_Name d <> [].
Proof. unfold name_after, new_name. destruct (Dir_Name d); [discriminate|]. intros _. split; [reflexivity|discriminate]. Qed.
Lemma name_after_old c f d : is_nil (Dir_Name d) = true -> name_after c f d = f_fullName f.
Proof. unfold name_after. destruct (Dir_Name d); [reflexivity|discriminate]. Qed.
Definition given' (d : Dir) : list attr :=
  (if negb (Dir_Mode d =? dontcare32) then [AMode] else []) ++ (if is_nil (Dir_Name d) then [] else [AName]) ++
  (if negb (Dir_Length d =? dontcare64) then [ALength] else []) ++
  (if negb (Dir_Mtime d =? dontcare32) || negb (Dir_Atime d =? dontcare32) then [ATimes] else []).
Lemma given_eq d : given d = given' d.
Proof.
  unfold given, given'. change keep32 with dontcare32. change keep64 with dontcare64.
  destruct (Dir_Mode d =? dontcare32), (Dir_Name d), (Dir_Length d =? dontcare64), (Dir_Mtime d =? dontcare32), (Dir_Atime d =? dontcare32); reflexivity.
Qed.
Definition wstat_sum (c : config) (f : file) (d : Dir) (u : table) (fid : N) (tr : list event) (r : option (answerOf rmsg)) (u' : table) : Prop :=
  (exists k, changed tr = map Some (firstn k (given' d))) /\
  (is_ok r = true -> changed tr = map Some (given' d) /\ is_nil (Dir_User d) = true /\ is_nil (Dir_Group d) = true) /\
  Forall (fun e => wstat_call c f d tr (ev_op e)) (calls tr).
Ltac sxw H Hf Hd := sxu H; repeat (first [rewrite Hf in H|rewrite Hd in H|sx1 H]; cbn [exec bind allowed effect] in H); subst; units.
Ltac given_tests := unfold given'; repeat match goal with
  | E : ?t = true |- context [?t] => rewrite E
  | E : ?t = false |- context [?t] => rewrite E
  end.
Ltac new_or_old := match goal with
  | E : is_nil (Dir_Name _) = true |- _ => symmetry; apply name_after_old; exact E
  | E : is_nil (Dir_Name _) = false |- _ => symmetry; apply name_after_new; exact E
  | _ => fail
  end.
Lemma is_nil_false b : is_nil b = false -> b <> [].
Proof. destruct b; [discriminate|intros _; discriminate]. Qed.
Lemma neq_of t k : negb (t =? k) = true -> t <> k.
Proof. intros H. apply N.eqb_neq, negb_true_iff. exact H. Qed.
Lemma some_neq a b k : negb (a =? k) || negb (b =? k) = true -> a <> k \/ b <> k.
Proof. intros H. apply orb_true_iff in H as [H|H]; [left|right]; apply neq_of, H. Qed.
Lemma wstat_cases c fid b u f d t rest tr r u' : u fid = Some f -> Unmarshaldir (Buf b []) = URet d t rest None ->
  exec (method c (MTwstat (mkTwstatPkt fid b))) u tr r u' -> wstat_sum c f d u fid tr r u'.
Proof.
  intros Hf Hd H. sxw H Hf Hd.
  all: split; [given_tests; first [exists 0%nat; reflexivity|exists 1%nat; reflexivity|exists 2%nat; reflexivity|exists 3%nat; reflexivity|exists 4%nat; reflexivity]|].
  all: split; [first [intros X; discriminate X
                     |intros _; split; [given_tests; reflexivity|];
                      match goal with E : negb ?a || negb ?b = false |- _ =>
                        apply orb_false_iff in E as [?Ea ?Eb]; apply negb_false_iff in Ea; apply negb_false_iff in Eb; split; assumption end]|].
  all: cbn [calls filter is_table ev_op negb]; repeat (apply Forall_cons; [|]); try apply Forall_nil; cbn [ev_op wstat_call f_fullName f_file].
  all: try new_or_old.
  all: try (split; [first [reflexivity|new_or_old]|]; split; [first [apply neq_of; assumption|apply some_neq; assumption|apply is_nil_false; assumption]|];
            first [reflexivity|new_or_old|idtac]).
  all: try (split; [reflexivity|]; change keep32 with dontcare32).
  all: try match goal with
    | E : (Dir_Mtime ?x =? dontcare32) || _ = false |- _ => apply orb_false_iff in E as [-> _]; reflexivity
    | |- if Dir_Mtime ?x =? dontcare32 then _ else _ =>
        destruct (Dir_Mtime x =? dontcare32); [eexists; split; [repeat first [left; reflexivity|right]|reflexivity]|reflexivity]
    end.
  all: try (split; [apply is_nil_false; assumption|new_or_old]).
  split; [assumption|]. rewrite given_eq. given_tests. reflexivity.
Qed.
Lemma is_nil_true b : is_nil b = true -> b = [].
Proof. destruct b; [reflexivity|discriminate]. Qed.
Lemma is_ok_some r a : r = Some (inr a) -> is_ok r = true.
Proof. intros ->. reflexivity. Qed.

(** The changes made are those for the first so many attributes of the record; success means all of them. *)
Theorem wstat_prefix c fid b u f d t rest tr r u' : u fid = Some f -> Unmarshaldir (Buf b []) = URet d t rest None ->
  exec (method c (MTwstat (mkTwstatPkt fid b))) u tr r u' ->
  (exists k, changed tr = map Some (firstn k (given d))) /\
  (forall a, r = Some (inr a) -> changed tr = map Some (given d) /\ Dir_User d = [] /\ Dir_Group d = []).
Proof.
  intros Hf Hd H. destruct (wstat_cases _ _ _ _ _ _ _ _ _ _ _ Hf Hd H) as (A & B & _). rewrite given_eq. split; [exact A|].
  intros a Ha. destruct (B (is_ok_some _ _ Ha)) as (B1 & B2 & B3). split; [exact B1|]. split; apply is_nil_true; assumption.
Qed.
(** Only what the record gives. *)
Theorem wstat_values c fid b u f d t rest tr r u' : u fid = Some f -> Unmarshaldir (Buf b []) = URet d t rest None ->
  exec (method c (MTwstat (mkTwstatPkt fid b))) u tr r u' ->
  forall e, In e (calls tr) -> wstat_call c f d tr (ev_op e).
Proof.
  intros Hf Hd H. destruct (wstat_cases _ _ _ _ _ _ _ _ _ _ _ Hf Hd H) as (_ & _ & C). rewrite Forall_forall in C. exact C.
Qed.
(** A record that gives one attribute, and no owner. *)
Theorem wstat_single c fid b u f d t rest tr r u' : u fid = Some f -> Unmarshaldir (Buf b []) = URet d t rest None ->
  exec (method c (MTwstat (mkTwstatPkt fid b))) u tr r u' ->
  (List.length (given d) <= 1)%nat -> Dir_User d = [] -> Dir_Group d = [] ->
  (forall a, r <> Some (inr a)) -> changes tr = [].
Proof.
  intros Hf Hd H Hg Hu Hgr Hr. rewrite given_eq in Hg. unfold given' in Hg.
  enough (X : is_ok r = false -> changes tr = []).
  { apply X. destruct r as [[e|a]|]; [reflexivity|destruct (Hr a); reflexivity|reflexivity]. }
  clear Hr. sxw H Hf Hd.
  all: try (intros X; discriminate X).
  all: try (rewrite Hu, Hgr in *; discriminate).
  all: try (intros _; reflexivity).
  all: exfalso; revert Hg; given_tests; cbn; lia.
Qed.
Theorem wstat_keep_all c fid b u f d t rest tr r u' : u fid = Some f ->
  Unmarshaldir (Buf b []) = URet d t rest None -> given d = [] -> Dir_User d = [] -> Dir_Group d = [] ->
  exec (method c (MTwstat (mkTwstatPkt fid b))) u tr r u' ->
  u' = u /\ r = Some (inr (MRwstat mkRwstatPkt)) /\
  map (fun e => ev_op e) (calls tr) = match f_file f with Some h => [OSync h] | None => [] end.
Proof.
  intros Hf Hd Hg Hu Hgr H. rewrite given_eq in Hg. unfold given' in Hg.
  destruct (negb (Dir_Mode d =? dontcare32)) eqn:E1; [discriminate|]. destruct (is_nil (Dir_Name d)) eqn:E2; [|discriminate].
  destruct (negb (Dir_Length d =? dontcare64)) eqn:E3; [discriminate|].
  destruct (negb (Dir_Mtime d =? dontcare32) || negb (Dir_Atime d =? dontcare32)) eqn:E4; [discriminate|].
  sxu H. repeat (first [rewrite Hf in H|rewrite Hd in H|rewrite E1 in H|rewrite Hu in H|rewrite Hgr in H|rewrite E2 in H|rewrite E3 in H|rewrite E4 in H|sx1 H]; cbn [exec bind allowed effect is_nil negb orb] in H);
    try destruct H as [? ?]; subst; units; split; try reflexivity; split; try reflexivity; rewrite E; reflexivity.
Qed.

(** * Directory reads *)
Lemma dir_read_step c fid o n u f h tr r u' : u fid = Some f -> f_file f = Some h ->
  negb (N.land (QID_Type (f_QID f)) QTDIR =? 0) = true -> (0 <= n)%Z -> (o = 0 \/ f_oflow f = []) -> rewound tr ->
  exec (method c (MTread (mkTreadPkt fid o n))) u tr r u' ->
  u' fid = Some (mkFile (f_QID f) (f_fullName f) (f_file f) []) /\
  exists x, entries tr = [x] /\
    (x = inl EOF -> r = Some (inr (MRread (mkRreadPkt [])))) /\
    (forall fi, x = inr fi -> r = Some (inr (MRread (mkRreadPkt
       (if (n <? Z.of_N (blen (Marshaldir (dirTo9p2000Dir (user c) fi))))%Z then [] else Marshaldir (dirTo9p2000Dir (user c) fi)))))).
Proof.
  intros Hf Hh Hq Hn Ho Hr H. sxu H.
  assert (Hz : (n <? Z.of_N (blen (@nil byte)))%Z = false) by (apply Z.ltb_ge; exact Hn).
  destruct (o =? 0) eqn:Eo.
  - repeat (first [rewrite Hf in H|rewrite Hh in H|rewrite Hq in H|rewrite Hz in H|sx1 H]; cbn [exec bind allowed effect app] in H); try destruct H as [? ?]; subst; units; pokes.
    { exfalso. assert (X : Some o0 = None) by (eapply Hr; cbn; do 4 right; left; reflexivity). discriminate. }
    all: (split; [rewrite set_fid_same, Hh; reflexivity|]); eexists; (split; [reflexivity|]); split; try discriminate; try reflexivity.
    all: intros gi X; injection X as <-; match goal with E : (_ <? Z.of_N (blen (Marshaldir _)))%Z = _ |- _ => rewrite E end; reflexivity.
  - destruct Ho as [->|Ho]; [discriminate|].
    repeat (first [rewrite Hf in H|rewrite Hh in H|rewrite Hq in H|rewrite Ho in H|rewrite Hz in H|sx1 H]; cbn [exec bind allowed effect app] in H); try destruct H as [? ?]; subst; units; pokes.
    all: (split; [rewrite set_fid_same, Hh; reflexivity|]); eexists; (split; [reflexivity|]); split; try discriminate; try reflexivity.
    all: intros gi X; injection X as <-; match goal with E : (_ <? Z.of_N (blen (Marshaldir _)))%Z = _ |- _ => rewrite E end; reflexivity.
Qed.

(** Reading a directory to its end, with counts that every record fits. *)
Lemma dir_read_chain c fid f h infos : f_file f = Some h -> negb (N.land (QID_Type (f_QID f)) QTDIR =? 0) = true -> forall ss u start g,
  u fid = Some g -> f_QID g = f_QID f -> f_file g = f_file f -> (start = true \/ f_oflow g = []) ->
  chain c u ss -> dir_reads fid start ss -> Forall (fun s => rewound (s_tr s)) ss ->
  Forall (fun s => (0 <= count_of s)%Z /\ forall fi, In fi infos -> (Z.of_N (blen (Marshaldir (dirTo9p2000Dir (user c) fi))) <= count_of s)%Z) ss ->
  entries (flat_map s_tr ss) = map inr infos ++ [inl EOF] ->
  map s_res ss = map (fun fi => Some (inr (MRread (mkRreadPkt (Marshaldir (dirTo9p2000Dir (user c) fi)))))) infos ++ [Some (inr (MRread (mkRreadPkt [])))].
Proof.
  intros Hh Hq. induction infos as [|fi infos IH]; intros ss u start g Hg Gq Gh Ho Hc Hd Hr Hn He.
  - destruct ss as [|s ss]; [discriminate|]. cbn [flat_map] in He. unfold entries in He. rewrite flat_map_app in He. fold (entries (s_tr s)) in He. fold (entries (flat_map s_tr ss)) in He.
    destruct Hc as (E0 & He0 & Hc). destruct Hd as ((o & n & Em & Eo) & Hd). inversion Hr as [|? ? Hr1 Hr2]; subst. inversion Hn as [|? ? [Hn1 _] Hn2]; subst.
    rewrite Em in He0. unfold count_of in Hn1. rewrite Em in Hn1. cbn in Hn1.
    destruct (dir_read_step c fid o n _ g h _ _ _ Hg ltac:(congruence) ltac:(rewrite Gq; exact Hq) Hn1 ltac:(destruct start; [left; exact Eo|right; destruct Ho; [discriminate|assumption]]) Hr1 He0) as (Hp & x & Ex & X1 & _).
    rewrite Ex in He. cbn in He. injection He as -> He. cbn. rewrite X1 by reflexivity.
    destruct ss as [|s' ss]; [reflexivity|]. exfalso.
    destruct Hc as (E0' & He0' & Hc). destruct Hd as ((o' & n' & Em' & Eo') & Hd). inversion Hr2 as [|? ? Hr1' Hr2']; subst. inversion Hn2 as [|? ? [Hn1' _] Hn2']; subst.
    rewrite Em' in He0'. unfold count_of in Hn1'. rewrite Em' in Hn1'. cbn in Hn1'.
    destruct (dir_read_step c fid o' n' _ _ h _ _ _ Hp ltac:(cbn; congruence) ltac:(cbn; rewrite Gq; exact Hq) Hn1' ltac:(right; reflexivity) Hr1' He0') as (_ & x' & Ex' & _).
    cbn [flat_map] in He. unfold entries in He, Ex'. rewrite flat_map_app, Ex' in He. discriminate.
  - destruct ss as [|s ss]; [discriminate|]. cbn [flat_map] in He. unfold entries in He. rewrite flat_map_app in He. fold (entries (s_tr s)) in He. fold (entries (flat_map s_tr ss)) in He.
    destruct Hc as (E0 & He0 & Hc). destruct Hd as ((o & n & Em & Eo) & Hd). inversion Hr as [|? ? Hr1 Hr2]; subst. inversion Hn as [|? ? [Hn1 Hn3] Hn2]; subst.
    rewrite Em in He0. unfold count_of in Hn1, Hn3. rewrite Em in Hn1, Hn3. cbn in Hn1, Hn3.
    destruct (dir_read_step c fid o n _ g h _ _ _ Hg ltac:(congruence) ltac:(rewrite Gq; exact Hq) Hn1 ltac:(destruct start; [left; exact Eo|right; destruct Ho; [discriminate|assumption]]) Hr1 He0) as (Hp & x & Ex & _ & X2).
    rewrite Ex in He. cbn in He. injection He as -> He. cbn [map app]. rewrite (X2 fi eq_refl).
    assert (L : (n <? Z.of_N (blen (Marshaldir (dirTo9p2000Dir (user c) fi))))%Z = false) by (apply Z.ltb_ge; apply Hn3; left; reflexivity).
    rewrite L. f_equal. eapply (IH ss (s_post s) false); [exact Hp|exact Gq|exact Gh|right; reflexivity|exact Hc|exact Hd|exact Hr2| |exact He].
    rewrite Forall_forall in *. intros s' Hs'. destruct (Hn2 s' Hs') as [A B]. split; [exact A|]. intros x Hx. apply B. right. exact Hx.
Qed.
(** Directory records decode to what they describe. *)
Lemma Marshaldir_decodes d : fitsDir d -> Unmarshaldir (Buf (Marshaldir d) []) = URet d 0 (Buf [] []) None.
Proof. intros H. rewrite <- (app_nil_r (Marshaldir d)). apply roundtripDir. exact H. Qed.

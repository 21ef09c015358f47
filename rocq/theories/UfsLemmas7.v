(** Versions, descriptions of files, renaming, and the overflow buffer of directories. *)
From Verif Require Import Base GoBuf CodecPrim Types Codec Msgs StubPrim CodecSpec CodecLemmas GoPath PathSpec Ufs UfsSpec UfsLemmas UfsLemmas3 UfsLemmas5 UfsLemmas6.

(** * Version *)
Lemma version_reply c msize v u tr r u' : exec (method c (MTversion (mkTversionPkt msize v))) u tr r u' ->
  u' = u /\ tr = [] /\
  (v = str "9P2000" -> r = Some (inr (MRversion (mkRversionPkt msize v)))) /\
  (v <> str "9P2000" -> r = Some (inl (v ++ str " not supported; only 9P2000"))).
Proof. intros H. sx H; repeat split; intros; congruence. Qed.
Lemma version_unknown : ~ (forall c msize v u tr r u', exec (method c (MTversion (mkTversionPkt msize v))) u tr r u' ->
  exists m' v', r = Some (inr (MRversion (mkRversionPkt m' v')))).
Proof.
  intros H. destruct (H (mkConfig (str "/") [] 8192) 8192 (str "9P2000.u") no_fids [] (Some (inl (str "9P2000.u not supported; only 9P2000"))) no_fids) as (m' & v' & E).
  { repeat split. }
  discriminate.
Qed.

(** * Descriptions *)
Lemma stat_fields fi name : let d := dirTo9p2000Dir name fi in
  Dir_User d = name /\ Dir_Group d = name /\ Dir_ModUser d = [] /\ Dir_Type d = 0 /\ Dir_Dev d = 0 /\
  Z.of_N (Dir_Mtime d) = (t_sec (fi_ModTime fi) mod 2 ^ 32)%Z /\ Dir_Atime d = Dir_Mtime d.
Proof. cbn. repeat split. unfold u32_of_z. rewrite Z2N.id; [reflexivity|]. apply Z.mod_pos_bound. lia. Qed.

(** * Renaming *)
Lemma rename_follows c fid b u f d t rest tr r u' : u fid = Some f -> Unmarshaldir (Buf b []) = URet d t rest None ->
  exec (method c (MTwstat (mkTwstatPkt fid b))) u tr r u' ->
  (forall x, x <> fid -> u' x = u x) /\
  u' fid = Some (mkFile (f_QID f) (if renamed tr then name_after c f d else f_fullName f) (f_file f) (f_oflow f)) /\
  (forall a, r = Some (inr a) -> renamed tr = negb (is_nil (Dir_Name d))).
Proof.
  intros Hf Hd H. sxw H Hf Hd.
  all: pokes; split; [intros x Hx; repeat rewrite set_fid_other by congruence; reflexivity|].
  all: cbn [renamed existsb is_rename ev_op orb andb]; split; [|intros a Ha; try discriminate Ha; first [reflexivity|match goal with E : is_nil (Dir_Name _) = _ |- _ => rewrite E end; reflexivity]].
  all: rewrite ?set_fid_same, ?Hf; try (destruct f; cbn in *; subst; reflexivity).
  all: match goal with E : is_nil (Dir_Name _) = false |- _ => rewrite (proj1 (name_after_new c f d E)) end; reflexivity.
Qed.
Lemma rename_over_dir c fid b u f d t rest tr r u' fi : u fid = Some f -> Unmarshaldir (Buf b []) = URet d t rest None ->
  exec (method c (MTwstat (mkTwstatPkt fid b))) u tr r u' -> Dir_Name d <> [] ->
  hd_error (stats tr) = Some (inr fi) ->
  IsDir fi = true -> r = Some (inl (str "is a directory")) /\ u' = u /\ forall p p', ~ In (ORename p p') (map (fun e => ev_op e) tr).
Proof.
  intros Hf Hd H Hn Hs Hi. assert (Hn' : is_nil (Dir_Name d) = false) by (destruct (Dir_Name d); [contradiction|reflexivity]).
  sxw H Hf Hd; try congruence; cbn in Hs; try discriminate Hs.
  all: try (injection Hs as Hs; subst; congruence).
  all: split; [reflexivity|]; split; [reflexivity|]; intros p p'; cbn; intuition discriminate.
Qed.

(** * The overflow buffer stays empty *)
Definition no_overflow (u : table) : Prop := forall fid f, u fid = Some f -> f_oflow f = [].
Lemma no_overflow_set u a f : no_overflow u -> f_oflow f = [] -> no_overflow (set_fid u a (Some f)).
Proof. intros Hu Hf x g. unfold set_fid. destruct (x =? a); [intros E; injection E as <-; exact Hf|apply Hu]. Qed.
Lemma no_overflow_del u a : no_overflow u -> no_overflow (set_fid u a None).
Proof. intros Hu x g. unfold set_fid. destruct (x =? a); [discriminate|apply Hu]. Qed.
Lemma no_overflow_exec c m u tr r u' : no_overflow u -> exec (method c m) u tr r u' -> no_overflow u'.
Proof.
  intros Hu H. methods m H; pokes; fids.
  all: try (repeat first [exact Hu | apply no_overflow_set | apply no_overflow_del | reflexivity | progress cbn [f_oflow] | eapply Hu; eassumption]).
  wcases H; repeat first [exact Hu | apply no_overflow_set | reflexivity | progress cbn [f_oflow] | eapply Hu; eassumption].
Qed.
Lemma never_overflow c h u : hist c h u -> no_overflow u.
Proof. induction 1; [intros ? ? E; discriminate|eapply no_overflow_exec; eassumption]. Qed.

(** * One read of a directory, exactly *)
Lemma dir_read_exact c h u fid o n f k tr r u' : hist c h u -> u fid = Some f -> f_file f = Some k -> N.land (QID_Type (f_QID f)) QTDIR <> 0 ->
  exec (method c (MTread (mkTreadPkt fid o n))) u tr r u' ->
  (forall x, u' x = u x) /\
  ((exists e, o = 0 /\ calls tr = [Ev (OSeek k) (Some e)] /\ r = Some (inl (err_text e))) \/
   exists rest, calls tr = (if o =? 0 then [Ev (OSeek k) None] else []) ++ rest /\
     if (n <? 0)%Z then rest = [] /\ r = Some (inr (MRread (mkRreadPkt [])))
     else exists y, rest = [Ev (OReaddir k) y] /\ r = Some (entry_reply (user c) n y)).
Proof.
  intros Hh Hf Hk Hq H. pose proof (never_overflow _ _ _ Hh _ _ Hf) as Ho. clear Hh.
  assert (Hq' : negb (N.land (QID_Type (f_QID f)) QTDIR =? 0) = true) by (apply negb_true_iff, N.eqb_neq; exact Hq).
  assert (Ef : mkFile (f_QID f) (f_fullName f) (Some k) [] = f) by (destruct f; cbn in *; subst; reflexivity).
  sxu H. change (blen []) with 0 in H. 
  destruct (o =? 0) eqn:Eo; repeat (first [rewrite Hf in H|rewrite Hk in H|rewrite Hq' in H|rewrite Ho in H|rewrite Ef in H|sx1 H]; cbn [exec bind allowed effect app] in H); try destruct H as [? ?]; subst; units; pokes.
  all: try change (Z.of_N (blen [])) with 0%Z in *; try change (Z.of_N 0) with 0%Z in *; cbn [calls filter is_table ev_op negb].
  all: rewrite ?Ef; (split; [first [reflexivity|intros x; unfold set_fid; destruct (N.eqb_spec x fid) as [->|]; [symmetry; exact Hf|reflexivity]]|]).
  all: try (apply N.eqb_eq in Eo; subst o).
  all: try (left; eexists; repeat split; reflexivity).
  all: right; eexists; (split; [reflexivity|]).
  all: match goal with E : (_ <? 0)%Z = _ |- _ => rewrite E end; try (split; reflexivity).
  all: eexists; (split; [reflexivity|]); cbn [entry_reply]; try reflexivity.
  all: rewrite Z.leb_antisym; match goal with E : (_ <? Z.of_N (blen (Marshaldir _)))%Z = _ |- _ => rewrite E end; reflexivity.
Qed.

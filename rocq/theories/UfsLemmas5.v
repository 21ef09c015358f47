(** Reading, writing attributes, opening, creating, removing: runs of single requests. *)
From Verif Require Import Base GoBuf CodecPrim Types Codec Msgs StubPrim CodecLemmas GoPath PathSpec Ufs UfsSpec UfsLemmas.

Ltac units := repeat match goal with x : ret_of OLock |- _ => destruct x | x : ret_of OUnlock |- _ => destruct x
    | x : ret_of (OPut _ _) |- _ => destruct x | x : ret_of (ODel _) |- _ => destruct x | x : ret_of (OSet _ _) |- _ => destruct x end.

(** * Panics *)
(** The reads that take the process down: of a file, with a negative count; or the operating system says that it
    put more bytes into the buffer than the buffer has. *)
Definition bad_read (u : table) (m : tmsg) (tr : list event) : Prop :=
  exists fid o n f h, m = MTread (mkTreadPkt fid o n) /\ u fid = Some f /\ f_file f = Some h /\
    N.land (QID_Type (f_QID f)) QTDIR = 0 /\
    ((n < 0)%Z \/ exists b e, In (Ev (OReadAt h (Z.to_N n) (i64 o)) (b, e)) tr /\ (e = None \/ e = Some EOF) /\ (n < Z.of_N (blen b))%Z).
Definition read_of (e : event) : bytes * option oserr :=
  match e with Ev o x => match o return ret_of o -> bytes * option oserr with OReadAt _ _ _ => fun x => x | _ => fun _ => ([], None) end x end.
Theorem panic_iff c m u tr r u' : exec (method c m) u tr r u' -> (r = None <-> bad_read u m tr).
Proof.
  intros H. unfold bad_read. split.
  - intros Hr. methods m H.
    all: try discriminate.
    all: try match goal with E : Unmarshaldir _ = UPanic |- _ => destruct (nopanicDir _ E) end.
    { remember (@None (answerOf rmsg)) as r0 eqn:Er in H. wcases H; discriminate. }
    { exists a, b, d, f, h. apply negb_false_iff, N.eqb_eq in E1. apply Z.ltb_lt in E2. auto 8. }
    all: exists a, b, d, f, h; apply negb_false_iff, N.eqb_eq in E1; repeat (split; [auto|]); right.
    all: match goal with |- context [Ev _ (?b, ?e) :: _] => exists b, e end; cbn; split; [auto 6|]; split; [auto|].
    all: match goal with E : (_ <? Z.of_N _)%Z = true |- _ => apply Z.ltb_lt in E; exact E end.
  - intros (fid & o & n & f & h & -> & Hf & Hh & Hq & Hn).
    sx H; units; try congruence; try reflexivity; exfalso.
    all: try (assert (Eq1 : f0 = f) by congruence; subst f0).
    all: try (rewrite Hq in *; discriminate).
    all: repeat match goal with E : (_ <? _)%Z = false |- _ => apply Z.ltb_ge in E end; destruct Hn as [Hn|(b1 & e1 & Hin & He & Hn)]; [lia|].
    all: apply (in_map read_of) in Hin; cbn in Hin; repeat destruct Hin as [Hin|Hin]; try contradiction; inversion Hin; subst; cbn in *;
      first [lia | destruct He; discriminate].
Qed.

(** * Reading and writing files *)
Definition table_reads (tr : list event) : list event := filter (fun e => is_table (ev_op e)) tr.
Theorem file_read c fid o n f u tr b u' : u fid = Some f -> N.land (QID_Type (f_QID f)) QTDIR = 0 ->
  exec (method c (MTread (mkTreadPkt fid o n))) u tr (Some (inr (MRread (mkRreadPkt b)))) u' ->
  (Z.of_N (blen b) <= n)%Z /\ u' = u /\
  exists h e, f_file f = Some h /\ calls tr = [Ev (OReadAt h (Z.to_N n) (i64 o)) (b, e)] /\ (e = None \/ e = Some EOF).
Proof.
  intros Hf Hq H. sx H; units; try discriminate; try congruence.
  all: try (assert (Eq1 : f0 = f) by congruence; subst f0).
  all: try (rewrite Hq in *; discriminate).
  all: match goal with A : Some _ = Some _ |- _ => injection A as A; subst end; repeat match goal with E : (_ <? _)%Z = false |- _ => apply Z.ltb_ge in E end.
  all: split; [lia|]; split; [reflexivity|]; exists h; eexists; split; [assumption|]; split; [reflexivity|auto].
Qed.
(** A count that a client can mean is answered by at most so many bytes, for directories too; only the part of a
    directory entry kept for the next read can change. *)
Theorem read_bounded c fid o n u tr b u' : (0 <= n)%Z ->
  exec (method c (MTread (mkTreadPkt fid o n))) u tr (Some (inr (MRread (mkRreadPkt b)))) u' ->
  (Z.of_N (blen b) <= n)%Z /\
  exists f, u fid = Some f /\ f_file f <> None /\
    (u' fid = Some f \/ exists fl, u' fid = Some (mkFile (f_QID f) (f_fullName f) (f_file f) fl)) /\ forall x, x <> fid -> u' x = u x.
Proof.
  intros Hn H. sx H; units; try discriminate.
  all: match goal with A : Some _ = Some _ |- _ => injection A as A; subst end.
  all: repeat match goal with E : (_ <? _)%Z = false |- _ => apply Z.ltb_ge in E end.
  all: split; [first [lia|assumption|cbn; lia]|].
  all: exists f; split; [first [reflexivity|assumption]|]; split; [congruence|]; pokes;
       (split; [rewrite ?set_fid_same; rewrite ?E0; eauto|intros x Hx; repeat rewrite set_fid_other by exact Hx; reflexivity]).
Qed.
Theorem file_write c fid o b u tr a u' :
  exec (method c (MTwrite (mkTwritePkt fid o b))) u tr (Some (inr a)) u' ->
  u' = u /\ exists f h n, u fid = Some f /\ f_file f = Some h /\ calls tr = [Ev (OWriteAt h b (i64 o)) (n, None)] /\
    a = MRwrite (mkRwritePkt (i32 (u32_of_z n))).
Proof.
  intros H. sx H; units; try discriminate.
  match goal with A : Some _ = Some _ |- _ => injection A as A; subst end.
  split; [reflexivity|]. exists f, h, z. split; [first [reflexivity|assumption]|]. split; [assumption|]. split; reflexivity.
Qed.

(** * Stat *)
Theorem stat_semantics c fid u tr r u' : exec (method c (MTstat (mkTstatPkt fid))) u tr r u' ->
  u' = u /\ forall f, u fid = Some f ->
  (exists e, calls tr = [Ev (OLstat (f_fullName f)) (inl e)] /\ r = Some (inl (str "ENOENT"))) \/
  (exists fi, calls tr = [Ev (OLstat (f_fullName f)) (inr fi)] /\
     r = Some (inr (MRstat (mkRstatPkt (Marshaldir (dirTo9p2000Dir (user c) fi)))))).
Proof.
  intros H. sx H; units; (split; [reflexivity|]); intros g Hg; try congruence.
  all: try (assert (Eq1 : f = g) by congruence; subst f).
  - left. eexists. split; reflexivity.
  - right. eexists. split; reflexivity.
Qed.

(** * Open, create, remove *)
Theorem open_semantics c fid mode u tr r u' : exec (method c (MTopen (mkTopenPkt fid mode))) u tr r u' ->
  forall f, u fid = Some f ->
  (exists e, calls tr = [Ev (OOpen (f_fullName f) (modeToUnixFlags mode) 0) (inl e)] /\ r = Some (inl (err_text e)) /\ held u' fid = None) \/
  (exists h, calls tr = [Ev (OOpen (f_fullName f) (modeToUnixFlags mode) 0) (inr h)] /\
     r = Some (inr (MRopen (mkRopenPkt (f_QID f) (IOunit c)))) /\
     u' fid = Some (mkFile (f_QID f) (f_fullName f) (Some h) (f_oflow f))).
Proof.
  intros H. sx H; units; intros g Hg; try congruence; (assert (Eq1 : f = g) by congruence; subst f); pokes.
  - left. eexists. split; [reflexivity|]. split; [reflexivity|]. unfold held. rewrite set_fid_same. reflexivity.
  - right. eexists. split; [reflexivity|]. split; [reflexivity|]. apply set_fid_same.
Qed.
Theorem create_semantics c fid name perm mode u tr a u' :
  exec (method c (MTcreate (mkTcreatePkt fid name perm mode))) u tr (Some (inr a)) u' ->
  exists f fi, u fid = Some f /\ f_file f = None /\ let n := Join (f_fullName f) name in
    a = MRcreate (mkRcreatePkt (fileInfoToQID fi) 8000) /\
    if N.land perm DMDIR =? 0 then
      exists h flags, N.land flags O_CREATE = O_CREATE /\ N.land flags O_TRUNC = O_TRUNC /\ N.land flags 3 = N.land (modeToUnixFlags mode) 3 /\
        calls tr = [Ev (OOpen n flags (N.land perm 511)) (inr h); Ev (OLstat n) (inr fi)] /\
        u' = set_fid u fid (Some (mkFile (fileInfoToQID fi) n (Some h) (f_oflow f)))
    else
      exists x, calls tr = [Ev (OMkdir n (N.land perm 511)) x; Ev (OLstat n) (inr fi)] /\
        u' = set_fid u fid (Some (mkFile (fileInfoToQID fi) n None (f_oflow f))).
Proof.
  intros H. sx H; units; try discriminate; match goal with A : Some _ = Some _ |- _ => injection A as A; subst end;
    exists f; eexists; (split; [first [reflexivity|assumption]|]); (split; [assumption|]); cbv zeta; (split; [reflexivity|]); pokes.
  - apply negb_true_iff in E1. rewrite E1. eexists. split; reflexivity.
  - apply negb_false_iff in E1. rewrite E1. eexists. exists (N.lor (N.lor (modeToUnixFlags mode) O_CREATE) O_TRUNC).
    split; [|split; [|split; [|split; [reflexivity|reflexivity]]]].
    + rewrite !N.land_lor_distr_l. change (N.land O_CREATE O_CREATE) with O_CREATE. change (N.land O_TRUNC O_CREATE) with 0. rewrite N.lor_0_r.
      apply N.bits_inj. intros i. rewrite N.lor_spec, N.land_spec. destruct (N.testbit O_CREATE i); [apply orb_true_r|rewrite andb_false_r; reflexivity].
    + rewrite !N.land_lor_distr_l. change (N.land O_CREATE O_TRUNC) with 0. change (N.land O_TRUNC O_TRUNC) with O_TRUNC. rewrite N.lor_0_r.
      apply N.bits_inj. intros i. rewrite N.lor_spec, N.land_spec. destruct (N.testbit O_TRUNC i); [apply orb_true_r|rewrite andb_false_r; reflexivity].
    + rewrite !N.land_lor_distr_l. change (N.land O_CREATE 3) with 0. change (N.land O_TRUNC 3) with 0. rewrite !N.lor_0_r. reflexivity.
Qed.
Theorem remove_semantics c fid u tr r u' : exec (method c (MTremove (mkTremovePkt fid))) u tr r u' ->
  u' fid = None /\ (forall x, x <> fid -> u' x = u x) /\
  forall f, u fid = Some f -> exists x,
    map (fun e => ev_op e) (calls tr) = (match f_file f with Some h => [OClose h] | None => [] end) ++ [ORemove (f_fullName f)] /\
    last (calls tr) (Ev OLock tt) = Ev (ORemove (f_fullName f)) x /\
    r = Some (match x with None => inr (MRremove mkRremovePkt) | Some e => inl (err_text e) end).
Proof.
  intros H. sx H; units.
  all: split; [first [assumption|apply set_fid_same]|]; split; [intros y Hy; first [reflexivity|apply set_fid_other; exact Hy]|]; intros g Hg; try congruence.
  all: assert (Eq1 : f = g) by congruence; subst f.
  all: eexists; split; [rewrite E0; reflexivity|]; split; reflexivity.
Qed.

(** * Version *)
Theorem version_keeps c msize v u tr r u' : exec (method c (MTversion (mkTversionPkt msize v))) u tr r u' -> u' = u /\ tr = [].
Proof. intros H. sx H; auto. Qed.

(** * Open flags *)
Lemma modeToUnixFlags_spec mode :
  modeToUnixFlags mode = (match N.land mode 3 with 1 => O_WRONLY | 2 => O_RDWR | _ => O_RDONLY end) + (if N.testbit mode 4 then O_TRUNC else 0).
Proof.
  unfold modeToUnixFlags. cbv zeta.
  assert (Ht : negb (N.land mode OTRUNC =? 0) = N.testbit mode 4).
  { change OTRUNC with (2 ^ 4). rewrite N.land_comm. destruct (N.testbit mode 4) eqn:E.
    - apply negb_true_iff, N.eqb_neq. intros X. assert (Y : N.testbit (N.land (2^4) mode) 4 = false) by (rewrite X; reflexivity).
      rewrite N.land_spec, E, N.pow2_bits_true in Y. discriminate.
    - apply negb_false_iff, N.eqb_eq. apply N.bits_inj. intros i. rewrite N.land_spec, N.bits_0. destruct (N.eq_dec i 4) as [->|Hi].
      + rewrite E. apply andb_false_r.
      + rewrite N.pow2_bits_false by congruence. reflexivity. }
  rewrite Ht. assert (L : N.land mode 3 < 4) by (change 3 with (N.ones 2); rewrite N.land_ones; apply N.mod_lt; discriminate).
  destruct (N.land mode 3) as [|[[|[]|]|[]|]]; try (exfalso; lia); destruct (N.testbit mode 4); reflexivity.
Qed.

(** * File information *)
Lemma land_pow2 a n : negb (N.land a (2 ^ n) =? 0) = N.testbit a n.
Proof.
  destruct (N.testbit a n) eqn:E.
  - apply negb_true_iff, N.eqb_neq. intros X. assert (Y : N.testbit (N.land a (2^n)) n = false) by (rewrite X; apply N.bits_0).
    rewrite N.land_spec, E, N.pow2_bits_true in Y. discriminate.
  - apply negb_false_iff, N.eqb_eq. apply N.bits_inj. intros i. rewrite N.land_spec, N.bits_0. destruct (N.eq_dec i n) as [->|Hi].
    + rewrite E. reflexivity.
    + rewrite N.pow2_bits_false by congruence. apply andb_false_r.
Qed.
Theorem info_agrees fi name :
  let d := dirTo9p2000Dir name fi in
  N.testbit (QID_Type (fileInfoToQID fi)) 7 = IsDir fi /\ N.testbit (Dir_Mode d) 31 = IsDir fi /\
  Dir_QID d = fileInfoToQID fi /\ (forall ino, fi_Sys fi = Some ino -> QID_Path (fileInfoToQID fi) = ino) /\
  (forall i, i < 9 -> N.testbit (Dir_Mode d) i = N.testbit (fi_Mode fi) i) /\
  (forall i, 9 <= i -> i <> 31 -> N.testbit (Dir_Mode d) i = false) /\ Dir_Name d = fi_Name fi /\ Dir_Length d = u64_of_z (fi_Size fi).
Proof.
  cbv zeta. unfold dirTo9p2000Dir, fileInfoToQID. cbn [Dir_Mode Dir_QID Dir_Name Dir_Length QID_Type QID_Path].
  change DMDIR with (2 ^ 31). assert (M : forall i, N.testbit (dirTo9p2000Mode fi) i = (N.testbit (fi_Mode fi) i && (i <? 9)) || (IsDir fi && (i =? 31))).
  { intros i. unfold dirTo9p2000Mode. cbv zeta. change 511 with (N.ones 9). change DMDIR with (2 ^ 31).
    assert (O : N.testbit (N.land (fi_Mode fi) (N.ones 9)) i = N.testbit (fi_Mode fi) i && (i <? 9)).
    { rewrite N.land_spec. destruct (N.ltb_spec i 9) as [L|L]; [rewrite N.ones_spec_low|rewrite N.ones_spec_high]; trivial. }
    destruct (IsDir fi); [rewrite N.lor_spec, N.pow2_bits_eqb, O, (N.eqb_sym 31); reflexivity|rewrite O, orb_false_r; reflexivity]. }
  split; [|split; [|split; [reflexivity|split; [|split; [|split; [|split; reflexivity]]]]]].
  - unfold dirToQIDType. cbv zeta. destruct (IsDir fi), (negb (N.land (fi_Mode fi) ModeSymlink =? 0)); reflexivity.
  - rewrite M. rewrite andb_false_r. apply andb_true_r.
  - intros ino ->. reflexivity.
  - intros i Hi. rewrite M. replace (i <? 9) with true by (symmetry; apply N.ltb_lt; exact Hi). replace (i =? 31) with false by (symmetry; apply N.eqb_neq; lia).
    rewrite andb_true_r, andb_false_r. apply orb_false_r.
  - intros i Hi Hn. rewrite M. replace (i <? 9) with false by (symmetry; apply N.ltb_ge; exact Hi). replace (i =? 31) with false by (symmetry; apply N.eqb_neq; exact Hn).
    rewrite !andb_false_r. reflexivity.
Qed.

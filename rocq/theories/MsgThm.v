(** Lifting the generic codec theorems to the transcribed messages. *)
From Verif Require Import Base GoBuf CodecPrim Types Codec Gen GenThm GenInv Msgs GenEq CodecSpec.

Lemma umap_umap {A B C} (f : A -> B) (g : B -> C) r : umap g (umap f r) = umap (fun x => g (f x)) r.
Proof. destruct r; reflexivity. Qed.

Definition is_ttype (ty : N) : bool :=
  existsb (N.eqb ty) [Tversion_t; Tattach_t; Tflush_t; Twalk_t; Topen_t; Tcreate_t; Tread_t; Twrite_t;
                      Tclunk_t; Tremove_t; Tstat_t; Twstat_t].
Definition is_rtype (ty : N) : bool :=
  existsb (N.eqb ty) [Rversion_t; Rattach_t; Rerror_t; Rflush_t; Rwalk_t; Ropen_t; Rcreate_t; Rread_t; Rwrite_t;
                      Rclunk_t; Rremove_t; Rstat_t; Rwstat_t].
Lemma is_ttype_ttype m : is_ttype (ttype m) = true.
Proof. destruct m; reflexivity. Qed.
Lemma is_rtype_rtype m : is_rtype (rtype m) = true.
Proof. destruct m; reflexivity. Qed.
Lemma is_ttype_cases (P : N -> Prop) :
  P Tversion_t -> P Tattach_t -> P Tflush_t -> P Twalk_t -> P Topen_t -> P Tcreate_t -> P Tread_t ->
  P Twrite_t -> P Tclunk_t -> P Tremove_t -> P Tstat_t -> P Twstat_t ->
  forall ty, is_ttype ty = true -> P ty.
Proof.
  intros. unfold is_ttype in *. apply existsb_exists in H11. destruct H11 as (x & Hx & E).
  apply N.eqb_eq in E. subst x. cbn [In] in Hx.
  repeat (destruct Hx as [<-|Hx]; [assumption|]). destruct Hx.
Qed.
Lemma is_rtype_cases (P : N -> Prop) :
  P Rversion_t -> P Rattach_t -> P Rerror_t -> P Rflush_t -> P Rwalk_t -> P Ropen_t -> P Rcreate_t -> P Rread_t ->
  P Rwrite_t -> P Rclunk_t -> P Rremove_t -> P Rstat_t -> P Rwstat_t ->
  forall ty, is_rtype ty = true -> P ty.
Proof.
  intros. unfold is_rtype in *. apply existsb_exists in H12. destruct H12 as (x & Hx & E).
  apply N.eqb_eq in E. subst x. cbn [In] in Hx.
  repeat (destruct Hx as [<-|Hx]; [assumption|]). destruct Hx.
Qed.

(** The transcribed unmarshaller of type ty returns messages of that type, and seen through
    the field list it is the generic one. *)
Lemma unmarshalT_gen ty b : is_ttype ty = true ->
  exists r, unmarshalT ty b = Some r /\ umap valsT r = unmarshal_pkt (schT ty) b /\
            forall m t rest e, r = URet m t rest e -> ttype m = ty.
Proof.
  revert ty. apply is_ttype_cases.
  all: match goal with |- context [unmarshalT ?ty ?b] =>
         let r := eval cbv [unmarshalT Tversion_t Tattach_t Tflush_t Twalk_t Topen_t Tcreate_t Tread_t Twrite_t Tclunk_t Tremove_t Tstat_t Twstat_t N.eqb Pos.eqb] in (unmarshalT ty b) in
         change (unmarshalT ty b) with r end.
  all: eexists; split; [reflexivity|]; split; [rewrite umap_umap|].
  all: try (intros m t rest e H; match type of H with umap _ ?x = _ => destruct x; [|discriminate] end;
            cbn [umap] in H; injection H as <- <- <- <-; reflexivity).
  - apply UnmarshalTversion_gen.
  - apply UnmarshalTattach_gen.
  - apply UnmarshalTflush_gen.
  - apply UnmarshalTwalk_gen.
  - apply UnmarshalTopen_gen.
  - apply UnmarshalTcreate_gen.
  - apply UnmarshalTread_gen.
  - apply UnmarshalTwrite_gen.
  - apply UnmarshalTclunk_gen.
  - apply UnmarshalTremove_gen.
  - apply UnmarshalTstat_gen.
  - apply UnmarshalTwstat_gen.
Qed.
Lemma unmarshalR_gen ty b : is_rtype ty = true ->
  exists r, unmarshalR ty b = Some r /\ umap valsR r = unmarshal_pkt (schR ty) b /\
            forall m t rest e, r = URet m t rest e -> rtype m = ty.
Proof.
  revert ty. apply is_rtype_cases.
  all: match goal with |- context [unmarshalR ?ty ?b] =>
         let r := eval cbv [unmarshalR Rversion_t Rattach_t Rerror_t Rflush_t Rwalk_t Ropen_t Rcreate_t Rread_t Rwrite_t Rclunk_t Rremove_t Rstat_t Rwstat_t N.eqb Pos.eqb] in (unmarshalR ty b) in
         change (unmarshalR ty b) with r end.
  all: eexists; split; [reflexivity|]; split; [rewrite umap_umap|].
  all: try (intros m t rest e H; match type of H with umap _ ?x = _ => destruct x; [|discriminate] end;
            cbn [umap] in H; injection H as <- <- <- <-; reflexivity).
  - apply UnmarshalRversion_gen.
  - apply UnmarshalRattach_gen.
  - apply UnmarshalRerror_gen.
  - apply UnmarshalRflush_gen.
  - apply UnmarshalRwalk_gen.
  - apply UnmarshalRopen_gen.
  - apply UnmarshalRcreate_gen.
  - apply UnmarshalRread_gen.
  - apply UnmarshalRwrite_gen.
  - apply UnmarshalRclunk_gen.
  - apply UnmarshalRremove_gen.
  - apply UnmarshalRstat_gen.
  - apply UnmarshalRwstat_gen.
Qed.

(** Field lists determine the message. *)
Lemma map_inj {A B} (f : A -> B) : (forall x y, f x = f y -> x = y) -> forall l l', map f l = map f l' -> l = l'.
Proof.
  intros Hf. induction l as [|a l IH]; intros [|a' l'] H; cbn in H; try discriminate; [reflexivity|].
  injection H as H1 H2. f_equal; auto.
Qed.
Lemma valsQID_inj q q' : valsQID q = valsQID q' -> q = q'.
Proof. destruct q, q'. cbn. intros H. injection H as -> -> ->. reflexivity. Qed.
Lemma valsT_inj m m' : ttype m = ttype m' -> valsT m = valsT m' -> m = m'.
Proof.
  destruct m as [[]|[]|[]|[]|[]|[]|[]|[]|[]|[]|[]|[]], m' as [[]|[]|[]|[]|[]|[]|[]|[]|[]|[]|[]|[]];
    intros Ht; try discriminate Ht; cbn; intros H; try (injection H; intros; subst; reflexivity).
  injection H as -> -> H. apply map_inj in H; [subst; reflexivity|]. intros x y E. injection E as ->. reflexivity.
Qed.
Lemma valsR_inj m m' : rtype m = rtype m' -> valsR m = valsR m' -> m = m'.
Proof.
  destruct m as [[]|[]|[]|[]|[]|[]|[]|[]|[]|[]|[]|[]|[]], m' as [[]|[]|[]|[]|[]|[]|[]|[]|[]|[]|[]|[]|[]];
    intros Ht; try discriminate Ht; cbn; intros H; try (injection H; intros; subst; reflexivity); try reflexivity.
  - destruct Rattach_QID, Rattach_QID0. cbn in H. injection H as -> -> ->. reflexivity.
  - injection H as H. apply map_inj in H; [subst; reflexivity|]. apply valsQID_inj.
  - destruct Ropen_OQID, Ropen_OQID0. cbn in H. injection H as -> -> -> ->. reflexivity.
  - destruct Rcreate_OQID, Rcreate_OQID0. cbn in H. injection H as -> -> -> ->. reflexivity.
Qed.
Lemma valsDir_inj d d' : valsDir d = valsDir d' -> d = d'.
Proof. destruct d as [? ? [] ? ? ? ? ? ? ? ?], d' as [? ? [] ? ? ? ? ? ? ? ?]. cbn. intros H. injection H; intros; subst; reflexivity. Qed.

(** Schemas are sane, and "fits" is well-formedness. *)
Lemma okT ty : Forall okl (schT ty).
Proof. unfold schT. repeat match goal with |- context [if ?c then _ else _] => destruct c end; repeat constructor; cbn; lia. Qed.
Lemma okR ty : Forall okl (schR ty).
Proof. unfold schR. repeat match goal with |- context [if ?c then _ else _] => destruct c end; repeat constructor; cbn; lia. Qed.
Lemma okDir : Forall okl schDir.
Proof. repeat constructor; cbn; lia. Qed.

Lemma wf0s_QID q : fitsQID q <-> wf0s schQID (valsQID q).
Proof.
  unfold fitsQID, u8n, u32n, u64n, wf0s, schQID, valsQID. split.
  - intros (A & B & C). repeat first [assumption|constructor].
  - intros H. inversion H; subst. inversion H5; subst. inversion H7; subst. repeat split; assumption.
Qed.
Ltac wfinv := repeat match goal with
  | H : wfs _ _ |- _ => unfold wfs in H
  | H : Forall2 _ (_ :: _) _ |- _ => inversion H; clear H; subst
  | H : Forall2 _ [] _ |- _ => inversion H; clear H; subst
  end.
Lemma wfT_fits m : fitsT m <-> wfs (schT (ttype m)) (valsT m).
Proof.
  assert (W : forall l, Forall short l <-> Forall (wf0s [LStr]) (map (fun s => [VS s]) l)).
  { intros l. rewrite Forall_map. split; apply Forall_impl; intros s Hs.
    - repeat constructor. exact Hs.
    - inversion Hs; subst. assumption. }
  destruct m as [p|p|p|p|p|p|p|p|p|p|p|p]; cbn [fitsT valsT];
    match goal with |- context [schT ?x] => let s := eval compute in (schT x) in change (schT x) with s end;
    unfold u8n, u16n, u32n, u64n, short.
  all: try solve [split; [intros; repeat match goal with H : _ /\ _ |- _ => destruct H end; repeat first [assumption|constructor]
                   | intros; wfinv; repeat first [assumption|exact I|split]]].
  split.
  - intros (A & B & C & D). constructor; [exact A|]. constructor; [exact B|]. constructor; [|constructor].
    cbn. rewrite glen_map. split; [exact C|]. apply W, D.
  - intros H. wfinv. cbn in *. rewrite glen_map in *. match goal with H : _ /\ Forall _ _ |- _ => destruct H as [C D] end. repeat split; try assumption. apply W, D.
Qed.
Lemma wfR_fits m : fitsR m <-> wfs (schR (rtype m)) (valsR m).
Proof.
  destruct m as [p|p|p|p|p|p|p|p|p|p|p|p|p]; cbn [fitsR valsR];
    match goal with |- context [schR ?x] => let s := eval compute in (schR x) in change (schR x) with s end;
    unfold fitsQID, u8n, u16n, u32n, u64n, short; cbn [map valsQID app].
  all: try solve [split; [intros; repeat match goal with H : _ /\ _ |- _ => destruct H end; repeat first [assumption|constructor]
                   | intros; wfinv; repeat first [assumption|exact I|split]]].
  assert (W : forall l, Forall fitsQID l <-> Forall (wf0s schQID) (map valsQID l)).
  { intros l. rewrite Forall_map. split; apply Forall_impl; intros s Hs; apply wf0s_QID, Hs. }
  split.
  - intros (A & B). constructor; [|constructor]. cbn. rewrite glen_map. split; [exact A|apply W, B].
  - intros H. wfinv. cbn in *. rewrite glen_map in *. match goal with H : _ /\ Forall _ _ |- _ => destruct H as [C D] end. split; [exact C|apply W, D].
Qed.
Lemma wfDir_fits d : fitsDir d <-> wfs schDir (valsDir d).
Proof.
  unfold fitsDir, fitsQID, schDir, valsDir, u8n, u16n, u32n, u64n, short; cbn [map valsQID schQID app].
  split; [intros; repeat match goal with H : _ /\ _ |- _ => destruct H end; repeat first [assumption|constructor]
         | intros; wfinv; repeat first [assumption|exact I|split]].
Qed.

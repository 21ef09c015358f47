(** genout.go is what gen.go emits: every transcribed Marshal/Unmarshal function equals the
    generic one at the schema of its struct type. *)
From Verif Require Import Base GoBuf CodecPrim Types Codec Gen Msgs.

Lemma flat_map_map {A B C} (f : B -> list C) (g : A -> B) l :
  flat_map f (map g l) = flat_map (fun x => f (g x)) l.
Proof. induction l as [|a l IH]; cbn; [|rewrite IH]; reflexivity. Qed.
Lemma flat_map_ext' {A B} (f g : A -> list B) l : (forall x, f x = g x) -> flat_map f l = flat_map g l.
Proof. intros H. induction l as [|a l IH]; cbn; [|rewrite IH, H]; reflexivity. Qed.
Lemma glen_map {A B} (f : A -> B) l : glen (map f l) = glen l.
Proof. unfold glen. rewrite map_length. reflexivity. Qed.

(** * Marshalling *)
Lemma marshalT_gen t m : marshalT t m = marshal_pkt (schT (ttype m)) (ttype m) t (valsT m).
Proof.
  destruct m as [p|p|p|p|p|p|p|p|p|p|p|p]; destruct p; unfold marshalT, marshal_pkt;
    cbv [MarshalTversionPkt MarshalTattachPkt MarshalTflushPkt MarshalTopenPkt MarshalTcreatePkt
         MarshalTreadPkt MarshalTwritePkt MarshalTclunkPkt MarshalTremovePkt MarshalTstatPkt MarshalTwstatPkt MarshalTwalkPkt];
    f_equal; cbn -[N.shiftr Z.shiftr u8 u8z]; rewrite ?app_nil_r; try reflexivity.
  rewrite flat_map_map, glen_map. do 17 f_equal. apply flat_map_ext'. intros s.
  cbn -[N.shiftr u8]. rewrite app_nil_r. reflexivity.
Qed.

Lemma marshalR_gen t m : marshalR t m = marshal_pkt (schR (rtype m)) (rtype m) t (valsR m).
Proof.
  destruct m as [p|p|p|p|p|p|p|p|p|p|p|p|p]; destruct p; unfold marshalR, marshal_pkt;
    cbv [MarshalRversionPkt MarshalRattachPkt MarshalRflushPkt MarshalRopenPkt MarshalRcreatePkt
         MarshalRreadPkt MarshalRwritePkt MarshalRclunkPkt MarshalRremovePkt MarshalRstatPkt MarshalRwstatPkt
         MarshalRwalkPkt MarshalRerrorPkt];
    f_equal; cbn -[N.shiftr Z.shiftr u8 u8z]; rewrite ?app_nil_r; try reflexivity.
  rewrite flat_map_map, glen_map. reflexivity.
Qed.

Lemma Marshaldir_gen d : Marshaldir d = marshal_stat schDir (valsDir d).
Proof.
  unfold Marshaldir, marshal_stat. f_equal. destruct d, Dir_QID.
  cbn -[N.shiftr u8]. rewrite ?app_nil_r. reflexivity.
Qed.

(** * Unmarshalling *)
Definition lmap' {A B} (g : A -> B) (r : lres A) : lres B :=
  match r with LNext a u b => LNext (g a) u b | LRet a b e => LRet (g a) b e | LPanic => LPanic end.

(** Two loops whose bodies agree up to a translation of elements. *)
Lemma for_range_map {A B R} (g : A -> B) zA zB n body body' u b (panic : R) retA kA retB kB :
  zB = g zA ->
  (forall u b, body' u b = lmap' g (body u b)) ->
  (forall l b e, retA l b e = retB (map g l) b e) ->
  (forall l u b, kA l u b = kB (map g l) u b) ->
  for_range zA n u b body panic retA kA = for_range zB n u b body' panic retB kB.
Proof.
  intros -> Hb. revert u b retA kA retB kB.
  induction n as [|n IH]; intros u b retA kA retB kB Hr Hk; cbn [for_range].
  - rewrite Hk. reflexivity.
  - rewrite Hb. destruct (body u b) as [a u' b'|a b' e|]; cbn [lmap'].
    + apply IH; intros; [apply Hr|apply Hk].
    + rewrite Hr. cbn [map]. f_equal. f_equal. clear. induction n; cbn; [|rewrite IHn]; reflexivity.
    + reflexivity.
Qed.
Lemma for_range_comm {A R S} (h : R -> S) (zA : A) n body u b (panic : R) ret k :
  h (for_range zA n u b body panic ret k)
  = for_range zA n u b body (h panic) (fun l b e => h (ret l b e)) (fun l u b => h (k l u b)).
Proof.
  revert u b ret k. induction n as [|n IH]; intros u b ret k; cbn [for_range]; [reflexivity|].
  destruct (body u b); [|reflexivity|reflexivity]. rewrite IH. reflexivity.
Qed.

Ltac genred := cbn [umap lbind lmap lmap'].
Ltac headscrut t :=
  match t with
  | umap _ ?t => headscrut t
  | lmap' _ ?t => headscrut t
  | match ?x with _ => _ end => x
  end.
Ltac gensplit :=
  unfold rd, reslice;
  repeat (genred;
    match goal with
    | |- ?l = _ =>
        let x := headscrut l in
        match x with
        | buf_read _ _ => destruct x as [[? ?]|]
        | _ => destruct x
        end
    end);
  try reflexivity.
Ltac geneq Un :=
  repeat match goal with
  | |- context [schT ?x] => let s := eval compute in (schT x) in change (schT x) with s
  | |- context [schR ?x] => let s := eval compute in (schR x) in change (schR x) with s
  end;
  unfold Un, unmarshal_pkt; cbn [decs dec1 dec0 map app zero zero0 dec0s];
  cbv [genint fold_left seq Nat.sub N.of_nat Pos.of_succ_nat Pos.succ N.mul Pos.mul Pos.add];
  gensplit.

Lemma UnmarshalTversion_gen b :
  umap (fun p => valsT (MTversion p)) (UnmarshalTversionPkt b) = unmarshal_pkt (schT Tversion_t) b.
Proof. geneq UnmarshalTversionPkt. Qed.
Lemma UnmarshalTattach_gen b :
  umap (fun p => valsT (MTattach p)) (UnmarshalTattachPkt b) = unmarshal_pkt (schT Tattach_t) b.
Proof. geneq UnmarshalTattachPkt. Qed.
Lemma UnmarshalTflush_gen b :
  umap (fun p => valsT (MTflush p)) (UnmarshalTflushPkt b) = unmarshal_pkt (schT Tflush_t) b.
Proof. geneq UnmarshalTflushPkt. Qed.
Lemma UnmarshalTopen_gen b :
  umap (fun p => valsT (MTopen p)) (UnmarshalTopenPkt b) = unmarshal_pkt (schT Topen_t) b.
Proof. geneq UnmarshalTopenPkt. Qed.
Lemma UnmarshalTcreate_gen b :
  umap (fun p => valsT (MTcreate p)) (UnmarshalTcreatePkt b) = unmarshal_pkt (schT Tcreate_t) b.
Proof. geneq UnmarshalTcreatePkt. Qed.
Lemma UnmarshalTread_gen b :
  umap (fun p => valsT (MTread p)) (UnmarshalTreadPkt b) = unmarshal_pkt (schT Tread_t) b.
Proof. geneq UnmarshalTreadPkt. Qed.
Lemma UnmarshalTwrite_gen b :
  umap (fun p => valsT (MTwrite p)) (UnmarshalTwritePkt b) = unmarshal_pkt (schT Twrite_t) b.
Proof. geneq UnmarshalTwritePkt. Qed.
Lemma UnmarshalTclunk_gen b :
  umap (fun p => valsT (MTclunk p)) (UnmarshalTclunkPkt b) = unmarshal_pkt (schT Tclunk_t) b.
Proof. geneq UnmarshalTclunkPkt. Qed.
Lemma UnmarshalTremove_gen b :
  umap (fun p => valsT (MTremove p)) (UnmarshalTremovePkt b) = unmarshal_pkt (schT Tremove_t) b.
Proof. geneq UnmarshalTremovePkt. Qed.
Lemma UnmarshalTstat_gen b :
  umap (fun p => valsT (MTstat p)) (UnmarshalTstatPkt b) = unmarshal_pkt (schT Tstat_t) b.
Proof. geneq UnmarshalTstatPkt. Qed.
Lemma UnmarshalTwstat_gen b :
  umap (fun p => valsT (MTwstat p)) (UnmarshalTwstatPkt b) = unmarshal_pkt (schT Twstat_t) b.
Proof. geneq UnmarshalTwstatPkt. Qed.
Lemma UnmarshalRversion_gen b :
  umap (fun p => valsR (MRversion p)) (UnmarshalRversionPkt b) = unmarshal_pkt (schR Rversion_t) b.
Proof. geneq UnmarshalRversionPkt. Qed.
Lemma UnmarshalRattach_gen b :
  umap (fun p => valsR (MRattach p)) (UnmarshalRattachPkt b) = unmarshal_pkt (schR Rattach_t) b.
Proof. geneq UnmarshalRattachPkt. Qed.
Lemma UnmarshalRflush_gen b :
  umap (fun p => valsR (MRflush p)) (UnmarshalRflushPkt b) = unmarshal_pkt (schR Rflush_t) b.
Proof. geneq UnmarshalRflushPkt. Qed.
Lemma UnmarshalRopen_gen b :
  umap (fun p => valsR (MRopen p)) (UnmarshalRopenPkt b) = unmarshal_pkt (schR Ropen_t) b.
Proof. geneq UnmarshalRopenPkt. Qed.
Lemma UnmarshalRcreate_gen b :
  umap (fun p => valsR (MRcreate p)) (UnmarshalRcreatePkt b) = unmarshal_pkt (schR Rcreate_t) b.
Proof. geneq UnmarshalRcreatePkt. Qed.
Lemma UnmarshalRread_gen b :
  umap (fun p => valsR (MRread p)) (UnmarshalRreadPkt b) = unmarshal_pkt (schR Rread_t) b.
Proof. geneq UnmarshalRreadPkt. Qed.
Lemma UnmarshalRwrite_gen b :
  umap (fun p => valsR (MRwrite p)) (UnmarshalRwritePkt b) = unmarshal_pkt (schR Rwrite_t) b.
Proof. geneq UnmarshalRwritePkt. Qed.
Lemma UnmarshalRclunk_gen b :
  umap (fun p => valsR (MRclunk p)) (UnmarshalRclunkPkt b) = unmarshal_pkt (schR Rclunk_t) b.
Proof. geneq UnmarshalRclunkPkt. Qed.
Lemma UnmarshalRremove_gen b :
  umap (fun p => valsR (MRremove p)) (UnmarshalRremovePkt b) = unmarshal_pkt (schR Rremove_t) b.
Proof. geneq UnmarshalRremovePkt. Qed.
Lemma UnmarshalRstat_gen b :
  umap (fun p => valsR (MRstat p)) (UnmarshalRstatPkt b) = unmarshal_pkt (schR Rstat_t) b.
Proof. geneq UnmarshalRstatPkt. Qed.
Lemma UnmarshalRwstat_gen b :
  umap (fun p => valsR (MRwstat p)) (UnmarshalRwstatPkt b) = unmarshal_pkt (schR Rwstat_t) b.
Proof. geneq UnmarshalRwstatPkt. Qed.
Lemma UnmarshalRerror_gen b :
  umap (fun p => valsR (MRerror p)) (UnmarshalRerrorPkt b) = unmarshal_pkt (schR Rerror_t) b.
Proof. geneq UnmarshalRerrorPkt. Qed.

Ltac walkeq g :=
  match goal with |- umap ?h ?x = _ => rewrite (for_range_comm (umap h)) end;
  match goal with
  | |- _ = ?rhs =>
      match rhs with
      | context [for_range ?z ?n ?u ?b ?bd (@LPanic val) ?r ?k] =>
          let x := constr:(for_range z n u b bd (@LPanic val) r k) in
          pattern x;
          match goal with
          | |- (fun y => ?l = @?F y) x => refine (eq_trans _ (eq_sym (for_range_comm F z n bd u b (@LPanic val) r k)))
          end
      end
  end;
  cbv beta; cbn [umap lbind lmap];
  apply (for_range_map g);
  [ reflexivity
  | intros u' b'; cbn [dec0s dec0 map zero0];
    cbv [genint fold_left seq Nat.sub N.of_nat Pos.of_succ_nat Pos.succ N.mul Pos.mul Pos.add];
    symmetry; gensplit
  | reflexivity
  | intros l' u' b'; cbn [umap lbind lmap]; gensplit ].

Lemma UnmarshalTwalk_gen b :
  umap (fun p => valsT (MTwalk p)) (UnmarshalTwalkPkt b) = unmarshal_pkt (schT Twalk_t) b.
Proof. geneq UnmarshalTwalkPkt. walkeq (fun s => [VS s]). Qed.
Lemma UnmarshalRwalk_gen b :
  umap (fun p => valsR (MRwalk p)) (UnmarshalRwalkPkt b) = unmarshal_pkt (schR Rwalk_t) b.
Proof. geneq UnmarshalRwalkPkt. walkeq valsQID. Qed.
Lemma Unmarshaldir_gen b : umap valsDir (Unmarshaldir b) = unmarshal_stat schDir b.
Proof.
  unfold Unmarshaldir, unmarshal_stat, schDir, schQID; cbn [decs dec1 dec0 map app zero zero0 dec0s].
  cbv [genint fold_left seq Nat.sub N.of_nat Pos.of_succ_nat Pos.succ N.mul Pos.mul Pos.add].
  gensplit.
Qed.

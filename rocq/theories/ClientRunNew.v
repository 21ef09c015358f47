(** NewClient, GetTag and GetFID of client.go, through the machine. *)
From Verif Require Import Base GoBuf CodecPrim Types Codec Rpc GoSyntax Ufs GoRun GoFmt GoProg GoWp Server ServerRun ServerRunLemmas
  Client ClientLemmas ClientLemmas6 ClientRun ClientRunLemmas.
From Coq Require String Ascii.
Lemma all_tags_first : map (VU 16) all_tags = map (fun t => VU 16 (N.of_nat t)) (seq 1 (N.to_nat 65534)).
Proof. unfold all_tags, NumTags. apply map_map. Qed.
Local Opaque NumTags all_tags.

Definition tags_loop : stmt := Eval vm_compute in
  match find (fun s => match s with SFor _ _ _ _ => true | _ => false end) (body_of (str "NewClient")) with Some s => s | None => SBreak end.
Definition tags_cond : option expr := Eval vm_compute in match tags_loop with SFor _ c _ _ => c | _ => None end.
Definition tags_post : option stmt := Eval vm_compute in match tags_loop with SFor _ _ p _ => p | _ => None end.
Definition tags_body : list stmt := Eval vm_compute in match tags_loop with SFor _ _ _ b => b | _ => [] end.
Ltac machine_delta ::=
  lazy beta iota zeta delta [adv step stops known start fst snd
    resume stuck mapkey as_nat as_z bound foreign qualified is_path builtins named method_of has_field GoRun.bind pairs keys_of
    unboxed1 unboxed default_case zip defines lookup assign declare part
    basic_ints type_name int_of int_type zero_of zero type_of const_n literal pow2 wle wlt convert unify GoRun.is_nil eqv arith unary
    get_path like set_field set_path assoc also mem beq Byte.eqb Byte.to_bits Bool.eqb andb orb
    p_funcs p_types p_consts p_vars protocol_program ctl stk GoRun.env dfr f_name f_recv f_params f_body
    str String.list_byte_of_string String.list_ascii_of_string Ascii.byte_of_ascii Byte.of_bits map hd tl values_of first1
    answer lib lib_new lib_call set_chan w_chans w_next w_net w_gos ch_cap ch_buf ch_closed with_rest with_cell with_new cells free rest v_client v_chan v_c fromv trv tags_cond tags_post tags_body].
Definition first_tags (i : nat) : list value := map (fun t => VU 16 (N.of_nat t)) (seq 1 i).
Section New.
Context (RN : N) (opt : oserr + (value * value * value * N)).
Notation WP := (wp protocol_program (lib_new RN opt)).
Notation store hp nx ch n net g := (mkMem hp nx (mkNW ch n net g)).
Lemma tags_filled C fs n k hp nx x net g opts Q : hp C = Some (VStruct (str "Client") ((str "Tags", v_chan n) :: fs)) -> forall j i ch, (i + j)%nat = N.to_nat 65535 -> (1 <= i)%nat ->
  ch n = Some (mkCh 65534 (first_tags (i - 1)) false) ->
  (forall ch', ch' n = Some (mkCh 65534 (first_tags (N.to_nat 65534)) false) -> (forall x, x <> n -> ch' x = ch x) ->
     WP (mkM CEnd k [[(str "i", VI 64 65535)]; [(str "c", v_c C); (str "opts", opts)]] []) (store hp nx ch' x net g) Q) ->
  WP (mkM (CLoop tags_cond tags_post tags_body) k [[(str "i", VI 64 (Z.of_nat i))]; [(str "c", v_c C); (str "opts", opts)]] []) (store hp nx ch x net g) Q.
Proof.
  intros HC. induction j as [|j IH]; intros i ch Hij Hi Hch H.
  - go1. replace (Z.of_nat i <? Z.of_N 65535)%Z with false by (symmetry; apply Z.ltb_ge; lia).
    replace (Z.of_nat i) with 65535%Z by lia. apply H; [|auto]. rewrite Hch. do 3 f_equal. lia.
  - go1. replace (Z.of_nat i <? Z.of_N 65535)%Z with true by (symmetry; apply Z.ltb_lt; lia).
    go. eapply (wp_adv _ _ known 400); [machine_delta; constructed|].
    assert (Ew : uwrap 16 (Z.of_nat i) = N.of_nat i).
    { unfold uwrap. change (Z.of_N (pow2 16)) with 65536%Z. rewrite Z.mod_small by lia. lia. }
    rewrite Ew. eapply ask_out.
    { cbn [answer lib_new rest w_chans]. rewrite Hch. cbn [ch_buf ch_cap ch_closed].
      replace (blen (first_tags (i - 1)) <? 65534) with true; [reflexivity|]. symmetry. apply N.ltb_lt. unfold blen, first_tags. rewrite map_length, seq_length. lia. }
    go. replace (swrap 64 (Z.of_nat i + 1)) with (Z.of_nat (S i)) by (rewrite swrap64; lia).
    apply IH; [lia|lia| |].
    + cbn [put_chan]. unfold put_chan. rewrite N.eqb_refl. replace (S i - 1)%nat with (S (i - 1)) by lia. unfold first_tags. rewrite seq_S, map_app. cbn [map]. do 5 f_equal. lia.
    + intros ch' H1 H2. apply H; [exact H1|]. intros y Hy. rewrite H2 by exact Hy. unfold put_chan. destruct (N.eqb_spec y n); [contradiction|reflexivity].
Qed.
End New.
Section Runs.
Context (RN : N).
Notation WP opt := (wp protocol_program (lib_new RN opt)).
Notation store hp nx ch n net g := (mkMem hp nx (mkNW ch n net g)).
Ltac prepare :=
  go1; go;
  eapply tags_filled with (j := N.to_nat 65534) (i := 1%nat); [cell|lia|lia|unfold put_chan; rewrite N.eqb_refl; reflexivity|];
  let ch' := fresh "ch'" in let Hn := fresh "Hn" in let Ho := fresh "Ho" in intros ch' Hn Ho; go;
  match goal with |- wp _ _ _ (mkMem ?h ?nx _) _ =>
    let X := fresh in assert (X : forall a, a <> nx - 1 -> h a = _ a) by (intros a Ha; rewrite !put_other by lia; reflexivity);
    let v := open_constr:(_ : value) in let Y := fresh in assert (Y : h (nx - 1) = Some v) by (rewrite N.add_sub; apply put_same);
    rewrite N.add_sub in X, Y; revert X Y; generalize h end;
  match goal with |- context [repeat VNil ?z] => assert (EL : List.length (repeat VNil z) = NumTags /\ forall i, (i < NumTags)%nat -> nth_error (repeat VNil z) i = Some VNil); [|generalize dependent (repeat VNil z)] end;
  [|let L := fresh "L" in let EL := fresh "EL" in let hp' := fresh "hp'" in let Ho' := fresh "Ho'" in let Hc' := fresh "Hc'" in intros L EL hp' Ho' Hc'; go1; go].
Lemma nils z : Z.to_nat z = NumTags -> List.length (repeat VNil (Z.to_nat z)) = NumTags /\ forall i, (i < NumTags)%nat -> nth_error (repeat VNil (Z.to_nat z)) i = Some VNil.
Proof. intros ->. split; [apply repeat_length|]. intros i Hi. rewrite (nth_error_nth' _ VNil) by (rewrite repeat_length; exact Hi). f_equal. apply nth_repeat. Qed.
Lemma NewClient_fails er o hp nx ch n net g (Q : ending -> memory nworld -> Prop) :
  (forall hp' ch', (forall a, a <> nx -> hp' a = hp a) -> (forall x, x <> n -> ch' x = ch x) -> Q (Returned [VNil; VErr er]) (store hp' (nx + 1) ch' (n + 1) net g)) ->
  WP (inl er) (start (str "NewClient") [] [VObj (str "ClientOpt") o]) (store hp nx ch n net g) Q.
Proof.
  intros H. prepare.
  - apply nils. reflexivity.
  - apply H; [exact Ho'|]. intros x Hx. rewrite Ho by exact Hx. unfold put_chan. destruct (N.eqb_spec x n); [contradiction|reflexivity].
Qed.
Lemma NewClient_opens wn rn tn msz tr hn o hp nx ch n net g (Q : ending -> memory nworld -> Prop) :
  (forall hp' ch' L, (forall a, a <> nx -> hp' a = hp a) -> hp' nx = Some (v_cl n (n + 1) (n + 2) wn rn tn msz tr hn 1 L false) ->
     List.length L = NumTags -> (forall i, (i < NumTags)%nat -> nth_error L i = Some VNil) ->
     (forall x, x < n \/ n + 2 < x -> ch' x = ch x) -> ch' n = Some (mkCh 65534 (first_tags (N.to_nat 65534)) false) ->
     ch' (n + 1) = Some (mkCh 65534 [] false) -> ch' (n + 2) = Some (mkCh 0 [] false) ->
     Q (Returned [v_c nx; VNil]) (store hp' (nx + 1) ch' (n + 3) net (g ++ [(FUser (str "Client.IO") [v_c nx], []); (FUser (str "Client.readNetPackets") [v_c nx], [])]))) ->
  WP (inr (VObj (str "io.WriteCloser") wn, fromv rn hn, trv tn tr, msz)) (start (str "NewClient") [] [VObj (str "ClientOpt") o]) (store hp nx ch n net g) Q.
Proof.
  intros H. prepare.
  - apply nils. reflexivity.
  - destruct tr, hn; go1; go; rewrite <- (app_assoc g); cbn [app];
      replace (n + 1 + 1 + 1) with (n + 3) by lia; replace (n + 1 + 1) with (n + 2) by lia;
      (eapply H; [intros a Ha; rewrite !put_other by exact Ha; apply Ho', Ha|apply put_same|apply EL|apply EL|..];
       [intros x Hx; unfold put_chan; rewrite (proj2 (N.eqb_neq x (n + 1))), (proj2 (N.eqb_neq x (n + 2))) by lia; rewrite Ho by lia; unfold put_chan; rewrite (proj2 (N.eqb_neq x n)) by lia; reflexivity
       |unfold put_chan; rewrite (proj2 (N.eqb_neq n (n + 1))), (proj2 (N.eqb_neq n (n + 2))) by lia; exact Hn
       |unfold put_chan; rewrite (proj2 (N.eqb_neq (n + 1) (n + 2))), N.eqb_refl by lia; reflexivity
       |unfold put_chan; rewrite N.eqb_refl; reflexivity]).
Qed.
Lemma GetFID_runs opt C tags fc fs tn fn tr msz fid L dd s : cells s C = Some (v_client tags fc fs tn fn tr msz fid L dd) ->
  ends protocol_program (lib_new RN opt) (start (str "Client.GetFID") [v_c C] []) s (Returned [VU 32 ((fid + 1) mod 18446744073709551616 mod 4294967296)])
    (with_cell s C (v_client tags fc fs tn fn tr msz ((fid + 1) mod 18446744073709551616) L dd)).
Proof.
  destruct s as [hp nx [ch n net g]]. cbn [cells]. intros HC. unfold v_client in HC.
  match goal with |- ends _ _ ?m ?s ?o ?t => assert (H : WP opt m s (fun out s' => out = o /\ s' = t)) end.
  { go1. go. split; reflexivity. }
  destruct H as (k & out & s' & R & -> & ->). exists k. exact R.
Qed.
Lemma GetTag_runs opt C x tg fc fs tn fn tr msz fid L dd s c t b : cells s C = Some (v_client (VObj x tg) fc fs tn fn tr msz fid L dd) ->
  w_chans (rest s) tg = Some c -> ch_buf c = VU 16 t :: b ->
  ends protocol_program (lib_new RN opt) (start (str "Client.GetTag") [v_c C] []) s (Returned [VU 16 t]) (set_chan s tg (mkCh (ch_cap c) b (ch_closed c))).
Proof.
  destruct s as [hp nx [ch n net g]]. destruct c as [cap bf cl]. cbn [cells rest w_chans ch_buf ch_cap ch_closed]. intros HC Hg ->. unfold v_client in HC.
  match goal with |- ends _ _ ?m ?s ?o ?t => assert (H : WP opt m s (fun out s' => out = o /\ s' = t)) end.
  { go1. eapply (wp_adv _ _ known 400); [machine_delta; constructed|]. eapply ask_out.
    { cbn [answer lib_new rest w_chans]. rewrite Hg. cbn [ch_buf ch_cap ch_closed]. reflexivity. }
    go. split; reflexivity. }
  destruct H as (k & out & s' & R & -> & ->). exists k. exact R.
Qed.
End Runs.

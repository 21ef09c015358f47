(** What the functions of genout.go compute, by running their text in the interpreter. *)
From Verif Require Import Base GoBuf CodecPrim Types Codec GoSyntax GoSem GenoutProg.

(** * Arithmetic facts *)
Lemma z_mod n m : Z.to_N (Z.of_N n mod Z.pos m) = n mod N.pos m.
Proof. change (Z.pos m) with (Z.of_N (N.pos m)). rewrite <- N2Z.inj_mod. apply N2Z.id. Qed.
Lemma z_shiftr n p : Z.shiftr (Z.of_N n) (Z.pos p) = Z.of_N (N.shiftr n (N.pos p)).
Proof.
  apply Z.bits_inj'. intros i Hi. rewrite Z.shiftr_spec by exact Hi.
  change (Z.pos p) with (Z.of_N (N.pos p)). rewrite <- (Z2N.id i Hi), <- N2Z.inj_add.
  rewrite !Z.testbit_of_N. rewrite N.shiftr_spec'. reflexivity.
Qed.
Lemma u8_shift_mod n m k : m = 2 ^ 64 -> k <= 56 -> u8 (N.shiftr (n mod m) k) = u8 (N.shiftr n k).
Proof.
  intros -> Hk. apply u8_mod. change 256 with (2 ^ 8). apply N.bits_inj_iff. intros i.
  destruct (N.lt_ge_cases i 8) as [H|H].
  - rewrite !N.mod_pow2_bits_low by exact H. rewrite !N.shiftr_spec'. apply N.mod_pow2_bits_low. lia.
  - rewrite !N.mod_pow2_bits_high by exact H. reflexivity.
Qed.
Lemma u8_mod_mod n m : m = 2 ^ 64 -> u8 (n mod m) = u8 n.
Proof. intros H. pose proof (u8_shift_mod n m 0 H ltac:(lia)) as E. rewrite !N.shiftr_0_r in E. exact E. Qed.
Lemma ub_lt u i : ub u i < 256.
Proof. apply b2n_lt. Qed.
Lemma ub_mod u i m : 256 <= m -> ub u i mod m = ub u i.
Proof. intros H. apply N.mod_small. pose proof (ub_lt u i). lia. Qed.
Lemma ub_shift u i k m : 256 * 2 ^ k <= m -> N.shiftl (ub u i) k mod m = N.shiftl (ub u i) k.
Proof.
  intros H. apply N.mod_small. rewrite N.shiftl_mul_pow2. pose proof (ub_lt u i). nia.
Qed.
Lemma u8z_eq z : u8 (Z.to_N (z mod 256)) = u8z z.
Proof. reflexivity. Qed.
Lemma dec_z_N n : dec_z (Z.of_N n) = dec n.
Proof. unfold dec_z. destruct (Z.ltb_spec (Z.of_N n) 0) as [H|_]; [lia|]. rewrite N2Z.id. reflexivity. Qed.

Lemma lor_lt a b k : a < 2 ^ k -> b < 2 ^ k -> N.lor a b < 2 ^ k.
Proof.
  intros Ha Hb. apply N.div_small_iff; [apply N.pow_nonzero; lia|]. rewrite <- N.shiftr_div_pow2, N.shiftr_lor, !N.shiftr_div_pow2.
  rewrite !N.div_small by assumption. reflexivity.
Qed.
Lemma sh_lt u i k m : k + 8 <= m -> N.shiftl (ub u i) k < 2 ^ m.
Proof.
  intros H. rewrite N.shiftl_mul_pow2. pose proof (ub_lt u i) as Hu. replace m with (8 + k + (m - 8 - k)) by lia. rewrite !N.pow_add_r.
  pose proof (N.pow_nonzero 2 k ltac:(lia)). pose proof (N.pow_nonzero 2 (m - 8 - k) ltac:(lia)). change (2 ^ 8) with 256. nia.
Qed.
Lemma ub_lt2 u i m : 8 <= m -> ub u i < 2 ^ m.
Proof. intros H. pose proof (sh_lt u i 0 m ltac:(lia)) as E. rewrite N.shiftl_0_r in E. exact E. Qed.
Ltac small := repeat first [apply lor_lt | apply sh_lt; lia | apply ub_lt2; lia].
Lemma swrap64 n : n < 2 ^ 32 -> swrap 64 (Z.of_N n) = Z.of_N n.
Proof.
  intros H. change (2 ^ 32) with 4294967296 in H. unfold swrap, const_z. change (2 ^ 64)%Z with 18446744073709551616%Z. cbv zeta.
  rewrite Z.mod_small by lia. change (18446744073709551616 / 2)%Z with 9223372036854775808%Z.
  destruct (Z.ltb_spec (Z.of_N n) 9223372036854775808); [reflexivity|lia].
Qed.
(** The length prefixes, converted to int. *)
Lemma int_l2 u : swrap 64 (Z.of_N (N.lor (ub u 0) (N.shiftl (ub u 1) 8))) = Z.of_N (N.lor (ub u 0) (N.shiftl (ub u 1) 8)).
Proof. apply swrap64. small. Qed.
Lemma int_l4 u :
  let l := N.lor (N.lor (N.lor (ub u 0) (N.shiftl (ub u 1) 8)) (N.shiftl (ub u 2) 16)) (N.shiftl (ub u 3) 24) in swrap 64 (Z.of_N l) = Z.of_N l.
Proof. apply swrap64. small. Qed.
Lemma ltb_z n m : (Z.of_N n <? Z.of_N m)%Z = (n <? m).
Proof. destruct (N.ltb_spec n m), (Z.ltb_spec (Z.of_N n) (Z.of_N m)); lia || reflexivity. Qed.
Lemma ltb_z0 n : (0 <? Z.of_N n)%Z = (0 <? n).
Proof. exact (ltb_z 0 n). Qed.
Lemma neg_z n : (Z.of_N n <? 0)%Z = false.
Proof. destruct (Z.ltb_spec (Z.of_N n) 0); lia || reflexivity. Qed.
(** The signed type Count. *)
Lemma swrap32 n : swrap 32 (Z.of_N n) = i32 n.
Proof.
  unfold swrap, i32, const_z. cbv zeta. change (2 ^ 32)%Z with 4294967296%Z. change (4294967296 / 2)%Z with 2147483648%Z.
  change 4294967296%Z with (Z.of_N 4294967296). rewrite <- N2Z.inj_mod. reflexivity.
Qed.
Lemma i32_shift u i p : swrap 32 (Z.shiftl (i32 (ub u i)) (Z.pos p)) = i32 (N.shiftl (ub u i) (N.pos p)).
Proof.
  rewrite <- (swrap32 (N.shiftl (ub u i) (N.pos p))). f_equal. pose proof (ub_lt u i) as H.
  assert (E : i32 (ub u i) = Z.of_N (ub u i)).
  { unfold i32. rewrite N.mod_small by lia. destruct (Z.ltb_spec (Z.of_N (ub u i)) 2147483648); [reflexivity|lia]. }
  rewrite E. rewrite N.shiftl_mul_pow2, Z.shiftl_mul_pow2 by lia. rewrite N2Z.inj_mul, N2Z.inj_pow. reflexivity.
Qed.
#[export] Hint Rewrite z_mod z_shiftr u8_mod256 dec_z_N int_l2 int_l4 ltb_z ltb_z0 neg_z N2Z.id swrap32 i32_shift N.shiftr_0_r Z.shiftr_0_r : go.
#[export] Hint Rewrite u8_shift_mod u8_mod_mod ub_mod ub_shift using (first [reflexivity | vm_compute; discriminate]) : go.

(** Running a function on given arguments. *)
Ltac go_eval :=
  lazy -[N.modulo N.shiftl N.shiftr N.lor N.ltb N.eqb N.add Z.shiftr Z.shiftl Z.lor Z.ltb Z.modulo Z.to_N Z.to_nat Z.of_N Z.of_nat swrap dec dec_z
    ub b2n u8 u8z i32 buf_read buf_len buf_next buf_reslice overlay blen glen reset_spare write_spare for_loop N.to_nat].
Definition fn (s : bytes) : func := match find_func s genout with Some f => f | None => mkFunc None [] [] [] [] end.

(** Values of the struct types. *)
Definition qidv (q : QID) : value := VStruct [(str "Type", VU 8 (QID_Type q)); (str "Version", VU 32 (QID_Version q)); (str "Path", VU 64 (QID_Path q))].
Definition dirv (d : Dir) : value :=
  VStruct [(str "Type", VU 16 (Dir_Type d)); (str "Dev", VU 32 (Dir_Dev d)); (str "QID", qidv (Dir_QID d)); (str "Mode", VU 32 (Dir_Mode d));
    (str "Atime", VU 32 (Dir_Atime d)); (str "Mtime", VU 32 (Dir_Mtime d)); (str "Length", VU 64 (Dir_Length d));
    (str "Name", VStr (Dir_Name d)); (str "User", VStr (Dir_User d)); (str "Group", VStr (Dir_Group d)); (str "ModUser", VStr (Dir_ModUser d))].

(** * Tactics *)
Ltac nats :=
  change (N.to_nat 0) with 0%nat; change (N.to_nat 1) with 1%nat; change (N.to_nat 2) with 2%nat; change (N.to_nat 3) with 3%nat; change (N.to_nat 4) with 4%nat;
  change (N.to_nat 5) with 5%nat; change (N.to_nat 6) with 6%nat; change (N.to_nat 7) with 7%nat; change (N.to_nat 8) with 8%nat.
Ltac leaf := try reflexivity; autorewrite with go; reflexivity.
Ltac same s s2 := first [constr_eq s s2 | let H := fresh in assert (H : s = s2) by leaf; rewrite H; clear H].
(** One decision that both sides take. *)
Ltac step :=
  lazymatch goal with
  | |- (if (?z <? 0)%Z then _ else _) = _ => let H := fresh in assert (H : (z <? 0)%Z = false) by leaf; rewrite H; clear H
  | |- match ?s with _ => _ end = match (match ?s2 with _ => _ end) with _ => _ end =>
      same s s2;
      lazymatch s2 with
      | buf_read _ _ => destruct s2 as [[? ?]|]; [repeat match goal with |- context[overlay ?a ?b] => generalize (overlay a b); intro end | leaf]
      | buf_reslice _ _ => destruct s2 as [?|]; [|leaf]
      | _ => destruct s2; [try leaf|]
      end
  end.
Lemma copied_eq dst src : (List.length src <= List.length dst)%nat -> copied dst src = overlay dst src.
Proof. intros H. unfold copied. rewrite firstn_all2 by exact H. reflexivity. Qed.
Ltac marshal_eval :=
  lazy -[N.modulo N.shiftl N.shiftr N.lor N.ltb N.eqb N.add Z.shiftr Z.shiftl Z.lor Z.ltb Z.modulo Z.to_N Z.to_nat Z.of_N Z.of_nat swrap dec dec_z
    ub b2n u8 u8z i32 overlay blen glen reset_spare write_spare for_loop N.to_nat app copied].
Lemma writes {X} (A B M : bytes) (x : X) : A = M -> exists sp, Ret [] (Buf A B) x = Ret [] (Buf M sp) x.
Proof. intros ->. exists B. reflexivity. Qed.
Ltac text_marshal :=
  intros; marshal_eval; apply writes; rewrite copied_eq by (rewrite ?app_length; cbn [List.length]; lia);
  rewrite <- ?app_assoc; cbn [app]; autorewrite with go; reflexivity.
(** The length of a stat record: the subtraction of 2 in uint64. *)
Lemma u8_sub2 n k : 2 <= n -> k <= 56 -> u8 (N.shiftr (n mod 18446744073709551616 + (18446744073709551616 - 2)) k) = u8 (N.shiftr (n - 2) k).
Proof.
  intros H Hk. rewrite <- (u8_shift_mod (_ + _) 18446744073709551616) by (reflexivity || exact Hk).
  rewrite N.add_mod_idemp_l by lia. replace (n + (18446744073709551616 - 2)) with (n - 2 + 1 * 18446744073709551616) by lia.
  rewrite N.mod_add by lia. apply u8_shift_mod; [reflexivity|exact Hk].
Qed.
Lemma u8_sub2_0 n : 2 <= n -> u8 (n mod 18446744073709551616 + (18446744073709551616 - 2)) = u8 (n - 2).
Proof. intros H. pose proof (u8_sub2 n 0 H ltac:(lia)) as E. rewrite !N.shiftr_0_r in E. exact E. Qed.
Ltac text_marshal_dir :=
  intros; 
  lazy -[N.modulo N.shiftl N.shiftr N.lor N.ltb N.eqb N.add N.sub Z.shiftr Z.shiftl Z.lor Z.ltb Z.modulo Z.to_N Z.to_nat Z.of_N Z.of_nat swrap dec dec_z
    ub b2n u8 u8z i32 overlay blen glen reset_spare write_spare for_loop N.to_nat app copied];
  apply writes; rewrite copied_eq by (rewrite ?app_length; cbn [List.length]; lia);
  rewrite <- ?app_assoc; cbn [app]; autorewrite with go;
  rewrite u8_sub2, u8_sub2_0 by (try (unfold blen; cbn [List.length]; lia)); reflexivity.
Ltac text_unmarshal := intros; go_eval; nats; repeat step; leaf.

(** Bytes, Go fixed-width integers, little-endian encoding, decimal printing.
    Everything here models Go language/runtime primitives used by /repo. *)
From Coq Require Export List NArith ZArith Lia Bool.
From Coq Require Export Strings.Byte.
From Coq Require Import String.
From Coq Require Import ZifyBool ZifyNat ZifyN.
Export ListNotations.
Export String.StringSyntax.
Open Scope N_scope.

(** A Go [[]byte] or [string]: its bytes.  Go strings are byte strings too. *)
Definition bytes := list byte.

(** Literal strings. *)
Definition str (s : string) : bytes := list_byte_of_string s.
Arguments str _%string_scope.

(** Numeric value of a byte. *)
Definition b2n (b : byte) : N := Byte.to_N b.

(** Go [uint8(n)]: conversion to a byte, keeping the low 8 bits. *)
Definition u8 (n : N) : byte :=
  match Byte.of_N (n mod 256) with Some b => b | None => x00 end.

(** Length of a slice or string, as an (unbounded) number. *)
Definition blen {A} (l : list A) : N := N.of_nat (List.length l).

Lemma b2n_lt b : b2n b < 256.
Proof. unfold b2n. pose proof (Byte.to_N_bounded b). lia. Qed.

Lemma b2n_u8 n : b2n (u8 n) = n mod 256.
Proof.
  unfold b2n, u8.
  destruct (Byte.of_N (n mod 256)) as [b|] eqn:E.
  - apply Byte.to_of_N in E. exact E.
  - apply Byte.of_N_None_iff in E.
    pose proof (N.mod_lt n 256 ltac:(lia)). lia.
Qed.

Lemma u8_b2n b : u8 (b2n b) = b.
Proof.
  unfold u8. rewrite N.mod_small by apply b2n_lt.
  unfold b2n. rewrite Byte.of_to_N. reflexivity.
Qed.

Lemma b2n_inj a b : b2n a = b2n b -> a = b.
Proof. intros H. rewrite <- (u8_b2n a), <- (u8_b2n b), H. reflexivity. Qed.

Lemma u8_mod n m : n mod 256 = m mod 256 -> u8 n = u8 m.
Proof. unfold u8. intros ->. reflexivity. Qed.

Lemma u8_mod256 n : u8 (n mod 256) = u8 n.
Proof. apply u8_mod. apply N.mod_mod. lia. Qed.

(** * Little-endian integers: specification functions *)

(** [le k n]: the k low-order bytes of n, least significant first. *)
Fixpoint le (k : nat) (n : N) : bytes :=
  match k with
  | O => []
  | S k => u8 n :: le k (n / 256)
  end.

(** [unle bs]: the number whose little-endian digits are [bs]. *)
Fixpoint unle (bs : bytes) : N :=
  match bs with
  | [] => 0
  | b :: bs => b2n b + 256 * unle bs
  end.

(** Largest-plus-one value of a k-byte unsigned integer. *)
Definition cap (k : nat) : N := 256 ^ N.of_nat k.

Lemma cap_S k : cap (S k) = 256 * cap k.
Proof. unfold cap. rewrite Nat2N.inj_succ, N.pow_succ_r'. reflexivity. Qed.

Lemma cap_pos k : 0 < cap k.
Proof. unfold cap. apply N.neq_0_lt_0, N.pow_nonzero. lia. Qed.

Lemma le_length k n : List.length (le k n) = k.
Proof. revert n; induction k as [|k IH]; intros n; cbn [le List.length]; [|rewrite IH]; reflexivity. Qed.

Lemma le_blen k n : blen (le k n) = N.of_nat k.
Proof. unfold blen. rewrite le_length. reflexivity. Qed.

Lemma unle_le k n : unle (le k n) = n mod cap k.
Proof.
  revert n; induction k as [|k IH]; intros n; cbn [le unle].
  - unfold cap. cbn. rewrite N.mod_1_r. reflexivity.
  - rewrite b2n_u8, IH, cap_S.
    rewrite N.mod_mul_r by (pose proof (cap_pos k); lia).
    reflexivity.
Qed.

Lemma unle_le_small k n : n < cap k -> unle (le k n) = n.
Proof. intros H. rewrite unle_le. apply N.mod_small; exact H. Qed.

Lemma unle_lt bs : unle bs < cap (List.length bs).
Proof.
  induction bs as [|b bs IH]; cbn [unle List.length].
  - unfold cap; cbn; lia.
  - rewrite cap_S. pose proof (b2n_lt b). lia.
Qed.

Lemma le_unle bs k : k = List.length bs -> le k (unle bs) = bs.
Proof.
  intros ->. induction bs as [|b bs IH]; cbn [le unle List.length]; [reflexivity|].
  pose proof (b2n_lt b) as Hb.
  assert (E1 : (b2n b + 256 * unle bs) / 256 = unle bs).
  { rewrite N.mul_comm, N.div_add by lia. rewrite N.div_small by lia. lia. }
  assert (E2 : u8 (b2n b + 256 * unle bs) = b).
  { rewrite <- (u8_b2n b) at 2. apply u8_mod.
    rewrite (N.mul_comm 256), N.mod_add by lia. reflexivity. }
  rewrite E1, E2, IH. reflexivity.
Qed.

Lemma le_mod k n : le k (n mod cap k) = le k n.
Proof.
  rewrite <- unle_le. apply le_unle. rewrite le_length. reflexivity.
Qed.

Lemma le_inj k n m : n < cap k -> m < cap k -> le k n = le k m -> n = m.
Proof.
  intros Hn Hm H. rewrite <- (unle_le_small k n Hn), <- (unle_le_small k m Hm), H. reflexivity.
Qed.

(** * How the generated Go code writes and reads integers *)

(** gen.go:206-215 emitEncodeInt: [uint8(n>>0), uint8(n>>8), ...] for an l-byte field. *)
Definition putint (l : nat) (n : N) : bytes :=
  map (fun i => u8 (N.shiftr n (8 * N.of_nat i))) (seq 0 l).

(** gen.go:217-225 emitDecodeInt: [v = T(u[0]); v |= T(u[1])<<8; ...] over the first l
    bytes of the scratch array.  (Unsigned; the result fits T because l bytes are read.) *)
Fixpoint getint_from (i : nat) (us : bytes) (l : nat) {struct l} : N :=
  match l, us with
  | S l, b :: us => N.lor (N.shiftl (b2n b) (8 * N.of_nat i)) (getint_from (S i) us l)
  | _, _ => 0
  end.
Definition getint (l : nat) (u : bytes) : N := getint_from 0 u l.

Lemma putint_le l n : putint l n = le l n.
Proof.
  unfold putint.
  enough (H : forall k, map (fun i => u8 (N.shiftr n (8 * N.of_nat i))) (seq k l)
                        = le l (N.shiftr n (8 * N.of_nat k))).
  { rewrite H. rewrite N.mul_0_r, N.shiftr_0_r. reflexivity. }
  induction l as [|l IH]; intros k; cbn [seq map le]; [reflexivity|].
  f_equal. rewrite IH. f_equal.
  rewrite !N.shiftr_div_pow2.
  rewrite N.div_div by (try apply N.pow_nonzero; lia).
  f_equal. replace (8 * N.of_nat (S k)) with (8 * N.of_nat k + 8) by lia.
  rewrite N.pow_add_r. reflexivity.
Qed.

Lemma lor_low_add a b k : a < 2 ^ k -> N.lor a (b * 2 ^ k) = a + b * 2 ^ k.
Proof.
  intros Ha.
  rewrite <- N.lxor_lor.
  - symmetry. apply N.add_nocarry_lxor.
    apply N.bits_inj_0. intros n. rewrite N.land_spec.
    destruct (N.lt_ge_cases n k) as [Hn|Hn].
    + rewrite N.mul_pow2_bits_low by exact Hn. apply andb_false_r.
    + replace (N.testbit a n) with false; [reflexivity|].
      symmetry. destruct (N.eq_dec a 0) as [->|Hz]; [apply N.bits_0|].
      apply N.bits_above_log2.
      apply N.log2_lt_pow2; [lia|].
      eapply N.lt_le_trans; [exact Ha|]. apply N.pow_le_mono_r; lia.
  - apply N.bits_inj_0. intros n. rewrite N.land_spec.
    destruct (N.lt_ge_cases n k) as [Hn|Hn].
    + rewrite N.mul_pow2_bits_low by exact Hn. apply andb_false_r.
    + replace (N.testbit a n) with false; [reflexivity|].
      symmetry. destruct (N.eq_dec a 0) as [->|Hz]; [apply N.bits_0|].
      apply N.bits_above_log2.
      apply N.log2_lt_pow2; [lia|].
      eapply N.lt_le_trans; [exact Ha|]. apply N.pow_le_mono_r; lia.
Qed.

Lemma getint_from_unle i us l :
  getint_from i us l = 2 ^ (8 * N.of_nat i) * unle (firstn l us).
Proof.
  revert i us; induction l as [|l IH]; intros i us.
  { cbn [getint_from firstn unle]. rewrite N.mul_0_r. reflexivity. }
  destruct us as [|b us]; cbn [getint_from firstn unle]; [rewrite N.mul_0_r; reflexivity|].
  rewrite IH, N.shiftl_mul_pow2.
  replace (8 * N.of_nat (S i)) with (8 * N.of_nat i + 8) by lia.
  rewrite N.pow_add_r. change (2 ^ 8) with 256.
  set (p := 2 ^ (8 * N.of_nat i)).
  replace (b2n b * p) with (N.shiftl (b2n b) (8 * N.of_nat i))
    by (rewrite N.shiftl_mul_pow2; reflexivity).
  replace (p * 256 * unle (firstn l us))
    with (unle (firstn l us) * 2 ^ (8 * N.of_nat i + 8))
    by (rewrite N.pow_add_r; change (2^8) with 256; fold p; lia).
  rewrite lor_low_add.
  - rewrite N.shiftl_mul_pow2. rewrite N.pow_add_r. change (2^8) with 256. fold p. lia.
  - rewrite N.shiftl_mul_pow2, N.pow_add_r. fold p. change (2^8) with 256.
    pose proof (b2n_lt b).
    assert (0 < p) by (unfold p; apply N.neq_0_lt_0, N.pow_nonzero; lia).
    nia.
Qed.

Lemma getint_unle l u : getint l u = unle (firstn l u).
Proof.
  unfold getint. rewrite getint_from_unle. cbn [N.of_nat]. rewrite N.mul_0_r, N.pow_0_r. lia.
Qed.

Lemma getint_lt l u : getint l u < cap l.
Proof.
  rewrite getint_unle.
  eapply N.lt_le_trans; [apply unle_lt|].
  unfold cap. apply N.pow_le_mono_r; [lia|].
  rewrite firstn_length. lia.
Qed.

(** Go [int32]: two's complement reading of a 32-bit pattern, and back. *)
Definition i32 (n : N) : Z :=
  let m := Z.of_N (n mod 4294967296) in
  if (m <? 2147483648)%Z then m else (m - 4294967296)%Z.

Definition u32_of_z (z : Z) : N := Z.to_N (z mod 4294967296).

Definition in_i32 (z : Z) : Prop := (-2147483648 <= z < 2147483648)%Z.

Lemma i32_u32 z : in_i32 z -> i32 (u32_of_z z) = z.
Proof.
  unfold in_i32, i32, u32_of_z. intros H.
  assert (Hm : (0 <= z mod 4294967296 < 4294967296)%Z) by (apply Z.mod_pos_bound; lia).
  rewrite N.mod_small by lia.
  rewrite Z2N.id by lia.
  destruct (Z.ltb_spec (z mod 4294967296) 2147483648) as [Hl|Hl];
    pose proof (Z.div_mod z 4294967296 ltac:(lia)) as E;
    assert (z / 4294967296 = 0 \/ z / 4294967296 = -1)%Z
      by (pose proof (Z.div_le_lower_bound z 4294967296 (-1)); 
          pose proof (Z.div_lt_upper_bound z 4294967296 1); lia);
    lia.
Qed.

Lemma u32_i32 n : n < 4294967296 -> u32_of_z (i32 n) = n.
Proof.
  unfold i32, u32_of_z. intros H. rewrite N.mod_small by exact H.
  destruct (Z.ltb_spec (Z.of_N n) 2147483648) as [Hl|Hl].
  - rewrite Z.mod_small by lia. lia.
  - replace (Z.of_N n - 4294967296)%Z with (Z.of_N n + (-1) * 4294967296)%Z by lia.
    rewrite Z.mod_add by lia. rewrite Z.mod_small by lia. lia.
Qed.

Lemma i32_range n : in_i32 (i32 n).
Proof.
  unfold in_i32, i32. 
  pose proof (N.mod_lt n 4294967296 ltac:(lia)).
  destruct (Z.ltb_spec (Z.of_N (n mod 4294967296)) 2147483648); lia.
Qed.

Lemma u32_of_z_lt z : u32_of_z z < 4294967296.
Proof.
  unfold u32_of_z. 
  assert (Hm : (0 <= z mod 4294967296 < 4294967296)%Z) by (apply Z.mod_pos_bound; lia).
  lia.
Qed.

(** Go's [uint8(x>>k)] for a signed x: arithmetic shift, low 8 bits. *)
Definition u8z (z : Z) : byte := u8 (Z.to_N (z mod 256)).

Definition putint_z (l : nat) (z : Z) : bytes :=
  map (fun i => u8z (Z.shiftr z (8 * Z.of_nat i))) (seq 0 l).

Lemma putint_z_4 z : putint_z 4 z = putint 4 (u32_of_z z).
Proof.
  unfold putint_z, putint. apply map_ext_in. intros i Hi.
  apply in_seq in Hi. unfold u8z.
  apply u8_mod. rewrite (N.mod_small (Z.to_N _)).
  2:{ assert (0 <= Z.shiftr z (8 * Z.of_nat i) mod 256 < 256)%Z by (apply Z.mod_pos_bound; lia). lia. }
  unfold u32_of_z.
  assert (Hm : (0 <= z mod 4294967296 < 4294967296)%Z) by (apply Z.mod_pos_bound; lia).
  rewrite N.shiftr_div_pow2, Z.shiftr_div_pow2 by lia.
  apply N2Z.inj. rewrite N2Z.inj_mod, N2Z.inj_div, N2Z.inj_pow.
  rewrite !Z2N.id by (try apply Z.mod_pos_bound; lia).
  replace (Z.of_N (8 * N.of_nat i)) with (8 * Z.of_nat i)%Z by lia.
  change (Z.of_N 2) with 2%Z. change (Z.of_N 256) with 256%Z.
  assert (Hi4 : (i = 0 \/ i = 1 \/ i = 2 \/ i = 3)%nat) by lia.
  pose proof (Z.div_mod z 4294967296 ltac:(lia)) as E.
  set (r := (z mod 4294967296)%Z) in *. set (q := (z / 4294967296)%Z) in *.
  destruct Hi4 as [->|[->|[->| ->]]];
   [change (2 ^ (8 * Z.of_nat 0))%Z with 1%Z
   |change (2 ^ (8 * Z.of_nat 1))%Z with 256%Z
   |change (2 ^ (8 * Z.of_nat 2))%Z with 65536%Z
   |change (2 ^ (8 * Z.of_nat 3))%Z with 16777216%Z].
  - rewrite !Z.div_1_r. rewrite E.
    replace (4294967296 * q + r)%Z with (r + (q * 16777216) * 256)%Z by lia.
    rewrite Z.mod_add by lia. reflexivity.
  - rewrite E. replace (4294967296 * q + r)%Z with (r + (q * 16777216) * 256)%Z by lia.
    rewrite Z.div_add by lia.
    replace (r / 256 + q * 16777216)%Z with (r / 256 + (q * 65536) * 256)%Z by lia.
    rewrite Z.mod_add by lia. reflexivity.
  - rewrite E. replace (4294967296 * q + r)%Z with (r + (q * 65536) * 65536)%Z by lia.
    rewrite Z.div_add by lia.
    replace (r / 65536 + q * 65536)%Z with (r / 65536 + (q * 256) * 256)%Z by lia.
    rewrite Z.mod_add by lia. reflexivity.
  - rewrite E. replace (4294967296 * q + r)%Z with (r + (q * 256) * 16777216)%Z by lia.
    rewrite Z.div_add by lia.
    rewrite Z.mod_add by lia. reflexivity.
Qed.

(** * Decimal printing (fmt verb %d / %v on unsigned integers) *)
Fixpoint dec_aux (fuel : nat) (n : N) (acc : bytes) : bytes :=
  match fuel with
  | O => acc
  | S fuel =>
      let acc := u8 (48 + n mod 10) :: acc in
      if n / 10 =? 0 then acc else dec_aux fuel (n / 10) acc
  end.
Definition dec (n : N) : bytes := dec_aux (S (N.to_nat (N.log2 n))) n [].

Example dec_ex : dec 1234 = str "1234" /\ dec 0 = str "0" /\ dec 4294967295 = str "4294967295".
Proof. vm_compute. repeat split. Qed.

Lemma blen_app {A} (a b : list A) : blen (a ++ b) = blen a + blen b.
Proof. unfold blen. rewrite app_length. lia. Qed.
Lemma blen_cons {A} (a : A) l : blen (a :: l) = 1 + blen l.
Proof. unfold blen. cbn [List.length]. lia. Qed.
Lemma blen_nil {A} : blen (@nil A) = 0.
Proof. reflexivity. Qed.
Lemma blen_0 {A} (l : list A) : blen l = 0 -> l = [].
Proof. destruct l; [reflexivity|]. rewrite blen_cons. lia. Qed.

(** gen.go:217-225 for the int32 type [Count]: [v = Count(u[0]); v |= Count(u[1])<<8; ...],
    every conversion and shift in 32-bit two's complement. *)
Definition getcount (u : bytes) : Z :=
  let p (k : nat) := i32 (N.shiftl (b2n (nth k u x00)) (8 * N.of_nat k)) in
  Z.lor (Z.lor (Z.lor (p 0%nat) (p 1%nat)) (p 2%nat)) (p 3%nat).

Lemma zlor_low_add a b k : (0 <= k)%Z -> (0 <= a < 2 ^ k)%Z -> Z.lor a (b * 2 ^ k) = (a + b * 2 ^ k)%Z.
Proof.
  intros Hk Ha.
  assert (Hland : Z.land a (b * 2 ^ k) = 0%Z).
  { apply Z.bits_inj'. intros n Hn. rewrite Z.land_spec, Z.bits_0.
    destruct (Z.lt_ge_cases n k) as [H|H].
    - rewrite Z.mul_pow2_bits_low by exact H. apply andb_false_r.
    - replace (Z.testbit a n) with false; [reflexivity|].
      symmetry. destruct (Z.eq_dec a 0) as [->|Hz]; [apply Z.bits_0|].
      apply Z.bits_above_log2; [lia|].
      apply Z.log2_lt_pow2; [lia|].
      eapply Z.lt_le_trans; [apply Ha|]. apply Z.pow_le_mono_r; lia. }
  rewrite Z.add_nocarry_lxor by exact Hland. rewrite Z.lxor_lor by exact Hland. reflexivity.
Qed.

Lemma i32_small n : n < 2147483648 -> i32 n = Z.of_N n.
Proof.
  intros H. unfold i32. rewrite N.mod_small by lia.
  destruct (Z.ltb_spec (Z.of_N n) 2147483648); lia.
Qed.

Lemma getcount_getint u : (4 <= List.length u)%nat -> getcount u = i32 (getint 4 u).
Proof.
  intros Hlen.
  destruct u as [|b0 [|b1 [|b2 [|b3 u]]]]; cbn [List.length] in Hlen; try lia.
  rewrite getint_unle. cbn [firstn unle].
  unfold getcount. cbn [nth].
  pose proof (b2n_lt b0) as H0. pose proof (b2n_lt b1) as H1.
  pose proof (b2n_lt b2) as H2. pose proof (b2n_lt b3) as H3.
  rewrite !N.shiftl_mul_pow2.
  change (8 * N.of_nat 0) with 0. change (8 * N.of_nat 1) with 8.
  change (8 * N.of_nat 2) with 16. change (8 * N.of_nat 3) with 24.
  change (2 ^ 0) with 1. change (2 ^ 8) with 256. change (2 ^ 16) with 65536.
  change (2 ^ 24) with 16777216.
  rewrite (i32_small (b2n b0 * 1)), (i32_small (b2n b1 * 256)), (i32_small (b2n b2 * 65536)) by lia.
  assert (E1 : Z.lor (Z.of_N (b2n b0 * 1)) (Z.of_N (b2n b1 * 256)) = Z.of_N (b2n b0 + b2n b1 * 256)).
  { replace (Z.of_N (b2n b1 * 256)) with (Z.of_N (b2n b1) * 2 ^ 8)%Z by (change (2^8)%Z with 256%Z; lia).
    rewrite zlor_low_add by (change (2^8)%Z with 256%Z; lia). change (2^8)%Z with 256%Z. lia. }
  rewrite E1.
  assert (E2 : Z.lor (Z.of_N (b2n b0 + b2n b1 * 256)) (Z.of_N (b2n b2 * 65536))
               = Z.of_N (b2n b0 + b2n b1 * 256 + b2n b2 * 65536)).
  { replace (Z.of_N (b2n b2 * 65536)) with (Z.of_N (b2n b2) * 2 ^ 16)%Z by (change (2^16)%Z with 65536%Z; lia).
    rewrite zlor_low_add by (change (2^16)%Z with 65536%Z; lia). change (2^16)%Z with 65536%Z. lia. }
  rewrite E2.
  destruct (N.lt_ge_cases (b2n b3) 128) as [Hs|Hs].
  - rewrite (i32_small (b2n b3 * 16777216)) by lia.
    rewrite i32_small by lia.
    replace (Z.of_N (b2n b3 * 16777216)) with (Z.of_N (b2n b3) * 2 ^ 24)%Z by (change (2^24)%Z with 16777216%Z; lia).
    rewrite zlor_low_add by (change (2^24)%Z with 16777216%Z; lia). change (2^24)%Z with 16777216%Z. lia.
  - assert (E3 : i32 (b2n b3 * 16777216) = ((Z.of_N (b2n b3) - 256) * 2 ^ 24)%Z).
    { unfold i32. rewrite N.mod_small by lia. change (2^24)%Z with 16777216%Z.
      destruct (Z.ltb_spec (Z.of_N (b2n b3 * 16777216)) 2147483648); lia. }
    rewrite E3.
    rewrite zlor_low_add by (change (2^24)%Z with 16777216%Z; lia). change (2^24)%Z with 16777216%Z.
    unfold i32. rewrite N.mod_small by lia.
    destruct (Z.ltb_spec (Z.of_N (b2n b0 + 256 * (b2n b1 + 256 * (b2n b2 + 256 * (b2n b3 + 256 * 0))))) 2147483648); lia.
Qed.

(** s occurs in l as a contiguous block. *)
Definition infix (s l : bytes) : Prop := exists p q, l = p ++ s ++ q.

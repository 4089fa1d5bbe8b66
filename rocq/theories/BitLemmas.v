(** * Arithmetic facts about fields of machine words *)
From Coq Require Import ZArith Lia Bool List.
From Verif Require Import Bits Isa Cpu Ucode.
Open Scope Z_scope.

Lemma bits_range x lo n : 0 <= n -> 0 <= bits x lo n < 2 ^ n.
Proof. intros. unfold bits. apply Z.mod_pos_bound. apply Z.pow_pos_nonneg; lia. Qed.

Lemma bits_fld x lo n : bits x lo n = fld x lo n.
Proof. reflexivity. Qed.

Lemma fld_range x lo n : 0 <= n -> 0 <= fld x lo n < 2 ^ n.
Proof. apply bits_range. Qed.

Lemma fld_split x lo n k : 0 <= lo -> 0 <= n -> 0 <= k ->
  fld x lo (n + k) = fld x lo n + 2 ^ n * fld x (lo + n) k.
Proof.
  intros. unfold fld.
  rewrite !Z.pow_add_r by lia.
  rewrite <- Z.div_div by (try apply Z.pow_nonzero; try apply Z.pow_pos_nonneg; lia).
  rewrite Z.rem_mul_r; try reflexivity.
  - apply Z.pow_nonzero; lia.
  - apply Z.pow_pos_nonneg; lia.
Qed.

Lemma fld_full w n : 0 <= w < 2 ^ n -> fld w 0 n = w.
Proof. intros. unfold fld. change (2 ^ 0) with 1. rewrite Z.div_1_r. apply Z.mod_small; lia. Qed.

Lemma bit_cases x i : fld x i 1 = 0 \/ fld x i 1 = 1.
Proof. pose proof (fld_range x i 1). change (2 ^ 1) with 2 in *. lia. Qed.

Lemma b2z_bitb x i : b2z (bitb x i) = fld x i 1.
Proof. unfold bitb, bits, b2z. destruct (bit_cases x i) as [H|H]; unfold fld in H; unfold fld; rewrite H; reflexivity. Qed.

Lemma testbit_bitb x i : 0 <= i -> Z.testbit x i = bitb x i.
Proof. intros. unfold bitb, bits. rewrite Z.testbit_eqb by lia. reflexivity. Qed.

(** ** Immediates *)
Lemma imm_I_ok w : imm_I w = immI w mod 2 ^ 32.
Proof.
  unfold imm_I, immI, i_sign, rep.
  change 12 with (11 + 1) at 2. rewrite (fld_split w 20 11 1) by lia. change (20 + 11) with 31.
  pose proof (fld_range w 20 11 ltac:(lia)). change (bits w 20 11) with (fld w 20 11).
  unfold bitb. change (bits w 31 1) with (fld w 31 1).
  destruct (bit_cases w 31) as [->| ->]; unfold sext.
  - change (0 =? 1) with false. cbv iota.
    destruct (Z.ltb_spec (fld w 20 11 + 2 ^ 11 * 0) (2 ^ (12 - 1))); [|lia].
    rewrite Z.mod_small; lia.
  - change (1 =? 1) with true. cbv iota.
    destruct (Z.ltb_spec (fld w 20 11 + 2 ^ 11 * 1) (2 ^ (12 - 1))); [lia|].
    rewrite <- (Z.mod_unique _ _ (-1) (fld w 20 11 + 2 ^ 11 * (2 ^ 21 - 1))); lia.
Qed.

Ltac immtac w Hr :=
  unfold bitb; change bits with fld;
  destruct (bit_cases w 31) as [->| ->]; unfold sext;
  [ change (0 =? 1) with false; cbv iota;
    match goal with |- context[?a <? ?b] => destruct (Z.ltb_spec a b) end; [|lia];
    rewrite Z.mod_small; lia
  | change (1 =? 1) with true; cbv iota;
    match goal with |- context[?a <? ?b] => destruct (Z.ltb_spec a b) end; [lia|];
    match goal with |- ?l = _ => rewrite <- (Z.mod_unique _ _ (-1) l); lia end ].

Lemma imm_S_ok w : imm_S w = immS w mod 2 ^ 32.
Proof.
  unfold imm_S, immS, i_sign, rep.
  replace (fld w 25 7) with (fld w 25 6 + 2 ^ 6 * fld w 31 1) by (symmetry; apply (fld_split w 25 6 1); lia).
  replace (fld w 7 5) with (fld w 7 1 + 2 ^ 1 * fld w 8 4) by (symmetry; apply (fld_split w 7 1 4); lia).
  pose proof (fld_range w 25 6 ltac:(lia)). pose proof (fld_range w 7 1 ltac:(lia)). pose proof (fld_range w 8 4 ltac:(lia)).
  change bits with fld. immtac w I.
Qed.

Lemma imm_B_ok w : imm_B w = immB w mod 2 ^ 32.
Proof.
  unfold imm_B, immB, i_sign, rep.
  pose proof (fld_range w 25 6 ltac:(lia)). pose proof (fld_range w 7 1 ltac:(lia)). pose proof (fld_range w 8 4 ltac:(lia)).
  change bits with fld. immtac w I.
Qed.

Lemma imm_J_ok w : imm_J w = immJ w mod 2 ^ 32.
Proof.
  unfold imm_J, immJ, i_sign, rep.
  replace (fld w 21 10) with (fld w 21 4 + 2 ^ 4 * fld w 25 6) by (symmetry; apply (fld_split w 21 4 6); lia).
  pose proof (fld_range w 25 6 ltac:(lia)). pose proof (fld_range w 20 1 ltac:(lia)). pose proof (fld_range w 21 4 ltac:(lia)).
  pose proof (fld_range w 12 8 ltac:(lia)).
  change bits with fld. immtac w I.
Qed.

Lemma imm_U_ok w : imm_U w = immU w.
Proof.
  unfold imm_U, immU, i_sign. rewrite b2z_bitb; change bits with fld.
  replace (fld w 12 20) with (fld w 12 8 + 2 ^ 8 * fld w 20 12) by (symmetry; apply (fld_split w 12 8 12); lia).
  replace (fld w 20 12) with (fld w 20 11 + 2 ^ 11 * fld w 31 1) by (symmetry; apply (fld_split w 20 11 1); lia).
  lia.
Qed.

Lemma immU_range w : 0 <= immU w < 2 ^ 32.
Proof. unfold immU. pose proof (fld_range w 12 20 ltac:(lia)). lia. Qed.

(** ** ALU units *)
Definition word (x : Z) : Prop := 0 <= x < 2 ^ 32.

Lemma word_mod x : word (x mod 2 ^ 32).
Proof. apply Z.mod_pos_bound. lia. Qed.

Lemma mod_add_r x y : (x + y mod 2 ^ 32) mod 2 ^ 32 = (x + y) mod 2 ^ 32.
Proof. apply Z.add_mod_idemp_r. lia. Qed.

Lemma ltu_ok x y : word x -> word y -> bits (sub_unit x y) 32 1 = if x <? y then 1 else 0.
Proof.
  unfold word, sub_unit, bits. intros.
  destruct (Z.ltb_spec x y).
  - rewrite <- (Z.mod_unique (x - y) (2 ^ 33) (-1) (x - y + 2 ^ 33)) by lia.
    rewrite <- (Z.div_unique _ _ 1 (x - y + 2 ^ 32)) by lia. reflexivity.
  - rewrite (Z.mod_small (x - y)) by lia. rewrite Z.div_small by lia. reflexivity.
Qed.

Lemma sub_ok x y : w32 (sub_unit x y) = (x - y) mod 2 ^ 32.
Proof.
  unfold w32, sub_unit. change (2 ^ 33) with (2 ^ 32 * 2).
  rewrite Z.rem_mul_r by lia. rewrite Z.mul_comm, Z.mod_add by lia. apply Z.mod_mod. lia.
Qed.

Lemma pow_bits_above x n : 0 <= n -> 0 <= x < 2 ^ n -> forall m, n <= m -> Z.testbit x m = false.
Proof.
  intros Hn Hx m Hm. destruct (Z.eq_dec x 0) as [->|]. { apply Z.bits_0. }
  apply Z.bits_above_log2; [lia|]. assert (Z.log2 x < n) by (apply Z.log2_lt_pow2; lia). lia.
Qed.

Lemma bits_bound x n : 0 <= n -> 0 <= x -> (forall m, n <= m -> Z.testbit x m = false) -> x < 2 ^ n.
Proof.
  intros Hn Hx H. destruct (Z.eq_dec x 0) as [->|]. { apply Z.pow_pos_nonneg; lia. }
  apply Z.log2_lt_pow2; [lia|]. destruct (Z.lt_ge_cases (Z.log2 x) n); [assumption|].
  specialize (H (Z.log2 x) ltac:(lia)). rewrite Z.bit_log2 in H by lia. discriminate.
Qed.

Lemma word_land x y : word x -> word y -> word (Z.land x y).
Proof.
  unfold word; intros. assert (0 <= Z.land x y) by (apply Z.land_nonneg; lia). split; [assumption|].
  apply bits_bound; try lia. intros. rewrite Z.land_spec, (pow_bits_above x 32) by lia. reflexivity.
Qed.
Lemma word_lor x y : word x -> word y -> word (Z.lor x y).
Proof.
  unfold word; intros. assert (0 <= Z.lor x y) by (apply Z.lor_nonneg; lia). split; [assumption|].
  apply bits_bound; try lia. intros. rewrite Z.lor_spec, (pow_bits_above x 32), (pow_bits_above y 32) by lia. reflexivity.
Qed.
Lemma word_lxor x y : word x -> word y -> word (Z.lxor x y).
Proof.
  unfold word; intros. assert (0 <= Z.lxor x y) by (apply Z.lxor_nonneg; lia). split; [assumption|].
  apply bits_bound; try lia. intros. rewrite Z.lxor_spec, (pow_bits_above x 32), (pow_bits_above y 32) by lia. reflexivity.
Qed.
Lemma word_ldiff x y : word x -> word (Z.ldiff x y).
Proof.
  unfold word; intros. assert (0 <= Z.ldiff x y) by (apply Z.ldiff_nonneg; lia). split; [assumption|].
  apply bits_bound; try lia. intros. rewrite Z.ldiff_spec, (pow_bits_above x 32) by lia. reflexivity.
Qed.

(** Inverting bit 31 turns signed comparison into unsigned comparison. *)
Lemma lxor_msb x : word x -> Z.lxor x (2 ^ 31) = sext 32 x + 2 ^ 31.
Proof.
  unfold word, sext. intros. change (32 - 1) with 31.
  destruct (Z.ltb_spec x (2 ^ 31)).
  - assert (E : Z.land x (2 ^ 31) = 0).
    { apply Z.bits_inj'; intros m Hm; rewrite Z.land_spec, Z.bits_0;
      destruct (Z.eq_dec m 31) as [->|]; [rewrite (pow_bits_above x 31) by lia; reflexivity|];
      rewrite (Z.pow2_bits_false 31) by lia; apply andb_false_r. }
    rewrite <- (Z.add_nocarry_lxor _ _ E). lia.
  - replace x with ((x - 2 ^ 31) + 2 ^ 31) at 1 by lia.
    assert (E : Z.land (x - 2 ^ 31) (2 ^ 31) = 0).
    { apply Z.bits_inj'; intros m Hm; rewrite Z.land_spec, Z.bits_0;
      destruct (Z.eq_dec m 31) as [->|]; [rewrite (pow_bits_above (x - 2 ^ 31) 31) by lia; reflexivity|];
      rewrite (Z.pow2_bits_false 31) by lia; apply andb_false_r. }
    rewrite (Z.add_nocarry_lxor _ _ E), Z.lxor_assoc, Z.lxor_nilpotent, Z.lxor_0_r. lia.
Qed.

Lemma sext32_range x : word x -> - 2 ^ 31 <= sext 32 x < 2 ^ 31.
Proof. unfold word, sext. change (32 - 1) with 31. intros. destruct (Z.ltb_spec x (2 ^ 31)); lia. Qed.

Lemma lts_ok x y : word x -> word y ->
  bits (sub_unit (Z.lxor x (2 ^ 31)) (Z.lxor y (2 ^ 31))) 32 1 = if s32 x <? s32 y then 1 else 0.
Proof.
  intros Hx Hy. rewrite !lxor_msb by assumption.
  pose proof (sext32_range x Hx). pose proof (sext32_range y Hy).
  rewrite ltu_ok by (unfold word; lia). unfold s32.
  destruct (Z.ltb_spec (sext 32 x + 2 ^ 31) (sext 32 y + 2 ^ 31)), (Z.ltb_spec (sext 32 x) (sext 32 y)); lia.
Qed.

(** A & ~B as the microcode computes it. *)
Lemma ldiff_ok x y : word x -> word y -> Z.land (Z.lxor (2 ^ 32 - 1) y) x = Z.ldiff x y.
Proof.
  intros. apply Z.bits_inj'; intros m Hm. rewrite Z.land_spec, Z.lxor_spec, Z.ldiff_spec.
  change (2 ^ 32 - 1) with (Z.ones 32).
  destruct (Z.lt_ge_cases m 32).
  - rewrite Z.ones_spec_low by lia. destruct (Z.testbit x m), (Z.testbit y m); reflexivity.
  - rewrite (pow_bits_above x 32) by (unfold word in *; lia). rewrite andb_false_r. reflexivity.
Qed.

Lemma land31 x : Z.land 31 x = x mod 32.
Proof. rewrite Z.land_comm. change 31 with (Z.ones 5). rewrite Z.land_ones by lia. reflexivity. Qed.

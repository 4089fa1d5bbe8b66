(** * The decoder (mapping ROM, immediate generator, exception control) against Isa.decode *)
From Coq Require Import ZArith Lia Bool List.
From Verif Require Import Bits Ucode Cpu Isa Timed BitLemmas Wf Sym Blocks CsrBlocks.
Import ListNotations.
Open Scope Z_scope.

(** Microcode entry point of each instruction. *)
Definition entry (i : instr) : Z :=
  match i with
  | Lui _ _ => 0xd0 | Auipc _ _ => 0x50 | Jal _ _ => 0xb0 | Jalr _ _ _ => 0x98
  | Branch c _ _ _ => branch_entry c
  | Load sz sgn _ _ _ => load_entry sz sgn
  | Store sz _ _ _ => store_entry sz
  | OpImm f _ _ _ => if is_shift f then shifti_entry f else opimm_entry f
  | OpReg f _ _ _ => if is_shift f then shift_entry f else op_entry f
  | Fence | Wfi => 0x30
  | Mret => 248
  | Csr _ _ _ _ => 0x24
  | Ecall | Ebreak => 0
  end.

(** The operands of [i] are those the decoder latches from [w], [x] the immediate. *)
Definition fits (w : Z) (i : instr) (x : Z) : Prop :=
  let d := fld w 7 5 in let s1 := fld w 15 5 in let s2 := fld w 20 5 in
  match i with
  | Lui rd imm => rd = d /\ x = imm
  | Auipc rd imm => rd = d /\ x = imm
  | Jal rd off => rd = d /\ x = off mod 2 ^ 32 /\ off mod 2 = 0
  | Jalr rd rs1 off => rd = d /\ rs1 = s1 /\ x = off mod 2 ^ 32
  | Branch _ rs1 rs2 off => rs1 = s1 /\ rs2 = s2 /\ x = off mod 2 ^ 32 /\ off mod 2 = 0
  | Load sz sgn rd rs1 off => rd = d /\ rs1 = s1 /\ x = off mod 2 ^ 32 /\ (sz = Word -> sgn = true)
  | Store _ rs1 rs2 off => rs1 = s1 /\ rs2 = s2 /\ x = off mod 2 ^ 32
  | OpImm f rd rs1 imm => rd = d /\ rs1 = s1 /\
      if is_shift f then 0 <= imm < 32 /\ (match f with SRA => x mod 32 | _ => x end) = imm
      else x = imm mod 2 ^ 32 /\ f <> SUB
  | OpReg _ rd rs1 rs2 => rd = d /\ rs1 = s1 /\ rs2 = s2
  | Csr f rd g n => rd = d /\ n = fld w 20 12 /\
      exists imm : bool, g = (if imm then CImm s1 else CReg s1) /\
        fld w 12 3 = (match f with CSRRW => 1 | CSRRS => 2 | CSRRC => 3 end) + (if imm then 4 else 0)
  | _ => True
  end.

Lemma opcode_low w : i_opcode w = (w mod 2 ^ 7) / 4.
Proof.
  unfold i_opcode, bits. change (2 ^ 7) with (2 ^ 2 * 2 ^ 5). change 4 with (2 ^ 2).
  rewrite Z.rem_mul_r by lia. rewrite Z.mul_comm, Z.div_add, (Z.div_small (w mod 2 ^ 2)) by (try apply Z.mod_pos_bound; lia). reflexivity.
Qed.
Lemma quadrant_low w : bits w 0 2 = (w mod 2 ^ 7) mod 4.
Proof.
  unfold bits. change (2 ^ 0) with 1. rewrite Z.div_1_r. change (2 ^ 7) with (2 ^ 2 * 2 ^ 5). change 4 with (2 ^ 2).
  rewrite Z.rem_mul_r by lia. rewrite Z.mul_comm, Z.mod_add, Z.mod_mod by lia. reflexivity.
Qed.

Lemma immB_even w : immB w mod 2 = 0.
Proof.
  unfold immB, sext. change (13 - 1) with 12. change (2 ^ 13) with (2 * 2 ^ 12).
  set (x := fld w 31 1 * 2 ^ 12 + fld w 7 1 * 2 ^ 11 + fld w 25 6 * 2 ^ 5 + fld w 8 4 * 2).
  assert (x = (fld w 31 1 * 2 ^ 11 + fld w 7 1 * 2 ^ 10 + fld w 25 6 * 2 ^ 4 + fld w 8 4) * 2) as -> by (unfold x; lia).
  destruct (_ <? _); [apply Z.mod_mul; lia|].
  rewrite (Z.mul_comm 2 (2 ^ 12)), <- Z.mul_sub_distr_r. apply Z.mod_mul. lia.
Qed.
Lemma immJ_even w : immJ w mod 2 = 0.
Proof.
  unfold immJ, sext. change (21 - 1) with 20. change (2 ^ 21) with (2 * 2 ^ 20).
  set (x := fld w 31 1 * 2 ^ 20 + fld w 12 8 * 2 ^ 12 + fld w 20 1 * 2 ^ 11 + fld w 21 10 * 2).
  assert (x = (fld w 31 1 * 2 ^ 19 + fld w 12 8 * 2 ^ 11 + fld w 20 1 * 2 ^ 10 + fld w 21 10) * 2) as -> by (unfold x; lia).
  destruct (_ <? _); [apply Z.mod_mul; lia|].
  rewrite (Z.mul_comm 2 (2 ^ 20)), <- Z.mul_sub_distr_r. apply Z.mod_mul. lia.
Qed.

(** Shift amounts. *)
Lemma shamt_low w : imm_I w = fld w 20 5 + 2 ^ 5 * (fld w 25 6 + 2 ^ 6 * rep (bitb w 31) 21).
Proof.
  unfold imm_I, i_sign. change bits with fld.
  replace (fld w 20 11) with (fld w 20 5 + 2 ^ 5 * fld w 25 6) by (symmetry; apply (fld_split w 20 5 6); lia). lia.
Qed.
Lemma shamt_mod w : imm_I w mod 32 = fld w 20 5.
Proof.
  rewrite shamt_low. change (2 ^ 5) with 32. rewrite Z.mul_comm, Z.mod_add by lia.
  apply Z.mod_small. apply (fld_range w 20 5). lia.
Qed.
Lemma shamt_f7 w : fld w 25 7 = 0 -> imm_I w = fld w 20 5.
Proof.
  intros H. rewrite shamt_low. change 7 with (6 + 1) in H. rewrite (fld_split w 25 6 1) in H by lia. change (25 + 6) with 31 in H.
  pose proof (fld_range w 25 6 ltac:(lia)). pose proof (fld_range w 31 1 ltac:(lia)).
  assert (E : fld w 31 1 = 0) by lia. unfold bitb. change bits with fld. rewrite E. unfold rep. change (0 =? 1) with false. cbv iota. lia.
Qed.
Lemma bit30_f7 w : fld w 30 1 = (fld w 25 7 / 32) mod 2.
Proof.
  replace (fld w 25 7) with (fld w 25 5 + 2 ^ 5 * (fld w 30 1 + 2 ^ 1 * fld w 31 1)).
  2:{ change 7 with (5 + 2). rewrite (fld_split w 25 5 2) by lia. change (25 + 5) with 30. change (fld w 30 2) with (fld w 30 (1 + 1)). rewrite (fld_split w 30 1 1) by lia. reflexivity. }
  pose proof (fld_range w 25 5 ltac:(lia)). pose proof (fld_range w 30 1 ltac:(lia)).
  change (2 ^ 5) with 32 in *. change (2 ^ 1) with 2 in *.
  rewrite (Z.mul_comm 32), Z.div_add, Z.div_small by lia. rewrite Z.add_0_l, (Z.mul_comm 2), Z.mod_add by lia.
  symmetry. apply Z.mod_small; lia.
Qed.

(** Substitute the opcode and funct3 literals and compute. *)
Ltac cmps := repeat match goal with
  | |- context[?a =? ?b] => isZ a; isZ b; let v := eval vm_compute in (a =? b) in change (a =? b) with v
  | |- context[?a <=? ?b] => isZ a; isZ b; let v := eval vm_compute in (a <=? b) in change (a <=? b) with v
  end; cbn [andb orb negb].
Ltac opc Ho :=
  rewrite ?opcode_low, ?quadrant_low, ?Ho;
  repeat match goal with |- context[?a / 4] => isZ a; let v := eval vm_compute in (a / 4) in change (a / 4) with v end;
  repeat match goal with |- context[?a mod 4] => isZ a; let v := eval vm_compute in (a mod 4) in change (a mod 4) with v end;
  unfold OP_IMM, LUI, AUIPC, OP, JAL, JALR, BRANCH, LOAD, STORE, CUSTOM_0, MISC_MEM, SYSTEM; cmps; cbv iota.
Ltac cases_in H := repeat match type of H with
  | match ?x with _ => _ end = _ => destruct x eqn:?; try discriminate H
  end.

Lemma decode_some w i c c' : decode w = Some i -> is_csr i = false -> i <> Ecall -> i <> Ebreak ->
  exc_first w = false /\ map_is_csr w = false /\ exc_is_csr w = false /\ map_first w c = entry i /\ fits w i (imm_next true w c').
Proof.
  unfold decode. destruct (w mod 2 ^ 7) as [|o|o] eqn:Ho; try discriminate.
  intros H Hc He Hb.
  unfold exc_first, exc_switch, map_is_csr, exc_is_csr, map_first, imm_next, i_funct3, i_funct7.
  change bits with fld.
  repeat (destruct o as [o|o|]; try discriminate H).
  all: change fld with bits; opc Ho; change bits with fld.
  - (* JAL *) injection H as <-. repeat split. { apply imm_J_ok. } apply immJ_even.
  - (* LUI *) injection H as <-. repeat split. apply imm_U_ok.
  - (* JALR *) destruct (Z.eqb_spec (fld w 12 3) 0); [|discriminate]. injection H as <-. repeat split. apply imm_I_ok.
  - (* AUIPC *) injection H as <-. repeat split. apply imm_U_ok.
  - (* FENCE *) destruct (Z.eqb_spec (fld w 12 3) 0); [|discriminate]. injection H as <-. repeat split.
  - (* SYSTEM *) unfold decode_system in H. change (bits w) with (fld w).
    destruct (fld w 12 3) as [|f|f] eqn:F; try discriminate; [|repeat (destruct f as [f|f|]; try discriminate H)]; try (injection H as <-; discriminate Hc).
    destruct (Z.eqb_spec w 0x73); [congruence|]. destruct (Z.eqb_spec w 0x100073); [congruence|].
    destruct (Z.eqb_spec w 0x30200073); [injection H as <-; subst w; repeat split|].
    destruct (Z.eqb_spec w 0x10500073); [injection H as <-; subst w; repeat split|discriminate].
  - (* OP *) unfold decode_op in H.
    destruct (Z.eqb_spec (fld w 25 7) 0) as [E|E].
    + rewrite bit30_f7, E. 
      destruct (fld w 12 3) as [|f|f]; try discriminate; [|repeat (destruct f as [f|f|]; try discriminate H)]; injection H as <-; cmps; repeat split.
    + destruct (Z.eqb_spec (fld w 25 7) 32) as [E'|E']; [|discriminate].
      rewrite bit30_f7, E'.
      destruct (fld w 12 3) as [|f|f]; try discriminate; [|repeat (destruct f as [f|f|]; try discriminate H)]; injection H as <-; cmps; repeat split.
  - (* BRANCH *) unfold decode_branch in H.
    destruct (fld w 12 3) as [|f|f] eqn:F; try discriminate; [|repeat (destruct f as [f|f|]; try discriminate H)]; cmps;
      injection H as <-; repeat split; try apply imm_B_ok; apply immB_even.
  - (* STORE *) unfold decode_store in H.
    destruct (fld w 12 3) as [|f|f] eqn:F; try discriminate; [|repeat (destruct f as [f|f|]; try discriminate H)]; cmps;
      injection H as <-; repeat split; try apply imm_S_ok.
  - (* OPIMM *) unfold decode_opimm in H.
    destruct (fld w 12 3) as [|f|f] eqn:F; try discriminate; [|repeat (destruct f as [f|f|]; try discriminate H)]; cmps.
    all: try (injection H as <-; repeat split; [apply imm_I_ok|discriminate]).
    + (* 5 *) destruct (Z.eqb_spec (fld w 25 7) 0) as [E|E]; [|destruct (Z.eqb_spec (fld w 25 7) 32) as [E'|E']; [|discriminate]].
      * injection H as <-. rewrite bit30_f7, E. repeat split; try apply fld_range; try lia. apply shamt_f7; assumption.
      * injection H as <-. rewrite bit30_f7, E'. repeat split; try apply fld_range; try lia. apply shamt_mod.
    + (* 1 *) destruct (Z.eqb_spec (fld w 25 7) 0) as [E|E]; [|discriminate].
      injection H as <-. rewrite bit30_f7, E. repeat split; try apply fld_range; try lia. apply shamt_f7; assumption.
  - (* LOAD *) unfold decode_load in H.
    destruct (fld w 12 3) as [|f|f] eqn:F; try discriminate; [|repeat (destruct f as [f|f|]; try discriminate H)]; cmps;
      injection H as <-; repeat split; try apply imm_I_ok; try discriminate; reflexivity.
Qed.

Lemma decode_csr w f rd g n c : decode w = Some (Csr f rd g n) ->
  exc_first w = false /\ map_is_csr w = true /\ exc_is_csr w = true /\ map_first w c = 0x24 /\ fits w (Csr f rd g n) 0.
Proof.
  unfold decode. destruct (w mod 2 ^ 7) as [|o|o] eqn:Ho; try discriminate.
  intros H.
  unfold exc_first, exc_switch, map_is_csr, exc_is_csr, map_first, i_funct3, i_funct7.
  repeat (destruct o as [o|o|]; try discriminate H).
  all: opc Ho; change bits with fld.
  all: try (unfold decode_op, decode_opimm, decode_branch, decode_store, decode_load in H; cases_in H; fail).
  unfold decode_system in H.
  assert (K : fld w 12 3 <> 0 -> (fld w 7 25 =? INSN_ECALL / 2 ^ 7) = false).
  { intros N. apply Z.eqb_neq. intros E. apply N. change (INSN_ECALL / 2 ^ 7) with 0 in E.
    change 25 with (5 + 20) in E. rewrite (fld_split w 7 5 20) in E by lia. change (7 + 5) with 12 in E.
    change 20 with (3 + 17) in E. rewrite (fld_split w 12 3 17) in E by lia.
    pose proof (fld_range w 7 5 ltac:(lia)). pose proof (fld_range w 12 3 ltac:(lia)). pose proof (fld_range w (12 + 3) 17 ltac:(lia)). lia. }
  assert (K2 : forall x, fld x 12 3 = 0 -> fld w 12 3 <> 0 -> (w =? x) = false) by (intros; apply Z.eqb_neq; congruence).
  destruct (fld w 12 3) as [|f3|f3] eqn:F; try discriminate H.
  { cases_in H. }
  rewrite !K, !K2 by (reflexivity || discriminate).
  repeat (destruct f3 as [f3|f3|]; try discriminate H); cmps; injection H as <- <- <- <-; repeat split.
  all: try (exists true; split; [reflexivity|exact F]).
  all: exists false; split; [reflexivity|exact F].
Qed.

Lemma decode_ecall w : decode w = Some Ecall -> w = 0x73.
Proof.
  unfold decode, decode_system, decode_op, decode_opimm, decode_branch, decode_store, decode_load. intros H. cases_in H.
  apply Z.eqb_eq. assumption.
Qed.
Lemma decode_ebreak w : decode w = Some Ebreak -> w = 0x100073.
Proof.
  unfold decode, decode_system, decode_op, decode_opimm, decode_branch, decode_store, decode_load. intros H. cases_in H.
  apply Z.eqb_eq. assumption.
Qed.

Lemma decode_none w : word w -> decode w = None ->
  exc_first w = true /\ exc_type_first w = illegal_cause SENTINEL w.
Proof.
  intros Hw H. split.
  - assert (Hr : 0 <= w mod 2 ^ 7 < 128) by (apply Z.mod_pos_bound; lia).
    unfold exc_first, exc_switch, i_funct3, i_funct7. unfold decode in H.
    revert Hr. destruct (w mod 2 ^ 7) as [|o|o] eqn:Ho; intros Hr; [opc Ho; reflexivity| |lia].
    repeat (destruct o as [o|o|]; try lia; try (opc Ho; reflexivity)).
    all: opc Ho; change bits with fld; try discriminate H.
    + (* JALR *) destruct (fld w 12 3 =? 0); [discriminate|reflexivity].
    + (* FENCE *) destruct (fld w 12 3 =? 0); [discriminate|reflexivity].
    + (* SYSTEM *) unfold decode_system in H.
      destruct (fld w 7 25 =? _); [reflexivity|].
      unfold INSN_EBREAK, INSN_MRET, INSN_WFI.
      pose proof (fld_range w 12 3 ltac:(lia)) as F.
      destruct (fld w 12 3) as [|f|f] eqn:E; [| |lia].
      * destruct (w =? 0x73); [discriminate|]. change 1048691 with 0x100073. destruct (w =? 0x100073); [discriminate|].
        change 807403635 with 0x30200073. destruct (w =? 0x30200073); [discriminate|].
        change 273678451 with 0x10500073. destruct (w =? 0x10500073); [discriminate|]. reflexivity.
      * repeat (destruct f as [f|f|]; try lia; try discriminate H).
        destruct (w =? 1048691); [reflexivity|]. 
        destruct (Z.eqb_spec w 807403635) as [->|]; [discriminate E|].
        destruct (Z.eqb_spec w 273678451) as [->|]; [discriminate E|]. reflexivity.
    + (* OP *) unfold decode_op in H. pose proof (fld_range w 12 3 ltac:(lia)) as F.
      destruct (fld w 25 7 =? 0), (fld w 25 7 =? 32), (fld w 12 3) as [|f|f] eqn:E; try discriminate H; try lia; try reflexivity.
      all: repeat (destruct f as [f|f|]; try lia; try discriminate H; try reflexivity).
    + (* BRANCH *) unfold decode_branch in H. pose proof (fld_range w 12 3 ltac:(lia)) as F.
      destruct (fld w 12 3) as [|f|f] eqn:E; try discriminate H; try lia; try reflexivity.
      repeat (destruct f as [f|f|]; try lia; try discriminate H; try reflexivity).
    + (* STORE *) unfold decode_store in H. pose proof (fld_range w 12 3 ltac:(lia)) as F.
      destruct (fld w 12 3) as [|f|f] eqn:E; try discriminate H; try lia; try reflexivity.
      repeat (destruct f as [f|f|]; try lia; try discriminate H; try reflexivity).
    + (* OPIMM *) unfold decode_opimm in H. pose proof (fld_range w 12 3 ltac:(lia)) as F.
      destruct (fld w 12 3) as [|f|f] eqn:E; try discriminate H; try lia; try reflexivity.
      repeat (destruct f as [f|f|]; try lia; try discriminate H; try reflexivity); cmps;
      destruct (fld w 25 7 =? 0), (fld w 25 7 =? 32); try discriminate H; reflexivity.
    + (* LOAD *) unfold decode_load in H. pose proof (fld_range w 12 3 ltac:(lia)) as F.
      destruct (fld w 12 3) as [|f|f] eqn:E; try discriminate H; try lia; try reflexivity.
      repeat (destruct f as [f|f|]; try lia; try discriminate H; try reflexivity).
  - unfold exc_type_first, illegal_cause.
    assert (D : w = 128 * (w / 128) + w mod 128) by (apply Z.div_mod; lia).
    pose proof (Z.mod_pos_bound w 128 ltac:(lia)) as Hm.
    rewrite opcode_low. change (2 ^ 7) with 128.
    assert (F : fld w 7 25 = w / 128).
    { unfold fld. change (2 ^ 7) with 128. apply Z.mod_small. unfold word in Hw.
      split; [apply Z.div_pos; lia|apply Z.div_lt_upper_bound; lia]. }
    change bits with fld. rewrite F. change (INSN_ECALL / 128) with 0.
    destruct (Z.eqb_spec ((w mod 128) / 4) SYSTEM) as [E|E]; unfold SYSTEM in *.
    + pose proof (Z.div_mod (w mod 128) 4 ltac:(lia)). pose proof (Z.mod_pos_bound (w mod 128) 4 ltac:(lia)).
      destruct (Z.eqb_spec (w / 128) 0) as [E0|E0].
      * assert (w <> 0x73) by (intros ->; discriminate H).
        destruct (Z.leb_spec 0x70 w), (Z.leb_spec w 0x72); try reflexivity; lia.
      * destruct (Z.eqb_spec w INSN_EBREAK) as [->|]; [discriminate H|].
        destruct (Z.leb_spec 0x70 w), (Z.leb_spec w 0x72); try reflexivity.
        exfalso. apply E0. apply Z.div_small. lia.
    + destruct (Z.leb_spec 0x70 w), (Z.leb_spec w 0x72); try reflexivity.
      exfalso. apply E. rewrite (Z.mod_small w) by lia.
      assert (w = 112 \/ w = 113 \/ w = 114) as [->|[->| ->]] by lia; reflexivity.
Qed.

(** ** Second decode cycle of CSR instructions *)
Definition csr_addrs : list Z := map Z.of_nat (seq 0 4096).
Definition known (n : Z) : bool := match csr_read {| xr := fun _ => 0; pc := 0; mie := false; mpie := false; meie := false; mtvec := 0;
  mscratch := 0; mepc := 0; mcause := 0; took_int := false |} false n with Some _ => true | None => false end.

Lemma csr_read_known a ip n : match csr_read a ip n with Some _ => true | None => false end = known n.
Proof.
  unfold known, csr_read. repeat match goal with |- context[match ?x with _ => _ end] => is_var x; destruct x; try reflexivity end.
  all: destruct (ro_zero _); reflexivity.
Qed.

(** What the attribute ROM says about an address, together with the privilege bits
    [n[8:10]], agrees with the list of CSRs of the reference machine. *)
Definition attr_ok (n : Z) : bool :=
  let at_ := csr_rom (csr_idx n) in
  let priv := bits n 8 2 =? 3 in
  Bool.eqb (negb (ill at_) && priv) (known n)
  && (negb (known n) || Bool.eqb (ro0 at_) (ro_zero n))
  && (negb (known n) || ro_zero n || existsb (Z.eqb n) impl_csrs).
Lemma attr_all : forallb attr_ok csr_addrs = true.
Proof. vm_compute. reflexivity. Qed.
Lemma attr_at n : 0 <= n < 4096 -> attr_ok n = true.
Proof.
  intros. pose proof attr_all as A. rewrite forallb_forall in A. apply A.
  unfold csr_addrs. apply in_map_iff. exists (Z.to_nat n). split; [lia|]. apply in_seq. lia.
Qed.

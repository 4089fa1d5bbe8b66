(** * Microinstruction fields and the microcode ROM *)
From Coq Require Import ZArith List Bool String.
From Verif Require Import Bits Asm MicrocodeText.
Import ListNotations.
Open Scope Z_scope.

(** Enumerations of /repo/src/sentinel/ucodefields.py.  Where the bit pattern has
    unassigned codes a [*_bad] constructor stands for them: an Amaranth [Switch]
    matches no [Case] on it. *)
(** ucodefields.py:28-51 *)
Inductive jmp_type := J_CONT | J_MAP | J_DIRECT | J_DIRECT_ZERO.
(** ucodefields.py:82-109 *)
Inductive cond_test := C_EXCEPTION | C_CMP_ALU_O_ZERO | C_MEM_VALID | C_TRUE.
(** ucodefields.py:117-126 *)
Inductive pc_action := PC_HOLD | PC_INC | PC_LOAD_ALU_O | PC_bad.
(** ucodefields.py:138-161 *)
Inductive a_src := A_GP | A_IMM | A_ALU_O | A_ZERO | A_FOUR | A_NEG_ONE | A_THIRTY_ONE | A_bad.
(** ucodefields.py:164-195 *)
Inductive b_src := B_GP | B_PC | B_IMM | B_ONE | B_DAT_R | B_CSR_IMM | B_CSR | B_MCAUSE_LATCH.
(** ucodefields.py:54-79 *)
Inductive op_type := O_ADD | O_SUB | O_AND | O_OR | O_XOR | O_SLL | O_SRL | O_SRA | O_CMP_LTU | O_bad.
(** ucodefields.py:198-216 *)
Inductive alu_imod := IM_NONE | IM_INV_MSB_A_B.
(** ucodefields.py:219-237 *)
Inductive alu_omod := OM_NONE | OM_INV_LSB_O | OM_CLEAR_LSB_O | OM_bad.
(** ucodefields.py:281-292 *)
Inductive reg_r_sel := RR_INSN_RS1 | RR_INSN_RS2.
(** ucodefields.py:295-308 *)
Inductive reg_w_sel := RW_INSN_RD | RW_ZERO.
(** ucodefields.py:311-327 *)
Inductive csr_op := CO_NONE | CO_READ_CSR | CO_WRITE_CSR | CO_bad.
(** ucodefields.py:330-347 *)
Inductive csr_sel := CS_INSN_CSR | CS_TRG_CSR.
(** ucodefields.py:360-380 *)
Inductive mem_sel := MS_AUTO | MS_BYTE | MS_HWORD | MS_WORD.
(** ucodefields.py:383-406 *)
Inductive mem_extend := ME_ZERO | ME_SIGN.
(** ucodefields.py:440-465 *)
Inductive except_ctl := X_NONE | X_LATCH_DECODER | X_LATCH_JAL | X_LATCH_STORE_ADR
  | X_LATCH_LOAD_ADR | X_ENTER_INT | X_LEAVE_INT | X_bad.

(** Numeric codes -> enumeration (the [shape]/values in ucodefields.py). *)
Definition dec_jmp (z : Z) := match z with 0 => J_CONT | 1 => J_MAP | 2 => J_DIRECT | _ => J_DIRECT_ZERO end.
(** ucodefields.py:82-109 *)
Definition dec_cond (z : Z) := match z with 0 => C_EXCEPTION | 1 => C_CMP_ALU_O_ZERO | 2 => C_MEM_VALID | _ => C_TRUE end.
(** ucodefields.py:117-126 *)
Definition dec_pc (z : Z) := match z with 0 => PC_HOLD | 1 => PC_INC | 2 => PC_LOAD_ALU_O | _ => PC_bad end.
(** ucodefields.py:138-161 *)
Definition dec_a (z : Z) := match z with 0 => A_GP | 1 => A_IMM | 2 => A_ALU_O | 3 => A_ZERO | 4 => A_FOUR
  | 5 => A_NEG_ONE | 6 => A_THIRTY_ONE | _ => A_bad end.
(** ucodefields.py:164-195 *)
Definition dec_b (z : Z) := match z with 0 => B_GP | 1 => B_PC | 2 => B_IMM | 3 => B_ONE | 4 => B_DAT_R
  | 5 => B_CSR_IMM | 6 => B_CSR | _ => B_MCAUSE_LATCH end.
(** ucodefields.py:54-79 *)
Definition dec_op (z : Z) := match z with 0 => O_ADD | 1 => O_SUB | 2 => O_AND | 3 => O_OR | 4 => O_XOR
  | 5 => O_SLL | 6 => O_SRL | 7 => O_SRA | 8 => O_CMP_LTU | _ => O_bad end.
(** ucodefields.py:198-216 *)
Definition dec_imod (z : Z) := match z with 0 => IM_NONE | _ => IM_INV_MSB_A_B end.
(** ucodefields.py:219-237 *)
Definition dec_omod (z : Z) := match z with 0 => OM_NONE | 1 => OM_INV_LSB_O | 2 => OM_CLEAR_LSB_O | _ => OM_bad end.
(** ucodefields.py:281-292 *)
Definition dec_rr (z : Z) := match z with 0 => RR_INSN_RS1 | _ => RR_INSN_RS2 end.
(** ucodefields.py:295-308 *)
Definition dec_rw (z : Z) := match z with 0 => RW_INSN_RD | _ => RW_ZERO end.
(** ucodefields.py:311-327 *)
Definition dec_co (z : Z) := match z with 0 => CO_NONE | 1 => CO_READ_CSR | 2 => CO_WRITE_CSR | _ => CO_bad end.
(** ucodefields.py:330-347 *)
Definition dec_cs (z : Z) := match z with 0 => CS_INSN_CSR | _ => CS_TRG_CSR end.
(** ucodefields.py:360-380 *)
Definition dec_ms (z : Z) := match z with 0 => MS_AUTO | 1 => MS_BYTE | 2 => MS_HWORD | _ => MS_WORD end.
(** ucodefields.py:383-406 *)
Definition dec_me (z : Z) := match z with 0 => ME_ZERO | _ => ME_SIGN end.
(** ucodefields.py:440-465 *)
Definition dec_x (z : Z) := match z with 0 => X_NONE | 1 => X_LATCH_DECODER | 2 => X_LATCH_JAL
  | 3 => X_LATCH_STORE_ADR | 4 => X_LATCH_LOAD_ADR | 5 => X_ENTER_INT | 6 => X_LEAVE_INT | _ => X_bad end.

(** The [fields] view of one 48-bit ROM word: StructLayout built by
    /repo/src/sentinel/ucoderom.py:254-275 in the field order of
    microcode.asm:14-91 (see [layout_is_assembled] in AsmProofs.v). *)
Record uinsn := {
  u_target : Z; u_jmp : jmp_type; u_cond : cond_test; u_inv : bool; u_pc : pc_action;
  u_latch_a : bool; u_latch_b : bool; u_a : a_src; u_b : b_src; u_op : op_type;
  u_imod : alu_imod; u_omod : alu_omod; u_rread : bool; u_rwrite : bool;
  u_rsel : reg_r_sel; u_wsel : reg_w_sel; u_csr : csr_op; u_csel : csr_sel;
  u_mreq : bool; u_msel : mem_sel; u_mext : mem_extend; u_ladr : bool; u_ldata : bool;
  u_wmem : bool; u_fetch : bool; u_exc : except_ctl }.

(** The fields of a ROM word, at the positions [_create_field_layout] gives them (ucoderom.py:254-275, microcode.asm:14-91). *)
Definition dec_uinsn (w : Z) : uinsn := {|
  u_target := bits w 0 8; u_jmp := dec_jmp (bits w 8 2); u_cond := dec_cond (bits w 10 2);
  u_inv := bitb w 12; u_pc := dec_pc (bits w 13 2); u_latch_a := bitb w 15; u_latch_b := bitb w 16;
  u_a := dec_a (bits w 17 3); u_b := dec_b (bits w 20 3); u_op := dec_op (bits w 23 4);
  u_imod := dec_imod (bits w 27 1); u_omod := dec_omod (bits w 28 2);
  u_rread := bitb w 30; u_rwrite := bitb w 31; u_rsel := dec_rr (bits w 32 1);
  u_wsel := dec_rw (bits w 33 1); u_csr := dec_co (bits w 34 2); u_csel := dec_cs (bits w 36 1);
  u_mreq := bitb w 37; u_msel := dec_ms (bits w 38 2); u_mext := dec_me (bits w 40 1);
  u_ladr := bitb w 41; u_ldata := bitb w 42; u_wmem := bitb w 43; u_fetch := bitb w 44;
  u_exc := dec_x (bits w 45 3) |}.

(** The assembled ROM, computed by the assembler from the shipped source. *)
(** [ucode_contents] of the shipped microcode (ucoderom.py:243-252). *)
Definition rom_words :=
  Eval vm_compute in match assemble microcode_asm with Some i => im_words i | None => [] end.
(** ucoderom.py:173-178, 184-189 *)
Definition rom_table := Eval vm_compute in map dec_uinsn rom_words.

(** UCodeROM.elaborate (ucoderom.py:180-191): synchronous read of the ROM. *)
Definition rom (a : Z) : uinsn := nth (Z.to_nat a) rom_table (dec_uinsn 0).

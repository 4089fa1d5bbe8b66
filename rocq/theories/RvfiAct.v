(** * The instruction semantics of the checker of RvfiSpec.v against the reference machine's (for C68) *)
From Coq Require Import ZArith Lia Bool List Btauto.
From Verif Require Import Bits Isa BitLemmas DecodeOk Boundary PropsIsa RvfiSpec.
Import ListNotations.
Open Scope Z_scope.

(** ** The checker's instruction semantics against the reference machine's *)
Lemma signed_sext n z : 0 < n -> 0 <= z < 2 ^ n -> signed n z = sext n z.
Proof.
  intros Hn Hz. unfold signed, sext. assert (E : 2 ^ n = 2 * 2 ^ (n - 1)) by (rewrite <- Z.pow_succ_r by lia; f_equal; lia).
  destruct (Z.ltb_spec z (2 ^ (n - 1))) as [L|L].
  - rewrite Z.mod_small by lia. lia.
  - replace (z + 2 ^ (n - 1)) with ((z - 2 ^ (n - 1)) + 1 * 2 ^ n) by lia. rewrite Z.mod_add by lia. rewrite Z.mod_small by lia. lia.
Qed.
Lemma div_field w lo n : 0 <= lo -> 0 <= n -> 0 <= w < 2 ^ (lo + n) -> w / 2 ^ lo = fld w lo n.
Proof.
  intros Hl Hn H. unfold fld. symmetry. apply Z.mod_small. rewrite Z.pow_add_r in H by lia. split; [apply Z.div_pos; lia|apply Z.div_lt_upper_bound; lia].
Qed.
Section Act.
Variable r : report.
Let w := p_insn r.
Hypothesis W : 0 <= w < 2 ^ 32.
Lemma imm_i_ok : imm_i w = immI w.
Proof. unfold imm_i, immI. rewrite (div_field w 20 12) by lia. apply signed_sext; [lia|]. apply fld_range. lia. Qed.
Lemma imm_s_ok : imm_s w = immS w.
Proof.
  unfold imm_s, immS. rewrite (div_field w 25 7) by lia. change field with fld. pose proof (fld_range w 25 7 ltac:(lia)). pose proof (fld_range w 7 5 ltac:(lia)).
  rewrite signed_sext by lia. f_equal. lia.
Qed.
Lemma imm_b_ok : imm_b w = immB w.
Proof.
  unfold imm_b, immB. change field with fld. pose proof (fld_range w 31 1 ltac:(lia)). pose proof (fld_range w 7 1 ltac:(lia)). pose proof (fld_range w 25 6 ltac:(lia)). pose proof (fld_range w 8 4 ltac:(lia)).
  rewrite signed_sext by lia. f_equal. lia.
Qed.
Lemma imm_j_ok : imm_j w = immJ w.
Proof.
  unfold imm_j, immJ. change field with fld. pose proof (fld_range w 31 1 ltac:(lia)). pose proof (fld_range w 12 8 ltac:(lia)). pose proof (fld_range w 20 1 ltac:(lia)). pose proof (fld_range w 21 10 ltac:(lia)).
  rewrite signed_sext by lia. f_equal. lia.
Qed.
Lemma imm_u_ok : imm_u w = immU w.
Proof.
  unfold imm_u, immU. rewrite <- (div_field w 12 20) by lia. change 4096 with (2 ^ 12). rewrite (Z.div_mod w (2 ^ 12)) at 1 by lia. lia.
Qed.

Let a := p_rs1_rdata r.
Let b := p_rs2_rdata r.
Let next := u32 (p_pc_rdata r + 4).
Hypothesis (Ha : 0 <= a < 2 ^ 32) (Hb : 0 <= b < 2 ^ 32).
Definition f3_of (f : alu_fn) : Z := match f with ADD | SUB => 0 | SLL => 1 | SLT => 2 | SLTU => 3 | XOR => 4 | SRL | SRA => 5 | OR => 6 | AND => 7 end.
Definition alt_of (f : alu_fn) : bool := match f with SUB | SRA => true | _ => false end.
Lemma arith_ok f x y : 0 <= x < 2 ^ 32 -> 0 <= y < 2 ^ 32 -> arith (f3_of f) (alt_of f) x y = alu f x y.
Proof. intros Hx Hy. destruct f; cbn [f3_of alt_of arith alu]; unfold s32; rewrite ?signed_sext by lia; reflexivity. Qed.

Definition csr_code (f : csr_fn) : Z := match f with CSRRW => 1 | CSRRS => 2 | CSRRC => 3 end.
Definition csr_f3 (f : csr_fn) (g : csr_arg) : Z := csr_code f + match g with CReg _ => 0 | CImm _ => 4 end.
(** [act_of], instruction by instruction. *)
Definition act_spec (i : instr) : act :=
  match i with
  | Lui rd imm => result rd imm next
  | Auipc rd imm => result rd (u32 (p_pc_rdata r + imm)) next
  | Jal rd off => jump_to rd next (u32 (p_pc_rdata r + off))
  | Jalr rd _ off => let p := u32 (a + off) in jump_to rd next (p - p mod 2)
  | Branch c _ _ off => if cmp c a b then jump_to 0 0 (u32 (p_pc_rdata r + off)) else result 0 0 next
  | Load sz sgn _ _ off => load r (bytes sz) sgn (u32 (a + off))
  | Store sz _ _ off => store r (bytes sz) (u32 (a + off))
  | OpImm f rd _ imm => result rd (alu f a (imm mod 2 ^ 32)) next
  | OpReg f rd _ _ => result rd (alu f a b) next
  | Fence | Wfi => result 0 0 next
  | Ecall => Traps 11
  | Ebreak => Traps 3
  | Mret => let e := p_csr_rdata r 0x341 in result 0 0 (e - e mod 4)
  | Csr f _ g _ => csr_insn r (csr_f3 f g)
  end.
Lemma funct3_range : 0 <= funct3 w < 8.
Proof. apply (fld_range w 12 3). lia. Qed.
Lemma shamt : u32 (imm_i w) mod 32 = fld w 20 5.
Proof.
  assert (D : forall z, (z mod 2 ^ 32) mod 32 = z mod 32). { intros z. symmetry. apply Znumtheory.Zmod_div_mod; [lia|lia|]. exists (2 ^ 27). reflexivity. }
  unfold u32. rewrite D, imm_i_ok. unfold immI, sext. assert (E : fld w 20 12 mod 32 = fld w 20 5).
  { unfold fld. symmetry. apply Znumtheory.Zmod_div_mod; [lia|lia|]. exists 128. reflexivity. }
  destruct (_ <? _); [exact E|]. rewrite <- E. change (2 ^ 12) with (128 * 32). replace (fld w 20 12 - 128 * 32) with (fld w 20 12 + (-128) * 32) by lia. apply Z.mod_add. lia.
Qed.
Lemma below8 n : 0 <= n < 8 -> n = 0 \/ n = 1 \/ n = 2 \/ n = 3 \/ n = 4 \/ n = 5 \/ n = 6 \/ n = 7.
Proof. lia. Qed.
Ltac f3cases := let R := fresh "R" in pose proof (below8 _ funct3_range) as R; destruct R as [R|[R|[R|[R|[R|[R|[R|R]]]]]]]; rewrite ?R.
Lemma fits32 n z : 0 <= z < 2 ^ n -> n <= 32 -> 0 < n -> 0 <= z < 2 ^ 32.
Proof. intros H L P. split; [lia|]. apply Z.lt_le_trans with (2 ^ n); [lia|]. apply Z.pow_le_mono_r; lia. Qed.
Lemma u32_range z : 0 <= u32 z < 2 ^ 32.
Proof. apply Z.mod_pos_bound. lia. Qed.
Lemma opimm_ok : (if (funct3 w =? 1) && negb (funct7 w =? 0) || (funct3 w =? 5) && negb (funct7 w =? 0) && negb (funct7 w =? 32) then Traps 2
     else result (field w 7 5) (arith (funct3 w) ((funct3 w =? 5) && (funct7 w =? 32)) a (u32 (imm_i w))) next)
  = match decode_opimm w with Some i => act_spec i | None => Traps 2 end.
Proof.
  pose proof funct3_range as R3. unfold decode_opimm. change (fld w 12 3) with (funct3 w). change (fld w 25 7) with (funct7 w).
  pose proof (u32_range (imm_i w)) as U. pose proof (fld_range w 20 5 ltac:(lia)) as R5.
  assert (A : forall f, arith (f3_of f) (alt_of f) a (u32 (imm_i w)) = alu f a (u32 (imm_i w))) by (intros f; apply arith_ok; assumption).
  assert (S32 : forall f, f = SLL \/ f = SRL \/ f = SRA -> alu f a (u32 (imm_i w)) = alu f a (fld w 20 5 mod 2 ^ 32)).
  { intros f Hf. assert (M : (fld w 20 5 mod 2 ^ 32) mod 32 = u32 (imm_i w) mod 32) by (rewrite shamt, (Z.mod_small (fld w 20 5)) by lia; apply Z.mod_small; lia).
    destruct Hf as [-> | [-> | ->]]; cbn [alu]; rewrite M; reflexivity. }
  unfold u32 in *. rewrite imm_i_ok in *. change field with fld.
  f3cases; cbn -[Z.pow Z.modulo fld arith alu].
  - f_equal; try apply (A ADD).
  - destruct (funct7 w =? 0); cbn [negb orb act_spec]; [|reflexivity]. f_equal; rewrite <- (S32 SLL) by auto; apply (A SLL).
  - f_equal; try apply (A SLT).
  - f_equal; try apply (A SLTU).
  - f_equal; try apply (A XOR).
  - destruct (Z.eqb_spec (funct7 w) 0) as [E|E]; [rewrite E|]; [|destruct (funct7 w =? 32)]; cbn [negb andb act_spec]; [| |reflexivity]; f_equal.
    + rewrite <- (S32 SRL) by auto. apply (A SRL).
    + rewrite <- (S32 SRA) by auto. apply (A SRA).
  - f_equal; try apply (A OR).
  - f_equal; try apply (A AND).
Qed.
Lemma op_ok : (if (funct7 w =? 0) || (funct7 w =? 32) && ((funct3 w =? 0) || (funct3 w =? 5)) then result (field w 7 5) (arith (funct3 w) (funct7 w =? 32) a b) next else Traps 2)
  = match decode_op w with Some i => act_spec i | None => Traps 2 end.
Proof.
  unfold decode_op. change (fld w 12 3) with (funct3 w). change (fld w 25 7) with (funct7 w). change field with fld.
  assert (A : forall f, arith (f3_of f) (alt_of f) a b = alu f a b) by (intros f; apply arith_ok; assumption).
  destruct (Z.eqb_spec (funct7 w) 0) as [E|E]; [rewrite E|destruct (Z.eqb_spec (funct7 w) 32) as [E'|E']]; cbn [orb andb Z.eqb Pos.eqb].
  - f3cases; cbn [act_spec]; first [rewrite <- (A ADD); reflexivity|rewrite <- (A SLL); reflexivity|rewrite <- (A SLT); reflexivity|rewrite <- (A SLTU); reflexivity|rewrite <- (A XOR); reflexivity|rewrite <- (A SRL); reflexivity|rewrite <- (A OR); reflexivity|rewrite <- (A AND); reflexivity].
  - f3cases; cbn [orb andb Z.eqb Pos.eqb act_spec]; rewrite ?E'; cbn [Z.eqb Pos.eqb]; try reflexivity; first [rewrite <- (A SUB); reflexivity|rewrite <- (A SRA); reflexivity].
  - reflexivity.
Qed.
Lemma branch_ok : match taken r (funct3 w) with
            | Some true => jump_to 0 0 (u32 (p_pc_rdata r + imm_b w))
            | Some false => result 0 0 next
            | None => Traps 2
            end = match decode_branch w with Some i => act_spec i | None => Traps 2 end.
Proof.
  unfold decode_branch. change (fld w 12 3) with (funct3 w). rewrite imm_b_ok. unfold taken. fold a b. rewrite !signed_sext by (try assumption; lia).
  f3cases; cbn [act_spec cmp]; try reflexivity; match goal with |- context [if ?c then _ else _] => destruct c; reflexivity end.
Qed.
Lemma load_ok : (let ea := u32 (a + imm_i w) in
            match funct3 w with 0 => load r 1 true ea | 1 => load r 2 true ea | 2 => load r 4 true ea | 4 => load r 1 false ea | 5 => load r 2 false ea | _ => Traps 2 end)
  = match decode_load w with Some i => act_spec i | None => Traps 2 end.
Proof.
  unfold decode_load. change (fld w 12 3) with (funct3 w). rewrite imm_i_ok. f3cases; reflexivity.
Qed.
Lemma store_ok : (let ea := u32 (a + imm_s w) in
            match funct3 w with 0 => store r 1 ea | 1 => store r 2 ea | 2 => store r 4 ea | _ => Traps 2 end)
  = match decode_store w with Some i => act_spec i | None => Traps 2 end.
Proof.
  unfold decode_store. change (fld w 12 3) with (funct3 w). rewrite imm_s_ok. f3cases; reflexivity.
Qed.
Lemma system_ok : (if funct3 w =? 0 then
              if w =? 0x00000073 then Traps 11 else if w =? 0x00100073 then Traps 3
              else if w =? 0x30200073 then let e := p_csr_rdata r 0x341 in result 0 0 (e - e mod 4)
              else if w =? 0x10500073 then result 0 0 next else Traps 2
            else if funct3 w =? 4 then Traps 2 else csr_insn r (funct3 w))
  = match decode_system w with Some i => act_spec i | None => Traps 2 end.
Proof.
  unfold decode_system. change (fld w 12 3) with (funct3 w).
  f3cases; cbn [Z.eqb Pos.eqb]; try reflexivity.
  destruct (w =? 0x73); [reflexivity|]. destruct (w =? 0x100073); [reflexivity|]. destruct (w =? 0x30200073); [reflexivity|]. destruct (w =? 0x10500073); reflexivity.
Qed.
Lemma act_decode : act_of r = match decode w with Some i => act_spec i | None => Traps 2 end.
Proof.
  unfold act_of, decode, opcode. fold w a b next. cbv zeta. rewrite imm_u_ok, imm_j_ok, opimm_ok, op_ok, branch_ok. pose proof load_ok as L. pose proof store_ok as S. pose proof system_ok as Y. cbv zeta in L, S, Y. rewrite L, S, Y.
  rewrite imm_i_ok. change (2 ^ 7) with 128. change (fld w 12 3) with (funct3 w).
  destruct (w mod 128) as [|m|m]; try reflexivity.
  repeat (destruct m as [m|m|]; try reflexivity); destruct (funct3 w =? 0); reflexivity.
Qed.
End Act.


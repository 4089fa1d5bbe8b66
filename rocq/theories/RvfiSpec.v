(** * A lock-step checker for RVFI traces (specification of C68)

    Written from the RISC-V manuals and the description of the RISC-V Formal Interface.  This file
    models no code of the repository and imports nothing of the model.

    The checker reads one report after the other and keeps what it knows about the processor.  It
    computes the effect of the reported instruction from the reported operands and compares it with
    the reported effect; the operands it compares with what it knows.  Three things it lets pass are
    known deviations of the core: the interrupt bit of MCAUSE may be set by an exception (C24), the
    words 0x70-0x72 may give cause 11 (C17), and mstatus is not compared in reports of traps and of
    MRET, nor mip, rd and rd_wdata where C52 and C55 show them to be wrong. *)
From Coq Require Import ZArith Bool List.
Import ListNotations.
Open Scope Z_scope.

(** One report: the ports of the interface in a cycle with [valid] high.  CSR channels are indexed
    by CSR number. *)
Record report := {
  p_order : Z; p_insn : Z; p_trap : bool; p_intr : bool;
  p_rs1_addr : Z; p_rs2_addr : Z; p_rs1_rdata : Z; p_rs2_rdata : Z; p_rd_addr : Z; p_rd_wdata : Z;
  p_pc_rdata : Z; p_pc_wdata : Z;
  p_mem_addr : Z; p_mem_rmask : Z; p_mem_wmask : Z; p_mem_rdata : Z; p_mem_wdata : Z;
  p_csr_rdata : Z -> Z; p_csr_wdata : Z -> Z }.

(** ** Instruction fields *)
Definition field (w lo n : Z) : Z := (w / 2 ^ lo) mod 2 ^ n.
Definition signed (n z : Z) : Z := (z + 2 ^ (n - 1)) mod 2 ^ n - 2 ^ (n - 1).
Definition u32 (z : Z) : Z := z mod 2 ^ 32.
Definition opcode w := w mod 128.
Definition funct3 w := field w 12 3.
Definition funct7 w := field w 25 7.
Definition imm_i w := signed 12 (w / 2 ^ 20).
Definition imm_s w := signed 12 (32 * (w / 2 ^ 25) + field w 7 5).
Definition imm_b w := signed 13 (4096 * field w 31 1 + 2048 * field w 7 1 + 32 * field w 25 6 + 2 * field w 8 4).
Definition imm_u w := w - w mod 4096.
Definition imm_j w := signed 21 (1048576 * field w 31 1 + 4096 * field w 12 8 + 2048 * field w 20 1 + 2 * field w 21 10).

(** ** What an instruction should do, computed from the reported operands *)
Record effect := {
  e_rd : Z; e_val : Z; e_pc : Z;
  e_addr : Z; e_rmask : Z; e_wmask : Z; e_wdata : Z;
  e_csr : option (Z * Z) }.
Inductive act := Traps (cause : Z) | Does (e : effect).

Section Insn.
Variable r : report.
Let w := p_insn r.
Let a := p_rs1_rdata r.
Let b := p_rs2_rdata r.
Let next := u32 (p_pc_rdata r + 4).
Let rd := field w 7 5.

(** Write [v] to [rd] and go to [p]. *)
Definition result (rd v p : Z) : act :=
  Does {| e_rd := rd; e_val := v; e_pc := p; e_addr := 0; e_rmask := 0; e_wmask := 0; e_wdata := 0; e_csr := None |}.
Definition jump_to (rd v p : Z) : act := if p mod 4 =? 0 then result rd v p else Traps 0.

(** Bit 30 of the instruction selects SUB and SRA. *)
Definition arith (f3 : Z) (alt : bool) (x y : Z) : Z :=
  match f3 with
  | 0 => u32 (if alt then x - y else x + y)
  | 1 => u32 (x * 2 ^ (y mod 32))
  | 2 => if signed 32 x <? signed 32 y then 1 else 0
  | 3 => if x <? y then 1 else 0
  | 4 => Z.lxor x y
  | 5 => if alt then u32 (signed 32 x / 2 ^ (y mod 32)) else x / 2 ^ (y mod 32)
  | 6 => Z.lor x y
  | _ => Z.land x y
  end.
Definition taken (f3 : Z) : option bool :=
  match f3 with
  | 0 => Some (a =? b) | 1 => Some (negb (a =? b))
  | 4 => Some (signed 32 a <? signed 32 b) | 5 => Some (negb (signed 32 a <? signed 32 b))
  | 6 => Some (a <? b) | 7 => Some (negb (a <? b))
  | _ => None
  end.

(** Loads and stores of [n] bytes at address [ea], in the aligned word at [ea - ea mod 4]. *)
Definition load (n : Z) (sign : bool) (ea : Z) : act :=
  if ea mod n =? 0 then
    let raw := field (p_mem_rdata r) (8 * (ea mod 4)) (8 * n) in
    Does {| e_rd := rd; e_val := if sign then u32 (signed (8 * n) raw) else raw; e_pc := next;
            e_addr := ea - ea mod 4; e_rmask := (2 ^ n - 1) * 2 ^ (ea mod 4); e_wmask := 0; e_wdata := 0; e_csr := None |}
  else Traps 4.
Definition store (n ea : Z) : act :=
  if ea mod n =? 0 then
    Does {| e_rd := 0; e_val := 0; e_pc := next;
            e_addr := ea - ea mod 4; e_rmask := 0; e_wmask := (2 ^ n - 1) * 2 ^ (ea mod 4); e_wdata := b * 2 ^ (8 * (ea mod 4)); e_csr := None |}
  else Traps 6.

(** CSRs: machine-mode ones with state, MIP, and those that read as zero. *)
Definition stateful (n : Z) : bool := existsb (Z.eqb n) [0x300; 0x304; 0x305; 0x340; 0x341; 0x342].
Definition between (lo hi n : Z) : bool := (lo <=? n) && (n <=? hi).
Definition zero_csr (n : Z) : bool :=
  existsb (Z.eqb n) [0x301; 0x310; 0x320; 0x343; 0xB00; 0xB80] || between 0x323 0x33F n || between 0xB02 0xB1F n || between 0xB82 0xB9F n || between 0xF11 0xF15 n.
Definition legal_value (n v : Z) : Z :=
  match n with
  | 0x300 => 0x1800 + Z.land v 0x88
  | 0x304 => Z.land v 0x800
  | 0x305 | 0x341 => v - v mod 4
  | _ => v
  end.
Definition csr_insn (f3 : Z) : act :=
  let n := w / 2 ^ 20 in
  let rs1 := field w 15 5 in
  let operand := if f3 <? 4 then a else rs1 in
  let writes := (f3 mod 4 =? 1) || negb (rs1 =? 0) in
  if negb (stateful n || (n =? 0x344) || zero_csr n) then Traps 2
  else if writes && (n / 1024 =? 3) then Traps 2
  else
    let old := if stateful n then p_csr_rdata r n else if zero_csr n then 0 else if p_rd_wdata r =? 0 then 0 else 0x800 in
    let new := match f3 mod 4 with 1 => operand | 2 => Z.lor old operand | _ => Z.ldiff old operand end in
    Does {| e_rd := rd; e_val := old; e_pc := next; e_addr := 0; e_rmask := 0; e_wmask := 0; e_wdata := 0;
            e_csr := if stateful n && writes then Some (n, legal_value n new) else None |}.

Definition act_of : act :=
  let f3 := funct3 w in let f7 := funct7 w in
  match opcode w with
  | 0x37 => result rd (imm_u w) next
  | 0x17 => result rd (u32 (p_pc_rdata r + imm_u w)) next
  | 0x6F => jump_to rd next (u32 (p_pc_rdata r + imm_j w))
  | 0x67 => if f3 =? 0 then let p := u32 (a + imm_i w) in jump_to rd next (p - p mod 2) else Traps 2
  | 0x63 => match taken f3 with
            | Some true => jump_to 0 0 (u32 (p_pc_rdata r + imm_b w))
            | Some false => result 0 0 next
            | None => Traps 2
            end
  | 0x03 => let ea := u32 (a + imm_i w) in
            match f3 with 0 => load 1 true ea | 1 => load 2 true ea | 2 => load 4 true ea | 4 => load 1 false ea | 5 => load 2 false ea | _ => Traps 2 end
  | 0x23 => let ea := u32 (a + imm_s w) in
            match f3 with 0 => store 1 ea | 1 => store 2 ea | 2 => store 4 ea | _ => Traps 2 end
  | 0x13 => if (f3 =? 1) && negb (f7 =? 0) || (f3 =? 5) && negb (f7 =? 0) && negb (f7 =? 32) then Traps 2
            else result rd (arith f3 ((f3 =? 5) && (f7 =? 32)) a (u32 (imm_i w))) next
  | 0x33 => if (f7 =? 0) || (f7 =? 32) && ((f3 =? 0) || (f3 =? 5)) then result rd (arith f3 (f7 =? 32) a b) next else Traps 2
  | 0x0F => if f3 =? 0 then result 0 0 next else Traps 2
  | 0x73 => if f3 =? 0 then
              if w =? 0x00000073 then Traps 11 else if w =? 0x00100073 then Traps 3
              else if w =? 0x30200073 then let e := p_csr_rdata r 0x341 in result 0 0 (e - e mod 4)
              else if w =? 0x10500073 then result 0 0 next else Traps 2
            else if f3 =? 4 then Traps 2 else csr_insn f3
  | _ => Traps 2
  end.
End Insn.

(** ** The checker *)
(** What it knows: next program counter, number of reports, whether the last one was a trap, and the
    registers and CSRs as far as known. *)
Record view := {
  k_pc : Z; k_order : Z; k_trapped : bool; k_x : Z -> option Z;
  k_mie : option bool; k_mpie : option bool; k_meie : bool;
  k_csr : Z -> option Z }.
Definition start : view := {|
  k_pc := 0; k_order := 0; k_trapped := false; k_x := fun q => if q =? 0 then Some 0 else None;
  k_mie := Some false; k_mpie := None; k_meie := false; k_csr := fun n => if n =? 0x342 then Some 0 else None |}.

(** [z] is a possible value of something of which [o] is known. *)
Definition fits (o : option Z) (z : Z) : bool := match o with Some y => y =? z | None => true end.
Definition bitv (c : bool) (v : Z) : Z := if c then v else 0.
Definition bit_fits (o : option bool) (c : bool) : bool := match o with Some y => Bool.eqb y c | None => true end.
Definition mstatus_fits (k : view) (z : Z) : bool :=
  (z =? 0x1800 + bitv (Z.testbit z 7) 0x80 + bitv (Z.testbit z 3) 8) && bit_fits (k_mie k) (Z.testbit z 3) && bit_fits (k_mpie k) (Z.testbit z 7).
Definition lane (d i : Z) : Z := field d (8 * i) 8.

Definition set {A} (f : Z -> A) (n : Z) (v : A) : Z -> A := fun m => if m =? n then v else f m.
Definition after_csr (k : view) (c : option (Z * Z)) : view :=
  match c with
  | Some (0x300, v) => {| k_pc := k_pc k; k_order := k_order k; k_trapped := k_trapped k; k_x := k_x k;
      k_mie := Some (Z.testbit v 3); k_mpie := Some (Z.testbit v 7); k_meie := k_meie k; k_csr := k_csr k |}
  | Some (0x304, v) => {| k_pc := k_pc k; k_order := k_order k; k_trapped := k_trapped k; k_x := k_x k;
      k_mie := k_mie k; k_mpie := k_mpie k; k_meie := Z.testbit v 11; k_csr := k_csr k |}
  | Some (n, v) => {| k_pc := k_pc k; k_order := k_order k; k_trapped := k_trapped k; k_x := k_x k;
      k_mie := k_mie k; k_mpie := k_mpie k; k_meie := k_meie k; k_csr := set (k_csr k) n (Some v) |}
  | None => k
  end.

(** What every report must show, whatever the instruction. *)
Definition operands_fit (k : view) (r : report) : bool :=
  (p_order r =? k_order k) && (p_pc_rdata r =? k_pc k) && Bool.eqb (p_intr r) (k_trapped k) &&
  (p_rs1_addr r =? field (p_insn r) 15 5) && (p_rs2_addr r =? field (p_insn r) 20 5) &&
  fits (k_x k (p_rs1_addr r)) (p_rs1_rdata r) && fits (k_x k (p_rs2_addr r)) (p_rs2_rdata r) &&
  forallb (fun n => fits (k_csr k n) (p_csr_rdata r n)) [0x305; 0x340; 0x341; 0x342] &&
  (p_csr_rdata r 0x304 =? bitv (k_meie k) 0x800).

(** A report of a trap: the instruction must trap, or an interrupt must be possible. *)
Definition cause_fits (k : view) (r : report) : bool :=
  let m := p_csr_wdata r 0x342 in
  bit_fits (k_mie k) true && k_meie k && (m =? 0x8000000B) ||
  match act_of r with
  | Traps c => (m =? c) || (m =? 0x80000000 + c) || between 0x70 0x72 (p_insn r) && ((m =? 11) || (m =? 0x8000000B))
  | Does _ => false
  end.
Definition check_trap (k : view) (r : report) : option view :=
  if cause_fits k r && (legal_value 0x341 (p_csr_wdata r 0x341) =? p_pc_rdata r) &&
     (p_mem_rmask r =? 0) && (p_mem_wmask r =? 0) &&
     (p_pc_wdata r =? let m := p_csr_rdata r 0x305 in m - m mod 4)
  then Some {| k_pc := p_pc_wdata r; k_order := (k_order k + 1) mod 2 ^ 64; k_trapped := true; k_x := k_x k;
               k_mie := Some false; k_mpie := k_mie k; k_meie := k_meie k;
               k_csr := set (set (k_csr k) 0x341 (Some (p_pc_rdata r))) 0x342 (Some (p_csr_wdata r 0x342)) |}
  else None.

(** A report of an instruction that has effect [e]. *)
Definition check_effect (k : view) (r : report) (e : effect) : option view :=
  let mret := p_insn r =? 0x30200073 in
  if (mret || mstatus_fits k (p_csr_rdata r 0x300)) &&
     (p_rd_addr r =? e_rd e) && (p_rd_wdata r =? if e_rd e =? 0 then 0 else e_val e) && (p_pc_wdata r =? e_pc e) &&
     (p_mem_rmask r =? e_rmask e) && (p_mem_wmask r =? e_wmask e) &&
     ((e_rmask e =? 0) && (e_wmask e =? 0) || (p_mem_addr r =? e_addr e)) &&
     forallb (fun i => negb (Z.testbit (e_wmask e) i) || (lane (p_mem_wdata r) i =? lane (e_wdata e) i)) [0; 1; 2; 3] &&
     match e_csr e with
     | Some (0x300, v) => (v =? p_csr_rdata r 0x300) || (legal_value 0x300 (p_csr_wdata r 0x300) =? v)
     | Some (n, v) => legal_value n (p_csr_wdata r n) =? v
     | None => true
     end
  then
    let k' := after_csr k (e_csr e) in
    Some {| k_pc := e_pc e; k_order := (k_order k + 1) mod 2 ^ 64; k_trapped := false;
            k_x := if e_rd e =? 0 then k_x k else set (k_x k) (e_rd e) (Some (e_val e));
            k_mie := if mret then k_mpie k else k_mie k';
            k_mpie := if mret then Some true else k_mpie k'; k_meie := k_meie k'; k_csr := k_csr k' |}
  else None.

Definition check (k : view) (r : report) : option view :=
  if operands_fit k r then
    if p_trap r then check_trap k r
    else match act_of r with Does e => check_effect k r e | Traps _ => None end
  else None.
Fixpoint check_all (k : view) (l : list report) : option view :=
  match l with [] => Some k | r :: l' => match check k r with Some k' => check_all k' l' | None => None end end.

(** ** What the checker leaves open *)
(** Of an instruction that does not trap, the checker accepts one result for given operands, except
    that reading MIP may give 0 or 0x800. *)
Definition same_operands (r1 r2 : report) : Prop :=
  p_insn r1 = p_insn r2 /\ p_pc_rdata r1 = p_pc_rdata r2 /\ p_rs1_rdata r1 = p_rs1_rdata r2 /\ p_rs2_rdata r1 = p_rs2_rdata r2 /\
  p_mem_rdata r1 = p_mem_rdata r2 /\ forall n, stateful n = true -> p_csr_rdata r1 n = p_csr_rdata r2 n.
Definition reads_mip (w : Z) : bool := (opcode w =? 0x73) && negb (funct3 w =? 0) && (w / 2 ^ 20 =? 0x344).
Definition same_result (r1 r2 : report) : Prop :=
  p_rd_addr r1 = p_rd_addr r2 /\ p_rd_wdata r1 = p_rd_wdata r2 /\ p_pc_wdata r1 = p_pc_wdata r2 /\
  p_mem_rmask r1 = p_mem_rmask r2 /\ p_mem_wmask r1 = p_mem_wmask r2 /\
  (p_mem_rmask r1 <> 0 \/ p_mem_wmask r1 <> 0 -> p_mem_addr r1 = p_mem_addr r2) /\
  forall i, 0 <= i < 4 -> Z.testbit (p_mem_wmask r1) i = true -> lane (p_mem_wdata r1) i = lane (p_mem_wdata r2) i.

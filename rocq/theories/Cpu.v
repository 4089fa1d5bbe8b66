(** * Cycle-accurate model of the Sentinel CPU (src/sentinel/top.py and below)

    One [step] is one rising edge of the [sync] clock domain.  [state] holds every
    synchronous register and memory; combinational signals are ordinary functions. *)
From Coq Require Import ZArith List Bool.
From Verif Require Import Bits Ucode.
Import ListNotations.
Open Scope Z_scope.

(** Inputs of [Top] sampled in one cycle (top.py:208-212): the Wishbone ACK and
    DAT_R, the IRQ line, and the reset of the [sync] domain. *)
Record input := { rst : bool; ack : bool; dat_r : Z; irq : bool }.

(** ** ALU (alu.py:294-391) *)
(** [mod_a]/[mod_b] (alu.py:341-353): optional inversion of the MSB. *)
Definition alu_mod (m : alu_imod) (x : Z) : Z :=
  match m with IM_NONE => x | IM_INV_MSB_A_B => Z.lxor x (2 ^ 31) end.
(** Units (alu.py:320-328); [sub] is 33 bits wide. *)
Definition sub_unit (a b : Z) : Z := (a - b) mod 2 ^ 33.
(** [o_mux] (alu.py:362-380); no case matches an invalid op, leaving 0. *)
Definition alu_mux (op : op_type) (a b : Z) : Z :=
  match op with
  | O_ADD => w32 (a + b)
  | O_SUB => w32 (sub_unit a b)
  | O_AND => Z.land a b
  | O_OR => Z.lor a b
  | O_XOR => Z.lxor a b
  | O_SLL => w32 (a * 2)
  | O_SRL => a / 2
  | O_SRA => w32 (signed 32 a / 2)
  | O_CMP_LTU => bits (sub_unit a b) 32 1
  | O_bad => 0
  end.
(** Registered output [o] (alu.py:382-386). *)
Definition alu_omod_f (m : alu_omod) (o : Z) : Z :=
  match m with
  | OM_INV_LSB_O => Z.lxor o 1
  | OM_CLEAR_LSB_O => 2 * (o / 2)
  | _ => o
  end.
(** ALU.elaborate: units, [o_mux] and registered output together (alu.py:341-390). *)
Definition alu_next (u : uinsn) (a b : Z) : Z :=
  alu_omod_f (u_omod u) (alu_mux (u_op u) (alu_mod (u_imod u) a) (alu_mod (u_imod u) b)).

(** ASrcMux (alu.py:41-61). *)
Definition asrc_next (u : uinsn) (gp imm alu_o cur : Z) : Z :=
  if u_latch_a u then
    match u_a u with
    | A_GP => gp | A_IMM => imm | A_ZERO => 0 | A_ALU_O => alu_o
    | A_FOUR => 4 | A_NEG_ONE => 2 ^ 32 - 1 | A_THIRTY_ONE => 31
    | A_bad => cur
    end
  else cur.

(** ** Alignment (align.py) *)
(** ReadDataAlign (align.py:147-180). *)
Definition sext8 (x : Z) : Z := if bitb x 7 then x + (2 ^ 32 - 2 ^ 8) else x.
(** [as_signed] of 16 bits into 32 (align.py:174). *)
Definition sext16 (x : Z) : Z := if bitb x 15 then x + (2 ^ 32 - 2 ^ 16) else x.
(** align.py:152-178 *)
Definition rdata_align (ms : mem_sel) (me : mem_extend) (adr d : Z) : Z :=
  match ms with
  | MS_BYTE =>
      let lo := bits adr 0 2 in
      let sel := if lo =? 0 then bits d 0 8 else if lo =? 1 then bits d 8 8
                 else if lo =? 2 then bits d 16 8 else bits d 24 8 in
      match me with ME_SIGN => sext8 sel | ME_ZERO => sel end
  | MS_HWORD =>
      let sel := if bits adr 1 1 =? 0 then bits d 0 16 else bits d 16 16 in
      match me with ME_SIGN => sext16 sel | ME_ZERO => sel end
  | MS_WORD => d
  | MS_AUTO => 0
  end.

(** WriteDataAlign (align.py:219-241). *)
Definition wdata_align (ms : mem_sel) (adr d : Z) : Z :=
  match ms with
  | MS_BYTE =>
      let lo := bits adr 0 2 in
      if lo =? 0 then bits d 0 8 else if lo =? 1 then bits d 0 8 * 2 ^ 8
      else if lo =? 2 then bits d 0 8 * 2 ^ 16 else bits d 0 8 * 2 ^ 24
  | MS_HWORD => if bits adr 1 1 =? 0 then bits d 0 16 else bits d 0 16 * 2 ^ 16
  | MS_WORD => d
  | MS_AUTO => 0
  end.

(** AddressAlign (align.py:67-99): [wb_adr] and [wb_sel]. *)
Definition addr_align_adr (req fetch : bool) (latched pc : Z) : Z :=
  if req then if fetch then pc else bits latched 2 30 else 0.
(** align.py:73-97 *)
Definition addr_align_sel (req fetch : bool) (ms : mem_sel) (latched : Z) : Z :=
  if req then
    if fetch then 15 else
    match ms with
    | MS_BYTE =>
        let lo := bits latched 0 2 in
        if lo =? 0 then 1 else if lo =? 1 then 2 else if lo =? 2 then 4 else 8
    | MS_HWORD => if bits latched 1 1 =? 0 then 3 else 12
    | MS_WORD => 15
    | MS_AUTO => 0
    end
  else 0.

(** BSrcMux (alu.py:139-170). *)
Definition bsrc_next (u : uinsn) (gp imm pc rdat data_adr csr_imm csr mcause cur : Z) : Z :=
  if u_latch_b u then
    match u_b u with
    | B_GP => gp | B_IMM => imm | B_ONE => 1 | B_PC => pc * 4
    | B_DAT_R => rdata_align (u_msel u) (u_mext u) data_adr rdat
    | B_CSR_IMM => csr_imm | B_CSR => csr | B_MCAUSE_LATCH => mcause
    end
  else cur.

(** ** Instruction view (insn.py) *)
(** OpcodeType (insn.py:213-239). *)
Definition OP_IMM := 4.  Definition LUI := 13.  Definition AUIPC := 5.  Definition OP := 12.
(** insn.py:213-239 *)
Definition JAL := 27.  Definition JALR := 25.  Definition BRANCH := 24.  Definition LOAD := 0.
(** insn.py:213-239 *)
Definition STORE := 8.  Definition CUSTOM_0 := 2.  Definition MISC_MEM := 3.  Definition SYSTEM := 28.
(** insn.py:42-49 *)
Definition INSN_ECALL := 115.  Definition INSN_EBREAK := 1048691.
(** insn.py:47-49 *)
Definition INSN_MRET := 807403635.  Definition INSN_WFI := 273678451.
(** Fields (insn.py:172-210). *)
Definition i_opcode (w : Z) := bits w 2 5.
(** insn.py:177-180 *)
Definition i_rd (w : Z) := bits w 7 5.
(** insn.py:182-185 *)
Definition i_funct3 (w : Z) := bits w 12 3.
(** insn.py:187-190 *)
Definition i_rs1 (w : Z) := bits w 15 5.
(** insn.py:192-195 *)
Definition i_rs2 (w : Z) := bits w 20 5.
(** insn.py:197-200 *)
Definition i_funct7 (w : Z) := bits w 25 7.
(** insn.py:202-205 *)
Definition i_funct12 (w : Z) := bits w 20 12.
(** insn.py:207-210 *)
Definition i_sign (w : Z) := bitb w 31.
(** Immediates (insn.py:76-102): Cat of slices and sign replication. *)
Definition imm_I (w : Z) := bits w 20 11 + 2 ^ 11 * rep (i_sign w) 21.
(** insn.py:81-85 *)
Definition imm_S (w : Z) := bits w 7 1 + 2 * bits w 8 4 + 2 ^ 5 * bits w 25 6 + 2 ^ 11 * rep (i_sign w) 21.
(** insn.py:87-91 *)
Definition imm_B (w : Z) := 2 * bits w 8 4 + 2 ^ 5 * bits w 25 6 + 2 ^ 11 * bits w 7 1 + 2 ^ 12 * rep (i_sign w) 20.
(** insn.py:93-96 *)
Definition imm_U (w : Z) := 2 ^ 12 * bits w 12 8 + 2 ^ 20 * bits w 20 11 + 2 ^ 31 * b2z (i_sign w).
(** insn.py:98-102 *)
Definition imm_J (w : Z) := 2 * bits w 21 4 + 2 ^ 5 * bits w 25 6 + 2 ^ 11 * bits w 20 1
                            + 2 ^ 12 * bits w 12 8 + 2 ^ 20 * rep (i_sign w) 12.

(** ImmediateGenerator (decode.py:220-244). *)
Definition imm_next (en : bool) (w cur : Z) : Z :=
  if en then
    let op := i_opcode w in
    if op =? OP_IMM then imm_I w else if op =? JALR then imm_I w else if op =? LOAD then imm_I w
    else if op =? LUI then imm_U w else if op =? AUIPC then imm_U w else if op =? JAL then imm_J w
    else if op =? BRANCH then imm_B w else if op =? STORE then imm_S w else cur
  else cur.

(** ** CSRAttributes (decode.py:13-141) *)
Record attr := { ill : bool; ro0 : bool }.
(** decode.py:13-141: the three kinds of CSR. *)
Definition A_Implemented := {| ill := false; ro0 := false |}.
Definition A_Illegal := {| ill := true; ro0 := false |}.
Definition A_Ro0 := {| ill := false; ro0 := true |}.
(** [_ROM.idx] (decode.py:78-82) and the switch value (decode.py:108). *)
Definition csr_idx (a : Z) : Z := bits a 0 8 + 2 ^ 8 * bits a 10 2.
(** Python's [range(lo, hi)], as used in decode.py:115-141. *)
Definition range (lo hi : Z) : list Z := map (fun i => lo + Z.of_nat i) (seq 0 (Z.to_nat (hi + 1 - lo))).
(** The assignments of [_rom_init] (decode.py:115-141) in source order, with the
    addresses of csr.py:MachineAddr. *)
Definition csr_assigns : list (Z * attr) :=
  [(0xF11, A_Ro0); (0xF12, A_Ro0); (0xF13, A_Ro0); (0xF14, A_Ro0); (0xF15, A_Ro0);
   (0x300, A_Implemented); (0x301, A_Ro0); (0x304, A_Implemented); (0x305, A_Implemented);
   (0x310, A_Ro0); (0x340, A_Implemented); (0x341, A_Implemented); (0x342, A_Implemented);
   (0x343, A_Ro0); (0x344, A_Implemented); (0xB00, A_Ro0); (0xB02, A_Ro0)]
  ++ map (fun a => (a, A_Ro0)) (range 0xB03 0xB1F)
  ++ [(0xB80, A_Ro0); (0xB82, A_Ro0)]
  ++ map (fun a => (a, A_Ro0)) (range 0xB83 0xB9F)
  ++ [(0x320, A_Ro0)]
  ++ map (fun a => (a, A_Ro0)) (range 0x323 0x33F).
(** Default illegal (decode.py:99); a later assignment to the same index wins. *)
Definition csr_rom (i : Z) : attr :=
  fold_left (fun acc p => if csr_idx (fst p) =? i then snd p else acc) csr_assigns A_Illegal.
(** Registered output for the CSR address bits of the word on the bus (decode.py:103-113, 664). *)
Definition csr_attr_next (w : Z) : attr := csr_rom (csr_idx (i_funct12 w)).

(** ** MappingROM (control.py:110-226) *)
Record mapst := { mp_src_a : Z; mp_dst : Z; mp_fwd : bool; mp_op : Z; mp_req : Z; mp_enc : Z }.

(** [requested_op] computed in the first decode cycle (control.py:135-178); [cur] is kept
    when no statement assigns it. *)
Definition map_first (w cur : Z) : Z :=
  let op := i_opcode w in let f3 := i_funct3 w in
  if op =? OP_IMM then
    if (f3 =? 1) || (f3 =? 5) then f3 + 2 ^ 3 * bits w 30 1 + 2 ^ 4 * 4 else f3 + 2 ^ 4 * 4
  else if op =? LUI then 0xD0 else if op =? AUIPC then 0x50
  else if op =? OP then f3 + 2 ^ 3 * bits w 30 1 + 2 ^ 4 * 12
  else if op =? JAL then 0xB0 else if op =? JALR then 0x98
  else if op =? BRANCH then f3 + 2 ^ 3 * 17
  else if op =? LOAD then f3 + 2 ^ 3 * 1
  else if op =? STORE then f3 + 2 ^ 3 * 16
  else if op =? MISC_MEM then 0x30
  else if op =? SYSTEM then
    if w =? INSN_MRET then 248 else if w =? INSN_WFI then 0x30
    else if negb (f3 =? 0) && negb (f3 =? 4) then 0x24 else cur
  else cur.
(** The "this is a CSR instruction" condition (control.py:166-178; decode.py:369-390 has
    its own, [exc_is_csr]). *)
Definition map_is_csr (w : Z) : bool :=
  (i_opcode w =? SYSTEM) && negb (w =? INSN_MRET) && negb (w =? INSN_WFI)
  && negb (i_funct3 w =? 0) && negb (i_funct3 w =? 4).
(** Second decode cycle (control.py:181-224). *)
Definition map_second (at_ : attr) (op dst src_a cur : Z) : Z :=
  if ill at_ then cur
  else if ro0 at_ then 0x25
  else if (op =? 1) && (dst =? 0) then 0x26
  else if (op =? 1) && negb (dst =? 0) then 0x27
  else if (op =? 2) && (src_a =? 0) then 0x28
  else if (op =? 2) && negb (src_a =? 0) then 0x29
  else if (op =? 3) && (src_a =? 0) then 0x28
  else if (op =? 3) && negb (src_a =? 0) then 0x2a
  else if (op =? 5) && (dst =? 0) then 0x2b
  else if (op =? 5) && negb (dst =? 0) then 0x2c
  else if (op =? 6) && (src_a =? 0) then 0x28
  else if (op =? 6) && negb (src_a =? 0) then 0x2d
  else if (op =? 7) && (src_a =? 0) then 0x28
  else if (op =? 7) && negb (src_a =? 0) then 0x2e
  else cur.
(** MappingROM.elaborate, clock edge (control.py:121-224). *)
Definition map_next (start : bool) (w : Z) (at_ : attr) (m : mapst) : mapst :=
  let req1 := if start then map_first w (mp_req m) else mp_req m in
  {| mp_src_a := if start then i_rs1 w else mp_src_a m;
     mp_dst := if start then i_rd w else mp_dst m;
     mp_fwd := start && map_is_csr w;
     mp_op := i_funct3 w;
     mp_enc := if start && map_is_csr w then bits w 20 3 + 2 ^ 3 * bits w 26 1 else mp_enc m;
     mp_req := if mp_fwd m then map_second at_ (mp_op m) (mp_dst m) (mp_src_a m) req1 else req1 |}.

(** ** ExceptionControl (decode.py:248-423) *)
Record excst := { ex_src_a : Z; ex_fwd : bool; ex_quad : Z; ex_op : Z; ex_ro : bool;
                  ex_valid : bool; ex_type : Z }.
(** Causes (csr.py:330-372). *)
Definition INSN_MISALIGNED := 0.  Definition ILLEGAL_INSN := 2.  Definition BREAKPOINT := 3.
(** csr.py:340-360 *)
Definition LOAD_MISALIGNED := 4.  Definition STORE_MISALIGNED := 6.  Definition ECALL_MMODE := 11.
(** decode.py:369-390, the CSR branch of the SYSTEM case. *)
Definition exc_is_csr (w : Z) : bool :=
  (i_opcode w =? SYSTEM) && negb (bits w 7 25 =? INSN_ECALL / 2 ^ 7) && negb (w =? INSN_EBREAK)
  && negb (w =? INSN_MRET) && negb (w =? INSN_WFI)
  && negb (i_funct3 w =? 0) && negb (i_funct3 w =? 4).
(** [exception.valid] after the first decode cycle, opcode switch (decode.py:325-394). *)
Definition exc_switch (w : Z) : bool :=
  let op := i_opcode w in let f3 := i_funct3 w in let f7 := i_funct7 w in
  if op =? OP_IMM then
    if (f3 =? 1) || (f3 =? 5) then
      if f3 =? 1 then negb (f7 =? 0) else negb (f7 =? 0) && negb (f7 =? 32)
    else false
  else if op =? LUI then false else if op =? AUIPC then false
  else if op =? OP then
    if (f3 =? 0) || (f3 =? 5) then negb (f7 =? 0) && negb (f7 =? 32) else negb (f7 =? 0)
  else if op =? JAL then false
  else if op =? JALR then negb (f3 =? 0)
  else if op =? BRANCH then (f3 =? 2) || (f3 =? 3)
  else if op =? LOAD then (f3 =? 3) || (f3 =? 6) || (f3 =? 7)
  else if op =? STORE then 3 <=? f3
  else if op =? CUSTOM_0 then true
  else if op =? MISC_MEM then negb (f3 =? 0)
  else if op =? SYSTEM then
    if bits w 7 25 =? INSN_ECALL / 2 ^ 7 then true
    else if w =? INSN_EBREAK then true
    else if w =? INSN_MRET then false
    else if w =? INSN_WFI then false
    else if negb (f3 =? 0) && negb (f3 =? 4) then false
    else true
  else true.
(** decode.py:396-398: words whose low two bits are not 11. *)
Definition exc_first (w : Z) : bool := if negb (bits w 0 2 =? 3) then true else exc_switch w.
(** [exception.e_type] (decode.py:314, 373-376). *)
Definition exc_type_first (w : Z) : Z :=
  if i_opcode w =? SYSTEM then
    if bits w 7 25 =? INSN_ECALL / 2 ^ 7 then ECALL_MMODE
    else if w =? INSN_EBREAK then BREAKPOINT else ILLEGAL_INSN
  else ILLEGAL_INSN.
(** Second decode cycle (decode.py:405-421). *)
Definition exc_second (at_ : attr) (ro : bool) (op src_a quad : Z) : bool :=
  if ill at_ then true
  else if ro && ((op =? 1) || (op =? 5) || negb (src_a =? 0)) then true
  else if negb (quad =? 3) then true else false.
(** ExceptionControl.elaborate, clock edge (decode.py:312-421). *)
Definition exc_next (start : bool) (w : Z) (at_ : attr) (e : excst) : excst :=
  {| ex_src_a := if start then i_rs1 w else ex_src_a e;
     ex_fwd := start && exc_is_csr w;
     ex_quad := bits w 28 2;
     ex_op := i_funct3 w;
     ex_ro := bits w 30 2 =? 3;
     ex_valid := if ex_fwd e then exc_second at_ (ex_ro e) (ex_op e) (ex_src_a e) (ex_quad e)
                 else start && exc_first w;
     ex_type := if ex_fwd e then ILLEGAL_INSN
                else if start then exc_type_first w else ILLEGAL_INSN |}.

(** ** CSRFile (datapath.py:693-786) *)
(** Register numbers (datapath.py:671-691). *)
Definition CSR_MSTATUS := 0.  Definition CSR_MIE := 4.  Definition CSR_MTVEC := 5.
(** datapath.py:681-687 *)
Definition CSR_MSCRATCH := 8.  Definition CSR_MEPC := 9.  Definition CSR_MCAUSE := 10.
(** datapath.py:691 *)
Definition CSR_MIP := 12.
(** Registers (datapath.py:696-700, 749); [mip] is combinational (datapath.py:771).  Only the fields ever assigned are kept; [mpp] keeps its initial value. *)
Record csrst := { c_mie : bool; c_mpie : bool; c_mpp : Z; c_meie : bool;
                  c_buf : Z; c_prev : Z }.
(** Read mux (datapath.py:706, 749-757). *)
Definition csr_dat_r (c : csrst) (ram : Z) : Z :=
  if (c_prev c =? CSR_MSTATUS) || (c_prev c =? CSR_MIP) || (c_prev c =? CSR_MIE)
  then c_buf c else ram.
(** Data written to the shared RAM (datapath.py:709, 765-767): low bits of MTVEC/MEPC cleared. *)
Definition csr_dat_w (adr d : Z) : Z :=
  if (adr =? CSR_MTVEC) || (adr =? CSR_MEPC) then 4 * (d / 4) else d.
(** datapath.py:713 *)
Definition csr_is_write (o : csr_op) := match o with CO_WRITE_CSR => true | _ => false end.
(** datapath.py:727 *)
Definition csr_is_read (o : csr_op) := match o with CO_READ_CSR => true | _ => false end.
(** Clock edge (datapath.py:713-750, 771-784); the last assignment wins. *)
Definition csr_next (u : uinsn) (adr d : Z) (meip : bool) (c : csrst) : csrst :=
  let wr := csr_is_write (u_csr u) in
  let rd := csr_is_read (u_csr u) in
  let mie1 := if wr && (adr =? CSR_MSTATUS) then bitb d 3 else c_mie c in
  let mpie1 := if wr && (adr =? CSR_MSTATUS) then bitb d 7 else c_mpie c in
  {| c_mie := match u_exc u with X_ENTER_INT => false | X_LEAVE_INT => c_mpie c | _ => mie1 end;
     c_mpie := match u_exc u with X_ENTER_INT => c_mie c | X_LEAVE_INT => true | _ => mpie1 end;
     c_mpp := c_mpp c;
     c_meie := if wr && (adr =? CSR_MIE) then bitb d 11 else c_meie c;
     c_buf := if rd && (adr =? CSR_MIP) then 2 ^ 11 * b2z meip
              else if rd && (adr =? CSR_MIE) then 2 ^ 11 * b2z (c_meie c)
              else if rd && (adr =? CSR_MSTATUS)
              then 2 ^ 3 * b2z (c_mie c) + 2 ^ 7 * b2z (c_mpie c) + 2 ^ 11 * c_mpp c
              else c_buf c;
     c_prev := adr |}.

(** ** RegFile (datapath.py:392-427): 64x32 RAM, one write port, one transparent read port *)
(** Write port: enable, address, data. *)
(** datapath.py:407-425 *)
Definition rf_wen (u : uinsn) (adr_w : Z) (allow_zero : bool) : bool :=
  match u_csr u with
  | CO_NONE => u_rwrite u && negb (adr_w =? b2z allow_zero)   (* "adr_w != 0 | allow_zero_wr" *)
  | CO_WRITE_CSR => true
  | _ => false
  end.
(** datapath.py:403, 422 *)
Definition rf_waddr (u : uinsn) (adr_w csr_adr : Z) : Z :=
  match u_csr u with CO_WRITE_CSR => 2 ^ 5 + csr_adr | _ => adr_w end.
(** datapath.py:404, 423 *)
Definition rf_wdata (u : uinsn) (dat_w csr_w : Z) : Z :=
  match u_csr u with CO_WRITE_CSR => csr_w | _ => dat_w end.
(** Read port: enable ([en] of an Amaranth read port is 1 unless driven) and address. *)
Definition rf_ren (u : uinsn) : bool := match u_csr u with CO_NONE => u_rread u | _ => true end.
(** datapath.py:402, 418 *)
Definition rf_raddr (u : uinsn) (adr_r csr_adr : Z) : Z :=
  match u_csr u with CO_READ_CSR => 2 ^ 5 + csr_adr | _ => adr_r end.
(** Write port of the memory (datapath.py:396-427). *)
Definition rf_mem_next (wen : bool) (wa wd : Z) (m : Z -> Z) : Z -> Z := if wen then upd m wa wd else m.
(** Read port, transparent for the write port (datapath.py:397). *)
Definition rf_rdata_next (ren : bool) (ra : Z) (wen : bool) (wa wd : Z) (m : Z -> Z) (cur : Z) : Z :=
  if ren then if wen && (wa =? ra) then wd else m ra else cur.

(** ** ProgramCounter (datapath.py:114-123), 30 bits *)
(** datapath.py:117-121 *)
Definition pc_next (u : uinsn) (alu_o pc : Z) : Z :=
  match u_pc u with
  | PC_INC => (pc + 1) mod 2 ^ 30
  | PC_LOAD_ALU_O => bits alu_o 2 30
  | _ => pc
  end.

(** ** ExceptionRouter (exception.py:220-266) *)
(** exception.py:245-249, 254-258 *)
Definition misaligned (ms : mem_sel) (alu_o : Z) : bool :=
  match ms with
  | MS_HWORD => bitb alu_o 0
  | MS_WORD => bitb alu_o 0 || bitb alu_o 1
  | _ => false
  end.
(** exception.py:237-238 *)
Definition int_pending (c : csrst) (meip : bool) : bool := c_mie c && meip && c_meie c.
(** exception.py:232-264, the combinational [exception]. *)
Definition exception_of (u : uinsn) (alu_o : Z) (dec_valid : bool) (c : csrst) (meip : bool) : bool :=
  match u_exc u with
  | X_LATCH_DECODER => dec_valid || int_pending c meip
  | X_LATCH_STORE_ADR | X_LATCH_LOAD_ADR => misaligned (u_msel u) alu_o
  | X_LATCH_JAL => bitb alu_o 1
  | _ => false
  end.
(** exception.py:232-264, [mcause_latch.cause]. *)
Definition cause_next (u : uinsn) (alu_o : Z) (e : excst) (c : csrst) (meip : bool) (cur : Z) : Z :=
  match u_exc u with
  | X_LATCH_DECODER => if int_pending c meip then 11 else if ex_valid e then ex_type e else cur
  | X_LATCH_STORE_ADR => if misaligned (u_msel u) alu_o then STORE_MISALIGNED else cur
  | X_LATCH_LOAD_ADR => if misaligned (u_msel u) alu_o then LOAD_MISALIGNED else cur
  | X_LATCH_JAL => if bitb alu_o 1 then INSN_MISALIGNED else cur
  | _ => cur
  end.
(** [mcause_latch.interrupt] is only ever set (exception.py:240-243). *)
Definition int_next (u : uinsn) (c : csrst) (meip cur : bool) : bool :=
  match u_exc u with X_LATCH_DECODER => if int_pending c meip then true else cur | _ => cur end.

(** ** Control: test mux (control.py:539-553) and Sequencer (control.py:646-747) *)
(** control.py:540-553 *)
Definition test_of (u : uinsn) (exc alu_zero valid : bool) : bool :=
  let raw := match u_cond u with
             | C_EXCEPTION => exc | C_CMP_ALU_O_ZERO => alu_zero | C_MEM_VALID => valid | C_TRUE => true
             end in
  if u_inv u then negb raw else raw.
(** Sequencer.elaborate, [adr] (control.py:652-670, 744-745). *)
Definition seq_adr (u : uinsn) (guard test : bool) (next_adr opcode_adr : Z) : Z :=
  if guard then next_adr else
  match u_jmp u with
  | J_CONT => next_adr
  | J_MAP => if test then u_target u else opcode_adr
  | J_DIRECT => if test then u_target u else next_adr
  | J_DIRECT_ZERO => if test then u_target u else 0
  end.

(** ** State of the whole core *)
(** Registers of all components (top.py:236-238 and the lines given below). *)
Record state := {
  s_data_adr : Z; s_wdata : Z; s_mguard : bool;                   (* top.py:236-238 *)
  s_alu : Z; s_a : Z; s_b : Z;                                    (* ALU.o, ASrcMux.data, BSrcMux.data *)
  s_next : Z; s_sguard : bool;                                    (* Sequencer, control.py:639-640 *)
  s_u : uinsn;                                                    (* microcode ROM read port *)
  s_src_a : Z; s_src_b : Z; s_dst : Z; s_imm : Z;                 (* Decode, ImmediateGenerator *)
  s_attr : attr; s_map : mapst; s_exc : excst;
  s_pc : Z; s_mem : Z -> Z; s_rdata : Z; s_csr : csrst;
  s_cause : Z; s_int : bool }.                                    (* mcause_latch *)

(** ** Bus outputs (top.py:253-262): functions of the state only *)
(** top.py:256 *)
Definition o_cyc (s : state) : bool := u_mreq (s_u s) && negb (s_mguard s).
(** top.py:257 *)
Definition o_stb (s : state) : bool := u_mreq (s_u s) && negb (s_mguard s).
(** top.py:258 *)
Definition o_we (s : state) : bool := u_wmem (s_u s).
(** top.py:259 *)
Definition o_dat_w (s : state) : Z := s_wdata s.
(** top.py:260, 335-340 *)
Definition o_adr (s : state) : Z :=
  addr_align_adr (u_mreq (s_u s)) (u_fetch (s_u s)) (s_data_adr s) (s_pc s).
(** top.py:261, 335-340 *)
Definition o_sel (s : state) : Z :=
  addr_align_sel (u_mreq (s_u s)) (u_fetch (s_u s)) (u_msel (s_u s)) (s_data_adr s).

(** ** Inline data-path routing (top.py:372-399) *)
(** top.py:375-382 *)
Definition reg_r_adr (u : uinsn) (src_a_unreg src_a src_b : Z) : Z :=
  match u_rsel u with
  | RR_INSN_RS1 => if u_fetch u then src_a_unreg else src_a
  | RR_INSN_RS2 => src_b
  end.
(** top.py:384-391 *)
Definition reg_w_adr (u : uinsn) (dst : Z) : Z :=
  match u_wsel u with RW_INSN_RD => dst | RW_ZERO => 0 end.
(** top.py:384-391 *)
Definition allow_zero_wr (u : uinsn) : bool :=
  match u_wsel u with RW_INSN_RD => false | RW_ZERO => true end.
(** top.py:394-399 *)
Definition csr_adr (u : uinsn) (enc : Z) : Z :=
  match u_csel u with CS_INSN_CSR => enc | CS_TRG_CSR => bits (u_target u) 0 4 end.

(** ** Combinational nets of Top *)
Definition do_decode (s : state) (i : input) : bool := u_fetch (s_u s) && ack i.   (* top.py:306 *)
(** top.py:403-412 *)
Definition exc_now (s : state) (i : input) : bool :=
  exception_of (s_u s) (s_alu s) (ex_valid (s_exc s)) (s_csr s) (irq i).
(** top.py:269, 299 and control.py:540-553 *)
Definition test_now (s : state) (i : input) : bool :=
  test_of (s_u s) (exc_now s i) (s_alu s =? 0) (ack i).
(** control.py:526-537 *)
Definition seq_now (s : state) (i : input) : Z :=
  seq_adr (s_u s) (s_sguard s) (test_now s i) (s_next s) (mp_req (s_map s)).
(** MCause as a 32-bit value (csr.py:375-379, exception.py:229). *)
Definition mcause_now (s : state) : Z := s_cause s + 2 ^ 31 * b2z (s_int s).

(** ** Reset values of the [sync] domain.  Memory contents and memory read-port
    registers have no reset and are passed through. *)
(** control.py:115-119, 102-108 *)
Definition map_init : mapst := {| mp_src_a := 0; mp_dst := 0; mp_fwd := false; mp_op := 0; mp_req := 0; mp_enc := 0 |}.
(** decode.py:306-310 *)
Definition exc_init : excst := {| ex_src_a := 0; ex_fwd := false; ex_quad := 0; ex_op := 0; ex_ro := false;
                                  ex_valid := false; ex_type := 0 |}.
(** datapath.py:696-700, 749 *)
Definition csr_init : csrst := {| c_mie := false; c_mpie := false; c_mpp := 3; c_meie := false; c_buf := 0; c_prev := 0 |}.
(** Initial values of the registers (top.py:236-238, control.py:636-640, datapath.py:696); everything else starts at 0. *)
Definition reset_regs (u : uinsn) (m : Z -> Z) (rd : Z) : state := {|
  s_data_adr := 0; s_wdata := 0; s_mguard := true; s_alu := 0; s_a := 0; s_b := 0;
  s_next := 2; s_sguard := true; s_u := u;
  s_src_a := 0; s_src_b := 0; s_dst := 0; s_imm := 0; s_attr := A_Implemented;
  s_map := map_init; s_exc := exc_init; s_pc := 0; s_mem := m; s_rdata := rd;
  s_csr := csr_init; s_cause := 0; s_int := false |}.

(** ** One clock edge *)
(** Top.elaborate (top.py:221-419) with all its submodules; the wiring is top.py:253-412 and decode.py:659-688. *)
Definition step (s : state) (i : input) : state :=
  let u := s_u s in
  let w := dat_r i in
  let start := do_decode s i in
  let cadr := csr_adr u (mp_enc (s_map s)) in
  let wen := rf_wen u (reg_w_adr u (s_dst s)) (allow_zero_wr u) in
  let wa := rf_waddr u (reg_w_adr u (s_dst s)) cadr in
  let wd := rf_wdata u (s_alu s) (csr_dat_w cadr (s_alu s)) in
  let mem' := rf_mem_next wen wa wd (s_mem s) in
  let rdata' := rf_rdata_next (rf_ren u)
                  (rf_raddr u (reg_r_adr u (i_rs1 w) (s_src_a s) (s_src_b s)) cadr)
                  wen wa wd (s_mem s) (s_rdata s) in
  let adr := seq_now s i in
  if rst i then reset_regs (rom adr) mem' rdata' else {|
  s_data_adr := if u_ladr u then s_alu s else s_data_adr s;
  s_wdata := if u_ldata u then wdata_align (u_msel u) (s_data_adr s) (s_alu s) else s_wdata s;
  s_mguard := false;
  s_alu := alu_next u (s_a s) (s_b s);
  s_a := asrc_next u (s_rdata s) (s_imm s) (s_alu s) (s_a s);
  s_b := bsrc_next u (s_rdata s) (s_imm s) (s_pc s) w (s_data_adr s) (s_src_a s)
                   (csr_dat_r (s_csr s) (s_rdata s)) (mcause_now s) (s_b s);
  s_next := (adr + 1) mod 2 ^ 8;
  s_sguard := false;
  s_u := rom adr;
  s_src_a := if start then i_rs1 w else s_src_a s;
  s_src_b := if start then i_rs2 w else s_src_b s;
  s_dst := if start then i_rd w else s_dst s;
  s_imm := imm_next start w (s_imm s);
  s_attr := csr_attr_next w;
  s_map := map_next start w (s_attr s) (s_map s);
  s_exc := exc_next start w (s_attr s) (s_exc s);
  s_pc := pc_next u (s_alu s) (s_pc s);
  s_mem := mem';
  s_rdata := rdata';
  s_csr := csr_next u cadr (s_alu s) (irq i) (s_csr s);
  s_cause := cause_next u (s_alu s) (s_exc s) (s_csr s) (irq i) (s_cause s);
  s_int := int_next u (s_csr s) (irq i) (s_int s) |}.

(** The run of the core on an input waveform: [run s inp t] is the state in cycle [t]. *)
(** Clock edges of the [sync] domain of Top (top.py:221-419). *)
Fixpoint run (s : state) (inp : nat -> input) (t : nat) : state :=
  match t with O => s | S n => step (run s inp n) (inp n) end.

(** Power-on state: flip-flops at their init values, the microcode ROM read port
    reading 0, the register RAM initialised to 0 except word 0 (datapath.py:379-382). *)
Definition por_mem : Z -> Z := fun a => if a =? 0 then 0xdeadbeef else 0.
(** Same: datapath.py:379-382 and the initial values above. *)
Definition por : state := reset_regs (dec_uinsn 0) por_mem 0.

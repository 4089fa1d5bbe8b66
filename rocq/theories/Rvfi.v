(** * FormalTop: the RISC-V Formal Interface harness (formal.py)

    FormalTop instantiates the core and adds registers that watch it; nothing in it
    feeds back into the core, so the core's state is still [run] of Cpu.v. *)
From Coq Require Import ZArith Bool List.
From Verif Require Import Bits Ucode Cpu.
Import ListNotations.
Open Scope Z_scope.

(** Hard-coded microcode addresses (formal.py:187-190). *)
Definition CHECK_INT_ADDR := 1.
(** formal.py:187-190 *)
Definition CSR_DECODE_VALIDITY_ADDR := 0x24.
(** formal.py:187-190 *)
Definition EXCEPTION_HANDLER_ADDR := 240.

(** Registers of FormalTop.  The seven implemented CSRs are indexed by their address in
    [CSRFile] (0 mstatus, 4 mie, 5 mtvec, 8 mscratch, 9 mepc, 10 mcause, 12 mip); the
    read-only-zero ones by their CSR number (0xB80, 0xB82, 0xB83: upper halves).  Other
    indices of the functions below stand for no hardware. *)
Record rvfi := {
  v_init : bool;                       (* in_init, formal.py:272 *)
  v_just : bool;                       (* just_committed_to_insn, 274 *)
  v_datw : Z;                          (* dat_w_reg, 286 *)
  v_order : Z; v_insn : Z; v_trap : bool; v_intr : bool;
  v_rs1_addr : Z; v_rs2_addr : Z; v_rd_addr : Z; v_rs1_rdata : Z; v_rs2_rdata : Z;
  v_pc_rdata : Z;
  v_mem_addr : Z; v_mem_rmask : Z; v_mem_wmask : Z; v_mem_rdata : Z; v_mem_wdata : Z;
  v_rs1_port : Z; v_rs2_port : Z;      (* rs1_port.data, rs2_port.data, 262-263 *)
  v_hold : Z -> bool;                  (* *_hold_rd, 446-452 *)
  v_csr_rdata : Z -> Z;                (* RAM CSRs: data of the read port; others: rdata register *)
  v_csr_wdata : Z -> Z;
  v_csr_addr : Z; v_csr_op : Z;        (* csr_addr_shadow, csr_op_shadow, 535-536 *)
  v_doing : bool;                      (* doing_csr_decode, 537 *)
  v_zero_wdata : Z -> Z }.             (* wdata of the read-only-zero CSRs, 582-602 *)

(** decode.py:701-704 *)
Definition rd_valid (w : Z) : bool :=
  negb ((i_opcode w =? BRANCH) || (i_opcode w =? MISC_MEM) || (i_opcode w =? STORE)).

(** formal.py:278-281 *)
Definition committed (s : state) (i : input) : bool :=
  u_fetch (s_u s) && ack i && (seq_now s i =? CHECK_INT_ADDR).
(** formal.py:285-294: a general-purpose register is written. *)
Definition gp_write (s : state) : bool := u_rwrite (s_u s) && negb (csr_is_write (u_csr (s_u s))).
Definition dat_w_mux (v : rvfi) (s : state) : Z := if gp_write s then s_alu s else v_datw v.

(** Combinational outputs. *)
(** formal.py:296-313 *)
Definition rv_valid (v : rvfi) (s : state) (i : input) : bool := committed s i && negb (v_init v).
(** formal.py:335-349 *)
Definition rv_rd_wdata (v : rvfi) (s : state) (i : input) : Z :=
  if committed s i then if v_rd_addr v =? 0 then 0 else dat_w_mux v s else 0.
Definition rv_pc_wdata (v : rvfi) (s : state) (i : input) : Z :=
  if committed s i then bits (s_pc s * 4) 0 32 else 0.
(** formal.py:404-411 *)
Definition rv_halt : Z := 0.  Definition rv_mode : Z := 3.  Definition rv_ixl : Z := 1.
(** formal.py:423-440, 560-564: rmask and wmask of the 32-bit CSRs are always all ones *)
Definition rv_csr_rmask : Z := 2 ^ 32 - 1.  Definition rv_csr_wmask : Z := 2 ^ 32 - 1.
(** formal.py:569-575: for mcycle, minstret and mhpmcounter3 (upper half at CSR number [hi]). *)
Definition rv_csr64_wmask (v : rvfi) (hi : Z) : Z :=
  if v_csr_addr v =? hi then 2 ^ 32 * (2 ^ 32 - 1) else 2 ^ 32 - 1.

(** formal.py:548-602: the read-only-zero CSRs' channels (rdata is constantly 0) *)
Definition zero_wdata (v : rvfi) : Z :=
  if (v_csr_op v =? 1) || (v_csr_op v =? 2) && negb (v_rs1_addr v =? 0) then v_rs1_rdata v
  else if (v_csr_op v =? 5) || (v_csr_op v =? 6) && negb (v_rs1_addr v =? 0) then v_rs1_addr v
  else 0.

(** CSRs in the shared RAM, read through ports of their own (formal.py:414-422). *)
Definition in_ram (c : Z) : bool :=
  (c =? CSR_MSCRATCH) || (c =? CSR_MCAUSE) || (c =? CSR_MTVEC) || (c =? CSR_MEPC).
(** Current values of the other three (datapath.py:702-705; csr.py packs MSTATUS as MIE in
    bit 3, MPIE in bit 7, MPP in bits 11-12, MIE.MEIE and MIP.MEIP in bit 11). *)
Definition csr_reg (s : state) (i : input) (c : Z) : Z :=
  if c =? CSR_MIP then 2 ^ 11 * b2z (irq i)
  else if c =? CSR_MIE then 2 ^ 11 * b2z (c_meie (s_csr s))
  else 2 ^ 3 * b2z (c_mie (s_csr s)) + 2 ^ 7 * b2z (c_mpie (s_csr s)) + 2 ^ 11 * c_mpp (s_csr s).
(** CSR [c] is being written (formal.py:481-529; [Switch] on the CSR address). *)
Definition csr_written (s : state) (c : Z) : bool :=
  csr_is_write (u_csr (s_u s)) && (csr_adr (s_u s) (mp_enc (s_map s)) =? c).

(** Memory read ports are transparent for the register file's write port, so an enabled
    port delivers the content after this cycle's write. *)
Definition port_next (s : state) (i : input) (adr : Z) : Z := s_mem (step s i) adr.

(** Reset values; memory read-port registers have no reset. *)
Definition rvfi_reset (p1 p2 : Z) (pc : Z -> Z) : rvfi := {|
  v_init := true; v_just := false; v_datw := 0; v_order := 0; v_insn := 0; v_trap := false; v_intr := false;
  v_rs1_addr := 0; v_rs2_addr := 0; v_rd_addr := 0; v_rs1_rdata := 0; v_rs2_rdata := 0; v_pc_rdata := 0;
  v_mem_addr := 0; v_mem_rmask := 0; v_mem_wmask := 0; v_mem_rdata := 0; v_mem_wdata := 0;
  v_rs1_port := p1; v_rs2_port := p2; v_hold := fun _ => false;
  v_csr_rdata := fun c => if in_ram c then pc c else 0; v_csr_wdata := fun _ => 0;
  v_csr_addr := 0; v_csr_op := 0; v_doing := false; v_zero_wdata := fun _ => 0 |}.

(** One clock edge of FormalTop.  Where formal.py assigns a register twice the later
    assignment wins. *)
Definition rvfi_step (v : rvfi) (s : state) (i : input) : rvfi :=
  let w := dat_r i in
  let com := committed s i in
  let p1 := if com then port_next s i (i_rs1 w) else v_rs1_port v in          (* 266-269, 354-359 *)
  let p2 := if com then port_next s i (i_rs2 w) else v_rs2_port v in
  let data := negb (u_fetch (s_u s)) && u_mreq (s_u s) && ack i in            (* 385-386 *)
  let exc := exc_now s i in
  let csr_rd := fun c =>
    if in_ram c then                                                          (* 466-471, 490, 497, 522, 529 *)
      if negb (v_hold v c) && negb (csr_written s c) then port_next s i (2 ^ 5 + c) else v_csr_rdata v c
    else if v_hold v c then v_csr_rdata v c else csr_reg s i c in             (* 473-479 *)
  if rst i then rvfi_reset p1 p2 csr_rd else {|
  v_init := if com then false else v_init v;                                  (* 296-301 *)
  v_just := com;                                                              (* 282 *)
  v_datw := if gp_write s then s_alu s else v_datw v;                         (* 292-294 *)
  v_order := if rv_valid v s i then (v_order v + 1) mod 2 ^ 64 else v_order v;   (* 302-313 *)
  v_insn := if com then w else v_insn v;                                      (* 319 *)
  v_trap := if exc then true else if com then false else v_trap v;            (* 318, 381-382 *)
  v_intr := if rv_valid v s i then v_trap v else v_intr v;
  v_rs1_addr := if com then i_rs1 w else v_rs1_addr v;
  v_rs2_addr := if com then i_rs2 w else v_rs2_addr v;
  v_rd_addr := if v_doing v && exc then 0                                     (* 577-580 *)
               else if com then if rd_valid w then i_rd w else 0 else v_rd_addr v;   (* 322, 330-331 *)
  v_rs1_rdata := if v_just v then v_rs1_port v else v_rs1_rdata v;            (* 371-377 *)
  v_rs2_rdata := if v_just v then v_rs2_port v else v_rs2_rdata v;
  v_pc_rdata := if com then bits (s_pc s * 4) 0 32 else v_pc_rdata v;         (* 325 *)
  v_mem_addr := if data then bits (o_adr s * 4) 0 32 else v_mem_addr v;       (* 385-402 *)
  v_mem_rmask := if data then if o_we s then 0 else o_sel s else if com then 0 else v_mem_rmask v;
  v_mem_wmask := if data then if o_we s then o_sel s else 0 else if com then 0 else v_mem_wmask v;
  v_mem_rdata := if data then dat_r i else v_mem_rdata v;
  v_mem_wdata := if data then o_dat_w s else v_mem_wdata v;
  v_rs1_port := p1; v_rs2_port := p2;
  v_hold := fun c => if csr_written s c then true else if com then false else v_hold v c;   (* 455-464, 481-529 *)
  v_csr_rdata := csr_rd;
  v_csr_wdata := fun c => if csr_written s c then s_alu s else v_csr_wdata v c;
  v_csr_addr := if do_decode s i then i_funct12 w else v_csr_addr v;          (* 542-546 *)
  v_csr_op := if do_decode s i then i_funct3 w else v_csr_op v;
  v_doing := seq_now s i =? CSR_DECODE_VALIDITY_ADDR;                         (* 540-541 *)
  v_zero_wdata := fun a => if v_doing v && (v_csr_addr v =? a) then zero_wdata v else v_zero_wdata v a |}.

(** The harness next to the core: [vrun v s inp t] are its registers in cycle [t]. *)
Fixpoint vrun (v : rvfi) (s : state) (inp : nat -> input) (t : nat) : rvfi :=
  match t with O => v | S n => rvfi_step (vrun v s inp n) (run s inp n) (inp n) end.

(** * Reference machine: RV32I + Zicsr, machine mode only

    Written from the RISC-V unprivileged/privileged manuals, independently of the
    hardware model (this file does not import it).  Words are [Z] in [0, 2^32).

    The machine is interactive: in every state it has exactly one bus request it
    wants completed next ([request]); completing it with data [d] moves it on.

    [variant] selects between the RISC-V rules ([RISCV]) and the same rules with
    the two deviations found in Sentinel ([SENTINEL]); they differ only in the
    value of MCAUSE, see [sync_mcause] and [illegal_cause]. *)
From Coq Require Import ZArith Bool List.
Import ListNotations.
Open Scope Z_scope.

Inductive variant := RISCV | SENTINEL.

(** ** Instruction formats *)
Definition fld (w lo n : Z) : Z := (w / 2 ^ lo) mod 2 ^ n.
(** Sign extension of an [n]-bit field to an integer. *)
Definition sext (n x : Z) : Z := if x <? 2 ^ (n - 1) then x else x - 2 ^ n.
Definition immI w := sext 12 (fld w 20 12).
Definition immS w := sext 12 (fld w 25 7 * 2 ^ 5 + fld w 7 5).
Definition immB w := sext 13 (fld w 31 1 * 2 ^ 12 + fld w 7 1 * 2 ^ 11 + fld w 25 6 * 2 ^ 5 + fld w 8 4 * 2).
Definition immU w := fld w 12 20 * 2 ^ 12.
Definition immJ w := sext 21 (fld w 31 1 * 2 ^ 20 + fld w 12 8 * 2 ^ 12 + fld w 20 1 * 2 ^ 11 + fld w 21 10 * 2).

Inductive alu_fn := ADD | SUB | SLL | SLT | SLTU | XOR | SRL | SRA | OR | AND.
Inductive cmp_fn := EQ | NE | LT | GE | LTU | GEU.
Inductive width := Byte | Half | Word.
Inductive csr_fn := CSRRW | CSRRS | CSRRC.
Inductive csr_arg := CReg (r : Z) | CImm (z : Z).

Inductive instr :=
| Lui (rd imm : Z)
| Auipc (rd imm : Z)
| Jal (rd off : Z)
| Jalr (rd rs1 off : Z)
| Branch (c : cmp_fn) (rs1 rs2 off : Z)
| Load (sz : width) (sgn : bool) (rd rs1 off : Z)
| Store (sz : width) (rs1 rs2 off : Z)
| OpImm (f : alu_fn) (rd rs1 imm : Z)
| OpReg (f : alu_fn) (rd rs1 rs2 : Z)
| Fence
| Ecall | Ebreak | Mret | Wfi
| Csr (f : csr_fn) (rd : Z) (arg : csr_arg) (csr : Z).

(** Decoding; [None] is an illegal instruction.  For shifts by immediate the
    [imm] operand of [OpImm] is the shift amount. *)
Definition decode_opimm (w : Z) : option instr :=
  let rd := fld w 7 5 in let rs1 := fld w 15 5 in let f7 := fld w 25 7 in
  match fld w 12 3 with
  | 0 => Some (OpImm ADD rd rs1 (immI w))
  | 2 => Some (OpImm SLT rd rs1 (immI w))
  | 3 => Some (OpImm SLTU rd rs1 (immI w))
  | 4 => Some (OpImm XOR rd rs1 (immI w))
  | 6 => Some (OpImm OR rd rs1 (immI w))
  | 7 => Some (OpImm AND rd rs1 (immI w))
  | 1 => if f7 =? 0 then Some (OpImm SLL rd rs1 (fld w 20 5)) else None
  | 5 => if f7 =? 0 then Some (OpImm SRL rd rs1 (fld w 20 5))
         else if f7 =? 32 then Some (OpImm SRA rd rs1 (fld w 20 5)) else None
  | _ => None
  end.
Definition decode_op (w : Z) : option instr :=
  let rd := fld w 7 5 in let rs1 := fld w 15 5 in let rs2 := fld w 20 5 in
  let f7 := fld w 25 7 in
  let mk f := Some (OpReg f rd rs1 rs2) in
  if f7 =? 0 then
    match fld w 12 3 with
    | 0 => mk ADD | 1 => mk SLL | 2 => mk SLT | 3 => mk SLTU
    | 4 => mk XOR | 5 => mk SRL | 6 => mk OR | 7 => mk AND | _ => None
    end
  else if f7 =? 32 then
    match fld w 12 3 with 0 => mk SUB | 5 => mk SRA | _ => None end
  else None.
Definition decode_branch (w : Z) : option instr :=
  let mk c := Some (Branch c (fld w 15 5) (fld w 20 5) (immB w)) in
  match fld w 12 3 with
  | 0 => mk EQ | 1 => mk NE | 4 => mk LT | 5 => mk GE | 6 => mk LTU | 7 => mk GEU | _ => None
  end.
Definition decode_load (w : Z) : option instr :=
  let mk sz sg := Some (Load sz sg (fld w 7 5) (fld w 15 5) (immI w)) in
  match fld w 12 3 with
  | 0 => mk Byte true | 1 => mk Half true | 2 => mk Word true
  | 4 => mk Byte false | 5 => mk Half false | _ => None
  end.
Definition decode_store (w : Z) : option instr :=
  let mk sz := Some (Store sz (fld w 15 5) (fld w 20 5) (immS w)) in
  match fld w 12 3 with 0 => mk Byte | 1 => mk Half | 2 => mk Word | _ => None end.
Definition decode_system (w : Z) : option instr :=
  let mk f arg := Some (Csr f (fld w 7 5) arg (fld w 20 12)) in
  let r := CReg (fld w 15 5) in let i := CImm (fld w 15 5) in
  match fld w 12 3 with
  | 0 => if w =? 0x00000073 then Some Ecall else if w =? 0x00100073 then Some Ebreak
         else if w =? 0x30200073 then Some Mret else if w =? 0x10500073 then Some Wfi else None
  | 1 => mk CSRRW r | 2 => mk CSRRS r | 3 => mk CSRRC r
  | 5 => mk CSRRW i | 6 => mk CSRRS i | 7 => mk CSRRC i
  | _ => None
  end.
Definition decode (w : Z) : option instr :=
  match w mod 2 ^ 7 with
  | 0x37 => Some (Lui (fld w 7 5) (immU w))
  | 0x17 => Some (Auipc (fld w 7 5) (immU w))
  | 0x6f => Some (Jal (fld w 7 5) (immJ w))
  | 0x67 => if fld w 12 3 =? 0 then Some (Jalr (fld w 7 5) (fld w 15 5) (immI w)) else None
  | 0x63 => decode_branch w
  | 0x03 => decode_load w
  | 0x23 => decode_store w
  | 0x13 => decode_opimm w
  | 0x33 => decode_op w
  | 0x0f => if fld w 12 3 =? 0 then Some Fence else None
  | 0x73 => decode_system w
  | _ => None
  end.

(** ** Architectural state *)
Record arch := {
  xr : Z -> Z;             (* x1..x31; x0 is read as 0 by [rd_x] *)
  pc : Z;
  mie : bool; mpie : bool; (* MSTATUS *)
  meie : bool;             (* MIE.MEIE *)
  mtvec : Z; mscratch : Z; mepc : Z; mcause : Z;
  took_int : bool          (* history: an interrupt was taken since reset *)
}.

Definition rd_x (a : arch) (r : Z) : Z := if r =? 0 then 0 else xr a r.
Definition set_x (a : arch) (r v : Z) : arch :=
  {| xr := fun n => if n =? r then v else xr a n;
     pc := pc a; mie := mie a; mpie := mpie a; meie := meie a; mtvec := mtvec a;
     mscratch := mscratch a; mepc := mepc a; mcause := mcause a; took_int := took_int a |}.
Definition wr_x (a : arch) (r v : Z) : arch := if r =? 0 then a else set_x a r v.
Definition set_pc (a : arch) (p : Z) : arch :=
  {| xr := xr a; pc := p; mie := mie a; mpie := mpie a; meie := meie a; mtvec := mtvec a;
     mscratch := mscratch a; mepc := mepc a; mcause := mcause a; took_int := took_int a |}.
Definition next_pc (a : arch) : Z := (pc a + 4) mod 2 ^ 32.
Definition advance (a : arch) : arch := set_pc a (next_pc a).

(** ** Arithmetic *)
Definition s32 (x : Z) : Z := sext 32 x.
Definition alu (f : alu_fn) (x y : Z) : Z :=
  match f with
  | ADD => (x + y) mod 2 ^ 32
  | SUB => (x - y) mod 2 ^ 32
  | SLL => (x * 2 ^ (y mod 32)) mod 2 ^ 32
  | SLT => if s32 x <? s32 y then 1 else 0
  | SLTU => if x <? y then 1 else 0
  | XOR => Z.lxor x y
  | SRL => x / 2 ^ (y mod 32)
  | SRA => (s32 x / 2 ^ (y mod 32)) mod 2 ^ 32
  | OR => Z.lor x y
  | AND => Z.land x y
  end.
Definition cmp (c : cmp_fn) (x y : Z) : bool :=
  match c with
  | EQ => x =? y | NE => negb (x =? y)
  | LT => s32 x <? s32 y | GE => negb (s32 x <? s32 y)
  | LTU => x <? y | GEU => negb (x <? y)
  end.

(** ** Traps *)
Definition trap_to (a : arch) (cause : Z) (intr : bool) : arch :=
  {| xr := xr a; pc := 4 * (mtvec a / 4); mie := false; mpie := mie a; meie := meie a;
     mtvec := mtvec a; mscratch := mscratch a; mepc := pc a; mcause := cause;
     took_int := intr || took_int a |}.
(** MCAUSE for a synchronous exception with code [c]. *)
Definition sync_mcause (v : variant) (a : arch) (c : Z) : Z :=
  match v with
  | RISCV => c
  | SENTINEL => if took_int a then 2 ^ 31 + c else c   (* deviation: stale interrupt bit *)
  end.
Definition exception (v : variant) (a : arch) (c : Z) : arch := trap_to a (sync_mcause v a c) false.
Definition interrupt (a : arch) : arch := trap_to a (2 ^ 31 + 11) true.
(** Exception code of an illegal word. *)
Definition illegal_cause (v : variant) (w : Z) : Z :=
  match v with
  | RISCV => 2
  | SENTINEL => if (0x70 <=? w) && (w <=? 0x72) then 11 else 2   (* deviation: not-quite-ECALL *)
  end.

(** ** CSRs *)
Definition in_range (lo hi x : Z) : bool := (lo <=? x) && (x <=? hi).
(** Read-only-zero machine CSRs: mvendorid..mconfigptr, misa, mstatush, mcountinhibit,
    mhpmevent3-31, mtval, mcycle[h], minstret[h], mhpmcounter3-31[h]. *)
Definition ro_zero (n : Z) : bool :=
  in_range 0xF11 0xF15 n || (n =? 0x301) || (n =? 0x310) || (n =? 0x320) || in_range 0x323 0x33F n
  || (n =? 0x343) || (n =? 0xB00) || in_range 0xB02 0xB1F n || (n =? 0xB80) || in_range 0xB82 0xB9F n.
Definition bz (b : bool) : Z := if b then 1 else 0.
(** Value read from CSR [n]; [None] if there is no such CSR.  [ip] is the external
    interrupt line. *)
Definition csr_read (a : arch) (ip : bool) (n : Z) : option Z :=
  match n with
  | 0x300 => Some (3 * 2 ^ 11 + bz (mpie a) * 2 ^ 7 + bz (mie a) * 2 ^ 3)   (* mstatus, MPP = 3 *)
  | 0x304 => Some (bz (meie a) * 2 ^ 11)                                     (* mie *)
  | 0x305 => Some (mtvec a)
  | 0x340 => Some (mscratch a)
  | 0x341 => Some (mepc a)
  | 0x342 => Some (mcause a)
  | 0x344 => Some (bz ip * 2 ^ 11)                                           (* mip *)
  | _ => if ro_zero n then Some 0 else None
  end.
Definition csr_write (a : arch) (n v : Z) : arch :=
  match n with
  | 0x300 => {| xr := xr a; pc := pc a; mie := Z.testbit v 3; mpie := Z.testbit v 7; meie := meie a;
                mtvec := mtvec a; mscratch := mscratch a; mepc := mepc a; mcause := mcause a;
                took_int := took_int a |}
  | 0x304 => {| xr := xr a; pc := pc a; mie := mie a; mpie := mpie a; meie := Z.testbit v 11;
                mtvec := mtvec a; mscratch := mscratch a; mepc := mepc a; mcause := mcause a;
                took_int := took_int a |}
  | 0x305 => {| xr := xr a; pc := pc a; mie := mie a; mpie := mpie a; meie := meie a;
                mtvec := 4 * (v / 4); mscratch := mscratch a; mepc := mepc a; mcause := mcause a;
                took_int := took_int a |}
  | 0x340 => {| xr := xr a; pc := pc a; mie := mie a; mpie := mpie a; meie := meie a;
                mtvec := mtvec a; mscratch := v; mepc := mepc a; mcause := mcause a;
                took_int := took_int a |}
  | 0x341 => {| xr := xr a; pc := pc a; mie := mie a; mpie := mpie a; meie := meie a;
                mtvec := mtvec a; mscratch := mscratch a; mepc := 4 * (v / 4); mcause := mcause a;
                took_int := took_int a |}
  | 0x342 => {| xr := xr a; pc := pc a; mie := mie a; mpie := mpie a; meie := meie a;
                mtvec := mtvec a; mscratch := mscratch a; mepc := mepc a; mcause := v;
                took_int := took_int a |}
  | _ => a
  end.
Definition arg_value (a : arch) (g : csr_arg) : Z :=
  match g with CReg r => rd_x a r | CImm z => z end.
(** CSRRW always writes; CSRRS/CSRRC write unless rs1 is x0 / the immediate is 0. *)
Definition csr_writes (f : csr_fn) (g : csr_arg) : bool :=
  match f with
  | CSRRW => true
  | _ => negb (match g with CReg r => r | CImm z => z end =? 0)
  end.
Definition csr_new (f : csr_fn) (old x : Z) : Z :=
  match f with CSRRW => x | CSRRS => Z.lor old x | CSRRC => Z.ldiff old x end.
Definition csr_read_only (n : Z) : bool := fld n 10 2 =? 3.

Definition exec_csr (v : variant) (a : arch) (ip : bool) (f : csr_fn) (rd : Z) (g : csr_arg) (n : Z) : arch :=
  match csr_read a ip n with
  | None => exception v a 2
  | Some old =>
    if csr_writes f g && csr_read_only n then exception v a 2
    else
      let a1 := if csr_writes f g then csr_write a n (csr_new f old (arg_value a g)) else a in
      advance (wr_x a1 rd old)
  end.

(** ** Memory access *)
(** A bus request: word address, byte-lane select, write flag, write data. *)
Record breq := { q_adr : Z; q_sel : Z; q_we : bool; q_dat : Z }.
Definition bytes (sz : width) : Z := match sz with Byte => 1 | Half => 2 | Word => 4 end.
Definition aligned (sz : width) (ea : Z) : bool := ea mod bytes sz =? 0.
(** Lanes [off .. off + n - 1]. *)
Definition lanes (sz : width) (ea : Z) : Z := (2 ^ bytes sz - 1) * 2 ^ (ea mod 4).
Definition load_value (sz : width) (sgn : bool) (ea d : Z) : Z :=
  let n := 8 * bytes sz in
  let x := fld d (8 * (ea mod 4)) n in
  if sgn then sext n x mod 2 ^ 32 else x.
Definition store_data (sz : width) (ea v : Z) : Z := (v mod 2 ^ (8 * bytes sz)) * 2 ^ (8 * (ea mod 4)).

(** ** Execution *)
Inductive mach :=
| Fetching (a : arch)
| Accessing (r : breq) (k : Z -> arch).

Definition jump (v : variant) (a : arch) (target : Z) (linked : arch) : arch :=
  if target mod 4 =? 0 then set_pc linked target else exception v a 0.

Definition exec (v : variant) (a : arch) (ip : bool) (i : instr) : mach :=
  match i with
  | Lui rd imm => Fetching (advance (wr_x a rd imm))
  | Auipc rd imm => Fetching (advance (wr_x a rd ((pc a + imm) mod 2 ^ 32)))
  | Jal rd off => Fetching (jump v a ((pc a + off) mod 2 ^ 32) (wr_x a rd (next_pc a)))
  | Jalr rd rs1 off =>
      Fetching (jump v a (2 * (((rd_x a rs1 + off) mod 2 ^ 32) / 2)) (wr_x a rd (next_pc a)))
  | Branch c rs1 rs2 off =>
      Fetching (if cmp c (rd_x a rs1) (rd_x a rs2)
                then jump v a ((pc a + off) mod 2 ^ 32) a else advance a)
  | Load sz sgn rd rs1 off =>
      let ea := (rd_x a rs1 + off) mod 2 ^ 32 in
      if aligned sz ea
      then Accessing {| q_adr := ea / 4; q_sel := lanes sz ea; q_we := false; q_dat := 0 |}
                     (fun d => advance (wr_x a rd (load_value sz sgn ea d)))
      else Fetching (exception v a 4)
  | Store sz rs1 rs2 off =>
      let ea := (rd_x a rs1 + off) mod 2 ^ 32 in
      if aligned sz ea
      then Accessing {| q_adr := ea / 4; q_sel := lanes sz ea; q_we := true;
                        q_dat := store_data sz ea (rd_x a rs2) |}
                     (fun _ => advance a)
      else Fetching (exception v a 6)
  | OpImm f rd rs1 imm => Fetching (advance (wr_x a rd (alu f (rd_x a rs1) (imm mod 2 ^ 32))))
  | OpReg f rd rs1 rs2 => Fetching (advance (wr_x a rd (alu f (rd_x a rs1) (rd_x a rs2))))
  | Fence | Wfi => Fetching (advance a)
  | Ecall => Fetching (exception v a 11)
  | Ebreak => Fetching (exception v a 3)
  | Mret => Fetching
      {| xr := xr a; pc := 4 * (mepc a / 4); mie := mpie a; mpie := true; meie := meie a;
         mtvec := mtvec a; mscratch := mscratch a; mepc := mepc a; mcause := mcause a;
         took_int := took_int a |}
  | Csr f rd g n => Fetching (exec_csr v a ip f rd g n)
  end.

Definition int_enabled (a : arch) : bool := mie a && meie a.
Definition is_csr (i : instr) : bool := match i with Csr _ _ _ _ => true | _ => false end.

(** The word [w] has been fetched in state [a].  [i1], [i2], [i3] are the values of
    the interrupt line one, two and three cycles later: [i1] decides whether the
    interrupt is taken instead of [w]; CSR instructions are given a second chance
    with [i2]; [i3] is what MIP.MEIP shows. *)
Definition fetched (v : variant) (a : arch) (w : Z) (i1 i2 i3 : bool) : mach :=
  if int_enabled a && i1 then Fetching (interrupt a)
  else match decode w with
       | None => Fetching (exception v a (illegal_cause v w))
       | Some i => if is_csr i && (int_enabled a && i2) then Fetching (interrupt a)
                   else exec v a i3 i
       end.

(** The one request the machine wants next. *)
Definition request (m : mach) : breq :=
  match m with
  | Fetching a => {| q_adr := pc a / 4; q_sel := 15; q_we := false; q_dat := 0 |}
  | Accessing r _ => r
  end.

(** The request is completed in cycle [t] with read data [d]. *)
Definition complete (v : variant) (irq : nat -> bool) (m : mach) (e : nat * Z) : mach :=
  let (t, d) := e in
  match m with
  | Fetching a => fetched v a d (irq (t + 1)%nat) (irq (t + 2)%nat) (irq (t + 3)%nat)
  | Accessing _ k => Fetching (k d)
  end.

(** The machine after a log of completed requests (oldest first). *)
Definition isa_run (v : variant) (irq : nat -> bool) (m : mach) (log : list (nat * Z)) : mach :=
  fold_left (complete v irq) log m.

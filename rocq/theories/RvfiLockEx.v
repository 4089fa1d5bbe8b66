(** * C68 on the run of Examples.v, and reports the checker refuses *)
From Coq Require Import ZArith Lia Bool List.
From Verif Require Import Bits Cpu Wf Main Obs PropsBus SocMem Examples Rvfi RvfiTrace RvfiProps RvfiTop RvfiEx RvfiSpec RvfiLock.
Import ListNotations.
Open Scope Z_scope.

(** Core, memory, harness and the reports so far. *)
Fixpoint vsys_trace (k : Z) (iw : nat -> bool) (s : state) (m : wbmem) (v : rvfi) (t : nat) : ((state * wbmem) * rvfi) * list report :=
  match t with
  | O => (((s, m), v), [])
  | S n => let x := vsys_trace k iw s m v n in let cv := fst x in
      let i := cpu_input (snd (fst cv)) (iw n) in
      ((next_sys k iw n (fst cv), rvfi_step (snd cv) (fst (fst cv)) i),
       snd x ++ if rv_valid (snd cv) (fst (fst cv)) i then [ports (snd cv) (fst (fst cv)) i] else [])
  end.
Lemma vsys_trace_ok k iw s m v t : fst (vsys_trace k iw s m v t) = vsys k iw s m v t /\ snd (vsys_trace k iw s m v t) = rvfi_trace v s (sys_inp k iw s m) t.
Proof.
  induction t as [|t [IH1 IH2]]; [split; reflexivity|]. cbn [vsys_trace vsys rvfi_trace fst snd]. rewrite IH1, IH2. split; [reflexivity|].
  unfold valid_at, report_at. rewrite vsys_run, sys_run. change (sys_inp k iw s m t) with (cpu_input (snd (system k iw s m t)) (iw t)). rewrite <- (vsys_sys k iw s m v). reflexivity.
Qed.
Definition trace0 : list report := snd (vsys_trace 8 irq0 por mem0 v0 200).
Lemma trace0_ok : rvfi_trace v0 por in0 200 = trace0.
Proof. symmetry. apply (vsys_trace_ok 8 irq0 por mem0 v0 200). Qed.
(** 27 reports, the last five of the handler of a trap; the checker then knows registers and CSRs. *)
Example C68_applies : bus_ok por in0 /\ rvfi_fresh v0 /\ length (rvfi_trace v0 por in0 200) = 27%nat /\
  exists k, check_all start (rvfi_trace v0 por in0 200) = Some k /\
  k_pc k = 0x210 /\ k_x k 3 = Some 10 /\ k_x k 8 = Some 10 /\ k_x k 9 = Some 0xA0000 /\ k_x k 25 = None /\
  k_csr k 0x305 = Some 0x200 /\ k_csr k 0x340 = Some 0x12345000 /\ k_csr k 0x341 = Some 100 /\ k_csr k 0x342 = Some 4.
Proof.
  split; [exact bus_ok_applies|]. split; [exact rvfi_fresh_applies|]. rewrite trace0_ok. split; [vm_compute; reflexivity|].
  eexists. split; [vm_compute; reflexivity|]. vm_compute. repeat split; reflexivity.
Qed.

(** The same trace with one field of one report changed. *)
Inductive fld_name := Order | Insn | Trap | Intr | Rs1 | Rs2 | Rs1Data | Rs2Data | Rd | RdData | PcR | PcW | MemA | MemRm | MemWm | MemR | MemW | CsrR (n : Z) | CsrW (n : Z).
Definition tamper (f : fld_name) (r : report) : report :=
  let inc (hit : bool) z := if hit then Z.lxor z 4 else z in
  {| p_order := inc (match f with Order => true | _ => false end) (p_order r);
     p_insn := inc (match f with Insn => true | _ => false end) (p_insn r);
     p_trap := xorb (match f with Trap => true | _ => false end) (p_trap r);
     p_intr := xorb (match f with Intr => true | _ => false end) (p_intr r);
     p_rs1_addr := inc (match f with Rs1 => true | _ => false end) (p_rs1_addr r);
     p_rs2_addr := inc (match f with Rs2 => true | _ => false end) (p_rs2_addr r);
     p_rs1_rdata := inc (match f with Rs1Data => true | _ => false end) (p_rs1_rdata r);
     p_rs2_rdata := inc (match f with Rs2Data => true | _ => false end) (p_rs2_rdata r);
     p_rd_addr := inc (match f with Rd => true | _ => false end) (p_rd_addr r);
     p_rd_wdata := inc (match f with RdData => true | _ => false end) (p_rd_wdata r);
     p_pc_rdata := inc (match f with PcR => true | _ => false end) (p_pc_rdata r);
     p_pc_wdata := inc (match f with PcW => true | _ => false end) (p_pc_wdata r);
     p_mem_addr := inc (match f with MemA => true | _ => false end) (p_mem_addr r);
     p_mem_rmask := inc (match f with MemRm => true | _ => false end) (p_mem_rmask r);
     p_mem_wmask := inc (match f with MemWm => true | _ => false end) (p_mem_wmask r);
     p_mem_rdata := (if match f with MemR => true | _ => false end then Z.lxor (p_mem_rdata r) 0x40000 else p_mem_rdata r);
     p_mem_wdata := (if match f with MemW => true | _ => false end then Z.lxor (p_mem_wdata r) 0x40000 else p_mem_wdata r);
     p_csr_rdata := fun n => inc (match f with CsrR m => m =? n | _ => false end) (p_csr_rdata r n);
     p_csr_wdata := fun n => inc (match f with CsrW m => m =? n | _ => false end) (p_csr_wdata r n) |}.
Definition refused (l : list report) : bool := match check_all start l with None => true | Some _ => false end.
Definition altered (i : nat) (f : fld_name) (l : list report) : list report :=
  firstn i l ++ match skipn i l with r :: l' => tamper f r :: l' | [] => [] end.
(** Report 1 is csrw mtvec, x1; 3 is add x3, x2, x2; 8 is sh x3, 0x102(x0); 9 is lbu x8, 0x102(x0); 11
    is beq x2, x2; 22 is a misaligned load, which traps; 23 is the first one of the handler. *)
Example C68_refuses : forallb (fun x => refused (altered (fst x) (snd x) (firstn (S (fst x)) trace0)))
  [(3, Order); (3, Insn); (3, Trap); (3, Rs1); (3, Rs1Data); (3, Rs2Data); (3, Rd); (3, RdData); (3, PcR); (3, PcW); (3, MemRm); (3, MemWm);
   (1, CsrW 0x305); (8, MemA); (8, MemWm); (8, MemW); (9, MemA); (9, MemRm); (9, MemR); (9, RdData); (11, PcW);
   (22, Trap); (22, CsrW 0x342); (22, CsrW 0x341); (22, PcW); (23, Intr); (23, CsrR 0x342)]%nat = true /\
  refused (tl trace0) = true /\ refused (firstn 3 trace0 ++ skipn 4 trace0) = true /\ refused (firstn 3 trace0 ++ skipn 2 trace0) = true.
Proof. repeat split; vm_compute; reflexivity. Qed.

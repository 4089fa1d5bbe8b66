(** * Concrete reports of the RVFI harness: hypotheses met, and where it misreports

    The run of Examples.v with the harness next to it. *)
From Coq Require Import ZArith Lia Bool List.
From Verif Require Import Bits Ucode Cpu Isa Timed BitLemmas Wf Sym Blocks CsrBlocks DecodeOk Boundary Sim Main Obs PropsBus PropsInv Observe PropsIsa PropsFrame Memory SocMem Examples Rvfi RvfiTrace RvfiProps RvfiRd RvfiCsr RvfiMip RvfiTop.
Import ListNotations.
Open Scope Z_scope.

Definition v0 : rvfi := rvfi_reset 0 0 (fun _ => 0).
Example rvfi_fresh_applies : rvfi_fresh v0.
Proof. exists 0, 0, (fun _ => 0). reflexivity. Qed.

(** Core, memory and harness in one pass. *)
Fixpoint vsys (k : Z) (iw : nat -> bool) (s : state) (m : wbmem) (v : rvfi) (t : nat) : (state * wbmem) * rvfi :=
  match t with
  | O => ((s, m), v)
  | S n => let cv := vsys k iw s m v n in
      (next_sys k iw n (fst cv), rvfi_step (snd cv) (fst (fst cv)) (cpu_input (snd (fst cv)) (iw n)))
  end.
Lemma vsys_sys k iw s m v t : fst (vsys k iw s m v t) = system k iw s m t.
Proof. induction t as [|t IH]; [reflexivity|]. cbn [vsys system fst]. rewrite IH. unfold next_sys. destruct (system k iw s m t); reflexivity. Qed.
Lemma vsys_run k iw s m v t : vrun v s (sys_inp k iw s m) t = snd (vsys k iw s m v t).
Proof.
  induction t as [|t IH]; [reflexivity|]. cbn [vsys vrun snd]. rewrite IH, vsys_sys, sys_run. reflexivity.
Qed.
Lemma report0 t : vrun v0 por in0 t = snd (vsys 8 irq0 por mem0 v0 t).
Proof. apply vsys_run. Qed.
Ltac report := rewrite ?report0; unfold in0; rewrite ?sys_run; vm_compute.

(** add x3, x2, x2 is the fourth instruction: report number 3. *)
Example C50_applies : exists t t' w, executes por in0 t t' w /\ v_order (vrun v0 por in0 t') = 3 /\ valid_at v0 por in0 t' = true.
Proof.
  exists 20%nat, 24%nat, 0x2101b3. assert (X : executes por in0 20 24 0x2101b3) by (apply runs; reflexivity).
  split; [exact X|]. split; [report; reflexivity|].
  apply (C50_reports_each_instruction_once _ _ _ ok_applies rvfi_fresh_applies). exists 20%nat, 0x2101b3. exact X.
Qed.
(** add x3, x2, x2 *)
Example C51_applies : exists t t' w x y, executed por in0 t t' w x y /\ let r := vrun v0 por in0 t' in
  v_insn r = 0x2101b3 /\ v_pc_rdata r = 12 /\ v_rs1_addr r = 2 /\ v_rs1_rdata r = 5 /\ v_rs2_rdata r = 5.
Proof.
  exists 20%nat, 24%nat, 0x2101b3, (run por in0 21), (run por in0 25). split; [apply runs; reflexivity|].
  cbv zeta. rewrite report0. vm_compute. repeat split; reflexivity.
Qed.
Lemma add_no_trap : ~ traps por in0 20 0x2101b3 (run por in0 21).
Proof. intros [T|[c C]]; [rewrite quiet_irq in T by reflexivity; discriminate|exact C]. Qed.
Example C52_applies : exists t t' w x y, executed por in0 t t' w x y /\ ~ traps por in0 t w x /\ let r := vrun v0 por in0 t' in
  v_rd_addr r = 3 /\ rv_rd_wdata r (run por in0 t') (in0 t') = 10.
Proof.
  exists 20%nat, 24%nat, 0x2101b3, (run por in0 21), (run por in0 25). split; [apply runs; reflexivity|]. split; [exact add_no_trap|].
  cbv zeta. rewrite report0. unfold in0. rewrite sys_run. vm_compute. split; reflexivity.
Qed.
(** lw x17, 0x101(x0) is reported as trapping, and the handler's first instruction as [intr]. *)
Example C53_applies : exists t0 t t' w0 w x0 x y, executed por in0 t0 t w0 x0 x /\ executed por in0 t t' w x y /\
  traps por in0 t0 w0 x0 /\ v_trap (vrun v0 por in0 t) = true /\ v_intr (vrun v0 por in0 t') = true /\ v_trap (vrun v0 por in0 t') = false.
Proof.
  exists 163%nat, 173%nat, 180%nat, 0x10102883, 0x34202f73, (run por in0 164), (run por in0 174), (run por in0 181).
  assert (E : executed por in0 163 173 0x10102883 (run por in0 164) (run por in0 174)) by (apply runs; reflexivity).
  assert (T : v_trap (vrun v0 por in0 173) = true) by (rewrite report0; vm_compute; reflexivity).
  split; [exact E|]. split; [apply runs; reflexivity|]. split; [apply (C53_trap _ _ _ ok_applies rvfi_fresh_applies _ _ _ _ _ E); exact T|].
  split; [exact T|]. rewrite report0. vm_compute. split; reflexivity.
Qed.
(** sh x3, 0x102(x0) and lbu x8, 0x102(x0) *)
Example C54_store_applies : exists t t' w x y, executed por in0 t t' w x y /\ let r := vrun v0 por in0 t' in
  decode w = Some (Store Half 0 3 0x102) /\ v_mem_addr r = 0x100 /\ v_mem_wmask r = 12 /\ v_mem_rmask r = 0 /\ byte (v_mem_wdata r) 2 = 10.
Proof.
  exists 64%nat, 74%nat, 0x10301123, (run por in0 65), (run por in0 75). split; [apply runs; reflexivity|].
  cbv zeta. rewrite report0. vm_compute. repeat split; reflexivity.
Qed.
Example C54_load_applies : exists t t' w x y, executed por in0 t t' w x y /\ let r := vrun v0 por in0 t' in
  decode w = Some (Load Byte false 8 0 0x102) /\ v_mem_addr r = 0x100 /\ v_mem_rmask r = 4 /\ v_mem_wmask r = 0 /\ byte (v_mem_rdata r) 2 = 10.
Proof.
  exists 74%nat, 83%nat, 0x10204403, (run por in0 75), (run por in0 84). split; [apply runs; reflexivity|].
  cbv zeta. rewrite report0. vm_compute. repeat split; reflexivity.
Qed.
(** csrrw x14, mscratch, x6 *)
Example C55_applies : (forall n, In n [0x305; 0x340; 0x341; 0x342] -> csr_of por false n = 0) /\
  exists t t' w x y, executed por in0 t t' w x y /\ let r := vrun v0 por in0 t' in
  w = 0x34031773 /\ v_csr_rdata r (csr_enc 0x340) = 0 /\ v_csr_wdata r (csr_enc 0x340) = 0x12345000.
Proof.
  split; [intros n [<-|[<-|[<-|[<-|[]]]]]; reflexivity|].
  exists 132%nat, 139%nat, 0x34031773, (run por in0 133), (run por in0 140). split; [apply runs; reflexivity|].
  cbv zeta. rewrite report0. vm_compute. repeat split; reflexivity.
Qed.
(** csrrsi x0, mstatus, 8 *)
Example C55_mstatus_applies : exists t t' w x y, executed por in0 t t' w x y /\ ~ traps por in0 t w x /\ w <> 0x30200073 /\
  csr_of y false 0x300 <> csr_of x false 0x300.
Proof.
  exists 606%nat, 615%nat, 0x30046073, (run por in0 607), (run por in0 616).
  assert (E : executed por in0 606 615 0x30046073 (run por in0 607) (run por in0 616)) by (apply runs; reflexivity).
  split; [exact E|]. split; [|split; [discriminate|unfold in0; rewrite !sys_run; vm_compute; discriminate]].
  intros T. apply (C53_trap _ _ _ ok_applies rvfi_fresh_applies _ _ _ _ _ E) in T. revert T. rewrite report0. vm_compute. discriminate.
Qed.
(** csrrs x16, mvendorid, x0 *)
Example C55_read_only_zero_applies : exists t t' w x y, executed por in0 t t' w x y /\ ~ traps por in0 t w x /\
  decode w = Some (Csr CSRRS 16 (CReg 0) 0xF11).
Proof.
  exists 149%nat, 155%nat, 0xf1102873, (run por in0 150), (run por in0 156).
  assert (E : executed por in0 149 155 0xf1102873 (run por in0 150) (run por in0 156)) by (apply runs; reflexivity).
  split; [exact E|]. split; [|reflexivity].
  intros T. apply (C53_trap _ _ _ ok_applies rvfi_fresh_applies _ _ _ _ _ E) in T. revert T. rewrite report0. vm_compute. discriminate.
Qed.

(** ** Where the harness does not report what happens *)

(** addi x1, x0, 5; lw x17, 0x101(x0): the load traps and leaves x17 at 0, yet the report
    says x17 was written with 5 (the value last written to any register): C52 fails for
    misaligned loads. *)
Definition mem1 : wbmem := {| wm_mem := fun a => if a =? 0 then 0x00500093 else if a =? 1 then 0x10102883 else 0; wm_rdata := 0; wm_ack := false |}.
Definition in1 : nat -> input := sys_inp 8 (fun _ => false) por mem1.
Lemma mem1_start : mem_start mem1.
Proof.
  constructor; [|cbn; unfold word; lia|reflexivity]. intros a. cbn [mem1 wm_mem]. destruct (a =? 0), (a =? 1); unfold word; lia.
Qed.
Theorem C52_trap_refuted : exists inp v t t' w x y, bus_ok por inp /\ rvfi_fresh v /\ executed por inp t t' w x y /\
  traps por inp t w x /\ let r := vrun v por inp t' in
  x_of y (v_rd_addr r) <> rv_rd_wdata r (run por inp t') (inp t') /\ v_rd_addr r = 17 /\ rv_rd_wdata r (run por inp t') (inp t') = 5.
Proof.
  exists in1, v0, 10%nat, 20%nat, 0x10102883, (run por in1 11), (run por in1 21).
  assert (B : bus_ok por in1) by (apply sys_bus_ok; [apply por_fresh|apply mem1_start]).
  assert (E : executed por in1 10 20 0x10102883 (run por in1 11) (run por in1 21)).
  { split; [|split; reflexivity].
    apply (trace_executes 8 (fun _ => false) por mem1 24 [(6%nat, 0x00500093)] 10 0x10102883 20 0x00500093 []). vm_compute. reflexivity. }
  split; [exact B|]. split; [apply rvfi_fresh_applies|]. split; [exact E|].
  split; [apply (C53_trap _ _ _ (bus_ok_ok _ _ B) rvfi_fresh_applies _ _ _ _ _ E); unfold in1; rewrite vsys_run; vm_compute; reflexivity|].
  cbv zeta. unfold in1. rewrite vsys_run, !sys_run. vm_compute. split; [discriminate|]. split; reflexivity.
Qed.

(** MSTATUS.  An interrupted instruction (cycle 615) starts with MIE set; trap entry clears
    it.  The report gives the value after trap entry as the one read and the last value a
    CSR instruction stored as the one written. *)
Theorem C55_mstatus_trap_refuted : exists t t' w x y, executed por in0 t t' w x y /\ traps por in0 t w x /\
  let r := vrun v0 por in0 t' in
  csr_of x false 0x300 = 0x1888 /\ csr_of y false 0x300 = 0x1880 /\ v_csr_rdata r 0 = 0x1880 /\ v_csr_wdata r 0 = 0x1888.
Proof.
  exists 615%nat, 622%nat, 0x1b0b13, (run por in0 616), (run por in0 623).
  assert (E : executed por in0 615 622 0x1b0b13 (run por in0 616) (run por in0 623)) by (apply runs; reflexivity).
  split; [exact E|]. assert (R : vrun v0 por in0 622 = snd (vsys 8 irq0 por mem0 v0 622)) by apply report0.
  split; [apply (C53_trap _ _ _ ok_applies rvfi_fresh_applies _ _ _ _ _ E); rewrite R; vm_compute; reflexivity|].
  cbv zeta. rewrite R. unfold in0. rewrite !sys_run. vm_compute. repeat split; reflexivity.
Qed.
(** MRET (cycle 204) sets MPIE here; the value reported as written is 0. *)
Theorem C55_mstatus_mret_refuted : exists t t' x y, executed por in0 t t' 0x30200073 x y /\ ~ traps por in0 t 0x30200073 x /\
  let r := vrun v0 por in0 t' in
  csr_of x false 0x300 = 0x1800 /\ csr_of y false 0x300 = 0x1880 /\ warl 0x300 (v_csr_wdata r 0) = 0x1800.
Proof.
  exists 204%nat, 211%nat, (run por in0 205), (run por in0 212).
  assert (E : executed por in0 204 211 0x30200073 (run por in0 205) (run por in0 212)) by (apply runs; reflexivity).
  split; [exact E|]. assert (R : vrun v0 por in0 211 = snd (vsys 8 irq0 por mem0 v0 211)) by apply report0.
  split; [intros T; apply (C53_trap _ _ _ ok_applies rvfi_fresh_applies _ _ _ _ _ E) in T; revert T; rewrite R; vm_compute; discriminate|].
  cbv zeta. rewrite R. unfold in0. rewrite !sys_run. vm_compute. repeat split; reflexivity.
Qed.
(** MIP.  csrrs x5, mip, x0 while the IRQ line is low except in the last cycle of the instruction:
    x5 gets 0 and MIP reads 0 before and after, yet the report says MIP was read as 0x800. *)
Definition mem2 : wbmem := {| wm_mem := fun a => if a =? 0 then 0x344022f3 else if a =? 1 then 0x00500093 else 0; wm_rdata := 0; wm_ack := false |}.
Definition irq2 (t : nat) : bool := Nat.eqb t 12.
Definition in2 : nat -> input := sys_inp 8 irq2 por mem2.
Lemma mem2_start : mem_start mem2.
Proof. constructor; [|cbn; unfold word; lia|reflexivity]. intros a. cbn [mem2 wm_mem]. destruct (a =? 0), (a =? 1); unfold word; lia. Qed.
Theorem C55_mip_refuted : exists inp v t t' w x y, bus_ok por inp /\ rvfi_fresh v /\ executed por inp t t' w x y /\
  ~ traps por inp t w x /\ decode w = Some (Csr CSRRS 5 (CReg 0) 0x344) /\
  x_of y 5 = 0 /\ irq (inp (S t)) = false /\ irq (inp (S t')) = false /\ v_csr_rdata (vrun v por inp t') 12 = 0x800.
Proof.
  exists in2, v0, 6%nat, 13%nat, 0x344022f3, (run por in2 7), (run por in2 14).
  assert (B : bus_ok por in2) by (apply sys_bus_ok; [apply por_fresh|apply mem2_start]).
  assert (E : executed por in2 6 13 0x344022f3 (run por in2 7) (run por in2 14)).
  { split; [|split; reflexivity].
    apply (trace_executes 8 irq2 por mem2 16 [] 6 0x344022f3 13 0x00500093 []). vm_compute. reflexivity. }
  split; [exact B|]. split; [apply rvfi_fresh_applies|]. split; [exact E|].
  split. { intros T. apply (C53_trap _ _ _ (bus_ok_ok _ _ B) rvfi_fresh_applies _ _ _ _ _ E) in T. revert T. unfold in2. rewrite vsys_run. vm_compute. discriminate. }
  split; [reflexivity|]. split; [unfold in2; rewrite !sys_run; vm_compute; reflexivity|]. split; [reflexivity|]. split; [reflexivity|].
  unfold in2. rewrite vsys_run. vm_compute. reflexivity.
Qed.
(** csrrw x0, mip, x1: its report of MIP is the IRQ line of the cycle of the write. *)
Definition mem3 : wbmem := {| wm_mem := fun a => if a =? 0 then 0x34409073 else if a =? 1 then 0x00500093 else 0; wm_rdata := 0; wm_ack := false |}.
Definition irq3 (t : nat) : bool := Nat.eqb t 11.
Definition in3 : nat -> input := sys_inp 8 irq3 por mem3.
Lemma mem3_start : mem_start mem3.
Proof. constructor; [|cbn; unfold word; lia|reflexivity]. intros a. cbn [mem3 wm_mem]. destruct (a =? 0), (a =? 1); unfold word; lia. Qed.
Example C55_mip_applies : exists t' y, bus_ok por in3 /\ executed por in3 6 t' 0x34409073 (run por in3 7) y /\
  ~ traps por in3 6 0x34409073 (run por in3 7) /\ decode 0x34409073 = Some (Csr CSRRW 0 (CReg 1) 0x344) /\ csr_writes CSRRW (CReg 1) = true /\
  irq (in3 11%nat) = true /\ v_csr_rdata (vrun v0 por in3 t') 12 = 0x800.
Proof.
  exists 12%nat, (run por in3 13).
  assert (B : bus_ok por in3) by (apply sys_bus_ok; [apply por_fresh|apply mem3_start]).
  assert (E : executed por in3 6 12 0x34409073 (run por in3 7) (run por in3 13)).
  { split; [|split; reflexivity].
    apply (trace_executes 8 irq3 por mem3 16 [] 6 0x34409073 12 0x00500093 []). vm_compute. reflexivity. }
  split; [exact B|]. split; [exact E|].
  split. { intros T. apply (C53_trap _ _ _ (bus_ok_ok _ _ B) rvfi_fresh_applies _ _ _ _ _ E) in T. revert T. unfold in3. rewrite vsys_run. vm_compute. discriminate. }
  do 3 (split; [reflexivity|]). unfold in3. rewrite vsys_run. vm_compute. reflexivity.
Qed.

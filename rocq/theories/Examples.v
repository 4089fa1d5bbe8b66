(** * Concrete runs: the hypotheses of the theorems are met

    A program touching every instruction class, run by the core with the SoC's memory
    (SocMem.v), from power-on, with an interrupt waveform.  Each example below names a
    theorem and exhibits a run, a cycle and an instruction word meeting its hypotheses. *)
From Coq Require Import ZArith Lia Bool List.
From Verif Require Import Bits Ucode Cpu Isa Timed BitLemmas Wf Sym Blocks CsrBlocks DecodeOk Boundary Sim Main Obs PropsBus PropsInv Observe PropsIsa PropsFrame Memory SocMem.
Import ListNotations.
Open Scope Z_scope.

Definition prog : list Z := [
  0x20000093; 0x30509073; 0x500113; 0x2101b3; 0x311213; 0x4020d2b3; 0x12345337; 0x1397;
  0x10301123; 0x10204403; 0x10002483; 0x210463; 0x0; 0x211463; 0x80056f; 0x0;
  0x4d00593; 0x58667; 0x0; 0x305026f3; 0x34031773; 0x340137f3; 0xf1102873; 0xf;
  0x10500073; 0x10102883; 0x103011a3; 0x163; 0x73; 0x100073; 0xffffffff; 0x123010f3;
  0xf1111073; 0x70; 0x1a37; 0x1a5a13; 0x304a1073; 0x34402af3; 0x30046073; 0x1b0b13;
  0x73; 0x6f; 0x0; 0x0; 0x0; 0x0; 0x0; 0x0;
  0x0; 0x0; 0x0; 0x0; 0x0; 0x0; 0x0; 0x0;
  0x0; 0x0; 0x0; 0x0; 0x0; 0x0; 0x0; 0x0;
  0x0; 0x0; 0x0; 0x0; 0x0; 0x0; 0x0; 0x0;
  0x0; 0x0; 0x0; 0x0; 0x0; 0x0; 0x0; 0x0;
  0x0; 0x0; 0x0; 0x0; 0x0; 0x0; 0x0; 0x0;
  0x0; 0x0; 0x0; 0x0; 0x0; 0x0; 0x0; 0x0;
  0x0; 0x0; 0x0; 0x0; 0x0; 0x0; 0x0; 0x0;
  0x0; 0x0; 0x0; 0x0; 0x0; 0x0; 0x0; 0x0;
  0x0; 0x0; 0x0; 0x0; 0x0; 0x0; 0x0; 0x0;
  0x0; 0x0; 0x0; 0x0; 0x0; 0x0; 0x0; 0x0;
  0x34202f73; 0x34102ff3; 0xf4463; 0x4f8f93; 0x341f9073; 0x30200073].
Definition mem0 : wbmem := {| wm_mem := fun a => nth (Z.to_nat a) prog 0; wm_rdata := 0; wm_ack := false |}.
Definition irq0 (t : nat) : bool := (Nat.leb 612 t && Nat.leb t 620) || Nat.eqb t 658.
(** The inputs of the core in this system. *)
Definition in0 : nat -> input := sys_inp 8 irq0 por mem0.

Lemma mem0_start : mem_start mem0.
Proof.
  constructor; [|cbn; unfold word; lia|reflexivity]. intros a. cbn [mem0 wm_mem].
  assert (F : forallb (fun w => (0 <=? w) && (w <? 2 ^ 32)) prog = true) by (vm_compute; reflexivity).
  rewrite forallb_forall in F. destruct (nth_in_or_default (Z.to_nat a) prog 0) as [I|E].
  - specialize (F _ I). apply andb_prop in F. destruct F as [F1 F2]. apply Z.leb_le in F1. apply Z.ltb_lt in F2. unfold word. lia.
  - rewrite E. unfold word. lia.
Qed.
(** The hypothesis of every theorem about runs. *)
Example bus_ok_applies : bus_ok por in0.
Proof. apply sys_bus_ok; [apply por_fresh|apply mem0_start]. Qed.
Example ok_applies : ok por in0.
Proof. apply bus_ok_ok. apply bus_ok_applies. Qed.
Example two_cycle_applies : two_cycle por in0.
Proof. apply sys_two_cycle; [apply por_fresh|apply mem0_start]. Qed.

(** ** Reading off the instructions a run executes *)
Section Trace.
Variables (k : Z) (iw : nat -> bool).
Definition next_sys (t : nat) (cd : state * wbmem) : state * wbmem :=
  let (c, d) := cd in (step c (cpu_input d (iw t)), wbmem_step k d (cpu_bus c)).
Fixpoint trace (n t : nat) (cd : state * wbmem) : list (nat * Z) :=
  match n with
  | O => []
  | S n => let r := trace n (S t) (next_sys t cd) in
      if o_cyc (fst cd) && u_fetch (s_u (fst cd)) && wm_ack (snd cd) then (t, wm_rdata (snd cd)) :: r else r
  end.
Variables (s : state) (m : wbmem).
Let inp := sys_inp k iw s m.
Lemma fetch_sys t : let cd := system k iw s m t in
  forall w, fetch_done s inp t w <-> (o_cyc (fst cd) && u_fetch (s_u (fst cd)) && wm_ack (snd cd) = true /\ wm_rdata (snd cd) = w).
Proof.
  cbv zeta. intros w. unfold fetch_done. rewrite (sys_run k iw s m). unfold inp, sys_inp, cpu_input. cbn [ack dat_r].
  rewrite !andb_true_iff. tauto.
Qed.
Lemma trace_split n t : forall l1 u w l2, trace n t (system k iw s m t) = l1 ++ (u, w) :: l2 ->
  fetch_done s inp u w /\ (t <= u)%nat /\ l2 = trace (t + n - S u) (S u) (system k iw s m (S u)) /\
  (l1 = [] -> forall v w', (t <= v < u)%nat -> ~ fetch_done s inp v w').
Proof.
  revert t. induction n as [|n IH]; intros t l1 u w l2 E.
  { destruct l1; discriminate. }
  cbn [trace] in E. change (next_sys t (system k iw s m t)) with (let (c, d) := system k iw s m t in (step c (cpu_input d (iw t)), wbmem_step k d (cpu_bus c))) in E.
  change (let (c, d) := system k iw s m t in (step c (cpu_input d (iw t)), wbmem_step k d (cpu_bus c))) with (system k iw s m (S t)) in E.
  pose proof (fetch_sys t) as Fs. cbv zeta in Fs.
  destruct (o_cyc _ && _ && _) eqn:Q.
  - destruct l1 as [|p l1].
    + cbn [app] in E. inversion E; subst. split; [apply Fs; auto|]. split; [lia|]. split; [f_equal; lia|]. intros _ v w' Hv. lia.
    + cbn [app] in E. injection E as _ E. destruct (IH (S t) _ _ _ _ E) as (A & B & C & _). split; [assumption|]. split; [lia|].
      split; [rewrite C; f_equal; lia|]. discriminate.
  - destruct (IH (S t) _ _ _ _ E) as (A & B & C & D). split; [assumption|]. split; [lia|].
    split; [rewrite C; f_equal; lia|]. intros El v w' Hv. destruct (Nat.eq_dec v t) as [->|]; [|apply D; [assumption|lia]].
    intros F. apply Fs in F. destruct F; discriminate.
Qed.
Lemma trace_executes n l1 t w t' w' l2 : trace n 0 (s, m) = l1 ++ (t, w) :: (t', w') :: l2 -> executes s inp t t' w.
Proof.
  intros E. destruct (trace_split n 0 _ _ _ _ E) as (A & B & C & _). symmetry in C.
  destruct (trace_split _ _ [] _ _ _ C) as (A' & B' & _ & D). split; [assumption|]. split; [lia|].
  split; [exists w'; assumption|]. intros u z Hu. apply D; [reflexivity|lia].
Qed.
End Trace.

(** All acknowledged instruction fetches in the first 760 cycles. *)
Definition log0 : list (nat * Z) := Eval vm_compute in trace 8 irq0 760 0 (por, mem0).
Lemma log0_ok : trace 8 irq0 760 0 (por, mem0) = log0.
Proof. vm_compute. reflexivity. Qed.
Fixpoint adjacent (l : list (nat * Z)) (t t' : nat) (w : Z) : bool :=
  match l with
  | (u, v) :: (((u', _) :: _) as r) => (Nat.eqb u t && (v =? w) && Nat.eqb u' t') || adjacent r t t' w
  | _ => false
  end.
Lemma adjacent_split l t t' w : adjacent l t t' w = true -> exists l1 w' l2, l = l1 ++ (t, w) :: (t', w') :: l2.
Proof.
  induction l as [|[u v] l IH]; [discriminate|]. cbn [adjacent]. destruct l as [|[u' v'] l]; [discriminate|].
  destruct (Nat.eqb u t && (v =? w) && Nat.eqb u' t') eqn:E.
  - intros _. apply andb_prop in E. destruct E as [E E3]. apply andb_prop in E. destruct E as [E1 E2].
    apply Nat.eqb_eq in E1, E3. apply Z.eqb_eq in E2. subst. exists [], v', l. reflexivity.
  - cbn [orb]. intros H. destruct (IH H) as (l1 & w' & l2 & ->). exists ((u, v) :: l1), w', l2. reflexivity.
Qed.
Lemma runs t t' w : adjacent log0 t t' w = true -> executed por in0 t t' w (run por in0 (S t)) (run por in0 (S t')).
Proof.
  intros H. destruct (adjacent_split _ _ _ _ H) as (l1 & w' & l2 & E). split; [|split; reflexivity].
  rewrite <- log0_ok in E. apply (trace_executes 8 irq0 por mem0 760 l1 t w t' w' l2 E).
Qed.
Lemma quiet_irq t w : irq0 (t + 1) = false -> irq0 (t + 2) = false -> int_taken por in0 t w = false.
Proof.
  intros H1 H2. unfold int_taken, in0, sys_inp, cpu_input. cbn [irq]. rewrite H1, H2. rewrite andb_false_r. cbv zeta. apply andb_false_r.
Qed.
Ltac core := unfold in0; rewrite sys_run; vm_compute.

(** ** Examples *)
Example C14_op_imm_applies : exists t t' w x y, executed por in0 t t' w x y /\ int_taken por in0 t w = false /\
  w = 0x311213 /\ decode w = Some (OpImm SLL 4 2 3).
Proof.
  exists 24%nat, 37%nat, 0x311213, (run por in0 25), (run por in0 38).
  split; [apply runs; reflexivity|]. split; [apply quiet_irq; reflexivity|]. split; [reflexivity|]. reflexivity.
Qed.
Example C14_op_reg_applies : exists t t' w x y, executed por in0 t t' w x y /\ int_taken por in0 t w = false /\
  w = 0x4020d2b3 /\ decode w = Some (OpReg SRA 5 1 2).
Proof.
  exists 37%nat, 54%nat, 0x4020d2b3, (run por in0 38), (run por in0 55).
  split; [apply runs; reflexivity|]. split; [apply quiet_irq; reflexivity|]. split; [reflexivity|]. reflexivity.
Qed.
Example C14_lui_auipc_applies : exists t t' w x y, executed por in0 t t' w x y /\ int_taken por in0 t w = false /\
  w = 0x1397 /\ decode w = Some (Auipc 7 0x1000).
Proof.
  exists 58%nat, 64%nat, 0x1397, (run por in0 59), (run por in0 65).
  split; [apply runs; reflexivity|]. split; [apply quiet_irq; reflexivity|]. split; [reflexivity|]. reflexivity.
Qed.
Example C15_branch_applies : exists t t' w x y, executed por in0 t t' w x y /\ int_taken por in0 t w = false /\
  w = 0x210463 /\ decode w = Some (Branch EQ 2 2 8).
Proof.
  exists 92%nat, 100%nat, 0x210463, (run por in0 93), (run por in0 101).
  split; [apply runs; reflexivity|]. split; [apply quiet_irq; reflexivity|]. split; [reflexivity|]. reflexivity.
Qed.
Example C15_branch_trap_applies : exists t t' w x y, executed por in0 t t' w x y /\ int_taken por in0 t w = false /\
  w = 0x163 /\ decode w = Some (Branch EQ 0 0 2).
Proof.
  exists 259%nat, 270%nat, 0x163, (run por in0 260), (run por in0 271).
  split; [apply runs; reflexivity|]. split; [apply quiet_irq; reflexivity|]. split; [reflexivity|]. reflexivity.
Qed.
Example C15_jal_applies : exists t t' w x y, executed por in0 t t' w x y /\ int_taken por in0 t w = false /\
  w = 0x80056f /\ decode w = Some (Jal 10 8).
Proof.
  exists 107%nat, 114%nat, 0x80056f, (run por in0 108), (run por in0 115).
  split; [apply runs; reflexivity|]. split; [apply quiet_irq; reflexivity|]. split; [reflexivity|]. reflexivity.
Qed.
Example C15_jalr_applies : exists t t' w x y, executed por in0 t t' w x y /\ int_taken por in0 t w = false /\
  w = 0x58667 /\ decode w = Some (Jalr 12 11 0) /\ x_of x 11 = 0x4d.
Proof.
  exists 118%nat, 125%nat, 0x58667, (run por in0 119), (run por in0 126).
  split; [apply runs; reflexivity|]. split; [apply quiet_irq; reflexivity|]. split; [reflexivity|]. split; [reflexivity|]. core; reflexivity.
Qed.
Example C11_load_applies : exists t t' w x y, executed por in0 t t' w x y /\ int_taken por in0 t w = false /\
  w = 0x10102883 /\ decode w = Some (Load Word true 17 0 0x101) /\ ((x_of x 0 + 0x101) mod 2 ^ 32) mod bytes Word <> 0.
Proof.
  exists 163%nat, 173%nat, 0x10102883, (run por in0 164), (run por in0 174).
  split; [apply runs; reflexivity|]. split; [apply quiet_irq; reflexivity|]. split; [reflexivity|]. split; [reflexivity|]. core; discriminate.
Qed.
Example C11_store_applies : exists t t' w x y, executed por in0 t t' w x y /\ int_taken por in0 t w = false /\
  w = 0x103011a3 /\ decode w = Some (Store Half 0 3 0x103) /\ ((x_of x 0 + 0x103) mod 2 ^ 32) mod bytes Half <> 0.
Proof.
  exists 211%nat, 221%nat, 0x103011a3, (run por in0 212), (run por in0 222).
  split; [apply runs; reflexivity|]. split; [apply quiet_irq; reflexivity|]. split; [reflexivity|]. split; [reflexivity|]. core; discriminate.
Qed.
Example C12_store_applies : exists t t' w x y, executed por in0 t t' w x y /\ int_taken por in0 t w = false /\
  w = 0x10301123 /\ decode w = Some (Store Half 0 3 0x102) /\ ((x_of x 0 + 0x102) mod 2 ^ 32) mod bytes Half = 0.
Proof.
  exists 64%nat, 74%nat, 0x10301123, (run por in0 65), (run por in0 75).
  split; [apply runs; reflexivity|]. split; [apply quiet_irq; reflexivity|]. split; [reflexivity|]. split; [reflexivity|]. core; reflexivity.
Qed.
Example C13_load_applies : exists t t' w x y, executed por in0 t t' w x y /\ int_taken por in0 t w = false /\
  w = 0x10204403 /\ decode w = Some (Load Byte false 8 0 0x102) /\ ((x_of x 0 + 0x102) mod 2 ^ 32) mod bytes Byte = 0 /\ x_of y 8 = 10.
Proof.
  exists 74%nat, 83%nat, 0x10204403, (run por in0 75), (run por in0 84).
  split; [apply runs; reflexivity|]. split; [apply quiet_irq; reflexivity|]. split; [reflexivity|]. split; [reflexivity|]. split; [core; reflexivity|]. core; reflexivity.
Qed.
Example C22_mret_applies : exists t t' w x y, executed por in0 t t' w x y /\ int_taken por in0 t w = false /\
  w = 0x30200073.
Proof.
  exists 204%nat, 211%nat, 0x30200073, (run por in0 205), (run por in0 212).
  split; [apply runs; reflexivity|]. split; [apply quiet_irq; reflexivity|]. reflexivity.
Qed.
Example C22_fence_wfi_applies : exists t t' w x y, executed por in0 t t' w x y /\ int_taken por in0 t w = false /\
  w = 0x10500073 /\ decode w = Some Wfi.
Proof.
  exists 159%nat, 163%nat, 0x10500073, (run por in0 160), (run por in0 164).
  split; [apply runs; reflexivity|]. split; [apply quiet_irq; reflexivity|]. split; [reflexivity|]. reflexivity.
Qed.
Example C18_missing_csr_applies : exists t t' w x y, executed por in0 t t' w x y /\ int_taken por in0 t w = false /\
  w = 0x123010f3 /\ decode w = Some (Csr CSRRW 1 (CReg 0) 0x123) /\ ~ csr_legal CSRRW (CReg 0) 0x123.
Proof.
  exists 443%nat, 451%nat, 0x123010f3, (run por in0 444), (run por in0 452).
  split; [apply runs; reflexivity|]. split; [apply quiet_irq; reflexivity|]. split; [reflexivity|]. split; [reflexivity|]. intros [L _]. apply known_exists in L. discriminate L.
Qed.
Example C18_read_only_csr_applies : exists t t' w x y, executed por in0 t t' w x y /\ int_taken por in0 t w = false /\
  w = 0xf1111073 /\ decode w = Some (Csr CSRRW 0 (CReg 2) 0xF11) /\ ~ csr_legal CSRRW (CReg 2) 0xF11.
Proof.
  exists 489%nat, 497%nat, 0xf1111073, (run por in0 490), (run por in0 498).
  split; [apply runs; reflexivity|]. split; [apply quiet_irq; reflexivity|]. split; [reflexivity|]. split; [reflexivity|]. intros [_ L]. apply L. split; reflexivity.
Qed.
Example C18_legal_csr_applies : exists t t' w x y, executed por in0 t t' w x y /\ int_taken por in0 t w = false /\
  w = 0x34031773 /\ decode w = Some (Csr CSRRW 14 (CReg 6) 0x340) /\ csr_legal CSRRW (CReg 6) 0x340.
Proof.
  exists 132%nat, 139%nat, 0x34031773, (run por in0 133), (run por in0 140).
  split; [apply runs; reflexivity|]. split; [apply quiet_irq; reflexivity|]. split; [reflexivity|]. split; [reflexivity|]. split; [apply known_exists; reflexivity|]. intros [_ L]. discriminate L.
Qed.
Example C19_csr_read_modify_write_applies : exists t t' w x y, executed por in0 t t' w x y /\ int_taken por in0 t w = false /\
  w = 0x340137f3 /\ decode w = Some (Csr CSRRC 15 (CReg 2) 0x340) /\ In 0x340 implemented /\ csr_of x false 0x340 = 0x12345000 /\ x_of x 2 = 5.
Proof.
  exists 139%nat, 149%nat, 0x340137f3, (run por in0 140), (run por in0 150).
  split; [apply runs; reflexivity|]. split; [apply quiet_irq; reflexivity|]. split; [reflexivity|]. split; [reflexivity|]. split; [cbn; tauto|]. split; core; reflexivity.
Qed.
Example C20_read_only_zero_applies : exists t t' w x y, executed por in0 t t' w x y /\ int_taken por in0 t w = false /\
  w = 0xf1102873 /\ decode w = Some (Csr CSRRS 16 (CReg 0) 0xF11) /\ ro_zero 0xF11 = true /\ csr_legal CSRRS (CReg 0) 0xF11.
Proof.
  exists 149%nat, 155%nat, 0xf1102873, (run por in0 150), (run por in0 156).
  split; [apply runs; reflexivity|]. split; [apply quiet_irq; reflexivity|]. split; [reflexivity|]. split; [reflexivity|]. split; [reflexivity|]. split; [apply known_exists; reflexivity|]. intros [L _]. discriminate L.
Qed.
Example C21_exception_applies : exists t t' w x y, executed por in0 t t' w x y /\ int_taken por in0 t w = false /\
  w = 0x10102883 /\ sync_cause x w 4.
Proof.
  exists 163%nat, 173%nat, 0x10102883, (run por in0 164), (run por in0 174).
  split; [apply runs; reflexivity|]. split; [apply quiet_irq; reflexivity|]. split; [reflexivity|]. unfold sync_cause. change (decode _) with (Some (Load Word true 17 0 0x101)). cbv iota. split; [core; discriminate|reflexivity].
Qed.
Example C21_no_other_traps_applies : exists t t' w x y, executed por in0 t t' w x y /\ int_taken por in0 t w = false /\
  w = 0x2101b3 /\ (forall c, ~ sync_cause x w c).
Proof.
  exists 20%nat, 24%nat, 0x2101b3, (run por in0 21), (run por in0 25).
  split; [apply runs; reflexivity|]. split; [apply quiet_irq; reflexivity|]. split; [reflexivity|]. intros c H. exact H.
Qed.
Example C16_illegal_words_trap_applies : exists t t' w x y, executed por in0 t t' w x y /\ int_taken por in0 t w = false /\
  w = 0xffffffff /\ illegal w.
Proof.
  exists 398%nat, 405%nat, 0xffffffff, (run por in0 399), (run por in0 406).
  split; [apply runs; reflexivity|]. split; [apply quiet_irq; reflexivity|]. split; [reflexivity|]. exact Logic.I.
Qed.
Example C16_legal_words_do_not_applies : exists t t' w x y, executed por in0 t t' w x y /\ int_taken por in0 t w = false /\
  w = 0x73 /\ ~ illegal w /\ mcause_of x mod 2 ^ 31 <> 2.
Proof.
  exists 308%nat, 315%nat, 0x73, (run por in0 309), (run por in0 316).
  split; [apply runs; reflexivity|]. split; [apply quiet_irq; reflexivity|]. split; [reflexivity|]. split; [exact (fun H => H)|]. core; discriminate.
Qed.
Example C17_cause_2_applies : exists t t' w x y, executed por in0 t t' w x y /\ int_taken por in0 t w = false /\
  w = 0x123010f3 /\ illegal w /\ w <> 0x70 /\ w <> 0x71 /\ w <> 0x72.
Proof.
  exists 443%nat, 451%nat, 0x123010f3, (run por in0 444), (run por in0 452).
  split; [apply runs; reflexivity|]. split; [apply quiet_irq; reflexivity|]. split; [reflexivity|]. split; [unfold illegal; change (decode _) with (Some (Csr CSRRW 1 (CReg 0) 0x123)); intros [L _]; apply known_exists in L; discriminate L|]. repeat split; discriminate.
Qed.
Example C17_refuted_not_quite_ecall_applies : exists t t' w x y, executed por in0 t t' w x y /\ int_taken por in0 t w = false /\
  w = 0x70 /\ mcause_of y = 11.
Proof.
  exists 535%nat, 542%nat, 0x70, (run por in0 536), (run por in0 543).
  split; [apply runs; reflexivity|]. split; [apply quiet_irq; reflexivity|]. split; [reflexivity|]. core; reflexivity.
Qed.
Example C25_mip_applies : exists t t' w x y, executed por in0 t t' w x y /\ int_taken por in0 t w = false /\
  w = 0x34402af3 /\ decode w = Some (Csr CSRRS 21 (CReg 0) 0x344).
Proof.
  exists 599%nat, 606%nat, 0x34402af3, (run por in0 600), (run por in0 607).
  split; [apply runs; reflexivity|]. split; [apply quiet_irq; reflexivity|]. split; [reflexivity|]. reflexivity.
Qed.
Example C23_interrupt_only_if_applies : exists t t' w x y, executed por in0 t t' w x y /\ int_taken por in0 t w = false /\
  w = 0x2101b3 /\ ~ sync_cause x w 11 /\ mcause_of x <> 0x8000000B.
Proof.
  exists 20%nat, 24%nat, 0x2101b3, (run por in0 21), (run por in0 25).
  split; [apply runs; reflexivity|]. split; [apply quiet_irq; reflexivity|]. split; [reflexivity|]. split; [exact (fun H => H)|]. core; discriminate.
Qed.

(** An interrupt is taken instead of the word fetched in cycle 615, ... *)
Example C23_interrupt_taken_applies : exists t t' w x y, executed por in0 t t' w x y /\ mie_of x = true /\ meie_of x = true /\ irq (in0 (t + 1)%nat) = true.
Proof.
  exists 615%nat, 622%nat, 0x1b0b13, (run por in0 616), (run por in0 623).
  split; [apply runs; reflexivity|]. split; [core; reflexivity|]. split; [core; reflexivity|reflexivity].
Qed.
Lemma taken_615 : int_taken por in0 615 0x1b0b13 = true.
Proof. unfold int_taken. cbv zeta. unfold in0 at 1 2. rewrite sys_run. vm_compute. reflexivity. Qed.
Example C21_interrupt_applies : exists t t' w x y, executed por in0 t t' w x y /\ int_taken por in0 t w = true.
Proof. exists 615%nat, 622%nat, 0x1b0b13, (run por in0 616), (run por in0 623). split; [apply runs; reflexivity|apply taken_615]. Qed.

(** ... and a later ECALL leaves MCAUSE = 0x8000000B: C24 fails in this run. *)
Example C24_refuted_sticky_bit_applies : exists t t' w x y, executed por in0 t t' w x y /\ int_taken por in0 t w = false /\
  (exists u w0, (u < t)%nat /\ fetch_done por in0 u w0 /\ int_taken por in0 u w0 = true) /\ sync_cause x w 11 /\ mcause_of y = 0x8000000B.
Proof.
  exists 703%nat, 710%nat, 0x73, (run por in0 704), (run por in0 711).
  split; [apply runs; reflexivity|]. split; [apply quiet_irq; reflexivity|].
  split. { exists 615%nat, 0x1b0b13. split; [lia|]. split; [apply (runs 615 622); reflexivity|apply taken_615]. }
  split; [reflexivity|]. core; reflexivity.
Qed.
(** Before the first interrupt the bit is clear. *)
Example C24_interrupt_bit_partial_applies : exists t t' w x y, executed por in0 t t' w x y /\ int_taken por in0 t w = false /\ no_int_before por in0 t /\ sync_cause x w 11.
Proof.
  exists 308%nat, 315%nat, 0x73, (run por in0 309), (run por in0 316).
  split; [apply runs; reflexivity|]. split; [apply quiet_irq; reflexivity|]. split; [|reflexivity].
  intros u w Hu _. assert (Q : forall v, (v < 612)%nat -> irq0 v = false).
  { intros v Hv. unfold irq0. replace (Nat.leb 612 v) with false by (symmetry; apply Nat.leb_gt; lia).
    replace (Nat.eqb v 658) with false by (symmetry; apply Nat.eqb_neq; lia). reflexivity. }
  apply quiet_irq; apply Q; lia.
Qed.

(** C35: interrupt, handler, MRET, and a second interrupt. *)
Example C35_no_nested_interrupt_applies : exists t0 t1 w0 x0 y0 t2 w2, executed por in0 t0 t1 w0 x0 y0 /\ traps por in0 t0 w0 x0 /\
  (t1 <= t2)%nat /\ fetch_done por in0 t2 w2 /\ int_taken por in0 t2 w2 = true.
Proof.
  exists 615%nat, 622%nat, 0x1b0b13, (run por in0 616), (run por in0 623), 657%nat, 0x1b0b13.
  split; [apply runs; reflexivity|]. split; [left; apply taken_615|]. split; [lia|]. split; [apply (runs 657 664); reflexivity|].
  unfold int_taken. cbv zeta. unfold in0 at 1 2. rewrite sys_run. vm_compute. reflexivity.
Qed.

(** C27, C02, C33: any of the above is an instance; the fetch in cycle 615 for instance. *)
Example C02_registers_match_reference_applies : fetch_done por in0 615 0x1b0b13.
Proof. apply (runs 615 622). reflexivity. Qed.
Example C27_other_csrs_unchanged_applies : exists t t' w x y, executed por in0 t t' w x y /\ csr_of y false 0x304 <> csr_of x false 0x304.
Proof.
  exists 593%nat, 599%nat, 0x304a1073, (run por in0 594), (run por in0 600). split; [apply runs; reflexivity|].
  unfold in0. rewrite !sys_run. vm_compute. discriminate.
Qed.
Example C33_flat_memory_applies : ok por in0 /\ memory_slave (fun a => a mod 2 ^ 8) por in0 (fun z => byte (wm_mem mem0 (z / 4)) (z mod 4)).
Proof. split; [apply ok_applies|]. apply (sys_memory_slave 8 irq0 por mem0 por_fresh mem0_start). Qed.

(** C05, C06, C08, C26: a request is pending in cycle 5 and acknowledged in cycle 6. *)
Example C05_request_held_applies : o_cyc (run por in0 5) = true /\ ack (in0 5%nat) = false.
Proof. unfold in0. rewrite sys_run. split; vm_compute; reflexivity. Qed.
Example C06_drop_after_ack_applies : o_cyc (run por in0 6) = true /\ ack (in0 6%nat) = true.
Proof. unfold in0. rewrite sys_run. split; vm_compute; reflexivity. Qed.
Example C26_cycles_per_instruction_applies : exists a i, o_cyc (run por in0 6) = true /\ ack (in0 6%nat) = true /\
  machine por in0 6 = Fetching a /\ decode (dat_r (in0 6%nat)) = Some i /\ no_trap a i /\ int_enabled a = false.
Proof.
  assert (E : machine por in0 6 = machine por in0 0).
  { assert (N : forall t, (t < 6)%nat -> o_cyc (run por in0 t) && ack (in0 t) = false).
    { intros t Ht. unfold in0. rewrite sys_run. do 6 (destruct t as [|t]; [vm_compute; reflexivity|]). lia. }
    rewrite !machine_noack by (apply N; lia). reflexivity. }
  rewrite E. eexists _, _. unfold in0. rewrite sys_run. split; [vm_compute; reflexivity|]. split; [vm_compute; reflexivity|].
  split; [reflexivity|]. split; [vm_compute; reflexivity|]. split; [exact Logic.I|reflexivity].
Qed.

(** C28: DAT_R cleared in all cycles that are not acknowledged. *)
Definition in0' (t : nat) : input := {| rst := false; ack := ack (in0 t); dat_r := if o_cyc (run por in0 t) && ack (in0 t) then dat_r (in0 t) else 0; irq := irq (in0 t) |}.
Example C28_only_acked_inputs_matter_applies : env in0' /\ (forall t, irq (in0' t) = irq (in0 t)) /\
  (forall t, o_cyc (run por in0 t) = true -> ack (in0' t) = ack (in0 t) /\ (ack (in0 t) = true -> dat_r (in0' t) = dat_r (in0 t))) /\
  dat_r (in0' 7%nat) <> dat_r (in0 7%nat).
Proof.
  split. { constructor; intros t; [reflexivity|]. cbn [in0' dat_r]. destruct (_ && _); [apply ok_applies|unfold word; lia]. }
  split; [reflexivity|]. split.
  - intros t C. split; [reflexivity|]. intros A. cbn [in0' dat_r]. rewrite C, A. reflexivity.
  - unfold in0', in0. rewrite sys_run. vm_compute. discriminate.
Qed.

(** C29: IRQ asserted all the time before cycle 590, while interrupts are disabled. *)
Definition in0'' (t : nat) : input := {| rst := false; ack := ack (in0 t); dat_r := dat_r (in0 t); irq := Nat.ltb t 590 || irq (in0 t) |}.
Fixpoint masked (n t : nat) (cd : state * wbmem) : bool :=
  match n with
  | O => true
  | S n => negb (mie_of (fst cd)) && negb (match decode (wm_rdata (snd cd)) with Some (Csr _ _ _ 0x344) => true | _ => false end) && masked n (S t) (next_sys 8 irq0 t cd)
  end.
Lemma masked_ok n t0 : masked n t0 (system 8 irq0 por mem0 t0) = true -> forall t, (t0 <= t < t0 + n)%nat ->
  mie_of (run por in0 t) = false /\ forall f rd g, decode (dat_r (in0 t)) <> Some (Csr f rd g 0x344).
Proof.
  revert t0. induction n as [|n IH]; intros t0 H t Ht; [lia|]. cbn [masked] in H.
  change (next_sys 8 irq0 t0 (system 8 irq0 por mem0 t0)) with (system 8 irq0 por mem0 (S t0)) in H.
  apply andb_prop in H. destruct H as [H H3]. apply andb_prop in H. destruct H as [H1 H2].
  destruct (Nat.eq_dec t t0) as [->|]; [|apply (IH (S t0)); [assumption|lia]].
  unfold in0. rewrite sys_run. unfold sys_inp, cpu_input. cbn [dat_r]. split; [destruct (mie_of _); [discriminate|reflexivity]|].
  intros f rd g E. rewrite E in H2. discriminate.
Qed.
Example C29_masked_irq_invisible_applies :
  (forall t, rst (in0'' t) = rst (in0 t) /\ ack (in0'' t) = ack (in0 t) /\ dat_r (in0'' t) = dat_r (in0 t)) /\ irq_agrees por in0 in0'' /\
  irq (in0'' 100%nat) <> irq (in0 100%nat).
Proof.
  split; [intros t; repeat split|]. split; [|discriminate].
  intros t w F. cbv zeta.
  assert (M : masked 592 0 (system 8 irq0 por mem0 0) = true) by (vm_compute; reflexivity).
  pose proof (masked_ok _ _ M) as Mo. destruct (Nat.lt_ge_cases t 591) as [L|L].
  - split.
    + intros E _. destruct (Mo (S t) ltac:(lia)) as [Mi _]. congruence.
    + intros f rd g D _. destruct (Mo t ltac:(lia)) as [_ Md]. destruct F as (_ & _ & _ & F). exfalso. rewrite <- F in D. eapply Md. eassumption.
  - assert (Q : forall v, (590 <= v)%nat -> irq (in0'' v) = irq (in0 v)).
    { intros v Hv. cbn [in0'' irq]. replace (Nat.ltb v 590) with false by (symmetry; apply Nat.ltb_ge; lia). reflexivity. }
    split; intros; [split; intros|]; apply Q; lia.
Qed.
(** C01 without the deviations: the prefix before the word 0x70 is executed. *)
Example C01_riscv_without_deviation_applies : no_deviation_before por in0 500.
Proof.
  intros u w Hu F T. split.
  2:{ intros c _ v z Hv _. assert (Q : forall v, (v < 612)%nat -> irq0 v = false).
      { intros v' Hv'. unfold irq0. replace (Nat.leb 612 v') with false by (symmetry; apply Nat.leb_gt; lia).
        replace (Nat.eqb v' 658) with false by (symmetry; apply Nat.eqb_neq; lia). reflexivity. }
      apply quiet_irq; apply Q; lia. }
  assert (M : forallb (fun p => Nat.leb 500 (fst p) || negb (in_range 0x70 0x72 (snd p))) log0 = true) by (vm_compute; reflexivity).
  assert (I : In (u, w) (trace 8 irq0 760 0 (por, mem0))).
  { assert (G : forall n t, (t <= u < t + n)%nat -> In (u, w) (trace 8 irq0 n t (system 8 irq0 por mem0 t))).
    { induction n as [|n IH]; intros t Ht; [lia|]. cbn [trace]. change (next_sys 8 irq0 t (system 8 irq0 por mem0 t)) with (system 8 irq0 por mem0 (S t)).
      destruct (Nat.eq_dec u t) as [->|].
      - pose proof F as F'. apply (fetch_sys 8 irq0 por mem0) in F'. destruct F' as [-> ->]. left. reflexivity.
      - destruct (_ && _); [right|]; apply IH; lia. }
    apply (G 760%nat 0%nat). lia. }
  rewrite log0_ok in I. rewrite forallb_forall in M. specialize (M _ I). cbn [fst snd] in M.
  replace (Nat.leb 500 u) with false in M by (symmetry; apply Nat.leb_gt; lia). cbn [orb] in M. unfold in_range in M.
  repeat split; intros ->; discriminate M.
Qed.

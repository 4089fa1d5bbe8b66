(** * C75: a program with an interrupt handler *)
From Coq Require Import ZArith Lia Bool List.
From Verif Require Import Bits Ucode Cpu Isa Timed BitLemmas Wf Sym Blocks CsrBlocks DecodeOk Boundary Sim Main Obs PropsBus PropsInv Observe PropsIsa PropsFrame Latency Memory SocMem Examples SeqTest Transparent.
Import ListNotations.
Open Scope Z_scope.

(** Sets MTVEC to 0x40, enables interrupts, counts in the word at 0x80; the handler counts in the word at 0x84, with x5 saved in MSCRATCH. *)
Definition counters : list Z := [
  0x04000093; 0x30509073; 0x00100113; 0x00b11113; 0x30411073; 0x30046073;
  0x08002283; 0x00128293; 0x08502023; 0xff5ff06f; 0; 0; 0; 0; 0; 0;
  0x340292f3; 0x08402283; 0x00128293; 0x08502223; 0x340292f3; 0x30200073].
Definition cmem : wbmem := {| wm_mem := fun a => nth (Z.to_nat a) counters 0; wm_rdata := 0; wm_ack := false |}.
Definition cirq (t : nat) : bool := Nat.leb 85 t && Nat.leb t 95.
Definition cin : nat -> input := sys_inp 8 cirq por cmem.
Definition clog : list (nat * Z) := Eval vm_compute in trace 8 cirq 200 0 (por, cmem).
Lemma clog_ok : trace 8 cirq 200 0 (por, cmem) = clog.
Proof. vm_compute. reflexivity. Qed.
Lemma cmem_start : mem_start cmem.
Proof.
  constructor; [|cbn; unfold word; lia|reflexivity]. intros a. cbn [cmem wm_mem].
  assert (F : forallb (fun w => (0 <=? w) && (w <? 2 ^ 32)) counters = true) by (vm_compute; reflexivity).
  rewrite forallb_forall in F. destruct (nth_in_or_default (Z.to_nat a) counters 0) as [I|E].
  - specialize (F _ I). unfold word. lia.
  - rewrite E. unfold word. lia.
Qed.
Lemma cruns t t' w : adjacent clog t t' w = true -> executes por cin t t' w.
Proof.
  intros H. destruct (adjacent_split _ _ _ _ H) as (l1 & w' & l2 & E). rewrite <- clog_ok in E. apply (trace_executes 8 cirq por cmem 200 l1 t w t' w' l2 E).
Qed.
Lemma first_fetch : fetch_done por cin 6 67109011 /\ forall u w', (u < 6)%nat -> ~ fetch_done por cin u w'.
Proof.
  assert (E : trace 8 cirq 200 0 (por, cmem) = [] ++ (6%nat, 67109011) :: tl clog) by (rewrite clog_ok; reflexivity).
  destruct (trace_split 8 cirq por cmem 200 0 _ _ _ _ E) as (A & _ & _ & D). split; [exact A|]. intros u w' Hu. apply D; [reflexivity|lia].
Qed.
Definition ph (a : Z) : Z := a mod 2 ^ 8.
Definition mem_of (z : Z) : Z := byte (wm_mem cmem (z / 4)) (z mod 4).
(** The program uses everything but the handler's counter. *)
Definition not_counter (z : Z) : Prop := z / 4 <> 33.

(** A checker for [ordinary]. *)
Definition own_b (b n : Z) : bool := forallb (fun i => negb (loc ph (b + Z.of_nat i) / 4 =? 33)) (seq 0 (Z.to_nat n)).
Lemma own_b_ok b n : own_b b n = true -> own ph not_counter b n.
Proof.
  intros H i Hi. unfold own_b in H. rewrite forallb_forall in H. specialize (H (Z.to_nat i)). rewrite Z2Nat.id in H by lia.
  unfold not_counter. assert (E : negb (loc ph (b + i) / 4 =? 33) = true) by (apply H; apply in_seq; lia). lia.
Qed.
Definition quiet_b (x : state) (w : Z) : bool :=
  match decode w with
  | None => false
  | Some i => match i with
    | Ecall | Ebreak => false
    | Jal _ off => ((pc_of x + off) mod 2 ^ 32) mod 4 =? 0
    | Jalr _ rs1 off => (2 * (((x_of x rs1 + off) mod 2 ^ 32) / 2)) mod 4 =? 0
    | Branch f rs1 rs2 off => ((pc_of x + off) mod 2 ^ 32) mod 4 =? 0
    | Load sz _ _ rs1 off | Store sz rs1 _ off => ((x_of x rs1 + off) mod 2 ^ 32) mod bytes sz =? 0
    | Csr f _ g n => known n && negb (csr_writes f g && (n / 2 ^ 10 =? 3))
    | _ => true
    end
  end.
Lemma quiet_b_ok x w : quiet_b x w = true -> forall c, ~ sync_cause x w c.
Proof.
  unfold quiet_b, sync_cause. destruct (decode w) as [i|]; [|discriminate]. destruct i; intros H c'; try discriminate; try tauto; try (apply Z.eqb_eq in H; intuition congruence).
  intros [L _]. apply L. apply andb_prop in H. destruct H as [H1 H2]. split; [apply known_exists; exact H1|]. intros [W R]. rewrite W, R in H2. discriminate.
Qed.
Definition ordinary_b (x : state) (i1 i2 : bool) (w : Z) : bool :=
  negb (mie_of x && meie_of x && (i1 || csr_word w && i2)) && quiet_b x w && own_b (pc_of x) 4 &&
  match decode w with
  | Some Mret => false
  | Some (Load sz _ _ rs1 off) => own_b ((x_of x rs1 + off) mod 2 ^ 32) (bytes sz)
  | Some (Csr _ rd _ n) => negb (n =? 0x340) && negb (n =? 0x341) && negb (n =? 0x342) && negb (n =? 0x344) && (negb (n =? 0x300) || (rd =? 0))
  | _ => true
  end.
Lemma ordinary_b_ok t w : ordinary_b (fst (system 8 cirq por cmem (S t))) (cirq (t + 1)) (cirq (t + 2)) w = true -> ordinary ph not_counter por cin t w.
Proof.
  rewrite <- (sys_run 8 cirq por cmem). fold cin. unfold ordinary_b, ordinary. intros H. cbv zeta.
  apply andb_prop in H. destruct H as [H H4]. apply andb_prop in H. destruct H as [H H3]. apply andb_prop in H. destruct H as [H1 H2].
  split; [apply negb_true_iff in H1; exact H1|]. split; [apply quiet_b_ok; exact H2|]. split; [apply own_b_ok; exact H3|].
  destruct (decode w) as [i|]; [|exact I]. destruct i; try exact I; try discriminate; [apply own_b_ok; exact H4|].
  repeat split; try (intros E; subst; discriminate). intros E. subst. cbn in H4. lia.
Qed.
Lemma steps n t t' w : program ph not_counter por cin mem_of n t -> adjacent clog t t' w = true ->
  ordinary_b (fst (system 8 cirq por cmem (S t))) (cirq (t + 1)) (cirq (t + 2)) w = true -> program ph not_counter por cin mem_of (S n) t'.
Proof. intros P A O. eapply p_step; [exact P|apply cruns; exact A|apply ordinary_b_ok; exact O]. Qed.

(** Nine instructions up to the one that is interrupted. *)
Lemma before_interrupt : program ph not_counter por cin mem_of 9 87.
Proof.
  destruct first_fetch as [F N]. assert (P : program ph not_counter por cin mem_of 0 6) by (apply (p_first _ _ _ _ _ 6 _ F N)).
  apply (steps 0 _ 10 67109011) in P; [|reflexivity|vm_compute; reflexivity]. apply (steps _ _ 16 810586227) in P; [|reflexivity|vm_compute; reflexivity].
  apply (steps _ _ 20 1048851) in P; [|reflexivity|vm_compute; reflexivity]. apply (steps _ _ 49 11604243) in P; [|reflexivity|vm_compute; reflexivity].
  apply (steps _ _ 55 809570419) in P; [|reflexivity|vm_compute; reflexivity]. apply (steps _ _ 64 805593203) in P; [|reflexivity|vm_compute; reflexivity].
  apply (steps _ _ 73 134226563) in P; [|reflexivity|vm_compute; reflexivity]. apply (steps _ _ 77 1213075) in P; [|reflexivity|vm_compute; reflexivity].
  apply (steps _ _ 87 139468835) in P; [|reflexivity|vm_compute; reflexivity]. exact P.
Qed.
Ltac core := unfold cin; rewrite ?sys_run; vm_compute.
Definition regs_eqb (x y : state) : bool := forallb (fun n => x_of y (Z.of_nat n) =? x_of x (Z.of_nat n)) (seq 0 32).
Lemma regs_same t u : regs_eqb (fst (system 8 cirq por cmem t)) (fst (system 8 cirq por cmem u)) = true ->
  same_regs (run por cin t) (run por cin u).
Proof.
  intros H r Hr. unfold cin. rewrite !sys_run. unfold regs_eqb in H. rewrite forallb_forall in H. specialize (H (Z.to_nat r)). rewrite Z2Nat.id in H by lia.
  apply Z.eqb_eq, H. apply in_seq. lia.
Qed.
(** The memory outside the handler's counter does not change while no other word is written. *)
Fixpoint spares (n t : nat) (cd : state * wbmem) : bool :=
  match n with
  | O => true
  | S n => (negb (o_cyc (fst cd) && wm_ack (snd cd) && o_we (fst cd)) || (ph (o_adr (fst cd)) =? 33)) && spares n (S t) (next_sys 8 cirq t cd)
  end.
Lemma mem_same n : forall t, spares n t (system 8 cirq por cmem t) = true -> forall z, not_counter z -> slave_mem ph por cin mem_of (t + n) z = slave_mem ph por cin mem_of t z.
Proof.
  induction n as [|n IH]; intros t H z Hz; [rewrite Nat.add_0_r; reflexivity|]. cbn [spares] in H. apply andb_prop in H. destruct H as [H1 H2].
  change (next_sys 8 cirq t (system 8 cirq por cmem t)) with (system 8 cirq por cmem (S t)) in H2.
  rewrite Nat.add_succ_r. change (S (t + n)) with (S t + n)%nat. rewrite (IH (S t) H2 z Hz). cbn [slave_mem].
  cbv zeta. change (ack (cin t)) with (wm_ack (snd (system 8 cirq por cmem t))).
  replace (run por cin t) with (fst (system 8 cirq por cmem t)) by (unfold cin; rewrite sys_run; reflexivity).
  destruct (_ && _ && _); [|reflexivity]. cbn [negb orb] in H1. apply Z.eqb_eq in H1. rewrite H1.
  replace (z / 4 =? 33) with false; [reflexivity|]. symmetry. apply Z.eqb_neq. exact Hz.
Qed.
Lemma interrupt_handled : handled ph not_counter por cin mem_of 87 131.
Proof.
  unfold handled. cbv zeta. split.
  { exists 4284477551. split; [apply (cruns 87 94 4284477551); reflexivity|]. unfold int_taken, cin. rewrite sys_run. vm_compute. reflexivity. }
  split; [unfold int_taken, cin; rewrite sys_run; vm_compute; reflexivity|]. split; [apply regs_same; vm_compute; reflexivity|].
  do 4 (split; [core; reflexivity|]). apply (mem_same 44 87). vm_compute. reflexivity.
Qed.
(** The interrupt is taken at 87, the handler's counter is 1 when it returns (MRET at 131), and five instructions later the program
    has counted to 2: fourteen instructions of the program, as without the interrupt. *)
Example C75_applies : fresh por /\ mem_start cmem /\ int_taken por cin 87 4284477551 = true /\
  program ph not_counter por cin mem_of 14 175 /\ wm_mem (snd (system 8 cirq por cmem 175)) 33 = 1 /\ wm_mem (snd (system 8 cirq por cmem 175)) 32 = 2.
Proof.
  split; [apply por_fresh|]. split; [apply cmem_start|]. split; [unfold int_taken, cin; rewrite sys_run; vm_compute; reflexivity|]. split.
  - assert (P : program ph not_counter por cin mem_of 9 138).
    { apply (p_interrupt _ _ _ _ _ 9 87 131 138 before_interrupt interrupt_handled). apply cruns. reflexivity. }
    apply (steps _ _ 145 4284477551) in P; [|reflexivity|vm_compute; reflexivity]. apply (steps _ _ 154 134226563) in P; [|reflexivity|vm_compute; reflexivity].
    apply (steps _ _ 158 1213075) in P; [|reflexivity|vm_compute; reflexivity]. apply (steps _ _ 168 139468835) in P; [|reflexivity|vm_compute; reflexivity].
    apply (steps _ _ 175 4284477551) in P; [|reflexivity|vm_compute; reflexivity]. exact P.
  - split; vm_compute; reflexivity.
Qed.

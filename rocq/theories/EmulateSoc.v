(** * C88: trap and emulate on the whole SoC

    As C87, with the devices: program and handlers use them, and what a handler does for the program may depend on the world
    (a system call that reads a character). *)
From Coq Require Import ZArith Lia Bool List.
From Verif Require Import Bits Ucode Cpu Isa Timed BitLemmas Wf Sym Blocks CsrBlocks DecodeOk Boundary Sim Main Obs PropsBus PropsInv Observe PropsIsa Latency PropsFrame InputsMatter Memory SocMem Crash Uart Periph Soc SocIo IoMem CsrBus CsrSoc CsrIoMem SeqTest PowerUp Transparent IoTransparent Emulate.
Import ListNotations.
Open Scope Z_scope.

(** ** Specification *)
Section Spec.
(** As in IoTransparent.v; [srv n]: what the handler does for the program if its instruction [n] raises an exception. *)
Variables (ram : Z -> bool) (phys : Z -> Z) (mine : Z -> Prop) (dev : nat -> Z) (srv : nat -> service).
Variables (s : state) (inp : nat -> input) (mem : nat -> Z -> Z).
(** Instruction [n] of the program, fetched in cycle [t], raises an exception, and the MRET fetched in cycle [e] finds what the service
    makes of the registers, the PC and the program's RAM in cycle [t]. *)
Definition served_io (n t e : nat) : Prop :=
  let x := run s inp (S t) in let y := run s inp (S e) in
  (exists w c, fetch_done s inp t w /\ int_taken s inp t w = false /\ sync_cause x w c) /\ own_ram ram phys mine (pc_of x) 4 /\
  int_taken s inp e 0x30200073 = false /\
  mpie_of y = mie_of x /\ meie_of y = meie_of x /\ mtvec_of y = mtvec_of x /\
  let '(r, p, m) := srv n (x_of x) (pc_of x) (mem t) in
  (forall i, 1 <= i < 32 -> x_of y i = r i) /\ 4 * (mepc_of y / 4) = p /\ forall z, mine z -> mem e z = m z.
(** In cycle [t] the program, having executed [n] instructions, served ones included, fetches another one. *)
Inductive emulated_io : nat -> nat -> Prop :=
| ei_first t w : fetch_done s inp t w -> (forall u w', (u < t)%nat -> ~ fetch_done s inp u w') -> emulated_io 0 t
| ei_step n t t' w : emulated_io n t -> ordinary_io ram phys mine dev s inp n t t' w -> emulated_io (S n) t'
| ei_interrupt n t e t' : emulated_io n t -> handled_io mine s inp mem t e -> executes s inp e t' 0x30200073 -> emulated_io n t'
| ei_served n t e t' : emulated_io n t -> served_io n t e -> executes s inp e t' 0x30200073 -> emulated_io (S n) t'.
(** The machine the program sees: the RV32I machine with RAM and devices, never interrupted, with one more kind of instruction. *)
Definition v_io_step (n : nat) (am : arch * (Z -> Z)) : arch * (Z -> Z) :=
  let (a, m) := am in
  if raise_at (rd_x a) (pc a) (peek phys m (pc a) 4) then
    let '(r, p, m') := srv n (rd_x a) (pc a) m in
    ({| xr := r; pc := p; mie := mie a; mpie := mpie a; meie := meie a; mtvec := mtvec a; mscratch := mscratch a;
        mepc := mepc a; mcause := mcause a; took_int := took_int a |}, m')
  else io_step ram phys am (undisturbed dev n).
Fixpoint v_io (n : nat) (am : arch * (Z -> Z)) : arch * (Z -> Z) :=
  match n with O => am | S n => v_io_step n (v_io n am) end.
End Spec.

(** ** Proof *)
Section Proofs.
Variables (ram : Z -> bool) (phys : Z -> Z) (mine : Z -> Prop) (dev : nat -> Z) (srv : nat -> service).
Variables (s : state) (inp : nat -> input) (m0 : Z -> Z) (mem : nat -> Z -> Z).
Hypotheses (K : ok s inp) (Sl : ram_slave ram phys s inp m0).
Hypothesis (Hm : forall t w, fetch_done s inp t w -> forall z, mem t z = ram_mem ram phys s inp m0 t z).
Hypothesis (Rs : forall n, respects mine (srv n)).
Local Notation ref n := (v_io ram phys dev srv n (boot_arch s, m0)).

Lemma emulated_io_fetch n t : emulated_io ram phys mine dev srv s inp mem n t -> exists w, fetch_done s inp t w.
Proof. intros H. destruct H as [t w F _|n t t' w _ (X & _)|n t e t' _ _ X|n t e t' _ _ X]; [eexists; exact F| | |]; destruct X as (_ & _ & F & _); exact F. Qed.
(** The instruction word is that of any machine the core agrees with. *)
Lemma word_of t w q : fetch_done s inp t w -> own_ram ram phys mine (pc_of (run s inp (S t))) 4 -> agrees mine (run s inp (S t)) (mem t) q ->
  peek phys (snd q) (pc (fst q)) 4 = w.
Proof.
  intros F [R O] (A1 & A2 & _ & _ & _ & A6). destruct (C02_registers_match_reference s inp K t w F) as (a & M & Rg). cbv zeta in Rg. destruct Rg as (_ & R2 & _).
  pose proof F as (C & U & A & Dw). pose proof (code_word ram phys s inp m0 K Sl t a (ram_mem ram phys s inp m0 t) C A M (fun z => eq_refl)) as H. rewrite <- R2, R, Dw in H. rewrite H, <- A2.
  apply (own_peek phys mine); [|exact O]. intros z Hz. rewrite <- A6 by exact Hz. apply (Hm t w F).
Qed.
Lemma served_agrees n t e t' q : served_io ram phys mine srv s inp mem n t e -> executes s inp e t' 0x30200073 -> agrees mine (run s inp (S t)) (mem t) q ->
  agrees mine (run s inp (S t')) (mem t') (v_io_step ram phys dev srv n q).
Proof.
  intros ((w & c & F & T & C) & O & Te & Hmp & He & Ht & Hs) X Ag. pose proof (word_of t w q F O Ag) as W. destruct Ag as (Q1 & Q2 & Q3 & Q4 & Q5 & Q6).
  destruct (C22_mret s inp K e t' _ _ _ (conj X (conj eq_refl eq_refl)) Te eq_refl) as (_ & R1 & R2 & R3 & _ & R5 & R6 & _).
  destruct q as [b m]. cbn [fst snd] in *.
  assert (E : raise_at (rd_x b) (pc b) w = true).
  { rewrite (raise_at_ext (x_of (run s inp (S t)))) by (intros i Hi; symmetry; apply Q1, Hi). rewrite <- Q2. apply raise_at_iff. exists c. exact C. }
  unfold v_io_step. rewrite W, E, <- Q2.
  pose proof (Rs n (x_of (run s inp (S t))) (rd_x b) (pc_of (run s inp (S t))) (mem t) m (fun i Hi => eq_sym (Q1 i Hi)) (fun z Hz => eq_sym (Q6 z Hz))) as V.
  destruct (srv n (x_of _) _ _) as [[r p] mm]. destruct (srv n (rd_x b) _ _) as [[r2 p2] mm2]. destruct V as (V1 & -> & V3). destruct Hs as (S1 & S2 & S3).
  unfold agrees. cbn [fst snd rd_x xr pc mie meie mtvec].
  split. { intros i Hi. rewrite R1 by assumption. unfold rd_x. cbn [xr]. destruct (Z.eqb_spec i 0) as [->|Ni]; [|rewrite V1, S1 by lia; reflexivity].
    destruct (C02_registers_match_reference s inp K e _ (proj1 X)) as (a & _ & Ra). cbv zeta in Ra. destruct Ra as (Ra & _). rewrite Ra by lia. reflexivity. }
  split; [rewrite R2; exact S2|]. split; [congruence|]. split; [congruence|]. split; [congruence|].
  intros z Hz. rewrite (mret_ram ram phys s inp m0 mem K Hm e t' X Te), V3 by assumption. apply S3, Hz.
Qed.
Lemma emulated_agrees n t : emulated_io ram phys mine dev srv s inp mem n t -> agrees mine (run s inp (S t)) (mem t) (ref n).
Proof.
  induction 1 as [t w F N|n t t' w P IH O|n t e t' P IH H X|n t e t' P IH H X].
  - apply (first_state ram phys mine dev s inp m0 mem K Sl Hm t w F N).
  - destruct (step_io ram phys mine dev s inp m0 mem K Sl Hm n t t' w _ O IH) as (A & W & Sy).
    cbn [v_io]. destruct (ref n) as [b m]. cbn [fst snd] in W. unfold v_io_step. rewrite W.
    assert (E : raise_at (rd_x b) (pc b) w = false); [|rewrite E; exact A].
    destruct (raise_at _ _ w) eqn:E; [|reflexivity]. exfalso. destruct IH as (Q1 & Q2 & _). cbn [fst] in Q1, Q2.
    rewrite (raise_at_ext (x_of (run s inp (S t)))) in E by (intros i Hi; symmetry; apply Q1, Hi). rewrite <- Q2 in E. apply raise_at_iff in E. destruct E as [c E]. exact (Sy c E).
  - apply (handled_agrees ram phys mine s inp m0 mem K Hm t e t' _ H X IH).
  - apply (served_agrees n t e t' _ H X IH).
Qed.
End Proofs.

(** ** Theorems *)
(** C88: on AttoSoC, whatever the program, the pins and the interrupts do: the core's registers, interrupt enables and MTVEC and the program's RAM at the program's [n]-th instruction, served ones
    included, are those of the machine with the services, if its device reads deliver what they delivered to the program; and it is the same instruction. *)
Theorem C88_soc : forall k D x0 p mine dev srv, soc_start x0 -> pins_ok p -> (forall n, respects mine (srv n)) ->
  let s := so_cpu x0 in let inp := soc_inp k D x0 p in let ram := fun a => a <? 2 ^ 23 in let phys := fun a => a mod 2 ^ k in
  let mem := fun t => soc_bytes (soc_run k D x0 p t) in
  forall n t, emulated_io ram phys mine dev srv s inp mem n t ->
  let q := v_io ram phys dev srv n (boot_arch s, soc_bytes x0) in
  agrees mine (so_cpu (soc_run k D x0 p (S t))) (mem t) q /\
  (own_ram ram phys mine (pc (fst q)) 4 -> fetch_done s inp t (peek phys (snd q) (pc (fst q)) 4)).
Proof.
  intros k D x0 p mine dev srv Hs Hp Rs s inp ram phys mem n t Pr q. pose proof (soc_ok k D x0 p Hs Hp) as K. pose proof (soc_ram_slave k D x0 p Hs Hp) as Sl.
  assert (Hm : forall t w, fetch_done s inp t w -> forall z, mem t z = ram_mem ram phys s inp (soc_bytes x0) t z).
  { intros u w F z. unfold mem, soc_bytes. rewrite (IoMem.array k D x0 p Hs Hp). cbn [ram_mem]. cbv zeta. fold s inp. destruct (fetch_machine s inp K u w F) as [a M].
    destruct F as (C & U & A & _). pose proof (bus_shows s inp K u C) as Sh. rewrite M in Sh. destruct Sh. rewrite sh_we. cbn [request q_we]. rewrite andb_false_r. reflexivity. }
  pose proof (emulated_agrees ram phys mine dev srv s inp (soc_bytes x0) mem K Sl Hm Rs n t Pr) as G. fold q in G. rewrite soc_run_cpu. split; [exact G|].
  intros O. destruct (emulated_io_fetch ram phys mine dev srv s inp mem n t Pr) as [w F].
  rewrite (word_of ram phys mine s inp (soc_bytes x0) mem K Sl Hm t w q F); [exact F| |exact G]. rewrite (proj1 (proj2 G)). exact O.
Qed.
(** The same for the SoC with the CSR bus. *)
Theorem C88_csr_soc : forall k D x0 p mine dev srv, csoc_start x0 -> pins_ok p -> (forall n, respects mine (srv n)) ->
  let s := co_cpu x0 in let inp := csoc_inp k D x0 p in let ram := fun a => a <? 2 ^ 23 in let phys := fun a => a mod 2 ^ k in
  let mem := fun t => csoc_bytes (csoc_run k D x0 p t) in
  forall n t, emulated_io ram phys mine dev srv s inp mem n t ->
  let q := v_io ram phys dev srv n (boot_arch s, csoc_bytes x0) in
  agrees mine (co_cpu (csoc_run k D x0 p (S t))) (mem t) q /\
  (own_ram ram phys mine (pc (fst q)) 4 -> fetch_done s inp t (peek phys (snd q) (pc (fst q)) 4)).
Proof.
  intros k D x0 p mine dev srv Hs Hp Rs s inp ram phys mem n t Pr q. pose proof (csoc_ok k D x0 p Hs) as K. pose proof (csoc_ram_slave k D x0 p Hs Hp) as Sl.
  assert (Hm : forall t w, fetch_done s inp t w -> forall z, mem t z = ram_mem ram phys s inp (csoc_bytes x0) t z).
  { intros u w F z. unfold mem, csoc_bytes. rewrite (CsrIoMem.array k D x0 p Hs). cbn [ram_mem]. cbv zeta. fold s inp. destruct (fetch_machine s inp K u w F) as [a M].
    destruct F as (C & U & A & _). pose proof (bus_shows s inp K u C) as Sh. rewrite M in Sh. destruct Sh. rewrite sh_we. cbn [request q_we]. rewrite andb_false_r. reflexivity. }
  pose proof (emulated_agrees ram phys mine dev srv s inp (csoc_bytes x0) mem K Sl Hm Rs n t Pr) as G. fold q in G. rewrite csoc_run_cpu. split; [exact G|].
  intros O. destruct (emulated_io_fetch ram phys mine dev srv s inp mem n t Pr) as [w F].
  rewrite (word_of ram phys mine s inp (csoc_bytes x0) mem K Sl Hm t w q F); [exact F| |exact G]. rewrite (proj1 (proj2 G)). exact O.
Qed.

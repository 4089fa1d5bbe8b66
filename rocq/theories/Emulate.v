(** * C87: trap and emulate; system calls

    A program whose exceptions (ECALL, EBREAK, unimplemented instructions, misaligned accesses) are served by handlers sees a
    machine in which each of them is one more instruction, the one the handlers implement.  Nothing in /repo is modelled here
    beyond Cpu.v; interrupts are treated as in Transparent.v. *)
From Coq Require Import ZArith Lia Bool List.
From Verif Require Import Bits Ucode Cpu Isa Timed BitLemmas Wf Sym Blocks CsrBlocks DecodeOk Boundary Sim Main Obs PropsBus PropsInv Observe PropsIsa PropsFrame Latency Memory SocMem PowerUp Transparent.
Import ListNotations.
Open Scope Z_scope.

(** The instruction [w] at address [p] raises an exception when the registers are [r]. *)
Definition raise_at (r : Z -> Z) (p w : Z) : bool :=
  match decode w with
  | None | Some Ecall | Some Ebreak => true
  | Some (Jal _ off) => negb (((p + off) mod 2 ^ 32) mod 4 =? 0)
  | Some (Jalr _ rs1 off) => negb ((2 * (((r rs1 + off) mod 2 ^ 32) / 2)) mod 4 =? 0)
  | Some (Branch f rs1 rs2 off) => cmp f (r rs1) (r rs2) && negb (((p + off) mod 2 ^ 32) mod 4 =? 0)
  | Some (Load sz _ _ rs1 off) | Some (Store sz rs1 _ off) => negb (((r rs1 + off) mod 2 ^ 32) mod bytes sz =? 0)
  | Some (Csr f _ g n) => negb (known n) || csr_writes f g && csr_read_only n
  | _ => false
  end.
(** It is the exception condition of C21. *)
Lemma raise_at_iff x w : raise_at (x_of x) (pc_of x) w = true <-> exists c, sync_cause x w c.
Proof. exact (raises_iff x w). Qed.
Lemma raise_at_ext r r' p w : (forall i, 0 <= i < 32 -> r' i = r i) -> raise_at r' p w = raise_at r p w.
Proof.
  intros H. unfold raise_at. destruct (decode w) as [i|] eqn:D; [|reflexivity]. pose proof (decode_regs w i D) as R.
  destruct i; try reflexivity; rewrite ?(H rs1), ?(H rs2) by tauto; reflexivity.
Qed.

(** What handlers do for the program: from its registers, its PC and its memory at the exception, its registers, PC and memory
    when it goes on. *)
Definition service := (Z -> Z) -> Z -> (Z -> Z) -> (Z -> Z) * Z * (Z -> Z).

Section Mem.
Variable phys : Z -> Z.
(** Bytes of the memory the program uses; handlers may use the others. *)
Variable mine : Z -> Prop.
Variable srv : service.
Local Notation loc := (loc phys).
Local Notation peek := (peek phys).
Local Notation flat_step := (flat_step phys).
Local Notation flat_at := (flat_at phys).
Local Notation slave_mem := (slave_mem phys).
Local Notation memory_slave := (memory_slave phys).

(** ** Specification *)
(** The service looks at x1-x31, the PC and the program's memory only. *)
Definition respects : Prop := forall r r' p m m', (forall i, 0 <= i < 32 -> r' i = r i) -> (forall z, mine z -> m' z = m z) ->
  let '(r1, p1, m1) := srv r p m in let '(r2, p2, m2) := srv r' p m' in
  (forall i, 1 <= i < 32 -> r2 i = r1 i) /\ p2 = p1 /\ forall z, mine z -> m2 z = m1 z.
(** The instruction fetched in cycle [t] raises an exception, and the MRET fetched in cycle [e] finds what the service makes of the
    registers, the PC and the memory in cycle [t]. *)
Definition served (s : state) (inp : nat -> input) (m0 : Z -> Z) (t e : nat) : Prop :=
  let x := run s inp (S t) in let y := run s inp (S e) in
  (exists w c, fetch_done s inp t w /\ int_taken s inp t w = false /\ sync_cause x w c) /\ own phys mine (pc_of x) 4 /\
  int_taken s inp e 0x30200073 = false /\
  mpie_of y = mie_of x /\ meie_of y = meie_of x /\ mtvec_of y = mtvec_of x /\
  let '(r, p, m) := srv (x_of x) (pc_of x) (slave_mem s inp m0 t) in
  (forall i, 1 <= i < 32 -> x_of y i = r i) /\ 4 * (mepc_of y / 4) = p /\ forall z, mine z -> slave_mem s inp m0 e z = m z.
(** In cycle [t] the program, having executed [n] instructions, served ones included, fetches another one. *)
Inductive emulated (s : state) (inp : nat -> input) (m0 : Z -> Z) : nat -> nat -> Prop :=
| e_first t w : fetch_done s inp t w -> (forall u w', (u < t)%nat -> ~ fetch_done s inp u w') -> emulated s inp m0 0 t
| e_step n t t' w : emulated s inp m0 n t -> executes s inp t t' w -> ordinary phys mine s inp t w -> emulated s inp m0 (S n) t'
| e_interrupt n t e t' : emulated s inp m0 n t -> handled phys mine s inp m0 t e -> executes s inp e t' 0x30200073 -> emulated s inp m0 n t'
| e_served n t e t' : emulated s inp m0 n t -> served s inp m0 t e -> executes s inp e t' 0x30200073 -> emulated s inp m0 (S n) t'.

(** The machine the program sees: the reference of Memory.v without interrupts, with one more kind of instruction. *)
Definition v_step (am : arch * (Z -> Z)) : arch * (Z -> Z) :=
  let (a, m) := am in
  if raise_at (rd_x a) (pc a) (peek m (pc a) 4) then
    let '(r, p, m') := srv (rd_x a) (pc a) m in
    ({| xr := r; pc := p; mie := mie a; mpie := mpie a; meie := meie a; mtvec := mtvec a; mscratch := mscratch a;
        mepc := mepc a; mcause := mcause a; took_int := took_int a |}, m')
  else flat_step am false false false.
Definition v_at (s : state) (m0 : Z -> Z) (n : nat) : arch * (Z -> Z) := Nat.iter n v_step (boot_arch s, m0).

(** ** Proof *)
Section Run.
Variables (s : state) (inp : nat -> input) (m0 : Z -> Z).
Hypothesis (K : ok s inp) (Sl : memory_slave s inp m0) (Rs : respects).

Lemma emulated_fetch n t : emulated s inp m0 n t -> exists w, fetch_done s inp t w.
Proof. intros H. destruct H as [t w F _|n t t' w _ (_ & _ & F & _) _|n t e t' _ _ (_ & _ & F & _)|n t e t' _ _ (_ & _ & F & _)]; [eexists; exact F|exact F|exact F|exact F]. Qed.

(** The core and its memory at a fetch are like the reference [q]. *)
Definition shows (t : nat) (q : arch * (Z -> Z)) : Prop :=
  let x := run s inp (S t) in
  (forall r, 0 <= r < 32 -> rd_x (fst q) r = x_of x r) /\ pc (fst q) = pc_of x /\ mie (fst q) = mie_of x /\ meie (fst q) = meie_of x /\
  mtvec (fst q) = mtvec_of x /\ forall z, mine z -> snd q z = slave_mem s inp m0 t z.
Lemma sim_shows t w q : fetch_done s inp t w -> sim mine (flat_at s inp m0 t) q <-> shows t q.
Proof.
  intros F. pose proof (C33_flat_memory phys s inp m0 K Sl t w F) as A. destruct (flat_at s inp m0 t) as [a m]. destruct q as [b m'].
  cbv zeta in A. destruct A as (Aw & Am & Ax & Ap & Ai & _ & Ae & At & _). unfold shows. cbv zeta. cbn [fst snd]. split.
  - intros [X P Mi Me Mt Mm]. cbn [fst snd] in *. split; [intros r Hr; rewrite Ax, X by assumption; reflexivity|]. repeat (split; [congruence|]).
    intros z Hz. rewrite <- Am. apply Mm. exact Hz.
  - intros (X & P & Mi & Me & Mt & Mm). constructor; cbn [fst snd]; try congruence.
    + intros r Hr. rewrite X, Ax by assumption. reflexivity.
    + intros z Hz. rewrite Am. apply Mm. exact Hz.
Qed.

Lemma served_shows t e t' q : served s inp m0 t e -> executes s inp e t' 0x30200073 -> shows t q -> shows t' (v_step q).
Proof.
  intros ((w & c & F & T & C) & O & Te & Hm & He & Ht & Hs) X (Q1 & Q2 & Q3 & Q4 & Q5 & Q6).
  destruct (C22_mret s inp K e t' _ _ _ (conj X (conj eq_refl eq_refl)) Te eq_refl) as (_ & R1 & R2 & R3 & _ & R5 & R6 & _).
  destruct q as [b m]. cbn [fst snd] in *.
  assert (W : peek m (pc b) 4 = w).
  { pose proof (C33_flat_memory phys s inp m0 K Sl t w F) as A. destruct (flat_at s inp m0 t) as [a ma]. destruct A as (-> & Am & _ & Ap & _).
    rewrite <- Ap, <- Q2. apply (own_peek phys mine); [|rewrite Q2; exact O]. intros z Hz. rewrite Am. apply Q6, Hz. }
  assert (E : raise_at (rd_x b) (pc b) w = true).
  { rewrite (raise_at_ext (x_of (run s inp (S t)))) by exact Q1. rewrite Q2. apply raise_at_iff. exists c. exact C. }
  unfold v_step. rewrite W, E, Q2. pose proof (Rs (x_of (run s inp (S t))) (rd_x b) (pc_of (run s inp (S t))) (slave_mem s inp m0 t) m Q1 Q6) as V.
  destruct (srv (x_of _) _ _) as [[r p] mm]. destruct (srv (rd_x b) _ _) as [[r2 p2] mm2]. destruct V as (V1 & -> & V3). destruct Hs as (S1 & S2 & S3).
  unfold shows. cbv zeta. cbn [fst snd rd_x xr pc mie meie mtvec].
  split. { intros i Hi. rewrite R1 by assumption. unfold rd_x. cbn [xr]. destruct (Z.eqb_spec i 0) as [->|Ni]; [|rewrite V1, S1 by lia; reflexivity].
    rewrite <- R1 by lia. destruct X as (_ & _ & (w' & F') & _). pose proof (C33_flat_memory phys s inp m0 K Sl t' w' F') as A.
    destruct (flat_at s inp m0 t') as [a ma]. destruct A as (_ & _ & Ax & _). rewrite Ax by lia. reflexivity. }
  split; [rewrite R2; congruence|]. split; [congruence|]. split; [congruence|]. split; [congruence|].
  intros z Hz. rewrite V3 by assumption. rewrite (mret_mem phys s inp m0 K Sl e t' X Te). symmetry. apply S3, Hz.
Qed.
Lemma handled_shows t e t' q : handled phys mine s inp m0 t e -> executes s inp e t' 0x30200073 -> shows t q -> shows t' q.
Proof.
  intros ((w & F & T) & Te & Hr & Hp & Hm & He & Ht & Hz) X (Q1 & Q2 & Q3 & Q4 & Q5 & Q6).
  destruct (C22_mret s inp K e t' _ _ _ (conj X (conj eq_refl eq_refl)) Te eq_refl) as (_ & R1 & R2 & R3 & _ & R5 & R6 & _).
  assert (Mi : mie_of (run s inp (S t)) = true).
  { unfold int_taken in T. destruct (mie_of (run s inp (S t))); [reflexivity|discriminate]. }
  assert (Pc : pc_of (run s inp (S t')) = pc_of (run s inp (S t))).
  { rewrite R2, Hp. unfold pc_of. rewrite (Z.mul_comm 4 (s_pc _)), Z.div_mul by lia. lia. }
  split; [intros r Hr'; rewrite Q1, R1, Hr by assumption; reflexivity|]. repeat (split; [congruence|]).
  intros z Hz'. rewrite (mret_mem phys s inp m0 K Sl e t' X Te), Q6, Hz by assumption. reflexivity.
Qed.
Lemma step_shows t t' w q : executes s inp t t' w -> ordinary phys mine s inp t w -> shows t q -> shows t' (v_step q).
Proof.
  intros X O Q. pose proof X as (F & _ & (w' & F') & _). apply (sim_shows t w q F) in Q. apply (sim_shows t' w' _ F').
  rewrite (flat_exec phys s inp m0 t t' w X). pose proof (C33_flat_memory phys s inp m0 K Sl t w F) as A.
  destruct (flat_at s inp m0 t) as [a m]. destruct q as [b m']. cbv zeta in A. destruct A as (Aw & Am & Ax & Ap & Ai & _ & Ae & _).
  destruct O as (O1 & O2 & O3 & O4).
  destruct (sim_step phys mine a b m m' (run s inp (S t)) w (irq (inp (t + 1)%nat)) (irq (inp (t + 2)%nat)) (irq (inp (t + 3)%nat))) as [Sm Wm]; try assumption.
  { unfold int_taken in O1. cbv zeta in O1. rewrite Ai, Ae in O1. exact O1. }
  { rewrite <- Ap. exact O3. }
  unfold v_step. rewrite Wm. assert (E : raise_at (rd_x b) (pc b) w = false).
  { destruct (raise_at _ _ w) eqn:E; [|reflexivity]. exfalso.
    rewrite (raise_at_ext (x_of (run s inp (S t)))) in E by (intros i Hi; rewrite Ax by assumption; apply (m_x _ _ _ Q i Hi)).
    pose proof (m_pc _ _ _ Q) as P. cbn [fst] in P. rewrite P, <- Ap in E. apply raise_at_iff in E. destruct E as [c E]. exact (O2 c E). }
  rewrite E. exact Sm.
Qed.
Lemma emulated_shows n t : emulated s inp m0 n t -> shows t (v_at s m0 n).
Proof.
  induction 1 as [t w F N|n t t' w P IH X O|n t e t' P IH H X|n t e t' P IH H X].
  - apply (sim_shows t w _ F). change (v_at s m0 0) with (flat_at s inp m0 0). replace t with (0 + t)%nat by lia.
    rewrite flat_const by (intros u v Hu; apply N; lia). constructor; reflexivity.
  - exact (step_shows t t' w _ X O IH).
  - exact (handled_shows t e t' _ H X IH).
  - exact (served_shows t e t' _ H X IH).
Qed.
End Run.
End Mem.

(** C87.  What the program finds at its [n]-th instruction is what the machine with the served instructions has: registers, PC,
    interrupt enables, MTVEC, memory, and the instruction; whatever the bus latencies, the interrupts, and how the handlers
    work. *)
Theorem C87_trap_and_emulate : forall phys mine srv s inp m0, ok s inp -> memory_slave phys s inp m0 -> respects mine srv ->
  forall n t, emulated phys mine srv s inp m0 n t -> let x := run s inp (S t) in let (a, m) := v_at phys srv s m0 n in
  (forall r, 0 <= r < 32 -> x_of x r = rd_x a r) /\ pc_of x = pc a /\ mie_of x = mie a /\ meie_of x = meie a /\ mtvec_of x = mtvec a /\
  (forall z, mine z -> slave_mem phys s inp m0 t z = m z) /\
  (own phys mine (pc_of x) 4 -> fetch_done s inp t (peek phys m (pc a) 4)).
Proof.
  intros phys mine srv s inp m0 K Sl Rs n t P x. pose proof (emulated_shows phys mine srv s inp m0 K Sl Rs n t P) as Q.
  destruct (emulated_fetch phys mine srv s inp m0 n t P) as [w F]. destruct (v_at phys srv s m0 n) as [b m']. unfold shows in Q. cbv zeta in Q. fold x in Q.
  cbn [fst snd] in Q. destruct Q as (Q1 & Q2 & Q3 & Q4 & Q5 & Q6). split; [intros r Hr; symmetry; apply Q1, Hr|]. do 4 (split; [congruence|]).
  split; [intros z Hz; symmetry; apply Q6, Hz|]. intros O.
  assert (W : peek phys m' (pc b) 4 = w).
  { pose proof (C33_flat_memory phys s inp m0 K Sl t w F) as A. destruct (flat_at phys s inp m0 t) as [a ma]. destruct A as (-> & Am & _ & Ap & _). fold x in Ap.
    rewrite Q2, <- Ap. apply (own_peek phys mine); [|exact O]. intros z Hz. rewrite Am. apply Q6, Hz. }
  rewrite W. exact F.
Qed.

(** C87 for the core with the SoC's memory: its contents in the cycle of the fetch. *)
Theorem C87_system : forall k iw s m mine srv, fresh s -> mem_start m -> respects mine srv ->
  let inp := sys_inp k iw s m in let phys := fun a => a mod 2 ^ k in let m0 := fun z => byte (wm_mem m (z / 4)) (z mod 4) in
  forall n t, emulated phys mine srv s inp m0 n t -> let x := run s inp (S t) in let (a, b) := v_at phys srv s m0 n in
  (forall r, 0 <= r < 32 -> x_of x r = rd_x a r) /\ pc_of x = pc a /\ mie_of x = mie a /\ meie_of x = meie a /\ mtvec_of x = mtvec a /\
  (forall z, mine z -> byte (wm_mem (snd (system k iw s m t)) (z / 4)) (z mod 4) = b z) /\
  (own phys mine (pc_of x) 4 -> fetch_done s inp t (peek phys b (pc a) 4)).
Proof.
  intros k iw s m mine srv Hf Hm Rs inp phys m0 n t P. pose proof (bus_ok_ok _ _ (sys_bus_ok k iw s m Hf Hm)) as K.
  pose proof (C87_trap_and_emulate phys mine srv s inp m0 K (sys_memory_slave k iw s m Hf Hm) Rs n t P) as Q.
  destruct (emulated_fetch phys mine srv s inp m0 n t P) as [w F]. cbv zeta in Q |- *. destruct (v_at phys srv s m0 n) as [a b].
  destruct Q as (Q1 & Q2 & Q3 & Q4 & Q5 & Q6 & Q7). do 5 (split; [assumption|]). split; [|exact Q7]. intros z Hz. rewrite <- Q6 by exact Hz.
  destruct (inv_all k iw s m Hf Hm t) as [_ G]. specialize (G z). destruct (C02_registers_match_reference s inp K t w F) as (c & M & _).
  destruct F as (C & _). pose proof (bus_shows s inp K t C) as Sh. rewrite M in Sh. destruct Sh. cbn [request q_we] in sh_we.
  unfold inp, m0, phys in *. fold (sys_inp k iw s m) in G. rewrite sh_we, andb_false_r in G. exact G.
Qed.

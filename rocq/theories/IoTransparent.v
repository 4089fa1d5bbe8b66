(** * C85: interrupts are transparent to a program on the whole SoC

    As C75, but the handlers and the program use the devices, and the run without interrupts is that of the RV32I machine itself. *)
From Coq Require Import ZArith Lia Bool List.
From Verif Require Import Bits Ucode Cpu Isa Timed BitLemmas Wf Sym Blocks CsrBlocks DecodeOk Boundary Sim Main Obs PropsBus PropsInv Observe PropsIsa Latency PropsFrame InputsMatter Memory SocMem Crash Uart Periph Soc SocIo IoMem CsrBus CsrSoc CsrIoMem SeqTest Transparent.
Import ListNotations.
Open Scope Z_scope.

(** ** Specification *)
Section Spec.
(** [ram]: which word addresses are RAM; [phys]: which word of the RAM answers; [mine]: the bytes of the RAM the program uses, handlers may use the others;
    [dev n]: what the device read by instruction [n] of the program delivers. *)
Variables (ram : Z -> bool) (phys : Z -> Z) (mine : Z -> Prop) (dev : nat -> Z).
(** [mem t]: the RAM in cycle [t]. *)
Variables (s : state) (inp : nat -> input) (mem : nat -> Z -> Z).
Definition own_ram (b n : Z) : Prop := ram (b / 4) = true /\ own phys mine b n.
(** The word [w] fetched in cycle [t] is executed as instruction [n] of the program, and the next instruction is fetched in cycle [t']: no interrupt, no exception, no MRET;
    it comes from the program's RAM and reads only the program's RAM, or a device, which delivers [dev n];
    it does not use MSCRATCH, MEPC, MCAUSE or MIP, nor read MSTATUS into a register. *)
Definition ordinary_io (n t t' : nat) (w : Z) : Prop :=
  let x := run s inp (S t) in
  executes s inp t t' w /\ int_taken s inp t w = false /\ (forall c, ~ sync_cause x w c) /\ own_ram (pc_of x) 4 /\
  match decode w with
  | Some Mret => False
  | Some (Load sz _ _ rs1 off) => let ea := (x_of x rs1 + off) mod 2 ^ 32 in
      own_ram ea (bytes sz) \/ ram (ea / 4) = false /\ exists u, (t < u < t')%nat /\ data_done s inp u /\ dat_r (inp u) = dev n
  | Some (Csr _ rd _ n) => n <> 0x340 /\ n <> 0x341 /\ n <> 0x342 /\ n <> 0x344 /\ (n = 0x300 -> rd = 0)
  | _ => True
  end.
(** The program is interrupted at the fetch in cycle [t]; the MRET fetched in cycle [e] finds the registers the handler
    has to preserve, and the program's RAM, as they were then. *)
Definition handled_io (t e : nat) : Prop :=
  let x := run s inp (S t) in let y := run s inp (S e) in
  (exists w, fetch_done s inp t w /\ int_taken s inp t w = true) /\
  int_taken s inp e 0x30200073 = false /\
  same_regs x y /\ mepc_of y = pc_of x /\ mpie_of y = true /\ meie_of y = meie_of x /\ mtvec_of y = mtvec_of x /\
  forall z, mine z -> mem e z = mem t z.
(** In cycle [t] the program, having executed [n] instructions, fetches another one. *)
Inductive program_io : nat -> nat -> Prop :=
| pi_first t w : fetch_done s inp t w -> (forall u w', (u < t)%nat -> ~ fetch_done s inp u w') -> program_io 0 t
| pi_step n t t' w : program_io n t -> ordinary_io n t t' w -> program_io (S n) t'
| pi_interrupt n t e t' : program_io n t -> handled_io t e -> executes s inp e t' 0x30200073 -> program_io n t'.
(** The world of a program that is never interrupted. *)
Definition undisturbed (n : nat) : event := {| e_int := fun _ => false; e_code := 0; e_data := dev n |}.
(** Registers, interrupt enables, MTVEC and program's RAM are those of the machine [q]; MSCRATCH, MEPC, MCAUSE and MPIE belong to the handlers. *)
Definition agrees (x : state) (m : Z -> Z) (q : arch * (Z -> Z)) : Prop :=
  (forall r, 0 <= r < 32 -> x_of x r = rd_x (fst q) r) /\ pc_of x = pc (fst q) /\ mie_of x = mie (fst q) /\ meie_of x = meie (fst q) /\
  mtvec_of x = mtvec (fst q) /\ forall z, mine z -> m z = snd q z.
End Spec.

(** ** Proofs *)
Section Proofs.
Variables (ram : Z -> bool) (phys : Z -> Z) (mine : Z -> Prop) (dev : nat -> Z) (s : state) (inp : nat -> input) (m0 : Z -> Z) (mem : nat -> Z -> Z).
Hypotheses (K : ok s inp) (Sl : ram_slave ram phys s inp m0).
Hypothesis (Hm : forall t w, fetch_done s inp t w -> forall z, mem t z = ram_mem ram phys s inp m0 t z).
Local Notation fb := (fetched_before s inp).
Local Notation rm := (ram_mem ram phys s inp m0).
Local Notation ref n := (io_run ram phys (undisturbed dev) n (boot_arch s, m0)).
Local Notation sim := (sim mine).

(** One instruction of the SoC is one instruction of the machine with RAM and devices. *)
Lemma io_exec t t' w : executes s inp t t' w -> exists a m e, machine s inp t = Fetching a /\ (forall z, m z = rm t z) /\
  (forall i, e_int e i = irq (inp (t + i)%nat)) /\ e_code e = w /\ (forall u, (t < u < t')%nat -> data_done s inp u -> e_data e = dat_r (inp u)) /\
  machine s inp t' = Fetching (fst (io_step ram phys (a, m) e)) /\ forall z, snd (io_step ram phys (a, m) e) z = rm t' z.
Proof.
  intros (F & L & (w' & F') & N). destruct (fetch_machine s inp K t w F) as [a M]. destruct (fetch_machine s inp K t' w' F') as [a' M'].
  destruct (io_tracks_past ram phys s inp m0 K Sl t') as (ev & Hp & Tr). pose proof (Tr t ltac:(lia)) as T1. pose proof (Tr t' (le_n _)) as T2.
  unfold io_tracks in T1, T2. rewrite M in T1. rewrite M' in T2.
  assert (Ft : fb (S t) = S (fb t)). { unfold fetched_before. rewrite count_S. destruct F as (C & U & A & _). rewrite C, U, A. cbn [andb]. lia. }
  assert (Fc : forall d, (S t + d <= t')%nat -> fb (S t + d) = S (fb t)).
  { induction d as [|d IH]; intros Hd; [rewrite Nat.add_0_r; exact Ft|]. rewrite Nat.add_succ_r. unfold fetched_before. rewrite count_S. fold (fb (S t + d)). rewrite IH by lia.
    destruct (_ && _ && _) eqn:Q; [|apply Nat.add_0_r]. apply andb_prop in Q. destruct Q as [Q U]. apply andb_prop in Q. destruct Q as [C A].
    destruct (N (S t + d)%nat (dat_r (inp (S t + d)%nat))); [lia|]. repeat split; assumption. }
  assert (Ft' : fb t' = S (fb t)). { replace t' with (S t + (t' - S t))%nat by lia. apply Fc. lia. }
  rewrite Ft' in T2. cbn [io_run] in T2. destruct (io_run ram phys ev (fb t) (boot_arch s, m0)) as [a1 m1]. cbn [fst snd] in T1. destruct T1 as [-> T1].
  exists a, m1, (ev (fb t)). split; [exact M|]. split; [exact T1|]. destruct F as (C & U & A & W). pose proof (Hp t L C A) as H. rewrite U in H. destruct H as [H1 H2].
  split; [exact H2|]. split; [congruence|]. split.
  - intros u Hu (Cu & Uu & Au). pose proof (Hp u ltac:(lia) Cu Au) as H. rewrite Uu in H. destruct H as (n & En & Hd). replace u with (S t + (u - S t))%nat in En by lia.
    rewrite Fc in En by lia. injection En as <-. exact Hd.
  - destruct T2 as [T2 T3]. split; [rewrite M', T2; reflexivity|exact T3].
Qed.

(** A step of the program in both machines. *)
Lemma sim_io_step a b m m' x w e e' : sim (a, m) (b, m') -> w = peek phys m (pc a) 4 ->
  (forall r, 0 <= r < 32 -> x_of x r = rd_x a r) -> pc_of x = pc a ->
  int_enabled a && (e_int e 1%nat || csr_word w && e_int e 2%nat) = false -> (forall i, e_int e' i = false) -> (forall c, ~ sync_cause x w c) -> own_ram ram phys mine (pc a) 4 ->
  match decode w with
  | Some Mret => False
  | Some (Load sz _ _ rs1 off) => let ea := (x_of x rs1 + off) mod 2 ^ 32 in own_ram ram phys mine ea (bytes sz) \/ ram (ea / 4) = false /\ e_data e = e_data e'
  | Some (Csr _ rd _ n) => n <> 0x340 /\ n <> 0x341 /\ n <> 0x342 /\ n <> 0x344 /\ (n = 0x300 -> rd = 0)
  | _ => True
  end -> sim (io_step ram phys (a, m) e) (io_step ram phys (b, m') e').
Proof.
  intros Sm Hw Hx Hp In Q Sy [Rp Ow] Or. pose proof Sm as [X P Mi Me Mt Mm]. cbn [fst snd] in *.
  assert (Hw' : peek phys m' (pc b) 4 = w) by (rewrite P, Hw; apply (own_peek phys mine); assumption).
  assert (Flat : (match decode w with Some (Load _ _ _ rs1 off) | Some (Store _ rs1 _ off) => ram ((rd_x a rs1 + off) mod 2 ^ 32 / 4) = true | _ => True end) ->
    match decode w with Some (Load sz _ _ rs1 off) => own phys mine ((x_of x rs1 + off) mod 2 ^ 32) (bytes sz) | _ => True end -> sim (io_step ram phys (a, m) e) (io_step ram phys (b, m') e')).
  { intros R O. rewrite (io_flat ram phys a m e) by (rewrite <- ?Hw; assumption). rewrite (io_flat ram phys b m' e').
    2:{ rewrite P. exact Rp. }
    2:{ rewrite Hw'. pose proof (decode_regs w) as Dr. destruct (decode w) as [i|]; [|exact I]. specialize (Dr i eq_refl). destruct i; try exact I; rewrite X by tauto; exact R. }
    rewrite !Q. apply (sim_step phys mine a b m m' x w); try assumption. destruct (decode w) as [i|]; [|exact I]. destruct i; assumption. }
  pose proof (decode_regs w) as Dr.
  destruct (decode w) as [i|] eqn:D; [|apply Flat; exact I]. specialize (Dr i eq_refl).
  destruct i; try (apply Flat; exact I).
  - (* load *)
    rewrite Hx in Or by tauto. cbv zeta in Or. destruct (ram ((rd_x a rs1 + off) mod 2 ^ 32 / 4)) eqn:Re.
    { apply Flat; [reflexivity|]. rewrite Hx by tauto. destruct Or as [[_ O]|[O _]]; [exact O|congruence]. }
    destruct Or as [[O _]|[_ Ed]]; [congruence|].
    assert (Al : aligned sz ((rd_x a rs1 + off) mod 2 ^ 32) = true).
    { unfold aligned. destruct (Z.eqb_spec (((rd_x a rs1 + off) mod 2 ^ 32) mod bytes sz) 0) as [E|E]; [reflexivity|]. exfalso. apply (Sy 4). unfold sync_cause. rewrite D. rewrite Hx by tauto. auto. }
    unfold io_step. rewrite P, Rp, <- Hw, <- P, Hw', !Q, !andb_false_r, D. cbn [is_csr andb].
    assert (I1 : int_enabled a && e_int e 1%nat = false) by (destruct (int_enabled a), (e_int e 1%nat); cbn in In |- *; congruence). rewrite I1.
    rewrite (X rs1) by tauto. cbv zeta. rewrite Al, Re, Ed. apply (sim_adv mine), (sim_wr mine); [tauto|exact Sm].
  - (* store *)
    destruct (ram ((rd_x a rs1 + off) mod 2 ^ 32 / 4)) eqn:Re; [apply Flat; [reflexivity|exact I]|].
    assert (Al : aligned sz ((rd_x a rs1 + off) mod 2 ^ 32) = true).
    { unfold aligned. destruct (Z.eqb_spec (((rd_x a rs1 + off) mod 2 ^ 32) mod bytes sz) 0) as [E|E]; [reflexivity|]. exfalso. apply (Sy 6). unfold sync_cause. rewrite D. rewrite Hx by tauto. auto. }
    unfold io_step. rewrite P, Rp, <- Hw, <- P, Hw', !Q, !andb_false_r, D. cbn [is_csr andb].
    assert (I1 : int_enabled a && e_int e 1%nat = false) by (destruct (int_enabled a), (e_int e 1%nat); cbn in In |- *; congruence). rewrite I1.
    rewrite (X rs1) by tauto. cbv zeta. rewrite Al, Re. apply (sim_adv mine). exact Sm.
Qed.

Lemma agrees_sim t w a m q : fetch_done s inp t w -> machine s inp t = Fetching a -> (forall z, m z = rm t z) -> agrees mine (run s inp (S t)) (mem t) q -> sim (a, m) q.
Proof.
  intros F M E (A1 & A2 & A3 & A4 & A5 & A6). destruct (C02_registers_match_reference s inp K t w F) as (a' & M' & R). cbv zeta in R. destruct R as (R1 & R2 & R3 & _ & R5 & R6 & _).
  assert (a' = a) by congruence. subst a'. constructor; cbn [fst snd]; try congruence.
  - intros r Hr. rewrite <- A1, R1 by exact Hr. reflexivity.
  - intros z Hz. rewrite <- A6, (Hm t w F), E by exact Hz. reflexivity.
Qed.
Lemma sim_agrees t w a m q : fetch_done s inp t w -> machine s inp t = Fetching a -> (forall z, m z = rm t z) -> sim (a, m) q -> agrees mine (run s inp (S t)) (mem t) q.
Proof.
  intros F M E [X P Mi Me Mt Mm]. cbn [fst snd] in *. destruct (C02_registers_match_reference s inp K t w F) as (a' & M' & R). cbv zeta in R. destruct R as (R1 & R2 & R3 & _ & R5 & R6 & _).
  assert (a' = a) by congruence. subst a'. unfold agrees. split; [intros r Hr; rewrite R1, X by exact Hr; reflexivity|]. repeat (split; [congruence|]).
  intros z Hz. rewrite Mm by exact Hz. rewrite (Hm t w F), E. reflexivity.
Qed.

Lemma first_state t w : fetch_done s inp t w -> (forall u w', (u < t)%nat -> ~ fetch_done s inp u w') -> agrees mine (run s inp (S t)) (mem t) (ref 0).
Proof.
  intros F N. destruct (fetch_machine s inp K t w F) as [a M]. destruct (io_tracks_past ram phys s inp m0 K Sl t) as (ev & _ & Tr). specialize (Tr t (le_n _)).
  unfold io_tracks in Tr. rewrite M in Tr. assert (Z0 : fb t = O).
  { assert (G : forall j, (j <= t)%nat -> fb j = O); [|apply G; lia]. induction j as [|j IH]; intros Hj; [reflexivity|]. unfold fetched_before. rewrite count_S. fold (fb j). rewrite IH by lia.
    destruct (_ && _ && _) eqn:Q; [|reflexivity]. apply andb_prop in Q. destruct Q as [Q U]. apply andb_prop in Q. destruct Q as [C A].
    destruct (N j (dat_r (inp j))); [lia|]. repeat split; assumption. }
  rewrite Z0 in Tr. cbn [io_run fst snd] in Tr. destruct Tr as [<- Tr]. apply (sim_agrees t w (boot_arch s) m0 (ref 0) F M Tr). constructor; reflexivity.
Qed.

Lemma program_io_fetch n t : program_io ram phys mine dev s inp mem n t -> exists w, fetch_done s inp t w.
Proof. intros H. destruct H as [t w F _|n t t' w _ (X & _)|n t e t' _ _ X]; [eexists; exact F| |]; destruct X as (_ & _ & F & _); exact F. Qed.

(** MRET leaves the RAM alone. *)
Lemma mret_ram e t' : executes s inp e t' 0x30200073 -> int_taken s inp e 0x30200073 = false -> forall z, mem t' z = mem e z.
Proof.
  intros X T z. pose proof X as (F & _ & (w' & F') & _). rewrite (Hm _ _ F), (Hm _ _ F').
  destruct (C22_mret s inp K e t' _ _ _ (conj X (conj eq_refl eq_refl)) T eq_refl) as (N & _).
  pose proof X as (_ & L & _). assert (G : forall d, (S e + d <= t')%nat -> rm (S e + d) z = rm (S e) z).
  { induction d as [|d IH]; intros Hd; [rewrite Nat.add_0_r; reflexivity|]. rewrite Nat.add_succ_r. cbn [ram_mem]. cbv zeta. rewrite (N (S e + d)%nat) by lia. cbn [andb]. apply IH. lia. }
  replace t' with (S e + (t' - S e))%nat by lia. rewrite G by lia. cbn [ram_mem]. cbv zeta.
  destruct (fetch_machine s inp K e _ F) as [a M]. destruct F as (C & U & A & _). pose proof (bus_shows s inp K e C) as Sh. rewrite M in Sh. destruct Sh. rewrite sh_we. cbn [request q_we]. rewrite andb_false_r. reflexivity.
Qed.

(** One instruction of the program, from any state [q] of the undisturbed machine. *)
Lemma step_io n t t' w q : ordinary_io ram phys mine dev s inp n t t' w -> agrees mine (run s inp (S t)) (mem t) q ->
  agrees mine (run s inp (S t')) (mem t') (io_step ram phys q (undisturbed dev n)) /\ peek phys (snd q) (pc (fst q)) 4 = w /\ (forall c, ~ sync_cause (run s inp (S t)) w c).
Proof.
  intros (X & O1 & O2 & O3 & O4) IH. destruct (io_exec t t' w X) as (a & m & e & M & Em & Ei & Ec & Ed & M' & Em').
  pose proof X as (F & _ & (w' & F') & _).
  pose proof (agrees_sim t w a m q F M Em IH) as Sm.
  destruct (C02_registers_match_reference s inp K t w F) as (a' & Ma & R). cbv zeta in R. assert (a' = a) by congruence. subst a'. destruct R as (R1 & R2 & R3 & _ & R5 & _).
  rewrite R2 in O3. pose proof F as (C & U & A & Dw).
  assert (Hw : w = peek phys m (pc a) 4). { pose proof (code_word ram phys s inp m0 K Sl t a m C A M Em) as H. rewrite (proj1 O3), Dw in H. exact H. }
  assert (St : sim (io_step ram phys (a, m) e) (io_step ram phys q (undisturbed dev n))).
  { destruct q as [b m']. apply (sim_io_step a b m m' (run s inp (S t)) w e); try assumption.
    - rewrite !Ei. unfold int_taken in O1. cbv zeta in O1. rewrite R3, R5 in O1. exact O1.
    - reflexivity.
    - destruct (decode w) as [i|]; [|exact I]. destruct i; try exact O4. cbv zeta in O4 |- *. destruct O4 as [O4|(O4 & u & Hu & Du & Ev)]; [left; exact O4|right].
      split; [exact O4|]. cbn [undisturbed e_data]. rewrite (Ed u Hu Du). exact Ev. }
  split; [|split; [|exact O2]].
  - destruct (io_step ram phys (a, m) e) as [a2 m2]. cbn [fst snd] in *. apply (sim_agrees t' w' a2 m2 _ F' M' Em' St).
  - destruct Sm as [_ P _ _ _ Mm]. cbn [fst snd] in *. rewrite P, Hw. apply (own_peek phys mine); [exact Mm|exact (proj2 O3)].
Qed.
(** An interrupt that is handled leaves nothing to see. *)
Lemma handled_agrees t e t' q : handled_io mine s inp mem t e -> executes s inp e t' 0x30200073 -> agrees mine (run s inp (S t)) (mem t) q -> agrees mine (run s inp (S t')) (mem t') q.
Proof.
  intros ((w & F & T) & Te & Hr & Hp & Hmp & He & Ht & Hz) X (I1 & I2 & I3 & I4 & I5 & I6).
  destruct (C22_mret s inp K e t' _ _ _ (conj X (conj eq_refl eq_refl)) Te eq_refl) as (_ & R1 & R2 & R3 & _ & R5 & R6 & _).
  assert (Mi : mie_of (run s inp (S t)) = true) by (unfold int_taken in T; destruct (mie_of (run s inp (S t))); [reflexivity|discriminate]).
  assert (Pc : pc_of (run s inp (S t')) = pc_of (run s inp (S t))). { rewrite R2, Hp. unfold pc_of. rewrite (Z.mul_comm 4 (s_pc _)), Z.div_mul by lia. lia. }
  unfold agrees. split; [intros r Hr'; rewrite R1, Hr, I1 by exact Hr'; reflexivity|]. repeat (split; [congruence|]).
  intros z Hz'. rewrite (mret_ram e t' X Te), Hz, I6 by exact Hz'. reflexivity.
Qed.
Lemma transparent_io n t : program_io ram phys mine dev s inp mem n t -> agrees mine (run s inp (S t)) (mem t) (ref n).
Proof.
  induction 1 as [t w F N|n t t' w Pr IH O|n t e t' Pr IH H X].
  - apply (first_state t w F N).
  - apply (step_io n t t' w (ref n) O IH).
  - apply (handled_agrees t e t' (ref n) H X IH).
Qed.
(** The instruction is the one the undisturbed machine executes. *)
Lemma same_instruction n t w : program_io ram phys mine dev s inp mem n t -> fetch_done s inp t w -> own_ram ram phys mine (pc_of (run s inp (S t))) 4 ->
  w = peek phys (snd (ref n)) (pc (fst (ref n))) 4.
Proof.
  intros Pr F [R O]. pose proof (transparent_io n t Pr) as (A1 & A2 & _ & _ & _ & A6). destruct (C02_registers_match_reference s inp K t w F) as (a & M & Rg). cbv zeta in Rg. destruct Rg as (_ & R2 & _).
  pose proof F as (C & U & A & Dw). pose proof (code_word ram phys s inp m0 K Sl t a (rm t) C A M (fun z => eq_refl)) as H. rewrite <- R2, R, Dw in H. rewrite H, <- A2.
  apply (own_peek phys mine); [|exact O]. intros z Hz. rewrite <- A6 by exact Hz. symmetry. apply (Hm t w F).
Qed.
End Proofs.

(** ** Theorems *)
(** C85: on AttoSoC, whatever the program, the pins and the interrupts do: when the program, interrupted any number of times by handlers that give back what they found, fetches an instruction
    after having executed [n], the core's registers, interrupt enables and MTVEC and the program's RAM are what the RV32I machine that is never interrupted has after [n] instructions
    from address 0, if its device reads deliver what they delivered to the program; and it is the same instruction. *)
Theorem C85_soc : forall k D x0 p mine dev, soc_start x0 -> pins_ok p ->
  let s := so_cpu x0 in let inp := soc_inp k D x0 p in let ram := fun a => a <? 2 ^ 23 in let phys := fun a => a mod 2 ^ k in
  let mem := fun t => soc_bytes (soc_run k D x0 p t) in
  forall n t, program_io ram phys mine dev s inp mem n t ->
  let q := io_run ram phys (undisturbed dev) n (boot_arch s, soc_bytes x0) in
  agrees mine (so_cpu (soc_run k D x0 p (S t))) (mem t) q /\
  forall w, fetch_done s inp t w -> own_ram ram phys mine (pc (fst q)) 4 -> w = peek phys (snd q) (pc (fst q)) 4.
Proof.
  intros k D x0 p mine dev Hs Hp s inp ram phys mem n t Pr q. pose proof (soc_ok k D x0 p Hs Hp) as K. pose proof (soc_ram_slave k D x0 p Hs Hp) as Sl.
  assert (Hm : forall t w, fetch_done s inp t w -> forall z, mem t z = ram_mem ram phys s inp (soc_bytes x0) t z).
  { intros u w F z. unfold mem, soc_bytes. rewrite (IoMem.array k D x0 p Hs Hp). cbn [ram_mem]. cbv zeta. fold s inp. destruct (fetch_machine s inp K u w F) as [a M].
    destruct F as (C & U & A & _). pose proof (bus_shows s inp K u C) as Sh. rewrite M in Sh. destruct Sh. rewrite sh_we. cbn [request q_we]. rewrite andb_false_r. reflexivity. }
  pose proof (transparent_io ram phys mine dev s inp (soc_bytes x0) mem K Sl Hm n t Pr) as G. rewrite soc_run_cpu. split; [exact G|].
  intros w F O. apply (same_instruction ram phys mine dev s inp (soc_bytes x0) mem K Sl Hm n t w Pr F). rewrite (proj1 (proj2 G)). exact O.
Qed.
(** C85: and its stores, to RAM and to devices, are those of the machine. *)
Theorem C85_soc_store : forall k D x0 p mine dev, soc_start x0 -> pins_ok p ->
  let s := so_cpu x0 in let inp := soc_inp k D x0 p in let ram := fun a => a <? 2 ^ 23 in let phys := fun a => a mod 2 ^ k in
  let mem := fun t => soc_bytes (soc_run k D x0 p t) in
  forall n t t' w sz rs1 rs2 off, program_io ram phys mine dev s inp mem n t -> ordinary_io ram phys mine dev s inp n t t' w -> decode w = Some (Store sz rs1 rs2 off) ->
  let a := fst (io_run ram phys (undisturbed dev) n (boot_arch s, soc_bytes x0)) in let ea := (rd_x a rs1 + off) mod 2 ^ 32 in
  exists u, one_data s inp t t' u /\ let b := run s inp u in
  o_we b = true /\ o_adr b = ea / 4 /\ (forall i, 0 <= i -> Z.testbit (o_sel b) i = addressed ea (bytes sz) i) /\
  forall i, 0 <= i < bytes sz -> byte (o_dat_w b) (ea mod 4 + i) = byte (rd_x a rs2) i.
Proof.
  intros k D x0 p mine dev Hs Hp s inp ram phys mem n t t' w sz rs1 rs2 off Pr Or Dw a ea. pose proof (soc_ok k D x0 p Hs Hp) as K.
  destruct (C85_soc k D x0 p mine dev Hs Hp n t Pr) as [(A1 & _) _]. rewrite soc_run_cpu in A1. destruct Or as (X & O1 & O2 & _). destruct (decode_regs w _ Dw) as (Hr1 & Hr2).
  assert (E1 : x_of (run s inp (S t)) rs1 = rd_x a rs1) by (apply A1; exact Hr1). assert (E2 : x_of (run s inp (S t)) rs2 = rd_x a rs2) by (apply A1; exact Hr2).
  assert (Al : ea mod bytes sz = 0). { destruct (Z.eq_dec (ea mod bytes sz) 0) as [E|E]; [exact E|]. exfalso. apply (O2 6). unfold sync_cause. rewrite Dw, E1. auto. }
  destruct (C12_store s inp K t t' w _ _ (conj X (conj eq_refl eq_refl)) O1 sz rs1 rs2 off Dw) as (u & H1 & H2); [rewrite E1; exact Al|].
  exists u. split; [exact H1|]. rewrite E1, E2 in H2. cbv zeta in H2 |- *. destruct H2 as (H2 & H3 & H4 & H5 & _). repeat split; assumption.
Qed.
(** The same for the SoC with the CSR bus. *)
Theorem C85_csr_soc : forall k D x0 p mine dev, csoc_start x0 -> pins_ok p ->
  let s := co_cpu x0 in let inp := csoc_inp k D x0 p in let ram := fun a => a <? 2 ^ 23 in let phys := fun a => a mod 2 ^ k in
  let mem := fun t => csoc_bytes (csoc_run k D x0 p t) in
  forall n t, program_io ram phys mine dev s inp mem n t ->
  let q := io_run ram phys (undisturbed dev) n (boot_arch s, csoc_bytes x0) in
  agrees mine (co_cpu (csoc_run k D x0 p (S t))) (mem t) q /\
  forall w, fetch_done s inp t w -> own_ram ram phys mine (pc (fst q)) 4 -> w = peek phys (snd q) (pc (fst q)) 4.
Proof.
  intros k D x0 p mine dev Hs Hp s inp ram phys mem n t Pr q. pose proof (csoc_ok k D x0 p Hs) as K. pose proof (csoc_ram_slave k D x0 p Hs Hp) as Sl.
  assert (Hm : forall t w, fetch_done s inp t w -> forall z, mem t z = ram_mem ram phys s inp (csoc_bytes x0) t z).
  { intros u w F z. unfold mem, csoc_bytes. rewrite (CsrIoMem.array k D x0 p Hs). cbn [ram_mem]. cbv zeta. fold s inp. destruct (fetch_machine s inp K u w F) as [a M].
    destruct F as (C & U & A & _). pose proof (bus_shows s inp K u C) as Sh. rewrite M in Sh. destruct Sh. rewrite sh_we. cbn [request q_we]. rewrite andb_false_r. reflexivity. }
  pose proof (transparent_io ram phys mine dev s inp (csoc_bytes x0) mem K Sl Hm n t Pr) as G. rewrite csoc_run_cpu. split; [exact G|].
  intros w F O. apply (same_instruction ram phys mine dev s inp (csoc_bytes x0) mem K Sl Hm n t w Pr F). rewrite (proj1 (proj2 G)). exact O.
Qed.
Theorem C85_csr_soc_store : forall k D x0 p mine dev, csoc_start x0 -> pins_ok p ->
  let s := co_cpu x0 in let inp := csoc_inp k D x0 p in let ram := fun a => a <? 2 ^ 23 in let phys := fun a => a mod 2 ^ k in
  let mem := fun t => csoc_bytes (csoc_run k D x0 p t) in
  forall n t t' w sz rs1 rs2 off, program_io ram phys mine dev s inp mem n t -> ordinary_io ram phys mine dev s inp n t t' w -> decode w = Some (Store sz rs1 rs2 off) ->
  let a := fst (io_run ram phys (undisturbed dev) n (boot_arch s, csoc_bytes x0)) in let ea := (rd_x a rs1 + off) mod 2 ^ 32 in
  exists u, one_data s inp t t' u /\ let b := run s inp u in
  o_we b = true /\ o_adr b = ea / 4 /\ (forall i, 0 <= i -> Z.testbit (o_sel b) i = addressed ea (bytes sz) i) /\
  forall i, 0 <= i < bytes sz -> byte (o_dat_w b) (ea mod 4 + i) = byte (rd_x a rs2) i.
Proof.
  intros k D x0 p mine dev Hs Hp s inp ram phys mem n t t' w sz rs1 rs2 off Pr Or Dw a ea. pose proof (csoc_ok k D x0 p Hs) as K.
  destruct (C85_csr_soc k D x0 p mine dev Hs Hp n t Pr) as [(A1 & _) _]. rewrite csoc_run_cpu in A1. destruct Or as (X & O1 & O2 & _). destruct (decode_regs w _ Dw) as (Hr1 & Hr2).
  assert (E1 : x_of (run s inp (S t)) rs1 = rd_x a rs1) by (apply A1; exact Hr1). assert (E2 : x_of (run s inp (S t)) rs2 = rd_x a rs2) by (apply A1; exact Hr2).
  assert (Al : ea mod bytes sz = 0). { destruct (Z.eq_dec (ea mod bytes sz) 0) as [E|E]; [exact E|]. exfalso. apply (O2 6). unfold sync_cause. rewrite Dw, E1. auto. }
  destruct (C12_store s inp K t t' w _ _ (conj X (conj eq_refl eq_refl)) O1 sz rs1 rs2 off Dw) as (u & H1 & H2); [rewrite E1; exact Al|].
  exists u. split; [exact H1|]. rewrite E1, E2 in H2. cbv zeta in H2 |- *. destruct H2 as (H2 & H3 & H4 & H5 & _). repeat split; assumption.
Qed.

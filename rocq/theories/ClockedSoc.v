(** * C89 on the example SoCs *)
From Coq Require Import ZArith Lia Bool List.
From Verif Require Import Bits Ucode Cpu Isa Timed BitLemmas Wf Sym Blocks CsrBlocks DecodeOk Boundary Sim Main Obs PropsBus PropsInv Observe PropsIsa PropsFrame Latency LatencySoc Memory SocMem Crash Uart Periph Soc SocIo IoMem CsrBus CsrSoc CsrIoMem SeqTest PowerUp Transparent IoTransparent Emulate Clocked.
Import ListNotations.
Open Scope Z_scope.

(** Addresses at which AttoSoC has something: a RAM access, like any other, takes two cycles. *)
Definition soc_mapped (a : Z) : bool := match region_of a with Some _ => true | None => false end.
Definition soc_wait : latency := fun _ _ _ => 1%nat.
(** The variant with CSR peripherals: two cycles for the RAM, six for a peripheral. *)
Definition csoc_mapped (a : Z) : bool := (0 <=? a) && (4 * a <? 0x4000000).
Definition csoc_wait : latency := fun _ a _ => if 4 * a <? 0x2000000 then 1%nat else 5%nat.

Lemma soc_answers k D x0 p : soc_start x0 -> pins_ok p -> answers_exactly soc_mapped soc_wait (so_cpu x0) (soc_inp k D x0 p).
Proof.
  intros Hs Hp t [C S0] x M. set (s := so_cpu x0) in *. set (inp := soc_inp k D x0 p) in *. pose proof (soc_ok k D x0 p Hs Hp) as K. fold s in K. fold inp in K.
  destruct (C43_soc_bus k D x0 p Hs Hp) as (_ & _ & A1 & _). cbv zeta in A1. fold s inp in A1.
  assert (Mp : region_of (o_adr x) <> None). { unfold soc_mapped in M. destruct (region_of (o_adr x)); [discriminate|discriminate M]. }
  assert (A : ack (inp t) = false).
  { destruct (ack (inp t)) eqn:A; [|reflexivity]. destruct (ok_ack _ _ (soc_bus_ok k D x0 p Hs Hp) t C A) as (u & -> & Cu). fold s inp in Cu. congruence. }
  unfold soc_wait. split; [rewrite Nat.add_1_r; apply (A1 t C Mp A)|]. intros j Hj. replace j with O by lia. rewrite Nat.add_0_r. exact A.
Qed.
Lemma csoc_answers k D x0 p : csoc_start x0 -> pins_ok p -> answers_exactly csoc_mapped csoc_wait (co_cpu x0) (csoc_inp k D x0 p).
Proof.
  intros Hs Hp t [C S0] x M. set (s := co_cpu x0) in *. set (inp := csoc_inp k D x0 p) in *.
  destruct (C60_csr_soc_bus k D x0 p Hs Hp) as (_ & _ & A1). cbv zeta in A1. fold s inp in A1.
  destruct (A1 t C) as (R1 & R2 & _); [destruct t as [|u]; [left; reflexivity|right; exists u; auto]|]. fold x in R1, R2.
  unfold csoc_mapped in M. apply andb_prop in M. destruct M as [M1 M2]. apply Z.leb_le in M1. apply Z.ltb_lt in M2.
  unfold csoc_wait. destruct (Z.ltb_spec (4 * o_adr x) 0x2000000) as [L|L]; [apply R1; lia|apply R2; lia].
Qed.

(** C89 on AttoSoC, whatever the program does in the mapped address space, and whatever the pins do: the simulator gives the cycle
    of every instruction, and the registers, CSRs and RAM in it. *)
Theorem C89_soc : forall k D x0 p, soc_start x0 -> pins_ok p ->
  let s := so_cpu x0 in let inp := soc_inp k D x0 p in let ram := fun a => a <? 2 ^ 23 in let phys := fun a => a mod 2 ^ k in
  let bus := fun c => dat_r (inp c) in let sim := io_clocked ram phys soc_wait (fun c => irq (inp c)) bus (boot_arch s) (soc_bytes x0) in
  forall n, (forall j, (j < n)%nat -> reaches ram phys bus soc_mapped (sim j)) ->
  let '(t, (a, m)) := sim n in soc_mapped (pc a / 4) = true ->
  nth_fetch s inp n t /\ fetch_done s inp t (word_at ram phys bus (sim n)) /\ (forall z, soc_bytes (soc_run k D x0 p t) z = m z) /\
  let x := so_cpu (soc_run k D x0 p (S t)) in
  (forall r, 0 <= r < 32 -> x_of x r = rd_x a r) /\ pc_of x = pc a /\
  mie_of x = mie a /\ mpie_of x = mpie a /\ meie_of x = meie a /\
  mtvec_of x = mtvec a /\ mscratch_of x = mscratch a /\ mepc_of x = mepc a /\ mcause_of x = mcause a.
Proof.
  intros k D x0 p Hs Hp s inp ram phys bus sim n R. pose proof (soc_ok k D x0 p Hs Hp) as K.
  pose proof (C89_device_simulator soc_mapped ram phys soc_wait s inp (soc_bytes x0) K (soc_ram_slave k D x0 p Hs Hp) (soc_answers k D x0 p Hs Hp) n R) as Q.
  cbv zeta in Q. fold bus in Q. fold sim in Q. destruct (sim n) as [t [a m]] eqn:E. intros Mp. destruct (Q Mp) as (Nf & F & Qm & Qr). split; [exact Nf|]. split; [exact F|]. split.
  - intros z. rewrite <- Qm. unfold soc_bytes. rewrite (IoMem.array k D x0 p Hs Hp). cbn [ram_mem]. cbv zeta. fold s inp. destruct (fetch_machine s inp K t _ F) as [b M].
    destruct F as (C & U & A & _). pose proof (bus_shows s inp K t C) as Sh. rewrite M in Sh. destruct Sh. rewrite sh_we. cbn [request q_we]. rewrite andb_false_r. reflexivity.
  - rewrite soc_run_cpu. exact Qr.
Qed.
(** C89 on AttoSoC with CSR peripherals. *)
Theorem C89_csr_soc : forall k D x0 p, csoc_start x0 -> pins_ok p ->
  let s := co_cpu x0 in let inp := csoc_inp k D x0 p in let ram := fun a => a <? 2 ^ 23 in let phys := fun a => a mod 2 ^ k in
  let bus := fun c => dat_r (inp c) in let sim := io_clocked ram phys csoc_wait (fun c => irq (inp c)) bus (boot_arch s) (csoc_bytes x0) in
  forall n, (forall j, (j < n)%nat -> reaches ram phys bus csoc_mapped (sim j)) ->
  let '(t, (a, m)) := sim n in csoc_mapped (pc a / 4) = true ->
  nth_fetch s inp n t /\ fetch_done s inp t (word_at ram phys bus (sim n)) /\ (forall z, csoc_bytes (csoc_run k D x0 p t) z = m z) /\
  let x := co_cpu (csoc_run k D x0 p (S t)) in
  (forall r, 0 <= r < 32 -> x_of x r = rd_x a r) /\ pc_of x = pc a /\
  mie_of x = mie a /\ mpie_of x = mpie a /\ meie_of x = meie a /\
  mtvec_of x = mtvec a /\ mscratch_of x = mscratch a /\ mepc_of x = mepc a /\ mcause_of x = mcause a.
Proof.
  intros k D x0 p Hs Hp s inp ram phys bus sim n R. pose proof (csoc_ok k D x0 p Hs) as K.
  pose proof (C89_device_simulator csoc_mapped ram phys csoc_wait s inp (csoc_bytes x0) K (csoc_ram_slave k D x0 p Hs Hp) (csoc_answers k D x0 p Hs Hp) n R) as Q.
  cbv zeta in Q. fold bus in Q. fold sim in Q. destruct (sim n) as [t [a m]] eqn:E. intros Mp. destruct (Q Mp) as (Nf & F & Qm & Qr). split; [exact Nf|]. split; [exact F|]. split.
  - intros z. rewrite <- Qm. unfold csoc_bytes. rewrite (CsrIoMem.array k D x0 p Hs). cbn [ram_mem]. cbv zeta. fold s inp. destruct (fetch_machine s inp K t _ F) as [b M].
    destruct F as (C & U & A & _). pose proof (bus_shows s inp K t C) as Sh. rewrite M in Sh. destruct Sh. rewrite sh_we. cbn [request q_we]. rewrite andb_false_r. reflexivity.
  - rewrite csoc_run_cpu. exact Qr.
Qed.

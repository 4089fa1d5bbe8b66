(** * C65 on the example SoCs *)
From Coq Require Import ZArith Lia Bool List.
From Verif Require Import Bits Ucode Cpu Isa BitLemmas Timed Wf Sym Boundary Sim Main Obs PropsBus PropsInv Observe PropsIsa SocMem Periph Soc CsrSoc Latency Examples.
Import ListNotations.
Open Scope Z_scope.

(** A bus that acknowledges in the second cycle of a request. *)
Lemma two_cycle_answers s inp : ok s inp -> two_cycle s inp -> answers_within 1 s inp.
Proof.
  intros K Tw t [C S0]. exists 1%nat. split; [lia|]. rewrite Nat.add_1_r. rewrite Tw.
  assert (A : ack (inp t) = false).
  { destruct t as [|u]; [rewrite (timed_cyc s inp K) in C; discriminate C|]. rewrite Tw, S0. rewrite andb_false_r. reflexivity. }
  rewrite C, A. destruct (C05_request_held s inp K t C A) as (H & _). rewrite H. reflexivity.
Qed.
(** Wishbone SoC, software that only touches mapped addresses: a completed fetch at least every 69 cycles. *)
Theorem C65_wishbone_soc : forall k D x0 p, soc_start x0 -> pins_ok p ->
  let s := so_cpu x0 in let inp := soc_inp k D x0 p in
  (forall t, o_cyc (run s inp t) = true -> region_of (o_adr (run s inp t)) <> None) ->
  ok s inp /\ answers_within 1 s inp.
Proof.
  intros k D x0 p Hs Hp s inp Hm. pose proof (soc_ok k D x0 p Hs Hp) as K. split; [exact K|]. intros t [C S0]. destruct (C43_soc_bus k D x0 p Hs Hp) as (_ & _ & A1 & _). cbv zeta in A1. fold s inp in A1.
  destruct (ack (inp t)) eqn:A; [exists 0%nat; split; [lia|rewrite Nat.add_0_r; exact A]|]. exists 1%nat. split; [lia|]. rewrite Nat.add_1_r. apply (A1 t C (Hm t C) A).
Qed.
(** CSR SoC: the peripherals answer after five cycles. *)
Theorem C65_csr_soc : forall k D x0 p, csoc_start x0 -> pins_ok p ->
  let s := co_cpu x0 in let inp := csoc_inp k D x0 p in
  (forall t, o_cyc (run s inp t) = true -> 0 <= 4 * o_adr (run s inp t) < 0x4000000) ->
  ok s inp /\ answers_within 5 s inp.
Proof.
  intros k D x0 p Hs Hp s inp Hm. pose proof (csoc_ok k D x0 p Hs) as K. split; [exact K|]. intros t [C S0]. destruct (C60_csr_soc_bus k D x0 p Hs Hp) as (_ & _ & A1). cbv zeta in A1. fold s inp in A1.
  destruct (A1 t C) as (R1 & R2 & _); [destruct t as [|u]; [left; reflexivity|right; exists u; auto]|]. pose proof (Hm t C) as B.
  destruct (Z.lt_ge_cases (4 * o_adr (run s inp t)) 0x2000000) as [L|L].
  - destruct (R1 ltac:(lia)) as [A _]. exists 1%nat. split; [lia|exact A].
  - destruct (R2 ltac:(lia)) as [A _]. exists 5%nat. split; [lia|exact A].
Qed.

(** ** Concrete cases *)
(** The program of Examples.v with the SoC's memory: the bus answers within one cycle, and the first
    fetch completed at or after cycle 612, where the interrupt is raised, is the one in cycle 615;
    the handler's first fetch is on the bus in cycle 621. *)
Example C65_applies : ok por in0 /\ answers_within 1 por in0 /\ irq (in0 612%nat) = true /\
  (exists w, fetch_done por in0 615 w) /\ irq (in0 616%nat) = true /\ mie_of (run por in0 616) = true /\ meie_of (run por in0 616) = true /\
  o_cyc (run por in0 621) = true /\ o_adr (run por in0 621) = mtvec_of (run por in0 616) / 4 /\ o_adr (run por in0 621) = 128.
Proof.
  pose proof (runs 615 622 0x1b0b13 eq_refl) as E. destruct E as (E & _).
  assert (A1 : o_adr (run por in0 621) = 128) by (core; reflexivity).
  assert (A2 : mtvec_of (run por in0 616) / 4 = 128) by (core; reflexivity).
  split; [apply ok_applies|]. split; [apply two_cycle_answers; [apply ok_applies|apply two_cycle_applies]|].
  split; [reflexivity|]. split; [exists 0x1b0b13; apply E|].
  split; [reflexivity|]. split; [core; reflexivity|]. split; [core; reflexivity|]. split; [core; reflexivity|]. split; [rewrite A1, A2; reflexivity|exact A1].
Qed.
(** The misaligned load at 0x64 of that program: the handler's fetch is requested 9 cycles after the load's. *)
Example C26_late_applies : exists a, o_cyc (run por in0 163) = true /\ ack (in0 163%nat) = true /\ machine por in0 163 = Fetching a /\
  dat_r (in0 163%nat) = 0x10102883 /\ int_enabled a && irq (in0 (163 + 1)%nat) = false /\ decode 0x10102883 = Some (Load Word true 17 0 0x101) /\
  aligned Word ((rd_x a 0 + 0x101) mod 2 ^ 32) = false /\ o_cyc (run por in0 (163 + 9)) = true /\ o_adr (run por in0 (163 + 9)) = 128.
Proof.
  destruct (runs 163 173 0x10102883 eq_refl) as ((F & _) & _). destruct (fetch_machine por in0 ok_applies 163 _ F) as [a M]. destruct F as (C & _ & A & D).
  exists a. split; [exact C|]. split; [exact A|]. split; [exact M|]. split; [exact D|]. split; [apply andb_false_r|]. split; [reflexivity|].
  split; [reflexivity|]. split; core; reflexivity.
Qed.

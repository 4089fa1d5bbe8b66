(** * Telling the two variants of the SoC apart at run time: C61
      (sentinel-rt/examples/attosoc.rs:80-96, [get_bases]) *)
From Coq Require Import ZArith Lia Bool List.
From Verif Require Import Bits Ucode Cpu Isa Timed BitLemmas Wf Sym Main Obs PropsBus Observe PropsIsa Memory SocMem Uart Periph Soc SocIo SocEx CsrBus CsrSoc CsrSocProg.
Import ListNotations.
Open Scope Z_scope.

(** C61: on the Wishbone variant a program that reads MIP before it has read the serial port's
    interrupt register gets 0x800 (external interrupt pending). *)
Theorem C61_wishbone_soc : forall k D x0 p, soc_start x0 -> pins_ok p ->
  let s := so_cpu x0 in let inp := soc_inp k D x0 p in
  forall t t' w x y, executed s inp t t' w x y -> int_taken s inp t w = false ->
  forall f rd g, decode w = Some (Csr f rd g 0x344) ->
  (forall u, (u < t + 3)%nat -> o_cyc (run s inp u) = true -> o_we (run s inp u) = false -> ~ (0x80000000 <= 4 * o_adr (run s inp u) < 0xC0000000 /\ Z.odd (o_adr (run s inp u)) = true)) ->
  writes_rd x y rd 0x800.
Proof.
  intros k D x0 p Hs Hp s inp t t' w x y E T f rd g Dc No.
  assert (K : ok s inp) by (apply bus_ok_ok, soc_bus_ok; assumption).
  destruct (C25_mip s inp K t t' w x y E T f rd g Dc) as [W _].
  destruct (C49_irq_after_reset k D x0 p Hs Hp) as (_ & I & _). fold s inp in I.
  rewrite I in W; [exact W|lia|]. intros u Hu C We [A O]. apply (No u ltac:(lia) C We). split; [lia|assumption].
Qed.

Lemma rx_stays_idle D n line ack : forall t, (forall u, (u < t)%nat -> line u = true) ->
  let s := rx_run D n (rx_init n) line ack t in rx_count s = 0 /\ rx_rdy s = false.
Proof.
  induction t as [|t IH]; intros L; [split; reflexivity|]. cbv zeta in *. destruct IH as [C R]; [intros; apply L; lia|]. cbn [rx_run]. unfold rx_step.
  rewrite C, (L t) by lia. cbn [Z.eqb negb andb rx_count rx_rdy]. rewrite R. split; [reflexivity|]. destruct (ack t); reflexivity.
Qed.
(** C61: on the CSR variant a program that reads MIP before it has written to the serial port, before
    the first tick of the timer and before a character begins to arrive gets 0. *)
Theorem C61_csr_soc : forall k D x0 p, 1 <= D -> csoc_start x0 -> pins_ok p ->
  let s := co_cpu x0 in let inp := csoc_inp k D x0 p in
  forall t t' w x y, executed s inp t t' w x y -> int_taken s inp t w = false ->
  forall f rd g, decode w = Some (Csr f rd g 0x344) ->
  Z.of_nat t + 3 < 16384 -> (forall u, (u < t + 3)%nat -> pi_rx (p u) = true) ->
  (forall u, (u < t + 3)%nat -> o_cyc (run s inp u) = true -> o_we (run s inp u) = true -> 4 * o_adr (run s inp u) <> 0x3000000) ->
  writes_rd x y rd 0.
Proof.
  intros k D x0 p HD Hs Hp s inp t t' w x y E T f rd g Dc Ht Rx No.
  pose proof (csoc_ok k D x0 p Hs) as K. fold s inp in K.
  destruct (C25_mip s inp K t t' w x y E T f rd g Dc) as [W _].
  pose proof (csoc_env k D x0 p Hs Hp) as En. set (b := pbus k D x0 p) in *. set (ak := pak k D x0 p).
  destruct (C59_csr_timer D b (pgi p) (prx p) En) as [T0 Ti]. destruct (C59_csr_serial_irq D b (pgi p) (prx p) En) as [Ri Xi].
  destruct (C59_csr_transmit D b (pgi p) (prx p) En HD) as (_ & St & I0 & I1 & _). destruct (C59_csr_receive D b (pgi p) (prx p) En) as (_ & _ & Er).
  cbv zeta in *. set (st := csrp_run D csrp_init b (pgi p) (prx p)) in *. change (fun t : nat => cp_ack (st t)) with ak in *.
  assert (Tm : forall u, (u <= t + 3)%nat -> ct_irq (cp_timer (st u)) = false).
  { induction u as [|u IH]; intros Hu; [exact T0|]. rewrite Ti, IH by lia. rewrite (Z.mod_small (Z.of_nat (S u))) by lia. apply Z.eqb_neq. lia. }
  assert (Fu : forall u, (u <= t + 3)%nat -> rx_rdy (cs_rx (cp_serial (st u))) = false).
  { intros u Hu. rewrite Er. apply rx_stays_idle. intros v Hv. apply Rx. lia. }
  assert (Id : forall u, (u <= t + 3)%nat -> tx_ack (cs_tx (cp_serial (st u))) = true).
  { induction u as [|u IH]; intros Hu; [exact I0|]. destruct u as [|u]; [exact I1|]. specialize (IH ltac:(lia)).
    destruct (tx_ack (cs_tx (cp_serial (st (S (S u)))))) eqn:Q; [reflexivity|]. exfalso.
    specialize (St u). replace (u + 1)%nat with (S u) in St by lia. replace (u + 2)%nat with (S (S u)) in St by lia. specialize (St IH Q).
    unfold writing in St. do 3 (apply andb_prop in St; destruct St as [St ?]).
    destruct (during k D x0 p Hs Hp u St 0%nat ltac:(lia)) as (_ & C & I & _). rewrite Nat.add_0_r in C, I. fold s inp in C, I.
    apply (No u ltac:(lia) C); [exact H1|]. unfold at_reg in H. unfold b, pbus in H. fold s inp in H. cbn [per_bus cpu_bus b_adr] in H.
    destruct (reg_at _) as [r|] eqn:Q2; [|discriminate]. apply reg_eqb_eq in H. subst r. apply (reg_address_of _ _ I) in Q2. rewrite Q2. reflexivity. }
  assert (Nr : cs_rxi (cp_serial (st (t + 3)%nat)) = false).
  { destruct (cs_rxi _) eqn:Q; [|reflexivity]. apply Ri in Q. destruct Q as (u & Hu & Q & _). destruct u as [|u]; [discriminate|]. cbn [rises_later] in Q. rewrite Fu in Q by lia. discriminate. }
  assert (Nx : cs_txi (cp_serial (st (t + 3)%nat)) = false).
  { destruct (cs_txi _) eqn:Q; [|reflexivity]. apply Xi in Q. destruct Q as (u & Hu & Q & _). destruct u as [|u]; [discriminate|]. cbn [rises_later] in Q. rewrite !Id in Q by lia. discriminate. }
  assert (Iq : irq (inp (t + 3)%nat) = false).
  { unfold inp, csoc_inp, co_inp. cbn [irq]. rewrite (csoc_per k D x0 p Hs). fold b. change (csrp_run D csrp_init b (pgi p) (prx p)) with st. unfold cs_irq. rewrite Tm, Nr, Nx by lia. reflexivity. }
  rewrite Iq in W. exact W.
Qed.

(** ** A program that reads MIP first and then uses the peripherals, on either variant *)
(** csrrs x8,mip,x0; lui x1,0x2000; addi x2,x0,0x5a; sw x2,0(x1); lui x3,0x3000; sb x2,0(x3);
    lw x4,4(x1); lw x5,4(x3); lui x6,0x2800; lw x7,0(x6); lui x9,0x4000; lw x10,0(x9) *)
Definition det_prog : list Z :=
  [0x34402473; 0x020000b7; 0x05a00113; 0x0020a023; 0x030001b7; 0x00218023; 0x0040a203; 0x0041a283; 0x02800337; 0x00032383; 0x040004b7; 0x0004a503].
Definition det_mem : wbmem := {| wm_mem := fun a => nth (Z.to_nat a) det_prog 0; wm_rdata := 0; wm_ack := false |}.
Lemma det_mem_start : mem_start det_mem.
Proof.
  constructor; [|cbn; unfold word; lia|reflexivity]. intros a. cbn [det_mem wm_mem].
  assert (F : forallb (fun w => (0 <=? w) && (w <? 2 ^ 32)) det_prog = true) by (vm_compute; reflexivity).
  rewrite forallb_forall in F. destruct (nth_in_or_default (Z.to_nat a) det_prog 0) as [I|E].
  - specialize (F _ I). apply andb_prop in F. destruct F as [F1 F2]. apply Z.leb_le in F1. apply Z.ltb_lt in F2. unfold word. lia.
  - rewrite E. unfold word. lia.
Qed.
Definition det_csr : csoc := {| co_cpu := por; co_mem := det_mem; co_per := csrp_init |}.
Definition det_wb : soc := {| so_cpu := por; so_mem := det_mem; so_leds := leds_init; so_timer := timer_init; so_serial := serial_init |}.
Lemma det_csr_start : csoc_start det_csr. Proof. constructor; [apply por_fresh|apply det_mem_start|reflexivity]. Qed.
Lemma det_wb_start : soc_start det_wb. Proof. constructor; try reflexivity; [apply por_fresh|apply det_mem_start]. Qed.

Definition in2 := csoc_inp 8 4 det_csr pins0.
Definition at2 := csoc_run 8 4 det_csr pins0.
Lemma at2_cpu t : run por in2 t = co_cpu (at2 t).
Proof. symmetry. apply (csoc_cpu 8 4 det_csr pins0 t). Qed.
Definition fetches2 (t : nat) : bool := let x := at2 t in o_cyc (co_cpu x) && u_fetch (s_u (co_cpu x)) && ack (co_inp x).
Definition word_at2 (t : nat) : Z := dat_r (co_inp (at2 t)).
Definition ex_ok2 (t t' : nat) : bool := fetches2 t && Nat.ltb t t' && fetches2 t' && forallb (fun u => negb (fetches2 u)) (seq (S t) (t' - S t)).
Lemma ex_executed2 t t' w : ex_ok2 t t' = true -> word_at2 t = w -> executed por in2 t t' w (run por in2 (S t)) (run por in2 (S t')).
Proof.
  intros H <-. unfold ex_ok2 in H. do 3 (apply andb_prop in H; destruct H as [H ?]). rewrite forallb_forall in H0.
  assert (F : forall u, fetches2 u = true -> fetch_done por in2 u (word_at2 u)).
  { intros u Q. unfold fetches2 in Q. do 2 (apply andb_prop in Q; destruct Q as [Q ?]). unfold fetch_done. rewrite at2_cpu. repeat split; assumption. }
  split; [|split; reflexivity]. split; [apply F; assumption|]. split; [apply Nat.ltb_lt; assumption|]. split; [eexists; apply F; eassumption|].
  intros u w' Hu (C & U & A & _). assert (I : In u (seq (S t) (t' - S t))) by (apply in_seq; lia). specialize (H0 u I). apply negb_true_iff in H0.
  unfold fetches2 in H0. cbv zeta in H0. rewrite at2_cpu in C, U. change (ack (co_inp (at2 u))) with (ack (in2 u)) in H0. rewrite C, U, A in H0. discriminate.
Qed.
Ltac ex2 := split; [apply ex_executed2; vm_compute; reflexivity|].
Lemma below9 (P : nat -> bool) : forallb P (seq 0 9) = true -> forall u, (u < 9)%nat -> P u = true.
Proof. intros H u Hu. rewrite forallb_forall in H. apply H. apply in_seq. lia. Qed.
Example C61_csr_applies : executed por in2 6 13 0x34402473 (run por in2 7) (run por in2 14) /\ int_taken por in2 6 0x34402473 = false /\
  decode 0x34402473 = Some (Csr CSRRS 8 (CReg 0) 0x344) /\ Z.of_nat 6 + 3 < 16384 /\ (forall u, (u < 6 + 3)%nat -> pi_rx (pins0 u) = true) /\
  (forall u, (u < 6 + 3)%nat -> o_cyc (run por in2 u) = true -> o_we (run por in2 u) = true -> 4 * o_adr (run por in2 u) <> 0x3000000) /\
  x_of (run por in2 14) 8 = 0.
Proof.
  ex2. split; [unfold int_taken; rewrite at2_cpu; vm_compute; reflexivity|]. split; [reflexivity|]. split; [lia|]. split; [reflexivity|]. split; [|rewrite at2_cpu; vm_compute; reflexivity].
  intros u Hu _ We. rewrite at2_cpu in We. pose proof (below9 (fun u => negb (o_we (co_cpu (at2 u)))) ltac:(vm_compute; reflexivity) u ltac:(lia)) as Q. cbv beta in Q. rewrite We in Q. discriminate.
Qed.
Definition in3 := soc_inp 8 4 det_wb pins0.
Definition at3 := soc_run 8 4 det_wb pins0.
Lemma at3_cpu t : run por in3 t = so_cpu (at3 t).
Proof. symmetry. apply (soc_cpu 8 4 det_wb pins0 t). Qed.
Example C61_wishbone_applies : executed por in3 6 13 0x34402473 (run por in3 7) (run por in3 14) /\ int_taken por in3 6 0x34402473 = false /\
  decode 0x34402473 = Some (Csr CSRRS 8 (CReg 0) 0x344) /\
  (forall u, (u < 6 + 3)%nat -> o_cyc (run por in3 u) = true -> o_we (run por in3 u) = false -> ~ (0x80000000 <= 4 * o_adr (run por in3 u) < 0xC0000000 /\ Z.odd (o_adr (run por in3 u)) = true)) /\
  x_of (run por in3 14) 8 = 0x800.
Proof.
  split.
  { split; [|split; reflexivity]. unfold executes, fetch_done.
    split; [rewrite at3_cpu; vm_compute; repeat split|]. split; [lia|]. split; [eexists; rewrite at3_cpu; vm_compute; repeat split|].
    intros u w' Hu (C & _ & A & _). rewrite at3_cpu in C.
    assert (Q : forallb (fun u => negb (o_cyc (so_cpu (at3 u)) && ack (so_inp (at3 u)))) (seq 7 6) = true) by (vm_compute; reflexivity).
    rewrite forallb_forall in Q. specialize (Q u ltac:(apply in_seq; lia)). rewrite C in Q. change (ack (so_inp (at3 u))) with (ack (in3 u)) in Q. rewrite A in Q. discriminate. }
  split; [unfold int_taken; rewrite at3_cpu; vm_compute; reflexivity|]. split; [reflexivity|]. split; [|rewrite at3_cpu; vm_compute; reflexivity].
  intros u Hu C _ [A _]. rewrite at3_cpu in A. pose proof (below9 (fun u => o_adr (so_cpu (at3 u)) <? 0x20000000) ltac:(vm_compute; reflexivity) u ltac:(lia)) as Q. cbv beta in Q. apply Z.ltb_lt in Q. lia.
Qed.

(** The hypotheses of the theorems of CsrSoc.v are met: stores to the LEDs and the serial port, loads
    from the GPIO pins, the serial IRQ register and the timer, an access outside the memory map. *)
Example C60_start_applies : csoc_start det_csr /\ pins_ok pins0. Proof. split; [apply det_csr_start|apply pins0_ok]. Qed.
Example C60_outputs_applies : executed por in2 21 35 0x0020a023 (run por in2 22) (run por in2 36) /\ int_taken por in2 21 0x0020a023 = false /\
  decode 0x0020a023 = Some (Store Word 1 2 0) /\ (x_of (run por in2 22) 1 + 0) mod 2 ^ 32 = reg_address (out_reg OutLeds) /\
  out_pins (at2 21) OutLeds = 0 /\ out_pins (at2 35) OutLeds = 0x5a.
Proof. ex2. unfold int_taken. rewrite at2_cpu. vm_compute. repeat split. Qed.
Example C60_serial_applies : executed por in2 39 53 0x00218023 (run por in2 40) (run por in2 54) /\ int_taken por in2 39 0x00218023 = false /\
  decode 0x00218023 = Some (Store Byte 3 2 0) /\ (x_of (run por in2 40) 3 + 0) mod 2 ^ 32 = 0x3000000 /\
  exists u, (39 < u < 53)%nat /\ let tx t := cs_tx (cp_serial (co_per (at2 t))) in tx_ack (tx u) = true /\ tx_ack (tx (S u)) = false /\
  map (fun j => tx_o (tx (u + 1 + 4 * j)%nat)) (seq 0 10) = [false; false; true; false; true; true; false; true; false; true].
Proof.
  ex2. unfold int_taken. rewrite at2_cpu. split; [vm_compute; reflexivity|]. split; [reflexivity|]. split; [vm_compute; reflexivity|]. exists 46%nat. split; [lia|]. vm_compute. repeat split.
Qed.
Example C60_loads_apply :
  (executed por in2 53 66 0x0040a203 (run por in2 54) (run por in2 67) /\ int_taken por in2 53 0x0040a203 = false /\ decode 0x0040a203 = Some (Load Word true 4 1 4) /\
   (x_of (run por in2 54) 1 + 4) mod 2 ^ 32 = reg_address InOutReg /\ x_of (run por in2 67) 4 = 58) /\
  (executed por in2 66 79 0x0041a283 (run por in2 67) (run por in2 80) /\ int_taken por in2 66 0x0041a283 = false /\
   (x_of (run por in2 67) 3 + 4) mod 2 ^ 32 = reg_address SerialIrq) /\
  (executed por in2 83 96 0x00032383 (run por in2 84) (run por in2 97) /\ int_taken por in2 83 0x00032383 = false /\
   (x_of (run por in2 84) 6 + 0) mod 2 ^ 32 = reg_address TimerIrq).
Proof. split; [|split]; ex2; unfold int_taken; rewrite !at2_cpu; vm_compute; repeat split. Qed.
Example C60_unmapped_applies : o_cyc (run por in2 104) = false /\ o_cyc (run por in2 105) = true /\ 4 * o_adr (run por in2 105) = 0x4000000.
Proof. rewrite !at2_cpu. repeat split; vm_compute; reflexivity. Qed.

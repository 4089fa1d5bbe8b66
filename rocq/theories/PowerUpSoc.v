(** * Power-up contents on the two whole SoCs

    C86 for the AttoSoC (Soc.v) and for the CSR SoC (CsrSoc.v): the world around the core is the RAM
    and the peripherals.  Nothing in /repo is modelled here beyond those files. *)
From Coq Require Import ZArith Lia Bool List.
From Verif Require Import Bits Ucode Cpu Isa Timed BitLemmas Wf Sym Boundary Sim Main Obs PropsBus PropsInv Observe PropsIsa PropsFrame Memory SocMem Leak Uart Periph Soc SocIo IoMem CsrBus CsrSoc CsrIoMem PowerUp.
Import ListNotations.
Open Scope Z_scope.

(** Two cores that show the same bus, or are both off the bus. *)
Definition alike (b1 b2 : wbus) : Prop :=
  b2 = b1 \/ (b_cyc b1 = false /\ b_cyc b2 = false /\ b_adr b2 = b_adr b1 /\ b_dat_w b2 = b_dat_w b1).
Lemma outputs_alike x y : same_outputs x y -> alike (cpu_bus x) (cpu_bus y).
Proof. intros (H1 & H2 & H3 & H4 & H5 & H6). left. unfold cpu_bus. rewrite H1, H2, H3, H4, H5, H6. reflexivity. Qed.
Lemma fresh_alike x y : fresh x -> fresh y -> alike (cpu_bus x) (cpu_bus y).
Proof.
  intros (u & m & rd & -> & _) (u' & m' & rd' & -> & _). right. cbn [cpu_bus b_cyc b_adr b_dat_w].
  unfold o_cyc, o_adr, o_dat_w, addr_align_adr. cbn [reset_regs s_u s_mguard s_data_adr s_pc s_wdata]. rewrite !andb_false_r.
  split; [reflexivity|]. split; [reflexivity|]. split; [|reflexivity].
  destruct (u_mreq u), (u_mreq u'), (u_fetch u), (u_fetch u'); reflexivity.
Qed.
Lemma sub_alike r b1 b2 : alike b1 b2 -> alike (sub_bus r b1) (sub_bus r b2).
Proof.
  intros [->|(H1 & H2 & H3 & H4)]; [left; reflexivity|right]. cbn [sub_bus b_cyc b_adr b_dat_w]. rewrite H1, H2, H3, H4.
  repeat split; reflexivity.
Qed.
Lemma alike_req b1 b2 : alike b1 b2 -> b2 = b1 \/ (p_req b1 = false /\ p_req b2 = false /\ b_adr b2 = b_adr b1 /\ b_dat_w b2 = b_dat_w b1).
Proof. unfold p_req. intros [->|(H1 & H2 & H3 & H4)]; [left; reflexivity|right]. rewrite H1, H2, !andb_false_r. auto. Qed.

Lemma leds_alike l b1 b2 g : alike b1 b2 -> leds_step l b2 g = leds_step l b1 g.
Proof. intros H. destruct (alike_req _ _ H) as [->|(H1 & H2 & _)]; [reflexivity|]. unfold leds_step. rewrite H1, H2. reflexivity. Qed.
Lemma timer_alike l b1 b2 : alike b1 b2 -> timer_step l b2 = timer_step l b1.
Proof. intros H. destruct (alike_req _ _ H) as [->|(H1 & H2 & _)]; [reflexivity|]. unfold timer_step. rewrite H1, H2. reflexivity. Qed.
Lemma serial_alike D q b1 b2 rx : alike b1 b2 -> serial_step D q b2 rx = serial_step D q b1 rx.
Proof.
  intros H. destruct (alike_req _ _ H) as [->|(H1 & H2 & _)]; [reflexivity|].
  unfold serial_step, sr_tx_data, sr_tx_rdy, sr_rx_ack, irq_read, at_rxtx. rewrite H1, H2. reflexivity.
Qed.
Lemma csrp_alike D q b1 b2 g rx : alike b1 b2 -> csrp_step D q b2 g rx = csrp_step D q b1 g rx.
Proof.
  intros H. destruct (alike_req _ _ H) as [->|(H1 & H2 & H3 & H4)]; [reflexivity|].
  unfold csrp_step. replace (cp_bus q b2) with (cp_bus q b1); [rewrite H1, H2; reflexivity|].
  unfold cp_bus. rewrite H1, H2, H3, H4. reflexivity.
Qed.

(** Two RAMs with the same contents.  The read register may differ until the first request. *)
Record same_ram (m1 m2 : wbmem) : Prop := { sm_mem : forall a, wm_mem m2 a = wm_mem m1 a; sm_ack : wm_ack m2 = wm_ack m1 }.
Lemma ram_alike k m1 m2 b1 b2 : alike b1 b2 -> same_ram m1 m2 -> same_ram (wbmem_step k m1 b1) (wbmem_step k m2 b2).
Proof.
  intros H [M A]. unfold wbmem_step. change (b_stb b1 && b_cyc b1) with (p_req b1). change (b_stb b2 && b_cyc b2) with (p_req b2).
  destruct (alike_req _ _ H) as [->|(H1 & H2 & _)].
  - constructor; cbn [wm_mem wm_ack]; [|rewrite A; reflexivity]. intros a. destruct (p_req b1 && b_we b1); [|apply M].
    destruct (a =? _); [rewrite M; reflexivity|apply M].
  - rewrite H1, H2. constructor; cbn [wm_mem wm_ack andb]; [exact M|reflexivity].
Qed.

(** The first request after a reset reads word 0. *)
Lemma first_request s inp : ok s inp -> forall t, (forall u, (u < t)%nat -> o_cyc (run s inp u) = false) -> o_cyc (run s inp t) = true ->
  o_we (run s inp t) = false /\ o_adr (run s inp t) = 0.
Proof.
  intros K t H C. pose proof (bus_shows s inp K t C) as Sh.
  assert (M : machine s inp t = machine s inp 0) by (apply machine_waits; [lia|]; intros x Hx; rewrite H by lia; reflexivity).
  rewrite M, <- (timed_machine s inp K) in Sh. destruct Sh. split; [rewrite sh_we|rewrite sh_adr]; reflexivity.
Qed.

(** ** AttoSoC *)
Section Wb.
Variables (k D : Z) (x1 x2 : soc) (p : nat -> pins).
Hypotheses (H1 : soc_start x1) (H2 : soc_start x2) (Hp : pins_ok p) (Hm : forall a, wm_mem (so_mem x2) a = wm_mem (so_mem x1) a).
Local Notation s1 := (so_cpu x1). Local Notation s2 := (so_cpu x2).
Local Notation inp1 := (soc_inp k D x1 p). Local Notation inp2 := (soc_inp k D x2 p).
Local Notation r1 := (soc_run k D x1 p). Local Notation r2 := (soc_run k D x2 p).

Lemma soc_world t : (forall u, (1 <= u < t)%nat -> same_outputs (run s1 inp1 u) (run s2 inp2 u)) ->
  same_ram (so_mem (r1 t)) (so_mem (r2 t)) /\
  (wm_rdata (so_mem (r2 t)) = wm_rdata (so_mem (r1 t)) \/ forall u, (u < t)%nat -> o_cyc (run s1 inp1 u) = false) /\
  so_leds (r2 t) = so_leds (r1 t) /\ so_timer (r2 t) = so_timer (r1 t) /\ so_serial (r2 t) = so_serial (r1 t).
Proof.
  induction t as [|t IH]; intros H.
  - cbn [soc_run]. destruct H1 as [_ M1 L1 T1 R1], H2 as [_ M2 L2 T2 R2]. split; [constructor; [exact Hm|rewrite (ms_ack _ M1), (ms_ack _ M2); reflexivity]|].
    split; [right; intros; lia|]. repeat split; congruence.
  - destruct IH as (M & Rd & L & T & Q); [intros; apply H; lia|].
    assert (Al : alike (cpu_bus (so_cpu (r1 t))) (cpu_bus (so_cpu (r2 t)))).
    { destruct t; [apply fresh_alike; [apply H1|apply H2]|]. rewrite !soc_cpu. apply outputs_alike, H. lia. }
    cbn [soc_run soc_step so_mem so_leds so_timer so_serial].
    split; [apply ram_alike; [apply sub_alike; exact Al|exact M]|]. split.
    + destruct (o_cyc (run s1 inp1 t)) eqn:C.
      * left. assert (t <> 0%nat) by (intros ->; pose proof (proj1 (cyc0 s1 inp1 (soc_ok k D x1 p H1 Hp))) as Z; cbn [run] in C; congruence).
        assert (E : cpu_bus (so_cpu (r2 t)) = cpu_bus (so_cpu (r1 t))).
        { destruct Al as [E|(E & _)]; [exact E|]. rewrite soc_cpu in E. cbn [cpu_bus b_cyc] in E. congruence. }
        rewrite E. unfold wbmem_step. cbn [wm_rdata]. destruct (_ && negb _) eqn:W; [apply M|].
        destruct Rd as [Rd|Rd]; [exact Rd|exfalso].
        destruct (first_request s1 inp1 (soc_ok k D x1 p H1 Hp) t Rd C) as [We Ad].
        rewrite soc_cpu in W. cbn [sub_bus cpu_bus b_stb b_cyc b_we b_adr] in W. rewrite C10_stb_is_cyc, C, We, Ad in W. discriminate W.
      * destruct Rd as [Rd|Rd].
        -- left. unfold wbmem_step. cbn [wm_rdata].
           assert (Z : forall b, b_cyc b = false -> b_stb (sub_bus RAM b) && b_cyc (sub_bus RAM b) = false) by (intros b Z; cbn [sub_bus b_stb b_cyc]; rewrite Z; apply andb_false_r).
           assert (b_cyc (cpu_bus (so_cpu (r1 t))) = false) as Z1 by (rewrite soc_cpu; exact C).
           assert (b_cyc (cpu_bus (so_cpu (r2 t))) = false) as Z2 by (destruct Al as [E|(_ & Z2 & _)]; [rewrite E|]; assumption).
           rewrite (Z _ Z1), (Z _ Z2). exact Rd.
        -- right. intros u Hu. destruct (Nat.eq_dec u t) as [->|]; [exact C|apply Rd; lia].
    + rewrite L, T, Q. split; [apply leds_alike, sub_alike, Al|]. split; [apply timer_alike, sub_alike, Al|apply serial_alike, sub_alike, Al].
Qed.

Lemma soc_reacts t : (forall u, (1 <= u <= t)%nat -> same_outputs (run s1 inp1 u) (run s2 inp2 u)) -> o_cyc (run s1 inp1 t) = true ->
  ack (inp2 t) = ack (inp1 t) /\ (ack (inp1 t) = true -> o_we (run s1 inp1 t) = false -> dat_r (inp2 t) = dat_r (inp1 t)).
Proof.
  intros H C. destruct (soc_world t) as (M & Rd & L & T & Q); [intros; apply H; lia|].
  assert (T0 : (1 <= t)%nat) by (destruct t; [pose proof (proj1 (cyc0 s1 inp1 (soc_ok k D x1 p H1 Hp))) as Z; cbn [run] in C; congruence|lia]).
  destruct (H t ltac:(lia)) as (_ & _ & Ad & _).
  assert (Ak : ack (inp2 t) = ack (inp1 t)).
  { unfold soc_inp, so_inp. cbn [ack]. rewrite !soc_cpu, Ad. destruct (region_of _) as [[]|]; cbn [so_ackr]; rewrite ?L, ?T, ?Q; try reflexivity. apply M. }
  split; [exact Ak|]. intros A _. destruct Rd as [Rd|Rd].
  - unfold soc_inp, so_inp. cbn [dat_r]. rewrite !soc_cpu, Ad. destruct (region_of _) as [[]|]; cbn [so_datr]; rewrite ?L, ?T, ?Q; try reflexivity. exact Rd.
  - exfalso. revert A. unfold soc_inp, so_inp. cbn [ack]. destruct (region_of _) as [r|]; [|discriminate]. fold (ackr k D x1 p r t).
    destruct t as [|t]; [lia|]. rewrite ackr_S, Rd by lia. discriminate.
Qed.
Lemma soc_interrupts t : (forall u, (1 <= u < t)%nat -> same_outputs (run s1 inp1 u) (run s2 inp2 u)) -> irq (inp2 t) = irq (inp1 t).
Proof. intros H. destruct (soc_world t H) as (_ & _ & _ & T & Q). unfold soc_inp, so_inp. cbn [irq]. rewrite T, Q. reflexivity. Qed.
End Wb.

(** C86, AttoSoC.  Two AttoSoCs just after a reset or power-up, with the same RAM contents and the same
    waveforms on the GPIO inputs and the serial input; everything else a reset leaves alone (the core's
    registers, the RAM's read register, the core's microinstruction register) may differ.  If up to cycle
    [n] the program of the first uses nothing it has not defined, then up to cycle [n] RAM, LEDs, GPIO
    outputs, timer and serial port (hence every output pin) are the same in every cycle, and so is the
    bus. *)
Theorem C86_soc : forall k D x1 x2 p, soc_start x1 -> soc_start x2 -> pins_ok p ->
  (forall a, wm_mem (so_mem x2) a = wm_mem (so_mem x1) a) ->
  forall n, careful (so_cpu x1) (soc_inp k D x1 p) n -> forall t, (t <= n)%nat ->
  let y := soc_run k D x1 p t in let z := soc_run k D x2 p t in
  (forall a, wm_mem (so_mem z) a = wm_mem (so_mem y) a) /\ so_leds z = so_leds y /\ so_timer z = so_timer y /\ so_serial z = so_serial y /\
  ((1 <= t)%nat -> same_outputs (so_cpu y) (so_cpu z)).
Proof.
  intros k D x1 x2 p H1 H2 Hp Hm n Hc t Ht y z.
  pose proof (C86_power_up (so_cpu x1) (so_cpu x2) (soc_inp k D x1 p) (soc_inp k D x2 p) (soc_ok k D x1 p H1 Hp) (soc_ok k D x2 p H2 Hp)
    (soc_interrupts k D x1 x2 p H1 H2 Hp Hm) (soc_reacts k D x1 x2 p H1 H2 Hp Hm) n Hc) as (_ & _ & O & _).
  destruct (soc_world k D x1 x2 p H1 H2 Hp Hm t) as (M & _ & L & T & Q); [intros; apply O; lia|].
  split; [apply M|]. repeat (split; [assumption|]). intros T1. unfold y, z. rewrite !soc_cpu. apply O. lia.
Qed.

(** ** CSR SoC *)
Section Csr.
Variables (k D : Z) (x1 x2 : csoc) (p : nat -> pins).
Hypotheses (H1 : csoc_start x1) (H2 : csoc_start x2) (Hm : forall a, wm_mem (co_mem x2) a = wm_mem (co_mem x1) a).
Local Notation s1 := (co_cpu x1). Local Notation s2 := (co_cpu x2).
Local Notation inp1 := (csoc_inp k D x1 p). Local Notation inp2 := (csoc_inp k D x2 p).
Local Notation r1 := (csoc_run k D x1 p). Local Notation r2 := (csoc_run k D x2 p).

Lemma per_alike b1 b2 : alike b1 b2 -> alike (per_bus b1) (per_bus b2).
Proof.
  intros [->|(A1 & A2 & A3 & A4)]; [left; reflexivity|right]. cbn [per_bus b_cyc b_adr b_dat_w]. rewrite A1, A2, A3, A4.
  repeat split; reflexivity.
Qed.
(** Until the first request nothing is acknowledged. *)
Lemma silent t : (forall u, (u < t)%nat -> o_cyc (run s1 inp1 u) = false) ->
  wm_ack (co_mem (r1 t)) = false /\ cp_ack (co_per (r1 t)) = false /\ cp_cycle (co_per (r1 t)) = 0.
Proof.
  induction t as [|t IH]; intros H.
  - cbn [csoc_run]. destruct H1 as [_ M P]. rewrite P. split; [apply M|]. split; reflexivity.
  - destruct IH as (I1 & I2 & I3); [intros; apply H; lia|]. pose proof (H t ltac:(lia)) as C.
    assert (E : forall b, b_cyc (sub_bus RAM b) = b_cyc b && in_region RAM (b_adr b)) by reflexivity.
    assert (E' : p_req (per_bus (cpu_bus (co_cpu (r1 t)))) = false).
    { rewrite csoc_cpu. unfold p_req. cbn [per_bus cpu_bus b_cyc b_stb]. rewrite C. apply andb_false_r. }
    cbn [csoc_run csoc_step co_mem co_per wbmem_step wm_ack csrp_step cp_ack cp_cycle]. rewrite E', I2, E, csoc_cpu.
    cbn [cpu_bus b_cyc]. rewrite C. cbn [andb]. rewrite andb_false_r. split; [reflexivity|]. split; [reflexivity|exact I3].
Qed.

Lemma csoc_world t : (forall u, (1 <= u < t)%nat -> same_outputs (run s1 inp1 u) (run s2 inp2 u)) ->
  same_ram (co_mem (r1 t)) (co_mem (r2 t)) /\
  (wm_rdata (co_mem (r2 t)) = wm_rdata (co_mem (r1 t)) \/ forall u, (u < t)%nat -> o_cyc (run s1 inp1 u) = false) /\
  co_per (r2 t) = co_per (r1 t).
Proof.
  induction t as [|t IH]; intros H.
  - cbn [csoc_run]. destruct H1 as [_ M1 P1], H2 as [_ M2 P2]. split; [constructor; [exact Hm|rewrite (ms_ack _ M1), (ms_ack _ M2); reflexivity]|].
    split; [right; intros; lia|congruence].
  - destruct IH as (M & Rd & P); [intros; apply H; lia|].
    assert (Al : alike (cpu_bus (co_cpu (r1 t))) (cpu_bus (co_cpu (r2 t)))).
    { destruct t; [apply fresh_alike; [apply H1|apply H2]|]. rewrite !csoc_cpu. apply outputs_alike, H. lia. }
    cbn [csoc_run csoc_step co_mem co_per].
    split; [apply ram_alike; [apply sub_alike; exact Al|exact M]|]. split.
    + destruct (o_cyc (run s1 inp1 t)) eqn:C.
      * left. assert (E : cpu_bus (co_cpu (r2 t)) = cpu_bus (co_cpu (r1 t))).
        { destruct Al as [E|(E & _)]; [exact E|]. rewrite csoc_cpu in E. cbn [cpu_bus b_cyc] in E. congruence. }
        rewrite E. unfold wbmem_step. cbn [wm_rdata]. destruct (_ && negb _) eqn:W; [apply M|].
        destruct Rd as [Rd|Rd]; [exact Rd|exfalso].
        destruct (first_request s1 inp1 (csoc_ok k D x1 p H1) t Rd C) as [We Ad].
        rewrite csoc_cpu in W. cbn [sub_bus cpu_bus b_stb b_cyc b_we b_adr] in W. rewrite C10_stb_is_cyc, C, We, Ad in W. discriminate W.
      * destruct Rd as [Rd|Rd].
        -- left. unfold wbmem_step. cbn [wm_rdata].
           assert (Z : forall b, b_cyc b = false -> b_stb (sub_bus RAM b) && b_cyc (sub_bus RAM b) = false) by (intros b Z; cbn [sub_bus b_stb b_cyc]; rewrite Z; apply andb_false_r).
           assert (b_cyc (cpu_bus (co_cpu (r1 t))) = false) as Z1 by (rewrite csoc_cpu; exact C).
           assert (b_cyc (cpu_bus (co_cpu (r2 t))) = false) as Z2 by (destruct Al as [E|(_ & Z2 & _)]; [rewrite E|]; assumption).
           rewrite (Z _ Z1), (Z _ Z2). exact Rd.
        -- right. intros u Hu. destruct (Nat.eq_dec u t) as [->|]; [exact C|apply Rd; lia].
    + rewrite P. apply csrp_alike, per_alike, Al.
Qed.

Lemma csoc_reacts t : (forall u, (1 <= u <= t)%nat -> same_outputs (run s1 inp1 u) (run s2 inp2 u)) -> o_cyc (run s1 inp1 t) = true ->
  ack (inp2 t) = ack (inp1 t) /\ (ack (inp1 t) = true -> o_we (run s1 inp1 t) = false -> dat_r (inp2 t) = dat_r (inp1 t)).
Proof.
  intros H C. destruct (csoc_world t) as (M & Rd & P); [intros; apply H; lia|].
  assert (T0 : (1 <= t)%nat) by (destruct t; [pose proof (proj1 (cyc0 s1 inp1 (csoc_ok k D x1 p H1))) as Z; cbn [run] in C; congruence|lia]).
  destruct (H t ltac:(lia)) as (_ & _ & Ad & _).
  assert (Ak : ack (inp2 t) = ack (inp1 t)).
  { unfold csoc_inp, co_inp. cbn [ack]. rewrite !csoc_cpu, Ad, P. rewrite (sm_ack _ _ M). reflexivity. }
  split; [exact Ak|]. intros A _. destruct Rd as [Rd|Rd].
  - unfold csoc_inp, co_inp. cbn [dat_r]. rewrite !csoc_cpu, Ad, P, Rd. reflexivity.
  - exfalso. revert A. unfold csoc_inp, co_inp. cbn [ack]. destruct (silent t Rd) as (-> & -> & _). destruct (in_ram _); [discriminate|]. destruct (in_per _); discriminate.
Qed.
Lemma csoc_interrupts t : (forall u, (1 <= u < t)%nat -> same_outputs (run s1 inp1 u) (run s2 inp2 u)) -> irq (inp2 t) = irq (inp1 t).
Proof. intros H. destruct (csoc_world t H) as (_ & _ & P). unfold csoc_inp, co_inp. cbn [irq]. rewrite P. reflexivity. Qed.
End Csr.

(** C86, CSR SoC: likewise. *)
Theorem C86_csr_soc : forall k D x1 x2 p, csoc_start x1 -> csoc_start x2 ->
  (forall a, wm_mem (co_mem x2) a = wm_mem (co_mem x1) a) ->
  forall n, careful (co_cpu x1) (csoc_inp k D x1 p) n -> forall t, (t <= n)%nat ->
  let y := csoc_run k D x1 p t in let z := csoc_run k D x2 p t in
  (forall a, wm_mem (co_mem z) a = wm_mem (co_mem y) a) /\ co_per z = co_per y /\
  ((1 <= t)%nat -> same_outputs (co_cpu y) (co_cpu z)).
Proof.
  intros k D x1 x2 p H1 H2 Hm n Hc t Ht y z.
  pose proof (C86_power_up (co_cpu x1) (co_cpu x2) (csoc_inp k D x1 p) (csoc_inp k D x2 p) (csoc_ok k D x1 p H1) (csoc_ok k D x2 p H2)
    (csoc_interrupts k D x1 x2 p H1 H2 Hm) (csoc_reacts k D x1 x2 p H1 H2 Hm) n Hc) as (_ & _ & O & _).
  destruct (csoc_world k D x1 x2 p H1 H2 Hm t) as (M & _ & P); [intros; apply O; lia|].
  split; [apply M|]. split; [exact P|]. intros T1. unfold y, z. rewrite !csoc_cpu. apply O. lia.
Qed.

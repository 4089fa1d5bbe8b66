(** * C91 and C92 on the example SoCs: pin for pin what an instruction-set simulator with the peripherals does

    Nothing in /repo is modelled here beyond Cpu.v, Soc.v and CsrSoc.v: the peripherals of the simulator are those of Periph.v and
    CsrBus.v; the core, the RAM, the address decoder, the bus and the interrupt line are gone. *)
From Coq Require Import ZArith Lia Bool List.
From Verif Require Import Bits Ucode Cpu Isa Timed BitLemmas Wf Sym Blocks CsrBlocks DecodeOk Boundary Sim Main Obs PropsBus PropsInv Observe PropsIsa PropsFrame Latency Memory SocMem Crash Uart Periph Soc SocIo IoMem CsrBus CsrSoc CsrIoMem SeqTest PowerUp Transparent IoTransparent Emulate Clocked ClockedSoc Waves Whole.
Import ListNotations.
Open Scope Z_scope.

(** attosoc.py:863: the RAM's window, in words. *)
Definition in_code : Z -> bool := fun a => a <? 2 ^ 23.
(** ** AttoSoC *)
(** The peripherals, what they do in a cycle, the data they return, their interrupt request
    (attosoc.py:798-812, 863-872, 893-898, with Periph.v). *)
Record gear := { ge_leds : leds; ge_timer : timer; ge_serial : serial }.
Definition gear_init : gear := {| ge_leds := leds_init; ge_timer := timer_init; ge_serial := serial_init |}.
Definition gear_step (D : Z) (g : gear) (b : wbus) (p : pins) : gear :=
  {| ge_leds := leds_step (ge_leds g) (sub_bus LEDS b) (pi_gpio p); ge_timer := timer_step (ge_timer g) (sub_bus TIMER b);
     ge_serial := serial_step D (ge_serial g) (sub_bus SERIAL b) (pi_rx p) |}.
Definition gear_dat (g : gear) (a : Z) : Z :=
  match region_of a with Some LEDS => ld_dat (ge_leds g) | Some TIMER => tm_dat (ge_timer g) | Some SERIAL => sr_dat (ge_serial g) | _ => 0 end.
Definition gear_irq (g : gear) : bool := tm_irq (ge_timer g) || sr_irq (ge_serial g).
Definition gear_of (x : soc) : gear := {| ge_leds := so_leds x; ge_timer := so_timer x; ge_serial := so_serial x |}.
(** The simulator after [n] instructions, and its peripherals in cycle [c]. *)
Definition atto_sim (k D : Z) (p : nat -> pins) (a : arch) (m : Z -> Z) (n : nat) : whole gear :=
  wh_run gear pins (gear_step D) gear_dat gear_irq in_code (fun a => a mod 2 ^ k) soc_wait p (wh_start gear pins (gear_step D) soc_wait p a m gear_init) n.
(** The request at which AttoSoC stops during the instruction at which the simulator is, if it does. *)
Definition atto_stuck (k D : Z) (p : nat -> pins) (q : whole gear) : option (nat * breq) :=
  wh_stuck gear pins (gear_step D) gear_dat gear_irq soc_mapped in_code (fun a => a mod 2 ^ k) soc_wait p q.
Definition atto_hung (k D : Z) (p : nat -> pins) (q : whole gear) (v : nat) (r : breq) (c : nat) : gear :=
  wh_hung gear pins (gear_step D) gear_dat gear_irq in_code (fun a => a mod 2 ^ k) soc_wait p q v r c.
Definition atto_devices (k D : Z) (p : nat -> pins) (a : arch) (m : Z -> Z) (n c : nat) : gear :=
  wh_devices gear pins (gear_step D) gear_dat gear_irq in_code (fun a => a mod 2 ^ k) soc_wait p a m gear_init n c.

(** Two buses a peripheral cannot tell apart. *)
Record like (b1 b2 : wbus) : Prop := {
  li_req : p_req b2 = p_req b1; li_we : p_req b1 = true -> b_we b2 = b_we b1; li_adr : p_req b1 = true -> b_adr b2 = b_adr b1;
  li_sel : p_req b1 = true -> b_sel b2 = b_sel b1; li_dat : p_req b1 = true -> b_we b1 = true -> b_dat_w b2 = b_dat_w b1 }.
Lemma leds_like l b1 b2 g : like b1 b2 -> leds_step l b2 g = leds_step l b1 g.
Proof.
  intros [Rq We Ad Se Da]. unfold leds_step, p_sel0. rewrite Rq. destruct (p_req b1) eqn:R; [|reflexivity]. rewrite We, Ad, Se by reflexivity.
  destruct (b_we b1) eqn:W; [rewrite Da by reflexivity; reflexivity|]. cbn [andb negb]. rewrite !andb_false_r. cbn [andb]. reflexivity.
Qed.
Lemma timer_like l b1 b2 : like b1 b2 -> timer_step l b2 = timer_step l b1.
Proof. intros [Rq We Ad Se Da]. unfold timer_step, p_sel0. rewrite Rq. destruct (p_req b1) eqn:R; [|reflexivity]. rewrite We, Se by reflexivity. reflexivity. Qed.
Lemma serial_like D q b1 b2 rx : like b1 b2 -> serial_step D q b2 rx = serial_step D q b1 rx.
Proof.
  intros [Rq We Ad Se Da]. unfold serial_step, sr_tx_data, sr_tx_rdy, sr_rx_ack, irq_read, at_rxtx, p_sel0. rewrite Rq. destruct (p_req b1) eqn:R; [|reflexivity].
  rewrite We, Ad, Se by reflexivity. destruct (b_we b1) eqn:W; [rewrite Da by reflexivity; reflexivity|]. rewrite !andb_false_r. reflexivity.
Qed.
Lemma sub_like r b1 b2 : like b1 b2 -> like (sub_bus r b1) (sub_bus r b2).
Proof.
  intros [Rq We Ad Se Da]. unfold p_req in *. assert (Q : b_stb b2 && (b_cyc b2 && in_region r (b_adr b2)) = b_stb b1 && (b_cyc b1 && in_region r (b_adr b1))).
  { rewrite !andb_assoc, Rq. destruct (b_stb b1 && b_cyc b1); [rewrite Ad by reflexivity|]; reflexivity. }
  constructor; unfold p_req; cbn [sub_bus b_stb b_cyc b_we b_adr b_sel b_dat_w]; [exact Q| | | |]; rewrite andb_assoc; destruct (b_stb b1 && b_cyc b1); try discriminate; intros _.
  - apply We; reflexivity.
  - rewrite Ad by reflexivity. reflexivity.
  - rewrite Se by reflexivity. reflexivity.
  - intros W. rewrite Da by (reflexivity || exact W). reflexivity.
Qed.
Lemma off_like b1 b2 : p_req b1 = false -> p_req b2 = false -> like b1 b2.
Proof. intros H1 H2. constructor; rewrite ?H1, ?H2; try discriminate. reflexivity. Qed.
Lemma req_like r x : Sim.shows r x -> like (req_bus r) (cpu_bus x).
Proof. intros [Cy St Ad Se We Da]. constructor; unfold p_req; cbn [req_bus cpu_bus b_stb b_cyc b_we b_adr b_sel b_dat_w]; rewrite ?Cy, ?St; auto. Qed.
Lemma code_region a r : in_code a = true -> r <> RAM -> in_region r a = false.
Proof.
  intros H N. apply Z.ltb_lt in H. unfold in_region, region_of. assert (a / 2 ^ 23 < 1) by (apply Z.div_lt_upper_bound; lia).
  assert (a / 2 ^ 28 < 1) by (apply Z.div_lt_upper_bound; lia).
  destruct (Z.eqb_spec (a / 2 ^ 23) 0); [destruct r; (contradiction || reflexivity)|]. destruct (Z.eqb_spec (a / 2 ^ 23) 1); [lia|].
  destruct (Z.eqb_spec (a / 2 ^ 28) 1); [lia|]. destruct (Z.eqb_spec (a / 2 ^ 28) 2); [lia|reflexivity].
Qed.
Lemma idle_like r x : o_cyc x = false \/ in_code (o_adr x) = true -> r <> RAM -> like (sub_bus r idle_bus) (sub_bus r (cpu_bus x)).
Proof.
  intros H N. apply off_like; unfold p_req; cbn [sub_bus cpu_bus b_stb b_cyc b_adr idle_bus]; [reflexivity|].
  destruct H as [->|H]; [apply andb_false_r|]. rewrite (code_region _ r H N), andb_false_r. apply andb_false_r.
Qed.
Lemma gear_steps D x b p : like (sub_bus LEDS b) (sub_bus LEDS (cpu_bus (so_cpu x))) -> like (sub_bus TIMER b) (sub_bus TIMER (cpu_bus (so_cpu x))) ->
  like (sub_bus SERIAL b) (sub_bus SERIAL (cpu_bus (so_cpu x))) -> forall k, gear_of (soc_step k D x p) = gear_step D (gear_of x) b p.
Proof.
  intros L T Q k. unfold gear_of, gear_step, soc_step. cbn [so_leds so_timer so_serial ge_leds ge_timer ge_serial].
  rewrite (leds_like _ _ _ _ L), (timer_like _ _ _ T), (serial_like _ _ _ _ _ Q). reflexivity.
Qed.

Section Atto.
Variables (k D : Z) (x0 : soc) (p : nat -> pins).
Hypotheses (Hs : soc_start x0) (Hp : pins_ok p).
Local Notation s := (so_cpu x0). Local Notation inp := (soc_inp k D x0 p). Local Notation sr := (soc_run k D x0 p).
Lemma gear_quiet c d : o_cyc (run s inp c) = false \/ in_code (o_adr (run s inp c)) = true -> gear_of (sr c) = d -> gear_of (sr (S c)) = gear_step D d idle_bus (p c).
Proof. intros H <-. cbn [soc_run]. apply gear_steps; rewrite soc_run_cpu; apply idle_like; (exact H || discriminate). Qed.
Lemma gear_request c d r : Sim.shows r (run s inp c) -> in_code (q_adr r) = false -> gear_of (sr c) = d -> gear_of (sr (S c)) = gear_step D d (req_bus r) (p c).
Proof. intros H _ <-. cbn [soc_run]. apply gear_steps; rewrite soc_run_cpu; apply sub_like, req_like, H. Qed.
Lemma gear_interrupt c d : gear_of (sr c) = d -> irq (inp c) = gear_irq d.
Proof. intros <-. reflexivity. Qed.
Lemma gear_data c d : in_code (o_adr (run s inp c)) = false -> gear_of (sr c) = d -> dat_r (inp c) = gear_dat d (o_adr (run s inp c)).
Proof.
  intros H <-. unfold soc_inp, so_inp. cbn [dat_r]. rewrite soc_run_cpu. unfold gear_dat. destruct (region_of _) as [[]|] eqn:R; try reflexivity.
  exfalso. unfold in_code in H. apply Z.ltb_ge in H. unfold region_of in R. set (b := o_adr (run s inp c)) in *.
  assert (1 <= b / 2 ^ 23) by (apply Z.div_le_lower_bound; lia). destruct (Z.eqb_spec (b / 2 ^ 23) 0); [lia|].
  destruct (_ =? 1); [discriminate|]. destruct (_ =? 1); [discriminate|]. destruct (_ =? 2); discriminate.
Qed.
End Atto.

(** C91, AttoSoC.  Until the program fetches from, loads from or stores to an address where nothing is: its [n]-th fetch is acknowledged in the
    cycle the simulator says; registers, CSRs and RAM are then the simulator's; and in every cycle until then, LEDs, GPIO, timer and serial port are, to the
    last flip-flop, those of the simulator. *)
Theorem C91_soc : forall k D x0 p, soc_start x0 -> pins_ok p ->
  let sim := atto_sim k D p (boot_arch (so_cpu x0)) (soc_bytes x0) in
  forall n, (forall j, (j < n)%nat -> atto_stuck k D p (sim j) = None) ->
  let t := wh_time (sim n) in let a := wh_arch (sim n) in
  nth_fetch (so_cpu x0) (soc_inp k D x0 p) n t /\
  (forall z, soc_bytes (soc_run k D x0 p t) z = wh_mem (sim n) z) /\
  (let x := so_cpu (soc_run k D x0 p (S t)) in
   (forall r, 0 <= r < 32 -> x_of x r = rd_x a r) /\ pc_of x = pc a /\
   mie_of x = mie a /\ mpie_of x = mpie a /\ meie_of x = meie a /\
   mtvec_of x = mtvec a /\ mscratch_of x = mscratch a /\ mepc_of x = mepc a /\ mcause_of x = mcause a) /\
  forall c, (c <= t)%nat -> let y := soc_run k D x0 p c in let g := atto_devices k D p (boot_arch (so_cpu x0)) (soc_bytes x0) n c in
  so_leds y = ge_leds g /\ so_timer y = ge_timer g /\ so_serial y = ge_serial g.
Proof.
  intros k D x0 p Hs Hp sim n In t a. set (s := so_cpu x0) in *. set (inp := soc_inp k D x0 p) in *. pose proof (soc_ok k D x0 p Hs Hp) as K. fold s inp in K.
  pose proof (soc_ram_slave k D x0 p Hs Hp) as Sl. pose proof (soc_answers k D x0 p Hs Hp) as An.
  assert (G0 : gear_of (soc_run k D x0 p 0) = gear_init) by (unfold gear_of, gear_init; cbn [soc_run]; destruct Hs as [_ _ -> -> ->]; reflexivity).
  destruct (C91_run gear pins (gear_step D) gear_dat gear_irq soc_mapped in_code (fun a => a mod 2 ^ k) soc_wait p s inp (soc_bytes x0) K Sl An (fun c => gear_of (soc_run k D x0 p c)) eq
    (gear_quiet k D x0 p) (gear_request k D x0 p) (gear_interrupt k D x0 p) (gear_data k D x0 p) gear_init G0 eq_refl eq_refl n In) as (Is & Nf & _).
  pose proof (C91_devices gear pins (gear_step D) gear_dat gear_irq soc_mapped in_code (fun a => a mod 2 ^ k) soc_wait p s inp (soc_bytes x0) K Sl An (fun c => gear_of (soc_run k D x0 p c)) eq
    (gear_quiet k D x0 p) (gear_request k D x0 p) (gear_interrupt k D x0 p) (gear_data k D x0 p) gear_init G0 eq_refl eq_refl n In) as Dv.
  split; [exact Nf|]. destruct Is as (F & M & Hm). fold (atto_sim k D p (boot_arch s) (soc_bytes x0) n) in F, M, Hm. fold sim in F, M, Hm. fold t in F, M, Hm. fold a in M.
  split; [|split].
  - intros z. rewrite Hm. unfold soc_bytes. rewrite (IoMem.array k D x0 p Hs Hp). cbn [ram_mem]. cbv zeta. fold s inp.
    destruct F as (C & U & A & _). pose proof (bus_shows s inp K t C) as Sh. rewrite M in Sh. destruct Sh. rewrite sh_we. cbn [request q_we]. rewrite andb_false_r. reflexivity.
  - rewrite soc_run_cpu. destruct (C02_registers_match_reference s inp K t _ F) as (a0 & M0 & Q). rewrite M in M0. injection M0 as <-. exact Q.
  - intros c Hc. specialize (Dv c Hc). cbv zeta. unfold atto_devices. rewrite <- Dv. split; [|split]; reflexivity.
Qed.

(** Nothing answers where nothing is. *)
Lemma soc_nobody k D x0 p c : soc_mapped (o_adr (run (so_cpu x0) (soc_inp k D x0 p) c)) = false -> ack (soc_inp k D x0 p c) = false.
Proof. unfold soc_mapped. intros H. rewrite (ack_is k D x0 p c). destruct (region_of _); [discriminate|reflexivity]. Qed.
Lemma leds_idle l b g : p_req b = false -> let l' := leds_step l b g in ld_leds l' = ld_leds l /\ ld_o l' = ld_o l /\ ld_oe l' = ld_oe l.
Proof. intros R. cbn [leds_step ld_leds ld_o ld_oe]. rewrite R. auto. Qed.
(** C92, AttoSoC.  If the simulator comes to a request [r], in cycle [v], for an address where nothing is: the request stays on the bus, and
    is not acknowledged; no instruction is fetched any more; the RAM stays as it is; timer and serial port run on, LEDs and GPIO stay. *)
Theorem C92_soc : forall k D x0 p, soc_start x0 -> pins_ok p ->
  let s := so_cpu x0 in let inp := soc_inp k D x0 p in let sim := atto_sim k D p (boot_arch s) (soc_bytes x0) in let y := soc_run k D x0 p in
  forall n v r, (forall j, (j < n)%nat -> atto_stuck k D p (sim j) = None) -> atto_stuck k D p (sim n) = Some (v, r) ->
  (wh_time (sim n) < v)%nat /\ request_starts s inp v /\
  (forall c, (v <= c)%nat ->
    let x := so_cpu (y c) in o_cyc x = true /\ o_stb x = true /\ o_adr x = q_adr r /\ o_sel x = q_sel r /\ o_we x = q_we r /\ (q_we r = true -> o_dat_w x = q_dat r) /\
    ack (inp c) = false /\ (forall z, soc_bytes (y c) z = soc_bytes (y v) z) /\
    ld_leds (so_leds (y c)) = ld_leds (so_leds (y v)) /\ ld_o (so_leds (y c)) = ld_o (so_leds (y v)) /\ ld_oe (so_leds (y c)) = ld_oe (so_leds (y v))) /\
  (forall c w, (wh_time (sim n) < c)%nat -> ~ fetch_done s inp c w) /\
  forall c, (wh_time (sim n) <= c)%nat -> let g := atto_hung k D p (sim n) v r c in so_leds (y c) = ge_leds g /\ so_timer (y c) = ge_timer g /\ so_serial (y c) = ge_serial g.
Proof.
  intros k D x0 p Hs Hp s inp sim y n v r In St. pose proof (soc_ok k D x0 p Hs Hp) as K. fold s inp in K.
  pose proof (soc_ram_slave k D x0 p Hs Hp) as Sl. pose proof (soc_answers k D x0 p Hs Hp) as An.
  assert (G0 : gear_of (soc_run k D x0 p 0) = gear_init) by (unfold gear_of, gear_init; cbn [soc_run]; destruct Hs as [_ _ -> -> ->]; reflexivity).
  destruct (C92_hang gear pins (gear_step D) gear_dat gear_irq soc_mapped in_code (fun a => a mod 2 ^ k) soc_wait p s inp (soc_bytes x0) K Sl An (fun c => gear_of (soc_run k D x0 p c)) eq
    (gear_quiet k D x0 p) (gear_request k D x0 p) (gear_interrupt k D x0 p) (gear_data k D x0 p) gear_init G0 eq_refl eq_refl (fun c _ => soc_nobody k D x0 p c) n v r In St) as (Lv & Rs & Fo & Nf & Dv & Hm).
  split; [exact Lv|]. split; [exact Rs|]. split; [|split; [exact Nf|]].
  - assert (Bm : forall c z, (v <= c)%nat -> soc_bytes (y c) z = soc_bytes (y v) z).
    { intros c z Hc. unfold y, soc_bytes. rewrite !(IoMem.array k D x0 p Hs Hp). fold s inp. rewrite !Hm by lia. reflexivity. }
    assert (Mr : region_of (q_adr r) = None).
    { unfold atto_stuck, wh_stuck, soc_mapped in St. cbv zeta in St. destruct (wh_transfer _ _ _ _ _ _ _ _ _) as [[n' r']|].
      - destruct (region_of (q_adr r')) eqn:R; [|congruence]. destruct (region_of (q_adr (fetch_req _))) eqn:R'; congruence.
      - destruct (region_of (q_adr (fetch_req _))) eqn:R'; congruence. }
    assert (Ld : forall d, let a := so_leds (y (v + d)%nat) in let b := so_leds (y v) in ld_leds a = ld_leds b /\ ld_o a = ld_o b /\ ld_oe a = ld_oe b).
    { induction d as [|d (I1 & I2 & I3)]; cbv zeta in *; [rewrite Nat.add_0_r; auto|]. rewrite Nat.add_succ_r. unfold y in *. cbn [soc_run]. set (z := soc_run k D x0 p (v + d)) in *. cbn [soc_step so_leds].
      destruct (leds_idle (so_leds z) (sub_bus LEDS (cpu_bus (so_cpu z))) (pi_gpio (p (v + d)%nat))) as (E1 & E2 & E3).
      - unfold p_req. cbn [sub_bus cpu_bus b_stb b_cyc b_adr]. unfold z. rewrite soc_run_cpu. fold s inp. destruct (Fo (v + d)%nat ltac:(lia)) as [Sh _]. rewrite (sh_adr _ _ Sh).
        unfold in_region. rewrite Mr, andb_false_r. apply andb_false_r.
      - rewrite E1, E2, E3. auto. }
    intros c Hc x. unfold x, y. rewrite soc_run_cpu. destruct (Fo c Hc) as [[Cy Sb Ad Se We Da] Na]. fold s inp. do 7 (split; [assumption|]). split; [intros z; apply Bm, Hc|].
    replace c with (v + (c - v))%nat by lia. apply Ld.
  - intros c Hc. specialize (Dv c Hc). cbv zeta. unfold atto_hung. unfold sim, atto_sim. rewrite <- Dv. split; [|split]; reflexivity.
Qed.
(** C92, AttoSoC: it stops exactly if the simulator comes to such a request. *)
Theorem C92_soc_iff : forall k D x0 p, soc_start x0 -> pins_ok p ->
  let s := so_cpu x0 in let inp := soc_inp k D x0 p in let sim := atto_sim k D p (boot_arch s) (soc_bytes x0) in
  (exists c, forall c' w, (c <= c')%nat -> ~ fetch_done s inp c' w) <-> exists n, atto_stuck k D p (sim n) <> None.
Proof.
  intros k D x0 p Hs Hp s inp sim. pose proof (soc_ok k D x0 p Hs Hp) as K. fold s inp in K.
  pose proof (soc_ram_slave k D x0 p Hs Hp) as Sl. pose proof (soc_answers k D x0 p Hs Hp) as An.
  assert (G0 : gear_of (soc_run k D x0 p 0) = gear_init) by (unfold gear_of, gear_init; cbn [soc_run]; destruct Hs as [_ _ -> -> ->]; reflexivity).
  exact (C92_hang_iff gear pins (gear_step D) gear_dat gear_irq soc_mapped in_code (fun a => a mod 2 ^ k) soc_wait p s inp (soc_bytes x0) K Sl An (fun c => gear_of (soc_run k D x0 p c)) eq
    (gear_quiet k D x0 p) (gear_request k D x0 p) (gear_interrupt k D x0 p) (gear_data k D x0 p) gear_init G0 eq_refl eq_refl (fun c _ => soc_nobody k D x0 p c)).
Qed.

(** ** CSR SoC *)
(** attosoc.py:874-898, with CsrBus.v. *)
Definition csr_dat (g : csrp) (a : Z) : Z := if in_per a then cp_dat g else 0.
Definition csr_irq (g : csrp) : bool := ct_irq (cp_timer g) || cs_irq (cp_serial g).
Definition csr_dev_step (D : Z) (g : csrp) (b : wbus) (p : pins) : csrp := csrp_step D g (per_bus b) (pi_gpio p) (pi_rx p).
Definition csr_sim (k D : Z) (p : nat -> pins) (a : arch) (m : Z -> Z) (n : nat) : whole csrp :=
  wh_run csrp pins (csr_dev_step D) csr_dat csr_irq in_code (fun a => a mod 2 ^ k) csoc_wait p (wh_start csrp pins (csr_dev_step D) csoc_wait p a m csrp_init) n.
Definition csr_stuck (k D : Z) (p : nat -> pins) (q : whole csrp) : option (nat * breq) :=
  wh_stuck csrp pins (csr_dev_step D) csr_dat csr_irq csoc_mapped in_code (fun a => a mod 2 ^ k) csoc_wait p q.
Definition csr_hung (k D : Z) (p : nat -> pins) (q : whole csrp) (v : nat) (r : breq) (c : nat) : csrp :=
  wh_hung csrp pins (csr_dev_step D) csr_dat csr_irq in_code (fun a => a mod 2 ^ k) csoc_wait p q v r c.
Definition csr_devices (k D : Z) (p : nat -> pins) (a : arch) (m : Z -> Z) (n c : nat) : csrp :=
  wh_devices csrp pins (csr_dev_step D) csr_dat csr_irq in_code (fun a => a mod 2 ^ k) csoc_wait p a m csrp_init n c.
(** All of the peripherals' state, except write data that is not being written. *)
Record same_mux (a b : mux) : Prop := { sx_r : mx_r b = mx_r a; sx_w : mx_w b = mx_w a; sx_wd : mx_w a <> None -> mx_wd b = mx_wd a }.
Record same_csr (x y : csrp) : Prop := {
  sc_cycle : cp_cycle y = cp_cycle x; sc_dat : cp_dat y = cp_dat x; sc_ack : cp_ack y = cp_ack x;
  sc_lmux : same_mux (cl_mux (cp_leds x)) (cl_mux (cp_leds y));
  sc_leds : cl_leds (cp_leds y) = cl_leds (cp_leds x); sc_o : cl_o (cp_leds y) = cl_o (cp_leds x); sc_oe : cl_oe (cp_leds y) = cl_oe (cp_leds x);
  sc_tmux : same_mux (ct_mux (cp_timer x)) (ct_mux (cp_timer y)); sc_cnt : ct_cnt (cp_timer y) = ct_cnt (cp_timer x);
  sc_smux : same_mux (cs_mux (cp_serial x)) (cs_mux (cp_serial y));
  sc_tx : cs_tx (cp_serial y) = cs_tx (cp_serial x); sc_rx : cs_rx (cp_serial y) = cs_rx (cp_serial x);
  sc_rxi : cs_rxi (cp_serial y) = cs_rxi (cp_serial x); sc_rxp : cs_rxp (cp_serial y) = cs_rxp (cp_serial x);
  sc_txi : cs_txi (cp_serial y) = cs_txi (cp_serial x); sc_txp : cs_txp (cp_serial y) = cs_txp (cp_serial x) }.
Lemma same_csr_refl x : same_csr x x.
Proof. constructor; try reflexivity; constructor; reflexivity. Qed.
Record like_csr (a b : cbus) : Prop := {
  lc_r : c_rstb b = c_rstb a; lc_w : c_wstb b = c_wstb a; lc_addr : c_rstb a || c_wstb a = true -> c_addr b = c_addr a;
  lc_data : c_wstb a = true -> c_wdata b = c_wdata a }.
Lemma mux_like rd rd' wr a b : like_csr a b -> (forall o, rd' o = rd o) -> same_mux (mux_step rd wr a) (mux_step rd' wr b).
Proof.
  intros [R W Ad Da] E. constructor; cbn [mux_step mx_r mx_w mx_wd]; rewrite ?R, ?W.
  - destruct (c_rstb a); [|reflexivity]. rewrite Ad by reflexivity. rewrite E. reflexivity.
  - destruct (c_wstb a); [|reflexivity]. rewrite Ad by apply orb_true_r. reflexivity.
  - destruct (c_wstb a); [|intros H; contradiction]. intros _. apply Da. reflexivity.
Qed.
Lemma window_like base w a b : like_csr a b -> like_csr (window base w a) (window base w b).
Proof.
  intros [R W Ad Da]. constructor; cbn [window c_addr c_rstb c_wstb c_wdata]; rewrite ?R, ?W.
  - destruct (c_rstb a); [|reflexivity]. rewrite Ad by reflexivity. reflexivity.
  - destruct (c_wstb a); [|reflexivity]. rewrite Ad by apply orb_true_r. reflexivity.
  - intros H. rewrite Ad; [reflexivity|]. destruct (c_rstb a); [reflexivity|]. destruct (c_wstb a); [reflexivity|discriminate].
  - intros H. apply Da. destruct (c_wstb a); [reflexivity|discriminate].
Qed.
Lemma cp_bus_like x y a b : cp_cycle y = cp_cycle x -> like a b -> like_csr (cp_bus x a) (cp_bus y b).
Proof.
  intros E [Rq We Ad Se Da]. unfold cp_bus. rewrite E, Rq. destruct (p_req a) eqn:R; [|constructor; cbn [c_rstb c_wstb c_addr c_wdata andb]; try reflexivity; discriminate].
  rewrite We, Se, Ad by reflexivity. constructor; cbn [c_rstb c_wstb c_addr c_wdata]; try reflexivity.
  intros H. rewrite Da; [reflexivity|reflexivity|]. destruct (b_we a); [reflexivity|rewrite andb_false_r in H; discriminate].
Qed.
Lemma strobed_like a b o : same_mux a b -> strobed b o = strobed a o.
Proof. intros [_ W _]. unfold strobed. rewrite W. reflexivity. Qed.
Lemma strobed_data A a b o (f : Z -> A) e : same_mux a b -> (if strobed b o then f (mx_wd b) else e) = (if strobed a o then f (mx_wd a) else e).
Proof. intros H. rewrite (strobed_like a b o H). destruct H as [_ W Dw]. unfold strobed. destruct (mx_w a); [rewrite Dw by discriminate|]; reflexivity. Qed.
Lemma csrp_like D x y a b gi rx : same_csr x y -> like a b -> same_csr (csrp_step D x a gi rx) (csrp_step D y b gi rx).
Proof.
  intros [Cy Dt Ak Lm Le Lo Loe Tm Cn Sm Tx Rx Rxi Rxp Txi Txp] Lk. pose proof (cp_bus_like x y a b Cy Lk) as Lc. pose proof (li_req _ _ Lk) as Rq.
  assert (Rd : cp_rdata y = cp_rdata x) by (unfold cp_rdata; rewrite (sx_r _ _ Lm), (sx_r _ _ Tm), (sx_r _ _ Sm); reflexivity).
  set (cx := cp_bus x a) in *. set (cy := cp_bus y b) in *.
  pose proof (window_like LEDS_AT 4 _ _ Lc) as L1. pose proof (window_like TIMER_AT 3 _ _ Lc) as L2. pose proof (window_like SERIAL_AT 3 _ _ Lc) as L3.
  assert (Ir : forall base w o, c_rstb (window base w cy) && (c_addr (window base w cy) =? o) = c_rstb (window base w cx) && (c_addr (window base w cx) =? o)).
  { intros base w o. pose proof (window_like base w _ _ Lc) as [R W Ad _]. rewrite R. destruct (c_rstb (window base w cx)); [rewrite Ad by reflexivity|]; reflexivity. }
  constructor; cbn [csrp_step cp_cycle cp_dat cp_ack cp_leds cp_timer cp_serial cleds_step cl_mux cl_leds cl_o cl_oe ctimer_step ct_mux ct_cnt cserial_step cs_mux cs_tx cs_rx cs_rxi cs_rxp cs_txi cs_txp]; cbv zeta;
    fold cx; fold cy; rewrite ?Cy, ?Dt, ?Ak, ?Rq, ?Rd, ?Tx, ?Rx, ?Rxi, ?Rxp, ?Txi, ?Txp, ?Cn, ?Ir; try reflexivity.
  - apply mux_like; [exact L1|reflexivity].
  - rewrite (strobed_data _ _ _ 0 (fun v => v) _ Lm), Le. reflexivity.
  - rewrite (strobed_data _ _ _ 4 (fun v => v) _ Lm), Lo. reflexivity.
  - rewrite (strobed_data _ _ _ 8 (fun v => v) _ Lm), Loe. reflexivity.
  - apply mux_like; [exact L2|]. intros o. unfold ct_irq. rewrite Cn. reflexivity.
  - apply mux_like; [exact L3|reflexivity].
  - rewrite (strobed_like _ _ _ Sm). unfold tx_step. destruct (tx_count (cs_tx (cp_serial x)) =? 0); [|reflexivity].
    destruct Sm as [_ W Dw]. unfold strobed. destruct (mx_w (cs_mux (cp_serial x))); [rewrite Dw by discriminate|]; reflexivity.
Qed.
Lemma per_like b1 b2 : like b1 b2 -> like (per_bus b1) (per_bus b2).
Proof.
  intros [Rq We Ad Se Da]. unfold p_req in *. assert (Q : b_stb b2 && (b_cyc b2 && in_per (b_adr b2)) = b_stb b1 && (b_cyc b1 && in_per (b_adr b1))).
  { rewrite !andb_assoc, Rq. destruct (b_stb b1 && b_cyc b1); [rewrite Ad by reflexivity|]; reflexivity. }
  constructor; unfold p_req; cbn [per_bus b_stb b_cyc b_we b_adr b_sel b_dat_w]; [exact Q| | | |]; rewrite andb_assoc; destruct (b_stb b1 && b_cyc b1); try discriminate; intros _.
  - apply We; reflexivity.
  - rewrite Ad by reflexivity. reflexivity.
  - apply Se; reflexivity.
  - intros W. apply Da; (reflexivity || exact W).
Qed.
Lemma per_idle x : o_cyc x = false \/ in_code (o_adr x) = true -> like (per_bus idle_bus) (per_bus (cpu_bus x)).
Proof.
  intros H. apply off_like; unfold p_req; cbn [per_bus cpu_bus b_stb b_cyc b_adr idle_bus]; [reflexivity|].
  destruct H as [->|H]; [apply andb_false_r|]. apply Z.ltb_lt in H. assert (o_adr x / 2 ^ 23 < 1) by (apply Z.div_lt_upper_bound; lia).
  unfold in_per. destruct (Z.eqb_spec (o_adr x / 2 ^ 23) 1); [lia|]. rewrite andb_false_r. apply andb_false_r.
Qed.

Section Csr.
Variables (k D : Z) (x0 : csoc) (p : nat -> pins).
Local Notation s := (co_cpu x0). Local Notation inp := (csoc_inp k D x0 p). Local Notation sr := (csoc_run k D x0 p).
Local Notation same := (fun x d => same_csr d x).
Lemma csr_quiet c d : o_cyc (run s inp c) = false \/ in_code (o_adr (run s inp c)) = true -> same_csr d (co_per (sr c)) -> same_csr (csr_dev_step D d idle_bus (p c)) (co_per (sr (S c))).
Proof. intros H E. cbn [csoc_run csoc_step co_per]. unfold csr_dev_step. apply csrp_like; [exact E|]. rewrite csoc_run_cpu. apply per_idle, H. Qed.
Lemma csr_request c d r : Sim.shows r (run s inp c) -> in_code (q_adr r) = false -> same_csr d (co_per (sr c)) -> same_csr (csr_dev_step D d (req_bus r) (p c)) (co_per (sr (S c))).
Proof. intros H _ E. cbn [csoc_run csoc_step co_per]. unfold csr_dev_step. apply csrp_like; [exact E|]. rewrite csoc_run_cpu. apply per_like, req_like, H. Qed.
Lemma csr_interrupt c d : same_csr d (co_per (sr c)) -> irq (inp c) = csr_irq d.
Proof. intros E. unfold csoc_inp, co_inp. cbn [irq]. unfold csr_irq, ct_irq, cs_irq. rewrite (sc_cnt _ _ E), (sc_rxi _ _ E), (sc_txi _ _ E). reflexivity. Qed.
Lemma csr_data c d : in_code (o_adr (run s inp c)) = false -> same_csr d (co_per (sr c)) -> dat_r (inp c) = csr_dat d (o_adr (run s inp c)).
Proof.
  intros H E. unfold csoc_inp, co_inp. cbv zeta. cbn [dat_r]. rewrite csoc_run_cpu. unfold csr_dat. rewrite (sc_dat _ _ E). unfold in_code in H. apply Z.ltb_ge in H.
  unfold in_ram. set (b := o_adr (run s inp c)) in *. assert (1 <= b / 2 ^ 23) by (apply Z.div_le_lower_bound; lia). destruct (Z.eqb_spec (b / 2 ^ 23) 0); [lia|reflexivity].
Qed.
End Csr.

(** C91, CSR SoC. *)
Theorem C91_csr_soc : forall k D x0 p, csoc_start x0 -> pins_ok p ->
  let sim := csr_sim k D p (boot_arch (co_cpu x0)) (csoc_bytes x0) in
  forall n, (forall j, (j < n)%nat -> csr_stuck k D p (sim j) = None) ->
  let t := wh_time (sim n) in let a := wh_arch (sim n) in
  nth_fetch (co_cpu x0) (csoc_inp k D x0 p) n t /\
  (forall z, csoc_bytes (csoc_run k D x0 p t) z = wh_mem (sim n) z) /\
  (let x := co_cpu (csoc_run k D x0 p (S t)) in
   (forall r, 0 <= r < 32 -> x_of x r = rd_x a r) /\ pc_of x = pc a /\
   mie_of x = mie a /\ mpie_of x = mpie a /\ meie_of x = meie a /\
   mtvec_of x = mtvec a /\ mscratch_of x = mscratch a /\ mepc_of x = mepc a /\ mcause_of x = mcause a) /\
  forall c, (c <= t)%nat -> same_csr (csr_devices k D p (boot_arch (co_cpu x0)) (csoc_bytes x0) n c) (co_per (csoc_run k D x0 p c)).
Proof.
  intros k D x0 p Hs Hp sim n In t a. set (s := co_cpu x0) in *. set (inp := csoc_inp k D x0 p) in *. pose proof (csoc_ok k D x0 p Hs) as K. fold s inp in K.
  pose proof (csoc_ram_slave k D x0 p Hs Hp) as Sl. pose proof (csoc_answers k D x0 p Hs Hp) as An.
  assert (G0 : same_csr csrp_init (co_per (csoc_run k D x0 p 0))) by (cbn [csoc_run]; destruct Hs as [_ _ ->]; apply same_csr_refl).
  destruct (C91_run csrp pins (csr_dev_step D) csr_dat csr_irq csoc_mapped in_code (fun a => a mod 2 ^ k) csoc_wait p s inp (csoc_bytes x0) K Sl An (fun c => co_per (csoc_run k D x0 p c)) (fun x d => same_csr d x)
    (csr_quiet k D x0 p) (csr_request k D x0 p) (csr_interrupt k D x0 p) (csr_data k D x0 p) csrp_init G0 eq_refl eq_refl n In) as (Is & Nf & _).
  pose proof (C91_devices csrp pins (csr_dev_step D) csr_dat csr_irq csoc_mapped in_code (fun a => a mod 2 ^ k) csoc_wait p s inp (csoc_bytes x0) K Sl An (fun c => co_per (csoc_run k D x0 p c)) (fun x d => same_csr d x)
    (csr_quiet k D x0 p) (csr_request k D x0 p) (csr_interrupt k D x0 p) (csr_data k D x0 p) csrp_init G0 eq_refl eq_refl n In) as Dv.
  split; [exact Nf|]. destruct Is as (F & M & Hm). fold (csr_sim k D p (boot_arch s) (csoc_bytes x0) n) in F, M, Hm. fold sim in F, M, Hm. fold t in F, M, Hm. fold a in M.
  split; [|split].
  - intros z. rewrite Hm. unfold csoc_bytes. rewrite (CsrIoMem.array k D x0 p Hs). cbn [ram_mem]. cbv zeta. fold s inp.
    destruct F as (C & U & A & _). pose proof (bus_shows s inp K t C) as Sh. rewrite M in Sh. destruct Sh. rewrite sh_we. cbn [request q_we]. rewrite andb_false_r. reflexivity.
  - rewrite csoc_run_cpu. destruct (C02_registers_match_reference s inp K t _ F) as (a0 & M0 & Q). rewrite M in M0. injection M0 as <-. exact Q.
  - intros c Hc. exact (Dv c Hc).
Qed.

Lemma csr_nobody k D x0 p c : csoc_start x0 -> o_cyc (run (co_cpu x0) (csoc_inp k D x0 p) c) = true -> csoc_mapped (o_adr (run (co_cpu x0) (csoc_inp k D x0 p) c)) = false -> ack (csoc_inp k D x0 p c) = false.
Proof.
  intros Hs C H. rewrite (cack_is k D x0 p Hs c). set (b := o_adr _) in *. unfold csoc_mapped in H. unfold in_ram, in_per. apply andb_false_iff in H.
  pose proof (Z.div_mod b (2 ^ 23) ltac:(lia)). pose proof (Z.mod_pos_bound b (2 ^ 23) ltac:(lia)).
  destruct (Z.eqb_spec (b / 2 ^ 23) 0); [|destruct (Z.eqb_spec (b / 2 ^ 23) 1); [|reflexivity]]; exfalso; (destruct H as [H|H]; [apply Z.leb_gt in H|apply Z.ltb_ge in H]); lia.
Qed.
(** C92, CSR SoC. *)
Theorem C92_csr_soc : forall k D x0 p, csoc_start x0 -> pins_ok p ->
  let s := co_cpu x0 in let inp := csoc_inp k D x0 p in let sim := csr_sim k D p (boot_arch s) (csoc_bytes x0) in let y := csoc_run k D x0 p in
  forall n v r, (forall j, (j < n)%nat -> csr_stuck k D p (sim j) = None) -> csr_stuck k D p (sim n) = Some (v, r) ->
  (wh_time (sim n) < v)%nat /\ request_starts s inp v /\
  (forall c, (v <= c)%nat ->
    let x := co_cpu (y c) in o_cyc x = true /\ o_stb x = true /\ o_adr x = q_adr r /\ o_sel x = q_sel r /\ o_we x = q_we r /\ (q_we r = true -> o_dat_w x = q_dat r) /\
    ack (inp c) = false /\ (forall z, csoc_bytes (y c) z = csoc_bytes (y v) z) /\
    let l := cp_leds (co_per (y c)) in let l0 := cp_leds (co_per (y v)) in cl_leds l = cl_leds l0 /\ cl_o l = cl_o l0 /\ cl_oe l = cl_oe l0) /\
  (forall c w, (wh_time (sim n) < c)%nat -> ~ fetch_done s inp c w) /\
  forall c, (wh_time (sim n) <= c)%nat -> same_csr (csr_hung k D p (sim n) v r c) (co_per (y c)).
Proof.
  intros k D x0 p Hs Hp s inp sim y n v r In St. pose proof (csoc_ok k D x0 p Hs) as K. fold s inp in K.
  pose proof (csoc_ram_slave k D x0 p Hs Hp) as Sl. pose proof (csoc_answers k D x0 p Hs Hp) as An.
  assert (G0 : same_csr csrp_init (co_per (csoc_run k D x0 p 0))) by (cbn [csoc_run]; destruct Hs as [_ _ ->]; apply same_csr_refl).
  destruct (C92_hang csrp pins (csr_dev_step D) csr_dat csr_irq csoc_mapped in_code (fun a => a mod 2 ^ k) csoc_wait p s inp (csoc_bytes x0) K Sl An (fun c => co_per (csoc_run k D x0 p c)) (fun x d => same_csr d x)
    (csr_quiet k D x0 p) (csr_request k D x0 p) (csr_interrupt k D x0 p) (csr_data k D x0 p) csrp_init G0 eq_refl eq_refl (fun c => csr_nobody k D x0 p c Hs) n v r In St) as (Lv & Rs & Fo & Nf & Dv & Hm).
  split; [exact Lv|]. split; [exact Rs|]. split; [|split; [exact Nf|exact Dv]].
  assert (Bm : forall c z, (v <= c)%nat -> csoc_bytes (y c) z = csoc_bytes (y v) z).
  { intros c z Hc. unfold y, csoc_bytes. rewrite !(CsrIoMem.array k D x0 p Hs). fold s inp. rewrite !Hm by lia. reflexivity. }
  assert (Mr : csoc_mapped (q_adr r) = false).
  { unfold csr_stuck, wh_stuck in St. cbv zeta in St. destruct (wh_transfer _ _ _ _ _ _ _ _ _) as [[n' r']|].
    - destruct (csoc_mapped (q_adr r')) eqn:R; [|congruence]. destruct (csoc_mapped (q_adr (fetch_req _))) eqn:R'; congruence.
    - destruct (csoc_mapped (q_adr (fetch_req _))) eqn:R'; congruence. }
  assert (Np : in_per (q_adr r) = false).
  { unfold csoc_mapped in Mr. unfold in_per. apply Z.eqb_neq. apply andb_false_iff in Mr. pose proof (Z.div_mod (q_adr r) (2 ^ 23) ltac:(lia)). pose proof (Z.mod_pos_bound (q_adr r) (2 ^ 23) ltac:(lia)).
    destruct Mr as [H1|H1]; [apply Z.leb_gt in H1|apply Z.ltb_ge in H1]; lia. }
  assert (Off : forall c, o_cyc (run s inp c) = false \/ in_per (o_adr (run s inp c)) = false -> p_req (per_bus (cpu_bus (co_cpu (y c)))) = false).
  { intros c Hc. unfold p_req, y. cbn [per_bus cpu_bus b_stb b_cyc b_adr]. rewrite csoc_run_cpu. fold s inp. destruct Hc as [Hc|Hc]; rewrite Hc; [apply andb_false_r|rewrite andb_false_r; apply andb_false_r]. }
  assert (Mw : forall c, p_req (per_bus (cpu_bus (co_cpu (y c)))) = false -> mx_w (cl_mux (cp_leds (co_per (y (S c))))) = None).
  { intros c Hc. unfold y in *. cbn [csoc_run csoc_step co_per csrp_step cp_leds cleds_step cl_mux mux_step mx_w]. unfold cp_bus. rewrite Hc. reflexivity. }
  assert (Ld : forall d, mx_w (cl_mux (cp_leds (co_per (y (v + d)%nat)))) = None /\ let l := cp_leds (co_per (y (v + d)%nat)) in let l0 := cp_leds (co_per (y v)) in cl_leds l = cl_leds l0 /\ cl_o l = cl_o l0 /\ cl_oe l = cl_oe l0).
  { induction d as [|d (I0 & I1 & I2 & I3)]; cbv zeta in *.
    - rewrite Nat.add_0_r. split; [|auto]. destruct v as [|u]; [lia|]. destruct Rs as [_ Ru]. apply Mw, Off. left. exact Ru.
    - rewrite Nat.add_succ_r. split; [apply Mw, Off; right; destruct (Fo (v + d)%nat ltac:(lia)) as [Sh _]; rewrite (sh_adr _ _ Sh); exact Np|].
      unfold y in *. cbn [csoc_run csoc_step co_per csrp_step cp_leds cleds_step cl_leds cl_o cl_oe]. unfold strobed. rewrite I0. auto. }
  intros c Hc x. unfold x, y. rewrite csoc_run_cpu. destruct (Fo c Hc) as [[Cy Sb Ad Se We Da] Na]. fold s inp. do 7 (split; [assumption|]). split; [intros z; apply Bm, Hc|].
  replace c with (v + (c - v))%nat by lia. apply Ld.
Qed.
Theorem C92_csr_soc_iff : forall k D x0 p, csoc_start x0 -> pins_ok p ->
  let s := co_cpu x0 in let inp := csoc_inp k D x0 p in let sim := csr_sim k D p (boot_arch s) (csoc_bytes x0) in
  (exists c, forall c' w, (c <= c')%nat -> ~ fetch_done s inp c' w) <-> exists n, csr_stuck k D p (sim n) <> None.
Proof.
  intros k D x0 p Hs Hp s inp sim. pose proof (csoc_ok k D x0 p Hs) as K. fold s inp in K.
  pose proof (csoc_ram_slave k D x0 p Hs Hp) as Sl. pose proof (csoc_answers k D x0 p Hs Hp) as An.
  assert (G0 : same_csr csrp_init (co_per (csoc_run k D x0 p 0))) by (cbn [csoc_run]; destruct Hs as [_ _ ->]; apply same_csr_refl).
  exact (C92_hang_iff csrp pins (csr_dev_step D) csr_dat csr_irq csoc_mapped in_code (fun a => a mod 2 ^ k) csoc_wait p s inp (csoc_bytes x0) K Sl An (fun c => co_per (csoc_run k D x0 p c)) (fun x d => same_csr d x)
    (csr_quiet k D x0 p) (csr_request k D x0 p) (csr_interrupt k D x0 p) (csr_data k D x0 p) csrp_init G0 eq_refl eq_refl (fun c => csr_nobody k D x0 p c Hs)).
Qed.

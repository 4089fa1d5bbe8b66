(** * C91 and C92: programs with interrupts and serial output, programs in a peripheral, and programs that get lost, on both simulators *)
From Coq Require Import ZArith Lia Bool List.
From Verif Require Import Bits Ucode Cpu Isa Timed BitLemmas Wf Sym Blocks CsrBlocks DecodeOk Boundary Sim Main Obs PropsBus PropsInv Observe PropsIsa PropsFrame Latency Memory SocMem Crash Uart Periph Soc SocIo IoMem CsrBus CsrSoc CsrIoMem SeqTest PowerUp Transparent IoTransparent IoTransparentEx Emulate Clocked ClockedSoc Waves WavesSoc Whole WholeSoc.
Import ListNotations.
Open Scope Z_scope.

(** Enables interrupts, then counts on the LEDs for ever.  The handler acknowledges the serial port's interrupt and sends the next
    letter of the alphabet. *)
Definition letters (serial_at : Z) : list Z :=
  [0x3400093; 0x30509073; 0x2000137; serial_at + 0x1b7; 0x4100213; 0x100293; 0xb29293; 0x30429073; 0x30046073; 0x130313; 0x610023; 0xff9ff06f; 0x13;
   0x418383; 0x418023; 0x120213; 0x30200073].
Section Visit.
Variables (X P : Type) (dstep : X -> wbus -> P -> X) (ddat : X -> Z -> Z) (dirq : X -> bool) (mapped ram : Z -> bool) (phys : Z -> Z) (wait : latency) (pin : nat -> P).
Local Notation step1 := (wh_step X P dstep ddat dirq ram phys wait pin).
Local Notation stuck1 := (wh_stuck X P dstep ddat dirq mapped ram phys wait pin).
Fixpoint visit (n : nat) (q : whole X) : bool := match n with O => true | S j => match stuck1 q with None => visit j (step1 q) | Some _ => false end end.
Fixpoint after (n : nat) (q : whole X) : whole X := match n with O => q | S j => after j (step1 q) end.
Lemma after_ok n q : after n q = wh_run X P dstep ddat dirq ram phys wait pin q n.
Proof. revert q. induction n as [|n IH]; intros q; [reflexivity|]. cbn [after]. rewrite IH. clear IH. unfold wh_run. induction n as [|n IH]; [reflexivity|]. cbn [Nat.iter nat_rect]. f_equal. exact IH. Qed.
Lemma visit_ok n q : visit n q = true -> forall j, (j < n)%nat -> stuck1 (wh_run X P dstep ddat dirq ram phys wait pin q j) = None.
Proof.
  intros H j Hj. rewrite <- after_ok. revert n q H Hj. induction j as [|j IH]; intros n q H Hj; (destruct n as [|n]; [lia|]); cbn [visit] in H; cbn [after]; destruct (stuck1 q) eqn:E; try discriminate.
  - reflexivity.
  - apply (IH n); [exact H|lia].
Qed.
End Visit.

Definition lsoc : soc := soc_of (letters 0x80000000).
Definition show_gear (g : gear) : list Z := [ld_leds (ge_leds g); tm_cnt (ge_timer g); tx_shreg (sr_tx (ge_serial g)); tx_count (sr_tx (ge_serial g)); tx_phase (sr_tx (ge_serial g)); b2z (sr_irq (ge_serial g))].
(** The hypotheses of [C91_soc] are met by the first 60 instructions.  Then, in cycle 448, the handler has sent A to E and the main loop has
    counted to 8; the serial port is in the middle of a frame; what the simulator has is what the circuit has. *)
Example C91_soc_applies : soc_start lsoc /\ pins_ok noise /\
  (let sim := atto_sim 8 4 noise (boot_arch (so_cpu lsoc)) (soc_bytes lsoc) in
   (forall j, (j < 60)%nat -> atto_stuck 8 4 noise (sim j) = None) /\
   (let q := sim 60%nat in (wh_time q, map (fun f => f (wh_arch q)) [pc; mepc; (fun x => rd_x x 4); (fun x => rd_x x 6)], show_gear (wh_dev q))) = (448%nat, [0x3c; 0x2c; 0x46; 8], [8; 448; 652; 10; 1; 0])) /\
  show_gear (gear_of (soc_run 8 4 lsoc noise 448)) = [8; 448; 652; 10; 1; 0] /\
  let b := atto_devices 8 4 noise (boot_arch (so_cpu lsoc)) (soc_bytes lsoc) 3 in map (fun c => show_gear (b c)) [5; 9; 12]%nat = map (fun c => show_gear (gear_of (soc_run 8 4 lsoc noise c))) [5; 9; 12]%nat.
Proof.
  split; [constructor; try reflexivity; [apply por_fresh|apply talk_start; vm_compute; reflexivity]|]. split; [apply noise_ok|]. split; [|split; vm_compute; reflexivity].
  cbv zeta. split.
  - unfold atto_stuck, atto_sim. apply visit_ok. vm_compute. reflexivity.
  - unfold atto_sim. rewrite <- after_ok. vm_compute. reflexivity.
Qed.

Definition ksoc : csoc := csoc_of (letters 0x03000000).
Definition show_csr (g : csrp) : list Z :=
  [cl_leds (cp_leds g); ct_cnt (cp_timer g); tx_shreg (cs_tx (cp_serial g)); tx_count (cs_tx (cp_serial g)); tx_phase (cs_tx (cp_serial g)); b2z (cs_irq (cp_serial g))].
(** The same with CSR peripherals, which are slower to reach, in cycle 520: six letters sent. *)
Example C91_csr_soc_applies : csoc_start ksoc /\ pins_ok noise /\
  (let sim := csr_sim 8 4 noise (boot_arch (co_cpu ksoc)) (csoc_bytes ksoc) in
   (forall j, (j < 60)%nat -> csr_stuck 8 4 noise (sim j) = None) /\
   (let q := sim 60%nat in (wh_time q, map (fun f => f (wh_arch q)) [pc; mepc; (fun x => rd_x x 4); (fun x => rd_x x 6)], show_csr (wh_dev q))) = (520%nat, [0x38; 0x28; 0x47; 7], [6; 520; 1023; 0; 3; 0])) /\
  show_csr (co_per (csoc_run 8 4 ksoc noise 520)) = [6; 520; 1023; 0; 3; 0].
Proof.
  split; [constructor; try reflexivity; [apply por_fresh|apply talk_start; vm_compute; reflexivity]|]. split; [apply noise_ok|]. split; [|vm_compute; reflexivity].
  cbv zeta. split.
  - unfold csr_stuck, csr_sim. apply visit_ok. vm_compute. reflexivity.
  - unfold csr_sim. rewrite <- after_ok. vm_compute. reflexivity.
Qed.

(** The program goes on where there is no RAM: it jumps to the GPIO's input register.  With 0x13 on the pins that is a NOP, and so is
    what AttoSoC's LEDs return for all addresses after it. *)
Definition astray : list Z := [0x20002b7; 0x428067].
Definition nops (_ : nat) : pins := {| pi_gpio := 0x13; pi_rx := true |}.
Definition nsoc : soc := soc_of astray.
Example C91_soc_code_in_gpio : soc_start nsoc /\ pins_ok nops /\
  (let sim := atto_sim 8 4 nops (boot_arch (so_cpu nsoc)) (soc_bytes nsoc) in
   (forall j, (j < 9)%nat -> atto_stuck 8 4 nops (sim j) = None) /\ (let q := sim 9%nat in (wh_time q, pc (wh_arch q), ld_dat (ge_leds (wh_dev q)))) = (45%nat, 0x2000020, 0x13)) /\
  pc_of (so_cpu (soc_run 8 4 nsoc nops (S 45%nat))) = 0x2000020.
Proof.
  split; [constructor; try reflexivity; [apply por_fresh|apply talk_start; vm_compute; reflexivity]|]. split; [intros t; vm_compute; repeat split; discriminate|]. split; [|vm_compute; reflexivity].
  cbv zeta. split.
  - unfold atto_stuck, atto_sim. apply visit_ok. vm_compute. reflexivity.
  - unfold atto_sim. rewrite <- after_ok. vm_compute. reflexivity.
Qed.

(** Sends a letter, lights the LEDs, and is lost: [last] loads from 0x10000000, or jumps there. *)
Definition lost (serial_at last : Z) : list Z := [0x5a00093; serial_at + 0x1b7; 0x118023; 0x2000137; 0x110023; 0x100002b7; last].
Definition osoc (last : Z) : soc := soc_of (lost 0x80000000 last).
Definition show_stuck (o : option (nat * breq)) : option (nat * list Z) := match o with Some (v, r) => Some (v, [q_adr r; q_sel r; b2z (q_we r)]) | None => None end.
(** The hypotheses of [C92_soc] are met by both.  In cycle 45, before the request, the frame is on its way; in cycle 80 it has been sent and the timer has counted on, while the request
    is still there. *)
Example C92_soc_applies : forall last, In last [0x2a303; 0x28067] -> soc_start (osoc last) /\ pins_ok noise /\
  let sim := atto_sim 8 4 noise (boot_arch (so_cpu (osoc last))) (soc_bytes (osoc last)) in
  (forall j, (j < 6)%nat -> atto_stuck 8 4 noise (sim j) = None) /\
  show_stuck (atto_stuck 8 4 noise (sim 6%nat)) = Some (if last =? 0x2a303 then (47%nat, [0x4000000; 15; 0]) else (48%nat, [0x4000000; 15; 0])) /\
  show_gear (gear_of (soc_run 8 4 (osoc last) noise 45)) = [90; 45; 1013; 5; 0; 1] /\
  show_gear (gear_of (soc_run 8 4 (osoc last) noise 80)) = [90; 80; 1023; 0; 3; 1] /\ map (fun c => b2z (o_cyc (so_cpu (soc_run 8 4 (osoc last) noise c)))) [48%nat; 80]%nat = [1; 1].
Proof.
  intros last H. cbn [In] in H. destruct H as [<-|[<-|[]]].
  all: split; [constructor; try reflexivity; [apply por_fresh|apply talk_start; vm_compute; reflexivity]|]; split; [apply noise_ok|]; cbv zeta; split.
  all: try (unfold atto_stuck, atto_sim; apply visit_ok; vm_compute; reflexivity).
  all: split; [unfold atto_stuck, atto_sim; rewrite <- after_ok; vm_compute; reflexivity|vm_compute; auto].
Qed.
Definition qsoc (last : Z) : csoc := csoc_of (lost 0x03000000 last).
Example C92_csr_soc_applies : forall last, In last [0x2a303; 0x28067] -> csoc_start (qsoc last) /\ pins_ok noise /\
  let sim := csr_sim 8 4 noise (boot_arch (co_cpu (qsoc last))) (csoc_bytes (qsoc last)) in
  (forall j, (j < 6)%nat -> csr_stuck 8 4 noise (sim j) = None) /\
  show_stuck (csr_stuck 8 4 noise (sim 6%nat)) = Some (if last =? 0x2a303 then (55%nat, [0x4000000; 15; 0]) else (56%nat, [0x4000000; 15; 0])) /\
  show_csr (co_per (csoc_run 8 4 (qsoc last) noise 80)) = [90; 80; 1023; 0; 3; 1].
Proof.
  intros last H. cbn [In] in H. destruct H as [<-|[<-|[]]].
  all: split; [constructor; try reflexivity; [apply por_fresh|apply talk_start; vm_compute; reflexivity]|]; split; [apply noise_ok|]; cbv zeta; split.
  all: try (unfold csr_stuck, csr_sim; apply visit_ok; vm_compute; reflexivity).
  all: split; [unfold csr_stuck, csr_sim; rewrite <- after_ok; vm_compute; reflexivity|vm_compute; reflexivity].
Qed.

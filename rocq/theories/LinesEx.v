(** * C93: a program that sends on the serial port of both SoCs *)
From Coq Require Import ZArith Lia Bool List.
From Verif Require Import Bits Ucode Cpu Isa Timed BitLemmas Wf Sym Blocks CsrBlocks DecodeOk Boundary Sim Main Obs PropsBus PropsInv Observe PropsIsa PropsFrame Latency Memory SocMem Crash Uart Periph Soc SocIo SocEx IoMem CsrBus CsrSoc CsrIoMem BusDetect SeqTest PowerUp Transparent IoTransparent IoTransparentEx Emulate Clocked ClockedSoc Waves WavesSoc WavesEx Lines LinesSoc.
Import ListNotations.
Open Scope Z_scope.

(** Sends the letter H, then for ever what the input pins show. *)
Definition greet (base : Z) : list Z := [base * 4096 + 0xb7; 0x2000237; 0x4800113; 0x208023; 0x424103; 0xff9ff06f].
Definition gsoc : soc := soc_of (greet 0x80000).
Definition hsoc : csoc := csoc_of (greet 0x3000).
(** The simulator's states listed once. *)
Section Listed.
Variables (reg : Z -> bool) (bus : nat -> Z) (sim : nat -> nat * (arch * (Z -> Z))) (n : nat).
Definition listed_frames : list (nat * Z) := let l := listed sim n in frames (fun a => a <? 2 ^ 23) (fun a => a mod 2 ^ 8) nobody bus (fun j => nth j l (sim 0%nat)) reg 4 n.
Lemma listed_frames_ok : listed_frames = frames (fun a => a <? 2 ^ 23) (fun a => a mod 2 ^ 8) nobody bus sim reg 4 n.
Proof.
  assert (E : forall m, (m <= n)%nat -> frames (fun a => a <? 2 ^ 23) (fun a => a mod 2 ^ 8) nobody bus (fun j => nth j (listed sim n) (sim 0%nat)) reg 4 m = frames (fun a => a <? 2 ^ 23) (fun a => a mod 2 ^ 8) nobody bus sim reg 4 m).
  { induction m as [|m IH]; intros Hm; [reflexivity|]. cbn [frames]. rewrite IH by lia.
    assert (Q : nth m (listed sim n) (sim 0%nat) = sim m) by (unfold listed; rewrite map_nth, seq_nth by lia; reflexivity). rewrite Q. reflexivity. }
  unfold listed_frames. cbv zeta. apply E. lia.
Qed.
End Listed.

(** The hypotheses of [C93_soc] are met by the first 20 instructions, with bits of four cycles.  They store six bytes; three of them are sent, because every second store
    finds the transmitter busy.  The circuit's line is in every one of the cycles what these frames say. *)
Example C93_soc_applies : soc_start gsoc /\ pins_ok noise /\
  let sim := io_clocked (fun a => a <? 2 ^ 23) (fun a => a mod 2 ^ 8) soc_wait nobody wgpio (boot_arch (so_cpu gsoc)) (soc_bytes gsoc) in
  (forall j, (j < 20)%nat -> settled soc_mapped (fun a => a <? 2 ^ 23) (leds_at 1) (fun a => a mod 2 ^ 8) (sim j)) /\
  (fst (sim 20%nat), soc_mapped (pc (fst (snd (sim 20%nat))) / 4)) = (167%nat, true) /\
  let fs := [(130%nat, 111); (78%nat, 59); (26%nat, 72)] in
  frames (fun a => a <? 2 ^ 23) (fun a => a mod 2 ^ 8) nobody wgpio sim sends_at 4 20 = fs /\
  map (line_of 4 fs) (map (fun j => 28 + 4 * j)%nat (seq 0 11)) = [false; false; false; false; true; false; false; true; false; true; true] /\
  map tx_pin (states (fun x t => soc_step 8 4 x (noise t)) 170 0 gsoc) = map (line_of 4 fs) (seq 0 170).
Proof.
  split; [constructor; try reflexivity; [apply por_fresh|apply talk_start; vm_compute; reflexivity]|]. split; [apply noise_ok|].
  cbv zeta. split; [|split; [|split; [|split]]].
  - apply settled_all. vm_compute. reflexivity.
  - vm_compute. reflexivity.
  - etransitivity; [symmetry; apply (listed_frames_ok _ _ _ 20)|]. vm_compute. reflexivity.
  - vm_compute. reflexivity.
  - vm_compute. reflexivity.
Qed.
(** The same with CSR peripherals: the accesses take longer, so the second and the third frame are sent later. *)
Example C93_csr_soc_applies : csoc_start hsoc /\ pins_ok noise /\
  let sim := io_clocked (fun a => a <? 2 ^ 23) (fun a => a mod 2 ^ 8) csoc_wait nobody vgpio (boot_arch (co_cpu hsoc)) (csoc_bytes hsoc) in
  (forall j, (j < 20)%nat -> settled csoc_mapped (fun a => a <? 2 ^ 23) (csr_at InOutReg) (fun a => a mod 2 ^ 8) (sim j)) /\
  (fst (sim 20%nat), csoc_mapped (pc (fst (snd (sim 20%nat))) / 4)) = (215%nat, true) /\
  let fs := [(162%nat, 139); (94%nat, 71); (26%nat, 72)] in
  frames (fun a => a <? 2 ^ 23) (fun a => a mod 2 ^ 8) nobody vgpio sim csr_sends_at 4 20 = fs /\
  map csr_tx_pin (states (fun x t => csoc_step 8 4 x (noise t)) 218 0 hsoc) = map (line_of 4 fs) (seq 0 218).
Proof.
  split; [constructor; try reflexivity; [apply por_fresh|apply talk_start; vm_compute; reflexivity]|]. split; [apply noise_ok|].
  cbv zeta. split; [|split; [|split]].
  - apply settled_all. vm_compute. reflexivity.
  - vm_compute. reflexivity.
  - etransitivity; [symmetry; apply (listed_frames_ok _ _ _ 20)|]. vm_compute. reflexivity.
  - vm_compute. reflexivity.
Qed.
(** The stores of the test programs [C47_applies] and [C60_serial_applies] meet the hypotheses of [C93_soc_store] and [C93_csr_soc_store]. *)
Example C93_soc_store_applies : executed por in1 28 38 0x00218023 (run por in1 29) (run por in1 39) /\ int_taken por in1 28 0x00218023 = false /\
  sends_at ((x_of (run por in1 29) 3 + 0) mod 2 ^ 32) = true /\ tx_idle (at1 (28 + 7)) = true.
Proof. destruct C47_applies as (E & T & _). split; [exact E|]. split; [exact T|]. rewrite at1_cpu. vm_compute. auto. Qed.
Example C93_csr_soc_store_applies : executed por in2 39 53 0x00218023 (run por in2 40) (run por in2 54) /\ int_taken por in2 39 0x00218023 = false /\
  csr_sends_at ((x_of (run por in2 40) 3 + 0) mod 2 ^ 32) = true /\ csr_tx_idle (at2 (39 + 7)) = true.
Proof. destruct C60_serial_applies as (E & T & _). split; [exact E|]. split; [exact T|]. rewrite at2_cpu. vm_compute. auto. Qed.

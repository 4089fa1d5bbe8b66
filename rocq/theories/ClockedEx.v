(** * C89: the simulator against runs of the core, with interrupts, loads, stores and devices *)
From Coq Require Import ZArith Lia Bool List.
From Verif Require Import Bits Ucode Cpu Isa Timed BitLemmas Wf Sym Blocks CsrBlocks DecodeOk Boundary Sim Main Obs PropsBus PropsInv Observe PropsIsa PropsFrame Latency LatencySoc Memory SocMem Crash Uart Periph Soc SocIo IoMem CsrBus CsrSoc CsrIoMem SeqTest PowerUp Transparent TransparentEx IoTransparent IoTransparentEx Emulate Clocked ClockedSoc.
Import ListNotations.
Open Scope Z_scope.

(** C75's program, with its interrupt: the simulator's fetches are all of the core's in its first 200 cycles, in the same cycles and with the same words. *)
Example C89_applies : fresh por /\ mem_start cmem /\ length clog = 25%nat /\
  map (fun n => let '(t, (a, b)) := clocked ph (fun _ _ _ => 1%nat) cirq (boot_arch por) mem_of n in (t, peek ph b (pc a) 4)) (seq 0 25) = clog.
Proof. split; [apply por_fresh|]. split; [apply cmem_start|]. split; vm_compute; reflexivity. Qed.

Section Ext.
Variables (ram : Z -> bool) (phys : Z -> Z) (wait : latency) (line line' : nat -> bool) (bus bus' : nat -> Z).
Hypotheses (Hl : forall c, line c = line' c) (Hb : forall c, bus c = bus' c).
Lemma word_at_ext q : word_at ram phys bus q = word_at ram phys bus' q.
Proof. destruct q as [t [a m]]. unfold word_at. rewrite Hb. reflexivity. Qed.
Lemma next_at_ext q : next_at ram phys wait line bus q = next_at ram phys wait line' bus' q.
Proof. destruct q as [t [a m]]. unfold next_at. rewrite word_at_ext, !Hl. reflexivity. Qed.
Lemma io_clock_step_same q : io_clock_step ram phys wait line bus q = io_clock_step ram phys wait line' bus' q.
Proof.
  unfold io_clock_step. destruct q as [t [a m]]. rewrite next_at_ext. cbv zeta. set (u := next_at _ _ _ _ _ _).
  replace (io_step ram phys (a, m) {| e_int := fun i => line (t + i)%nat; e_code := bus t; e_data := bus (u - 2)%nat |})
    with (io_step ram phys (a, m) {| e_int := fun i => line' (t + i)%nat; e_code := bus' t; e_data := bus' (u - 2)%nat |}); [reflexivity|].
  unfold io_step. cbn [e_int e_code e_data]. rewrite !Hl, !Hb. reflexivity.
Qed.
Lemma io_clocked_ext a0 m0 n : io_clocked ram phys wait line bus a0 m0 n = io_clocked ram phys wait line' bus' a0 m0 n.
Proof.
  induction n as [|n IH]; [reflexivity|]. change (io_clock_step ram phys wait line bus (io_clocked ram phys wait line bus a0 m0 n) = io_clock_step ram phys wait line' bus' (io_clocked ram phys wait line' bus' a0 m0 n)).
  rewrite IH. apply io_clock_step_same.
Qed.
Lemma reaches_ext mapped q : reaches ram phys bus' mapped q -> reaches ram phys bus mapped q.
Proof. unfold reaches. rewrite word_at_ext. trivial. Qed.
Definition reaches_b (mapped : Z -> bool) (q : nat * (arch * (Z -> Z))) : bool :=
  let a := fst (snd q) in mapped (pc a / 4) &&
  match decode (word_at ram phys bus' q) with
  | Some (Load _ _ _ rs1 off) | Some (Store _ rs1 _ off) => mapped (((rd_x a rs1 + off) mod 2 ^ 32) / 4)
  | _ => true
  end.
Lemma reaches_b_ok mapped q : reaches_b mapped q = true -> reaches ram phys bus mapped q.
Proof.
  intros H. apply reaches_ext. unfold reaches_b in H. unfold reaches. apply andb_prop in H. destruct H as [H1 H2]. split; [exact H1|].
  destruct (decode _) as [i|]; [|exact I]. destruct i; try exact I; exact H2.
Qed.
Lemma reaches_all mapped a0 m0 n : forallb (fun j => reaches_b mapped (io_clocked ram phys wait line' bus' a0 m0 j)) (seq 0 n) = true ->
  forall j, (j < n)%nat -> reaches ram phys bus mapped (io_clocked ram phys wait line bus a0 m0 j).
Proof. intros H j Hj. rewrite io_clocked_ext. apply reaches_b_ok. rewrite forallb_forall in H. apply H. apply in_seq. lia. Qed.
End Ext.

(** C85's program on AttoSoC: a GPIO read, stores to the LEDs and a serial interrupt whose handler reads the serial port.  The
    hypotheses of [C89_soc] are met, and the simulator's fetches are all of the core's in its first 200 cycles. *)
Definition aline (c : nat) : bool := irq (anow c).
Definition abus (c : nat) : Z := dat_r (anow c).
Definition asim (n : nat) : nat * (arch * (Z -> Z)) := io_clocked in_ram_b ph soc_wait aline abus (boot_arch (so_cpu asoc)) (soc_bytes asoc) n.
Definition bline (c : nat) : bool := irq (bnow c).
Definition bbus (c : nat) : Z := dat_r (bnow c).
Definition bsim (n : nat) : nat * (arch * (Z -> Z)) := io_clocked in_ram_b ph csoc_wait bline bbus (boot_arch (co_cpu bsoc)) (csoc_bytes bsoc) n.
Example C89_soc_applies : soc_start asoc /\ pins_ok noise /\
  (let inp := soc_inp 8 4 asoc noise in let bus := fun c => dat_r (inp c) in
   let sim := io_clocked (fun a => a <? 2 ^ 23) (fun a => a mod 2 ^ 8) soc_wait (fun c => irq (inp c)) bus (boot_arch (so_cpu asoc)) (soc_bytes asoc) in
   forall j, (j < 22)%nat -> reaches (fun a => a <? 2 ^ 23) (fun a => a mod 2 ^ 8) bus soc_mapped (sim j)) /\
  map (fun n => fst (asim n)) (seq 0 23) = filter (fetch_b acpu anow) (seq 0 200) /\
  map (fun n => let '(_, (a, m)) := asim n in (pc a, rd_x a 6, peek ph m 0x80 4)) [7; 8; 15; 16; 17]%nat =
    [(28, 0, 0); (64, 0, 0); (32, 124, 0); (36, 124, 0); (40, 124, 124)].
Proof.
  split; [apply asoc_start|]. split; [apply noise_ok|]. split.
  - cbv zeta. apply (reaches_all (fun a => a <? 2 ^ 23) (fun a => a mod 2 ^ 8) soc_wait _ aline _ abus).
    + intros c. unfold aline. rewrite anow_ok. reflexivity.
    + intros c. unfold abus. rewrite anow_ok. reflexivity.
    + vm_compute. reflexivity.
  - split; vm_compute; reflexivity.
Qed.
(** The same with CSR peripherals. *)
Example C89_csr_soc_applies : csoc_start bsoc /\ pins_ok noise /\
  (let inp := csoc_inp 8 4 bsoc noise in let bus := fun c => dat_r (inp c) in
   let sim := io_clocked (fun a => a <? 2 ^ 23) (fun a => a mod 2 ^ 8) csoc_wait (fun c => irq (inp c)) bus (boot_arch (co_cpu bsoc)) (csoc_bytes bsoc) in
   forall j, (j < 20)%nat -> reaches (fun a => a <? 2 ^ 23) (fun a => a mod 2 ^ 8) bus csoc_mapped (sim j)) /\
  map (fun n => fst (bsim n)) (seq 0 21) = filter (fetch_b bcpu bnow) (seq 0 200) /\
  map (fun n => let '(_, (a, m)) := bsim n in (pc a, rd_x a 6, peek ph m 0x80 4)) [7; 8; 15; 16; 17]%nat =
    [(28, 0, 0); (32, 73, 0); (32, 73, 0); (36, 73, 0); (40, 73, 73)].
Proof.
  split; [apply bsoc_start|]. split; [apply noise_ok|]. split.
  - cbv zeta. apply (reaches_all (fun a => a <? 2 ^ 23) (fun a => a mod 2 ^ 8) csoc_wait _ bline _ bbus).
    + intros c. unfold bline. rewrite bnow_ok. reflexivity.
    + intros c. unfold bbus. rewrite bnow_ok. reflexivity.
    + vm_compute. reflexivity.
  - split; vm_compute; reflexivity.
Qed.

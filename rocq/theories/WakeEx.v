(** * C95 on a program that waits for a character *)
From Coq Require Import ZArith Lia Bool List.
From Verif Require Import Bits Ucode Cpu Isa Timed BitLemmas Wf Sym Blocks CsrBlocks DecodeOk Boundary Sim Main Obs PropsBus PropsInv Observe PropsIsa PropsFrame Latency Memory SocMem Crash Uart Periph Soc SocIo SocEx IoMem CsrBus CsrSoc CsrIoMem BusDetect SeqTest PowerUp Transparent TransparentEx IoTransparent IoTransparentEx Emulate EmulateSocEx Clocked ClockedSoc Waves WavesSoc WavesEx Lines LinesSoc LinesEx Reads ReadsEx Wake.
Import ListNotations.
Open Scope Z_scope.

(** Loads (and so clears) the serial interrupt flags, points MTVEC to 0x40, enables interrupts and loops. *)
Definition await (base : Z) : list Z := [base * 4096 + 0xb7; 0x0040a283; 0x04000093; 0x30509073; 0x00100113; 0x00b11113; 0x30411073; 0x30046073; 0x0000006f].
(** A start bit, and nothing else, from cycle 40 on. *)
Definition asoc : soc := soc_of (await 0x80000).
Definition alist : list soc := states (fun x t => soc_step 8 4 x (noise t)) 130 0 asoc.
Definition arun (t : nat) : soc := memo (soc_run 8 4 asoc noise) alist t.
Lemma arun_ok t : arun t = soc_run 8 4 asoc noise t. Proof. apply (memo_ok (fun x t => soc_step 8 4 x (noise t)) (soc_run 8 4 asoc noise) (fun t => eq_refl) 130). Qed.
Lemma acpu_ok t : run (so_cpu asoc) (soc_inp 8 4 asoc noise) t = so_cpu (arun t). Proof. rewrite arun_ok. symmetry. apply soc_run_cpu. Qed.
Lemma anow_ok t : soc_inp 8 4 asoc noise t = so_inp (arun t). Proof. rewrite arun_ok. reflexivity. Qed.
Definition bsoc : csoc := csoc_of (await 0x3000).
Definition blist : list csoc := states (fun x t => csoc_step 8 4 x (noise t)) 130 0 bsoc.
Definition brun (t : nat) : csoc := memo (csoc_run 8 4 bsoc noise) blist t.
Lemma brun_ok t : brun t = csoc_run 8 4 bsoc noise t. Proof. apply (memo_ok (fun x t => csoc_step 8 4 x (noise t)) (csoc_run 8 4 bsoc noise) (fun t => eq_refl) 130). Qed.
Lemma bcpu_ok t : run (co_cpu bsoc) (csoc_inp 8 4 bsoc noise) t = co_cpu (brun t). Proof. rewrite brun_ok. symmetry. apply csoc_run_cpu. Qed.
Lemma bnow_ok t : csoc_inp 8 4 bsoc noise t = co_inp (brun t). Proof. rewrite brun_ok. reflexivity. Qed.
(** The character is complete in cycle 80; the jump fetched in cycle 77 is executed, the one fetched in cycle 84 is not. *)
Example C95_soc_wakes_applies : soc_start asoc /\ pins_ok noise /\
  (let r := sr_rx (so_serial (soc_run 8 4 asoc noise 40)) in rx_idle r = true /\ rx_rdy r = false) /\ pi_rx (noise 40) = false /\ arrives 4 40 = 80%nat /\
  (forall v, (80 < v <= 84)%nat -> ~ asks (so_cpu asoc) (soc_inp 8 4 asoc noise) flags_at v) /\
  (exists x y, executed (so_cpu asoc) (soc_inp 8 4 asoc noise) 84 91 0x6f x y /\ mie_of x = true /\ meie_of x = true /\ mtvec_of x = 0x40 /\ pc_of x = 32 /\ pc_of y = 0x40 /\ mepc_of y = 32) /\
  (exists x y, executed (so_cpu asoc) (soc_inp 8 4 asoc noise) 77 84 0x6f x y /\ mie_of x = true /\ meie_of x = true /\ pc_of x = 32 /\ pc_of y = 32) /\
  asks (so_cpu asoc) (soc_inp 8 4 asoc noise) flags_at 15 /\ irq (soc_inp 8 4 asoc noise 15) = true /\ irq (soc_inp 8 4 asoc noise 80) = false /\ irq (soc_inp 8 4 asoc noise 81) = true.
Proof.
  split; [constructor; try reflexivity; [apply por_fresh|apply talk_start; vm_compute; reflexivity]|]. split; [apply noise_ok|].
  split; [cbv zeta; rewrite <- arun_ok; vm_compute; split; reflexivity|]. split; [reflexivity|]. split; [vm_compute; reflexivity|]. split; [|split; [|split; [|split]]].
  - intros v Hv. apply (asks_b_ok _ _ _ _ acpu_ok). assert (F : forallb (fun u => negb (asks_b (fun t => so_cpu (arun t)) flags_at u)) (seq 81 4) = true) by (vm_compute; reflexivity).
    rewrite forallb_forall in F. apply negb_true_iff, F, in_seq. lia.
  - do 2 eexists. split; [split; [apply (exec_b_ok _ _ (fun t => so_cpu (arun t)) (fun t => so_inp (arun t)) acpu_ok anow_ok); vm_compute; reflexivity|split; reflexivity]|].
    rewrite !acpu_ok. repeat split; vm_compute; reflexivity.
  - do 2 eexists. split; [split; [apply (exec_b_ok _ _ (fun t => so_cpu (arun t)) (fun t => so_inp (arun t)) acpu_ok anow_ok); vm_compute; reflexivity|split; reflexivity]|].
    rewrite !acpu_ok. repeat split; vm_compute; reflexivity.
  - unfold asks. rewrite !acpu_ok. repeat split; vm_compute; reflexivity.
  - rewrite !anow_ok. repeat split; vm_compute; reflexivity.
Qed.
Example C95_csr_soc_wakes_applies : csoc_start bsoc /\ pins_ok noise /\
  (let r := cs_rx (cp_serial (co_per (csoc_run 8 4 bsoc noise 40))) in rx_idle r = true /\ rx_rdy r = false) /\ pi_rx (noise 40) = false /\ arrives 4 40 = 80%nat /\
  (forall v, (80 < v <= 81)%nat -> ~ read_begins (co_cpu bsoc) (csoc_inp 8 4 bsoc noise) v 0x3000004) /\
  (exists x y, executed (co_cpu bsoc) (csoc_inp 8 4 bsoc noise) 81 88 0x6f x y /\ mie_of x = true /\ meie_of x = true /\ mtvec_of x = 0x40 /\ pc_of x = 32 /\ pc_of y = 0x40 /\ mepc_of y = 32) /\
  irq (csoc_inp 8 4 bsoc noise 80) = false /\ irq (csoc_inp 8 4 bsoc noise 81) = true.
Proof.
  split; [constructor; try reflexivity; [apply por_fresh|apply talk_start; vm_compute; reflexivity]|]. split; [apply noise_ok|].
  split; [cbv zeta; rewrite <- brun_ok; vm_compute; split; reflexivity|]. split; [reflexivity|]. split; [vm_compute; reflexivity|]. split; [|split].
  - intros v Hv. apply (begins_b_ok _ _ _ bcpu_ok). assert (v = 81%nat) as -> by lia. vm_compute. reflexivity.
  - do 2 eexists. split; [split; [apply (exec_b_ok _ _ (fun t => co_cpu (brun t)) (fun t => co_inp (brun t)) bcpu_ok bnow_ok); vm_compute; reflexivity|split; reflexivity]|].
    rewrite !bcpu_ok. repeat split; vm_compute; reflexivity.
  - rewrite !bnow_ok. repeat split; vm_compute; reflexivity.
Qed.
(** The instructions between the arrival and the interrupt: [C95_soc_program] and [C95_csr_soc_program] apply too. *)
Example C95_soc_program_applies : fetch_done (so_cpu asoc) (soc_inp 8 4 asoc noise) 6 0x800000b7 /\
  forall t1 t1' w1 x1 y1, executed (so_cpu asoc) (soc_inp 8 4 asoc noise) t1 t1' w1 x1 y1 -> (80 <= t1' <= 84)%nat -> flags_at (4 * o_adr (run (so_cpu asoc) (soc_inp 8 4 asoc noise) t1')) = false /\
     forall sz1 sg1 rd1 r1 off1, int_taken (so_cpu asoc) (soc_inp 8 4 asoc noise) t1 w1 = false -> decode w1 = Some (Load sz1 sg1 rd1 r1 off1) -> flags_at ((x_of x1 r1 + off1) mod 2 ^ 32) = false.
Proof.
  split; [unfold fetch_done; rewrite acpu_ok, anow_ok; repeat split; vm_compute; reflexivity|]. intros t1 t1' w1 x1 y1 X Hu.
  destruct (executed_b _ _ _ _ acpu_ok anow_ok (fun t1 t1' => negb (flags_at (4 * o_adr (so_cpu (arun t1')))) && no_load (dat_r (so_inp (arun t1)))) 80 85 ltac:(vm_compute; reflexivity) t1 t1' w1 x1 y1 X ltac:(lia)) as (-> & -> & P).
  apply andb_prop in P. destruct P as [P1 P2]. rewrite acpu_ok. split; [apply negb_true_iff; exact P1|]. intros sz1 sg1 rd1 r1 off1 _ D. unfold no_load in P2. rewrite D in P2. discriminate.
Qed.
Example C95_csr_soc_program_applies : fetch_done (co_cpu bsoc) (csoc_inp 8 4 bsoc noise) 6 0x30000b7 /\
  forall t1 t1' w1 x1 y1, executed (co_cpu bsoc) (csoc_inp 8 4 bsoc noise) t1 t1' w1 x1 y1 -> (80 <= t1' <= 81)%nat -> csr_flags_at (4 * o_adr (run (co_cpu bsoc) (csoc_inp 8 4 bsoc noise) t1')) = false /\
     forall sz1 sg1 rd1 r1 off1, int_taken (co_cpu bsoc) (csoc_inp 8 4 bsoc noise) t1 w1 = false -> decode w1 = Some (Load sz1 sg1 rd1 r1 off1) -> csr_flags_at ((x_of x1 r1 + off1) mod 2 ^ 32) = false.
Proof.
  split; [unfold fetch_done; rewrite bcpu_ok, bnow_ok; repeat split; vm_compute; reflexivity|]. intros t1 t1' w1 x1 y1 X Hu.
  destruct (executed_b _ _ _ _ bcpu_ok bnow_ok (fun t1 t1' => negb (csr_flags_at (4 * o_adr (co_cpu (brun t1')))) && no_load (dat_r (co_inp (brun t1)))) 80 82 ltac:(vm_compute; reflexivity) t1 t1' w1 x1 y1 X ltac:(lia)) as (-> & -> & P).
  apply andb_prop in P. destruct P as [P1 P2]. rewrite bcpu_ok. split; [apply negb_true_iff; exact P1|]. intros sz1 sg1 rd1 r1 off1 _ D. unfold no_load in P2. rewrite D in P2. discriminate.
Qed.

(** * C85: a program with a serial interrupt handler, on both SoCs *)
From Coq Require Import ZArith Lia Bool List.
From Verif Require Import Bits Ucode Cpu Isa Timed BitLemmas Wf Sym Blocks CsrBlocks DecodeOk Boundary Sim Main Obs PropsBus PropsInv Observe PropsIsa Latency PropsFrame InputsMatter Memory SocMem Crash Uart Periph Soc SocIo IoMem CsrBus CsrSoc CsrIoMem SeqTest Transparent TransparentEx IoTransparent.
Import ListNotations.
Open Scope Z_scope.

(** Sets MTVEC to 0x40, enables interrupts, then copies the GPIO inputs to the LEDs and to the word at 0x80 for ever; the handler, with x5 saved in MSCRATCH, reads the
    interrupt register of the serial port (which acknowledges the interrupt) and stores it in the word at 0x84.  [lui] loads x5 with the address of the serial port. *)
Definition talk (lui : Z) : list Z := [
  0x04000093; 0x30509073; 0x00100113; 0x00b11113; 0x30411073; 0x020001b7; 0x30046073;
  0x00418303; 0x00618023; 0x08602023; 0xff5ff06f; 0; 0; 0; 0; 0;
  0x340292f3; lui; 0x0042a283; 0x08502223; 0x340292f3; 0x30200073].
(** The GPIO inputs count cycles; the serial line starts to receive a character in cycle 40. *)
Definition noise (t : nat) : pins := {| pi_gpio := Z.of_nat t mod 256; pi_rx := negb (Nat.leb 40 t && Nat.ltb t 44) |}.
Lemma noise_ok : pins_ok noise.
Proof. intros t. cbn [noise pi_gpio]. pose proof (Z.mod_pos_bound (Z.of_nat t) 256 ltac:(lia)). lia. Qed.
(** The program uses all of the RAM but the handler's word; the RAM has 256 words. *)
Definition in_ram_b (a : Z) : bool := a <? 2 ^ 23.

(** A checker for [program_io], for any system whose core and bus can be computed. *)
Section Check.
Variables (s : state) (inp : nat -> input) (mem : nat -> Z -> Z) (cpu : nat -> state) (now : nat -> input) (dev : nat -> Z).
Hypotheses (Hc : forall t, run s inp t = cpu t) (Hi : forall t, inp t = now t).
Hypothesis (Hmem : forall t n, (forall u, (t < u <= t + n)%nat -> negb (o_cyc (cpu u) && ack (now u) && o_we (cpu u)) || (ph (o_adr (cpu u)) =? 33) = true) -> forall z, not_counter z -> mem (t + n)%nat z = mem t z).
Definition fetch_b (t : nat) : bool := let x := cpu t in o_cyc x && u_fetch (s_u x) && ack (now t).
Definition exec_b (t t' : nat) (w : Z) : bool := fetch_b t && (dat_r (now t) =? w) && Nat.ltb t t' && fetch_b t' && forallb (fun u => negb (fetch_b u)) (seq (S t) (t' - S t)).
Lemma fetch_b_ok t : fetch_b t = true <-> fetch_done s inp t (dat_r (now t)).
Proof.
  unfold fetch_b, fetch_done. rewrite Hc, Hi. split.
  - intros H. apply andb_prop in H. destruct H as [H A]. apply andb_prop in H. destruct H as [C U]. auto.
  - intros (-> & -> & -> & _). reflexivity.
Qed.
Lemma exec_b_ok t t' w : exec_b t t' w = true -> executes s inp t t' w.
Proof.
  unfold exec_b. intros H. apply andb_prop in H. destruct H as [H N]. apply andb_prop in H. destruct H as [H F']. apply andb_prop in H. destruct H as [H L]. apply andb_prop in H. destruct H as [F W].
  apply Nat.ltb_lt in L. apply Z.eqb_eq in W. split; [rewrite <- W; apply fetch_b_ok; exact F|]. split; [exact L|]. split; [eexists; apply fetch_b_ok; exact F'|].
  intros u w' Hu Fu. rewrite forallb_forall in N. specialize (N u ltac:(apply in_seq; lia)). assert (E : dat_r (now u) = w') by (destruct Fu as (_ & _ & _ & E); rewrite Hi in E; exact E).
  rewrite <- E in Fu. apply fetch_b_ok in Fu. rewrite Fu in N. discriminate.
Qed.
Definition own_ram_b (b n : Z) : bool := in_ram_b (b / 4) && own_b b n.
Definition ordinary_io_b (n t t' u : nat) (w : Z) : bool :=
  let x := cpu (S t) in
  exec_b t t' w && negb (mie_of x && meie_of x && (irq (now (t + 1)%nat) || csr_word w && irq (now (t + 2)%nat))) && quiet_b x w && own_ram_b (pc_of x) 4 &&
  match decode w with
  | Some Mret => false
  | Some (Load sz _ _ rs1 off) => let ea := (x_of x rs1 + off) mod 2 ^ 32 in
      own_ram_b ea (bytes sz) || negb (in_ram_b (ea / 4)) && Nat.ltb t u && Nat.ltb u t' && (let y := cpu u in o_cyc y && negb (u_fetch (s_u y))) && ack (now u) && (dat_r (now u) =? dev n)
  | Some (Csr _ rd _ n) => negb (n =? 0x340) && negb (n =? 0x341) && negb (n =? 0x342) && negb (n =? 0x344) && (negb (n =? 0x300) || (rd =? 0))
  | _ => true
  end.
Lemma own_ram_b_ok b n : own_ram_b b n = true -> own_ram in_ram_b ph not_counter b n.
Proof. intros H. apply andb_prop in H. destruct H as [H1 H2]. split; [exact H1|apply own_b_ok; exact H2]. Qed.
Lemma ordinary_io_b_ok n t t' u w : ordinary_io_b n t t' u w = true -> ordinary_io in_ram_b ph not_counter dev s inp n t t' w.
Proof.
  unfold ordinary_io_b, ordinary_io. cbv zeta. intros H. apply andb_prop in H. destruct H as [H H5]. apply andb_prop in H. destruct H as [H H4]. apply andb_prop in H. destruct H as [H H3]. apply andb_prop in H. destruct H as [H1 H2].
  split; [apply exec_b_ok; exact H1|]. rewrite Hc. split; [unfold int_taken; cbv zeta; rewrite Hc, !Hi; apply negb_true_iff in H2; exact H2|]. split; [apply quiet_b_ok; exact H3|]. split; [apply own_ram_b_ok; exact H4|].
  destruct (decode w) as [i|]; [|exact I]. destruct i; try exact I; try discriminate.
  - apply orb_prop in H5. destruct H5 as [H5|H5]; [left; apply own_ram_b_ok; exact H5|right].
    apply andb_prop in H5. destruct H5 as [H5 Dv]. apply andb_prop in H5. destruct H5 as [H5 A]. apply andb_prop in H5. destruct H5 as [H5 Dt]. apply andb_prop in H5. destruct H5 as [H5 L2]. apply andb_prop in H5. destruct H5 as [H5 L1].
    apply andb_prop in Dt. destruct Dt as [C U]. apply negb_true_iff in H5. apply negb_true_iff in U. apply Nat.ltb_lt in L1, L2. apply Z.eqb_eq in Dv. split; [exact H5|]. exists u. unfold data_done. rewrite Hc, Hi. auto.
  - repeat split; try (intros E; subst; discriminate). intros E. subst. cbn in H5. lia.
Qed.
Definition handled_b (t e : nat) : bool :=
  let x := cpu (S t) in let y := cpu (S e) in let w := dat_r (now t) in
  fetch_b t && (mie_of x && meie_of x && (irq (now (t + 1)%nat) || csr_word w && irq (now (t + 2)%nat))) &&
  negb (mie_of y && meie_of y && (irq (now (e + 1)%nat) || csr_word 0x30200073 && irq (now (e + 2)%nat))) &&
  regs_eqb x y && (mepc_of y =? pc_of x) && mpie_of y && Bool.eqb (meie_of y) (meie_of x) && (mtvec_of y =? mtvec_of x) &&
  Nat.leb t e && forallb (fun u => negb (o_cyc (cpu u) && ack (now u) && o_we (cpu u)) || (ph (o_adr (cpu u)) =? 33)) (seq (S t) (e - t)).
Lemma handled_b_ok t e : handled_b t e = true -> handled_io not_counter s inp mem t e.
Proof.
  unfold handled_b, handled_io. cbv zeta. intros H. do 9 (apply andb_prop in H; let X := fresh "H" in destruct H as [H X]). rewrite !Hc.
  split; [exists (dat_r (now t)); split; [apply fetch_b_ok; exact H|unfold int_taken; cbv zeta; rewrite Hc, !Hi; exact H8]|]. split; [unfold int_taken; cbv zeta; rewrite Hc, !Hi; apply negb_true_iff in H7; exact H7|].
  split. { intros r Hr. unfold regs_eqb in H6. rewrite forallb_forall in H6. specialize (H6 (Z.to_nat r)). rewrite Z2Nat.id in H6 by lia. apply Z.eqb_eq, H6. apply in_seq. lia. }
  split; [lia|]. split; [assumption|]. split; [apply eqb_prop; assumption|]. split; [lia|]. apply Nat.leb_le in H1. rewrite forallb_forall in H0.
  intros z Hz. replace e with (t + (e - t))%nat by lia. apply Hmem; [|exact Hz]. intros u Hu. apply H0. apply in_seq. lia.
Qed.
Lemma first_b t : fetch_b t = true -> forallb (fun u => negb (fetch_b u)) (seq 0 t) = true -> program_io in_ram_b ph not_counter dev s inp mem 0 t.
Proof.
  intros F N. apply (pi_first _ _ _ _ _ _ _ t (dat_r (now t))); [apply fetch_b_ok; exact F|]. intros u w' Hu Fu. rewrite forallb_forall in N. specialize (N u ltac:(apply in_seq; lia)).
  assert (E : dat_r (now u) = w') by (destruct Fu as (_ & _ & _ & E); rewrite Hi in E; exact E). rewrite <- E in Fu. apply fetch_b_ok in Fu. rewrite Fu in N. discriminate.
Qed.
Lemma step_b n t t' u w : program_io in_ram_b ph not_counter dev s inp mem n t -> ordinary_io_b n t t' u w = true -> program_io in_ram_b ph not_counter dev s inp mem (S n) t'.
Proof. intros P O. apply (pi_step _ _ _ _ _ _ _ n t t' w P). apply (ordinary_io_b_ok _ _ _ u). exact O. Qed.
Lemma interrupt_b n t e t' : program_io in_ram_b ph not_counter dev s inp mem n t -> handled_io not_counter s inp mem t e -> exec_b e t' 0x30200073 = true -> program_io in_ram_b ph not_counter dev s inp mem n t'.
Proof. intros P H X. apply (pi_interrupt _ _ _ _ _ _ _ n t e t' P H). apply exec_b_ok. exact X. Qed.
End Check.

Definition only (n : nat) (d : Z) (j : nat) : Z := if Nat.eqb j n then d else 0.

(** The first [n] states of a system, computed once. *)
Section Memo.
Context {X : Type} (next : X -> nat -> X) (f : nat -> X) (Hf : forall t, f (S t) = next (f t) t).
Fixpoint states (n t : nat) (x : X) : list X := match n with O => [] | S n => x :: states n (S t) (next x t) end.
Lemma states_nth n : forall t j, nth_error (states n t (f t)) j = if Nat.ltb j n then Some (f (t + j)%nat) else None.
Proof.
  induction n as [|n IH]; intros t j; [destruct j; reflexivity|]. destruct j as [|j]; cbn [states nth_error]; [rewrite Nat.add_0_r; reflexivity|].
  rewrite <- Hf, IH, Nat.add_succ_r. reflexivity.
Qed.
Definition memo (l : list X) (t : nat) : X := match nth_error l t with Some x => x | None => f t end.
Lemma memo_ok n t : memo (states n 0 (f 0%nat)) t = f t.
Proof. unfold memo. rewrite states_nth. destruct (Nat.ltb t n); reflexivity. Qed.
End Memo.

(** ** AttoSoC: the serial port is at 0x80000000 *)
Definition asoc : soc := soc_of (talk 0x800002b7).
Lemma talk_start l : forallb (fun w => (0 <=? w) && (w <? 2 ^ 32)) l = true -> mem_start (commit_mem l).
Proof.
  intros F. constructor; [|cbn; unfold word; lia|reflexivity]. intros a. cbn [commit_mem wm_mem]. rewrite forallb_forall in F. destruct (nth_in_or_default (Z.to_nat a) l 0) as [I|E].
  - specialize (F _ I). unfold word. lia.
  - rewrite E. unfold word. lia.
Qed.
Lemma asoc_start : soc_start asoc.
Proof. constructor; try reflexivity; [apply por_fresh|]. apply talk_start. vm_compute. reflexivity. Qed.
Definition alist : list soc := states (fun x t => soc_step 8 4 x (noise t)) 200 0 asoc.
Definition arun (t : nat) : soc := memo (soc_run 8 4 asoc noise) alist t.
Lemma arun_ok t : arun t = soc_run 8 4 asoc noise t. Proof. apply (memo_ok (fun x t => soc_step 8 4 x (noise t)) (soc_run 8 4 asoc noise) (fun t => eq_refl) 200). Qed.
Definition acpu (t : nat) : state := so_cpu (arun t).
Definition anow (t : nat) : input := so_inp (arun t).
Definition amem (t : nat) : Z -> Z := soc_bytes (soc_run 8 4 asoc noise t).
Lemma acpu_ok t : run (so_cpu asoc) (soc_inp 8 4 asoc noise) t = acpu t. Proof. unfold acpu. rewrite arun_ok. symmetry. apply soc_run_cpu. Qed.
Lemma anow_ok t : soc_inp 8 4 asoc noise t = anow t. Proof. unfold anow. rewrite arun_ok. reflexivity. Qed.
Lemma amem_ok t n : (forall u, (t < u <= t + n)%nat -> negb (o_cyc (acpu u) && ack (anow u) && o_we (acpu u)) || (ph (o_adr (acpu u)) =? 33) = true) -> forall z, not_counter z -> amem (t + n)%nat z = amem t z.
Proof.
  intros H z Hz. unfold amem, soc_bytes. rewrite !(IoMem.array 8 4 asoc noise asoc_start noise_ok). induction n as [|n IH]; [rewrite Nat.add_0_r; reflexivity|].
  rewrite Nat.add_succ_r. rewrite <- IH by (intros; apply H; lia). cbn [ram_mem]. cbv zeta. rewrite !acpu_ok, !anow_ok. specialize (H (S (t + n)) ltac:(lia)).
  destruct (o_cyc _ && _ && _) eqn:Q; [|reflexivity]. cbn [negb orb] in H. apply Z.eqb_eq in H. change (o_adr (acpu (S (t + n))) mod 2 ^ 8) with (ph (o_adr (acpu (S (t + n))))). rewrite H.
  replace (z / 4 =? 33) with false by (symmetry; apply Z.eqb_neq; exact Hz). rewrite andb_false_r. cbn [andb]. reflexivity.
Qed.
Definition adev : nat -> Z := only 7 124.
Ltac astep t' u w P := apply (step_b _ _ amem acpu anow adev acpu_ok anow_ok _ _ t' u w) in P; [|vm_compute; reflexivity].
(** Interrupted at the fetch in cycle 68, MRET in cycle 112; eleven instructions of the program up to cycle 155.  Its GPIO read delivered 124 (in cycle 124), which is on the LEDs and in the word at 0x80;
    the handler's word has the reasons for the interrupt (character received, transmitter empty). *)
Example C85_applies : soc_start asoc /\ pins_ok noise /\
  program_io (fun a => a <? 2 ^ 23) (fun a => a mod 2 ^ 8) not_counter adev (so_cpu asoc) (soc_inp 8 4 asoc noise) amem 11 155 /\
  handled_io not_counter (so_cpu asoc) (soc_inp 8 4 asoc noise) amem 68 112 /\
  (let y := soc_run 8 4 asoc noise 155 in (wm_mem (so_mem y) 32, wm_mem (so_mem y) 33, ld_leds (so_leds y))) = (124, 3, 124).
Proof.
  split; [apply asoc_start|]. split; [apply noise_ok|].
  assert (Hd : handled_io not_counter (so_cpu asoc) (soc_inp 8 4 asoc noise) amem 68 112) by (apply (handled_b_ok _ _ amem acpu anow acpu_ok anow_ok amem_ok); vm_compute; reflexivity).
  split; [|split; [exact Hd|vm_compute; reflexivity]].
  assert (P : program_io in_ram_b ph not_counter adev (so_cpu asoc) (soc_inp 8 4 asoc noise) amem 0 6) by (apply (first_b _ _ amem acpu anow adev acpu_ok anow_ok 6); vm_compute; reflexivity).
  astep 10%nat 0%nat 67109011 P. astep 16%nat 0%nat 810586227 P. astep 20%nat 0%nat 1048851 P. astep 49%nat 0%nat 11604243 P. astep 55%nat 0%nat 809570419 P. astep 59%nat 0%nat 33554871 P. astep 68%nat 0%nat 805593203 P.
  apply (interrupt_b _ _ amem acpu anow adev acpu_ok anow_ok _ _ 112 119) in P; [|exact Hd|vm_compute; reflexivity].
  astep 128%nat 125%nat 4293379 P. astep 138%nat 0%nat 6389795 P. astep 148%nat 0%nat 140517411 P. astep 155%nat 0%nat 4284477551 P. exact P.
Qed.

(** ** The SoC with the CSR bus: the serial port is at 0x3000000 *)
Definition bsoc : csoc := csoc_of (talk 0x030002b7).
Lemma bsoc_start : csoc_start bsoc.
Proof. constructor; try reflexivity; [apply por_fresh|]. apply talk_start. vm_compute. reflexivity. Qed.
Definition blist : list csoc := states (fun x t => csoc_step 8 4 x (noise t)) 200 0 bsoc.
Definition brun (t : nat) : csoc := memo (csoc_run 8 4 bsoc noise) blist t.
Lemma brun_ok t : brun t = csoc_run 8 4 bsoc noise t. Proof. apply (memo_ok (fun x t => csoc_step 8 4 x (noise t)) (csoc_run 8 4 bsoc noise) (fun t => eq_refl) 200). Qed.
Definition bcpu (t : nat) : state := co_cpu (brun t).
Definition bnow (t : nat) : input := co_inp (brun t).
Definition bmem (t : nat) : Z -> Z := csoc_bytes (csoc_run 8 4 bsoc noise t).
Lemma bcpu_ok t : run (co_cpu bsoc) (csoc_inp 8 4 bsoc noise) t = bcpu t. Proof. unfold bcpu. rewrite brun_ok. symmetry. apply csoc_run_cpu. Qed.
Lemma bnow_ok t : csoc_inp 8 4 bsoc noise t = bnow t. Proof. unfold bnow. rewrite brun_ok. reflexivity. Qed.
Lemma bmem_ok t n : (forall u, (t < u <= t + n)%nat -> negb (o_cyc (bcpu u) && ack (bnow u) && o_we (bcpu u)) || (ph (o_adr (bcpu u)) =? 33) = true) -> forall z, not_counter z -> bmem (t + n)%nat z = bmem t z.
Proof.
  intros H z Hz. unfold bmem, csoc_bytes. rewrite !(CsrIoMem.array 8 4 bsoc noise bsoc_start). induction n as [|n IH]; [rewrite Nat.add_0_r; reflexivity|].
  rewrite Nat.add_succ_r. rewrite <- IH by (intros; apply H; lia). cbn [ram_mem]. cbv zeta. rewrite !bcpu_ok, !bnow_ok. specialize (H (S (t + n)) ltac:(lia)).
  destruct (o_cyc _ && _ && _) eqn:Q; [|reflexivity]. cbn [negb orb] in H. apply Z.eqb_eq in H. change (o_adr (bcpu (S (t + n))) mod 2 ^ 8) with (ph (o_adr (bcpu (S (t + n))))). rewrite H.
  replace (z / 4 =? 33) with false by (symmetry; apply Z.eqb_neq; exact Hz). rewrite andb_false_r. cbn [andb]. reflexivity.
Qed.
Definition bdev : nat -> Z := only 7 73.
Ltac bstep t' u w P := apply (step_b _ _ bmem bcpu bnow bdev bcpu_ok bnow_ok _ _ t' u w) in P; [|vm_compute; reflexivity].
(** Interrupted between the GPIO read and the store to the LEDs. *)
Example C85_csr_applies : csoc_start bsoc /\ pins_ok noise /\
  program_io (fun a => a <? 2 ^ 23) (fun a => a mod 2 ^ 8) not_counter bdev (co_cpu bsoc) (csoc_inp 8 4 bsoc noise) bmem 11 167 /\
  handled_io not_counter (co_cpu bsoc) (csoc_inp 8 4 bsoc noise) bmem 81 129 /\
  (let y := csoc_run 8 4 bsoc noise 167 in (wm_mem (co_mem y) 32, wm_mem (co_mem y) 33, cl_leds (cp_leds (co_per y)))) = (73, 1, 73).
Proof.
  split; [apply bsoc_start|]. split; [apply noise_ok|].
  assert (Hd : handled_io not_counter (co_cpu bsoc) (csoc_inp 8 4 bsoc noise) bmem 81 129) by (apply (handled_b_ok _ _ bmem bcpu bnow bcpu_ok bnow_ok bmem_ok); vm_compute; reflexivity).
  split; [|split; [exact Hd|vm_compute; reflexivity]].
  assert (P : program_io in_ram_b ph not_counter bdev (co_cpu bsoc) (csoc_inp 8 4 bsoc noise) bmem 0 6) by (apply (first_b _ _ bmem bcpu bnow bdev bcpu_ok bnow_ok 6); vm_compute; reflexivity).
  bstep 10%nat 0%nat 67109011 P. bstep 16%nat 0%nat 810586227 P. bstep 20%nat 0%nat 1048851 P. bstep 49%nat 0%nat 11604243 P. bstep 55%nat 0%nat 809570419 P. bstep 59%nat 0%nat 33554871 P. bstep 68%nat 0%nat 805593203 P.
  bstep 81%nat 78%nat 4293379 P.
  apply (interrupt_b _ _ bmem bcpu bnow bdev bcpu_ok bnow_ok _ _ 129 136) in P; [|exact Hd|vm_compute; reflexivity].
  bstep 150%nat 0%nat 6389795 P. bstep 160%nat 0%nat 140517411 P. bstep 167%nat 0%nat 4284477551 P. exact P.
Qed.

(** * C88: a system call that reads the pins, on both SoCs *)
From Coq Require Import ZArith Lia Bool List.
From Verif Require Import Bits Ucode Cpu Isa Timed BitLemmas Wf Sym Blocks CsrBlocks DecodeOk Boundary Sim Main Obs PropsBus PropsInv Observe PropsIsa Latency PropsFrame InputsMatter Memory SocMem Crash Uart Periph Soc SocIo IoMem CsrBus CsrSoc CsrIoMem SeqTest Transparent TransparentEx IoTransparent IoTransparentEx Emulate EmulateSoc.
Import ListNotations.
Open Scope Z_scope.

(** Sets MTVEC to 0x40, then, for ever, asks for the pins with ECALL and copies x10 to the LEDs and to the word at 0x80.  The handler, with x5 saved in MSCRATCH,
    loads x10 from the GPIO inputs and skips the ECALL. *)
Definition pinscall : list Z := [
  0x04000093; 0x30509073; 0x020001b7; 0x00000073; 0x00a18023; 0x08a02023; 0xff5ff06f; 0x00000000; 0x00000000; 0x00000000; 0x00000000; 0x00000000; 0x00000000; 0x00000000; 0x00000000; 0x00000000;
  0x340292f3; 0x020002b7; 0x0042a503; 0x341022f3; 0x00428293; 0x34129073; 0x340292f3; 0x30200073].
(** What the call numbered [n] does for the program: x10 becomes the value read. *)
Definition pins_srv (d : nat -> Z) (n : nat) : service := fun r p m => (fun i => if i =? 10 then d n else r i, p + 4, m).
Lemma pins_respects d n : respects not_counter (pins_srv d n).
Proof. intros r r' p m m' Hr Hm. cbn. split; [|split; [reflexivity|exact Hm]]. intros i Hi. destruct (i =? 10); [reflexivity|apply Hr; lia]. Qed.

(** A checker for [emulated_io], as in IoTransparentEx.v. *)
Section Check.
Variables (s : state) (inp : nat -> input) (mem : nat -> Z -> Z) (cpu : nat -> state) (now : nat -> input) (dev d : nat -> Z).
Hypotheses (Hc : forall t, run s inp t = cpu t) (Hi : forall t, inp t = now t).
Hypothesis (Hmem : forall t n, (forall u, (t < u <= t + n)%nat -> negb (o_cyc (cpu u) && ack (now u) && o_we (cpu u)) || (ph (o_adr (cpu u)) =? 33) = true) -> forall z, not_counter z -> mem (t + n)%nat z = mem t z).
Local Notation em := (emulated_io in_ram_b ph not_counter dev (pins_srv d) s inp mem).
Definition served_b (n t e : nat) : bool :=
  let x := cpu (S t) in let y := cpu (S e) in
  fetch_b cpu now t && (dat_r (now t) =? 0x73) && negb (mie_of x && meie_of x) && own_ram_b (pc_of x) 4 && negb (mie_of y && meie_of y) &&
  Bool.eqb (mpie_of y) (mie_of x) && Bool.eqb (meie_of y) (meie_of x) && (mtvec_of y =? mtvec_of x) &&
  forallb (fun i => x_of y (Z.of_nat i) =? (if Nat.eqb i 10 then d n else x_of x (Z.of_nat i))) (seq 1 31) && (4 * (mepc_of y / 4) =? pc_of x + 4) &&
  Nat.leb t e && forallb (fun u => negb (o_cyc (cpu u) && ack (now u) && o_we (cpu u)) || (ph (o_adr (cpu u)) =? 33)) (seq (S t) (e - t)).
Lemma served_b_ok n t e : served_b n t e = true -> served_io in_ram_b ph not_counter (pins_srv d) s inp mem n t e.
Proof.
  unfold served_b, served_io. cbv zeta. intros H. do 11 (apply andb_prop in H; let X := fresh "H" in destruct H as [H X]). rewrite !Hc.
  assert (Q : forall u v, negb (mie_of (cpu (S u)) && meie_of (cpu (S u))) = true -> int_taken s inp u v = false).
  { intros u v N. unfold int_taken. cbv zeta. rewrite Hc. apply negb_true_iff in N. rewrite N. reflexivity. }
  split. { exists 0x73, 11. split; [|split; [apply Q; assumption|reflexivity]]. apply Z.eqb_eq in H10. rewrite <- H10. apply (fetch_b_ok s inp cpu now Hc Hi). exact H. }
  split; [apply own_ram_b_ok; assumption|]. split; [apply Q; assumption|].
  split; [apply eqb_prop; assumption|]. split; [apply eqb_prop; assumption|]. split; [lia|]. cbn [pins_srv]. split.
  - intros i R. rewrite forallb_forall in H3. specialize (H3 (Z.to_nat i)). rewrite Z2Nat.id in H3 by lia. assert (In (Z.to_nat i) (seq 1 31)) as Q' by (apply in_seq; lia). specialize (H3 Q').
    apply Z.eqb_eq in H3. rewrite H3. destruct (Nat.eqb_spec (Z.to_nat i) 10), (Z.eqb_spec i 10); try reflexivity; lia.
  - split; [lia|]. apply Nat.leb_le in H1. rewrite forallb_forall in H0. intros z Hz. replace e with (t + (e - t))%nat by lia. apply Hmem; [|exact Hz]. intros u Hu. apply H0. apply in_seq. lia.
Qed.
Lemma e_first_b t : fetch_b cpu now t = true -> forallb (fun u => negb (fetch_b cpu now u)) (seq 0 t) = true -> em 0%nat t.
Proof.
  intros F N. apply (ei_first _ _ _ _ _ _ _ _ t (dat_r (now t))); [apply (fetch_b_ok s inp cpu now Hc Hi); exact F|]. intros u w' Hu Fu. rewrite forallb_forall in N. specialize (N u ltac:(apply in_seq; lia)).
  assert (E : dat_r (now u) = w') by (destruct Fu as (_ & _ & _ & E); rewrite Hi in E; exact E). rewrite <- E in Fu. apply (fetch_b_ok s inp cpu now Hc Hi) in Fu. rewrite Fu in N. discriminate.
Qed.
Lemma e_step_b n t t' u w : em n t -> ordinary_io_b cpu now dev n t t' u w = true -> em (S n) t'.
Proof. intros P O. apply (ei_step _ _ _ _ _ _ _ _ n t t' w P). apply (ordinary_io_b_ok s inp cpu now dev Hc Hi _ _ _ u). exact O. Qed.
Lemma e_call_b n t e t' : em n t -> served_b n t e = true -> exec_b cpu now e t' 0x30200073 = true -> em (S n) t'.
Proof. intros P V X. apply (ei_served _ _ _ _ _ _ _ _ n t e t' P); [apply served_b_ok; exact V|]. apply (exec_b_ok s inp cpu now Hc Hi). exact X. Qed.
End Check.

(** ** AttoSoC *)
Definition psoc : soc := soc_of pinscall.
Lemma psoc_start : soc_start psoc.
Proof. constructor; try reflexivity; [apply por_fresh|]. apply talk_start. vm_compute. reflexivity. Qed.
Definition plist : list soc := states (fun x t => soc_step 8 4 x (noise t)) 240 0 psoc.
Definition prun (t : nat) : soc := memo (soc_run 8 4 psoc noise) plist t.
Lemma prun_ok t : prun t = soc_run 8 4 psoc noise t. Proof. apply (memo_ok (fun x t => soc_step 8 4 x (noise t)) (soc_run 8 4 psoc noise) (fun t => eq_refl) 240). Qed.
Definition pcpu (t : nat) : state := so_cpu (prun t).
Definition pnow (t : nat) : input := so_inp (prun t).
Definition pmem (t : nat) : Z -> Z := soc_bytes (soc_run 8 4 psoc noise t).
Lemma pcpu_ok t : run (so_cpu psoc) (soc_inp 8 4 psoc noise) t = pcpu t. Proof. unfold pcpu. rewrite prun_ok. symmetry. apply soc_run_cpu. Qed.
Lemma pnow_ok t : soc_inp 8 4 psoc noise t = pnow t. Proof. unfold pnow. rewrite prun_ok. reflexivity. Qed.
Lemma pmem_ok t n : (forall u, (t < u <= t + n)%nat -> negb (o_cyc (pcpu u) && ack (pnow u) && o_we (pcpu u)) || (ph (o_adr (pcpu u)) =? 33) = true) -> forall z, not_counter z -> pmem (t + n)%nat z = pmem t z.
Proof.
  intros H z Hz. unfold pmem, soc_bytes. rewrite !(IoMem.array 8 4 psoc noise psoc_start noise_ok). induction n as [|n IH]; [rewrite Nat.add_0_r; reflexivity|].
  rewrite Nat.add_succ_r. rewrite <- IH by (intros; apply H; lia). cbn [ram_mem]. cbv zeta. rewrite !pcpu_ok, !pnow_ok. specialize (H (S (t + n)) ltac:(lia)).
  destruct (o_cyc _ && _ && _) eqn:Q; [|reflexivity]. cbn [negb orb] in H. apply Z.eqb_eq in H. change (o_adr (pcpu (S (t + n))) mod 2 ^ 8) with (ph (o_adr (pcpu (S (t + n))))). rewrite H.
  replace (z / 4 =? 33) with false by (symmetry; apply Z.eqb_neq; exact Hz). rewrite andb_false_r. cbn [andb]. reflexivity.
Qed.
(** The pins in the two calls (cycles 44 and 129). *)
Definition pgot (n : nat) : Z := if Nat.eqb n 3 then 43 else 128.
Ltac pstep t' w P := apply (e_step_b _ _ pmem pcpu pnow (fun _ => 0) pgot pcpu_ok pnow_ok _ _ t' 0 w) in P; [|vm_compute; reflexivity].
Ltac pcall e t' P := apply (e_call_b _ _ pmem pcpu pnow (fun _ => 0) pgot pcpu_ok pnow_ok pmem_ok _ _ e t') in P; [|vm_compute; reflexivity|vm_compute; reflexivity].
(** Two calls, ten instructions; the second value is on the LEDs and in the word at 0x80. *)
Example C88_applies : soc_start psoc /\ pins_ok noise /\ (forall n, respects not_counter (pins_srv pgot n)) /\
  emulated_io (fun a => a <? 2 ^ 23) (fun a => a mod 2 ^ 8) not_counter (fun _ => 0) (pins_srv pgot) (so_cpu psoc) (soc_inp 8 4 psoc noise) pmem 10 183 /\
  pi_gpio (noise 128) = 128 /\ (let y := soc_run 8 4 psoc noise 183 in (wm_mem (so_mem y) 32, ld_leds (so_leds y))) = (128, 128).
Proof.
  split; [apply psoc_start|]. split; [apply noise_ok|]. split; [intros n; apply pins_respects|]. split; [|split; [reflexivity|vm_compute; reflexivity]].
  assert (P : emulated_io in_ram_b ph not_counter (fun _ => 0) (pins_srv pgot) (so_cpu psoc) (soc_inp 8 4 psoc noise) pmem 0 6) by (apply (e_first_b _ _ pmem pcpu pnow (fun _ => 0) pgot pcpu_ok pnow_ok 6); vm_compute; reflexivity).
  pstep 10%nat 67109011 P. pstep 16%nat 810586227 P. pstep 20%nat 33554871 P. pcall 71%nat 78%nat P.
  pstep 88%nat 10584099 P. pstep 98%nat 144711715 P. pstep 105%nat 4284477551 P. pcall 156%nat 163%nat P. pstep 173%nat 10584099 P. pstep 183%nat 144711715 P. exact P.
Qed.

(** ** The SoC with the CSR bus *)
Definition qsoc : csoc := csoc_of pinscall.
Lemma qsoc_start : csoc_start qsoc.
Proof. constructor; try reflexivity; [apply por_fresh|]. apply talk_start. vm_compute. reflexivity. Qed.
Definition qlist : list csoc := states (fun x t => csoc_step 8 4 x (noise t)) 240 0 qsoc.
Definition qrun (t : nat) : csoc := memo (csoc_run 8 4 qsoc noise) qlist t.
Lemma qrun_ok t : qrun t = csoc_run 8 4 qsoc noise t. Proof. apply (memo_ok (fun x t => csoc_step 8 4 x (noise t)) (csoc_run 8 4 qsoc noise) (fun t => eq_refl) 240). Qed.
Definition qcpu (t : nat) : state := co_cpu (qrun t).
Definition qnow (t : nat) : input := co_inp (qrun t).
Definition qmem (t : nat) : Z -> Z := csoc_bytes (csoc_run 8 4 qsoc noise t).
Lemma qcpu_ok t : run (co_cpu qsoc) (csoc_inp 8 4 qsoc noise) t = qcpu t. Proof. unfold qcpu. rewrite qrun_ok. symmetry. apply csoc_run_cpu. Qed.
Lemma qnow_ok t : csoc_inp 8 4 qsoc noise t = qnow t. Proof. unfold qnow. rewrite qrun_ok. reflexivity. Qed.
Lemma qmem_ok t n : (forall u, (t < u <= t + n)%nat -> negb (o_cyc (qcpu u) && ack (qnow u) && o_we (qcpu u)) || (ph (o_adr (qcpu u)) =? 33) = true) -> forall z, not_counter z -> qmem (t + n)%nat z = qmem t z.
Proof.
  intros H z Hz. unfold qmem, csoc_bytes. rewrite !(CsrIoMem.array 8 4 qsoc noise qsoc_start). induction n as [|n IH]; [rewrite Nat.add_0_r; reflexivity|].
  rewrite Nat.add_succ_r. rewrite <- IH by (intros; apply H; lia). cbn [ram_mem]. cbv zeta. rewrite !qcpu_ok, !qnow_ok. specialize (H (S (t + n)) ltac:(lia)).
  destruct (o_cyc _ && _ && _) eqn:Q; [|reflexivity]. cbn [negb orb] in H. apply Z.eqb_eq in H. change (o_adr (qcpu (S (t + n))) mod 2 ^ 8) with (ph (o_adr (qcpu (S (t + n))))). rewrite H.
  replace (z / 4 =? 33) with false by (symmetry; apply Z.eqb_neq; exact Hz). rewrite andb_false_r. cbn [andb]. reflexivity.
Qed.
Definition qgot (n : nat) : Z := if Nat.eqb n 3 then 43 else 136.
Ltac qstep t' w P := apply (e_step_b _ _ qmem qcpu qnow (fun _ => 0) qgot qcpu_ok qnow_ok _ _ t' 0 w) in P; [|vm_compute; reflexivity].
Ltac qcall e t' P := apply (e_call_b _ _ qmem qcpu qnow (fun _ => 0) qgot qcpu_ok qnow_ok qmem_ok _ _ e t') in P; [|vm_compute; reflexivity|vm_compute; reflexivity].
Example C88_csr_applies : csoc_start qsoc /\ pins_ok noise /\ (forall n, respects not_counter (pins_srv qgot n)) /\
  emulated_io (fun a => a <? 2 ^ 23) (fun a => a mod 2 ^ 8) not_counter (fun _ => 0) (pins_srv qgot) (co_cpu qsoc) (csoc_inp 8 4 qsoc noise) qmem 10 199 /\
  (let y := csoc_run 8 4 qsoc noise 199 in (wm_mem (co_mem y) 32, cl_leds (cp_leds (co_per y)))) = (136, 136).
Proof.
  split; [apply qsoc_start|]. split; [apply noise_ok|]. split; [intros n; apply pins_respects|]. split; [|vm_compute; reflexivity].
  assert (P : emulated_io in_ram_b ph not_counter (fun _ => 0) (pins_srv qgot) (co_cpu qsoc) (csoc_inp 8 4 qsoc noise) qmem 0 6) by (apply (e_first_b _ _ qmem qcpu qnow (fun _ => 0) qgot qcpu_ok qnow_ok 6); vm_compute; reflexivity).
  qstep 10%nat 67109011 P. qstep 16%nat 810586227 P. qstep 20%nat 33554871 P. qcall 75%nat 82%nat P.
  qstep 96%nat 10584099 P. qstep 106%nat 144711715 P. qstep 113%nat 4284477551 P. qcall 168%nat 175%nat P. qstep 189%nat 10584099 P. qstep 199%nat 144711715 P. exact P.
Qed.

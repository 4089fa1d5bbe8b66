(** * C86: a program with an interrupt handler from two different power-up states, on both SoCs *)
From Coq Require Import ZArith Lia Bool List.
From Verif Require Import Bits Ucode Cpu Isa Timed BitLemmas Wf Sym Boundary Sim Main Obs PropsBus PropsInv Observe PropsIsa PropsFrame Memory SocMem Crash Leak Uart Periph Soc SocIo IoMem CsrBus CsrSoc CsrIoMem TransparentEx IoTransparentEx PowerUp PowerUpSoc.
Import ListNotations.
Open Scope Z_scope.

(** A checker for [careful], for any system whose core and bus can be computed. *)
Section Check.
Variables (s : state) (inp : nat -> input) (cpu : nat -> state) (now : nat -> input).
Hypotheses (Hc : forall t, run s inp t = cpu t) (Hi : forall t, inp t = now t).
Definition taken_b (t : nat) (w : Z) : bool := let x := cpu (S t) in mie_of x && meie_of x && (irq (now (t + 1)%nat) || csr_word w && irq (now (t + 2)%nat)).
Lemma taken_b_ok t w : int_taken s inp t w = taken_b t w.
Proof. unfold int_taken, taken_b. cbv zeta. rewrite Hc, !Hi. reflexivity. Qed.
Fixpoint careful_b (n t : nat) (k : defs) : bool :=
  match n with
  | O => true
  | S n =>
    if fetch_b cpu now t
    then let w := dat_r (now t) in let x := cpu (S t) in let i := taken_b t w in let r := raises x w in
         forallb (has k) (if i then [Mtvec] else match decode w with Some i => uses i | None => [] end ++ (if r then [Mtvec] else [])) &&
         careful_b n (S t) (if i || r then trapped k else match decode w with Some i => after i k | None => k end)
    else careful_b n (S t) k
  end.
Lemma careful_b_ok n : forall t, careful_b n t (defined s inp t) = true ->
  forall u w, (t <= u < t + n)%nat -> fetch_done s inp u w -> forall p, In p (needs s inp u w) -> has (defined s inp u) p = true.
Proof.
  induction n as [|n IH]; intros t H u w Hu F p Hp; [lia|]. cbn [careful_b] in H.
  assert (E : o_cyc (run s inp t) && u_fetch (s_u (run s inp t)) && ack (inp t) = fetch_b cpu now t) by (unfold fetch_b; rewrite Hc, Hi; reflexivity).
  destruct (fetch_b cpu now t) eqn:Fb.
  - cbv zeta in H. apply andb_prop in H. destruct H as [H H2].
    destruct (Nat.eq_dec u t) as [->|N].
    + destruct F as (_ & _ & _ & <-). rewrite Hi in Hp. unfold needs in Hp. rewrite taken_b_ok, Hc in Hp. rewrite forallb_forall in H. apply H. exact Hp.
    + apply (IH (S t)) with (w := w); [|lia|exact F|exact Hp]. cbn [defined]. rewrite E. unfold learn. rewrite taken_b_ok, Hc, Hi. exact H2.
  - destruct (Nat.eq_dec u t) as [->|N].
    + destruct F as (F1 & F2 & F3 & _). rewrite F1, F2, F3 in E. discriminate.
    + apply (IH (S t)) with (w := w); [|lia|exact F|exact Hp]. cbn [defined]. rewrite E. exact H.
Qed.
Fixpoint defs_b (n t : nat) (k : defs) : defs :=
  match n with
  | O => k
  | S n => defs_b n (S t) (if fetch_b cpu now t
             then let w := dat_r (now t) in if taken_b t w || raises (cpu (S t)) w then trapped k else match decode w with Some i => after i k | None => k end
             else k)
  end.
Lemma defs_b_ok n : forall t, defs_b n t (defined s inp t) = defined s inp (t + n).
Proof.
  induction n as [|n IH]; intros t; [rewrite Nat.add_0_r; reflexivity|]. cbn [defs_b]. rewrite Nat.add_succ_r. change (S (t + n)) with (S t + n)%nat. rewrite <- IH. f_equal.
  cbn [defined]. unfold learn. rewrite taken_b_ok, !Hc, !Hi. reflexivity.
Qed.
Lemma careful_ok n : careful_b n 0 at_reset = true -> careful s inp n.
Proof. intros H t w Ht F p Hp. apply (careful_b_ok n 0 H t w); [lia|exact F|exact Hp]. Qed.
End Check.

(** A core that was in the middle of something else before: every word of the register file, and every register that reset leaves alone, is different from power-up. *)
Definition junk : state := reset_regs (rom 0x50) (fun a => (0x12345678 * (a + 7)) mod 2 ^ 32) 99.
Lemma junk_fresh : fresh junk.
Proof.
  eexists _, _, _. split; [reflexivity|]. destruct por_wf. constructor; try assumption; cbn [reset_regs s_mem s_rdata s_u]; try (cbn; unfold inw, word; lia).
  intros a. unfold word. apply Z.mod_pos_bound. lia.
Qed.
Definition junk_mem (l : list Z) : wbmem := {| wm_mem := fun a => nth (Z.to_nat a) l 0; wm_rdata := 0xffffffff; wm_ack := false |}.
Lemma junk_start l : mem_start (commit_mem l) -> mem_start (junk_mem l).
Proof. intros [H _ _]. constructor; [exact H|cbn; unfold word; lia|reflexivity]. Qed.
Definition asoc2 : soc := {| so_cpu := junk; so_mem := junk_mem (talk 0x800002b7); so_leds := leds_init; so_timer := timer_init; so_serial := serial_init |}.
Definition bsoc2 : csoc := {| co_cpu := junk; co_mem := junk_mem (talk 0x030002b7); co_per := csrp_init |}.

(** The program of C85, which defines x1-x3, x6, MTVEC and MSCRATCH (from x5, undefined) before it uses
    them and leaves the others alone, for 200 cycles with an interrupt.  x5 is different in the two SoCs all
    the time. *)
Example C86_applies : soc_start asoc /\ soc_start asoc2 /\ pins_ok noise /\ (forall a, wm_mem (so_mem asoc2) a = wm_mem (so_mem asoc) a) /\
  careful (so_cpu asoc) (soc_inp 8 4 asoc noise) 199 /\
  int_taken (so_cpu asoc) (soc_inp 8 4 asoc noise) 68 0x30046073 = true /\
  (x_of (so_cpu (soc_run 8 4 asoc noise 180)) 5, x_of (so_cpu (soc_run 8 4 asoc2 noise 180)) 5) = (0, 0xda740da0) /\
  map (fun p => has (defined (so_cpu asoc) (soc_inp 8 4 asoc noise) 180) p) [G 0; G 1; G 3; G 5; G 6; G 7; Mtvec; Mscratch; Mepc] = [true; true; true; false; true; false; true; true; true].
Proof.
  split; [apply asoc_start|]. split; [constructor; try reflexivity; [apply junk_fresh|apply junk_start, asoc_start]|]. split; [apply noise_ok|]. split; [reflexivity|].
  split; [apply (careful_ok _ _ acpu anow acpu_ok anow_ok); vm_compute; reflexivity|].
  split; [rewrite (taken_b_ok _ _ acpu anow acpu_ok anow_ok); vm_compute; reflexivity|].
  split; [vm_compute; reflexivity|].
  change 180%nat with (0 + 180)%nat. rewrite <- (defs_b_ok _ _ acpu anow acpu_ok anow_ok). vm_compute. reflexivity.
Qed.
Example C86_csr_applies : csoc_start bsoc /\ csoc_start bsoc2 /\ (forall a, wm_mem (co_mem bsoc2) a = wm_mem (co_mem bsoc) a) /\
  careful (co_cpu bsoc) (csoc_inp 8 4 bsoc noise) 199 /\
  int_taken (co_cpu bsoc) (csoc_inp 8 4 bsoc noise) 81 0x00618023 = true /\
  (x_of (co_cpu (csoc_run 8 4 bsoc noise 180)) 5, x_of (co_cpu (csoc_run 8 4 bsoc2 noise 180)) 5) = (0, 0xda740da0).
Proof.
  split; [apply bsoc_start|]. split; [constructor; try reflexivity; [apply junk_fresh|apply junk_start, bsoc_start]|]. split; [reflexivity|].
  split; [apply (careful_ok _ _ bcpu bnow bcpu_ok bnow_ok); vm_compute; reflexivity|].
  split; [rewrite (taken_b_ok _ _ bcpu bnow bcpu_ok bnow_ok); vm_compute; reflexivity|]. vm_compute. reflexivity.
Qed.

(** Being careful is needed: from the same two states, [sw x7, 0x80(x0)] leaves different words, [bne x0, x7, +8] fetches
    from different addresses, [sll x1, x1, x7] takes a different time, MRET goes elsewhere, and so does an illegal instruction
    before MTVEC is set. *)
Definition with_program (c : state) (l : list Z) : soc := {| so_cpu := c; so_mem := commit_mem l; so_leds := leds_init; so_timer := timer_init; so_serial := serial_init |}.
Definition seen_at (l : list Z) (t : nat) : (Z * bool * Z) * (Z * bool * Z) :=
  let f c := let y := soc_run 8 4 (with_program c l) noise t in (wm_mem (so_mem y) 32, o_cyc (so_cpu y), o_adr (so_cpu y)) in (f por, f junk).
Example C86_careful_is_needed :
  seen_at [0x08702023; 0x0000006f] 30 = ((0, true, 1), (0xfedcba90, true, 1)) /\
  seen_at [0x00701463; 0x0000006f; 0x0000006f] 13 = ((0, true, 1), (0, true, 2)) /\
  seen_at [0x007090b3; 0x0000006f] 15 = ((0, true, 1), (0, false, 0)) /\
  seen_at [0x30200073] 13 = ((0, true, 0), (0, true, 443813280)) /\
  seen_at [0x00000000] 13 = ((0, true, 0), (0, true, 138393384)).
Proof. vm_compute. repeat split; reflexivity. Qed.

(** * C87: a program that multiplies, on a core without a multiplier *)
From Coq Require Import ZArith Lia Bool List.
From Verif Require Import Bits Ucode Cpu Isa Timed BitLemmas Wf Sym Blocks CsrBlocks DecodeOk Boundary Sim Main Obs PropsBus PropsInv Observe PropsIsa PropsFrame Latency Memory SocMem Examples SeqTest PowerUp Transparent TransparentEx Emulate.
Import ListNotations.
Open Scope Z_scope.

(** Sets MTVEC to 0x40, then x10 := x10 * x11 again and again, keeping it in the word at 0x80.  MUL is an illegal instruction; the
    handler multiplies by adding, with x5 saved in MSCRATCH and x11 in the word at 0x84, and skips it. *)
Definition multiply : list Z := [
  0x04000093; 0x30509073; 0x00700513; 0x00300593; 0x02b50533; 0x08a02023; 0xff9ff06f; 0; 0; 0; 0; 0; 0; 0; 0; 0;
  0x340292f3; 0x08b02223; 0x00000293; 0x00058863; 0x00a282b3; 0xfff58593; 0xff5ff06f; 0x00028513; 0x08402583; 0x341022f3; 0x00428293;
  0x34129073; 0x340292f3; 0x30200073].
Definition emem : wbmem := {| wm_mem := fun a => nth (Z.to_nat a) multiply 0; wm_rdata := 0; wm_ack := false |}.
Definition eirq (t : nat) : bool := false.
Definition ein : nat -> input := sys_inp 8 eirq por emem.
Definition elog : list (nat * Z) := Eval vm_compute in trace 8 eirq 420 0 (por, emem).
Lemma elog_ok : trace 8 eirq 420 0 (por, emem) = elog.
Proof. vm_compute. reflexivity. Qed.
Lemma emem_start : mem_start emem.
Proof.
  constructor; [|cbn; unfold word; lia|reflexivity]. intros a. cbn [emem wm_mem].
  assert (F : forallb (fun w => (0 <=? w) && (w <? 2 ^ 32)) multiply = true) by (vm_compute; reflexivity).
  rewrite forallb_forall in F. destruct (nth_in_or_default (Z.to_nat a) multiply 0) as [I|E].
  - specialize (F _ I). unfold word. lia.
  - rewrite E. unfold word. lia.
Qed.
Lemma eruns t t' w : adjacent elog t t' w = true -> executes por ein t t' w.
Proof.
  intros H. destruct (adjacent_split _ _ _ _ H) as (l1 & w' & l2 & E). rewrite <- elog_ok in E. apply (trace_executes 8 eirq por emem 420 l1 t w t' w' l2 E).
Qed.
Lemma e_first_fetch : fetch_done por ein 6 67109011 /\ forall u w', (u < 6)%nat -> ~ fetch_done por ein u w'.
Proof.
  assert (E : trace 8 eirq 420 0 (por, emem) = [] ++ (6%nat, 67109011) :: tl elog) by (rewrite elog_ok; reflexivity).
  destruct (trace_split 8 eirq por emem 420 0 _ _ _ _ E) as (A & _ & _ & D). split; [exact A|]. intros u w' Hu. apply D; [reflexivity|lia].
Qed.
Definition emem_of (z : Z) : Z := byte (wm_mem emem (z / 4)) (z mod 4).
(** What the handler is for: x10 := x10 * x11, and on to the next instruction.  (The program has no other exceptions.) *)
Definition mul : service := fun r p m => (fun i => if i =? 10 then (r 10 * r 11) mod 2 ^ 32 else r i, p + 4, m).
Lemma mul_respects : respects not_counter mul.
Proof.
  intros r r' p m m' Hr Hm. cbn. split; [|split; [reflexivity|exact Hm]]. intros i Hi. destruct (i =? 10); rewrite ?Hr by lia; reflexivity.
Qed.

Lemma e_ordinary t w : ordinary_b (fst (system 8 eirq por emem (S t))) (eirq (t + 1)) (eirq (t + 2)) w = true -> ordinary ph not_counter por ein t w.
Proof.
  rewrite <- (sys_run 8 eirq por emem). fold ein. unfold ordinary_b, ordinary. intros H. cbv zeta.
  apply andb_prop in H. destruct H as [H H4]. apply andb_prop in H. destruct H as [H H3]. apply andb_prop in H. destruct H as [H1 H2].
  split; [apply negb_true_iff in H1; exact H1|]. split; [apply quiet_b_ok; exact H2|]. split; [apply own_b_ok; exact H3|].
  destruct (decode w) as [i|]; [|exact I]. destruct i; try exact I; try discriminate; [apply own_b_ok; exact H4|].
  repeat split; try (intros E; subst; discriminate). intros E. subst. cbn in H4. lia.
Qed.
Lemma e_steps n t t' w : emulated ph not_counter mul por ein emem_of n t -> adjacent elog t t' w = true ->
  ordinary_b (fst (system 8 eirq por emem (S t))) (eirq (t + 1)) (eirq (t + 2)) w = true -> emulated ph not_counter mul por ein emem_of (S n) t'.
Proof. intros P A O. eapply e_step; [exact P|apply eruns; exact A|apply e_ordinary; exact O]. Qed.

(** The memory outside the word at 0x84 does not change while no other word is written. *)
Fixpoint e_spares (n t : nat) (cd : state * wbmem) : bool :=
  match n with
  | O => true
  | S n => (negb (o_cyc (fst cd) && wm_ack (snd cd) && o_we (fst cd)) || (ph (o_adr (fst cd)) =? 33)) && e_spares n (S t) (next_sys 8 eirq t cd)
  end.
Lemma e_mem_same n : forall t, e_spares n t (system 8 eirq por emem t) = true -> forall z, not_counter z -> slave_mem ph por ein emem_of (t + n) z = slave_mem ph por ein emem_of t z.
Proof.
  induction n as [|n IH]; intros t H z Hz; [rewrite Nat.add_0_r; reflexivity|]. cbn [e_spares] in H. apply andb_prop in H. destruct H as [H1 H2].
  change (next_sys 8 eirq t (system 8 eirq por emem t)) with (system 8 eirq por emem (S t)) in H2.
  rewrite Nat.add_succ_r. change (S (t + n)) with (S t + n)%nat. rewrite (IH (S t) H2 z Hz). cbn [slave_mem].
  cbv zeta. change (ack (ein t)) with (wm_ack (snd (system 8 eirq por emem t))).
  replace (run por ein t) with (fst (system 8 eirq por emem t)) by (unfold ein; rewrite sys_run; reflexivity).
  destruct (_ && _ && _); [|reflexivity]. cbn [negb orb] in H1. apply Z.eqb_eq in H1. rewrite H1.
  replace (z / 4 =? 33) with false; [reflexivity|]. symmetry. apply Z.eqb_neq. exact Hz.
Qed.
(** A checker for [served] by [mul]: the MRET at [t + n]. *)
Definition e_served_b (t n : nat) : bool :=
  let x := fst (system 8 eirq por emem (S t)) in let y := fst (system 8 eirq por emem (S (t + n))) in
  own_b (pc_of x) 4 && Bool.eqb (mpie_of y) (mie_of x) && Bool.eqb (meie_of y) (meie_of x) && (mtvec_of y =? mtvec_of x) &&
  forallb (fun i => x_of y (Z.of_nat i) =? fst (fst (mul (x_of x) (pc_of x) emem_of)) (Z.of_nat i)) (seq 1 31) &&
  (4 * (mepc_of y / 4) =? pc_of x + 4) && e_spares n t (system 8 eirq por emem t) &&
  negb (mie_of y && meie_of y).
Lemma e_served t n : fetch_done por ein t 45417779 -> e_served_b t n = true -> mie_of (fst (system 8 eirq por emem (S t))) = false ->
  served ph not_counter mul por ein emem_of t (t + n).
Proof.
  unfold e_served_b. cbv zeta. rewrite <- !(sys_run 8 eirq por emem). fold ein. intros F H Mi. do 7 (apply andb_prop in H; destruct H as [H ?H]).
  unfold served. cbv zeta. repeat split.
  - exists 45417779, 2. split; [exact F|]. split; [unfold int_taken; rewrite Mi; reflexivity|]. reflexivity.
  - apply own_b_ok. assumption.
  - unfold int_taken. apply negb_true_iff in H0. rewrite H0. reflexivity.
  - apply eqb_prop. assumption.
  - apply eqb_prop. assumption.
  - apply Z.eqb_eq. assumption.
  - intros i Hi. rewrite forallb_forall in H3. specialize (H3 (Z.to_nat i)). rewrite Z2Nat.id in H3 by lia. apply Z.eqb_eq, H3. apply in_seq. lia.
  - apply Z.eqb_eq. assumption.
  - apply e_mem_same. assumption.
Qed.
Lemma e_mul n t k e t' : emulated ph not_counter mul por ein emem_of n t -> adjacent elog t k 45417779 = true -> adjacent elog (t + e) t' 0x30200073 = true ->
  e_served_b t e = true -> mie_of (fst (system 8 eirq por emem (S t))) = false -> emulated ph not_counter mul por ein emem_of (S n) t'.
Proof.
  intros P A B V Mi. apply (Emulate.e_served ph not_counter mul por ein emem_of n t (t + e) t' P); [|apply eruns; exact B].
  apply e_served; [|exact V|exact Mi]. apply (eruns t k _ A).
Qed.
(** Two multiplications: nine instructions of the program, two of which the core does not have; the machine with MUL has
    stored 63. *)
Example C87_applies : fresh por /\ mem_start emem /\ respects not_counter mul /\ emulated ph not_counter mul por ein emem_of 9 343 /\
  decode 45417779 = None /\ wm_mem (snd (system 8 eirq por emem 343)) 32 = 63 /\ x_of (run por ein 344) 10 = 63.
Proof.
  split; [apply por_fresh|]. split; [apply emem_start|]. split; [apply mul_respects|]. split.
  - destruct e_first_fetch as [F N]. assert (P : emulated ph not_counter mul por ein emem_of 0 6) by (apply (e_first _ _ _ _ _ _ 6 _ F N)).
    apply (e_steps 0 _ 10 67109011) in P; [|reflexivity|vm_compute; reflexivity]. apply (e_steps _ _ 16 810586227) in P; [|reflexivity|vm_compute; reflexivity].
    apply (e_steps _ _ 20 7341331) in P; [|reflexivity|vm_compute; reflexivity]. apply (e_steps _ _ 24 3147155) in P; [|reflexivity|vm_compute; reflexivity].
    apply (e_mul _ _ 31 139 170) in P; [|reflexivity|reflexivity|vm_compute; reflexivity|vm_compute; reflexivity].
    apply (e_steps _ _ 180 144711715) in P; [|reflexivity|vm_compute; reflexivity]. apply (e_steps _ _ 187 4288671855) in P; [|reflexivity|vm_compute; reflexivity].
    apply (e_mul _ _ 194 139 333) in P; [|reflexivity|reflexivity|vm_compute; reflexivity|vm_compute; reflexivity].
    apply (e_steps _ _ 343 144711715) in P; [|reflexivity|vm_compute; reflexivity]. exact P.
  - split; [reflexivity|]. split; [vm_compute; reflexivity|]. unfold ein. rewrite sys_run. vm_compute. reflexivity.
Qed.

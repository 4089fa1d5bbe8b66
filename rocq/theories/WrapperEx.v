(** * C69: runs inside and outside riscv-formal's environment *)
From Coq Require Import ZArith Lia Bool List.
From Verif Require Import Bits Ucode Cpu Isa Timed BitLemmas Wf Sym Boundary Sim Main Obs PropsBus Observe PropsIsa PropsFrame Latency LatencySoc SocMem Examples Rvfi RvfiTrace RvfiProps RvfiTop RvfiEx Wrapper.
Import ListNotations.
Open Scope Z_scope.

(** The core on a bus that answers every request with [addi x0, x0, 0] after one wait state. *)
Definition nop_in (a : bool) : input := {| rst := false; ack := a; dat_r := 0x13; irq := false |}.
Fixpoint nsys (t : nat) : state * bool :=
  match t with O => (por, false) | S n => let x := nsys n in (step (fst x) (nop_in (snd x)), o_cyc (fst x) && negb (snd x)) end.
Definition nin (t : nat) : input := nop_in (snd (nsys t)).
Lemma nrun t : run por nin t = fst (nsys t).
Proof. induction t as [|t IH]; [reflexivity|]. cbn [run nsys fst]. rewrite IH. reflexivity. Qed.
Lemma nop_bus_ok : bus_ok por nin.
Proof.
  constructor; [apply por_fresh|constructor; intros t; [reflexivity|unfold nin, nop_in; cbn [dat_r]; unfold word; lia]|].
  intros t C A. destruct t as [|t]; [discriminate A|]. exists t. split; [reflexivity|]. change (o_cyc (fst (nsys t)) && negb (snd (nsys t)) = true) in A. rewrite nrun. apply andb_prop in A. apply A.
Qed.
Lemma nop_answers : answers_within 1 por nin.
Proof.
  intros t [C P]. exists 1%nat. split; [lia|]. replace (t + 1)%nat with (S t) by lia. change (o_cyc (fst (nsys t)) && negb (snd (nsys t)) = true). rewrite <- nrun, C.
  destruct t as [|t]; [reflexivity|]. change (snd (nsys (S t))) with (o_cyc (fst (nsys t)) && negb (snd (nsys t))). rewrite <- nrun, P. reflexivity.
Qed.
Lemma nop_insn t : v_insn (vrun v0 por nin t) = 0 \/ v_insn (vrun v0 por nin t) = 0x13.
Proof.
  induction t as [|t IH]; [left; reflexivity|]. rewrite vrun_S. unfold rvfi_step. replace (rst (nin t)) with false by reflexivity. cbn [v_insn]. destruct (committed _ _); [right; reflexivity|exact IH].
Qed.
Lemma nop_no_trap u : v_trap (vrun v0 por nin u) = false.
Proof.
  pose proof (bus_ok_ok _ _ nop_bus_ok) as K. pose proof nop_answers as Aw.
  assert (F6 : fetch_done por nin 6 0x13). { split; [rewrite nrun; vm_compute; reflexivity|]. split; [rewrite nrun; vm_compute; reflexivity|]. split; vm_compute; reflexivity. }
  destruct (v_trap (vrun v0 por nin u)) eqn:T; [exfalso|reflexivity]. destruct (Nat.le_gt_cases u 6) as [L|L].
  - do 7 (destruct u as [|u]; [vm_compute in T; discriminate T|]). lia.
  - destruct (fetch_soon por nin 1 K Aw u) as (t2 & w2 & L2 & F2 & _). destruct (current por nin 6 0x13 u t2 w2 F6 F2 ltac:(lia)) as (t & t' & w & La & Lb & X).
    pose proof (trap_stays v0 por nin t t' w u K X ltac:(lia) (t' - u)%nat ltac:(lia) T) as T'. replace (u + (t' - u))%nat with t' in T' by lia.
    apply (trap_is por nin v0 K t t' w X) in T'. assert (w = 0x13) as -> by (destruct X as ((_ & _ & _ & D) & _); symmetry; exact D).
    destruct T' as [I|[c I]]; [|exact I]. unfold int_taken in I. change (irq (nin (t + 1)%nat)) with false in I. change (irq (nin (t + 2)%nat)) with false in I. cbv zeta in I. rewrite !andb_false_r in I. discriminate I.
Qed.
(** All assumptions together can be met, for ever. *)
Example C69_assumptions_consistent : bus_ok por nin /\ rvfi_fresh v0 /\ assume_bus v0 por nin /\ assume_nest v0 por nin /\ assume_memio v0 por nin /\ assume_shift v0 por nin /\
  valid_at v0 por nin 10 = true.
Proof.
  pose proof nop_bus_ok as B. pose proof (bus_ok_ok _ _ B) as K. split; [exact B|]. split; [exact rvfi_fresh_applies|].
  split; [apply C69_short_waits_covered; [exact B|apply (answers_more 1); [lia|exact nop_answers]]|]. split.
  { assert (N : forall t, trap_nest (wrap_run v0 por nin t) = 0); [|intros t; rewrite N; lia]. induction t as [|t IH]; [reflexivity|].
    cbn [wrap_run]. cbv zeta. unfold wrap_step. cbn [trap_nest]. rewrite nop_no_trap. exact IH. }
  split; [apply C69_memio_assumption; [exact K|apply (answers_more 1); [lia|exact nop_answers]]|]. split.
  { intros t. cbv zeta. destruct (nop_insn t) as [->| ->]; (split; [intros _ [H|H]; vm_compute in H; discriminate H|intros H; vm_compute in H; discriminate H]). }
  vm_compute. reflexivity.
Qed.

(** A well-behaved memory that answers the first fetch after eight wait states. *)
Definition slow8 (t : nat) : input := nop_in (Nat.eqb t 13).
Theorem C69_refuted_eight_waits : exists s inp v, bus_ok s inp /\ rvfi_fresh v /\ waits s inp 13 8 /\ ~ assume_bus v s inp.
Proof.
  exists por, slow8, v0.
  assert (B : bus_ok por slow8).
  { constructor; [apply por_fresh|constructor; intros t; [reflexivity|unfold slow8, nop_in; cbn [dat_r]; unfold word; lia]|].
    intros t C A. apply Nat.eqb_eq in A. subst t. exists 12%nat. split; [reflexivity|]. vm_compute. reflexivity. }
  assert (W : waits por slow8 13 8).
  { split; [vm_compute; reflexivity|]. split; [reflexivity|]. split; [lia|]. split; [|right; vm_compute; reflexivity].
    intros j Hj. do 8 (destruct j as [|j]; [split; vm_compute; reflexivity|]). lia. }
  split; [exact B|]. split; [exact rvfi_fresh_applies|]. split; [exact W|]. intros H. apply (proj1 (C69_bus_assumption v0 por slow8) H 13%nat 8%nat W). reflexivity.
Qed.

(** The run of Examples.v: a misaligned load traps, its handler returns with MRET, and the next
    instruction, a misaligned store, traps too.  No trap is nested in another. *)
Theorem C69_refuted_sequential_traps : exists s inp v, bus_ok s inp /\ rvfi_fresh v /\ assume_bus v s inp /\
  (exists x y, executed s inp 163 173 0x10102883 x y /\ traps s inp 163 0x10102883 x) /\
  (exists x y, executed s inp 204 211 MRET_WORD x y /\ ~ traps s inp 204 MRET_WORD x) /\
  (exists x y, executed s inp 211 221 0x103011a3 x y /\ traps s inp 211 0x103011a3 x) /\
  ~ assume_nest v s inp.
Proof.
  exists por, in0, v0. destruct C65_applies as (K & Aw & _).
  assert (E1 : executed por in0 163 173 0x10102883 (run por in0 164) (run por in0 174)) by (apply runs; reflexivity).
  assert (E2 : executed por in0 204 211 MRET_WORD (run por in0 205) (run por in0 212)) by (apply runs; reflexivity).
  assert (E3 : executed por in0 211 221 0x103011a3 (run por in0 212) (run por in0 222)) by (apply runs; reflexivity).
  assert (T1 : traps por in0 163 0x10102883 (run por in0 164)). { right. exists 4. unfold sync_cause. change (decode _) with (Some (Load Word true 17 0 0x101)). cbv iota. split; [core; discriminate|reflexivity]. }
  assert (T3 : traps por in0 211 0x103011a3 (run por in0 212)). { right. exists 6. unfold sync_cause. change (decode _) with (Some (Store Half 0 3 0x103)). cbv iota. split; [core; discriminate|reflexivity]. }
  split; [exact bus_ok_applies|]. split; [exact rvfi_fresh_applies|]. split; [apply C69_short_waits_covered; [exact bus_ok_applies|apply (answers_more 1); [lia|exact Aw]]|].
  split; [exists (run por in0 164), (run por in0 174); split; [exact E1|exact T1]|]. split. { exists (run por in0 205), (run por in0 212). split; [exact E2|]. intros [I|[c I]]; [|exact I]. rewrite quiet_irq in I by reflexivity. discriminate I. } split; [exists (run por in0 212), (run por in0 222); split; [exact E3|exact T3]|].
  intros N. destruct (C69_second_trap_excluded v0 por in0 K rvfi_fresh_applies N 163 173 _ _ _ 211 221 _ _ _ E1 T1 ltac:(discriminate) E3 T3 ltac:(discriminate) ltac:(lia)) as (t & t' & x & y & L1 & L2 & _ & I).
  rewrite quiet_irq in I; [discriminate I| |]; unfold irq0; destruct (Nat.leb_spec 612 (t + 1)), (Nat.leb_spec 612 (t + 2)); try lia; cbn [andb orb]; apply Nat.eqb_neq; lia.
Qed.

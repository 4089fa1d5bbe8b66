(** * C69: what riscv-formal can see of Sentinel

    The environment in which riscv-formal checks the core is tests/formal/wrapper.sv: the bus
    answers at random, subject to some [assume] statements.  This file models those statements. *)
From Coq Require Import ZArith Lia Bool List.
From Verif Require Import Bits Ucode Cpu Isa Timed BitLemmas Wf Sym Blocks Boundary Sim Main Obs PropsBus PropsInv Observe PropsIsa PropsFrame Latency SocMem Periph Soc CsrSoc LatencySoc Rvfi RvfiTrace RvfiProps RvfiTop.
Import ListNotations.
Open Scope Z_scope.

(** wrapper.sv:83-84: [reg [2:0] timeout_bus = 0; reg [1:0] trap_nest = 0;] *)
Record wrap := { timeout_bus : Z; trap_nest : Z }.
(** wrapper.sv:83-84, the initial values *)
Definition wrap_init : wrap := {| timeout_bus := 0; trap_nest := 0 |}.
(** MRET, wrapper.sv:96 *)
Definition MRET_WORD : Z := 0x30200073.
(** wrapper.sv:86-100: one clock edge.  The wrapper has no reset; it is modelled from the first cycle
    after the core's. *)
Definition wrap_step (x : wrap) (cyc ak trap : bool) (insn : Z) : wrap :=
  {| timeout_bus := if cyc && negb ak then (timeout_bus x + 1) mod 8 else 0;
     trap_nest := if trap && ak then
                    if (insn =? MRET_WORD) && negb (trap_nest x =? 0) then (trap_nest x - 1) mod 4 else (trap_nest x + 1) mod 4
                  else trap_nest x |}.
(** wrapper.sv:83-100, with the core and the harness. *)
Fixpoint wrap_run (v : rvfi) (s : state) (inp : nat -> input) (t : nat) : wrap :=
  match t with
  | O => wrap_init
  | S n => let q := vrun v s inp n in wrap_step (wrap_run v s inp n) (o_cyc (run s inp n)) (ack (inp n)) (v_trap q) (v_insn q)
  end.
(** wrapper.sv:146-149: "Assume peripherals are well-behaved and take at least one cycle to respond." *)
Definition assume_bus (v : rvfi) (s : state) (inp : nat -> input) : Prop :=
  forall t, timeout_bus (wrap_run v s inp t) = 0 -> o_cyc (run s inp t) = true -> ack (inp t) = false.
(** wrapper.sv:151-154: "Nested traps not supported yet." *)
Definition assume_nest (v : rvfi) (s : state) (inp : nat -> input) : Prop := forall t, trap_nest (wrap_run v s inp t) < 2.
(** wrapper.sv:102-107, only in the liveness checks *)
Definition assume_memio (v : rvfi) (s : state) (inp : nat -> input) : Prop := forall t, Z.testbit (timeout_bus (wrap_run v s inp t)) 2 = false.
(** wrapper.sv:109-142, only in the liveness checks of the default group; the reversed part selects
    [[0:6]] etc. are read as fields with the usual bit order *)
Definition assume_shift (v : rvfi) (s : state) (inp : nat -> input) : Prop :=
  forall t, let q := vrun v s inp t in let w := v_insn q in
  (fld w 0 7 = 0x13 -> fld w 12 3 = 1 \/ fld w 12 3 = 5 -> fld w 20 5 < 2) /\
  (fld w 0 7 = 0x33 -> fld w 12 3 = 1 \/ fld w 12 3 = 5 -> v_rs2_rdata q < 2).

(** ** Specification *)
(** A transfer that completes in cycle [t] after [n] wait states. *)
Definition waits (s : state) (inp : nat -> input) (t n : nat) : Prop :=
  o_cyc (run s inp t) = true /\ ack (inp t) = true /\ (n <= t)%nat /\
  (forall j, (j < n)%nat -> o_cyc (run s inp (t - 1 - j)) = true /\ ack (inp (t - 1 - j)%nat) = false) /\
  (n = t \/ o_cyc (run s inp (t - 1 - n)) && negb (ack (inp (t - 1 - n)%nat)) = false).

(** ** Proofs *)
Section W.
Variables (v : rvfi) (s : state) (inp : nat -> input).
Let tb t := timeout_bus (wrap_run v s inp t).
Let tn t := trap_nest (wrap_run v s inp t).
Lemma tb_S t : tb (S t) = if o_cyc (run s inp t) && negb (ack (inp t)) then (tb t + 1) mod 8 else 0.
Proof. reflexivity. Qed.
Lemma tn_S t : tn (S t) = if v_trap (vrun v s inp t) && ack (inp t) then
    if (v_insn (vrun v s inp t) =? MRET_WORD) && negb (tn t =? 0) then (tn t - 1) mod 4 else (tn t + 1) mod 4 else tn t.
Proof. reflexivity. Qed.
Lemma tb_range t : 0 <= tb t < 8.
Proof. destruct t; [cbn; lia|]. rewrite tb_S. destruct (_ && _); [apply Z.mod_pos_bound; lia|lia]. Qed.
Lemma tn_range t : 0 <= tn t < 4.
Proof. induction t as [|t IH]; [cbn; lia|]. rewrite tn_S. destruct (_ && _); [destruct (_ && _); apply Z.mod_pos_bound; lia|exact IH]. Qed.
Lemma tb_count t n : (n <= t)%nat -> (forall j, (j < n)%nat -> o_cyc (run s inp (t - 1 - j)) = true /\ ack (inp (t - 1 - j)%nat) = false) ->
  (n = t \/ o_cyc (run s inp (t - 1 - n)) && negb (ack (inp (t - 1 - n)%nat)) = false) -> tb t = Z.of_nat n mod 8.
Proof.
  revert t. induction n as [|n IH]; intros t L H E.
  - destruct t as [|t]; [reflexivity|]. destruct E as [E|E]; [discriminate E|]. rewrite tb_S. replace (S t - 1 - 0)%nat with t in E by lia. rewrite E. reflexivity.
  - destruct t as [|t]; [lia|]. destruct (H 0%nat ltac:(lia)) as [C A]. replace (S t - 1 - 0)%nat with t in C, A by lia. rewrite tb_S, C, A. cbn [negb andb].
    rewrite (IH t).
    + rewrite Z.add_mod_idemp_l by lia. f_equal. lia.
    + lia.
    + intros j Hj. replace (t - 1 - j)%nat with (S t - 1 - S j)%nat by lia. apply H. lia.
    + destruct E as [E|E]; [left; lia|right]. replace (t - 1 - n)%nat with (S t - 1 - S n)%nat by lia. exact E.
Qed.
Lemma waits_ex t : o_cyc (run s inp t) = true -> ack (inp t) = true -> exists n, waits s inp t n.
Proof.
  intros C A. assert (G : forall m, (m <= t)%nat -> exists n, (n <= m)%nat /\ (forall j, (j < n)%nat -> o_cyc (run s inp (t - 1 - j)) = true /\ ack (inp (t - 1 - j)%nat) = false) /\
    (n = m \/ o_cyc (run s inp (t - 1 - n)) && negb (ack (inp (t - 1 - n)%nat)) = false)).
  { induction m as [|m IH]; intros Hm; [exists 0%nat; split; [lia|]; split; [intros; lia|auto]|].
    destruct (IH ltac:(lia)) as (n & L & H & [->|E]); [|exists n; split; [lia|]; split; [exact H|right; exact E]].
    destruct (o_cyc (run s inp (t - 1 - m))) eqn:C'; [destruct (ack (inp (t - 1 - m)%nat)) eqn:A'|].
    - exists m. split; [lia|]. split; [exact H|]. right. rewrite C', A'. reflexivity.
    - exists (S m). split; [lia|]. split; [|auto]. intros j Hj. destruct (Nat.eq_dec j m) as [->|]; [auto|]. apply H. lia.
    - exists m. split; [lia|]. split; [exact H|]. right. rewrite C'. reflexivity. }
  destruct (G t (le_n t)) as (n & L & H & E). exists n. repeat split; try assumption; apply H; assumption.
Qed.
Lemma tb_waits t n : waits s inp t n -> tb t = Z.of_nat n mod 8.
Proof. intros (_ & _ & L & H & E). apply tb_count; assumption. Qed.
End W.

(** C69: exactly those buses are checked on which no transfer takes a multiple of eight wait
    states. *)
Theorem C69_bus_assumption : forall v s inp, assume_bus v s inp <-> forall t n, waits s inp t n -> (n mod 8 <> 0)%nat.
Proof.
  intros v s inp. split.
  - intros H t n Wt E. assert (T : timeout_bus (wrap_run v s inp t) = Z.of_nat n mod 8) by exact (tb_waits v s inp t n Wt). destruct Wt as (C & A & _). rewrite H in A; [discriminate A| |exact C].
    rewrite T. change 8 with (Z.of_nat 8). rewrite <- Nat2Z.inj_mod, E. reflexivity.
  - intros H t T C. destruct (ack (inp t)) eqn:A; [|reflexivity]. destruct (waits_ex s inp t C A) as (n & Wt). assert (Q : timeout_bus (wrap_run v s inp t) = Z.of_nat n mod 8) by exact (tb_waits v s inp t n Wt). destruct (H t n Wt).
    rewrite T in Q. change 8 with (Z.of_nat 8) in Q. rewrite <- Nat2Z.inj_mod in Q. lia.
Qed.
(** ... so on all of them the hypotheses of C01-C55 and C68 hold. *)
Theorem C69_environment_covered : forall v s inp, fresh s -> env inp -> assume_bus v s inp -> bus_ok s inp.
Proof.
  intros v s inp F E H. constructor; try assumption. intros t C A. destruct (waits_ex s inp t C A) as (n & Wt). pose proof (proj1 (C69_bus_assumption v s inp) H t n Wt) as Q.
  destruct Wt as (_ & _ & L & W & _). destruct n as [|n]; [contradiction|]. exists (t - 1)%nat. split; [lia|]. destruct (W 0%nat ltac:(lia)) as [W0 _]. replace (t - 1 - 0)%nat with (t - 1)%nat in W0 by lia. exact W0.
Qed.

(** C69: a bus that answers every request with one to seven wait states is checked, which
    includes both example SoCs as long as software only touches mapped addresses. *)
Lemma waits_start s inp t n : ok s inp -> waits s inp t n -> request_starts s inp (t - n) /\ (forall j, (j < n)%nat -> ack (inp (t - n + j)%nat) = false) /\ (t - n + n = t)%nat.
Proof.
  intros K (C & A & L & H & E). split; [|split; [|lia]].
  - assert (C0 : o_cyc (run s inp (t - n)) = true). { destruct n as [|n]; [rewrite Nat.sub_0_r; exact C|]. destruct (H n ltac:(lia)) as [Q _]. replace (t - 1 - n)%nat with (t - S n)%nat in Q by lia. exact Q. }
    split; [exact C0|]. destruct (t - n)%nat as [|u] eqn:U; [exact I|]. destruct E as [E|E]; [lia|]. replace (t - 1 - n)%nat with u in E by lia.
    destruct (o_cyc (run s inp u)) eqn:Cu; [|reflexivity]. destruct (ack (inp u)) eqn:Au; [|discriminate E].
    destruct (next_request s inp K u Cu Au) as [Q _]. pose proof (delay_bound (irqs inp) (machine s inp u) u (dat_r (inp u))) as B. specialize (Q 0%nat ltac:(lia)). replace (u + 1 + 0)%nat with (S u) in Q by lia. congruence.
  - intros j Hj. destruct (H (n - 1 - j)%nat ltac:(lia)) as [_ Q]. replace (t - 1 - (n - 1 - j))%nat with (t - n + j)%nat in Q by lia. exact Q.
Qed.
Theorem C69_short_waits_covered : forall v s inp, bus_ok s inp -> answers_within 7 s inp -> assume_bus v s inp.
Proof.
  intros v s inp B Aw. pose proof (bus_ok_ok s inp B) as K. apply C69_bus_assumption. intros t n Wt Q. destruct (waits_start s inp t n K Wt) as (R & N & Tn).
  destruct (Aw _ R) as (m & Lm & Am). assert (n <= m)%nat by (destruct (Nat.lt_ge_cases m n) as [L|L]; [rewrite (N m L) in Am; discriminate Am|exact L]).
  assert (n = 0)%nat by (rewrite Nat.mod_small in Q by lia; exact Q). subst n. destruct Wt as (C & A & _). destruct (ok_ack _ _ B t C A) as (t' & -> & C').
  rewrite Nat.sub_0_r in R. destruct R as [_ R]. congruence.
Qed.
Lemma answers_more W W' s inp : (W <= W')%nat -> answers_within W s inp -> answers_within W' s inp.
Proof. intros L H t R. destruct (H t R) as (n & Ln & A). exists n. split; [lia|exact A]. Qed.
Theorem C69_wishbone_soc_covered : forall v k D x0 p, soc_start x0 -> pins_ok p ->
  let s := so_cpu x0 in let inp := soc_inp k D x0 p in
  (forall t, o_cyc (run s inp t) = true -> region_of (o_adr (run s inp t)) <> None) -> assume_bus v s inp.
Proof.
  intros v k D x0 p Hs Hp s inp Hm. apply C69_short_waits_covered; [apply (C43_soc_bus k D x0 p Hs Hp)|]. apply (answers_more 1); [lia|]. apply (C65_wishbone_soc k D x0 p Hs Hp Hm).
Qed.
Theorem C69_csr_soc_covered : forall v k D x0 p, csoc_start x0 -> pins_ok p ->
  let s := co_cpu x0 in let inp := csoc_inp k D x0 p in
  (forall t, o_cyc (run s inp t) = true -> 0 <= 4 * o_adr (run s inp t) < 0x4000000) -> assume_bus v s inp.
Proof.
  intros v k D x0 p Hs Hp s inp Hm. apply C69_short_waits_covered; [apply (C60_csr_soc_bus k D x0 p Hs Hp)|]. apply (answers_more 5); [lia|]. apply (C65_csr_soc k D x0 p Hs Hp Hm).
Qed.

(** The instruction being executed in cycle [u]. *)
Lemma current s inp t1 w1 u : forall t2 w2, fetch_done s inp t1 w1 -> fetch_done s inp t2 w2 -> (t1 < u <= t2)%nat ->
  exists t t' w, (t1 <= t < u)%nat /\ (u <= t' <= t2)%nat /\ executes s inp t t' w.
Proof.
  induction t2 as [t2 IH] using lt_wf_ind. intros w2 F1 F2 L. destruct (previous_fetch s inp t1 t2 w1 w2 F1 F2 ltac:(lia)) as (t & w & Lt & X).
  destruct (Nat.lt_ge_cases t u) as [Q|Q]; [exists t, t2, w; split; [lia|]; split; [lia|exact X]|].
  destruct (IH t ltac:(lia) w F1 (proj1 X) ltac:(lia)) as (tm & tm' & wm & L1 & L2 & Xm). exists tm, tm', wm. split; [lia|]. split; [lia|exact Xm].
Qed.
Lemma insn_during v s inp t t' w : ok s inp -> executes s inp t t' w -> forall n, (S t + n <= t')%nat -> v_insn (vrun v s inp (S t + n)) = w.
Proof.
  intros K X. induction n as [|n IH]; intros Hn.
  - rewrite Nat.add_0_r, vrun_S. unfold rvfi_step. rewrite (no_rst s inp K), (win_commit_t s inp K t t' w X). cbn [v_insn]. apply X.
  - rewrite Nat.add_succ_r, vrun_S. unfold rvfi_step. rewrite (no_rst s inp K), (win_commit s inp K t t' w X) by lia. cbn [v_insn]. apply IH. lia.
Qed.
Lemma trap_stays v s inp t t' w u : ok s inp -> executes s inp t t' w -> (t < u)%nat -> forall n, (u + n <= t')%nat -> v_trap (vrun v s inp u) = true -> v_trap (vrun v s inp (u + n)) = true.
Proof.
  intros K X Hu n Hn T. induction n as [|n IH]; [rewrite Nat.add_0_r; exact T|].
  rewrite Nat.add_succ_r, vrun_S. unfold rvfi_step. rewrite (no_rst s inp K), (win_commit s inp K t t' w X) by lia. cbn [v_trap]. rewrite IH by lia. destruct (exc_now _ _); reflexivity.
Qed.
(** C69: at most one trap.  Between two traps (of instructions other than MRET) there must be an MRET
    that is itself interrupted: an ordinary return from the handler does not make room for the next
    trap. *)
Theorem C69_second_trap_excluded : forall v s inp, ok s inp -> rvfi_fresh v -> assume_nest v s inp ->
  forall t1 t1' w1 x1 y1 t2 t2' w2 x2 y2, executed s inp t1 t1' w1 x1 y1 -> traps s inp t1 w1 x1 -> w1 <> MRET_WORD ->
  executed s inp t2 t2' w2 x2 y2 -> traps s inp t2 w2 x2 -> w2 <> MRET_WORD -> (t1 < t2)%nat ->
  exists t t' x y, (t1' <= t < t')%nat /\ (t' <= t2)%nat /\ executed s inp t t' MRET_WORD x y /\ int_taken s inp t MRET_WORD = true.
Proof.
  intros v s inp K V As t1 t1' w1 x1 y1 t2 t2' w2 x2 y2 E1 T1 M1 E2 T2 M2 L.
  assert (Up : forall t t' w x y, executed s inp t t' w x y -> traps s inp t w x -> w <> MRET_WORD -> trap_nest (wrap_run v s inp (S t')) = (trap_nest (wrap_run v s inp t') + 1) mod 4).
  { intros t t' w x y E T M. rewrite (tn_S v s inp t'). rewrite (proj2 (C53_trap s inp v K V t t' w x y E) T). destruct (C51_instruction_and_sources s inp v K V t t' w x y E) as (Iw & _). rewrite Iw.
    destruct E as ((_ & _ & (w' & _ & _ & A & _) & _) & _). rewrite A, (proj2 (Z.eqb_neq _ _) M). reflexivity. }
  assert (L' : (t1' <= t2)%nat).
  { destruct E1 as ((_ & _ & _ & No) & _). destruct (Nat.lt_ge_cases t2 t1') as [Q|Q]; [|exact Q]. destruct E2 as ((F2 & _) & _). destruct (No t2 w2 ltac:(lia) F2). }
  assert (L2 : (t2 < t2')%nat) by (destruct E2 as ((_ & Q & _) & _); exact Q).
  set (hit u := v_trap (vrun v s inp u) && ack (inp u) && (v_insn (vrun v s inp u) =? MRET_WORD)).
  destruct (existsb hit (seq (S t1') (t2' - S t1'))) eqn:X.
  - apply existsb_exists in X. destruct X as (u & Hu & Q). apply in_seq in Hu. unfold hit in Q. apply andb_prop in Q. destruct Q as [Q Q3]. apply andb_prop in Q. destruct Q as [Q1 Q2]. apply Z.eqb_eq in Q3.
    destruct (Nat.lt_ge_cases t2 u) as [Lu|Lu].
    { exfalso. apply M2. pose proof (insn_during v s inp t2 t2' w2 K (proj1 E2) (u - S t2)%nat ltac:(lia)) as J. replace (S t2 + (u - S t2))%nat with u in J by lia. congruence. }
    pose proof E1 as ((_ & _ & (w1' & F1) & _) & _). pose proof E2 as ((F2 & _) & _).
    destruct (current s inp t1' w1' u t2 w2 F1 F2 ltac:(lia)) as (t & t' & w & La & Lb & X).
    assert (w = MRET_WORD). { pose proof (insn_during v s inp t t' w K X (u - S t)%nat ltac:(lia)) as J. replace (S t + (u - S t))%nat with u in J by lia. congruence. } subst w.
    exists t, t', (run s inp (S t)), (run s inp (S t')). split; [lia|]. split; [lia|]. split; [split; [exact X|split; reflexivity]|].
    pose proof (trap_stays v s inp t t' _ u K X ltac:(lia) (t' - u)%nat ltac:(lia) Q1) as T. replace (u + (t' - u))%nat with t' in T by lia.
    destruct (proj1 (trap_is s inp v K t t' MRET_WORD X) T) as [I|[c I]]; [exact I|]. exfalso. exact I.
  - exfalso. assert (No : forall u, (t1' < u < t2')%nat -> hit u = false).
    { intros u Hu. destruct (hit u) eqn:Q; [|reflexivity]. assert (existsb hit (seq (S t1') (t2' - S t1')) = true) by (apply existsb_exists; exists u; split; [apply in_seq; lia|exact Q]). congruence. }
    pose proof (Up _ _ _ _ _ E1 T1 M1) as U1. pose proof (Up _ _ _ _ _ E2 T2 M2) as U2.
    assert (R : forall t, 0 <= trap_nest (wrap_run v s inp t) < 2) by (intros t; split; [apply (tn_range v s inp t)|apply As]).
    assert (P : forall n, (S t1' + n <= t2')%nat -> trap_nest (wrap_run v s inp (S t1' + n)) = 1).
    { induction n as [|n IH]; intros Hn.
      - rewrite Nat.add_0_r. pose proof (R t1'). pose proof (R (S t1')) as R1. rewrite U1 in R1 |- *. rewrite Z.mod_small in * by lia. lia.
      - assert (Q : trap_nest (wrap_run v s inp (S (S t1' + n))) = if v_trap (vrun v s inp (S t1' + n)) && ack (inp (S t1' + n)%nat) then
          if (v_insn (vrun v s inp (S t1' + n)) =? MRET_WORD) && negb (trap_nest (wrap_run v s inp (S t1' + n)) =? 0) then (trap_nest (wrap_run v s inp (S t1' + n)) - 1) mod 4 else (trap_nest (wrap_run v s inp (S t1' + n)) + 1) mod 4 else trap_nest (wrap_run v s inp (S t1' + n))) by exact (tn_S v s inp (S t1' + n)). pose proof (No (S t1' + n)%nat ltac:(lia)) as H. unfold hit in H. rewrite (IH ltac:(lia)) in Q. pose proof (R (S (S t1' + n))) as R1. rewrite <- plus_n_Sm.
        destruct (v_trap (vrun v s inp (S t1' + n)) && ack (inp (S t1' + n)%nat)); [|exact Q]. cbn [andb] in H. rewrite H in Q. cbn [andb] in Q. rewrite Q in R1. change ((1 + 1) mod 4) with 2 in R1. lia. }
    specialize (P (t2' - S t1')%nat ltac:(lia)). replace (S t1' + (t2' - S t1'))%nat with t2' in P by lia. rewrite P in U2. pose proof (R (S t2')) as R2. rewrite U2 in R2. change ((1 + 1) mod 4) with 2 in R2. lia.
Qed.

(** ** Liveness *)
Lemma memio_answers v s inp : ok s inp -> assume_memio v s inp -> answers_within 3 s inp.
Proof.
  intros K H t [C _]. destruct (ack (inp (t + 0)%nat)) eqn:A0; [exists 0%nat; auto with arith|]. destruct (ack (inp (t + 1)%nat)) eqn:A1; [exists 1%nat; auto with arith|].
  destruct (ack (inp (t + 2)%nat)) eqn:A2; [exists 2%nat; auto with arith|]. destruct (ack (inp (t + 3)%nat)) eqn:A3; [exists 3%nat; auto with arith|]. exfalso.
  assert (St : forall j, ack (inp (t + j)%nat) = false -> o_cyc (run s inp (t + j)) = true -> timeout_bus (wrap_run v s inp (t + S j)) = (timeout_bus (wrap_run v s inp (t + j)) + 1) mod 8 /\ o_cyc (run s inp (t + S j)) = true).
  { intros j A Cj. rewrite <- plus_n_Sm. rewrite (tb_S v s inp (t + j)), A, Cj. split; [reflexivity|]. apply (C05_request_held s inp K _ Cj A). }
  rewrite <- (Nat.add_0_r t) in C. destruct (St 0%nat A0 C) as [T1 C1]. destruct (St 1%nat A1 C1) as [T2 C2]. destruct (St 2%nat A2 C2) as [T3 C3]. destruct (St 3%nat A3 C3) as [T4 C4].
  assert (R : forall u, 0 <= timeout_bus (wrap_run v s inp u) < 4).
  { intros u. pose proof (tb_range v s inp u) as Q. cbv zeta in Q. specialize (H u). destruct (timeout_bus (wrap_run v s inp u)) as [|[[[]|[]|]|[[]|[]|]|]|]; try lia; discriminate H. }
  pose proof (R (t + 0)%nat). pose proof (R (t + 1)%nat). pose proof (R (t + 2)%nat). pose proof (R (t + 3)%nat). pose proof (R (t + 4)%nat). rewrite Z.mod_small in T1, T2, T3, T4 by lia. lia.
Qed.
Lemma waiting s inp t : exists n, (n <= t)%nat /\ (forall j, (j < n)%nat -> o_cyc (run s inp (t - 1 - j)) = true /\ ack (inp (t - 1 - j)%nat) = false) /\
  (n = t \/ o_cyc (run s inp (t - 1 - n)) && negb (ack (inp (t - 1 - n)%nat)) = false).
Proof.
  assert (G : forall m, (m <= t)%nat -> exists n, (n <= m)%nat /\ (forall j, (j < n)%nat -> o_cyc (run s inp (t - 1 - j)) = true /\ ack (inp (t - 1 - j)%nat) = false) /\
    (n = m \/ o_cyc (run s inp (t - 1 - n)) && negb (ack (inp (t - 1 - n)%nat)) = false)).
  { induction m as [|m IH]; intros Hm; [exists 0%nat; split; [lia|]; split; [intros; lia|auto]|].
    destruct (IH ltac:(lia)) as (n & L & H & [->|E]); [|exists n; split; [lia|]; split; [exact H|right; exact E]].
    destruct (o_cyc (run s inp (t - 1 - m))) eqn:C'; [destruct (ack (inp (t - 1 - m)%nat)) eqn:A'|].
    - exists m. split; [lia|]. split; [exact H|]. right. rewrite C', A'. reflexivity.
    - exists (S m). split; [lia|]. split; [|auto]. intros j Hj. destruct (Nat.eq_dec j m) as [->|]; [auto|]. apply H. lia.
    - exists m. split; [lia|]. split; [exact H|]. right. rewrite C'. reflexivity. }
  apply (G t (le_n t)).
Qed.
(** C69: the fairness assumption of the liveness checks: at most three wait states. *)
Theorem C69_memio_assumption : forall v s inp, ok s inp -> (assume_memio v s inp <-> answers_within 3 s inp).
Proof.
  intros v s inp K. split; [apply memio_answers; exact K|]. intros Aw t. destruct (waiting s inp t) as (n & L & H & E).
  assert (T : timeout_bus (wrap_run v s inp t) = Z.of_nat n mod 8) by exact (tb_count v s inp t n L H E). rewrite T.
  assert (Ln : (n <= 3)%nat).
  { destruct n as [|n]; [lia|]. destruct (H n ltac:(lia)) as [C0 A0]. replace (t - 1 - n)%nat with (t - S n)%nat in C0, A0 by lia.
    assert (R : request_starts s inp (t - S n)).
    { split; [exact C0|]. destruct (t - S n)%nat as [|u] eqn:U; [exact I|]. destruct E as [E|E]; [lia|]. replace (t - 1 - S n)%nat with u in E by lia.
      destruct (o_cyc (run s inp u)) eqn:Cu; [|reflexivity]. destruct (ack (inp u)) eqn:Au; [|discriminate E].
      destruct (next_request s inp K u Cu Au) as [Q _]. pose proof (delay_bound (irqs inp) (machine s inp u) u (dat_r (inp u))) as B. specialize (Q 0%nat ltac:(lia)). replace (u + 1 + 0)%nat with (S u) in Q by lia. congruence. }
    destruct (Aw _ R) as (m & Lm & Am). destruct (Nat.lt_ge_cases m (S n)) as [Q|Q]; [|lia]. destruct (H (n - m)%nat ltac:(lia)) as [_ A]. replace (t - 1 - (n - m))%nat with (t - S n + m)%nat in A by lia. congruence. }
  destruct n as [|[|[|[|n]]]]; [reflexivity..|lia].
Qed.
Ltac by_decode D := repeat match type of D with context[match ?x with _ => _ end] => destruct x eqn:?; try discriminate D end.
Lemma shift_reg w f rd rs1 rs2 : decode w = Some (OpReg f rd rs1 rs2) -> is_shift f = true -> w mod 2 ^ 7 = 0x33 /\ (fld w 12 3 = 1 \/ fld w 12 3 = 5) /\ rs2 = fld w 20 5.
Proof.
  unfold decode, decode_branch, decode_load, decode_store, decode_system, decode_opimm, decode_op. cbv zeta. intros D Sf. by_decode D; injection D as <- <- <- <-; try discriminate Sf; auto.
Qed.
Lemma shift_imm w f rd rs1 n : decode w = Some (OpImm f rd rs1 n) -> is_shift f = true -> w mod 2 ^ 7 = 0x13 /\ (fld w 12 3 = 1 \/ fld w 12 3 = 5) /\ n = fld w 20 5.
Proof.
  unfold decode, decode_branch, decode_load, decode_store, decode_system, decode_opimm, decode_op. cbv zeta. intros D Sf. by_decode D; injection D as <- <- <- <-; try discriminate Sf; auto.
Qed.
(** The longest shift is the only long instruction. *)
Definition short_shift (a : arch) (w : Z) : Prop :=
  match decode w with
  | Some (OpImm f _ _ n) => is_shift f = true -> n < 2
  | Some (OpReg f _ _ rs2) => is_shift f = true -> rd_x a rs2 < 2
  | _ => True
  end.
Lemma short_delay a w i1 i2 : (forall r, 0 <= r < 32 -> 0 <= rd_x a r) -> short_shift a w -> (fst (fetch_delay a w i1 i2) <= 9)%nat.
Proof.
  unfold short_shift, fetch_delay, trap_delay. intros N H. destruct (_ && _); [cbn; lia|]. destruct (decode w) as [i|] eqn:D; [|cbn; lia]. destruct (is_csr i && _); [cbn; lia|].
  destruct i as [| | | | | | |f rd rs1 n|f rd rs1 rs2| | | | | |]; cbn [exec_delay]; unfold jump_delay, trap_delay;
    try (repeat match goal with |- context[if ?b then _ else _] => destruct b end;
         repeat match goal with |- context[match ?b with _ => _ end] => destruct b end; cbn [fst]; lia).
  destruct (is_shift f) eqn:Sf; [|cbn; lia]. specialize (H eq_refl). assert (R : rs2 = fld w 20 5) by (destruct (shift_reg w f rd rs1 rs2 D Sf) as (_ & _ & R); exact R).
  pose proof (N rs2 ltac:(rewrite R; apply fld_range; lia)). rewrite Z.mod_small by lia. destruct (_ =? 0); cbn [fst]; lia.
Qed.
Lemma next_fetch_in s inp W t w a : ok s inp -> answers_within W s inp -> fetch_done s inp t w -> machine s inp t = Fetching a ->
  exists t', executes s inp t t' w /\ (t' <= t + Nat.max (1 + fst (fetch_delay a w (irq (inp (t + 1)%nat)) (irq (inp (t + 2)%nat))) + W) (8 + 2 * W))%nat.
Proof.
  intros K Aw F M. pose proof F as (C & U & A & <-).
  destruct (next_transfer s inp W K Aw t C A) as (u & Lu & Cu & Au & Mu & Nu). pose proof (delay_bound (irqs inp) (machine s inp t) t (dat_r (inp t))) as B.
  rewrite (machine_ack s inp t C A), M in Mu. rewrite M in Lu, B. cbn [complete delay_after] in Mu, Lu, B. unfold irqs in Mu, Lu, B.
  destruct (fetched SENTINEL a (dat_r (inp t)) _ _ _) as [a'|r k] eqn:Ft.
  - exists u. split; [|lia]. split; [exact F|]. split; [lia|]. split; [eexists; apply (fetch_at s inp K u a' Cu Au Mu)|]. intros v w' Hv. apply no_fetch, Nu. lia.
  - pose proof (access_delay inp t a r k Ft) as D5.
    destruct (next_transfer s inp W K Aw u Cu Au) as (x & Lx & Cx & Ax & Mx & Nx). rewrite (machine_ack s inp u Cu Au), Mu in Mx. rewrite Mu in Lx. cbn [complete delay_after fst] in Mx, Lx.
    exists x. split; [|lia]. split; [exact F|]. split; [lia|]. split; [eexists; apply (fetch_at s inp K x _ Cx Ax Mx)|].
    intros v w' Hv. destruct (Nat.lt_total v u) as [L|[->|L]]; [apply no_fetch, Nu; lia| |apply no_fetch, Nx; lia].
    intros (_ & Uf & _). pose proof (fetch_iff s inp K u Cu) as Q. rewrite Mu in Q. congruence.
Qed.
Lemma next_report v s inp t u w : ok s inp -> rvfi_fresh v -> valid_at v s inp t = true -> executes s inp t u w ->
  valid_at v s inp u = true /\ reports v s inp u = S (reports v s inp t) /\ v_order (vrun v s inp u) = (v_order (vrun v s inp t) + 1) mod 2 ^ 64.
Proof.
  intros K V Vt X. apply (valid_iff s inp v K V) in Vt. destruct Vt as (t0 & w0 & X0). split; [apply (valid_iff s inp v K V); exists t, w; exact X|].
  assert (R : reports v s inp u = S (reports v s inp t)) by (apply (C50_reports_are_consecutive s inp v K V t0 t u w0 w X0 X)). split; [exact R|].
  rewrite !(C50_order_counts_reports s inp v K V), R, Nat2Z.inj_succ. unfold Z.succ. rewrite Zplus_mod_idemp_l. reflexivity.
Qed.

(** C69: riscv-formal's liveness checks cannot fail: under the assumptions of the [full] group every
    report is followed by the next one within 71 cycles (the check allows 138) ... *)
Theorem C69_full_liveness : forall v s inp, ok s inp -> rvfi_fresh v -> assume_memio v s inp ->
  (exists t, (6 <= t <= 79)%nat /\ valid_at v s inp t = true) /\
  forall t, valid_at v s inp t = true -> exists u, (t < u <= t + 71)%nat /\ valid_at v s inp u = true /\
    v_order (vrun v s inp u) = (v_order (vrun v s inp t) + 1) mod 2 ^ 64.
Proof.
  intros v s inp K V Am. pose proof (memio_answers v s inp K Am) as Aw. destruct (C65_next_instruction s inp 3 K Aw) as [(u0 & w0 & L0 & F0 & _) Nx]. split.
  - destruct (Nx u0 w0 F0) as (t' & X & L). exists t'. split; [destruct X as (_ & Q & _); lia|]. apply (valid_iff s inp v K V). exists u0, w0. exact X.
  - intros t Vt. pose proof (proj1 (valid_iff s inp v K V t) Vt) as (t0 & w1 & (_ & _ & (w & F) & _)). destruct (Nx t w F) as (u & X & L). exists u.
    split; [destruct X as (_ & Q & _); lia|]. destruct (next_report v s inp t u w K V Vt X) as (Vu & _ & O). auto.
Qed.
(** ... and under those of the default group, where shift amounts are limited to 0 and 1, within 14
    (the check allows 27). *)
Theorem C69_liveness : forall v s inp, ok s inp -> rvfi_fresh v -> assume_memio v s inp -> assume_shift v s inp ->
  forall t, valid_at v s inp t = true -> exists u, (t < u <= t + 14)%nat /\ valid_at v s inp u = true /\
    v_order (vrun v s inp u) = (v_order (vrun v s inp t) + 1) mod 2 ^ 64.
Proof.
  intros v s inp K V Am Sh t Vt. pose proof (memio_answers v s inp K Am) as Aw. pose proof (proj1 (valid_iff s inp v K V t) Vt) as (t0 & w1 & (_ & _ & (w & F) & _)).
  destruct (C02_registers_match_reference s inp K t w F) as (a & M & Rx & _). cbv zeta in Rx.
  destruct (next_fetch_in s inp 3 t w a K Aw F M) as (u & X & L). exists u.
  assert (Ex : executed s inp t u w (run s inp (S t)) (run s inp (S u))) by (split; [exact X|split; reflexivity]).
  destruct (C51_instruction_and_sources s inp v K V t u w _ _ Ex) as (Iw & _ & _ & _ & _ & _ & I2). destruct (Sh u) as [S1 S2]. rewrite Iw in S1, S2. rewrite I2 in S2.
  assert (Wf : wf (run s inp (S t))). { apply run_wf; [|apply (env_word _ (ok'_env _ _ K))]. destruct (ok'_fresh _ _ K) as (u1 & m & rd & _ & Q). exact Q. }
  assert (D : (fst (fetch_delay a w (irq (inp (t + 1)%nat)) (irq (inp (t + 2)%nat))) <= 9)%nat).
  { apply short_delay.
    - intros r Hr. rewrite <- Rx by lia. apply (wf_mem _ Wf).
    - unfold short_shift. destruct (decode w) as [[]|] eqn:Dw; try exact I; intros Sf.
      + destruct (shift_imm _ _ _ _ _ Dw Sf) as (O & F3 & ->). apply S1; [unfold fld; change (2 ^ 0) with 1; rewrite Z.div_1_r; exact O|exact F3].
      + destruct (shift_reg _ _ _ _ _ Dw Sf) as (O & F3 & ->). rewrite <- Rx by (apply fld_range; lia). apply S2; [unfold fld; change (2 ^ 0) with 1; rewrite Z.div_1_r; exact O|exact F3]. }
  split; [destruct X as (_ & Q & _); lia|]. destruct (next_report v s inp t u w K V Vt X) as (Vu & _ & O). auto.
Qed.

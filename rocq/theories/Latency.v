(** * How long things take: C65 *)
From Coq Require Import ZArith Lia Bool List.
From Verif Require Import Bits Ucode Cpu Isa BitLemmas Timed Wf Sym Boundary Sim Main Obs PropsBus PropsInv Observe PropsIsa.
Import ListNotations.
Open Scope Z_scope.

(** ** Specification *)
(** A bus request appears in cycle [t]; every request is acknowledged at most [W] cycles after it
    appears. *)
Definition request_starts (s : state) (inp : nat -> input) (t : nat) : Prop :=
  o_cyc (run s inp t) = true /\ match t with O => True | S u => o_cyc (run s inp u) = false end.
Definition answers_within (W : nat) (s : state) (inp : nat -> input) : Prop :=
  forall t, request_starts s inp t -> exists n, (n <= W)%nat /\ ack (inp (t + n)%nat) = true.
(** The longest instruction is a shift by 31, or, on a slow bus, a load or store. *)
Definition longest (W : nat) : nat := Nat.max (68 + W) (8 + 2 * W).

(** ** Proofs *)
Section L.
Variables (s : state) (inp : nat -> input) (W : nat).
Hypothesis (K : ok s inp) (Aw : answers_within W s inp).
Lemma first_ack t : request_starts s inp t -> exists n, (n <= W)%nat /\ ack (inp (t + n)%nat) = true /\ o_cyc (run s inp (t + n)) = true /\
  machine s inp (t + n) = machine s inp t /\ forall j, (j < n)%nat -> ack (inp (t + j)%nat) = false.
Proof.
  intros Hs. destruct (Aw t Hs) as (m & Lm & Am). destruct Hs as [C _].
  assert (G : forall k, (forall j, (j < k)%nat -> ack (inp (t + j)%nat) = false) -> o_cyc (run s inp (t + k)) = true /\ machine s inp (t + k) = machine s inp t).
  { induction k as [|k IH]; intros H; [rewrite Nat.add_0_r; auto|]. destruct IH as [I1 I2]; [intros; apply H; lia|]. rewrite Nat.add_succ_r. pose proof (H k ltac:(lia)) as A. split.
    - apply (C05_request_held s inp K _ I1 A).
    - rewrite machine_noack; [exact I2|rewrite A; apply andb_false_r]. }
  assert (F : exists n, (n <= m)%nat /\ ack (inp (t + n)%nat) = true /\ forall j, (j < n)%nat -> ack (inp (t + j)%nat) = false).
  { clear -Am. induction m as [m IH] using (well_founded_induction Wf_nat.lt_wf). destruct (existsb (fun j => ack (inp (t + j)%nat)) (seq 0 m)) eqn:E.
    - apply existsb_exists in E. destruct E as (j & I & A). apply in_seq in I. destruct (IH j ltac:(lia) A) as (n & L & R). exists n. split; [lia|exact R].
    - exists m. split; [lia|]. split; [exact Am|]. intros j Hj. destruct (ack (inp (t + j)%nat)) eqn:A; [|reflexivity]. assert (X : existsb (fun j => ack (inp (t + j)%nat)) (seq 0 m) = true) by (apply existsb_exists; exists j; split; [apply in_seq; lia|exact A]). congruence. }
  destruct F as (n & Ln & An & Fn). destruct (G n Fn) as [G1 G2]. exists n. repeat split; try assumption. lia.
Qed.
(** The transfer after the one completed in cycle [t]. *)
Lemma next_transfer t : o_cyc (run s inp t) = true -> ack (inp t) = true ->
  let d := fst (delay_after (irqs inp) (machine s inp t) (t, dat_r (inp t))) in
  exists u, (t + 1 + d <= u <= t + 1 + d + W)%nat /\ o_cyc (run s inp u) = true /\ ack (inp u) = true /\ machine s inp u = machine s inp (S t) /\
    forall v, (t < v < u)%nat -> o_cyc (run s inp v) && ack (inp v) = false.
Proof.
  intros C A d. destruct (next_request s inp K t C A) as [Q R]. fold d in Q, R. pose proof (delay_bound (irqs inp) (machine s inp t) t (dat_r (inp t))) as B. fold d in B.
  assert (Hs : request_starts s inp (t + 1 + d)). { split; [exact R|]. replace (t + 1 + d)%nat with (S (t + 1 + (d - 1))) by lia. apply Q. lia. }
  destruct (first_ack _ Hs) as (n & Ln & An & Cn & Mn & Fn). exists (t + 1 + d + n)%nat. split; [lia|]. split; [exact Cn|]. split; [exact An|].
  assert (N : forall v, (t < v < t + 1 + d + n)%nat -> o_cyc (run s inp v) && ack (inp v) = false).
  { intros v Hv. destruct (Nat.lt_ge_cases v (t + 1 + d)) as [L|L].
    - replace v with (t + 1 + (v - t - 1))%nat by lia. rewrite Q by lia. reflexivity.
    - replace v with (t + 1 + d + (v - (t + 1 + d)))%nat by lia. rewrite Fn by lia. apply andb_false_r. }
  split; [|exact N]. rewrite Mn. replace (t + 1 + d)%nat with (S t + d)%nat by lia.
  assert (M : forall j, (j <= d)%nat -> machine s inp (S t + j) = machine s inp (S t)).
  { induction j as [|j IH]; intros Hj; [rewrite Nat.add_0_r; reflexivity|]. rewrite Nat.add_succ_r, machine_noack; [apply IH; lia|]. apply N. lia. }
  apply M. lia.
Qed.
Lemma access_delay t a r k : fetched SENTINEL a (dat_r (inp t)) (irq (inp (t + 1)%nat)) (irq (inp (t + 2)%nat)) (irq (inp (t + 3)%nat)) = Accessing r k ->
  (fst (fetch_delay a (dat_r (inp t)) (irq (inp (t + 1)%nat)) (irq (inp (t + 2)%nat))) <= 5)%nat.
Proof.
  unfold fetched, fetch_delay. destruct (_ && _); [discriminate|]. destruct (decode _) as [i|]; [|discriminate]. destruct (is_csr i && _); [discriminate|].
  destruct i as [rd v|rd v|rd off|rd rs1 off|c rs1 rs2 off|sz sg rd rs1 off|sz rs1 rs2 off|f rd rs1 n|f rd rs1 rs2| | | | | |f rd g n]; cbn [exec exec_delay].
  all: try (intros H; exfalso; revert H; repeat match goal with |- context[if ?b then _ else _] => destruct b | |- context[match ?b with _ => _ end] => destruct b end; discriminate).
  - destruct (aligned _ _); [cbn; lia|discriminate].
  - destruct (aligned _ _); [cbn; lia|discriminate].
Qed.
Lemma fetch_at u a : o_cyc (run s inp u) = true -> ack (inp u) = true -> machine s inp u = Fetching a -> fetch_done s inp u (dat_r (inp u)).
Proof. intros C A M. pose proof (fetch_iff s inp K u C) as F. rewrite M in F. repeat split; assumption. Qed.
Lemma no_fetch u w : o_cyc (run s inp u) && ack (inp u) = false -> ~ fetch_done s inp u w.
Proof. intros N (C & _ & A & _). rewrite C, A in N. discriminate. Qed.
Lemma next_fetch t w : fetch_done s inp t w -> exists t', executes s inp t t' w /\ (t' <= t + longest W)%nat.
Proof.
  intros F. pose proof F as (C & U & A & <-). destruct (fetch_machine s inp K t _ F) as (a & M).
  destruct (next_transfer t C A) as (u & Lu & Cu & Au & Mu & Nu). pose proof (delay_bound (irqs inp) (machine s inp t) t (dat_r (inp t))) as B.
  rewrite (machine_ack s inp t C A), M in Mu. rewrite M in Lu, B. cbn [complete delay_after] in Mu, Lu, B. unfold irqs in Mu, Lu, B.
  destruct (fetched SENTINEL a (dat_r (inp t)) _ _ _) as [a'|r k] eqn:Ft.
  - exists u. split; [|unfold longest; lia]. split; [exact F|]. split; [lia|]. split; [eexists; apply (fetch_at u a' Cu Au Mu)|]. intros v w' Hv. apply no_fetch, Nu. lia.
  - pose proof (access_delay t a r k Ft) as D5.
    destruct (next_transfer u Cu Au) as (x & Lx & Cx & Ax & Mx & Nx). rewrite (machine_ack s inp u Cu Au), Mu in Mx. rewrite Mu in Lx. cbn [complete delay_after fst] in Mx, Lx.
    exists x. split; [|unfold longest; lia]. split; [exact F|]. split; [lia|]. split; [eexists; apply (fetch_at x _ Cx Ax Mx)|].
    intros v w' Hv. destruct (Nat.lt_total v u) as [L|[->|L]]; [apply no_fetch, Nu; lia| |apply no_fetch, Nx; lia].
    intros (_ & Uf & _). pose proof (fetch_iff s inp K u Cu) as Q. rewrite Mu in Q. congruence.
Qed.
Lemma first_fetch_soon : exists u w, (5 <= u <= 5 + W)%nat /\ fetch_done s inp u w /\ forall v w', (v < u)%nat -> ~ fetch_done s inp v w'.
Proof.
  assert (Z : forall j, (j < 5)%nat -> o_cyc (run s inp j) = false).
  { intros j Hj. rewrite (timed_cyc s inp K). unfold t_cyc. pose proof (idle_count s inp 0 5 eq_refl j ltac:(lia)) as I. cbn [Nat.add] in I. rewrite I. destruct (5 - j)%nat eqn:E; [lia|reflexivity]. }
  destruct (C08_never_hangs s inp K) as [C5 _]. assert (Hs : request_starts s inp 5) by (split; [exact C5|apply (Z 4%nat); lia]).
  destruct (first_ack 5 Hs) as (n & Ln & An & Cn & Mn & Fn). exists (5 + n)%nat, (dat_r (inp (5 + n)%nat)). split; [lia|].
  assert (M5 : forall j, (j <= 5)%nat -> machine s inp j = machine s inp 0).
  { induction j as [|j IH]; intros Hj; [reflexivity|]. rewrite machine_noack; [apply IH; lia|]. rewrite Z by lia. reflexivity. }
  split.
  - rewrite (M5 5%nat) in Mn by lia. eapply fetch_at; [exact Cn|exact An|exact Mn].
  - intros v w' Hv. apply no_fetch. destruct (Nat.lt_ge_cases v 5) as [L|L]; [rewrite Z by lia; reflexivity|]. replace v with (5 + (v - 5))%nat by lia. rewrite Fn by lia. apply andb_false_r.
Qed.
(** The first fetch completed at or after a given time. *)
Lemma fetch_soon t : exists u w, (t <= u <= t + longest W)%nat /\ fetch_done s inp u w /\ forall v w', (t <= v < u)%nat -> ~ fetch_done s inp v w'.
Proof.
  induction t as [|t (u & w & L & F & N)].
  - destruct first_fetch_soon as (u & w & L & F & N). exists u, w. split; [unfold longest; lia|]. split; [exact F|]. intros v w' Hv. apply N. lia.
  - destruct (Nat.eq_dec u t) as [->|Ne].
    + destruct (next_fetch t w F) as (t' & (E1 & E2 & (w' & E3) & E4) & B). exists t', w'. split; [lia|]. split; [exact E3|]. intros v w2 Hv. apply E4. lia.
    + exists u, w. split; [lia|]. split; [exact F|]. intros v w' Hv. apply N. lia.
Qed.
End L.

(** C65: every instruction is followed by the next fetch within a fixed number of cycles. *)
Theorem C65_next_instruction : forall s inp W, ok s inp -> answers_within W s inp ->
  (exists u w, (5 <= u <= 5 + W)%nat /\ fetch_done s inp u w /\ forall v w', (v < u)%nat -> ~ fetch_done s inp v w') /\
  forall t w, fetch_done s inp t w -> exists t', executes s inp t t' w /\ (t' <= t + Nat.max (68 + W) (8 + 2 * W))%nat.
Proof. intros s inp W K Aw. split; [apply first_fetch_soon; assumption|]. apply next_fetch; assumption. Qed.
(** C65: interrupt latency.  Whatever the core is doing in cycle [t], an instruction fetch completes
    within [Max (68 + W) (8 + 2 W)] cycles; if the interrupt line is then high and interrupts are
    enabled, that instruction is not executed, and exactly six cycles later the handler's first fetch
    is on the bus. *)
Theorem C65_interrupt_latency : forall s inp W, ok s inp -> answers_within W s inp ->
  forall t, exists u w, (t <= u <= t + Nat.max (68 + W) (8 + 2 * W))%nat /\ fetch_done s inp u w /\ (forall v w', (t <= v < u)%nat -> ~ fetch_done s inp v w') /\
  let x := run s inp (u + 1) in
  (irq (inp (u + 1)%nat) = true -> mie_of x = true -> meie_of x = true ->
   (forall j, (u < j < u + 6)%nat -> o_cyc (run s inp j) = false) /\
   let y := run s inp (u + 6) in o_cyc y = true /\ u_fetch (s_u y) = true /\ o_we y = false /\ o_adr y = mtvec_of x / 4).
Proof.
  intros s inp W K Aw t. destruct (fetch_soon s inp W K Aw t) as (u & w & L & F & N). exists u, w. split; [exact L|]. split; [exact F|]. split; [exact N|].
  intros x I Mi Me. destruct (C02_registers_match_reference s inp K u w F) as (a & M & E). cbv zeta in E. replace (S u) with (u + 1)%nat in E by lia. fold x in E.
  destruct E as (_ & _ & E1 & _ & E2 & E3 & _). pose proof F as (C & _ & A & Dw).
  assert (Ie : int_enabled a && irq (inp (u + 1)%nat) = true) by (unfold int_enabled; rewrite <- E1, <- E2, Mi, Me, I; reflexivity).
  destruct (C26_trap_timing s inp K u a w C A M Dw (or_introl Ie)) as [Q R]. split; [intros j Hj; replace j with (u + 1 + (j - u - 1))%nat by lia; apply Q; lia|].
  assert (My : machine s inp (u + 6) = Fetching (interrupt a)).
  { assert (G : forall j, (j <= 5)%nat -> machine s inp (S u + j) = machine s inp (S u)).
    { induction j as [|j IH]; intros Hj; [rewrite Nat.add_0_r; reflexivity|]. rewrite Nat.add_succ_r, machine_noack; [apply IH; lia|]. replace (S u + j)%nat with (u + 1 + j)%nat by lia. rewrite Q by lia. reflexivity. }
    replace (u + 6)%nat with (S u + 5)%nat by lia. rewrite G by lia. rewrite (machine_ack s inp u C A), M. cbn [complete]. unfold fetched, irqs. rewrite Ie. reflexivity. }
  pose proof (fetch_iff s inp K (u + 6) R) as U. rewrite My in U. pose proof (bus_shows s inp K (u + 6) R) as Sh. rewrite My in Sh.
  intros y. split; [exact R|]. split; [exact U|]. split; [apply (sh_we _ _ Sh)|]. unfold y. rewrite (sh_adr _ _ Sh). cbn [request q_adr interrupt trap_to pc]. rewrite E3.
  rewrite Z.mul_comm, Z.div_mul by lia. reflexivity.
Qed.

(** C26: the other traps are noticed later, so the handler's fetch is requested later: 7 cycles after the fetch's ACK
    for a CSR access that is illegal or interrupted in its extra cycle, 9 for a misaligned load, store or jump, 10 for
    a misaligned branch that is taken. *)
Theorem C26_late_traps : forall s inp, ok s inp ->
  forall t a w i n, o_cyc (run s inp t) = true -> ack (inp t) = true -> machine s inp t = Fetching a -> dat_r (inp t) = w ->
  int_enabled a && irq (inp (t + 1)%nat) = false -> decode w = Some i ->
  match i with
  | Csr f rd g c => (int_enabled a && irq (inp (t + 2)%nat) = true \/ csr_read a false c = None \/ csr_writes f g = true /\ csr_read_only c = true) /\ n = 6%nat
  | Load sz _ _ rs1 off | Store sz rs1 _ off => aligned sz ((rd_x a rs1 + off) mod 2 ^ 32) = false /\ n = 8%nat
  | Jal _ off => (pc a + off) mod 2 ^ 32 mod 4 <> 0 /\ n = 8%nat
  | Jalr _ rs1 off => (2 * (((rd_x a rs1 + off) mod 2 ^ 32) / 2)) mod 4 <> 0 /\ n = 8%nat
  | Branch c rs1 rs2 off => cmp c (rd_x a rs1) (rd_x a rs2) = true /\ (pc a + off) mod 2 ^ 32 mod 4 <> 0 /\ n = 9%nat
  | _ => False
  end ->
  (forall j, (j < n)%nat -> o_cyc (run s inp (t + 1 + j)) = false) /\ o_cyc (run s inp (t + 1 + n)) = true.
Proof.
  intros s inp K t a w i n C A M Hw Hi Hd H.
  assert (Dl : fst (delay_after (irqs inp) (machine s inp t) (t, dat_r (inp t))) = n).
  { rewrite M, Hw. cbn [delay_after]. unfold fetch_delay, irqs. rewrite Hi, Hd.
    destruct i as [rd v|rd v|rd off|rd rs1 off|c rs1 rs2 off|sz sg rd rs1 off|sz rs1 rs2 off|f rd rs1 m|f rd rs1 rs2| | | | | |f rd g m]; try contradiction; cbn [is_csr andb exec_delay].
    - destruct H as [H ->]. unfold jump_delay, target_ok. rewrite (proj2 (Z.eqb_neq _ _) H). reflexivity.
    - destruct H as [H ->]. unfold jump_delay, target_ok. rewrite (proj2 (Z.eqb_neq _ _) H). reflexivity.
    - destruct H as (-> & H & ->). unfold target_ok. rewrite (proj2 (Z.eqb_neq _ _) H). reflexivity.
    - destruct H as [H ->]. cbv zeta. rewrite H. reflexivity.
    - destruct H as [H ->]. cbv zeta. rewrite H. reflexivity.
    - destruct H as [H ->]. destruct (int_enabled a && irq (inp (t + 2)%nat)); [reflexivity|]. destruct H as [H|[H|[H1 H2]]]; [discriminate|rewrite H; reflexivity|].
      rewrite H1, H2. destruct (csr_read a false m); reflexivity. }
  pose proof (next_request s inp K t C A) as P. cbv zeta in P. rewrite Dl in P. exact P.
Qed.

(** * What software observes of the core, instruction by instruction

    Definitions used to state the per-instruction properties.  They mention only the
    registers of the core and its bus signals, not the reference machine. *)
From Coq Require Import ZArith Lia Bool List.
From Verif Require Import Bits Ucode Cpu Isa Timed BitLemmas Wf Sym Blocks CsrBlocks DecodeOk Boundary Sim Main Obs.
Import ListNotations.
Open Scope Z_scope.

(** ** Architectural registers, where datapath.py keeps them *)
(** General registers: words 0-31 of the register RAM (datapath.py:392-427). *)
Definition x_of (s : state) (r : Z) : Z := s_mem s r.
(** PC: the register holds bits 2-31 (datapath.py:114-123). *)
Definition pc_of (s : state) : Z := 4 * s_pc s.
(** MSTATUS.MIE, MSTATUS.MPIE, MIE.MEIE flip-flops (datapath.py:693-786). *)
Definition mie_of (s : state) : bool := c_mie (s_csr s).
Definition mpie_of (s : state) : bool := c_mpie (s_csr s).
Definition meie_of (s : state) : bool := c_meie (s_csr s).
(** MTVEC, MSCRATCH, MEPC, MCAUSE: words 32 + 5, 8, 9, 10 of the register RAM. *)
Definition mtvec_of (s : state) : Z := s_mem s 37.
Definition mscratch_of (s : state) : Z := s_mem s 40.
Definition mepc_of (s : state) : Z := s_mem s 41.
Definition mcause_of (s : state) : Z := s_mem s 42.

(** ** Instructions on the bus *)
(** An instruction fetch is a request made with the INSN_FETCH microcode field set. *)
Definition fetch_done (s : state) (inp : nat -> input) (t : nat) (w : Z) : Prop :=
  o_cyc (run s inp t) = true /\ u_fetch (s_u (run s inp t)) = true /\ ack (inp t) = true /\ dat_r (inp t) = w.
(** A load or store transfer. *)
Definition data_done (s : state) (inp : nat -> input) (t : nat) : Prop :=
  o_cyc (run s inp t) = true /\ u_fetch (s_u (run s inp t)) = false /\ ack (inp t) = true.

(** [w] is fetched in cycle [t], and the next instruction is fetched in cycle [t']. *)
Definition executes (s : state) (inp : nat -> input) (t t' : nat) (w : Z) : Prop :=
  fetch_done s inp t w /\ (t < t')%nat /\ (exists w', fetch_done s inp t' w') /\
  forall u w', (t < u < t')%nat -> ~ fetch_done s inp u w'.

(** No load or store between the two fetches. *)
Definition no_data (s : state) (inp : nat -> input) (t t' : nat) : Prop :=
  forall u, (t < u < t')%nat -> o_cyc (run s inp u) && ack (inp u) = false.
(** Exactly one, in cycle [u]. *)
Definition one_data (s : state) (inp : nat -> input) (t t' u : nat) : Prop :=
  (t < u < t')%nat /\ data_done s inp u /\
  forall v, (t < v < t')%nat -> v <> u -> o_cyc (run s inp v) && ack (inp v) = false.

(** The interrupt line makes the core take an interrupt instead of [w]: it is sampled in
    the cycle after the fetch, and for CSR instructions also one cycle later. *)
Definition csr_word (w : Z) : bool := match decode w with Some i => is_csr i | None => false end.
Definition int_taken (s : state) (inp : nat -> input) (t : nat) (w : Z) : bool :=
  let x := run s inp (S t) in
  mie_of x && meie_of x && (irq (inp (t + 1)%nat) || csr_word w && irq (inp (t + 2)%nat)).
(** No interrupt was taken at a fetch before cycle [t]. *)
Definition no_int_before (s : state) (inp : nat -> input) (t : nat) : Prop :=
  forall u w, (u < t)%nat -> fetch_done s inp u w -> int_taken s inp u w = false.

(** ** Effects: [x] is the core when the instruction has been fetched, [y] when the next one has *)
Definition same_csrs (x y : state) : Prop :=
  mie_of y = mie_of x /\ mpie_of y = mpie_of x /\ meie_of y = meie_of x /\ mtvec_of y = mtvec_of x /\
  mscratch_of y = mscratch_of x /\ mepc_of y = mepc_of x /\ mcause_of y = mcause_of x.
Definition same_regs (x y : state) : Prop := forall r, 0 <= r < 32 -> x_of y r = x_of x r.
Definition writes_rd (x y : state) (rd v : Z) : Prop :=
  (rd <> 0 -> x_of y rd = v) /\ (forall r, 0 <= r < 32 -> r <> rd -> x_of y r = x_of x r) /\ x_of y 0 = 0.
Definition pc_plus_4 (x : state) : Z := (pc_of x + 4) mod 2 ^ 32.

Definition trap_entry (x y : state) : Prop :=
  same_regs x y /\ mepc_of y = pc_of x /\ pc_of y = 4 * (mtvec_of x / 4) /\ mie_of y = false /\
  mpie_of y = mie_of x /\ meie_of y = meie_of x /\ mtvec_of y = mtvec_of x /\ mscratch_of y = mscratch_of x.
(** A synchronous exception with code [c].  The interrupt bit of MCAUSE is only known to
    be clear if no interrupt has been taken since reset (see C24). *)
Definition exception_entry (s : state) (inp : nat -> input) (t : nat) (c : Z) (x y : state) : Prop :=
  trap_entry x y /\ (mcause_of y = c \/ mcause_of y = 2 ^ 31 + c) /\
  (no_int_before s inp t -> mcause_of y = c).
Definition interrupt_entry (x y : state) : Prop := trap_entry x y /\ mcause_of y = 0x8000000B.

(** ** Link with the reference machine *)
Section O.
Variables (s : state) (inp : nat -> input).
Hypothesis K : ok s inp.

Lemma fetch_iff t : o_cyc (run s inp t) = true ->
  match machine s inp t with Fetching _ => u_fetch (s_u (run s inp t)) = true | Accessing _ _ => u_fetch (s_u (run s inp t)) = false end.
Proof.
  intros C. destruct t as [|t]. { cbn in C. destruct (cyc0 s inp K). congruence. }
  destruct (ok_sim s inp K t) as [W Q]. rewrite (timed_cyc s inp K) in C. unfold t_cyc in C.
  rewrite <- (timed_machine s inp K). destruct (t_idle _) eqn:I; [|discriminate]. inversion Q as [t' s' P|]; subst.
  destruct (t_early _); cbn [ready] in P.
  - destruct P as (a & -> & (k & Hk & A & _) & _). rewrite A. unfold early_list in Hk; cbn [In] in Hk;
    repeat (destruct Hk as [<-|Hk]; [reflexivity|]); contradiction.
  - destruct P as [a s1 (A & _)|sz sgn a rd ea s1 (A & _) B Ha Hd Al R|sz a ea v s1 (A & _) B Ha Hv Al R].
    + destruct A as [A|[A|A]]; destruct A as (A & _); rewrite A; reflexivity.
    + rewrite A. destruct sz, sgn; reflexivity.
    + rewrite A. destruct sz; reflexivity.
Qed.

Lemma fetch_machine t w : fetch_done s inp t w -> exists a, machine s inp t = Fetching a.
Proof.
  intros (C & U & _). pose proof (fetch_iff t C) as H. destruct (machine s inp t) as [a|]; [exists a; reflexivity|congruence].
Qed.

(** Waiting for a fetch. *)
Lemma wait_fetch t0 t' a w' : machine s inp t0 = Fetching a -> (t0 <= t')%nat -> fetch_done s inp t' w' ->
  (forall u w, (t0 <= u < t')%nat -> ~ fetch_done s inp u w) ->
  (forall u, (t0 <= u < t')%nat -> o_cyc (run s inp u) && ack (inp u) = false) /\ machine s inp t' = Fetching a.
Proof.
  intros M L F N.
  assert (P : forall j, (t0 + j <= t')%nat -> machine s inp (t0 + j) = Fetching a /\
             forall u, (t0 <= u < t0 + j)%nat -> o_cyc (run s inp u) && ack (inp u) = false).
  { induction j as [|j IH]; intros Hj.
    - rewrite Nat.add_0_r. split; [assumption|intros; lia].
    - destruct IH as [IHm IHq]; [lia|].
      assert (Q : o_cyc (run s inp (t0 + j)) && ack (inp (t0 + j)%nat) = false).
      { destruct (o_cyc (run s inp (t0 + j))) eqn:C; [|reflexivity]. destruct (ack (inp (t0 + j)%nat)) eqn:A; [|reflexivity].
        exfalso. apply (N (t0 + j)%nat (dat_r (inp (t0 + j)%nat))); [lia|].
        pose proof (fetch_iff _ C) as U. rewrite IHm in U. repeat split; assumption. }
      rewrite Nat.add_succ_r. split; [rewrite machine_noack; assumption|].
      intros u Hu. destruct (Nat.eq_dec u (t0 + j)) as [->|]; [assumption|]. apply IHq. lia. }
  destruct (P (t' - t0)%nat) as [P1 P2]; [lia|]. replace (t0 + (t' - t0))%nat with t' in * by lia. split; assumption.
Qed.

Lemma wait_data t0 t' r k w' : machine s inp t0 = Accessing r k -> (t0 <= t')%nat -> fetch_done s inp t' w' ->
  exists u, (t0 <= u < t')%nat /\ data_done s inp u /\ machine s inp u = Accessing r k /\
    forall v, (t0 <= v < u)%nat -> o_cyc (run s inp v) && ack (inp v) = false.
Proof.
  intros M L F.
  assert (P : forall j, (t0 + j <= t')%nat -> (exists u, (t0 <= u < t0 + j)%nat /\ data_done s inp u /\ machine s inp u = Accessing r k /\
       forall v, (t0 <= v < u)%nat -> o_cyc (run s inp v) && ack (inp v) = false) \/
       (machine s inp (t0 + j) = Accessing r k /\ forall v, (t0 <= v < t0 + j)%nat -> o_cyc (run s inp v) && ack (inp v) = false)).
  { induction j as [|j IH]; intros Hj.
    - right. rewrite Nat.add_0_r. split; [assumption|intros; lia].
    - destruct IH as [(u & Hu & D)|[IHm IHq]]; [lia| |].
      { left. exists u. split; [lia|assumption]. }
      destruct (o_cyc (run s inp (t0 + j)) && ack (inp (t0 + j)%nat)) eqn:Q.
      + left. exists (t0 + j)%nat. split; [lia|]. apply andb_prop in Q. destruct Q as [C A].
        pose proof (fetch_iff _ C) as U. rewrite IHm in U. repeat split; assumption.
      + right. rewrite Nat.add_succ_r. split; [rewrite machine_noack; assumption|].
        intros v Hv. destruct (Nat.eq_dec v (t0 + j)) as [->|]; [assumption|]. apply IHq. lia. }
  destruct (P (t' - t0)%nat) as [Q|[Q _]]; [lia| |].
  - replace (t0 + (t' - t0))%nat with t' in Q by lia. exact Q.
  - replace (t0 + (t' - t0))%nat with t' in Q by lia. destruct (fetch_machine _ _ F) as [a E]. congruence.
Qed.

(** What one instruction does, in terms of the reference machine. *)
Definition outcome (t t' : nat) (m : mach) : Prop :=
  match m with
  | Fetching a' => no_data s inp t t' /\ rel a' (run s inp (S t')) /\ machine s inp t' = Fetching a'
  | Accessing r k => exists u, one_data s inp t t' u /\ shows r (run s inp u) /\ rel (k (dat_r (inp u))) (run s inp (S t'))
                       /\ machine s inp t' = Fetching (k (dat_r (inp u)))
  end.

Lemma executes_outcome t t' w : executes s inp t t' w -> exists a, machine s inp t = Fetching a /\ rel a (run s inp (S t)) /\
  outcome t t' (fetched SENTINEL a w (irq (inp (t + 1)%nat)) (irq (inp (t + 2)%nat)) (irq (inp (t + 3)%nat))).
Proof.
  intros (F & L & (w' & F') & N). destruct (fetch_machine t w F) as [a M]. exists a.
  destruct F as (C & U & A & D). destruct F' as (C' & U' & A' & D').
  split; [assumption|]. split. { apply (b_rel _ _ _ (fetch_boundary s inp K t a C A M)). }
  assert (Ms : machine s inp (S t) = fetched SENTINEL a w (irq (inp (t + 1)%nat)) (irq (inp (t + 2)%nat)) (irq (inp (t + 3)%nat))).
  { rewrite machine_ack by assumption. rewrite M, D. reflexivity. }
  rewrite <- Ms. unfold outcome. destruct (machine s inp (S t)) as [a'|r k] eqn:M1.
  - destruct (wait_fetch (S t) t' a' w' M1) as [Q Mt]; [lia|repeat split; assumption| |].
    { intros u w0 Hu. apply N. lia. }
    split; [intros u Hu; apply Q; lia|]. split; [|exact Mt].
    apply (b_rel _ _ _ (fetch_boundary s inp K t' a' C' A' Mt)).
  - destruct (wait_data (S t) t' r k w' M1) as (u & Hu & Dd & Mu & Q); [lia|repeat split; assumption|].
    assert (Su : shows r (run s inp u)). { pose proof (bus_shows s inp K u (proj1 Dd)) as X. rewrite Mu in X. exact X. }
    assert (Mu' : machine s inp (S u) = Fetching (k (dat_r (inp u)))).
    { rewrite machine_ack by apply Dd. rewrite Mu. reflexivity. }
    destruct (wait_fetch (S u) t' _ w' Mu') as [Q2 Mt]; [lia|repeat split; assumption| |].
    { intros u0 w0 Hu0. apply N. lia. }
    exists u. split; [|split; [exact Su|split; [|exact Mt]]].
    + split; [lia|]. split; [exact Dd|]. intros v Hv Hn. destruct (Nat.lt_ge_cases v u); [apply Q|apply Q2]; lia.
    + apply (b_rel _ _ _ (fetch_boundary s inp K t' _ C' A' Mt)).
Qed.

(** The interrupt condition. *)
Lemma int_taken_rel t w a : rel a (run s inp (S t)) ->
  int_taken s inp t w = int_enabled a && (irq (inp (t + 1)%nat) || csr_word w && irq (inp (t + 2)%nat)).
Proof.
  intros R. unfold int_taken, int_enabled, mie_of, meie_of. cbv zeta. rewrite (r_mie _ _ _ _ _ _ _ _ R), (r_meie _ _ _ _ _ _ _ _ R). reflexivity.
Qed.
Lemma fetched_taken v a w i1 i2 i3 : int_enabled a && (i1 || csr_word w && i2) = true ->
  fetched v a w i1 i2 i3 = Fetching (interrupt a).
Proof.
  unfold fetched, csr_word. destruct (int_enabled a); [|discriminate]. cbn [andb]. destruct i1; [reflexivity|].
  cbn [orb]. destruct (decode w) as [i|]; [|discriminate]. destruct (is_csr i); [|discriminate]. cbn [andb]. intros ->. reflexivity.
Qed.
Lemma fetched_not_taken v a w i1 i2 i3 : int_enabled a && (i1 || csr_word w && i2) = false ->
  fetched v a w i1 i2 i3 = match decode w with None => Fetching (exception v a (illegal_cause v w)) | Some i => exec v a i3 i end.
Proof.
  unfold fetched, csr_word. destruct (int_enabled a); cbn [andb].
  2:{ destruct (decode w) as [i|]; [|reflexivity]. rewrite andb_false_r. reflexivity. }
  destruct i1; [discriminate|]. cbn [orb]. destruct (decode w) as [i|]; [|reflexivity]. destruct (is_csr i); [|reflexivity]. cbn [andb]. intros ->. reflexivity.
Qed.

(** The interrupt history. *)
Definition clean (m : mach) : Prop := match m with Fetching a => took_int a = false | Accessing _ k => forall d, took_int (k d) = false end.
Lemma wr_took a r v : took_int (wr_x a r v) = took_int a.
Proof. unfold wr_x. destruct (r =? 0); reflexivity. Qed.
Lemma jump_took v a x l : took_int l = took_int a -> took_int (jump v a x l) = took_int a.
Proof. intros H. unfold jump. destruct (_ =? 0); [exact H|reflexivity]. Qed.
Lemma csr_write_took a n v : took_int (csr_write a n v) = took_int a.
Proof.
  unfold csr_write. repeat match goal with |- context[match ?x with _ => _ end] => is_var x; destruct x; try reflexivity end.
Qed.
Lemma exec_clean v a ip i : took_int a = false -> clean (exec v a ip i).
Proof.
  intros H. destruct i; cbn [exec clean advance set_pc took_int].
  all: rewrite ?wr_took; try assumption.
  - rewrite jump_took; [assumption|apply wr_took].
  - rewrite jump_took; [assumption|apply wr_took].
  - destruct (cmp _ _ _); [rewrite jump_took; [assumption|reflexivity]|assumption].
  - destruct (aligned _ _); cbn [clean]; [intros d; cbn [advance set_pc took_int]; rewrite wr_took|cbn]; assumption.
  - destruct (aligned _ _); cbn [clean]; [intros d; cbn [advance set_pc took_int]|cbn]; assumption.
  - unfold exec_csr. destruct (csr_read _ _ _); [|assumption]. destruct (_ && _); [assumption|].
    cbn [advance set_pc took_int]. rewrite wr_took. destruct (csr_writes _ _); [rewrite csr_write_took|]; assumption.
Qed.
Lemma clean_run t : no_int_before s inp t -> clean (machine s inp t).
Proof.
  induction t as [|t IH]; intros N; [reflexivity|].
  assert (C : clean (machine s inp t)) by (apply IH; intros u w Hu; apply N; lia).
  destruct (o_cyc (run s inp t) && ack (inp t)) eqn:Q; [|rewrite machine_noack; assumption].
  apply andb_prop in Q. destruct Q as [Cy Ak]. rewrite machine_ack by assumption.
  pose proof (fetch_iff t Cy) as U. destruct (machine s inp t) as [a|r k] eqn:M; cbn [complete].
  - pose proof (fetch_boundary s inp K t a Cy Ak M) as B.
    specialize (N t (dat_r (inp t)) ltac:(lia)). rewrite (int_taken_rel t _ a (b_rel _ _ _ B)) in N.
    specialize (N ltac:(repeat split; assumption)). unfold irqs. rewrite fetched_not_taken by assumption.
    destruct (decode _) as [i|]; [apply exec_clean|]; exact C.
  - apply C.
Qed.

(** The instruction [w] is not interrupted. *)
Lemma executes_not_taken t t' w : executes s inp t t' w -> int_taken s inp t w = false ->
  exists a, rel a (run s inp (S t)) /\ (no_int_before s inp t -> took_int a = false) /\
    outcome t t' (match decode w with None => Fetching (exception SENTINEL a (illegal_cause SENTINEL w))
                  | Some i => exec SENTINEL a (irq (inp (t + 3)%nat)) i end).
Proof.
  intros X T. destruct (executes_outcome t t' w X) as (a & M & R & O). exists a. split; [assumption|]. split.
  { intros N. pose proof (clean_run t N) as C. rewrite M in C. exact C. }
  rewrite (int_taken_rel t w a R) in T. rewrite fetched_not_taken in O by assumption. exact O.
Qed.
Lemma executes_taken t t' w : executes s inp t t' w -> int_taken s inp t w = true ->
  exists a, rel a (run s inp (S t)) /\ outcome t t' (Fetching (interrupt a)).
Proof.
  intros X T. destruct (executes_outcome t t' w X) as (a & M & R & O). exists a. split; [assumption|].
  rewrite (int_taken_rel t w a R) in T. rewrite fetched_taken in O by assumption. exact O.
Qed.

(** Reading effects off the relation. *)
Lemma rel_trap a x y c b : rel a x -> rel (trap_to a c b) y -> trap_entry x y /\ mcause_of y = c.
Proof.
  intros [] []. unfold trap_entry, same_regs, x_of, mepc_of, pc_of, mie_of, mpie_of, meie_of, mtvec_of, mscratch_of, mcause_of.
  cbn [trap_to pc mie mpie meie mtvec mscratch mepc mcause took_int] in *.
  split; [|congruence]. repeat split; try congruence.
  - intros r Hr. rewrite <- r_x0, <- r_x by lia. reflexivity.
Qed.
Lemma rel_exception t a x y c : rel a x -> (no_int_before s inp t -> took_int a = false) -> rel (exception SENTINEL a c) y ->
  exception_entry s inp t c x y.
Proof.
  intros R H R'. destruct (rel_trap _ _ _ _ _ R R') as [T C]. split; [assumption|]. rewrite C. unfold sync_mcause.
  split; [destruct (took_int a); auto|]. intros N. rewrite (H N). reflexivity.
Qed.
Lemma rel_interrupt a x y : rel a x -> rel (interrupt a) y -> interrupt_entry x y.
Proof. intros R R'. apply (rel_trap a x y _ _ R R'). Qed.
End O.

Lemma rel_same_csrs a a' x y : rel a x -> rel a' y -> mie a' = mie a -> mpie a' = mpie a -> meie a' = meie a -> mtvec a' = mtvec a ->
  mscratch a' = mscratch a -> mepc a' = mepc a -> mcause a' = mcause a -> same_csrs x y.
Proof.
  intros [] []. unfold same_csrs, mepc_of, mie_of, mpie_of, meie_of, mtvec_of, mscratch_of, mcause_of. intros. repeat split; congruence.
Qed.
Lemma rel_same_regs a a' x y : rel a x -> rel a' y -> (forall r, rd_x a' r = rd_x a r) -> same_regs x y.
Proof. intros [] [] H r Hr. unfold x_of. rewrite <- r_x0, <- r_x, H by lia. reflexivity. Qed.
Lemma rel_wr a a' x y rd v : rel a x -> rel a' y -> 0 <= rd < 32 -> (forall r, rd_x a' r = rd_x (wr_x a rd v) r) -> writes_rd x y rd v.
Proof.
  intros [] [] Hd H. unfold writes_rd, x_of. repeat split.
  - intros N. rewrite <- r_x0, H by lia. unfold wr_x. destruct (Z.eqb_spec rd 0); [lia|]. unfold rd_x. destruct (Z.eqb_spec rd 0); [lia|].
    cbn [set_x xr]. rewrite Z.eqb_refl. reflexivity.
  - intros r Hr N. rewrite <- r_x0, <- r_x, H by lia. unfold wr_x. destruct (Z.eqb_spec rd 0); [reflexivity|]. unfold rd_x. cbn [set_x xr].
    destruct (Z.eqb_spec r rd); [lia|reflexivity].
  - rewrite <- r_x0 by lia. reflexivity.
Qed.

(** * C27, C29, C35, and C01 against the plain RISC-V machine *)
From Coq Require Import ZArith Lia Bool List.
From Verif Require Import Bits Ucode Cpu Isa Timed BitLemmas Wf Sym Blocks CsrBlocks DecodeOk Boundary Sim Main Obs PropsBus Observe PropsIsa.
Import ListNotations.
Open Scope Z_scope.

(** ** C27: frame *)
(** Register [w] may write. *)
Definition dest (w : Z) : option Z :=
  match decode w with
  | Some (Lui rd _) | Some (Auipc rd _) | Some (Jal rd _) | Some (Jalr rd _ _) | Some (Load _ _ rd _ _)
  | Some (OpImm _ rd _ _) | Some (OpReg _ rd _ _) | Some (Csr _ rd _ _) => Some rd
  | _ => None
  end.
Definition traps (s : state) (inp : nat -> input) (t : nat) (w : Z) (x : state) : Prop :=
  int_taken s inp t w = true \/ exists c, sync_cause x w c.

Lemma taken_dec s inp t w : int_taken s inp t w = true \/ int_taken s inp t w = false.
Proof. destruct (int_taken s inp t w); auto. Qed.

Lemma csr_other_regs s inp : ok s inp -> forall t t' w x y, executed s inp t t' w x y -> int_taken s inp t w = false ->
  forall f rd g n, decode w = Some (Csr f rd g n) -> forall r, 0 <= r < 32 -> r <> rd -> x_of y r = x_of x r.
Proof.
  intros K t t' w x y E T f rd g n D r Hr Nr.
  destruct (sync_cause_dec x w) as [[c C]|C].
  - destruct (C21_exception s inp K t t' w x y E T c C) as [_ [[H _] _]]. apply H. assumption.
  - assert (L : csr_legal f g n).
    { unfold csr_legal. destruct (known n) eqn:Kn.
      - split; [apply known_exists; assumption|]. intros H. apply (C 2). unfold sync_cause. rewrite D. split; [|reflexivity]. intros [_ L]. apply L. exact H.
      - exfalso. apply (C 2). unfold sync_cause. rewrite D. split; [|reflexivity]. intros [L _]. apply known_exists in L. congruence. }
    pose proof L as [Lx _]. destruct Lx as [Li|Lz].
    + destruct (C19_csr_read_modify_write s inp K t t' w x y E T f rd g n D Li) as (_ & (_ & H & _) & _). apply H; assumption.
    + destruct (C20_read_only_zero s inp K t t' w x y E T f rd g n D Lz L) as (_ & (_ & H & _) & _). apply H; assumption.
Qed.

Theorem C27_other_registers_unchanged : forall s inp, ok s inp -> forall t t' w x y, executed s inp t t' w x y ->
  forall r, 0 <= r < 32 -> dest w <> Some r -> x_of y r = x_of x r.
Proof.
  intros s inp K t t' w x y E r Hr Hd. destruct (taken_dec s inp t w) as [T|T].
  { destruct (C21_interrupt s inp K t t' w x y E T) as [_ [[H _] _]]. apply H. assumption. }
  assert (Rt : forall rd v p, retires x y rd v p -> rd <> r -> x_of y r = x_of x r) by (intros rd v p ((_ & H & _) & _) N; apply H; congruence).
  assert (Mv : forall p, moves_to x y p -> x_of y r = x_of x r) by (intros p (H & _); apply H; assumption).
  assert (Tr : forall c, exception_entry s inp t c x y -> x_of y r = x_of x r) by (intros c [[H _] _]; apply H; assumption).
  unfold dest in Hd. destruct (decode w) as [i|] eqn:D.
  2:{ eapply Tr. apply (C21_exception s inp K t t' w x y E T). unfold sync_cause. rewrite D. reflexivity. }
  destruct i; try (assert (Nr : rd <> r) by congruence).
  - eapply Rt; [|exact Nr]. apply (proj1 (C14_lui_auipc s inp K t t' w x y E T) _ _ D).
  - eapply Rt; [|exact Nr]. apply (proj2 (C14_lui_auipc s inp K t t' w x y E T) _ _ D).
  - destruct (C15_jal s inp K t t' w x y E T _ _ D) as [_ P]. cbv zeta in P. destruct (_ =? 0); [eapply Rt|eapply Tr]; eassumption.
  - destruct (C15_jalr s inp K t t' w x y E T _ _ _ D) as [_ P]. cbv zeta in P. destruct (_ =? 0); [eapply Rt|eapply Tr]; eassumption.
  - destruct (C15_branch s inp K t t' w x y E T _ _ _ _ D) as [_ P]. cbv zeta in P. destruct (cmp _ _ _); [destruct (_ =? 0)|]; [eapply Mv|eapply Tr|eapply Mv]; eassumption.
  - destruct (Z.eq_dec (((x_of x rs1 + off) mod 2 ^ 32) mod bytes sz) 0) as [Al|Al].
    + destruct (C13_load s inp K t t' w x y E T _ _ _ _ _ D Al) as (u & _ & _ & _ & _ & R & _). eapply Rt; [exact R|exact Nr].
    + eapply Tr. apply (proj1 (C11_misaligned s inp K t t' w x y E T) _ _ _ _ _ D Al).
  - destruct (Z.eq_dec (((x_of x rs1 + off) mod 2 ^ 32) mod bytes sz) 0) as [Al|Al].
    + destruct (C12_store s inp K t t' w x y E T _ _ _ _ D Al) as (u & _ & _ & _ & _ & _ & R). eapply Mv; exact R.
    + eapply Tr. apply (proj2 (C11_misaligned s inp K t t' w x y E T) _ _ _ _ D Al).
  - eapply Rt; [|exact Nr]. apply (C14_op_imm s inp K t t' w x y E T _ _ _ _ D).
  - eapply Rt; [|exact Nr]. apply (C14_op_reg s inp K t t' w x y E T _ _ _ _ D).
  - eapply Mv. apply (C22_fence_wfi s inp K t t' w x y E T). auto.
  - eapply Tr. apply (C21_exception s inp K t t' w x y E T). unfold sync_cause. rewrite D. reflexivity.
  - eapply Tr. apply (C21_exception s inp K t t' w x y E T). unfold sync_cause. rewrite D. reflexivity.
  - assert (W : w = 0x30200073).
    { clear - D. unfold decode, decode_system, decode_op, decode_opimm, decode_branch, decode_store, decode_load in D. cases_in D. apply Z.eqb_eq. assumption. }
    destruct (C22_mret s inp K t t' w x y E T W) as (_ & H & _). apply H. assumption.
  - eapply Mv. apply (C22_fence_wfi s inp K t t' w x y E T). auto.
  - eapply csr_other_regs; try eassumption. congruence.
Qed.

(** A CSR only changes in a trap (MSTATUS, MEPC, MCAUSE), by MRET (MSTATUS), or by a CSR
    instruction that writes it. *)
Theorem C27_other_csrs_unchanged : forall s inp, ok s inp -> forall t t' w x y, executed s inp t t' w x y ->
  forall n ip, csr_of y ip n <> csr_of x ip n ->
  (traps s inp t w x /\ In n [0x300; 0x341; 0x342]) \/
  (w = 0x30200073 /\ n = 0x300) \/
  (exists f rd g, decode w = Some (Csr f rd g n) /\ csr_writes f g = true).
Proof.
  intros s inp K t t' w x y E n ip Ne.
  assert (Te : trap_entry x y -> In n [0x300; 0x341; 0x342]).
  { intros (_ & _ & _ & _ & _ & H1 & H2 & H3). revert Ne. unfold csr_of. rewrite H1, H2, H3.
    repeat match goal with |- context[match ?x with _ => _ end] => is_var x; destruct x; try (cbn [In]; tauto); try (intros Q; exfalso; apply Q; reflexivity) end. }
  destruct (taken_dec s inp t w) as [T|T].
  { left. split; [left; assumption|]. apply Te. apply (C21_interrupt s inp K t t' w x y E T). }
  destruct (sync_cause_dec x w) as [[c C]|C].
  { left. split; [right; exists c; assumption|]. apply Te. apply (C21_exception s inp K t t' w x y E T c C). }
  right.
  assert (Sm : same_csrs x y -> False).
  { intros (H1 & H2 & H3 & H4 & H5 & H6 & H7). apply Ne. unfold csr_of. rewrite H1, H2, H3, H4, H5, H6, H7. reflexivity. }
  assert (Rt : forall rd v p, retires x y rd v p -> False) by (intros rd v p (_ & _ & H); auto).
  assert (Mv : forall p, moves_to x y p -> False) by (intros p (_ & _ & H); auto).
  unfold sync_cause in C. destruct (decode w) as [i|] eqn:D; [|exfalso; eapply C; reflexivity].
  destruct i.
  - exfalso. eapply Rt. apply (proj1 (C14_lui_auipc s inp K t t' w x y E T) _ _ D).
  - exfalso. eapply Rt. apply (proj2 (C14_lui_auipc s inp K t t' w x y E T) _ _ D).
  - exfalso. destruct (C15_jal s inp K t t' w x y E T _ _ D) as [N P]. cbv zeta in P. destruct (Z.eqb_spec (((pc_of x + off) mod 2 ^ 32) mod 4) 0); [eapply Rt; eassumption|].
    eapply C. split; [eassumption|reflexivity].
  - exfalso. destruct (C15_jalr s inp K t t' w x y E T _ _ _ D) as [N P]. cbv zeta in P. destruct (Z.eqb_spec ((2 * ((x_of x rs1 + off) mod 2 ^ 32 / 2)) mod 4) 0); [eapply Rt; eassumption|].
    eapply C. split; [eassumption|reflexivity].
  - exfalso. destruct (C15_branch s inp K t t' w x y E T _ _ _ _ D) as [N P]. cbv zeta in P. destruct (cmp c _ _) eqn:Cm; [|eapply Mv; eassumption].
    destruct (Z.eqb_spec (((pc_of x + off) mod 2 ^ 32) mod 4) 0); [eapply Mv; eassumption|].
    eapply C. split; [reflexivity|]. split; [eassumption|reflexivity].
  - exfalso. destruct (Z.eq_dec (((x_of x rs1 + off) mod 2 ^ 32) mod bytes sz) 0) as [Al|Al]; [|eapply C; split; [eassumption|reflexivity]].
    destruct (C13_load s inp K t t' w x y E T _ _ _ _ _ D Al) as (u & _ & _ & _ & _ & R & _). eapply Rt; exact R.
  - exfalso. destruct (Z.eq_dec (((x_of x rs1 + off) mod 2 ^ 32) mod bytes sz) 0) as [Al|Al]; [|eapply C; split; [eassumption|reflexivity]].
    destruct (C12_store s inp K t t' w x y E T _ _ _ _ D Al) as (u & _ & _ & _ & _ & _ & R). eapply Mv; exact R.
  - exfalso. eapply Rt. apply (C14_op_imm s inp K t t' w x y E T _ _ _ _ D).
  - exfalso. eapply Rt. apply (C14_op_reg s inp K t t' w x y E T _ _ _ _ D).
  - exfalso. eapply Mv. apply (C22_fence_wfi s inp K t t' w x y E T). auto.
  - exfalso. eapply C; reflexivity.
  - exfalso. eapply C; reflexivity.
  - assert (W : w = 0x30200073).
    { clear - D. unfold decode, decode_system, decode_op, decode_opimm, decode_branch, decode_store, decode_load in D. cases_in D. apply Z.eqb_eq. assumption. }
    left. split; [assumption|]. destruct (C22_mret s inp K t t' w x y E T W) as (_ & _ & _ & _ & _ & H3 & H4 & H5 & H6 & H7).
    revert Ne. unfold csr_of. rewrite H3, H4, H5, H6, H7.
    repeat match goal with |- context[match ?x with _ => _ end] => is_var x; destruct x; try (intros; reflexivity); try (intros Q; exfalso; apply Q; reflexivity) end.
  - exfalso. eapply Mv. apply (C22_fence_wfi s inp K t t' w x y E T). auto.
  - right. assert (L : csr_legal f arg csr).
    { unfold csr_legal. destruct (known csr) eqn:Kn.
      - split; [apply known_exists; assumption|]. intros H. apply (C 2). split; [|reflexivity]. intros [_ L]. apply L. exact H.
      - exfalso. apply (C 2). split; [|reflexivity]. intros [L _]. apply known_exists in L. congruence. }
    pose proof L as [[Li|Lz] _].
    + destruct (C19_csr_read_modify_write s inp K t t' w x y E T _ _ _ _ D Li) as (_ & _ & _ & H1 & _ & H3).
      destruct (Z.eq_dec n csr) as [->|Nn]; [|exfalso; apply Ne; apply H1; assumption].
      exists f, rd, arg. split; [reflexivity|]. destruct (csr_writes f arg); [reflexivity|]. exfalso. apply Ne. apply H3. auto.
    + exfalso. eapply Rt. apply (C20_read_only_zero s inp K t t' w x y E T _ _ _ _ D Lz L).
Qed.

(** Only stores write to the bus: WE is low in every cycle from the fetch of [w] to the
    fetch of its successor unless [w] is a store. *)
Theorem C27_only_stores_write : forall s inp, ok s inp -> forall t t' w x y, executed s inp t t' w x y ->
  forall u, (t <= u <= t')%nat -> o_we (run s inp u) = true ->
  int_taken s inp t w = false /\ exists sz rs1 rs2 off, decode w = Some (Store sz rs1 rs2 off).
Proof.
  intros s inp K t t' w x y (X & -> & ->) u Hu We.
  destruct (executes_outcome s inp K t t' w X) as (a & M & R & O).
  destruct X as ((C & U & A & D) & L & (w' & F') & No).
  assert (Tp : (0 < t)%nat). { destruct t; [|lia]. cbn in C. destruct (cyc0 s inp K). congruence. }
  assert (Ms : machine s inp (S t) = fetched SENTINEL a w (irq (inp (t + 1)%nat)) (irq (inp (t + 2)%nat)) (irq (inp (t + 3)%nat))).
  { rewrite machine_ack by assumption. rewrite M, D. reflexivity. }
  assert (Kw : is_store_req (machine s inp u)).
  { destruct u as [|u]; [lia|]. apply (C10_signals_well_formed s inp K). assumption. }
  assert (P : forall j, (S t + j <= t')%nat -> machine s inp (S t + j) = machine s inp (S t) \/ exists a', machine s inp (S t + j) = Fetching a').
  { induction j as [|j IH]; intros Hj; [left; rewrite Nat.add_0_r; reflexivity|]. rewrite Nat.add_succ_r.
    destruct (o_cyc (run s inp (S t + j)) && ack (inp (S t + j)%nat)) eqn:Q; [|rewrite machine_noack by assumption; apply IH; lia].
    apply andb_prop in Q. destruct Q as [Cy Ak]. rewrite machine_ack by assumption.
    pose proof (fetch_iff s inp K _ Cy) as Fi. destruct (machine s inp (S t + j)) as [b|r k] eqn:Mj.
    - exfalso. apply (No (S t + j)%nat (dat_r (inp (S t + j)%nat))); [lia|]. repeat split; assumption.
    - right. eexists. reflexivity. }
  destruct Kw as (r & k & Mu & Qw).
  destruct (Nat.eq_dec u t) as [->|Nu]; [congruence|].
  destruct (P (u - S t)%nat) as [Q|[a' Q]]; [lia| |]; replace (S t + (u - S t))%nat with u in Q by lia; [|congruence].
  rewrite Q, Ms in Mu. rewrite (int_taken_rel s inp t w a R).
  destruct (int_enabled a && (irq (inp (t + 1)%nat) || csr_word w && irq (inp (t + 2)%nat))) eqn:Tk.
  { rewrite fetched_taken in Mu by assumption. discriminate. }
  split; [reflexivity|]. rewrite fetched_not_taken in Mu by assumption.
  destruct (decode w) as [i|] eqn:Dw; [|discriminate]. destruct i; try discriminate; cbn [exec] in Mu.
  - destruct (aligned _ _); [|discriminate]. injection Mu as <- _. discriminate Qw.
  - eexists _, _, _, _. reflexivity.
Qed.

(** ** C35: no nested interrupt before software re-enables interrupts *)
(** [w], executed in state [x], sets MSTATUS.MIE. *)
Definition sets_mie (x : state) (w : Z) : Prop :=
  (w = 0x30200073 /\ mpie_of x = true) \/
  exists f rd g, decode w = Some (Csr f rd g 0x300) /\ csr_writes f g = true /\
    let old := csr_of x false 0x300 in
    Z.testbit (match f with CSRRW => operand x g | CSRRS => Z.lor old (operand x g) | CSRRC => Z.ldiff old (operand x g) end) 3 = true.

Lemma mie_bit z ip : Z.testbit (csr_of z ip 0x300) 3 = mie_of z.
Proof. cbn [csr_of]. destruct (mie_of z), (mpie_of z); reflexivity. Qed.

Theorem C35_only_software_sets_mie : forall s inp, ok s inp -> forall t t' w x y, executed s inp t t' w x y ->
  mie_of x = false -> mie_of y = true -> int_taken s inp t w = false /\ sets_mie x w.
Proof.
  intros s inp K t t' w x y E Mx My.
  destruct (C27_other_csrs_unchanged s inp K t t' w x y E 0x300 false) as [[Tr _]|[[W _]|(f & rd & g & D & Wr)]].
  { intros H. apply (f_equal (fun z => Z.testbit z 3)) in H. rewrite !mie_bit in H. congruence. }
  { exfalso. destruct Tr as [T|[c C]].
    - destruct (C21_interrupt s inp K t t' w x y E T) as [_ [(_ & _ & _ & H & _) _]]. congruence.
    - destruct (taken_dec s inp t w) as [T|T].
      + destruct (C21_interrupt s inp K t t' w x y E T) as [_ [(_ & _ & _ & H & _) _]]. congruence.
      + destruct (C21_exception s inp K t t' w x y E T c C) as [_ [(_ & _ & _ & H & _) _]]. congruence. }
  - assert (T : int_taken s inp t w = false).
    { destruct (taken_dec s inp t w) as [T|T]; [|assumption]. destruct (C21_interrupt s inp K t t' w x y E T) as [_ [(_ & _ & _ & H & _) _]]. congruence. }
    split; [assumption|]. left. split; [assumption|]. destruct (C22_mret s inp K t t' w x y E T W) as (_ & _ & _ & H & _). congruence.
  - assert (T : int_taken s inp t w = false).
    { destruct (taken_dec s inp t w) as [T|T]; [|assumption]. destruct (C21_interrupt s inp K t t' w x y E T) as [_ [(_ & _ & _ & H & _) _]]. congruence. }
    split; [assumption|]. right. exists f, rd, g. split; [assumption|]. split; [assumption|]. cbv zeta.
    destruct (C19_csr_read_modify_write s inp K t t' w x y E T f rd g 0x300 D ltac:(cbn; tauto)) as (_ & _ & _ & _ & H & _).
    specialize (H ltac:(discriminate) Wr false). cbv zeta in H. apply (f_equal (fun z => Z.testbit z 3)) in H. rewrite mie_bit in H.
    change (csr_of x (irq (inp (t + 3)%nat)) 768) with (csr_of x false 768) in H.
    set (new := match f with CSRRW => _ | CSRRS => _ | CSRRC => _ end) in *. rewrite My in H. cbn [warl] in H. rewrite land_88 in H.
    destruct (Z.testbit new 3); [reflexivity|]. destruct (Z.testbit new 7); discriminate H.
Qed.

(** The fetch before the one at [t2]. *)
Lemma fetch_dec s inp t : (exists w, fetch_done s inp t w) \/ forall w, ~ fetch_done s inp t w.
Proof.
  unfold fetch_done. destruct (o_cyc (run s inp t)); [|right; intros w (? & _); discriminate].
  destruct (u_fetch (s_u (run s inp t))); [|right; intros w (_ & ? & _); discriminate].
  destruct (ack (inp t)); [|right; intros w (_ & _ & ? & _); discriminate].
  left. exists (dat_r (inp t)). repeat split.
Qed.
Lemma previous_fetch s inp t1 t2 w1 w2 : fetch_done s inp t1 w1 -> fetch_done s inp t2 w2 -> (t1 < t2)%nat ->
  exists u w, (t1 <= u < t2)%nat /\ executes s inp u t2 w.
Proof.
  intros F1 F2 L.
  assert (P : forall n, (n < t2 - t1)%nat -> (forall v, (t2 - S n < v < t2)%nat -> forall w, ~ fetch_done s inp v w) ->
              exists u w, (t1 <= u < t2)%nat /\ executes s inp u t2 w).
  2:{ apply (P 0%nat); [lia|]. intros; lia. }
  intros n. remember (t2 - t1 - n)%nat as m eqn:Em. revert n Em. induction m as [|m IH]; intros n Em Hn No; [lia|].
  destruct (fetch_dec s inp (t2 - S n)) as [[w F]|N].
  - exists (t2 - S n)%nat, w. split; [lia|]. split; [assumption|]. split; [lia|]. split; [exists w2; assumption|].
    intros v w' Hv. apply No. lia.
  - destruct (Nat.eq_dec (t2 - S n) t1) as [Et|Et]; [rewrite Et in N; exfalso; apply (N w1); assumption|].
    apply (IH (S n)); try lia. intros v Hv. destruct (Nat.eq_dec v (t2 - S n)) as [->|]; [assumption|]. apply No. lia.
Qed.

Theorem C35_no_nested_interrupt : forall s inp, ok s inp ->
  forall t0 t1 w0 x0 y0, executed s inp t0 t1 w0 x0 y0 -> traps s inp t0 w0 x0 ->
  forall t2 w2, (t1 <= t2)%nat -> fetch_done s inp t2 w2 -> int_taken s inp t2 w2 = true ->
  exists u u' w, (t1 <= u)%nat /\ (u' <= t2)%nat /\ executes s inp u u' w /\ int_taken s inp u w = false /\
    sets_mie (run s inp (S u)) w.
Proof.
  intros s inp K t0 t1 w0 x0 y0 E Tr t2 w2 L F2 T2.
  assert (M1 : mie_of (run s inp (S t1)) = false).
  { pose proof E as (_ & _ & Ey). rewrite <- Ey. destruct (taken_dec s inp t0 w0) as [T|T].
    - destruct (C21_interrupt s inp K _ _ _ _ _ E T) as [_ [(_ & _ & _ & H & _) _]]. assumption.
    - destruct Tr as [Tr|[c C]]; [congruence|]. destruct (C21_exception s inp K _ _ _ _ _ E T c C) as [_ [(_ & _ & _ & H & _) _]]. assumption. }
  assert (M2 : mie_of (run s inp (S t2)) = true).
  { unfold int_taken in T2. cbv zeta in T2. destruct (mie_of (run s inp (S t2))); [reflexivity|discriminate]. }
  destruct E as ((_ & _ & (w1 & F1) & _) & _).
  clear T2 w0 x0 y0 Tr. revert w2 F2 L M2. induction t2 as [t2 IH] using lt_wf_ind. intros w2 F2 L M2.
  destruct (Nat.eq_dec t1 t2) as [->|Ne]; [congruence|].
  destruct (previous_fetch s inp t1 t2 w1 w2 F1 F2 ltac:(lia)) as (u & w & Hu & X).
  destruct (mie_of (run s inp (S u))) eqn:Mu.
  - destruct X as (Fu & _). destruct (IH u ltac:(lia) w Fu ltac:(lia) Mu) as (v & v' & wv & Hv & Hv' & R). exists v, v', wv. repeat split; try apply R; lia.
  - exists u, t2, w. split; [lia|]. split; [lia|]. split; [assumption|].
    apply (C35_only_software_sets_mie s inp K u t2 w (run s inp (S u)) (run s inp (S t2))); [split; [exact X|split; reflexivity]|assumption|assumption].
Qed.

(** ** C29: masked interrupts are invisible *)
(** Two runs whose inputs differ only in IRQ, and agree on IRQ where an enabled
    interrupt is sampled and where MIP is read into a register. *)
Definition irq_agrees (s : state) (inp1 inp2 : nat -> input) : Prop :=
  forall t w, fetch_done s inp1 t w ->
    let x := run s inp1 (S t) in
    (mie_of x = true -> meie_of x = true ->
       irq (inp2 (t + 1)%nat) = irq (inp1 (t + 1)%nat) /\ (csr_word w = true -> irq (inp2 (t + 2)%nat) = irq (inp1 (t + 2)%nat))) /\
    (forall f rd g, decode w = Some (Csr f rd g 0x344) -> rd <> 0 -> irq (inp2 (t + 3)%nat) = irq (inp1 (t + 3)%nat)).

Lemma exec_ip v a ip1 ip2 i : (forall f rd g, i = Csr f rd g 0x344 -> rd <> 0 -> ip2 = ip1) -> exec v a ip2 i = exec v a ip1 i.
Proof.
  intros H. destruct i; try reflexivity. cbn [exec]. f_equal. unfold exec_csr.
  destruct (Z.eq_dec csr 0x344) as [->|N].
  - destruct (Z.eq_dec rd 0) as [->|Nr].
    + cbn [csr_read]. destruct (csr_writes f arg && csr_read_only 836); [reflexivity|]. destruct (csr_writes f arg); reflexivity.
    + rewrite (H f rd arg eq_refl Nr). reflexivity.
  - assert (E : csr_read a ip2 csr = csr_read a ip1 csr).
    { unfold csr_read. repeat match goal with |- context[match ?x with _ => _ end] => is_var x; destruct x; try reflexivity; try congruence end. }
    rewrite E. reflexivity.
Qed.

Theorem C29_masked_irq_invisible : forall s inp1 inp2, ok s inp1 -> 
  (forall t, rst (inp2 t) = rst (inp1 t) /\ ack (inp2 t) = ack (inp1 t) /\ dat_r (inp2 t) = dat_r (inp1 t)) ->
  irq_agrees s inp1 inp2 ->
  (forall t, same_outputs (run s inp1 t) (run s inp2 t)) /\
  (forall t w, fetch_done s inp1 t w -> fetch_done s inp2 t w /\
     let x := run s inp1 (S t) in let y := run s inp2 (S t) in same_regs x y /\ same_csrs x y /\ pc_of y = pc_of x).
Proof.
  intros s inp1 inp2 K1 Hi Hq.
  assert (E2 : env inp2).
  { constructor; intros t; destruct (Hi t) as (H1 & _ & H3); [rewrite H1|rewrite H3]; apply K1. }
  assert (Ts : forall t, timed s inp2 t = timed s inp1 t).
  { induction t as [|t IH]; [reflexivity|].
    change (timed s inp2 (S t)) with (tnext SENTINEL (irqs inp2) t (timed s inp2 t) (ack (inp2 t)) (dat_r (inp2 t))).
    change (timed s inp1 (S t)) with (tnext SENTINEL (irqs inp1) t (timed s inp1 t) (ack (inp1 t)) (dat_r (inp1 t))).
    destruct (Hi t) as (_ & -> & ->). rewrite IH. pose proof (timed_cyc s inp1 K1 t) as C. unfold t_cyc in C. unfold tnext.
    pose proof (ok'_polite _ _ K1 t) as P. fold (timed s inp1 t) in P.
    destruct (t_idle (timed s inp1 t)) eqn:I; [|reflexivity].
    destruct (t_early (timed s inp1 t)) eqn:Er; [reflexivity|]. destruct (ack (inp1 t)) eqn:Ak; [|reflexivity].
    rewrite (timed_machine s inp1 K1).
    pose proof (fetch_iff s inp1 K1 t C) as Fi.
    destruct (machine s inp1 t) as [a|r k] eqn:M; [|reflexivity]. cbn [complete delay_after].
    pose proof (b_rel _ _ _ (fetch_boundary s inp1 K1 t a C Ak M)) as R.
    destruct (Hq t (dat_r (inp1 t))) as [Q1 Q2]; [repeat split; assumption|]. unfold irqs.
    unfold mie_of, meie_of in Q1. rewrite <- (r_mie _ _ _ _ _ _ _ _ R), <- (r_meie _ _ _ _ _ _ _ _ R) in Q1.
    assert (Ex : forall i, decode (dat_r (inp1 t)) = Some i -> exec SENTINEL a (irq (inp2 (t + 3)%nat)) i = exec SENTINEL a (irq (inp1 (t + 3)%nat)) i).
    { intros i D. apply exec_ip. intros f rd g -> Nr. eapply Q2; eassumption. }
    unfold fetched, fetch_delay, int_enabled, csr_word in *.
    destruct (mie a && meie a) eqn:Ie; cbn [andb].
    - apply andb_prop in Ie. destruct Ie as [I1 I2]. destruct (Q1 I1 I2) as [-> Q3].
      destruct (irq (inp1 (t + 1)%nat)); [reflexivity|]. destruct (decode (dat_r (inp1 t))) as [i|]; [|reflexivity].
      rewrite (Ex i eq_refl). destruct (is_csr i); [rewrite (Q3 eq_refl)|]; reflexivity.
    - destruct (decode (dat_r (inp1 t))) as [i|]; [|reflexivity]. rewrite (Ex i eq_refl). rewrite !andb_false_r. reflexivity. }
  assert (K2 : ok s inp2).
  { constructor; [apply K1|assumption|]. intros t H1 H2. change (trun inp2 (boot_ts (boot_arch s)) t) with (timed s inp2 t) in *. rewrite Ts in *.
    destruct (Hi t) as (_ & -> & _). apply (ok'_polite _ _ K1); assumption. }
  split; [apply same_timed_outputs; assumption|].
  intros t w F. destruct (fetch_machine s inp1 K1 t w F) as [a M]. destruct F as (C & U & A & D).
  assert (M2 : machine s inp2 t = Fetching a) by (rewrite <- (timed_machine s inp2 K2), Ts, (timed_machine s inp1 K1); assumption).
  assert (C2 : o_cyc (run s inp2 t) = true) by (rewrite (timed_cyc s inp2 K2), Ts, <- (timed_cyc s inp1 K1); assumption).
  destruct (Hi t) as (_ & Ha & Hd).
  assert (A2 : ack (inp2 t) = true) by congruence.
  pose proof (fetch_iff s inp2 K2 t C2) as U2. rewrite M2 in U2.
  split; [repeat split; congruence|]. cbv zeta.
  pose proof (b_rel _ _ _ (fetch_boundary s inp1 K1 t a C A M)) as R1.
  pose proof (b_rel _ _ _ (fetch_boundary s inp2 K2 t a C2 A2 M2)) as R2.
  split; [eapply rel_same_regs; [exact R1|exact R2|reflexivity]|].
  split; [eapply rel_same_csrs; [exact R1|exact R2|..]; reflexivity|].
  rewrite <- (pc_of_rel a _ R1), <- (pc_of_rel a _ R2). reflexivity.
Qed.

(** ** C01 against the plain RISC-V machine *)
(** The reference machine without the two MCAUSE deviations (C17, C24). *)
Definition riscv_machine (s : state) (inp : nat -> input) (t : nat) : mach :=
  isa_run RISCV (fun n => irq (inp n)) (Fetching (boot_arch s)) (bus_log s inp t).
Lemma riscv_ack s inp t : o_cyc (run s inp t) = true -> ack (inp t) = true ->
  riscv_machine s inp (S t) = complete RISCV (irqs inp) (riscv_machine s inp t) (t, dat_r (inp t)).
Proof. intros C A. unfold riscv_machine, isa_run. cbn [bus_log]. rewrite C, A, fold_left_app. reflexivity. Qed.
Lemma riscv_noack s inp t : o_cyc (run s inp t) && ack (inp t) = false -> riscv_machine s inp (S t) = riscv_machine s inp t.
Proof. intros C. unfold riscv_machine. cbn [bus_log]. rewrite C, app_nil_r. reflexivity. Qed.

(** Equal but for MCAUSE. *)
Record agree (a b : arch) : Prop := {
  ag_x : forall r, rd_x a r = rd_x b r; ag_pc : pc a = pc b; ag_mie : mie a = mie b; ag_mpie : mpie a = mpie b; ag_meie : meie a = meie b;
  ag_mtvec : mtvec a = mtvec b; ag_mscratch : mscratch a = mscratch b; ag_mepc : mepc a = mepc b }.
Definition magree (m n : mach) : Prop :=
  match m, n with
  | Fetching a, Fetching b => agree a b
  | Accessing r k, Accessing q l => r = q /\ forall d, agree (k d) (l d)
  | _, _ => False
  end.
Lemma agree_wr a b r v : agree a b -> agree (wr_x a r v) (wr_x b r v).
Proof.
  intros []. unfold wr_x. destruct (Z.eqb_spec r 0); [constructor; assumption|]. constructor; cbn [set_x pc mie mpie meie mtvec mscratch mepc]; try assumption.
  intros q. unfold rd_x in *. cbn [set_x xr]. specialize (ag_x0 q). destruct (q =? 0); [reflexivity|]. destruct (q =? r); [reflexivity|assumption].
Qed.
Lemma agree_set_pc a b p : agree a b -> agree (set_pc a p) (set_pc b p).
Proof. intros []. constructor; try assumption. reflexivity. Qed.
Lemma agree_advance a b : agree a b -> agree (advance a) (advance b).
Proof. intros A. unfold advance, next_pc. rewrite (ag_pc _ _ A). apply agree_set_pc. assumption. Qed.
Lemma agree_trap a b c d i j : agree a b -> agree (trap_to a c i) (trap_to b d j).
Proof. intros []. constructor; cbn [trap_to pc mie mpie meie mtvec mscratch mepc]; try congruence. exact ag_x0. Qed.
Lemma agree_jump a b v u x l m : agree a b -> agree l m -> agree (jump v a x l) (jump u b x m).
Proof. intros A L. unfold jump. destruct (_ =? 0); [apply agree_set_pc; assumption|apply agree_trap; assumption]. Qed.
Lemma agree_csr_write a b n v w : agree a b -> (v = w \/ n = 0x342) -> agree (csr_write a n v) (csr_write b n w).
Proof.
  intros A H. unfold csr_write. destruct A.
  repeat match goal with |- context[match ?x with _ => _ end] => is_var x; destruct x; try (constructor; assumption) end;
  (destruct H as [->|H]; [|try discriminate H]); constructor; cbn [pc mie mpie meie mtvec mscratch mepc]; try assumption; reflexivity.
Qed.
Lemma agree_exec a b v u ip i : agree a b -> (forall f rd g, i = Csr f rd g 0x342 -> rd = 0) -> magree (exec v a ip i) (exec u b ip i).
Proof.
  intros A H. pose proof A as [].
  destruct i; cbn [exec magree]; rewrite <- ?ag_x0, <- ?ag_pc0.
  - apply agree_advance, agree_wr; assumption.
  - apply agree_advance, agree_wr; assumption.
  - unfold next_pc. rewrite <- ag_pc0. apply agree_jump; [assumption|apply agree_wr; assumption].
  - unfold next_pc. rewrite <- ag_pc0. apply agree_jump; [assumption|apply agree_wr; assumption].
  - destruct (cmp _ _ _); [apply agree_jump; assumption|apply agree_advance; assumption].
  - destruct (aligned _ _); cbn [magree]; [|apply agree_trap; assumption]. split; [reflexivity|]. intros d. apply agree_advance, agree_wr; assumption.
  - destruct (aligned _ _); cbn [magree]; [|apply agree_trap; assumption]. split; [reflexivity|]. intros d. apply agree_advance; assumption.
  - apply agree_advance, agree_wr; assumption.
  - apply agree_advance, agree_wr; assumption.
  - apply agree_advance; assumption.
  - apply agree_trap; assumption.
  - apply agree_trap; assumption.
  - constructor; cbn [pc mie mpie meie mtvec mscratch mepc]; try congruence. exact ag_x0.
  - apply agree_advance; assumption.
  - unfold exec_csr.
    assert (Ag : arg_value b arg = arg_value a arg) by (destruct arg; cbn [arg_value]; auto). rewrite Ag.
    destruct (Z.eq_dec csr 0x342) as [->|N].
    + pose proof (H f rd arg eq_refl) as ->. cbn [csr_read].
      destruct (_ && _); [apply agree_trap; assumption|]. apply agree_advance. cbn [wr_x Z.eqb]. destruct (csr_writes f arg); [|assumption].
      apply agree_csr_write; auto.
    + assert (E : csr_read b ip csr = csr_read a ip csr).
      { unfold csr_read. repeat match goal with |- context[match ?x with _ => _ end] => is_var x; destruct x; try reflexivity; try congruence end. }
      rewrite E. destruct (csr_read a ip csr) as [old|]; [|apply agree_trap; assumption].
      destruct (_ && _); [apply agree_trap; assumption|]. apply agree_advance. apply agree_wr. destruct (csr_writes f arg); [|assumption].
      apply agree_csr_write; auto.
Qed.

(** If the program never reads MCAUSE into a register, the deviations cannot be seen:
    every request is that of the plain RISC-V machine. *)
Theorem C01_riscv_unless_mcause_read : forall s inp, ok s inp ->
  (forall t w f rd g, fetch_done s inp t w -> decode w = Some (Csr f rd g 0x342) -> rd = 0) ->
  forall t, o_cyc (run s inp t) = true -> shows (request (riscv_machine s inp t)) (run s inp t).
Proof.
  intros s inp K H.
  assert (P : forall t, magree (machine s inp t) (riscv_machine s inp t)).
  { induction t as [|t IH]. { cbn. constructor; reflexivity. }
    destruct (o_cyc (run s inp t) && ack (inp t)) eqn:Q; [|rewrite machine_noack, riscv_noack; assumption].
    apply andb_prop in Q. destruct Q as [C A]. rewrite machine_ack, riscv_ack by assumption.
    pose proof (fetch_iff s inp K t C) as Fi.
    destruct (machine s inp t) as [a|r k], (riscv_machine s inp t) as [b|q l]; cbn [magree] in IH; try contradiction; cbn [complete].
    - assert (Ie : int_enabled b = int_enabled a) by (destruct IH; unfold int_enabled; congruence).
      unfold fetched. rewrite Ie. destruct (int_enabled a && _); [apply agree_trap; assumption|].
      destruct (decode (dat_r (inp t))) as [i|] eqn:D; [|apply agree_trap; assumption].
      destruct (_ && _); [apply agree_trap; assumption|]. apply agree_exec; [assumption|].
      intros f rd g ->. eapply H; [repeat split; eassumption|eassumption].
    - destruct IH as [_ IH]. apply IH. }
  intros t C. pose proof (bus_shows s inp K t C) as S0. specialize (P t).
  assert (E : request (riscv_machine s inp t) = request (machine s inp t)).
  { destruct (machine s inp t) as [a|r k], (riscv_machine s inp t) as [b|q l]; cbn [magree] in P; try contradiction; cbn [request].
    - rewrite (ag_pc _ _ P). reflexivity.
    - symmetry. apply P. }
  rewrite E. assumption.
Qed.

(** And if no synchronous exception follows an interrupt and 0x70-0x72 are not executed,
    the two machines are the same, MCAUSE included. *)
Definition no_deviation_before (s : state) (inp : nat -> input) (t : nat) : Prop :=
  forall u w, (u < t)%nat -> fetch_done s inp u w -> int_taken s inp u w = false ->
    (w <> 0x70 /\ w <> 0x71 /\ w <> 0x72) /\
    (forall c, sync_cause (run s inp (S u)) w c -> no_int_before s inp u).

Lemma exec_same_variant a x w ip i : rel a x -> decode w = Some i -> (took_int a = true -> forall c, ~ sync_cause x w c) ->
  exec RISCV a ip i = exec SENTINEL a ip i.
Proof.
  intros R D H. destruct (took_int a) eqn:Tk.
  2:{ assert (Ex : forall c, exception RISCV a c = exception SENTINEL a c) by (intros c; unfold exception, sync_mcause; rewrite Tk; reflexivity).
      destruct i; cbn [exec]; unfold jump, exec_csr; rewrite ?Ex; reflexivity. }
  specialize (H eq_refl). unfold sync_cause in H. rewrite D in H. pose proof (decode_regs w i D) as Dr.
  destruct i; try reflexivity; cbn [exec]; unfold jump, exec_csr, aligned.
  - rewrite <- (pc_of_rel a x R) in H. destruct (Z.eqb_spec (((pc a + off) mod 2 ^ 32) mod 4) 0); [reflexivity|]. exfalso. apply (H 0). auto.
  - rewrite <- (rd_x_of a x rs1 R) in H by tauto. destruct (Z.eqb_spec ((2 * (((rd_x a rs1 + off) mod 2 ^ 32) / 2)) mod 4) 0); [reflexivity|]. exfalso. apply (H 0). auto.
  - rewrite <- (pc_of_rel a x R), <- (rd_x_of a x rs1 R), <- (rd_x_of a x rs2 R) in H by tauto. destruct (cmp _ _ _); [|reflexivity].
    destruct (Z.eqb_spec (((pc a + off) mod 2 ^ 32) mod 4) 0); [reflexivity|]. exfalso. apply (H 0). auto.
  - rewrite <- (rd_x_of a x rs1 R) in H by tauto. destruct (Z.eqb_spec (((rd_x a rs1 + off) mod 2 ^ 32) mod bytes sz) 0); [reflexivity|]. exfalso. apply (H 4). auto.
  - rewrite <- (rd_x_of a x rs1 R) in H by tauto. destruct (Z.eqb_spec (((rd_x a rs1 + off) mod 2 ^ 32) mod bytes sz) 0); [reflexivity|]. exfalso. apply (H 6). auto.
  - exfalso. apply (H 11). reflexivity.
  - exfalso. apply (H 3). reflexivity.
  - pose proof (csr_read_known a ip csr) as Kn. pose proof (known_exists csr) as Ke.
    destruct (csr_read a ip csr).
    + destruct (csr_writes f arg && csr_read_only csr) eqn:Wr; [|reflexivity]. exfalso. apply (H 2). split; [|reflexivity]. intros [_ L]. apply L.
      apply andb_prop in Wr. split; [apply Wr|]. apply ro_bits; [tauto|apply Wr].
    + exfalso. apply (H 2). split; [|reflexivity]. intros [L _]. apply Ke in L. congruence.
Qed.

Theorem C01_riscv_without_deviation : forall s inp, ok s inp -> forall t, no_deviation_before s inp t ->
  machine s inp t = riscv_machine s inp t.
Proof.
  intros s inp K t. induction t as [|t IH]; intros H; [reflexivity|].
  assert (E : machine s inp t = riscv_machine s inp t) by (apply IH; intros u w Hu; apply H; lia).
  destruct (o_cyc (run s inp t) && ack (inp t)) eqn:Q; [|rewrite machine_noack, riscv_noack; assumption].
  apply andb_prop in Q. destruct Q as [C A]. rewrite machine_ack, riscv_ack by assumption. rewrite <- E.
  pose proof (fetch_iff s inp K t C) as Fi. destruct (machine s inp t) as [a|r k] eqn:M; [|reflexivity]. cbn [complete].
  assert (F : fetch_done s inp t (dat_r (inp t))) by (repeat split; assumption).
  pose proof (b_rel _ _ _ (fetch_boundary s inp K t a C A M)) as R.
  destruct (taken_dec s inp t (dat_r (inp t))) as [T|T].
  { pose proof T as T'. rewrite (int_taken_rel s inp t _ a R) in T. unfold irqs. rewrite !fetched_taken by assumption. reflexivity. }
  destruct (H t _ ltac:(lia) F T) as [W Sc]. pose proof T as T'. rewrite (int_taken_rel s inp t _ a R) in T. unfold irqs. rewrite !fetched_not_taken by assumption.
  assert (Tk : took_int a = true -> forall c, ~ sync_cause (run s inp (S t)) (dat_r (inp t)) c).
  { intros Tk c Cs. pose proof (clean_run s inp K t (Sc c Cs)) as Cl. rewrite M in Cl. cbn [clean] in Cl. congruence. }
  destruct (decode (dat_r (inp t))) as [i|] eqn:D.
  - symmetry. eapply exec_same_variant; eassumption.
  - assert (Ci : illegal_cause SENTINEL (dat_r (inp t)) = 2).
    { unfold illegal_cause. destruct (Z.leb_spec 0x70 (dat_r (inp t))); [|reflexivity]. destruct (Z.leb_spec (dat_r (inp t)) 0x72); [|reflexivity]. lia. }
    rewrite Ci. cbn [illegal_cause]. f_equal. unfold exception. f_equal. unfold sync_mcause.
    destruct (took_int a); [|reflexivity]. exfalso. eapply (Tk eq_refl). unfold sync_cause. rewrite D. reflexivity.
Qed.

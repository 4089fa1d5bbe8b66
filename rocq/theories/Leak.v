(** * What the bus timing can depend on, and what a reset forgets

    Two runs of the core are compared.  Nothing in /repo is modelled here beyond Cpu.v; the
    definitions say what it means for two runs to have the same pace. *)
From Coq Require Import ZArith Lia Bool List.
From Verif Require Import Bits Ucode Cpu Isa Timed BitLemmas Wf Sym Blocks CsrBlocks DecodeOk Boundary Sim Main Obs PropsBus PropsInv Observe PropsIsa PropsFrame Memory SocMem.
Import ListNotations.
Open Scope Z_scope.

(** [x1] and [x2] are two cores that have both just fetched the word [w]: whether interrupts are
    enabled, the amount of a register shift, the outcome of a branch and the exceptions [w] raises
    are the same.  Nothing is said about any other register, nor about addresses or data. *)
Record same_pace (x1 x2 : state) (w : Z) : Prop := {
  sp_irq : mie_of x2 && meie_of x2 = mie_of x1 && meie_of x1;
  sp_shift : forall f rd rs1 rs2, decode w = Some (OpReg f rd rs1 rs2) -> f = SLL \/ f = SRL \/ f = SRA ->
    x_of x2 rs2 mod 32 = x_of x1 rs2 mod 32;
  sp_branch : forall c rs1 rs2 off, decode w = Some (Branch c rs1 rs2 off) ->
    cmp c (x_of x2 rs1) (x_of x2 rs2) = cmp c (x_of x1 rs1) (x_of x1 rs2);
  sp_trap : forall c, sync_cause x2 w c <-> sync_cause x1 w c }.

(** The kind of request a machine makes: fetch, load or store. *)
Definition kind (m : mach) : bool * bool := match m with Fetching _ => (true, false) | Accessing r _ => (false, q_we r) end.

Section Step.
Variables (a1 a2 : arch) (x1 x2 : state) (w : Z).
Hypotheses (R1 : rel a1 x1) (R2 : rel a2 x2) (P : same_pace x1 x2 w).

Lemma reg1 r : 0 <= r < 32 -> rd_x a1 r = x_of x1 r.
Proof. intros H. apply (r_x _ _ _ _ _ _ _ _ R1); assumption. Qed.
Lemma reg2 r : 0 <= r < 32 -> rd_x a2 r = x_of x2 r.
Proof. intros H. apply (r_x _ _ _ _ _ _ _ _ R2); assumption. Qed.
Lemma pc1 : pc a1 = pc_of x1. Proof. apply (r_pc _ _ _ _ _ _ _ _ R1). Qed.
Lemma pc2 : pc a2 = pc_of x2. Proof. apply (r_pc _ _ _ _ _ _ _ _ R2). Qed.
Lemma enabled12 : int_enabled a2 = int_enabled a1.
Proof.
  unfold int_enabled. rewrite (r_mie _ _ _ _ _ _ _ _ R1), (r_meie _ _ _ _ _ _ _ _ R1), (r_mie _ _ _ _ _ _ _ _ R2), (r_meie _ _ _ _ _ _ _ _ R2).
  apply (sp_irq _ _ _ P).
Qed.
Lemma eqb_iff x y : (x <> 0 <-> y <> 0) -> (x =? 0) = (y =? 0).
Proof. intros H. destruct (Z.eqb_spec x 0), (Z.eqb_spec y 0); try reflexivity; tauto. Qed.

Lemma exec_same ip i : decode w = Some i -> exec_delay a2 i = exec_delay a1 i /\ kind (exec SENTINEL a2 ip i) = kind (exec SENTINEL a1 ip i).
Proof.
  intros D. pose proof (decode_regs w i D) as G. pose proof (sp_trap _ _ _ P) as T. unfold sync_cause in T. rewrite D in T.
  destruct i; cbn [exec_delay exec kind]; try (split; reflexivity).
  - (* Jal *) unfold jump_delay, target_ok. rewrite pc1, pc2. specialize (T 0).
    split; [|reflexivity]. rewrite (eqb_iff (((pc_of x2 + off) mod 2 ^ 32) mod 4) (((pc_of x1 + off) mod 2 ^ 32) mod 4)) by tauto. reflexivity.
  - (* Jalr *) destruct G as [_ G]. rewrite reg1, reg2 by assumption. unfold jump_delay, target_ok. specialize (T 0).
    split; [|reflexivity]. rewrite (eqb_iff ((2 * ((x_of x2 rs1 + off) mod 2 ^ 32 / 2)) mod 4) ((2 * ((x_of x1 rs1 + off) mod 2 ^ 32 / 2)) mod 4)) by tauto. reflexivity.
  - (* Branch *) destruct G as [G1 G2]. rewrite !reg1, !reg2 by assumption. rewrite pc1, pc2.
    pose proof (sp_branch _ _ _ P _ _ _ _ D) as B. rewrite B in *. split; [|reflexivity].
    destruct (cmp c (x_of x1 rs1) (x_of x1 rs2)); [|reflexivity]. unfold target_ok. specialize (T 0).
    rewrite (eqb_iff (((pc_of x2 + off) mod 2 ^ 32) mod 4) (((pc_of x1 + off) mod 2 ^ 32) mod 4)) by tauto. reflexivity.
  - (* Load *) destruct G as [_ G]. rewrite reg1, reg2 by assumption. unfold aligned. specialize (T 4).
    rewrite (eqb_iff (((x_of x2 rs1 + off) mod 2 ^ 32) mod bytes sz) (((x_of x1 rs1 + off) mod 2 ^ 32) mod bytes sz)) by tauto.
    destruct (_ =? 0); split; reflexivity.
  - (* Store *) destruct G as [G1 G2]. rewrite !reg1, !reg2 by assumption. unfold aligned. specialize (T 6).
    rewrite (eqb_iff (((x_of x2 rs1 + off) mod 2 ^ 32) mod bytes sz) (((x_of x1 rs1 + off) mod 2 ^ 32) mod bytes sz)) by tauto.
    destruct (_ =? 0); split; reflexivity.
  - (* OpReg *) destruct G as (_ & _ & G2). split; [|reflexivity]. rewrite reg1, reg2 by assumption.
    destruct f; cbn [is_shift]; try reflexivity; rewrite (sp_shift _ _ _ P _ _ _ _ D) by auto; reflexivity.
  - (* Csr *) split; [|reflexivity]. pose proof (csr_read_known a1 false csr) as K1. pose proof (csr_read_known a2 false csr) as K2.
    destruct (csr_read a1 false csr), (csr_read a2 false csr); try reflexivity; congruence.
Qed.

Lemma fetched_same i1 i2 i3 : fetch_delay a2 w i1 i2 = fetch_delay a1 w i1 i2 /\
  kind (fetched SENTINEL a2 w i1 i2 i3) = kind (fetched SENTINEL a1 w i1 i2 i3).
Proof.
  unfold fetch_delay, fetched. rewrite enabled12. destruct (int_enabled a1 && i1); [split; reflexivity|].
  destruct (decode w) as [i|] eqn:D; [|split; reflexivity].
  destruct (is_csr i && _); [split; reflexivity|]. apply exec_same. exact D.
Qed.
End Step.

Section Two.
Variables (s1 s2 : state) (inp1 inp2 : nat -> input).
Hypotheses (K1 : ok s1 inp1) (K2 : ok s2 inp2).
Hypothesis Hq : forall t, irq (inp2 t) = irq (inp1 t).
Variable n : nat.
Hypothesis Ha : forall t, (t < n)%nat -> (forall u, (u <= t)%nat -> o_cyc (run s2 inp2 u) = o_cyc (run s1 inp1 u)) ->
  o_cyc (run s1 inp1 t) = true -> ack (inp2 t) = ack (inp1 t).
Hypothesis Hp : forall t w1 w2, (t < n)%nat -> fetch_done s1 inp1 t w1 -> fetch_done s2 inp2 t w2 ->
  w2 = w1 /\ same_pace (run s1 inp1 (S t)) (run s2 inp2 (S t)) w1.

Lemma pace t : (t <= n)%nat -> forall u, (u <= t)%nat ->
  t_idle (timed s2 inp2 u) = t_idle (timed s1 inp1 u) /\ t_early (timed s2 inp2 u) = t_early (timed s1 inp1 u) /\
  kind (machine s2 inp2 u) = kind (machine s1 inp1 u).
Proof.
  induction t as [|t IH]; intros Ht u Hu.
  { replace u with 0%nat by lia. repeat split; reflexivity. }
  destruct (Nat.eq_dec u (S t)) as [->|]; [|apply IH; lia].
  assert (Cy : forall v, (v <= t)%nat -> o_cyc (run s2 inp2 v) = o_cyc (run s1 inp1 v)).
  { intros v Hv. rewrite (timed_cyc s1 inp1 K1), (timed_cyc s2 inp2 K2). unfold t_cyc. destruct (IH ltac:(lia) v Hv) as (-> & _). reflexivity. }
  destruct (IH ltac:(lia) t ltac:(lia)) as (I1 & I2 & I3).
  pose proof (Ha t ltac:(lia) Cy) as A. pose proof (Cy t ltac:(lia)) as C.
  destruct (o_cyc (run s1 inp1 t)) eqn:C1.
  - destruct (ack (inp1 t)) eqn:A1.
    + rewrite (timed_ack s1 inp1 K1 t C1 A1), (timed_ack s2 inp2 K2 t C (A eq_refl)). cbn [t_idle t_early].
      rewrite (machine_ack s1 inp1 t C1 A1), (machine_ack s2 inp2 t C (A eq_refl)).
      pose proof (fetch_iff s1 inp1 K1 t C1) as F1. pose proof (fetch_iff s2 inp2 K2 t C) as F2.
      destruct (machine s1 inp1 t) as [a1|r1 k1] eqn:M1, (machine s2 inp2 t) as [a2|r2 k2] eqn:M2; cbn [kind] in I3; try discriminate I3.
      * destruct (Hp t (dat_r (inp1 t)) (dat_r (inp2 t)) ltac:(lia)) as [Ew Sp]; [repeat split; auto|repeat split; auto|].
        cbn [delay_after complete]. rewrite Ew. unfold irqs. rewrite !Hq.
        pose proof (b_rel _ _ _ (fetch_boundary s1 inp1 K1 t a1 C1 A1 M1)) as R1.
        pose proof (b_rel _ _ _ (fetch_boundary s2 inp2 K2 t a2 C (A eq_refl) M2)) as R2.
        destruct (fetched_same a1 a2 _ _ _ R1 R2 Sp (irq (inp1 (t + 1)%nat)) (irq (inp1 (t + 2)%nat)) (irq (inp1 (t + 3)%nat))) as [-> ->].
        repeat split; reflexivity.
      * cbn [delay_after complete kind fst snd]. repeat split; reflexivity.
    + rewrite !machine_noack by (rewrite ?C, ?C1, ?A, ?A1 by reflexivity; reflexivity). split; [|split; [|exact I3]].
      * change (timed s1 inp1 (S t)) with (tnext SENTINEL (irqs inp1) t (timed s1 inp1 t) (ack (inp1 t)) (dat_r (inp1 t))).
        change (timed s2 inp2 (S t)) with (tnext SENTINEL (irqs inp2) t (timed s2 inp2 t) (ack (inp2 t)) (dat_r (inp2 t))).
        unfold tnext. rewrite A, A1, I1, I2 by reflexivity. destruct (t_idle (timed s1 inp1 t)) eqn:E; cbn [t_idle]; [|reflexivity].
        destruct (t_early (timed s1 inp1 t)); cbn [t_idle]; congruence.
      * change (timed s1 inp1 (S t)) with (tnext SENTINEL (irqs inp1) t (timed s1 inp1 t) (ack (inp1 t)) (dat_r (inp1 t))).
        change (timed s2 inp2 (S t)) with (tnext SENTINEL (irqs inp2) t (timed s2 inp2 t) (ack (inp2 t)) (dat_r (inp2 t))).
        unfold tnext. rewrite A, A1, I1, I2 by reflexivity. destruct (t_idle (timed s1 inp1 t)) eqn:E; cbn [t_early]; [|congruence].
        destruct (t_early (timed s1 inp1 t)) eqn:Er; cbn [t_early]; congruence.
  - rewrite !machine_noack by (rewrite ?C, ?C1; reflexivity). split; [|split; [|exact I3]];
    change (timed s1 inp1 (S t)) with (tnext SENTINEL (irqs inp1) t (timed s1 inp1 t) (ack (inp1 t)) (dat_r (inp1 t)));
    change (timed s2 inp2 (S t)) with (tnext SENTINEL (irqs inp2) t (timed s2 inp2 t) (ack (inp2 t)) (dat_r (inp2 t)));
    rewrite (timed_cyc s1 inp1 K1) in C1; unfold t_cyc in C1; unfold tnext; rewrite I1; destruct (t_idle (timed s1 inp1 t)); try discriminate C1; cbn [t_idle t_early]; congruence.
Qed.
End Two.

(** C73.  Two runs, with any registers, data and memory contents: the interrupt line is the same, and
    as long as the bus has been busy in the same cycles the slaves acknowledge in the same cycle.
    If every word fetched before cycle [n] is the same in both and has the same pace, then up to cycle
    [n] the two runs make requests of the same kind (fetch, load or store) in exactly the same cycles. *)
Theorem C73_timing : forall s1 s2 inp1 inp2, ok s1 inp1 -> ok s2 inp2 -> (forall t, irq (inp2 t) = irq (inp1 t)) ->
  forall n,
  (forall t, (t < n)%nat -> (forall u, (u <= t)%nat -> o_cyc (run s2 inp2 u) = o_cyc (run s1 inp1 u)) ->
     o_cyc (run s1 inp1 t) = true -> ack (inp2 t) = ack (inp1 t)) ->
  (forall t w1 w2, (t < n)%nat -> fetch_done s1 inp1 t w1 -> fetch_done s2 inp2 t w2 ->
     w2 = w1 /\ same_pace (run s1 inp1 (S t)) (run s2 inp2 (S t)) w1) ->
  forall t, (1 <= t <= n)%nat -> let x := run s1 inp1 t in let y := run s2 inp2 t in
    o_cyc y = o_cyc x /\ o_stb y = o_stb x /\ o_we y = o_we x /\
    (o_cyc x = true -> u_fetch (s_u y) = u_fetch (s_u x)).
Proof.
  intros s1 s2 inp1 inp2 K1 K2 Hq n Ha Hp t Ht x y.
  destruct (pace s1 s2 inp1 inp2 K1 K2 Hq n Ha Hp n ltac:(lia) t ltac:(lia)) as (I1 & _ & I3).
  assert (C : o_cyc y = o_cyc x).
  { unfold x, y. rewrite (timed_cyc s1 inp1 K1), (timed_cyc s2 inp2 K2). unfold t_cyc. rewrite I1. reflexivity. }
  split; [exact C|]. split; [exact C|].
  destruct (o_cyc x) eqn:Cx.
  - destruct (bus_shows s1 inp1 K1 t Cx), (bus_shows s2 inp2 K2 t C). fold x in sh_we. fold y in sh_we0.
    pose proof (fetch_iff s1 inp1 K1 t Cx) as F1. pose proof (fetch_iff s2 inp2 K2 t C) as F2. fold x in F1. fold y in F2.
    destruct (machine s1 inp1 t), (machine s2 inp2 t); cbn [kind request q_we] in *; try discriminate I3; split; congruence.
  - destruct t as [|t]; [lia|]. destruct (bus_quiet s1 inp1 K1 t Cx), (bus_quiet s2 inp2 K2 t C).
    fold x in qu_we. fold y in qu_we0. split; [congruence|discriminate].
Qed.

(** ** Reset forgets *)
(** Two reference states software cannot tell apart. *)
Record aeq (a b : arch) : Prop := {
  q_x : forall r, rd_x b r = rd_x a r \/ ~ 0 <= r < 32; q_pc : pc b = pc a; q_mie : mie b = mie a; q_mpie : mpie b = mpie a; q_meie : meie b = meie a;
  q_mtvec : mtvec b = mtvec a; q_mscratch : mscratch b = mscratch a; q_mepc : mepc b = mepc a; q_mcause : mcause b = mcause a;
  q_int : took_int b = took_int a }.
Definition meq (m1 m2 : mach) : Prop :=
  match m1, m2 with
  | Fetching a, Fetching b => aeq a b
  | Accessing r k, Accessing r' k' => r' = r /\ forall d, aeq (k d) (k' d)
  | _, _ => False
  end.

Lemma aeq_reg a b r : aeq a b -> 0 <= r < 32 -> rd_x b r = rd_x a r.
Proof. intros E H. destruct (q_x _ _ E r); tauto. Qed.
Lemma aeq_wr a b rd v : aeq a b -> aeq (wr_x a rd v) (wr_x b rd v).
Proof.
  intros E. unfold wr_x. destruct (rd =? 0) eqn:Z0; [exact E|]. destruct E.
  constructor; cbn [set_x pc mie mpie meie mtvec mscratch mepc mcause took_int]; try assumption.
  intros r. destruct (q_x0 r) as [H|H]; [left|right; exact H]. unfold rd_x in *. cbn [set_x xr].
  destruct (r =? 0); [reflexivity|]. destruct (r =? rd); [reflexivity|exact H].
Qed.
Lemma aeq_pc a b p : aeq a b -> aeq (set_pc a p) (set_pc b p).
Proof. intros []. constructor; cbn [set_pc pc mie mpie meie mtvec mscratch mepc mcause took_int]; try assumption; try reflexivity. Qed.
Lemma aeq_adv a b : aeq a b -> aeq (advance a) (advance b).
Proof. intros E. unfold advance, next_pc. rewrite (q_pc _ _ E). apply aeq_pc. exact E. Qed.
Lemma aeq_trap a b c i : aeq a b -> aeq (trap_to a c i) (trap_to b c i).
Proof. intros []. constructor; cbn [trap_to pc mie mpie meie mtvec mscratch mepc mcause took_int]; try assumption; try congruence. Qed.
Lemma aeq_exc v a b c : aeq a b -> aeq (exception v a c) (exception v b c).
Proof.
  intros E. unfold exception. replace (sync_mcause v b c) with (sync_mcause v a c); [apply aeq_trap; exact E|].
  unfold sync_mcause. rewrite (q_int _ _ E). reflexivity.
Qed.
Lemma aeq_jump v a b p x y : aeq a b -> aeq x y -> aeq (jump v a p x) (jump v b p y).
Proof. intros E F. unfold jump. destruct (_ =? 0); [apply aeq_pc; exact F|apply aeq_exc; exact E]. Qed.
Lemma aeq_write a b n v : aeq a b -> aeq (csr_write a n v) (csr_write b n v).
Proof.
  intros []. unfold csr_write.
  repeat match goal with |- context[match ?x with _ => _ end] => is_var x; destruct x end;
  constructor; cbn [pc mie mpie meie mtvec mscratch mepc mcause took_int]; try assumption; try reflexivity.
Qed.
Lemma aeq_read a b ip n : aeq a b -> csr_read b ip n = csr_read a ip n.
Proof. intros []. unfold csr_read. rewrite q_mie0, q_mpie0, q_meie0, q_mtvec0, q_mscratch0, q_mepc0, q_mcause0. reflexivity. Qed.

Lemma exec_meq a b ip w i : aeq a b -> decode w = Some i -> meq (exec SENTINEL a ip i) (exec SENTINEL b ip i).
Proof.
  intros E D. pose proof (decode_regs w i D) as G.
  destruct i; cbn [exec meq]; try (apply aeq_adv; try apply aeq_wr; exact E); try (apply aeq_exc; exact E).
  - rewrite (q_pc _ _ E). apply aeq_adv, aeq_wr. exact E.
  - unfold next_pc. rewrite (q_pc _ _ E). apply aeq_jump; [exact E|apply aeq_wr; exact E].
  - unfold next_pc. rewrite (q_pc _ _ E), (aeq_reg _ _ _ E) by tauto. apply aeq_jump; [exact E|apply aeq_wr; exact E].
  - rewrite (q_pc _ _ E), !(aeq_reg _ _ _ E) by tauto. destruct (cmp _ _ _); [apply aeq_jump; exact E|apply aeq_adv; exact E].
  - rewrite !(aeq_reg _ _ _ E) by tauto. destruct (aligned _ _); cbn [meq]; [|apply aeq_exc; exact E].
    split; [reflexivity|]. intros d. apply aeq_adv, aeq_wr. exact E.
  - rewrite !(aeq_reg _ _ _ E) by tauto. destruct (aligned _ _); cbn [meq]; [|apply aeq_exc; exact E].
    split; [reflexivity|]. intros d. apply aeq_adv. exact E.
  - rewrite !(aeq_reg _ _ _ E) by tauto. apply aeq_adv, aeq_wr. exact E.
  - rewrite !(aeq_reg _ _ _ E) by tauto. apply aeq_adv, aeq_wr. exact E.
  - destruct E. constructor; cbn [pc mie mpie meie mtvec mscratch mepc mcause took_int]; try assumption; try congruence.
  - unfold exec_csr. rewrite (aeq_read a b) by exact E. destruct (csr_read a ip csr); [|apply aeq_exc; exact E].
    destruct (csr_writes f arg && csr_read_only csr); [apply aeq_exc; exact E|].
    apply aeq_adv, aeq_wr. destruct (csr_writes f arg); [|exact E].
    replace (arg_value b arg) with (arg_value a arg); [apply aeq_write; exact E|].
    destruct arg; cbn [arg_value]; [rewrite (aeq_reg _ _ _ E) by tauto|]; reflexivity.
Qed.
Lemma exec_delay_aeq a b w i : aeq a b -> decode w = Some i -> exec_delay b i = exec_delay a i.
Proof.
  intros E D. pose proof (decode_regs w i D) as G.
  destruct i; cbn [exec_delay]; try reflexivity; rewrite ?(q_pc _ _ E), ?(aeq_read a b _ _ E), ?(aeq_reg _ _ _ E) by tauto; reflexivity.
Qed.
Lemma fetched_meq a b w i1 i2 i3 : aeq a b ->
  meq (fetched SENTINEL a w i1 i2 i3) (fetched SENTINEL b w i1 i2 i3) /\ fetch_delay b w i1 i2 = fetch_delay a w i1 i2.
Proof.
  intros E. unfold fetched, fetch_delay, int_enabled. rewrite (q_mie _ _ E), (q_meie _ _ E).
  destruct (mie a && meie a && i1). { split; [apply aeq_trap; exact E|reflexivity]. }
  destruct (decode w) as [i|] eqn:D; [|split; [apply aeq_exc; exact E|reflexivity]].
  destruct (is_csr i && _). { split; [apply aeq_trap; exact E|reflexivity]. }
  split; [eapply exec_meq; eassumption|eapply exec_delay_aeq; eassumption].
Qed.

Section Forget.
Variables (s1 s2 : state) (inp : nat -> input).
Hypotheses (K1 : ok s1 inp) (F2 : fresh s2) (B : aeq (boot_arch s1) (boot_arch s2)).
Lemma forget t : meq (t_m (timed s1 inp t)) (t_m (timed s2 inp t)) /\
  t_idle (timed s2 inp t) = t_idle (timed s1 inp t) /\ t_early (timed s2 inp t) = t_early (timed s1 inp t).
Proof.
  induction t as [|t (M & I & Er)]. { split; [exact B|]. split; reflexivity. }
  change (timed s1 inp (S t)) with (tnext SENTINEL (irqs inp) t (timed s1 inp t) (ack (inp t)) (dat_r (inp t))).
  change (timed s2 inp (S t)) with (tnext SENTINEL (irqs inp) t (timed s2 inp t) (ack (inp t)) (dat_r (inp t))).
  destruct (timed s1 inp t) as [m1 n1 e1], (timed s2 inp t) as [m2 n2 e2]. cbn [t_m t_idle t_early] in *. subst n2 e2.
  unfold tnext. cbn [t_m t_idle t_early]. destruct n1; cbn [t_m t_idle t_early]; [|auto].
  destruct e1; cbn [t_m t_idle t_early]; [auto|]. destruct (ack (inp t)); cbn [t_m t_idle t_early]; [|auto].
  destruct m1 as [a|r k], m2 as [b|r' k']; cbn [meq] in M; try contradiction; cbn [complete delay_after].
  - destruct (fetched_meq a b (dat_r (inp t)) (irqs inp (t + 1)) (irqs inp (t + 2)) (irqs inp (t + 3)) M) as [M' ->]. auto.
  - destruct M as [-> M]. split; [apply M|]. auto.
Qed.
Lemma forget_ok : ok s2 inp.
Proof.
  constructor; [exact F2|apply K1|]. intros t Hi He. destruct (forget t) as (_ & I & Er).
  change (trun inp (boot_ts (boot_arch s2)) t) with (timed s2 inp t) in *. rewrite I in Hi. rewrite Er in He. apply (ok'_polite _ _ K1); assumption.
Qed.
End Forget.

(** C73, reset.  Two cores just after a reset, with whatever histories, whose x1-x31, MTVEC, MSCRATCH,
    MEPC and MSTATUS.MPIE agree once the first cycle has passed, driven by the same inputs: every
    output is the same in every cycle, and so are the registers whenever an instruction is fetched. *)
Theorem C73_reset_forgets : forall s1 s2 inp, ok s1 inp -> fresh s2 ->
  (forall r, 1 <= r < 32 -> x_of s2 r = x_of s1 r) ->
  (let x := run s1 inp 1 in let y := run s2 inp 1 in
   mtvec_of y = mtvec_of x /\ mscratch_of y = mscratch_of x /\ mepc_of y = mepc_of x /\ mpie_of y = mpie_of x) ->
  forall t, let x := run s1 inp t in let y := run s2 inp t in
  o_cyc y = o_cyc x /\ o_stb y = o_stb x /\
  (o_cyc x = true -> o_adr y = o_adr x /\ o_sel y = o_sel x /\ o_we y = o_we x /\ (o_we x = true -> o_dat_w y = o_dat_w x)) /\
  (forall w, fetch_done s1 inp t w -> fetch_done s2 inp t w /\
     let x := run s1 inp (S t) in let y := run s2 inp (S t) in same_regs x y /\ same_csrs x y /\ pc_of y = pc_of x).
Proof.
  intros s1 s2 inp K1 F2 Hx Hc t x y.
  assert (B : aeq (boot_arch s1) (boot_arch s2)).
  { pose proof (stale s1 (ack (inp O)) (dat_r (inp O)) (irq (inp O)) (ok'_fresh _ _ K1)) as P1.
    pose proof (stale s2 (ack (inp O)) (dat_r (inp O)) (irq (inp O)) F2) as P2. cbv zeta in P1, P2.
    cbn [run] in Hc. rewrite !step_nst in Hc by apply K1.
    destruct P1 as (_ & _ & _ & _ & _ & _ & _ & M1 & C1 & X1 & _), P2 as (_ & _ & _ & _ & _ & _ & _ & M2 & C2 & X2 & _).
    unfold mtvec_of, mscratch_of, mepc_of, mpie_of in Hc. destruct Hc as (H1 & H2 & H3 & H4).
    constructor; cbn [boot_arch pc mie mpie meie mtvec mscratch mepc mcause took_int]; try reflexivity.
    - intros r. destruct (Z.eq_dec r 0) as [->|]; [left; reflexivity|].
      destruct (Z_lt_dec r 1); [right; lia|]. destruct (Z_lt_dec r 32); [left|right; lia].
      unfold rd_x. cbn [boot_arch xr]. destruct (r =? 0); [reflexivity|]. rewrite <- M1, <- M2, X1, X2 by lia. apply Hx. lia.
    - congruence.
    - rewrite <- M1, <- M2. exact H1.
    - rewrite <- M1, <- M2. exact H2.
    - rewrite <- M1, <- M2. exact H3. }
  pose proof (forget_ok s1 s2 inp K1 F2 B) as K2. destruct (forget s1 s2 inp B t) as (M & I & Er).
  rewrite (timed_machine s1 inp K1), (timed_machine s2 inp K2) in M.
  assert (C : o_cyc y = o_cyc x).
  { unfold x, y. rewrite (timed_cyc s1 inp K1), (timed_cyc s2 inp K2). unfold t_cyc. rewrite I. reflexivity. }
  split; [exact C|]. split; [exact C|]. split.
  - intros Cx. rewrite Cx in C. destruct (bus_shows s1 inp K1 t Cx), (bus_shows s2 inp K2 t C). fold x in sh_adr, sh_sel, sh_we, sh_dat. fold y in sh_adr0, sh_sel0, sh_we0, sh_dat0.
    assert (R : request (machine s2 inp t) = request (machine s1 inp t)).
    { destruct (machine s1 inp t), (machine s2 inp t); cbn [meq] in M; try contradiction; cbn [request]; [rewrite (q_pc _ _ M); reflexivity|apply M]. }
    rewrite R in *. repeat split; try congruence. intros We. rewrite sh_we in We. rewrite sh_dat, sh_dat0 by assumption. reflexivity.
  - intros w F. destruct (fetch_machine s1 inp K1 t w F) as [a Ma]. destruct F as (Cx & U & A & D). fold x in Cx. rewrite Cx in C.
    rewrite Ma in M. destruct (machine s2 inp t) as [b|] eqn:Mb; cbn [meq] in M; [|contradiction].
    pose proof (fetch_iff s2 inp K2 t C) as U2. rewrite Mb in U2. split; [repeat split; assumption|]. cbv zeta.
    pose proof (b_rel _ _ _ (fetch_boundary s1 inp K1 t a Cx A Ma)) as R1.
    pose proof (b_rel _ _ _ (fetch_boundary s2 inp K2 t b C A Mb)) as R2.
    destruct R1, R2. unfold same_regs, same_csrs, x_of, pc_of, mie_of, mpie_of, meie_of, mtvec_of, mscratch_of, mepc_of, mcause_of.
    split; [intros r Hr; rewrite <- r_x, <- r_x0 by assumption; apply aeq_reg; assumption|].
    destruct M. repeat split; congruence.
Qed.

(** ** The core with the SoC's memory *)
(** The memory of SocMem.v acknowledges in cycles that only depend on when the bus was busy. *)
Section Sys.
Variables (k : Z) (iw : nat -> bool) (s1 s2 : state) (m1 m2 : wbmem).
Hypotheses (F1 : fresh s1) (F2 : fresh s2) (M1 : mem_start m1) (M2 : mem_start m2).
Local Notation inp1 := (sys_inp k iw s1 m1).
Local Notation inp2 := (sys_inp k iw s2 m2).
Lemma mem_acks t : (forall u, (u <= t)%nat -> o_cyc (run s2 inp2 u) = o_cyc (run s1 inp1 u)) -> ack (inp2 t) = ack (inp1 t).
Proof.
  induction t as [|t IH]; intros H.
  - unfold sys_inp, cpu_input. cbn [ack system snd]. rewrite (ms_ack _ M1), (ms_ack _ M2). reflexivity.
  - assert (E : ack (inp2 t) = ack (inp1 t)) by (apply IH; intros; apply H; lia).
    assert (Ak : forall s m t, ack (sys_inp k iw s m t) = wm_ack (snd (system k iw s m t))) by reflexivity.
    rewrite !Ak in *. rewrite (sys_mem k iw s1 m1), (sys_mem k iw s2 m2).
    cbn [wbmem_step wm_ack cpu_bus b_cyc b_stb]. rewrite E.
    change (o_stb (run s2 (sys_inp k iw s2 m2) t)) with (o_cyc (run s2 (sys_inp k iw s2 m2) t)).
    change (o_stb (run s1 (sys_inp k iw s1 m1) t)) with (o_cyc (run s1 (sys_inp k iw s1 m1) t)).
    rewrite (H t) by lia. reflexivity.
Qed.
End Sys.

(** C73 for two whole systems: registers and memory contents may differ. *)
Theorem C73_system : forall k iw s1 s2 m1 m2, fresh s1 -> fresh s2 -> mem_start m1 -> mem_start m2 ->
  let inp1 := sys_inp k iw s1 m1 in let inp2 := sys_inp k iw s2 m2 in
  forall n, (forall t w1 w2, (t < n)%nat -> fetch_done s1 inp1 t w1 -> fetch_done s2 inp2 t w2 ->
     w2 = w1 /\ same_pace (run s1 inp1 (S t)) (run s2 inp2 (S t)) w1) ->
  forall t, (1 <= t <= n)%nat -> let x := run s1 inp1 t in let y := run s2 inp2 t in
    o_cyc y = o_cyc x /\ o_stb y = o_stb x /\ o_we y = o_we x /\
    (o_cyc x = true -> u_fetch (s_u y) = u_fetch (s_u x)).
Proof.
  intros k iw s1 s2 m1 m2 F1 F2 M1 M2 inp1 inp2 n Hp. apply (C73_timing s1 s2 inp1 inp2).
  - apply bus_ok_ok, sys_bus_ok; assumption.
  - apply bus_ok_ok, sys_bus_ok; assumption.
  - reflexivity.
  - intros t _ H _. apply mem_acks; assumption.
  - exact Hp.
Qed.

(** ** A concrete pair of runs *)
(** Sufficient for [same_pace], and computable. *)
Definition pace_b (x1 x2 : state) (w : Z) : bool :=
  Bool.eqb (mie_of x2 && meie_of x2) (mie_of x1 && meie_of x1) &&
  match decode w with
  | Some (Lui _ _) | Some (Auipc _ _) | Some (OpImm _ _ _ _) => true
  | Some (OpReg f _ _ _) => negb (is_shift f)
  | Some (Load sz _ _ rs1 off) | Some (Store sz rs1 _ off) =>
      aligned sz ((x_of x1 rs1 + off) mod 2 ^ 32) && aligned sz ((x_of x2 rs1 + off) mod 2 ^ 32)
  | Some (Jal _ _) => pc_of x1 =? pc_of x2
  | _ => false
  end.
Lemma pace_b_ok x1 x2 w : pace_b x1 x2 w = true -> same_pace x1 x2 w.
Proof.
  unfold pace_b. intros H. apply andb_prop in H. destruct H as [H1 H2]. apply eqb_prop in H1.
  destruct (decode w) as [i|] eqn:D; [|discriminate H2].
  constructor; [exact H1|..].
  - intros f rd rs1 rs2 E Hf. rewrite D in E. injection E as ->. destruct Hf as [Hf|[Hf|Hf]]; subst f; discriminate H2.
  - intros c rs1 rs2 off E. rewrite D in E. injection E as ->. discriminate H2.
  - intros c. unfold sync_cause. rewrite D. destruct i; try discriminate H2; try tauto.
    + apply Z.eqb_eq in H2. rewrite H2. tauto.
    + unfold aligned in H2. apply andb_prop in H2. destruct H2 as [A B]. apply Z.eqb_eq in A, B. tauto.
    + unfold aligned in H2. apply andb_prop in H2. destruct H2 as [A B]. apply Z.eqb_eq in A, B. tauto.
Qed.

(** lw x1,64(x0); xori x2,x1,-1; add x3,x1,x2; sltu x4,x1,x3; sw x4,68(x0); sll x5,x1,x1; jal x0,0;
    the secret is at address 64. *)
Definition secret_mem (v : Z) : wbmem :=
  {| wm_mem := fun a => if a =? 16 then v mod 2 ^ 32 else
       nth (Z.to_nat a) [0x04002083; 0xfff0c113; 0x002081b3; 0x0030b233; 0x04402223; 0x001092b3; 0x6f] 0;
     wm_rdata := 0; wm_ack := false |}.
Lemma secret_start v : mem_start (secret_mem v).
Proof.
  constructor; [|cbn; unfold word; lia|reflexivity]. intros a. cbn [secret_mem wm_mem].
  destruct (a =? 16). { apply Z.mod_pos_bound. reflexivity. }
  destruct (Z.to_nat a) as [|[|[|[|[|[|[|n]]]]]]]; cbn; unfold word; try lia. destruct n; lia.
Qed.
(** The cycles up to which a list of paired system states keeps pace. *)
Fixpoint paced (iw : nat -> bool) (n t : nat) (p q : state * wbmem) : bool :=
  match n with
  | O => true
  | S n' =>
      let (c1, d1) := p in let (c2, d2) := q in
      let p' := (step c1 (cpu_input d1 (iw t)), wbmem_step 8 d1 (cpu_bus c1)) in
      let q' := (step c2 (cpu_input d2 (iw t)), wbmem_step 8 d2 (cpu_bus c2)) in
      (if o_cyc c1 && u_fetch (s_u c1) && wm_ack d1 && (o_cyc c2 && u_fetch (s_u c2) && wm_ack d2)
       then (wm_rdata d1 =? wm_rdata d2) && pace_b (fst p') (fst q') (wm_rdata d1) else true) &&
      paced iw n' (S t) p' q'
  end.
Lemma paced_ok iw s1 s2 m1 m2 n t : paced iw n t (system 8 iw s1 m1 t) (system 8 iw s2 m2 t) = true ->
  forall u w1 w2, (t <= u < t + n)%nat -> fetch_done s1 (sys_inp 8 iw s1 m1) u w1 -> fetch_done s2 (sys_inp 8 iw s2 m2) u w2 ->
  w2 = w1 /\ same_pace (run s1 (sys_inp 8 iw s1 m1) (S u)) (run s2 (sys_inp 8 iw s2 m2) (S u)) w1.
Proof.
  revert t. induction n as [|n IH]; intros t H u w1 w2 Hu D1 D2; [lia|].
  cbn [paced] in H.
  assert (S1 : system 8 iw s1 m1 (S t) = let (c, d) := system 8 iw s1 m1 t in (step c (cpu_input d (iw t)), wbmem_step 8 d (cpu_bus c))) by reflexivity.
  assert (S2 : system 8 iw s2 m2 (S t) = let (c, d) := system 8 iw s2 m2 t in (step c (cpu_input d (iw t)), wbmem_step 8 d (cpu_bus c))) by reflexivity.
  destruct (Nat.eq_dec u t) as [->|].
  - destruct D1 as (C1 & U1 & A1 & W1), D2 as (C2 & U2 & A2 & W2). rewrite !sys_run in *.
    unfold sys_inp, cpu_input in A1, A2, W1, W2. cbn [ack dat_r] in A1, A2, W1, W2. rewrite S1, S2.
    destruct (system 8 iw s1 m1 t) as [c1 d1], (system 8 iw s2 m2 t) as [c2 d2]. cbn [fst snd] in *.
    rewrite C1, U1, A1, C2, U2, A2 in H. cbn [andb] in H. apply andb_prop in H. destruct H as [H _]. apply andb_prop in H. destruct H as [H1 H2].
    apply Z.eqb_eq in H1. split; [congruence|]. subst w1. apply pace_b_ok. exact H2.
  - apply (IH (S t)); try assumption; [|lia]. rewrite S1, S2.
    destruct (system 8 iw s1 m1 t) as [c1 d1], (system 8 iw s2 m2 t) as [c2 d2]. apply andb_prop in H. apply H.
Qed.

(** C73_system is met by two machines that compute with different secrets ... *)
Example C73_applies : forall t w1 w2, (t < 37)%nat ->
  fetch_done por (sys_inp 8 (fun _ => false) por (secret_mem 5)) t w1 -> fetch_done por (sys_inp 8 (fun _ => false) por (secret_mem 0xffffff83)) t w2 ->
  w2 = w1 /\ same_pace (run por (sys_inp 8 (fun _ => false) por (secret_mem 5)) (S t)) (run por (sys_inp 8 (fun _ => false) por (secret_mem 0xffffff83)) (S t)) w1.
Proof.
  intros t w1 w2 Ht. apply (paced_ok (fun _ => false) por por (secret_mem 5) (secret_mem 0xffffff83) 37 0); [vm_compute; reflexivity|lia].
Qed.

(** ... and the shift by the secret that follows takes 2 cycles per bit, so it is visible in the timing:
    the hypothesis on shift amounts cannot be dropped. *)
Example C73_shift_leaks :
  (forall t, (1 <= t <= 37)%nat -> o_cyc (run por (sys_inp 8 (fun _ => false) por (secret_mem 0xffffff83)) t) = o_cyc (run por (sys_inp 8 (fun _ => false) por (secret_mem 5)) t)) /\
  exists t, (37 < t < 60)%nat /\ o_cyc (run por (sys_inp 8 (fun _ => false) por (secret_mem 0xffffff83)) t) <> o_cyc (run por (sys_inp 8 (fun _ => false) por (secret_mem 5)) t).
Proof.
  split.
  - intros t Ht. apply (C73_system 8 (fun _ => false) por por (secret_mem 5) (secret_mem 0xffffff83) por_fresh por_fresh (secret_start _) (secret_start _) 37 C73_applies t Ht).
  - exists 49%nat. split; [lia|]. rewrite !sys_run. vm_compute. discriminate.
Qed.

(** A core whose microcode read port, operands and MCAUSE hold garbage when reset ends. *)
Definition garbage : state := reset_regs (rom 0x50) (fun a => if a =? 42 then 77 else if a =? 0 then 5 else por_mem a) 99.
Lemma garbage_fresh : fresh garbage.
Proof.
  eexists _, _, _. split; [reflexivity|]. destruct por_wf. constructor; try assumption; cbn; unfold inw, word; try lia.
  intros a. destruct (a =? 42); [lia|]. destruct (a =? 0); [lia|]. unfold por_mem. destruct (a =? 0); lia.
Qed.
Example C73_reset_applies : let inp := sys_inp 8 (fun _ => false) por (secret_mem 5) in
  ok por inp /\ fresh garbage /\ garbage <> por /\ (forall r, 1 <= r < 32 -> x_of garbage r = x_of por r) /\
  (let x := run por inp 1 in let y := run garbage inp 1 in
   mtvec_of y = mtvec_of x /\ mscratch_of y = mscratch_of x /\ mepc_of y = mepc_of x /\ mpie_of y = mpie_of x).
Proof.
  cbv zeta. split; [apply bus_ok_ok, sys_bus_ok; [apply por_fresh|apply secret_start]|]. split; [apply garbage_fresh|].
  split. { intros E. apply (f_equal (fun s => s_mem s 42)) in E. discriminate E. }
  split. { intros r Hr. unfold x_of, garbage, por, reset_regs. cbn [s_mem]. unfold por_mem.
           destruct (Z.eqb_spec r 42); [lia|]. destruct (Z.eqb_spec r 0); [lia|]. reflexivity. }
  vm_compute. repeat split; reflexivity.
Qed.

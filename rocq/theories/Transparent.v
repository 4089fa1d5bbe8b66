(** * C75: interrupts are transparent to the interrupted program

    One run of the core with an arbitrary interrupt line, another one with the line low; same initial
    registers and memory, possibly different bus latencies. *)
From Coq Require Import ZArith Lia Bool List.
From Verif Require Import Bits Ucode Cpu Isa Timed BitLemmas Wf Sym Blocks CsrBlocks DecodeOk Boundary Sim Main Obs PropsBus PropsInv Observe PropsIsa PropsFrame Latency Memory SocMem Soc LatencySoc SeqTest.
Import ListNotations.
Open Scope Z_scope.

Section Mem.
Variable phys : Z -> Z.
(** Bytes of the memory the program uses; handlers may use the others. *)
Variable mine : Z -> Prop.
Local Notation loc := (loc phys).
Local Notation peek := (peek phys).
Local Notation poke := (poke phys).
Local Notation flat_step := (flat_step phys).
Local Notation flat_at := (flat_at phys).
Local Notation slave_mem := (slave_mem phys).
Local Notation memory_slave := (memory_slave phys).

(** ** Specification *)
(** The [n] bytes at [b] are the program's. *)
Definition own (b n : Z) : Prop := forall i, 0 <= i < n -> mine (loc (b + i)).
(** The word [w] fetched in cycle [t] is executed as an ordinary instruction of the program: no interrupt, no exception, no MRET;
    it reads only the program's memory; it does not use MSCRATCH, MEPC, MCAUSE or MIP, nor read MSTATUS into a register. *)
Definition ordinary (s : state) (inp : nat -> input) (t : nat) (w : Z) : Prop :=
  let x := run s inp (S t) in
  int_taken s inp t w = false /\ (forall c, ~ sync_cause x w c) /\ own (pc_of x) 4 /\
  match decode w with
  | Some Mret => False
  | Some (Load sz _ _ rs1 off) => own ((x_of x rs1 + off) mod 2 ^ 32) (bytes sz)
  | Some (Csr _ rd _ n) => n <> 0x340 /\ n <> 0x341 /\ n <> 0x342 /\ n <> 0x344 /\ (n = 0x300 -> rd = 0)
  | _ => True
  end.
(** The program is interrupted at the fetch in cycle [t]; the MRET fetched in cycle [e] finds the registers the handler
    has to preserve, and the program's memory, as they were then. *)
Definition handled (s : state) (inp : nat -> input) (m0 : Z -> Z) (t e : nat) : Prop :=
  let x := run s inp (S t) in let y := run s inp (S e) in
  (exists w, fetch_done s inp t w /\ int_taken s inp t w = true) /\
  int_taken s inp e 0x30200073 = false /\
  same_regs x y /\ mepc_of y = pc_of x /\ mpie_of y = true /\ meie_of y = meie_of x /\ mtvec_of y = mtvec_of x /\
  forall z, mine z -> slave_mem s inp m0 e z = slave_mem s inp m0 t z.
(** In cycle [t] the program, having executed [n] instructions, fetches another one. *)
Inductive program (s : state) (inp : nat -> input) (m0 : Z -> Z) : nat -> nat -> Prop :=
| p_first t w : fetch_done s inp t w -> (forall u w', (u < t)%nat -> ~ fetch_done s inp u w') -> program s inp m0 0 t
| p_step n t t' w : program s inp m0 n t -> executes s inp t t' w -> ordinary s inp t w -> program s inp m0 (S n) t'
| p_interrupt n t e t' : program s inp m0 n t -> handled s inp m0 t e -> executes s inp e t' 0x30200073 -> program s inp m0 n t'.

(** ** Proof *)
Record sim (p q : arch * (Z -> Z)) : Prop := {
  m_x : forall r, 0 <= r < 32 -> rd_x (fst q) r = rd_x (fst p) r; m_pc : pc (fst q) = pc (fst p); m_mie : mie (fst q) = mie (fst p); m_meie : meie (fst q) = meie (fst p);
  m_mtvec : mtvec (fst q) = mtvec (fst p);
  m_mem : forall z, mine z -> snd q z = snd p z }.

Lemma own_peek m m' b n : (forall z, mine z -> m' z = m z) -> own b (Z.of_nat n) -> peek m' b n = peek m b n.
Proof.
  intros H. revert b. induction n as [|n IH]; intros b O; [reflexivity|]. cbn [Memory.peek]. rewrite IH.
  - rewrite H; [reflexivity|]. specialize (O 0 ltac:(lia)). rewrite Z.add_0_r in O. exact O.
  - intros i Hi. replace (b + 1 + i) with (b + (i + 1)) by lia. apply O. lia.
Qed.
Lemma poke_eq m m' b n v : (forall z, mine z -> m' z = m z) -> forall z, mine z -> poke m' b n v z = poke m b n v z.
Proof.
  revert m m' b v. induction n as [|n IH]; intros m m' b v H z Hz; cbn [Memory.poke]; [apply H, Hz|].
  apply IH; [|exact Hz]. intros y Hy. destruct (y =? loc b); [reflexivity|apply H, Hy].
Qed.
Lemma sim_wr a b m m' rd v : 0 <= rd < 32 -> sim (a, m) (b, m') -> sim (wr_x a rd v, m) (wr_x b rd v, m').
Proof.
  intros Hr []. pose proof (wr_same a rd v) as (? & ? & ? & ? & ? & ? & ? & ?). pose proof (wr_same b rd v) as (? & ? & ? & ? & ? & ? & ? & ?).
  cbn [fst snd] in *. constructor; cbn [fst snd]; try congruence; [|assumption].
  intros r H'. unfold wr_x. destruct (rd =? 0) eqn:E; [auto|]. unfold rd_x in *. cbn [set_x xr]. destruct (r =? 0) eqn:Er; [reflexivity|].
  specialize (m_x0 r H'). rewrite Er in m_x0. destruct (r =? rd) eqn:Ee; [reflexivity|assumption].
Qed.
Lemma sim_pc a b m m' p : sim (a, m) (b, m') -> sim (set_pc a p, m) (set_pc b p, m').
Proof. intros []. constructor; try assumption. reflexivity. Qed.
Lemma sim_adv a b m m' : sim (a, m) (b, m') -> sim (advance a, m) (advance b, m').
Proof. intros H. unfold advance, next_pc. pose proof (m_pc _ _ H) as E. cbn [fst] in E. rewrite E. apply sim_pc. exact H. Qed.
Lemma sim_mem a b m m' n n' : sim (a, m) (b, m') -> (forall z, mine z -> n' z = n z) -> sim (a, n) (b, n').
Proof. intros [] H. constructor; assumption. Qed.

Lemma sim_csr a b m m' ip f rd g n : sim (a, m) (b, m') -> 0 <= rd < 32 -> 0 <= n < 4096 -> (match g with CReg r => 0 <= r < 32 | CImm z => 0 <= z < 32 end) ->
  csr_legal f g n -> n <> 0x340 -> n <> 0x341 -> n <> 0x342 -> n <> 0x344 -> (n = 0x300 -> rd = 0) ->
  sim (exec_csr SENTINEL a ip f rd g n, m) (exec_csr SENTINEL b false f rd g n, m').
Proof.
  intros S Hd Hn Hg [Ex Wr] N4 N1 N2 N3 Hm. unfold exec_csr.
  assert (Ro : csr_writes f g && csr_read_only n = false).
  { destruct (csr_writes f g) eqn:W; [|reflexivity]. cbn [andb]. destruct (csr_read_only n) eqn:R; [|reflexivity]. exfalso. apply Wr. split; [reflexivity|]. apply ro_bits; assumption. }
  assert (Av : arg_value b g = arg_value a g). { destruct g; [|reflexivity]. apply (m_x _ _ S). assumption. }
  pose proof S as [X P Mi Me Mt Mm]. cbn [fst snd] in *.
  destruct (Z.eq_dec n 0x300) as [->|N0].
  - specialize (Hm eq_refl). subst rd. cbn [csr_read]. rewrite Ro, Av. apply sim_adv. unfold wr_x. cbn [Z.eqb].
    destruct (csr_writes f g); [|exact S]. cbn [csr_write]. constructor; cbn [fst snd mie meie pc mtvec]; try assumption.
    rewrite Mi. generalize (arg_value a g) as v. intros v. destruct f; cbn [csr_new]; [reflexivity| |];
    rewrite ?Z.lor_spec, ?Z.ldiff_spec; f_equal; destruct (mie a), (mpie a), (mpie b); reflexivity.
  - assert (Rd : csr_read b false n = csr_read a ip n).
    { cbn [In implemented] in Ex. unfold csr_exists, implemented in Ex. cbn [In] in Ex.
      destruct Ex as [Ex|Ex]; [repeat (destruct Ex as [<-|Ex]; [try congruence; cbn [csr_read]; congruence|]); contradiction|].
      assert (R0 : forall c q, csr_read c q n = Some 0).
      { intros c q. unfold csr_read. rewrite Ex. repeat match goal with |- context[match ?x with _ => _ end] => is_var x; destruct x; try reflexivity; try discriminate Ex end. }
      rewrite !R0. reflexivity. }
    rewrite Rd. destruct (csr_read a ip n) as [old|] eqn:E.
    + rewrite Ro, Av. apply sim_adv, sim_wr; [assumption|]. destruct (csr_writes f g); [|exact S].
      generalize (csr_new f old (arg_value a g)) as v. intros v. unfold csr_write.
      repeat match goal with |- context[match ?x with _ => _ end] => is_var x; destruct x; try exact S; try congruence end;
      constructor; cbn [fst snd mie meie pc mtvec]; first [assumption|reflexivity].
    + pose proof (csr_read_known a ip n) as Kn. rewrite E in Kn. apply known_exists in Ex. congruence.
Qed.

Lemma sim_step a b m m' x w i1 i2 i3 : sim (a, m) (b, m') -> w = peek m (pc a) 4 ->
  (forall r, 0 <= r < 32 -> x_of x r = rd_x a r) -> pc_of x = pc a ->
  int_enabled a && (i1 || csr_word w && i2) = false -> (forall c, ~ sync_cause x w c) -> own (pc a) 4 ->
  match decode w with
  | Some Mret => False
  | Some (Load sz _ _ rs1 off) => own ((x_of x rs1 + off) mod 2 ^ 32) (bytes sz)
  | Some (Csr _ rd _ n) => n <> 0x340 /\ n <> 0x341 /\ n <> 0x342 /\ n <> 0x344 /\ (n = 0x300 -> rd = 0)
  | _ => True
  end -> sim (flat_step (a, m) i1 i2 i3) (flat_step (b, m') false false false) /\ peek m' (pc b) 4 = w.
Proof.
  intros S Hw Hx Hp In Sy Ow Or. pose proof S as [X P Mi Me Mt Mm]. cbn [fst snd] in *.
  assert (Hw' : peek m' (pc b) 4 = w). { rewrite P, Hw. apply own_peek; assumption. }
  split; [|exact Hw']. unfold Memory.flat_step. rewrite Hw', <- Hw, !andb_false_r.
  assert (I1 : int_enabled a && i1 = false) by (destruct (int_enabled a); [|reflexivity]; destruct i1; [discriminate|reflexivity]). rewrite I1.
  unfold sync_cause in Sy. unfold csr_word in In. destruct (decode w) as [i|] eqn:D; [|destruct (Sy _ eq_refl)].
  assert (I2 : is_csr i && (int_enabled a && i2) = false) by (destruct (int_enabled a), (is_csr i), i1, i2; cbn in In |- *; congruence). rewrite I2, ?andb_false_r.
  pose proof (decode_regs w i D) as Dr.
  assert (Al : forall sz ea, ea mod bytes sz = 0 -> aligned sz ea = true).
  { intros sz ea H. unfold aligned. apply Z.eqb_eq. exact H. }
  destruct i; cbn [exec].
  - apply sim_adv, sim_wr; assumption.
  - rewrite P. apply sim_adv, sim_wr; assumption.
  - rewrite P. unfold jump, next_pc. rewrite P. destruct (Z.eqb_spec (((pc a + off) mod 2 ^ 32) mod 4) 0) as [E|E].
    + apply sim_pc, sim_wr; assumption.
    + exfalso. apply (Sy 0). rewrite Hp. auto.
  - destruct Dr as [Dr1 Dr2]. rewrite (X _ Dr2). unfold jump, next_pc. rewrite P. destruct (Z.eqb_spec ((2 * ((rd_x a rs1 + off) mod 2 ^ 32 / 2)) mod 4) 0) as [E|E].
    + apply sim_pc, sim_wr; assumption.
    + exfalso. apply (Sy 0). rewrite Hx by assumption. auto.
  - destruct Dr as [Dr1 Dr2]. rewrite (X _ Dr1), (X _ Dr2). destruct (cmp c (rd_x a rs1) (rd_x a rs2)) eqn:Cm; [|apply sim_adv; exact S].
    rewrite P. unfold jump. destruct (Z.eqb_spec (((pc a + off) mod 2 ^ 32) mod 4) 0) as [E|E].
    + apply sim_pc; assumption.
    + exfalso. apply (Sy 0). rewrite !Hx, Hp by assumption. auto.
  - destruct Dr as [Dr1 Dr2]. rewrite (X _ Dr2). rewrite Hx in * by assumption. cbv zeta.
    destruct (Z.eq_dec (((rd_x a rs1 + off) mod 2 ^ 32) mod bytes sz) 0) as [E|E].
    2:{ exfalso. apply (Sy 4). auto. }
    rewrite (Al _ _ E). assert (Pk : peek m' ((rd_x a rs1 + off) mod 2 ^ 32) (Z.to_nat (bytes sz)) = peek m ((rd_x a rs1 + off) mod 2 ^ 32) (Z.to_nat (bytes sz))).
    { apply own_peek; [assumption|]. rewrite bytes_nat. exact Or. }
    rewrite Pk. apply sim_adv, sim_wr; assumption.
  - destruct Dr as [Dr1 Dr2]. rewrite (X _ Dr1), (X _ Dr2). rewrite Hx in * by assumption. cbv zeta.
    destruct (Z.eq_dec (((rd_x a rs1 + off) mod 2 ^ 32) mod bytes sz) 0) as [E|E].
    2:{ exfalso. apply (Sy 6). auto. }
    rewrite (Al _ _ E). apply sim_adv. apply (sim_mem _ _ _ _ _ _ S). apply poke_eq. assumption.
  - destruct Dr as [Dr1 Dr2]. rewrite (X _ Dr2). apply sim_adv, sim_wr; assumption.
  - destruct Dr as (Dr1 & Dr2 & Dr3). rewrite (X _ Dr2), (X _ Dr3). apply sim_adv, sim_wr; assumption.
  - apply sim_adv; exact S.
  - destruct (Sy _ eq_refl).
  - destruct (Sy _ eq_refl).
  - contradiction.
  - apply sim_adv; exact S.
  - destruct Dr as (Dr1 & Dr2 & Dr3). destruct Or as (O0 & O1 & O2 & O3 & O4). apply sim_csr; try assumption.
    destruct (known csr) eqn:Kn.
    + split; [apply known_exists; exact Kn|]. intros [W R]. apply (Sy 2). split; [|reflexivity]. intros [_ L]. apply L. auto.
    + exfalso. apply (Sy 2). split; [|reflexivity]. intros [L _]. apply known_exists in L. congruence.
Qed.

(** What the program sees in cycle [t1] of one run and [t2] of the other. *)
Definition same_view (s : state) (inp1 inp2 : nat -> input) (m0 : Z -> Z) (t1 t2 : nat) : Prop :=
  let x := run s inp1 (S t1) in let y := run s inp2 (S t2) in
  same_regs x y /\ pc_of y = pc_of x /\ mie_of y = mie_of x /\ meie_of y = meie_of x /\ mtvec_of y = mtvec_of x /\
  (forall z, mine z -> slave_mem s inp2 m0 t2 z = slave_mem s inp1 m0 t1 z) /\
  (own (pc_of x) 4 -> dat_r (inp2 t2) = dat_r (inp1 t1)).

Lemma flat_const s inp m0 t n : (forall u w, (t <= u < t + n)%nat -> ~ fetch_done s inp u w) -> flat_at s inp m0 (t + n) = flat_at s inp m0 t.
Proof.
  induction n as [|n IH]; intros N; [rewrite Nat.add_0_r; reflexivity|]. rewrite Nat.add_succ_r. cbn [Memory.flat_at].
  destruct (_ && _) eqn:E; [|apply IH; intros u w Hu; apply N; lia]. exfalso. apply andb_prop in E. destruct E as [E U]. apply andb_prop in E. destruct E as [C A].
  apply (N (t + n)%nat (dat_r (inp (t + n)%nat))); [lia|]. repeat split; assumption.
Qed.
Lemma flat_exec s inp m0 t t' w : executes s inp t t' w ->
  flat_at s inp m0 t' = flat_step (flat_at s inp m0 t) (irq (inp (t + 1)%nat)) (irq (inp (t + 2)%nat)) (irq (inp (t + 3)%nat)).
Proof.
  intros ((C & U & A & _) & L & _ & N). replace t' with (S t + (t' - S t))%nat by lia. rewrite flat_const; [|intros u w' Hu; apply N; lia].
  cbn [Memory.flat_at]. rewrite C, U, A. reflexivity.
Qed.

Section Two.
Variables (s : state) (inp1 inp2 : nat -> input) (m0 : Z -> Z).
Hypothesis (K1 : ok s inp1) (K2 : ok s inp2) (S1 : memory_slave s inp1 m0) (S2 : memory_slave s inp2 m0).

Lemma view_of_sim t1 t2 w1 w2 : fetch_done s inp1 t1 w1 -> fetch_done s inp2 t2 w2 -> sim (flat_at s inp1 m0 t1) (flat_at s inp2 m0 t2) ->
  same_view s inp1 inp2 m0 t1 t2.
Proof.
  intros F1 F2 S. pose proof (C33_flat_memory phys s inp1 m0 K1 S1 t1 w1 F1) as A. pose proof (C33_flat_memory phys s inp2 m0 K2 S2 t2 w2 F2) as B.
  destruct (flat_at s inp1 m0 t1) as [a m]. destruct (flat_at s inp2 m0 t2) as [b m']. cbv zeta in A, B.
  destruct A as (Aw & Am & Ax & Ap & Ai & _ & Ae & At & As & _). destruct B as (Bw & Bm & Bx & Bp & Bi & _ & Be & Bt & Bs & _).
  destruct S as [X P Mi Me Mt Mm]. cbn [fst snd] in *. unfold same_view. cbv zeta.
  split; [intros r Hr; rewrite Bx, Ax by assumption; apply X; assumption|]. repeat (split; [congruence|]). split.
  - intros z Hz. rewrite <- Am, <- Bm. apply Mm. exact Hz.
  - intros O. destruct F1 as (_ & _ & _ & ->). destruct F2 as (_ & _ & _ & ->). rewrite Aw, Bw, P. apply own_peek; [assumption|]. rewrite <- Ap. exact O.
Qed.
Lemma sim_of_view t1 t2 w1 w2 : fetch_done s inp1 t1 w1 -> fetch_done s inp2 t2 w2 -> same_view s inp1 inp2 m0 t1 t2 ->
  sim (flat_at s inp1 m0 t1) (flat_at s inp2 m0 t2).
Proof.
  intros F1 F2 S. pose proof (C33_flat_memory phys s inp1 m0 K1 S1 t1 w1 F1) as A. pose proof (C33_flat_memory phys s inp2 m0 K2 S2 t2 w2 F2) as B.
  destruct (flat_at s inp1 m0 t1) as [a m]. destruct (flat_at s inp2 m0 t2) as [b m']. cbv zeta in A, B.
  destruct A as (Aw & Am & Ax & Ap & Ai & _ & Ae & At & As & _). destruct B as (Bw & Bm & Bx & Bp & Bi & _ & Be & Bt & Bs & _).
  destruct S as (X & P & Mi & Me & Mt & Mm & _). constructor; cbn [fst snd]; try congruence.
  - intros r Hr. rewrite <- Bx, <- Ax by assumption. apply X; assumption.
  - intros z Hz. rewrite Am, Bm. apply Mm. exact Hz.
Qed.

(** MRET leaves the memory alone. *)
Lemma mret_mem e t' : executes s inp1 e t' 0x30200073 -> int_taken s inp1 e 0x30200073 = false ->
  forall z, slave_mem s inp1 m0 t' z = slave_mem s inp1 m0 e z.
Proof.
  intros X T z. pose proof X as (F & _ & (w' & F') & _).
  pose proof (C33_flat_memory phys s inp1 m0 K1 S1 e _ F) as A. pose proof (C33_flat_memory phys s inp1 m0 K1 S1 t' w' F') as B.
  rewrite (flat_exec s inp1 m0 e t' _ X) in B. destruct (flat_at s inp1 m0 e) as [a m]. destruct A as (Aw & Am & Ax & Ap & Ai & _ & Ae & _).
  unfold Memory.flat_step in B. rewrite <- Aw in B. change (decode 0x30200073) with (Some Mret) in B. cbn [is_csr andb exec] in B.
  destruct (int_enabled a && _); destruct B as (_ & Bm & _); rewrite <- Am, <- Bm; reflexivity.
Qed.

Lemma nth_fetch_S inp n t' : nth_fetch s inp (S n) t' -> exists t w, nth_fetch s inp n t /\ executes s inp t t' w.
Proof.
  intros [[w' F'] N].
  assert (H : forall j, fetches s inp j = S n -> exists t w, (t < j)%nat /\ nth_fetch s inp n t /\ fetch_done s inp t w /\ forall u v, (t < u < j)%nat -> ~ fetch_done s inp u v).
  { induction j as [|j IH]; intros Hj; [discriminate|]. rewrite fetches_S in Hj. destruct (o_cyc _ && _ && _) eqn:E.
    - assert (E' := E). apply is_fetch in E. destruct E as [w E]. exists j, w. split; [lia|]. split; [split; [eexists; exact E|lia]|]. split; [exact E|]. intros; lia.
    - rewrite Nat.add_0_r in Hj. destruct (IH Hj) as (t & w & L & Nt & F & Q). exists t, w. split; [lia|]. split; [exact Nt|]. split; [exact F|].
      intros u v Hu Fu. destruct (Nat.eq_dec u j) as [->|]; [|apply (Q u v); [lia|exact Fu]].
      assert (o_cyc (run s inp j) && u_fetch (s_u (run s inp j)) && ack (inp j) = true) by (apply is_fetch; eexists; exact Fu). congruence. }
  destruct (H t' N) as (t & w & L & Nt & F & Q). exists t, w. split; [exact Nt|]. split; [exact F|]. split; [exact L|]. split; [eexists; exact F'|exact Q].
Qed.
Lemma nth_fetch_0 inp t : nth_fetch s inp 0 t -> forall u w, (u < t)%nat -> ~ fetch_done s inp u w.
Proof.
  intros [_ N] u w L F. assert (E : o_cyc (run s inp u) && u_fetch (s_u (run s inp u)) && ack (inp u) = true) by (apply is_fetch; eexists; exact F).
  pose proof (fetches_S s inp u) as Q. rewrite E in Q. pose proof (fetches_mono s inp (S u) (t - S u)) as M. replace (S u + (t - S u))%nat with t in M by lia. lia.
Qed.
Lemma program_fetch n t : program s inp1 m0 n t -> exists w, fetch_done s inp1 t w.
Proof. intros H. destruct H as [t w F _|n t t' w _ (_ & _ & F & _) _|n t e t' _ _ (_ & _ & F & _)]; [eexists; exact F|exact F|exact F]. Qed.

Hypothesis Q2 : forall t, irq (inp2 t) = false.
Lemma transparent n t1 : program s inp1 m0 n t1 -> forall t2, nth_fetch s inp2 n t2 -> same_view s inp1 inp2 m0 t1 t2.
Proof.
  induction 1 as [t w F N|n t t' w Pr IH X O|n t e t' Pr IH H X]; intros t2 Nf.
  - pose proof Nf as [[w2 F2] _]. pose proof (nth_fetch_0 inp2 t2 Nf) as N2. apply (view_of_sim t t2 w w2 F F2).
    replace t with (0 + t)%nat by lia. replace t2 with (0 + t2)%nat by lia. rewrite !flat_const by (intros u v Hu; first [apply N; lia|apply N2; lia]).
    constructor; reflexivity.
  - destruct (nth_fetch_S inp2 n t2 Nf) as (u & w2 & Nu & X2). specialize (IH u Nu).
    pose proof X as (F & _ & (w' & F') & _). pose proof X2 as (F2 & _ & (w2' & F2') & _).
    pose proof (sim_of_view t u w w2 F F2 IH) as Sm. apply (view_of_sim t' t2 w' w2' F' F2').
    rewrite (flat_exec _ _ _ _ _ _ X), (flat_exec _ _ _ _ _ _ X2), !Q2.
    pose proof (C33_flat_memory phys s inp1 m0 K1 S1 t w F) as A. destruct (flat_at s inp1 m0 t) as [a m]. destruct (flat_at s inp2 m0 u) as [b m'].
    cbv zeta in A. destruct A as (Aw & Am & Ax & Ap & Ai & _ & Ae & _). destruct O as (O1 & O2 & O3 & O4).
    apply (sim_step a b m m' (run s inp1 (S t)) w); try assumption.
    + unfold int_taken in O1. cbv zeta in O1. rewrite Ai, Ae in O1. exact O1.
    + rewrite <- Ap. exact O3.
  - specialize (IH t2 Nf). destruct H as ((w & F & T) & Te & Hr & Hp & Hm & He & Ht & Hz).
    destruct (C22_mret s inp1 K1 e t' _ _ _ (conj X (conj eq_refl eq_refl)) Te eq_refl) as (_ & R1 & R2 & R3 & _ & R5 & R6 & R7 & _).
    destruct IH as (I1 & I2 & I3 & I4 & I5 & I7 & I8).
    assert (Mi : mie_of (run s inp1 (S t)) = true).
    { unfold int_taken in T. destruct (mie_of (run s inp1 (S t))); [reflexivity|discriminate]. }
    assert (Pc : pc_of (run s inp1 (S t')) = pc_of (run s inp1 (S t))).
    { rewrite R2, Hp. unfold pc_of. rewrite (Z.mul_comm 4 (s_pc _)), Z.div_mul by lia. lia. }
    pose proof X as (_ & _ & (w' & F') & _). pose proof Nf as [[w2 F2] _].
    unfold same_view. cbv zeta.
    assert (Rr : same_regs (run s inp1 (S t')) (run s inp2 (S t2))).
    { intros r Hr'. rewrite I1, R1, Hr by assumption. reflexivity. }
    assert (Mz : forall z, mine z -> slave_mem s inp2 m0 t2 z = slave_mem s inp1 m0 t' z).
    { intros z Hz'. rewrite I7, (mret_mem e t' X Te), Hz by assumption. reflexivity. }
    split; [exact Rr|]. repeat (split; [congruence|]). split; [exact Mz|].
    intros O. pose proof (C33_flat_memory phys s inp1 m0 K1 S1 t' w' F') as A. pose proof (C33_flat_memory phys s inp2 m0 K2 S2 t2 w2 F2) as B.
    destruct (flat_at s inp1 m0 t') as [a m]. destruct (flat_at s inp2 m0 t2) as [b m']. cbv zeta in A, B.
    destruct A as (Aw & Am & Ax & Ap & _). destruct B as (Bw & Bm & Bx & Bp & _).
    destruct F' as (_ & _ & _ & ->). destruct F2 as (_ & _ & _ & ->). rewrite Aw, Bw, <- Ap, <- Bp, I2, <- Pc. apply own_peek; [|exact O].
    intros z Hz'. rewrite Am, Bm. apply Mz, Hz'.
Qed.
End Two.
End Mem.

(** C75.  Whatever the interrupt line does, the [n]-th instruction of an interrupted program finds the registers, interrupt
    enables, MTVEC and memory contents of the [n]-th instruction of the same program run without interrupts, and it
    is the same instruction, provided every handler gives back what it found
    (MSCRATCH, MEPC, MCAUSE and MPIE belong to the handlers). *)
Theorem C75_interrupts_transparent : forall phys mine s inp1 inp2 m0, ok s inp1 -> ok s inp2 -> memory_slave phys s inp1 m0 -> memory_slave phys s inp2 m0 ->
  (forall t, irq (inp2 t) = false) ->
  forall n t1 t2, program phys mine s inp1 m0 n t1 -> nth_fetch s inp2 n t2 -> same_view phys mine s inp1 inp2 m0 t1 t2.
Proof. intros phys mine s inp1 inp2 m0 K1 K2 S1 S2 Q n t1 t2 P N. eapply transparent; eassumption. Qed.

(** The [n]-th instruction is always fetched if the bus answers. *)
Lemma nth_fetch_exists s inp W n : ok s inp -> answers_within W s inp -> exists t, nth_fetch s inp n t.
Proof.
  intros K Aw. induction n as [|n (t & [[w F] N])].
  - destruct (fetch_soon s inp W K Aw 0) as (u & w & _ & F & N). exists u. split; [eexists; exact F|].
    assert (G : forall j, (j <= u)%nat -> fetches s inp j = 0%nat).
    { induction j as [|j IH]; intros Hj; [reflexivity|]. rewrite fetches_S, IH by lia. destruct (_ && _) eqn:E; [|reflexivity].
      apply is_fetch in E. destruct E as [w' E]. destruct (N j w'); [lia|exact E]. }
    apply G. lia.
  - destruct (next_fetch s inp W K Aw t w F) as (t' & (_ & L & F' & Q) & _). exists t'. split; [exact F'|].
    assert (G : forall j, (S t <= j <= t')%nat -> fetches s inp j = S n).
    { intros j Hj. replace j with (S t + (j - S t))%nat by lia. assert (Hk : (S t + (j - S t) <= t')%nat) by lia. revert Hk. generalize (j - S t)%nat as i.
      induction i as [|i IH]; intros Hi.
      - rewrite Nat.add_0_r, fetches_S. assert (E : o_cyc (run s inp t) && u_fetch (s_u (run s inp t)) && ack (inp t) = true) by (apply is_fetch; eexists; exact F). rewrite E. lia.
      - rewrite Nat.add_succ_r, fetches_S, IH by lia. destruct (_ && _) eqn:E; [|lia]. apply is_fetch in E. destruct E as [w' E]. destruct (Q (S t + i)%nat w'); [lia|exact E]. }
    apply G. lia.
Qed.

(** C75 for the core with the SoC's memory: the run without interrupts is the same system with the line held low. *)
Theorem C75_system : forall k iw s m mine, fresh s -> mem_start m ->
  let inp1 := sys_inp k iw s m in let inp2 := sys_inp k (fun _ => false) s m in
  let phys := fun a => a mod 2 ^ k in let m0 := fun z => byte (wm_mem m (z / 4)) (z mod 4) in
  forall n t1, program phys mine s inp1 m0 n t1 ->
  exists t2, nth_fetch s inp2 n t2 /\ same_view phys mine s inp1 inp2 m0 t1 t2.
Proof.
  intros k iw s m mine Hf Hm inp1 inp2 phys m0 n t1 P.
  pose proof (bus_ok_ok _ _ (sys_bus_ok k iw s m Hf Hm)) as K1. pose proof (bus_ok_ok _ _ (sys_bus_ok k (fun _ => false) s m Hf Hm)) as K2.
  destruct (nth_fetch_exists s inp2 1 n K2) as [t2 N2]; [apply two_cycle_answers; [exact K2|apply sys_two_cycle; assumption]|].
  exists t2. split; [exact N2|].
  apply (C75_interrupts_transparent phys mine s inp1 inp2 m0 K1 K2) with (n := n); try assumption.
  - exact (sys_memory_slave k iw s m Hf Hm).
  - exact (sys_memory_slave k (fun _ => false) s m Hf Hm).
  - reflexivity.
Qed.

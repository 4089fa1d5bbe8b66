(** * C90: what programs do on pins, to the cycle (the core's part)

    Nothing in /repo is modelled here beyond Cpu.v: a program drives output registers by stores; when the requests of those stores
    appear on the bus is computed by the simulator of Clocked.v. *)
From Coq Require Import ZArith Lia Bool List.
From Verif Require Import Bits Ucode Cpu Isa Timed BitLemmas Wf Sym Blocks CsrBlocks DecodeOk Boundary Sim Main Obs PropsBus PropsInv Observe PropsIsa PropsFrame Latency Memory SocMem Crash IoMem SeqTest PowerUp Transparent IoTransparent Emulate Clocked.
Import ListNotations.
Open Scope Z_scope.

(** ** Specification *)
(** The store about to be executed, if it is one that goes ahead: the cycle in which its request appears on the bus, the byte
    address, and the value of the register. *)
Definition driven (ram : Z -> bool) (phys : Z -> Z) (line : nat -> bool) (bus : nat -> Z) (q : nat * (arch * (Z -> Z))) : option (nat * Z * Z) :=
  let '(t, (a, m)) := q in
  if mie a && meie a && line (t + 1)%nat then None else
  match decode (word_at ram phys bus q) with
  | Some (Store sz rs1 rs2 off) =>
      let ea := (rd_x a rs1 + off) mod 2 ^ 32 in if ea mod bytes sz =? 0 then Some ((t + 6)%nat, ea, rd_x a rs2) else None
  | _ => None
  end.
(** The value of an output register with byte addresses [reg] in cycle [c], after the stores [sim 0], ..., [sim (n-1)]: a byte
    stored by a request that appears in cycle [v] can be seen from cycle [v + L] on. *)
Fixpoint wave (ram : Z -> bool) (phys : Z -> Z) (line : nat -> bool) (bus : nat -> Z) (sim : nat -> nat * (arch * (Z -> Z))) (reg : Z -> bool) (L n c : nat) : Z :=
  match n with
  | O => 0
  | S j => match driven ram phys line bus (sim j) with
           | Some (v, ea, d) => if reg ea && Nat.leb (v + L) c then d mod 256 else wave ram phys line bus sim reg L j c
           | None => wave ram phys line bus sim reg L j c
           end
  end.
(** An output register: 0 until it is written, and [L] cycles after a request to write it appears it has the byte of lane 0. *)
Definition writes_at (s : state) (inp : nat -> input) (reg : Z -> bool) (v : nat) : Prop :=
  let b := run s inp v in request_starts s inp v /\ o_we b = true /\ reg (4 * o_adr b) = true /\ Z.testbit (o_sel b) 0 = true.
Record output (s : state) (inp : nat -> input) (reg : Z -> bool) (L : nat) (out : nat -> Z) : Prop := {
  ou_zero : forall c, (c < L)%nat -> out c = 0;
  ou_write : forall v, writes_at s inp reg v -> out (v + L)%nat = o_dat_w (run s inp v) mod 256;
  ou_keep : forall v, ~ writes_at s inp reg v -> out (v + L)%nat = out (v + L - 1)%nat }.

(** The instruction about to be executed is in RAM, with interrupts disabled; it loads from RAM or from the input register [gin],
    stores to mapped addresses, and does not look at MIP. *)
Definition settled (mapped ram gin : Z -> bool) (phys : Z -> Z) (q : nat * (arch * (Z -> Z))) : Prop :=
  let '(t, (a, m)) := q in
  mie a && meie a = false /\ ram (pc a / 4) = true /\ mapped (pc a / 4) = true /\
  match decode (peek phys m (pc a) 4) with
  | Some (Load sz _ _ rs1 off) => let ea := (rd_x a rs1 + off) mod 2 ^ 32 in mapped (ea / 4) = true /\ (ram (ea / 4) = true \/ gin ea = true)
  | Some (Store sz rs1 _ off) => mapped (((rd_x a rs1 + off) mod 2 ^ 32) / 4) = true
  | Some (Csr _ _ _ n) => n <> 0x344
  | _ => True
  end.

(** ** When requests appear *)
Section W.
Variables (s : state) (inp : nat -> input).
Hypothesis (K : ok s inp).
Local Notation next a w t := (fetched SENTINEL a w (irq (inp (t + 1)%nat)) (irq (inp (t + 2)%nat)) (irq (inp (t + 3)%nat))).
Lemma after_fetch t t' w a : executes s inp t t' w -> machine s inp t = Fetching a -> machine s inp (S t) = next a w t.
Proof. intros ((C & U & A & <-) & _) M. rewrite (machine_ack s inp t C A), M. reflexivity. Qed.
Lemma stays_fetching t t' w : executes s inp t t' w -> forall n v a, (t < v)%nat -> (v + n <= t')%nat -> machine s inp v = Fetching a -> machine s inp (v + n) = Fetching a.
Proof.
  intros (_ & _ & _ & N). induction n as [|n IH]; intros v a L L2 M; [rewrite Nat.add_0_r; exact M|]. rewrite Nat.add_succ_r.
  assert (Mn : machine s inp (v + n) = Fetching a) by (apply IH; [exact L|lia|exact M]). rewrite machine_noack; [exact Mn|].
  destruct (o_cyc (run s inp (v + n)) && ack (inp (v + n)%nat)) eqn:Q; [|reflexivity]. apply andb_prop in Q. destruct Q as [C A]. exfalso.
  apply (N (v + n)%nat (dat_r (inp (v + n)%nat))); [lia|]. apply (fetch_at s inp K _ a C A Mn).
Qed.
Lemma fetching_reads v a : o_cyc (run s inp v) = true -> machine s inp v = Fetching a -> o_we (run s inp v) = false.
Proof. intros C M. pose proof (bus_shows s inp K v C) as Sh. rewrite M in Sh. destruct Sh. exact sh_we. Qed.
Lemma starts_no_access t t' w a a' : executes s inp t t' w -> machine s inp t = Fetching a -> next a w t = Fetching a' ->
  forall v, (t < v <= t')%nat -> request_starts s inp v -> o_we (run s inp v) = false.
Proof.
  intros X M F v Hv [C _]. pose proof (after_fetch t t' w a X M) as M1. rewrite F in M1. apply (fetching_reads v a' C).
  replace v with (S t + (v - S t))%nat by lia. apply (stays_fetching t t' w X _ (S t) a'); [lia|lia|exact M1].
Qed.
Lemma starts_access t t' w a r k : executes s inp t t' w -> machine s inp t = Fetching a -> next a w t = Accessing r k ->
  let v0 := (t + 1 + fst (fetch_delay a w (irq (inp (t + 1)%nat)) (irq (inp (t + 2)%nat))))%nat in
  (t < v0 < t')%nat /\ (forall v, (t < v < v0)%nat -> o_cyc (run s inp v) = false) /\ request_starts s inp v0 /\ Sim.shows r (run s inp v0) /\
  forall v, (t < v <= t')%nat -> request_starts s inp v -> v = v0 \/ o_we (run s inp v) = false.
Proof.
  intros X M F v0. pose proof (after_fetch t t' w a X M) as M1. rewrite F in M1. pose proof X as ((C & U & A & Dw) & L & (w' & F') & N).
  destruct (next_request s inp K t C A) as [Q R]. rewrite M in Q, R. cbn [delay_after] in Q, R. unfold irqs in Q, R. rewrite Dw in Q, R. fold v0 in R.
  pose proof (delay_bound (irqs inp) (machine s inp t) t (dat_r (inp t))) as B. rewrite M in B. cbn [delay_after] in B. unfold irqs in B. rewrite Dw in B.
  set (d := fst (fetch_delay a w (irq (inp (t + 1)%nat)) (irq (inp (t + 2)%nat)))) in *.
  assert (Q0 : forall v, (t < v < v0)%nat -> o_cyc (run s inp v) = false). { intros v Hv. replace v with (t + 1 + (v - t - 1))%nat by lia. apply Q. unfold v0 in Hv. lia. }
  assert (M0 : forall n, (S t + n <= v0)%nat -> machine s inp (S t + n) = Accessing r k).
  { induction n as [|n IH]; intros Hn; [rewrite Nat.add_0_r; exact M1|]. rewrite Nat.add_succ_r, machine_noack; [apply IH; lia|]. rewrite Q0 by lia. reflexivity. }
  assert (Mv : machine s inp v0 = Accessing r k). { replace v0 with (S t + (v0 - S t))%nat by (unfold v0; lia). apply M0. unfold v0. lia. }
  assert (Lt : (v0 < t')%nat).
  { destruct (Nat.lt_total v0 t') as [H|[H|H]]; [exact H| |].
    - exfalso. rewrite <- H in F'. destruct F' as (C' & U' & _). pose proof (fetch_iff s inp K v0 C') as I. rewrite Mv in I. congruence.
    - exfalso. destruct F' as (C' & _). rewrite Q0 in C' by lia. discriminate. }
  split; [unfold v0; lia|]. split; [exact Q0|]. split; [|split].
  - split; [exact R|]. destruct v0 as [|u] eqn:E; [exact I|]. apply Q0. unfold v0 in E. lia.
  - pose proof (bus_shows s inp K v0 R) as Sh. rewrite Mv in Sh. exact Sh.
  - assert (P : forall n, (v0 + n <= t')%nat -> (machine s inp (v0 + n) = Accessing r k /\ o_cyc (run s inp (v0 + n)) = true) \/ exists a', machine s inp (v0 + n) = Fetching a').
    { induction n as [|n IH]; intros Hn; [left; rewrite Nat.add_0_r; auto|]. rewrite Nat.add_succ_r. destruct (IH ltac:(lia)) as [[Ma Ca]|[a' Ma]].
      - destruct (ack (inp (v0 + n)%nat)) eqn:Aa.
        + right. eexists. rewrite (machine_ack s inp _ Ca Aa), Ma. reflexivity.
        + left. split; [rewrite machine_noack; [exact Ma|rewrite Aa; apply andb_false_r]|apply (C05_request_held s inp K _ Ca Aa)].
      - right. exists a'. rewrite <- (Nat.add_1_r (v0 + n)). apply (stays_fetching t t' w X 1 (v0 + n) a'); [unfold v0; lia|lia|exact Ma]. }
    intros v Hv [Cv Sv]. destruct (Nat.lt_total v v0) as [H|[H|H]]; [rewrite Q0 in Cv by lia; discriminate|left; exact H|right].
    destruct v as [|u]; [lia|]. destruct (P (u - v0)%nat ltac:(lia)) as [[_ Cu]|[a' Mu]]; replace (v0 + (u - v0))%nat with u in * by lia; [congruence|].
    apply (fetching_reads (S u) a' Cv). rewrite <- (Nat.add_1_r u). apply (stays_fetching t t' w X 1 u a'); [unfold v0 in H; lia|lia|exact Mu].
Qed.
(** Before the first fetch nothing is written. *)
Lemma starts_first t w : fetch_done s inp t w -> (forall u w', (u < t)%nat -> ~ fetch_done s inp u w') ->
  forall v, (v <= t)%nat -> o_cyc (run s inp v) = true -> o_we (run s inp v) = false.
Proof.
  intros F N v Hv C. assert (Mv : forall j, (j <= t)%nat -> machine s inp j = Fetching (boot_arch s)).
  { induction j as [|j IH]; intros Hj; [reflexivity|]. rewrite machine_noack; [apply IH; lia|].
    destruct (o_cyc (run s inp j) && ack (inp j)) eqn:Q; [|reflexivity]. apply andb_prop in Q. destruct Q as [Cj Aj]. exfalso.
    apply (N j (dat_r (inp j))); [lia|]. apply (fetch_at s inp K _ (boot_arch s) Cj Aj). apply IH. lia. }
  apply (fetching_reads v _ C (Mv v Hv)).
Qed.

(** One instruction: its store, if it is one. *)
Definition stored (t : nat) (w : Z) : option (Z * Z * Z) :=
  let x := run s inp (S t) in
  if int_taken s inp t w then None else
  match decode w with
  | Some (Store sz rs1 rs2 off) => let ea := (x_of x rs1 + off) mod 2 ^ 32 in if ea mod bytes sz =? 0 then Some (ea, bytes sz, x_of x rs2) else None
  | _ => None
  end.
Lemma store_starts t t' w : executes s inp t t' w ->
  match stored t w with
  | Some (ea, n, d) => (t + 6 < t')%nat /\ request_starts s inp (t + 6) /\ let b := run s inp (t + 6)%nat in
      o_we b = true /\ o_adr b = ea / 4 /\ (forall i, 0 <= i < 4 -> Z.testbit (o_sel b) i = addressed ea n i) /\ (forall i, 0 <= i < n -> byte (o_dat_w b) (ea mod 4 + i) = byte d i) /\
      forall v, (t < v <= t')%nat -> v <> (t + 6)%nat -> request_starts s inp v -> o_we (run s inp v) = false
  | None => forall v, (t < v <= t')%nat -> request_starts s inp v -> o_we (run s inp v) = false
  end.
Proof.
  intros X. pose proof X as (F & _). destruct (fetch_machine s inp K t w F) as [a M].
  destruct (C02_registers_match_reference s inp K t _ F) as (a0 & M0 & Rx & Rp & Ri & _ & Re & _). rewrite M in M0. injection M0 as <-.
  unfold stored. assert (T : int_taken s inp t w = int_enabled a && (irq (inp (t + 1)%nat) || csr_word w && irq (inp (t + 2)%nat))) by (unfold int_taken, int_enabled; cbv zeta; rewrite Ri, Re; reflexivity).
  destruct (int_taken s inp t w) eqn:Ti.
  - apply (starts_no_access t t' w a (interrupt a) X M). apply fetched_taken. symmetry. exact T.
  - unfold csr_word in T. pose proof (starts_no_access t t' w a) as Na. pose proof (starts_access t t' w a) as Ac.
    assert (Fe : next a w t = match decode w with None => Fetching (Isa.exception SENTINEL a (illegal_cause SENTINEL w)) | Some i => exec SENTINEL a (irq (inp (t + 3)%nat)) i end).
    { unfold fetched. destruct (int_enabled a); cbn [andb] in *; [|destruct (decode w) as [i|]; [destruct (is_csr i)|]; reflexivity].
      symmetry in T. apply orb_false_iff in T. destruct T as [T1 T2]. rewrite T1. destruct (decode w) as [i|]; [|reflexivity]. destruct i; cbn [is_csr andb] in *; try reflexivity; rewrite T2; reflexivity. }
    destruct (decode w) as [i|] eqn:D; [|apply (Na _ X M Fe)]. pose proof (decode_regs w i D) as Rg.
    assert (Fd : forall sz rs1 rs2 off, i = Store sz rs1 rs2 off -> aligned sz ((rd_x a rs1 + off) mod 2 ^ 32) = true -> fst (fetch_delay a w (irq (inp (t + 1)%nat)) (irq (inp (t + 2)%nat))) = 5%nat).
    { intros sz rs1 rs2 off -> Al. unfold fetch_delay. rewrite D. cbn [is_csr andb exec_delay] in *. destruct (int_enabled a); cbn [andb] in *.
      - symmetry in T. rewrite orb_false_r in T. rewrite T, Al. reflexivity.
      - rewrite Al. reflexivity. }
    destruct i as [rd v|rd v|rd off|rd rs1 off|c rs1 rs2 off|sz sg rd rs1 off|sz rs1 rs2 off|f rd rs1 n|f rd rs1 rs2| | | | | |f rd g n]; cbn [exec] in Fe; cbv zeta in *.
    all: try (apply (Na _ X M Fe)).
    + destruct (aligned sz _); [|apply (Na _ X M Fe)]. destruct (Ac _ _ X M Fe) as (_ & _ & _ & Sh & On).
      intros v Hv Sv. destruct (On v Hv Sv) as [->|H]; [|exact H]. destruct Sh. exact sh_we.
    + rewrite !Rx by tauto. unfold aligned in Fe, Fd. destruct (Z.eqb_spec (((rd_x a rs1 + off) mod 2 ^ 32) mod bytes sz) 0) as [Al|Al].
      * cbv iota in Fe. rewrite (Fd sz rs1 rs2 off eq_refl) in Ac by (apply Z.eqb_eq; exact Al). replace (t + 1 + 5)%nat with (t + 6)%nat in Ac by lia.
        destruct (Ac _ _ X M Fe) as (L & _ & Ss & Sh & On). split; [lia|]. split; [exact Ss|]. destruct Sh. cbn [q_adr q_sel q_we q_dat] in *.
        split; [assumption|]. split; [assumption|]. split; [|split].
        -- intros j Hj. rewrite sh_sel. apply lanes_addressed; [apply Z.eqb_eq; exact Al|lia].
        -- intros j Hj. rewrite sh_dat by reflexivity. apply store_byte. exact Hj.
        -- intros v Hv Ne Sv. destruct (On v Hv Sv) as [E|E]; [contradiction|exact E].
      * cbv iota in Fe. apply (Na _ X M Fe).
Qed.

(** The request of a load. *)
Lemma load_starts t t' w sz sg rd rs1 off : executes s inp t t' w -> int_taken s inp t w = false -> decode w = Some (Load sz sg rd rs1 off) ->
  let ea := (x_of (run s inp (S t)) rs1 + off) mod 2 ^ 32 in ea mod bytes sz = 0 ->
  (t + 5 < t')%nat /\ (forall v, (t < v < t + 5)%nat -> o_cyc (run s inp v) = false) /\ request_starts s inp (t + 5) /\ let b := run s inp (t + 5)%nat in
  o_we b = false /\ o_adr b = ea / 4 /\ forall i, 0 <= i < 4 -> Z.testbit (o_sel b) i = addressed ea (bytes sz) i.
Proof.
  intros X Ti D. cbv zeta. pose proof X as (F & _). destruct (fetch_machine s inp K t w F) as [a M].
  destruct (C02_registers_match_reference s inp K t _ F) as (a0 & M0 & Rx & Rp & Ri & _ & Re & _). rewrite M in M0. injection M0 as <-. cbv zeta in *.
  pose proof (decode_regs w _ D) as [_ Rg]. rewrite Rx by exact Rg. intros Al.
  assert (T : int_enabled a && irq (inp (t + 1)%nat) = false). { unfold int_taken, csr_word in Ti. cbv zeta in Ti. rewrite Ri, Re, D in Ti. cbn [andb] in Ti. rewrite orb_false_r in Ti. exact Ti. }
  assert (Fe : exists k, next a w t = Accessing {| q_adr := (rd_x a rs1 + off) mod 2 ^ 32 / 4; q_sel := lanes sz ((rd_x a rs1 + off) mod 2 ^ 32); q_we := false; q_dat := 0 |} k).
  { eexists. unfold fetched. rewrite T, D. cbn [is_csr andb exec]. cbv zeta. unfold aligned. rewrite (proj2 (Z.eqb_eq _ 0) Al). reflexivity. }
  destruct Fe as [k Fe]. destruct (starts_access t t' w a _ k X M Fe) as (Lt & Qt & Ss & Sh & _).
  assert (Fd : fst (fetch_delay a w (irq (inp (t + 1)%nat)) (irq (inp (t + 2)%nat))) = 4%nat).
  { unfold fetch_delay. rewrite T, D. cbn [is_csr andb exec_delay]. unfold aligned. cbv zeta. rewrite (proj2 (Z.eqb_eq _ 0) Al). reflexivity. }
  rewrite Fd in Lt, Qt, Ss, Sh. replace (t + 1 + 4)%nat with (t + 5)%nat in * by lia. split; [lia|]. split; [exact Qt|]. split; [exact Ss|]. destruct Sh. cbn [q_adr q_sel q_we] in *.
  split; [assumption|]. split; [assumption|]. intros i Hi. rewrite sh_sel. apply lanes_addressed; [apply Z.eqb_eq; exact Al|lia].
Qed.

(** One instruction, one output register. *)
Variables (reg : Z -> bool) (L : nat) (out : nat -> Z).
Hypotheses (HL : (1 <= L)%nat) (Reg : forall ea, reg ea = true -> ea mod 4 = 0) (Ou : output s inp reg L out).
Lemma keeps n : forall v, (forall u, (v < u <= v + n)%nat -> ~ writes_at s inp reg u) -> out (v + n + L)%nat = out (v + L)%nat.
Proof.
  induction n as [|n IH]; intros v H; [rewrite Nat.add_0_r; reflexivity|]. rewrite (ou_keep _ _ _ _ _ Ou) by (apply H; lia).
  replace (v + S n + L - 1)%nat with (v + n + L)%nat by lia. apply IH. intros u Hu. apply H. lia.
Qed.
Lemma out_step t t' w : executes s inp t t' w -> forall c, (t <= c <= t')%nat ->
  out (c + L)%nat = match stored t w with
                    | Some (ea, _, d) => if reg ea && Nat.leb (t + 6) c then d mod 256 else out (t + L)%nat
                    | None => out (t + L)%nat
                    end.
Proof.
  intros X c Hc. pose proof (store_starts t t' w X) as St.
  assert (Ne : forall v, o_we (run s inp v) = false -> ~ writes_at s inp reg v) by (intros v E (_ & We & _); congruence).
  assert (Go : forall u v, (u <= v)%nat -> (forall x, (u < x <= v)%nat -> request_starts s inp x -> ~ writes_at s inp reg x) -> out (v + L)%nat = out (u + L)%nat).
  { intros u v Hv N. replace v with (u + (v - u))%nat by lia. apply keeps. intros x Hx Wx. apply (N x); [lia|apply Wx|exact Wx]. }
  destruct (stored t w) as [[[ea n] d]|] eqn:Es; [|apply Go; [lia|]; intros x Hx Sx; apply Ne, St; [lia|exact Sx]].
  destruct St as (Lt & Ss & We & Ad & Se & Da & Ot).
  assert (En : exists sz, n = bytes sz /\ ea mod bytes sz = 0).
  { unfold stored in Es. destruct (int_taken _ _ _ _); [discriminate|]. destruct (decode w) as [i|]; [|discriminate]. destruct i; try discriminate. cbv zeta in Es. destruct (Z.eqb_spec (((x_of (run s inp (S t)) rs1 + off) mod 2 ^ 32) mod bytes sz) 0) as [Al|]; [|discriminate].
    assert (E : forall a b c a' b' c' : Z, Some (a, b, c) = Some (a', b', c') -> a = a' /\ b = b') by (intros; split; congruence). destruct (E _ _ _ _ _ _ Es) as [<- <-]. exists sz. auto. }
  destruct En as (sz & -> & Al). assert (Bz : 1 <= bytes sz) by (destruct sz; cbn; lia).
  assert (S0 : Z.testbit (o_sel (run s inp (t + 6))) 0 = true <-> ea mod 4 = 0).
  { rewrite Se by lia. unfold addressed. pose proof (Z.mod_pos_bound ea 4 ltac:(lia)). split; [intros H0; apply andb_prop in H0; lia|intros ->; destruct sz; reflexivity]. }
  destruct (reg ea) eqn:Rg; cbn [andb].
  - pose proof (Reg ea Rg) as A4. assert (E4 : 4 * (ea / 4) = ea) by (pose proof (Z.div_mod ea 4 ltac:(lia)); lia).
    destruct (Nat.leb_spec (t + 6) c) as [H|H].
    + rewrite (Go (t + 6)%nat c H) by (intros x Hx Sx; apply Ne, Ot; [lia|lia|exact Sx]). rewrite (ou_write _ _ _ _ _ Ou).
      * specialize (Da 0 ltac:(lia)). rewrite A4 in Da. unfold byte, fld in Da. change (2 ^ (8 * (0 + 0))) with 1 in Da. change (2 ^ (8 * 0)) with 1 in Da. rewrite !Z.div_1_r in Da. exact Da.
      * split; [exact Ss|]. rewrite Ad, E4. repeat split; [exact We|exact Rg|apply S0; exact A4].
    + apply Go; [lia|]. intros x Hx Sx. apply Ne, Ot; [lia|lia|exact Sx].
  - apply Go; [lia|]. intros x Hx Sx. destruct (Nat.eq_dec x (t + 6)) as [->|Nx]; [|apply Ne, Ot; [lia|exact Nx|exact Sx]].
    intros (_ & _ & Rx & Sx0). apply S0 in Sx0. rewrite Ad in Rx. replace (4 * (ea / 4)) with ea in Rx by (pose proof (Z.div_mod ea 4 ltac:(lia)); lia). congruence.
Qed.
End W.

(** ** Along the simulator *)
Section Sims.
Variables (mapped ram : Z -> bool) (phys : Z -> Z) (wait : latency) (s : state) (inp : nat -> input) (m0 : Z -> Z).
Hypothesis (K : ok s inp) (Sl : ram_slave ram phys s inp m0) (An : answers_exactly mapped wait s inp).
Local Notation bus := (fun c => dat_r (inp c)).
Local Notation line := (fun c => irq (inp c)).
Local Notation sim := (io_clocked ram phys wait line bus (boot_arch s) m0).
Variables (reg : Z -> bool) (L : nat) (out : nat -> Z).
Hypotheses (HL : (1 <= L)%nat) (Reg : forall ea, reg ea = true -> ea mod 4 = 0) (Ou : output s inp reg L out).
Lemma driven_stored q : in_step ram phys s inp m0 q -> driven ram phys line bus q = match stored s inp (fst q) (word_at ram phys bus q) with Some (ea, _, d) => Some ((fst q + 6)%nat, ea, d) | None => None end.
Proof.
  destruct q as [t [a m]]. intros (F & M & _). cbn [fst]. set (w := word_at ram phys bus (t, (a, m))) in *.
  destruct (C02_registers_match_reference s inp K t _ F) as (a0 & M0 & Rx & Rp & Ri & _ & Re & _). rewrite M in M0. injection M0 as <-. cbv zeta in *.
  unfold driven, stored. fold w. unfold int_taken, csr_word. cbv zeta. rewrite Ri, Re. destruct (mie a && meie a); cbn [andb].
  - destruct (irq (inp (t + 1)%nat)); [reflexivity|]. cbn [orb]. destruct (decode w) as [i|] eqn:D; [|reflexivity]. pose proof (decode_regs w i D) as Rg.
    destruct i; cbn [is_csr andb]; try reflexivity; [|destruct (irq _); reflexivity]. rewrite !Rx by tauto. destruct (_ =? 0); reflexivity.
  - destruct (decode w) as [i|] eqn:D; [|reflexivity]. pose proof (decode_regs w i D) as Rg. destruct i; try reflexivity. rewrite !Rx by tauto. destruct (_ =? 0); reflexivity.
Qed.
Lemma sim_mono n : (forall j, (j < n)%nat -> reaches ram phys bus mapped (sim j)) -> mapped (pc (fst (snd (sim n))) / 4) = true -> forall j, (j <= n)%nat -> (fst (sim j) <= fst (sim n))%nat.
Proof.
  induction n as [|n IH]; intros R P j Hj; [replace j with O by lia; apply le_n|]. destruct (Nat.eq_dec j (S n)) as [->|Ne]; [apply le_n|].
  assert (Rn : reaches ram phys bus mapped (sim n)) by (apply R; lia).
  destruct (io_sim mapped ram phys wait s inp m0 K Sl An n) as [Is _]; [intros i Hi; apply R; lia|exact (proj1 Rn)|].
  destruct (io_step_sim mapped ram phys wait s inp m0 K Sl An (sim n) Is Rn P) as (_ & (_ & X & _) & _). change (io_clock_step ram phys wait line bus (sim n)) with (sim (S n)) in X.
  specialize (IH ltac:(intros i Hi; apply R; lia) (proj1 Rn) j ltac:(lia)). lia.
Qed.
Lemma wave_sim n : (forall j, (j < n)%nat -> reaches ram phys bus mapped (sim j)) -> mapped (pc (fst (snd (sim n))) / 4) = true ->
  forall c, (c <= fst (sim n) + L)%nat -> out c = wave ram phys line bus sim reg L n c.
Proof.
  induction n as [|n IH]; intros R P c Hc.
  - destruct (io_sim mapped ram phys wait s inp m0 K Sl An 0 R P) as [Is Nf]. destruct (sim 0) as [t [a m]] eqn:E. cbn [fst] in *. destruct Is as (F & _).
    destruct (Nat.lt_ge_cases c L) as [H|H]; [apply (ou_zero _ _ _ _ _ Ou c H)|]. cbn [wave].
    assert (N : forall u w', (u < t)%nat -> ~ fetch_done s inp u w').
    { intros u w' Hu (C1 & U1 & A1 & _). destruct Nf as [_ Cn]. pose proof (fetches_mono s inp (S u) (t - S u)) as Mo. replace (S u + (t - S u))%nat with t in Mo by lia.
      rewrite fetches_S, C1, U1, A1, Cn in Mo. cbn [andb] in Mo. lia. }
    assert (Z0 : forall v, (v <= t)%nat -> out (v + L)%nat = out (L - 1)%nat).
    { induction v as [|v IHv]; intros Hv.
      - rewrite (ou_keep _ _ _ _ _ Ou); [f_equal; lia|]. intros ((C & _) & We & _). rewrite (starts_first s inp K t _ F N 0%nat ltac:(lia) C) in We. discriminate.
      - rewrite (ou_keep _ _ _ _ _ Ou); [replace (S v + L - 1)%nat with (v + L)%nat by lia; apply IHv; lia|]. intros ((C & _) & We & _). rewrite (starts_first s inp K t _ F N (S v) Hv C) in We. discriminate. }
    replace c with (c - L + L)%nat by lia. rewrite Z0 by lia. apply (ou_zero _ _ _ _ _ Ou). lia.
  - assert (Rn : reaches ram phys bus mapped (sim n)) by (apply R; lia).
    destruct (io_sim mapped ram phys wait s inp m0 K Sl An n) as [Is Nf]; [intros j Hj; apply R; lia|exact (proj1 Rn)|].
    assert (IH' : forall c, (c <= fst (sim n) + L)%nat -> out c = wave ram phys line bus sim reg L n c) by (apply IH; [intros j Hj; apply R; lia|exact (proj1 Rn)]).
    destruct (io_step_sim mapped ram phys wait s inp m0 K Sl An (sim n) Is Rn P) as (_ & X & _). change (io_clock_step ram phys wait line bus (sim n)) with (sim (S n)) in X.
    pose proof (out_step s inp K reg L out HL Reg Ou _ _ _ X) as O. cbn [wave]. rewrite (driven_stored (sim n) Is).
    destruct (Nat.lt_ge_cases c (fst (sim n) + L)) as [H|H].
    + rewrite (IH' c ltac:(lia)). destruct (stored s inp (fst (sim n)) (word_at ram phys bus (sim n))) as [[[ea k] d]|]; [|reflexivity].
      destruct (reg ea); [|reflexivity]. destruct (Nat.leb_spec (fst (sim n) + 6 + L) c); [lia|reflexivity].
    + replace c with (c - L + L)%nat at 1 by lia. rewrite (O (c - L)%nat) by lia. rewrite (IH' (fst (sim n) + L)%nat) by lia.
      assert (Fut : forall j c', (j <= n)%nat -> (fst (sim n) + L <= c')%nat -> wave ram phys line bus sim reg L j c' = wave ram phys line bus sim reg L j (fst (sim n) + L)).
      { induction j as [|j IHj]; intros c' Hj Hc'; [reflexivity|]. cbn [wave].
        assert (Rj : reaches ram phys bus mapped (sim j)) by (apply R; lia).
        assert (Isj : in_step ram phys s inp m0 (sim j)) by (apply (io_sim mapped ram phys wait s inp m0 K Sl An j); [intros i Hi; apply R; lia|exact (proj1 Rj)]).
        assert (Pj : mapped (pc (fst (snd (sim (S j)))) / 4) = true) by exact (proj1 (R (S j) ltac:(lia))).
        destruct (io_step_sim mapped ram phys wait s inp m0 K Sl An (sim j) Isj Rj Pj) as (_ & Xj & _). change (io_clock_step ram phys wait line bus (sim j)) with (sim (S j)) in Xj.
        pose proof (store_starts s inp K _ _ _ Xj) as Stj. rewrite (driven_stored (sim j) Isj). rewrite (IHj c') by lia. destruct (stored s inp (fst (sim j)) (word_at ram phys bus (sim j))) as [[[ea k] d]|]; [|reflexivity].
        destruct Stj as (Ltj & _). pose proof (sim_mono n ltac:(intros i Hi; apply R; lia) (proj1 Rn) (S j) ltac:(lia)) as Mono.
        destruct (reg ea); [|reflexivity]. cbn [andb].
        destruct (Nat.leb_spec (fst (sim j) + 6 + L) c'); [|exfalso; lia]. destruct (Nat.leb_spec (fst (sim j) + 6 + L) (fst (sim n) + L)); [reflexivity|exfalso; lia]. }
      rewrite (Fut n c) by lia. destruct (stored s inp (fst (sim n)) (word_at ram phys bus (sim n))) as [[[ea k] d]|]; [|reflexivity].
      destruct (reg ea); [|reflexivity]. cbn [andb]. destruct (Nat.leb_spec (fst (sim n) + 6) (c - L)); destruct (Nat.leb_spec (fst (sim n) + 6 + L) c); try lia; reflexivity.
Qed.
End Sims.

(** ** Programs that use only the RAM, output registers and an input register

    Nothing is left open for them: the simulator needs the program and the input pins. *)
Section Closed.
Variables (mapped ram : Z -> bool) (phys : Z -> Z) (wait : latency) (s : state) (inp : nat -> input) (m0 : Z -> Z).
Hypothesis (K : ok s inp) (Sl : ram_slave ram phys s inp m0) (An : answers_exactly mapped wait s inp).
Variables (gin : Z -> bool) (N : nat) (pins : nat -> Z).
Local Notation bus := (fun c => dat_r (inp c)).
Local Notation line := (fun c => irq (inp c)).
Local Notation sim := (io_clocked ram phys wait line bus (boot_arch s) m0).
Local Notation nobody := (fun _ : nat => false).
Local Notation late := (fun c : nat => pins (c - N)%nat).
Local Notation csim := (io_clocked ram phys wait nobody late (boot_arch s) m0).
(** A read of the input register that appears in cycle [v] is answered after [N] cycles, with the pins as they were in cycle [v]. *)
Hypotheses (Gin : forall ea, gin ea = true -> ea mod 4 = 0) (Nw : forall t ea, gin ea = true -> wait t (ea / 4) false = N)
  (In : forall v, let b := run s inp v in request_starts s inp v -> o_we b = false -> gin (4 * o_adr b) = true -> Z.testbit (o_sel b) 0 = true -> dat_r (inp (v + N)%nat) = pins v).
Local Notation cstep := (io_clock_step ram phys wait nobody late).
Local Notation rstep := (io_clock_step ram phys wait line bus).
Lemma settled_reaches q : settled mapped ram gin phys q -> reaches ram phys bus mapped q.
Proof.
  destruct q as [t [a m]]. unfold settled, reaches. cbn [fst snd]. unfold word_at. intros (_ & -> & Mp & S). split; [exact Mp|].
  destruct (decode _) as [i|]; [|exact I]. destruct i; try exact I; [apply S|exact S].
Qed.
Lemma csr_no_ip a i i' n : n <> 0x344 -> csr_read a i n = csr_read a i' n.
Proof. intros H. unfold csr_read. destruct n as [|n|n]; try reflexivity. do 11 (destruct n as [n|n|]; try reflexivity; try congruence). Qed.
Lemma settled_next q : settled mapped ram gin phys q -> next_at ram phys wait line bus q = next_at ram phys wait nobody late q.
Proof. destruct q as [t [a m]]. unfold settled, next_at, word_at. intros (-> & -> & _). reflexivity. Qed.
Lemma settled_driven q : settled mapped ram gin phys q -> driven ram phys line bus q = driven ram phys nobody late q.
Proof. destruct q as [t [a m]]. unfold settled, driven, word_at. intros (-> & -> & _). reflexivity. Qed.
Lemma io_step_quiet a m e e' : int_enabled a = false -> ram (pc a / 4) = true ->
  match decode (peek phys m (pc a) 4) with
  | Some (Load sz _ _ rs1 off) => let ea := (rd_x a rs1 + off) mod 2 ^ 32 in ram (ea / 4) = true \/ (aligned sz ea = true -> e_data e = e_data e')
  | Some (Csr _ _ _ n) => n <> 0x344
  | _ => True
  end -> io_step ram phys (a, m) e = io_step ram phys (a, m) e'.
Proof.
  intros E R H. unfold io_step. rewrite E, R. cbn [andb]. cbv zeta in *. destruct (decode _) as [i|]; [|reflexivity]. rewrite andb_false_r.
  destruct i; try reflexivity.
  - destruct (aligned _ _); [|reflexivity]. destruct H as [-> | H]; [reflexivity|]. rewrite H by reflexivity. reflexivity.
  - cbn [exec]. unfold exec_csr. rewrite (csr_no_ip a (e_int e 3%nat) (e_int e' 3%nat)) by exact H. reflexivity.
Qed.
Lemma io_step_pc a m e e' : int_enabled a = false -> ram (pc a / 4) = true ->
  match decode (peek phys m (pc a) 4) with Some (Csr _ _ _ n) => n <> 0x344 | _ => True end ->
  pc (fst (io_step ram phys (a, m) e)) = pc (fst (io_step ram phys (a, m) e')).
Proof.
  intros E R H. unfold io_step. rewrite E, R. cbn [andb]. cbv zeta in *. destruct (decode _) as [i|]; [|reflexivity]. rewrite andb_false_r.
  destruct i; try reflexivity.
  - destruct (aligned _ _); [|reflexivity]. cbn [fst]. unfold advance, wr_x. destruct (rd =? 0); reflexivity.
  - cbn [exec]. unfold exec_csr. rewrite (csr_no_ip a (e_int e 3%nat) (e_int e' 3%nat)) by exact H. reflexivity.
Qed.
Lemma closed_step q : in_step ram phys s inp m0 q -> settled mapped ram gin phys q -> mapped (pc (fst (snd (cstep q))) / 4) = true -> rstep q = cstep q.
Proof.
  intros Is St Mp. pose proof (settled_reaches q St) as Re. pose proof (settled_next q St) as Nx. destruct q as [t [a m]].
  assert (E : int_enabled a = false) by apply St. assert (R : ram (pc a / 4) = true) by apply St.
  assert (Mr : mapped (pc (fst (snd (rstep (t, (a, m))))) / 4) = true).
  { revert Mp. unfold io_clock_step. cbn [snd]. intros Mp. rewrite <- Mp. do 2 f_equal. apply io_step_pc; [exact E|exact R|]. destruct St as (_ & _ & _ & St). destruct (decode _) as [i|]; [|exact I]. destruct i; try exact I. exact St. }
  destruct (io_step_sim mapped ram phys wait s inp m0 K Sl An (t, (a, m)) Is Re Mr) as (_ & X & _).
  unfold io_clock_step. rewrite Nx. cbv zeta. set (u := next_at ram phys wait nobody late (t, (a, m))) in *.
  assert (Es : io_step ram phys (a, m) {| e_int := fun i => irq (inp (t + i)%nat); e_code := dat_r (inp t); e_data := dat_r (inp (u - 2)%nat) |}
             = io_step ram phys (a, m) {| e_int := fun _ => false; e_code := pins (t - N)%nat; e_data := pins (u - 2 - N)%nat |}); [|rewrite Es; reflexivity].
  apply io_step_quiet; [exact E|exact R|]. destruct St as (_ & _ & _ & St). destruct (decode _) as [i|] eqn:D; [|exact I]. destruct i; try exact I; [|exact St].
  cbv zeta in *. destruct St as [_ [St|G]]; [left; exact St|right]. intros Al. cbn [e_data]. cbn [fst snd] in X.
  destruct Is as (F & M & _). destruct (C02_registers_match_reference s inp K t _ F) as (a0 & M0 & Rx & Rp & Ri & _ & Rm & _). rewrite M in M0. injection M0 as <-. cbv zeta in *.
  assert (W : word_at ram phys bus (t, (a, m)) = peek phys m (pc a) 4) by (unfold word_at; rewrite R; reflexivity). rewrite W in X.
  assert (Ti : int_taken s inp t (peek phys m (pc a) 4) = false) by (unfold int_taken; cbv zeta; rewrite Ri, Rm; unfold int_enabled in E; rewrite E; reflexivity).
  pose proof (decode_regs _ _ D) as (_ & Rg).
  pose proof (load_starts s inp K t _ _ _ _ _ _ _ X Ti D) as Ls. cbv zeta in Ls. rewrite Rx in Ls by exact Rg. destruct (Ls (proj1 (Z.eqb_eq _ _) Al)) as (_ & _ & Ss & We & Ad & Se). clear Ls.
  set (ea := (rd_x a rs1 + off) mod 2 ^ 32) in *. pose proof (Gin ea G) as A4. assert (E4 : 4 * (ea / 4) = ea) by (pose proof (Z.div_mod ea 4 ltac:(lia)); lia).
  assert (Eu : (u - 2)%nat = (t + 5 + N)%nat).
  { unfold u, next_at. unfold int_enabled in E. rewrite E. cbn [andb]. unfold word_at. rewrite R. unfold until, raise_at. rewrite D. fold ea.
    cbn [is_csr andb]. unfold aligned in Al. rewrite Al. cbn [negb]. rewrite (Nw _ ea G). lia. }
  rewrite Eu. replace (t + 5 + N - N)%nat with (t + 5)%nat by lia. apply In; [exact Ss|exact We|rewrite Ad, E4; exact G|].
  rewrite Se by lia. unfold addressed. rewrite A4. destruct sz; reflexivity.
Qed.
Lemma closed_sim n : (forall j, (j < n)%nat -> settled mapped ram gin phys (csim j)) -> mapped (pc (fst (snd (csim n))) / 4) = true ->
  in_step ram phys s inp m0 (csim n) /\ forall j, (j <= n)%nat -> sim j = csim j.
Proof.
  induction n as [|n IH]; intros St Mp.
  - split; [apply (io_sim mapped ram phys wait s inp m0 K Sl An 0); [intros j Hj; lia|exact Mp]|]. intros j Hj. replace j with O by lia. reflexivity.
  - pose proof (St n ltac:(lia)) as Sn. assert (Mn : mapped (pc (fst (snd (csim n))) / 4) = true) by (destruct (csim n) as [t [a m]]; apply Sn).
    destruct IH as [Is Eq]; [intros j Hj; apply St; lia|exact Mn|].
    change (csim (S n)) with (cstep (csim n)) in Mp |- *.
    assert (Es : sim (S n) = cstep (csim n)) by (rewrite <- (closed_step (csim n) Is Sn Mp), <- (Eq n (le_n n)); reflexivity).
    split.
    + rewrite <- (closed_step (csim n) Is Sn Mp). apply (io_step_sim mapped ram phys wait s inp m0 K Sl An (csim n) Is (settled_reaches _ Sn)). rewrite (closed_step (csim n) Is Sn Mp). exact Mp.
    + intros j Hj. destruct (Nat.eq_dec j (S n)) as [->|Ne]; [exact Es|apply Eq; lia].
Qed.
Lemma wave_ext reg L n c : (forall j, (j < n)%nat -> settled mapped ram gin phys (csim j)) -> (forall j, (j < n)%nat -> sim j = csim j) ->
  wave ram phys line bus sim reg L n c = wave ram phys nobody late csim reg L n c.
Proof.
  intros St Eq. induction n as [|n IH]; [reflexivity|]. cbn [wave]. rewrite IH by (intros j Hj; first [apply St|apply Eq]; lia).
  rewrite Eq by lia. rewrite settled_driven by (apply St; lia). reflexivity.
Qed.
Theorem closed_program : forall n, (forall j, (j < n)%nat -> settled mapped ram gin phys (csim j)) ->
  let '(t, (a, m)) := csim n in mapped (pc a / 4) = true ->
  nth_fetch s inp n t /\ in_step ram phys s inp m0 (csim n) /\
  forall reg L out, (1 <= L)%nat -> (forall ea, reg ea = true -> ea mod 4 = 0) -> output s inp reg L out ->
  forall c, (c <= t + L)%nat -> out c = wave ram phys nobody late csim reg L n c.
Proof.
  intros n St. destruct (csim n) as [t [a m]] eqn:E. intros Mp. destruct (closed_sim n St) as [Is Eq]; [rewrite E; exact Mp|].
  assert (Re : forall j, (j < n)%nat -> reaches ram phys bus mapped (sim j)) by (intros j Hj; rewrite Eq by lia; apply settled_reaches, St, Hj).
  assert (Mr : mapped (pc (fst (snd (sim n))) / 4) = true) by (rewrite Eq, E by lia; exact Mp).
  destruct (io_sim mapped ram phys wait s inp m0 K Sl An n Re Mr) as [_ Nf]. rewrite Eq, E in Nf by lia. rewrite E in Is. split; [exact Nf|]. split; [exact Is|].
  intros reg L out HL Rg Ou c Hc. rewrite (wave_sim mapped ram phys wait s inp m0 K Sl An reg L out HL Rg Ou n Re Mr) by (rewrite Eq, E by lia; exact Hc).
  apply wave_ext; [exact St|]. intros j Hj. apply Eq. lia.
Qed.
End Closed.

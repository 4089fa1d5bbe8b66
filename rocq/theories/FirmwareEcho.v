(** * The example firmware's rule prompt cannot hang it: C67

    [read_num] echoes what is typed inside a critical section (attosoc.rs:217-226), where the transmit
    interrupt cannot make room in the queue: if the queue were full there, [write_char] would try for
    ever.  It never is, because of the pause before the prompt. *)
From Coq Require Import ZArith Lia Bool List.
From Verif Require Import Bits BitLemmas SocMem Uart Periph SocIo CsrBus Firmware FirmwareSys Automaton.
Import ListNotations.
Open Scope Z_scope.

(** ** Model: the Wishbone system with its timer *)
(** The timer at 0x4000_0000 (attosoc.rs:87, 109-111). *)
Definition timer_bus (p : option (op * nat)) : wbus := match p with Some (RdTimer, _) => byte_req 0 false 0 | _ => no_req end.
(** The environment of the driver and serial port, the timer being part of the system
    (attosoc.py:804-808). *)
Definition with_timer (p : option (op * nat)) (m : timer) (e : env) : env :=
  {| e_move := e_move e; e_rx := e_rx e; e_timer := tm_irq m; e_ack := match p with Some (RdTimer, _) => tm_ack m | _ => e_ack e end; e_pins := e_pins e |}.
(** Driver, serial port and timer, cycle after cycle from reset (attosoc.rs:84-88, attosoc.py:804-808). *)
Fixpoint wbt_sys (D : Z) (todo : nat -> Z) (e : nat -> env) (t : nat) : (drv * serial) * timer :=
  match t with
  | O => ((drv0, serial_init), timer_init)
  | S u => let x := wbt_sys D todo e u in let p := pc_op todo (fst (fst x)) in
      (wb_step D todo (fst x) (with_timer p (snd x) (e u)), timer_step (snd x) (timer_bus p))
  end.
(** The handler finds the timer's interrupt pending and increments COUNT (attosoc.rs:141-144). *)
Definition wb_counts (todo : nat -> Z) (x : (drv * serial) * timer) : bool :=
  match pc_op todo (fst (fst x)) with Some (RdTimer, _) => tm_ack (snd x) && Z.testbit (tm_dat (snd x)) 0 | _ => false end.
(** The same through the CSR port (attosoc.rs:141-144). *)
Definition csr_counts (todo : nat -> Z) (x : drv * csrp) : bool :=
  match pc_op todo (fst x) with Some (RdTimer, _) => cp_ack (snd x) && Z.testbit (cp_dat (snd x)) 0 | _ => false end.
(** COUNT, an 8-bit counter, in cycle [Q] when it was set to 0 in cycle [P] and read in cycle [Q]
    (attosoc.rs:30, 143, 315, 322). *)
Definition hits (c : nat -> bool) (P Q : nat) : nat := length (filter c (seq P (Q - P))).
(** COUNT itself (attosoc.rs:30, 143, 315, 322). *)
Definition COUNT (c : nat -> bool) (P Q : nat) : Z := Z.of_nat (hits c P Q) mod 256.

(** ** Counting *)
Lemma hits_split c P R Q : (P <= R <= Q)%nat -> hits c P Q = (hits c P R + hits c R Q)%nat.
Proof.
  intros H. unfold hits. replace (Q - P)%nat with ((R - P) + (Q - R))%nat by lia. rewrite seq_app, filter_app, app_length. replace (P + (R - P))%nat with R by lia. reflexivity.
Qed.
Lemma hits_S c P Q : (P <= Q)%nat -> hits c P (S Q) = (hits c P Q + if c Q then 1 else 0)%nat.
Proof. intros H. rewrite (hits_split c P Q (S Q)) by lia. unfold hits at 2. replace (S Q - Q)%nat with 1%nat by lia. cbn [seq filter]. destruct (c Q); reflexivity. Qed.
Lemma hits_none c P Q : (forall u, (P <= u < Q)%nat -> c u = false) -> hits c P Q = 0%nat.
Proof.
  intros H. destruct (Nat.le_gt_cases Q P) as [L|L]; [unfold hits; replace (Q - P)%nat with 0%nat by lia; reflexivity|].
  replace Q with (P + (Q - P))%nat by lia. assert (G : (P + (Q - P) <= Q)%nat) by lia. revert G. generalize (Q - P)%nat as m. induction m as [|m IH]; intros G.
  - rewrite Nat.add_0_r. unfold hits. rewrite Nat.sub_diag. reflexivity.
  - rewrite Nat.add_succ_r, hits_S by lia. rewrite IH, H by lia. reflexivity.
Qed.
Lemma first_rise (f : nat -> bool) m n : (m <= n)%nat -> f m = false -> f n = true -> exists x, (m < S x <= n)%nat /\ f x = false /\ f (S x) = true.
Proof.
  intros L Fm. induction L as [|n L IH]; intros Fn; [congruence|]. destruct (f n) eqn:E; [destruct (IH eq_refl) as (x & H1 & H2); exists x; split; [lia|exact H2]|]. exists n. split; [lia|]. split; assumption.
Qed.

Section Generic.
Variables (todo : nat -> Z) (o : nat -> move) (tr : nat -> drv).
Variables (idle rdy txi rzt full rxi rzr ak irqs : nat -> bool) (txd rdata dat : nat -> Z).
Hypothesis Po : port todo o tr idle rdy txi rzt full rxi rzr ak irqs txd rdata dat.
(** A frame takes less than a timer period. *)
Hypothesis Done : forall t, idle t = false -> exists u, (t <= u <= t + Z.to_nat 16384)%nat /\ idle u = true.
Variables (tirq hit : nat -> bool).
Hypothesis Tick : forall t, tirq t = false -> tirq (S t) = true -> Z.of_nat (S t) mod 16384 = 0.
Hypothesis Clear : forall t, begins todo tr t RdTimer -> tirq t = true -> tirq (S t) = false.
Hypothesis Hit : forall t, hit t = true -> exists k, op_at todo tr t = Some (RdTimer, k) /\ ak t = true /\ tirq (t - k)%nat = true.
Notation acc := (accepted idle rdy txd).
Notation opa := (op_at todo tr).
Notation main t := (d_pc (tr t) = Main).

Lemma step t : tr (S t) = dstep todo (tr t) (o t) (irqs t) (ak t) (dat t).
Proof. apply (p_step _ _ _ _ _ _ _ _ _ _ _ _ _ _ _ Po). Qed.
Lemma op_back t w k : opa t = Some (w, k) -> forall i, (i <= k)%nat -> (i <= t)%nat /\ opa (t - i)%nat = Some (w, (k - i)%nat) /\ ((1 <= i)%nat -> ak (t - i)%nat = false).
Proof.
  intros E i. revert t k E. induction i as [|i IH]; intros t k E Hi; [rewrite !Nat.sub_0_r; split; [lia|]; split; [exact E|lia]|].
  destruct t as [|t]. { unfold op_at in E. rewrite (p_start _ _ _ _ _ _ _ _ _ _ _ _ _ _ _ Po) in E. discriminate E. }
  destruct k as [|k]; [lia|]. unfold op_at in E. rewrite step in E. apply op_prev in E. destruct E as [E A].
  destruct (IH t k E ltac:(lia)) as (I1 & I2 & I3). replace (S t - S i)%nat with (t - i)%nat by lia. replace (S k - S i)%nat with (k - i)%nat by lia.
  split; [lia|]. split; [exact I2|]. intros _. destruct i as [|i]; [rewrite Nat.sub_0_r; exact A|apply I3; lia].
Qed.
Lemma timer_pc t k : opa t = Some (RdTimer, k) -> d_pc (tr t) = HTimer k.
Proof. unfold op_at, pc_op. destruct (d_pc (tr t)); cbn [op_of]; congruence. Qed.
Lemma enters t : d_pc (tr (S t)) = HTimer 0 -> d_pc (tr t) = Boot \/ (main t /\ o t = Interrupt /\ irqs t = true).
Proof.
  rewrite step. unfold dstep. destruct (d_pc (tr t)) eqn:E; try (left; reflexivity);
    try destruct (o t); try destruct (irqs t); try destruct (ak t); try destruct (d_busy (tr t)); try destruct (Nat.ltb _ _); try destruct (Z.testbit v 1); try destruct (Z.testbit v 0); try destruct (d_queue (tr t)); cbn [at_ d_pc]; rewrite ?E; try discriminate; auto.
Qed.
Lemma no_boot t u : main t -> (t <= u)%nat -> d_pc (tr u) <> Boot.
Proof.
  intros M L. induction L as [|u L IH]; [congruence|]. rewrite step. unfold dstep. destruct (d_pc (tr u)) eqn:E; try contradiction;
    try destruct (o u); try destruct (irqs u); try destruct (ak u); try destruct (d_busy (tr u)); try destruct (Nat.ltb _ _); try destruct (Z.testbit v 1); try destruct (Z.testbit v 0); try destruct (d_queue (tr u)); cbn [at_ d_pc]; rewrite ?E; discriminate.
Qed.
Lemma hit_first P t : main P -> (P <= t)%nat -> hit t = true ->
  exists a, (P <= a < t)%nat /\ main a /\ o a = Interrupt /\ irqs a = true /\ begins todo tr (S a) RdTimer /\ tirq (S a) = true /\ (forall u, (a <= u < t)%nat -> hit u = false).
Proof.
  intros M L H. destruct (Hit t H) as (k & E & A & T). destruct (op_back t _ k E k ltac:(lia)) as (Lk & E0 & _). rewrite Nat.sub_diag in E0.
  assert (Lb : (P < t - k)%nat).
  { destruct (Nat.le_gt_cases P (t - k)) as [L1|L1].
    - destruct (Nat.eq_dec P (t - k)) as [->|]; [|lia]. rewrite (timer_pc _ _ E0) in M. discriminate M.
    - destruct (op_back t _ k E (t - P) ltac:(lia)) as (_ & Ei & _). replace (t - (t - P))%nat with P in Ei by lia. rewrite (timer_pc _ _ Ei) in M. discriminate M. }
  remember (t - k)%nat as b eqn:Eb. destruct b as [|a]; [lia|]. exists a. pose proof (timer_pc _ _ E0) as Pc.
  destruct (enters a Pc) as [B|(Ma & Oa & Ia)]; [destruct (no_boot P a M ltac:(lia) B)|].
  split; [lia|]. split; [exact Ma|]. split; [exact Oa|]. split; [exact Ia|]. split; [exact E0|]. split; [exact T|].
  intros u Hu. destruct (hit u) eqn:Hu'; [|reflexivity]. exfalso. destruct (Hit u Hu') as (k' & E' & A' & _).
  destruct (Nat.eq_dec u a) as [->|N]; [rewrite (timer_pc _ _ E') in Ma; discriminate Ma|].
  destruct (op_back t _ k E (t - u) ltac:(lia)) as (_ & _ & A2). specialize (A2 ltac:(lia)). replace (t - (t - u))%nat with u in A2 by lia. congruence.
Qed.
Lemma last_hit P Q j : main P -> (P <= Q)%nat -> hits hit P Q = S j ->
  exists a, (P <= a)%nat /\ (S a < Q)%nat /\ main a /\ o a = Interrupt /\ irqs a = true /\ begins todo tr (S a) RdTimer /\ tirq (S a) = true /\ hits hit P a = j.
Proof.
  intros M L. induction L as [|q L IH]; intros E.
  - unfold hits in E. rewrite Nat.sub_diag in E. discriminate E.
  - rewrite hits_S in E by exact L. destruct (hit q) eqn:Hq.
    + destruct (hit_first P q M L Hq) as (a & La & Ma & Oa & Ia & Ba & Ta & Na). exists a. split; [lia|]. split; [lia|]. do 5 (split; [assumption|]).
      rewrite (hits_split hit P a q) in E by lia. rewrite (hits_none hit a q Na) in E. lia.
    + destruct IH as (a & I1 & I2 & I3); [lia|]. exists a. split; [exact I1|]. split; [lia|exact I3].
Qed.
Lemma bl t : main t -> (length (acc t) + length (d_queue (tr t)) = d_n (tr t))%nat.
Proof. apply (backlog _ _ _ _ _ _ _ _ _ _ _ _ _ _ _ Po). Qed.
Lemma al t u : (t <= u)%nat -> (length (acc t) <= length (acc u))%nat. Proof. apply acc_le. Qed.
Lemma nl t u : (t <= u)%nat -> (d_n (tr t) <= d_n (tr u))%nat. Proof. apply (n_le _ _ _ _ _ _ _ _ _ _ _ _ _ _ _ Po). Qed.

(** Three counted interrupts: the queue is empty or shorter. *)
Lemma three P w : main P -> main w -> (P <= w)%nat -> d_n (tr w) = d_n (tr P) -> hits hit P w = 3%nat ->
  d_queue (tr P) = [] \/ (length (acc P) < length (acc w))%nat.
Proof.
  intros MP Mw L En E.
  destruct (last_hit P w 2 MP L E) as (a3 & L3 & L3' & M3 & O3 & I3 & B3 & T3 & E3).
  destruct (last_hit P a3 1 MP L3 E3) as (a2 & L2 & L2' & M2 & O2 & I2 & B2 & T2 & E2).
  destruct (last_hit P a2 0 MP L2 E2) as (a1 & L1 & L1' & M1 & O1 & I1 & B1 & T1 & E1).
  destruct (first_rise tirq (S (S a1)) (S a2) ltac:(lia) (Clear _ B1 T1) T2) as (x2 & Hx2 & F2 & R2).
  destruct (first_rise tirq (S (S a2)) (S a3) ltac:(lia) (Clear _ B2 T2) T3) as (x3 & Hx3 & F3 & R3).
  pose proof (Tick x2 F2 R2) as D2. pose proof (Tick x3 F3 R3) as D3.
  assert (Far : (P + Z.to_nat 16384 + 2 <= a3)%nat).
  { assert (Z.of_nat (S x2) + 16384 <= Z.of_nat (S x3)).
    { apply Z.mod_divide in D2; [|lia]. apply Z.mod_divide in D3; [|lia]. destruct D2 as [k2 D2], D3 as [k3 D3]. assert (k2 < k3) by lia. lia. }
    lia. }
  destruct (d_queue (tr P)) as [|b qs] eqn:Qp; [left; reflexivity|right].
  assert (exists u1, (P <= u1 <= P + Z.to_nat 16384)%nat /\ idle u1 = true) as (u1 & Lu & Iu1).
  { destruct (idle P) eqn:Ip; [exists P; split; [lia|exact Ip]|apply (Done P Ip)]. }
  pose proof (al P w L) as Aw. destruct (Nat.eq_dec (length (acc w)) (length (acc P))) as [Ea|Na]; [exfalso|lia].
  assert (Ac : forall v, (P <= v <= w)%nat -> length (acc v) = length (acc P)) by (intros v Hv; pose proof (al P v ltac:(lia)); pose proof (al v w ltac:(lia)); lia).
  pose proof (idle_same _ _ _ _ _ _ _ _ _ _ _ _ _ _ _ Po u1 a3 ltac:(lia) Iu1 ltac:(rewrite (Ac a3), (Ac u1) by lia; reflexivity)) as Ia.
  pose proof (idle_same _ _ _ _ _ _ _ _ _ _ _ _ _ _ _ Po u1 (a3 - 1) ltac:(lia) Iu1 ltac:(rewrite (Ac (a3 - 1)%nat), (Ac u1) by lia; reflexivity)) as Ib.
  assert (Qa : d_queue (tr a3) <> []).
  { pose proof (bl P MP) as Bp. pose proof (bl a3 M3) as Ba. pose proof (nl P a3 ltac:(lia)). pose proof (nl a3 w ltac:(lia)). rewrite Ac in Ba by lia. rewrite Qp in Bp. cbn [length] in Bp. intros Z0. rewrite Z0 in Ba. cbn [length] in Ba. lia. }
  destruct (at_main _ _ _ _ _ _ _ _ _ _ _ _ _ _ _ Po a3 M3) as (_ & Pn & _).
  assert (Zu : rzt a3 = false). { replace a3 with (S (a3 - 1)) by lia. rewrite (p_rzt _ _ _ _ _ _ _ _ _ _ _ _ _ _ _ Po). replace (S (a3 - 1)) with a3 by lia. rewrite Ib, andb_false_r. reflexivity. }
  assert (Xu : txi a3 = true) by (destruct (Pn Qa) as [?|[?|?]]; congruence).
  assert (H : handling tr txi (S a3)).
  { pose proof (step a3) as St. unfold dstep in St. rewrite M3, O3, I3 in St. unfold handling. rewrite St. cbn [at_ d_pc d_queue]. split; [|exact Qa].
    rewrite (txi_keeps _ _ _ _ _ _ _ _ _ _ _ _ _ _ _ Po); [rewrite Xu; apply orb_true_r|]. unfold rd_irq, op_at, pc_op. rewrite M3. reflexivity. }
  pose proof (handling_ends _ _ _ _ _ _ _ _ _ _ _ _ _ _ _ Po (S a3) w ltac:(lia) H Mw) as G. pose proof (al a3 (S a3) ltac:(lia)). rewrite (Ac (S a3)) in G by lia. lia.
Qed.
Lemma drains k : forall P Q, main P -> main Q -> (P <= Q)%nat -> d_n (tr Q) = d_n (tr P) -> (3 * k <= hits hit P Q)%nat ->
  d_queue (tr Q) = [] \/ (length (d_queue (tr Q)) + k <= length (d_queue (tr P)))%nat.
Proof.
  induction k as [|k IH]; intros P Q MP MQ L En H.
  - right. pose proof (bl P MP). pose proof (bl Q MQ). pose proof (al P Q L). lia.
  - destruct (hits hit P Q) as [|[|[|j]]] eqn:E; try lia.
    destruct (last_hit P Q _ MP L E) as (a3 & L3 & L3' & M3 & _ & _ & _ & _ & E3).
    destruct (last_hit P a3 _ MP L3 E3) as (a2 & L2 & L2' & M2 & _ & _ & _ & _ & E2).
    destruct (last_hit P a2 _ MP L2 E2) as (a1 & L1 & L1' & M1 & _ & _ & _ & _ & E1).
    pose proof (nl P a1 L1) as N1. pose proof (nl a1 Q ltac:(lia)) as N2.
    pose proof (bl a1 M1) as B1. pose proof (bl Q MQ) as BQ. pose proof (bl P MP) as BP. pose proof (al P a1 L1) as A1. pose proof (al a1 Q ltac:(lia)) as A2.
    assert (E31 : hits hit a1 Q = 3%nat) by (rewrite (hits_split hit P a1 Q) in E by lia; lia).
    destruct (three a1 Q M1 MQ ltac:(lia) ltac:(lia) E31) as [Q0|G].
    + left. rewrite Q0 in B1. cbn [length] in B1. destruct (d_queue (tr Q)); [reflexivity|]. cbn [length] in BQ. lia.
    + destruct (IH P a1 MP M1 L1 ltac:(lia) ltac:(lia)) as [Q0|G'].
      * left. rewrite Q0 in B1. cbn [length] in B1. destruct (d_queue (tr Q)); [reflexivity|]. cbn [length] in BQ. lia.
      * right. lia.
Qed.
Lemma queue_step t : (length (d_queue (tr (S t))) + d_n (tr t) <= length (d_queue (tr t)) + d_n (tr (S t)))%nat /\ (length (d_queue (tr t)) <= 63 -> length (d_queue (tr (S t))) <= 63)%nat.
Proof.
  rewrite step. unfold dstep.
  destruct (d_pc (tr t)) eqn:E; try destruct (o t); try destruct (irqs t); try destruct (ak t); try destruct (d_busy (tr t)); try destruct (Nat.ltb_spec (length (d_queue (tr t))) 63); try destruct (Z.testbit v 1); try destruct (Z.testbit v 0); try destruct (d_queue (tr t)) eqn:Eq;
    cbn [at_ d_queue d_n tl length] in *; rewrite ?Eq, ?app_length; cbn [length] in *; split; lia.
Qed.
Lemma queue_cap t : (length (d_queue (tr t)) <= 63)%nat.
Proof. induction t as [|t IH]; [rewrite (p_start _ _ _ _ _ _ _ _ _ _ _ _ _ _ _ Po); cbn; lia|]. apply (proj2 (queue_step t)). exact IH. Qed.
Lemma queue_later Q u : (Q <= u)%nat -> (length (d_queue (tr u)) + d_n (tr Q) <= length (d_queue (tr Q)) + d_n (tr u))%nat.
Proof. intros L. induction L as [|u L IH]; [lia|]. pose proof (proj1 (queue_step u)). lia. Qed.
Lemma after_pause P Q : main P -> main Q -> (P <= Q)%nat -> d_n (tr Q) = d_n (tr P) -> 144 <= COUNT hit P Q ->
  (length (d_queue (tr Q)) <= 15)%nat /\ forall u, (Q <= u)%nat -> (d_n (tr u) < d_n (tr Q) + 48)%nat -> (length (d_queue (tr u)) < 63)%nat.
Proof.
  intros MP MQ L En H. assert (Hh : (3 * 48 <= hits hit P Q)%nat). { unfold COUNT in H. pose proof (Z.mod_le (Z.of_nat (hits hit P Q)) 256 ltac:(lia) ltac:(lia)). lia. }
  assert (G : (length (d_queue (tr Q)) <= 15)%nat). { destruct (drains 48 P Q MP MQ L En Hh) as [->|G]; [cbn; lia|]. pose proof (queue_cap P). lia. }
  split; [exact G|]. intros u Hu Hn. pose proof (queue_later Q u Hu). lia.
Qed.
End Generic.

(** A frame takes ten bit times. *)
Lemma tx_done D rdy data : 1 <= D <= 1638 -> (forall u, 0 <= data u < 256) -> let st := tx_run D 8 (tx_init 8) rdy data in
  forall t, tx_ack (st t) = false -> exists u, (t <= u <= t + Z.to_nat 16384)%nat /\ tx_ack (st u) = true.
Proof.
  intros HD Hd st. assert (G : forall m t, tx_ack (st t) = false -> (tx_count (st t) - 1) * D + tx_phase (st t) < Z.of_nat m -> exists u, (t <= u <= t + m)%nat /\ tx_ack (st u) = true).
  { induction m as [|m IH]; intros t A L.
    - pose proof (tx_ok_run D 8 ltac:(lia) ltac:(lia) rdy data t Hd) as T; fold st in T; destruct T as [[C _]|(F & k & _ & Hk & _ & C & Hp)]; [unfold tx_ack in A; rewrite C in A; discriminate|]. nia.
    - destruct (tx_ack (st (S t))) eqn:A'; [exists (S t); split; [lia|exact A']|].
      pose proof (tx_ok_run D 8 ltac:(lia) ltac:(lia) rdy data t Hd) as T; fold st in T; destruct T as [[C _]|(F & k & _ & Hk & _ & C & Hp)]; [unfold tx_ack in A; rewrite C in A; discriminate|].
      destruct (IH (S t) A') as (u & Lu & Au); [|exists u; split; [lia|exact Au]].
      unfold st. cbn [tx_run]. fold st. unfold tx_step. unfold tx_ack in A. rewrite A. 
      assert (N1 : tx_phase (st t) = 0 -> tx_count (st t) <> 1). { intros E0 E1. unfold st in A'. cbn [tx_run] in A'. fold st in A'. unfold tx_step in A'. rewrite A, E0, E1 in A'. discriminate A'. }
      destruct (Z.eqb_spec (tx_phase (st t)) 0); cbn [negb tx_count tx_phase]; nia. }
  intros t A. pose proof (tx_ok_run D 8 ltac:(lia) ltac:(lia) rdy data t Hd) as T; fold st in T; destruct T as [[C _]|(F & k & _ & Hk & _ & C & Hp)]; [unfold tx_ack in A; rewrite C in A; discriminate|].
  assert (M : (tx_count (st t) - 1) * D + tx_phase (st t) < Z.of_nat (Z.to_nat 16384)) by nia. exact (G _ t A M).
Qed.

(** ** Specification *)
(** Specification: [write_char]'s critical section hands over the byte, to the queue or to the idle
    transmitter (attosoc.rs:182-199), instead of retrying. *)
Definition hands_over (dr : nat -> drv) (u : nat) : Prop :=
  (d_pc (dr (S u)) = Main /\ d_n (dr (S u)) = S (d_n (dr u))) \/ d_pc (dr (S u)) = MWrite 0.
(** [P], [Q]: main thread sets COUNT to 0 in cycle [P], finds it at least 144 in cycle [Q] and prints
    nothing in between (attosoc.rs:315-328). *)
Definition pause_between (dr : nat -> drv) (counts : nat -> bool) (P Q : nat) : Prop :=
  (P <= Q)%nat /\ d_pc (dr P) = Main /\ d_pc (dr Q) = Main /\ d_n (dr Q) = d_n (dr P) /\ 144 <= COUNT counts P Q.
(** Specification: after a pause, the whole dialogue with the user that [set_rule] prints, whatever is typed, is
    handed over byte by byte without retrying, whether or not interrupts are taken (attosoc.rs:209-238, 353-366). *)
Definition never_stuck (mv : nat -> move) (dr : nat -> drv) (counts : nat -> bool) : Prop :=
  forall P Q, pause_between dr counts P Q ->
  forall l, Forall (Forall (fun c => 0 <= c < 256)) l ->
  forall u, (Q <= u)%nat -> (d_n (dr u) < d_n (dr Q) + length (bytes (fst (set_rule None l))))%nat ->
  d_pc (dr u) = Cs -> mv u <> Wait -> hands_over dr u.

Lemma bytes_short l : Forall (fun c => 0 <= c < 256) l -> (length (bytes (map Chr l)) <= 2 * length l)%nat.
Proof.
  induction 1 as [|c l H _ IH]; [cbn; lia|]. cbn [map bytes flat_map]. fold (bytes (map Chr l)). rewrite app_length. cbn [length].
  assert (length (utf8 c) <= 2)%nat; [|lia]. unfold utf8. destruct (c <? 0x80); [cbn; lia|]. destruct (Z.ltb_spec c 0x800); [cbn; lia|lia].
Qed.
Lemma taken_ok l : Forall (Forall (fun c => 0 <= c < 256)) l -> Forall (fun c => 0 <= c < 256) (taken l).
Proof.
  unfold taken. induction 1 as [|x l H _ IH]; [constructor|]. cbn [flat_map]. apply Forall_app. split; [|exact IH].
  pose proof (Forall_rev H) as Hr. destruct (rev x) as [|c r]; [constructor|]. inversion Hr; subst. constructor; [assumption|constructor].
Qed.
Lemma dialogue_short l : Forall (Forall (fun c => 0 <= c < 256)) l -> (length (bytes (fst (set_rule None l))) <= 38)%nat.
Proof.
  intros H. rewrite set_rule_ok. cbn [fst]. unfold bytes. rewrite !flat_map_app, !app_length. fold (bytes (map Chr prompt_text)) (bytes (map Chr (firstn 3 (taken l)))).
  change (length (bytes (map Chr prompt_text))) with 31%nat.
  assert (F : Forall (fun c => 0 <= c < 256) (firstn 3 (taken l))). { pose proof (taken_ok l H) as T. rewrite <- (firstn_skipn 3 (taken l)) in T. apply Forall_app in T. apply T. }
  pose proof (bytes_short _ F) as B. pose proof (firstn_le_length 3 (taken l)) as L. destruct (Nat.leb 3 (length (taken l))); cbn [flat_map utf8 app length]; [change (length (utf8 10 ++ [])) with 1%nat|]; lia.
Qed.
Section Conclude.
Variables (todo : nat -> Z) (o : nat -> move) (tr : nat -> drv).
Variables (idle rdy txi rzt full rxi rzr ak irqs : nat -> bool) (txd rdata dat : nat -> Z).
Hypothesis Po : port todo o tr idle rdy txi rzt full rxi rzr ak irqs txd rdata dat.
Hypothesis Done : forall t, idle t = false -> exists u, (t <= u <= t + Z.to_nat 16384)%nat /\ idle u = true.
Variables (tirq hit : nat -> bool).
Hypothesis Tick : forall t, tirq t = false -> tirq (S t) = true -> Z.of_nat (S t) mod 16384 = 0.
Hypothesis Clear : forall t, begins todo tr t RdTimer -> tirq t = true -> tirq (S t) = false.
Hypothesis Hit : forall t, hit t = true -> exists k, op_at todo tr t = Some (RdTimer, k) /\ ak t = true /\ tirq (t - k)%nat = true.
Lemma never_stuck_ok : never_stuck o tr hit.
Proof.
  intros P Q (L & MP & MQ & En & H) l Hl u Lu Hn Pc Mv. pose proof (dialogue_short l Hl) as Ds.
  destruct (after_pause _ _ _ _ _ _ _ _ _ _ _ _ _ _ _ Po Done tirq hit Tick Clear Hit P Q MP MQ L En H) as [_ G]. specialize (G u Lu ltac:(lia)).
  unfold hands_over. rewrite (step _ _ _ _ _ _ _ _ _ _ _ _ _ _ _ Po u). unfold dstep. rewrite Pc. apply Nat.ltb_lt in G. rewrite G.
  destruct (o u); [contradiction|..]; (destruct (d_busy (tr u)); [left; split; reflexivity|right; reflexivity]).
Qed.
End Conclude.

(** ** Wishbone *)
Section Wb.
Variables (D : Z) (todo : nat -> Z) (e : nat -> env).
Hypothesis (HD : 1 <= D <= 1638) (Hb : forall i, 0 <= todo i < 256) (H0 : e_move (e 0%nat) = Wait).
Let st := wbt_sys D todo e.
Let tr (t : nat) := fst (fst (st t)).
Let tm (t : nat) := snd (st t).
Let e' (t : nat) := with_timer (pc_op todo (tr t)) (tm t) (e t).
Lemma wbt_wb t : fst (st t) = wb_sys D todo e' t.
Proof. induction t as [|t IH]; [reflexivity|]. cbn [wb_sys]. rewrite <- IH. reflexivity. Qed.
Lemma wbt_tm t : tm t = timer_run timer_init (fun u => timer_bus (pc_op todo (tr u))) t.
Proof. induction t as [|t IH]; [reflexivity|]. cbn [timer_run]. rewrite <- IH. reflexivity. Qed.
Lemma wbt_tr t : tr t = fst (wb_sys D todo e' t). Proof. unfold tr. rewrite wbt_wb. reflexivity. Qed.
Let ak (t : nat) := if on_serial (pc_op todo (tr t)) then sr_ack (snd (fst (st t))) else e_ack (e' t).
Lemma wbt_step t : exists irq dat, tr (S t) = dstep todo (tr t) (e_move (e t)) irq (ak t) dat.
Proof. eexists _, _. reflexivity. Qed.
(** The timer answers in the second cycle. *)
Lemma wbt_ack t : tm_ack (tm t) = match pc_op todo (tr t) with Some (RdTimer, k) => Nat.eqb k 1 | _ => false end /\
  forall k, pc_op todo (tr t) = Some (RdTimer, k) -> (k <= 1)%nat.
Proof.
  induction t as [|t [IA IK]]; [split; [reflexivity|discriminate]|].
  assert (A1 : tm_ack (tm (S t)) = p_req (timer_bus (pc_op todo (tr t))) && negb (tm_ack (tm t))) by reflexivity.
  destruct (wbt_step t) as (irq & dat & E). unfold ak, e' in E. cbn [e_ack with_timer] in E.
  destruct (pc_op todo (tr t)) as [[w k]|] eqn:P; cbn [on_serial] in E.
  - destruct (match w with RdTimer => true | _ => false end) eqn:Ew.
    + destruct w; try discriminate Ew. specialize (IK k eq_refl). rewrite IA in A1, E. destruct k as [|[|k]]; [| |lia]; cbn [Nat.eqb] in *; rewrite E, A1; cbn [timer_bus].
      * rewrite (op_held _ _ _ _ _ _ _ P). split; [reflexivity|]. intros k' Q. injection Q as <-. lia.
      * rewrite (op_acked _ _ _ _ _ _ _ P). split; [reflexivity|discriminate].
    + assert (N : tm_ack (tm (S t)) = false) by (rewrite A1; destruct w; try discriminate Ew; reflexivity). rewrite N.
      destruct (pc_op todo (tr (S t))) as [[w' k']|] eqn:P'; [|split; [reflexivity|discriminate]].
      destruct k' as [|k']; [split; [destruct w'; reflexivity|intros k2 Q; injection Q as _ <-; lia]|].
      rewrite E in P'. apply op_prev in P'. destruct P' as [P' _]. rewrite P in P'. injection P' as <- <-. destruct w; try discriminate Ew; (split; [reflexivity|intros k2 Q; discriminate Q]).
  - rewrite A1. cbn [timer_bus no_req p_req b_cyc b_stb andb]. destruct (pc_op todo (tr (S t))) as [[w' k']|] eqn:P'; [|split; [reflexivity|discriminate]].
    rewrite E in P'. apply op_fresh in P'; [|exact P]. subst k'. split; [destruct w'; reflexivity|]. intros k2 Q. injection Q as _ <-. lia.
Qed.
Lemma wbt_hit t : wb_counts todo (st t) = true -> exists k, op_at todo tr t = Some (RdTimer, k) /\ ak t = true /\ tm_irq (tm (t - k)%nat) = true.
Proof.
  unfold wb_counts. fold (tr t) (tm t). destruct (wbt_ack t) as [A K]. destruct (pc_op todo (tr t)) as [[w k]|] eqn:P; [|discriminate]. destruct w; try discriminate.
  intros H. apply andb_prop in H. destruct H as [H1 H2]. exists k. split; [exact P|]. split.
  - unfold ak, e'. cbn [e_ack with_timer]. rewrite P. exact H1.
  - rewrite A in H1. apply Nat.eqb_eq in H1. subst k. destruct t as [|t]; [discriminate P|]. replace (S t - 1)%nat with t by lia.
    destruct (wbt_step t) as (irq & dat & E). rewrite E in P. apply op_prev in P. destruct P as [P _].
    assert (Ed : tm_dat (tm (S t)) = b2z (tm_irq (tm t))). { unfold tm, st. cbn [wbt_sys snd]. fold st. fold (tr t) (tm t). rewrite P. reflexivity. }
    rewrite Ed in H2. destruct (tm_irq (tm t)); [reflexivity|discriminate H2].
Qed.
Lemma wbt_irq t : tm_irq (tm (S t)) = if tm_irq (tm t) then negb (match pc_op todo (tr t) with Some (RdTimer, _) => true | _ => false end) && negb (Z.of_nat (S t) mod 16384 =? 0) else Z.of_nat (S t) mod 16384 =? 0.
Proof.
  destruct (C39_timer_irq (fun u => timer_bus (pc_op todo (tr u)))) as [_ H]. specialize (H t). cbv zeta in H. rewrite <- !wbt_tm in H. rewrite H.
  destruct (tm_irq (tm t)); [|reflexivity]. f_equal. f_equal. destruct (pc_op todo (tr t)) as [[[| | | |] k]|]; reflexivity.
Qed.
End Wb.
Lemma hits_ext c c' P Q : (forall t, c t = c' t) -> hits c P Q = hits c' P Q.
Proof. intros H. unfold hits. rewrite (filter_ext c c' H). reflexivity. Qed.
Lemma never_stuck_ext mv dr dr' c : (forall t, dr t = dr' t) -> never_stuck mv dr c -> never_stuck mv dr' c.
Proof.
  intros H N P Q (L & MP & MQ & En & Hc) l Hl u Lu Hn Pc Mv. rewrite <- !H in *. destruct (N P Q (conj L (conj MP (conj MQ (conj En Hc)))) l Hl u Lu Hn Pc Mv) as [G|G]; [left|right]; rewrite <- !H; exact G.
Qed.

(** ** C67 *)
Theorem C67_wishbone_prompt : forall D todo e, 1 <= D <= 1638 -> (forall i, 0 <= todo i < 256) -> e_move (e 0%nat) = Wait ->
  never_stuck (fun t => e_move (e t)) (fun t => fst (fst (wbt_sys D todo e t))) (fun t => wb_counts todo (wbt_sys D todo e t)).
Proof.
  intros D todo e HD Hb H0. set (st := wbt_sys D todo e). set (e' := fun t => with_timer (pc_op todo (fst (fst (st t)))) (snd (st t)) (e t)).
  assert (Et : forall t, fst (wb_sys D todo e' t) = fst (fst (st t))) by (intros t; unfold e', st; rewrite <- wbt_wb; reflexivity).
  apply (never_stuck_ext _ (fun t => fst (wb_sys D todo e' t))); [exact Et|].
  assert (Hop : forall t, pc_op todo (fst (wb_sys D todo e' t)) = pc_op todo (fst (fst (st t)))) by (intros t; rewrite Et; reflexivity).
  eapply (never_stuck_ok todo (fun t => e_move (e' t)) _ _ _ _ _ _ _ _ _ _ _ _ _ (wb_port D todo e' Hb H0)) with (tirq := fun t => tm_irq (snd (st t))).
  - intros t I. unfold tx_ack in I |- *. setoid_rewrite wb_tx. rewrite wb_tx in I. apply (tx_done D _ _ HD) in I; [exact I|].
    intros u. unfold sr_tx_data. match goal with |- context [if ?c then _ else _] => destruct c end; [apply Z.mod_pos_bound|]; lia.
  - intros t I1 I2. unfold st in *. rewrite wbt_irq, I1 in I2. apply Z.eqb_eq. exact I2.
  - intros t Bg I. unfold begins in Bg. rewrite Hop in Bg. unfold st in *. rewrite wbt_irq, I, Bg. reflexivity.
  - intros t Hh. destruct (wbt_hit D todo e t Hh) as (k & P & A & T). exists k. unfold op_at in *. rewrite Hop. split; [exact P|]. split; [|exact T].
    unfold e', st. cbv beta. fold (st t). rewrite P in A. unfold st in P |- *. rewrite P. cbn [on_serial] in A |- *. exact A.
Qed.
Theorem C67_csr_prompt : forall D todo e, 1 <= D <= 1638 -> (forall i, 0 <= todo i < 256) -> e_move (e 0%nat) = Wait -> (forall t, 0 <= e_pins (e t) < 256) ->
  never_stuck (fun t => e_move (e t)) (fun t => fst (csr_sys D todo e t)) (fun t => csr_counts todo (csr_sys D todo e t)).
Proof.
  intros D todo e HD Hb H0 Hp.
  eapply (never_stuck_ok todo (fun t => e_move (e t)) _ _ _ _ _ _ _ _ _ _ _ _ _ (csr_port D todo e Hb H0 Hp)) with (tirq := fun t => ct_irq (cp_timer (snd (csr_sys D todo e t)))).
  - intros t I. unfold tx_ack in I |- *. setoid_rewrite csr_tx. rewrite csr_tx in I. apply (tx_done D _ _ HD) in I; [exact I|].
    intros [|u]; [cbn; lia|]. cbn [csr_sys csr_step snd csrp_step cp_serial cserial_step cs_mux mux_step mx_wd window c_wdata cp_bus]. unfold PropsIsa.byte, Isa.fld. apply Z.mod_pos_bound. lia.
  - intros t I1 I2. destruct (C59_csr_timer D _ _ _ (csr_env_ok D todo e Hp)) as [_ H]. specialize (H t). cbv zeta in H. rewrite <- !csr_run in H. rewrite I1 in H. rewrite I2 in H. apply Z.eqb_eq. symmetry. exact H.
  - intros t Bg I. destruct (C59_csr_timer D _ _ _ (csr_env_ok D todo e Hp)) as [_ H]. specialize (H t). cbv zeta in H. rewrite <- !csr_run in H. rewrite I in H. cbv beta. rewrite H.
    rewrite csr_reading. unfold begins in Bg. rewrite Bg. reflexivity.
  - intros t Hh. unfold csr_counts in Hh. destruct (pc_op todo (fst (csr_sys D todo e t))) as [[w k]|] eqn:P; [|discriminate Hh]. destruct w; try discriminate Hh.
    apply andb_prop in Hh. destruct Hh as [A V]. exists k. split; [exact P|]. split; [exact A|]. destruct (csr_k D todo e t _ k P) as [_ Ek]. rewrite A in Ek. symmetry in Ek. apply Nat.eqb_eq in Ek. subst k.
    rewrite (csr_read_value D todo e Hp t _ P eq_refl) in V. cbn [op_reg reg_value] in V. destruct (ct_irq _); [reflexivity|discriminate V].
Qed.

(** Why this matters: inside a critical section (no interrupts: every move is a step of the program or
    none) a full queue is the end: [write_char] hands over nothing any more. *)
Lemma full_hangs todo mv (tr : nat -> drv) (irqs ak : nat -> bool) (dat : nat -> Z) : (forall t, tr (S t) = dstep todo (tr t) (mv t) (irqs t) (ak t) (dat t)) ->
  forall T, d_pc (tr T) = Main \/ d_pc (tr T) = Cs -> d_busy (tr T) = true -> length (d_queue (tr T)) = 63%nat -> (forall u, (T <= u)%nat -> mv u = Wait \/ mv u = Go) ->
  forall u, (T <= u)%nat -> d_n (tr u) = d_n (tr T) /\ d_queue (tr u) = d_queue (tr T) /\ (d_pc (tr u) = Main \/ d_pc (tr u) = Cs).
Proof.
  intros St T Pc Bz Ql Mv u L. enough (G : d_busy (tr u) = true /\ d_n (tr u) = d_n (tr T) /\ d_queue (tr u) = d_queue (tr T) /\ (d_pc (tr u) = Main \/ d_pc (tr u) = Cs)) by apply G.
  induction L as [|u L (IB & IN & IQ & IP)]; [auto|]. rewrite St. unfold dstep. specialize (Mv u L).
  destruct IP as [IP|IP]; rewrite IP; destruct Mv as [Mv|Mv]; rewrite Mv; try (cbn [at_ d_pc d_busy d_n d_queue]; auto).
  rewrite IB, IQ, Ql. cbn [Nat.ltb Nat.leb at_ d_pc d_busy d_n d_queue]. auto.
Qed.
Theorem C67_full_queue_would_hang : forall D todo e T,
  let stuck dr := d_pc (dr T) = Main \/ d_pc (dr T) = Cs -> d_busy (dr T) = true -> length (d_queue (dr T)) = 63%nat ->
    (forall u, (T <= u)%nat -> e_move (e u) = Wait \/ e_move (e u) = Go) -> forall u, (T <= u)%nat -> d_n (dr u) = d_n (dr T) in
  stuck (fun t => fst (fst (wbt_sys D todo e t))) /\ stuck (fun t => fst (csr_sys D todo e t)).
Proof.
  intros D todo e T stuck. split; intros Pc Bz Ql Mv u L.
  - refine (proj1 (full_hangs todo (fun t => e_move (e t)) (fun t => fst (fst (wbt_sys D todo e t))) _ _ _ _ T Pc Bz Ql Mv u L)). intros t. reflexivity.
  - refine (proj1 (full_hangs todo (fun t => e_move (e t)) (fun t => fst (csr_sys D todo e t)) _ _ _ _ T Pc Bz Ql Mv u L)). intros t. reflexivity.
Qed.

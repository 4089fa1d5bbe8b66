(** * The example firmware's serial driver on the two serial ports: C63, C64 *)
From Coq Require Import ZArith Lia Bool List.
From Verif Require Import Bits BitLemmas SocMem Uart Periph SocIo CsrBus Firmware.
Import ListNotations.
Open Scope Z_scope.

(** ** Model: the driver, closed with each port *)
(** What the environment decides in a cycle: the processor's pace, the serial input pin, the timer's
    interrupt, ACK from the other peripherals (Wishbone only), the GPIO input pins. *)
Record env := { e_move : move; e_rx : bool; e_timer : bool; e_ack : bool; e_pins : Z }.
(** A byte access (attosoc.rs:109-131: [*const u8], [*mut u8]). *)
Definition byte_req (adr : Z) (we : bool) (dat : Z) : wbus := {| b_cyc := true; b_stb := true; b_we := we; b_adr := adr; b_sel := 1; b_dat_w := dat |}.
(** No access. *)
Definition no_req : wbus := {| b_cyc := false; b_stb := false; b_we := false; b_adr := 0; b_sel := 0; b_dat_w := 0 |}.
(** Wishbone: the serial port at 0x8000_0000, its data register at +0, its interrupt register at +4
    (attosoc.rs:84-88, 109-131); only its own accesses reach it (C44). *)
Definition wb_bus (p : option (op * nat)) : wbus :=
  match p with
  | Some (RdIrq, _) => byte_req 1 false 0 | Some (RdData, _) => byte_req 0 false 0 | Some (WrData b, _) => byte_req 0 true b
  | _ => no_req
  end.
(** attosoc.rs:113-123 *)
Definition on_serial (p : option (op * nat)) : bool := match p with Some (RdIrq, _) | Some (RdData, _) | Some (WrData _, _) => true | _ => false end.
(** attosoc.rs:84-88 with attosoc.py:804-808 *)
Definition wb_step (D : Z) (todo : nat -> Z) (x : drv * serial) (e : env) : drv * serial :=
  let d := fst x in let q := snd x in let p := pc_op todo d in
  (dstep todo d (e_move e) (sr_irq q || e_timer e) (if on_serial p then sr_ack q else e_ack e) (sr_dat q), serial_step D q (wb_bus p) (e_rx e)).
(** The same, cycle after cycle from reset. *)
Fixpoint wb_sys (D : Z) (todo : nat -> Z) (e : nat -> env) (t : nat) : drv * serial :=
  match t with O => (drv0, serial_init) | S u => wb_step D todo (wb_sys D todo e u) (e u) end.
(** CSR: GPIO at 0x0200_0000, timer at 0x0280_0000, serial port at 0x0300_0000 (attosoc.rs:90-94), all
    behind one bridge whose window starts at 0x0200_0000; word addresses in that window. *)
Definition csr_bus (p : option (op * nat)) : wbus :=
  match p with
  | Some (RdTimer, _) => byte_req 0x200000 false 0
  | Some (RdIrq, _) => byte_req 0x400001 false 0 | Some (RdData, _) => byte_req 0x400000 false 0 | Some (WrData b, _) => byte_req 0x400000 true b
  | Some (Gpio None, _) => byte_req 1 false 0 | Some (Gpio (Some b), _) => byte_req 0 true b
  | None => no_req
  end.
(** attosoc.rs:90-94 with attosoc.py:809-812, 874-890 *)
Definition csr_step (D : Z) (todo : nat -> Z) (x : drv * csrp) (e : env) : drv * csrp :=
  let d := fst x in let q := snd x in
  (dstep todo d (e_move e) (cs_irq (cp_serial q) || ct_irq (cp_timer q)) (cp_ack q) (cp_dat q), csrp_step D q (csr_bus (pc_op todo d)) (e_pins e) (e_rx e)).
(** The same, cycle after cycle from reset. *)
Fixpoint csr_sys (D : Z) (todo : nat -> Z) (e : nat -> env) (t : nat) : drv * csrp :=
  match t with O => (drv0, csrp_init) | S u => csr_step D todo (csr_sys D todo e u) (e u) end.

(** ** Facts about one cycle of the driver *)
Lemma op_prev todo d o irq ack dat w k : pc_op todo (dstep todo d o irq ack dat) = Some (w, S k) -> pc_op todo d = Some (w, k) /\ ack = false.
Proof.
  unfold dstep, pc_op. intros H.
  destruct (d_pc d) eqn:E; cbn [op_of at_ d_pc d_n] in *; try destruct o; try destruct irq; try destruct ack; try destruct (d_busy d); try destruct (Nat.ltb _ _); try destruct (Z.testbit v 1); try destruct (Z.testbit v 0); try destruct (d_queue d);
    cbn [op_of at_ d_pc d_n] in *; rewrite ?E in H; cbn [op_of] in H; try discriminate H; injection H as <- <-; split; reflexivity.
Qed.
Lemma op_held todo d o irq dat w k : pc_op todo d = Some (w, k) -> pc_op todo (dstep todo d o irq false dat) = Some (w, S k).
Proof.
  unfold dstep, pc_op. intros H. destruct (d_pc d) eqn:E; cbn [op_of at_ d_pc d_n] in *; try discriminate H; injection H as <- <-; reflexivity.
Qed.
Lemma op_acked todo d o irq dat w k : pc_op todo d = Some (w, k) -> pc_op todo (dstep todo d o irq true dat) = None.
Proof.
  unfold dstep, pc_op. intros H. destruct (d_pc d) eqn:E; cbn [op_of at_ d_pc d_n] in *; try discriminate H; injection H as <- <-; reflexivity.
Qed.
Lemma op_fresh todo d o irq ack dat w k : pc_op todo d = None -> pc_op todo (dstep todo d o irq ack dat) = Some (w, k) -> k = 0%nat.
Proof. intros N H. destruct k as [|k]; [reflexivity|]. apply op_prev in H. destruct H as [H _]. congruence. Qed.

(** ** The UART *)
(** Once taken, a character is followed by another after ten cycles at the earliest. *)
Lemma rx_refractory D line ack t : let st := rx_run D 8 (rx_init 8) line ack in
  rx_rdy (st t) = true -> ack t = true -> forall i, (1 <= i <= 10)%nat -> rx_rdy (st (t + i)%nat) = false.
Proof.
  intros st F A.
  assert (Inv : forall u, 0 <= rx_count (st u) /\ (rx_rdy (st u) = true -> rx_count (st u) = 0)).
  { induction u as [|u [I1 I2]]; [split; [reflexivity|discriminate]|]. unfold st. cbn [rx_run]. fold st. unfold rx_step. destruct (Z.eqb_spec (rx_count (st u)) 0) as [Ez|Ez].
    - cbn [rx_count rx_rdy]. destruct (negb (line u) && _)%bool eqn:B; [split; [lia|destruct (ack u); discriminate]|split; [lia|intros _; assumption]].
    - destruct (negb _); cbn [rx_count rx_rdy]; [split; [assumption|intros R0; exfalso; tauto]|]. split; [lia|].
      destruct (Z.eqb_spec (rx_count (st u)) 1); [lia|]. intros R0. exfalso; tauto. }
  assert (G : forall i, (i <= 9)%nat -> rx_rdy (st (t + S i)%nat) = false /\ (rx_count (st (t + S i)%nat) = 0 \/ 10 - Z.of_nat i <= rx_count (st (t + S i)%nat))).
  { induction i as [|i IH]; intros Hi; [replace (t + 1)%nat with (S t) by lia|replace (t + S (S i))%nat with (S (t + S i)) by lia]; unfold st; cbn [rx_run]; fold st; unfold rx_step.
    - destruct (Inv t) as [_ I]. rewrite (I F), A. cbn [Z.eqb rx_rdy rx_count]. split; [reflexivity|]. destruct (negb _ && _); lia.
    - destruct IH as [R C]; [lia|]. destruct (Z.eqb_spec (rx_count (st (t + S i)%nat)) 0) as [Z0|N0].
      + cbn [rx_rdy rx_count]. rewrite R. split; [destruct (ack (t + S i)%nat), (line (t + S i)%nat); reflexivity|]. destruct (negb _ && _); lia.
      + destruct (negb _); cbn [rx_rdy rx_count]; [split; [exact R|lia]|]. destruct (Z.eqb_spec (rx_count (st (t + S i)%nat)) 1); [lia|]. split; [exact R|lia]. }
  intros i Hi. replace i with (S (i - 1)) by lia. apply G. lia.
Qed.
(** The transmitter finishes. *)
Lemma tx_finishes D rdy data : 1 <= D -> (forall u, 0 <= data u < 256) -> let st := tx_run D 8 (tx_init 8) rdy data in
  forall t, tx_ack (st t) = false -> exists u, (t <= u)%nat /\ tx_ack (st u) = true.
Proof.
  intros HD Hd st. assert (G : forall m t, tx_ack (st t) = false -> tx_count (st t) * D + tx_phase (st t) < Z.of_nat m -> exists u, (t <= u)%nat /\ tx_ack (st u) = true).
  { induction m as [|m IH]; intros t A L.
    - pose proof (tx_ok_run D 8 HD ltac:(lia) rdy data t Hd) as T; fold st in T; destruct T as [[C _]|(F & k & _ & Hk & _ & C & Hp)]; [unfold tx_ack in A; rewrite C in A; discriminate|]. nia.
    - destruct (tx_ack (st (S t))) eqn:A'; [exists (S t); split; [lia|exact A']|].
      pose proof (tx_ok_run D 8 HD ltac:(lia) rdy data t Hd) as T; fold st in T; destruct T as [[C _]|(F & k & _ & Hk & _ & C & Hp)]; [unfold tx_ack in A; rewrite C in A; discriminate|].
      destruct (IH (S t) A') as (u & Lu & Au); [|exists u; split; [lia|exact Au]].
      unfold st. cbn [tx_run]. fold st. unfold tx_step. unfold tx_ack in A. rewrite A. destruct (Z.eqb_spec (tx_phase (st t)) 0); cbn [negb tx_count tx_phase]; nia. }
  intros t A. apply (G (Z.to_nat (tx_count (st t) * D + tx_phase (st t) + 1)) t A). lia.
Qed.
Lemma rises_S f t : rises f (S t) = f (S t) && negb (f t). Proof. reflexivity. Qed.
Lemma accepted_sent D rdy data idle : (forall t, idle t = tx_ack (l_tx D 8 rdy data t)) -> forall t, accepted idle rdy data t = l_sent D 8 rdy data t.
Proof. intros H t. induction t as [|t IH]; [reflexivity|]. cbn [accepted l_sent]. rewrite H, IH. reflexivity. Qed.

(** ** The Wishbone port *)
Section Wb.
Variables (D : Z) (todo : nat -> Z) (e : nat -> env).
Hypothesis (HD : 1 <= D) (Hb : forall i, 0 <= todo i < 256) (H0 : e_move (e 0%nat) = Wait).
Let st := wb_sys D todo e.
Let tr (t : nat) := fst (st t).
Let q (t : nat) := snd (st t).
Let bus (t : nat) := wb_bus (pc_op todo (tr t)).
Let line (t : nat) := e_rx (e t).
Lemma wb_serial t : q t = serial_run D serial_init bus line t.
Proof. induction t as [|t IH]; [reflexivity|]. cbn [serial_run]. rewrite <- IH. reflexivity. Qed.
Let idle (t : nat) := tx_ack (sr_tx (q t)).
Let rdy (t : nat) := sr_tx_rdy (q t) (bus t).
Let txd (t : nat) := sr_tx_data (q t) (bus t).
Let full (t : nat) := rx_rdy (sr_rx (q t)).
Let ak (t : nat) := if on_serial (pc_op todo (tr t)) then sr_ack (q t) else e_ack (e t).
Let irqs (t : nat) := sr_irq (q t) || e_timer (e t).
Lemma wb_tr t : tr (S t) = dstep todo (tr t) (e_move (e t)) (irqs t) (ak t) (sr_dat (q t)).
Proof. reflexivity. Qed.
Lemma wb_q t : q (S t) = serial_step D (q t) (bus t) (line t). Proof. reflexivity. Qed.
(** The port answers in the second cycle. *)
Lemma wb_ack t : sr_ack (q t) = match pc_op todo (tr t) with Some (RdIrq, k) | Some (RdData, k) | Some (WrData _, k) => Nat.eqb k 1 | _ => false end /\
  (on_serial (pc_op todo (tr t)) = true -> forall w k, pc_op todo (tr t) = Some (w, k) -> (k <= 1)%nat).
Proof.
  induction t as [|t [IA IK]]; [split; [reflexivity|discriminate]|].
  assert (A1 : sr_ack (q (S t)) = p_req (bus t) && negb (sr_ack (q t))) by reflexivity. unfold bus in A1.
  pose proof (wb_tr t) as E. unfold ak in E. destruct (pc_op todo (tr t)) as [[w k]|] eqn:P; cbn [on_serial] in E, IK.
  - assert (Sv : on_serial (Some (w, k)) = true -> sr_ack (q t) = Nat.eqb k 1 /\ (k <= 1)%nat /\ sr_ack (q (S t)) = negb (Nat.eqb k 1)).
    { intros O. split; [destruct w; try discriminate O; exact IA|]. split; [apply (IK O w k eq_refl)|]. rewrite A1. destruct w; try discriminate O; cbn [wb_bus]; rewrite IA; reflexivity. }
    destruct (on_serial (Some (w, k))) eqn:O.
    + destruct (Sv eq_refl) as (S1 & S2 & S3). assert (E' : tr (S t) = dstep todo (tr t) (e_move (e t)) (irqs t) (Nat.eqb k 1) (sr_dat (q t))) by (rewrite E; destruct w; try discriminate O; rewrite S1; reflexivity).
      destruct k as [|[|k]]; [| |lia]; rewrite E', S3; cbn [Nat.eqb negb].
      * rewrite (op_held _ _ _ _ _ _ _ P). split; [destruct w; try discriminate O; reflexivity|]. intros _ w' k' Q. injection Q as _ <-. lia.
      * rewrite (op_acked _ _ _ _ _ _ _ P). split; [reflexivity|discriminate].
    + assert (N : sr_ack (q (S t)) = false) by (rewrite A1; destruct w; try discriminate O; reflexivity). rewrite N.
      destruct (pc_op todo (tr (S t))) as [[w' k']|] eqn:P'; [|split; [reflexivity|discriminate]].
      destruct k' as [|k']; [split; [destruct w'; reflexivity|intros _ w2 k2 Q; injection Q as _ <-; lia]|].
      rewrite E in P'. apply op_prev in P'. destruct P' as [P' _]. rewrite P in P'. injection P' as <- <-. destruct w; try discriminate O; (split; [reflexivity|discriminate]).
  - assert (N : sr_ack (q (S t)) = false) by (rewrite A1; reflexivity). rewrite N.
    destruct (pc_op todo (tr (S t))) as [[w' k']|] eqn:P'; [|split; [reflexivity|discriminate]].
    rewrite E in P'. apply op_fresh in P'; [|exact P]. subst k'. split; [destruct w'; reflexivity|]. intros _ w2 k2 Q. injection Q as _ <-. lia.
Qed.
Lemma wb_irq_read t : irq_read (q t) (bus t) = rd_irq todo tr t.
Proof.
  destruct (wb_ack t) as [A K]. unfold irq_read, rd_irq, op_at, bus. rewrite A. destruct (pc_op todo (tr t)) as [[[| | |b|w] k]|]; try reflexivity. specialize (K eq_refl _ _ eq_refl). destruct k as [|[|k]]; [reflexivity..|lia].
Qed.
Lemma wb_rdy t : rdy t = match wr todo tr t with Some _ => true | None => false end /\ forall b, wr todo tr t = Some b -> txd t = b mod 256.
Proof.
  destruct (wb_ack t) as [A K]. unfold rdy, txd, sr_tx_data, sr_tx_rdy, wr, op_at, bus. rewrite A.
  destruct (pc_op todo (tr t)) as [[[| | |b|w] k]|] eqn:P; try (split; [reflexivity|discriminate]); [destruct k as [|[|k]]; (split; [reflexivity|discriminate])|].
  specialize (K eq_refl _ _ eq_refl). destruct k as [|[|k]]; [split; [reflexivity|discriminate]| |lia]. split; [reflexivity|]. intros b2 Q; assert (b = b2) as <- by congruence; reflexivity.
Qed.
Lemma wb_tx t : sr_tx (q t) = l_tx D 8 rdy txd t.
Proof. unfold l_tx. rewrite wb_serial. rewrite serial_tx. induction t as [|t IH]; [reflexivity|]. cbn [tx_run]. rewrite IH. unfold rdy, txd. rewrite !wb_serial. reflexivity. Qed.
Lemma wb_rx t : sr_rx (q t) = rx_run D 8 (rx_init 8) line (fun u => sr_rx_ack (bus u)) t.
Proof. rewrite wb_serial. apply serial_rx. Qed.
Lemma wb_rx_ack t : sr_rx_ack (bus t) = match pc_op todo (tr t) with Some (RdData, _) => true | _ => false end.
Proof. unfold bus, sr_rx_ack, at_rxtx. destruct (pc_op todo (tr t)) as [[[| | |b|w] k]|]; reflexivity. Qed.
Lemma wb_k1 t w : pc_op todo (tr t) = Some (w, 1%nat) -> exists u, t = S u /\ pc_op todo (tr u) = Some (w, 0%nat).
Proof. intros P. destruct t as [|u]; [discriminate P|]. exists u. split; [reflexivity|]. rewrite wb_tr in P. apply op_prev in P. apply P. Qed.
Lemma wb_port : port todo (fun t => e_move (e t)) tr idle rdy (fun t => sr_txi (q t)) (rises idle) full (fun t => sr_rxi (q t)) (rises full) ak irqs txd (fun t => rx_data 8 (sr_rx (q t))) (fun t => sr_dat (q t)).
Proof.
  constructor; try reflexivity; try assumption.
  - intros t. rewrite <- wb_irq_read. rewrite wb_q. cbn [serial_step sr_txi].
    assert (P : sr_txp (q t) = match t with O => false | S v => idle v end) by (destruct t; reflexivity). rewrite P. unfold rises. fold (idle t). destruct (idle t && _) eqn:R.
    + replace (idle t && match t with O => true | S v => negb (idle v) end) with true by (rewrite <- R; destruct t; reflexivity). reflexivity.
    + replace (idle t && match t with O => true | S v => negb (idle v) end) with false by (rewrite <- R; destruct t; reflexivity). destruct (irq_read _ _); [rewrite andb_false_r|rewrite andb_true_r]; reflexivity.
  - intros t. rewrite <- wb_irq_read. rewrite wb_q. cbn [serial_step sr_rxi].
    assert (P : sr_rxp (q t) = match t with O => false | S v => full v end) by (destruct t; reflexivity). rewrite P. unfold rises. fold (full t). destruct (full t && _) eqn:R.
    + replace (full t && match t with O => true | S v => negb (full v) end) with true by (rewrite <- R; destruct t; reflexivity). reflexivity.
    + replace (full t && match t with O => true | S v => negb (full v) end) with false by (rewrite <- R; destruct t; reflexivity). destruct (irq_read _ _); [rewrite andb_false_r|rewrite andb_true_r]; reflexivity.
  - intros t X. unfold irqs, sr_irq. rewrite X. reflexivity.
  - intros t w Bg W. unfold begins in Bg. destruct (wb_ack t) as [A _]. unfold ak. rewrite A, Bg. destruct W as [->|[->|[b ->]]]; reflexivity.
  - apply wb_rdy.
  - intros t b W. apply (proj2 (wb_rdy t)). exact W.
  - intros t I. pose proof (proj1 (wb_rdy t)) as R. unfold idle in I |- *. rewrite wb_q. cbn [serial_step sr_tx]. fold (rdy t). fold (txd t). rewrite R. unfold tx_step. unfold tx_ack in I. rewrite I.
    destruct (wr todo tr t); [reflexivity|exact I].
  - intros t F N. assert (A : sr_rx_ack (bus t) = false). { rewrite wb_rx_ack. unfold op_at in N. destruct (pc_op todo (tr t)) as [[[| | |b|w] k]|]; try reflexivity. destruct (N k eq_refl). }
    unfold full in F. rewrite wb_rx in F. destruct (C37_unread_character_kept D 8 line (fun u => sr_rx_ack (bus u)) ltac:(lia) t F A) as (_ & K1 & K2 & _). unfold full. rewrite !wb_rx. split; assumption.
  - intros t F Bg i Hi. unfold full in F |- *. rewrite wb_rx in F |- *. apply (rx_refractory D line (fun u => sr_rx_ack (bus u)) t F); [|lia]. cbv beta. rewrite wb_rx_ack. unfold begins in Bg. rewrite Bg. reflexivity.
  - intros t k P. destruct (wb_ack t) as [_ K]. unfold op_at in P. rewrite P in K. specialize (K eq_refl _ _ eq_refl). lia.
  - intros t k P A. unfold op_at in P. unfold ak in A. destruct (wb_ack t) as [A' _]. rewrite A', P in A. cbn [on_serial] in A. apply Nat.eqb_eq in A. subst k. destruct (wb_k1 t _ P) as (u & -> & P'). replace (S u - 1)%nat with u by lia.
    rewrite wb_q. cbn [serial_step sr_dat]. rewrite wb_irq_read. unfold rd_irq, op_at. rewrite P'. reflexivity.
  - intros t k P A. unfold op_at in P. unfold ak in A. destruct (wb_ack t) as [A' _]. rewrite A', P in A. cbn [on_serial] in A. apply Nat.eqb_eq in A. subst k. destruct (wb_k1 t _ P) as (u & -> & P'). replace (S u - 1)%nat with u by lia.
    rewrite wb_q. cbn [serial_step sr_dat]. rewrite wb_irq_read. unfold rd_irq, op_at, bus. rewrite P'. apply Z.mod_small. apply (rx_data_range 8). lia.
Qed.
End Wb.

(** ** The CSR port *)
Section Csr.
Variables (D : Z) (todo : nat -> Z) (e : nat -> env).
Hypothesis (HD : 1 <= D) (Hb : forall i, 0 <= todo i < 256) (H0 : e_move (e 0%nat) = Wait) (Hp : forall t, 0 <= e_pins (e t) < 256).
Let st := csr_sys D todo e.
Let tr (t : nat) := fst (st t).
Let x (t : nat) := snd (st t).
Let bus (t : nat) := csr_bus (pc_op todo (tr t)).
Let line (t : nat) := e_rx (e t).
Let pins (t : nat) := e_pins (e t).
Lemma csr_run t : x t = csrp_run D csrp_init bus pins line t.
Proof. induction t as [|t IH]; [reflexivity|]. cbn [csrp_run]. rewrite <- IH. reflexivity. Qed.
Let idle (t : nat) := tx_ack (cs_tx (cp_serial (x t))).
Let rdy (t : nat) := strobed (cs_mux (cp_serial (x t))) 0.
Let txd (t : nat) := mx_wd (cs_mux (cp_serial (x t))).
Let full (t : nat) := rx_rdy (cs_rx (cp_serial (x t))).
Let ak (t : nat) := cp_ack (x t).
Let irqs (t : nat) := cs_irq (cp_serial (x t)) || ct_irq (cp_timer (x t)).
Lemma csr_tr t : tr (S t) = dstep todo (tr t) (e_move (e t)) (irqs t) (ak t) (cp_dat (x t)). Proof. reflexivity. Qed.
Lemma csr_x t : x (S t) = csrp_step D (x t) (bus t) (pins t) (line t). Proof. reflexivity. Qed.
Lemma req_csr p : p_req (csr_bus p) = match p with Some _ => true | None => false end.
Proof. destruct p as [[[| | |b|[w|]] k]|]; reflexivity. Qed.
Lemma held_csr w k k' : csr_bus (Some (w, k)) = csr_bus (Some (w, k')). Proof. destruct w as [| | |b|[w|]]; reflexivity. Qed.
Lemma csr_holds : holds_requests bus (fun t => cp_ack (csrp_run D csrp_init bus pins line t)).
Proof.
  intros t R A. cbv beta in A. rewrite <- csr_run in A. unfold bus in *. rewrite req_csr in R. destruct (pc_op todo (tr t)) as [[w k]|] eqn:P; [|discriminate R].
  rewrite csr_tr. unfold ak. rewrite A, (op_held _ _ _ _ _ _ _ P). apply held_csr.
Qed.
Lemma csr_env_ok : csr_env D bus pins line. Proof. split; [exact csr_holds|exact Hp]. Qed.
Let akr (t : nat) := cp_ack (csrp_run D csrp_init bus pins line t).
Lemma akr_ak t : akr t = ak t. Proof. unfold akr, ak. rewrite csr_run. reflexivity. Qed.
(** A request starts in its cycle 0. *)
Lemma csr_starts t : starts bus akr t = match pc_op todo (tr t) with Some (_, O) => true | _ => false end.
Proof.
  unfold starts. unfold bus at 1. rewrite req_csr. destruct t as [|t]; [reflexivity|].
  unfold bus at 1. rewrite req_csr, akr_ak. destruct (pc_op todo (tr (S t))) as [[w [|k]]|] eqn:P; [| |reflexivity].
  - destruct (pc_op todo (tr t)) as [[w' k']|] eqn:P'; [|reflexivity]. cbn [negb orb andb]. destruct (ak t) eqn:A; [reflexivity|]. rewrite csr_tr, A, (op_held _ _ _ _ _ _ _ P') in P. discriminate P.
  - rewrite csr_tr in P. apply op_prev in P. destruct P as [P A]. rewrite P, A. reflexivity.
Qed.
Lemma csr_back t w k : pc_op todo (tr t) = Some (w, k) -> (k <= t)%nat /\ pc_op todo (tr (t - k)%nat) = Some (w, 0%nat) /\ starts bus akr (t - k)%nat = true.
Proof.
  revert t. induction k as [|k IH]; intros t P.
  - rewrite Nat.sub_0_r. split; [lia|]. split; [exact P|]. rewrite csr_starts, P. reflexivity.
  - destruct t as [|t]; [discriminate P|]. rewrite csr_tr in P. apply op_prev in P. destruct P as [P _]. destruct (IH t P) as (I1 & I2 & I3). replace (S t - S k)%nat with (t - k)%nat by lia. split; [lia|]. split; assumption.
Qed.
Lemma csr_k t w k : pc_op todo (tr t) = Some (w, k) -> (k <= 5)%nat /\ ak t = Nat.eqb k 5.
Proof.
  revert t. induction k as [|k IH]; intros t P.
  - destruct (csr_back t w 0 P) as (_ & _ & S0). rewrite Nat.sub_0_r in S0. destruct (phases D bus pins line csr_holds t S0 0%nat ltac:(lia)) as (_ & _ & A). rewrite Nat.add_0_r in A. split; [lia|]. rewrite <- akr_ak. exact A.
  - destruct (csr_back t w (S k) P) as (L & _ & S0). destruct t as [|t]; [lia|]. pose proof P as P'. rewrite csr_tr in P'. apply op_prev in P'. destruct P' as [P' A]. destruct (IH t P') as [K E]. rewrite A in E. symmetry in E. apply Nat.eqb_neq in E.
    split; [lia|]. destruct (phases D bus pins line csr_holds _ S0 (S k) ltac:(lia)) as (_ & _ & A'). replace (S t - S k + S k)%nat with (S t) in A' by lia. rewrite <- akr_ak. exact A'.
Qed.
Definition op_reg (w : op) : reg := match w with RdTimer => TimerIrq | RdIrq => SerialIrq | RdData | WrData _ => TxRx | Gpio None => InOutReg | Gpio (Some _) => LedsReg end.
Definition op_we (w : op) : bool := match w with WrData _ | Gpio (Some _) => true | _ => false end.
Lemma csr_reading t r : reading bus akr t r = match pc_op todo (tr t) with Some (w, O) => negb (op_we w) && reg_eqb (op_reg w) r | _ => false end.
Proof. unfold reading. rewrite csr_starts. unfold bus. destruct (pc_op todo (tr t)) as [[[| | |b|[w|]] [|k]]|]; reflexivity. Qed.
Lemma csr_writing t r : writing bus akr t r = match pc_op todo (tr t) with Some (w, O) => op_we w && reg_eqb (op_reg w) r | _ => false end.
Proof. unfold writing. rewrite csr_starts. unfold bus. destruct (pc_op todo (tr t)) as [[[| | |b|[w|]] [|k]]|]; reflexivity. Qed.
Lemma csr_rd_irq t : reading bus akr t SerialIrq = rd_irq todo tr t.
Proof. rewrite csr_reading. unfold rd_irq, op_at. destruct (pc_op todo (tr t)) as [[[| | |b|[w|]] [|k]]|]; reflexivity. Qed.
Lemma csr_stb_irq t : c_rstb (window SERIAL_AT 3 (cp_bus (x t) (bus t))) && (c_addr (window SERIAL_AT 3 (cp_bus (x t) (bus t))) =? 4) = rd_irq todo tr t.
Proof. etransitivity; [rewrite csr_run; apply (stb_s4 D bus pins line csr_holds t)|]. apply csr_rd_irq. Qed.
Lemma csr_rdy t : rdy t = match wr todo tr t with Some _ => true | None => false end /\ forall b, wr todo tr t = Some b -> txd t = b mod 256.
Proof.
  destruct t as [|t]; [split; [reflexivity|discriminate]|].
  assert (M : rdy (S t) = writing bus akr t TxRx) by (unfold rdy; rewrite csr_run; apply (serial_mux D bus pins line csr_holds t)).
  assert (W : writing bus akr t TxRx = true -> txd (S t) = b_dat_w (bus t) mod 256) by (unfold txd; rewrite csr_run; apply (serial_wd D bus pins line csr_holds t)).
  rewrite csr_writing in M, W. rewrite M. unfold wr, op_at.
  destruct (pc_op todo (tr t)) as [[w k]|] eqn:P.
  - destruct (csr_k t w k P) as [K A]. pose proof (csr_tr t) as E. rewrite A in E. destruct (Nat.eqb_spec k 5) as [->|N5].
    + rewrite E, (op_acked _ _ _ _ _ _ _ P). split; [reflexivity|discriminate].
    + rewrite E, (op_held _ _ _ _ _ _ _ P). destruct k as [|k].
      * destruct w as [| | |b|[w|]]; try (split; [reflexivity|discriminate]). split; [reflexivity|]. intros b2 Q. assert (b = b2) as <- by congruence. rewrite W by reflexivity. unfold bus. rewrite P. reflexivity.
      * destruct w as [| | |b|[w|]]; (split; [reflexivity|discriminate]).
  - destruct (pc_op todo (tr (S t))) as [[w k]|] eqn:P'; [|split; [reflexivity|discriminate]]. rewrite csr_tr in P'. apply op_fresh in P'; [|exact P]. subst k. destruct w as [| | |b|[w|]]; (split; [reflexivity|discriminate]).
Qed.
Lemma csr_tx t : cs_tx (cp_serial (x t)) = l_tx D 8 rdy txd t.
Proof. unfold l_tx. induction t as [|t IH]; [reflexivity|]. cbn [tx_run]. rewrite <- IH. reflexivity. Qed.
Lemma csr_rx t : cs_rx (cp_serial (x t)) = rx_run D 8 (rx_init 8) line (fun u => reading bus akr u TxRx) t.
Proof. rewrite csr_run. apply (C59_csr_receive D bus pins line csr_env_ok). Qed.
Lemma csr_read_value t w : pc_op todo (tr t) = Some (w, 5%nat) -> op_we w = false -> cp_dat (x t) = reg_value (x (t - 5)%nat) (pins (t - 5)%nat) (Some (op_reg w)).
Proof.
  intros P We. destruct (csr_back t w 5 P) as (L & P0 & S0). destruct (C59_csr_transfer D bus pins line csr_env_ok) as [T _]. destruct (T _ S0) as (_ & _ & V). clear T.
  replace (t - 5 + 5)%nat with t in V by lia. rewrite <- !csr_run in V. rewrite V.
  - unfold bus. rewrite P0. destruct w as [| | |b|[w|]]; try discriminate We; reflexivity.
  - unfold bus. rewrite P0. destruct w as [| | |b|[w|]]; try discriminate We; reflexivity.
Qed.
Lemma csr_port : port todo (fun t => e_move (e t)) tr idle rdy (fun t => cs_txi (cp_serial (x t))) (rises_later idle) full (fun t => cs_rxi (cp_serial (x t))) (rises_later full) ak irqs txd (fun t => rx_data 8 (cs_rx (cp_serial (x t)))) (fun t => cp_dat (x t)).
Proof.
  constructor; try reflexivity; try assumption.
  - intros t. rewrite csr_x. cbn [csrp_step cp_serial cserial_step cs_txi]. rewrite csr_stb_irq.
    assert (P : cs_txp (cp_serial (x t)) = match t with O => true | S v => idle v end) by (destruct t; reflexivity). rewrite P. fold (idle t).
    replace (idle t && negb match t with O => true | S v => idle v end) with (rises_later idle t) by (destruct t; [unfold rises_later; rewrite andb_false_r|]; reflexivity).
    destruct (rises_later idle t); [reflexivity|]. destruct (rd_irq todo tr t); [rewrite andb_false_r|rewrite andb_true_r]; reflexivity.
  - intros t. rewrite csr_x. cbn [csrp_step cp_serial cserial_step cs_rxi]. rewrite csr_stb_irq.
    assert (P : cs_rxp (cp_serial (x t)) = match t with O => true | S v => full v end) by (destruct t; reflexivity). rewrite P. fold (full t).
    replace (full t && negb match t with O => true | S v => full v end) with (rises_later full t) by (destruct t; [unfold rises_later; rewrite andb_false_r|]; reflexivity).
    destruct (rises_later full t); [reflexivity|]. destruct (rd_irq todo tr t); [rewrite andb_false_r|rewrite andb_true_r]; reflexivity.
  - intros t X. unfold irqs, cs_irq. rewrite X. reflexivity.
  - intros t w Bg _. unfold begins in Bg. destruct (csr_k t w 0 Bg) as [_ A]. exact A.
  - apply csr_rdy.
  - intros t b W. apply (proj2 (csr_rdy t)). exact W.
  - intros t I. pose proof (proj1 (csr_rdy t)) as R. unfold idle in I |- *. rewrite csr_x. cbn [csrp_step cp_serial cserial_step cs_tx]. fold (rdy t). fold (txd t). rewrite R. unfold tx_step. unfold tx_ack in I. rewrite I.
    destruct (wr todo tr t); [reflexivity|exact I].
  - intros t F N. assert (A : reading bus akr t TxRx = false). { rewrite csr_reading. unfold op_at in N. destruct (pc_op todo (tr t)) as [[[| | |b|[w|]] [|k]]|]; try reflexivity. destruct (N 0%nat eq_refl). }
    unfold full in F. rewrite csr_rx in F. destruct (C37_unread_character_kept D 8 line (fun u => reading bus akr u TxRx) ltac:(lia) t F A) as (_ & K1 & K2 & _). unfold full. rewrite !csr_rx. split; assumption.
  - intros t F Bg i Hi. unfold full in F |- *. rewrite csr_rx in F |- *. apply (rx_refractory D line (fun u => reading bus akr u TxRx) t F); [|lia]. cbv beta. rewrite csr_reading. unfold begins in Bg. rewrite Bg. reflexivity.
  - intros t k P. apply (csr_k t _ k P).
  - intros t k P A. unfold op_at in P. destruct (csr_k t _ k P) as [_ E]. rewrite A in E. symmetry in E. apply Nat.eqb_eq in E. subst k. rewrite (csr_read_value t _ P eq_refl). reflexivity.
  - intros t k P A. unfold op_at in P. destruct (csr_k t _ k P) as [_ E]. rewrite A in E. symmetry in E. apply Nat.eqb_eq in E. subst k. rewrite (csr_read_value t _ P eq_refl). apply Z.mod_small. apply (rx_data_range 8). lia.
Qed.
End Csr.

(** ** Specification *)
(** A transmitter (given bytes [data] when [rdy]) sends what the program prints: the bytes it accepts
    ([l_sent], each a frame on the line by C36) are always the first bytes of [todo], none is offered
    while it is busy, between critical sections the rest is in the queue and then the transmitter is
    busy or has just stopped being busy or [txi] announces that; and if interrupts are not shut out
    forever and the program goes on printing, every byte is sent. *)
Definition prints (D : Z) (todo : nat -> Z) (mv : nat -> move) (dr : nat -> drv) (rdy : nat -> bool) (data : nat -> Z) (txi : nat -> bool) : Prop :=
  let sent := l_sent D 8 rdy data in let idle t := tx_ack (l_tx D 8 rdy data t) in
  (forall t, sent t = map todo (seq 0 (length (sent t)))) /\
  (forall t, rdy t = true -> idle t = true) /\
  (forall t, d_pc (dr t) = Main -> sent t ++ d_queue (dr t) = map todo (seq 0 (d_n (dr t)))) /\
  (forall t, d_pc (dr t) = Main -> d_queue (dr t) <> [] -> idle t = false \/ txi t = true \/ exists u, t = S u /\ idle u = false) /\
  (fair mv dr -> forall n, exists t, (n < length (sent t))%nat).
(** The characters that have become available in a receiver up to cycle [t]. *)
Fixpoint arrivals (full : nat -> bool) (ch : nat -> Z) (t : nat) : list Z :=
  match t with O => [] | S u => arrivals full ch u ++ if full (S u) && negb (full u) then [ch (S u)] else [] end.
(** Every character the receiver makes available is stored once, in order, the last one possibly
    still to come; between critical sections only a character still in the receiver is missing, and
    the port announces it ([rxi]) or it has just come; and all are stored in the end. *)
Definition stores (mv : nat -> move) (dr : nat -> drv) (full : nat -> bool) (ch : nat -> Z) (rxi : nat -> bool) : Prop :=
  (forall t, exists rest, arrivals full ch t = d_sets (dr t) ++ rest ++ (if full t then [ch t] else []) /\ (length rest <= 1)%nat /\ (d_pc (dr t) = Main -> rest = [])) /\
  (forall t, d_pc (dr t) = Main -> full t = true -> rxi t = true \/ exists u, t = S u /\ full u = false) /\
  (fair mv dr -> forall t, exists u, (length (arrivals full ch t) <= length (d_sets (dr u)))%nat).
Lemma arrivals_received full ch rz : rz 0%nat = false -> (forall t, rz (S t) = full (S t) && negb (full t)) -> forall t, received rz ch t = arrivals full ch t.
Proof. intros _ H. induction t as [|t IH]; [reflexivity|]. cbn [received arrivals]. rewrite IH, H. reflexivity. Qed.

Section Conclude.
Variables (D : Z) (todo : nat -> Z) (mv : nat -> move) (dr : nat -> drv) (idle rdy txi rzt full rxi rzr ak irqs : nat -> bool) (txd ch dat : nat -> Z).
Hypothesis (Po : port todo mv dr idle rdy txi rzt full rxi rzr ak irqs txd ch dat) (HD : 1 <= D).
Hypothesis (Et : forall t, idle t = tx_ack (l_tx D 8 rdy txd t)) (Rt : forall t, rzt t = true -> t <> 0%nat -> exists u, t = S u /\ idle u = false).
Hypothesis (Td : forall t, 0 <= txd t < 256) (T0 : forall t, d_pc (dr t) = Main -> t <> 0%nat).
Lemma prints_ok : prints D todo mv dr rdy txd txi.
Proof.
  assert (As : forall t, accepted idle rdy txd t = l_sent D 8 rdy txd t) by (apply accepted_sent; exact Et).
  split; [|split; [|split; [|split]]].
  - intros t. rewrite <- As. apply (sent_in_order _ _ _ _ _ _ _ _ _ _ _ _ _ _ _ Po).
  - intros t R. rewrite <- Et. apply (never_dropped _ _ _ _ _ _ _ _ _ _ _ _ _ _ _ Po t R).
  - intros t M. rewrite <- As. apply (at_main _ _ _ _ _ _ _ _ _ _ _ _ _ _ _ Po t M).
  - intros t M Q. destruct (at_main _ _ _ _ _ _ _ _ _ _ _ _ _ _ _ Po t M) as (_ & P & _). rewrite <- Et. destruct (P Q) as [P'|[P'|P']]; auto.
    right. right. destruct (Rt t P' (T0 t M)) as (u & E & I). exists u. split; [exact E|]. rewrite <- Et. exact I.
  - intros F n. destruct (all_sent _ _ _ _ _ _ _ _ _ _ _ _ _ _ _ Po) with (n := n) as (u & Hu); [|exact F|exists u; rewrite <- As; exact Hu].
    intros t I. rewrite Et in I. destruct (tx_finishes D rdy txd HD Td t I) as (u & L & A). exists u. split; [exact L|]. rewrite Et. exact A.
Qed.
Lemma stores_ok : stores mv dr full ch rxi.
Proof.
  assert (Ar : forall t, received rzr ch t = arrivals full ch t) by (apply arrivals_received; apply Po).
  split; [|split].
  - intros t. rewrite <- Ar. apply (stored_prefix _ _ _ _ _ _ _ _ _ _ _ _ _ _ _ Po).
  - intros t M F. destruct (at_main _ _ _ _ _ _ _ _ _ _ _ _ _ _ _ Po t M) as (_ & _ & _ & P). destruct (P F) as [P'|P']; [auto|]. right. destruct t as [|u]; [rewrite (p_rzr0 _ _ _ _ _ _ _ _ _ _ _ _ _ _ _ Po) in P'; discriminate|].
    exists u. split; [reflexivity|]. rewrite (p_rzr _ _ _ _ _ _ _ _ _ _ _ _ _ _ _ Po) in P'. apply andb_prop in P'. destruct P' as [_ P']. apply negb_true_iff in P'. exact P'.
  - intros F t. destruct (all_stored _ _ _ _ _ _ _ _ _ _ _ _ _ _ _ Po F t) as (u & Hu). exists u. rewrite <- Ar. exact Hu.
Qed.
End Conclude.
Lemma main_later todo mv dr idle rdy txi rzt full rxi rzr ak irqs txd ch dat : port todo mv dr idle rdy txi rzt full rxi rzr ak irqs txd ch dat -> forall t, d_pc (dr t) = Main -> t <> 0%nat.
Proof. intros Po t M ->. rewrite (p_start _ _ _ _ _ _ _ _ _ _ _ _ _ _ _ Po) in M. discriminate M. Qed.

(** ** C63: what the example firmware prints is sent *)
Theorem C63_wishbone_prints : forall D todo e, 1 <= D -> (forall i, 0 <= todo i < 256) -> e_move (e 0%nat) = Wait ->
  let dr t := fst (wb_sys D todo e t) in let port t := snd (wb_sys D todo e t) in
  let rdy t := sr_tx_rdy (port t) (wb_bus (pc_op todo (dr t))) in let data t := sr_tx_data (port t) (wb_bus (pc_op todo (dr t))) in
  (forall t, sr_tx (port t) = l_tx D 8 rdy data t) /\
  prints D todo (fun t => e_move (e t)) dr rdy data (fun t => sr_txi (port t)).
Proof.
  intros D todo e HD Hb H0 dr pt rdy data. pose proof (wb_port D todo e Hb H0) as Po. split; [apply wb_tx|].
  eapply prints_ok; [exact Po|exact HD|intros t; unfold tx_ack; rewrite wb_tx; reflexivity| | |apply (main_later _ _ _ _ _ _ _ _ _ _ _ _ _ _ _ Po)].
  - intros [|u] R N; [contradiction|]. exists u. split; [reflexivity|]. rewrite rises_S in R. apply andb_prop in R. destruct R as [_ R]. apply negb_true_iff in R. exact R.
  - intros t. unfold data, sr_tx_data. match goal with |- context [if ?c then _ else _] => destruct c end; [apply Z.mod_pos_bound|]; lia.
Qed.
Theorem C63_csr_prints : forall D todo e, 1 <= D -> (forall i, 0 <= todo i < 256) -> e_move (e 0%nat) = Wait -> (forall t, 0 <= e_pins (e t) < 256) ->
  let dr t := fst (csr_sys D todo e t) in let port t := cp_serial (snd (csr_sys D todo e t)) in
  let rdy t := strobed (cs_mux (port t)) 0 in let data t := mx_wd (cs_mux (port t)) in
  (forall t, cs_tx (port t) = l_tx D 8 rdy data t) /\
  prints D todo (fun t => e_move (e t)) dr rdy data (fun t => cs_txi (port t)).
Proof.
  intros D todo e HD Hb H0 Hp dr pt rdy data. pose proof (csr_port D todo e Hb H0 Hp) as Po. split; [apply csr_tx|].
  eapply prints_ok; [exact Po|exact HD|intros t; unfold tx_ack; rewrite csr_tx; reflexivity| | |apply (main_later _ _ _ _ _ _ _ _ _ _ _ _ _ _ _ Po)].
  - intros [|u] R N; [contradiction|]. exists u. split; [reflexivity|]. unfold rises_later in R. apply andb_prop in R. destruct R as [_ R]. apply negb_true_iff in R. exact R.
  - intros [|t]; [unfold data; cbn; lia|]. unfold data, pt. cbn [csr_sys csr_step snd csrp_step cp_serial cserial_step cs_mux mux_step mx_wd window c_wdata cp_bus]. unfold PropsIsa.byte, Isa.fld. apply Z.mod_pos_bound. lia.
Qed.
(** C63: so a terminal running at the same rate, taking each character within half a bit time, shows
    a prefix of what the program prints, at most two characters behind. *)
Theorem C63_terminal : forall D todo mv dr rdy data txi ack, 3 <= D -> (forall t, 0 <= data t < 256) ->
  prints D todo mv dr rdy data txi -> prompt D 8 rdy data ack ->
  forall t, exists n, l_recv D 8 rdy data ack t = map todo (seq 0 n) /\ (n <= length (l_sent D 8 rdy data t) <= n + 2)%nat.
Proof.
  intros D todo mv dr rdy data txi ack HD Hd (P & _) Pr t. destruct (C38_stream D 8 rdy data ack HD ltac:(lia) Hd Pr t) as (_ & (rest & E & L) & _).
  exists (length (l_recv D 8 rdy data ack t)). split; [|rewrite E, app_length; lia].
  specialize (P t). rewrite E in P. rewrite app_length, seq_app, map_app in P. apply (f_equal (firstn (length (l_recv D 8 rdy data ack t)))) in P.
  rewrite !firstn_app, map_length, seq_length, Nat.sub_diag, !firstn_O, !app_nil_r, firstn_all in P. rewrite firstn_all2 in P; [exact P|]. rewrite map_length, seq_length. apply le_n.
Qed.

(** ** C64: what arrives is stored *)
Theorem C64_wishbone_stores : forall D todo e, (forall i, 0 <= todo i < 256) -> e_move (e 0%nat) = Wait ->
  let dr t := fst (wb_sys D todo e t) in let port t := snd (wb_sys D todo e t) in
  stores (fun t => e_move (e t)) dr (fun t => rx_rdy (sr_rx (port t))) (fun t => rx_data 8 (sr_rx (port t))) (fun t => sr_rxi (port t)).
Proof. intros D todo e Hb H0 dr pt. eapply stores_ok. apply (wb_port D todo e Hb H0). Qed.
Theorem C64_csr_stores : forall D todo e, (forall i, 0 <= todo i < 256) -> e_move (e 0%nat) = Wait -> (forall t, 0 <= e_pins (e t) < 256) ->
  let dr t := fst (csr_sys D todo e t) in let port t := cp_serial (snd (csr_sys D todo e t)) in
  stores (fun t => e_move (e t)) dr (fun t => rx_rdy (cs_rx (port t))) (fun t => rx_data 8 (cs_rx (port t))) (fun t => cs_rxi (port t)).
Proof. intros D todo e Hb H0 Hp dr pt. eapply stores_ok. apply (csr_port D todo e Hb H0 Hp). Qed.

(** C64: hence what a terminal at the other end of the line sends is stored, if each character is read
    within half a bit time of its arrival. *)
Lemma recv_arrivals D rdy data ack t : 0 <= D ->
  l_recv D 8 rdy data ack t ++ (if rx_rdy (l_rx D 8 rdy data ack t) then [rx_data 8 (l_rx D 8 rdy data ack t)] else []) =
  arrivals (fun u => rx_rdy (l_rx D 8 rdy data ack u)) (fun u => rx_data 8 (l_rx D 8 rdy data ack u)) t.
Proof.
  intros _. induction t as [|t IH]; [reflexivity|]. cbn [arrivals]. rewrite <- IH. rewrite recv_S. destruct (rx_rdy (l_rx D 8 rdy data ack t)) eqn:F.
  - rewrite andb_false_r, app_nil_r. cbn [andb]. destruct (ack t) eqn:A.
    + pose proof (rx_refractory D (l_line D 8 rdy data) ack t F A 1%nat ltac:(lia)) as R. replace (t + 1)%nat with (S t) in R by lia. change (rx_rdy (l_rx D 8 rdy data ack (S t)) = false) in R. rewrite R, app_nil_r. reflexivity.
    + destruct (C37_unread_character_kept D 8 (l_line D 8 rdy data) ack ltac:(lia) t F A) as (_ & R & Q & _). change (rx_rdy (l_rx D 8 rdy data ack (S t)) = true) in R. change (rx_data 8 (l_rx D 8 rdy data ack (S t)) = rx_data 8 (l_rx D 8 rdy data ack t)) in Q. rewrite R, Q. reflexivity.
  - cbn [andb negb]. rewrite andb_true_r, app_nil_r. reflexivity.
Qed.
Lemma stores_sent D rdy data ack mv dr full ch rxi : 3 <= D -> (forall t, 0 <= data t < 256) -> prompt D 8 rdy data ack ->
  (forall t, full t = rx_rdy (l_rx D 8 rdy data ack t)) -> (forall t, ch t = rx_data 8 (l_rx D 8 rdy data ack t)) ->
  stores mv dr full ch rxi -> forall t, exists rest, l_sent D 8 rdy data t = d_sets (dr t) ++ rest /\ (length rest <= 3)%nat.
Proof.
  intros HD Hd Pr Ef Ec (S1 & _) t. destruct (S1 t) as (r & E & L & _). destruct (C38_stream D 8 rdy data ack HD ltac:(lia) Hd Pr t) as (_ & (rest & Es & Ls) & _).
  assert (Ea : arrivals full ch t = arrivals (fun u => rx_rdy (l_rx D 8 rdy data ack u)) (fun u => rx_data 8 (l_rx D 8 rdy data ack u)) t).
  { clear -Ef Ec. induction t as [|t IH]; [reflexivity|]. cbn [arrivals]. rewrite IH, !Ef, Ec. reflexivity. }
  rewrite Ea, <- recv_arrivals in E by lia. rewrite Ef, Ec, app_assoc in E. apply app_inv_tail in E.
  exists (r ++ rest). rewrite app_assoc, <- E, app_length. split; [exact Es|lia].
Qed.
Lemma rx_run_ext D n a l l' k k' t : (forall u, l u = l' u) -> (forall u, k u = k' u) -> rx_run D n a l k t = rx_run D n a l' k' t.
Proof. intros L K. induction t as [|t IH]; [reflexivity|]. cbn [rx_run]. rewrite IH, L, K. reflexivity. Qed.
(** The firmware has the data register's address on the bus for a read: in any cycle, in the first. *)
Definition reads_data (todo : nat -> Z) (d : drv) : bool := match pc_op todo d with Some (RdData, _) => true | _ => false end.
Definition begins_reading (todo : nat -> Z) (d : drv) : bool := match pc_op todo d with Some (RdData, O) => true | _ => false end.
Theorem C64_wishbone_terminal : forall D todo e rdy data, 3 <= D -> (forall i, 0 <= todo i < 256) -> e_move (e 0%nat) = Wait ->
  (forall t, 0 <= data t < 256) -> (forall t, e_rx (e t) = l_line D 8 rdy data t) ->
  let dr t := fst (wb_sys D todo e t) in
  prompt D 8 rdy data (fun t => reads_data todo (dr t)) ->
  forall t, exists rest, l_sent D 8 rdy data t = d_sets (dr t) ++ rest /\ (length rest <= 3)%nat.
Proof.
  intros D todo e rdy data HD Hb H0 Hd Hl dr Pr.
  assert (E : forall t, sr_rx (snd (wb_sys D todo e t)) = l_rx D 8 rdy data (fun u => reads_data todo (dr u)) t).
  { intros t. rewrite wb_rx. apply rx_run_ext; [exact Hl|]. intros u. apply wb_rx_ack. }
  eapply stores_sent; [exact HD|exact Hd|exact Pr| | |exact (C64_wishbone_stores D todo e Hb H0)]; intros t; cbv beta; rewrite E; reflexivity.
Qed.
Theorem C64_csr_terminal : forall D todo e rdy data, 3 <= D -> (forall i, 0 <= todo i < 256) -> e_move (e 0%nat) = Wait -> (forall t, 0 <= e_pins (e t) < 256) ->
  (forall t, 0 <= data t < 256) -> (forall t, e_rx (e t) = l_line D 8 rdy data t) ->
  let dr t := fst (csr_sys D todo e t) in
  prompt D 8 rdy data (fun t => begins_reading todo (dr t)) ->
  forall t, exists rest, l_sent D 8 rdy data t = d_sets (dr t) ++ rest /\ (length rest <= 3)%nat.
Proof.
  intros D todo e rdy data HD Hb H0 Hp Hd Hl dr Pr.
  assert (E : forall t, cs_rx (cp_serial (snd (csr_sys D todo e t))) = l_rx D 8 rdy data (fun u => begins_reading todo (dr u)) t).
  { intros t. rewrite csr_rx by assumption. apply rx_run_ext; [exact Hl|]. intros u. rewrite csr_reading. unfold begins_reading, dr. destruct (pc_op todo _) as [[[| | |b|[w|]] [|k]]|]; reflexivity. }
  eapply stores_sent; [exact HD|exact Hd|exact Pr| | |exact (C64_csr_stores D todo e Hb H0 Hp)]; intros t; cbv beta; rewrite E; reflexivity.
Qed.

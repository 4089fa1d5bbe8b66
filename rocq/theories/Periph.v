(** * Peripherals of the example SoC (examples/attosoc.py): LEDs/GPIO, timer, serial port *)
From Coq Require Import ZArith Lia Bool List.
From Verif Require Import Bits BitLemmas SocMem Uart.
Import ListNotations.
Open Scope Z_scope.

(** A request on a peripheral's Wishbone bus (STB and CYC), and byte lane 0 selected. *)
(** attosoc.py:171, 189, 374, 613 *)
Definition p_req (b : wbus) : bool := b_stb b && b_cyc b.
(** attosoc.py:172, 375, 613 *)
Definition p_sel0 (b : wbus) : bool := Z.testbit (b_sel b) 0.

(** ** WBLeds (attosoc.py:112-194) *)
Record leds := { ld_leds : Z; ld_o : Z; ld_oe : Z; ld_dat : Z; ld_ack : bool }.
(** attosoc.py:146-154 *)
Definition leds_init : leds := {| ld_leds := 0; ld_o := 0; ld_oe := 0; ld_dat := 0; ld_ack := false |}.
(** One cycle (attosoc.py:171-192); [gi] is the value of the eight GPIO input pins.  The eight
    one-bit [o]/[oe] signals are kept as one byte each. *)
Definition leds_step (l : leds) (b : wbus) (gi : Z) : leds :=
  let a := b_adr b mod 4 in
  let d := b_dat_w b mod 2 ^ 8 in
  {| ld_leds := if p_req b && ld_ack l && b_we b && (a =? 0) && p_sel0 b then d else ld_leds l;
     ld_dat := if p_req b && negb (ld_ack l) && (a =? 1) && p_sel0 b && negb (b_we b) then gi else ld_dat l;
     ld_o := if p_req b && negb (ld_ack l) && (a =? 1) && p_sel0 b && b_we b then d else ld_o l;
     ld_oe := if p_req b && negb (ld_ack l) && b_we b && (a =? 2) && p_sel0 b then d else ld_oe l;
     ld_ack := p_req b && negb (ld_ack l) |}.

(** ** WBTimer (attosoc.py:333-386) *)
Record timer := { tm_cnt : Z; tm_dat : Z; tm_ack : bool }.
(** attosoc.py:369 *)
Definition timer_init : timer := {| tm_cnt := 0; tm_dat := 0; tm_ack := false |}.
(** attosoc.py:372 *)
Definition tm_irq (m : timer) : bool := bitb (tm_cnt m) 14.
(** Clearing bit 14 of a 15-bit value. *)
(** attosoc.py:379 *)
Definition clear14 (x : Z) : Z := x mod 2 ^ 14.
(** One cycle (attosoc.py:369-384). *)
Definition timer_step (m : timer) (b : wbus) : timer :=
  let rd := p_req b && negb (b_we b) && p_sel0 b in
  let c := (tm_cnt m + 1) mod 2 ^ 15 in
  {| tm_cnt := if rd && tm_irq m then clear14 c else c;
     tm_dat := if rd then b2z (tm_irq m) else tm_dat m;
     tm_ack := p_req b && negb (tm_ack m) |}.

(** ** CSRTimer (attosoc.py:389-450), seen from its register port: [r_stb] is the read strobe of
    the IRQ register; the CSR bridge itself is amaranth-soc code and is not modelled. *)
Definition csr_timer_step (cnt : Z) (r_stb : bool) : Z :=
  let c := (cnt + 1) mod 2 ^ 15 in if r_stb && bitb cnt 14 then clear14 c else c.

(** ** WBSerial (attosoc.py:546-644); [D] is the divisor handed to the UART (attosoc.py:589) *)
Definition WB_DIVISOR := 12000000 / 9600.
(** attosoc.py:597-600, 589, and the registered [dat_r] and [ack] of the bus. *)
Record serial := { sr_tx : txst; sr_rx : rxst; sr_rxi : bool; sr_rxp : bool; sr_txi : bool; sr_txp : bool;
                   sr_dat : Z; sr_ack : bool }.
(** attosoc.py:595-600 *)
Definition serial_init : serial :=
  {| sr_tx := tx_init 8; sr_rx := rx_init 8; sr_rxi := false; sr_rxp := false; sr_txi := false; sr_txp := false; sr_dat := 0; sr_ack := false |}.
(** Accesses to the two registers (attosoc.py:613-614, 625-626). *)
Definition at_rxtx (b : wbus) : bool := p_req b && p_sel0 b && Z.even (b_adr b).
(** attosoc.py:625-626 *)
Definition irq_read (q : serial) (b : wbus) : bool := p_req b && p_sel0 b && Z.odd (b_adr b) && negb (b_we b) && negb (sr_ack q).
(** [rx_ack] (attosoc.py:616-617), [tx_rdy] (attosoc.py:619-623). *)
Definition sr_rx_ack (b : wbus) : bool := at_rxtx b && negb (b_we b).
(** attosoc.py:619-623 *)
Definition sr_tx_rdy (q : serial) (b : wbus) : bool := at_rxtx b && (sr_ack q && b_we b).
(** attosoc.py:619-623 *)
Definition sr_tx_data (q : serial) (b : wbus) : Z := if sr_tx_rdy q b then b_dat_w b mod 2 ^ 8 else 0.
(** [irq] and [tx] (attosoc.py:602-606). *)
Definition sr_irq (q : serial) : bool := sr_rxi q || sr_txi q.
(** attosoc.py:604 *)
Definition sr_line (q : serial) : bool := tx_o (sr_tx q).
(** One cycle; [rx] is the serial input pin.  The "don't miss an IRQ" assignments come last
    (attosoc.py:638-642) and win over the clearing. *)
Definition serial_step (D : Z) (q : serial) (b : wbus) (rx : bool) : serial :=
  {| sr_tx := tx_step D 8 (sr_tx q) (sr_tx_rdy q b) (sr_tx_data q b);
     sr_rx := rx_step D 8 (sr_rx q) rx (sr_rx_ack b);
     sr_rxp := rx_rdy (sr_rx q); sr_txp := tx_ack (sr_tx q);
     sr_rxi := if rx_rdy (sr_rx q) && negb (sr_rxp q) then true else if irq_read q b then false else sr_rxi q;
     sr_txi := if tx_ack (sr_tx q) && negb (sr_txp q) then true else if irq_read q b then false else sr_txi q;
     sr_dat := if irq_read q b then b2z (sr_rxi q) + 2 * b2z (sr_txi q)
               else if at_rxtx b then rx_data 8 (sr_rx q) else sr_dat q;
     sr_ack := p_req b && negb (sr_ack q) |}.

(** ** Runs on an arbitrary bus waveform *)
(** attosoc.py:366-386, cycle after cycle. *)
Fixpoint timer_run (m : timer) (b : nat -> wbus) (t : nat) : timer :=
  match t with O => m | S k => timer_step (timer_run m b k) (b k) end.
(** attosoc.py:168-194, cycle after cycle. *)
Fixpoint leds_run (l : leds) (b : nat -> wbus) (gi : nat -> Z) (t : nat) : leds :=
  match t with O => l | S k => leds_step (leds_run l b gi k) (b k) (gi k) end.
(** attosoc.py:591-644, cycle after cycle. *)
Fixpoint serial_run (D : Z) (q : serial) (b : nat -> wbus) (rx : nat -> bool) (t : nat) : serial :=
  match t with O => q | S k => serial_step D (serial_run D q b rx k) (b k) (rx k) end.

(** A classic Wishbone transaction as the core makes it with these slaves (C05, C33_wbmemory_system):
    the request is up in cycles [t] and [t + 1], ACK comes in cycle [t + 1]. *)
Record access (b : nat -> wbus) (ack : nat -> bool) (t : nat) (adr : Z) (we : bool) (sel dat : Z) : Prop := {
  ac_req0 : p_req (b t) = true; ac_req1 : p_req (b (S t)) = true;
  ac_ack0 : ack t = false; ac_ack1 : ack (S t) = true;
  ac_adr0 : b_adr (b t) = adr; ac_adr1 : b_adr (b (S t)) = adr;
  ac_we0 : b_we (b t) = we; ac_we1 : b_we (b (S t)) = we;
  ac_sel0 : b_sel (b t) = sel; ac_sel1 : b_sel (b (S t)) = sel;
  ac_dat0 : b_dat_w (b t) = dat; ac_dat1 : b_dat_w (b (S t)) = dat }.

(** ** Timer *)
Lemma cnt_range m : 0 <= tm_cnt m < 2 ^ 15 -> tm_cnt m = tm_cnt m mod 2 ^ 14 + 2 ^ 14 * b2z (tm_irq m).
Proof.
  intros H. unfold tm_irq, bitb, bits. set (c := tm_cnt m) in *. change (2 ^ 1) with 2.
  pose proof (Z.div_mod c (2 ^ 14) ltac:(lia)) as E. assert (0 <= c / 2 ^ 14 < 2). { split; [apply Z.div_pos; lia|apply Z.div_lt_upper_bound; lia]. }
  rewrite (Z.mod_small (c / 2 ^ 14)) by lia. destruct (Z.eqb_spec (c / 2 ^ 14) 1); cbn [b2z]; lia.
Qed.
Lemma mod_15_14 x : (x mod 2 ^ 15) mod 2 ^ 14 = x mod 2 ^ 14.
Proof. rewrite <- Znumtheory.Zmod_div_mod; try lia. exists 2. reflexivity. Qed.
Section Timer.
Variables (b : nat -> wbus).
Let st := timer_run timer_init b.
Lemma timer_S t : st (S t) = timer_step (st t) (b t). Proof. reflexivity. Qed.
Lemma timer_range t : 0 <= tm_cnt (st t) < 2 ^ 15.
Proof.
  destruct t as [|t]; [cbn; lia|]. rewrite timer_S. unfold timer_step, clear14. cbn [tm_cnt].
  pose proof (Z.mod_pos_bound (tm_cnt (st t) + 1) (2 ^ 15) ltac:(lia)).
  destruct (_ && _); [|assumption]. pose proof (Z.mod_pos_bound ((tm_cnt (st t) + 1) mod 2 ^ 15) (2 ^ 14) ltac:(lia)). lia.
Qed.
Lemma timer_low t : tm_cnt (st t) mod 2 ^ 14 = Z.of_nat t mod 2 ^ 14.
Proof.
  induction t as [|t IH]; [reflexivity|]. rewrite timer_S, Nat2Z.inj_succ. unfold timer_step, clear14. cbn [tm_cnt].
  assert (E : ((tm_cnt (st t) + 1) mod 2 ^ 15) mod 2 ^ 14 = Z.succ (Z.of_nat t) mod 2 ^ 14).
  { rewrite mod_15_14. rewrite Z.add_mod, IH, <- Z.add_mod by lia. f_equal; lia. }
  destruct (_ && _); [rewrite Z.mod_mod by lia|]; exact E.
Qed.
(** What one cycle does to the interrupt line. *)
Lemma timer_irq_next t : let rd := p_req (b t) && negb (b_we (b t)) && p_sel0 (b t) in
  tm_irq (st (S t)) =
  if tm_irq (st t) then negb rd && negb (Z.of_nat (S t) mod 2 ^ 14 =? 0) else Z.of_nat (S t) mod 2 ^ 14 =? 0.
Proof.
  cbv zeta. pose proof (timer_range t) as R. pose proof (timer_low t) as L. rewrite (cnt_range _ R) in L.
  pose proof (cnt_range _ R) as E. rewrite timer_S. unfold tm_irq at 1. unfold timer_step. cbn [tm_cnt].
  set (rd := p_req (b t) && negb (b_we (b t)) && p_sel0 (b t)). set (q := tm_irq (st t)) in *.
  rewrite Nat2Z.inj_succ. pose proof (timer_low t) as L'. set (lo := tm_cnt (st t) mod 2 ^ 14) in *.
  assert (Hlo : 0 <= lo < 2 ^ 14) by (apply Z.mod_pos_bound; lia).
  assert (Es : Z.succ (Z.of_nat t) mod 2 ^ 14 = (lo + 1) mod 2 ^ 14).
  { rewrite L'. unfold Z.succ. rewrite Z.add_mod_idemp_l by lia. reflexivity. }
  rewrite Es. unfold bitb, bits, clear14. change (2 ^ 1) with 2.
  assert (Hc : lo + 1 < 2 ^ 14 \/ lo + 1 = 2 ^ 14) by lia. rewrite E.
  destruct q; cbn [b2z].
  - rewrite andb_true_r. destruct Hc as [Hc|Hc].
    + rewrite (Z.mod_small (lo + 1)) by lia. rewrite (Z.mod_small (lo + 2 ^ 14 * 1 + 1)) by lia. destruct (Z.eqb_spec (lo + 1) 0); [lia|].
      destruct rd; cbn [negb andb].
      * replace (lo + 2 ^ 14 * 1 + 1) with (lo + 1 + 1 * 2 ^ 14) by lia. rewrite Z.mod_add by lia. rewrite (Z.mod_small (lo + 1)) by lia.
        rewrite Z.div_small by lia. reflexivity.
      * replace (lo + 2 ^ 14 * 1 + 1) with (lo + 1 + 1 * 2 ^ 14) by lia. rewrite Z.div_add by lia. rewrite Z.div_small by lia. reflexivity.
    + replace (lo + 2 ^ 14 * 1 + 1) with (2 ^ 15) by lia. rewrite Hc, !Z.mod_same by lia. destruct rd; reflexivity.
  - rewrite andb_false_r. rewrite Z.mul_0_r, Z.add_0_r. destruct Hc as [Hc|Hc].
    + rewrite (Z.mod_small (lo + 1) (2 ^ 15)), (Z.mod_small (lo + 1)) by lia. rewrite Z.div_small by lia. destruct (Z.eqb_spec (lo + 1) 0); [lia|reflexivity].
    + rewrite Hc. reflexivity.
Qed.
End Timer.

(** C39: on any bus traffic, a timer tick falls in exactly every 16384th cycle after reset.  It
    raises the interrupt unless one is still pending (then it withdraws it); between ticks the
    interrupt stays up until the first cycle of a read, and never rises. *)
Theorem C39_timer_irq : forall b, let st := timer_run timer_init b in
  tm_irq (st 0%nat) = false /\
  forall t, let tick := Z.of_nat (S t) mod 16384 =? 0 in
  let rd := b_stb (b t) && b_cyc (b t) && negb (b_we (b t)) && Z.testbit (b_sel (b t)) 0 in
  tm_irq (st (S t)) = if tm_irq (st t) then negb rd && negb tick else tick.
Proof. intros b st. split; [reflexivity|]. intros t. apply (timer_irq_next b t). Qed.

(** C39: what a read transaction returns. *)
Theorem C39_timer_read_value : forall b t adr sel dat, let st := timer_run timer_init b in
  access b (fun u => tm_ack (st u)) t adr false sel dat -> Z.testbit sel 0 = true ->
  tm_dat (st (S t)) = b2z (tm_irq (st t)).
Proof.
  intros b t adr sel dat st A S0. unfold st. cbn [timer_run]. fold st. unfold timer_step, p_sel0. cbn [tm_dat].
  rewrite (ac_req0 _ _ _ _ _ _ _ A), (ac_we0 _ _ _ _ _ _ _ A), (ac_sel0 _ _ _ _ _ _ _ A), S0. reflexivity.
Qed.
(** The documented contract ("IRQ and bit 14 is cleared on read of the IRQ register") is that a
    pending interrupt is only cleared by a read that reports it.  It holds unless the interrupt
    rises exactly in the second cycle of the read. *)
Theorem C39_cleared_irq_is_reported_partial : forall b t adr sel dat, let st := timer_run timer_init b in
  access b (fun u => tm_ack (st u)) t adr false sel dat -> Z.testbit sel 0 = true ->
  tm_irq (st (S t)) = false ->
  tm_irq (st (S (S t))) = (Z.of_nat (S (S t)) mod 16384 =? 0) /\
  (tm_dat (st (S t)) = 1 <-> tm_irq (st t) = true) /\ (tm_dat (st (S t)) = 0 <-> tm_irq (st t) = false).
Proof.
  intros b t adr sel dat st A S0 N. split.
  - unfold st. rewrite (timer_irq_next b (S t)). fold st. rewrite N. reflexivity.
  - pose proof (C39_timer_read_value b t adr sel dat A S0) as V. cbv zeta in V. fold st in V. rewrite V. destruct (tm_irq (st t)); cbn [b2z]; split; split; congruence.
Qed.
(** And then it is lost: a read started one cycle before a tick returns 0, and the interrupt the
    tick raises is cleared at the end of the read, without any read ever reporting it. *)
Theorem C39_refuted_lost_tick : exists b t, let st := timer_run timer_init b in
  access b (fun u => tm_ack (st u)) t 0 false 1 0 /\ (forall u, u <> t -> u <> S t -> p_req (b u) = false) /\
  tm_dat (st (S t)) = 0 /\ tm_irq (st (S t)) = true /\
  forall u, (S (S t) <= u < S t + 2 ^ 14)%nat -> tm_irq (st u) = false.
Proof.
  set (t := Z.to_nat 16383).
  set (b := fun u => let r := Nat.eqb u t || Nat.eqb u (S t) in
     {| b_cyc := r; b_stb := r; b_we := false; b_adr := 0; b_sel := 1; b_dat_w := 0 |}).
  assert (Et : Z.of_nat t = 16383) by (unfold t; lia).
  exists b, t. cbv zeta. set (st := timer_run timer_init b).
  assert (Off : forall u, u <> t -> u <> S t -> p_req (b u) = false).
  { intros u H1 H2. unfold p_req, b. cbn [b_stb b_cyc]. destruct (Nat.eqb_spec u t); [congruence|]. destruct (Nat.eqb_spec u (S t)); [congruence|reflexivity]. }
  assert (On : p_req (b t) = true). { unfold p_req, b. cbn [b_stb b_cyc]. rewrite Nat.eqb_refl. reflexivity. }
  assert (On' : p_req (b (S t)) = true). { unfold p_req, b. cbn [b_stb b_cyc]. rewrite (Nat.eqb_refl (S t)), orb_true_r. reflexivity. }
  assert (Low : forall u, (u <= t)%nat -> tm_irq (st u) = false).
  { induction u as [|u IH]; intros Hu; [reflexivity|]. unfold st. rewrite (timer_irq_next b u). fold st. rewrite IH by lia.
    apply Z.eqb_neq. rewrite Z.mod_small; lia. }
  assert (A0 : tm_ack (st t) = false).
  { replace t with (S (t - 1)) by lia. unfold st. rewrite timer_S. cbn [timer_step tm_ack]. rewrite Off by lia. reflexivity. }
  assert (A1 : tm_ack (st (S t)) = true).
  { unfold st. rewrite timer_S. fold st. cbn [timer_step tm_ack]. rewrite On, A0. reflexivity. }
  assert (I1 : tm_irq (st (S t)) = true).
  { unfold st. rewrite (timer_irq_next b t). fold st. rewrite Low by lia. apply Z.eqb_eq. rewrite Nat2Z.inj_succ, Et. reflexivity. }
  assert (Ac : access b (fun u => tm_ack (st u)) t 0 false 1 0).
  { constructor; try assumption; reflexivity. }
  split; [exact Ac|]. split; [exact Off|]. split; [|split; [exact I1|]].
  - pose proof (C39_timer_read_value b t 0 1 0 Ac eq_refl) as V. cbv zeta in V. fold st in V. rewrite V, Low by lia. reflexivity.
  - assert (P14 : Z.of_nat (2 ^ 14) = 16384) by (rewrite Nat2Z.inj_pow; reflexivity).
    assert (Q : forall k, (S (S t) + k < S t + 2 ^ 14)%nat -> tm_irq (st (S (S t) + k)%nat) = false).
    { induction k as [|k IH]; intros Hk.
      - rewrite Nat.add_0_r. unfold st. rewrite (timer_irq_next b (S t)). fold st. rewrite I1, On'. unfold p_sel0, b. cbn [b_we b_sel]. reflexivity.
      - replace (S (S t) + S k)%nat with (S (S (S t) + k)) by lia. unfold st. rewrite (timer_irq_next b (S (S t) + k)). fold st. rewrite IH by lia.
        apply Z.eqb_neq. intros Hm. apply Z.mod_divide in Hm; [|lia]. destruct Hm as [x Hx]. lia. }
    intros u Hu. replace u with (S (S t) + (u - S (S t)))%nat by lia. apply Q. lia.
Qed.

(** The CSR-bus version has a one-cycle read strobe: the value read is the one that is cleared. *)
(** attosoc.py:432-450, cycle after cycle. *)
Fixpoint csr_timer_run (r_stb : nat -> bool) (t : nat) : Z :=
  match t with O => 0 | S k => csr_timer_step (csr_timer_run r_stb k) (r_stb k) end.
(** attosoc.py:442 *)
Definition csr_timer_irq (r_stb : nat -> bool) (t : nat) : bool := bitb (csr_timer_run r_stb t) 14.
Lemma csr_timer_is_timer r_stb t :
  csr_timer_run r_stb t = tm_cnt (timer_run timer_init (fun u => {| b_cyc := r_stb u; b_stb := true; b_we := false; b_adr := 0; b_sel := 1; b_dat_w := 0 |}) t).
Proof.
  induction t as [|t IH]; [reflexivity|]. cbn [csr_timer_run timer_run]. rewrite IH. unfold csr_timer_step, timer_step, p_req, p_sel0. cbn [b_cyc b_stb b_we b_sel tm_cnt].
  destruct (r_stb t); reflexivity.
Qed.
Theorem C39_csr_timer : forall r_stb t,
  let tick := Z.of_nat (S t) mod 16384 =? 0 in
  csr_timer_irq r_stb 0 = false /\
  csr_timer_irq r_stb (S t) = if csr_timer_irq r_stb t then negb (r_stb t) && negb tick else tick.
Proof.
  intros r_stb t tick. split; [reflexivity|]. unfold csr_timer_irq. rewrite !csr_timer_is_timer.
  set (b := fun u => {| b_cyc := r_stb u; b_stb := true; b_we := false; b_adr := 0; b_sel := 1; b_dat_w := 0 |}).
  pose proof (timer_irq_next b t) as P. cbv zeta in P. unfold tm_irq in P. rewrite P. unfold p_req, p_sel0, b. cbn [b_stb b_cyc b_we b_sel].
  destruct (r_stb t); reflexivity.
Qed.

(** ** Serial port *)
Section Serial.
Variables (D : Z) (b : nat -> wbus) (rx : nat -> bool).
Let st := serial_run D serial_init b rx.
Lemma serial_S t : st (S t) = serial_step D (st t) (b t) (rx t). Proof. reflexivity. Qed.
(** The UART inside is driven by the bus. *)
Lemma serial_tx t : sr_tx (st t) = tx_run D 8 (tx_init 8) (fun u => sr_tx_rdy (st u) (b u)) (fun u => sr_tx_data (st u) (b u)) t.
Proof. induction t as [|t IH]; [reflexivity|]. rewrite serial_S. cbn [tx_run serial_step sr_tx]. rewrite IH. reflexivity. Qed.
Lemma serial_rx t : sr_rx (st t) = rx_run D 8 (rx_init 8) rx (fun u => sr_rx_ack (b u)) t.
Proof. induction t as [|t IH]; [reflexivity|]. rewrite serial_S. cbn [rx_run serial_step sr_rx]. rewrite IH. reflexivity. Qed.
Lemma serial_data_range u : 0 <= sr_tx_data (st u) (b u) < 2 ^ 8.
Proof. unfold sr_tx_data. destruct (sr_tx_rdy _ _); [apply Z.mod_pos_bound|]; lia. Qed.

(** A flip-flop set by [ev] and cleared by [rd], set winning. *)
Lemma sticky (f ev rd : nat -> bool) : f 0%nat = false -> (forall t, f (S t) = if ev t then true else if rd t then false else f t) ->
  forall t, f t = true <-> exists u, (u < t)%nat /\ ev u = true /\ forall v, (u < v < t)%nat -> rd v = false.
Proof.
  intros F0 FS. induction t as [|t IH].
  - rewrite F0. split; [discriminate|]. intros (u & Hu & _). lia.
  - rewrite FS. destruct (ev t) eqn:Ev.
    + split; [|reflexivity]. intros _. exists t. repeat split; [lia|assumption|]. intros v Hv. lia.
    + destruct (rd t) eqn:Rd.
      * split; [discriminate|]. intros (u & Hu & E & N). destruct (Nat.eq_dec u t) as [->|Ne]; [congruence|]. rewrite N in Rd by lia. discriminate.
      * rewrite IH. split; intros (u & Hu & E & N); exists u.
        -- repeat split; [lia|assumption|]. intros v Hv. destruct (Nat.eq_dec v t) as [->|]; [assumption|apply N; lia].
        -- destruct (Nat.eq_dec u t) as [->|Ne]; [congruence|]. repeat split; [lia|assumption|]. intros v Hv. apply N. lia.
Qed.
End Serial.

(** A signal rises in cycle [u] if it is high and was low the cycle before (or [u] is the first
    cycle after reset). *)
Definition rises (f : nat -> bool) (u : nat) : bool := f u && match u with O => true | S v => negb (f v) end.
(** First cycle of a read of the IRQ register. *)
Definition irq_read_starts (b : nat -> wbus) (ack : nat -> bool) (v : nat) : bool :=
  b_stb (b v) && b_cyc (b v) && Z.testbit (b_sel (b v)) 0 && Z.odd (b_adr (b v)) && negb (b_we (b v)) && negb (ack v).

(** C40: the two interrupt bits, for every bus and line history: a bit is up exactly when its
    event happened and no read of the IRQ register has started since; an event in the very cycle
    of such a read is kept for the next one.  The "transmitter empty" event happens right after
    reset, which is how software tells this port from the CSR one. *)
Theorem C40_serial_interrupts : forall D b rx,
  let st := serial_run D serial_init b rx in
  let full u := rx_rdy (sr_rx (st u)) in
  let empty u := tx_ack (sr_tx (st u)) in
  let clears := irq_read_starts b (fun u => sr_ack (st u)) in
  (forall t, sr_rxi (st t) = true <-> exists u, (u < t)%nat /\ rises full u = true /\ forall v, (u < v < t)%nat -> clears v = false) /\
  (forall t, sr_txi (st t) = true <-> exists u, (u < t)%nat /\ rises empty u = true /\ forall v, (u < v < t)%nat -> clears v = false) /\
  rises empty 0 = true /\
  (forall t, sr_irq (st t) = sr_rxi (st t) || sr_txi (st t)) /\
  (forall t, clears t = true -> sr_dat (st (S t)) = b2z (sr_rxi (st t)) + 2 * b2z (sr_txi (st t))).
Proof.
  intros D b rx st full empty clears.
  assert (Cl : forall t, clears t = irq_read (st t) (b t)).
  { intros t. unfold clears, irq_read_starts, irq_read, p_req, p_sel0. reflexivity. }
  assert (Pr : forall t, sr_rxp (st t) = match t with O => false | S v => full v end) by (intros [|t]; reflexivity).
  assert (Pt : forall t, sr_txp (st t) = match t with O => false | S v => empty v end) by (intros [|t]; reflexivity).
  split; [|split; [|split; [reflexivity|split; [reflexivity|]]]].
  - apply (sticky (fun t => sr_rxi (st t)) (rises full) clears); [reflexivity|]. intros t. rewrite Cl. unfold st. rewrite (serial_S D b rx t). fold st.
    cbn [serial_step sr_rxi]. rewrite Pr. unfold rises. destruct t; [rewrite ?andb_true_r|]; reflexivity.
  - apply (sticky (fun t => sr_txi (st t)) (rises empty) clears); [reflexivity|]. intros t. rewrite Cl. unfold st. rewrite (serial_S D b rx t). fold st.
    cbn [serial_step sr_txi]. rewrite Pt. unfold rises. destruct t; [rewrite ?andb_true_r|]; reflexivity.
  - intros t C. rewrite Cl in C. unfold st. rewrite (serial_S D b rx t). fold st. cbn [serial_step sr_dat]. rewrite C. reflexivity.
Qed.

(** C41: storing a byte to the data register.  If the transmitter is ready when the store is
    acknowledged, exactly that byte's frame follows on the line; if it is busy the byte is dropped
    and the transmitter carries on as in a cycle without a store.  Nothing else starts a frame. *)
Theorem C41_serial_transmit : forall D b rx, 1 <= D ->
  let st := serial_run D serial_init b rx in
  (forall t adr sel dat, access b (fun u => sr_ack (st u)) t adr true sel dat -> Z.testbit sel 0 = true -> Z.even adr = true ->
    if tx_ack (sr_tx (st (S t)))
    then (forall j, Z.of_nat j < 10 * D -> sr_line (st (t + 2 + j)%nat) = frame_bit 8 (dat mod 256) (Z.of_nat j / D)) /\
         (forall j, Z.of_nat j < 10 * D -> tx_ack (sr_tx (st (t + 2 + j)%nat)) = false) /\
         tx_ack (sr_tx (st (t + 2 + Z.to_nat (10 * D))%nat)) = true
    else sr_tx (st (S (S t))) = tx_step D 8 (sr_tx (st (S t))) false 0) /\
  (forall t, tx_ack (sr_tx (st t)) = true -> tx_ack (sr_tx (st (S t))) = false ->
    b_stb (b t) = true /\ b_cyc (b t) = true /\ sr_ack (st t) = true /\ b_we (b t) = true /\ Z.testbit (b_sel (b t)) 0 = true /\ Z.even (b_adr (b t)) = true) /\
  (forall t, tx_ack (sr_tx (st t)) = true -> sr_line (st t) = true).
Proof.
  intros D b rx HD st.
  pose proof (C36_transmit_framing D 8 (fun u => sr_tx_rdy (st u) (b u)) (fun u => sr_tx_data (st u) (b u)) HD ltac:(lia) (serial_data_range D b rx)) as (F1 & F2 & F3).
  assert (E : forall t, tx_run D 8 (tx_init 8) (fun u => sr_tx_rdy (st u) (b u)) (fun u => sr_tx_data (st u) (b u)) t = sr_tx (st t)).
  { intros t. symmetry. apply (serial_tx D b rx t). }
  split; [|split].
  - intros t adr sel dat A S0 Ev.
    assert (R : sr_tx_rdy (st (S t)) (b (S t)) = true).
    { unfold sr_tx_rdy, at_rxtx, p_sel0. destruct A. rewrite ac_req3, ac_we3, ac_sel3, ac_adr3, S0, Ev, ac_ack3. reflexivity. }
    assert (Dt : sr_tx_data (st (S t)) (b (S t)) = dat mod 256).
    { unfold sr_tx_data. rewrite R. destruct A. rewrite ac_dat3. reflexivity. }
    destruct (tx_ack (sr_tx (st (S t)))) eqn:Ak.
    + specialize (F3 (S t)). rewrite E in F3. specialize (F3 Ak R). destruct F3 as [F3 F4].
      rewrite E in F4. rewrite Dt in F3. unfold sr_line.
      split; [|split].
      * intros j Hj. replace (t + 2 + j)%nat with (S t + 1 + j)%nat by lia. rewrite <- E. apply F3. lia.
      * intros j Hj. replace (t + 2 + j)%nat with (S t + 1 + j)%nat by lia. rewrite <- E. apply F3. lia.
      * replace (t + 2 + Z.to_nat (10 * D))%nat with (S t + 1 + Z.to_nat ((8 + 2) * D))%nat by lia. assumption.
    + unfold st. rewrite (serial_S D b rx (S t)). fold st. cbn [serial_step sr_tx]. unfold tx_ack in Ak. unfold tx_step. rewrite Ak. reflexivity.
  - intros t A N. destruct (sr_tx_rdy (st t) (b t)) eqn:R.
    + unfold sr_tx_rdy, at_rxtx, p_req, p_sel0 in R. repeat (apply andb_prop in R; destruct R as [R ?]). repeat match goal with H : _ && _ = true |- _ => apply andb_prop in H; destruct H end. repeat split; assumption.
    + specialize (F2 t). rewrite !E in F2. rewrite F2 in N by assumption. discriminate.
  - intros t A. specialize (F1 t). rewrite E in F1. apply F1. assumption.
Qed.

(** C42: reading the data register while a character is ready returns that character, takes it
    (the port is no longer full), and without such a read it stays. *)
Theorem C42_serial_receive : forall D b rx,
  let st := serial_run D serial_init b rx in
  let full u := rx_rdy (sr_rx (st u)) in
  (forall t adr sel dat, access b (fun u => sr_ack (st u)) t adr false sel dat -> Z.testbit sel 0 = true -> Z.even adr = true ->
    sr_dat (st (S t)) = rx_data 8 (sr_rx (st t)) /\ (full t = true -> full (S t) = false)) /\
  (forall t, full t = true -> full (S t) = false ->
    b_stb (b t) = true /\ b_cyc (b t) = true /\ b_we (b t) = false /\ Z.testbit (b_sel (b t)) 0 = true /\ Z.even (b_adr (b t)) = true) /\
  (forall t, full t = true -> full (S t) = true -> rx_data 8 (sr_rx (st (S t))) = rx_data 8 (sr_rx (st t))).
Proof.
  intros D b rx st full.
  assert (E : forall t, rx_run D 8 (rx_init 8) rx (fun u => sr_rx_ack (b u)) t = sr_rx (st t)).
  { intros t. symmetry. apply (serial_rx D b rx t). }
  assert (Ack : forall t, full t = true -> sr_rx_ack (b t) = false -> full (S t) = true /\ rx_data 8 (sr_rx (st (S t))) = rx_data 8 (sr_rx (st t))).
  { intros t F A. destruct (C37_unread_character_kept D 8 rx (fun u => sr_rx_ack (b u)) ltac:(lia) t) as (_ & K1 & K2 & _).
    - rewrite E. assumption.
    - assumption.
    - rewrite !E in *. split; assumption. }
  assert (Idle : forall t, full t = true -> rx_count (sr_rx (st t)) = 0).
  { assert (Inv : forall t, 0 <= rx_count (sr_rx (st t)) /\ (full t = true -> rx_count (sr_rx (st t)) = 0)).
    { induction t as [|t [I1 I2]]; [split; [reflexivity|discriminate]|]. unfold full, st. rewrite (serial_S D b rx t). fold st. cbn [serial_step sr_rx]. unfold rx_step.
      fold (full t). destruct (Z.eqb_spec (rx_count (sr_rx (st t))) 0) as [Ez|Ez].
      - cbn [rx_count rx_rdy]. destruct (negb (rx t) && _)%bool eqn:B.
        + split; [lia|]. destruct (sr_rx_ack (b t)); discriminate.
        + split; [lia|]. intros _. assumption.
      - destruct (negb _); cbn [rx_count rx_rdy]; [split; [assumption|intros R; exfalso; unfold full in *; tauto]|]. split; [lia|].
        destruct (Z.eqb_spec (rx_count (sr_rx (st t))) 1); [lia|]. intros R. exfalso; unfold full in *; tauto. }
    intros t. apply Inv. }
  assert (Taken : forall t, full t = true -> sr_rx_ack (b t) = true -> full (S t) = false).
  { intros t F A. unfold full, st. rewrite (serial_S D b rx t). fold st. cbn [serial_step sr_rx]. unfold rx_step. rewrite (Idle t F), A. reflexivity. }
  split; [|split].
  - intros t adr sel dat A S0 Ev.
    assert (At : at_rxtx (b t) = true). { unfold at_rxtx, p_sel0. destruct A. rewrite ac_req2, ac_sel2, ac_adr2, S0, Ev. reflexivity. }
    split.
    + unfold st. rewrite (serial_S D b rx t). fold st. cbn [serial_step sr_dat]. rewrite At.
      assert (irq_read (st t) (b t) = false) as ->.
      { unfold irq_read. destruct A. rewrite ac_adr2. rewrite <- Z.negb_even, Ev. cbn [negb]. rewrite !andb_false_r. reflexivity. }
      reflexivity.
    + intros F. apply Taken; [assumption|]. unfold sr_rx_ack. rewrite At. destruct A. rewrite ac_we2. reflexivity.
  - intros t F N. destruct (sr_rx_ack (b t)) eqn:A.
    + unfold sr_rx_ack, at_rxtx, p_req, p_sel0 in A. repeat match goal with H : _ && _ = true |- _ => apply andb_prop in H; destruct H end.
      repeat match goal with H : negb _ = true |- _ => apply negb_true_iff in H end. repeat split; assumption.
    + destruct (Ack t F A). congruence.
  - intros t F F'. destruct (sr_rx_ack (b t)) eqn:A; [rewrite (Taken t F A) in F'; discriminate|]. apply (Ack t F A).
Qed.

(** The read takes two cycles and the second one also counts as taking the character: if the
    character completes between them, the port is emptied although the read returned something
    else, so the character is no longer protected by the overflow logic. *)
Definition lost_t : nat := 10 + ((Z.to_nat 10000) + (Z.to_nat 1876)).
Definition lost_bus (u : nat) : wbus :=
  let r := Nat.eqb u lost_t || Nat.eqb u (S lost_t) in
  {| b_cyc := r; b_stb := r; b_we := false; b_adr := 0; b_sel := 1; b_dat_w := 0 |}.
Definition lost_line (u : nat) : bool := Nat.ltb u 10 || Nat.leb (Z.to_nat 10010) u.

Lemma serial_run_app D b rx n : forall m q, serial_run D q b rx (n + m) = serial_run D (serial_run D q b rx n) (fun u => b (n + u)%nat) (fun u => rx (n + u)%nat) m.
Proof. induction m as [|m IH]; intros q; [rewrite Nat.add_0_r; reflexivity|]. rewrite Nat.add_succ_r. cbn [serial_run]. rewrite IH. reflexivity. Qed.
Lemma serial_run_ext D b rx b' rx' m q : (forall u, (u < m)%nat -> b u = b' /\ rx u = rx') ->
  serial_run D q b rx m = serial_run D q (fun _ => b') (fun _ => rx') m.
Proof.
  induction m as [|m IH]; intros H; [reflexivity|]. cbn [serial_run]. destruct (H m) as [-> ->]; [lia|]. rewrite IH; [reflexivity|]. intros u Hu. apply H. lia.
Qed.
Definition idle_bus : wbus := {| b_cyc := false; b_stb := false; b_we := false; b_adr := 0; b_sel := 1; b_dat_w := 0 |}.
Lemma lost_off u : (u < lost_t)%nat -> lost_bus u = idle_bus.
Proof. intros H. unfold lost_bus. destruct (Nat.eqb_spec u lost_t); [lia|]. destruct (Nat.eqb_spec u (S lost_t)); [lia|]. reflexivity. Qed.
Lemma lost_state : serial_run WB_DIVISOR serial_init lost_bus lost_line lost_t =
  serial_run WB_DIVISOR (serial_run WB_DIVISOR (serial_run WB_DIVISOR serial_init (fun _ => idle_bus) (fun _ => true) 10)
    (fun _ => idle_bus) (fun _ => false) (Z.to_nat 10000)) (fun _ => idle_bus) (fun _ => true) (Z.to_nat 1876).
Proof.
  unfold lost_t. rewrite serial_run_app. rewrite serial_run_app.
  rewrite (serial_run_ext _ _ _ idle_bus true 10); [|intros u Hu; split; [apply lost_off; unfold lost_t; lia|unfold lost_line; destruct (Nat.ltb_spec u 10); [reflexivity|lia]]].
  rewrite (serial_run_ext _ _ _ idle_bus false (Z.to_nat 10000)); [|intros u Hu; split; [apply lost_off; unfold lost_t; lia|unfold lost_line; destruct (Nat.ltb_spec (10 + u) 10); [lia|]; destruct (Nat.leb_spec (Z.to_nat 10010) (10 + u)); [lia|reflexivity]]].
  rewrite (serial_run_ext _ _ _ idle_bus true (Z.to_nat 1876)); [reflexivity|].
  intros u Hu. split; [apply lost_off; unfold lost_t; lia|]. unfold lost_line. destruct (Nat.leb_spec (Z.to_nat 10010) (10 + ((Z.to_nat 10000) + u))); [apply orb_true_r|lia].
Qed.
Lemma lost_on : lost_bus lost_t = {| b_cyc := true; b_stb := true; b_we := false; b_adr := 0; b_sel := 1; b_dat_w := 0 |} /\
  lost_bus (S lost_t) = {| b_cyc := true; b_stb := true; b_we := false; b_adr := 0; b_sel := 1; b_dat_w := 0 |} /\
  lost_line lost_t = true /\ lost_line (S lost_t) = true.
Proof.
  unfold lost_bus. rewrite !Nat.eqb_refl, orb_true_r. repeat split.
Qed.
Theorem C42_refuted_taken_unseen :
  let st := serial_run WB_DIVISOR serial_init lost_bus lost_line in
  access lost_bus (fun u => sr_ack (st u)) lost_t 0 false 1 0 /\
  rx_rdy (sr_rx (st (S lost_t))) = true /\ rx_data 8 (sr_rx (st (S lost_t))) = 0x80 /\
  sr_dat (st (S lost_t)) = 0 /\ rx_rdy (sr_rx (st (S (S lost_t)))) = false.
Proof.
  intros st. destruct lost_on as (O1 & O2 & O3 & O4).
  assert (E1 : st (S lost_t) = serial_step WB_DIVISOR (st lost_t) (lost_bus lost_t) (lost_line lost_t)) by reflexivity.
  assert (E2 : st (S (S lost_t)) = serial_step WB_DIVISOR (st (S lost_t)) (lost_bus (S lost_t)) (lost_line (S lost_t))) by reflexivity.
  assert (E0 : exists q, st lost_t = q /\ let q1 := serial_step WB_DIVISOR q (lost_bus lost_t) true in let q2 := serial_step WB_DIVISOR q1 (lost_bus lost_t) true in
     (sr_ack q = false /\ sr_ack q1 = true) /\ rx_rdy (sr_rx q1) = true /\ rx_data 8 (sr_rx q1) = 0x80 /\ sr_dat q1 = 0 /\ rx_rdy (sr_rx q2) = false).
  { eexists. split; [apply lost_state|]. cbv zeta. rewrite O1. vm_compute. repeat split. }
  destruct E0 as (q & Eq & [Q1 Q2] & Q3). rewrite O2, O4, <- O1 in E2. rewrite O3, Eq in E1. rewrite E1 in E2. rewrite E2, E1. split; [|exact Q3].
  constructor; rewrite ?O1, ?O2; first [rewrite Eq; assumption|rewrite E1; assumption|reflexivity].
Qed.

(** *** Concrete cases *)
Definition ex_bus (t0 : nat) (adr : Z) (we : bool) (dat : Z) (u : nat) : wbus :=
  let r := Nat.eqb u t0 || Nat.eqb u (S t0) in
  {| b_cyc := r; b_stb := r; b_we := we; b_adr := adr; b_sel := 1; b_dat_w := dat |}.
Example C39_read_applies : let b := ex_bus 5 0 false 0 in let st := timer_run timer_init b in
  access b (fun u => tm_ack (st u)) 5 0 false 1 0 /\ tm_irq (st 6%nat) = false.
Proof. split; [constructor; reflexivity|reflexivity]. Qed.
Example C41_applies : let b := ex_bus 5 0 true 0x41 in let st := serial_run 4 serial_init b (fun _ => true) in
  access b (fun u => sr_ack (st u)) 5 0 true 1 0x41 /\ tx_ack (sr_tx (st 6%nat)) = true /\
  map (fun j => sr_line (st (7 + 4 * j)%nat)) (seq 0 10) = [false; true; false; false; false; false; false; true; false; true].
Proof. split; [constructor; reflexivity|split; reflexivity]. Qed.
(** 0x41 sent to the port is received, read back and taken. *)
Example C42_applies : let b := ex_bus 60 0 false 0 in
  let line u := tx_o (tx_run 4 8 (tx_init 8) (fun v => Nat.eqb v 3) (fun _ => 0x41) u) in
  let st := serial_run 4 serial_init b line in
  access b (fun u => sr_ack (st u)) 60 0 false 1 0 /\ rx_rdy (sr_rx (st 60%nat)) = true /\ sr_dat (st 61%nat) = 0x41 /\ sr_rxi (st 60%nat) = true.
Proof. split; [constructor; vm_compute; reflexivity|vm_compute; repeat split]. Qed.

(** * The peripherals of the example SoC on the CSR bus (examples/attosoc.py, [BusType.CSR])

    [csr.Bridge], [csr.Decoder] and [WishboneCSRBridge] are amaranth-soc code; they are modelled here
    from that library's documented protocol: a CSR read strobes the register combinationally, its value
    is registered and appears on [r_data] in the next cycle (0 if nothing was read); a CSR write is
    registered and strobes the register in the next cycle; the Wishbone bridge makes one CSR access per
    byte lane, lowest first, in consecutive cycles, and then acknowledges. *)
From Coq Require Import ZArith Lia Bool List.
From Verif Require Import Bits Isa BitLemmas Main PropsBus Observe PropsIsa Memory SocMem Uart Periph SocIo.
Import ListNotations.
Open Scope Z_scope.

(** ** Model *)
(** One cycle of an 8-bit CSR bus. *)
(** attosoc.py:296, 312 *)
Record cbus := { c_addr : Z; c_rstb : bool; c_wstb : bool; c_wdata : Z }.
(** What [csr.Bridge] remembers from one cycle to the next: [r_data], and the register (offset) whose
    write strobe is up with its write data.  All registers are at most 8 bits wide. *)
(** attosoc.py:293: [csr.Bridge]. *)
Record mux := { mx_r : Z; mx_w : option Z; mx_wd : Z }.
(** attosoc.py:293 *)
Definition mux_init : mux := {| mx_r := 0; mx_w := None; mx_wd := 0 |}.
(** [rd]: value of the readable register at an offset; [wr]: writable offsets. *)
(** attosoc.py:293, 312 *)
Definition mux_step (rd : Z -> option Z) (wr : Z -> bool) (c : cbus) : mux :=
  {| mx_r := if c_rstb c then match rd (c_addr c) with Some v => v | None => 0 end else 0;
     mx_w := if c_wstb c && wr (c_addr c) then Some (c_addr c) else None;
     mx_wd := c_wdata c |}.
(** The register's [w_stb] (attosoc.py:314, 317, 325, 735). *)
Definition strobed (m : mux) (off : Z) : bool := match mx_w m with Some o => o =? off | None => false end.

(** CSRLeds (attosoc.py:238-330): registers [leds] at 0 (W), [inout] at 4 (RW), [oe] at 8 (W),
    attosoc.py:287-290. *)
Record cleds := { cl_mux : mux; cl_leds : Z; cl_o : Z; cl_oe : Z }.
(** attosoc.py:295-303 *)
Definition cleds_init : cleds := {| cl_mux := mux_init; cl_leds := 0; cl_o := 0; cl_oe := 0 |}.
(** attosoc.py:314-328 *)
Definition cleds_step (l : cleds) (c : cbus) (gi : Z) : cleds :=
  {| cl_mux := mux_step (fun o => if o =? 4 then Some gi else None) (fun o => (o =? 0) || (o =? 4) || (o =? 8)) c;
     cl_leds := if strobed (cl_mux l) 0 then mx_wd (cl_mux l) else cl_leds l;
     cl_o := if strobed (cl_mux l) 4 then mx_wd (cl_mux l) else cl_o l;
     cl_oe := if strobed (cl_mux l) 8 then mx_wd (cl_mux l) else cl_oe l |}.
(** CSRTimer (attosoc.py:389-450): register [irq] at 0 (R). *)
Record ctimer := { ct_mux : mux; ct_cnt : Z }.
(** attosoc.py:438 *)
Definition ctimer_init : ctimer := {| ct_mux := mux_init; ct_cnt := 0 |}.
(** attosoc.py:442 *)
Definition ct_irq (m : ctimer) : bool := bitb (ct_cnt m) 14.
(** attosoc.py:438-448 *)
Definition ctimer_step (m : ctimer) (c : cbus) : ctimer :=
  {| ct_mux := mux_step (fun o => if o =? 0 then Some (b2z (ct_irq m)) else None) (fun _ => false) c;
     ct_cnt := csr_timer_step (ct_cnt m) (c_rstb c && (c_addr c =? 0)) |}.
(** CSRSerial (attosoc.py:647-752): registers [txrx] at 0 (RW), [irq] at 4 (R), attosoc.py:686-688. *)
Record cserial := { cs_mux : mux; cs_tx : txst; cs_rx : rxst; cs_rxi : bool; cs_rxp : bool; cs_txi : bool; cs_txp : bool }.
(** attosoc.py:711-716 *)
Definition cserial_init : cserial :=
  {| cs_mux := mux_init; cs_tx := tx_init 8; cs_rx := rx_init 8; cs_rxi := false; cs_rxp := true; cs_txi := false; cs_txp := true |}.
(** attosoc.py:719 *)
Definition cs_irq (q : cserial) : bool := cs_rxi q || cs_txi q.
(** attosoc.py:720 *)
Definition cs_line (q : cserial) : bool := tx_o (cs_tx q).
(** attosoc.py:718-750 *)
Definition cserial_step (D : Z) (q : cserial) (c : cbus) (rx : bool) : cserial :=
  let irq_rd := c_rstb c && (c_addr c =? 4) in
  {| cs_mux := mux_step (fun o => if o =? 0 then Some (rx_data 8 (cs_rx q)) else if o =? 4 then Some (b2z (cs_rxi q) + 2 * b2z (cs_txi q)) else None) (fun o => o =? 0) c;
     cs_tx := tx_step D 8 (cs_tx q) (strobed (cs_mux q) 0) (mx_wd (cs_mux q));
     cs_rx := rx_step D 8 (cs_rx q) rx (c_rstb c && (c_addr c =? 0));
     cs_rxp := rx_rdy (cs_rx q); cs_txp := tx_ack (cs_tx q);
     cs_rxi := if rx_rdy (cs_rx q) && negb (cs_rxp q) then true else if irq_rd then false else cs_rxi q;
     cs_txi := if tx_ack (cs_tx q) && negb (cs_txp q) then true else if irq_rd then false else cs_txi q |}.

(** [csr.Decoder] (attosoc.py:876-881): the LEDs' 4-bit window at 0, then the timer's and the
    serial port's 3-bit windows at the next multiples of 2^23. *)
Definition LEDS_AT := 0. Definition TIMER_AT := 0x800000. Definition SERIAL_AT := 0x1000000.
(** attosoc.py:876-881 *)
Definition window (base w : Z) (c : cbus) : cbus :=
  let hit := c_addr c / 2 ^ w =? base / 2 ^ w in
  {| c_addr := c_addr c mod 2 ^ w; c_rstb := c_rstb c && hit; c_wstb := c_wstb c && hit; c_wdata := c_wdata c |}.

(** [WishboneCSRBridge] (attosoc.py:886) with everything behind it. *)
Record csrp := { cp_cycle : Z; cp_dat : Z; cp_ack : bool; cp_leds : cleds; cp_timer : ctimer; cp_serial : cserial }.
(** attosoc.py:876-890 *)
Definition csrp_init : csrp :=
  {| cp_cycle := 0; cp_dat := 0; cp_ack := false; cp_leds := cleds_init; cp_timer := ctimer_init; cp_serial := cserial_init |}.
(** The decoder ORs the peripherals' [r_data]. *)
(** attosoc.py:876-881 *)
Definition cp_rdata (x : csrp) : Z := Z.lor (Z.lor (mx_r (cl_mux (cp_leds x))) (mx_r (ct_mux (cp_timer x)))) (mx_r (cs_mux (cp_serial x))).
(** attosoc.py:886 *)
Definition set_lane (dat i v : Z) : Z := merge (2 ^ i) dat (v * 2 ^ (8 * i)).
(** The CSR access the bridge makes in a cycle. *)
(** attosoc.py:886-887 *)
Definition cp_bus (x : csrp) (b : wbus) : cbus :=
  let on := p_req b && (cp_cycle x <? 4) && Z.testbit (b_sel b) (cp_cycle x) in
  {| c_addr := cp_cycle x mod 4 + 4 * (b_adr b); c_rstb := on && negb (b_we b); c_wstb := on && b_we b;
     c_wdata := byte (b_dat_w b) (cp_cycle x) |}.
(** attosoc.py:874-890 *)
Definition csrp_step (D : Z) (x : csrp) (b : wbus) (gi : Z) (rx : bool) : csrp :=
  let c := cp_bus x b in
  {| cp_cycle := if cp_ack x then 0 else if p_req b && (cp_cycle x <? 4) then cp_cycle x + 1 else cp_cycle x;
     cp_dat := if p_req b then
                 if cp_cycle x =? 0 then cp_dat x
                 else if cp_cycle x <? 4 then set_lane (cp_dat x) (cp_cycle x - 1) (cp_rdata x)
                 else set_lane (cp_dat x) 3 (cp_rdata x)
               else cp_dat x;
     cp_ack := if cp_ack x then false else p_req b && negb (cp_cycle x <? 4);
     cp_leds := cleds_step (cp_leds x) (window LEDS_AT 4 c) gi;
     cp_timer := ctimer_step (cp_timer x) (window TIMER_AT 3 c);
     cp_serial := cserial_step D (cp_serial x) (window SERIAL_AT 3 c) rx |}.
(** attosoc.py:874-890, cycle after cycle. *)
Fixpoint csrp_run (D : Z) (x : csrp) (b : nat -> wbus) (gi : nat -> Z) (rx : nat -> bool) (t : nat) : csrp :=
  match t with O => x | S n => csrp_step D (csrp_run D x b gi rx n) (b n) (gi n) (rx n) end.

(** ** Specification *)
(** The registers by word address in the peripheral window, and what reading them returns. *)
Inductive reg := LedsReg | InOutReg | OeReg | TimerIrq | TxRx | SerialIrq.
Definition reg_at (adr : Z) : option reg :=
  if adr =? 0 then Some LedsReg else if adr =? 1 then Some InOutReg else if adr =? 2 then Some OeReg
  else if adr =? 0x200000 then Some TimerIrq else if adr =? 0x400000 then Some TxRx else if adr =? 0x400001 then Some SerialIrq else None.
Definition reg_value (x : csrp) (gi : Z) (r : option reg) : Z :=
  match r with
  | Some InOutReg => gi
  | Some TimerIrq => b2z (ct_irq (cp_timer x))
  | Some TxRx => rx_data 8 (cs_rx (cp_serial x))
  | Some SerialIrq => b2z (cs_rxi (cp_serial x)) + 2 * b2z (cs_txi (cp_serial x))
  | _ => 0
  end.
(** Cycle [t] is the first of a request. *)
Definition starts (b : nat -> wbus) (ack : nat -> bool) (t : nat) : bool :=
  p_req (b t) && match t with O => true | S u => negb (p_req (b u)) || ack u end.
Definition reg_eqb (x y : reg) : bool :=
  match x, y with LedsReg, LedsReg | InOutReg, InOutReg | OeReg, OeReg | TimerIrq, TimerIrq | TxRx, TxRx | SerialIrq, SerialIrq => true | _, _ => false end.
Definition at_reg (b : wbus) (r : reg) : bool := match reg_at (b_adr b) with Some r' => reg_eqb r' r | None => false end.
(** A request to read, or write, register [r] (byte lane 0 selected) starts in cycle [t]. *)
Definition reading (b : nat -> wbus) (ack : nat -> bool) (t : nat) (r : reg) : bool :=
  starts b ack t && negb (b_we (b t)) && Z.testbit (b_sel (b t)) 0 && at_reg (b t) r.
Definition writing (b : nat -> wbus) (ack : nat -> bool) (t : nat) (r : reg) : bool :=
  starts b ack t && b_we (b t) && Z.testbit (b_sel (b t)) 0 && at_reg (b t) r.

(** ** The bridge *)
Lemma byte_eq_word v w : word v -> word w -> (forall i, 0 <= i < 4 -> byte v i = byte w i) -> v = w.
Proof.
  intros Hv Hw H. apply Z.bits_inj'. intros n Hn. destruct (Z.lt_ge_cases n 32).
  - assert (Hq : 0 <= n / 8 < 4) by (split; [apply Z.div_pos; lia|apply Z.div_lt_upper_bound; lia]).
    specialize (H (n / 8) Hq). apply (f_equal (fun z => Z.testbit z (n mod 8))) in H.
    pose proof (Z.mod_pos_bound n 8 ltac:(lia)) as Hm. unfold byte, fld in H. rewrite !Z.mod_pow2_bits_low, !Z.div_pow2_bits in H by lia.
    replace (n mod 8 + 8 * (n / 8)) with n in H; [exact H|]. pose proof (Z.div_mod n 8 ltac:(lia)). lia.
  - unfold word in *. rewrite <- (Z.mod_small v (2 ^ 32)), <- (Z.mod_small w (2 ^ 32)) by lia. rewrite !Z.mod_pow2_bits_high by lia. reflexivity.
Qed.
Section B.
Variables (D : Z) (b : nat -> wbus) (gi : nat -> Z) (rx : nat -> bool).
Let st := csrp_run D csrp_init b gi rx.
Let ak (t : nat) := cp_ack (st t).
Hypothesis (H : holds_requests b ak).
Lemma st_S t : st (S t) = csrp_step D (st t) (b t) (gi t) (rx t). Proof. reflexivity. Qed.

Lemma binv t : 0 <= cp_cycle (st t) <= 4 /\ (ak t = true -> cp_cycle (st t) = 4) /\ (cp_cycle (st t) <> 0 -> p_req (b t) = true) /\
  (cp_cycle (st t) = 0 -> p_req (b t) = starts b ak t) /\ (cp_cycle (st t) <> 0 -> starts b ak t = false).
Proof.
  induction t as [|t (I1 & I2 & I3 & I4 & I5)].
  - split; [cbn; lia|]. split; [discriminate|]. split; [intros N; exfalso; apply N; reflexivity|]. split; [|intros N; exfalso; apply N; reflexivity]. intros _. unfold starts. rewrite andb_true_r. reflexivity.
  - pose proof (H t) as Hh. unfold ak in *. rewrite st_S. cbn [csrp_step cp_cycle cp_ack]. destruct (cp_ack (st t)) eqn:A.
    + split; [lia|]. split; [discriminate|]. split; [congruence|]. split; [|congruence]. intros _. unfold starts. cbv beta. rewrite A, orb_true_r, andb_true_r. reflexivity.
    + destruct (p_req (b t)) eqn:R; cbn [andb].
      * assert (Eb : b (S t) = b t) by (apply Hh; reflexivity).
        assert (Ns : starts b (fun u => cp_ack (st u)) (S t) = false) by (unfold starts; rewrite R, A; cbn [negb orb]; apply andb_false_r).
        destruct (Z.ltb_spec (cp_cycle (st t)) 4) as [L|L]; cbn [negb].
        -- split; [lia|]. split; [discriminate|]. split; [intros _; rewrite Eb; exact R|]. split; [lia|]. intros _. exact Ns.
        -- split; [lia|]. split; [lia|]. split; [intros _; rewrite Eb; exact R|]. split; [lia|]. intros _. exact Ns.
      * assert (Z0 : cp_cycle (st t) = 0). { destruct (Z.eq_dec (cp_cycle (st t)) 0); [assumption|]. specialize (I3 ltac:(assumption)). congruence. }
        rewrite Z0. split; [lia|]. split; [discriminate|]. split; [congruence|]. split; [|congruence]. intros _. unfold starts. rewrite R. cbn [negb orb]. rewrite andb_true_r. reflexivity.
Qed.
(** A request goes through the five phases of the bridge and is acknowledged in its sixth cycle. *)
Lemma phases t : starts b ak t = true -> forall i, (i <= 5)%nat ->
  b (t + i)%nat = b t /\ cp_cycle (st (t + i)%nat) = Z.of_nat (Nat.min i 4) /\ ak (t + i)%nat = Nat.eqb i 5.
Proof.
  intros S0. assert (R : p_req (b t) = true) by (unfold starts in S0; apply andb_prop in S0; apply S0).
  destruct (binv t) as (I1 & I2 & I3 & I4 & I5).
  assert (Z0 : cp_cycle (st t) = 0). { destruct (Z.eq_dec (cp_cycle (st t)) 0); [assumption|]. rewrite I5 in S0 by assumption. discriminate. }
  induction i as [|i IH]; intros Hi.
  - rewrite Nat.add_0_r. split; [reflexivity|]. split; [assumption|]. destruct (ak t) eqn:A; [|reflexivity]. specialize (I2 eq_refl). lia.
  - destruct IH as (J1 & J2 & J3); [lia|]. assert (A : ak (t + i)%nat = false) by (rewrite J3; apply Nat.eqb_neq; lia).
    rewrite Nat.add_succ_r. assert (Ri : p_req (b (t + i)%nat) = true) by (rewrite J1; exact R).
    split; [rewrite (H (t + i)%nat Ri A); exact J1|]. unfold ak in *. rewrite st_S. cbn [csrp_step cp_cycle cp_ack]. rewrite A, Ri, J2. cbn [andb].
    destruct (Nat.eq_dec i 4) as [->|N4].
    + split; reflexivity.
    + rewrite !Nat.min_l by lia. destruct (Z.ltb_spec (Z.of_nat i) 4); [|lia]. split; [lia|]. symmetry. apply Nat.eqb_neq. lia.
Qed.

(** Which register the bridge touches: only in the first cycle of a request. *)
Lemma pow_hit a w base : 0 <= w -> (a / 2 ^ w =? base / 2 ^ w) = true -> base mod 2 ^ w = 0 -> a = base + a mod 2 ^ w.
Proof. intros Hw E B. apply Z.eqb_eq in E. pose proof (Z.div_mod a (2 ^ w) ltac:(apply Z.pow_nonzero; lia)). pose proof (Z.div_mod base (2 ^ w) ltac:(apply Z.pow_nonzero; lia)). rewrite E in *. lia. Qed.
Hypothesis (Hadr : forall t, 0 <= b_adr (b t)).
(** The strobe for offset [off] of the window at [base]. *)
Definition hits (t : nat) (adr : Z) : bool := starts b ak t && Z.testbit (b_sel (b t)) 0 && (b_adr (b t) =? adr).
Lemma strobe t base w off : 3 <= w <= 4 -> base mod 2 ^ w = 0 -> 0 <= off < 2 ^ w -> off mod 4 = 0 ->
  let c := window base w (cp_bus (st t) (b t)) in
  c_rstb c && (c_addr c =? off) = hits t ((base + off) / 4) && negb (b_we (b t)) /\
  c_wstb c && (c_addr c =? off) = hits t ((base + off) / 4) && b_we (b t).
Proof.
  intros Hw Hb Ho H4 c. unfold c, window, cp_bus, hits. cbn [c_rstb c_wstb c_addr].
  destruct (binv t) as (I1 & I2 & I3 & I4 & I5). set (y := cp_cycle (st t)) in *.
  assert (B4 : base mod 4 = 0). { assert (M : (4 | 2 ^ w)) by (exists (2 ^ (w - 2)); change 4 with (2 ^ 2); rewrite <- (Z.pow_add_r 2 (w - 2) 2) by lia; f_equal; lia). apply Z.mod_divide in Hb; [|apply Z.pow_nonzero; lia]. apply Z.mod_divide; [lia|]. eapply Z.divide_trans; eassumption. }
  assert (Key : (y mod 4 + 4 * b_adr (b t)) / 2 ^ w =? base / 2 ^ w = true -> (y mod 4 + 4 * b_adr (b t)) mod 2 ^ w = off -> y < 4 -> y = 0 /\ b_adr (b t) = (base + off) / 4).
  { intros K1 K2 L. pose proof (pow_hit _ w base ltac:(lia) K1 Hb) as E. rewrite K2 in E. rewrite (Z.mod_small y 4) in E by lia.
    assert (Y : (y + 4 * b_adr (b t)) mod 4 = 0). { rewrite E, Z.add_mod, B4, H4 by lia. reflexivity. }
    rewrite (Z.mul_comm 4), Z.mod_add, Z.mod_small in Y by lia. split; [assumption|]. rewrite <- E, Y. rewrite Z.add_0_l, (Z.mul_comm 4), Z.div_mul by lia. reflexivity. }
  destruct (Z.eq_dec y 0) as [Y0|Yn].
  - rewrite (I4 Y0). rewrite Y0. change (0 <? 4) with true. change (0 mod 4) with 0. rewrite Z.add_0_l, andb_true_r.
    destruct (starts b ak t); [|split; reflexivity]. destruct (Z.testbit (b_sel (b t)) 0); [|split; reflexivity]. cbn [andb].
    assert (E : (4 * b_adr (b t) / 2 ^ w =? base / 2 ^ w) && ((4 * b_adr (b t)) mod 2 ^ w =? off) = (b_adr (b t) =? (base + off) / 4)).
    { destruct (Z.eqb_spec (b_adr (b t)) ((base + off) / 4)) as [E|N].
      - assert (E4 : 4 * b_adr (b t) = base + off). { rewrite E. pose proof (Z.div_mod (base + off) 4 ltac:(lia)) as Q. rewrite Z.add_mod, B4, H4 in Q by lia. change ((0 + 0) mod 4) with 0 in Q. lia. }
        rewrite E4. pose proof (Z.div_mod base (2 ^ w) ltac:(apply Z.pow_nonzero; lia)) as Q. rewrite Hb, Z.add_0_r in Q.
        assert (Q1 : (base + off) / 2 ^ w = base / 2 ^ w) by (symmetry; apply Z.div_unique_pos with off; lia).
        assert (Q2 : (base + off) mod 2 ^ w = off) by (symmetry; apply Z.mod_unique_pos with (base / 2 ^ w); lia).
        rewrite Q1, Q2, !Z.eqb_refl. reflexivity.
      - destruct (Z.eqb_spec (4 * b_adr (b t) / 2 ^ w) (base / 2 ^ w)) as [E1|]; [|reflexivity]. destruct (Z.eqb_spec ((4 * b_adr (b t)) mod 2 ^ w) off) as [E2|]; [|reflexivity].
        exfalso. apply N. apply Key; rewrite ?Y0; [change (0 mod 4) with 0; rewrite Z.add_0_l, E1; apply Z.eqb_refl|change (0 mod 4) with 0; rewrite Z.add_0_l; exact E2|lia]. }
    rewrite <- E. destruct (b_we (b t)); cbn [negb andb]; rewrite ?andb_true_r, ?andb_false_r; auto.
  - rewrite I5 by assumption. cbn [andb].
    destruct (Z.ltb_spec y 4) as [L|L]; [|rewrite !andb_false_r; cbn [andb]; split; reflexivity].
    destruct ((y mod 4 + 4 * b_adr (b t)) / 2 ^ w =? base / 2 ^ w) eqn:E1; [|rewrite !andb_false_r; split; reflexivity].
    destruct (Z.eqb_spec ((y mod 4 + 4 * b_adr (b t)) mod 2 ^ w) off) as [E2|]; [|rewrite !andb_false_r; split; reflexivity].
    exfalso. apply Yn. apply Key; auto.
Qed.

Lemma reg_addr adr r : reg_at adr = Some r <-> adr = match r with LedsReg => 0 | InOutReg => 1 | OeReg => 2 | TimerIrq => 0x200000 | TxRx => 0x400000 | SerialIrq => 0x400001 end.
Proof.
  unfold reg_at.
  destruct (Z.eqb_spec adr 0); [destruct r; split; (congruence || lia)|]. destruct (Z.eqb_spec adr 1); [destruct r; split; (congruence || lia)|].
  destruct (Z.eqb_spec adr 2); [destruct r; split; (congruence || lia)|]. destruct (Z.eqb_spec adr 0x200000); [destruct r; split; (congruence || lia)|].
  destruct (Z.eqb_spec adr 0x400000); [destruct r; split; (congruence || lia)|]. destruct (Z.eqb_spec adr 0x400001); destruct r; split; (congruence || lia).
Qed.
Lemma hits_reg t r : hits t (match r with LedsReg => 0 | InOutReg => 1 | OeReg => 2 | TimerIrq => 0x200000 | TxRx => 0x400000 | SerialIrq => 0x400001 end) =
  starts b ak t && Z.testbit (b_sel (b t)) 0 && at_reg (b t) r.
Proof.
  unfold hits, at_reg. f_equal. destruct (Z.eqb_spec (b_adr (b t)) (match r with LedsReg => 0 | InOutReg => 1 | OeReg => 2 | TimerIrq => 0x200000 | TxRx => 0x400000 | SerialIrq => 0x400001 end)) as [E|N].
  - apply reg_addr in E. rewrite E. destruct r; reflexivity.
  - destruct (reg_at (b_adr (b t))) as [r'|] eqn:E; [|reflexivity]. destruct (reg_eqb r' r) eqn:Q; [|reflexivity]. exfalso. apply N. apply reg_addr.
    destruct r', r; try discriminate Q; exact E.
Qed.
Let rds (t : nat) (r : reg) : bool := reading b ak t r.
Let wrs (t : nat) (r : reg) : bool := writing b ak t r.
Lemma rds_hits t r : rds t r = hits t (match r with LedsReg => 0 | InOutReg => 1 | OeReg => 2 | TimerIrq => 0x200000 | TxRx => 0x400000 | SerialIrq => 0x400001 end) && negb (b_we (b t)).
Proof. rewrite hits_reg. unfold rds, reading. rewrite <- !andb_assoc. f_equal. destruct (b_we (b t)), (Z.testbit (b_sel (b t)) 0), (at_reg (b t) r); reflexivity. Qed.
Lemma wrs_hits t r : wrs t r = hits t (match r with LedsReg => 0 | InOutReg => 1 | OeReg => 2 | TimerIrq => 0x200000 | TxRx => 0x400000 | SerialIrq => 0x400001 end) && b_we (b t).
Proof. rewrite hits_reg. unfold wrs, writing. rewrite <- !andb_assoc. f_equal. destruct (b_we (b t)), (Z.testbit (b_sel (b t)) 0), (at_reg (b t) r); reflexivity. Qed.

Let wl (t : nat) := window LEDS_AT 4 (cp_bus (st t) (b t)).
Let wt (t : nat) := window TIMER_AT 3 (cp_bus (st t) (b t)).
Let ws (t : nat) := window SERIAL_AT 3 (cp_bus (st t) (b t)).
Lemma stb_l t off r : (off, r) = (0, LedsReg) \/ (off, r) = (4, InOutReg) \/ (off, r) = (8, OeReg) ->
  c_rstb (wl t) && (c_addr (wl t) =? off) = rds t r /\ c_wstb (wl t) && (c_addr (wl t) =? off) = wrs t r.
Proof.
  intros Hc. rewrite rds_hits, wrs_hits. unfold wl. destruct Hc as [E|[E|E]]; injection E as -> ->;
  (match goal with |- _ && (_ =? ?o) = _ /\ _ => pose proof (strobe t LEDS_AT 4 o ltac:(lia) eq_refl ltac:(split; [lia|reflexivity]) eq_refl) as P end; exact P).
Qed.
Lemma stb_t t : c_rstb (wt t) && (c_addr (wt t) =? 0) = rds t TimerIrq.
Proof. rewrite rds_hits. unfold wt. apply (strobe t TIMER_AT 3 0 ltac:(lia) eq_refl ltac:(split; [lia|reflexivity]) eq_refl). Qed.
Lemma stb_s0 t : c_rstb (ws t) && (c_addr (ws t) =? 0) = rds t TxRx /\ c_wstb (ws t) && (c_addr (ws t) =? 0) = wrs t TxRx.
Proof. rewrite rds_hits, wrs_hits. unfold ws. apply (strobe t SERIAL_AT 3 0 ltac:(lia) eq_refl ltac:(split; [lia|reflexivity]) eq_refl). Qed.
Lemma stb_s4 t : c_rstb (ws t) && (c_addr (ws t) =? 4) = rds t SerialIrq.
Proof. rewrite rds_hits. unfold ws. apply (strobe t SERIAL_AT 3 4 ltac:(lia) eq_refl ltac:(split; [lia|reflexivity]) eq_refl). Qed.
(** In the first cycle of a request the bridge offers byte 0. *)
Lemma start_cycle t : starts b ak t = true -> cp_cycle (st t) = 0.
Proof. intros S0. destruct (phases t S0 0 ltac:(lia)) as (_ & P & _). rewrite Nat.add_0_r in P. exact P. Qed.
Lemma byte0 v : byte v 0 = v mod 256.
Proof. unfold byte, fld. change (2 ^ (8 * 0)) with 1. rewrite Z.div_1_r. reflexivity. Qed.
Lemma wdata0 t r : wrs t r = true -> byte (b_dat_w (b t)) (cp_cycle (st t)) = b_dat_w (b t) mod 256.
Proof. intros W. unfold wrs, writing in W. do 3 (apply andb_prop in W; destruct W as [W _]). rewrite start_cycle by exact W. apply byte0. Qed.

(** LEDs *)
Lemma leds_mux t off r : (off, r) = (0, LedsReg) \/ (off, r) = (4, InOutReg) \/ (off, r) = (8, OeReg) ->
  strobed (cl_mux (cp_leds (st (S t)))) off = wrs t r.
Proof.
  intros Hc. destruct (stb_l t off r Hc) as [_ E]. rewrite st_S. cbn [csrp_step cp_leds cleds_step cl_mux mux_step strobed mx_w]. fold (wl t). rewrite <- E. unfold strobed, mux_step. cbn [mx_w].
  destruct (c_wstb (wl t)); [|reflexivity]. cbn [andb].
  destruct ((c_addr (wl t) =? 0) || (c_addr (wl t) =? 4) || (c_addr (wl t) =? 8)) eqn:O; [reflexivity|]. symmetry.
  apply orb_false_elim in O. destruct O as [O O8]. apply orb_false_elim in O. destruct O as [O0 O4]. destruct Hc as [Q|[Q|Q]]; injection Q as -> ->; assumption.
Qed.
Lemma leds_wd t r : wrs t r = true -> mx_wd (cl_mux (cp_leds (st (S t)))) = b_dat_w (b t) mod 256.
Proof. intros W. rewrite st_S. cbn [csrp_step cp_leds cleds_step cl_mux mux_step mx_wd window c_wdata cp_bus]. apply (wdata0 t r W). Qed.
Lemma serial_mux t : strobed (cs_mux (cp_serial (st (S t)))) 0 = wrs t TxRx.
Proof.
  destruct (stb_s0 t) as [_ E]. rewrite st_S. cbn [csrp_step cp_serial cserial_step cs_mux]. fold (ws t). rewrite <- E. unfold strobed, mux_step. cbn [mx_w].
  destruct (c_wstb (ws t)); [|reflexivity]. cbn [andb]. destruct (c_addr (ws t) =? 0) eqn:O; [exact O|reflexivity].
Qed.
Lemma serial_wd t : wrs t TxRx = true -> mx_wd (cs_mux (cp_serial (st (S t)))) = b_dat_w (b t) mod 256.
Proof. intros W. rewrite st_S. cbn [csrp_step cp_serial cserial_step cs_mux mux_step mx_wd window c_wdata cp_bus]. apply (wdata0 t TxRx W). Qed.

(** Read data *)
Hypothesis (Hgi : forall t, 0 <= gi t < 256).
Lemma rdata t : cp_rdata (st (S t)) = if starts b ak t && Z.testbit (b_sel (b t)) 0 && negb (b_we (b t)) then reg_value (st t) (gi t) (reg_at (b_adr (b t))) else 0.
Proof.
  unfold cp_rdata. rewrite st_S. cbn [csrp_step cp_leds cp_timer cp_serial cleds_step ctimer_step cserial_step cl_mux ct_mux cs_mux mux_step mx_r].
  fold (wl t) (wt t) (ws t).
  pose proof (proj1 (stb_l t 4 InOutReg ltac:(auto))) as L. pose proof (stb_t t) as T. pose proof (proj1 (stb_s0 t)) as S0. pose proof (stb_s4 t) as S4.
  assert (EL : (if c_rstb (wl t) then match (if c_addr (wl t) =? 4 then Some (gi t) else None) with Some v => v | None => 0 end else 0) = if rds t InOutReg then gi t else 0).
  { rewrite <- L. destruct (c_rstb (wl t)), (c_addr (wl t) =? 4); reflexivity. }
  assert (ET : (if c_rstb (wt t) then match (if c_addr (wt t) =? 0 then Some (b2z (ct_irq (cp_timer (st t)))) else None) with Some v => v | None => 0 end else 0) = if rds t TimerIrq then b2z (ct_irq (cp_timer (st t))) else 0).
  { rewrite <- T. destruct (c_rstb (wt t)), (c_addr (wt t) =? 0); reflexivity. }
  assert (ES : (if c_rstb (ws t) then match (if c_addr (ws t) =? 0 then Some (rx_data 8 (cs_rx (cp_serial (st t)))) else if c_addr (ws t) =? 4 then Some (b2z (cs_rxi (cp_serial (st t))) + 2 * b2z (cs_txi (cp_serial (st t)))) else None) with Some v => v | None => 0 end else 0)
     = if rds t TxRx then rx_data 8 (cs_rx (cp_serial (st t))) else if rds t SerialIrq then b2z (cs_rxi (cp_serial (st t))) + 2 * b2z (cs_txi (cp_serial (st t))) else 0).
  { rewrite <- S0, <- S4. destruct (c_rstb (ws t)), (c_addr (ws t) =? 0), (c_addr (ws t) =? 4); reflexivity. }
  rewrite EL, ET, ES. unfold rds, reading, at_reg.
  destruct (starts b ak t), (Z.testbit (b_sel (b t)) 0), (negb (b_we (b t))); cbn [andb]; try reflexivity.
  destruct (reg_at (b_adr (b t))) as [[]|]; cbn [reg_eqb reg_value]; rewrite ?Z.lor_0_r, ?Z.lor_0_l; reflexivity.
Qed.
Lemma reg_value_byte t r : 0 <= reg_value (st t) (gi t) r < 256.
Proof.
  destruct r as [[]|]; cbn [reg_value]; try lia; [apply Hgi| |apply rx_data_range; lia|].
  - destruct (ct_irq _); cbn; lia.
  - destruct (cs_rxi _), (cs_txi _); cbn; lia.
Qed.
Lemma set_lane_byte d i v j : 0 <= i < 4 -> 0 <= j < 4 -> 0 <= v < 256 -> byte (set_lane d i v) j = if j =? i then v else byte d j.
Proof.
  intros Hi Hj Hv. unfold set_lane. rewrite merge_byte by exact Hj. rewrite Z.pow2_bits_eqb by lia. rewrite Z.eqb_sym.
  destruct (Z.eqb_spec j i) as [->|]; [|reflexivity]. unfold byte, fld. rewrite Z.div_mul by (apply Z.pow_nonzero; lia). apply Z.mod_small. exact Hv.
Qed.
Lemma rd_at t i : starts b ak t = true -> (1 <= i <= 4)%nat -> cp_rdata (st (t + i)%nat) = if (i =? 1)%nat && (Z.testbit (b_sel (b t)) 0 && negb (b_we (b t))) then reg_value (st t) (gi t) (reg_at (b_adr (b t))) else 0.
Proof.
  intros S0 Hi. replace (t + i)%nat with (S (t + (i - 1)))%nat by lia. rewrite rdata. destruct (Nat.eqb_spec i 1) as [->|N].
  - rewrite Nat.sub_diag, Nat.add_0_r, S0. cbn [andb]. reflexivity.
  - destruct (phases t S0 (i - 1)%nat ltac:(lia)) as (_ & P & _). destruct (binv (t + (i - 1))) as (_ & _ & _ & _ & I5). rewrite I5; [reflexivity|]. rewrite P. lia.
Qed.
Lemma dat_word t : word (cp_dat (st t)).
Proof.
  induction t as [|t IH]; [unfold word; cbn; lia|]. rewrite st_S. cbn [csrp_step cp_dat]. destruct (p_req _); [|exact IH].
  destruct (_ =? _); [exact IH|]. destruct (_ <? _); apply merge_word.
Qed.
Lemma dat_read t : starts b ak t = true -> b_we (b t) = false ->
  cp_dat (st (t + 5)%nat) = if Z.testbit (b_sel (b t)) 0 then reg_value (st t) (gi t) (reg_at (b_adr (b t))) else 0.
Proof.
  intros S0 We. set (v := if Z.testbit (b_sel (b t)) 0 then reg_value (st t) (gi t) (reg_at (b_adr (b t))) else 0).
  assert (Hv : 0 <= v < 256) by (unfold v; destruct (Z.testbit _ _); [apply reg_value_byte|lia]).
  assert (Ev : forall i, (1 <= i <= 4)%nat -> cp_rdata (st (t + i)%nat) = if (i =? 1)%nat then v else 0).
  { intros i Hi. rewrite (rd_at t i S0 Hi), We. unfold v. destruct (i =? 1)%nat; [|reflexivity]. cbn [andb negb]. rewrite andb_true_r. reflexivity. }
  assert (R : p_req (b t) = true) by (unfold starts in S0; apply andb_prop in S0; apply S0).
  assert (St : forall i, (1 <= i <= 4)%nat -> cp_dat (st (t + S i)%nat) = set_lane (cp_dat (st (t + i)%nat)) (Z.of_nat i - 1) (if (i =? 1)%nat then v else 0)).
  { intros i Hi. rewrite Nat.add_succ_r, st_S. cbn [csrp_step cp_dat]. destruct (phases t S0 i ltac:(lia)) as (P1 & P2 & _). rewrite P1, R, P2, Ev by lia. rewrite Nat.min_l by lia.
    destruct (Z.eqb_spec (Z.of_nat i) 0); [lia|]. destruct (Z.ltb_spec (Z.of_nat i) 4); [reflexivity|]. replace i with 4%nat by lia. reflexivity. }
  assert (By : forall j, 0 <= j < 4 -> byte (cp_dat (st (t + 5)%nat)) j = if j =? 0 then v else 0).
  { intros j Hj. rewrite (St 4%nat), (St 3%nat), (St 2%nat), (St 1%nat) by lia. cbn [Nat.eqb]. rewrite !set_lane_byte by (try lia; cbn; lia).
    assert (j = 0 \/ j = 1 \/ j = 2 \/ j = 3) as [->|[->|[->| ->]]] by lia; reflexivity. }
  assert (Wv : word v) by (unfold word; lia).
  apply byte_eq_word; [apply dat_word|exact Wv|]. intros j Hj. rewrite By by exact Hj. unfold byte, fld. destruct (Z.eqb_spec j 0) as [->|N].
  - change (2 ^ (8 * 0)) with 1. rewrite Z.div_1_r. symmetry. apply Z.mod_small. exact Hv.
  - rewrite Z.div_small; [reflexivity|]. assert (2 ^ 8 <= 2 ^ (8 * j)) by (apply Z.pow_le_mono_r; lia). lia.
Qed.
End B.

(** ** Theorems, for every bus history in which the master holds its requests until ACK *)
(** What the master must do, and the width of the pins. *)
Definition csr_env (D : Z) (b : nat -> wbus) (gi : nat -> Z) (rx : nat -> bool) : Prop :=
  holds_requests b (fun t => cp_ack (csrp_run D csrp_init b gi rx t)) /\ forall t, 0 <= gi t < 256.

(** C59: every request is acknowledged in its sixth cycle; a read returns the value the register had
    in the first cycle (0 where there is none). *)
Theorem C59_csr_transfer : forall D b gi rx, csr_env D b gi rx ->
  let st := csrp_run D csrp_init b gi rx in let ak t := cp_ack (st t) in
  (forall t, starts b ak t = true -> (forall i, (i < 5)%nat -> ak (t + i)%nat = false) /\ ak (t + 5)%nat = true /\
     (b_we (b t) = false -> cp_dat (st (t + 5)%nat) = if Z.testbit (b_sel (b t)) 0 then reg_value (st t) (gi t) (reg_at (b_adr (b t))) else 0)) /\
  (forall u, ak u = true -> exists t, u = (t + 5)%nat /\ starts b ak t = true).
Proof.
  intros D b gi rx [H Hg] st ak. split.
  - intros t S0. pose proof (phases D b gi rx H t S0) as P. split; [|split].
    + intros i Hi. destruct (P i ltac:(lia)) as (_ & _ & A). etransitivity; [exact A|]. apply Nat.eqb_neq. lia.
    + destruct (P 5%nat ltac:(lia)) as (_ & _ & A). exact A.
    + intros We. apply (dat_read D b gi rx H); assumption.
  - assert (Back : forall n u, cp_cycle (st u) = Z.of_nat n -> (n <= 4)%nat -> p_req (b u) = true -> ak u = false -> exists t, starts b ak t = true /\ (t <= u)%nat).
    { induction n as [|n IH]; intros u C Hn R A.
      - destruct (binv D b gi rx H u) as (_ & _ & _ & I4 & _). exists u. split; [|lia]. etransitivity; [symmetry; apply I4; exact C|exact R].
      - destruct u as [|u]; [cbn in C; lia|]. unfold st in C. rewrite (st_S D b gi rx u) in C. cbn [csrp_step cp_cycle] in C. fold (st u) in C.
        destruct (cp_ack (st u)) eqn:Au; [lia|]. destruct (p_req (b u)) eqn:Ru; cbn [andb] in C.
        + destruct (Z.ltb_spec (cp_cycle (st u)) 4).
          * destruct (IH u ltac:(lia) ltac:(lia) Ru Au) as (t & S0 & L). exists t. split; [exact S0|lia].
          * destruct (binv D b gi rx H u) as (I1 & _). fold (st u) in I1. assert (E4 : cp_cycle (st u) = 4) by lia. assert (n = 3)%nat by lia. subst n.
            unfold ak in A. unfold st in A. rewrite (st_S D b gi rx u) in A. cbn [csrp_step cp_ack] in A. fold (st u) in A. rewrite Au, Ru, E4 in A. discriminate.
        + destruct (binv D b gi rx H u) as (_ & _ & I3 & _). fold (st u) in I3. rewrite I3 in Ru by lia. discriminate. }
    intros u A. 
    assert (Last : exists t, (t <= u)%nat /\ starts b ak t = true /\ forall v, (t < v <= u)%nat -> starts b ak v = false).
    { assert (E : exists t, starts b ak t = true /\ (t <= u)%nat).
      { destruct u as [|u]; [discriminate A|]. pose proof A as A'. unfold ak, st in A'. rewrite (st_S D b gi rx u) in A'. cbn [csrp_step cp_ack] in A'. fold (st u) in A'.
        destruct (cp_ack (st u)) eqn:Au; [discriminate|]. apply andb_prop in A'. destruct A' as [R L]. destruct (Z.ltb_spec (cp_cycle (st u)) 4) as [|L4]; [discriminate|].
        destruct (binv D b gi rx H u) as (I1 & _). fold (st u) in I1. destruct (Back 4%nat u ltac:(lia) ltac:(lia) R Au) as (t & S0 & Lt). exists t. split; [exact S0|lia]. }
      destruct E as (t & S0 & L). clear - S0 L. induction u as [|u IH].
      - exists 0%nat. split; [lia|]. replace t with 0%nat in S0 by lia. split; [exact S0|]. intros v Hv. lia.
      - destruct (starts b ak (S u)) eqn:E; [exists (S u); split; [lia|]; split; [exact E|intros v Hv; lia]|].
        destruct (Nat.eq_dec t (S u)) as [->|N]; [congruence|]. destruct (IH ltac:(lia)) as (t' & L' & S' & N'). exists t'. split; [lia|]. split; [exact S'|].
        intros v Hv. destruct (Nat.eq_dec v (S u)) as [->|]; [exact E|apply N'; lia]. }
    destruct Last as (t & L & S0 & N). exists t. split; [|exact S0]. pose proof (phases D b gi rx H t S0) as P.
    destruct (Nat.lt_ge_cases u (t + 5)) as [Lt|Ge].
    + destruct (P (u - t)%nat ltac:(lia)) as (_ & _ & Q). replace (t + (u - t))%nat with u in Q by lia. unfold ak in A. fold st in Q. rewrite A in Q. symmetry in Q. apply Nat.eqb_eq in Q. lia.
    + destruct (Nat.eq_dec u (t + 5)) as [->|Ne]; [reflexivity|]. exfalso.
      (* after the acknowledge the bridge is idle until a new request starts *)
      assert (Id : forall n, (t + 6 + n <= u)%nat -> cp_cycle (st (t + 6 + n)%nat) = 0 /\ ak (t + 6 + n)%nat = false).
      { induction n as [|n IH]; intros Hn.
        - rewrite Nat.add_0_r. replace (t + 6)%nat with (S (t + 5)) by lia. destruct (P 5%nat ltac:(lia)) as (_ & _ & A5). fold st in A5. cbv beta in A5. unfold ak, st. rewrite (st_S D b gi rx (t + 5)). fold st. cbn [csrp_step cp_cycle cp_ack]. rewrite A5. split; reflexivity.
        - destruct IH as [C0 A0]; [lia|]. replace (t + 6 + S n)%nat with (S (t + 6 + n)) by lia. unfold ak, st. rewrite (st_S D b gi rx (t + 6 + n)). fold st. cbn [csrp_step cp_cycle cp_ack]. unfold ak in A0. rewrite A0.
          destruct (binv D b gi rx H (t + 6 + n)) as (_ & _ & _ & I4 & _). fold st in I4. specialize (I4 C0). fold ak in I4. rewrite N in I4 by lia. rewrite I4, C0. split; reflexivity. }
      destruct (Id (u - t - 6)%nat ltac:(lia)) as [_ Q]. replace (t + 6 + (u - t - 6))%nat with u in Q by lia. congruence.
Qed.

(** C59: the LED, GPIO output and output-enable registers take the byte written to them two cycles
    after the request starts, and change in no other way. *)
Theorem C59_csr_leds : forall D b gi rx, csr_env D b gi rx ->
  let st := csrp_run D csrp_init b gi rx in let ak t := cp_ack (st t) in
  (forall t, (t < 2)%nat -> cl_leds (cp_leds (st t)) = 0 /\ cl_o (cp_leds (st t)) = 0 /\ cl_oe (cp_leds (st t)) = 0) /\
  forall t, cl_leds (cp_leds (st (t + 2)%nat)) = (if writing b ak t LedsReg then b_dat_w (b t) mod 256 else cl_leds (cp_leds (st (t + 1)%nat))) /\
            cl_o (cp_leds (st (t + 2)%nat)) = (if writing b ak t InOutReg then b_dat_w (b t) mod 256 else cl_o (cp_leds (st (t + 1)%nat))) /\
            cl_oe (cp_leds (st (t + 2)%nat)) = (if writing b ak t OeReg then b_dat_w (b t) mod 256 else cl_oe (cp_leds (st (t + 1)%nat))).
Proof.
  intros D b gi rx [H Hg] st ak. split; [intros [|[|t]] Ht; [cbn; auto..|lia]|].
  intros t. replace (t + 2)%nat with (S (S t)) by lia. replace (t + 1)%nat with (S t) by lia. unfold st. rewrite (st_S D b gi rx (S t)). fold st.
  cbn [csrp_step cp_leds cleds_step cl_leds cl_o cl_oe].
  pose proof (leds_mux D b gi rx H t) as M. pose proof (leds_wd D b gi rx H t) as W. fold st ak in M, W.
  rewrite (M 0 LedsReg), (M 4 InOutReg), (M 8 OeReg) by auto.
  split; [|split].
  - specialize (W LedsReg). destruct (writing b ak t LedsReg); [apply W|]; reflexivity.
  - specialize (W InOutReg). destruct (writing b ak t InOutReg); [apply W|]; reflexivity.
  - specialize (W OeReg). destruct (writing b ak t OeReg); [apply W|]; reflexivity.
Qed.

(** C59: the timer interrupt rises every 16384 cycles and falls when the register is read (or at the
    next tick).  With [C59_csr_transfer] the read returns the bit it clears: no tick is lost, unlike
    with the Wishbone timer (C39). *)
Theorem C59_csr_timer : forall D b gi rx, csr_env D b gi rx ->
  let st := csrp_run D csrp_init b gi rx in let ak t := cp_ack (st t) in let irq t := ct_irq (cp_timer (st t)) in
  irq 0%nat = false /\ forall t, irq (S t) = let tick := Z.of_nat (S t) mod 16384 =? 0 in
    if irq t then negb (reading b ak t TimerIrq) && negb tick else tick.
Proof.
  intros D b gi rx [H Hg] st ak irq.
  assert (E : forall t, ct_cnt (cp_timer (st t)) = csr_timer_run (fun u => reading b ak u TimerIrq) t).
  { induction t as [|t IH]; [reflexivity|]. unfold st. rewrite (st_S D b gi rx t). fold st. cbn [csrp_step cp_timer ctimer_step ct_cnt csr_timer_run]. rewrite IH.
    pose proof (stb_t D b gi rx H t) as S0. fold st ak in S0. rewrite S0. reflexivity. }
  split; [reflexivity|]. intros t. unfold irq, ct_irq. rewrite !E. apply (C39_csr_timer (fun u => reading b ak u TimerIrq) t).
Qed.

(** A signal rises in cycle [u]; unlike in the Wishbone port a signal that is up after reset has not risen. *)
Definition rises_later (f : nat -> bool) (u : nat) : bool := match u with O => false | S v => f u && negb (f v) end.
(** C59: the serial port's interrupt bits: set by their events, cleared by the start of a read of the
    IRQ register, which returns them; none is pending after reset. *)
Theorem C59_csr_serial_irq : forall D b gi rx, csr_env D b gi rx ->
  let st := csrp_run D csrp_init b gi rx in let ak t := cp_ack (st t) in
  let full u := rx_rdy (cs_rx (cp_serial (st u))) in let empty u := tx_ack (cs_tx (cp_serial (st u))) in
  (forall t, cs_rxi (cp_serial (st t)) = true <-> exists u, (u < t)%nat /\ rises_later full u = true /\ forall v, (u < v < t)%nat -> reading b ak v SerialIrq = false) /\
  (forall t, cs_txi (cp_serial (st t)) = true <-> exists u, (u < t)%nat /\ rises_later empty u = true /\ forall v, (u < v < t)%nat -> reading b ak v SerialIrq = false).
Proof.
  intros D b gi rx [H Hg] st ak full empty.
  assert (Cl : forall t, c_rstb (window SERIAL_AT 3 (cp_bus (st t) (b t))) && (c_addr (window SERIAL_AT 3 (cp_bus (st t) (b t))) =? 4) = reading b ak t SerialIrq) by (intros t; apply (stb_s4 D b gi rx H t)).
  assert (Pr : forall t, cs_rxp (cp_serial (st t)) = match t with O => true | S v => full v end) by (intros [|t]; reflexivity).
  assert (Pt : forall t, cs_txp (cp_serial (st t)) = match t with O => true | S v => empty v end) by (intros [|t]; reflexivity).
  split.
  - apply (sticky (fun t => cs_rxi (cp_serial (st t))) (rises_later full) (fun t => reading b ak t SerialIrq)); [reflexivity|]. intros t. unfold st. rewrite (st_S D b gi rx t). fold st.
    cbn [csrp_step cp_serial cserial_step cs_rxi]. rewrite Pr, Cl. unfold rises_later. destruct t; [rewrite andb_false_r|]; reflexivity.
  - apply (sticky (fun t => cs_txi (cp_serial (st t))) (rises_later empty) (fun t => reading b ak t SerialIrq)); [reflexivity|]. intros t. unfold st. rewrite (st_S D b gi rx t). fold st.
    cbn [csrp_step cp_serial cserial_step cs_txi]. rewrite Pt, Cl. unfold rises_later. destruct t; [rewrite andb_false_r|]; reflexivity.
Qed.

(** C59: transmitting.  A byte written while the transmitter is idle goes out as one frame; written
    while it is busy it is dropped. *)
Theorem C59_csr_transmit : forall D b gi rx, csr_env D b gi rx -> 1 <= D ->
  let st := csrp_run D csrp_init b gi rx in let ak t := cp_ack (st t) in
  let idle u := tx_ack (cs_tx (cp_serial (st u))) in let pin u := cs_line (cp_serial (st u)) in
  (forall t, writing b ak t TxRx = true ->
    if idle (t + 1)%nat
    then (forall j, Z.of_nat j < 10 * D -> pin (t + 2 + j)%nat = frame_bit 8 (b_dat_w (b t) mod 256) (Z.of_nat j / D) /\ idle (t + 2 + j)%nat = false) /\
         idle (t + 2 + Z.to_nat (10 * D))%nat = true
    else cs_tx (cp_serial (st (t + 2)%nat)) = tx_step D 8 (cs_tx (cp_serial (st (t + 1)%nat))) false 0) /\
  (forall t, idle (t + 1)%nat = true -> idle (t + 2)%nat = false -> writing b ak t TxRx = true) /\
  idle 0%nat = true /\ idle 1%nat = true /\ (forall t, idle t = true -> pin t = true).
Proof.
  intros D b gi rx [H Hg] HD st ak idle pin.
  set (rdy := fun u => strobed (cs_mux (cp_serial (st u))) 0). set (data := fun u => mx_wd (cs_mux (cp_serial (st u)))).
  assert (E : forall t, tx_run D 8 (tx_init 8) rdy data t = cs_tx (cp_serial (st t))).
  { induction t as [|t IH]; [reflexivity|]. cbn [tx_run]. rewrite IH. unfold st at 2. rewrite (st_S D b gi rx t). reflexivity. }
  assert (Dr : forall u, 0 <= data u < 2 ^ 8).
  { intros [|u]; unfold data; [cbn; lia|]. unfold st. rewrite (st_S D b gi rx u). cbn [csrp_step cp_serial cserial_step cs_mux mux_step mx_wd window c_wdata cp_bus]. unfold byte, fld. apply Z.mod_pos_bound. lia. }
  assert (Rd : forall t, rdy (S t) = writing b ak t TxRx) by (intros t; apply (serial_mux D b gi rx H t)).
  assert (Wd : forall t, writing b ak t TxRx = true -> data (S t) = b_dat_w (b t) mod 256) by (intros t W; apply (serial_wd D b gi rx H t W)).
  destruct (C36_transmit_framing D 8 rdy data HD ltac:(lia) Dr) as (F1 & F2 & F3).
  split; [|split; [|split; [reflexivity|split; [reflexivity|]]]].
  - intros t W. replace (t + 1)%nat with (S t) by lia. destruct (idle (S t)) eqn:I.
    + specialize (F3 (S t)). rewrite E in F3. specialize (F3 I). rewrite Rd in F3. specialize (F3 W). destruct F3 as [F3 F4]. rewrite E in F4. rewrite Wd in F3 by exact W. split.
      * intros j Hj. replace (t + 2 + j)%nat with (S t + 1 + j)%nat by lia. unfold pin, idle, cs_line. rewrite <- E. apply F3. lia.
      * replace (t + 2 + Z.to_nat (10 * D))%nat with (S t + 1 + Z.to_nat ((8 + 2) * D))%nat by lia. exact F4.
    + replace (t + 2)%nat with (S (S t)) by lia. unfold st. rewrite (st_S D b gi rx (S t)). fold st. cbn [csrp_step cp_serial cserial_step cs_tx]. unfold idle, tx_ack in I. unfold tx_step. rewrite I. reflexivity.
  - intros t I N. replace (t + 1)%nat with (S t) in I by lia. replace (t + 2)%nat with (S (S t)) in N by lia. destruct (rdy (S t)) eqn:R; [rewrite <- Rd; exact R|].
    specialize (F2 (S t)). rewrite !E in F2. unfold idle in I, N. rewrite F2 in N by assumption. discriminate.
  - intros t I. specialize (F1 t). rewrite E in F1. apply F1. exact I.
Qed.

(** C59: receiving.  A character is taken exactly by a read of the data register, and by
    [C59_csr_transfer] that read returns it; until then it stays (unlike C42's Wishbone port, which can
    take a character it does not return). *)
Theorem C59_csr_receive : forall D b gi rx, csr_env D b gi rx ->
  let st := csrp_run D csrp_init b gi rx in let ak t := cp_ack (st t) in
  let full u := rx_rdy (cs_rx (cp_serial (st u))) in
  (forall t, full t = true -> full (S t) = negb (reading b ak t TxRx)) /\
  (forall t, full t = true -> full (S t) = true -> rx_data 8 (cs_rx (cp_serial (st (S t)))) = rx_data 8 (cs_rx (cp_serial (st t)))) /\
  (forall t, cs_rx (cp_serial (st t)) = rx_run D 8 (rx_init 8) rx (fun u => reading b ak u TxRx) t).
Proof.
  intros D b gi rx [H Hg] st ak full.
  assert (E : forall t, cs_rx (cp_serial (st (S t))) = rx_step D 8 (cs_rx (cp_serial (st t))) (rx t) (reading b ak t TxRx)).
  { intros t. unfold st. rewrite (st_S D b gi rx t). fold st. cbn [csrp_step cp_serial cserial_step cs_rx]. pose proof (proj1 (stb_s0 D b gi rx H t)) as S0. fold st ak in S0. rewrite S0. reflexivity. }
  assert (R : forall t, cs_rx (cp_serial (st t)) = rx_run D 8 (rx_init 8) rx (fun u => reading b ak u TxRx) t).
  { induction t as [|t IH]; [reflexivity|]. rewrite E, IH. reflexivity. }
  assert (Inv : forall t, 0 <= rx_count (cs_rx (cp_serial (st t))) /\ (full t = true -> rx_count (cs_rx (cp_serial (st t))) = 0)).
  { induction t as [|t [I1 I2]]; [split; [reflexivity|discriminate]|]. unfold full in *. rewrite E. unfold rx_step.
    destruct (Z.eqb_spec (rx_count (cs_rx (cp_serial (st t)))) 0) as [Ez|Ez].
    - cbn [rx_count rx_rdy]. destruct (negb (rx t) && _)%bool eqn:B.
      + split; [lia|]. destruct (reading b ak t TxRx); discriminate.
      + split; [lia|]. intros _. assumption.
    - destruct (negb _); cbn [rx_count rx_rdy]; [split; [assumption|intros R0; exfalso; tauto]|]. split; [lia|].
      destruct (Z.eqb_spec (rx_count (cs_rx (cp_serial (st t)))) 1); [lia|]. intros R0. exfalso; tauto. }
  assert (Keep : forall t, full t = true -> reading b ak t TxRx = false -> full (S t) = true /\ rx_data 8 (cs_rx (cp_serial (st (S t)))) = rx_data 8 (cs_rx (cp_serial (st t)))).
  { intros t F A. destruct (C37_unread_character_kept D 8 rx (fun u => reading b ak u TxRx) ltac:(lia) t) as (_ & K1 & K2 & _).
    - rewrite <- R. exact F.
    - exact A.
    - rewrite <- !R in *. split; assumption. }
  assert (Taken : forall t, full t = true -> reading b ak t TxRx = true -> full (S t) = false).
  { intros t F A. destruct (Inv t) as [_ I]. specialize (I F). unfold full. rewrite E. unfold rx_step. rewrite I, A. reflexivity. }
  split; [|split; [|exact R]].
  - intros t F. destruct (reading b ak t TxRx) eqn:A; [apply Taken|apply Keep]; assumption.
  - intros t F F'. destruct (reading b ak t TxRx) eqn:A; [rewrite (Taken t F A) in F'; discriminate|]. apply Keep; assumption.
Qed.

(** ** A concrete bus: write 0x5A to the LED register, "A" to the serial port, then read the port's
    IRQ register. *)
Definition ex_csr (t : nat) : wbus :=
  if (Nat.ltb t 6) then {| b_cyc := true; b_stb := true; b_we := true; b_adr := 0; b_sel := 15; b_dat_w := 0x5A |}
  else if (Nat.ltb t 12) then {| b_cyc := true; b_stb := true; b_we := true; b_adr := 0x400000; b_sel := 1; b_dat_w := 0x41 |}
  else if (Nat.leb 80 t) && (Nat.ltb t 86) then {| b_cyc := true; b_stb := true; b_we := false; b_adr := 0x400001; b_sel := 15; b_dat_w := 0 |}
  else {| b_cyc := false; b_stb := false; b_we := false; b_adr := 0; b_sel := 0; b_dat_w := 0 |}.
Example C59_applies :
  let st := csrp_run 4 csrp_init ex_csr (fun _ => 0xC3) (fun _ => true) in let ak t := cp_ack (st t) in
  csr_env 4 ex_csr (fun _ => 0xC3) (fun _ => true) /\
  writing ex_csr ak 0 LedsReg = true /\ writing ex_csr ak 6 TxRx = true /\ reading ex_csr ak 80 SerialIrq = true /\
  cl_leds (cp_leds (st 1%nat)) = 0 /\ cl_leds (cp_leds (st 2%nat)) = 0x5A /\
  cs_line (cp_serial (st 7%nat)) = true /\ cs_line (cp_serial (st 8%nat)) = false /\
  ak 85%nat = true /\ cp_dat (st 85%nat) = 2 /\ cs_txi (cp_serial (st 80%nat)) = true /\ cs_txi (cp_serial (st 81%nat)) = false.
Proof.
  intros st ak. split; [split; [|intros _; lia]|vm_compute; repeat split].
  intros t R A. do 86 (destruct t as [|t]; [try reflexivity; exfalso; revert R A; vm_compute; discriminate|]).
  exfalso. revert R. unfold p_req, ex_csr.
  repeat match goal with |- context [Nat.ltb ?x ?y] => replace (Nat.ltb x y) with false by (symmetry; apply Nat.ltb_ge; lia) end.
  rewrite andb_false_r. discriminate.
Qed.

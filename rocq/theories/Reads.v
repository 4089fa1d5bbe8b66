(** * C94: what a load from a device register returns, to the cycle, and a byte's way from the serial input to a register *)
From Coq Require Import ZArith Lia Bool List.
From Verif Require Import Bits Ucode Cpu Isa Timed BitLemmas Wf Sym Blocks CsrBlocks DecodeOk Boundary Sim Main Obs PropsBus PropsInv Observe PropsIsa PropsFrame Latency LatencySoc Memory SocMem Crash Uart Periph Soc SocIo IoMem CsrBus CsrSoc CsrIoMem SeqTest PowerUp Transparent IoTransparent Emulate Clocked ClockedSoc Waves WavesSoc Lines LinesSoc.
Import ListNotations.
Open Scope Z_scope.

(** ** The receiver *)
(** A sender's bit length [Ds] that a receiver with the bit length [D] puts up with: the middle of its start bit, and the middle of its stop bit, counted from the beginning of the
    character as the receiver counts them, fall into the sender's start bit and stop bit.  Every [Ds = D >= 3] is such ([same_length]). *)
Definition tolerates (D Ds : Z) : Prop := 1 <= D /\ D / 2 + 1 < Ds /\ 9 * Ds <= D / 2 + 1 + 9 * D < 10 * Ds.
Lemma same_length D : 3 <= D -> tolerates D D.
Proof. intros H. unfold tolerates. pose proof (Z.div_mod D 2 ltac:(lia)). pose proof (Z.mod_pos_bound D 2 ltac:(lia)). lia. Qed.
(** A character whose start bit is seen in cycle [c] is there in this cycle: two cycles and nine and a half bits later. *)
Definition arrives (D : Z) (c : nat) : nat := (c + 2 + Z.to_nat (D / 2 + 9 * D))%nat.
(** From cycle [c] on the line carries the ten bits, of [D] cycles each, of the character [v]. *)
Definition carries (D : Z) (line : nat -> bool) (c : nat) (v : Z) : Prop := forall j, Z.of_nat j < 10 * D -> line (c + j)%nat = frame_bit 8 v (Z.of_nat j / D).

Section Rx.
Variables (D : Z) (line ack : nat -> bool).
Let st := rx_run D 8 (rx_init 8) line ack.
Lemma rx_quiet c : (forall u, (u < c)%nat -> line u = true) -> rx_idle (st c) = true /\ rx_rdy (st c) = false.
Proof.
  intros H. induction c as [|c IH]; [split; reflexivity|]. destruct IH as [I1 I2]; [intros u Hu; apply H; lia|]. unfold st in *. cbn [rx_run].
  unfold rx_idle in *. unfold rx_step. rewrite I1, (H c) by lia. cbn [negb andb rx_count rx_rdy]. rewrite I1, I2. destruct (ack c); split; reflexivity.
Qed.
Lemma rx_kept d m : rx_rdy (st d) = true -> (forall u, (d <= u < d + m)%nat -> ack u = false) ->
  rx_rdy (st (d + m)) = true /\ rx_data 8 (st (d + m)) = rx_data 8 (st d) /\ rx_err 8 (st (d + m)) = rx_err 8 (st d).
Proof.
  intros R A. induction m as [|m IH]; [rewrite Nat.add_0_r; auto|]. destruct IH as (I1 & I2 & I3); [intros u Hu; apply A; lia|].
  rewrite Nat.add_succ_r. destruct (C37_unread_character_kept D 8 line ack ltac:(lia) (d + m) I1 (A (d + m)%nat ltac:(lia))) as (_ & J1 & J2 & J3 & _).
  fold st in J1, J2, J3. rewrite J1, J2, J3, I2, I3. auto.
Qed.
Lemma rx_arrived Ds v c t : tolerates D Ds -> 0 <= v < 256 -> rx_idle (st c) = true -> rx_rdy (st c) = false -> carries Ds line c v ->
  (arrives D c <= t)%nat -> (forall u, (arrives D c <= u < t)%nat -> ack u = false) ->
  rx_rdy (st t) = true /\ rx_data 8 (st t) = v /\ rx_err 8 (st t) = false.
Proof.
  intros (HD & H0 & H9) Hv Id Fr Ca Ht A. pose proof (Z.div_mod D 2 ltac:(lia)) as E2. pose proof (Z.mod_pos_bound D 2 ltac:(lia)) as B2.
  assert (L0 : line c = false). { rewrite <- (Nat.add_0_r c). rewrite Ca by lia. rewrite Z.div_0_l by lia. reflexivity. }
  destruct (C37_receive D 8 line ack ltac:(lia) ltac:(lia) c Id L0 (or_introl Fr)) as (_ & R & _ & _ & Rg & Bt & Er). fold st in R, Rg, Bt, Er.
  assert (Sa : forall i, 0 <= i <= 9 -> line (c + 1 + Z.to_nat (D / 2) + Z.to_nat i * Z.to_nat D)%nat = frame_bit 8 v i).
  { intros i Hi. replace (c + 1 + Z.to_nat (D / 2) + Z.to_nat i * Z.to_nat D)%nat with (c + Z.to_nat (1 + D / 2 + i * D))%nat by nia.
    assert (L : 0 <= 1 + D / 2 + i * D - i * Ds < Ds) by nia.
    rewrite Ca by (rewrite Z2Nat.id; nia). f_equal. rewrite Z2Nat.id by nia. symmetry. apply (Z.div_unique _ _ _ (1 + D / 2 + i * D - i * Ds)); [left; exact L|lia]. }
  assert (Ed : (c + 1 + Z.to_nat (D / 2) + Z.to_nat (8 + 1) * Z.to_nat D + 1)%nat = arrives D c) by (unfold arrives; nia).
  rewrite Ed in R, Rg, Bt, Er.
  assert (V : rx_data 8 (st (arrives D c)) = v).
  { apply Z.bits_inj'. intros i Hi. destruct (Z.lt_ge_cases i 8) as [Li|Li].
    - rewrite Bt by lia. rewrite Sa by lia. unfold frame_bit. destruct (Z.eqb_spec (i + 1) 0); [lia|]. destruct (Z.leb_spec (i + 1) 8); [|lia]. f_equal. lia.
    - assert (Hb : forall x, 0 <= x < 2 ^ 8 -> Z.testbit x i = false).
      { intros x Hx. destruct (Z.eq_dec x 0) as [->|]; [apply Z.bits_0|]. apply Z.bits_above_log2; [lia|]. apply Z.log2_lt_pow2; [lia|]. apply Z.lt_le_trans with (2 ^ 8); [lia|]. apply Z.pow_le_mono_r; lia. }
      rewrite !Hb by (change (2 ^ 8) with 256 in *; lia). reflexivity. }
  assert (Er' : rx_err 8 (st (arrives D c)) = false). { rewrite Er. rewrite !Sa by lia. reflexivity. }
  replace t with (arrives D c + (t - arrives D c))%nat by lia. destruct (rx_kept (arrives D c) (t - arrives D c) R) as (K1 & K2 & K3); [intros u Hu; apply A; lia|].
  rewrite K1, K2, K3, V, Er'. auto.
Qed.
End Rx.

(** C94: these are all the bit lengths: with any other, some character is received with a framing error. *)
Theorem C94_tolerance : forall D Ds, 1 <= D -> 1 <= Ds ->
  (forall line ack c v, let st := rx_run D 8 (rx_init 8) line ack in
     rx_idle (st c) = true -> rx_rdy (st c) = false -> 0 <= v < 256 -> carries Ds line c v ->
     let q := st (arrives D c) in rx_rdy q = true /\ rx_data 8 q = v /\ rx_err 8 q = false) <-> tolerates D Ds.
Proof.
  intros D Ds HD HDs. pose proof (Z.div_pos D 2 ltac:(lia) ltac:(lia)) as B2. split.
  - intros R.
    assert (Bad : forall line v, 0 <= v < 256 -> carries Ds line 0 v -> line (Z.to_nat (D / 2 + 1)) = true \/ line (Z.to_nat (D / 2 + 1 + 9 * D)) = false -> False).
    { intros line v Hv Ca B. destruct (R line (fun _ => false) 0%nat v eq_refl eq_refl Hv Ca) as (_ & _ & Er).
      assert (L0 : line 0%nat = false). { change 0%nat with (0 + 0)%nat. rewrite Ca by lia. rewrite Z.div_0_l by lia. reflexivity. }
      destruct (C37_receive D 8 line (fun _ => false) HD ltac:(lia) 0%nat eq_refl L0 (or_introl eq_refl)) as (_ & _ & _ & _ & _ & _ & E).
      assert (Ed : (0 + 1 + Z.to_nat (D / 2) + Z.to_nat (8 + 1) * Z.to_nat D + 1)%nat = arrives D 0) by (unfold arrives; nia). rewrite Ed, Er in E.
      replace (0 + 1 + Z.to_nat (D / 2) + Z.to_nat (8 + 1) * Z.to_nat D)%nat with (Z.to_nat (D / 2 + 1 + 9 * D)) in E by nia.
      replace (0 + 1 + Z.to_nat (D / 2) + Z.to_nat 0 * Z.to_nat D)%nat with (Z.to_nat (D / 2 + 1)) in E by nia.
      destruct B as [B|B]; rewrite B in E; [discriminate E|rewrite andb_false_r in E; discriminate E]. }
    set (frame := fun (v : Z) (u : nat) => frame_bit 8 v (Z.of_nat u / Ds)).
    assert (Cf : forall v rest, carries Ds (fun u => if Z.of_nat u <? 10 * Ds then frame v u else rest) 0 v).
    { intros v rest j Hj. cbn [Nat.add]. destruct (Z.ltb_spec (Z.of_nat j) (10 * Ds)); [reflexivity|lia]. }
    split; [exact HD|]. destruct (Z.lt_ge_cases (D / 2 + 1) Ds) as [L|L].
    + split; [exact L|]. split.
      * destruct (Z.le_gt_cases (9 * Ds) (D / 2 + 1 + 9 * D)) as [H|H]; [exact H|exfalso]. apply (Bad _ 0 ltac:(lia) (Cf 0 true)). right. rewrite Z2Nat.id by lia.
        destruct (Z.ltb_spec (D / 2 + 1 + 9 * D) (10 * Ds)); [|lia]. unfold frame. rewrite Z2Nat.id by lia.
        assert (Q : 0 <= (D / 2 + 1 + 9 * D) / Ds < 9) by (split; [apply Z.div_pos; lia|apply Z.div_lt_upper_bound; lia]). unfold frame_bit. destruct (_ =? 0); [reflexivity|].
        destruct (Z.leb_spec ((D / 2 + 1 + 9 * D) / Ds) 8); [apply Z.bits_0|lia].
      * destruct (Z.lt_ge_cases (D / 2 + 1 + 9 * D) (10 * Ds)) as [H|H]; [exact H|exfalso]. apply (Bad _ 0 ltac:(lia) (Cf 0 false)). right. rewrite Z2Nat.id by lia.
        destruct (Z.ltb_spec (D / 2 + 1 + 9 * D) (10 * Ds)); [lia|reflexivity].
    + exfalso. apply (Bad _ 255 ltac:(lia) (Cf 255 true)). left. rewrite Z2Nat.id by lia. destruct (Z.ltb_spec (D / 2 + 1) (10 * Ds)) as [H|H]; [|reflexivity]. unfold frame. rewrite Z2Nat.id by lia.
      assert (Q : 1 <= (D / 2 + 1) / Ds < 10) by (split; [apply Z.div_le_lower_bound; lia|apply Z.div_lt_upper_bound; lia]).
      unfold frame_bit. destruct (Z.eqb_spec ((D / 2 + 1) / Ds) 0); [lia|]. destruct (Z.leb_spec ((D / 2 + 1) / Ds) 8); [|reflexivity]. change 255 with (Z.ones 8). apply Z.ones_spec_low. lia.
  - intros T line ack c v st Id Fr Hv Ca. apply (rx_arrived D line ack Ds v c (arrives D c) T Hv Id Fr Ca (Nat.le_refl _)). intros u Hu. lia.
Qed.

(** The core asks in cycle [u] for the byte at an address of [reg]. *)
Definition asks (s : state) (inp : nat -> input) (reg : Z -> bool) (u : nat) : Prop :=
  let b := run s inp u in o_cyc b = true /\ o_we b = false /\ Z.testbit (o_sel b) 0 = true /\ reg (4 * o_adr b) = true.

(** ** Which instruction asks *)
Section W.
Variables (s : state) (inp : nat -> input) (reg : Z -> bool).
Hypothesis (K : ok s inp) (Al : forall ea, reg ea = true -> ea mod 4 = 0).
Local Notation next a w t := (fetched SENTINEL a w (irq (inp (t + 1)%nat)) (irq (inp (t + 2)%nat)) (irq (inp (t + 3)%nat))).
Lemma asks_fetching t t' w a' u : executes s inp t t' w -> (t < u <= t')%nat -> machine s inp u = Fetching a' -> asks s inp reg u -> reg (4 * o_adr (run s inp t')) = true.
Proof.
  intros X Hu M (C & _ & _ & R). pose proof (bus_shows s inp K u C) as S1. rewrite M in S1. pose proof X as (_ & _ & (w' & (C' & _)) & _).
  assert (M' : machine s inp t' = Fetching a'). { replace t' with (u + (t' - u))%nat by lia. apply (stays_fetching s inp K t t' w X); [lia|lia|exact M]. }
  pose proof (bus_shows s inp K t' C') as S2. rewrite M' in S2. destruct S1 as [_ _ A1 _ _ _], S2 as [_ _ A2 _ _ _]. rewrite A2, <- A1. exact R.
Qed.
Lemma asked_by t t' w u : executes s inp t t' w -> (t < u <= t')%nat -> asks s inp reg u ->
  (int_taken s inp t w = false /\ exists sz sg rd rs1 off, decode w = Some (Load sz sg rd rs1 off) /\ reg ((x_of (run s inp (S t)) rs1 + off) mod 2 ^ 32) = true) \/
  reg (4 * o_adr (run s inp t')) = true.
Proof.
  intros X Hu As. pose proof X as (F & _). destruct (fetch_machine s inp K t w F) as [a M]. pose proof (after_fetch s inp t t' w a X M) as M1.
  assert (Fc : forall a', next a w t = Fetching a' -> reg (4 * o_adr (run s inp t')) = true).
  { intros a' E. rewrite E in M1. apply (asks_fetching t t' w a' u X Hu); [|exact As]. replace u with (S t + (u - S t))%nat by lia. apply (stays_fetching s inp K t t' w X); [lia|lia|exact M1]. }
  destruct (C02_registers_match_reference s inp K t _ F) as (a0 & M0 & Rx & Rp & Ri & _ & Re & _). rewrite M in M0. injection M0 as <-.
  assert (T : int_taken s inp t w = int_enabled a && (irq (inp (t + 1)%nat) || csr_word w && irq (inp (t + 2)%nat))) by (unfold int_taken, int_enabled; cbv zeta; rewrite Ri, Re; reflexivity).
  destruct (int_taken s inp t w) eqn:Ti; [right; apply (Fc (interrupt a)), fetched_taken; symmetry; exact T|].
  assert (Fe : next a w t = match decode w with None => Fetching (Isa.exception SENTINEL a (illegal_cause SENTINEL w)) | Some i => exec SENTINEL a (irq (inp (t + 3)%nat)) i end).
  { unfold csr_word in T. unfold fetched. destruct (int_enabled a); cbn [andb] in *; [|destruct (decode w) as [i|]; [destruct (is_csr i)|]; reflexivity].
    symmetry in T. apply orb_false_iff in T. destruct T as [T1 T2]. rewrite T1. destruct (decode w) as [i|]; [|reflexivity]. destruct i; cbn [is_csr andb] in *; try reflexivity; rewrite T2; reflexivity. }
  destruct (decode w) as [i|] eqn:D; [|right; apply (Fc _ Fe)]. pose proof (decode_regs w i D) as Rg.
  assert (Ac : forall r k, next a w t = Accessing r k -> reg (4 * o_adr (run s inp t')) = true \/ Sim.shows r (run s inp u)).
  { intros r k E. assert (P : forall n, (S t + n <= t')%nat -> machine s inp (S t + n) = Accessing r k \/ exists a', machine s inp (S t + n) = Fetching a').
    { induction n as [|n IH]; intros Hn; [left; rewrite Nat.add_0_r, M1; exact E|]. rewrite Nat.add_succ_r. destruct (IH ltac:(lia)) as [Ma|[a' Ma]].
      - destruct (o_cyc (run s inp (S t + n)) && ack (inp (S t + n)%nat)) eqn:Q; [|left; rewrite machine_noack by exact Q; exact Ma].
        apply andb_prop in Q. destruct Q as [Ca Aa]. right. eexists. rewrite (machine_ack s inp _ Ca Aa), Ma. reflexivity.
      - right. exists a'. rewrite <- (Nat.add_1_r (S t + n)). apply (stays_fetching s inp K t t' w X 1 (S t + n) a'); [lia|lia|exact Ma]. }
    specialize (P (u - S t)%nat ltac:(lia)). replace (S t + (u - S t))%nat with u in P by lia. destruct P as [Ma|[a' Ma]].
    - right. pose proof (bus_shows s inp K u (proj1 As)) as Sh. rewrite Ma in Sh. exact Sh.
    - left. apply (asks_fetching t t' w a' u X Hu Ma As). }
  destruct As as (_ & We & Se & Rr).
  destruct i as [rd v|rd v|rd off|rd rs1 off|c rs1 rs2 off|sz sg rd rs1 off|sz rs1 rs2 off|f rd rs1 n|f rd rs1 rs2| | | | | |f rd g n]; cbn [exec] in Fe; cbv zeta in *.
  all: try (right; apply (Fc _ Fe)).
  - destruct (aligned sz _) eqn:Ad; [|right; apply (Fc _ Fe)]. destruct (Ac _ _ Fe) as [H|Sh]; [right; exact H|left]. split; [reflexivity|]. exists sz, sg, rd, rs1, off. split; [reflexivity|].
    rewrite Rx by tauto. set (ea := (rd_x a rs1 + off) mod 2 ^ 32) in *. destruct Sh as [_ _ A1 L1 _ _]. cbn [q_adr q_sel] in A1, L1.
    rewrite L1, (lanes_addressed sz ea 0 Ad ltac:(lia)) in Se. unfold addressed in Se. apply andb_prop in Se. destruct Se as [Se _]. apply Z.leb_le in Se.
    pose proof (Z.mod_pos_bound ea 4 ltac:(lia)). pose proof (Z.div_mod ea 4 ltac:(lia)) as E4. rewrite A1 in Rr. replace (4 * (ea / 4)) with ea in Rr by lia. exact Rr.
  - destruct (aligned sz _) eqn:Ad; [|right; apply (Fc _ Fe)]. destruct (Ac _ _ Fe) as [H|Sh]; [right; exact H|exfalso]. destruct Sh as [_ _ _ _ W1 _]. cbn [q_we] in W1. congruence.
Qed.
End W.

(** ** AttoSoC *)
Section A.
Variables (k D : Z) (x0 : soc) (p : nat -> pins).
Hypothesis (Hs : soc_start x0) (Hp : pins_ok p).
Local Notation s := (so_cpu x0).
Local Notation inp := (soc_inp k D x0 p).
Local Notation at_ := (soc_run k D x0 p).
(** attosoc.py:597-617: the receiver inside, and when it is read. *)
Lemma soc_receiver u : sr_rx (so_serial (at_ u)) = rx_run D 8 (rx_init 8) (fun v => pi_rx (p v)) (fun v => sr_rx_ack (soc_bus k D x0 p SERIAL v)) u.
Proof. rewrite (soc_serial k D x0 p Hs u). apply serial_rx. Qed.
Lemma soc_taken u : sr_rx_ack (soc_bus k D x0 p SERIAL u) = true -> asks s inp sends_at u.
Proof.
  pose proof (soc_ok k D x0 p Hs Hp) as K. intros A. unfold sr_rx_ack in A. apply andb_prop in A. destruct A as [A We]. unfold at_rxtx in A. apply andb_prop in A. destruct A as [A Ev].
  apply andb_prop in A. destruct A as [Q Se]. rewrite (serial_request k D x0 p u) in Q. apply andb_prop in Q. destruct Q as [C R]. apply (here_iff k D x0 p SERIAL u) in R.
  unfold soc_bus, p_sel0 in We, Se, Ev. cbn [sub_bus cpu_bus b_we b_sel b_adr lanes_of] in We, Se, Ev. rewrite even_mod in Ev by (cbn; lia). apply negb_true_iff in We.
  assert (Ar : 0 <= o_adr (run s inp u) < 2 ^ 30) by (apply adr_fits; destruct (st_cpu _ Hs) as (? & ? & ? & _ & W0); apply run_wf; [exact W0|]; intros v; apply K).
  split; [exact C|]. split; [exact We|]. split; [|apply sends_word; [exact Ar|]; split; assumption].
  try rewrite Z.mod_pow2_bits_low in Se by lia. exact Se.
Qed.
(** The cycle of [C48_input_loads] is the fifth after the fetch. *)
Lemma soc_read_cycle t t' w x y sz sgn rd rs1 off u : executed s inp t t' w x y -> int_taken s inp t w = false -> decode w = Some (Load sz sgn rd rs1 off) ->
  let ea := (x_of x rs1 + off) mod 2 ^ 32 in ea mod 4 = 0 -> region_of (ea / 4) <> None -> reads_from s inp t t' u ea -> u = (t + 5)%nat.
Proof.
  intros (X & -> & ->) T Dc ea Al Rn (Lu & Cu & Au & O & _). pose proof (soc_ok k D x0 p Hs Hp) as K. destruct (region_of (ea / 4)) as [r|] eqn:Rg; [|congruence]. clear Rn.
  pose proof (load_starts s inp K t t' w sz sgn rd rs1 off X T Dc (bytes_al sz ea Al)) as (Lt & Qt & Ss & We & Ad & _). fold ea in Ad.
  pose proof (first_unacked k D x0 p Hs Hp _ Ss) as A5. destruct (soc_ack_next k D x0 p Hs Hp r (t + 5) (proj1 Ss)) as [A6 _]; [rewrite Ad; exact Rg|exact A5|].
  destruct (C05_request_held s inp K _ (proj1 Ss) A5) as (C6 & _). destruct O as (Hu & (Cs & _ & As) & Ot).
  destruct (Nat.lt_trichotomy u (t + 5)) as [H|[H|H]]; [rewrite Qt in Cu by lia; discriminate|exact H|exfalso].
  specialize (Ot (S (t + 5)) ltac:(lia) ltac:(lia)). rewrite C6, A6 in Ot. discriminate.
Qed.
End A.

(** C94 on AttoSoC: a load from a device register fetched in cycle [t] returns what the register shows in cycle [t + 5]: the timer's interrupt
    flag, the receiver's character (which cycle [t + 6] no longer has), the two serial interrupt flags. *)
Theorem C94_soc_load : forall k D x0 p, soc_start x0 -> pins_ok p ->
  let s := so_cpu x0 in let inp := soc_inp k D x0 p in let at_ := soc_run k D x0 p in
  forall t t' w x y, executed s inp t t' w x y -> int_taken s inp t w = false ->
  forall sz sgn rd rs1 off, decode w = Some (Load sz sgn rd rs1 off) ->
  let ea := (x_of x rs1 + off) mod 2 ^ 32 in ea mod 4 = 0 ->
  let gets v := retires x y rd (loaded_byte sz sgn v) (pc_plus_4 x) in
  (0x40000000 <= ea < 0x80000000 -> gets (b2z (tm_irq (so_timer (at_ (t + 5)%nat))))) /\
  (0x80000000 <= ea < 0xC0000000 -> ea mod 8 = 0 -> gets (rx_data 8 (sr_rx (so_serial (at_ (t + 5)%nat)))) /\
     (rx_rdy (sr_rx (so_serial (at_ (t + 5)%nat))) = true -> rx_rdy (sr_rx (so_serial (at_ (t + 6)%nat))) = false)) /\
  (0x80000000 <= ea < 0xC0000000 -> ea mod 8 = 4 -> let q := so_serial (at_ (t + 5)%nat) in gets (b2z (sr_rxi q) + 2 * b2z (sr_txi q))).
Proof.
  intros k D x0 p Hs Hp s inp at_ t t' w x y E T sz sgn rd rs1 off Dc ea Al gets. unfold gets. clear gets.
  assert (Hea : 0 <= ea < 2 ^ 32) by (apply Z.mod_pos_bound; lia).
  destruct (C48_input_loads k D x0 p Hs Hp t t' w x y E T sz sgn rd rs1 off Dc Al) as (_ & Gt & Gr & Gi). fold s inp at_ ea in Gt, Gr, Gi.
  pose proof (fun u => soc_read_cycle k D x0 p Hs Hp t t' w x y sz sgn rd rs1 off u E T Dc Al) as U. fold s inp ea in U.
  assert (Rs : 0x80000000 <= ea < 0xC0000000 -> region_of (ea / 4) <> None).
  { intros B. destruct (proj1 (serial_address_region ea Hea) (conj B Al)) as [-> _]. discriminate. }
  assert (Rt : 0x40000000 <= ea < 0x80000000 -> region_of (ea / 4) <> None).
  { intros B. unfold region_of. rewrite !Z.div_div by lia. change (4 * 2 ^ 23) with 0x2000000. change (4 * 2 ^ 28) with 0x40000000.
    assert (ea / 0x40000000 = 1) as -> by (symmetry; apply (Z.div_unique _ _ _ (ea - 0x40000000)); lia).
    change (1 =? 1) with true. destruct (_ =? 0); [discriminate|]. destruct (_ =? 1); discriminate. }
  split; [|split].
  - intros B. destruct (Gt B) as (u & Rd & V). rewrite (U u (Rt B) Rd) in V. exact V.
  - intros B M. destruct (Gr B M) as (u & Rd & V & F). rewrite (U u (Rs B) Rd) in V, F. split; [exact V|]. replace (t + 6)%nat with (S (t + 5)) by lia. exact F.
  - intros B M. destruct (Gi B M) as (u & Rd & V). rewrite (U u (Rs B) Rd) in V. exact V.
Qed.

(** C94 on the variant with CSR peripherals. *)
Theorem C94_csr_soc_load : forall k D x0 p, csoc_start x0 -> pins_ok p ->
  let s := co_cpu x0 in let inp := csoc_inp k D x0 p in let at_ t := co_per (csoc_run k D x0 p t) in
  forall t t' w x y, executed s inp t t' w x y -> int_taken s inp t w = false ->
  forall sz sgn rd rs1 off, decode w = Some (Load sz sgn rd rs1 off) ->
  forall r, (x_of x rs1 + off) mod 2 ^ 32 = reg_address r ->
  let gets v := retires x y rd (loaded_byte sz sgn v) (pc_plus_4 x) in
  match r with
  | LedsReg | OeReg => gets 0
  | InOutReg => gets (pi_gpio (p (t + 5)%nat))
  | TimerIrq => gets (b2z (ct_irq (cp_timer (at_ (t + 5)%nat)))) /\ (ct_irq (cp_timer (at_ (t + 5)%nat)) = true -> ct_irq (cp_timer (at_ (t + 6)%nat)) = false)
  | TxRx => gets (rx_data 8 (cs_rx (cp_serial (at_ (t + 5)%nat)))) /\
            (rx_rdy (cs_rx (cp_serial (at_ (t + 5)%nat))) = true -> rx_rdy (cs_rx (cp_serial (at_ (t + 6)%nat))) = false)
  | SerialIrq => let q := cp_serial (at_ (t + 5)%nat) in gets (b2z (cs_rxi q) + 2 * b2z (cs_txi q))
  end.
Proof.
  intros k D x0 p Hs Hp s inp at_ t t' w x y E T sz sgn rd rs1 off Dc r Ra gets. pose proof (csoc_ok k D x0 p Hs) as K.
  destruct (C60_csr_soc_loads k D x0 p Hs Hp t t' w x y E T sz sgn rd rs1 off Dc r Ra) as (u & Lu & Rb & O & V). fold s inp in Rb, O.
  assert (Eu : u = (t + 5)%nat).
  { clear V. destruct E as (X & -> & ->). pose proof (load_starts s inp K t t' w sz sgn rd rs1 off X T Dc) as Ls. cbv zeta in Ls. rewrite Ra in Ls.
    destruct (reg_address_at r) as (Rr & Ir & Alr).
    destruct (Ls (bytes_al sz _ (csr_at_al r (reg_address r) (Z.eqb_refl _)))) as (Lt & Qt & Ss & We & Ad & _). clear Ls.
    assert (St : starts (pbus k D x0 p) (pak k D x0 p) (t + 5) = true) by (apply up_starts; [exact Ss|fold inp; fold s; rewrite Ad; destruct r; reflexivity]).
    pose proof (during k D x0 p Hs Hp _ St) as Du. fold s inp in Du.
    destruct Rb as (Cu & _). destruct O as (Hu & (Cs & _ & As) & Ot).
    destruct (Nat.lt_trichotomy u (t + 5)) as [H|[H|H]]; [rewrite Qt in Cu by lia; discriminate|exact H|exfalso].
    destruct (Du 5%nat ltac:(lia)) as (_ & C5 & _ & A5). specialize (Ot (t + 5 + 5)%nat ltac:(lia) ltac:(lia)). rewrite C5, A5 in Ot. discriminate. }
  subst u. replace (t + 6)%nat with (S (t + 5)) by lia. exact V.
Qed.

(** C94, reception on AttoSoC: the receiver idle and empty in cycle [c], the input pin carries the character [v] from cycle [c] on, with a bit length it tolerates: a load from the serial data register
    fetched in any cycle [t] with [arrives D c <= t + 5] returns [v], if nothing has asked for the register between its arrival and the load. *)
Theorem C94_soc_receive : forall k D Ds x0 p, tolerates D Ds -> soc_start x0 -> pins_ok p ->
  let s := so_cpu x0 in let inp := soc_inp k D x0 p in let rx c := sr_rx (so_serial (soc_run k D x0 p c)) in
  forall c v, rx_idle (rx c) = true -> rx_rdy (rx c) = false -> 0 <= v < 256 -> carries Ds (fun u => pi_rx (p u)) c v ->
  forall t t' w x y, executed s inp t t' w x y -> int_taken s inp t w = false ->
  forall sz sgn rd rs1 off, decode w = Some (Load sz sgn rd rs1 off) -> sends_at ((x_of x rs1 + off) mod 2 ^ 32) = true ->
  (arrives D c <= t + 5)%nat -> (forall u, (arrives D c <= u < t + 5)%nat -> ~ asks s inp sends_at u) ->
  retires x y rd (loaded_byte sz sgn v) (pc_plus_4 x) /\ rx_err 8 (rx (t + 5)%nat) = false /\ rx_rdy (rx (t + 6)%nat) = false.
Proof.
  intros k D Ds x0 p HD Hs Hp s inp rx c v Id Fr Hv Ca t t' w x y E T sz sgn rd rs1 off Dc Ra Ht Na. unfold rx in *.
  pose proof (soc_receiver k D x0 p Hs) as Rr. rewrite Rr in Id, Fr.
  destruct (rx_arrived D _ _ Ds v c (t + 5) HD Hv Id Fr Ca Ht) as (R & V & Er).
  { intros u Hu. apply not_true_is_false. intros A. apply (Na u Hu). apply (soc_taken k D x0 p Hs Hp u A). }
  rewrite <- Rr in R, V, Er. pose proof (sends_al _ Ra) as Al.
  destruct (C94_soc_load k D x0 p Hs Hp t t' w x y E T sz sgn rd rs1 off Dc Al) as (_ & G & _).
  unfold sends_at in Ra. rewrite !andb_true_iff, Z.leb_le, Z.ltb_lt, Z.eqb_eq in Ra. destruct Ra as [B M]. destruct (G B M) as [G1 G2]. rewrite V in G1. auto.
Qed.
(** C94, reception with CSR peripherals; here only the first cycle of a read counts. *)
Theorem C94_csr_soc_receive : forall k D Ds x0 p, tolerates D Ds -> csoc_start x0 -> pins_ok p ->
  let s := co_cpu x0 in let inp := csoc_inp k D x0 p in let rx c := cs_rx (cp_serial (co_per (csoc_run k D x0 p c))) in
  forall c v, rx_idle (rx c) = true -> rx_rdy (rx c) = false -> 0 <= v < 256 -> carries Ds (fun u => pi_rx (p u)) c v ->
  forall t t' w x y, executed s inp t t' w x y -> int_taken s inp t w = false ->
  forall sz sgn rd rs1 off, decode w = Some (Load sz sgn rd rs1 off) -> csr_sends_at ((x_of x rs1 + off) mod 2 ^ 32) = true ->
  (arrives D c <= t + 5)%nat -> (forall u, (arrives D c <= u < t + 5)%nat -> ~ read_begins s inp u (reg_address TxRx)) ->
  retires x y rd (loaded_byte sz sgn v) (pc_plus_4 x) /\ rx_err 8 (rx (t + 5)%nat) = false /\ rx_rdy (rx (t + 6)%nat) = false.
Proof.
  intros k D Ds x0 p HD Hs Hp s inp rx c v Id Fr Hv Ca t t' w x y E T sz sgn rd rs1 off Dc Ra Ht Na. unfold rx in *.
  destruct (C59_csr_receive D (pbus k D x0 p) (pgi p) (prx p) (csoc_env k D x0 p Hs Hp)) as (_ & _ & Rr0).
  assert (Rr : forall u, cs_rx (cp_serial (co_per (csoc_run k D x0 p u))) = rx_run D 8 (rx_init 8) (fun v => pi_rx (p v)) (fun v => reading (pbus k D x0 p) (pak k D x0 p) v TxRx) u).
  { intros u. rewrite (csoc_per k D x0 p Hs u). apply Rr0. }
  rewrite Rr in Id, Fr.
  destruct (rx_arrived D _ _ Ds v c (t + 5) HD Hv Id Fr Ca Ht) as (R & V & Er).
  { intros u Hu. apply not_true_is_false. intros A. apply (Na u Hu). apply (reading_begins k D x0 p Hs Hp u TxRx). exact A. }
  rewrite <- Rr in R, V, Er. apply Z.eqb_eq in Ra.
  destruct (C94_csr_soc_load k D x0 p Hs Hp t t' w x y E T sz sgn rd rs1 off Dc TxRx Ra) as [G1 G2]. rewrite V in G1. auto.
Qed.
(** The receiver is idle and empty as long as the input pin has never been low. *)
Theorem C94_soc_silent : forall k D x0 p, soc_start x0 -> forall c, (forall u, (u < c)%nat -> pi_rx (p u) = true) ->
  let rx := sr_rx (so_serial (soc_run k D x0 p c)) in rx_idle rx = true /\ rx_rdy rx = false.
Proof. intros k D x0 p Hs c H rx. unfold rx. rewrite (soc_receiver k D x0 p Hs). apply rx_quiet. exact H. Qed.
Theorem C94_csr_soc_silent : forall k D x0 p, csoc_start x0 -> pins_ok p -> forall c, (forall u, (u < c)%nat -> pi_rx (p u) = true) ->
  let rx := cs_rx (cp_serial (co_per (csoc_run k D x0 p c))) in rx_idle rx = true /\ rx_rdy rx = false.
Proof.
  intros k D x0 p Hs Hp c H rx. unfold rx. rewrite (csoc_per k D x0 p Hs c).
  destruct (C59_csr_receive D (pbus k D x0 p) (pgi p) (prx p) (csoc_env k D x0 p Hs Hp)) as (_ & _ & Rr). rewrite Rr. apply rx_quiet. exact H.
Qed.

(** C94: the only instructions that ask for the register are loads from it, and fetches from it. *)
Theorem C94_soc_asks : forall k D x0 p, soc_start x0 -> pins_ok p ->
  let s := so_cpu x0 in let inp := soc_inp k D x0 p in
  forall t t' w x y u, executed s inp t t' w x y -> (t < u <= t')%nat -> asks s inp sends_at u ->
  (int_taken s inp t w = false /\ exists sz sg rd rs1 off, decode w = Some (Load sz sg rd rs1 off) /\ sends_at ((x_of x rs1 + off) mod 2 ^ 32) = true) \/
  sends_at (4 * o_adr (run s inp t')) = true.
Proof. intros k D x0 p Hs Hp s inp t t' w x y u (X & -> & ->) Hu As. exact (asked_by s inp sends_at (soc_ok k D x0 p Hs Hp) t t' w u X Hu As). Qed.
Theorem C94_csr_soc_asks : forall k D x0 p, csoc_start x0 -> pins_ok p ->
  let s := co_cpu x0 in let inp := csoc_inp k D x0 p in
  forall t t' w x y u, executed s inp t t' w x y -> (t < u <= t')%nat -> read_begins s inp u (reg_address TxRx) ->
  (int_taken s inp t w = false /\ exists sz sg rd rs1 off, decode w = Some (Load sz sg rd rs1 off) /\ csr_sends_at ((x_of x rs1 + off) mod 2 ^ 32) = true) \/
  csr_sends_at (4 * o_adr (run s inp t')) = true.
Proof.
  intros k D x0 p Hs Hp s inp t t' w x y u (X & -> & ->) Hu (C & _ & We & Se & Ad).
  refine (asked_by s inp csr_sends_at (csoc_ok k D x0 p Hs) t t' w u X Hu _). split; [exact C|]. split; [exact We|]. split; [exact Se|]. apply Z.eqb_eq. exact Ad.
Qed.

(** Every cycle between two fetches belongs to an instruction. *)
Lemma within s inp t0 w0 t w u : fetch_done s inp t0 w0 -> fetch_done s inp t w -> (t0 < u <= t)%nat ->
  exists t1 t1' w1, executes s inp t1 t1' w1 /\ (t1 < u <= t1')%nat /\ (t1' <= t)%nat.
Proof.
  intros F0 F Hu. set (f := fun v => o_cyc (run s inp v) && u_fetch (s_u (run s inp v)) && ack (inp v)).
  assert (Fd : forall v, f v = true -> fetch_done s inp v (dat_r (inp v))).
  { intros v H. unfold f in H. apply andb_prop in H. destruct H as [H A]. apply andb_prop in H. destruct H as [C U]. repeat split; assumption. }
  assert (Df : forall v w', fetch_done s inp v w' -> f v = true). { intros v w' (C & U & A & _). unfold f. rewrite C, U, A. reflexivity. }
  assert (Lo : forall n, (t0 < n)%nat -> exists v, (v < n)%nat /\ f v = true /\ forall y, (v < y < n)%nat -> f y = false).
  { induction n as [|n IH]; intros Hn; [lia|]. destruct (f n) eqn:E; [exists n; split; [lia|]; split; [exact E|]; intros; lia|].
    assert (t0 <> n) by (intros ->; rewrite (Df _ _ F0) in E; discriminate). destruct (IH ltac:(lia)) as (v & L & Fv & N). exists v. split; [lia|]. split; [exact Fv|].
    intros y Hy. destruct (Nat.eq_dec y n) as [->|]; [exact E|]. apply N. lia. }
  assert (Hi : forall m n, (n + m = t)%nat -> exists v, (n <= v <= t)%nat /\ f v = true /\ forall y, (n <= y < v)%nat -> f y = false).
  { induction m as [|m IH]; intros n Hn; [exists t; split; [lia|]; split; [apply (Df _ _ F)|intros; lia]|]. destruct (f n) eqn:E; [exists n; split; [lia|]; split; [exact E|intros; lia]|].
    destruct (IH (S n) ltac:(lia)) as (v & L & Fv & N). exists v. split; [lia|]. split; [exact Fv|]. intros y Hy. destruct (Nat.eq_dec y n) as [->|]; [exact E|]. apply N. lia. }
  destruct (Lo u ltac:(lia)) as (t1 & L1 & F1 & N1). destruct (Hi (t - u)%nat u ltac:(lia)) as (t1' & L2 & F2 & N2).
  exists t1, t1', (dat_r (inp t1)). split; [|lia]. split; [apply Fd; exact F1|]. split; [lia|]. split; [eexists; apply Fd; exact F2|].
  intros v w' Hv Fv. apply Df in Fv. destruct (Nat.lt_ge_cases v u) as [H|H]; [rewrite N1 in Fv by lia|rewrite N2 in Fv by lia]; discriminate.
Qed.

(** C94, reception in terms of the program: after the first fetch [t0], no instruction whose successor is fetched at or after the arrival, up to the load, loads from the serial data register or is followed
    by a fetch from it; then the load returns the character. *)
Theorem C94_soc_program : forall k D Ds x0 p, tolerates D Ds -> soc_start x0 -> pins_ok p ->
  let s := so_cpu x0 in let inp := soc_inp k D x0 p in let rx c := sr_rx (so_serial (soc_run k D x0 p c)) in
  forall c v, rx_idle (rx c) = true -> rx_rdy (rx c) = false -> 0 <= v < 256 -> carries Ds (fun u => pi_rx (p u)) c v ->
  forall t0 w0, fetch_done s inp t0 w0 -> (t0 < arrives D c)%nat ->
  forall t t' w x y, executed s inp t t' w x y -> int_taken s inp t w = false ->
  forall sz sgn rd rs1 off, decode w = Some (Load sz sgn rd rs1 off) -> sends_at ((x_of x rs1 + off) mod 2 ^ 32) = true ->
  (arrives D c <= t + 5)%nat ->
  (forall t1 t1' w1 x1 y1, executed s inp t1 t1' w1 x1 y1 -> (arrives D c <= t1' <= t)%nat -> sends_at (4 * o_adr (run s inp t1')) = false /\
     forall sz1 sg1 rd1 r1 off1, int_taken s inp t1 w1 = false -> decode w1 = Some (Load sz1 sg1 rd1 r1 off1) -> sends_at ((x_of x1 r1 + off1) mod 2 ^ 32) = false) ->
  retires x y rd (loaded_byte sz sgn v) (pc_plus_4 x).
Proof.
  intros k D Ds x0 p HD Hs Hp s inp rx c v Id Fr Hv Ca t0 w0 F0 L0 t t' w x y E T sz sgn rd rs1 off Dc Ra Ht No. pose proof (soc_ok k D x0 p Hs Hp) as K.
  destruct (C94_soc_receive k D Ds x0 p HD Hs Hp c v Id Fr Hv Ca t t' w x y E T sz sgn rd rs1 off Dc Ra Ht) as [G _]; [|exact G].
  intros u Hu As. fold s inp in As. pose proof E as (X & Ex & _). destruct (Nat.le_gt_cases u t) as [H|H].
  - destruct (within s inp t0 w0 t w u F0 (proj1 X) ltac:(lia)) as (t1 & t1' & w1 & X1 & H1 & H2).
    destruct (No t1 t1' w1 _ _ (conj X1 (conj eq_refl eq_refl)) ltac:(lia)) as [Nf Nl].
    destruct (asked_by s inp sends_at K t1 t1' w1 u X1 H1 As) as [(Ti & sz1 & sg1 & rd1 & r1 & off1 & D1 & R1)|R]; [|congruence].
    rewrite (Nl _ _ _ _ _ Ti D1) in R1. discriminate.
  - pose proof (sends_al _ Ra) as Al. rewrite Ex in Al. pose proof (load_starts s inp K t t' w sz sgn rd rs1 off X T Dc (bytes_al sz _ Al)) as (_ & Q & _).
    destruct As as (C & _). rewrite Q in C by lia. discriminate.
Qed.
Theorem C94_csr_soc_program : forall k D Ds x0 p, tolerates D Ds -> csoc_start x0 -> pins_ok p ->
  let s := co_cpu x0 in let inp := csoc_inp k D x0 p in let rx c := cs_rx (cp_serial (co_per (csoc_run k D x0 p c))) in
  forall c v, rx_idle (rx c) = true -> rx_rdy (rx c) = false -> 0 <= v < 256 -> carries Ds (fun u => pi_rx (p u)) c v ->
  forall t0 w0, fetch_done s inp t0 w0 -> (t0 < arrives D c)%nat ->
  forall t t' w x y, executed s inp t t' w x y -> int_taken s inp t w = false ->
  forall sz sgn rd rs1 off, decode w = Some (Load sz sgn rd rs1 off) -> csr_sends_at ((x_of x rs1 + off) mod 2 ^ 32) = true ->
  (arrives D c <= t + 5)%nat ->
  (forall t1 t1' w1 x1 y1, executed s inp t1 t1' w1 x1 y1 -> (arrives D c <= t1' <= t)%nat -> csr_sends_at (4 * o_adr (run s inp t1')) = false /\
     forall sz1 sg1 rd1 r1 off1, int_taken s inp t1 w1 = false -> decode w1 = Some (Load sz1 sg1 rd1 r1 off1) -> csr_sends_at ((x_of x1 r1 + off1) mod 2 ^ 32) = false) ->
  retires x y rd (loaded_byte sz sgn v) (pc_plus_4 x).
Proof.
  intros k D Ds x0 p HD Hs Hp s inp rx c v Id Fr Hv Ca t0 w0 F0 L0 t t' w x y E T sz sgn rd rs1 off Dc Ra Ht No. pose proof (csoc_ok k D x0 p Hs) as K.
  destruct (C94_csr_soc_receive k D Ds x0 p HD Hs Hp c v Id Fr Hv Ca t t' w x y E T sz sgn rd rs1 off Dc Ra Ht) as [G _]; [|exact G].
  intros u Hu Rb. fold s inp in Rb. pose proof E as (X & Ex & _).
  assert (As : asks s inp csr_sends_at u). { destruct Rb as (C & _ & We & Se & Ad). split; [exact C|]. split; [exact We|]. split; [exact Se|]. apply Z.eqb_eq. exact Ad. }
  destruct (Nat.le_gt_cases u t) as [H|H].
  - destruct (within s inp t0 w0 t w u F0 (proj1 X) ltac:(lia)) as (t1 & t1' & w1 & X1 & H1 & H2).
    destruct (No t1 t1' w1 _ _ (conj X1 (conj eq_refl eq_refl)) ltac:(lia)) as [Nf Nl].
    destruct (asked_by s inp csr_sends_at K t1 t1' w1 u X1 H1 As) as [(Ti & sz1 & sg1 & rd1 & r1 & off1 & D1 & R1)|R]; [|congruence].
    rewrite (Nl _ _ _ _ _ Ti D1) in R1. discriminate.
  - pose proof (csr_at_al TxRx _ Ra) as Al. rewrite Ex in Al. pose proof (load_starts s inp K t t' w sz sgn rd rs1 off X T Dc (bytes_al sz _ Al)) as (_ & Q & _).
    destruct As as (C & _). rewrite Q in C by lia. discriminate.
Qed.

(** ** Two boards *)
(** C94, a wire from AttoSoC [A] to a board [B] with CSR peripherals (either may have been switched on earlier, hence the offset [o]): the byte that a store on [A] sends is the byte that the load on [B] returns. *)
Theorem C94_link : forall D Ds, tolerates D Ds ->
  forall kA xA pA, soc_start xA -> pins_ok pA -> let sA := so_cpu xA in let inA := soc_inp kA Ds xA pA in let at_A := soc_run kA Ds xA pA in
  forall kB xB pB, csoc_start xB -> pins_ok pB -> let sB := co_cpu xB in let inB := csoc_inp kB D xB pB in let rxB c := cs_rx (cp_serial (co_per (csoc_run kB D xB pB c))) in
  forall t tn w x y, executed sA inA t tn w x y -> int_taken sA inA t w = false ->
  forall sz rs1 rs2 off, decode w = Some (Store sz rs1 rs2 off) -> sends_at ((x_of x rs1 + off) mod 2 ^ 32) = true -> tx_idle (at_A (t + 7)%nat) = true ->
  forall o c, Z.of_nat c = Z.of_nat (t + 8) + o -> (forall u j, Z.of_nat u = Z.of_nat j + o -> pi_rx (pB u) = tx_pin (at_A j)) -> rx_idle (rxB c) = true -> rx_rdy (rxB c) = false ->
  forall t2 tn2 w2 x2 y2, executed sB inB t2 tn2 w2 x2 y2 -> int_taken sB inB t2 w2 = false ->
  forall sz2 sgn rd rs off2, decode w2 = Some (Load sz2 sgn rd rs off2) -> csr_sends_at ((x_of x2 rs + off2) mod 2 ^ 32) = true ->
  (arrives D c <= t2 + 5)%nat -> (forall u, (arrives D c <= u < t2 + 5)%nat -> ~ read_begins sB inB u (reg_address TxRx)) ->
  retires x2 y2 rd (loaded_byte sz2 sgn (x_of x rs2 mod 256)) (pc_plus_4 x2).
Proof.
  intros D Ds HD kA xA pA HsA HpA sA inA at_A kB xB pB HsB HpB sB inB rxB t tn w x y E T sz rs1 rs2 off Dc Ra Id o c Ec Wi Ri Rf t2 tn2 w2 x2 y2 E2 T2 sz2 sgn rd rs off2 Dc2 Ra2 Ht Na.
  destruct (C93_soc_store kA Ds xA pA ltac:(destruct HD as (? & ? & ?); pose proof (Z.div_pos D 2 ltac:(lia) ltac:(lia)); lia) HsA HpA t tn w x y E T sz rs1 rs2 off Dc Ra Id) as [F _].
  assert (Ca : carries Ds (fun u => pi_rx (pB u)) c (x_of x rs2 mod 256)).
  2: { destruct (C94_csr_soc_receive kB D Ds xB pB HD HsB HpB c (x_of x rs2 mod 256) Ri Rf ltac:(apply Z.mod_pos_bound; lia) Ca t2 tn2 w2 x2 y2 E2 T2 sz2 sgn rd rs off2 Dc2 Ra2 Ht Na) as [G _]. exact G. }
  intros j Hj. cbv beta. rewrite (Wi (c + j)%nat (t + 8 + j)%nat) by lia. apply F. exact Hj.
Qed.
(** C94, the other way round. *)
Theorem C94_link_back : forall D Ds, tolerates D Ds ->
  forall kA xA pA, csoc_start xA -> pins_ok pA -> let sA := co_cpu xA in let inA := csoc_inp kA Ds xA pA in let at_A := csoc_run kA Ds xA pA in
  forall kB xB pB, soc_start xB -> pins_ok pB -> let sB := so_cpu xB in let inB := soc_inp kB D xB pB in let rxB c := sr_rx (so_serial (soc_run kB D xB pB c)) in
  forall t tn w x y, executed sA inA t tn w x y -> int_taken sA inA t w = false ->
  forall sz rs1 rs2 off, decode w = Some (Store sz rs1 rs2 off) -> csr_sends_at ((x_of x rs1 + off) mod 2 ^ 32) = true -> csr_tx_idle (at_A (t + 7)%nat) = true ->
  forall o c, Z.of_nat c = Z.of_nat (t + 8) + o -> (forall u j, Z.of_nat u = Z.of_nat j + o -> pi_rx (pB u) = csr_tx_pin (at_A j)) -> rx_idle (rxB c) = true -> rx_rdy (rxB c) = false ->
  forall t2 tn2 w2 x2 y2, executed sB inB t2 tn2 w2 x2 y2 -> int_taken sB inB t2 w2 = false ->
  forall sz2 sgn rd rs off2, decode w2 = Some (Load sz2 sgn rd rs off2) -> sends_at ((x_of x2 rs + off2) mod 2 ^ 32) = true ->
  (arrives D c <= t2 + 5)%nat -> (forall u, (arrives D c <= u < t2 + 5)%nat -> ~ asks sB inB sends_at u) ->
  retires x2 y2 rd (loaded_byte sz2 sgn (x_of x rs2 mod 256)) (pc_plus_4 x2).
Proof.
  intros D Ds HD kA xA pA HsA HpA sA inA at_A kB xB pB HsB HpB sB inB rxB t tn w x y E T sz rs1 rs2 off Dc Ra Id o c Ec Wi Ri Rf t2 tn2 w2 x2 y2 E2 T2 sz2 sgn rd rs off2 Dc2 Ra2 Ht Na.
  destruct (C93_csr_soc_store kA Ds xA pA ltac:(destruct HD as (? & ? & ?); pose proof (Z.div_pos D 2 ltac:(lia) ltac:(lia)); lia) HsA HpA t tn w x y E T sz rs1 rs2 off Dc Ra Id) as [F _].
  assert (Ca : carries Ds (fun u => pi_rx (pB u)) c (x_of x rs2 mod 256)).
  2: { destruct (C94_soc_receive kB D Ds xB pB HD HsB HpB c (x_of x rs2 mod 256) Ri Rf ltac:(apply Z.mod_pos_bound; lia) Ca t2 tn2 w2 x2 y2 E2 T2 sz2 sgn rd rs off2 Dc2 Ra2 Ht Na) as [G _]. exact G. }
  intros j Hj. cbv beta. rewrite (Wi (c + j)%nat (t + 8 + j)%nat) by lia. apply F. exact Hj.
Qed.

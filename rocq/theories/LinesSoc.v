(** * C93 on the example SoCs: the serial line *)
From Coq Require Import ZArith Lia Bool List.
From Verif Require Import Bits Ucode Cpu Isa Timed BitLemmas Wf Sym Blocks CsrBlocks DecodeOk Boundary Sim Main Obs PropsBus PropsInv Observe PropsIsa PropsFrame Latency LatencySoc Memory SocMem Crash Uart Periph Soc SocIo IoMem CsrBus CsrSoc CsrIoMem SeqTest PowerUp Transparent IoTransparent Emulate Clocked ClockedSoc Waves WavesSoc Lines.
Import ListNotations.
Open Scope Z_scope.

(** AttoSoC (attosoc.py:575-589, 612-623, 863-872): the data register is at 0x8000_0000 and every 8 bytes from there to 0xbfff_fff8. *)
Definition sends_at (ea : Z) : bool := (0x80000000 <=? ea) && (ea <? 0xC0000000) && (ea mod 8 =? 0).
(** The variant with CSR peripherals (attosoc.py:701-738, 874-886): 0x0300_0000. *)
Definition csr_sends_at : Z -> bool := csr_at TxRx.

Lemma sends_al ea : sends_at ea = true -> ea mod 4 = 0.
Proof.
  unfold sends_at. intros H. apply andb_prop in H. destruct H as [_ H]. apply Z.eqb_eq in H. pose proof (Z.div_mod ea 8 ltac:(lia)) as E.
  replace ea with ((2 * (ea / 8)) * 4) by lia. apply Z.mod_mul. lia.
Qed.
Lemma sends_word adr : 0 <= adr < 2 ^ 30 -> sends_at (4 * adr) = true <-> region_of adr = Some SERIAL /\ Z.even adr = true.
Proof.
  intros Ha. assert (Q : 4 * adr / 4 = adr) by (rewrite Z.mul_comm; apply Z.div_mul; lia). assert (A4 : (4 * adr) mod 4 = 0) by (rewrite Z.mul_comm; apply Z.mod_mul; lia).
  pose proof (serial_address_region (4 * adr) ltac:(lia)) as R. rewrite Q in R. pose proof (even_word (4 * adr) A4) as E. rewrite Q in E. unfold serial_address in R.
  unfold sends_at. rewrite !andb_true_iff, Z.leb_le, Z.ltb_lt, Z.eqb_eq. split.
  - intros [B M]. split; [apply R; auto|apply E; exact M].
  - intros [B M]. split; [apply R; auto|apply E; exact M].
Qed.

Lemma adr_fits c : wf c -> 0 <= o_adr c < 2 ^ 30.
Proof.
  intros W. unfold o_adr, addr_align_adr. pose proof (wf_pc _ W) as Wp. unfold inw in Wp.
  repeat match goal with |- context[if ?b then _ else _] => destruct b end; unfold bits; try apply Z.mod_pos_bound; lia.
Qed.

(** ** AttoSoC *)
Section A.
Variables (k D : Z) (x0 : soc) (p : nat -> pins).
Hypothesis (HD : 1 <= D) (Hs : soc_start x0) (Hp : pins_ok p).
Local Notation s := (so_cpu x0).
Local Notation inp := (soc_inp k D x0 p).
Local Notation b := (soc_bus k D x0 p SERIAL).
Local Notation ak := (ackr k D x0 p SERIAL).
Local Notation at_ := (soc_run k D x0 p).
Lemma serial_request t : p_req (b t) = o_cyc (run s inp t) && here k D x0 p SERIAL t.
Proof. unfold soc_bus, p_req, here. cbn [sub_bus cpu_bus b_cyc b_stb b_adr]. rewrite C10_stb_is_cyc. destruct (o_cyc _), (in_region _ _); reflexivity. Qed.
Lemma serial_held t : request_starts s inp t -> b (S t) = b t.
Proof.
  intros S0. pose proof (first_unacked k D x0 p Hs Hp t S0) as A. destruct (C05_request_held s inp (soc_ok k D x0 p Hs Hp) t (proj1 S0) A) as (H1 & H2 & H3 & H4 & H5 & H6).
  assert (E : cpu_bus (run s inp (S t)) = cpu_bus (run s inp t)). { pose proof (C10_stb_is_cyc (run s inp t)) as Q. rewrite (proj1 S0) in Q. unfold cpu_bus. rewrite H1, H2, H3, H4, H5, H6, Q, (proj1 S0). reflexivity. }
  unfold soc_bus. rewrite E. reflexivity.
Qed.
Lemma serial_first t : request_starts s inp t -> region_of (o_adr (run s inp t)) = Some SERIAL -> p_req (b t) = true /\ ak t = false /\ ak (S t) = true.
Proof.
  intros S0 R. pose proof (proj2 (here_iff k D x0 p SERIAL t) R) as Hr. assert (Q : p_req (b t) = true) by (rewrite serial_request, (proj1 S0), Hr; reflexivity).
  pose proof (first_unacked k D x0 p Hs Hp t S0) as A. rewrite (ack_is k D x0 p t), R in A. split; [exact Q|]. split; [exact A|].
  rewrite (ackr_S k D x0 p SERIAL t), A, (proj1 S0), Hr. reflexivity.
Qed.
Lemma serial_second u : p_req (b u) = true -> ak u = true -> exists t, u = S t /\ request_starts s inp t /\ b u = b t /\ region_of (o_adr (run s inp t)) = Some SERIAL.
Proof.
  pose proof (soc_ok k D x0 p Hs Hp) as K. intros Q A. destruct u as [|t].
  - exfalso. unfold ackr in A. cbn [so_ackr] in A. rewrite (soc_serial k D x0 p Hs 0) in A. discriminate.
  - rewrite (ackr_S k D x0 p SERIAL t) in A. assert (C : o_cyc (run s inp t) = true /\ here k D x0 p SERIAL t = true /\ ak t = false).
    { destruct (ak t), (o_cyc (run s inp t)), (here k D x0 p SERIAL t); try discriminate A; auto. }
    destruct C as (C & Hr & N). pose proof (proj1 (here_iff k D x0 p SERIAL t) Hr) as R.
    assert (S0 : request_starts s inp t).
    { split; [exact C|]. destruct t as [|u]; [exact I|]. destruct (o_cyc (run s inp u)) eqn:Cu; [|reflexivity]. exfalso.
      destruct (ack (inp u)) eqn:Au; [destruct (C06_drop_after_ack s inp K u Cu Au) as [Z0 _]; congruence|].
      destruct (C05_request_held s inp K u Cu Au) as (_ & _ & Ea & _). rewrite Ea in R.
      destruct (soc_ack_next k D x0 p Hs Hp SERIAL u Cu R Au) as [A1 _]. rewrite (ack_is k D x0 p (S u)) in A1. rewrite Ea, R in A1. congruence. }
    exists t. split; [reflexivity|]. split; [exact S0|]. split; [apply serial_held; exact S0|exact R].
Qed.
Lemma soc_transmitter : transmitter D s inp sends_at (fun c => tx_idle (at_ c)) (fun c => tx_pin (at_ c)).
Proof.
  pose proof (soc_ok k D x0 p Hs Hp) as K.
  set (rx := fun u => pi_rx (p u)).
  assert (El : forall u, so_serial (at_ u) = serial_run D serial_init b rx u) by (intros u; apply soc_serial; assumption).
  destruct (C41_serial_transmit D b rx HD) as (W & St & Hi). unfold tx_idle, tx_pin.
  assert (Ar : forall u, 0 <= o_adr (run s inp u) < 2 ^ 30) by (intros u; apply adr_fits; destruct (st_cpu _ Hs) as (? & ? & ? & _ & W0); apply run_wf; [exact W0|]; intros v; apply K).
  constructor.
  - intros c Hc. rewrite El. destruct c as [|[|c]]; [reflexivity| |lia]. 
    destruct (tx_ack (sr_tx (serial_run D serial_init b rx 1))) eqn:Q; [reflexivity|]. destruct (St 0%nat eq_refl Q) as (_ & _ & A & _). discriminate A.
  - intros c. rewrite !El. apply Hi.
  - intros v (S0 & We & Rg & Se) Id. apply sends_word in Rg; [|apply Ar]. destruct Rg as [R Ev]. pose proof (serial_held v S0) as Eb. destruct (serial_first v S0 R) as (Q & N & A).
    assert (Ac : access b (fun u => sr_ack (serial_run D serial_init b rx u)) v (b_adr (b v)) true (b_sel (b v)) (b_dat_w (b v))).
    { unfold ackr in N, A. cbn [so_ackr] in N, A. change (sr_ack (so_serial (at_ v)) = false) in N. change (sr_ack (so_serial (at_ (S v))) = true) in A. rewrite El in N, A.
      assert (Bw : b_we (b v) = true) by exact We. constructor; rewrite ?Eb; try assumption; reflexivity. }
    specialize (W v _ _ _ Ac).
    assert (Sb : Z.testbit (b_sel (b v)) 0 = true) by (unfold soc_bus; cbn [sub_bus cpu_bus b_sel lanes_of]; rewrite Z.mod_pow2_bits_low by lia; exact Se).
    assert (Eb2 : Z.even (b_adr (b v)) = true) by (unfold soc_bus; cbn [sub_bus cpu_bus b_adr]; rewrite even_mod by (cbn; lia); exact Ev).
    assert (Db : b_dat_w (b v) mod 256 = o_dat_w (run s inp v) mod 256).
    { unfold soc_bus; cbn [sub_bus cpu_bus b_dat_w lanes_of]. change (2 ^ (8 * 1)) with 256. apply Z.mod_mod. lia. }
    specialize (W Sb Eb2). rewrite El in Id. replace (v + 1)%nat with (S v) in Id by lia. rewrite Id, Db in W. destruct W as (W1 & W2 & W3).
    split; [intros j Hj; rewrite El; split; [apply W1; exact Hj|apply W2; exact Hj]|rewrite El; exact W3].
  - intros v Id Bs. rewrite El in Id, Bs. replace (v + 2)%nat with (S (v + 1)) in Bs by lia. destruct (St (v + 1)%nat Id Bs) as (Stb & Cyc & A & We & Se & Ev).
    rewrite <- El in A. assert (A' : ak (v + 1)%nat = true) by exact A.
    destruct (serial_second (v + 1)%nat) as (t & Et & S0 & Eb & R); [unfold p_req; rewrite Stb, Cyc; reflexivity|exact A'|]. assert (t = v) by lia. subst t. clear Et. rewrite Eb in We, Se, Ev.
    unfold soc_bus in We, Se, Ev. cbn [sub_bus cpu_bus b_we b_sel b_adr lanes_of] in We, Se, Ev. rewrite Z.mod_pow2_bits_low in Se by lia. rewrite even_mod in Ev by (cbn; lia).
    split; [exact S0|]. split; [exact We|]. split; [|exact Se]. apply sends_word; [apply Ar|]. split; assumption.
Qed.
End A.

(** ** The variant with CSR peripherals *)
Section C.
Variables (k D : Z) (x0 : csoc) (p : nat -> pins).
Hypothesis (HD : 1 <= D) (Hs : csoc_start x0) (Hp : pins_ok p).
Local Notation s := (co_cpu x0).
Local Notation inp := (csoc_inp k D x0 p).
(** Transmitter idle, and the serial output pin. *)
Definition csr_tx_idle (x : csoc) : bool := tx_ack (cs_tx (cp_serial (co_per x))).
Definition csr_tx_pin (x : csoc) : bool := tx_o (cs_tx (cp_serial (co_per x))).
Lemma csr_transmitter : transmitter D s inp csr_sends_at (fun c => csr_tx_idle (csoc_run k D x0 p c)) (fun c => csr_tx_pin (csoc_run k D x0 p c)).
Proof.
  destruct (C59_csr_transmit D (pbus k D x0 p) (pgi p) (prx p) (csoc_env k D x0 p Hs Hp) HD) as (W & St & I0 & I1 & Hi).
  assert (Tx : forall t, cs_tx (cp_serial (co_per (csoc_run k D x0 p t))) = cs_tx (cp_serial (csrp_run D csrp_init (pbus k D x0 p) (pgi p) (prx p) t))) by (intros t; rewrite (csoc_per k D x0 p Hs t); reflexivity).
  unfold csr_tx_idle, csr_tx_pin, csr_sends_at. constructor.
  - intros c Hc. rewrite Tx. destruct c as [|[|c]]; [exact I0|exact I1|lia].
  - intros c. rewrite !Tx. apply Hi.
  - intros v Wv Id. rewrite Tx in Id. apply (writing_at k D x0 p Hs Hp) in Wv. specialize (W v Wv). cbv beta in W. rewrite Id in W. destruct W as [W1 W2].
    split; [intros j Hj; rewrite Tx; apply (W1 j Hj)|rewrite Tx; exact W2].
  - intros v Id Bs. rewrite Tx in Id, Bs. apply (writing_at k D x0 p Hs Hp), St; assumption.
Qed.
End C.

(** ** Theorems *)
(** C93, one store on AttoSoC: a store to the serial data register fetched in cycle [t], the transmitter idle in cycle [t + 7]: its
    low byte is on the line from cycle [t + 8] on. *)
Theorem C93_soc_store : forall k D x0 p, 1 <= D -> soc_start x0 -> pins_ok p ->
  let s := so_cpu x0 in let inp := soc_inp k D x0 p in let at_ := soc_run k D x0 p in
  forall t t' w x y, executed s inp t t' w x y -> int_taken s inp t w = false ->
  forall sz rs1 rs2 off, decode w = Some (Store sz rs1 rs2 off) ->
  let ea := (x_of x rs1 + off) mod 2 ^ 32 in sends_at ea = true -> tx_idle (at_ (t + 7)%nat) = true ->
  (forall j, Z.of_nat j < 10 * D -> tx_pin (at_ (t + 8 + j)%nat) = frame_bit 8 (x_of x rs2 mod 256) (Z.of_nat j / D) /\ tx_idle (at_ (t + 8 + j)%nat) = false) /\
  tx_idle (at_ (t + 8 + Z.to_nat (10 * D))%nat) = true.
Proof.
  intros k D x0 p HD Hs Hp s inp at_ t t' w x y (X & -> & ->) T sz rs1 rs2 off Dc ea Rg Id.
  exact (store_sends D s inp sends_at (fun c => tx_idle (at_ c)) (fun c => tx_pin (at_ c)) (soc_ok k D x0 p Hs Hp) sends_al (soc_transmitter k D x0 p HD Hs Hp) t t' w sz rs1 rs2 off X T Dc Rg Id).
Qed.
(** C93, one store on the variant with CSR peripherals: the same cycles. *)
Theorem C93_csr_soc_store : forall k D x0 p, 1 <= D -> csoc_start x0 -> pins_ok p ->
  let s := co_cpu x0 in let inp := csoc_inp k D x0 p in let at_ := csoc_run k D x0 p in
  forall t t' w x y, executed s inp t t' w x y -> int_taken s inp t w = false ->
  forall sz rs1 rs2 off, decode w = Some (Store sz rs1 rs2 off) ->
  let ea := (x_of x rs1 + off) mod 2 ^ 32 in csr_sends_at ea = true -> csr_tx_idle (at_ (t + 7)%nat) = true ->
  (forall j, Z.of_nat j < 10 * D -> csr_tx_pin (at_ (t + 8 + j)%nat) = frame_bit 8 (x_of x rs2 mod 256) (Z.of_nat j / D) /\ csr_tx_idle (at_ (t + 8 + j)%nat) = false) /\
  csr_tx_idle (at_ (t + 8 + Z.to_nat (10 * D))%nat) = true.
Proof.
  intros k D x0 p HD Hs Hp s inp at_ t t' w x y (X & -> & ->) T sz rs1 rs2 off Dc ea Rg Id.
  exact (store_sends D s inp csr_sends_at (fun c => csr_tx_idle (at_ c)) (fun c => csr_tx_pin (at_ c)) (csoc_ok k D x0 p Hs) (csr_at_al TxRx) (csr_transmitter k D x0 p HD Hs Hp) t t' w sz rs1 rs2 off X T Dc Rg Id).
Qed.

(** C93 on AttoSoC, with devices and interrupts: the frames of the program, as the simulator of C89 runs it, are all that the line shows. *)
Theorem C93_soc_line : forall k D x0 p, 1 <= D -> soc_start x0 -> pins_ok p ->
  let s := so_cpu x0 in let inp := soc_inp k D x0 p in let ram := fun a => a <? 2 ^ 23 in let phys := fun a => a mod 2 ^ k in
  let bus := fun c => dat_r (inp c) in let line := fun c => irq (inp c) in let sim := io_clocked ram phys soc_wait line bus (boot_arch s) (soc_bytes x0) in
  forall n, (forall j, (j < n)%nat -> reaches ram phys bus soc_mapped (sim j)) ->
  let '(t, (a, m)) := sim n in soc_mapped (pc a / 4) = true ->
  let fs := frames ram phys line bus sim sends_at D n in
  forall c, (c <= t + 2)%nat -> tx_pin (soc_run k D x0 p c) = line_of D fs c /\ tx_idle (soc_run k D x0 p c) = silent D fs c.
Proof.
  intros k D x0 p HD Hs Hp s inp ram phys bus line sim n R.
  pose proof (frames_sim soc_mapped ram phys soc_wait s inp (soc_bytes x0) (soc_ok k D x0 p Hs Hp) (soc_ram_slave k D x0 p Hs Hp) (soc_answers k D x0 p Hs Hp) D sends_at
    (fun c => tx_idle (soc_run k D x0 p c)) (fun c => tx_pin (soc_run k D x0 p c)) HD sends_al (soc_transmitter k D x0 p HD Hs Hp) n R) as Q.
  cbv beta zeta in Q. fold bus line sim in Q. destruct (sim n) as [t [a m]] eqn:E. cbn [fst snd] in Q. intros Mp. exact (proj2 (Q Mp)).
Qed.
(** C93 on the variant with CSR peripherals, with devices and interrupts. *)
Theorem C93_csr_soc_line : forall k D x0 p, 1 <= D -> csoc_start x0 -> pins_ok p ->
  let s := co_cpu x0 in let inp := csoc_inp k D x0 p in let ram := fun a => a <? 2 ^ 23 in let phys := fun a => a mod 2 ^ k in
  let bus := fun c => dat_r (inp c) in let line := fun c => irq (inp c) in let sim := io_clocked ram phys csoc_wait line bus (boot_arch s) (csoc_bytes x0) in
  forall n, (forall j, (j < n)%nat -> reaches ram phys bus csoc_mapped (sim j)) ->
  let '(t, (a, m)) := sim n in csoc_mapped (pc a / 4) = true ->
  let fs := frames ram phys line bus sim csr_sends_at D n in
  forall c, (c <= t + 2)%nat -> csr_tx_pin (csoc_run k D x0 p c) = line_of D fs c /\ csr_tx_idle (csoc_run k D x0 p c) = silent D fs c.
Proof.
  intros k D x0 p HD Hs Hp s inp ram phys bus line sim n R.
  pose proof (frames_sim csoc_mapped ram phys csoc_wait s inp (csoc_bytes x0) (csoc_ok k D x0 p Hs) (csoc_ram_slave k D x0 p Hs Hp) (csoc_answers k D x0 p Hs Hp) D csr_sends_at
    (fun c => csr_tx_idle (csoc_run k D x0 p c)) (fun c => csr_tx_pin (csoc_run k D x0 p c)) HD (csr_at_al TxRx) (csr_transmitter k D x0 p HD Hs Hp) n R) as Q.
  cbv beta zeta in Q. fold bus line sim in Q. destruct (sim n) as [t [a m]] eqn:E. cbn [fst snd] in Q. intros Mp. exact (proj2 (Q Mp)).
Qed.

(** C93 on AttoSoC, for a program that keeps interrupts disabled and reads only the RAM and GPIO: the line is a function of the
    program and of the GPIO pins, in every cycle. *)
Theorem C93_soc : forall k D x0 p, 1 <= D -> soc_start x0 -> pins_ok p ->
  let s := so_cpu x0 in let ram := fun a => a <? 2 ^ 23 in let phys := fun a => a mod 2 ^ k in
  let nobody := fun _ : nat => false in let gpio := fun c => pi_gpio (p (c - 1)%nat) in
  let sim := io_clocked ram phys soc_wait nobody gpio (boot_arch s) (soc_bytes x0) in
  forall n, (forall j, (j < n)%nat -> settled soc_mapped ram (leds_at 1) phys (sim j)) ->
  let '(t, (a, m)) := sim n in soc_mapped (pc a / 4) = true ->
  let fs := frames ram phys nobody gpio sim sends_at D n in
  forall c, (c <= t + 2)%nat -> tx_pin (soc_run k D x0 p c) = line_of D fs c /\ tx_idle (soc_run k D x0 p c) = silent D fs c.
Proof.
  intros k D x0 p HD Hs Hp s ram phys nobody gpio sim n R.
  pose proof (closed_line soc_mapped ram phys soc_wait s (soc_inp k D x0 p) (soc_bytes x0) (soc_ok k D x0 p Hs Hp) (soc_ram_slave k D x0 p Hs Hp) (soc_answers k D x0 p Hs Hp) (leds_at 1) 1 (fun c => pi_gpio (p c))
    (leds_at_al 1) (fun _ _ _ => eq_refl) (led_input k D x0 p Hs Hp) D sends_at (fun c => tx_idle (soc_run k D x0 p c)) (fun c => tx_pin (soc_run k D x0 p c)) HD sends_al (soc_transmitter k D x0 p HD Hs Hp) n R) as Q.
  cbv beta zeta in Q. fold nobody gpio in Q. fold sim in Q. destruct (sim n) as [t [a m]] eqn:E. cbn [fst snd] in Q. exact Q.
Qed.
(** C93 on the variant with CSR peripherals. *)
Theorem C93_csr_soc : forall k D x0 p, 1 <= D -> csoc_start x0 -> pins_ok p ->
  let s := co_cpu x0 in let ram := fun a => a <? 2 ^ 23 in let phys := fun a => a mod 2 ^ k in
  let nobody := fun _ : nat => false in let gpio := fun c => pi_gpio (p (c - 5)%nat) in
  let sim := io_clocked ram phys csoc_wait nobody gpio (boot_arch s) (csoc_bytes x0) in
  forall n, (forall j, (j < n)%nat -> settled csoc_mapped ram (csr_at InOutReg) phys (sim j)) ->
  let '(t, (a, m)) := sim n in csoc_mapped (pc a / 4) = true ->
  let fs := frames ram phys nobody gpio sim csr_sends_at D n in
  forall c, (c <= t + 2)%nat -> csr_tx_pin (csoc_run k D x0 p c) = line_of D fs c /\ csr_tx_idle (csoc_run k D x0 p c) = silent D fs c.
Proof.
  intros k D x0 p HD Hs Hp s ram phys nobody gpio sim n R.
  assert (Nw : forall (t : nat) ea, csr_at InOutReg ea = true -> csoc_wait t (ea / 4) false = 5%nat). { intros t ea H. unfold csr_at in H. apply Z.eqb_eq in H. subst ea. reflexivity. }
  pose proof (closed_line csoc_mapped ram phys csoc_wait s (csoc_inp k D x0 p) (csoc_bytes x0) (csoc_ok k D x0 p Hs) (csoc_ram_slave k D x0 p Hs Hp) (csoc_answers k D x0 p Hs Hp) (csr_at InOutReg) 5 (fun c => pi_gpio (p c))
    (csr_at_al _) Nw (csr_input k D x0 p Hs Hp) D csr_sends_at (fun c => csr_tx_idle (csoc_run k D x0 p c)) (fun c => csr_tx_pin (csoc_run k D x0 p c)) HD (csr_at_al TxRx) (csr_transmitter k D x0 p HD Hs Hp) n R) as Q.
  cbv beta zeta in Q. fold nobody gpio in Q. fold sim in Q. destruct (sim n) as [t [a m]] eqn:E. cbn [fst snd] in Q. exact Q.
Qed.

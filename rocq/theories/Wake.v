(** * C95: a character on the serial input interrupts the program *)
From Coq Require Import ZArith Lia Bool List.
From Verif Require Import Bits Ucode Cpu Isa Timed BitLemmas Wf Sym Blocks CsrBlocks DecodeOk Boundary Sim Main Obs PropsBus PropsInv Observe PropsIsa PropsFrame Latency LatencySoc Memory SocMem Crash Uart Periph Soc SocIo IoMem CsrBus CsrSoc CsrIoMem SeqTest PowerUp Transparent IoTransparent Emulate Clocked ClockedSoc Waves WavesSoc Lines LinesSoc Reads.
Import ListNotations.
Open Scope Z_scope.

(** The receiver becomes full in cycle [arrives D c], whatever the line does after the start bit. *)
Lemma rx_becomes_full D line ack c : 1 <= D -> let st := rx_run D 8 (rx_init 8) line ack in
  rx_idle (st c) = true -> rx_rdy (st c) = false -> line c = false ->
  rx_rdy (st (arrives D c)) = true /\ rx_rdy (st (arrives D c - 1)%nat) = false /\ (1 <= arrives D c)%nat.
Proof.
  intros HD st Id Fr L0. pose proof (Z.div_pos D 2 ltac:(lia) ltac:(lia)) as B2.
  destruct (C37_receive D 8 line ack HD ltac:(lia) c Id L0 (or_introl Fr)) as (Q & R & _). fold st in Q, R.
  assert (Ed : (c + 1 + Z.to_nat (D / 2) + Z.to_nat (8 + 1) * Z.to_nat D + 1)%nat = arrives D c) by (unfold arrives; nia).
  rewrite Ed in Q, R. split; [exact R|]. split; [|unfold arrives; lia]. apply Q. unfold arrives. nia.
Qed.

(** Byte address [ea] holds the serial interrupt flags. *)
Definition flags_at (ea : Z) : bool := (0x80000000 <=? ea) && (ea <? 0xC0000000) && (ea mod 8 =? 4).
Definition csr_flags_at (ea : Z) : bool := ea =? 0x3000004.

(** C95: a start bit seen by an idle, empty receiver raises the interrupt line nine and a half bits later, and the line stays up until the program reads the interrupt flags; the first instruction after that with interrupts enabled is not executed: the handler is fetched instead. *)
Theorem C95_soc_wakes : forall k D x0 p, 1 <= D -> soc_start x0 -> pins_ok p ->
  let s := so_cpu x0 in let inp := soc_inp k D x0 p in let rx c := sr_rx (so_serial (soc_run k D x0 p c)) in
  forall c, rx_idle (rx c) = true -> rx_rdy (rx c) = false -> pi_rx (p c) = false ->
  (forall u, (arrives D c < u)%nat -> (forall v, (arrives D c < v < u)%nat -> ~ asks s inp flags_at v) -> irq (inp u) = true) /\
  (forall t t' w x y, executed s inp t t' w x y -> mie_of x = true -> meie_of x = true ->
     (arrives D c <= t)%nat -> (forall v, (arrives D c < v <= t)%nat -> ~ asks s inp flags_at v) ->
     next_fetch_at s inp t t' (mtvec_of x) /\ interrupt_entry x y).
Proof.
  intros k D x0 p HD Hs Hp s inp rx c Id Fr L0. pose proof (soc_ok k D x0 p Hs Hp) as K. fold s inp in K.
  assert (G : forall u, (arrives D c < u)%nat -> (forall v, (arrives D c < v < u)%nat -> ~ asks s inp flags_at v) -> irq (inp u) = true).
  { intros u Hu No. destruct (C49_irq_after_reset k D x0 p Hs Hp) as (_ & _ & I). fold s inp in I. apply I. right. left.
    assert (El : forall u, so_serial (soc_run k D x0 p u) = serial_run D serial_init (soc_bus k D x0 p SERIAL) (fun u => pi_rx (p u)) u) by (intros; apply soc_serial; assumption).
    rewrite El. destruct (C40_serial_interrupts D (soc_bus k D x0 p SERIAL) (fun u => pi_rx (p u))) as (G & _). apply G. exists (arrives D c). split; [exact Hu|].
    pose proof (soc_receiver k D x0 p Hs) as Rr. unfold rx in Id, Fr. rewrite Rr in Id, Fr. destruct (rx_becomes_full D _ _ c HD Id Fr L0) as (R1 & R0 & Lp).
    rewrite <- Rr, El in R1. rewrite <- Rr, El in R0. split.
    - unfold rises. rewrite R1. destruct (arrives D c) as [|v]; [lia|]. replace (S v - 1)%nat with v in R0 by lia. rewrite R0. reflexivity.
    - intros v Hv. destruct (irq_read_starts _ _ v) eqn:R; [|reflexivity]. exfalso. apply (No v Hv). unfold irq_read_starts in R.
      do 5 (apply andb_prop in R; destruct R as [R ?]). unfold soc_bus in *. cbn [sub_bus cpu_bus b_stb b_cyc b_adr b_we b_sel adr_width lanes_of] in *.
      match goal with H : _ && in_region _ _ = true |- _ => apply andb_prop in H; destruct H as [C I'] end. fold s inp in C, I'.
      apply (here_iff k D x0 p SERIAL v) in I'. fold s inp in I'.
      match goal with H : negb (o_we _) = true |- _ => apply negb_true_iff in H; rename H into We end.
      match goal with H : Z.odd _ = true |- _ => rewrite <- Z.negb_even, even_mod, Z.negb_even in H by lia; rename H into Od end.
      match goal with H : Z.testbit _ 0 = true |- _ => rename H into Se end.
      fold s inp in We, Od, Se. split; [exact C|]. split; [exact We|]. split; [first [exact Se|rewrite Z.mod_pow2_bits_low in Se by lia; exact Se]|].
      unfold region_of in I'. destruct (_ =? 0); [discriminate|]. destruct (_ =? 1); [discriminate|]. destruct (_ =? 1); [discriminate|].
      destruct (Z.eqb_spec (o_adr (run s inp v) / 2 ^ 28) 2) as [Q|]; [|discriminate].
      pose proof (Z.div_mod (o_adr (run s inp v)) (2 ^ 28) ltac:(lia)). pose proof (Z.mod_pos_bound (o_adr (run s inp v)) (2 ^ 28) ltac:(lia)).
      apply Z.odd_spec in Od. destruct Od as [h Eh].
      unfold flags_at. rewrite !andb_true_iff, Z.leb_le, Z.ltb_lt, Z.eqb_eq. split; [lia|]. rewrite Eh. replace (4 * (2 * h + 1)) with (4 + h * 8) by lia. rewrite Z.mod_add by lia. reflexivity. }
  split; [exact G|]. intros t t' w x y E Mi Me Ht No. apply (C21_interrupt s inp K t t' w x y E).
  pose proof E as (_ & Ex & _). unfold int_taken. rewrite <- Ex, Mi, Me. rewrite (G (t + 1)%nat); [reflexivity|lia|]. intros v Hv. apply No. lia.
Qed.
(** C95 with CSR peripherals; here only the first cycle of a read counts. *)
Theorem C95_csr_soc_wakes : forall k D x0 p, 1 <= D -> csoc_start x0 -> pins_ok p ->
  let s := co_cpu x0 in let inp := csoc_inp k D x0 p in let rx c := cs_rx (cp_serial (co_per (csoc_run k D x0 p c))) in
  forall c, rx_idle (rx c) = true -> rx_rdy (rx c) = false -> pi_rx (p c) = false ->
  (forall u, (arrives D c < u)%nat -> (forall v, (arrives D c < v < u)%nat -> ~ read_begins s inp v 0x3000004) -> irq (inp u) = true) /\
  (forall t t' w x y, executed s inp t t' w x y -> mie_of x = true -> meie_of x = true ->
     (arrives D c <= t)%nat -> (forall v, (arrives D c < v <= t)%nat -> ~ read_begins s inp v 0x3000004) ->
     next_fetch_at s inp t t' (mtvec_of x) /\ interrupt_entry x y).
Proof.
  intros k D x0 p HD Hs Hp s inp rx c Id Fr L0. pose proof (csoc_ok k D x0 p Hs) as K. fold s inp in K.
  assert (G : forall u, (arrives D c < u)%nat -> (forall v, (arrives D c < v < u)%nat -> ~ read_begins s inp v 0x3000004) -> irq (inp u) = true).
  { intros u Hu No. destruct (C60_csr_soc_interrupts k D x0 p Hs Hp) as (I & _ & _ & Ri & _). fold s inp in I, Ri. rewrite I.
    rewrite (proj2 (Ri u)); [rewrite orb_true_r; reflexivity|]. exists (arrives D c). split; [exact Hu|]. split; [|exact No].
    destruct (C59_csr_receive D (pbus k D x0 p) (pgi p) (prx p) (csoc_env k D x0 p Hs Hp)) as (_ & _ & Rr0).
    assert (Rr : forall u, cs_rx (cp_serial (co_per (csoc_run k D x0 p u))) = rx_run D 8 (rx_init 8) (fun v => pi_rx (p v)) (fun v => reading (pbus k D x0 p) (pak k D x0 p) v TxRx) u).
    { intros v. rewrite (csoc_per k D x0 p Hs v). apply Rr0. }
    unfold rx in Id, Fr. rewrite Rr in Id, Fr. destruct (rx_becomes_full D _ _ c HD Id Fr L0) as (R1 & R0 & Lp). rewrite <- Rr in R1, R0.
    unfold rises_later. destruct (arrives D c) as [|v]; [lia|]. replace (S v - 1)%nat with v in R0 by lia. rewrite R1, R0. reflexivity. }
  split; [exact G|]. intros t t' w x y E Mi Me Ht No. apply (C21_interrupt s inp K t t' w x y E).
  pose proof E as (_ & Ex & _). unfold int_taken. rewrite <- Ex, Mi, Me. rewrite (G (t + 1)%nat); [reflexivity|lia|]. intros v Hv. apply No. lia.
Qed.

(** C95 in terms of the program: no instruction since the character was complete, up to the one interrupted, has loaded the flags (or been fetched from there). *)
Theorem C95_soc_program : forall k D x0 p, 1 <= D -> soc_start x0 -> pins_ok p ->
  let s := so_cpu x0 in let inp := soc_inp k D x0 p in let rx c := sr_rx (so_serial (soc_run k D x0 p c)) in
  forall c, rx_idle (rx c) = true -> rx_rdy (rx c) = false -> pi_rx (p c) = false ->
  forall t0 w0, fetch_done s inp t0 w0 -> (t0 < arrives D c)%nat ->
  forall t t' w x y, executed s inp t t' w x y -> mie_of x = true -> meie_of x = true -> (arrives D c <= t)%nat ->
  (forall t1 t1' w1 x1 y1, executed s inp t1 t1' w1 x1 y1 -> (arrives D c <= t1' <= t)%nat -> flags_at (4 * o_adr (run s inp t1')) = false /\
     forall sz1 sg1 rd1 r1 off1, int_taken s inp t1 w1 = false -> decode w1 = Some (Load sz1 sg1 rd1 r1 off1) -> flags_at ((x_of x1 r1 + off1) mod 2 ^ 32) = false) ->
  next_fetch_at s inp t t' (mtvec_of x) /\ interrupt_entry x y.
Proof.
  intros k D x0 p HD Hs Hp s inp rx c Id Fr L0 t0 w0 F0 Lt t t' w x y E Mi Me Ht No. pose proof (soc_ok k D x0 p Hs Hp) as K. fold s inp in K.
  destruct (C95_soc_wakes k D x0 p HD Hs Hp c Id Fr L0) as [_ G]. apply (G t t' w x y E Mi Me Ht). intros u Hu As. fold s inp in As. pose proof E as (X & _).
  destruct (within s inp t0 w0 t w u F0 (proj1 X) ltac:(lia)) as (t1 & t1' & w1 & X1 & H1 & H2).
  destruct (No t1 t1' w1 _ _ (conj X1 (conj eq_refl eq_refl)) ltac:(lia)) as [Nf Nl].
  destruct (asked_by s inp flags_at K t1 t1' w1 u X1 H1 As) as [(Ti & sz1 & sg1 & rd1 & r1 & off1 & D1 & R1)|R]; [|congruence].
  rewrite (Nl _ _ _ _ _ Ti D1) in R1. discriminate.
Qed.
Theorem C95_csr_soc_program : forall k D x0 p, 1 <= D -> csoc_start x0 -> pins_ok p ->
  let s := co_cpu x0 in let inp := csoc_inp k D x0 p in let rx c := cs_rx (cp_serial (co_per (csoc_run k D x0 p c))) in
  forall c, rx_idle (rx c) = true -> rx_rdy (rx c) = false -> pi_rx (p c) = false ->
  forall t0 w0, fetch_done s inp t0 w0 -> (t0 < arrives D c)%nat ->
  forall t t' w x y, executed s inp t t' w x y -> mie_of x = true -> meie_of x = true -> (arrives D c <= t)%nat ->
  (forall t1 t1' w1 x1 y1, executed s inp t1 t1' w1 x1 y1 -> (arrives D c <= t1' <= t)%nat -> csr_flags_at (4 * o_adr (run s inp t1')) = false /\
     forall sz1 sg1 rd1 r1 off1, int_taken s inp t1 w1 = false -> decode w1 = Some (Load sz1 sg1 rd1 r1 off1) -> csr_flags_at ((x_of x1 r1 + off1) mod 2 ^ 32) = false) ->
  next_fetch_at s inp t t' (mtvec_of x) /\ interrupt_entry x y.
Proof.
  intros k D x0 p HD Hs Hp s inp rx c Id Fr L0 t0 w0 F0 Lt t t' w x y E Mi Me Ht No. pose proof (csoc_ok k D x0 p Hs) as K. fold s inp in K.
  destruct (C95_csr_soc_wakes k D x0 p HD Hs Hp c Id Fr L0) as [_ G]. apply (G t t' w x y E Mi Me Ht). intros u Hu Rb. fold s inp in Rb. pose proof E as (X & _).
  assert (As : asks s inp csr_flags_at u). { destruct Rb as (C & _ & We & Se & Ad). split; [exact C|]. split; [exact We|]. split; [exact Se|]. apply Z.eqb_eq. exact Ad. }
  destruct (within s inp t0 w0 t w u F0 (proj1 X) ltac:(lia)) as (t1 & t1' & w1 & X1 & H1 & H2).
  destruct (No t1 t1' w1 _ _ (conj X1 (conj eq_refl eq_refl)) ltac:(lia)) as [Nf Nl].
  destruct (asked_by s inp csr_flags_at K t1 t1' w1 u X1 H1 As) as [(Ti & sz1 & sg1 & rd1 & r1 & off1 & D1 & R1)|R]; [|congruence].
  rewrite (Nl _ _ _ _ _ Ti D1) in R1. discriminate.
Qed.

(** * The whole example SoC with Wishbone peripherals (examples/attosoc.py, [BusType.WB]) *)
From Coq Require Import ZArith Lia Bool List.
From Verif Require Import Bits Ucode Cpu Isa Timed BitLemmas Wf Sym Blocks CsrBlocks DecodeOk Boundary Sim Main Obs PropsBus Observe PropsIsa Memory SocMem Uart Periph.
Import ListNotations.
Open Scope Z_scope.

(** ** Model *)
(** Memory map of the address decoder (attosoc.py:800-801, 863-872): windows are placed in the order they
    are added, at the next address aligned to their size and to 2^25 bytes.  ADR counts words.
    The decoder itself is amaranth-soc's [wishbone.Decoder]; the resulting base addresses are those
    the firmware uses (sentinel-rt/examples/attosoc.rs:84-89). *)
Inductive region := RAM | LEDS | TIMER | SERIAL.
(** attosoc.py:800-801, 863-872 *)
Definition region_of (adr : Z) : option region :=
  if adr / 2 ^ 23 =? 0 then Some RAM else if adr / 2 ^ 23 =? 1 then Some LEDS
  else if adr / 2 ^ 28 =? 1 then Some TIMER else if adr / 2 ^ 28 =? 2 then Some SERIAL else None.
Definition region_eqb (x y : region) : bool :=
  match x, y with RAM, RAM | LEDS, LEDS | TIMER, TIMER | SERIAL, SERIAL => true | _, _ => false end.
(** attosoc.py:863-872 *)
Definition in_region (r : region) (adr : Z) : bool :=
  match region_of adr with Some r' => region_eqb r r' | None => false end.
(** What the decoder shows to a peripheral: CYC only if the address matches, ADR, SEL and DAT_W cut
    to the width of its bus (attosoc.py:52, 143, 353, 575). *)
Definition adr_width (r : region) : Z := match r with RAM => 23 | LEDS => 25 | TIMER | SERIAL => 30 end.
(** attosoc.py:52, 143, 353, 575: [data_width] in bytes. *)
Definition lanes_of (r : region) : Z := match r with RAM => 4 | _ => 1 end.
(** attosoc.py:863-872, 917 *)
Definition sub_bus (r : region) (b : wbus) : wbus :=
  {| b_cyc := b_cyc b && in_region r (b_adr b); b_stb := b_stb b; b_we := b_we b;
     b_adr := b_adr b mod 2 ^ adr_width r; b_sel := b_sel b mod 2 ^ lanes_of r; b_dat_w := b_dat_w b mod 2 ^ (8 * lanes_of r) |}.

(** attosoc.py:798-812: the components. *)
Record soc := { so_cpu : state; so_mem : wbmem; so_leds : leds; so_timer : timer; so_serial : serial }.
(** Pins: the eight GPIO inputs and the serial input. *)
(** attosoc.py:851-861, 893-896 *)
Record pins := { pi_gpio : Z; pi_rx : bool }.
(** attosoc.py:863-872 *)
Definition so_ackr (x : soc) (r : region) : bool :=
  match r with RAM => wm_ack (so_mem x) | LEDS => ld_ack (so_leds x) | TIMER => tm_ack (so_timer x) | SERIAL => sr_ack (so_serial x) end.
(** attosoc.py:863-872 *)
Definition so_datr (x : soc) (r : region) : Z :=
  match r with RAM => wm_rdata (so_mem x) | LEDS => ld_dat (so_leds x) | TIMER => tm_dat (so_timer x) | SERIAL => sr_dat (so_serial x) end.
(** ACK, DAT_R (decoder) and IRQ (attosoc.py:898) as seen by the core. *)
Definition so_inp (x : soc) : input :=
  let r := region_of (o_adr (so_cpu x)) in
  {| rst := false;
     ack := match r with Some r => so_ackr x r | None => false end;
     dat_r := match r with Some r => so_datr x r | None => 0 end;
     irq := tm_irq (so_timer x) || sr_irq (so_serial x) |}.
(** One cycle; RAM of [2 ^ k] words, UART divisor [D]. *)
(** attosoc.py:833-919 *)
Definition soc_step (k D : Z) (x : soc) (p : pins) : soc :=
  let b := cpu_bus (so_cpu x) in
  {| so_cpu := step (so_cpu x) (so_inp x);
     so_mem := wbmem_step k (so_mem x) (sub_bus RAM b);
     so_leds := leds_step (so_leds x) (sub_bus LEDS b) (pi_gpio p);
     so_timer := timer_step (so_timer x) (sub_bus TIMER b);
     so_serial := serial_step D (so_serial x) (sub_bus SERIAL b) (pi_rx p) |}.
(** attosoc.py:833-919, cycle after cycle. *)
Fixpoint soc_run (k D : Z) (x : soc) (p : nat -> pins) (t : nat) : soc :=
  match t with O => x | S n => soc_step k D (soc_run k D x p n) (p n) end.

(** Right after reset: the core's and the peripherals' flip-flops at their reset values; register
    RAM and main memory hold anything (main memory: the program). *)
Record soc_start (x : soc) : Prop := {
  st_cpu : fresh (so_cpu x); st_mem : mem_start (so_mem x);
  st_leds : so_leds x = leds_init; st_timer : so_timer x = timer_init; st_serial : so_serial x = serial_init }.
Definition pins_ok (p : nat -> pins) : Prop := forall t, 0 <= pi_gpio (p t) < 256.

(** ** Proofs *)
Section P.
Variables (k D : Z) (x0 : soc) (p : nat -> pins).
Hypothesis (Hs : soc_start x0) (Hp : pins_ok p).
Let sr := soc_run k D x0 p.
Let s := so_cpu x0.
Definition soc_inp (t : nat) : input := so_inp (soc_run k D x0 p t).
Let inp := soc_inp.

Lemma soc_S t : sr (S t) = soc_step k D (sr t) (p t). Proof. reflexivity. Qed.
Lemma soc_cpu t : so_cpu (sr t) = run s inp t.
Proof. induction t as [|t IH]; [reflexivity|]. rewrite soc_S. cbn [soc_step so_cpu run]. rewrite IH. reflexivity. Qed.
Definition soc_bus (r : region) (t : nat) : wbus := sub_bus r (cpu_bus (run (so_cpu x0) soc_inp t)).
Lemma soc_timer t : so_timer (sr t) = timer_run timer_init (soc_bus TIMER) t.
Proof. induction t as [|t IH]; [apply Hs|]. rewrite soc_S. cbn [soc_step so_timer timer_run]. rewrite IH, soc_cpu. reflexivity. Qed.
Lemma soc_leds t : so_leds (sr t) = leds_run leds_init (soc_bus LEDS) (fun u => pi_gpio (p u)) t.
Proof. induction t as [|t IH]; [apply Hs|]. rewrite soc_S. cbn [soc_step so_leds leds_run]. rewrite IH, soc_cpu. reflexivity. Qed.
Lemma soc_serial t : so_serial (sr t) = serial_run D serial_init (soc_bus SERIAL) (fun u => pi_rx (p u)) t.
Proof. induction t as [|t IH]; [apply Hs|]. rewrite soc_S. cbn [soc_step so_serial serial_run]. rewrite IH, soc_cpu. reflexivity. Qed.

Definition ackr (r : region) (t : nat) : bool := so_ackr (sr t) r.
Definition here (r : region) (t : nat) : bool := in_region r (o_adr (run s inp t)).
Lemma ackr_0 r : ackr r 0 = false.
Proof. unfold ackr, sr. cbn [soc_run]. destruct Hs as [_ M L T S]. destruct r; cbn [so_ackr]; rewrite ?L, ?T, ?S; try reflexivity. apply M. Qed.
Lemma ackr_S r t : ackr r (S t) = o_cyc (run s inp t) && here r t && negb (ackr r t).
Proof.
  unfold ackr, here. rewrite soc_S, <- soc_cpu. destruct r; cbn [soc_step so_ackr wbmem_step wm_ack leds_step ld_ack timer_step tm_ack serial_step sr_ack so_mem so_leds so_timer so_serial];
    unfold p_req; cbn [sub_bus b_stb b_cyc b_adr cpu_bus]; rewrite C10_stb_is_cyc; destruct (o_cyc _); reflexivity.
Qed.
Lemma region_eqb_eq a b : region_eqb a b = true -> a = b.
Proof. destruct a, b; try discriminate; reflexivity. Qed.
Lemma region_eqb_refl a : region_eqb a a = true. Proof. destruct a; reflexivity. Qed.
Lemma here_iff r t : here r t = true <-> region_of (o_adr (run s inp t)) = Some r.
Proof.
  unfold here, in_region. destruct (region_of _) as [r'|]; [|split; discriminate]. split.
  - intros H. apply region_eqb_eq in H. congruence.
  - intros [= ->]. apply region_eqb_refl.
Qed.
Lemma ack_is t : ack (inp t) = match region_of (o_adr (run s inp t)) with Some r => ackr r t | None => false end.
Proof. unfold inp, soc_inp, so_inp. fold sr. rewrite soc_cpu. reflexivity. Qed.

Lemma datr_word t r : word (so_datr (sr t) r).
Proof.
  assert (M : forall u, (forall a, word (wm_mem (so_mem (sr u)) a)) /\ word (wm_rdata (so_mem (sr u)))).
  { induction u as [|u [I1 I2]]; [split; apply Hs|]. rewrite soc_S. cbn [soc_step so_mem wbmem_step wm_mem wm_rdata]. split.
    - intros a. destruct (_ && _); [|apply I1]. destruct (_ =? _); [apply merge_word|apply I1].
    - destruct (_ && _); [apply I1|assumption]. }
  assert (G : forall u, word (ld_dat (so_leds (sr u)))).
  { induction u as [|u IH]; [unfold sr; cbn [soc_run]; rewrite (st_leds _ Hs); unfold word; cbn; lia|]. rewrite soc_S. cbn [soc_step so_leds leds_step ld_dat].
    destruct (_ && _); [|assumption]. specialize (Hp u). unfold word. lia. }
  assert (T : forall u, word (tm_dat (so_timer (sr u)))).
  { induction u as [|u IH]; [unfold sr; cbn [soc_run]; rewrite (st_timer _ Hs); unfold word; cbn; lia|]. rewrite soc_S. cbn [soc_step so_timer timer_step tm_dat].
    destruct (_ && _); [|assumption]. unfold word. destruct (tm_irq _); cbn [b2z]; lia. }
  assert (Q : forall u, word (sr_dat (so_serial (sr u)))).
  { induction u as [|u IH]; [unfold sr; cbn [soc_run]; rewrite (st_serial _ Hs); unfold word; cbn; lia|]. rewrite soc_S. cbn [soc_step so_serial serial_step sr_dat].
    destruct (irq_read _ _). { unfold word. destruct (sr_rxi _), (sr_txi _); cbn [b2z]; lia. }
    destruct (at_rxtx _); [|assumption]. pose proof (rx_data_range 8 (sr_rx (so_serial (sr u))) ltac:(lia)). unfold word. lia. }
  destruct r; [apply M|apply G|apply T|apply Q].
Qed.

Lemma soc_bus_ok : bus_ok s inp.
Proof.
  constructor; [apply Hs| |].
  - constructor; intros t; [reflexivity|]. unfold inp, soc_inp, so_inp. fold sr. cbn [dat_r]. destruct (region_of _); [apply datr_word|]. unfold word. lia.
  - intros t C A. rewrite ack_is in A. destruct (region_of _) as [r|]; [|discriminate]. destruct t as [|t]; [rewrite ackr_0 in A; discriminate|].
    exists t. split; [reflexivity|]. rewrite ackr_S in A. destruct (o_cyc (run s inp t)); [reflexivity|discriminate].
Qed.
Lemma soc_ok : ok s inp. Proof. apply bus_ok_ok, soc_bus_ok. Qed.

(** A peripheral acknowledges only while the core's request to it is up. *)
Lemma ackr_on r t : ackr r t = true -> o_cyc (run s inp t) = true /\ region_of (o_adr (run s inp t)) = Some r.
Proof.
  destruct t as [|t]; [rewrite ackr_0; discriminate|]. rewrite ackr_S. intros A. apply andb_prop in A. destruct A as [A N]. apply andb_prop in A. destruct A as [C H].
  apply here_iff in H. apply negb_true_iff in N.
  destruct (C05_request_held s inp soc_ok t C) as (H1 & _ & H3 & _). { rewrite ack_is, H. assumption. }
  split; [assumption|]. rewrite H3. assumption.
Qed.
Lemma soc_ack_next r t : o_cyc (run s inp t) = true -> region_of (o_adr (run s inp t)) = Some r -> ack (inp t) = false -> ack (inp (S t)) = true /\ ackr r (S t) = true.
Proof.
  intros C R A. destruct (C05_request_held s inp soc_ok t C A) as (H1 & _ & H3 & _).
  assert (ackr r (S t) = true). { rewrite ackr_S, C. apply here_iff in R. rewrite R. apply here_iff in R. rewrite ack_is, R in A. rewrite A. reflexivity. }
  split; [|assumption]. rewrite ack_is, H3, R. assumption.
Qed.
Lemma ackr_cpu r t : ackr r t = true -> ack (inp t) = true.
Proof. intros A. destruct (ackr_on r t A) as [_ R]. rewrite ack_is, R. assumption. Qed.
End P.

(** C43: the core inside the SoC sees a well-behaved bus (so C01 to C29 hold there), every access to
    a mapped address takes exactly two cycles, and an access outside the memory map is never
    answered: the core hangs in it for ever. *)
Theorem C43_soc_bus : forall k D x0 p, soc_start x0 -> pins_ok p ->
  let s := so_cpu x0 in let inp := soc_inp k D x0 p in
  (forall t, so_cpu (soc_run k D x0 p t) = run s inp t) /\ bus_ok s inp /\
  (forall t, o_cyc (run s inp t) = true -> region_of (o_adr (run s inp t)) <> None -> ack (inp t) = false -> ack (inp (S t)) = true) /\
  (forall t, o_cyc (run s inp t) = true -> region_of (o_adr (run s inp t)) = None ->
    forall j, o_cyc (run s inp (t + j)) = true /\ o_adr (run s inp (t + j)) = o_adr (run s inp t) /\ ack (inp (t + j)%nat) = false).
Proof.
  intros k D x0 p Hs Hp s inp. split; [apply soc_cpu|]. split; [apply soc_bus_ok; assumption|]. split.
  - intros t C R A. destruct (region_of (o_adr (run s inp t))) as [r|] eqn:E; [|congruence]. apply (soc_ack_next k D x0 p Hs Hp r t C E A).
  - intros t C R. induction j as [|j (I1 & I2 & I3)].
    + rewrite Nat.add_0_r. repeat split; [assumption|]. unfold inp. rewrite (ack_is k D x0 p t). fold inp s. rewrite R. reflexivity.
    + rewrite Nat.add_succ_r. destruct (C05_request_held s inp (soc_ok k D x0 p Hs Hp) _ I1 I3) as (H1 & _ & H3 & _). split; [assumption|]. split; [congruence|].
      unfold inp. rewrite (ack_is k D x0 p (S (t + j))). fold inp s. rewrite H3, I2, R. reflexivity.
Qed.

(** C43: the waveform a peripheral sees is made of complete two-cycle accesses: it is exactly the
    [access] of the peripheral theorems C39 to C42. *)
Theorem C43_soc_access : forall k D x0 p, soc_start x0 -> pins_ok p ->
  let s := so_cpu x0 in let inp := soc_inp k D x0 p in
  forall t r, o_cyc (run s inp t) = true -> ack (inp t) = false -> region_of (o_adr (run s inp t)) = Some r ->
  let b := run s inp t in
  access (soc_bus k D x0 p r) (fun u => so_ackr (soc_run k D x0 p u) r) t
    (o_adr b mod 2 ^ adr_width r) (o_we b) (o_sel b mod 2 ^ lanes_of r) (o_dat_w b mod 2 ^ (8 * lanes_of r)).
Proof.
  intros k D x0 p Hs Hp s inp t r C A R b.
  destruct (C05_request_held s inp (soc_ok k D x0 p Hs Hp) t C A) as (H1 & _ & H3 & H4 & H5 & H6).
  destruct (soc_ack_next k D x0 p Hs Hp r t C R A) as [_ N].
  assert (I0 : in_region r (o_adr (run s inp t)) = true) by (unfold in_region; rewrite R; destruct r; reflexivity).
  assert (A0 : so_ackr (soc_run k D x0 p t) r = false). { pose proof (ack_is k D x0 p t) as E. fold inp s in E. rewrite R in E. unfold ackr in E. congruence. }
  fold inp s in N.
  constructor; unfold p_req, soc_bus; fold s inp; cbn [sub_bus cpu_bus b_stb b_cyc b_adr b_we b_sel b_dat_w];
    rewrite ?C10_stb_is_cyc, ?H1, ?H3, ?H4, ?H5, ?H6, ?C, ?I0; try reflexivity; assumption.
Qed.

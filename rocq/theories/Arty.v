(** * The Arty A7 build of the example SoC: clock enable

    Models examples/attosoc.py:1049-1084 (case "arty_a7"): the SoC is wrapped in
    [EnableInserter(soc_ce)], with [soc_ce] high in 3 of every 26 cycles of the 100 MHz clock. *)
From Coq Require Import ZArith Znumtheory Lia Bool List.
From Verif Require Import Bits Ucode Cpu Isa Timed BitLemmas Wf Sym Main Obs PropsBus Observe PropsIsa SocMem Uart Periph Soc SocIo ProgGen SocProg Primes.
From Verif Require Demo.
Import ListNotations.
Open Scope Z_scope.

(** [div_8] (5 bits, attosoc.py:1072) and the SoC. *)
Record arty := { ar_div : Z; ar_soc : soc }.
(** attosoc.py:1080-1081 *)
Definition soc_ce (div : Z) : bool := (div =? 8) || (div =? 17) || (div =? 25).
(** attosoc.py:1075-1082; [EnableInserter]: no register of the SoC changes while the enable is low
    (Amaranth semantics; memory ports included). *)
Definition arty_step (k D : Z) (x : arty) (p : pins) : arty :=
  {| ar_div := if ar_div x =? 25 then 0 else (ar_div x + 1) mod 32;
     ar_soc := if soc_ce (ar_div x) then soc_step k D (ar_soc x) p else ar_soc x |}.
(** attosoc.py:1070-1084, cycle after cycle. *)
Fixpoint arty_run (k D : Z) (x : arty) (p : nat -> pins) (t : nat) : arty :=
  match t with O => x | S n => arty_step k D (arty_run k D x p n) (p n) end.

(** ** Specification: which cycles of the 100 MHz clock the SoC sees *)
Definition enabled (t : nat) : bool := let r := Z.of_nat t mod 26 in (r =? 8) || (r =? 17) || (r =? 25).
Fixpoint count (t : nat) : nat := match t with O => O | S n => (if enabled n then 1 else 0) + count n end%nat.
(** Cycle of the [n]-th enable. *)
Definition edge (n : nat) : nat := (26 * (n / 3) + nth (n mod 3) [8; 17; 25] 0)%nat.

Lemma div_is k D x0 p t : ar_div (arty_run k D {| ar_div := 0; ar_soc := x0 |} p t) = Z.of_nat t mod 26.
Proof.
  induction t as [|t IH]; [reflexivity|]. cbn [arty_run arty_step ar_div]. rewrite IH. rewrite Nat2Z.inj_succ. unfold Z.succ.
  pose proof (Z.div_mod (Z.of_nat t) 26 ltac:(lia)) as Dm. pose proof (Z.mod_pos_bound (Z.of_nat t) 26 ltac:(lia)) as B.
  destruct (Z.eqb_spec (Z.of_nat t mod 26) 25) as [E|E].
  - apply Z.mod_unique_pos with (Z.of_nat t / 26 + 1); lia.
  - rewrite Z.mod_small by lia. apply Z.mod_unique_pos with (Z.of_nat t / 26); lia.
Qed.
Lemma qr b q r : 0 <= r < b -> (b * q + r) / b = q /\ (b * q + r) mod b = r.
Proof. intros H. split; symmetry; [apply Z.div_unique_pos with r|apply Z.mod_unique_pos with q]; lia. Qed.
(** The number of enables before cycle [t], in closed form. *)
Lemma count_is t : Z.of_nat (count t) = 3 * (Z.of_nat t / 26) + b2z (8 <? Z.of_nat t mod 26) + b2z (17 <? Z.of_nat t mod 26).
Proof.
  induction t as [|t IH]; [reflexivity|]. cbn [count]. rewrite Nat2Z.inj_add, IH. unfold enabled. cbv zeta. rewrite Nat2Z.inj_succ. unfold Z.succ.
  pose proof (Z.div_mod (Z.of_nat t) 26 ltac:(lia)) as Dm. pose proof (Z.mod_pos_bound (Z.of_nat t) 26 ltac:(lia)) as B.
  set (q := Z.of_nat t / 26) in *. set (r := Z.of_nat t mod 26) in *.
  destruct (Z.eqb_spec r 25) as [E|E].
  - assert (Q : (Z.of_nat t + 1) / 26 = q + 1) by (symmetry; apply Z.div_unique_pos with 0; lia).
    assert (R : (Z.of_nat t + 1) mod 26 = 0) by (symmetry; apply Z.mod_unique_pos with (q + 1); lia).
    rewrite Q, R, E. change (Z.of_nat (if (25 =? 8) || (25 =? 17) || true then 1 else 0)) with 1. cbn [Z.ltb Z.compare Pos.compare Pos.compare_cont b2z]. lia.
  - assert (Q : (Z.of_nat t + 1) / 26 = q) by (symmetry; apply Z.div_unique_pos with (r + 1); lia).
    assert (R : (Z.of_nat t + 1) mod 26 = r + 1) by (symmetry; apply Z.mod_unique_pos with q; lia).
    rewrite Q, R. rewrite orb_false_r.
    destruct (Z.eqb_spec r 8), (Z.eqb_spec r 17), (Z.ltb_spec 8 r), (Z.ltb_spec 17 r), (Z.ltb_spec 8 (r + 1)), (Z.ltb_spec 17 (r + 1)); cbn [orb b2z]; lia.
Qed.
Lemma edge_is n : Z.of_nat (edge n) = 26 * (Z.of_nat n / 3) + (match Z.of_nat n mod 3 with 0 => 8 | 1 => 17 | _ => 25 end) /\ enabled (edge n) = true /\ count (edge n) = n.
Proof.
  assert (H : Z.of_nat (edge n) = 26 * (Z.of_nat n / 3) + (match Z.of_nat n mod 3 with 0 => 8 | 1 => 17 | _ => 25 end)).
  { unfold edge. rewrite Nat2Z.inj_add, Nat2Z.inj_mul, Nat2Z.inj_div. f_equal. pose proof (Nat2Z.inj_mod n 3) as M. change (Z.of_nat 3) with 3 in M. rewrite <- M. pose proof (Nat.mod_upper_bound n 3 ltac:(lia)).
    destruct (n mod 3)%nat as [|[|[|]]]; try reflexivity; lia. }
  split; [exact H|].
  pose proof (Z.div_mod (Z.of_nat n) 3 ltac:(lia)) as Dm. pose proof (Z.mod_pos_bound (Z.of_nat n) 3 ltac:(lia)) as B.
  set (q := Z.of_nat n / 3) in *. set (r := Z.of_nat n mod 3) in *.
  assert (C : (r = 0 /\ Z.of_nat (edge n) = 26 * q + 8) \/ (r = 1 /\ Z.of_nat (edge n) = 26 * q + 17) \/ (r = 2 /\ Z.of_nat (edge n) = 26 * q + 25)).
  { assert (r = 0 \/ r = 1 \/ r = 2) as [E|[E|E]] by lia; rewrite E in H; lia. }
  clear H. 
  destruct C as [[E H]|[[E H]|[E H]]]; (split; [unfold enabled; cbv zeta|apply Nat2Z.inj; rewrite count_is]); rewrite H;
    (destruct (qr 26 q 8 ltac:(lia)) as [Q8 R8]; destruct (qr 26 q 17 ltac:(lia)) as [Q17 R17]; destruct (qr 26 q 25 ltac:(lia)) as [Q25 R25]);
    rewrite ?R8, ?R17, ?R25, ?Q8, ?Q17, ?Q25; try reflexivity; cbn [Z.ltb Z.compare Pos.compare Pos.compare_cont b2z]; lia.
Qed.

(** C57: after [t] cycles of the 100 MHz clock the SoC is in the state it has after [count t]
    cycles when clocked directly, with the pins as they were in the enabled cycles. *)
Theorem C57_clock_enable : forall k D x0 p p', (forall t, enabled t = true -> p' (count t) = p t) ->
  forall t, ar_soc (arty_run k D {| ar_div := 0; ar_soc := x0 |} p t) = soc_run k D x0 p' (count t).
Proof.
  intros k D x0 p p' Hp. induction t as [|t IH]; [reflexivity|]. cbn [arty_run arty_step ar_soc count]. rewrite (div_is k D x0 p t), IH.
  change (soc_ce (Z.of_nat t mod 26)) with (enabled t). destruct (enabled t) eqn:E; cbn [Nat.add soc_run]; [rewrite Hp by assumption|]; reflexivity.
Qed.
(** Such pins exist, and the enables come 8 or 9 cycles apart, 3 in every 26 cycles. *)
Theorem C57_enable_rate :
  (forall n, enabled (edge n) = true /\ count (edge n) = n) /\
  (forall t, enabled t = true -> edge (count t) = t) /\
  (forall n, edge (S n) = (edge n + 8)%nat \/ edge (S n) = (edge n + 9)%nat) /\
  (forall t, count (t + 26) = (count t + 3)%nat).
Proof.
  split; [intros n; apply edge_is|]. split; [|split].
  - intros t E. unfold enabled in E. cbv zeta in E. apply Nat2Z.inj. destruct (edge_is (count t)) as [-> _]. rewrite count_is.
    pose proof (Z.div_mod (Z.of_nat t) 26 ltac:(lia)) as Dm. pose proof (Z.mod_pos_bound (Z.of_nat t) 26 ltac:(lia)) as B.
    set (q := Z.of_nat t / 26) in *. set (r := Z.of_nat t mod 26) in *.
    destruct (qr 3 q 0 ltac:(lia)) as [Q0 R0]; destruct (qr 3 q 1 ltac:(lia)) as [Q1 R1]; destruct (qr 3 q 2 ltac:(lia)) as [Q2 R2].
    assert (r = 8 \/ r = 17 \/ r = 25) as [R|[R|R]] by lia; rewrite R in *; cbn [Z.ltb Z.compare Pos.compare Pos.compare_cont b2z];
      rewrite <- ?Z.add_assoc; cbn [Z.add Pos.add Pos.succ]; rewrite ?Q0, ?Q1, ?Q2, ?R0, ?R1, ?R2; lia.
  - intros n. destruct (edge_is n) as [H _], (edge_is (S n)) as [H' _]. rewrite Nat2Z.inj_succ in H'. unfold Z.succ in H'.
    pose proof (Z.div_mod (Z.of_nat n) 3 ltac:(lia)) as Dm. pose proof (Z.mod_pos_bound (Z.of_nat n) 3 ltac:(lia)) as B.
    set (q := Z.of_nat n / 3) in *. set (r := Z.of_nat n mod 3) in *.
    assert (r = 0 \/ r = 1 \/ r = 2) as [R|[R|R]] by lia; rewrite R in *.
    + replace ((Z.of_nat n + 1) / 3) with q in H' by (apply Z.div_unique_pos with 1; lia). replace ((Z.of_nat n + 1) mod 3) with 1 in H' by (apply Z.mod_unique_pos with q; lia). lia.
    + replace ((Z.of_nat n + 1) / 3) with q in H' by (apply Z.div_unique_pos with 2; lia). replace ((Z.of_nat n + 1) mod 3) with 2 in H' by (apply Z.mod_unique_pos with q; lia). lia.
    + replace ((Z.of_nat n + 1) / 3) with (q + 1) in H' by (apply Z.div_unique_pos with 0; lia). replace ((Z.of_nat n + 1) mod 3) with 0 in H' by (apply Z.mod_unique_pos with (q + 1); lia). lia.
  - intros t. apply Nat2Z.inj. rewrite Nat2Z.inj_add, !count_is, Nat2Z.inj_add. change (Z.of_nat 26) with (1 * 26). rewrite Z.mod_add, Z.div_add by lia. lia.
Qed.

(** C57: the demo firmware shows the same primes on the Arty. *)
Lemma shown_stutter f c : c O = O -> (forall t, c (S t) = c t \/ c (S t) = S (c t)) -> forall t, shown (fun u => f (c u)) t = shown f (c t).
Proof.
  intros C0 Cs. induction t as [|t IH]; cbn [shown]; [rewrite C0; reflexivity|]. rewrite IH. destruct (Cs t) as [->| ->]; [|reflexivity].
  rewrite <- (shown_last f (c t)). apply note_same.
Qed.
Theorem C57_demo_on_arty : forall k D x0 p prog, soc_start x0 -> pins_ok p -> 5 <= k <= 23 ->
  Demo.assemble Demo.demo_text = Some prog ->
  (forall i ins, nth_error prog i = Some ins -> decode (wm_mem (so_mem x0) (Z.of_nat i)) = Some ins) ->
  let leds_at t := ld_leds (so_leds (ar_soc (arty_run k D {| ar_div := 0; ar_soc := x0 |} p t))) in
  exists P : nat -> Z, P O = 3 /\ (forall n, next_prime (P n) (P (S n))) /\
  (forall t, exists n, shown leds_at t = 0 :: map P (seq 0 n)) /\
  (forall n, exists t, shown leds_at t = 0 :: map P (seq 0 n)).
Proof.
  intros k D x0 p prog Hs Hp Hk As Hc leds_at. destruct C57_enable_rate as (E1 & E2 & _).
  set (p' := fun n => p (edge n)). assert (Hp' : pins_ok p') by (intros n; apply Hp).
  assert (R : forall t, leds_at t = ld_leds (so_leds (soc_run k D x0 p' (count t)))).
  { intros t. unfold leds_at. rewrite (C57_clock_enable k D x0 p p'); [reflexivity|]. intros u Eu. unfold p'. rewrite E2 by assumption. reflexivity. }
  assert (Sh : forall t, shown leds_at t = shown (fun n => ld_leds (so_leds (soc_run k D x0 p' n))) (count t)).
  { intros t. rewrite <- (shown_stutter _ count); [|reflexivity|intros u; cbn [count]; destruct (enabled u); auto]. clear - R. induction t as [|t IH]; cbn [shown]; rewrite ?IH, R; reflexivity. }
  destruct (C56_demo_shows_primes k D x0 p' prog Hs Hp' Hk As Hc) as (P & P0 & Pn & A & B). exists P. split; [assumption|]. split; [assumption|]. split.
  - intros t. destruct (A (count t)) as [n E]. exists n. rewrite Sh. exact E.
  - intros n. destruct (B n) as [t E]. exists (edge t). rewrite Sh. destruct (E1 t) as [_ ->]. exact E.
Qed.

(** [n] cycles of the SoC take [26 n / 3] cycles of the 100 MHz clock, to the nearest cycle: the
    SoC runs at 300/26 = 11.54 MHz, not 12 MHz, and a serial bit, 1250 cycles of the SoC
    (attosoc.py:589, 9600 baud at 12 MHz), lasts 10833 or 10834 cycles: 9231 baud. *)
Theorem C57_bit_time :
  (forall n m, 26 * Z.of_nat m - 2 <= 3 * (Z.of_nat (edge (n + m)) - Z.of_nat (edge n)) <= 26 * Z.of_nat m + 2) /\
  (forall n, Z.of_nat (edge (n + Z.to_nat 1250)) - Z.of_nat (edge n) = 10833 \/ Z.of_nat (edge (n + Z.to_nat 1250)) - Z.of_nat (edge n) = 10834).
Proof.
  assert (W : forall n, 26 * Z.of_nat n + 23 <= 3 * Z.of_nat (edge n) <= 26 * Z.of_nat n + 25).
  { intros n. destruct (edge_is n) as [-> _].
    pose proof (Z.div_mod (Z.of_nat n) 3 ltac:(lia)) as Dm. pose proof (Z.mod_pos_bound (Z.of_nat n) 3 ltac:(lia)) as B.
    set (q := Z.of_nat n / 3) in *. set (r := Z.of_nat n mod 3) in *. assert (r = 0 \/ r = 1 \/ r = 2) as [R|[R|R]] by lia; rewrite R in *; lia. }
  split; [intros n m|intros n]; pose proof (W n) as A; [pose proof (W (n + m)%nat) as A'|pose proof (W (n + Z.to_nat 1250)%nat) as A']; rewrite Nat2Z.inj_add in A'; [lia|].
  rewrite Z2Nat.id in A' by lia. lia.
Qed.

(** The hypotheses are met by the board's power-on state with the demo in memory; after 1140 cycles
    of the 100 MHz clock the first prime is on the LEDs, after 600 it is not. *)
Example C57_applies : soc_start demo_soc /\ pins_ok demo_pins /\ Demo.assemble Demo.demo_text = Some Demo.demo /\
  ld_leds (so_leds (ar_soc (arty_run 10 1250 {| ar_div := 0; ar_soc := demo_soc |} demo_pins 1140))) = 3 /\
  ld_leds (so_leds (ar_soc (arty_run 10 1250 {| ar_div := 0; ar_soc := demo_soc |} demo_pins 600))) = 0 /\
  map enabled (seq 0 10) = [false; false; false; false; false; false; false; false; true; false] /\ edge 4 = 43%nat.
Proof. destruct C56_applies as (A & B & _ & C & _). split; [exact A|]. split; [exact B|]. split; [exact C|]. repeat split; vm_compute; reflexivity. Qed.

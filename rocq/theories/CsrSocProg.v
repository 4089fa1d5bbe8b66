(** * Programs on the example SoC with CSR peripherals: C62 *)
From Coq Require Import ZArith Lia Bool List.
From Verif Require Import Bits Ucode Cpu Isa Timed BitLemmas Wf Sym Main Obs PropsBus Observe PropsIsa Memory SocMem Uart Periph Soc SocIo CsrBus ProgGen Primes CsrSoc.
From Verif Require Demo.
Import ListNotations.
Open Scope Z_scope.

Section P.
Variables (k D : Z) (x0 : csoc) (p : nat -> pins).
Hypothesis (Hs : csoc_start x0) (Hp : pins_ok p) (Hk : 0 <= k <= 23).
Let s := co_cpu x0.
Let inp := csoc_inp k D x0 p.
Let b := pbus k D x0 p.
Let ak := pak k D x0 p.
Let K : ok s inp := csoc_ok k D x0 p Hs.
Let leds_at (t : nat) : Z := cl_leds (cp_leds (co_per (csoc_run k D x0 p t))).

(** A pending request to the peripherals started at most five cycles ago. *)
Lemma started t : p_req (b t) = true -> exists v, (v <= t <= v + 5)%nat /\ starts b ak v = true.
Proof.
  induction t as [|t IH]; intros R.
  - exists 0%nat. split; [lia|]. unfold starts. rewrite R. reflexivity.
  - destruct (starts b ak (S t)) eqn:St; [exists (S t); split; [lia|assumption]|].
    unfold starts in St. rewrite R in St. cbn [andb] in St. apply orb_false_iff in St. destruct St as [R' A]. apply negb_false_iff in R'.
    destruct (IH R') as (v & Lv & Sv). exists v. split; [|assumption].
    destruct (Nat.eq_dec t (v + 5)) as [->|]; [|lia]. exfalso.
    destruct (csoc_env k D x0 p Hs Hp) as [He _]. destruct (phases D b (pgi p) (prx p) He v Sv 5%nat ltac:(lia)) as (_ & _ & A5).
    change (ak (v + 5)%nat = true) in A5. congruence.
Qed.
Lemma led_is v : starts b ak v = true -> at_reg (b v) LedsReg = the_led (o_adr (run s inp v)).
Proof.
  intros Sv. destruct (during k D x0 p Hs Hp v Sv 0%nat ltac:(lia)) as (_ & _ & I & _). rewrite Nat.add_0_r in I. fold s inp in I.
  unfold at_reg, b, pbus. fold s inp. cbn [per_bus b_adr cpu_bus]. unfold the_led.
  destruct (Z.eqb_spec (o_adr (run s inp v)) (2 ^ 23)) as [->|N]; [reflexivity|].
  destruct (reg_at _) as [r|] eqn:R; [|reflexivity]. apply (reg_address_of _ _ I) in R. destruct r; try reflexivity. contradiction.
Qed.
Lemma led_next t : leds_at (t + 2)%nat = if writing b ak t LedsReg then b_dat_w (b t) mod 256 else leds_at (t + 1)%nat.
Proof.
  unfold leds_at. rewrite !(csoc_per k D x0 p Hs). destruct (C59_csr_leds D b (pgi p) (prx p) (csoc_env k D x0 p Hs Hp)) as [_ L]. apply L.
Qed.
Lemma led_first t : (t < 2)%nat -> leds_at t = 0.
Proof.
  intros Ht. unfold leds_at. rewrite !(csoc_per k D x0 p Hs). destruct (C59_csr_leds D b (pgi p) (prx p) (csoc_env k D x0 p Hs Hp)) as [L _]. apply L. exact Ht.
Qed.
Lemma csoc_hosts : hosts s inp leds_at k (wm_mem (co_mem x0)) the_led.
Proof.
  constructor.
  - apply csoc_bus_ok; assumption.
  - assumption.
  - apply (cst_mem _ Hs).
  - intros a L. apply Z.eqb_eq in L. rewrite L. discriminate.
  - intros t C M. destruct (in_ram (o_adr (run s inp t))) eqn:R.
    + destruct (ack (inp t)) eqn:A; [exists 0%nat; rewrite Nat.add_0_r; split; [assumption|intros j Hj; lia]|].
      exists 1%nat. split; [|intros j Hj; replace j with 0%nat by lia; rewrite Nat.add_0_r; assumption].
      replace (t + 1)%nat with (S t) by lia. destruct (C05_request_held s inp K t C A) as (_ & _ & E & _).
      pose proof (cack_is k D x0 p Hs t) as At. pose proof (cack_is k D x0 p Hs (S t)) as As. fold s inp in At, As. rewrite E, R in As. rewrite R in At. rewrite As. cbn [mem_run wbmem_step wm_ack].
      rewrite A in At. rewrite <- At. fold (p_req (rbus k D x0 p t)). rewrite (rbus_req k D x0 p t). fold s inp. rewrite C, R. reflexivity.
    + change (in_ram (o_adr (run s inp t)) || the_led (o_adr (run s inp t)) = true) in M. rewrite R in M. cbn [orb] in M.
      assert (I : in_per (o_adr (run s inp t)) = true) by (apply Z.eqb_eq in M; rewrite M; reflexivity).
      assert (Q : p_req (b t) = true). { unfold b. rewrite pbus_req. fold s inp. rewrite C, I. reflexivity. }
      destruct (started t Q) as (v & Lv & Sv). pose proof (during k D x0 p Hs Hp v Sv) as Du. fold s inp in Du.
      exists (v + 5 - t)%nat. split.
      * replace (t + (v + 5 - t))%nat with (v + 5)%nat by lia. apply (Du 5%nat). lia.
      * intros j Hj. destruct (Du (t + j - v)%nat ltac:(lia)) as (_ & _ & _ & A). replace (v + (t + j - v))%nat with (t + j)%nat in A by lia. rewrite A. apply Nat.eqb_neq. lia.
  - apply C60_csr_soc_memory; assumption.
  - apply led_first. lia.
  - intros v N. destruct v as [|v]; [exfalso; apply N; rewrite !led_first by lia; reflexivity|].
    pose proof (led_next v) as L. replace (v + 2)%nat with (S (S v)) in L by lia. replace (v + 1)%nat with (S v) in L by lia. rewrite L in N.
    destruct (writing b ak v LedsReg) eqn:W; [|congruence]. pose proof W as W'. unfold writing in W'. do 3 (apply andb_prop in W'; destruct W' as [W' ?]).
    pose proof (during k D x0 p Hs Hp v W') as Du. fold s inp in Du. destruct (Du 5%nat ltac:(lia)) as (E & C & _ & A).
    exists (v + 5)%nat. split; [lia|]. split; [exact C|]. split; [exact A|]. 
    assert (Eb : b v = per_bus (cpu_bus (run s inp (v + 5)))) by (unfold b, pbus; fold s inp; rewrite E; reflexivity).
    split; [rewrite Eb in H1; exact H1|]. split; [rewrite L, Eb; reflexivity|].
    intros j Hj. destruct (Du (j - v)%nat ltac:(lia)) as (_ & _ & _ & Aj). replace (v + (j - v))%nat with j in Aj by lia. rewrite Aj.
    replace (Nat.eqb (j - v) 5) with false by (symmetry; apply Nat.eqb_neq; lia). apply andb_false_r.
  - intros u C A We L Se. destruct (per_acked k D x0 p Hs Hp u C A) as (v & -> & Sv). { apply Z.eqb_eq in L. unfold inp, s in L. rewrite L. reflexivity. }
    pose proof (during k D x0 p Hs Hp v Sv) as Du. fold s inp in Du. destruct (Du 5%nat ltac:(lia)) as (E & _).
    assert (Eb : b v = per_bus (cpu_bus (run s inp (v + 5)))) by (unfold b, pbus; fold s inp; rewrite E; reflexivity).
    fold b ak in Sv.
    assert (W : writing b ak v LedsReg = true).
    { unfold writing. rewrite Sv, led_is by exact Sv. replace (o_adr (run s inp v)) with (o_adr (run s inp (v + 5))) by (apply (f_equal b_adr) in E; exact E). rewrite L, Eb. cbn [per_bus cpu_bus b_we b_sel].
      fold s inp in We, Se. rewrite We, Se. reflexivity. }
    assert (St : forall n, (n <= 4)%nat -> leds_at (v + 2 + n)%nat = o_dat_w (run s inp (v + 5)) mod 256).
    { induction n as [|n IH]; intros Hn.
      - rewrite Nat.add_0_r, led_next, W, Eb. reflexivity.
      - replace (v + 2 + S n)%nat with ((v + 1 + n) + 2)%nat by lia. rewrite led_next.
        replace (writing b ak (v + 1 + n) LedsReg) with false; [replace (v + 1 + n + 1)%nat with (v + 2 + n)%nat by lia; apply IH; lia|].
        symmetry. destruct (writing b ak (v + 1 + n) LedsReg) eqn:Q; [exfalso|reflexivity]. unfold writing in Q. do 3 (apply andb_prop in Q; destruct Q as [Q _]).
        pose proof (during k D x0 p Hs Hp _ Q (4 - n)%nat ltac:(lia)) as (_ & _ & _ & X). fold inp in X. replace (v + 1 + n + (4 - n))%nat with (v + 5)%nat in X by lia.
        fold inp in A. rewrite A in X. symmetry in X. apply Nat.eqb_eq in X. lia. }
    replace (S (v + 5)) with (v + 2 + 4)%nat by lia. apply St. lia.
Qed.
End P.

(** C62, for any program of the class of ProgGen.v: what C56 says of the other variant. *)
Theorem C62_csr_programs : forall k D x0 p code, csoc_start x0 -> pins_ok p -> 0 <= k <= 23 ->
  (forall a i, code a = Some i -> a mod 4 = 0 /\ 0 <= a / 4 < 2 ^ k /\ decode (wm_mem (co_mem x0) (a / 4)) = Some i) ->
  (forall n, psteps the_led code n (boot_arch (co_cpu x0)) <> None) ->
  let leds_at t := cl_leds (cp_leds (co_per (csoc_run k D x0 p t))) in
  let stored n l := exists a, psteps the_led code n (boot_arch (co_cpu x0)) = Some (a, l) in
  (forall n l, stored n l -> exists t, shown leds_at t = fold_left note l [0]) /\
  (forall t, exists n l, stored n l /\ shown leds_at t = fold_left note l [0]).
Proof.
  intros k D x0 p code Hs Hp Hk Hc For leds_at stored. exact (programs _ _ _ _ _ _ (csoc_hosts k D x0 p Hs Hp Hk) code Hc For).
Qed.
(** C62: the demo firmware on the default variant of the SoC: the LEDs start at 0 and then show 3, 5,
    7, 11, ... 251, 2, 3, 5, ... for ever and nothing else, whatever the pins and the serial divisor. *)
Theorem C62_csr_demo_shows_primes : forall k D x0 p prog, csoc_start x0 -> pins_ok p -> 5 <= k <= 23 ->
  Demo.assemble Demo.demo_text = Some prog ->
  (forall i ins, nth_error prog i = Some ins -> decode (wm_mem (co_mem x0) (Z.of_nat i)) = Some ins) ->
  let leds_at t := cl_leds (cp_leds (co_per (csoc_run k D x0 p t))) in
  exists P : nat -> Z, P O = 3 /\ (forall n, next_prime (P n) (P (S n))) /\
  (forall t, exists n, shown leds_at t = 0 :: map P (seq 0 n)) /\
  (forall n, exists t, shown leds_at t = 0 :: map P (seq 0 n)).
Proof.
  intros k D x0 p prog Hs Hp Hk As Hc leds_at. rewrite Demo.demo_assembles in As. injection As as <-.
  exact (demo_primes _ _ _ _ _ _ (csoc_hosts k D x0 p Hs Hp ltac:(lia)) ltac:(lia) (fun z L => L) Hc).
Qed.

(** The default SoC with the assembled firmware in its 4 KiB RAM. *)
Definition csr_demo_soc : csoc :=
  {| co_cpu := por; co_mem := so_mem demo_soc; co_per := csrp_init |}.
Lemma csr_demo_start : csoc_start csr_demo_soc.
Proof. constructor; [apply por_fresh|exact (st_mem _ demo_start)|reflexivity]. Qed.
Example C62_applies : csoc_start csr_demo_soc /\ pins_ok demo_pins /\ 5 <= 10 <= 23 /\ Demo.assemble Demo.demo_text = Some Demo.demo /\
  (forall i ins, nth_error Demo.demo i = Some ins -> decode (wm_mem (co_mem csr_demo_soc) (Z.of_nat i)) = Some ins) /\
  cl_leds (cp_leds (co_per (csoc_run 10 1250 csr_demo_soc demo_pins 130))) = 3.
Proof.
  destruct C56_applies as (_ & P & L & A & W & _). split; [apply csr_demo_start|]. split; [exact P|]. split; [exact L|]. split; [exact A|]. split; [exact W|]. vm_compute. reflexivity.
Qed.

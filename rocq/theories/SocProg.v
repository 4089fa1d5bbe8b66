(** * Running a program on the example SoC (Wishbone peripherals) *)
From Coq Require Import ZArith Lia Bool List.
From Verif Require Import Bits Ucode Cpu Isa Timed BitLemmas Wf Sym Blocks CsrBlocks DecodeOk Boundary Sim Main Obs PropsBus Observe PropsIsa PropsFrame Memory SocMem Uart Periph Soc SocIo ProgGen.
Import ListNotations.
Open Scope Z_scope.

(** Word addresses of the LED register: byte addresses 0x0200_0000 to 0x03FF_FFFF that are multiples of 16. *)
Definition wb_led (adr : Z) : bool := (adr / 2 ^ 23 =? 1) && (adr mod 4 =? 0).

Section P.
Variables (k D : Z) (x0 : soc) (p : nat -> pins).
Hypothesis (Hs : soc_start x0) (Hp : pins_ok p) (Hk : 0 <= k <= 23).
Let s := so_cpu x0.
Let inp := soc_inp k D x0 p.
Let leds_at (t : nat) := ld_leds (so_leds (soc_run k D x0 p t)).
Let acked (t : nat) : bool := o_cyc (run s inp t) && ack (inp t).

(** A store to the LED register takes effect when it is acknowledged. *)
Lemma leds_store u : acked u = true -> o_we (run s inp u) = true -> o_adr (run s inp u) / 2 ^ 23 = 1 -> o_adr (run s inp u) mod 4 = 0 -> Z.testbit (o_sel (run s inp u)) 0 = true ->
  leds_at (S u) = o_dat_w (run s inp u) mod 256.
Proof.
  intros A We Ad M4 Se. apply andb_prop in A. destruct A as [C A].
  destruct (soc_acked k D x0 p Hs Hp u C A) as (v & r & -> & R & Cv & Av & E1 & E2 & E3 & E4). fold s inp in R, Cv, Av, E1, E2, E3, E4.
  assert (r = LEDS). { unfold region_of in R. rewrite Ad in R. cbn in R. congruence. } subst r.
  rewrite <- E1 in R. pose proof (C43_soc_access k D x0 p Hs Hp v LEDS Cv Av R) as Ac. cbv zeta in Ac. fold s inp in Ac. rewrite E1, E2, E3, E4, We in Ac.
  set (b := soc_bus k D x0 p LEDS) in *. set (gi := fun u => pi_gpio (p u)).
  assert (El : forall u, so_leds (soc_run k D x0 p u) = leds_run leds_init b gi u) by (intros w; apply soc_leds; assumption).
  assert (A' : access b (fun u => ld_ack (leds_run leds_init b gi u)) v (o_adr (run s inp (S v)) mod 2 ^ adr_width LEDS) true (o_sel (run s inp (S v)) mod 2 ^ lanes_of LEDS) (o_dat_w (run s inp (S v)) mod 2 ^ (8 * lanes_of LEDS))).
  { destruct Ac. cbn [so_ackr] in *. rewrite El in ac_ack0, ac_ack1. constructor; assumption. }
  destruct (C45_leds b gi) as (W & _). cbn [lanes_of adr_width] in A'. destruct (W v _ _ _ A') as [W0 _]; [rewrite Z.mod_pow2_bits_low by lia; assumption|].
  destruct W0 as [_ W0]. { change 4 with (2 ^ 2). rewrite mod_mod_pow by lia. exact M4. }
  unfold leds_at. rewrite El, W0. change (2 ^ (8 * 1)) with 256. apply Z.mod_mod. lia.
Qed.

(** The LEDs change only when a store to them is acknowledged. *)
Lemma leds_change u : leds_at (S u) <> leds_at u -> acked u = true /\ o_we (run s inp u) = true /\ leds_at (S u) = o_dat_w (run s inp u) mod 256.
Proof.
  intros N. set (b := soc_bus k D x0 p LEDS). set (gi := fun u => pi_gpio (p u)).
  assert (El : forall u, so_leds (soc_run k D x0 p u) = leds_run leds_init b gi u) by (intros v; apply soc_leds; assumption).
  destruct (C45_leds b gi) as (_ & _ & Ch & _). unfold leds_at in N. rewrite !El in N. destruct (Ch u N) as [A (_ & We & M4 & Se)]. rewrite <- El in A.
  assert (A' : ackr k D x0 p LEDS u = true) by exact A.
  destruct (ackr_on k D x0 p Hs Hp LEDS u A') as [C Rg]. pose proof (ackr_cpu k D x0 p Hs Hp LEDS u A') as Ac. fold s inp in C, Rg, Ac.
  assert (Aa : acked u = true) by (unfold acked; rewrite C; exact Ac). split; [exact Aa|]. split; [exact We|]. apply leds_store; [exact Aa|exact We| | |].
  - unfold region_of in Rg. destruct (_ =? 0); [discriminate|]. destruct (Z.eqb_spec (o_adr (run s inp u) / 2 ^ 23) 1); [assumption|]. destruct (_ =? 1); [discriminate|]. destruct (_ =? 2); discriminate.
  - unfold b, soc_bus in M4. fold s inp in M4. cbn [sub_bus cpu_bus b_adr adr_width] in M4. change 4 with (2 ^ 2) in M4. rewrite mod_mod_pow in M4 by lia. exact M4.
  - unfold b, soc_bus in Se. fold s inp in Se. cbn [sub_bus cpu_bus b_sel lanes_of] in Se. rewrite Z.mod_pow2_bits_low in Se by lia. exact Se.
Qed.
Lemma soc_hosts : hosts s inp leds_at k (wm_mem (so_mem x0)) wb_led.
Proof.
  constructor.
  - apply soc_bus_ok; assumption.
  - assumption.
  - apply (st_mem _ Hs).
  - intros a L. apply andb_prop in L. destruct L as [L _]. apply Z.eqb_eq in L. rewrite L. discriminate.
  - intros t C M. assert (R : exists r, region_of (o_adr (run s inp t)) = Some r).
    { unfold region_of. apply orb_prop in M. destruct M as [M|M]; [rewrite M; eauto|]. apply andb_prop in M. destruct M as [M _]. rewrite M. destruct (_ =? 0); eauto. }
    destruct R as [r R]. destruct (ack (inp t)) eqn:A; [exists 0%nat; rewrite Nat.add_0_r; split; [assumption|intros j Hj; lia]|].
    exists 1%nat. split; [|intros j Hj; replace j with 0%nat by lia; rewrite Nat.add_0_r; assumption].
    replace (t + 1)%nat with (S t) by lia. apply (soc_ack_next k D x0 p Hs Hp r t C R A).
  - apply C44_soc_memory; assumption.
  - unfold leds_at. cbn [soc_run]. rewrite (st_leds _ Hs). reflexivity.
  - intros v N. destruct (leds_change v N) as (A & We & V). exists v. split; [lia|]. unfold acked in A. apply andb_prop in A. destruct A as [C A].
    repeat split; try assumption. intros j Hj. lia.
  - intros u C A We L Se. apply andb_prop in L. destruct L as [L1 L2]. apply Z.eqb_eq in L1, L2. apply leds_store; try assumption. unfold acked. rewrite C, A. reflexivity.
Qed.
End P.

(** C56, for any program of the class: after every instruction of the program there is a moment at
    which the LEDs have shown exactly the values stored so far, and at no time have they shown
    anything else. *)
Theorem C56_programs : forall k D x0 p code, soc_start x0 -> pins_ok p -> 0 <= k <= 23 ->
  (forall a i, code a = Some i -> a mod 4 = 0 /\ 0 <= a / 4 < 2 ^ k /\ decode (wm_mem (so_mem x0) (a / 4)) = Some i) ->
  (forall n, psteps wb_led code n (boot_arch (so_cpu x0)) <> None) ->
  let leds_at t := ld_leds (so_leds (soc_run k D x0 p t)) in
  let stored n l := exists a, psteps wb_led code n (boot_arch (so_cpu x0)) = Some (a, l) in
  (forall n l, stored n l -> exists t, shown leds_at t = fold_left note l [0]) /\
  (forall t, exists n l, stored n l /\ shown leds_at t = fold_left note l [0]).
Proof.
  intros k D x0 p code Hs Hp Hk Hc For leds_at stored. exact (programs _ _ _ _ _ _ (soc_hosts k D x0 p Hs Hp Hk) code Hc For).
Qed.

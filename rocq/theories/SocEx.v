(** * A concrete program on the example SoC: the hypotheses of the SoC theorems are met *)
From Coq Require Import ZArith Lia Bool List.
From Verif Require Import Bits Ucode Cpu Isa Timed BitLemmas Wf Sym Blocks CsrBlocks DecodeOk Boundary Sim Main Obs PropsBus Observe PropsIsa PropsFrame Memory SocMem Uart Periph Soc SocIo.
Import ListNotations.
Open Scope Z_scope.

(** lui x1,0x2000; addi x2,x0,0x5a; sw x2,0(x1); lui x3,0x80000; sb x2,0(x3); lw x4,4(x1);
    lw x5,4(x3); lui x6,0x40000; lw x7,0(x6); lbu x8,0(x3); lui x9,0xC0000; lw x10,0(x9) *)
Definition soc_prog : list Z :=
  [0x020000b7; 0x05a00113; 0x0020a023; 0x800001b7; 0x00218023; 0x0040a203; 0x0041a283; 0x40000337; 0x00032383; 0x0001c403; 0xc00004b7; 0x0004a503].
Definition soc0 : soc :=
  {| so_cpu := por; so_mem := {| wm_mem := fun a => nth (Z.to_nat a) soc_prog 0; wm_rdata := 0; wm_ack := false |};
     so_leds := leds_init; so_timer := timer_init; so_serial := serial_init |}.
Definition pins0 (t : nat) : pins := {| pi_gpio := Z.of_nat t mod 256; pi_rx := true |}.
Lemma soc0_start : soc_start soc0.
Proof.
  constructor; try reflexivity; [apply por_fresh|]. constructor; [|cbn; unfold word; lia|reflexivity]. intros a. cbn [soc0 so_mem wm_mem].
  assert (F : forallb (fun w => (0 <=? w) && (w <? 2 ^ 32)) soc_prog = true) by (vm_compute; reflexivity).
  rewrite forallb_forall in F. destruct (nth_in_or_default (Z.to_nat a) soc_prog 0) as [I|E].
  - specialize (F _ I). apply andb_prop in F. destruct F as [F1 F2]. apply Z.leb_le in F1. apply Z.ltb_lt in F2. unfold word. lia.
  - rewrite E. unfold word. lia.
Qed.
Lemma pins0_ok : pins_ok pins0.
Proof. intros t. apply Z.mod_pos_bound. lia. Qed.
Example C43_applies : soc_start soc0 /\ pins_ok pins0. Proof. split; [apply soc0_start|apply pins0_ok]. Qed.

Definition in1 := soc_inp 8 4 soc0 pins0.
Definition at1 := soc_run 8 4 soc0 pins0.
Lemma at1_cpu t : run por in1 t = so_cpu (at1 t).
Proof. symmetry. apply (soc_cpu 8 4 soc0 pins0 t). Qed.
Definition fetches (t : nat) : bool := let x := at1 t in o_cyc (so_cpu x) && u_fetch (s_u (so_cpu x)) && ack (so_inp x).
Definition word_at (t : nat) : Z := dat_r (so_inp (at1 t)).
Definition ex_ok (t t' : nat) : bool := fetches t && Nat.ltb t t' && fetches t' && forallb (fun u => negb (fetches u)) (seq (S t) (t' - S t)).
Lemma ex_executed t t' w : ex_ok t t' = true -> word_at t = w -> executed por in1 t t' w (run por in1 (S t)) (run por in1 (S t')).
Proof.
  intros H <-. unfold ex_ok in H. do 3 (apply andb_prop in H; destruct H as [H ?]). rewrite forallb_forall in H0.
  assert (F : forall u, fetches u = true -> fetch_done por in1 u (word_at u)).
  { intros u Q. unfold fetches in Q. do 2 (apply andb_prop in Q; destruct Q as [Q ?]). unfold fetch_done. rewrite at1_cpu. repeat split; assumption. }
  split; [|split; reflexivity]. split; [apply F; assumption|]. split; [apply Nat.ltb_lt; assumption|]. split; [eexists; apply F; eassumption|].
  intros u w' Hu (C & U & A & _). assert (I : In u (seq (S t) (t' - S t))) by (apply in_seq; lia). specialize (H0 u I). apply negb_true_iff in H0.
  unfold fetches in H0. cbv zeta in H0. rewrite at1_cpu in C, U. change (ack (so_inp (at1 u))) with (ack (in1 u)) in H0. rewrite C, U, A in H0. discriminate.
Qed.
Definition fetch_cycles := Eval vm_compute in filter fetches (seq 0 140).
(** The instructions executed, with the values the theorems speak about. *)
Ltac ex := split; [apply ex_executed; vm_compute; reflexivity|].
Example C46_applies : executed por in1 14 24 0x0020a023 (run por in1 15) (run por in1 25) /\
  int_taken por in1 14 0x0020a023 = false /\ decode 0x0020a023 = Some (Store Word 1 2 0) /\
  led_address ((x_of (run por in1 15) 1 + 0) mod 2 ^ 32) /\ ld_leds (so_leds (at1 14)) = 0 /\ ld_leds (so_leds (at1 24)) = 0x5a.
Proof. ex. unfold int_taken. rewrite at1_cpu. unfold led_address. vm_compute. repeat split; discriminate. Qed.
Example C47_applies : executed por in1 28 38 0x00218023 (run por in1 29) (run por in1 39) /\
  int_taken por in1 28 0x00218023 = false /\ decode 0x00218023 = Some (Store Byte 3 2 0) /\
  serial_address ((x_of (run por in1 29) 3 + 0) mod 2 ^ 32) /\ ((x_of (run por in1 29) 3 + 0) mod 2 ^ 32) mod 8 = 0 /\
  exists u, (28 < u < 38)%nat /\ tx_idle (at1 u) = true /\ tx_idle (at1 (S u)) = false /\
  map (fun j => tx_pin (at1 (u + 1 + 4 * j))) (seq 0 10) = [false; false; true; false; true; true; false; true; false; true].
Proof.
  ex. unfold int_taken. rewrite at1_cpu. unfold serial_address. split; [vm_compute; reflexivity|]. split; [vm_compute; reflexivity|].
  split; [vm_compute; repeat split; discriminate|]. split; [vm_compute; reflexivity|]. exists 35%nat. split; [lia|]. vm_compute. repeat split.
Qed.
Example C48_applies :
  (executed por in1 38 47 0x0040a203 (run por in1 39) (run por in1 48) /\ int_taken por in1 38 0x0040a203 = false /\ x_of (run por in1 48) 4 = 43) /\
  (executed por in1 47 56 0x0041a283 (run por in1 48) (run por in1 57) /\ int_taken por in1 47 0x0041a283 = false /\ x_of (run por in1 57) 5 = 2) /\
  (executed por in1 60 69 0x00032383 (run por in1 61) (run por in1 70) /\ int_taken por in1 60 0x00032383 = false /\ x_of (run por in1 70) 7 = 0) /\
  (executed por in1 69 78 0x0001c403 (run por in1 70) (run por in1 79) /\ int_taken por in1 69 0x0001c403 = false).
Proof. split; [|split; [|split]]; ex; unfold int_taken; rewrite !at1_cpu; vm_compute; repeat split. Qed.
(** The interrupt line is up from cycle 1 until the serial IRQ register is read. *)
Example C49_applies : irq (in1 1) = true /\ irq (in1 52) = true /\ irq (in1 53) = false.
Proof. repeat split; vm_compute; reflexivity. Qed.
(** The last load is outside the memory map: the core hangs in it. *)
Example C43_unmapped_applies : o_cyc (run por in1 89) = true /\ region_of (o_adr (run por in1 89)) = None /\ o_adr (run por in1 89) = 0x30000000.
Proof. rewrite at1_cpu. repeat split; vm_compute; reflexivity. Qed.
(** The first instruction is fetched from the RAM window. *)
Example C44_applies : o_cyc (run por in1 10) = true /\ ack (in1 10) = true /\ o_we (run por in1 10) = false /\ o_adr (run por in1 10) = 1 /\ dat_r (in1 10) = 0x05a00113.
Proof. rewrite at1_cpu. repeat split; vm_compute; reflexivity. Qed.

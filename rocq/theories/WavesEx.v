(** * C90: bit-banging on both SoCs *)
From Coq Require Import ZArith Lia Bool List.
From Verif Require Import Bits Ucode Cpu Isa Timed BitLemmas Wf Sym Blocks CsrBlocks DecodeOk Boundary Sim Main Obs PropsBus PropsInv Observe PropsIsa PropsFrame Latency Memory SocMem Crash Uart Periph Soc SocIo IoMem CsrBus CsrSoc CsrIoMem SeqTest PowerUp Transparent IoTransparent IoTransparentEx Emulate Clocked ClockedSoc Waves WavesSoc.
Import ListNotations.
Open Scope Z_scope.

(** Enables the GPIO outputs, then for ever: drives output 0 high or low, and copies the input pins to the LEDs. *)
Definition bang : list Z := [0x20000b7; 0xff00113; 0x208423; 0x100193; 0x30a223; 0x40c203; 0x408023; 0x11c193; 0xff1ff06f].
Section Settled.
Variables (mapped ram gin : Z -> bool) (phys : Z -> Z).
Definition settled_b (q : nat * (arch * (Z -> Z))) : bool :=
  let '(t, (a, m)) := q in
  negb (mie a && meie a) && ram (pc a / 4) && mapped (pc a / 4) &&
  match decode (peek phys m (pc a) 4) with
  | Some (Load sz _ _ rs1 off) => let ea := (rd_x a rs1 + off) mod 2 ^ 32 in mapped (ea / 4) && (ram (ea / 4) || gin ea)
  | Some (Store sz rs1 _ off) => mapped (((rd_x a rs1 + off) mod 2 ^ 32) / 4)
  | Some (Csr _ _ _ n) => negb (n =? 0x344)
  | _ => true
  end.
Lemma settled_b_ok q : settled_b q = true -> settled mapped ram gin phys q.
Proof.
  destruct q as [t [a m]]. unfold settled_b, settled. intros H. apply andb_prop in H. destruct H as [H H4]. apply andb_prop in H. destruct H as [H H3]. apply andb_prop in H. destruct H as [H1 H2].
  apply negb_true_iff in H1. split; [exact H1|]. split; [exact H2|]. split; [exact H3|]. destruct (decode _) as [i|]; [|exact I]. destruct i; try exact I.
  - cbv zeta in *. apply andb_prop in H4. destruct H4 as [H4 H5]. split; [exact H4|]. apply orb_prop in H5. exact H5.
  - exact H4.
  - apply negb_true_iff, Z.eqb_neq in H4. exact H4.
Qed.
Lemma settled_all (sim : nat -> nat * (arch * (Z -> Z))) n : forallb (fun j => settled_b (sim j)) (seq 0 n) = true -> forall j, (j < n)%nat -> settled mapped ram gin phys (sim j).
Proof. intros H j Hj. apply settled_b_ok. rewrite forallb_forall in H. apply H. apply in_seq. lia. Qed.
End Settled.

Definition wsoc : soc := soc_of bang.
Definition nobody : nat -> bool := fun _ => false.
(** What the outputs show in cycle [c] after [n] instructions, with the simulator's states listed once. *)
Section Shown.
Variables (L : nat -> nat) (reg : nat -> Z -> bool) (bus : nat -> Z) (sim : nat -> nat * (arch * (Z -> Z))) (n : nat).
Local Notation W f i c := (wave (fun a => a <? 2 ^ 23) (fun a => a mod 2 ^ 8) nobody bus f (reg i) (L i) n c).
Definition listed : list (nat * (arch * (Z -> Z))) := map sim (seq 0 n).
Definition shown (l : list (nat * (arch * (Z -> Z)))) (c : nat) : list Z := map (fun i => W (fun j => nth j l (sim 0%nat)) i c) [0; 1; 2]%nat.
Lemma shown_ok c : shown listed c = map (fun i => W sim i c) [0; 1; 2]%nat.
Proof.
  assert (E : forall i m, (m <= n)%nat -> wave (fun a => a <? 2 ^ 23) (fun a => a mod 2 ^ 8) nobody bus (fun j => nth j listed (sim 0%nat)) (reg i) (L i) m c = wave (fun a => a <? 2 ^ 23) (fun a => a mod 2 ^ 8) nobody bus sim (reg i) (L i) m c).
  { intros i. induction m as [|m IH]; intros Hm; [reflexivity|]. cbn [wave]. rewrite IH by lia.
    assert (Q : nth m listed (sim 0%nat) = sim m) by (unfold listed; rewrite map_nth, seq_nth by lia; reflexivity). rewrite Q. reflexivity. }
  unfold shown. cbn [map]. rewrite !E by lia. reflexivity.
Qed.
End Shown.
(** The LEDs, the GPIO outputs, the output enables. *)
Definition wat (i : nat) : Z -> bool := leds_at (Z.of_nat i).
Definition wlat (i : nat) : nat := match i with O => 2%nat | _ => 1%nat end.
Definition wgpio (c : nat) : Z := pi_gpio (noise (c - 1)%nat).
Definition changes : list nat := map Z.to_nat [20; 21; 34; 35; 54; 55; 74; 75; 94; 95; 114; 115; 134; 135; 154; 155; 174; 175; 189].
(** The hypotheses of [C90_soc] are met by the first 24 instructions.  What they put on the pins, one cycle before and in the
    cycle of each change, is what the circuit shows: the output toggles every 40 cycles, the LEDs show the inputs as they were 12 cycles before. *)
Example C90_soc_applies : soc_start wsoc /\ pins_ok noise /\
  (let sim := io_clocked (fun a => a <? 2 ^ 23) (fun a => a mod 2 ^ 8) soc_wait nobody (fun c => pi_gpio (noise (c - 1)%nat)) (boot_arch (so_cpu wsoc)) (soc_bytes wsoc) in
   (forall j, (j < 24)%nat -> settled soc_mapped (fun a => a <? 2 ^ 23) (leds_at 1) (fun a => a mod 2 ^ 8) (sim j)) /\ fst (sim 24%nat) = 188%nat /\ soc_mapped (pc (fst (snd (sim 24%nat))) / 4) = true) /\
  (let sim := io_clocked (fun a => a <? 2 ^ 23) (fun a => a mod 2 ^ 8) soc_wait nobody wgpio (boot_arch (so_cpu wsoc)) (soc_bytes wsoc) in
   map (fun c => map (fun i => wave (fun a => a <? 2 ^ 23) (fun a => a mod 2 ^ 8) nobody wgpio sim (wat i) (wlat i) 24 c) [0; 1; 2]%nat) changes =
   [[0;0;0]; [0;0;255]; [0;0;255]; [0;1;255]; [0;1;255]; [43;1;255]; [43;1;255]; [43;0;255]; [43;0;255]; [83;0;255]; [83;0;255]; [83;1;255]; [83;1;255]; [123;1;255]; [123;1;255]; [123;0;255]; [123;0;255]; [163;0;255]; [163;0;255]]) /\
  (let l := states (fun x t => soc_step 8 4 x (noise t)) 200 0 wsoc in
   map (fun c => let y := so_leds (nth c l wsoc) in [ld_leds y; ld_o y; ld_oe y]) changes =
   [[0;0;0]; [0;0;255]; [0;0;255]; [0;1;255]; [0;1;255]; [43;1;255]; [43;1;255]; [43;0;255]; [43;0;255]; [83;0;255]; [83;0;255]; [83;1;255]; [83;1;255]; [123;1;255]; [123;1;255]; [123;0;255]; [123;0;255]; [163;0;255]; [163;0;255]]).
Proof.
  split; [constructor; try reflexivity; [apply por_fresh|apply talk_start; vm_compute; reflexivity]|]. split; [apply noise_ok|]. split; [|split].
  - cbv zeta. split; [|split; vm_compute; reflexivity]. apply settled_all. vm_compute. reflexivity.
  - cbv zeta. erewrite map_ext; [|intros c; symmetry; apply (shown_ok wlat wat wgpio _ 24 c)]. vm_compute. reflexivity.
  - vm_compute. reflexivity.
Qed.

Definition vsoc : csoc := csoc_of bang.
Definition vgpio (c : nat) : Z := pi_gpio (noise (c - 5)%nat).
Definition vat (i : nat) : Z -> bool := csr_at (out_reg (match i with 0%nat => OutLeds | 1%nat => OutGpio | _ => OutEnable end)).
Definition vchanges : list nat := map Z.to_nat [21; 22; 39; 40; 66; 67; 91; 92; 118; 119; 143; 144; 170; 171; 195; 196; 222; 223; 242].
(** The same with CSR peripherals: changes in other cycles, and a half period of 52. *)
Example C90_csr_soc_applies : csoc_start vsoc /\ pins_ok noise /\
  (let sim := io_clocked (fun a => a <? 2 ^ 23) (fun a => a mod 2 ^ 8) csoc_wait nobody (fun c => pi_gpio (noise (c - 5)%nat)) (boot_arch (co_cpu vsoc)) (csoc_bytes vsoc) in
   (forall j, (j < 24)%nat -> settled csoc_mapped (fun a => a <? 2 ^ 23) (csr_at InOutReg) (fun a => a mod 2 ^ 8) (sim j)) /\ fst (sim 24%nat) = 240%nat /\ csoc_mapped (pc (fst (snd (sim 24%nat))) / 4) = true) /\
  (let sim := io_clocked (fun a => a <? 2 ^ 23) (fun a => a mod 2 ^ 8) csoc_wait nobody vgpio (boot_arch (co_cpu vsoc)) (csoc_bytes vsoc) in
   map (fun c => map (fun i => wave (fun a => a <? 2 ^ 23) (fun a => a mod 2 ^ 8) nobody vgpio sim (vat i) 2 24 c) [0; 1; 2]%nat) vchanges = [[0;0;0]; [0;0;255]; [0;0;255]; [0;1;255]; [0;1;255]; [51;1;255]; [51;1;255]; [51;0;255]; [51;0;255]; [103;0;255]; [103;0;255]; [103;1;255]; [103;1;255]; [155;1;255]; [155;1;255]; [155;0;255]; [155;0;255]; [207;0;255]; [207;0;255]]) /\
  (let l := states (fun x t => csoc_step 8 4 x (noise t)) 250 0 vsoc in
   map (fun c => map (out_pins (nth c l vsoc)) [OutLeds; OutGpio; OutEnable]) vchanges = [[0;0;0]; [0;0;255]; [0;0;255]; [0;1;255]; [0;1;255]; [51;1;255]; [51;1;255]; [51;0;255]; [51;0;255]; [103;0;255]; [103;0;255]; [103;1;255]; [103;1;255]; [155;1;255]; [155;1;255]; [155;0;255]; [155;0;255]; [207;0;255]; [207;0;255]]).
Proof.
  split; [constructor; try reflexivity; [apply por_fresh|apply talk_start; vm_compute; reflexivity]|]. split; [apply noise_ok|]. split; [|split].
  - cbv zeta. split; [|split; vm_compute; reflexivity]. apply settled_all. vm_compute. reflexivity.
  - cbv zeta. erewrite map_ext; [|intros c; symmetry; apply (shown_ok (fun _ => 2%nat) vat vgpio _ 24 c)]. vm_compute. reflexivity.
  - vm_compute. reflexivity.
Qed.

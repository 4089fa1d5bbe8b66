(** * The whole example SoC with CSR peripherals (examples/attosoc.py, [BusType.CSR], the default) *)
From Coq Require Import ZArith Lia Bool List.
From Verif Require Import Bits Ucode Cpu Isa Timed BitLemmas Wf Sym Blocks CsrBlocks DecodeOk Boundary Sim Main Obs PropsBus Observe PropsIsa PropsFrame Memory SocMem Uart Periph Soc SocIo CsrBus ProgGen Primes.
From Verif Require Demo.
Import ListNotations.
Open Scope Z_scope.

(** ** Model *)
(** attosoc.py:800-801, 863, 874-890: the RAM's window (2^25 bytes) is added first, then the CSR bridge's (2^25 bytes,
    the next multiple of 2^25).  ADR counts words; the RAM sees the same bus as in Soc.v. *)
Definition in_ram (adr : Z) : bool := adr / 2 ^ 23 =? 0.
(** attosoc.py:887 *)
Definition in_per (adr : Z) : bool := adr / 2 ^ 23 =? 1.
(** attosoc.py:887, 917 *)
Definition per_bus (b : wbus) : wbus :=
  {| b_cyc := b_cyc b && in_per (b_adr b); b_stb := b_stb b; b_we := b_we b; b_adr := b_adr b mod 2 ^ 23; b_sel := b_sel b; b_dat_w := b_dat_w b |}.
(** attosoc.py:798-812: the components. *)
Record csoc := { co_cpu : state; co_mem : wbmem; co_per : csrp }.
(** ACK, DAT_R (decoder) and IRQ (attosoc.py:898) as seen by the core. *)
Definition co_inp (x : csoc) : input :=
  let a := o_adr (co_cpu x) in
  {| rst := false;
     ack := if in_ram a then wm_ack (co_mem x) else if in_per a then cp_ack (co_per x) else false;
     dat_r := if in_ram a then wm_rdata (co_mem x) else if in_per a then cp_dat (co_per x) else 0;
     irq := ct_irq (cp_timer (co_per x)) || cs_irq (cp_serial (co_per x)) |}.
(** attosoc.py:833-919 *)
Definition csoc_step (k D : Z) (x : csoc) (p : pins) : csoc :=
  let b := cpu_bus (co_cpu x) in
  {| co_cpu := step (co_cpu x) (co_inp x);
     co_mem := wbmem_step k (co_mem x) (sub_bus RAM b);
     co_per := csrp_step D (co_per x) (per_bus b) (pi_gpio p) (pi_rx p) |}.
(** attosoc.py:833-919, cycle after cycle. *)
Fixpoint csoc_run (k D : Z) (x : csoc) (p : nat -> pins) (t : nat) : csoc :=
  match t with O => x | S n => csoc_step k D (csoc_run k D x p n) (p n) end.
Record csoc_start (x : csoc) : Prop := { cst_cpu : fresh (co_cpu x); cst_mem : mem_start (co_mem x); cst_per : co_per x = csrp_init }.

(** ** Proofs *)
Section P.
Variables (k D : Z) (x0 : csoc) (p : nat -> pins).
Hypothesis (Hs : csoc_start x0) (Hp : pins_ok p).
Let sr := csoc_run k D x0 p.
Let s := co_cpu x0.
Definition csoc_inp (t : nat) : input := co_inp (csoc_run k D x0 p t).
Let inp := csoc_inp.
Definition pbus (t : nat) : wbus := per_bus (cpu_bus (run (co_cpu x0) csoc_inp t)).
Definition rbus (t : nat) : wbus := sub_bus RAM (cpu_bus (run (co_cpu x0) csoc_inp t)).
Definition pgi (t : nat) : Z := pi_gpio (p t).
Definition prx (t : nat) : bool := pi_rx (p t).

Lemma csoc_S t : sr (S t) = csoc_step k D (sr t) (p t). Proof. reflexivity. Qed.
Lemma csoc_cpu t : co_cpu (sr t) = run s inp t.
Proof. induction t as [|t IH]; [reflexivity|]. rewrite csoc_S. cbn [csoc_step co_cpu run]. rewrite IH. reflexivity. Qed.
Lemma csoc_per t : co_per (sr t) = csrp_run D csrp_init pbus pgi prx t.
Proof. induction t as [|t IH]; [apply Hs|]. rewrite csoc_S. cbn [csoc_step co_per csrp_run]. rewrite IH, csoc_cpu. reflexivity. Qed.
Lemma csoc_mem t : co_mem (sr t) = mem_run k (co_mem x0) rbus t.
Proof. induction t as [|t IH]; [reflexivity|]. rewrite csoc_S. cbn [csoc_step co_mem mem_run]. rewrite IH, csoc_cpu. reflexivity. Qed.
Definition pst (t : nat) : csrp := csrp_run D csrp_init pbus pgi prx t.
Definition pak (t : nat) : bool := cp_ack (pst t).
Lemma cack_is t : ack (inp t) = if in_ram (o_adr (run s inp t)) then wm_ack (mem_run k (co_mem x0) rbus t) else if in_per (o_adr (run s inp t)) then pak t else false.
Proof. unfold inp, csoc_inp, co_inp. fold sr. rewrite csoc_cpu, csoc_per, csoc_mem. reflexivity. Qed.
Lemma cdat_is t : dat_r (inp t) = if in_ram (o_adr (run s inp t)) then wm_rdata (mem_run k (co_mem x0) rbus t) else if in_per (o_adr (run s inp t)) then cp_dat (pst t) else 0.
Proof. unfold inp, csoc_inp, co_inp. fold sr. rewrite csoc_cpu, csoc_per, csoc_mem. reflexivity. Qed.
Lemma rbus_req t : p_req (rbus t) = o_cyc (run s inp t) && in_ram (o_adr (run s inp t)).
Proof.
  unfold p_req, rbus. fold s inp. cbn [sub_bus cpu_bus b_stb b_cyc b_adr]. rewrite C10_stb_is_cyc. destruct (o_cyc _); [|reflexivity]. cbn [andb].
  unfold in_region, region_of, in_ram. destruct (_ =? 0); [reflexivity|]. destruct (_ =? 1); [reflexivity|]. destruct (_ =? 1); [reflexivity|]. destruct (_ =? 2); reflexivity.
Qed.
Lemma pbus_req t : p_req (pbus t) = o_cyc (run s inp t) && in_per (o_adr (run s inp t)).
Proof. unfold p_req, pbus. fold s inp. cbn [per_bus cpu_bus b_stb b_cyc b_adr]. rewrite C10_stb_is_cyc. destruct (o_cyc _); reflexivity. Qed.
Lemma ram_not_per a : in_per a = true -> in_ram a = false.
Proof. unfold in_per, in_ram. intros H. apply Z.eqb_eq in H. rewrite H. reflexivity. Qed.

Lemma csoc_bus_ok : bus_ok s inp.
Proof.
  constructor; [apply Hs| |].
  - constructor; intros t; [reflexivity|]. rewrite cdat_is. destruct (in_ram _).
    + assert (M : forall u, (forall a, word (wm_mem (mem_run k (co_mem x0) rbus u) a)) /\ word (wm_rdata (mem_run k (co_mem x0) rbus u))).
      { induction u as [|u [I1 I2]]; [split; apply Hs|]. cbn [mem_run wbmem_step wm_mem wm_rdata]. split.
        - intros a. destruct (_ && _); [|apply I1]. destruct (_ =? _); [apply merge_word|apply I1].
        - destruct (_ && _); [apply I1|assumption]. }
      apply M.
    + destruct (in_per _); [apply dat_word|unfold word; lia].
  - intros t C A. rewrite cack_is in A. destruct t as [|t].
    { exfalso. destruct (in_ram _); [cbn [mem_run] in A; rewrite (ms_ack _ (cst_mem _ Hs)) in A; discriminate|]. destruct (in_per _); discriminate. }
    exists t. split; [reflexivity|]. destruct (in_ram _).
    + cbn [mem_run wbmem_step wm_ack] in A. fold (p_req (rbus t)) in A. apply andb_prop in A. destruct A as [A _]. rewrite rbus_req in A. apply andb_prop in A. apply A.
    + destruct (in_per _); [|discriminate]. unfold pak, pst in A. cbn [csrp_run csrp_step cp_ack] in A. destruct (cp_ack _); [discriminate|].
      apply andb_prop in A. destruct A as [A _]. rewrite pbus_req in A. apply andb_prop in A. apply A.
Qed.
Lemma csoc_ok : ok s inp. Proof. apply bus_ok_ok, csoc_bus_ok. Qed.
Let K : ok s inp := csoc_ok.
Lemma held_cpu t : o_cyc (run s inp t) = true -> ack (inp t) = false -> cpu_bus (run s inp (S t)) = cpu_bus (run s inp t).
Proof.
  intros C A. destruct (C05_request_held s inp K t C A) as (H1 & H2 & H3 & H4 & H5 & H6). unfold cpu_bus. rewrite H1, H2, H3, H4, H5, H6, C, C10_stb_is_cyc, C. reflexivity.
Qed.
Lemma rbus_held : holds_requests rbus (fun t => wm_ack (mem_run k (co_mem x0) rbus t)).
Proof.
  intros t R A. rewrite rbus_req in R. apply andb_prop in R. destruct R as [C I]. unfold rbus. fold s inp. rewrite held_cpu; [reflexivity|assumption|]. rewrite cack_is, I. exact A.
Qed.
Lemma csoc_env : csr_env D pbus pgi prx.
Proof.
  split; [|intros t; apply Hp]. intros t R A. rewrite pbus_req in R. apply andb_prop in R. destruct R as [C I]. unfold pbus. fold s inp. rewrite held_cpu; [reflexivity|assumption|].
  rewrite cack_is, I, ram_not_per by assumption. exact A.
Qed.

(** The first cycle of a request of the core. *)
Definition comes_up (t : nat) : Prop := o_cyc (run s inp t) = true /\ match t with O => True | S u => o_cyc (run s inp u) = false end.
Lemma up_not_acked t : comes_up t -> ack (inp t) = false.
Proof.
  intros [C U]. destruct (ack (inp t)) eqn:A; [|reflexivity]. destruct (ok_ack _ _ csoc_bus_ok t C A) as (u & -> & Cu). congruence.
Qed.
Lemma up_starts t : comes_up t -> in_per (o_adr (run s inp t)) = true -> starts pbus pak t = true.
Proof. intros [C U] I. unfold starts. rewrite pbus_req, C, I. destruct t as [|u]; [reflexivity|]. rewrite pbus_req, U. reflexivity. Qed.
(** During the six cycles of a request to a peripheral the core's bus stays the same. *)
Lemma during v : starts pbus pak v = true -> forall i, (i <= 5)%nat -> cpu_bus (run s inp (v + i)) = cpu_bus (run s inp v) /\ o_cyc (run s inp (v + i)) = true /\
  in_per (o_adr (run s inp (v + i))) = true /\ ack (inp (v + i)%nat) = Nat.eqb i 5.
Proof.
  intros S0. destruct csoc_env as [H _]. pose proof (phases D pbus pgi prx H v S0) as P.
  assert (R : p_req (pbus v) = true) by (unfold starts in S0; apply andb_prop in S0; apply S0).
  assert (Q : forall i, (i <= 5)%nat -> o_cyc (run s inp (v + i)) = true /\ in_per (o_adr (run s inp (v + i))) = true /\ ack (inp (v + i)%nat) = Nat.eqb i 5).
  { intros i Hi. destruct (P i Hi) as (E & _ & A). rewrite <- E, pbus_req in R. apply andb_prop in R. destruct R as [C I]. split; [assumption|]. split; [assumption|]. rewrite cack_is, I, ram_not_per by assumption. exact A. }
  induction i as [|i IH]; intros Hi; [rewrite Nat.add_0_r; split; [reflexivity|]; pose proof (Q 0%nat Hi) as Q0; rewrite Nat.add_0_r in Q0; exact Q0|].
  split; [|apply Q; assumption]. destruct IH as (E & C & _ & A); [lia|]. rewrite Nat.add_succ_r, held_cpu; [exact E|exact C|]. rewrite A. apply Nat.eqb_neq. lia.
Qed.
Lemma per_acked u : o_cyc (run s inp u) = true -> ack (inp u) = true -> in_per (o_adr (run s inp u)) = true ->
  exists v, u = (v + 5)%nat /\ starts pbus pak v = true.
Proof.
  intros C A I. rewrite cack_is, I, ram_not_per in A by assumption. destruct (C59_csr_transfer D pbus pgi prx csoc_env) as [_ B]. exact (B u A).
Qed.
End P.

(** C60: the core inside the SoC sees a well-behaved bus (so C01 to C29 hold there); an access to the
    RAM window takes two cycles and one to the peripherals' window six; an access outside both is
    never answered. *)
Theorem C60_csr_soc_bus : forall k D x0 p, csoc_start x0 -> pins_ok p ->
  let s := co_cpu x0 in let inp := csoc_inp k D x0 p in
  (forall t, co_cpu (csoc_run k D x0 p t) = run s inp t) /\ bus_ok s inp /\
  (forall t, o_cyc (run s inp t) = true -> (t = 0%nat \/ exists u, t = S u /\ o_cyc (run s inp u) = false) ->
    let ea := 4 * o_adr (run s inp t) in let acks n := ack (inp (t + n)%nat) = true /\ forall j, (j < n)%nat -> ack (inp (t + j)%nat) = false in
    (0 <= ea < 0x2000000 -> acks 1%nat) /\ (0x2000000 <= ea < 0x4000000 -> acks 5%nat) /\
    (0x4000000 <= ea -> forall j, o_cyc (run s inp (t + j)) = true /\ o_adr (run s inp (t + j)) = o_adr (run s inp t) /\ ack (inp (t + j)%nat) = false)).
Proof.
  intros k D x0 p Hs Hp s inp. split; [apply csoc_cpu|]. split; [apply csoc_bus_ok; assumption|].
  intros t C U0 ea acks. assert (U : comes_up k D x0 p t) by (split; [exact C|]; destruct U0 as [->|(u & -> & U)]; [exact I|exact U]).
  pose proof (up_not_acked k D x0 p Hs t U) as A. change (ack (inp t) = false) in A.
  assert (Q : (0 <= ea < 0x2000000 -> in_ram (o_adr (run s inp t)) = true) /\ (0x2000000 <= ea < 0x4000000 -> in_per (o_adr (run s inp t)) = true) /\
    (0x4000000 <= ea -> in_ram (o_adr (run s inp t)) = false /\ in_per (o_adr (run s inp t)) = false)).
  { unfold in_ram, in_per. pose proof (Z.div_mod (o_adr (run s inp t)) (2 ^ 23) ltac:(lia)). pose proof (Z.mod_pos_bound (o_adr (run s inp t)) (2 ^ 23) ltac:(lia)).
    change (2 ^ 23) with 8388608 in *. split; [intros; apply Z.eqb_eq; lia|]. split; [intros; apply Z.eqb_eq; lia|]. intros; split; apply Z.eqb_neq; lia. }
  destruct Q as (Q1 & Q2 & Q3). split; [|split].
  - intros R. specialize (Q1 R). unfold acks. split; [|intros j Hj; replace j with 0%nat by lia; rewrite Nat.add_0_r; exact A].
    replace (t + 1)%nat with (S t) by lia. destruct (C05_request_held s inp (csoc_ok k D x0 p Hs) t C A) as (_ & _ & E & _).
    pose proof (cack_is k D x0 p Hs t) as At. pose proof (cack_is k D x0 p Hs (S t)) as As. fold s inp in At, As. rewrite E, Q1 in As. rewrite Q1 in At. rewrite As. cbn [mem_run wbmem_step wm_ack].
    rewrite A in At. rewrite <- At. fold (p_req (rbus k D x0 p t)). rewrite (rbus_req k D x0 p t). fold s inp. rewrite C, Q1. reflexivity.
  - intros R. specialize (Q2 R). pose proof (during k D x0 p Hs Hp t (up_starts k D x0 p t U Q2)) as Du. fold s inp in Du. unfold acks. split.
    + destruct (Du 5%nat ltac:(lia)) as (_ & _ & _ & A5). exact A5.
    + intros j Hj. destruct (Du j ltac:(lia)) as (_ & _ & _ & Aj). rewrite Aj. apply Nat.eqb_neq. lia.
  - intros R. destruct (Q3 R) as [N1 N2]. induction j as [|j (I1 & I2 & I3)].
    + rewrite Nat.add_0_r. auto.
    + rewrite Nat.add_succ_r. destruct (C05_request_held s inp (csoc_ok k D x0 p Hs) _ I1 I3) as (H1 & _ & H3 & _). split; [assumption|]. split; [congruence|].
      pose proof (cack_is k D x0 p Hs (S (t + j))) as E. fold s inp in E. rewrite E, H3, I2, N1, N2. reflexivity.
Qed.

(** C60: RAM reads return the last bytes stored, as in the other variant (C44). *)
Theorem C60_csr_soc_memory : forall k D x0 p, csoc_start x0 -> pins_ok p ->
  let s := co_cpu x0 in let inp := csoc_inp k D x0 p in
  forall t, o_cyc (run s inp t) = true -> ack (inp t) = true -> o_we (run s inp t) = false -> 0 <= o_adr (run s inp t) < 2 ^ 23 ->
  forall i, 0 <= i < 4 ->
  byte (dat_r (inp t)) i = ram_after k (run s inp) (fun u => ack (inp u)) (fun z => byte (wm_mem (co_mem x0) (z / 4)) (z mod 4)) t (4 * (o_adr (run s inp t) mod 2 ^ k) + i).
Proof.
  intros k D x0 p Hs Hp s inp t C A We Ha i Hi.
  assert (Hr : in_ram (o_adr (run s inp t)) = true) by (unfold in_ram; rewrite Z.div_small by lia; reflexivity).
  set (b := rbus k D x0 p).
  assert (Ack : forall u, ack (inp u) = if in_ram (o_adr (run s inp u)) then wm_ack (mem_run k (co_mem x0) b u) else if in_per (o_adr (run s inp u)) then pak k D x0 p u else false) by (intros u; apply cack_is; assumption).
  pose proof (Ack t) as Ak. rewrite Hr, A in Ak. symmetry in Ak.
  destruct (C44_wbmemory k (co_mem x0) b (ms_ack _ (cst_mem _ Hs)) (rbus_held k D x0 p Hs) t Ak) as [R V].
  assert (Eb : forall u, b u = sub_bus RAM (cpu_bus (run s inp u))) by reflexivity.
  pose proof (cdat_is k D x0 p Hs t) as Ed. fold s inp in Ed. rewrite Hr in Ed. fold b in Ed.
  rewrite Ed, V by (first [assumption | rewrite Eb; assumption]).
  replace (b_adr (b t)) with (o_adr (run s inp t)) by (rewrite Eb; cbn [sub_bus cpu_bus b_adr adr_width]; symmetry; apply Z.mod_small; lia).
  generalize (4 * (o_adr (run s inp t) mod 2 ^ k) + i). clear - Hs Hp Ack Eb. intros z.
  induction t as [|t IH]; [reflexivity|]. cbn [bytes_after ram_after]. rewrite IH. clear IH.
  assert (Eq : p_req (b t) && wm_ack (mem_run k (co_mem x0) b t) = o_cyc (run s inp t) && ack (inp t) && (o_adr (run s inp t) / 2 ^ 23 =? 0)).
  { rewrite Ack. unfold b at 1. rewrite (rbus_req k D x0 p t). fold s inp. unfold in_ram. destruct (o_cyc (run s inp t)); [|reflexivity]. cbn [andb].
    destruct (_ =? 0); cbn [andb]; [rewrite andb_true_r; reflexivity|rewrite andb_false_r; reflexivity]. }
  rewrite Eq. replace (o_cyc (run s inp t) && ack (inp t) && o_we (run s inp t) && (o_adr (run s inp t) / 2 ^ 23 =? 0)) with (o_cyc (run s inp t) && ack (inp t) && (o_adr (run s inp t) / 2 ^ 23 =? 0) && o_we (run s inp t)) by (rewrite <- !andb_assoc; f_equal; f_equal; apply andb_comm).
  rewrite Eb. cbn [sub_bus cpu_bus b_we b_adr b_sel b_dat_w adr_width lanes_of].
  assert (Hz : 0 <= z mod 4 < 4) by (apply Z.mod_pos_bound; lia).
  rewrite Z.mod_pow2_bits_low by lia. rewrite mod_lane by assumption.
  destruct (o_cyc (run s inp t) && ack (inp t)); cbn [andb]; [|reflexivity].
  destruct (Z.eqb_spec (o_adr (run s inp t) / 2 ^ 23) 0) as [Ez|Nz]; cbn [andb]; [|reflexivity].
  replace (o_adr (run s inp t) mod 2 ^ 23) with (o_adr (run s inp t)); [reflexivity|].
  symmetry. pose proof (Z.div_mod (o_adr (run s inp t)) (2 ^ 23) ltac:(lia)). lia.
Qed.

(** ** Programs and peripherals *)
(** Byte addresses of the registers (sentinel-rt/examples/attosoc.rs:90-95). *)
Definition reg_address (r : reg) : Z :=
  match r with LedsReg => 0x2000000 | InOutReg => 0x2000004 | OeReg => 0x2000008 | TimerIrq => 0x2800000 | TxRx => 0x3000000 | SerialIrq => 0x3000004 end.
Lemma reg_address_at r : reg_at ((reg_address r / 4) mod 2 ^ 23) = Some r /\ in_per (reg_address r / 4) = true /\ reg_address r mod 4 = 0.
Proof. destruct r; vm_compute; auto. Qed.
Lemma reg_address_of a r : in_per a = true -> reg_at (a mod 2 ^ 23) = Some r -> a = reg_address r / 4.
Proof.
  intros I R. apply reg_addr in R. unfold in_per in I. apply Z.eqb_eq in I. pose proof (Z.div_mod a (2 ^ 23) ltac:(lia)) as Q. rewrite I, R in Q. rewrite Q. destruct r; reflexivity.
Qed.
Lemma reg_eqb_eq a b : reg_eqb a b = true -> a = b. Proof. destruct a, b; try discriminate; reflexivity. Qed.
Lemma reg_eqb_refl a : reg_eqb a a = true. Proof. destruct a; reflexivity. Qed.

Section I.
Variables (k D : Z) (x0 : csoc) (p : nat -> pins).
Hypothesis (Hs : csoc_start x0) (Hp : pins_ok p).
Let s := co_cpu x0.
Let inp := csoc_inp k D x0 p.
Let b := pbus k D x0 p.
Let ak := pak k D x0 p.
Let K : ok s inp := csoc_ok k D x0 p Hs.

(** The request behind a data transfer with a register starts within the instruction. *)
Lemma data_starts t t' w u r : fetch_done s inp t w -> one_data s inp t t' u -> o_adr (run s inp u) = reg_address r / 4 ->
  exists v, u = (v + 5)%nat /\ (t < v)%nat /\ starts b ak v = true /\ at_reg (b v) r = true /\ cpu_bus (run s inp v) = cpu_bus (run s inp u).
Proof.
  intros F (Hu & (C & _ & A) & _) Ad. destruct (reg_address_at r) as (R & I & _).
  destruct (per_acked k D x0 p Hs Hp u C A) as (v & -> & S0). { fold s inp. rewrite Ad. exact I. }
  pose proof (during k D x0 p Hs Hp v S0) as Du. fold s inp in Du. destruct (Du 5%nat ltac:(lia)) as (E & _).
  exists v. split; [reflexivity|]. split.
  - destruct (Nat.lt_ge_cases t v); [assumption|]. exfalso. destruct (Du (t - v)%nat ltac:(lia)) as (_ & _ & _ & At). replace (v + (t - v))%nat with t in At by lia.
    destruct F as (_ & _ & Af & _). rewrite Af in At. symmetry in At. apply Nat.eqb_eq in At. lia.
  - split; [assumption|]. split; [|symmetry; exact E]. unfold at_reg, b, pbus. fold s inp. cbn [per_bus b_adr].
    replace (b_adr (cpu_bus (run s inp v))) with (o_adr (run s inp (v + 5))) by (rewrite <- E; reflexivity). rewrite Ad, R. apply reg_eqb_refl.
Qed.
Lemma bytes_al sz ea : ea mod 4 = 0 -> ea mod bytes sz = 0.
Proof. intros Al. destruct sz; cbn [bytes]; [apply Z.mod_1_r| |assumption]. pose proof (Z.div_mod ea 4 ltac:(lia)). replace ea with ((2 * (ea / 4)) * 2) by lia. apply Z.mod_mul. lia. Qed.
Lemma reg_store t t' w x y sz rs1 rs2 off r : executed s inp t t' w x y -> int_taken s inp t w = false -> decode w = Some (Store sz rs1 rs2 off) ->
  (x_of x rs1 + off) mod 2 ^ 32 = reg_address r ->
  exists v, (t < v)%nat /\ (v + 5 < t')%nat /\ one_data s inp t t' (v + 5) /\ writing b ak v r = true /\ b_dat_w (b v) mod 256 = x_of x rs2 mod 256.
Proof.
  intros E T Dc Ea. destruct (reg_address_at r) as (R & I & Al).
  destruct (C12_store s inp K t t' w x y E T sz rs1 rs2 off Dc) as (u & O & We & Ad & Se & Da & _). { rewrite Ea. apply bytes_al. exact Al. }
  rewrite Ea in Ad, Se, Da. destruct E as ((F & _) & _).
  destruct (data_starts t t' w u r F O Ad) as (v & -> & Lv & S0 & Ar & Eb). exists v. split; [assumption|]. split; [apply O|]. split; [assumption|].
  assert (Ev : b v = per_bus (cpu_bus (run s inp (v + 5)))) by (unfold b, pbus; fold s inp; rewrite Eb; reflexivity).
  assert (Bz : 1 <= bytes sz) by (destruct sz; cbn; lia).
  split.
  - unfold writing. rewrite S0, Ar, Ev. cbn [per_bus cpu_bus b_we b_sel andb]. rewrite We, Se by lia. unfold addressed. rewrite Al. destruct sz; reflexivity.
  - rewrite Ev. cbn [per_bus cpu_bus b_dat_w]. specialize (Da 0 ltac:(lia)). rewrite Al in Da. unfold byte, fld in Da. change (2 ^ (8 * (0 + 0))) with 1 in Da. change (2 ^ (8 * 0)) with 1 in Da. rewrite !Z.div_1_r in Da. exact Da.
Qed.
Lemma reg_load t t' w x y sz sgn rd rs1 off r : executed s inp t t' w x y -> int_taken s inp t w = false -> decode w = Some (Load sz sgn rd rs1 off) ->
  (x_of x rs1 + off) mod 2 ^ 32 = reg_address r ->
  exists v, (t < v)%nat /\ (v + 5 < t')%nat /\ one_data s inp t t' (v + 5) /\ reading b ak v r = true /\
    retires x y rd (loaded_byte sz sgn (reg_value (pst k D x0 p v) (pi_gpio (p v)) (Some r))) (pc_plus_4 x).
Proof.
  intros E T Dc Ea. destruct (reg_address_at r) as (R & I & Al).
  destruct (C13_load s inp K t t' w x y E T sz sgn rd rs1 off Dc) as (u & O & We & Ad & Se & Re & _). { rewrite Ea. apply bytes_al. exact Al. }
  rewrite Ea in Ad, Se, Re. destruct E as ((F & _) & _).
  destruct (data_starts t t' w u r F O Ad) as (v & -> & Lv & S0 & Ar & Eb). exists v. split; [assumption|]. split; [apply O|]. split; [assumption|].
  assert (Ev : b v = per_bus (cpu_bus (run s inp (v + 5)))) by (unfold b, pbus; fold s inp; rewrite Eb; reflexivity).
  assert (Rd : reading b ak v r = true).
  { unfold reading. rewrite S0, Ar, Ev. cbn [per_bus cpu_bus b_we b_sel andb]. rewrite We, Se by lia. unfold addressed. rewrite Al. destruct sz; reflexivity. }
  split; [exact Rd|].
  assert (Dv : dat_r (inp (v + 5)%nat) = reg_value (pst k D x0 p v) (pi_gpio (p v)) (Some r)).
  { pose proof (cdat_is k D x0 p Hs (v + 5)) as Q. fold s inp in Q. rewrite Ad, I, ram_not_per in Q by exact I. rewrite Q.
    destruct (C59_csr_transfer D (pbus k D x0 p) (pgi p) (prx p) (csoc_env k D x0 p Hs Hp)) as [Tr _]. destruct (Tr v S0) as (_ & _ & V). unfold pst.
    unfold reading in Rd. do 3 (apply andb_prop in Rd; destruct Rd as [Rd ?]). apply negb_true_iff in H1. rewrite V by exact H1. fold b. rewrite H0.
    unfold at_reg in Ar. destruct (reg_at (b_adr (b v))) as [r'|]; [|discriminate]. apply reg_eqb_eq in Ar. subst r'. reflexivity. }
  cbv zeta in Re. rewrite Al in Re. unfold fld in Re. change (2 ^ (8 * 0)) with 1 in Re. rewrite Z.div_1_r, Dv in Re.
  set (d := reg_value _ _ _) in *.
  assert (Hd : 0 <= d < 256) by (apply (reg_value_byte D b (pgi p) (prx p)); intros n; apply Hp).
  assert (Hb : 2 ^ 8 <= 2 ^ (8 * bytes sz)) by (apply Z.pow_le_mono_r; [lia|destruct sz; cbn; lia]).
  rewrite (Z.mod_small d (2 ^ _)) in Re by lia.
  replace (if sgn then sext (8 * bytes sz) d mod 2 ^ 32 else d) with (loaded_byte sz sgn d) in Re; [exact Re|].
  unfold loaded_byte. destruct sgn; [|destruct sz; reflexivity]. unfold sext. destruct sz; cbn [bytes] in *.
  - change (8 * 1 - 1) with 7. change (2 ^ 7) with 128. change (2 ^ (8 * 1)) with 256. reflexivity.
  - change (8 * 2 - 1) with 15. destruct (Z.ltb_spec d (2 ^ 15)); [|lia]. symmetry. apply Z.mod_small; lia.
  - change (8 * 4 - 1) with 31. destruct (Z.ltb_spec d (2 ^ 31)); [|lia]. symmetry. apply Z.mod_small; lia.
Qed.
(** The instruction behind a register write that starts while it executes. *)
Lemma written_by t t' w x y v r : executed s inp t t' w x y -> (t <= v < t')%nat -> writing b ak v r = true ->
  (t < v)%nat /\ (v + 5 < t')%nat /\ int_taken s inp t w = false /\ exists sz rs1 rs2 off, decode w = Some (Store sz rs1 rs2 off) /\ (x_of x rs1 + off) mod 2 ^ 32 = reg_address r.
Proof.
  intros E Hv W. unfold writing in W. do 3 (apply andb_prop in W; destruct W as [W ?]). rename H into Ar, H0 into Se, H1 into We.
  pose proof (during k D x0 p Hs Hp v W) as Du. fold s inp in Du.
  destruct (Du 5%nat ltac:(lia)) as (E5 & C5 & I5 & A5).
  assert (We5 : forall i, (i <= 5)%nat -> o_we (run s inp (v + i)) = true).
  { intros i Hi. destruct (Du i Hi) as (Ei & _). apply (f_equal b_we) in Ei. cbn [cpu_bus b_we] in Ei. rewrite Ei. exact We. }
  pose proof E as ((F & L & (w' & F') & _) & _).
  assert (NF : forall i w0, (i <= 5)%nat -> ~ fetch_done s inp (v + i) w0).
  { intros i w0 Hi Fi. destruct (fetch_machine s inp K _ w0 Fi) as [a M]. destruct (Du i Hi) as (_ & Ci & _). destruct (C10_signals_well_formed s inp K) as (_ & _ & X & _).
    destruct (X _ a Ci M) as [_ Xw]. specialize (We5 i Hi). congruence. }
  assert (Lt : (t < v)%nat). { destruct (Nat.eq_dec v t) as [->|]; [|lia]. exfalso. apply (NF 0%nat w ltac:(lia)). rewrite Nat.add_0_r. exact F. }
  assert (Lt' : (v + 5 < t')%nat).
  { destruct (Nat.lt_ge_cases (v + 5) t'); [assumption|]. exfalso. apply (NF (t' - v)%nat w' ltac:(lia)). replace (v + (t' - v))%nat with t' by lia. exact F'. }
  split; [assumption|]. split; [assumption|].
  destruct (C27_only_stores_write s inp K t t' w x y E (v + 5)%nat ltac:(lia) (We5 5%nat ltac:(lia))) as [T (sz & rs1 & rs2 & off & Dc)].
  split; [assumption|]. exists sz, rs1, rs2, off. split; [assumption|].
  set (ea := (x_of x rs1 + off) mod 2 ^ 32) in *. assert (Hea : 0 <= ea < 2 ^ 32) by (apply Z.mod_pos_bound; lia).
  destruct (Z.eq_dec (ea mod bytes sz) 0) as [Al|Al].
  + destruct (C12_store s inp K t t' w x y E T sz rs1 rs2 off Dc Al) as (u & O & We' & Ad' & Se' & _). fold ea in Ad', Se'.
    assert (u = (v + 5)%nat). { destruct O as (_ & _ & O). destruct (Nat.eq_dec (v + 5) u) as [|Nu]; [congruence|]. exfalso. specialize (O (v + 5)%nat ltac:(lia) Nu). rewrite C5, A5 in O. discriminate. }
    subst u. unfold b, pbus in Se, Ar. fold s inp in Se, Ar. rewrite <- E5 in Se, Ar. unfold at_reg in Ar. cbn [per_bus cpu_bus b_sel b_adr] in Se, Ar.
    destruct (reg_at (o_adr (run s inp (v + 5)) mod 2 ^ 23)) as [r'|] eqn:Q; [|discriminate]. apply reg_eqb_eq in Ar. subst r'. apply reg_address_of in Q; [|exact I5].
    rewrite Ad' in Q. assert (E4 : ea mod 4 = 0). { rewrite Se' in Se by lia. unfold addressed in Se. apply andb_prop in Se. destruct Se as [Se _]. pose proof (Z.mod_pos_bound ea 4 ltac:(lia)). lia. }
    destruct (reg_address_at r) as (_ & _ & R4). pose proof (Z.div_mod ea 4 ltac:(lia)). pose proof (Z.div_mod (reg_address r) 4 ltac:(lia)). lia.
  + exfalso. destruct (C11_misaligned s inp K t t' w x y E T) as [_ Ms]. destruct (Ms sz rs1 rs2 off Dc Al) as [Nd _]. specialize (Nd (v + 5)%nat ltac:(lia)). rewrite C5, A5 in Nd. discriminate.
Qed.
End I.

(** C60: what an output register drives. *)
Inductive outreg := OutLeds | OutGpio | OutEnable.
Definition out_reg (o : outreg) : reg := match o with OutLeds => LedsReg | OutGpio => InOutReg | OutEnable => OeReg end.
Definition out_pins (x : csoc) (o : outreg) : Z :=
  let l := cp_leds (co_per x) in match o with OutLeds => cl_leds l | OutGpio => cl_o l | OutEnable => cl_oe l end.
(** C60: a store to 0x0200_0000 (LEDs), 0x0200_0004 (GPIO outputs) or 0x0200_0008 (output enables) puts
    the register's low byte on the pins before the next instruction is fetched; nothing else changes
    them. *)
Theorem C60_csr_soc_outputs : forall k D x0 p, csoc_start x0 -> pins_ok p ->
  let s := co_cpu x0 in let inp := csoc_inp k D x0 p in let out o t := out_pins (csoc_run k D x0 p t) o in
  (forall o, out o 0%nat = 0) /\
  forall t t' w x y, executed s inp t t' w x y -> forall o,
  (forall sz rs1 rs2 off, int_taken s inp t w = false -> decode w = Some (Store sz rs1 rs2 off) ->
    (x_of x rs1 + off) mod 2 ^ 32 = reg_address (out_reg o) -> out o t' = x_of x rs2 mod 256) /\
  (out o t' <> out o t -> int_taken s inp t w = false /\ exists sz rs1 rs2 off, decode w = Some (Store sz rs1 rs2 off) /\
    (x_of x rs1 + off) mod 2 ^ 32 = reg_address (out_reg o)).
Proof.
  intros k D x0 p Hs Hp s inp out. set (b := pbus k D x0 p). set (ak := pak k D x0 p).
  pose proof (csoc_env k D x0 p Hs Hp) as En. destruct (C59_csr_leds D b (pgi p) (prx p) En) as [L0 L].
  set (L' := L). clearbody L'.
  assert (Op : forall o t, out o t = let l := cp_leds (pst k D x0 p t) in match o with OutLeds => cl_leds l | OutGpio => cl_o l | OutEnable => cl_oe l end).
  { intros o t. unfold out, out_pins. rewrite (csoc_per k D x0 p Hs t). reflexivity. }
  assert (Nx : forall o t, out o (t + 2)%nat = if writing b ak t (out_reg o) then b_dat_w (b t) mod 256 else out o (t + 1)%nat).
  { intros o t. rewrite !Op. destruct (L t) as (La & Lb & Lc). destruct o; [exact La|exact Lb|exact Lc]. }
  assert (Z0 : forall o t, (t < 2)%nat -> out o t = 0). { intros o t Ht. rewrite Op. destruct (L0 t Ht) as (? & ? & ?). destruct o; assumption. }
  split; [intros o; apply Z0; lia|]. intros t t' w x y E o.
  assert (T2 : (5 <= t)%nat). (* no fetch completes before cycle 5 *)
  { destruct E as ((F & _) & _). destruct F as (C & _). destruct (Nat.lt_ge_cases t 5); [|assumption]. exfalso.
    rewrite (timed_cyc s inp (csoc_ok k D x0 p Hs)) in C. unfold t_cyc in C. pose proof (idle_count s inp 0 5 eq_refl t ltac:(lia)) as I. cbn [Nat.add] in I. rewrite I in C. destruct (5 - t)%nat eqn:Q; [lia|discriminate]. }
  assert (Nx' : forall u, (1 <= u)%nat -> out o (S u) = if writing b ak (u - 1) (out_reg o) then b_dat_w (b (u - 1)%nat) mod 256 else out o u).
  { intros u Hu. pose proof (Nx o (u - 1)%nat) as Q. replace (u - 1 + 2)%nat with (S u) in Q by lia. replace (u - 1 + 1)%nat with u in Q by lia. exact Q. }
  split.
  - intros sz rs1 rs2 off T Dc Ea. destruct (reg_store k D x0 p Hs Hp t t' w x y sz rs1 rs2 off (out_reg o) E T Dc Ea) as (v & Lv & Lv' & O & W & Da). fold b ak in W, Da.
    assert (V : out o (v + 2)%nat = x_of x rs2 mod 256) by (rewrite Nx, W; exact Da).
    assert (St : forall n, (v + 2 + n <= t')%nat -> out o (v + 2 + n)%nat = x_of x rs2 mod 256).
    { induction n as [|n IH]; intros Hn; [rewrite Nat.add_0_r; exact V|]. rewrite Nat.add_succ_r, Nx' by lia.
      destruct (writing b ak (v + 2 + n - 1) (out_reg o)) eqn:Q; [|apply IH; lia]. exfalso.
      assert (Sv : starts b ak v = true) by (unfold writing in W; do 3 (apply andb_prop in W; destruct W as [W _]); exact W).
      destruct (written_by k D x0 p Hs Hp t t' w x y (v + 2 + n - 1)%nat (out_reg o) E ltac:(lia) Q) as (_ & L5 & _).
      assert (S1 : starts b ak (v + 2 + n - 1) = true) by (unfold writing in Q; do 3 (apply andb_prop in Q; destruct Q as [Q _]); exact Q).
      destruct (during k D x0 p Hs Hp _ S1 5%nat ltac:(lia)) as (_ & C5 & _ & A5). fold s inp in C5, A5.
      destruct O as (_ & _ & O). specialize (O (v + 2 + n - 1 + 5)%nat ltac:(lia) ltac:(lia)). fold s inp in O. rewrite C5, A5 in O. discriminate. }
    replace t' with (v + 2 + (t' - v - 2))%nat by lia. apply St. lia.
  - intros N. assert (Hx : exists u, (t <= u < t')%nat /\ out o (S u) <> out o u).
    { destruct E as ((_ & Lt & _) & _). clear - N Lt. induction t' as [|n IH]; [lia|]. destruct (Z.eq_dec (out o (S n)) (out o n)) as [Q|Q].
      - destruct (Nat.eq_dec n t) as [->|]; [congruence|]. destruct IH as (u & Hu & Qu); [lia|congruence|]. exists u. split; [lia|assumption].
      - exists n. split; [lia|assumption]. }
    destruct Hx as (u & Hu & Q). rewrite Nx' in Q by lia. destruct (writing b ak (u - 1) (out_reg o)) eqn:W; [|congruence].
    (* the write cannot have started before the fetch *)
    assert (Lu : (t <= u - 1)%nat).
    { destruct (Nat.lt_ge_cases (u - 1) t); [|assumption]. exfalso. assert (u = t) by lia. subst u.
      assert (S1 : starts b ak (t - 1) = true) by (unfold writing in W; do 3 (apply andb_prop in W; destruct W as [W _]); exact W).
      destruct (during k D x0 p Hs Hp _ S1 1%nat ltac:(lia)) as (_ & _ & _ & A1). fold inp in A1. replace (t - 1 + 1)%nat with t in A1 by lia.
      destruct E as ((F & _) & _). destruct F as (_ & _ & Af & _). change (Nat.eqb 1 5) with false in A1. rewrite Af in A1. discriminate A1. }
    destruct (written_by k D x0 p Hs Hp t t' w x y (u - 1)%nat (out_reg o) E ltac:(lia) W) as (_ & _ & T & X). split; assumption.
Qed.

(** A read of the byte at [a] appears on the core's bus in cycle [t]. *)
Definition read_begins (s : state) (inp : nat -> input) (t : nat) (a : Z) : Prop :=
  let x := run s inp t in
  o_cyc x = true /\ (t = 0%nat \/ exists u, t = S u /\ o_cyc (run s inp u) = false) /\ o_we x = false /\ Z.testbit (o_sel x) 0 = true /\ 4 * o_adr x = a.
Lemma reading_begins k D x0 p (Hs : csoc_start x0) (Hp : pins_ok p) t r :
  reading (pbus k D x0 p) (pak k D x0 p) t r = true <-> read_begins (co_cpu x0) (csoc_inp k D x0 p) t (reg_address r).
Proof.
  set (s := co_cpu x0). set (inp := csoc_inp k D x0 p). pose proof (csoc_ok k D x0 p Hs) as K. fold s inp in K.
  destruct (reg_address_at r) as (R & I & Al). unfold reading, read_begins.
  assert (Bt : pbus k D x0 p t = per_bus (cpu_bus (run s inp t))) by reflexivity.
  split.
  - intros H. apply andb_prop in H. destruct H as [H Ar]. apply andb_prop in H. destruct H as [H Se]. apply andb_prop in H. destruct H as [S0 We].
    destruct (during k D x0 p Hs Hp t S0 0%nat ltac:(lia)) as (_ & C & Ip & A). fold s inp in C, Ip, A. rewrite Nat.add_0_r in C, Ip, A. change (Nat.eqb 0 5) with false in A.
    split; [exact C|]. split.
    { destruct t as [|u]; [left; reflexivity|right; exists u; split; [reflexivity|]]. destruct (o_cyc (run s inp u)) eqn:Cu; [|reflexivity]. exfalso.
      destruct (ack (inp u)) eqn:Au.
      - destruct (C06_drop_after_ack s inp K u Cu Au) as [Z0 _]. congruence.
      - destruct (C05_request_held s inp K u Cu Au) as (_ & _ & Ea & _). unfold starts in S0. apply andb_prop in S0. destruct S0 as [_ S0].
        rewrite (pbus_req k D x0 p u) in S0. fold s inp in S0. rewrite Cu, <- Ea, Ip in S0. cbn [andb negb orb] in S0.
        unfold inp in Au. rewrite (cack_is k D x0 p Hs u) in Au. fold s inp in Au. rewrite <- Ea, Ip, ram_not_per in Au by exact Ip. congruence. }
    rewrite Bt in We, Se, Ar. cbn [per_bus cpu_bus b_we b_sel b_adr] in We, Se. apply negb_true_iff in We. split; [exact We|]. split; [exact Se|].
    unfold at_reg in Ar. cbn [per_bus cpu_bus b_adr] in Ar. destruct (reg_at (o_adr (run s inp t) mod 2 ^ 23)) as [r'|] eqn:E; [|discriminate]. apply reg_eqb_eq in Ar. subst r'.
    rewrite (reg_address_of _ _ Ip E). pose proof (Z.div_mod (reg_address r) 4 ltac:(lia)). lia.
  - intros (C & U & We & Se & Ad). assert (Ad' : o_adr (run s inp t) = reg_address r / 4) by (rewrite <- Ad, Z.mul_comm, Z.div_mul by lia; reflexivity).
    rewrite (up_starts k D x0 p t).
    + rewrite Bt. unfold at_reg. cbn [per_bus cpu_bus b_we b_sel b_adr]. rewrite We, Se, Ad', R, reg_eqb_refl. reflexivity.
    + split; [exact C|]. destruct U as [-> | (u & -> & Cu)]; [exact Logic.I|exact Cu].
    + fold s inp. rewrite Ad'. exact I.
Qed.
(** C60: what a load of any size from a peripheral register returns: the value of the register in the
    cycle [u] in which the request appears on the bus, which is acknowledged five cycles later; reading
    the serial data register takes the character (if there is one), reading either IRQ register clears
    what it returned (for the serial port's, see [C60_csr_soc_interrupts]). *)
Theorem C60_csr_soc_loads : forall k D x0 p, csoc_start x0 -> pins_ok p ->
  let s := co_cpu x0 in let inp := csoc_inp k D x0 p in let at_ t := co_per (csoc_run k D x0 p t) in
  forall t t' w x y, executed s inp t t' w x y -> int_taken s inp t w = false ->
  forall sz sgn rd rs1 off, decode w = Some (Load sz sgn rd rs1 off) ->
  forall r, (x_of x rs1 + off) mod 2 ^ 32 = reg_address r ->
  let gets v := retires x y rd (loaded_byte sz sgn v) (pc_plus_4 x) in
  exists u, (t < u)%nat /\ read_begins s inp u (reg_address r) /\ one_data s inp t t' (u + 5) /\ match r with
  | LedsReg | OeReg => gets 0
  | InOutReg => gets (pi_gpio (p u))
  | TimerIrq => gets (b2z (ct_irq (cp_timer (at_ u)))) /\ (ct_irq (cp_timer (at_ u)) = true -> ct_irq (cp_timer (at_ (S u))) = false)
  | TxRx => let q := cs_rx (cp_serial (at_ u)) in gets (rx_data 8 q) /\ (rx_rdy q = true -> rx_rdy (cs_rx (cp_serial (at_ (S u)))) = false)
  | SerialIrq => let q := cp_serial (at_ u) in gets (b2z (cs_rxi q) + 2 * b2z (cs_txi q))
  end.
Proof.
  intros k D x0 p Hs Hp s inp at_ t t' w x y E T sz sgn rd rs1 off Dc r Ea gets. unfold gets. clear gets.
  destruct (reg_load k D x0 p Hs Hp t t' w x y sz sgn rd rs1 off r E T Dc Ea) as (v & Lv & Lv' & O & Rd & Re).
  exists v. split; [lia|]. split; [apply reading_begins; assumption|]. split; [exact O|]. assert (At : forall u, at_ u = pst k D x0 p u) by (intros u; apply csoc_per; assumption). rewrite !At.
  pose proof (csoc_env k D x0 p Hs Hp) as En.
  destruct r; cbn [reg_value] in Re; try exact Re.
  - split; [exact Re|]. intros I. destruct (C59_csr_timer D (pbus k D x0 p) (pgi p) (prx p) En) as [_ Ti]. specialize (Ti v). cbv zeta in Ti.
    change (csrp_run D csrp_init (pbus k D x0 p) (pgi p) (prx p)) with (pst k D x0 p) in Ti. rewrite I in Ti. rewrite Ti. change (fun u => cp_ack (pst k D x0 p u)) with (pak k D x0 p). rewrite Rd. reflexivity.
  - cbv zeta. split; [exact Re|]. intros I. destruct (C59_csr_receive D (pbus k D x0 p) (pgi p) (prx p) En) as [Rc _]. specialize (Rc v I). cbv zeta in Rc.
    change (csrp_run D csrp_init (pbus k D x0 p) (pgi p) (prx p)) with (pst k D x0 p) in Rc. rewrite Rc. change (fun u => cp_ack (pst k D x0 p u)) with (pak k D x0 p). rewrite Rd. reflexivity.
Qed.

(** C60: a store to the serial data register (0x0300_0000): if the transmitter is idle when the byte
    reaches it (cycle [u], the second of the access, which is acknowledged in the sixth), the frame follows on the pin; if not, the byte is
    dropped.  Only such a store starts the transmitter. *)
Theorem C60_csr_soc_serial : forall k D x0 p, 1 <= D -> csoc_start x0 -> pins_ok p ->
  let s := co_cpu x0 in let inp := csoc_inp k D x0 p in
  let tx t := cs_tx (cp_serial (co_per (csoc_run k D x0 p t))) in let idle t := tx_ack (tx t) in let pin t := tx_o (tx t) in
  (forall t t' w x y, executed s inp t t' w x y -> int_taken s inp t w = false ->
   forall sz rs1 rs2 off, decode w = Some (Store sz rs1 rs2 off) -> (x_of x rs1 + off) mod 2 ^ 32 = 0x3000000 ->
   exists u, (t < u)%nat /\ one_data s inp t t' (u + 4) /\
   if idle u
   then (forall j, Z.of_nat j < 10 * D -> pin (u + 1 + j)%nat = frame_bit 8 (x_of x rs2 mod 256) (Z.of_nat j / D) /\ idle (u + 1 + j)%nat = false) /\
        idle (u + 1 + Z.to_nat (10 * D))%nat = true
   else tx (S u) = tx_step D 8 (tx u) false 0) /\
  (forall t, idle t = true -> pin t = true) /\
  (forall t t' w x y, executed s inp t t' w x y -> forall u, (t <= u < t')%nat -> idle u = true -> idle (S u) = false ->
   int_taken s inp t w = false /\ exists sz rs1 rs2 off, decode w = Some (Store sz rs1 rs2 off) /\ (x_of x rs1 + off) mod 2 ^ 32 = 0x3000000).
Proof.
  intros k D x0 p HD Hs Hp s inp tx idle pin.
  pose proof (csoc_env k D x0 p Hs Hp) as En. destruct (C59_csr_transmit D (pbus k D x0 p) (pgi p) (prx p) En HD) as (W & St & I0 & I1 & Hi).
  set (b := pbus k D x0 p) in *. set (ak := pak k D x0 p).
  assert (Tx : forall t, tx t = cs_tx (cp_serial (csrp_run D csrp_init b (pgi p) (prx p) t))) by (intros t; unfold tx; rewrite (csoc_per k D x0 p Hs t); reflexivity).
  split; [|split].
  - intros t t' w x y E T sz rs1 rs2 off Dc Ea.
    destruct (reg_store k D x0 p Hs Hp t t' w x y sz rs1 rs2 off TxRx E T Dc Ea) as (v & Lv & Lv' & O & Wr & Da). fold b ak in Wr, Da.
    exists (v + 1)%nat. split; [lia|]. split; [replace (v + 1 + 4)%nat with (v + 5)%nat by lia; exact O|]. specialize (W v Wr). unfold idle, pin. rewrite !Tx. rewrite Da in W.
    destruct (tx_ack (cs_tx (cp_serial (csrp_run D csrp_init b (pgi p) (prx p) (v + 1))))).
    + destruct W as [W1 W2]. split; [|rewrite ?Tx; replace (v + 1 + 1 + Z.to_nat (10 * D))%nat with (v + 2 + Z.to_nat (10 * D))%nat by lia; exact W2].
      intros j Hj. rewrite ?Tx. replace (v + 1 + 1 + j)%nat with (v + 2 + j)%nat by lia. apply W1. exact Hj.
    + rewrite ?Tx. replace (S (v + 1)) with (v + 2)%nat by lia. exact W.
  - intros t. unfold idle, pin. rewrite Tx. apply Hi.
  - intros t t' w x y E u Hu Id Bs. unfold idle in Id, Bs. rewrite Tx in Id, Bs.
    assert (T2 : (5 <= t)%nat).
    { destruct E as ((F & _) & _). destruct F as (C & _). destruct (Nat.lt_ge_cases t 5); [|assumption]. exfalso.
      rewrite (timed_cyc s inp (csoc_ok k D x0 p Hs)) in C. unfold t_cyc in C. pose proof (idle_count s inp 0 5 eq_refl t ltac:(lia)) as I. cbn [Nat.add] in I. rewrite I in C. destruct (5 - t)%nat eqn:Q; [lia|discriminate]. }
    pose proof (St (u - 1)%nat) as Wr. replace (u - 1 + 1)%nat with u in Wr by lia. replace (u - 1 + 2)%nat with (S u) in Wr by lia. specialize (Wr Id Bs).
    assert (Lu : (t <= u - 1)%nat).
    { destruct (Nat.lt_ge_cases (u - 1) t); [|assumption]. exfalso. assert (u = t) by lia. subst u.
      assert (S1 : starts b ak (t - 1) = true) by (unfold writing in Wr; do 3 (apply andb_prop in Wr; destruct Wr as [Wr _]); exact Wr).
      destruct (during k D x0 p Hs Hp _ S1 1%nat ltac:(lia)) as (_ & _ & _ & A1). fold inp in A1. replace (t - 1 + 1)%nat with t in A1 by lia.
      destruct E as ((F & _) & _). destruct F as (_ & _ & Af & _). change (Nat.eqb 1 5) with false in A1. rewrite Af in A1. discriminate A1. }
    destruct (written_by k D x0 p Hs Hp t t' w x y (u - 1)%nat TxRx E ltac:(lia) Wr) as (_ & _ & T & X). split; assumption.
Qed.

(** ** Interrupts *)
(** C60: the interrupt line is the disjunction of three flags.  The timer's rises every 16384 cycles
    and falls when its register is read (or at the next tick); the serial port's two flags are set
    when a character becomes available or the transmitter becomes free, and a read of the serial
    interrupt register clears both. *)
Theorem C60_csr_soc_interrupts : forall k D x0 p, csoc_start x0 -> pins_ok p ->
  let s := co_cpu x0 in let inp := csoc_inp k D x0 p in let per t := co_per (csoc_run k D x0 p t) in
  let timer t := ct_irq (cp_timer (per t)) in let rxi t := cs_rxi (cp_serial (per t)) in let txi t := cs_txi (cp_serial (per t)) in
  let full t := rx_rdy (cs_rx (cp_serial (per t))) in let free t := tx_ack (cs_tx (cp_serial (per t))) in
  (forall t, irq (inp t) = timer t || rxi t || txi t) /\
  timer 0%nat = false /\
  (forall t, timer (S t) = true <-> if Z.of_nat (S t) mod 16384 =? 0 then timer t = false else timer t = true /\ ~ read_begins s inp t 0x2800000) /\
  (forall t, rxi t = true <-> exists u, (u < t)%nat /\ rises_later full u = true /\ forall v, (u < v < t)%nat -> ~ read_begins s inp v 0x3000004) /\
  (forall t, txi t = true <-> exists u, (u < t)%nat /\ rises_later free u = true /\ forall v, (u < v < t)%nat -> ~ read_begins s inp v 0x3000004).
Proof.
  intros k D x0 p Hs Hp s inp per timer rxi txi full free. pose proof (csoc_env k D x0 p Hs Hp) as En. set (b := pbus k D x0 p) in *. set (ak := pak k D x0 p).
  destruct (C59_csr_timer D b (pgi p) (prx p) En) as [T0 Ti]. destruct (C59_csr_serial_irq D b (pgi p) (prx p) En) as [Ri Xi].
  cbv zeta in *. set (st := csrp_run D csrp_init b (pgi p) (prx p)) in *. change (fun t : nat => cp_ack (st t)) with ak in *.
  assert (Pe : forall t, per t = st t) by (intros t; apply (csoc_per k D x0 p Hs t)).
  assert (Rd : forall t r, reading b ak t r = false <-> ~ read_begins s inp t (reg_address r)).
  { intros t r. pose proof (reading_begins k D x0 p Hs Hp t r) as Q. fold b ak s inp in Q. rewrite <- Q. destruct (reading b ak t r); split; intros H; [discriminate|exfalso; apply H; reflexivity|discriminate|reflexivity]. }
  split; [intros t; unfold inp, csoc_inp, co_inp, timer, rxi, txi; cbn [irq]; unfold cs_irq; rewrite orb_assoc; reflexivity|].
  split; [unfold timer; rewrite Pe; exact T0|]. split; [|split].
  - intros t. unfold timer. rewrite !Pe, Ti. specialize (Rd t TimerIrq). change (reg_address TimerIrq) with 0x2800000 in Rd. destruct (Z.of_nat (S t) mod 16384 =? 0), (ct_irq (cp_timer (st t))); cbn [andb negb].
    + rewrite andb_false_r. split; discriminate.
    + split; reflexivity.
    + rewrite andb_true_r, negb_true_iff, Rd. tauto.
    + split; [discriminate|intros [H _]; discriminate H].
  - intros t. unfold rxi. rewrite Pe, Ri. assert (Fu : forall u, rises_later full u = rises_later (fun u => rx_rdy (cs_rx (cp_serial (st u)))) u) by (intros [|u]; unfold rises_later, full; rewrite ?Pe; reflexivity).
    split; intros (u & L & Rs & N); exists u; (split; [exact L|]); [rewrite Fu|rewrite <- Fu]; (split; [exact Rs|]); intros v Hv; apply (Rd v SerialIrq); apply N; exact Hv.
  - intros t. unfold txi. rewrite Pe, Xi. assert (Fu : forall u, rises_later free u = rises_later (fun u => tx_ack (cs_tx (cp_serial (st u)))) u) by (intros [|u]; unfold rises_later, free; rewrite ?Pe; reflexivity).
    split; intros (u & L & Rs & N); exists u; (split; [exact L|]); [rewrite Fu|rewrite <- Fu]; (split; [exact Rs|]); intros v Hv; apply (Rd v SerialIrq); apply N; exact Hv.
Qed.

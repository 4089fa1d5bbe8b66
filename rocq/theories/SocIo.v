(** * The example SoC as seen by a program: memory, LEDs, GPIO, timer and serial port *)
From Coq Require Import ZArith Lia Bool List.
From Verif Require Import Bits Ucode Cpu Isa Timed BitLemmas Wf Sym Blocks CsrBlocks DecodeOk Boundary Sim Main Obs PropsBus Observe PropsIsa PropsFrame Memory SocMem Uart Periph Soc.
Import ListNotations.
Open Scope Z_scope.

(** ** WBMemory under any well-behaved master *)
Fixpoint mem_run (k : Z) (m : wbmem) (b : nat -> wbus) (t : nat) : wbmem :=
  match t with O => m | S n => wbmem_step k (mem_run k m b n) (b n) end.
(** The master keeps its request and its signals until ACK. *)
Definition holds_requests (b : nat -> wbus) (ack : nat -> bool) : Prop :=
  forall t, p_req (b t) = true -> ack t = false -> b (S t) = b t.
(** Byte [z] after every acknowledged write before cycle [t], starting from [m0]. *)
Fixpoint bytes_after (k : Z) (b : nat -> wbus) (ack : nat -> bool) (m0 : Z -> Z) (t : nat) (z : Z) : Z :=
  match t with
  | O => m0 z
  | S n => if p_req (b n) && ack n && b_we (b n) && (z / 4 =? b_adr (b n) mod 2 ^ k) && Z.testbit (b_sel (b n)) (z mod 4)
           then byte (b_dat_w (b n)) (z mod 4) else bytes_after k b ack m0 n z
  end.

Section MemP.
Variables (k : Z) (m : wbmem) (b : nat -> wbus).
Let st := mem_run k m b.
Let ak (t : nat) := wm_ack (st t).
Hypothesis (A0 : wm_ack m = false) (H : holds_requests b ak).
Let sp := bytes_after k b ak (fun z => byte (wm_mem m (z / 4)) (z mod 4)).
Let bt (t : nat) (z : Z) := byte (wm_mem (st t) (z / 4)) (z mod 4).
Let wr (x : wbus) (f : Z -> Z) (z : Z) : Z :=
  if b_we x && (z / 4 =? b_adr x mod 2 ^ k) && Z.testbit (b_sel x) (z mod 4) then byte (b_dat_w x) (z mod 4) else f z.

Lemma mem_run_S t : st (S t) = wbmem_step k (st t) (b t). Proof. reflexivity. Qed.
Lemma ak_S t : ak (S t) = p_req (b t) && negb (ak t). Proof. reflexivity. Qed.
Lemma bt_S t z : bt (S t) z = if p_req (b t) then wr (b t) (bt t) z else bt t z.
Proof.
  unfold bt. rewrite mem_run_S. unfold wbmem_step, wr. cbn [wm_mem]. fold (p_req (b t)). destruct (p_req (b t)); [|reflexivity]. cbn [andb].
  destruct (b_we (b t)); [|reflexivity]. destruct (z / 4 =? b_adr (b t) mod 2 ^ k); [|reflexivity]. cbn [andb].
  rewrite merge_byte by (apply Z.mod_pos_bound; lia). reflexivity.
Qed.
Lemma sp_S t z : sp (S t) z = if p_req (b t) && ak t then wr (b t) (sp t) z else sp t z.
Proof.
  unfold sp. cbn [bytes_after]. fold sp. unfold wr. destruct (p_req (b t) && ak t); cbn [andb]; [|reflexivity].
  destruct (_ && _ && _); reflexivity.
Qed.
Definition minv (t : nat) : Prop :=
  (ak t = true -> p_req (b t) = true /\ (b_we (b t) = false -> wm_rdata (st t) = wm_mem (st t) (b_adr (b t) mod 2 ^ k))) /\
  forall z, bt t z = if ak t then wr (b t) (sp t) z else sp t z.
Lemma minv_all t : minv t.
Proof.
  induction t as [|t [I1 I2]].
  - unfold minv, ak, st. cbn [mem_run]. rewrite A0. split; [discriminate|]. reflexivity.
  - unfold minv. rewrite ak_S. destruct (p_req (b t)) eqn:R; cbn [andb].
    + destruct (ak t) eqn:A; cbn [negb].
      * split; [discriminate|]. intros z. rewrite bt_S, sp_S, R, A. cbn [andb]. unfold wr at 1. rewrite I2. unfold wr. destruct (_ && _ && _); reflexivity.
      * pose proof (H t R A) as E. rewrite E. split.
        -- intros _. split; [assumption|]. intros We. rewrite mem_run_S. unfold wbmem_step. cbn [wm_rdata wm_mem]. fold (p_req (b t)). rewrite R, We. reflexivity.
        -- intros z. rewrite bt_S, R. unfold wr. rewrite sp_S, R, A, I2. reflexivity.
    + split; [discriminate|]. intros z. rewrite bt_S, sp_S, R. cbn [andb]. rewrite I2. destruct (ak t) eqn:A; [|reflexivity]. destruct (I1 eq_refl). discriminate.
Qed.
End MemP.

(** C44: a read acknowledged by the memory returns, in every byte, the last value an acknowledged
    write put there (or the initial contents), whatever the traffic of a well-behaved master. *)
Theorem C44_wbmemory : forall k m b, let st := mem_run k m b in let ak t := wm_ack (st t) in
  wm_ack m = false -> holds_requests b ak ->
  forall t, ak t = true -> p_req (b t) = true /\
  (b_we (b t) = false -> forall i, 0 <= i < 4 ->
   byte (wm_rdata (st t)) i = bytes_after k b ak (fun z => byte (wm_mem m (z / 4)) (z mod 4)) t (4 * (b_adr (b t) mod 2 ^ k) + i)).
Proof.
  intros k m b st ak A0 H t A. destruct (minv_all k m b A0 H t) as [I1 I2]. destruct (I1 A) as [R V]. split; [assumption|].
  intros We i Hi. fold st in V. rewrite V by assumption. specialize (I2 (4 * (b_adr (b t) mod 2 ^ k) + i)). cbv beta in I2. fold st in I2. change (wm_ack (st t)) with (ak t) in I2. rewrite A, We in I2. cbn [andb] in I2.
  assert (E1 : (4 * (b_adr (b t) mod 2 ^ k) + i) / 4 = b_adr (b t) mod 2 ^ k) by (rewrite (Z.mul_comm 4), Z.div_add_l, Z.div_small by lia; lia).
  assert (E2 : (4 * (b_adr (b t) mod 2 ^ k) + i) mod 4 = i) by (rewrite (Z.mul_comm 4), Z.add_comm, Z.mod_add, Z.mod_small by lia; reflexivity).
  rewrite E1, E2 in I2. exact I2.
Qed.

(** ** LEDs and GPIO *)
(** C45, for every bus history: the LED register takes the value written to register 0 at the end
    of the ACK cycle; the GPIO output and output-enable registers take the values written to
    registers 1 and 2 one cycle earlier; nothing else changes them; reading register 1 returns the
    pins as they were in the first cycle of the read. *)
Definition writes_reg (b : wbus) (n : Z) : Prop :=
  p_req b = true /\ b_we b = true /\ b_adr b mod 4 = n /\ Z.testbit (b_sel b) 0 = true.
Theorem C45_leds : forall b gi, let st := leds_run leds_init b gi in let ak t := ld_ack (st t) in
  (forall t adr sel dat, access b ak t adr true sel dat -> Z.testbit sel 0 = true ->
    (adr mod 4 = 0 -> ld_leds (st (S t)) = ld_leds (st t) /\ ld_leds (st (S (S t))) = dat mod 256) /\
    (adr mod 4 = 1 -> ld_o (st (S t)) = dat mod 256 /\ ld_o (st (S (S t))) = dat mod 256) /\
    (adr mod 4 = 2 -> ld_oe (st (S t)) = dat mod 256 /\ ld_oe (st (S (S t))) = dat mod 256)) /\
  (forall t adr sel dat, access b ak t adr false sel dat -> Z.testbit sel 0 = true -> adr mod 4 = 1 -> ld_dat (st (S t)) = gi t) /\
  (forall t, ld_leds (st (S t)) <> ld_leds (st t) -> ak t = true /\ writes_reg (b t) 0) /\
  (forall t, ld_o (st (S t)) <> ld_o (st t) -> ak t = false /\ writes_reg (b t) 1) /\
  (forall t, ld_oe (st (S t)) <> ld_oe (st t) -> ak t = false /\ writes_reg (b t) 2).
Proof.
  intros b gi st ak.
  assert (E : forall t, st (S t) = leds_step (st t) (b t) (gi t)) by reflexivity.
  assert (Ea : forall t, ld_ack (st t) = ak t) by reflexivity.
  split; [|split; [|split; [|split]]].
  - intros t adr sel dat A S0. destruct A. 
    split; [|split]; intros Ha; split; rewrite !E; unfold leds_step, p_sel0; cbn [ld_leds ld_o ld_oe ld_ack];
      rewrite ?Ea, ?ac_req0, ?ac_req1, ?ac_ack0, ?ac_ack1, ?ac_adr0, ?ac_adr1, ?ac_we0, ?ac_we1, ?ac_sel0, ?ac_sel1, ?ac_dat0, ?ac_dat1, ?S0, ?Ha; reflexivity.
  - intros t adr sel dat A S0 Ha. destruct A. rewrite E; unfold leds_step, p_sel0; cbn [ld_dat]; rewrite Ea, ac_req0, ac_ack0, ac_adr0, ac_we0, ac_sel0, S0, Ha. reflexivity.
  - intros t. rewrite E. unfold leds_step, p_sel0, writes_reg. cbn [ld_leds]. rewrite Ea.
    destruct (p_req (b t)), (ak t), (b_we (b t)), (Z.eqb_spec (b_adr (b t) mod 4) 0), (Z.testbit (b_sel (b t)) 0); cbn [andb]; try congruence. intros _. tauto.
  - intros t. rewrite E. unfold leds_step, p_sel0, writes_reg. cbn [ld_o]. rewrite Ea.
    destruct (p_req (b t)), (ak t), (b_we (b t)), (Z.eqb_spec (b_adr (b t) mod 4) 1), (Z.testbit (b_sel (b t)) 0); cbn [andb negb]; try congruence. intros _. tauto.
  - intros t. rewrite E. unfold leds_step, p_sel0, writes_reg. cbn [ld_oe]. rewrite Ea.
    destruct (p_req (b t)), (ak t), (b_we (b t)), (Z.eqb_spec (b_adr (b t) mod 4) 2), (Z.testbit (b_sel (b t)) 0); cbn [andb negb]; try congruence. intros _. tauto.
Qed.
(** Until the first write to it each of the three registers is 0. *)
Theorem C45_after_reset : forall b gi, let st := leds_run leds_init b gi in let ak t := ld_ack (st t) in forall t,
  ((forall u, (u < t)%nat -> ~ (ak u = true /\ writes_reg (b u) 0)) -> ld_leds (st t) = 0) /\
  ((forall u, (u < t)%nat -> ~ (ak u = false /\ writes_reg (b u) 1)) -> ld_o (st t) = 0) /\
  ((forall u, (u < t)%nat -> ~ (ak u = false /\ writes_reg (b u) 2)) -> ld_oe (st t) = 0).
Proof.
  intros b gi st ak t. destruct (C45_leds b gi) as (_ & _ & H0 & H1 & H2). fold st in H0, H1, H2.
  assert (G : forall (f : leds -> Z) (P : nat -> Prop), f leds_init = 0 -> (forall t, f (st (S t)) <> f (st t) -> P t) -> (forall u, (u < t)%nat -> ~ P u) -> f (st t) = 0).
  { intros f P F0 Hs. induction t as [|n IH]; intros N; [exact F0|]. destruct (Z.eq_dec (f (st (S n))) (f (st n))) as [->|Ne]; [apply IH; intros u Hu; apply N; lia|].
    exfalso. apply (N n); [lia|]. apply Hs. exact Ne. }
  split; [|split].
  - apply (G ld_leds (fun u => ak u = true /\ writes_reg (b u) 0)); [reflexivity|exact H0].
  - apply (G ld_o (fun u => ak u = false /\ writes_reg (b u) 1)); [reflexivity|exact H1].
  - apply (G ld_oe (fun u => ak u = false /\ writes_reg (b u) 2)); [reflexivity|exact H2].
Qed.

(** ** In the SoC *)
Section S.
Variables (k D : Z) (x0 : soc) (p : nat -> pins).
Hypothesis (Hs : soc_start x0) (Hp : pins_ok p).
Let s := so_cpu x0.
Let inp := soc_inp k D x0 p.
Let at_ (t : nat) := soc_run k D x0 p t.

(** Every acknowledged transfer is the second cycle of a two-cycle access to a mapped address. *)
Lemma soc_acked u : o_cyc (run s inp u) = true -> ack (inp u) = true ->
  exists v r, u = S v /\ region_of (o_adr (run s inp u)) = Some r /\ o_cyc (run s inp v) = true /\ ack (inp v) = false /\
  o_adr (run s inp v) = o_adr (run s inp u) /\ o_sel (run s inp v) = o_sel (run s inp u) /\ o_we (run s inp v) = o_we (run s inp u) /\ o_dat_w (run s inp v) = o_dat_w (run s inp u).
Proof.
  intros C A. pose proof (ack_is k D x0 p u) as E. fold s inp in E. rewrite E in A. destruct (region_of (o_adr (run s inp u))) as [r|]; [|discriminate].
  destruct u as [|v]; [rewrite ackr_0 in A by assumption; discriminate|].
  rewrite (ackr_S k D x0 p r v) in A. fold s inp in A.
  apply andb_prop in A. destruct A as [A N]. apply andb_prop in A. destruct A as [Cv Hv]. apply negb_true_iff in N.
  apply (here_iff k D x0 p r v) in Hv. fold s inp in Hv.
  assert (Av : ack (inp v) = false). { pose proof (ack_is k D x0 p v) as Ev. fold s inp in Ev. rewrite Ev, Hv. assumption. }
  destruct (C05_request_held s inp (soc_ok k D x0 p Hs Hp) v Cv Av) as (H1 & _ & H3 & H4 & H5 & H6).
  exists v, r. rewrite H3, H4, H5, H6. repeat split; assumption.
Qed.

Lemma soc_mem t : so_mem (at_ t) = mem_run k (so_mem x0) (soc_bus k D x0 p RAM) t.
Proof.
  induction t as [|t IH]; [reflexivity|]. unfold at_. cbn [soc_run soc_step so_mem mem_run]. fold (at_ t). rewrite IH. unfold at_.
  rewrite (soc_cpu k D x0 p t). reflexivity.
Qed.
Lemma soc_held r : holds_requests (soc_bus k D x0 p r) (fun t => so_ackr (at_ t) r).
Proof.
  intros t R A. unfold p_req, soc_bus in R. fold s inp in R. cbn [sub_bus cpu_bus b_stb b_cyc] in R. apply andb_prop in R. destruct R as [_ R]. apply andb_prop in R. destruct R as [C I].
  apply (here_iff k D x0 p r t) in I. fold s inp in I.
  assert (Av : ack (inp t) = false). { pose proof (ack_is k D x0 p t) as Ev. fold s inp in Ev. rewrite Ev, I. assumption. }
  destruct (C05_request_held s inp (soc_ok k D x0 p Hs Hp) t C Av) as (H1 & H2 & H3 & H4 & H5 & H6).
  unfold soc_bus. fold s inp. unfold cpu_bus. rewrite H1, H2, H3, H4, H5, H6, C, C10_stb_is_cyc, C. reflexivity.
Qed.
Lemma mod_lane x i : 0 <= i < 4 -> byte (x mod 2 ^ (8 * 4)) i = byte x i.
Proof.
  intros Hi. change (x mod 2 ^ (8 * 4)) with (x mod 2 ^ 32). unfold byte, fld. apply Z.bits_inj'. intros n Hn.
  destruct (Z.lt_ge_cases n 8).
  - rewrite !Z.mod_pow2_bits_low by lia. rewrite !Z.div_pow2_bits by lia. rewrite Z.mod_pow2_bits_low by lia. reflexivity.
  - rewrite !Z.mod_pow2_bits_high by lia. reflexivity.
Qed.
End S.

(** The bytes of the RAM after every acknowledged store before cycle [t], in terms of the core's
    bus: only accesses to word addresses below [2 ^ 23] (byte addresses below 0x0200_0000). *)
Fixpoint ram_after (k : Z) (x : nat -> state) (ak : nat -> bool) (m0 : Z -> Z) (t : nat) (z : Z) : Z :=
  match t with
  | O => m0 z
  | S n => if o_cyc (x n) && ak n && o_we (x n) && (o_adr (x n) / 2 ^ 23 =? 0) && (z / 4 =? o_adr (x n) mod 2 ^ k) && Z.testbit (o_sel (x n)) (z mod 4)
           then byte (o_dat_w (x n)) (z mod 4) else ram_after k x ak m0 n z
  end.
(** C44: whatever the program does with the peripherals, a fetch or load from the RAM window
    returns the last bytes stored there, mirrored every [2 ^ k] words. *)
Theorem C44_soc_memory : forall k D x0 p, soc_start x0 -> pins_ok p ->
  let s := so_cpu x0 in let inp := soc_inp k D x0 p in
  forall t, o_cyc (run s inp t) = true -> ack (inp t) = true -> o_we (run s inp t) = false -> 0 <= o_adr (run s inp t) < 2 ^ 23 ->
  forall i, 0 <= i < 4 ->
  byte (dat_r (inp t)) i = ram_after k (run s inp) (fun u => ack (inp u)) (fun z => byte (wm_mem (so_mem x0) (z / 4)) (z mod 4)) t (4 * (o_adr (run s inp t) mod 2 ^ k) + i).
Proof.
  intros k D x0 p Hs Hp s inp t C A We Ha i Hi.
  assert (Hr : region_of (o_adr (run s inp t)) = Some RAM). { unfold region_of. rewrite Z.div_small by lia. reflexivity. }
  assert (Ak : so_ackr (soc_run k D x0 p t) RAM = true). { pose proof (ack_is k D x0 p t) as E. fold s inp in E. rewrite Hr in E. unfold ackr in E. congruence. }
  cbn [so_ackr] in Ak.
  set (b := soc_bus k D x0 p RAM).
  assert (Em : forall u, so_mem (soc_run k D x0 p u) = mem_run k (so_mem x0) b u) by (intros u; apply soc_mem).
  assert (Hh : holds_requests b (fun u => wm_ack (mem_run k (so_mem x0) b u))).
  { intros u R N. apply (soc_held k D x0 p Hs Hp RAM u R). cbn [so_ackr]. rewrite Em. assumption. }
  rewrite Em in Ak. destruct (C44_wbmemory k (so_mem x0) b (ms_ack _ (st_mem _ Hs)) Hh t Ak) as [R V].
  assert (Eb : forall u, b u = sub_bus RAM (cpu_bus (run s inp u))) by reflexivity.
  assert (Ed : dat_r (inp t) = wm_rdata (mem_run k (so_mem x0) b t)).
  { unfold inp, soc_inp, so_inp. cbn [dat_r]. rewrite (soc_cpu k D x0 p t). fold s inp. rewrite Hr. cbn [so_datr]. rewrite Em. reflexivity. }
  rewrite Ed, V by (first [assumption | rewrite Eb; assumption]).
  replace (b_adr (b t)) with (o_adr (run s inp t)) by (rewrite Eb; cbn [sub_bus cpu_bus b_adr adr_width]; symmetry; apply Z.mod_small; lia).
  generalize (4 * (o_adr (run s inp t) mod 2 ^ k) + i). clear - Hs Hp Em Eb. intros z.
  induction t as [|t IH]; [reflexivity|]. cbn [bytes_after ram_after]. rewrite IH. clear IH.
  assert (Eq : p_req (b t) && wm_ack (mem_run k (so_mem x0) b t) = o_cyc (run s inp t) && ack (inp t) && (o_adr (run s inp t) / 2 ^ 23 =? 0)).
  { rewrite Eb. unfold p_req. cbn [sub_bus cpu_bus b_stb b_cyc b_adr]. rewrite C10_stb_is_cyc. destruct (o_cyc (run s inp t)) eqn:C; [|reflexivity]. cbn [andb].
    pose proof (ack_is k D x0 p t) as E. fold s inp in E. rewrite E. unfold in_region. unfold ackr. rewrite <- Em. change (wm_ack (so_mem (soc_run k D x0 p t))) with (so_ackr (soc_run k D x0 p t) RAM).
    assert (Rr : region_of (o_adr (run s inp t)) = Some RAM <-> o_adr (run s inp t) / 2 ^ 23 = 0).
    { unfold region_of. destruct (Z.eqb_spec (o_adr (run s inp t) / 2 ^ 23) 0); [tauto|]. destruct (_ =? _); [split; [discriminate|contradiction]|]. destruct (_ =? _); [split; [discriminate|contradiction]|]. destruct (_ =? _); split; (discriminate || contradiction). }
    destruct (Z.eqb_spec (o_adr (run s inp t) / 2 ^ 23) 0) as [Ez|Nz].
    - apply Rr in Ez. rewrite Ez. cbn [region_eqb]. rewrite andb_true_r. reflexivity.
    - rewrite andb_false_r. destruct (region_of _) as [[]|]; try reflexivity. exfalso. apply Nz, Rr. reflexivity. }
  rewrite Eq. replace (o_cyc (run s inp t) && ack (inp t) && o_we (run s inp t) && (o_adr (run s inp t) / 2 ^ 23 =? 0)) with (o_cyc (run s inp t) && ack (inp t) && (o_adr (run s inp t) / 2 ^ 23 =? 0) && o_we (run s inp t)) by (rewrite <- !andb_assoc; f_equal; f_equal; apply andb_comm).
  rewrite Eb. cbn [sub_bus cpu_bus b_we b_adr b_sel b_dat_w adr_width lanes_of].
  assert (Hz : 0 <= z mod 4 < 4) by (apply Z.mod_pos_bound; lia).
  rewrite Z.mod_pow2_bits_low by lia. rewrite mod_lane by assumption.
  destruct (o_cyc (run s inp t) && ack (inp t)); cbn [andb]; [|reflexivity].
  destruct (Z.eqb_spec (o_adr (run s inp t) / 2 ^ 23) 0) as [Ez|Nz]; cbn [andb]; [|reflexivity].
  replace (o_adr (run s inp t) mod 2 ^ 23) with (o_adr (run s inp t)); [reflexivity|].
  symmetry. pose proof (Z.div_mod (o_adr (run s inp t)) (2 ^ 23) ltac:(lia)). lia.
Qed.

(** ** Programs and peripherals *)
Section I.
Variables (k D : Z) (x0 : soc) (p : nat -> pins).
Hypothesis (Hs : soc_start x0) (Hp : pins_ok p).
Let s := so_cpu x0.
Let inp := soc_inp k D x0 p.
Let at_ (t : nat) := soc_run k D x0 p t.
Let K : ok s inp := soc_ok k D x0 p Hs Hp.

Lemma one_access t t' u r : one_data s inp t t' u -> region_of (o_adr (run s inp u)) = Some r ->
  exists v, u = S v /\ let b := run s inp u in
  access (soc_bus k D x0 p r) (fun n => so_ackr (at_ n) r) v (o_adr b mod 2 ^ adr_width r) (o_we b) (o_sel b mod 2 ^ lanes_of r) (o_dat_w b mod 2 ^ (8 * lanes_of r)).
Proof.
  intros (_ & (C & _ & A) & _) R. destruct (soc_acked k D x0 p Hs Hp u C A) as (v & r' & -> & R' & Cv & Av & E1 & E2 & E3 & E4). fold s inp in R', Cv, Av, E1, E2, E3, E4.
  exists v. split; [reflexivity|]. cbv zeta. rewrite <- E1, <- E2, <- E3, <- E4. apply C43_soc_access; try assumption. fold s inp. rewrite E1. assumption.
Qed.
Lemma mod_mod_pow x a b : 0 <= b <= a -> (x mod 2 ^ a) mod 2 ^ b = x mod 2 ^ b.
Proof. intros H. rewrite <- Znumtheory.Zmod_div_mod; try reflexivity; try (apply Z.pow_pos_nonneg; lia). exists (2 ^ (a - b)). rewrite <- Z.pow_add_r by lia. f_equal. lia. Qed.
Lemma even_mod x a : 1 <= a -> Z.even (x mod 2 ^ a) = Z.even x.
Proof. intros H. rewrite <- !Z.bit0_odd || idtac. rewrite <- !Z.negb_odd, <- !Z.bit0_odd. rewrite Z.mod_pow2_bits_low by lia. reflexivity. Qed.

(** The access an aligned store makes to a peripheral. *)
Lemma store_access t t' w x y sz rs1 rs2 off r : executed s inp t t' w x y -> int_taken s inp t w = false -> decode w = Some (Store sz rs1 rs2 off) ->
  let ea := (x_of x rs1 + off) mod 2 ^ 32 in ea mod 4 = 0 -> region_of (ea / 4) = Some r -> r <> RAM ->
  exists v sel dat, (t < S v < t')%nat /\ one_data s inp t t' (S v) /\
    access (soc_bus k D x0 p r) (fun n => so_ackr (at_ n) r) v ((ea / 4) mod 2 ^ adr_width r) true sel dat /\
    Z.testbit sel 0 = true /\ dat mod 256 = x_of x rs2 mod 256.
Proof.
  intros E T Dc ea Al R Nr.
  assert (Ab : ea mod bytes sz = 0).
  { destruct sz; cbn [bytes]; [apply Z.mod_1_r| |assumption]. pose proof (Z.div_mod ea 4 ltac:(lia)). replace ea with ((2 * (ea / 4)) * 2) by lia. apply Z.mod_mul. lia. }
  destruct (C12_store s inp K t t' w x y E T sz rs1 rs2 off Dc Ab) as (u & O & We & Ad & Se & Da & _). fold ea in Ad, Se, Da.
  rewrite <- Ad in R. destruct (one_access t t' u r O R) as (v & -> & A). cbv zeta in A. rewrite Ad, We in A.
  exists v. eexists. eexists. split; [apply O|]. split; [assumption|]. split; [exact A|]. 
  assert (Bz : 1 <= bytes sz) by (destruct sz; cbn; lia).
  split.
  - destruct r; [congruence|..]; cbn [lanes_of]; (rewrite Z.mod_pow2_bits_low by lia); rewrite Se by lia; unfold addressed; rewrite Al; destruct sz; reflexivity.
  - specialize (Da 0 ltac:(lia)). rewrite Al in Da. unfold byte, fld in Da. change (2 ^ (8 * (0 + 0))) with 1 in Da. change (2 ^ (8 * 0)) with 1 in Da. rewrite !Z.div_1_r in Da. change (2 ^ 8) with 256 in Da.
    destruct r; [congruence|..]; cbn [lanes_of]; change (2 ^ (8 * 1)) with 256; rewrite Z.mod_mod by lia; exact Da.
Qed.
(** The access an aligned load makes to a peripheral and the value it returns. *)
Lemma load_access t t' w x y sz sgn rd rs1 off r : executed s inp t t' w x y -> int_taken s inp t w = false -> decode w = Some (Load sz sgn rd rs1 off) ->
  let ea := (x_of x rs1 + off) mod 2 ^ 32 in ea mod 4 = 0 -> region_of (ea / 4) = Some r -> r <> RAM ->
  exists v sel dat, (t < S v < t')%nat /\ one_data s inp t t' (S v) /\
    access (soc_bus k D x0 p r) (fun n => so_ackr (at_ n) r) v ((ea / 4) mod 2 ^ adr_width r) false sel dat /\
    Z.testbit sel 0 = true /\
    let n := 8 * bytes sz in let v := so_datr (at_ (S v)) r mod 2 ^ n in
    retires x y rd (if sgn then sext n v mod 2 ^ 32 else v) (pc_plus_4 x).
Proof.
  intros E T Dc ea Al R Nr.
  assert (Ab : ea mod bytes sz = 0).
  { destruct sz; cbn [bytes]; [apply Z.mod_1_r| |assumption]. pose proof (Z.div_mod ea 4 ltac:(lia)). replace ea with ((2 * (ea / 4)) * 2) by lia. apply Z.mod_mul. lia. }
  destruct (C13_load s inp K t t' w x y E T sz sgn rd rs1 off Dc Ab) as (u & O & We & Ad & Se & Re & _). fold ea in Ad, Se, Re.
  rewrite <- Ad in R. destruct (one_access t t' u r O R) as (v & -> & A). cbv zeta in A. rewrite Ad, We in A.
  exists v. eexists. eexists. split; [apply O|]. split; [assumption|]. split; [exact A|]. split.
  - destruct r; [congruence|..]; cbn [lanes_of]; (rewrite Z.mod_pow2_bits_low by lia); rewrite Se by lia; unfold addressed; rewrite Al; destruct sz; reflexivity.
  - cbv zeta in Re |- *. rewrite Al in Re. unfold fld in Re. change (2 ^ (8 * 0)) with 1 in Re. rewrite Z.div_1_r in Re.
    replace (so_datr (at_ (S v)) r) with (dat_r (inp (S v))); [exact Re|]. unfold inp, soc_inp, so_inp. cbn [dat_r]. rewrite (soc_cpu k D x0 p (S v)). fold s inp. rewrite R. reflexivity.
Qed.
End I.

(** C46: storing to the LED register (byte address 0x0200_0000, mirrored every 16 bytes up to
    0x03ff_ffff): when the next instruction is fetched the LEDs show the low byte of the
    stored register; and no other instruction, trap or interrupt changes them. *)
Definition led_address (ea : Z) : Prop := 0x2000000 <= ea < 0x4000000 /\ ea mod 16 = 0.
Lemma led_address_region ea : 0 <= ea < 2 ^ 32 -> (led_address ea <-> region_of (ea / 4) = Some LEDS /\ (ea / 4) mod 4 = 0 /\ ea mod 4 = 0).
Proof.
  intros H. unfold led_address, region_of. rewrite !Z.div_div by lia. change (4 * 2 ^ 23) with 0x2000000. change (4 * 2 ^ 28) with 0x40000000.
  pose proof (Z.div_mod ea 0x2000000 ltac:(lia)). pose proof (Z.mod_pos_bound ea 0x2000000 ltac:(lia)).
  pose proof (Z.div_mod ea 16 ltac:(lia)). pose proof (Z.mod_pos_bound ea 16 ltac:(lia)).
  assert (M : ea mod 16 = 4 * ((ea / 4) mod 4) + ea mod 4). { change 16 with (4 * 4). rewrite Z.rem_mul_r by lia. lia. }
  pose proof (Z.mod_pos_bound ea 4 ltac:(lia)). pose proof (Z.mod_pos_bound (ea / 4) 4 ltac:(lia)).
  destruct (Z.eqb_spec (ea / 0x2000000) 0); [split; [lia|intros [? _]; discriminate]|].
  destruct (Z.eqb_spec (ea / 0x2000000) 1); [split; [intros; repeat split; lia|intros; lia]|].
  split; [lia|]. intros [Q _]. exfalso. destruct (_ =? _); [discriminate|]. destruct (_ =? _); discriminate.
Qed.
Theorem C46_led_store : forall k D x0 p, soc_start x0 -> pins_ok p ->
  let s := so_cpu x0 in let inp := soc_inp k D x0 p in let leds_at t := ld_leds (so_leds (soc_run k D x0 p t)) in
  forall t t' w x y, executed s inp t t' w x y ->
  (forall sz rs1 rs2 off, int_taken s inp t w = false -> decode w = Some (Store sz rs1 rs2 off) ->
    led_address ((x_of x rs1 + off) mod 2 ^ 32) -> leds_at t' = x_of x rs2 mod 256) /\
  (leds_at t' <> leds_at t -> int_taken s inp t w = false /\ exists sz rs1 rs2 off, decode w = Some (Store sz rs1 rs2 off) /\
    led_address ((x_of x rs1 + off) mod 2 ^ 32)).
Proof.
  intros k D x0 p Hs Hp s inp leds_at t t' w x y E.
  pose proof (soc_ok k D x0 p Hs Hp) as K.
  set (b := soc_bus k D x0 p LEDS). set (gi := fun u => pi_gpio (p u)).
  assert (El : forall u, so_leds (soc_run k D x0 p u) = leds_run leds_init b gi u) by (intros u; apply soc_leds; assumption).
  destruct (C45_leds b gi) as (W & _ & Ch & _).
  assert (Chg : forall u, leds_at (S u) <> leds_at u -> o_cyc (run s inp u) = true /\ ack (inp u) = true /\ o_we (run s inp u) = true /\ region_of (o_adr (run s inp u)) = Some LEDS /\ o_adr (run s inp u) mod 4 = 0 /\ Z.testbit (o_sel (run s inp u)) 0 = true).
  { intros u N. unfold leds_at in N. rewrite !El in N. destruct (Ch u N) as [A (R & We & Ad & Se)]. rewrite <- El in A.
    assert (A' : ackr k D x0 p LEDS u = true) by exact A.
    destruct (ackr_on k D x0 p Hs Hp LEDS u A') as [C Rg]. pose proof (ackr_cpu k D x0 p Hs Hp LEDS u A') as Ac. fold s inp in C, Rg, Ac.
    unfold b, soc_bus in We, Ad, Se. fold s inp in We, Ad, Se. cbn [sub_bus cpu_bus b_we b_adr b_sel adr_width lanes_of] in We, Ad, Se.
    rewrite Z.mod_pow2_bits_low in Se by lia. change 4 with (2 ^ 2) in Ad. rewrite mod_mod_pow in Ad by lia. tauto. }
  assert (Stay : forall u n, (forall v, (u <= v < u + n)%nat -> leds_at (S v) = leds_at v) -> leds_at (u + n)%nat = leds_at u).
  { intros u n. induction n as [|n IH]; intros Hn; [rewrite Nat.add_0_r; reflexivity|]. rewrite Nat.add_succ_r, Hn by lia. apply IH. intros v Hv. apply Hn. lia. }
  assert (Ft : o_we (run s inp t) = false).
  { destruct (o_we (run s inp t)) eqn:We; [|reflexivity]. exfalso. destruct E as ((F & _) & _). destruct (fetch_machine s inp K t w F) as [a M].
    destruct F as (C & _). destruct (C10_signals_well_formed s inp K) as (_ & _ & X & _). destruct (X t a C M). congruence. }
  split.
  - intros sz rs1 rs2 off T Dc La.
    apply led_address_region in La; [|apply Z.mod_pos_bound; lia]. destruct La as (R & M4 & Al).
    destruct (store_access k D x0 p Hs Hp t t' w x y sz rs1 rs2 off LEDS E T Dc Al R ltac:(discriminate)) as (v & sel & dat & Hv & O & A & Se & Da).
    assert (A' : access b (fun u => ld_ack (leds_run leds_init b gi u)) v (((x_of x rs1 + off) mod 2 ^ 32 / 4) mod 2 ^ adr_width LEDS) true sel dat).
    { destruct A. cbn [so_ackr] in *. rewrite El in ac_ack0, ac_ack1. constructor; assumption. }
    destruct (W v _ _ _ A' Se) as [W0 _].
    destruct W0 as [_ W0]. { cbn [adr_width]. change 4 with (2 ^ 2) at 2. rewrite mod_mod_pow by lia. exact M4. }
    rewrite <- El in W0. fold (leds_at (S (S v))) in W0. rewrite <- Da, <- W0.
    replace t' with (S (S v) + (t' - S (S v)))%nat by lia. apply Stay. intros u Hu.
    destruct (Z.eq_dec (leds_at (S u)) (leds_at u)) as [Q|Q]; [assumption|]. exfalso. destruct (Chg u Q) as (C & Ac & _).
    destruct O as (_ & _ & O). assert (O' : o_cyc (run s inp u) && ack (inp u) = false) by (apply O; lia). rewrite C, Ac in O'. discriminate.
  - intros N.
    assert (Hx : exists u, (t <= u < t')%nat /\ leds_at (S u) <> leds_at u).
    { destruct E as ((_ & L & _) & _). clear - N L Stay. assert (Hd : forall n, (forall v, (t <= v < t + n)%nat -> leds_at (S v) = leds_at v) \/ exists u, (t <= u < t + n)%nat /\ leds_at (S u) <> leds_at u).
      { induction n as [|n [IH|(u & Hu & IH)]]; [left; intros; lia| |right; exists u; split; [lia|assumption]].
        destruct (Z.eq_dec (leds_at (S (t + n))) (leds_at (t + n)%nat)).
        - left. intros v Hv. destruct (Nat.eq_dec v (t + n)) as [->|]; [assumption|]. apply IH. lia.
        - right. exists (t + n)%nat. split; [lia|assumption]. }
      destruct (Hd (t' - t)%nat) as [Q|(u & Hu & Q)].
      - exfalso. apply N. rewrite <- (Stay t (t' - t)%nat Q). f_equal. lia.
      - exists u. split; [lia|assumption]. }
    destruct Hx as (u & Hu & Q). destruct (Chg u Q) as (C & Ac & We & Rg & Ad & Se).
    assert (Hu' : (t < u < t')%nat). { destruct (Nat.eq_dec u t) as [->|]; [congruence|lia]. }
    destruct (C27_only_stores_write s inp K t t' w x y E u ltac:(lia) We) as [T (sz & rs1 & rs2 & off & Dc)].
    split; [assumption|]. exists sz, rs1, rs2, off. split; [assumption|].
    set (ea := (x_of x rs1 + off) mod 2 ^ 32) in *.
    assert (Hea : 0 <= ea < 2 ^ 32) by (apply Z.mod_pos_bound; lia).
    destruct (Z.eq_dec (ea mod bytes sz) 0) as [Al|Al].
    + destruct (C12_store s inp K t t' w x y E T sz rs1 rs2 off Dc Al) as (u' & O & We' & Ad' & Se' & _). fold ea in Ad', Se'.
      assert (u' = u). { destruct O as (_ & _ & O). destruct (Nat.eq_dec u' u) as [|Nu]; [assumption|]. exfalso. specialize (O u Hu' ltac:(congruence)). rewrite C, Ac in O. discriminate. }
      subst u'. apply led_address_region; [assumption|]. rewrite <- Ad'. split; [assumption|]. split; [assumption|].
      rewrite Se' in Se by lia. unfold addressed in Se. apply andb_prop in Se. destruct Se as [Se _]. pose proof (Z.mod_pos_bound ea 4 ltac:(lia)). lia.
    + exfalso. destruct (C11_misaligned s inp K t t' w x y E T) as [_ Ms]. destruct (Ms sz rs1 rs2 off Dc Al) as [Nd _]. specialize (Nd u Hu'). rewrite C, Ac in Nd. discriminate.
Qed.

(** ** Serial output *)
Definition serial_address (ea : Z) : Prop := 0x80000000 <= ea < 0xC0000000 /\ ea mod 4 = 0.
Lemma serial_address_region ea : 0 <= ea < 2 ^ 32 -> (serial_address ea <-> region_of (ea / 4) = Some SERIAL /\ ea mod 4 = 0).
Proof.
  intros H. unfold serial_address, region_of. rewrite !Z.div_div by lia. change (4 * 2 ^ 23) with 0x2000000. change (4 * 2 ^ 28) with 0x40000000.
  pose proof (Z.div_mod ea 0x2000000 ltac:(lia)). pose proof (Z.mod_pos_bound ea 0x2000000 ltac:(lia)).
  pose proof (Z.div_mod ea 0x40000000 ltac:(lia)). pose proof (Z.mod_pos_bound ea 0x40000000 ltac:(lia)).
  destruct (Z.eqb_spec (ea / 0x2000000) 0); [split; [lia|intros [? _]; discriminate]|].
  destruct (Z.eqb_spec (ea / 0x2000000) 1); [split; [lia|intros [? _]; discriminate]|].
  destruct (Z.eqb_spec (ea / 0x40000000) 1); [split; [lia|intros [? _]; discriminate]|].
  destruct (Z.eqb_spec (ea / 0x40000000) 2); [split; [intros [_ ?]; split; [reflexivity|assumption]|intros [_ ?]; split; [lia|assumption]]|split; [lia|intros [? _]; discriminate]].
Qed.
Lemma even_word ea : ea mod 4 = 0 -> (Z.even (ea / 4) = true <-> ea mod 8 = 0).
Proof.
  intros H. assert (M : ea mod 8 = ea mod 4 + 4 * ((ea / 4) mod 2)). { change 8 with (4 * 2). apply Z.rem_mul_r; lia. }
  rewrite H in M. rewrite Zeven_mod. pose proof (Z.mod_pos_bound (ea / 4) 2 ltac:(lia)). destruct (Zeq_is_eq_bool ((ea / 4) mod 2) 0) as [Q1 Q2]. split; intros Q; [apply Q2 in Q; lia|apply Q1; lia].
Qed.
(** Transmitter idle, and the serial output pin. *)
Definition tx_idle (x : soc) : bool := tx_ack (sr_tx (so_serial x)).
Definition tx_pin (x : soc) : bool := sr_line (so_serial x).

(** C47: storing to the serial data register (byte addresses 0x8000_0000, 0x8000_0008, ... up to
    0xBFFF_FFF8): if the transmitter is idle in the cycle [u] in which the store's only bus access is acknowledged, the start bit, the eight
    bits of the register's low byte (least significant first) and the stop bit follow on the pin,
    [D] cycles each; if not, the store changes nothing.  The pin is high while the transmitter is
    idle, and only such a store starts it. *)
Theorem C47_serial_store : forall k D x0 p, 1 <= D -> soc_start x0 -> pins_ok p ->
  let s := so_cpu x0 in let inp := soc_inp k D x0 p in let at_ := soc_run k D x0 p in
  (forall t t' w x y, executed s inp t t' w x y -> int_taken s inp t w = false ->
   forall sz rs1 rs2 off, decode w = Some (Store sz rs1 rs2 off) ->
   let ea := (x_of x rs1 + off) mod 2 ^ 32 in serial_address ea -> ea mod 8 = 0 ->
   exists u, one_data s inp t t' u /\
   if tx_idle (at_ u)
   then (forall j, Z.of_nat j < 10 * D -> tx_pin (at_ (u + 1 + j)%nat) = frame_bit 8 (x_of x rs2 mod 256) (Z.of_nat j / D) /\ tx_idle (at_ (u + 1 + j)%nat) = false) /\
        tx_idle (at_ (u + 1 + Z.to_nat (10 * D))%nat) = true
   else sr_tx (so_serial (at_ (S u))) = tx_step D 8 (sr_tx (so_serial (at_ u))) false 0) /\
  (forall t, tx_idle (at_ t) = true -> tx_pin (at_ t) = true) /\
  (forall t t' w x y, executed s inp t t' w x y -> forall u, (t <= u < t')%nat -> tx_idle (at_ u) = true -> tx_idle (at_ (S u)) = false ->
   int_taken s inp t w = false /\ exists sz rs1 rs2 off, decode w = Some (Store sz rs1 rs2 off) /\
   serial_address ((x_of x rs1 + off) mod 2 ^ 32) /\ ((x_of x rs1 + off) mod 2 ^ 32) mod 8 = 0).
Proof.
  intros k D x0 p HD Hs Hp s inp at_.
  pose proof (soc_ok k D x0 p Hs Hp) as K.
  set (b := soc_bus k D x0 p SERIAL). set (rx := fun u => pi_rx (p u)).
  assert (El : forall u, so_serial (at_ u) = serial_run D serial_init b rx u) by (intros u; apply soc_serial; assumption).
  destruct (C41_serial_transmit D b rx HD) as (W & St & Hi).
  split; [|split].
  - intros t t' w x y E T sz rs1 rs2 off Dc ea Sa E8.
    apply serial_address_region in Sa; [|apply Z.mod_pos_bound; lia]. destruct Sa as (R & Al).
    destruct (store_access k D x0 p Hs Hp t t' w x y sz rs1 rs2 off SERIAL E T Dc Al R ltac:(discriminate)) as (v & sel & dat & Hv & O & A & Se & Da). fold ea in A.
    assert (A' : access b (fun u => sr_ack (serial_run D serial_init b rx u)) v ((ea / 4) mod 2 ^ adr_width SERIAL) true sel dat).
    { destruct A. cbn [so_ackr] in *. fold (at_ v) in ac_ack0. fold (at_ (S v)) in ac_ack1. rewrite El in ac_ack0, ac_ack1. constructor; assumption. }
    specialize (W v _ _ _ A' Se). rewrite even_mod in W by (cbn; lia). specialize (W (proj2 (even_word ea Al) E8)).
    exists (S v). split; [exact O|]. unfold tx_idle, tx_pin. rewrite !El. destruct (tx_ack _).
    + destruct W as (W1 & W2 & W3). rewrite <- Da. split.
      * intros j Hj. rewrite !El. replace (S v + 1 + j)%nat with (v + 2 + j)%nat by lia. split; [apply W1|apply W2]; assumption.
      * rewrite ?El. replace (S v + 1 + Z.to_nat (10 * D))%nat with (v + 2 + Z.to_nat (10 * D))%nat by lia. assumption.
    + exact W.
  - intros t. unfold tx_idle, tx_pin. rewrite El. apply Hi.
  - intros t t' w x y E u Hu Id Bs. unfold tx_idle in Id, Bs. rewrite !El in Id, Bs. destruct (St u Id Bs) as (Stb & Cyc & Ak & We & Se & Ev).
    rewrite <- El in Ak. assert (A' : ackr k D x0 p SERIAL u = true) by exact Ak.
    destruct (ackr_on k D x0 p Hs Hp SERIAL u A') as [C Rg]. pose proof (ackr_cpu k D x0 p Hs Hp SERIAL u A') as Ac. fold s inp in C, Rg, Ac.
    unfold b, soc_bus in We, Ev, Se. fold s inp in We, Ev, Se. cbn [sub_bus cpu_bus b_we b_adr b_sel adr_width lanes_of] in We, Ev, Se.
    rewrite Z.mod_pow2_bits_low in Se by lia. rewrite even_mod in Ev by lia.
    assert (Hu' : (t < u < t')%nat).
    { destruct (Nat.eq_dec u t) as [->|]; [|lia]. exfalso. destruct E as ((F & _) & _). destruct (fetch_machine s inp K t w F) as [a M].
      destruct (C10_signals_well_formed s inp K) as (_ & _ & X & _). destruct (X t a C M). congruence. }
    destruct (C27_only_stores_write s inp K t t' w x y E u ltac:(lia) We) as [T (sz & rs1 & rs2 & off & Dc)].
    split; [assumption|]. exists sz, rs1, rs2, off. split; [assumption|].
    set (ea := (x_of x rs1 + off) mod 2 ^ 32) in *.
    assert (Hea : 0 <= ea < 2 ^ 32) by (apply Z.mod_pos_bound; lia).
    destruct (Z.eq_dec (ea mod bytes sz) 0) as [Al|Al].
    + destruct (C12_store s inp K t t' w x y E T sz rs1 rs2 off Dc Al) as (u' & O & We' & Ad' & Se' & _). fold ea in Ad', Se'.
      assert (u' = u). { destruct O as (_ & _ & O). destruct (Nat.eq_dec u' u) as [|Nu]; [assumption|]. exfalso. specialize (O u Hu' ltac:(congruence)). rewrite C, Ac in O. discriminate. }
      subst u'. assert (E4 : ea mod 4 = 0).
      { rewrite Se' in Se by lia. unfold addressed in Se. apply andb_prop in Se. destruct Se as [Se _]. pose proof (Z.mod_pos_bound ea 4 ltac:(lia)). lia. }
      rewrite Ad' in Rg, Ev. split; [apply serial_address_region; [assumption|split; assumption]|]. apply even_word; assumption.
    + exfalso. destruct (C11_misaligned s inp K t t' w x y E T) as [_ Ms]. destruct (Ms sz rs1 rs2 off Dc Al) as [Nd _]. specialize (Nd u Hu'). rewrite C, Ac in Nd. discriminate.
Qed.

(** ** Loads from peripherals *)
(** [u] is the first of the two cycles of the one data access an instruction makes, a read of the
    word containing [ea]: the request is on the bus, not yet acknowledged, and is acknowledged in
    the next cycle. *)
Definition reads_from (s : state) (inp : nat -> input) (t t' u : nat) (ea : Z) : Prop :=
  (t < u)%nat /\ o_cyc (run s inp u) = true /\ ack (inp u) = false /\ one_data s inp t t' (S u) /\
  forall v, (v = u \/ v = S u) -> o_we (run s inp v) = false /\ o_adr (run s inp v) = ea / 4.
(** What a load leaves in rd when the addressed byte is [v] and the rest of the word is 0. *)
Definition loaded_byte (sz : width) (sgn : bool) (v : Z) : Z :=
  match sz with Byte => if sgn then (if v <? 128 then v else v - 256) mod 2 ^ 32 else v | _ => v end.
(** C48: what a load of any size from a peripheral register returns; every value is sampled in
    the cycle [u] in which the request appears on the bus. *)
Theorem C48_input_loads : forall k D x0 p, soc_start x0 -> pins_ok p ->
  let s := so_cpu x0 in let inp := soc_inp k D x0 p in let at_ := soc_run k D x0 p in
  forall t t' w x y, executed s inp t t' w x y -> int_taken s inp t w = false ->
  forall sz sgn rd rs1 off, decode w = Some (Load sz sgn rd rs1 off) ->
  let ea := (x_of x rs1 + off) mod 2 ^ 32 in ea mod 4 = 0 ->
  let gets v := retires x y rd (loaded_byte sz sgn v) (pc_plus_4 x) in
  (0x2000000 <= ea < 0x4000000 -> (ea / 4) mod 4 = 1 ->
     exists u, reads_from s inp t t' u ea /\ gets (pi_gpio (p u))) /\
  (0x40000000 <= ea < 0x80000000 ->
     exists u, reads_from s inp t t' u ea /\ gets (b2z (tm_irq (so_timer (at_ u))))) /\
  (0x80000000 <= ea < 0xC0000000 -> ea mod 8 = 0 ->
     exists u, reads_from s inp t t' u ea /\ let q := sr_rx (so_serial (at_ u)) in gets (rx_data 8 q) /\
     (rx_rdy q = true -> rx_rdy (sr_rx (so_serial (at_ (S u)))) = false)) /\
  (0x80000000 <= ea < 0xC0000000 -> ea mod 8 = 4 ->
     exists u, reads_from s inp t t' u ea /\ let q := so_serial (at_ u) in gets (b2z (sr_rxi q) + 2 * b2z (sr_txi q))).
Proof.
  intros k D x0 p Hs Hp s inp at_ t t' w x y E T sz sgn rd rs1 off Dc ea Al gets. unfold gets. clear gets.
  pose proof (soc_ok k D x0 p Hs Hp) as K.
  assert (Hea : 0 <= ea < 2 ^ 32) by (apply Z.mod_pos_bound; lia).
  assert (Val : forall d, 0 <= d < 256 -> (if sgn then sext (8 * bytes sz) (d mod 2 ^ (8 * bytes sz)) mod 2 ^ 32 else d mod 2 ^ (8 * bytes sz)) = loaded_byte sz sgn d).
  { intros d Hd. assert (Hb : 2 ^ 8 <= 2 ^ (8 * bytes sz)) by (apply Z.pow_le_mono_r; [lia|destruct sz; cbn; lia]).
    rewrite (Z.mod_small d (2 ^ _)) by lia. unfold loaded_byte. destruct sgn; [|destruct sz; reflexivity].
    unfold sext. destruct sz; cbn [bytes] in *.
    - change (8 * 1 - 1) with 7. change (2 ^ 7) with 128. change (2 ^ (8 * 1)) with 256. reflexivity.
    - change (8 * 2 - 1) with 15. destruct (Z.ltb_spec d (2 ^ 15)); [|lia]. apply Z.mod_small; lia.
    - change (8 * 4 - 1) with 31. destruct (Z.ltb_spec d (2 ^ 31)); [|lia]. apply Z.mod_small; lia. }
  assert (From : forall v r sel dat, region_of (ea / 4) = Some r -> one_data s inp t t' (S v) -> access (soc_bus k D x0 p r) (fun n => so_ackr (at_ n) r) v ((ea / 4) mod 2 ^ adr_width r) false sel dat -> reads_from s inp t t' v ea).
  { intros v r sel dat Rg O A.
    pose proof (ac_req0 _ _ _ _ _ _ _ A) as R0. pose proof (ac_ack0 _ _ _ _ _ _ _ A) as K0. cbv beta in K0.
    unfold p_req, soc_bus in R0. cbn [sub_bus cpu_bus b_stb b_cyc b_adr] in R0. apply andb_prop in R0. destruct R0 as [_ R0]. apply andb_prop in R0. destruct R0 as [C0 R0].
    apply (here_iff k D x0 p r v) in R0. pose proof (ack_is k D x0 p v) as Q. fold s inp in Q, R0. rewrite R0 in Q. unfold ackr in Q. fold at_ in Q. rewrite K0 in Q.
    fold s inp in C0.
    destruct (C13_load s inp K t t' w x y E T sz sgn rd rs1 off Dc) as (u & O' & We & Ad & _).
    { destruct sz; cbn [bytes]; [apply Z.mod_1_r| |assumption]. pose proof (Z.div_mod ea 4 ltac:(lia)). fold ea. replace ea with ((2 * (ea / 4)) * 2) by lia. apply Z.mod_mul. lia. }
    assert (u = S v).
    { destruct (Nat.eq_dec u (S v)) as [|N]; [assumption|]. exfalso. destruct O as (Hv & (C1 & _ & A1) & _), O' as (_ & _ & O'). specialize (O' (S v) Hv ltac:(congruence)). rewrite C1, A1 in O'. discriminate. }
    subst u. fold ea in Ad.
    destruct (C05_request_held s inp K v C0 Q) as (_ & _ & E1 & _ & E2 & _). cbv zeta in E1, E2.
    assert (Hv : (t < v)%nat).
    { destruct O as ((Hv & _) & _). destruct (Nat.eq_dec v t) as [->|]; [|lia]. exfalso. destruct E as ((F & _) & _). destruct F as (_ & _ & Ak & _). congruence. }
    split; [assumption|]. split; [assumption|]. split; [assumption|]. split; [exact O|]. intros v' [->| ->]; split; congruence. }
  split; [|split; [|split]].
  - intros Hr Hm.
    assert (R : region_of (ea / 4) = Some LEDS).
    { unfold region_of. rewrite !Z.div_div by lia. change (4 * 2 ^ 23) with 0x2000000. replace (ea / 0x2000000) with 1; [reflexivity|]. apply (Z.div_unique ea 0x2000000 1 (ea - 0x2000000)); lia. }
    destruct (load_access k D x0 p Hs Hp t t' w x y sz sgn rd rs1 off LEDS E T Dc Al R ltac:(discriminate)) as (v & sel & dat & Hv & O & A & Se & Re). fold ea at_ in A, Re.
    exists v. split; [eapply From; eassumption|]. cbv zeta in Re. cbn [so_datr] in Re.
    assert (El : forall u, so_leds (at_ u) = leds_run leds_init (soc_bus k D x0 p LEDS) (fun u => pi_gpio (p u)) u) by (intros u; apply soc_leds; assumption).
    destruct (C45_leds (soc_bus k D x0 p LEDS) (fun u => pi_gpio (p u))) as (_ & G & _).
    rewrite El in Re. rewrite (G v ((ea / 4) mod 2 ^ adr_width LEDS) sel dat) in Re.
    + rewrite Val in Re by apply Hp. exact Re.
    + destruct A. cbn [so_ackr] in *. rewrite El in ac_ack0, ac_ack1. constructor; assumption.
    + assumption.
    + cbn [adr_width]. change 4 with (2 ^ 2) at 2. rewrite mod_mod_pow by lia. exact Hm.
  - intros Hr.
    assert (R : region_of (ea / 4) = Some TIMER).
    { unfold region_of. rewrite !Z.div_div by lia. change (4 * 2 ^ 23) with 0x2000000. change (4 * 2 ^ 28) with 0x40000000.
      pose proof (Z.div_le_mono 0x40000000 ea 0x2000000 ltac:(lia) ltac:(lia)) as Q. change (0x40000000 / 0x2000000) with 32 in Q.
      destruct (Z.eqb_spec (ea / 0x2000000) 0); [lia|]. destruct (Z.eqb_spec (ea / 0x2000000) 1); [lia|].
      replace (ea / 0x40000000) with 1; [reflexivity|]. apply (Z.div_unique ea 0x40000000 1 (ea - 0x40000000)); lia. }
    destruct (load_access k D x0 p Hs Hp t t' w x y sz sgn rd rs1 off TIMER E T Dc Al R ltac:(discriminate)) as (v & sel & dat & Hv & O & A & Se & Re). fold ea at_ in A, Re.
    exists v. split; [eapply From; eassumption|]. cbv zeta in Re. cbn [so_datr] in Re.
    assert (El : forall u, so_timer (at_ u) = timer_run timer_init (soc_bus k D x0 p TIMER) u) by (intros u; apply soc_timer; assumption).
    rewrite El in Re. rewrite El. rewrite (C39_timer_read_value (soc_bus k D x0 p TIMER) v ((ea / 4) mod 2 ^ adr_width TIMER) sel dat) in Re.
    + rewrite Val in Re; [exact Re|]. destruct (tm_irq _); cbn [b2z]; lia.
    + destruct A. cbn [so_ackr] in *. rewrite El in ac_ack0, ac_ack1. constructor; assumption.
    + assumption.
  - intros Hr H8.
    assert (Sa : serial_address ea) by (split; assumption). apply serial_address_region in Sa; [|assumption]. destruct Sa as [R _].
    destruct (load_access k D x0 p Hs Hp t t' w x y sz sgn rd rs1 off SERIAL E T Dc Al R ltac:(discriminate)) as (v & sel & dat & Hv & O & A & Se & Re). fold ea at_ in A, Re.
    exists v. split; [eapply From; eassumption|]. cbv zeta in Re |- *. cbn [so_datr] in Re.
    assert (El : forall u, so_serial (at_ u) = serial_run D serial_init (soc_bus k D x0 p SERIAL) (fun u => pi_rx (p u)) u) by (intros u; apply soc_serial; assumption).
    destruct (C42_serial_receive D (soc_bus k D x0 p SERIAL) (fun u => pi_rx (p u))) as (G & _).
    destruct (G v ((ea / 4) mod 2 ^ adr_width SERIAL) sel dat) as [G1 G2].
    + destruct A. cbn [so_ackr] in *. rewrite El in ac_ack0, ac_ack1. constructor; assumption.
    + assumption.
    + rewrite even_mod by (cbn; lia). apply even_word; assumption.
    + rewrite El in Re. rewrite G1 in Re. rewrite <- El in Re. rewrite !El in *. split; [|exact G2]. rewrite Val in Re; [exact Re|]. apply (rx_data_range 8); lia.
  - intros Hr H8.
    assert (Sa : serial_address ea) by (split; assumption). apply serial_address_region in Sa; [|assumption]. destruct Sa as [R _].
    destruct (load_access k D x0 p Hs Hp t t' w x y sz sgn rd rs1 off SERIAL E T Dc Al R ltac:(discriminate)) as (v & sel & dat & Hv & O & A & Se & Re). fold ea at_ in A, Re.
    exists v. split; [eapply From; eassumption|]. cbv zeta in Re |- *. cbn [so_datr] in Re.
    assert (El : forall u, so_serial (at_ u) = serial_run D serial_init (soc_bus k D x0 p SERIAL) (fun u => pi_rx (p u)) u) by (intros u; apply soc_serial; assumption).
    destruct (C40_serial_interrupts D (soc_bus k D x0 p SERIAL) (fun u => pi_rx (p u))) as (_ & _ & _ & _ & G).
    rewrite El in Re. rewrite G in Re.
    + rewrite <- El in Re. rewrite Val in Re; [exact Re|]. destruct (sr_rxi _), (sr_txi _); cbn [b2z]; lia.
    + destruct A. cbn [so_ackr] in *. rewrite El in ac_ack0. unfold p_req in ac_req0. unfold irq_read_starts. rewrite ac_req0, ac_sel0, ac_adr0, ac_we0, ac_ack0, Se.
      rewrite <- Z.negb_even. rewrite even_mod by (cbn; lia).
      destruct (Z.even (ea / 4)) eqn:Ev; [|reflexivity]. apply even_word in Ev; [lia|assumption].
Qed.

(** ** The interrupt line *)
(** C49: after reset the interrupt line is up from the second cycle on (the "transmitter empty"
    interrupt, which is how software recognises this SoC variant) until the serial IRQ register is
    first read, and it is up in exactly the cycles in which the timer or the serial port has one
    pending. *)
Theorem C49_irq_after_reset : forall k D x0 p, soc_start x0 -> pins_ok p ->
  let s := so_cpu x0 in let inp := soc_inp k D x0 p in
  irq (inp 0%nat) = false /\
  (forall t, (1 <= t)%nat ->
    (forall u, (0 < u < t)%nat -> o_cyc (run s inp u) = true -> o_we (run s inp u) = false -> ~ (0x20000000 <= o_adr (run s inp u) < 0x30000000 /\ Z.odd (o_adr (run s inp u)) = true)) ->
    irq (inp t) = true) /\
  (forall t, irq (inp t) = true <-> tm_irq (so_timer (soc_run k D x0 p t)) = true \/ sr_rxi (so_serial (soc_run k D x0 p t)) = true \/ sr_txi (so_serial (soc_run k D x0 p t)) = true).
Proof.
  intros k D x0 p Hs Hp s inp.
  assert (Ei : forall t, irq (inp t) = tm_irq (so_timer (soc_run k D x0 p t)) || sr_irq (so_serial (soc_run k D x0 p t))) by reflexivity.
  split; [|split].
  - rewrite Ei. cbn [soc_run]. rewrite (st_timer _ Hs), (st_serial _ Hs). reflexivity.
  - intros t Ht No. rewrite Ei. unfold sr_irq.
    assert (El : forall u, so_serial (soc_run k D x0 p u) = serial_run D serial_init (soc_bus k D x0 p SERIAL) (fun u => pi_rx (p u)) u) by (intros u; apply soc_serial; assumption).
    destruct (C40_serial_interrupts D (soc_bus k D x0 p SERIAL) (fun u => pi_rx (p u))) as (_ & G & _).
    replace (sr_txi (so_serial (soc_run k D x0 p t))) with true; [rewrite !orb_true_r; reflexivity|].
    symmetry. rewrite El. apply G. exists 0%nat. split; [lia|]. split; [reflexivity|]. intros v Hv.
    destruct (irq_read_starts _ _ v) eqn:R; [|reflexivity]. exfalso. unfold irq_read_starts in R.
    do 5 (apply andb_prop in R; destruct R as [R ?]). unfold soc_bus in H0, H1, H3. fold s inp in H0, H1, H3. cbn [sub_bus cpu_bus b_stb b_cyc b_adr b_we adr_width] in H0, H1, H3.
    match goal with H : _ && in_region _ _ = true |- _ => apply andb_prop in H; destruct H as [C I] end. apply negb_true_iff in H0.
    apply (No v Hv C H0). rewrite <- Z.negb_even, even_mod, Z.negb_even in H1 by lia. split; [|assumption].
    apply (here_iff k D x0 p SERIAL v) in I. fold s inp in I. unfold region_of in I.
    destruct (_ =? 0); [discriminate|]. destruct (_ =? 1); [discriminate|]. destruct (_ =? 1); [discriminate|].
    destruct (Z.eqb_spec (o_adr (run s inp v) / 2 ^ 28) 2) as [Q|]; [|discriminate].
    pose proof (Z.div_mod (o_adr (run s inp v)) (2 ^ 28) ltac:(lia)). pose proof (Z.mod_pos_bound (o_adr (run s inp v)) (2 ^ 28) ltac:(lia)). lia.
  - intros t. rewrite Ei. unfold sr_irq. rewrite !orb_true_iff. tauto.
Qed.

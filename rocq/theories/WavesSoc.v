(** * C90 on the example SoCs: LEDs and GPIO *)
From Coq Require Import ZArith Lia Bool List.
From Verif Require Import Bits Ucode Cpu Isa Timed BitLemmas Wf Sym Blocks CsrBlocks DecodeOk Boundary Sim Main Obs PropsBus PropsInv Observe PropsIsa PropsFrame Latency LatencySoc Memory SocMem Crash Uart Periph Soc SocIo IoMem CsrBus CsrSoc CsrIoMem SeqTest PowerUp Transparent IoTransparent Emulate Clocked ClockedSoc Waves.
Import ListNotations.
Open Scope Z_scope.

(** AttoSoC (attosoc.py:863-872, 171-192): at 0x0200_0000 and every 16 bytes from there to 0x03ff_ffff the LEDs, 4 bytes later the
    GPIO outputs (and inputs), 8 bytes later the output enables. *)
Definition leds_at (n : Z) (ea : Z) : bool := (0x2000000 <=? ea) && (ea <? 0x4000000) && (ea mod 16 =? 4 * n).
(** The variant with CSR peripherals: one address each. *)
Definition csr_at (r : reg) (ea : Z) : bool := ea =? reg_address r.

Lemma leds_at_al n ea : leds_at n ea = true -> ea mod 4 = 0.
Proof.
  unfold leds_at. intros H. apply andb_prop in H. destruct H as [_ H]. apply Z.eqb_eq in H. pose proof (Z.div_mod ea 16 ltac:(lia)) as E.
  replace ea with ((4 * (ea / 16) + n) * 4) by lia. apply Z.mod_mul. lia.
Qed.
Lemma csr_at_al r ea : csr_at r ea = true -> ea mod 4 = 0.
Proof. unfold csr_at. intros H. apply Z.eqb_eq in H. subst ea. apply reg_address_at. Qed.
Lemma leds_at_word n adr : 0 <= n < 4 -> leds_at n (4 * adr) = true <-> region_of adr = Some LEDS /\ adr mod 2 ^ 25 mod 4 = n.
Proof.
  intros Hn. assert (M : adr mod 2 ^ 25 mod 4 = adr mod 4).
  { symmetry. apply Znumtheory.Zmod_div_mod; [lia|lia|]. exists (2 ^ 23). reflexivity. }
  assert (M16 : (4 * adr) mod 16 = 4 * (adr mod 4)) by (change 16 with (4 * 4); rewrite Z.mul_mod_distr_l by lia; reflexivity).
  rewrite M. unfold leds_at. rewrite M16. unfold region_of. split.
  - intros H. apply andb_prop in H. destruct H as [H Hm]. apply andb_prop in H. destruct H as [H1 H2]. apply Z.leb_le in H1. apply Z.ltb_lt in H2. apply Z.eqb_eq in Hm.
    assert (Q : adr / 2 ^ 23 = 1) by (symmetry; apply (Z.div_unique adr (2 ^ 23) 1 (adr - 2 ^ 23)); lia). rewrite Q. split; [reflexivity|lia].
  - intros [R Hm]. destruct (Z.eqb_spec (adr / 2 ^ 23) 0); [discriminate|]. destruct (Z.eqb_spec (adr / 2 ^ 23) 1) as [Q|_]; [|destruct (_ =? 1); [discriminate|destruct (_ =? 2); discriminate]].
    pose proof (Z.div_mod adr (2 ^ 23) ltac:(lia)) as E. pose proof (Z.mod_pos_bound adr (2 ^ 23) ltac:(lia)). rewrite Q in E.
    rewrite (proj2 (Z.leb_le _ _)), (proj2 (Z.ltb_lt _ _)), (proj2 (Z.eqb_eq _ _)) by lia. reflexivity.
Qed.

(** ** AttoSoC *)
Section A.
Variables (k D : Z) (x0 : soc) (p : nat -> pins).
Hypothesis (Hs : soc_start x0) (Hp : pins_ok p).
Local Notation s := (so_cpu x0).
Local Notation inp := (soc_inp k D x0 p).
Local Notation b := (soc_bus k D x0 p LEDS).
Local Notation ak := (ackr k D x0 p LEDS).
Lemma first_unacked t : request_starts s inp t -> ack (inp t) = false.
Proof.
  intros [C S0]. destruct (ack (inp t)) eqn:A; [|reflexivity]. destruct (ok_ack _ _ (soc_bus_ok k D x0 p Hs Hp) t C A) as (u & -> & Cu). congruence.
Qed.
Lemma led_request t : p_req (b t) && negb (ak t) = true <-> request_starts s inp t /\ region_of (o_adr (run s inp t)) = Some LEDS.
Proof.
  pose proof (soc_ok k D x0 p Hs Hp) as K.
  assert (R : p_req (b t) = o_cyc (run s inp t) && here k D x0 p LEDS t). { unfold soc_bus, p_req, here. cbn [sub_bus cpu_bus b_cyc b_stb b_adr]. rewrite C10_stb_is_cyc. destruct (o_cyc _), (in_region _ _); reflexivity. }
  rewrite R. split.
  - intros H. apply andb_prop in H. destruct H as [H Nk]. apply andb_prop in H. destruct H as [C Hr]. apply negb_true_iff in Nk. apply here_iff in Hr.
    split; [|exact Hr]. split; [exact C|]. destruct t as [|u]; [exact I|]. destruct (o_cyc (run s inp u)) eqn:Cu; [|reflexivity]. exfalso.
    destruct (ack (inp u)) eqn:Au; [destruct (C06_drop_after_ack s inp K u Cu Au) as [Z0 _]; congruence|].
    destruct (C05_request_held s inp K u Cu Au) as (_ & _ & Ea & _). rewrite Ea in Hr.
    destruct (soc_ack_next k D x0 p Hs Hp LEDS u Cu Hr Au) as [_ Q]. congruence.
  - intros [S0 Hr]. pose proof (first_unacked t S0) as A. rewrite (ack_is k D x0 p t), Hr in A. rewrite (proj1 S0), A. apply here_iff in Hr. rewrite Hr. reflexivity.
Qed.
Lemma led_held t : request_starts s inp t -> b (S t) = b t /\ cpu_bus (run s inp (S t)) = cpu_bus (run s inp t).
Proof.
  intros S0. pose proof (first_unacked t S0) as A. destruct (C05_request_held s inp (soc_ok k D x0 p Hs Hp) t (proj1 S0) A) as (H1 & H2 & H3 & H4 & H5 & H6).
  assert (E : cpu_bus (run s inp (S t)) = cpu_bus (run s inp t)). { pose proof (C10_stb_is_cyc (run s inp t)) as Q. rewrite (proj1 S0) in Q. unfold cpu_bus. rewrite H1, H2, H3, H4, H5, H6, Q, (proj1 S0). reflexivity. }
  split; [unfold soc_bus; rewrite E; reflexivity|exact E].
Qed.
Lemma led_second t : p_req (b (S t)) && ak (S t) = true <-> request_starts s inp t /\ region_of (o_adr (run s inp t)) = Some LEDS.
Proof.
  rewrite <- led_request. rewrite (ackr_S k D x0 p LEDS t).
  assert (R : p_req (b t) = o_cyc (run s inp t) && here k D x0 p LEDS t). { unfold soc_bus, p_req, here. cbn [sub_bus cpu_bus b_cyc b_stb b_adr]. rewrite C10_stb_is_cyc. destruct (o_cyc _), (in_region _ _); reflexivity. }
  rewrite <- R. split; intros H; [apply andb_prop in H; apply H|]. rewrite H. pose proof H as Q. apply led_request in Q. destruct (led_held t (proj1 Q)) as [Eb _]. rewrite Eb. apply andb_prop in H. rewrite (proj1 H). reflexivity.
Qed.
Definition led_out (n : Z) (c : nat) : Z := let l := so_leds (soc_run k D x0 p c) in if n =? 0 then ld_leds l else if n =? 1 then ld_o l else ld_oe l.
Lemma led_output n : n = 0 \/ n = 1 \/ n = 2 -> output s inp (leds_at n) (if n =? 0 then 2 else 1) (led_out n).
Proof.
  intros Hn.
  assert (St : forall t, so_leds (soc_run k D x0 p (S t)) = leds_step (so_leds (soc_run k D x0 p t)) (b t) (pi_gpio (p t))) by (intros t; rewrite !(soc_leds k D x0 p Hs); reflexivity).
  assert (Ak : forall t, ld_ack (so_leds (soc_run k D x0 p t)) = ak t) by reflexivity.
  assert (L0 : so_leds (soc_run k D x0 p 0) = leds_init) by apply (st_leds _ Hs).
  assert (Bt : forall t, b_adr (b t) = o_adr (run s inp t) mod 2 ^ 25 /\ b_we (b t) = o_we (run s inp t) /\ p_sel0 (b t) = Z.testbit (o_sel (run s inp t)) 0 /\ b_dat_w (b t) mod 2 ^ 8 = o_dat_w (run s inp t) mod 256).
  { intros t. unfold soc_bus, p_sel0. cbn [sub_bus cpu_bus b_adr b_we b_sel b_dat_w adr_width lanes_of]. repeat split.
    - apply Z.mod_pow2_bits_low. lia.
    - change (2 ^ (8 * 1)) with 256. change (2 ^ 8) with 256. apply Z.mod_mod. lia. }
  assert (Wr : forall v, writes_at s inp (leds_at n) v <-> (request_starts s inp v /\ region_of (o_adr (run s inp v)) = Some LEDS) /\ b_we (b v) = true /\ b_adr (b v) mod 4 = n /\ p_sel0 (b v) = true).
  { intros v. destruct (Bt v) as (B1 & B2 & B3 & _). rewrite B1, B2, B3. unfold writes_at. cbv zeta. rewrite leds_at_word by lia. tauto. }
  destruct Hn as [->|[->| ->]]; cbn [Z.eqb].
  - (* LEDs: written in the second cycle *)
    assert (Nx : forall v, led_out 0 (v + 2) = if (p_req (b (S v)) && ak (S v)) && b_we (b (S v)) && (b_adr (b (S v)) mod 4 =? 0) && p_sel0 (b (S v)) then b_dat_w (b (S v)) mod 2 ^ 8 else led_out 0 (v + 1)).
    { intros v. unfold led_out. cbn [Z.eqb]. replace (v + 2)%nat with (S (S v)) by lia. replace (v + 1)%nat with (S v) by lia. rewrite St. unfold leds_step. cbn [ld_leds]. rewrite Ak. reflexivity. }
    constructor.
    + intros c Hc. unfold led_out. cbn [Z.eqb]. destruct c as [|[|c]]; [rewrite L0; reflexivity| |lia]. rewrite St, L0. unfold leds_step. cbn [ld_leds leds_init ld_ack]. rewrite andb_false_r. reflexivity.
    + intros v W. apply Wr in W. destruct W as (Q & We & Ad & Se). rewrite Nx. rewrite (proj2 (led_second v) Q). destruct (led_held v (proj1 Q)) as [-> _]. rewrite We, Ad, Se. cbn [andb Z.eqb]. apply Bt.
    + intros v W. rewrite Nx. replace (v + 2 - 1)%nat with (v + 1)%nat by lia. destruct (p_req (b (S v)) && ak (S v)) eqn:Q; [|reflexivity]. apply led_second in Q. destruct (led_held v (proj1 Q)) as [-> _].
      destruct (b_we (b v)) eqn:We; [|reflexivity]. destruct (Z.eqb_spec (b_adr (b v) mod 4) 0) as [Ad|]; [|reflexivity]. destruct (p_sel0 (b v)) eqn:Se; [|reflexivity]. exfalso. apply W, Wr. auto.
  - assert (Nx : forall v, led_out 1 (v + 1) = if (p_req (b v) && negb (ak v)) && (b_adr (b v) mod 4 =? 1) && p_sel0 (b v) && b_we (b v) then b_dat_w (b v) mod 2 ^ 8 else led_out 1 v).
    { intros v. unfold led_out. cbn [Z.eqb]. replace (v + 1)%nat with (S v) by lia. rewrite St. unfold leds_step. cbn [ld_o]. rewrite Ak. reflexivity. }
    constructor.
    + intros c Hc. unfold led_out. cbn [Z.eqb]. destruct c as [|c]; [rewrite L0; reflexivity|lia].
    + intros v W. apply Wr in W. destruct W as (Q & We & Ad & Se). rewrite Nx. rewrite (proj2 (led_request v) Q), We, Ad, Se. cbn [andb Z.eqb]. apply Bt.
    + intros v W. rewrite Nx. replace (v + 1 - 1)%nat with v by lia. destruct (p_req (b v) && negb (ak v)) eqn:Q; [|reflexivity]. apply led_request in Q.
      destruct (b_we (b v)) eqn:We; [|rewrite andb_false_r; reflexivity]. destruct (Z.eqb_spec (b_adr (b v) mod 4) 1) as [Ad|]; [|reflexivity]. destruct (p_sel0 (b v)) eqn:Se; [|reflexivity]. exfalso. apply W, Wr. auto.
  - assert (Nx : forall v, led_out 2 (v + 1) = if (p_req (b v) && negb (ak v)) && b_we (b v) && (b_adr (b v) mod 4 =? 2) && p_sel0 (b v) then b_dat_w (b v) mod 2 ^ 8 else led_out 2 v).
    { intros v. unfold led_out. cbn [Z.eqb]. replace (v + 1)%nat with (S v) by lia. rewrite St. unfold leds_step. cbn [ld_oe]. rewrite Ak. reflexivity. }
    constructor.
    + intros c Hc. unfold led_out. cbn [Z.eqb]. destruct c as [|c]; [rewrite L0; reflexivity|lia].
    + intros v W. apply Wr in W. destruct W as (Q & We & Ad & Se). rewrite Nx. rewrite (proj2 (led_request v) Q), We, Ad, Se. cbn [andb Z.eqb]. apply Bt.
    + intros v W. rewrite Nx. replace (v + 1 - 1)%nat with v by lia. destruct (p_req (b v) && negb (ak v)) eqn:Q; [|reflexivity]. apply led_request in Q.
      destruct (b_we (b v)) eqn:We; [|reflexivity]. destruct (Z.eqb_spec (b_adr (b v) mod 4) 2) as [Ad|]; [|reflexivity]. destruct (p_sel0 (b v)) eqn:Se; [|reflexivity]. exfalso. apply W, Wr. auto.
Qed.
(** Reading the GPIO inputs. *)
Lemma led_input v : let x := run s inp v in request_starts s inp v -> o_we x = false -> leds_at 1 (4 * o_adr x) = true -> Z.testbit (o_sel x) 0 = true ->
  dat_r (inp (v + 1)%nat) = pi_gpio (p v).
Proof.
  intros x S0 We Ad Se. apply leds_at_word in Ad; [|lia]. destruct Ad as [R A]. subst x. destruct (led_held v S0) as [_ Eb].
  rewrite Nat.add_1_r. pose proof (proj2 (led_request v) (conj S0 R)) as Q. unfold ackr in Q. cbn [so_ackr] in Q.
  unfold soc_inp at 1, so_inp. rewrite (soc_cpu k D x0 p). assert (Ea : o_adr (run s inp (S v)) = o_adr (run s inp v)) by (apply (f_equal b_adr) in Eb; exact Eb).
  cbn [dat_r]. fold inp. rewrite Ea, R. cbn [so_datr]. rewrite (soc_leds k D x0 p Hs (S v)). cbn [leds_run]. rewrite <- (soc_leds k D x0 p Hs v). unfold leds_step. cbn [ld_dat]. rewrite Q.
  assert (B : b_adr (b v) mod 4 = 1 /\ p_sel0 (b v) = true /\ b_we (b v) = false).
  { unfold soc_bus, p_sel0. cbn [sub_bus cpu_bus b_adr b_we b_sel adr_width lanes_of]. split; [exact A|]. split; [rewrite Z.mod_pow2_bits_low by lia; exact Se|exact We]. }
  destruct B as (-> & -> & ->). reflexivity.
Qed.
End A.

(** ** The variant with CSR peripherals *)
Section C.
Variables (k D : Z) (x0 : csoc) (p : nat -> pins).
Hypothesis (Hs : csoc_start x0) (Hp : pins_ok p).
Local Notation s := (co_cpu x0).
Local Notation inp := (csoc_inp k D x0 p).
Lemma writing_at v r : writing (pbus k D x0 p) (pak k D x0 p) v r = true <-> writes_at s inp (csr_at r) v.
Proof.
  pose proof (csoc_ok k D x0 p Hs) as K. destruct (reg_address_at r) as (R & I & Al). unfold writing, writes_at, csr_at. cbv zeta.
  assert (Bt : pbus k D x0 p v = per_bus (cpu_bus (run s inp v))) by reflexivity.
  split.
  - intros H. apply andb_prop in H. destruct H as [H Ar]. apply andb_prop in H. destruct H as [H Se]. apply andb_prop in H. destruct H as [S0 We].
    destruct (during k D x0 p Hs Hp v S0 0%nat ltac:(lia)) as (_ & C & Ip & A). rewrite Nat.add_0_r in C, Ip, A. change (Nat.eqb 0 5) with false in A.
    rewrite Bt in We, Se, Ar. cbn [per_bus cpu_bus b_we b_sel b_adr] in We, Se. split; [split; [exact C|]|].
    { destruct v as [|u]; [exact Logic.I|]. destruct (o_cyc (run s inp u)) eqn:Cu; [|reflexivity]. exfalso.
      destruct (ack (inp u)) eqn:Au.
      - destruct (C06_drop_after_ack s inp K u Cu Au) as [Z0 _]. congruence.
      - destruct (C05_request_held s inp K u Cu Au) as (_ & _ & Ea & _). unfold starts in S0. apply andb_prop in S0. destruct S0 as [_ S0].
        rewrite (pbus_req k D x0 p u) in S0. rewrite Cu, <- Ea, Ip in S0. cbn [andb negb orb] in S0.
        rewrite (cack_is k D x0 p Hs u) in Au. rewrite <- Ea, Ip, ram_not_per in Au by exact Ip. congruence. }
    split; [exact We|]. split; [|exact Se]. unfold at_reg in Ar. cbn [per_bus cpu_bus b_adr] in Ar. destruct (reg_at (o_adr (run s inp v) mod 2 ^ 23)) as [r'|] eqn:E; [|discriminate]. apply reg_eqb_eq in Ar. subst r'.
    rewrite (reg_address_of _ _ Ip E). apply Z.eqb_eq. pose proof (Z.div_mod (reg_address r) 4 ltac:(lia)). lia.
  - intros ((C & U) & We & Ad & Se). apply Z.eqb_eq in Ad. assert (Ad' : o_adr (run s inp v) = reg_address r / 4) by (rewrite <- Ad, Z.mul_comm, Z.div_mul by lia; reflexivity).
    rewrite (up_starts k D x0 p v).
    + rewrite Bt. unfold at_reg. cbn [per_bus cpu_bus b_we b_sel b_adr]. rewrite We, Se, Ad', R, reg_eqb_refl. reflexivity.
    + split; [exact C|exact U].
    + rewrite Ad'. exact I.
Qed.
Lemma csr_output o : output s inp (csr_at (out_reg o)) 2 (fun c => out_pins (csoc_run k D x0 p c) o).
Proof.
  destruct (C59_csr_leds D (pbus k D x0 p) (pgi p) (prx p) (csoc_env k D x0 p Hs Hp)) as [L0 L].
  assert (Op : forall t, out_pins (csoc_run k D x0 p t) o = let l := cp_leds (csrp_run D csrp_init (pbus k D x0 p) (pgi p) (prx p) t) in match o with OutLeds => cl_leds l | OutGpio => cl_o l | OutEnable => cl_oe l end).
  { intros t. unfold out_pins. rewrite (csoc_per k D x0 p Hs t). reflexivity. }
  assert (Nx : forall v, out_pins (csoc_run k D x0 p (v + 2)) o = if writing (pbus k D x0 p) (pak k D x0 p) v (out_reg o) then o_dat_w (run s inp v) mod 256 else out_pins (csoc_run k D x0 p (v + 1)) o).
  { intros v. rewrite !Op. destruct (L v) as (La & Lb & Lc). destruct o; [exact La|exact Lb|exact Lc]. }
  constructor.
  - intros c Hc. rewrite Op. destruct (L0 c Hc) as (H1 & H2 & H3). destruct o; assumption.
  - intros v W. rewrite Nx. apply writing_at in W. rewrite W. reflexivity.
  - intros v W. rewrite Nx. replace (v + 2 - 1)%nat with (v + 1)%nat by lia. destruct (writing _ _ v (out_reg o)) eqn:Q; [|reflexivity]. exfalso. apply W, writing_at, Q.
Qed.
Lemma csr_input v : let x := run s inp v in request_starts s inp v -> o_we x = false -> csr_at InOutReg (4 * o_adr x) = true -> Z.testbit (o_sel x) 0 = true ->
  dat_r (inp (v + 5)%nat) = pi_gpio (p v).
Proof.
  intros x S0 We Ad Se. unfold csr_at in Ad. apply Z.eqb_eq in Ad. subst x. destruct (reg_address_at InOutReg) as (R & I & _).
  assert (Ad' : o_adr (run s inp v) = reg_address InOutReg / 4) by (rewrite <- Ad, Z.mul_comm, Z.div_mul by lia; reflexivity).
  assert (St : starts (pbus k D x0 p) (pak k D x0 p) v = true) by (apply up_starts; [exact S0|rewrite Ad'; exact I]).
  destruct (during k D x0 p Hs Hp v St 5%nat ltac:(lia)) as (E & _ & Ip & _). apply (f_equal b_adr) in E. cbn [cpu_bus b_adr] in E.
  pose proof (cdat_is k D x0 p Hs (v + 5)) as Q. rewrite E, Ad', I, ram_not_per in Q by exact I. rewrite Q.
  destruct (C59_csr_transfer D (pbus k D x0 p) (pgi p) (prx p) (csoc_env k D x0 p Hs Hp)) as [Tr _]. destruct (Tr v St) as (_ & _ & V). unfold pst.
  rewrite V by exact We. unfold pbus at 1. cbn [per_bus cpu_bus b_sel]. rewrite Se. unfold pbus at 2. cbn [per_bus cpu_bus b_adr]. rewrite Ad', R. reflexivity.
Qed.
End C.

(** ** Theorems *)
(** C90, one instruction on AttoSoC, whatever else goes on (interrupts, devices): a store to the LEDs or GPIO registers whose fetch
    completes in cycle [t] changes the pins in cycle [t + 7], the LEDs in cycle [t + 8]; no other instruction changes them. *)
Theorem C90_soc_store : forall k D x0 p, soc_start x0 -> pins_ok p ->
  let s := so_cpu x0 in let inp := soc_inp k D x0 p in
  forall t t' w, executes s inp t t' w ->
  forall n, n = 0 \/ n = 1 \/ n = 2 ->
  let out := fun c => let l := so_leds (soc_run k D x0 p c) in if n =? 0 then ld_leds l else if n =? 1 then ld_o l else ld_oe l in
  let L := if n =? 0 then 2%nat else 1%nat in
  forall c, (t + L <= c <= t' + L)%nat ->
  out c = match stored s inp t w with
          | Some (ea, _, d) => if leds_at n ea && Nat.leb (t + 6 + L) c then d mod 256 else out (t + L)%nat
          | None => out (t + L)%nat
          end.
Proof.
  intros k D x0 p Hs Hp s inp t t' w X n Hn out L c Hc. pose proof (soc_ok k D x0 p Hs Hp) as K.
  assert (HL : (1 <= L)%nat) by (subst L; destruct (n =? 0); lia).
  pose proof (out_step s inp K (leds_at n) L out HL (leds_at_al n) (led_output k D x0 p Hs Hp n Hn) t t' w X (c - L)%nat ltac:(lia)) as Q.
  replace (c - L + L)%nat with c in Q by lia. rewrite Q. destruct (stored s inp t w) as [[[ea m] d]|]; [|reflexivity]. destruct (leds_at n ea); [|reflexivity]. cbn [andb].
  destruct (Nat.leb_spec (t + 6) (c - L)); destruct (Nat.leb_spec (t + 6 + L) c); try lia; reflexivity.
Qed.
(** C90, one instruction on the variant with CSR peripherals. *)
Theorem C90_csr_soc_store : forall k D x0 p, csoc_start x0 -> pins_ok p ->
  let s := co_cpu x0 in let inp := csoc_inp k D x0 p in
  forall t t' w, executes s inp t t' w ->
  forall o, let out := fun c => out_pins (csoc_run k D x0 p c) o in
  forall c, (t + 2 <= c <= t' + 2)%nat ->
  out c = match stored s inp t w with
          | Some (ea, _, d) => if (ea =? reg_address (out_reg o)) && Nat.leb (t + 8) c then d mod 256 else out (t + 2)%nat
          | None => out (t + 2)%nat
          end.
Proof.
  intros k D x0 p Hs Hp s inp t t' w X o out c Hc. pose proof (csoc_ok k D x0 p Hs) as K.
  pose proof (out_step s inp K (csr_at (out_reg o)) 2 out ltac:(lia) (csr_at_al _) (csr_output k D x0 p Hs Hp o) t t' w X (c - 2)%nat ltac:(lia)) as Q.
  replace (c - 2 + 2)%nat with c in Q by lia. rewrite Q. destruct (stored s inp t w) as [[[ea m] d]|]; [|reflexivity]. unfold csr_at. destruct (ea =? _); [|reflexivity]. cbn [andb].
  destruct (Nat.leb_spec (t + 6) (c - 2)); destruct (Nat.leb_spec (t + 8) c); try lia; reflexivity.
Qed.

(** C90, one load on AttoSoC: the GPIO register has the input pins of cycle [t + 5]. *)
Theorem C90_soc_load : forall k D x0 p, soc_start x0 -> pins_ok p ->
  let s := so_cpu x0 in let inp := soc_inp k D x0 p in
  forall t t' w x y, executed s inp t t' w x y -> int_taken s inp t w = false ->
  forall sz sgn rd rs1 off, decode w = Some (Load sz sgn rd rs1 off) -> leds_at 1 ((x_of x rs1 + off) mod 2 ^ 32) = true ->
  retires x y rd (loaded_byte sz sgn (pi_gpio (p (t + 5)%nat))) (pc_plus_4 x).
Proof.
  intros k D x0 p Hs Hp s inp t t' w x y E T sz sgn rd rs1 off Dc Ra. pose proof (soc_ok k D x0 p Hs Hp) as K. set (ea := (x_of x rs1 + off) mod 2 ^ 32) in *.
  pose proof (leds_at_al 1 ea Ra) as Al. pose proof Ra as Rw. assert (E4 : 4 * (ea / 4) = ea) by (pose proof (Z.div_mod ea 4 ltac:(lia)); lia).
  rewrite <- E4 in Rw. apply leds_at_word in Rw; [|lia]. destruct Rw as [Rg M4].
  assert (M4' : (ea / 4) mod 4 = 1). { rewrite <- M4. apply Znumtheory.Zmod_div_mod; [lia|lia|]. exists (2 ^ 23). reflexivity. }
  unfold leds_at in Ra. apply andb_prop in Ra. destruct Ra as [Ra _]. apply andb_prop in Ra. destruct Ra as [R1 R2]. apply Z.leb_le in R1. apply Z.ltb_lt in R2.
  destruct (C48_input_loads k D x0 p Hs Hp t t' w x y E T sz sgn rd rs1 off Dc Al) as [G _]. destruct (G (conj R1 R2) M4') as (u & (Lu & Cu & Au & O & _) & V). clear G.
  destruct E as (X & -> & ->).
  pose proof (load_starts s inp K t t' w sz sgn rd rs1 off X T Dc (bytes_al sz ea Al)) as (Lt & Qt & Ss & We & Ad & _). fold ea in Ad.
  pose proof (first_unacked k D x0 p Hs Hp _ Ss) as A5. destruct (soc_ack_next k D x0 p Hs Hp LEDS (t + 5) (proj1 Ss)) as [A6 _]; [fold inp s; rewrite Ad; exact Rg|exact A5|].
  destruct (C05_request_held s inp K _ (proj1 Ss) A5) as (C6 & _). fold inp in A5, A6.
  assert (u = (t + 5)%nat) as <-; [|exact V]. destruct O as (Hu & (Cs & _ & As) & Ot).
  destruct (Nat.lt_trichotomy u (t + 5)) as [H|[H|H]]; [rewrite Qt in Cu by lia; discriminate|exact H|exfalso].
  specialize (Ot (S (t + 5)) ltac:(lia) ltac:(lia)). fold inp s in Ot. fold inp s in A6. rewrite C6, A6 in Ot. discriminate.
Qed.
(** C90, one load on the variant with CSR peripherals. *)
Theorem C90_csr_soc_load : forall k D x0 p, csoc_start x0 -> pins_ok p ->
  let s := co_cpu x0 in let inp := csoc_inp k D x0 p in
  forall t t' w x y, executed s inp t t' w x y -> int_taken s inp t w = false ->
  forall sz sgn rd rs1 off, decode w = Some (Load sz sgn rd rs1 off) -> (x_of x rs1 + off) mod 2 ^ 32 = 0x2000004 ->
  retires x y rd (loaded_byte sz sgn (pi_gpio (p (t + 5)%nat))) (pc_plus_4 x).
Proof.
  intros k D x0 p Hs Hp s inp t t' w x y E T sz sgn rd rs1 off Dc Ra. pose proof (csoc_ok k D x0 p Hs) as K.
  destruct (C60_csr_soc_loads k D x0 p Hs Hp t t' w x y E T sz sgn rd rs1 off Dc InOutReg Ra) as (u & Lu & Rb & O & V). 
  destruct E as (X & -> & ->). pose proof (load_starts s inp K t t' w sz sgn rd rs1 off X T Dc) as Ls. cbv zeta in Ls.
  rewrite Ra in Ls. destruct (Ls ltac:(destruct sz; reflexivity)) as (Lt & Qt & Ss & We & Ad & _). clear Ls.
  assert (St : starts (pbus k D x0 p) (pak k D x0 p) (t + 5) = true) by (apply up_starts; [exact Ss|fold inp; fold s; rewrite Ad; reflexivity]).
  pose proof (during k D x0 p Hs Hp _ St) as Du. fold s inp in Du.
  assert (u = (t + 5)%nat) as <-; [|exact V]. destruct Rb as (Cu & _). fold s inp in Cu. destruct O as (Hu & (Cs & _ & As) & Ot). fold s inp in Cs, As, Ot.
  destruct (Nat.lt_trichotomy u (t + 5)) as [H|[H|H]]; [rewrite Qt in Cu by lia; discriminate|exact H|exfalso].
  destruct (Du 5%nat ltac:(lia)) as (_ & C5 & _ & A5). specialize (Ot (t + 5 + 5)%nat ltac:(lia) ltac:(lia)). rewrite C5, A5 in Ot. discriminate.
Qed.

(** C90 on AttoSoC, with devices and interrupts: the simulator of C89 also gives the pins in every cycle. *)
Theorem C90_soc_waveform : forall k D x0 p, soc_start x0 -> pins_ok p ->
  let s := so_cpu x0 in let inp := soc_inp k D x0 p in let ram := fun a => a <? 2 ^ 23 in let phys := fun a => a mod 2 ^ k in
  let bus := fun c => dat_r (inp c) in let line := fun c => irq (inp c) in let sim := io_clocked ram phys soc_wait line bus (boot_arch s) (soc_bytes x0) in
  let leds := fun c => so_leds (soc_run k D x0 p c) in
  forall n, (forall j, (j < n)%nat -> reaches ram phys bus soc_mapped (sim j)) ->
  let '(t, (a, m)) := sim n in soc_mapped (pc a / 4) = true ->
  (forall c, (c <= t + 2)%nat -> ld_leds (leds c) = wave ram phys line bus sim (leds_at 0) 2 n c) /\
  (forall c, (c <= t + 1)%nat -> ld_o (leds c) = wave ram phys line bus sim (leds_at 1) 1 n c) /\
  (forall c, (c <= t + 1)%nat -> ld_oe (leds c) = wave ram phys line bus sim (leds_at 2) 1 n c).
Proof.
  intros k D x0 p Hs Hp s inp ram phys bus line sim leds n R. pose proof (soc_ok k D x0 p Hs Hp) as K.
  assert (W : soc_mapped (pc (fst (snd (sim n))) / 4) = true -> forall i (Hi : i = 0 \/ i = 1 \/ i = 2), let L := if i =? 0 then 2%nat else 1%nat in forall c, (c <= fst (sim n) + L)%nat -> led_out k D x0 p i c = wave ram phys line bus sim (leds_at i) L n c).
  { intros Mp i Hi L c Hc. apply (wave_sim soc_mapped ram phys soc_wait s inp (soc_bytes x0) K (soc_ram_slave k D x0 p Hs Hp) (soc_answers k D x0 p Hs Hp) (leds_at i) L (led_out k D x0 p i)).
    - subst L. destruct (i =? 0); lia.
    - apply leds_at_al.
    - apply led_output; assumption.
    - exact R.
    - exact Mp.
    - exact Hc. }
  destruct (sim n) as [t [a m]] eqn:E. intros Mp. specialize (W Mp). split; [|split].
  - apply (W 0); auto.
  - apply (W 1); auto.
  - apply (W 2); auto.
Qed.
(** C90 on the variant with CSR peripherals, with devices and interrupts. *)
Theorem C90_csr_soc_waveform : forall k D x0 p, csoc_start x0 -> pins_ok p ->
  let s := co_cpu x0 in let inp := csoc_inp k D x0 p in let ram := fun a => a <? 2 ^ 23 in let phys := fun a => a mod 2 ^ k in
  let bus := fun c => dat_r (inp c) in let line := fun c => irq (inp c) in let sim := io_clocked ram phys csoc_wait line bus (boot_arch s) (csoc_bytes x0) in
  forall n, (forall j, (j < n)%nat -> reaches ram phys bus csoc_mapped (sim j)) ->
  let '(t, (a, m)) := sim n in csoc_mapped (pc a / 4) = true ->
  forall o c, (c <= t + 2)%nat -> out_pins (csoc_run k D x0 p c) o = wave ram phys line bus sim (csr_at (out_reg o)) 2 n c.
Proof.
  intros k D x0 p Hs Hp s inp ram phys bus line sim n R. pose proof (csoc_ok k D x0 p Hs) as K. destruct (sim n) as [t [a m]] eqn:E. intros Mp o c Hc.
  pose proof (wave_sim csoc_mapped ram phys csoc_wait s inp (csoc_bytes x0) K (csoc_ram_slave k D x0 p Hs Hp) (csoc_answers k D x0 p Hs Hp) (csr_at (out_reg o)) 2 (fun c => out_pins (csoc_run k D x0 p c) o) ltac:(lia) (csr_at_al _) (csr_output k D x0 p Hs Hp o) n R) as W.
  fold bus line sim in W. rewrite E in W. apply (W Mp c Hc).
Qed.

(** C90 on AttoSoC, for a program that keeps interrupts disabled and uses only the RAM and GPIO: its run and the pins it drives are
    a function of the program and of the input pins alone, for every cycle. *)
Theorem C90_soc : forall k D x0 p, soc_start x0 -> pins_ok p ->
  let s := so_cpu x0 in let inp := soc_inp k D x0 p in let ram := fun a => a <? 2 ^ 23 in let phys := fun a => a mod 2 ^ k in
  let nobody := fun _ : nat => false in let gpio := fun c => pi_gpio (p (c - 1)%nat) in
  let sim := io_clocked ram phys soc_wait nobody gpio (boot_arch s) (soc_bytes x0) in
  let leds := fun c => so_leds (soc_run k D x0 p c) in
  forall n, (forall j, (j < n)%nat -> settled soc_mapped ram (leds_at 1) phys (sim j)) ->
  let '(t, (a, m)) := sim n in soc_mapped (pc a / 4) = true ->
  nth_fetch s inp n t /\
  (forall c, (c <= t + 2)%nat -> ld_leds (leds c) = wave ram phys nobody gpio sim (leds_at 0) 2 n c) /\
  (forall c, (c <= t + 1)%nat -> ld_o (leds c) = wave ram phys nobody gpio sim (leds_at 1) 1 n c) /\
  (forall c, (c <= t + 1)%nat -> ld_oe (leds c) = wave ram phys nobody gpio sim (leds_at 2) 1 n c) /\
  (forall z, soc_bytes (soc_run k D x0 p t) z = m z) /\
  let x := so_cpu (soc_run k D x0 p (S t)) in (forall r, 0 <= r < 32 -> x_of x r = rd_x a r) /\ pc_of x = pc a.
Proof.
  intros k D x0 p Hs Hp s inp ram phys nobody gpio sim leds n R. pose proof (soc_ok k D x0 p Hs Hp) as K.
  pose proof (closed_program soc_mapped ram phys soc_wait s inp (soc_bytes x0) K (soc_ram_slave k D x0 p Hs Hp) (soc_answers k D x0 p Hs Hp) (leds_at 1) 1 (fun c => pi_gpio (p c))
    (leds_at_al 1) (fun _ _ _ => eq_refl) (led_input k D x0 p Hs Hp) n R) as Q.
  cbv beta in Q. fold nobody gpio in Q. fold sim in Q. destruct (sim n) as [t [a m]] eqn:E. intros Mp. destruct (Q Mp) as (Nf & Is & W). split; [exact Nf|].
  split; [|split; [|split; [|split]]].
  - apply (W (leds_at 0) 2%nat (led_out k D x0 p 0) ltac:(lia) (leds_at_al 0)). apply (led_output k D x0 p Hs Hp 0). auto.
  - apply (W (leds_at 1) 1%nat (led_out k D x0 p 1) ltac:(lia) (leds_at_al 1)). apply (led_output k D x0 p Hs Hp 1). auto.
  - apply (W (leds_at 2) 1%nat (led_out k D x0 p 2) ltac:(lia) (leds_at_al 2)). apply (led_output k D x0 p Hs Hp 2). auto.
  - destruct Is as (F & M & Qm). intros z. rewrite Qm. unfold soc_bytes. rewrite (IoMem.array k D x0 p Hs Hp). cbn [ram_mem]. cbv zeta. fold s inp.
    destruct F as (C & U & A & _). pose proof (bus_shows s inp K t C) as Sh. rewrite M in Sh. destruct Sh. rewrite sh_we. cbn [request q_we]. rewrite andb_false_r. reflexivity.
  - destruct Is as (F & M & _). rewrite soc_run_cpu. fold s inp. destruct (C02_registers_match_reference s inp K t _ F) as (a0 & M0 & Rx & Rp & _). rewrite M in M0. injection M0 as <-. split; [exact Rx|exact Rp].
Qed.
(** C90 on the variant with CSR peripherals. *)
Theorem C90_csr_soc : forall k D x0 p, csoc_start x0 -> pins_ok p ->
  let s := co_cpu x0 in let inp := csoc_inp k D x0 p in let ram := fun a => a <? 2 ^ 23 in let phys := fun a => a mod 2 ^ k in
  let nobody := fun _ : nat => false in let gpio := fun c => pi_gpio (p (c - 5)%nat) in
  let sim := io_clocked ram phys csoc_wait nobody gpio (boot_arch s) (csoc_bytes x0) in
  forall n, (forall j, (j < n)%nat -> settled csoc_mapped ram (csr_at InOutReg) phys (sim j)) ->
  let '(t, (a, m)) := sim n in csoc_mapped (pc a / 4) = true ->
  nth_fetch s inp n t /\
  (forall o c, (c <= t + 2)%nat -> out_pins (csoc_run k D x0 p c) o = wave ram phys nobody gpio sim (csr_at (out_reg o)) 2 n c) /\
  (forall z, csoc_bytes (csoc_run k D x0 p t) z = m z) /\
  let x := co_cpu (csoc_run k D x0 p (S t)) in (forall r, 0 <= r < 32 -> x_of x r = rd_x a r) /\ pc_of x = pc a.
Proof.
  intros k D x0 p Hs Hp s inp ram phys nobody gpio sim n R. pose proof (csoc_ok k D x0 p Hs) as K.
  pose proof (closed_program csoc_mapped ram phys csoc_wait s inp (csoc_bytes x0) K (csoc_ram_slave k D x0 p Hs Hp) (csoc_answers k D x0 p Hs Hp) (csr_at InOutReg) 5 (fun c => pi_gpio (p c))
    (csr_at_al _)) as Q.
  assert (Nw : forall (t : nat) ea, csr_at InOutReg ea = true -> csoc_wait t (ea / 4) false = 5%nat). { intros t ea H. unfold csr_at in H. apply Z.eqb_eq in H. subst ea. reflexivity. }
  specialize (Q Nw (csr_input k D x0 p Hs Hp) n R).
  cbv beta in Q. fold nobody gpio in Q. fold sim in Q. destruct (sim n) as [t [a m]] eqn:E. intros Mp. destruct (Q Mp) as (Nf & Is & W). split; [exact Nf|].
  split; [|split].
  - intros o. apply (W (csr_at (out_reg o)) 2%nat (fun c => out_pins (csoc_run k D x0 p c) o) ltac:(lia) (csr_at_al _)). apply (csr_output k D x0 p Hs Hp o).
  - destruct Is as (F & M & Qm). intros z. rewrite Qm. unfold csoc_bytes. rewrite (CsrIoMem.array k D x0 p Hs). cbn [ram_mem]. cbv zeta. fold s inp.
    destruct F as (C & U & A & _). pose proof (bus_shows s inp K t C) as Sh. rewrite M in Sh. destruct Sh. rewrite sh_we. cbn [request q_we]. rewrite andb_false_r. reflexivity.
  - destruct Is as (F & M & _). rewrite csoc_run_cpu. fold s inp. destruct (C02_registers_match_reference s inp K t _ F) as (a0 & M0 & Rx & Rp & _). rewrite M in M0. injection M0 as <-. split; [exact Rx|exact Rp].
Qed.

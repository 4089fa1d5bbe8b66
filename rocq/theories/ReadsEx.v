(** * C94 on two boards joined by a wire *)
From Coq Require Import ZArith Lia Bool List.
From Verif Require Import Bits Ucode Cpu Isa Timed BitLemmas Wf Sym Blocks CsrBlocks DecodeOk Boundary Sim Main Obs PropsBus PropsInv Observe PropsIsa PropsFrame Latency Memory SocMem Crash Uart Periph Soc SocIo SocEx IoMem CsrBus CsrSoc CsrIoMem BusDetect SeqTest PowerUp Transparent TransparentEx IoTransparent IoTransparentEx Emulate EmulateSocEx Clocked ClockedSoc Waves WavesSoc WavesEx Lines LinesSoc LinesEx Reads.
Import ListNotations.
Open Scope Z_scope.

(** Counts down from three, then loads the serial data register into x5 for ever. *)
Definition listen (base : Z) : list Z := [base * 4096 + 0xb7; 0x300113; 0xfff10113; 0xfe011ee3; 0xa283; 0xffdff06f].

(** ** From AttoSoC to the variant with CSR peripherals *)
Definition glist : list soc := states (fun x t => soc_step 8 4 x (noise t)) 100 0 gsoc.
Definition grun (t : nat) : soc := memo (soc_run 8 4 gsoc noise) glist t.
Lemma grun_ok t : grun t = soc_run 8 4 gsoc noise t. Proof. apply (memo_ok (fun x t => soc_step 8 4 x (noise t)) (soc_run 8 4 gsoc noise) (fun t => eq_refl) 100). Qed.
Definition wire (t : nat) : pins := {| pi_gpio := 0; pi_rx := tx_pin (grun t) |}.
Definition lsoc : csoc := csoc_of (listen 0x3000).
Definition llist : list csoc := states (fun x t => csoc_step 8 4 x (wire t)) 100 0 lsoc.
Definition lrun (t : nat) : csoc := memo (csoc_run 8 4 lsoc wire) llist t.
Lemma lrun_ok t : lrun t = csoc_run 8 4 lsoc wire t. Proof. apply (memo_ok (fun x t => csoc_step 8 4 x (wire t)) (csoc_run 8 4 lsoc wire) (fun t => eq_refl) 100). Qed.
Lemma gcpu_ok t : run (so_cpu gsoc) (soc_inp 8 4 gsoc noise) t = so_cpu (grun t). Proof. rewrite grun_ok. symmetry. apply soc_run_cpu. Qed.
Lemma gnow_ok t : soc_inp 8 4 gsoc noise t = so_inp (grun t). Proof. rewrite grun_ok. reflexivity. Qed.
Lemma lcpu_ok t : run (co_cpu lsoc) (csoc_inp 8 4 lsoc wire) t = co_cpu (lrun t). Proof. rewrite lrun_ok. symmetry. apply csoc_run_cpu. Qed.
Lemma lnow_ok t : csoc_inp 8 4 lsoc wire t = co_inp (lrun t). Proof. rewrite lrun_ok. reflexivity. Qed.
(** [read_begins] as a check of a listed run. *)
Definition begins_b (cpu : nat -> state) (t : nat) (a : Z) : bool :=
  let x := cpu t in o_cyc x && match t with O => true | S u => negb (o_cyc (cpu u)) end && negb (o_we x) && Z.testbit (o_sel x) 0 && (4 * o_adr x =? a).
Lemma begins_b_ok s inp cpu (Hc : forall t, run s inp t = cpu t) t a : begins_b cpu t a = false -> ~ read_begins s inp t a.
Proof.
  intros H (C & U & We & Se & Ad). rewrite !Hc in *. unfold begins_b in H. cbv zeta in H. rewrite C, We, Se, Ad, Z.eqb_refl in H.
  destruct t as [|u]; [discriminate|]. destruct U as [U|(v & E & U)]; [discriminate|]. injection E as <-. rewrite Hc in U. rewrite U in H. discriminate.
Qed.
(** The letter H, sent by the store in cycle 18, is what the second load returns, in cycle 69; the first, in cycle 49, came too early. *)
Example C94_link_applies : tolerates 4 4 /\ soc_start gsoc /\ pins_ok noise /\ csoc_start lsoc /\ pins_ok wire /\
  (exists tn x y, executed (so_cpu gsoc) (soc_inp 8 4 gsoc noise) 18 tn 0x208023 x y /\ int_taken (so_cpu gsoc) (soc_inp 8 4 gsoc noise) 18 0x208023 = false /\
     decode 0x208023 = Some (Store Byte 1 2 0) /\ sends_at ((x_of x 1 + 0) mod 2 ^ 32) = true /\ x_of x 2 mod 256 = 72) /\
  tx_idle (soc_run 8 4 gsoc noise (18 + 7)) = true /\
  (forall u j, Z.of_nat u = Z.of_nat j + 0 -> pi_rx (wire u) = tx_pin (soc_run 8 4 gsoc noise j)) /\
  (let r := cs_rx (cp_serial (co_per (csoc_run 8 4 lsoc wire 26))) in rx_idle r = true /\ rx_rdy r = false) /\
  (exists tn x y, executed (co_cpu lsoc) (csoc_inp 8 4 lsoc wire) 69 tn 0xa283 x y /\ int_taken (co_cpu lsoc) (csoc_inp 8 4 lsoc wire) 69 0xa283 = false /\
     decode 0xa283 = Some (Load Word true 5 1 0) /\ csr_sends_at ((x_of x 1 + 0) mod 2 ^ 32) = true /\ x_of y 5 = 72) /\
  arrives 4 26 = 66%nat /\ (forall u, (66 <= u < 69 + 5)%nat -> ~ read_begins (co_cpu lsoc) (csoc_inp 8 4 lsoc wire) u (reg_address TxRx)).
Proof.
  split; [apply same_length; lia|]. split; [constructor; try reflexivity; [apply por_fresh|apply talk_start; vm_compute; reflexivity]|]. split; [apply noise_ok|].
  split; [constructor; try reflexivity; [apply por_fresh|apply talk_start; vm_compute; reflexivity]|]. split; [intros t; cbn; lia|].
  split; [|split; [|split; [|split; [|split; [|split]]]]].
  - exists 28%nat. do 2 eexists. split; [split; [apply (exec_b_ok _ _ (fun t => so_cpu (grun t)) (fun t => so_inp (grun t)) gcpu_ok gnow_ok); vm_compute; reflexivity|split; reflexivity]|].
    unfold int_taken. cbv zeta. rewrite !gcpu_ok. repeat split; vm_compute; reflexivity.
  - rewrite <- grun_ok. vm_compute. reflexivity.
  - intros u j H. assert (u = j) as -> by lia. cbn [wire pi_rx]. rewrite grun_ok. reflexivity.
  - cbv zeta. rewrite <- lrun_ok. vm_compute. split; reflexivity.
  - exists 82%nat. do 2 eexists. split; [split; [apply (exec_b_ok _ _ (fun t => co_cpu (lrun t)) (fun t => co_inp (lrun t)) lcpu_ok lnow_ok); vm_compute; reflexivity|split; reflexivity]|].
    unfold int_taken. cbv zeta. rewrite !lcpu_ok. repeat split; vm_compute; reflexivity.
  - vm_compute. reflexivity.
  - intros u Hu. apply (begins_b_ok _ _ _ lcpu_ok). assert (F : forallb (fun u => negb (begins_b (fun t => co_cpu (lrun t)) u (reg_address TxRx))) (seq 66 8) = true) by (vm_compute; reflexivity).
    rewrite forallb_forall in F. apply negb_true_iff, F, in_seq. lia.
Qed.

(** ** The other way round; the receiving board is switched on five cycles after the sender *)
Definition hlist : list csoc := states (fun x t => csoc_step 8 4 x (noise t)) 120 0 hsoc.
Definition hrun (t : nat) : csoc := memo (csoc_run 8 4 hsoc noise) hlist t.
Lemma hrun_ok t : hrun t = csoc_run 8 4 hsoc noise t. Proof. apply (memo_ok (fun x t => csoc_step 8 4 x (noise t)) (csoc_run 8 4 hsoc noise) (fun t => eq_refl) 120). Qed.
Definition wire_back (t : nat) : pins := {| pi_gpio := 0; pi_rx := csr_tx_pin (hrun (t + 5)) |}.
Definition ksoc : soc := soc_of (listen 0x80000).
Definition klist : list soc := states (fun x t => soc_step 8 4 x (wire_back t)) 100 0 ksoc.
Definition krun (t : nat) : soc := memo (soc_run 8 4 ksoc wire_back) klist t.
Lemma krun_ok t : krun t = soc_run 8 4 ksoc wire_back t. Proof. apply (memo_ok (fun x t => soc_step 8 4 x (wire_back t)) (soc_run 8 4 ksoc wire_back) (fun t => eq_refl) 100). Qed.
Lemma hcpu_ok t : run (co_cpu hsoc) (csoc_inp 8 4 hsoc noise) t = co_cpu (hrun t). Proof. rewrite hrun_ok. symmetry. apply csoc_run_cpu. Qed.
Lemma hnow_ok t : csoc_inp 8 4 hsoc noise t = co_inp (hrun t). Proof. rewrite hrun_ok. reflexivity. Qed.
Lemma kcpu_ok t : run (so_cpu ksoc) (soc_inp 8 4 ksoc wire_back) t = so_cpu (krun t). Proof. rewrite krun_ok. symmetry. apply soc_run_cpu. Qed.
Lemma know_ok t : soc_inp 8 4 ksoc wire_back t = so_inp (krun t). Proof. rewrite krun_ok. reflexivity. Qed.
Definition asks_b (cpu : nat -> state) (reg : Z -> bool) (u : nat) : bool := let x := cpu u in o_cyc x && negb (o_we x) && Z.testbit (o_sel x) 0 && reg (4 * o_adr x).
Lemma asks_b_ok s inp cpu reg (Hc : forall t, run s inp t = cpu t) u : asks_b cpu reg u = false -> ~ asks s inp reg u.
Proof. intros H (C & We & Se & R). rewrite !Hc in *. unfold asks_b in H. cbv zeta in H. rewrite C, We, Se, R in H. discriminate. Qed.
Example C94_link_back_applies : tolerates 4 4 /\ csoc_start hsoc /\ pins_ok noise /\ soc_start ksoc /\ pins_ok wire_back /\
  (exists tn x y, executed (co_cpu hsoc) (csoc_inp 8 4 hsoc noise) 18 tn 0x208023 x y /\ int_taken (co_cpu hsoc) (csoc_inp 8 4 hsoc noise) 18 0x208023 = false /\
     decode 0x208023 = Some (Store Byte 1 2 0) /\ csr_sends_at ((x_of x 1 + 0) mod 2 ^ 32) = true /\ x_of x 2 mod 256 = 72) /\
  csr_tx_idle (csoc_run 8 4 hsoc noise (18 + 7)) = true /\
  Z.of_nat 21 = Z.of_nat (18 + 8) + -5 /\ (forall u j, Z.of_nat u = Z.of_nat j + -5 -> pi_rx (wire_back u) = csr_tx_pin (csoc_run 8 4 hsoc noise j)) /\
  (let r := sr_rx (so_serial (soc_run 8 4 ksoc wire_back 21)) in rx_idle r = true /\ rx_rdy r = false) /\
  (exists tn x y, executed (so_cpu ksoc) (soc_inp 8 4 ksoc wire_back) 65 tn 0xa283 x y /\ int_taken (so_cpu ksoc) (soc_inp 8 4 ksoc wire_back) 65 0xa283 = false /\
     decode 0xa283 = Some (Load Word true 5 1 0) /\ sends_at ((x_of x 1 + 0) mod 2 ^ 32) = true /\ x_of y 5 = 72) /\
  arrives 4 21 = 61%nat /\ (forall u, (61 <= u < 65 + 5)%nat -> ~ asks (so_cpu ksoc) (soc_inp 8 4 ksoc wire_back) sends_at u).
Proof.
  split; [apply same_length; lia|]. split; [constructor; try reflexivity; [apply por_fresh|apply talk_start; vm_compute; reflexivity]|]. split; [apply noise_ok|].
  split; [constructor; try reflexivity; [apply por_fresh|apply talk_start; vm_compute; reflexivity]|]. split; [intros t; cbn; lia|].
  split; [|split; [|split; [|split; [|split; [|split; [|split]]]]]].
  - exists 32%nat. do 2 eexists. split; [split; [apply (exec_b_ok _ _ (fun t => co_cpu (hrun t)) (fun t => co_inp (hrun t)) hcpu_ok hnow_ok); vm_compute; reflexivity|split; reflexivity]|].
    unfold int_taken. cbv zeta. rewrite !hcpu_ok. repeat split; vm_compute; reflexivity.
  - rewrite <- hrun_ok. vm_compute. reflexivity.
  - lia.
  - intros u j H. assert (j = (u + 5)%nat) as -> by lia. cbn [wire_back pi_rx]. rewrite hrun_ok. reflexivity.
  - cbv zeta. rewrite <- krun_ok. vm_compute. split; reflexivity.
  - exists 74%nat. do 2 eexists. split; [split; [apply (exec_b_ok _ _ (fun t => so_cpu (krun t)) (fun t => so_inp (krun t)) kcpu_ok know_ok); vm_compute; reflexivity|split; reflexivity]|].
    unfold int_taken. cbv zeta. rewrite !kcpu_ok. repeat split; vm_compute; reflexivity.
  - vm_compute. reflexivity.
  - intros u Hu. apply (asks_b_ok _ _ _ _ kcpu_ok). assert (F : forallb (fun u => negb (asks_b (fun t => so_cpu (krun t)) sends_at u)) (seq 61 9) = true) by (vm_compute; reflexivity).
    rewrite forallb_forall in F. apply negb_true_iff, F, in_seq. lia.
Qed.
(** The pins of the receiving boards carry the character from these cycles on, and are high before: [C94_csr_soc_receive], [C94_soc_receive] and the two theorems on silent lines apply. *)
Example C94_receive_applies : carries 4 (fun u => pi_rx (wire u)) 26 72 /\ (forall u, (u < 26)%nat -> pi_rx (wire u) = true) /\
  carries 4 (fun u => pi_rx (wire_back u)) 21 72 /\ (forall u, (u < 21)%nat -> pi_rx (wire_back u) = true).
Proof.
  assert (Lk : forall (f g : nat -> bool) n, forallb (fun j => Bool.eqb (f j) (g j)) (seq 0 n) = true -> forall j, (j < n)%nat -> f j = g j).
  { intros f g n H j Hj. rewrite forallb_forall in H. apply eqb_prop, H, in_seq. lia. }
  split; [|split; [|split]].
  - intros j Hj. apply (Lk (fun j => pi_rx (wire (26 + j))) (fun j => frame_bit 8 72 (Z.of_nat j / 4)) 40%nat); [vm_compute; reflexivity|lia].
  - apply (Lk (fun u => pi_rx (wire u)) (fun _ => true)). vm_compute. reflexivity.
  - intros j Hj. apply (Lk (fun j => pi_rx (wire_back (21 + j))) (fun j => frame_bit 8 72 (Z.of_nat j / 4)) 40%nat); [vm_compute; reflexivity|lia].
  - apply (Lk (fun u => pi_rx (wire_back u)) (fun _ => true)). vm_compute. reflexivity.
Qed.
(** The loads of these runs and of the test programs meet the hypotheses of [C94_soc_load] and [C94_csr_soc_load]; so do the timer and the serial flags ([C48_applies], [C60_loads_apply]).  They are also the
    instructions [C94_soc_asks] and [C94_csr_soc_asks] speak about. *)
Example C94_asks_applies : asks (so_cpu ksoc) (soc_inp 8 4 ksoc wire_back) sends_at 70 /\ read_begins (co_cpu lsoc) (csoc_inp 8 4 lsoc wire) 74 (reg_address TxRx) /\
  rx_rdy (sr_rx (so_serial (soc_run 8 4 ksoc wire_back 70))) = true /\ rx_rdy (sr_rx (so_serial (soc_run 8 4 ksoc wire_back 71))) = false.
Proof.
  unfold asks, read_begins. cbv zeta. rewrite !kcpu_ok, !lcpu_ok, <- !krun_ok. split; [repeat split; vm_compute; reflexivity|]. split; [|split; vm_compute; reflexivity].
  split; [vm_compute; reflexivity|]. split; [right; exists 73%nat; split; [reflexivity|rewrite lcpu_ok; vm_compute; reflexivity]|]. repeat split; vm_compute; reflexivity.
Qed.
(** The instructions between the arrival and the load: [C94_soc_program] and [C94_csr_soc_program] apply too. *)
Lemma executed_b s inp cpu now (Hc : forall t, run s inp t = cpu t) (Hi : forall t, inp t = now t) (P : nat -> nat -> bool) lo hi :
  forallb (fun t1' => negb (fetch_b cpu now t1') || forallb (fun t1 => negb (exec_b cpu now t1 t1' (dat_r (now t1))) || P t1 t1') (seq 0 t1')) (seq lo (hi - lo)) = true ->
  forall t1 t1' w x y, executed s inp t1 t1' w x y -> (lo <= t1' < hi)%nat -> w = dat_r (now t1) /\ x = cpu (S t1) /\ P t1 t1' = true.
Proof.
  intros H t1 t1' w x y ((F & L & (w' & F') & N) & -> & _) Hu.
  assert (D : forall v w0, fetch_done s inp v w0 -> fetch_b cpu now v = true).
  { intros v w0 Fv. apply (fetch_b_ok s inp cpu now Hc Hi). destruct Fv as (C & U & A & E). rewrite Hi in E. repeat split; [exact C|exact U|exact A|rewrite Hi; reflexivity]. }
  pose proof F as (_ & _ & _ & E). rewrite Hi in E.
  rewrite forallb_forall in H. specialize (H t1' ltac:(apply in_seq; lia)). rewrite (D _ _ F') in H. cbn [negb orb] in H. rewrite forallb_forall in H. specialize (H t1 ltac:(apply in_seq; lia)).
  assert (Xb : exec_b cpu now t1 t1' (dat_r (now t1)) = true).
  { unfold exec_b. rewrite (D _ _ F), (D _ _ F'), Z.eqb_refl, (proj2 (Nat.ltb_lt _ _) L). cbn [andb]. apply forallb_forall. intros v Hv. apply in_seq in Hv.
    destruct (fetch_b cpu now v) eqn:Q; [|reflexivity]. apply (fetch_b_ok s inp cpu now Hc Hi) in Q. exfalso. apply (N v _ ltac:(lia) Q). }
  rewrite Xb in H. cbn [negb orb] in H. split; [symmetry; exact E|]. split; [apply Hc|exact H].
Qed.
Definition no_load (w : Z) : bool := match decode w with Some (Load _ _ _ _ _) => false | _ => true end.
Example C94_csr_soc_program_applies : fetch_done (co_cpu lsoc) (csoc_inp 8 4 lsoc wire) 6 0x30000b7 /\
  forall t1 t1' w1 x1 y1, executed (co_cpu lsoc) (csoc_inp 8 4 lsoc wire) t1 t1' w1 x1 y1 -> (66 <= t1' <= 69)%nat -> csr_sends_at (4 * o_adr (run (co_cpu lsoc) (csoc_inp 8 4 lsoc wire) t1')) = false /\
     forall sz1 sg1 rd1 r1 off1, int_taken (co_cpu lsoc) (csoc_inp 8 4 lsoc wire) t1 w1 = false -> decode w1 = Some (Load sz1 sg1 rd1 r1 off1) -> csr_sends_at ((x_of x1 r1 + off1) mod 2 ^ 32) = false.
Proof.
  split; [unfold fetch_done; rewrite lcpu_ok, lnow_ok; repeat split; vm_compute; reflexivity|]. intros t1 t1' w1 x1 y1 X Hu.
  destruct (executed_b _ _ _ _ lcpu_ok lnow_ok (fun t1 t1' => negb (csr_sends_at (4 * o_adr (co_cpu (lrun t1')))) && no_load (dat_r (co_inp (lrun t1)))) 66 70 ltac:(vm_compute; reflexivity) t1 t1' w1 x1 y1 X ltac:(lia)) as (-> & -> & P).
  apply andb_prop in P. destruct P as [P1 P2]. rewrite lcpu_ok. split; [apply negb_true_iff; exact P1|]. intros sz1 sg1 rd1 r1 off1 _ D. unfold no_load in P2. rewrite D in P2. discriminate.
Qed.
Example C94_soc_program_applies : fetch_done (so_cpu ksoc) (soc_inp 8 4 ksoc wire_back) 6 0x800000b7 /\
  forall t1 t1' w1 x1 y1, executed (so_cpu ksoc) (soc_inp 8 4 ksoc wire_back) t1 t1' w1 x1 y1 -> (61 <= t1' <= 65)%nat -> sends_at (4 * o_adr (run (so_cpu ksoc) (soc_inp 8 4 ksoc wire_back) t1')) = false /\
     forall sz1 sg1 rd1 r1 off1, int_taken (so_cpu ksoc) (soc_inp 8 4 ksoc wire_back) t1 w1 = false -> decode w1 = Some (Load sz1 sg1 rd1 r1 off1) -> sends_at ((x_of x1 r1 + off1) mod 2 ^ 32) = false.
Proof.
  split; [unfold fetch_done; rewrite kcpu_ok, know_ok; repeat split; vm_compute; reflexivity|]. intros t1 t1' w1 x1 y1 X Hu.
  destruct (executed_b _ _ _ _ kcpu_ok know_ok (fun t1 t1' => negb (sends_at (4 * o_adr (so_cpu (krun t1')))) && no_load (dat_r (so_inp (krun t1)))) 61 66 ltac:(vm_compute; reflexivity) t1 t1' w1 x1 y1 X ltac:(lia)) as (-> & -> & P).
  apply andb_prop in P. destruct P as [P1 P2]. rewrite kcpu_ok. split; [apply negb_true_iff; exact P1|]. intros sz1 sg1 rd1 r1 off1 _ D. unfold no_load in P2. rewrite D in P2. discriminate.
Qed.
(** The load must not be earlier: the one in cycle 49 asks before the arrival in cycle 61, and gets something else. *)
Example C94_too_early : x_of (run (so_cpu ksoc) (soc_inp 8 4 ksoc wire_back) 59) 5 <> 72 /\ asks (so_cpu ksoc) (soc_inp 8 4 ksoc wire_back) sends_at 54.
Proof. unfold asks. rewrite !kcpu_ok. repeat split; vm_compute; [discriminate|reflexivity..]. Qed.
(** A receiver with bits of 104 cycles (115200 baud from 12 MHz) understands senders with bits of 99 to 109 cycles; with three cycles there is no room at all. *)
Example C94_tolerance_applies : (forall Ds, tolerates 104 Ds <-> 99 <= Ds <= 109) /\ (forall Ds, tolerates 3 Ds <-> Ds = 3).
Proof. split; intros Ds; unfold tolerates; [change (104 / 2) with 52|change (3 / 2) with 1]; lia. Qed.

(** * The run of FirmwareEchoEx.v on the CSR peripherals *)
From Coq Require Import ZArith NArith Lia Bool List.
From Verif Require Import Bits Uart Periph SocIo CsrBus Firmware FirmwareSys Automaton FirmwareEcho FirmwareEchoLoop.
Import ListNotations.
Open Scope Z_scope.

Definition csr_one (en : env) (x : drv * csrp) : drv * csrp := csr_step 1 ex_byte x en.
Notation csr_loop P k := (loop (drv0, csrp_init) csr_one (csr_counts ex_byte) P k).
Lemma csr_loop_ok P k : let sys := csr_sys 1 ex_byte ex_e in csr_loop P k = ((k, Z.of_nat (hits (fun t => csr_counts ex_byte (sys t)) (N.to_nat P) (N.to_nat k))), sys (N.to_nat k)).
Proof. intros sys. apply (loop_ok _ _ _ sys); [reflexivity|intros t; reflexivity]. Qed.
(** Nothing to do, timer at [z]. *)
Definition csr_idle (d z : Z) : drv * csrp :=
  let m := {| mx_r := 0; mx_w := None; mx_wd := 0 |} in
  ({| d_pc := Main; d_busy := false; d_queue := []; d_n := 64; d_sets := [] |},
   {| cp_cycle := 0; cp_dat := d; cp_ack := false; cp_leds := {| cl_mux := m; cl_leds := 0; cl_o := 0; cl_oe := 0 |};
      cp_timer := {| ct_mux := m; ct_cnt := z |};
      cp_serial := {| cs_mux := m; cs_tx := tx_init 8; cs_rx := rx_init 8; cs_rxi := false; cs_rxp := false; cs_txi := false; cs_txp := true |} |}).
Lemma csr_start : snd (fst (csr_loop 401 3000)) = 0 /\ snd (csr_loop 401 3000) = csr_idle 2 3000.
Proof. split; vm_compute; reflexivity. Qed.
Lemma csr_handler : N.iter 30 (count_step csr_one (csr_counts ex_byte)) (0, csr_idle 2 16384) = (1, csr_idle 0 30) /\ N.iter 30 (count_step csr_one (csr_counts ex_byte)) (0, csr_idle 0 16384) = (1, csr_idle 0 30).
Proof. split; vm_compute; reflexivity. Qed.
Lemma csr_at_P : let d := fst (snd (csr_loop 401 401)) in d_pc d = Main /\ length (d_queue d) = 63%nat /\ d_busy d = true /\ d_n d = 64%nat.
Proof. vm_compute. auto. Qed.
Lemma csr_idles d : idles csr_one (csr_counts ex_byte) (csr_idle d).
Proof.
  intros z Hz. split; [|reflexivity].
  assert (I : bitb z 14 = false). { unfold bitb, bits. change (2 ^ 14) with 16384. rewrite (Z.div_small z) by lia. reflexivity. }
  assert (T : ctimer_step {| ct_mux := {| mx_r := 0; mx_w := None; mx_wd := 0 |}; ct_cnt := z |} (window TIMER_AT 3 (cp_bus (snd (csr_idle d z)) (csr_bus None))) = {| ct_mux := {| mx_r := 0; mx_w := None; mx_wd := 0 |}; ct_cnt := z + 1 |}).
  { unfold ctimer_step, csr_timer_step. rewrite (Z.mod_small (z + 1)) by lia. unfold ct_irq. cbn [ct_cnt]. rewrite I. reflexivity. }
  transitivity (dstep ex_byte (fst (csr_idle d z)) (e_move (ex_env 400)) (bitb z 14) false d, csrp_step 1 (snd (csr_idle d z)) (csr_bus None) 0 true); [reflexivity|].
  rewrite I. transitivity (fst (csr_idle d (z + 1)), snd (csr_idle d (z + 1))); [|reflexivity]. apply f_equal2; [reflexivity|].
  change (csrp_step 1 (snd (csr_idle d z)) (csr_bus None) 0 true) with
    {| cp_cycle := 0; cp_dat := d; cp_ack := false; cp_leds := cp_leds (snd (csr_idle d z));
       cp_timer := ctimer_step {| ct_mux := {| mx_r := 0; mx_w := None; mx_wd := 0 |}; ct_cnt := z |} (window TIMER_AT 3 (cp_bus (snd (csr_idle d z)) (csr_bus None)));
       cp_serial := cp_serial (snd (csr_idle d z)) |}.
  rewrite T. reflexivity.
Qed.
Lemma csr_pause (A B : N) z : let sys := csr_sys 1 ex_byte ex_e in let dr t := fst (sys t) in let d := fst (snd (csr_loop 401 A)) in
  d_pc d = Main /\ length (d_queue d) = 63%nat /\ d_busy d = true /\ d_n d = 64%nat -> A = 401%N ->
  snd (fst (csr_loop A B)) = 144 -> snd (csr_loop A B) = csr_idle 0 z -> (A <= B)%N ->
  pause_between dr (fun t => csr_counts ex_byte (sys t)) (N.to_nat A) (N.to_nat B) /\ length (d_queue (dr (N.to_nat A))) = 63%nat /\ d_busy (dr (N.to_nat A)) = true.
Proof.
  intros sys dr d W _ C Q L. unfold d in W. clear d. rewrite csr_loop_ok in W, C, Q. fold sys in W, C, Q. cbn [fst snd] in W, C, Q. change (fst (sys (N.to_nat A))) with (dr (N.to_nat A)) in W. destruct W as (W1 & W2 & W3 & W4).
  split; [|split; assumption]. assert (D : dr (N.to_nat B) = fst (csr_idle 0 z)) by (unfold dr; rewrite Q; reflexivity).
  split; [lia|]. split; [exact W1|]. rewrite D, W4. split; [reflexivity|]. split; [reflexivity|]. unfold COUNT. rewrite C. discriminate.
Qed.
(** In cycle 401 the queue is full; in cycle 2 375 740 a pause is over. *)
Example C67_csr_applies : e_move (ex_e 0) = Wait /\ (forall t, 0 <= e_pins (ex_e t) < 256) /\ exists P Q,
  let dr t := fst (csr_sys 1 ex_byte ex_e t) in
  pause_between dr (fun t => csr_counts ex_byte (csr_sys 1 ex_byte ex_e t)) P Q /\ length (d_queue (dr P)) = 63%nat /\ d_busy (dr P) = true.
Proof.
  split; [reflexivity|]. split; [intros t; cbn; lia|]. destruct csr_start as (S1 & S2). destruct csr_handler as (S3 & S4).
  destruct (long_run (drv0, csrp_init) csr_one (csr_counts ex_byte) (csr_sys 1 ex_byte ex_e) eq_refl (fun t => eq_refl) 401 (csr_idle 2) (csr_idle 0) 30 (csr_idles 2) (csr_idles 0) S1 S2 S3 S4) as [C Q]; [discriminate|discriminate|].
  eexists _, _. refine (csr_pause 401 (pause_end 30) _ csr_at_P eq_refl C Q _). discriminate.
Qed.

(** * Concrete runs for C67: the program fills the queue at once and then waits for 144 timer interrupts *)
From Coq Require Import ZArith NArith Lia Bool List.
From Verif Require Import Bits Uart Periph SocIo CsrBus Firmware FirmwareSys Automaton FirmwareEcho FirmwareEchoLoop.
Import ListNotations.
Open Scope Z_scope.

Definition wb_one (en : env) (x : (drv * serial) * timer) : (drv * serial) * timer :=
  let p := pc_op ex_byte (fst (fst x)) in (wb_step 1 ex_byte (fst x) (with_timer p (snd x) en), timer_step (snd x) (timer_bus p)).
Notation wb_loop P k := (loop ((drv0, serial_init), timer_init) wb_one (wb_counts ex_byte) P k).
Lemma wb_loop_ok P k : let sys := wbt_sys 1 ex_byte ex_e in wb_loop P k = ((k, Z.of_nat (hits (fun t => wb_counts ex_byte (sys t)) (N.to_nat P) (N.to_nat k))), sys (N.to_nat k)).
Proof. intros sys. apply (loop_ok _ _ _ sys); [reflexivity|intros t; reflexivity]. Qed.
(** Nothing to do, timer at [z]. *)
Definition wb_idle (d z : Z) : (drv * serial) * timer :=
  (({| d_pc := Main; d_busy := false; d_queue := []; d_n := 64; d_sets := [] |},
    {| sr_tx := tx_init 8; sr_rx := rx_init 8; sr_rxi := false; sr_rxp := false; sr_txi := false; sr_txp := true; sr_dat := d; sr_ack := false |}),
   {| tm_cnt := z; tm_dat := 0; tm_ack := false |}).
Lemma wb_idles d : idles wb_one (wb_counts ex_byte) (wb_idle d).
Proof.
  intros z Hz. split; [|reflexivity].
  assert (I : bitb z 14 = false). { unfold bitb, bits. change (2 ^ 14) with 16384. rewrite (Z.div_small z) by lia. reflexivity. }
  unfold wb_one, wb_idle, wb_step, with_timer, timer_step, tm_irq. cbn [fst snd pc_op d_pc timer_bus wb_bus on_serial e_timer e_move e_ack e_rx tm_cnt tm_dat tm_ack]. rewrite I.
  rewrite (Z.mod_small (z + 1)) by lia. reflexivity.
Qed.
Lemma wb_start : snd (fst (wb_loop 400 3000)) = 0 /\ snd (wb_loop 400 3000) = wb_idle 2 3000 /\
  N.iter 20 (count_step wb_one (wb_counts ex_byte)) (0, wb_idle 2 16384) = (1, wb_idle 0 20) /\ N.iter 20 (count_step wb_one (wb_counts ex_byte)) (0, wb_idle 0 16384) = (1, wb_idle 0 20).
Proof. repeat split; vm_compute; reflexivity. Qed.
Lemma wb_at_P : let d := fst (fst (snd (wb_loop 400 400))) in d_pc d = Main /\ length (d_queue d) = 63%nat /\ d_busy d = true /\ d_n d = 64%nat.
Proof. vm_compute. auto. Qed.
Lemma wb_pause (A B : N) z : let sys := wbt_sys 1 ex_byte ex_e in let dr t := fst (fst (sys t)) in let d := fst (fst (snd (wb_loop 400 A))) in
  d_pc d = Main /\ length (d_queue d) = 63%nat /\ d_busy d = true /\ d_n d = 64%nat -> A = 400%N ->
  snd (fst (wb_loop A B)) = 144 -> snd (wb_loop A B) = wb_idle 0 z -> (A <= B)%N ->
  pause_between dr (fun t => wb_counts ex_byte (sys t)) (N.to_nat A) (N.to_nat B) /\ length (d_queue (dr (N.to_nat A))) = 63%nat /\ d_busy (dr (N.to_nat A)) = true.
Proof.
  intros sys dr d W _ C Q L. unfold d in W. clear d. rewrite wb_loop_ok in W, C, Q. fold sys in W, C, Q. cbn [fst snd] in W, C, Q. change (fst (fst (sys (N.to_nat A)))) with (dr (N.to_nat A)) in W. destruct W as (W1 & W2 & W3 & W4).
  split; [|split; assumption]. assert (D : dr (N.to_nat B) = fst (fst (wb_idle 0 z))) by (unfold dr; rewrite Q; reflexivity).
  split; [lia|]. split; [exact W1|]. rewrite D, W4. split; [reflexivity|]. split; [reflexivity|]. unfold COUNT. rewrite C. discriminate.
Qed.
(** In cycle 400 the queue is full; in cycle 2 375 720 a pause is over. *)
Example C67_wishbone_applies : e_move (ex_e 0) = Wait /\ exists P Q,
  let dr t := fst (fst (wbt_sys 1 ex_byte ex_e t)) in
  pause_between dr (fun t => wb_counts ex_byte (wbt_sys 1 ex_byte ex_e t)) P Q /\ length (d_queue (dr P)) = 63%nat /\ d_busy (dr P) = true.
Proof.
  split; [reflexivity|]. destruct wb_start as (S1 & S2 & S3 & S4).
  destruct (long_run ((drv0, serial_init), timer_init) wb_one (wb_counts ex_byte) (wbt_sys 1 ex_byte ex_e) eq_refl (fun t => eq_refl) 400 (wb_idle 2) (wb_idle 0) 20 (wb_idles 2) (wb_idles 0) S1 S2 S3 S4) as [C Q]; [discriminate|discriminate|].
  eexists _, _. refine (wb_pause 400 (pause_end 20) _ wb_at_P eq_refl C Q _). discriminate.
Qed.
(** ... and if the program went on in a critical section in cycle 350, it would hang. *)
Example C67_full_queue_applies : let dr t := fst (fst (wbt_sys 1 ex_byte (fun t => ex_env (N.min (N.of_nat t) 300)) t)) in
  d_pc (dr 350%nat) = Main /\ d_busy (dr 350%nat) = true /\ length (d_queue (dr 350%nat)) = 63%nat /\ forall u, (350 <= u)%nat -> e_move (ex_env (N.min (N.of_nat u) 300)) = Go.
Proof.
  intros dr. split; [vm_compute; reflexivity|]. split; [vm_compute; reflexivity|]. split; [vm_compute; reflexivity|].
  intros u Hu. rewrite N.min_r by lia. reflexivity.
Qed.

(** * Fast evaluation of the systems of C67 *)
From Coq Require Import ZArith NArith Lia Bool List.
From Verif Require Import Bits Uart Periph SocIo CsrBus Firmware FirmwareSys Automaton FirmwareEcho.
Import ListNotations.
Open Scope Z_scope.

(** Example environment, not part of the model: main thread runs for 400 cycles, then every interrupt is taken. *)
Definition ex_env (n : N) : env := {| e_move := if (n =? 0)%N then Wait else if (n <? 400)%N then Go else Interrupt; e_rx := true; e_timer := false; e_ack := true; e_pins := 0 |}.
(** Example byte stream and environment in every cycle. *)
Definition ex_byte (i : nat) : Z := 65.
Definition ex_e (t : nat) : env := ex_env (N.of_nat t).
Section Loop.
Context {X : Type} (x0 : X) (f : env -> X -> X) (c : X -> bool) (sys : nat -> X).
Hypothesis (S0 : sys 0%nat = x0) (Sn : forall t, sys (S t) = f (ex_e t) (sys t)).
(** Proof device: evaluate the system and count interrupts with a binary cycle counter. *)
Definition loop_step (P : N) (p : (N * Z) * X) : (N * Z) * X := let '((n, k), x) := p in ((N.succ n, if (P <=? n)%N && c x then k + 1 else k), f (ex_env n) x).
Definition loop (P k : N) : (N * Z) * X := N.iter k (loop_step P) ((0%N, 0), x0).
Lemma loop_ok P k : loop P k = ((k, Z.of_nat (hits (fun t => c (sys t)) (N.to_nat P) (N.to_nat k))), sys (N.to_nat k)).
Proof.
  induction k as [|k IH] using N.peano_ind.
  - unfold loop. cbn [N.iter N.to_nat]. rewrite S0. unfold hits. rewrite Nat.sub_0_l. reflexivity.
  - unfold loop. rewrite N.iter_succ. fold (loop P k). rewrite IH. unfold loop_step. rewrite N2Nat.inj_succ, Sn. unfold ex_e. rewrite N2Nat.id. f_equal. f_equal.
    destruct (N.leb_spec P k) as [L|L].
    + rewrite hits_S by lia. cbn [andb]. destruct (c (sys (N.to_nat k))); lia.
    + cbn [andb]. rewrite !hits_none by lia. reflexivity.
Qed.
(** Proof device: after cycle 400 the environment does not change any more. *)
Definition count_step (p : Z * X) : Z * X := (if c (snd p) then fst p + 1 else fst p, f (ex_env 400) (snd p)).
Lemma loop_more P a b : (P <= a)%N -> (400 <= a)%N -> snd (loop P (a + b)) = snd (N.iter b count_step (snd (fst (loop P a)), snd (loop P a))) /\
  snd (fst (loop P (a + b))) = fst (N.iter b count_step (snd (fst (loop P a)), snd (loop P a))).
Proof.
  intros HP Ha. assert (F : forall n, fst (fst (loop P n)) = n) by (intros n; rewrite loop_ok; reflexivity). induction b as [|b [IH1 IH2]] using N.peano_ind.
  - rewrite N.add_0_r. split; reflexivity.
  - rewrite N.add_succ_r. assert (Q : loop P (N.succ (a + b)) = loop_step P (loop P (a + b))) by (unfold loop; apply N.iter_succ). rewrite Q, N.iter_succ. set (q := N.iter b count_step (snd (fst (loop P a)), snd (loop P a))) in *.
    pose proof (F (a + b)%N) as G. destruct (loop P (a + b)) as [[n k] x]. cbn [fst snd] in *. subst n. unfold loop_step. unfold count_step at 1 2. rewrite <- IH1, <- IH2. cbn [fst snd].
    assert (E : ex_env (a + b) = ex_env 400). { unfold ex_env. destruct (N.eqb_spec (a + b) 0); [lia|]. destruct (N.ltb_spec (a + b) 400); [lia|]. reflexivity. }
    destruct (N.leb_spec P (a + b)); [|lia]. rewrite E. split; reflexivity.
Qed.
Lemma count_shift b k x : N.iter b count_step (k, x) = (k + fst (N.iter b count_step (0, x)), snd (N.iter b count_step (0, x))).
Proof.
  induction b as [|b IH] using N.peano_ind; [cbn; f_equal; lia|]. rewrite !N.iter_succ, IH. unfold count_step. cbn [fst snd]. destruct (c _); f_equal; lia.
Qed.
(** [I z]: idle, timer at [z]; an interrupt after 2^14 cycles, handled in [h] cycles. *)
Definition idles (I : Z -> X) : Prop := forall z, 0 <= z < 16384 -> f (ex_env 400) (I z) = I (z + 1) /\ c (I z) = false.
Lemma idle_n I b k z : idles I -> 0 <= z -> z + Z.of_N b <= 16384 -> N.iter b count_step (k, I z) = (k, I (z + Z.of_N b)).
Proof.
  intros H. revert k z. induction b as [|b IH] using N.peano_ind; intros k z Hz Hb; [cbn; f_equal; f_equal; lia|].
  rewrite N.iter_succ, IH by lia. unfold count_step. cbn [fst snd]. destruct (H (z + Z.of_N b) ltac:(lia)) as [-> ->]. f_equal. f_equal. lia.
Qed.
Lemma periods I h m k : idles I -> N.iter h count_step (0, I 16384) = (1, I (Z.of_N h)) -> (h <= 16384)%N ->
  N.iter (m * 16384) count_step (k, I 16384) = (k + Z.of_N m, I 16384).
Proof.
  intros H Hh L. induction m as [|m IH] using N.peano_ind; [cbn; f_equal; lia|].
  replace (N.succ m * 16384)%N with ((16384 - h) + (h + m * 16384))%N by lia. rewrite !N.iter_add, IH. rewrite count_shift, Hh. cbn [fst snd].
  rewrite (idle_n I) by (try assumption; lia). f_equal; [lia|]. f_equal. lia.
Qed.
(** 144 timer interrupts after cycle [P]. *)
Definition pause_end (h : N) : N := (3000 + (13384 + (h + ((16384 - h) + (142 * 16384 + h)))))%N.
Lemma long_run P J I h : idles J -> idles I -> snd (fst (loop P 3000)) = 0 -> snd (loop P 3000) = J 3000 ->
  N.iter h count_step (0, J 16384) = (1, I (Z.of_N h)) -> N.iter h count_step (0, I 16384) = (1, I (Z.of_N h)) -> (h <= 16384)%N -> (P <= 3000)%N ->
  snd (fst (loop P (pause_end h))) = 144 /\ snd (loop P (pause_end h)) = I (Z.of_N h).
Proof.
  intros HJ HI L0 L1 Hh Hi Lh LP. destruct (loop_more P 3000 (13384 + (h + ((16384 - h) + (142 * 16384 + h)))) LP ltac:(discriminate)) as [R1 R2]. fold (pause_end h) in R1, R2. rewrite R1, R2, L0, L1. clear R1 R2 L0 L1.
  replace (13384 + (h + (16384 - h + (142 * 16384 + h))))%N with (h + (142 * 16384 + ((16384 - h) + (h + 13384))))%N by lia.
  rewrite N.iter_add, (N.iter_add (142 * 16384)), (N.iter_add (16384 - h)), (N.iter_add h 13384). rewrite (idle_n J) by (try assumption; lia).
  replace (3000 + Z.of_N 13384) with 16384 by lia. rewrite Hh. rewrite (idle_n I) by (try assumption; lia). replace (Z.of_N h + Z.of_N (16384 - h)) with 16384 by lia.
  rewrite (periods I h 142) by assumption. rewrite count_shift, Hi. cbn [fst snd]. split; [reflexivity|reflexivity].
Qed.
End Loop.

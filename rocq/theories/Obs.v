(** * What an observer of the bus sees, and its relation to the reference machine *)
From Coq Require Import ZArith Lia Bool List.
From Verif Require Import Bits Ucode Cpu Isa Timed BitLemmas Wf Sym Blocks CsrBlocks DecodeOk Boundary Sim Main.
Import ListNotations.
Open Scope Z_scope.

(** The acknowledged transfers before cycle [t], oldest first, read off the bus
    signals: cycle number and read data. *)
Fixpoint bus_log (s : state) (inp : nat -> input) (t : nat) : list (nat * Z) :=
  match t with
  | O => []
  | S n => bus_log s inp n ++ (if o_cyc (run s inp n) && ack (inp n) then [(n, dat_r (inp n))] else [])
  end.

(** The reference machine after those transfers, started in the boot state. *)
Definition machine (s : state) (inp : nat -> input) (t : nat) : mach :=
  isa_run SENTINEL (fun n => irq (inp n)) (Fetching (boot_arch s)) (bus_log s inp t).

(** Hypotheses on a run: it starts right after reset, reset stays released, DAT_R is a
    32-bit value, and the slave does not acknowledge in the first cycle of a request. *)
Record bus_ok (s : state) (inp : nat -> input) : Prop := {
  ok_fresh : fresh s; ok_env : env inp; ok_ack : registered_ack inp s }.
(** Weaker: ACK is only forbidden in the cycles the timed reference machine marks. *)
Record ok (s : state) (inp : nat -> input) : Prop := {
  ok'_fresh : fresh s; ok'_env : env inp; ok'_polite : polite inp (boot_arch s) }.
Lemma bus_ok_ok s inp : bus_ok s inp -> ok s inp.
Proof. intros [F E G]. constructor; try assumption. apply registered_polite_sim; assumption. Qed.

(** The timed machine of this run. *)
Definition timed (s : state) (inp : nat -> input) (t : nat) : tstate := trun inp (boot_ts (boot_arch s)) t.

Section O.
Variables (s : state) (inp : nat -> input).
Hypothesis K : ok s inp.

Lemma ok_sim t : sim inp (S t) (timed s inp (S t)) (run s inp (S t)).
Proof. destruct K. apply sim_run; assumption. Qed.

Lemma cyc0 : o_cyc s = false /\ o_stb s = false.
Proof. destruct K as [F _ _]. destruct (stale s false 0 false F) as (? & ? & _). auto. Qed.

Lemma timed_cyc t : o_cyc (run s inp t) = t_cyc (timed s inp t).
Proof.
  destruct t as [|t]. { cbn. apply cyc0. }
  pose proof (sim_out _ _ _ _ (ok_sim t)) as O. unfold t_cyc. destruct (t_idle _).
  - apply O. - apply O.
Qed.

Lemma timed_machine t : t_m (timed s inp t) = machine s inp t.
Proof.
  induction t as [|t IH]; [reflexivity|].
  unfold machine, isa_run. cbn [bus_log]. rewrite fold_left_app. change (fold_left (complete SENTINEL (fun n => irq (inp n))) (bus_log s inp t) (Fetching (boot_arch s))) with (machine s inp t).
  rewrite timed_cyc, <- IH. unfold timed. cbn [trun]. fold (timed s inp t). unfold tnext, t_cyc.
  pose proof (ok'_polite _ _ K t) as P. fold (timed s inp t) in P.
  destruct (timed s inp t) as [m n e]; cbn [t_m t_idle t_early] in *.
  destruct n; [|reflexivity]. destruct e.
  - rewrite P by reflexivity. reflexivity.
  - destruct (ack (inp t)); reflexivity.
Qed.

Lemma bus_shows t : o_cyc (run s inp t) = true -> shows (request (machine s inp t)) (run s inp t).
Proof.
  intros C. destruct t as [|t]. { cbn in C. destruct cyc0; congruence. }
  pose proof (sim_out _ _ _ _ (ok_sim t)) as O. rewrite timed_cyc in C. unfold t_cyc in C.
  rewrite <- timed_machine. destruct (t_idle _); [exact O|discriminate].
Qed.
Lemma bus_quiet t : o_cyc (run s inp (S t)) = false -> quiet (run s inp (S t)).
Proof.
  intros C. pose proof (sim_out _ _ _ _ (ok_sim t)) as O. rewrite timed_cyc in C. unfold t_cyc in C.
  destruct (t_idle _); [discriminate|exact O].
Qed.

Lemma machine_ack t : o_cyc (run s inp t) = true -> ack (inp t) = true ->
  machine s inp (S t) = complete SENTINEL (irqs inp) (machine s inp t) (t, dat_r (inp t)).
Proof.
  intros C A. unfold machine, isa_run. cbn [bus_log]. rewrite C, A, fold_left_app. reflexivity.
Qed.
Lemma machine_noack t : o_cyc (run s inp t) && ack (inp t) = false -> machine s inp (S t) = machine s inp t.
Proof. intros C. unfold machine. cbn [bus_log]. rewrite C, app_nil_r. reflexivity. Qed.

Lemma timed_ack t : o_cyc (run s inp t) = true -> ack (inp t) = true ->
  timed s inp (S t) = {| t_m := machine s inp (S t); t_idle := fst (delay_after (irqs inp) (machine s inp t) (t, dat_r (inp t)));
                         t_early := snd (delay_after (irqs inp) (machine s inp t) (t, dat_r (inp t))) |}.
Proof.
  intros C A. rewrite machine_ack by assumption. rewrite <- timed_machine. rewrite timed_cyc in C.
  pose proof (ok'_polite _ _ K t) as P. fold (timed s inp t) in P.
  change (timed s inp (S t)) with (tnext SENTINEL (irqs inp) t (timed s inp t) (ack (inp t)) (dat_r (inp t))).
  unfold tnext, t_cyc in *. rewrite A in *. destruct (t_idle _); [|discriminate].
  destruct (t_early _); [discriminate (P eq_refl eq_refl)|]. reflexivity.
Qed.

(** Exactly [n] idle cycles after an acknowledged one, then the next request. *)
Lemma idle_count t n : t_idle (timed s inp t) = n ->
  forall j, (j <= n)%nat -> t_idle (timed s inp (t + j)) = (n - j)%nat.
Proof.
  intros H j. induction j as [|j IH]; intros Hj.
  - rewrite Nat.add_0_r. lia.
  - rewrite Nat.add_succ_r. change (timed s inp (S (t + j))) with
      (tnext SENTINEL (irqs inp) (t + j) (timed s inp (t + j)) (ack (inp (t + j)%nat)) (dat_r (inp (t + j)%nat))).
    unfold tnext. rewrite IH by lia. destruct (n - j)%nat eqn:E; [lia|]. cbn [t_idle]. lia.
Qed.

Lemma next_request t : o_cyc (run s inp t) = true -> ack (inp t) = true ->
  let n := fst (delay_after (irqs inp) (machine s inp t) (t, dat_r (inp t))) in
  (forall j, (j < n)%nat -> o_cyc (run s inp (t + 1 + j)) = false) /\ o_cyc (run s inp (t + 1 + n)) = true.
Proof.
  intros C A n. pose proof (timed_ack t C A) as T.
  assert (H : t_idle (timed s inp (S t)) = n) by (rewrite T; reflexivity).
  pose proof (idle_count (S t) n H) as I. replace (t + 1)%nat with (S t) by lia.
  split; [intros j Hj|]; rewrite timed_cyc; unfold t_cyc; rewrite I by lia.
  - destruct (n - j)%nat eqn:E; [lia|reflexivity].
  - rewrite Nat.sub_diag. reflexivity.
Qed.

(** Architectural registers in the cycle after an acknowledged fetch. *)
Lemma fetch_boundary t a : o_cyc (run s inp t) = true -> ack (inp t) = true -> machine s inp t = Fetching a ->
  boundary a (dat_r (inp t)) (run s inp (S t)).
Proof.
  intros C A M. destruct t as [|t]. { cbn in C. destruct cyc0; congruence. }
  destruct (ok_sim t) as [W H]. pose proof (timed_cyc (S t)) as TC. rewrite C in TC. unfold t_cyc in TC.
  pose proof (ok'_polite _ _ K (S t)) as P. fold (timed s inp (S t)) in P.
  pose proof (timed_machine (S t)) as TM. rewrite M in TM. rewrite TM in H.
  destruct (t_idle _) eqn:I; [|discriminate]. destruct (t_early _) eqn:E; [rewrite P in A by reflexivity; discriminate|].
  inversion H as [t' s' Q|]; subst. cbn [ready] in Q. inversion Q; subst.
  change (run s inp (S (S t))) with (step (run s inp (S t)) (inp (S t))). rewrite step_nst by apply K. rewrite A.
  apply fetch_ack; [assumption|assumption|apply K].
Qed.
End O.

(** * C07: slaves that acknowledge in the first cycle of a request

    The full statement is false of the code ([C07_refuted_combinational_slave]); it is true when
    instruction fetches get at least one wait state, whatever data accesses get
    ([C07_data_without_wait_partial]). *)
From Coq Require Import ZArith Lia Bool List.
From Verif Require Import Bits Ucode Cpu Isa Timed BitLemmas Wf Sym Blocks CsrBlocks DecodeOk Boundary Sim Main Obs PropsBus PropsInv Observe PropsIsa Memory.
Import ListNotations.
Open Scope Z_scope.

(** ** Specification *)

(** Instruction fetches ([shows], Sim.v: the bus carries the request) are never
    acknowledged in their first cycle; nothing is asked of loads and stores. *)
Definition fetches_wait (s : state) (inp : nat -> input) : Prop :=
  forall t a, o_cyc (run s inp t) = true -> ack (inp t) = true -> machine s inp t = Fetching a ->
  shows (request (Fetching a)) (run s inp t) ->
  exists t', t = S t' /\ o_cyc (run s inp t') = true.

(** A combinational slave: ACK is CYC in the same cycle, and reads return the word of a
    read-only memory. *)
Definition combinational_rom (m : Z -> Z) (s : state) (inp : nat -> input) : Prop :=
  forall t, rst (inp t) = false /\ irq (inp t) = false /\ ack (inp t) = o_cyc (run s inp t) /\
            dat_r (inp t) = if o_cyc (run s inp t) then m (o_adr (run s inp t)) else 0.

(** ** Proofs *)
Lemma fetches_wait_ok : forall s inp, fresh s -> env inp -> fetches_wait s inp -> ok s inp.
Proof.
  intros s inp F E G. constructor; [assumption|assumption|].
  assert (C0 : o_cyc s = false) by (destruct (stale s false 0 false F) as (? & _); assumption).
  assert (P : forall t, (sim inp (S t) (timed s inp (S t)) (run s inp (S t)) /\
               (t = O \/ sim inp t (timed s inp t) (run s inp t))) /\
              (t_idle (timed s inp t) = O -> t_early (timed s inp t) = true -> ack (inp t) = false) /\
              machine s inp t = t_m (timed s inp t) /\ machine s inp (S t) = t_m (timed s inp (S t))).
  { assert (MS : forall t, o_cyc (run s inp t) = t_cyc (timed s inp t) ->
        (t_idle (timed s inp t) = O -> t_early (timed s inp t) = true -> ack (inp t) = false) ->
        machine s inp t = t_m (timed s inp t) -> machine s inp (S t) = t_m (timed s inp (S t))).
    { intros t C Po M. unfold machine, isa_run. cbn [bus_log]. rewrite fold_left_app.
      change (fold_left (complete SENTINEL (fun n => irq (inp n))) (bus_log s inp t) (Fetching (boot_arch s))) with (machine s inp t).
      rewrite C, M. unfold timed. cbn [trun]. fold (timed s inp t). unfold tnext, t_cyc.
      destruct (timed s inp t) as [m n e]; cbn [t_m t_idle t_early] in *.
      destruct n; [|reflexivity]. destruct e.
      - rewrite Po by reflexivity. reflexivity.
      - destruct (ack (inp t)); reflexivity. }
    induction t as [|t [[IH IH0] [Q0 [M0 M1]]]].
    - assert (Q : t_idle (timed s inp 0) = O -> t_early (timed s inp 0) = true -> ack (inp 0%nat) = false) by discriminate.
      split; [split; [apply sim_start; assumption|left; reflexivity]|]. split; [exact Q|]. split; [reflexivity|].
      apply MS; [exact C0|exact Q|reflexivity].
    - assert (Q : t_idle (timed s inp (S t)) = O -> t_early (timed s inp (S t)) = true -> ack (inp (S t)) = false).
      { intros Hi He. destruct (ack (inp (S t))) eqn:K; [exfalso|reflexivity].
        pose proof (sim_out _ _ _ _ IH) as O1. rewrite Hi in O1.
        assert (FE : exists a, machine s inp (S t) = Fetching a).
        { rewrite M1. destruct IH as [_ H]. rewrite Hi, He in H. inversion H as [t' s' R|]; subst. cbn [ready] in R.
          destruct R as (a & R & _). eauto. }
        destruct FE as [a FE].
        rewrite <- M1, FE in O1.
        destruct (G (S t) a (sh_cyc _ _ O1) K FE O1) as (t' & Et & C). injection Et as <-.
        pose proof (early_first inp (boot_ts (boot_arch s)) t Hi He) as H1.
        destruct IH0 as [->|IH0]; [discriminate H1|].
        pose proof (sim_out _ _ _ _ IH0) as O2. unfold timed in O2. rewrite H1 in O2. pose proof (qu_cyc _ O2). congruence. }
      split; [split; [|right; exact IH]|]. 
      + change (timed s inp (S (S t))) with
          (tnext SENTINEL (irqs inp) (S t) (timed s inp (S t)) (ack (inp (S t))) (dat_r (inp (S t)))).
        change (run s inp (S (S t))) with (step (run s inp (S t)) (inp (S t))).
        apply sim_step; [apply E|assumption|apply E|exact Q].
      + split; [exact Q|]. split; [exact M1|]. apply MS; [|exact Q|exact M1].
        pose proof (sim_out _ _ _ _ IH) as O. unfold t_cyc. destruct (t_idle (timed s inp (S t))); apply O. }
  intros t. apply P.
Qed.

(** With wait states on instruction fetches only, execution is architectural, requests are
    held until acknowledged and CYC drops for a cycle after every ACK. *)
Theorem C07_data_without_wait_partial : forall s inp, fresh s -> env inp -> fetches_wait s inp ->
  (forall t, o_cyc (run s inp t) = true -> shows (request (machine s inp t)) (run s inp t)) /\
  (forall t, o_cyc (run s inp t) = true -> ack (inp t) = true ->
     o_cyc (run s inp (S t)) = false /\ o_stb (run s inp (S t)) = false).
Proof.
  intros s inp F E G. pose proof (fetches_wait_ok s inp F E G) as K. split.
  - apply C01_requests_are_architectural_weak_ack. assumption.
  - apply C06_drop_after_ack. assumption.
Qed.

(** ** The counterexample: a program in a combinational ROM *)
Fixpoint comb_run (m : Z -> Z) (s : state) (t : nat) : state :=
  match t with
  | O => s
  | S n => let x := comb_run m s n in
      step x {| rst := false; ack := o_cyc x; dat_r := if o_cyc x then m (o_adr x) else 0; irq := false |}
  end.
Definition comb_inp (m : Z -> Z) (s : state) (t : nat) : input :=
  let x := comb_run m s t in {| rst := false; ack := o_cyc x; dat_r := if o_cyc x then m (o_adr x) else 0; irq := false |}.
Lemma comb_run_run m s t : run s (comb_inp m s) t = comb_run m s t.
Proof. induction t as [|t IH]; [reflexivity|]. cbn [run comb_run]. rewrite IH. reflexivity. Qed.
Lemma comb_rom m s : combinational_rom m s (comb_inp m s).
Proof. intros t. rewrite comb_run_run. repeat split. Qed.

(** addi x1, x0, 1; addi x2, x0, 2; sw x1, 256(x0); j . *)
Definition hazard_prog (a : Z) : Z := nth (Z.to_nat a) [0x00100093; 0x00200113; 0x10102023; 0x0000006f] 0.

(** From power-on with that program in a combinational ROM: the core keeps CYC high after
    an ACK, and it stores 0 to address 256 although a RISC-V machine running the same
    program stores 1 there. *)
Theorem C07_refuted_combinational_slave : exists inp,
  combinational_rom hazard_prog por inp /\ env inp /\
  (exists t, o_cyc (run por inp t) = true /\ ack (inp t) = true /\ o_cyc (run por inp (S t)) = true) /\
  (exists t, o_cyc (run por inp t) = true /\ o_we (run por inp t) = true /\ ack (inp t) = true /\
     o_adr (run por inp t) = 64 /\ o_sel (run por inp t) = 15 /\ o_dat_w (run por inp t) = 0) /\
  (let bytes z := byte (hazard_prog (z / 4)) (z mod 4) in
   let st am := flat_step (fun a => a) am false false false in
   peek (fun a => a) (snd (st (st (st (boot_arch por, bytes))))) 256 4 = 1).
Proof.
  exists (comb_inp hazard_prog por). split; [apply comb_rom|]. split.
  - constructor; intros t; [reflexivity|]. unfold comb_inp. cbn [dat_r]. destruct (o_cyc _); [|unfold word; lia].
    unfold hazard_prog. set (n := Z.to_nat _). destruct n as [|[|[|[|n]]]]; cbn [nth]; unfold word; try lia.
    destruct n; cbn; lia.
  - split; [exists 8%nat|]. 2: split; [exists 19%nat|].
    + rewrite !comb_run_run. vm_compute. auto 10.
    + rewrite !comb_run_run. vm_compute. auto 10.
    + vm_compute. reflexivity.
Qed.

(** A slave that answers writes in their first cycle and reads in the second meets the
    hypotheses of [C07_data_without_wait_partial]; here it is, running the same program, and
    the store at cycle 20 is acknowledged in its first cycle. *)
Fixpoint mixed_run (m : Z -> Z) (s : state) (t : nat) : state * bool :=
  match t with
  | O => (s, false)
  | S n => let (x, last) := mixed_run m s n in
      (step x {| rst := false; ack := o_cyc x && (o_we x || last); dat_r := if o_cyc x then m (o_adr x) else 0; irq := false |}, o_cyc x)
  end.
Definition mixed_inp (m : Z -> Z) (s : state) (t : nat) : input :=
  let (x, last) := mixed_run m s t in
  {| rst := false; ack := o_cyc x && (o_we x || last); dat_r := if o_cyc x then m (o_adr x) else 0; irq := false |}.
Lemma mixed_run_run m s t : run s (mixed_inp m s) t = fst (mixed_run m s t).
Proof.
  induction t as [|t IH]; [reflexivity|]. cbn [run mixed_run]. rewrite IH. unfold mixed_inp.
  destruct (mixed_run m s t). reflexivity.
Qed.
Example C07_data_without_wait_partial_applies :
  fresh por /\ env (mixed_inp hazard_prog por) /\ fetches_wait por (mixed_inp hazard_prog por) /\
  exists t, let x := run por (mixed_inp hazard_prog por) in
    o_cyc (x t) = false /\ o_cyc (x (S t)) = true /\ o_we (x (S t)) = true /\ ack (mixed_inp hazard_prog por (S t)) = true /\
    o_adr (x (S t)) = 64 /\ o_dat_w (x (S t)) = 1.
Proof.
  split; [apply por_fresh|]. split; [|split].
  - constructor; intros t; unfold mixed_inp; destruct (mixed_run _ _ t) as [x l]; [reflexivity|]. cbn [dat_r]. destruct (o_cyc _); [|unfold word; lia].
    unfold hazard_prog. set (n := Z.to_nat _). destruct n as [|[|[|[|n]]]]; cbn [nth]; unfold word; try lia.
    destruct n; cbn; lia.
  - intros t a C A _ Sh. pose proof (sh_we _ _ Sh) as We. cbn [request q_we] in We.
    unfold mixed_inp in A. rewrite mixed_run_run in C, We. destruct (mixed_run hazard_prog por t) as [x l] eqn:R.
    cbn [fst ack] in *. rewrite C, We in A. cbn [andb orb] in A. subst l.
    destruct t as [|t]; [discriminate R|]. exists t. split; [reflexivity|]. rewrite mixed_run_run. cbn [mixed_run] in R.
    destruct (mixed_run hazard_prog por t) as [y l]. injection R as _ R. exact R.
  - exists 19%nat. cbv zeta. rewrite !mixed_run_run. vm_compute. auto 10.
Qed.

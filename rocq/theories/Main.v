(** * Reset and the global simulation theorem *)
From Coq Require Import ZArith Lia Bool List.
From Verif Require Import Bits Ucode Cpu Isa Timed BitLemmas Wf Sym Blocks CsrBlocks DecodeOk Boundary Sim.
Import ListNotations.
Open Scope Z_scope.

(** The state in the first cycle after reset is released (or after power-on): every
    flip-flop at its reset value; the register RAM and the output registers of the
    two RAM read ports hold anything. *)
Definition fresh (s : state) : Prop := exists u m rd, s = reset_regs u m rd /\ wf s.

Lemma step_reset_fresh s i : wf s -> word (dat_r i) -> rst i = true -> fresh (step s i).
Proof.
  intros W Hd Hr. pose proof (wf_step s i W Hd) as W'. revert W'. unfold step. rewrite Hr. intros W'.
  eexists _, _, _. split; [reflexivity|exact W'].
Qed.
Lemma por_wf : wf por.
Proof.
  constructor; cbn; unfold inw, word; try lia.
  intros a. unfold por_mem. destruct (a =? 0); lia.
Qed.
Lemma por_fresh : fresh por.
Proof. eexists _, _, _. split; [reflexivity|exact por_wf]. Qed.

(** The architectural state the core boots with: general registers other than x0
    survive reset; MTVEC, MSCRATCH and MEPC survive it or are cleared. *)
Record boot (a : arch) (s : state) : Prop := {
  bo_pc : pc a = 0; bo_mie : mie a = false; bo_meie : meie a = false; bo_mcause : mcause a = 0;
  bo_int : took_int a = false; bo_x0 : rd_x a 0 = 0;
  bo_x : forall r, 1 <= r < 32 -> rd_x a r = s_mem s r;
  bo_mtvec : mtvec a = s_mem s 37 \/ mtvec a = 0;
  bo_mscratch : mscratch a = s_mem s 40 \/ mscratch a = 0;
  bo_mepc : mepc a = s_mem s 41 \/ mepc a = 0 }.

Definition boot_arch (s : state) : arch :=
  let s1 := nst s false 0 false in
  {| xr := s_mem s1; pc := 0; mie := false; mpie := c_mpie (s_csr s1); meie := false; mtvec := s_mem s1 37;
     mscratch := s_mem s1 40; mepc := s_mem s1 41; mcause := 0; took_int := false |}.

Lemma bitb0 i : bitb 0 i = false.
Proof. unfold bitb, bits. destruct (Z.eq_dec (2 ^ i) 0) as [E|E]; [rewrite E|rewrite Z.div_0_l by assumption]; reflexivity. Qed.

(** The cycle that executes the stale microinstruction. *)
Lemma stale s k d q : fresh s ->
  let s1 := nst s k d q in
  o_cyc s = false /\ o_stb s = false /\
  at_ 2 s1 /\ c_mie (s_csr s1) = false /\ c_meie (s_csr s1) = false /\ c_mpp (s_csr s1) = 3 /\ s_int s1 = false /\
  s_mem s1 = s_mem (nst s false 0 false) /\ c_mpie (s_csr s1) = c_mpie (s_csr (nst s false 0 false)) /\
  (forall r, 1 <= r < 32 -> s_mem s1 r = s_mem s r) /\ (forall r, s_mem s1 r = s_mem s r \/ s_mem s1 r = 0).
Proof.
  intros (u & m & rd & -> & _). cbv zeta.
  split; [unfold o_cyc; cbn; apply andb_false_r|]. split; [unfold o_stb; cbn; apply andb_false_r|].
  unfold nst, step, mki, reset_regs, at_. cbn [rst ack dat_r irq].
  cbn [s_u s_next s_mguard s_sguard s_csr s_int s_mem s_map s_dst s_alu].
  repeat split.
  - unfold csr_next. cbn [c_mie csr_init c_mpie]. rewrite bitb0. destruct (u_exc u); try reflexivity; destruct (_ && _); reflexivity.
  - unfold csr_next. cbn [c_meie csr_init]. rewrite bitb0. destruct (_ && _); reflexivity.
  - unfold int_next. destruct (u_exc u); reflexivity.
  - intros r Hr. unfold rf_mem_next, upd. destruct (rf_wen _ _ _); [|reflexivity].
    destruct (Z.eqb_spec r (rf_waddr u (reg_w_adr u 0) (csr_adr u (mp_enc map_init)))) as [E|]; [|reflexivity].
    exfalso. revert E. unfold rf_waddr, reg_w_adr, csr_adr. cbn [mp_enc map_init].
    pose proof (bits_range (u_target u) 0 4 ltac:(lia)).
    destruct (u_csr u), (u_wsel u), (u_csel u); lia.
  - intros r. unfold rf_mem_next, upd. destruct (rf_wen _ _ _); [|left; reflexivity].
    destruct (_ =? _); [right|left; reflexivity].
    unfold rf_wdata, csr_dat_w. destruct (u_csr u); try reflexivity. destruct (_ || _); reflexivity.
Qed.

Section M.
Variable inp : nat -> input.

(** The reset routine (microcode [reset]). *)
Lemma blk_reset s t a : at_ 2 s -> rd_x a 0 = 0 -> pc a = 0 -> mcause a = 0 ->
  (forall r, 1 <= r < 32 -> rd_x a r = s_mem s r) -> mtvec a = s_mem s 37 -> mscratch a = s_mem s 40 -> mepc a = s_mem s 41 ->
  mie a = c_mie (s_csr s) -> mpie a = c_mpie (s_csr s) -> meie a = c_meie (s_csr s) -> c_mpp (s_csr s) = 3 -> took_int a = s_int s ->
  settles inp (ready false (Fetching a)) 4 t s.
Proof.
  intros (A1&A2&A3&A4) H0 Hp Hc Hx H1 H2 H3 H4 H5 H6 H7 H8.
  explode s. proj. subst nx u mg sg. vmchange (rom 2).
  stp. stp. stp. stp. apply settles_now. constructor. apply fetch0_wait; [repeat split|repeat split|].
  unfold rel. proj.
  constructor; try assumption.
  - intros r Hr. unfold upd. destruct (Z.eqb_spec r 42); [lia|]. destruct (Z.eqb_spec r 0) as [->|]; [exact H0|]. apply Hx. lia.
Qed.

(** The timed machine driven by the inputs of the core. *)
Fixpoint trun (ts : tstate) (t : nat) : tstate :=
  match t with
  | O => ts
  | S n => tnext SENTINEL (irqs inp) n (trun ts n) (ack (inp n)) (dat_r (inp n))
  end.

Definition boot_ts (a : arch) : tstate := {| t_m := Fetching a; t_idle := 5; t_early := false |}.

Record env : Prop := {
  env_rst : forall t, rst (inp t) = false;
  env_word : forall t, word (dat_r (inp t)) }.

Lemma boot_boot s : fresh s -> boot (boot_arch s) s.
Proof.
  intros F. destruct (stale s false 0 false F) as (_ & _ & _ & _ & _ & _ & _ & _ & _ & Hx & Hm).
  constructor; try reflexivity; cbn [boot_arch mtvec mscratch mepc xr]; auto.
  intros r Hr. unfold rd_x. destruct (Z.eqb_spec r 0); [lia|]. cbn [boot_arch xr]. auto.
Qed.

Lemma sim_start s : fresh s -> env -> sim inp 1 (trun (boot_ts (boot_arch s)) 1) (run s inp 1).
Proof.
  intros F E. pose proof (stale s (ack (inp 0%nat)) (dat_r (inp 0%nat)) (irq (inp 0%nat)) F) as P. cbv zeta in P.
  cbn [run]. rewrite step_nst by apply E.
  destruct P as (_ & _ & A & P1 & P2 & P3 & P4 & Pm & Pp & Hx & Hm).
  assert (W : wf s) by (destruct F as (? & ? & ? & -> & ?); assumption).
  split. { apply wf_step; [assumption|apply E]. }
  cbn [trun tnext boot_ts t_idle t_m t_early].
  apply blk_reset; try assumption; cbn [boot_arch pc mie mpie meie mtvec mscratch mepc mcause took_int]; try rewrite Pm; try reflexivity; try congruence.
  intros r Hr. unfold rd_x. destruct (Z.eqb_spec r 0); [lia|]. reflexivity.
Qed.

(** Cycles in which the reference machine must not be answered yet. *)
Definition polite (a : arch) : Prop :=
  forall t, t_idle (trun (boot_ts a) t) = O -> t_early (trun (boot_ts a) t) = true -> ack (inp t) = false.

Theorem sim_run s : fresh s -> env -> polite (boot_arch s) ->
  forall t, sim inp (S t) (trun (boot_ts (boot_arch s)) (S t)) (run s inp (S t)).
Proof.
  intros F E Po t. induction t as [|t IH].
  - apply sim_start; assumption.
  - change (trun (boot_ts (boot_arch s)) (S (S t))) with
      (tnext SENTINEL (irqs inp) (S t) (trun (boot_ts (boot_arch s)) (S t)) (ack (inp (S t))) (dat_r (inp (S t)))).
    change (run s inp (S (S t))) with (step (run s inp (S t)) (inp (S t))).
    apply sim_step; [apply E|assumption|apply E|apply Po].
Qed.

(** A slave that never acknowledges in the first cycle of a request. *)
Definition registered_ack (s : state) : Prop :=
  forall t, o_cyc (run s inp t) = true -> ack (inp t) = true -> exists t', t = S t' /\ o_cyc (run s inp t') = true.

Lemma delay_early irq m e : snd (delay_after irq m e) = true -> (1 <= fst (delay_after irq m e))%nat.
Proof.
  destruct e as [t d]. destruct m as [a|]; cbn [delay_after]; [|cbn; lia].
  unfold fetch_delay, trap_delay. destruct (_ && _); [cbn; lia|].
  destruct (decode d) as [i|]; [|cbn; lia]. destruct (is_csr i && _); [cbn; lia|].
  destruct i; cbn [exec_delay]; unfold jump_delay, trap_delay;
        repeat match goal with |- context[if ?b then _ else _] => destruct b end;
        repeat match goal with |- context[match ?b with _ => _ end] => destruct b end; cbn [fst]; lia.
Qed.

Lemma early_first ts t : t_idle (trun ts (S t)) = O -> t_early (trun ts (S t)) = true -> t_idle (trun ts t) = 1%nat.
Proof.
  cbn [trun]. unfold tnext. destruct (trun ts t) as [m n e]. cbn [t_idle t_early t_m].
  destruct n as [|n].
  - destruct e; [discriminate|]. destruct (ack (inp t)).
    + cbn [t_idle t_early]. intros H1 H2. apply delay_early in H2. lia.
    + cbn [t_idle t_early]. discriminate.
  - cbn [t_idle t_early]. congruence.
Qed.

Lemma registered_polite_sim s : fresh s -> env -> registered_ack s ->
  polite (boot_arch s) /\ forall t, sim inp (S t) (trun (boot_ts (boot_arch s)) (S t)) (run s inp (S t)).
Proof.
  intros F E G.
  assert (P : forall t, (sim inp (S t) (trun (boot_ts (boot_arch s)) (S t)) (run s inp (S t)) /\
               (t = O \/ sim inp t (trun (boot_ts (boot_arch s)) t) (run s inp t))) /\
              (t_idle (trun (boot_ts (boot_arch s)) t) = O -> t_early (trun (boot_ts (boot_arch s)) t) = true -> ack (inp t) = false)).
  { induction t as [|t [[IH IH0] _]].
    - split; [split; [apply sim_start; assumption|left; reflexivity]|discriminate].
    - assert (Q : t_idle (trun (boot_ts (boot_arch s)) (S t)) = O -> t_early (trun (boot_ts (boot_arch s)) (S t)) = true -> ack (inp (S t)) = false).
      { intros Hi He. destruct (ack (inp (S t))) eqn:K; [exfalso|reflexivity].
        pose proof (sim_out _ _ _ _ IH) as O1. rewrite Hi in O1.
        destruct (G (S t) (sh_cyc _ _ O1) K) as (t' & Et & C). injection Et as <-.
        pose proof (early_first _ _ Hi He) as H1.
        destruct IH0 as [->|IH0]; [discriminate H1|].
        pose proof (sim_out _ _ _ _ IH0) as O2. rewrite H1 in O2. pose proof (qu_cyc _ O2). congruence. }
      split; [split; [|right; exact IH]|exact Q].
      change (trun (boot_ts (boot_arch s)) (S (S t))) with
        (tnext SENTINEL (irqs inp) (S t) (trun (boot_ts (boot_arch s)) (S t)) (ack (inp (S t))) (dat_r (inp (S t)))).
      change (run s inp (S (S t))) with (step (run s inp (S t)) (inp (S t))).
      apply sim_step; [apply E|assumption|apply E|exact Q]. }
  split; [intros t; apply P|intros t; apply P].
Qed.
End M.

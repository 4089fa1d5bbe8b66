(** * Theorems about the bus: C01, C05, C06, C08, C10, C26, C28 *)
From Coq Require Import ZArith Lia Bool List.
From Verif Require Import Bits Ucode Cpu Isa Timed BitLemmas Wf Sym Blocks CsrBlocks DecodeOk Boundary Sim Main Obs.
Import ListNotations.
Open Scope Z_scope.

(** ** C01: every request is the architectural one *)
(** [shows r s] (Sim.v): CYC and STB are high and ADR, SEL, WE (and DAT_W if it is a
    write) are those of the request [r]. *)
Theorem C01_requests_are_architectural : forall s inp, bus_ok s inp ->
  boot (boot_arch s) s /\
  forall t, o_cyc (run s inp t) = true -> shows (request (machine s inp t)) (run s inp t).
Proof. intros s inp K. split; [apply boot_boot; apply K|]. intros t. apply bus_shows. apply bus_ok_ok. assumption. Qed.

(** The same without any wait-state requirement except in the cycles the timed
    machine marks as unanswerable. *)
Theorem C01_requests_are_architectural_weak_ack : forall s inp, ok s inp ->
  forall t, o_cyc (run s inp t) = true -> shows (request (machine s inp t)) (run s inp t).
Proof. intros s inp K t. apply bus_shows. assumption. Qed.

(** ** C05: a request is held until it is acknowledged *)
Lemma rom_in k : In (rom k) (dec_uinsn 0 :: rom_table).
Proof.
  unfold rom. destruct (nth_in_or_default (Z.to_nat k) rom_table (dec_uinsn 0)) as [K|K].
  - right; assumption.
  - left. symmetry. exact K.
Qed.
Lemma req_ldata k : u_mreq (rom k) = true -> u_ldata (rom k) = false.
Proof.
  assert (H : forallb (fun u => negb (u_mreq u) || negb (u_ldata u)) (dec_uinsn 0 :: rom_table) = true) by (vm_compute; reflexivity).
  rewrite forallb_forall in H. specialize (H _ (rom_in k)). intros E. rewrite E in H. destruct (u_ldata (rom k)); [discriminate|reflexivity].
Qed.

Theorem C05_request_held : forall s inp, ok s inp ->
  forall t, o_cyc (run s inp t) = true -> ack (inp t) = false ->
  let x := run s inp t in let y := run s inp (S t) in
  o_cyc y = true /\ o_stb y = true /\ o_adr y = o_adr x /\ o_sel y = o_sel x /\ o_we y = o_we x /\ o_dat_w y = o_dat_w x.
Proof.
  intros s inp K t C A. cbv zeta.
  assert (C' : o_cyc (run s inp (S t)) = true).
  { rewrite (timed_cyc s inp K) in *. change (timed s inp (S t)) with
      (tnext SENTINEL (irqs inp) t (timed s inp t) (ack (inp t)) (dat_r (inp t))).
    rewrite A. unfold tnext, t_cyc in *. destruct (timed s inp t) as [m n e]. cbn [t_m t_idle t_early] in *. destruct n; [|discriminate].
    destruct e; reflexivity. }
  pose proof (bus_shows s inp K t C) as S0. pose proof (bus_shows s inp K (S t) C') as S1.
  rewrite machine_noack in S1 by (rewrite A; apply andb_false_r).
  destruct S0, S1. repeat split; try congruence.
  destruct t as [|t]. { exfalso. cbn in C. destruct (cyc0 s inp K); congruence. }
  destruct (sim_live _ _ _ _ (ok_sim s inp K t)) as (k & _ & A1 & _).
  unfold o_dat_w. change (run s inp (S (S t))) with (step (run s inp (S t)) (inp (S t))).
  unfold step. rewrite (env_rst inp (ok'_env _ _ K)). cbn [s_wdata].
  rewrite A1, req_ldata; [reflexivity|]. unfold o_cyc in C. rewrite A1 in C. apply andb_prop in C. tauto.
Qed.

(** ** C06: CYC and STB drop after ACK *)
Theorem C06_drop_after_ack : forall s inp, ok s inp ->
  forall t, o_cyc (run s inp t) = true -> ack (inp t) = true ->
  o_cyc (run s inp (S t)) = false /\ o_stb (run s inp (S t)) = false.
Proof.
  intros s inp K t C A.
  assert (D : (1 <= fst (delay_after (irqs inp) (machine s inp t) (t, dat_r (inp t))))%nat).
  { destruct (machine s inp t); cbn [delay_after]; [|cbn; lia].
    unfold fetch_delay, trap_delay. destruct (_ && _); [cbn; lia|].
    destruct (decode _) as [i|]; [|cbn; lia]. destruct (is_csr i && _); [cbn; lia|].
    destruct i; cbn [exec_delay]; unfold jump_delay, trap_delay;
        repeat match goal with |- context[if ?b then _ else _] => destruct b end;
        repeat match goal with |- context[match ?b with _ => _ end] => destruct b end; cbn [fst]; lia. }
  destruct (next_request s inp K t C A) as [H _]. specialize (H 0%nat ltac:(lia)).
  replace (t + 1 + 0)%nat with (S t) in H by lia. split; [exact H|].
  apply (qu_stb _ (bus_quiet s inp K t H)).
Qed.

(** ** C08: the core never hangs *)
Lemma delay_bound irq m t d : (1 <= fst (delay_after irq m (t, d)) <= 67)%nat.
Proof.
  destruct m; cbn [delay_after]; [|cbn; lia].
  unfold fetch_delay, trap_delay. destruct (_ && _); [cbn; lia|].
  destruct (decode _) as [i|] eqn:D; [|cbn; lia]. destruct (is_csr i && _); [cbn; lia|].
  destruct i as [| | | | | | |f rd rs1 n|f rd rs1 rs2| | | | | |]; cbn [exec_delay]; unfold jump_delay, trap_delay;
    try (repeat match goal with |- context[if ?b then _ else _] => destruct b end;
         repeat match goal with |- context[match ?b with _ => _ end] => destruct b end; cbn [fst]; lia).
  - destruct (is_shift f) eqn:Sh; [|cbn; lia].
    assert (Hn : 0 <= n < 32).
    { pose proof (decode_some d (OpImm f rd rs1 n) 0 0 D eq_refl ltac:(discriminate) ltac:(discriminate)) as (_ & _ & _ & _ & Ft).
      unfold fits in Ft. rewrite Sh in Ft. tauto. }
    destruct (n =? 0); cbn [fst]; lia.
  - destruct (is_shift f); [|cbn; lia]. pose proof (Z.mod_pos_bound (rd_x a rs2) 32 ltac:(lia)).
    destruct (_ =? 0); cbn [fst]; lia.
Qed.

(** After reset the first request comes within 5 cycles; after any acknowledged
    transfer (whatever the data word is) the next one comes within 68 cycles. *)
Theorem C08_never_hangs : forall s inp, ok s inp ->
  o_cyc (run s inp 5) = true /\
  forall t, o_cyc (run s inp t) = true -> ack (inp t) = true ->
  exists n, (1 <= n <= 67)%nat /\ (forall j, (j < n)%nat -> o_cyc (run s inp (t + 1 + j)) = false) /\
            o_cyc (run s inp (t + 1 + n)) = true.
Proof.
  intros s inp K. split.
  - rewrite (timed_cyc s inp K). unfold t_cyc.
    pose proof (idle_count s inp 0 5 eq_refl 5 ltac:(lia)) as I. change (0 + 5)%nat with 5%nat in I. rewrite I. reflexivity.
  - intros t C A. eexists. split; [apply delay_bound|]. apply (next_request s inp K t C A).
Qed.

(** The bound is reached exactly by shifts by 31. *)
Definition shift_by_31 (a : arch) (w : Z) : Prop :=
  match decode w with
  | Some (OpImm f _ _ n) => is_shift f = true /\ n = 31
  | Some (OpReg f _ _ rs2) => is_shift f = true /\ rd_x a rs2 mod 32 = 31
  | _ => False
  end.
Theorem C08_bound_only_shift_31 : forall irq a t w,
  fst (delay_after irq (Fetching a) (t, w)) = 67%nat -> shift_by_31 a w.
Proof.
  intros irq a t w. cbn [delay_after]. unfold fetch_delay, trap_delay, shift_by_31.
  destruct (_ && _); [cbn; lia|].
  destruct (decode _) as [i|] eqn:D; [|cbn; lia]. destruct (is_csr i && _); [cbn; lia|].
  destruct i as [| | | | | | |f rd rs1 n|f rd rs1 rs2| | | | | |]; cbn [exec_delay]; unfold jump_delay, trap_delay;
    lazymatch goal with |- context[is_shift] => idtac | _ => (repeat match goal with |- context[if ?b then _ else _] => destruct b end;
         repeat match goal with |- context[match ?b with _ => _ end] => destruct b end; cbn [fst]; lia) end.
  - destruct (is_shift f) eqn:Sh; [|cbn; lia].
    assert (Hn : 0 <= n < 32).
    { pose proof (decode_some w (OpImm f rd rs1 n) 0 0 D eq_refl ltac:(discriminate) ltac:(discriminate)) as (_ & _ & _ & _ & Ft).
      unfold fits in Ft. rewrite Sh in Ft. tauto. }
    destruct (n =? 0); cbn [fst]; intros; split; try reflexivity; lia.
  - destruct (is_shift f); [|cbn; lia]. pose proof (Z.mod_pos_bound (rd_x a rs2) 32 ltac:(lia)).
    destruct (_ =? 0); cbn [fst]; intros; split; try reflexivity; lia.
Qed.

(** ** C10: well-formed bus signals *)
Lemma C10_stb_is_cyc : forall s, o_stb s = o_cyc s.
Proof. reflexivity. Qed.

(** The request of a state the reference machine can be in after completing something. *)
Definition is_store_req (m : mach) : Prop := exists r k, m = Accessing r k /\ q_we r = true.

Lemma pow2_cases (P : Z -> Prop) : P 1 -> P 2 -> P 4 -> P 8 -> P 3 -> P 12 -> P 15 ->
  forall sz ea, aligned sz ea = true -> P (lanes sz ea).
Proof.
  intros P1 P2 P4 P8 P3 P12 P15 sz ea Al. unfold lanes. unfold aligned in Al. apply Z.eqb_eq in Al.
  pose proof (Z.mod_pos_bound ea 4 ltac:(lia)). destruct sz; cbn [bytes] in *.
  - assert (ea mod 4 = 0 \/ ea mod 4 = 1 \/ ea mod 4 = 2 \/ ea mod 4 = 3) as [E|[E|[E|E]]] by lia; rewrite E; assumption.
  - assert (ea mod 4 = 0 \/ ea mod 4 = 2) as [E|E].
    { change 4 with (2 * 2) in *. rewrite Z.rem_mul_r in * by lia. rewrite Al in *. lia. }
    + rewrite E; assumption.
    + rewrite E; assumption.
  - rewrite Al. assumption.
Qed.

(** During a request SEL is a legal aligned pattern, an instruction fetch uses all four
    lanes, and WE is high only while the reference machine is storing; outside a request
    (from the second cycle after reset on) WE is low. *)
Theorem C10_signals_well_formed : forall s inp, ok s inp ->
  (forall t, o_stb (run s inp t) = o_cyc (run s inp t)) /\
  (forall t, o_cyc (run s inp t) = true -> In (o_sel (run s inp t)) [1; 2; 4; 8; 3; 12; 15]) /\
  (forall t a, o_cyc (run s inp t) = true -> machine s inp t = Fetching a ->
     o_sel (run s inp t) = 15 /\ o_we (run s inp t) = false) /\
  (forall t, o_we (run s inp (S t)) = true ->
     o_cyc (run s inp (S t)) = true /\ is_store_req (machine s inp (S t))).
Proof.
  intros s inp K. repeat split.
  - intros t H. destruct t as [|t]. { exfalso. cbn in H. destruct (cyc0 s inp K); congruence. }
    destruct (ok_sim s inp K t) as [W Q]. rewrite (timed_cyc s inp K) in H. unfold t_cyc in H.
    destruct (t_idle _) eqn:I; [|discriminate]. inversion Q as [t' s' P|]; subst.
    pose proof (ready_shows _ _ _ P W) as Sh. rewrite (sh_sel _ _ Sh).
    assert (E : exists a, t_m (timed s inp (S t)) = Fetching a \/ waits (t_m (timed s inp (S t))) (run s inp (S t))).
    { destruct (t_early _); cbn [ready] in P.
      - destruct P as (a & E & _). exists a. left. assumption.
      - exists (boot_arch s). right. assumption. }
    destruct E as (a & [E|E]); [rewrite E; cbn; tauto|]. destruct E; cbn [request q_sel].
    + cbn; tauto.
    + apply pow2_cases with (P := fun x => In x _); cbn; tauto.
    + apply pow2_cases with (P := fun x => In x _); cbn; tauto.
  - pose proof (bus_shows s inp K t H) as Sh. rewrite H0 in Sh. apply (sh_sel _ _ Sh).
  - pose proof (bus_shows s inp K t H) as Sh. rewrite H0 in Sh. apply (sh_we _ _ Sh).
  - destruct (o_cyc (run s inp (S t))) eqn:C; [reflexivity|].
    pose proof (qu_we _ (bus_quiet s inp K t C)). congruence.
  - destruct (o_cyc (run s inp (S t))) eqn:C.
    + pose proof (sh_we _ _ (bus_shows s inp K (S t) C)) as E. rewrite H in E.
      destruct (machine s inp (S t)) as [a|r k]; [discriminate|]. exists r, k. split; [reflexivity|symmetry; exact E].
    + pose proof (qu_we _ (bus_quiet s inp K t C)). congruence.
Qed.

(** ** C26: instruction timing *)
(** The number of idle cycles after an acknowledged transfer is exactly [delay_after]
    (Timed.v), so with a slave that acknowledges in the second cycle of a request
    ([two_cycle]) the distance from one acknowledged fetch to the next is: *)
Definition cpi (a : arch) (i : instr) : nat :=
  match i with
  | Lui _ _ => 4
  | Auipc _ _ => 6
  | Jal _ _ | Jalr _ _ _ => 7
  | Branch c rs1 rs2 _ => if cmp c (rd_x a rs1) (rd_x a rs2) then 8 else 7
  | Load _ _ _ _ _ => 9
  | Store _ _ _ _ => 10
  | OpImm f _ _ n => if is_shift f then if n =? 0 then 9 else 7 + 2 * Z.to_nat n else 4
  | OpReg f _ _ rs2 => if is_shift f then if rd_x a rs2 mod 32 =? 0 then 10 else 7 + 2 * Z.to_nat (rd_x a rs2 mod 32) else 4
  | Fence | Wfi => 4
  | Mret => 7
  | Csr f rd g n =>
      if ro_zero n then 6 else
      match f with
      | CSRRW => if rd =? 0 then 6 else 7
      | CSRRS => if csr_writes f g then 9 else 7
      | CSRRC => if csr_writes f g then 10 else 7
      end
  | Ecall | Ebreak => 7
  end.

(** [i] completes without a trap. *)
Definition no_trap (a : arch) (i : instr) : Prop :=
  match i with
  | Jal _ off => target_ok ((pc a + off) mod 2 ^ 32) = true
  | Jalr _ rs1 off => target_ok (2 * (((rd_x a rs1 + off) mod 2 ^ 32) / 2)) = true
  | Branch c rs1 rs2 off => cmp c (rd_x a rs1) (rd_x a rs2) = true -> target_ok ((pc a + off) mod 2 ^ 32) = true
  | Load sz _ _ rs1 off | Store sz rs1 _ off => aligned sz ((rd_x a rs1 + off) mod 2 ^ 32) = true
  | Csr f _ g n => known n = true /\ (csr_writes f g && csr_read_only n) = false
  | _ => True
  end.

Definition two_cycle (s : state) (inp : nat -> input) : Prop :=
  forall t, ack (inp (S t)) = o_cyc (run s inp (S t)) && o_cyc (run s inp t) && negb (ack (inp t)).

(** [t'] is the next acknowledged fetch after the one at [t]. *)
Definition fetch_ack_at (s : state) (inp : nat -> input) (t : nat) : Prop :=
  o_cyc (run s inp t) = true /\ ack (inp t) = true /\ exists a, machine s inp t = Fetching a.

(** One request seen through a two-cycle slave. *)
Lemma two_cycle_next s inp t : ok s inp -> two_cycle s inp -> o_cyc (run s inp t) = true -> ack (inp t) = true ->
  let n := fst (delay_after (irqs inp) (machine s inp t) (t, dat_r (inp t))) in
  (forall u, (t < u < t + n + 2)%nat -> o_cyc (run s inp u) && ack (inp u) = false) /\
  o_cyc (run s inp (t + n + 2)) = true /\ ack (inp (t + n + 2)%nat) = true /\
  machine s inp (t + n + 2) = machine s inp (S t).
Proof.
  intros K Tw C A n. destruct (next_request s inp K t C A) as [Hq Hc]. fold n in Hq, Hc.
  pose proof (delay_bound (irqs inp) (machine s inp t) t (dat_r (inp t))) as B. fold n in B.
  assert (Q : forall u, (t < u < t + 1 + n)%nat -> o_cyc (run s inp u) = false).
  { intros u Hu. replace u with (t + 1 + (u - t - 1))%nat by lia. apply Hq. lia. }
  assert (Na : ack (inp (t + 1 + n)%nat) = false).
  { replace (t + 1 + n)%nat with (S (t + n)) by lia. rewrite Tw. rewrite (Q (t + n)%nat) by lia. rewrite andb_false_r. reflexivity. }
  assert (C2 : o_cyc (run s inp (t + n + 2)) = true).
  { replace (t + n + 2)%nat with (S (t + 1 + n)) by lia. apply (C05_request_held s inp K (t + 1 + n) Hc Na). }
  assert (No : forall u, (t < u < t + n + 2)%nat -> o_cyc (run s inp u) && ack (inp u) = false).
  { intros u Hu. destruct (Nat.eq_dec u (t + 1 + n)) as [->|]; [rewrite Na; apply andb_false_r|rewrite Q by lia; reflexivity]. }
  assert (Mc : forall j, (j <= n + 1)%nat -> machine s inp (S t + j) = machine s inp (S t)).
  { induction j as [|j IH]; intros Hj; [rewrite Nat.add_0_r; reflexivity|].
    rewrite Nat.add_succ_r, machine_noack; [apply IH; lia|]. apply No. lia. }
  split; [exact No|]. split; [exact C2|]. split.
  - pose proof (Tw (t + 1 + n)%nat) as T2. replace (S (t + 1 + n)) with (t + n + 2)%nat in T2 by lia.
    rewrite T2, C2, Hc, Na. reflexivity.
  - replace (t + n + 2)%nat with (S t + (n + 1))%nat by lia. apply Mc. lia.
Qed.

Theorem C26_cycles_per_instruction : forall s inp, ok s inp -> two_cycle s inp ->
  forall t a w i, o_cyc (run s inp t) = true -> ack (inp t) = true -> machine s inp t = Fetching a ->
  dat_r (inp t) = w -> decode w = Some i -> no_trap a i ->
  int_enabled a && irq (inp (t + 1)%nat) = false ->
  (is_csr i = true -> int_enabled a && irq (inp (t + 2)%nat) = false) ->
  let t' := (t + cpi a i)%nat in
  fetch_ack_at s inp t' /\ forall u, (t < u < t')%nat -> ~ fetch_ack_at s inp u.
Proof.
  intros s inp K Tw t a w i C A M Hw D Nt I1 I2 t'.
  pose proof (two_cycle_next s inp t K Tw C A) as P. cbv zeta in P. rewrite M, Hw in P.
  assert (Dl : delay_after (irqs inp) (Fetching a) (t, w) = exec_delay a i).
  { cbn [delay_after]. unfold fetch_delay, irqs. rewrite I1, D. destruct (is_csr i) eqn:Ci; [rewrite I2 by reflexivity|]; reflexivity. }
  assert (Mc : machine s inp (S t) = exec SENTINEL a (irq (inp (t + 3)%nat)) i).
  { rewrite machine_ack by assumption. rewrite M, Hw. cbn [complete]. unfold fetched, irqs. rewrite I1, D.
    destruct (is_csr i) eqn:Ci; [rewrite I2 by reflexivity|]; reflexivity. }
  rewrite Dl, Mc in P. set (n := fst (exec_delay a i)) in *. destruct P as (No & C2 & A2 & M2).
  assert (Simple : (exists a', exec SENTINEL a (irq (inp (t + 3)%nat)) i = Fetching a') -> cpi a i = (n + 2)%nat ->
            fetch_ack_at s inp t' /\ forall u, (t < u < t')%nat -> ~ fetch_ack_at s inp u).
  { intros [a' Ea] Ec. unfold t'. rewrite Ec, Nat.add_assoc. split.
    - repeat split; try assumption. exists a'. congruence.
    - intros u Hu (Cu & Au & _). specialize (No u Hu). rewrite Cu, Au in No. discriminate. }
  assert (Mem : (exists r k, exec SENTINEL a (irq (inp (t + 3)%nat)) i = Accessing r k) -> cpi a i = (n + 5)%nat ->
            fetch_ack_at s inp t' /\ forall u, (t < u < t')%nat -> ~ fetch_ack_at s inp u).
  { intros (r & k & Ea) Ec. pose proof (two_cycle_next s inp (t + n + 2) K Tw C2 A2) as P2. cbv zeta in P2.
    rewrite M2, Ea in P2. cbn [delay_after fst] in P2. destruct P2 as (No2 & C3 & A3 & M3).
    unfold t'. rewrite Ec. replace (t + (n + 5))%nat with (t + n + 2 + 1 + 2)%nat by lia. split.
    - repeat split; try assumption. rewrite M3, machine_ack, M2, Ea by assumption. eexists. reflexivity.
    - intros u Hu (Cu & Au & a' & Mu).
      destruct (Nat.lt_total u (t + n + 2)) as [L|[L|L]].
      + specialize (No u ltac:(lia)). rewrite Cu, Au in No. discriminate.
      + subst u. congruence.
      + specialize (No2 u ltac:(lia)). rewrite Cu, Au in No2. discriminate. }
  clear - Simple Mem Nt D. subst n.
  destruct i as [rd imm|rd imm|rd off|rd rs1 off|cc rs1 rs2 off|sz sg rd rs1 off|sz rs1 rs2 off|f rd rs1 imm|f rd rs1 rs2| | | | | |f rd g n];
    cbn [no_trap exec cpi exec_delay] in *.
  all: try (apply Simple; [eexists; reflexivity|]; unfold jump_delay; rewrite ?Nt; reflexivity).
  - apply Simple; [eexists; reflexivity|]. destruct (cmp _ _ _); [rewrite Nt by reflexivity|]; reflexivity.
  - rewrite Nt in *. apply Mem; [eexists _, _; reflexivity|reflexivity].
  - rewrite Nt in *. apply Mem; [eexists _, _; reflexivity|reflexivity].
  - apply Simple; [eexists; reflexivity|]. destruct (is_shift f); [|reflexivity]. destruct (imm =? 0); cbn [fst]; lia.
  - apply Simple; [eexists; reflexivity|]. destruct (is_shift f); [|reflexivity]. cbv zeta. destruct (_ =? 0); cbn [fst]; lia.
  - apply Simple; [eexists; reflexivity|]. destruct Nt as [Kn Nt]. pose proof (csr_read_known a false n) as Kf. rewrite Kn in Kf.
    destruct (csr_read a false n); [|discriminate]. rewrite Nt. destruct (ro_zero n); [reflexivity|].
    destruct f; [destruct (rd =? 0)|destruct (csr_writes _ _)|destruct (csr_writes _ _)]; reflexivity.
Qed.

(** Taking an interrupt, an illegal-instruction, breakpoint or environment-call trap:
    the fetch at the handler is requested 5 cycles after the exception was detected. *)
Theorem C26_trap_timing : forall s inp, ok s inp ->
  forall t a w, o_cyc (run s inp t) = true -> ack (inp t) = true -> machine s inp t = Fetching a -> dat_r (inp t) = w ->
  int_enabled a && irq (inp (t + 1)%nat) = true \/ decode w = None \/ decode w = Some Ecall \/ decode w = Some Ebreak ->
  (forall j, (j < 5)%nat -> o_cyc (run s inp (t + 1 + j)) = false) /\ o_cyc (run s inp (t + 6)) = true.
Proof.
  intros s inp K t a w C A M Hw H.
  assert (Dl : delay_after (irqs inp) (machine s inp t) (t, dat_r (inp t)) = (5%nat, true)).
  { rewrite M, Hw. cbn [delay_after]. unfold fetch_delay, irqs. destruct (int_enabled a && irq (inp (t + 1)%nat)); [reflexivity|].
    destruct H as [H|[H|[H|H]]]; [discriminate| | |]; rewrite H; reflexivity. }
  pose proof (next_request s inp K t C A) as P. cbv zeta in P. rewrite Dl in P. cbn [fst] in P.
  replace (t + 6)%nat with (t + 1 + 5)%nat by lia. exact P.
Qed.

(** ** C28: bus inputs matter only when acknowledged *)
Lemma ldata_next k : live k = true -> u_ldata (rom k) = true ->
  u_jmp (rom k) = J_CONT /\ u_wmem (rom ((k + 1) mod 2 ^ 8)) = true.
Proof.
  intros L. unfold live in L. apply existsb_exists in L. destruct L as (k' & Hk & E). apply Z.eqb_eq in E. subst k'.
  assert (H : forallb (fun k => negb (u_ldata (rom k)) || match u_jmp (rom k) with J_CONT => u_wmem (rom ((k + 1) mod 2 ^ 8)) | _ => false end) live_list = true)
    by (vm_compute; reflexivity).
  rewrite forallb_forall in H. specialize (H k Hk). intros E. rewrite E in H.
  destruct (u_jmp (rom k)); try discriminate. split; [reflexivity|exact H].
Qed.

(** DAT_W changes only when a write request starts. *)
Lemma dat_w_stable s inp t : ok s inp -> o_we (run s inp (S (S t))) = false ->
  o_dat_w (run s inp (S (S t))) = o_dat_w (run s inp (S t)).
Proof.
  intros K We. destruct (sim_live _ _ _ _ (ok_sim s inp K t)) as (k & L & A1 & A2 & A3 & A4).
  unfold o_we, o_dat_w in *. change (run s inp (S (S t))) with (step (run s inp (S t)) (inp (S t))) in *.
  unfold step in *. rewrite (env_rst inp (ok'_env _ _ K)) in *. cbn [s_wdata s_u] in *. rewrite A1 in *.
  destruct (u_ldata (rom k)) eqn:E; [|reflexivity]. exfalso.
  destruct (ldata_next k L E) as [J Wm]. unfold seq_now, seq_adr in We. rewrite A1, A4, J, A2 in We.
  assert (Hk : 0 <= k < 255).
  { clear - L E. unfold live in L. apply existsb_exists in L. destruct L as (k' & Hk & Ek). apply Z.eqb_eq in Ek. subst k'.
    assert (H : forallb (fun k => (0 <=? k) && (k <? 255)) live_list = true) by (vm_compute; reflexivity).
    rewrite forallb_forall in H. specialize (H k Hk). apply andb_prop in H. destruct H as [H1 H2].
    apply Z.leb_le in H1. apply Z.ltb_lt in H2. lia. }
  rewrite Z.mod_small in Wm by lia. congruence.
Qed.

Lemma dat_w_1 s i : fresh s -> rst i = false -> o_dat_w (step s i) = 0.
Proof.
  intros (u & m & rd & -> & _) Hr. unfold o_dat_w, step. rewrite Hr. cbn [s_wdata reset_regs s_data_adr s_alu s_u].
  destruct (u_ldata u); [|reflexivity]. destruct (u_msel u); reflexivity.
Qed.

(** Two runs with the same timed machine have the same outputs in every cycle. *)
Definition same_outputs (x y : state) : Prop :=
  o_cyc y = o_cyc x /\ o_stb y = o_stb x /\ o_adr y = o_adr x /\ o_sel y = o_sel x /\ o_we y = o_we x /\ o_dat_w y = o_dat_w x.
Lemma same_timed_outputs s inp1 inp2 : ok s inp1 -> ok s inp2 -> (forall t, timed s inp2 t = timed s inp1 t) ->
  forall t, same_outputs (run s inp1 t) (run s inp2 t).
Proof.
  intros K1 K2 Ts.
  assert (Hc : forall t, o_cyc (run s inp2 t) = o_cyc (run s inp1 t)).
  { intros t. rewrite (timed_cyc s inp1 K1), (timed_cyc s inp2 K2), Ts. reflexivity. }
  assert (Hs : forall t, o_adr (run s inp2 t) = o_adr (run s inp1 t) /\ o_sel (run s inp2 t) = o_sel (run s inp1 t) /\ o_we (run s inp2 t) = o_we (run s inp1 t)
             /\ (o_cyc (run s inp1 t) = true -> o_we (run s inp1 t) = true -> o_dat_w (run s inp2 t) = o_dat_w (run s inp1 t))).
  { intros [|t]; [repeat split; reflexivity|].
    destruct (o_cyc (run s inp1 (S t))) eqn:C.
    - pose proof C as C2. rewrite <- Hc in C2.
      pose proof (bus_shows s inp1 K1 (S t) C) as S1. pose proof (bus_shows s inp2 K2 (S t) C2) as S2.
      rewrite <- (timed_machine s inp1 K1) in S1. rewrite <- (timed_machine s inp2 K2), Ts in S2.
      destruct S1, S2. repeat split; try congruence. intros _ We. rewrite sh_we in We. rewrite sh_dat, sh_dat0 by assumption. reflexivity.
    - pose proof C as C2. rewrite <- Hc in C2.
      pose proof (bus_quiet s inp1 K1 t C) as S1. pose proof (bus_quiet s inp2 K2 t C2) as S2.
      destruct S1, S2. repeat split; try congruence. }
  assert (Hd : forall t, o_dat_w (run s inp2 t) = o_dat_w (run s inp1 t)).
  { induction t as [|[|t] IH].
    - reflexivity.
    - cbn [run]. rewrite !dat_w_1; try reflexivity; try apply K1; apply K2.
    - destruct (Hs (S (S t))) as (_ & _ & Hw & Hdw).
      destruct (o_we (run s inp1 (S (S t)))) eqn:We.
      + apply Hdw; [|reflexivity]. destruct (C10_signals_well_formed s inp1 K1) as (_ & _ & _ & X). apply X. assumption.
      + rewrite (dat_w_stable s inp1 t K1 We), (dat_w_stable s inp2 t K2) by congruence. exact IH. }
  intros t. unfold same_outputs. destruct (Hs t) as (? & ? & ? & _). repeat split; try assumption.
  - apply Hc.
  - change (o_cyc (run s inp2 t) = o_cyc (run s inp1 t)). apply Hc.
  - apply Hd.
Qed.

(** Two runs from the same state, with the same IRQ and the same acknowledged transfers,
    have the same outputs in every cycle. *)
Theorem C28_only_acked_inputs_matter : forall s inp1 inp2, ok s inp1 -> env inp2 ->
  (forall t, irq (inp2 t) = irq (inp1 t)) ->
  (forall t, o_cyc (run s inp1 t) = true ->
     ack (inp2 t) = ack (inp1 t) /\ (ack (inp1 t) = true -> dat_r (inp2 t) = dat_r (inp1 t))) ->
  forall t, same_outputs (run s inp1 t) (run s inp2 t).
Proof.
  intros s inp1 inp2 K1 E2 Hq Ha.
  assert (Hcomp : forall m e, complete SENTINEL (irqs inp2) m e = complete SENTINEL (irqs inp1) m e).
  { intros m [t d]. unfold complete, irqs. rewrite !Hq. reflexivity. }
  assert (Hdel : forall m e, delay_after (irqs inp2) m e = delay_after (irqs inp1) m e).
  { intros m [t d]. unfold delay_after, irqs. rewrite !Hq. reflexivity. }
  assert (Ts : forall t, timed s inp2 t = timed s inp1 t).
  { induction t as [|t IH]; [reflexivity|].
    change (timed s inp2 (S t)) with (tnext SENTINEL (irqs inp2) t (timed s inp2 t) (ack (inp2 t)) (dat_r (inp2 t))).
    change (timed s inp1 (S t)) with (tnext SENTINEL (irqs inp1) t (timed s inp1 t) (ack (inp1 t)) (dat_r (inp1 t))).
    rewrite IH. specialize (Ha t). rewrite (timed_cyc s inp1 K1) in Ha. unfold t_cyc in Ha. unfold tnext.
    destruct (t_idle (timed s inp1 t)); [|reflexivity]. specialize (Ha eq_refl). destruct Ha as [-> Ha].
    destruct (t_early _); [reflexivity|]. destruct (ack (inp1 t)); [|reflexivity].
    rewrite Ha by reflexivity. rewrite Hcomp, Hdel. reflexivity. }
  assert (K2 : ok s inp2).
  { constructor; [apply K1|assumption|]. intros t Hi He. change (trun inp2 (boot_ts (boot_arch s)) t) with (timed s inp2 t) in *. rewrite Ts in *.
    destruct (Ha t) as [-> _].
    - rewrite (timed_cyc s inp1 K1). unfold t_cyc. rewrite Hi. reflexivity.
    - apply (ok'_polite _ _ K1); assumption. }
  apply same_timed_outputs; assumption.
Qed.

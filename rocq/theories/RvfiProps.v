(** * C50-C54: the RISC-V Formal Interface reports what the core did *)
From Coq Require Import ZArith Lia Bool List.
From Verif Require Import Bits Ucode Cpu Isa Timed BitLemmas Wf Sym Blocks CsrBlocks DecodeOk Boundary Sim Main Obs PropsBus PropsInv Observe PropsIsa PropsFrame Rvfi RvfiTrace.
Import ListNotations.
Open Scope Z_scope.

(** The harness right after reset: memory read-port registers hold anything. *)
Definition rvfi_fresh (v : rvfi) : Prop := exists p1 p2 pc, v = rvfi_reset p1 p2 pc.

(** The harness reports an instruction in cycle [t]. *)
Definition valid_at (v : rvfi) (s : state) (inp : nat -> input) (t : nat) : bool := rv_valid (vrun v s inp t) (run s inp t) (inp t).
(** Number of reports before cycle [t]. *)
Fixpoint reports (v : rvfi) (s : state) (inp : nat -> input) (t : nat) : nat :=
  match t with O => O | S n => (if valid_at v s inp n then 1 else 0) + reports v s inp n end.

(** The hard-coded microcode addresses are those of the labels they stand for: the word at
    1 is the one that tests for interrupts after a fetch, 36 tests the second decode cycle,
    both go to 240 on an exception. *)
Lemma hardcoded_addresses :
  u_exc (rom CHECK_INT_ADDR) = X_LATCH_DECODER /\ u_target (rom CHECK_INT_ADDR) = EXCEPTION_HANDLER_ADDR /\
  u_exc (rom CSR_DECODE_VALIDITY_ADDR) = X_LATCH_DECODER /\ u_target (rom CSR_DECODE_VALIDITY_ADDR) = EXCEPTION_HANDLER_ADDR.
Proof. repeat split. Qed.

Section P.
Variables (s : state) (inp : nat -> input) (v : rvfi).
Hypothesis K : ok s inp.
Hypothesis V : rvfi_fresh v.

Notation vr t := (vrun v s inp t).

Lemma vrun_S t : vr (S t) = rvfi_step (vr t) (run s inp t) (inp t).
Proof. reflexivity. Qed.
Lemma no_rst t : rst (inp t) = false.
Proof. apply K. Qed.

Lemma init_iff t : v_init (vr t) = false <-> exists u w, (u < t)%nat /\ fetch_done s inp u w.
Proof.
  induction t as [|t IH].
  - destruct V as (p1 & p2 & pc & ->). split; [discriminate|intros (u & w & H & _); lia].
  - rewrite vrun_S. unfold rvfi_step. rewrite no_rst. cbn [v_init]. destruct (committed (run s inp t) (inp t)) eqn:C.
    + split; [intros _|reflexivity]. apply (commit_iff s inp K) in C. destruct C as [w F]. exists t, w. split; [lia|assumption].
    + rewrite IH. split; intros (u & w & Hu & F); exists u, w; (split; [|assumption]); [lia|].
      destruct (Nat.eq_dec u t) as [->|]; [|lia]. exfalso.
      assert (X : committed (run s inp t) (inp t) = true) by (apply (commit_iff s inp K); exists w; assumption). congruence.
Qed.

(** C50: the harness reports in exactly the cycles in which an instruction ends, that is,
    its successor's fetch is acknowledged: nothing is missed and nothing reported twice. *)
Theorem valid_iff t' : valid_at v s inp t' = true <-> exists t w, executes s inp t t' w.
Proof.
  unfold valid_at, rv_valid. rewrite andb_true_iff, negb_true_iff, init_iff, (commit_iff s inp K). split.
  - intros [[w' F'] (u & w & Hu & F)]. destruct (previous_fetch s inp u t' w w' F F' Hu) as (t & w1 & _ & X). exists t, w1. exact X.
  - intros (t & w & F & L & F' & _). split; [assumption|]. exists t, w. split; assumption.
Qed.
Theorem order_counts t : v_order (vr t) = Z.of_nat (reports v s inp t) mod 2 ^ 64.
Proof.
  induction t as [|t IH]; [destruct V as (p1 & p2 & pc & ->); reflexivity|].
  cbn [reports]. rewrite vrun_S. unfold rvfi_step. rewrite no_rst. cbn [v_order]. fold (valid_at v s inp t).
  destruct (valid_at v s inp t); [|exact IH]. rewrite IH, Z.add_mod_idemp_l by lia. f_equal. lia.
Qed.

(** Registers that only change when an instruction is committed. *)
Section W.
Variables (t t' : nat) (w : Z).
Hypothesis X : executes s inp t t' w.

Lemma held {A} (f : rvfi -> A) (g : A) : f (vr (S t)) = g -> (forall u, (t < u < t')%nat -> f (vr (S u)) = f (vr u)) -> f (vr t') = g.
Proof.
  intros H0 H. assert (P : forall n, (S t + n <= t')%nat -> f (vr (S t + n)) = g).
  { induction n as [|n IH]; intros Hn; [rewrite Nat.add_0_r; exact H0|]. rewrite Nat.add_succ_r, H by lia. apply IH. lia. }
  destruct X as (_ & L & _). specialize (P (t' - S t)%nat). replace (S t + (t' - S t))%nat with t' in P by lia. apply P. lia.
Qed.
Lemma com_t : committed (run s inp t) (inp t) = true. Proof. exact (win_commit_t s inp K t t' w X). Qed.
Lemma com_t' : committed (run s inp t') (inp t') = true. Proof. exact (win_commit_t' s inp K t t' w X). Qed.
Lemma com_u u : (t < u < t')%nat -> committed (run s inp u) (inp u) = false. Proof. exact (win_commit s inp K t t' w X u). Qed.
Lemma dat_t : dat_r (inp t) = w. Proof. apply X. Qed.

Ltac field := apply held; [rewrite vrun_S; unfold rvfi_step; rewrite no_rst, com_t, dat_t; cbn [v_insn v_rs1_addr v_rs2_addr v_pc_rdata]
                          |intros u Hu; rewrite vrun_S; unfold rvfi_step; rewrite no_rst, (com_u u Hu); reflexivity].
Lemma insn_is : v_insn (vr t') = w.
Proof. field. reflexivity. Qed.
Lemma rs1_addr_is : v_rs1_addr (vr t') = fld w 15 5.
Proof. field. reflexivity. Qed.
Lemma rs2_addr_is : v_rs2_addr (vr t') = fld w 20 5.
Proof. field. reflexivity. Qed.

Lemma pc_stable u wu : fetch_done s inp u wu -> bits (s_pc (run s inp u) * 4) 0 32 = pc_of (run s inp (S u)).
Proof.
  intros F. destruct (fetch_pos s inp K u wu F) as (a & _ & (_ & _ & Pc & _) & B).
  assert (E : pc_of (run s inp (S u)) = 4 * s_pc (run s inp u)) by (rewrite <- Pc; symmetry; apply pc_of_rel; apply B).
  rewrite E. pose proof (wf_pc _ (run_wf s inp u ltac:(destruct K as [(u0 & m & rd & -> & W) _ _]; exact W) ltac:(apply K))) as W. unfold inw in W.
  unfold bits. change (2 ^ 0) with 1. rewrite Z.div_1_r, Z.mod_small by lia. lia.
Qed.
Lemma pc_rdata_is : v_pc_rdata (vr t') = pc_of (run s inp (S t)).
Proof. field. apply (pc_stable t w). apply X. Qed.
Lemma pc_wdata_is : rv_pc_wdata (vr t') (run s inp t') (inp t') = pc_of (run s inp (S t')).
Proof. unfold rv_pc_wdata. rewrite com_t'. destruct X as (_ & _ & (w' & F') & _). apply (pc_stable t' w'). exact F'. Qed.

(** ** Source registers *)
Lemma just_u u : (S t < u <= t')%nat -> v_just (vr u) = false.
Proof.
  intros Hu. destruct u as [|u]; [lia|]. rewrite vrun_S. unfold rvfi_step. rewrite no_rst. cbn [v_just]. apply com_u. lia.
Qed.
Lemma just_t : v_just (vr (S t)) = true.
Proof. rewrite vrun_S. unfold rvfi_step. rewrite no_rst. cbn [v_just]. apply com_t. Qed.
Lemma held2 {A} (f : rvfi -> A) (g : A) : f (vr (S (S t))) = g -> (forall u, (S t < u < t')%nat -> f (vr (S u)) = f (vr u)) -> f (vr t') = g.
Proof.
  intros H0 H. pose proof (win_long s inp K t t' w X) as L. assert (P : forall n, (S (S t) + n <= t')%nat -> f (vr (S (S t) + n)) = g).
  { induction n as [|n IH]; intros Hn; [rewrite Nat.add_0_r; exact H0|]. rewrite Nat.add_succ_r, H by lia. apply IH. lia. }
  specialize (P (t' - S (S t))%nat). replace (S (S t) + (t' - S (S t)))%nat with t' in P by lia. apply P. lia.
Qed.
Lemma rs1_rdata_is : v_rs1_rdata (vr t') = x_of (run s inp (S t)) (fld w 15 5).
Proof.
  apply held2.
  - rewrite vrun_S. unfold rvfi_step. rewrite no_rst. cbn [v_rs1_rdata]. rewrite just_t. rewrite vrun_S. unfold rvfi_step. rewrite no_rst. cbn [v_rs1_port]. rewrite com_t, dat_t. reflexivity.
  - intros u Hu. rewrite vrun_S. unfold rvfi_step. rewrite no_rst. cbn [v_rs1_rdata]. rewrite just_u by lia. reflexivity.
Qed.
Lemma rs2_rdata_is : v_rs2_rdata (vr t') = x_of (run s inp (S t)) (fld w 20 5).
Proof.
  apply held2.
  - rewrite vrun_S. unfold rvfi_step. rewrite no_rst. cbn [v_rs2_rdata]. rewrite just_t. rewrite vrun_S. unfold rvfi_step. rewrite no_rst. cbn [v_rs2_port]. rewrite com_t, dat_t. reflexivity.
  - intros u Hu. rewrite vrun_S. unfold rvfi_step. rewrite no_rst. cbn [v_rs2_rdata]. rewrite just_u by lia. reflexivity.
Qed.

(** ** Traps *)
Lemma trap_raised : v_trap (vr t') = true <-> raised s inp t t'.
Proof.
  assert (P : forall n, (S t + n <= t')%nat -> (v_trap (vr (S t + n)) = true <-> exists u, (t < u < S t + n)%nat /\ exc_now (run s inp u) (inp u) = true)).
  { induction n as [|n IH]; intros Hn.
    - rewrite Nat.add_0_r, vrun_S. unfold rvfi_step. rewrite no_rst. cbn [v_trap]. rewrite com_t, (wait_calm s inp K t w (proj1 X)).
      split; [discriminate|intros (u & Hu & _); lia].
    - rewrite Nat.add_succ_r, vrun_S. unfold rvfi_step. rewrite no_rst. cbn [v_trap]. rewrite com_u by lia.
      destruct (exc_now (run s inp (S t + n)) (inp (S t + n)%nat)) eqn:E.
      + split; [intros _|reflexivity]. exists (S t + n)%nat. split; [lia|exact E].
      + rewrite IH by lia. split; intros (u & Hu & Eu); exists u; (split; [|assumption]); [lia|].
        destruct (Nat.eq_dec u (S t + n)) as [->|]; [congruence|lia]. }
  destruct X as (_ & L & (w' & F') & _). specialize (P (t' - S t)%nat ltac:(lia)). replace (S t + (t' - S t))%nat with t' in P by lia.
  rewrite P. unfold raised. split; intros (u & Hu & E); exists u; (split; [|assumption]); [lia|].
  destruct (Nat.eq_dec u t') as [->|]; [|lia]. rewrite (wait_calm s inp K t' w' F') in E. discriminate.
Qed.
Theorem trap_is : v_trap (vr t') = true <-> traps s inp t w (run s inp (S t)).
Proof. rewrite trap_raised. apply trap_iff; assumption. Qed.

Lemma intr_is t0 w0 : executes s inp t0 t w0 -> v_intr (vr t') = v_trap (vr t).
Proof.
  intros X0. apply held.
  - rewrite vrun_S. unfold rvfi_step. rewrite no_rst. cbn [v_intr]. fold (valid_at v s inp t).
    assert (Vd : valid_at v s inp t = true) by (apply valid_iff; exists t0, w0; exact X0). rewrite Vd. reflexivity.
  - intros u Hu. rewrite vrun_S. unfold rvfi_step. rewrite no_rst. cbn [v_intr]. unfold rv_valid. rewrite com_u by lia. reflexivity.
Qed.
Lemma intr_none u : (forall v0 w0, (v0 < u)%nat -> ~ fetch_done s inp v0 w0) -> v_intr (vr u) = false.
Proof.
  induction u as [|u IH]; intros H; [destruct V as (p1 & p2 & pc & ->); reflexivity|].
  rewrite vrun_S. unfold rvfi_step. rewrite no_rst. cbn [v_intr]. unfold rv_valid.
  rewrite (commit_no s inp K u) by (intros w0; apply H; lia). apply IH. intros v0 w0 Hv. apply H. lia.
Qed.
Lemma intr_first : (forall u w0, (u < t)%nat -> ~ fetch_done s inp u w0) -> v_intr (vr t') = false.
Proof.
  intros N. apply held.
  - rewrite vrun_S. unfold rvfi_step. rewrite no_rst. cbn [v_intr]. unfold rv_valid.
    assert (I : v_init (vr t) = true). { destruct (v_init (vr t)) eqn:I; [reflexivity|]. apply init_iff in I. destruct I as (u & w0 & Hu & F). exfalso. exact (N u w0 Hu F). }
    rewrite I, andb_false_r. apply intr_none. exact N.
  - intros u Hu. rewrite vrun_S. unfold rvfi_step. rewrite no_rst. cbn [v_intr]. unfold rv_valid. rewrite com_u by lia. reflexivity.
Qed.

(** ** Memory accesses *)
Definition data_now (u : nat) : bool := negb (u_fetch (s_u (run s inp u))) && u_mreq (s_u (run s inp u)) && ack (inp u).
Lemma data_is u : (0 < u)%nat -> data_now u = true <-> data_done s inp u.
Proof.
  intros Hu. destruct u as [|u]; [lia|]. destruct (pos_at s inp K u) as [k Q]. destruct (si_at _ _ Q) as (A1 & _ & A3 & _).
  unfold data_now, data_done, o_cyc. rewrite A1, A3. cbn [negb]. rewrite andb_true_r, !andb_true_iff, negb_true_iff. tauto.
Qed.
Lemma data_end : data_now t' = false.
Proof. destruct X as (_ & _ & (w' & _ & U & _) & _). unfold data_now. rewrite U. reflexivity. Qed.
Lemma data_begin : data_now t = false.
Proof. destruct X as ((_ & U & _) & _). unfold data_now. rewrite U. reflexivity. Qed.
Lemma idle_not_data u : (t < u)%nat -> o_cyc (run s inp u) && ack (inp u) = false -> data_now u = false.
Proof.
  intros Hu H. destruct (data_now u) eqn:Dn; [|reflexivity]. apply data_is in Dn; [|lia]. destruct Dn as (C & _ & A). rewrite C, A in H. discriminate.
Qed.
Lemma no_data_masks : no_data s inp t t' -> v_mem_rmask (vr t') = 0 /\ v_mem_wmask (vr t') = 0.
Proof.
  intros N. split; apply held.
  1,3: rewrite vrun_S; unfold rvfi_step; rewrite no_rst; cbn [v_mem_rmask v_mem_wmask]; fold (data_now t); rewrite data_begin, com_t; reflexivity.
  all: intros u Hu; rewrite vrun_S; unfold rvfi_step; rewrite no_rst; cbn [v_mem_rmask v_mem_wmask]; fold (data_now u);
       rewrite (idle_not_data u ltac:(lia) (N u Hu)), com_u by lia; reflexivity.
Qed.
Lemma held_from {A} (f : rvfi -> A) (g : A) u0 : (t < u0 < t')%nat -> f (vr (S u0)) = g -> (forall u, (u0 < u < t')%nat -> f (vr (S u)) = f (vr u)) -> f (vr t') = g.
Proof.
  intros Hu H0 H. assert (P : forall n, (S u0 + n <= t')%nat -> f (vr (S u0 + n)) = g).
  { induction n as [|n IH]; intros Hn; [rewrite Nat.add_0_r; exact H0|]. rewrite Nat.add_succ_r, H by lia. apply IH. lia. }
  specialize (P (t' - S u0)%nat). replace (S u0 + (t' - S u0))%nat with t' in P by lia. apply P. lia.
Qed.
Lemma one_data_fields u : one_data s inp t t' u ->
  v_mem_addr (vr t') = bits (o_adr (run s inp u) * 4) 0 32 /\
  v_mem_rmask (vr t') = (if o_we (run s inp u) then 0 else o_sel (run s inp u)) /\
  v_mem_wmask (vr t') = (if o_we (run s inp u) then o_sel (run s inp u) else 0) /\
  v_mem_rdata (vr t') = dat_r (inp u) /\ v_mem_wdata (vr t') = o_dat_w (run s inp u).
Proof.
  intros (Hu & Dd & Oth). assert (Dn : data_now u = true) by (apply data_is; [lia|assumption]).
  repeat split; apply (held_from _ _ u Hu).
  1,3,5,7,9: rewrite vrun_S; unfold rvfi_step; rewrite no_rst; cbn [v_mem_addr v_mem_rmask v_mem_wmask v_mem_rdata v_mem_wdata]; fold (data_now u); rewrite Dn; reflexivity.
  all: intros u1 Hu1; rewrite vrun_S; unfold rvfi_step; rewrite no_rst; cbn [v_mem_addr v_mem_rmask v_mem_wmask v_mem_rdata v_mem_wdata]; fold (data_now u1);
       rewrite (idle_not_data u1 ltac:(lia) (Oth u1 ltac:(lia) ltac:(lia))), ?com_u by lia; reflexivity.
Qed.
Lemma data_or_not : no_data s inp t t' \/ exists u, one_data s inp t t' u.
Proof.
  destruct (executes_outcome s inp K t t' w X) as (a & _ & _ & O). unfold outcome in O. destruct (fetched _ _ _ _ _ _).
  - left. apply O.
  - right. destruct O as (u & O & _). exists u. exact O.
Qed.
End W.
End P.

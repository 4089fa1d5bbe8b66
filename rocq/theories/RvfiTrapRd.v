(** * C52 for instructions that trap: exactly what the report says *)
From Coq Require Import ZArith Lia Bool List.
From Verif Require Import Bits Ucode Cpu Isa Timed BitLemmas Wf Sym Blocks CsrBlocks DecodeOk Boundary Sim Main Obs PropsBus PropsInv Observe PropsIsa PropsFrame Rvfi RvfiTrace RvfiProps RvfiRd RvfiTop SocMem Examples RvfiEx.
Import ListNotations.
Open Scope Z_scope.

(** ** Static facts: what follows an exception neither raises one nor writes a register; what follows
    a register write does not raise one. *)
Definition trap_set := Eval vm_compute in clos (fun _ => false) 500 [240] [].
Lemma trap_closed : closed (fun _ => false) trap_set = true. Proof. vm_compute. reflexivity. Qed.
Lemma trap_quiet : forallb (fun k => negb (checks k) && negb (writes_gp k) && negb (k =? 36)) trap_set = true. Proof. vm_compute. reflexivity. Qed.
Definition wrote_set := Eval vm_compute in clos (fun _ => false) 2000 (filter (fun k => writes_gp k && negb (in_reset k)) live_list) [].
Lemma wrote_closed : closed (fun _ => false) wrote_set = true. Proof. vm_compute. reflexivity. Qed.
Lemma wrote_quiet : forallb (fun k => negb (checks k)) wrote_set = true. Proof. vm_compute. reflexivity. Qed.
Lemma wrote_start : forallb (fun k => in_reset k || negb (writes_gp k) || memb k wrote_set) live_list = true. Proof. vm_compute. reflexivity. Qed.

(** Only the decoder leads to the second decoding step. *)
Definition entry_set := Eval vm_compute in clos (fun _ => false) 3000 (plain_set ++ risky_entries) [].
Lemma entry_closed : closed (fun _ => false) entry_set = true. Proof. vm_compute. reflexivity. Qed.
Lemma entry_tramp : memb 36 entry_set = false. Proof. vm_compute. reflexivity. Qed.
Lemma entry_start : forallb (fun k => memb k entry_set) (plain_set ++ risky_entries) = true. Proof. vm_compute. reflexivity. Qed.

Section P.
Variables (s : state) (inp : nat -> input) (v : rvfi).
Hypothesis K : ok s inp.
Hypothesis V : rvfi_fresh v.
Notation vr := (vrun v s inp).
Lemma nor t : rst (inp t) = false. Proof. apply K. Qed.
Lemma wfr t : wf (run s inp t).
Proof. apply run_wf; [destruct K as [(u0 & m & rd & -> & W) _ _]; exact W|apply K]. Qed.
(** The harness knows in which cycle the second decoding step of a CSR instruction is. *)
Lemma doing_at k u : seq_inv k (run s inp (S u)) -> in_reset k = false -> (0 < u)%nat -> v_doing (vr (S u)) = (k =? 36).
Proof.
  intros Q Rk Hu. destruct u as [|u]; [lia|]. destruct (pos_at s inp K u) as [k0 Q0]. destruct (si_at _ _ Q0) as (A1 & A2 & A3 & A4).
  assert (Rg : 0 <= seq_now (run s inp (S u)) (inp (S u)) < 256).
  { unfold seq_now, seq_adr. rewrite A4, A1, A2. pose proof (wf_mp_req _ (wfr (S u))) as W1. pose proof (rom_target k0) as W2. pose proof (live_range k0 (si_live _ _ Q0)). unfold inw in *.
    destruct (u_jmp (rom k0)), (test_now (run s inp (S u)) (inp (S u))); lia. }
  destruct (si_at _ _ Q) as (_ & B2 & _). change (run s inp (S (S u))) with (step (run s inp (S u)) (inp (S u))) in B2. unfold step in B2. rewrite nor in B2. cbn [s_next] in B2.
  rewrite vrun_S. unfold rvfi_step. rewrite nor. cbn [v_doing]. unfold CSR_DECODE_VALIDITY_ADDR.
  assert (k = seq_now (run s inp (S u)) (inp (S u))) as ->; [|reflexivity]. pose proof (live_range k (si_live _ _ Q)) as Lk.
  set (q := seq_now _ _) in *. clearbody q. change (2 ^ 8) with 256 in B2. destruct (Z.eq_dec q 255) as [->|]; [change ((255 + 1) mod 256) with 0 in B2; lia|]. rewrite Z.mod_small in B2 by lia. lia.
Qed.

Section W.
Variables (t t' : nat) (w : Z).
Hypothesis X : executes s inp t t' w.
Lemma in_set (G : list Z) u k : closed (fun _ => false) G = true -> forallb (fun k => negb (checks k)) G = true -> (t < u)%nat -> seq_inv k (run s inp u) -> In k G ->
  forall n, (u + n <= t')%nat -> (exists k', In k' G /\ seq_inv k' (run s inp (u + n))) /\ exc_now (run s inp (u + n)) (inp (u + n)%nat) = false.
Proof.
  intros Cl Ch Hu Q I.
  assert (Cm : forall u k, seq_inv k (run s inp u) -> In k G -> exc_now (run s inp u) (inp u) = false).
  { intros u0 k0 Q0 I0. destruct (exc_now _ _) eqn:Y; [|reflexivity]. pose proof (exc_checks k0 _ _ Q0 Y) as C. rewrite forallb_forall in Ch. specialize (Ch k0 I0). rewrite C in Ch. discriminate. }
  induction n as [|n IH]; intros Hn.
  - rewrite Nat.add_0_r. split; [exists k; auto|]. eapply Cm; eassumption.
  - destruct (IH ltac:(lia)) as [(k' & I' & Q') E'].
    destruct (walk s inp K (fun _ => false) G k' (u + n) 1 Cl Q' I') as (k2 & I2 & Q2).
    { intros u0 Hu0. assert (u0 = (u + n)%nat) by lia. subst u0. split; [|reflexivity]. split; [assumption|]. apply (win_commit s inp K t t' w X). lia. }
    replace (u + S n)%nat with (u + n + 1)%nat by lia. split; [exists k2; auto|]. eapply Cm; eassumption.
Qed.
Lemma writes_is k u : seq_inv k (run s inp u) -> gp_write (run s inp u) = writes_gp k.
Proof. intros Q. destruct (si_at _ _ Q) as (A1 & _). unfold gp_write, writes_gp. rewrite A1. reflexivity. Qed.

Variable e : nat.
Hypothesis He : (t < e <= t')%nat.
Hypothesis Ex : exc_now (run s inp e) (inp e) = true.
Lemma e_before : (e < t')%nat.
Proof.
  destruct (Nat.eq_dec e t') as [E|]; [|lia]. exfalso. destruct X as (_ & _ & (w' & F') & _). pose proof (wait_calm s inp K t' w' F') as Q. rewrite E in Ex. congruence.
Qed.
Lemma after u : (e < u <= t')%nat -> exists k, In k trap_set /\ seq_inv k (run s inp u) /\ exc_now (run s inp u) (inp u) = false.
Proof.
  intros Hu. destruct (win_pos s inp K t t' w X e He) as (k & Q & _). pose proof (pos_exc s inp K k e Q Ex) as Q1.
  assert (Ch : forallb (fun k => negb (checks k)) trap_set = true) by (vm_compute; reflexivity). assert (I : In 240 trap_set) by (vm_compute; tauto).
  destruct (in_set trap_set (S e) 240 trap_closed Ch ltac:(lia) Q1 I (u - S e)%nat ltac:(lia)) as [(k' & I' & Q') E']. replace (S e + (u - S e))%nat with u in * by lia. exists k'. auto.
Qed.
Lemma quiet u : (t < u <= t')%nat -> u <> e -> exc_now (run s inp u) (inp u) = false.
Proof.
  intros Hu N. destruct (Nat.lt_ge_cases e u) as [L|L]; [destruct (after u ltac:(lia)) as (k & _ & _ & E); exact E|].
  destruct (exc_now (run s inp u) (inp u)) eqn:E; [exfalso|reflexivity].
  destruct (win_pos s inp K t t' w X u ltac:(lia)) as (k & Q & _). pose proof (pos_exc s inp K k u Q E) as Q1.
  assert (Ch : forallb (fun k => negb (checks k)) trap_set = true) by (vm_compute; reflexivity). assert (I : In 240 trap_set) by (vm_compute; tauto).
  destruct (in_set trap_set (S u) 240 trap_closed Ch ltac:(lia) Q1 I (e - S u)%nat ltac:(lia)) as [_ E']. replace (S u + (e - S u))%nat with e in * by lia. congruence.
Qed.
Lemma no_write u : (t < u <= t')%nat -> gp_write (run s inp u) = false.
Proof.
  intros Hu. destruct (Nat.lt_ge_cases e u) as [L|L].
  - destruct (after u ltac:(lia)) as (k & I & Q & _). rewrite (writes_is k u Q). pose proof trap_quiet as T. rewrite forallb_forall in T. specialize (T k I).
    destruct (writes_gp k); [rewrite andb_false_r in T; discriminate T|reflexivity].
  - destruct (win_pos s inp K t t' w X u Hu) as (k & Q & R). rewrite (writes_is k u Q). destruct (writes_gp k) eqn:Wk; [exfalso|reflexivity].
    pose proof (on_live _ wrote_start k (si_live _ _ Q)) as H. cbv beta in H. rewrite R, Wk in H. cbn [orb negb] in H. apply memb_In in H.
    destruct (in_set wrote_set u k wrote_closed wrote_quiet ltac:(lia) Q H (e - u)%nat ltac:(lia)) as [_ E]. replace (u + (e - u))%nat with e in E by lia. congruence.
Qed.
Lemma stale : dat_w_mux (vr t') (run s inp t') = dat_w_mux (vr t) (run s inp t).
Proof.
  assert (P : forall n, (S t + n <= t')%nat -> v_datw (vr (S t + n)) = dat_w_mux (vr t) (run s inp t)).
  { induction n as [|n IH]; intros Hn.
    - rewrite Nat.add_0_r, vrun_S. unfold rvfi_step. rewrite nor. reflexivity.
    - rewrite Nat.add_succ_r, vrun_S. unfold rvfi_step. rewrite nor. cbn [v_datw]. rewrite no_write by lia. apply IH. lia. }
  unfold dat_w_mux at 1. rewrite no_write by lia. specialize (P (t' - S t)%nat ltac:(lia)). replace (S t + (t' - S t))%nat with t' in P by lia. exact P.
Qed.
Lemma rd_late : v_rd_addr (vr t') = if v_doing (vr e) then 0 else if rd_valid w then fld w 7 5 else 0.
Proof.
  assert (P : forall n, (S t + n <= t')%nat -> v_rd_addr (vr (S t + n)) = if (e <? S t + n)%nat && v_doing (vr e) then 0 else if rd_valid w then fld w 7 5 else 0).
  { induction n as [|n IH]; intros Hn.
    - rewrite Nat.add_0_r, vrun_S. unfold rvfi_step. rewrite nor. cbn [v_rd_addr]. rewrite (win_commit_t s inp K t t' w X), (wait_calm s inp K t w (proj1 X)), andb_false_r.
      destruct X as ((_ & _ & _ & E) & _). rewrite E. destruct (Nat.ltb_spec e (S t)); [lia|reflexivity].
    - rewrite Nat.add_succ_r, vrun_S. unfold rvfi_step. rewrite nor. cbn [v_rd_addr]. rewrite (win_commit s inp K t t' w X) by lia. rewrite IH by lia.
      destruct (Nat.eq_dec (S t + n) e) as [Q|Q].
      + rewrite Q, Ex, andb_true_r. destruct (Nat.ltb_spec e (S e)); [|lia]. destruct (Nat.ltb_spec e e); [lia|]. cbn [andb]. reflexivity.
      + rewrite (quiet (S t + n) ltac:(lia) Q), andb_false_r. destruct (Nat.ltb_spec e (S t + n)), (Nat.ltb_spec e (S (S t + n))); (reflexivity || lia). }
  pose proof e_before. specialize (P (t' - S t)%nat ltac:(lia)). replace (S t + (t' - S t))%nat with t' in P by lia. rewrite P. destruct (Nat.ltb_spec e t'); [reflexivity|lia].
Qed.
End W.

(** When the exception comes in the second decoding step. *)
Lemma doing_late t t' w : executes s inp t t' w -> forall e, (t < e <= t')%nat -> exc_now (run s inp e) (inp e) = true ->
  v_doing (vr e) = csr_word w && negb (mie_of (run s inp (S t)) && meie_of (run s inp (S t)) && irq (inp (t + 1)%nat)).
Proof.
  intros X e He Ex. destruct (win_start s inp K t t' w X) as (a & M & B & Q). pose proof (b_rel _ _ _ B) as R. pose proof (win_long s inp K t t' w X) as L.
  assert (I1 : mie_of (run s inp (S t)) && meie_of (run s inp (S t)) && irq (inp (t + 1)%nat) = intp a (irq (inp (S t)))).
  { replace (t + 1)%nat with (S t) by lia. rewrite <- (int_pending_rel a _ _ R). unfold int_pending, mie_of, meie_of. rewrite <- !andb_assoc. f_equal. apply andb_comm. }
  rewrite I1. pose proof (start_exc s inp t w a B) as E1.
  destruct (Nat.eq_dec e (S t)) as [->|N1].
  - rewrite E1 in Ex. rewrite vrun_S. unfold rvfi_step. rewrite nor. cbn [v_doing].
    assert (Sn : seq_now (run s inp t) (inp t) = 1). { pose proof (win_commit_t s inp K t t' w X) as C. unfold committed in C. apply andb_prop in C. destruct C as [_ C]. apply Z.eqb_eq in C. exact C. }
    rewrite Sn. change (1 =? CSR_DECODE_VALIDITY_ADDR) with false. symmetry. destruct (csr_word w) eqn:Cw; [|reflexivity].
    pose proof (illegal_first w (win_word s inp K t t' w X)) as Il. unfold csr_word in Cw. destruct (decode w) as [i|]; [|discriminate Cw]. destruct i; try discriminate Cw. rewrite Il in Ex. cbn [orb] in Ex. rewrite Ex. reflexivity.
  - pose proof (quiet t t' w X e He Ex (S t) ltac:(lia) ltac:(lia)) as X1. rewrite X1 in E1. symmetry in E1. apply orb_false_elim in E1. destruct E1 as [V1 I0]. rewrite I0, andb_true_r.
    destruct (decode w) as [i|] eqn:Dw.
    + destruct (is_csr i) eqn:C.
      * destruct i as [| | | | | | | | | | | | | |f rd g n]; try discriminate C. destruct (at_tramp s inp K t w a f rd g n B Dw X1) as (Q1 & E2 & Nx).
        unfold csr_word. rewrite Dw. cbn [is_csr]. destruct (Nat.eq_dec e (S (S t))) as [->|N2]; [apply (doing_at 36); [exact Q1|reflexivity|lia]|].
        pose proof (quiet t t' w X e He Ex (S (S t)) ltac:(lia) ltac:(lia)) as X2. destruct (Nx X2) as (imm & _ & Q2 & _).
        exfalso. rewrite (plain_calm s inp K t t' w X _ (S (S (S t))) ltac:(lia) Q2) in Ex; [discriminate Ex| |lia]. pose proof csr_plain as Cp. rewrite forallb_forall in Cp. apply memb_In. apply Cp. apply csr_in.
      * unfold csr_word. rewrite Dw, C. pose proof (at_entry s inp K t t' w X a i B Dw C X1) as Q1.
        destruct (win_pos s inp K t t' w X e He) as (k & Qk & Rk). destruct e as [|e']; [lia|]. rewrite (doing_at k e' Qk Rk ltac:(lia)). apply Z.eqb_neq. intros ->.
        assert (Ie : In (entry i) entry_set).
        { apply memb_In. pose proof entry_start as Es. rewrite forallb_forall in Es. apply Es. apply in_or_app. destruct (plain_entry i) eqn:Pe; [left; apply plain_in; exact Pe|right; apply risky_in].
          destruct i; try discriminate Pe; try discriminate C; try reflexivity; exfalso; pose proof (illegal_first w (win_word s inp K t t' w X)) as Il; rewrite Dw in Il; congruence. }
        destruct (walk s inp K (fun _ => false) entry_set (entry i) (S (S t)) (S e' - S (S t)) entry_closed Q1 Ie) as (k' & I' & Q').
        { intros u Hu. split; [|reflexivity]. split; [apply (quiet t t' w X (S e') He Ex); lia|apply (win_commit s inp K t t' w X); lia]. }
        replace (S (S t) + (S e' - S (S t)))%nat with (S e') in Q' by lia. pose proof (at_unique _ _ _ (si_at _ _ Q') (si_at _ _ Qk)) as ->. apply memb_In in I'. rewrite entry_tramp in I'. discriminate I'.
    + exfalso. pose proof (illegal_first w (win_word s inp K t t' w X)) as Il. rewrite Dw in Il. congruence.
Qed.
End P.

(** C52, for instructions that trap.  The report names the field [rd] of the instruction, except for
    branches, stores and fences and for CSR instructions refused (or interrupted) in their second
    decoding cycle; its [rd_wdata] repeats that of the report before.  No register is written. *)
Theorem C52_trap_reports_stale_destination : forall s inp v, ok s inp -> rvfi_fresh v ->
  forall t t' w x y, executed s inp t t' w x y -> traps s inp t w x -> let r := vrun v s inp t' in
  (forall q, 0 <= q < 32 -> x_of y q = x_of x q) /\
  v_rd_addr r = (if csr_word w && negb (mie_of x && meie_of x && irq (inp (t + 1)%nat)) then 0
                 else if (fld w 2 5 =? 0x18) || (fld w 2 5 =? 0x03) || (fld w 2 5 =? 0x08) then 0 else fld w 7 5) /\
  (v_rd_addr r = 0 -> rv_rd_wdata r (run s inp t') (inp t') = 0) /\
  (v_rd_addr r <> 0 -> forall t0 w0, executes s inp t0 t w0 -> v_rd_addr (vrun v s inp t) <> 0 ->
   rv_rd_wdata r (run s inp t') (inp t') = rv_rd_wdata (vrun v s inp t) (run s inp t) (inp t)).
Proof.
  intros s inp v K V t t' w x y E T r. pose proof E as (X & -> & ->). pose proof (proj2 (trap_iff s inp K t t' w X) T) as (e & He & Ex).
  split.
  { destruct (taken_dec s inp t w) as [I|I].
    - destruct (C21_interrupt s inp K t t' w _ _ E I) as [_ [(P1 & _) _]]. exact P1.
    - destruct T as [T|[c C]]; [congruence|]. destruct (C21_exception s inp K t t' w _ _ E I c C) as [_ ((P1 & _) & _)]. exact P1. }
  split. { unfold r. rewrite (rd_late s inp v K t t' w X e He Ex), (doing_late s inp v K t t' w X e He Ex). destruct (csr_word w && _); [reflexivity|].
    change (rd_valid w) with (negb ((fld w 2 5 =? 0x18) || (fld w 2 5 =? 0x03) || (fld w 2 5 =? 0x08))). destruct ((fld w 2 5 =? 0x18) || (fld w 2 5 =? 0x03) || (fld w 2 5 =? 0x08)); reflexivity. }
  unfold rv_rd_wdata. rewrite (win_commit_t' s inp K t t' w X). split; [intros ->; reflexivity|].
  intros N t0 w0 X0 N0. rewrite (win_commit_t s inp K t t' w X). apply Z.eqb_neq in N, N0. rewrite N, N0. apply (stale s inp v K t t' w X e He Ex).
Qed.

(** addi x1, x0, 5; lw x17, 0x101(x0): both reports say 5. *)
Example C52_trap_applies : exists x y, executed por in1 10 20 0x10102883 x y /\ traps por in1 10 0x10102883 x /\ executes por in1 6 10 0x00500093 /\
  v_rd_addr (vrun v0 por in1 10) = 1 /\ rv_rd_wdata (vrun v0 por in1 10) (run por in1 10) (in1 10%nat) = 5 /\
  v_rd_addr (vrun v0 por in1 20) = 17 /\ rv_rd_wdata (vrun v0 por in1 20) (run por in1 20) (in1 20%nat) = 5 /\ x_of y 17 = 0.
Proof.
  exists (run por in1 11), (run por in1 21).
  assert (B : bus_ok por in1) by (apply sys_bus_ok; [apply por_fresh|apply mem1_start]).
  assert (E : executed por in1 10 20 0x10102883 (run por in1 11) (run por in1 21)).
  { split; [|split; reflexivity]. apply (trace_executes 8 (fun _ => false) por mem1 24 [(6%nat, 0x00500093)] 10 0x10102883 20 0x00500093 []). vm_compute. reflexivity. }
  split; [exact E|]. split; [apply (C53_trap _ _ _ (bus_ok_ok _ _ B) rvfi_fresh_applies _ _ _ _ _ E); unfold in1; rewrite vsys_run; vm_compute; reflexivity|].
  split; [apply (trace_executes 8 (fun _ => false) por mem1 24 [] 6 0x00500093 10 0x10102883 [(20%nat, 0x00500093)]); vm_compute; reflexivity|].
  unfold in1. rewrite !vsys_run, !sys_run. vm_compute. repeat split; reflexivity.
Qed.

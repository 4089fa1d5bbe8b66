(** * The destination register RVFI reports *)
From Coq Require Import ZArith Lia Bool List.
From Verif Require Import Bits Ucode Cpu Isa Timed BitLemmas Wf Sym Blocks CsrBlocks DecodeOk Boundary Sim Main Obs PropsBus PropsInv Observe PropsIsa PropsFrame Rvfi RvfiTrace RvfiProps.
Import ListNotations.
Open Scope Z_scope.

(** ** Static facts *)
Definition is_none (o : csr_op) : bool := match o with CO_NONE => true | _ => false end.
Definition is_rd (o : reg_w_sel) : bool := match o with RW_INSN_RD => true | _ => false end.
Lemma rwrite_table : forallb (fun k => in_reset k || negb (u_rwrite (rom k)) || (is_none (u_csr (rom k)) && is_rd (u_wsel (rom k)))) live_list = true.
Proof. vm_compute. reflexivity. Qed.

(** Entry points of the instructions with a destination register, and what follows until
    a register is written. *)
Definition rd_entries : list Z := [0xd0; 0x50; 0xb0; 0x98; 0x25] ++
  map shifti_entry [SLL; SRL; SRA] ++ map opimm_entry [ADD; SLT; SLTU; XOR; OR; AND] ++ map shift_entry [SLL; SRL; SRA] ++ map op_entry [ADD; SUB; SLT; SLTU; XOR; OR; AND] ++
  flat_map (fun sz => [load_entry sz true; load_entry sz false]) [Byte; Half; Word] ++
  flat_map (fun f => flat_map (fun imm => [csr_entry f imm 1 0; csr_entry f imm 1 1]) [true; false]) [CSRRW; CSRRS; CSRRC].
Definition writes_gp (k : Z) : bool := u_rwrite (rom k) && negb (csr_is_write (u_csr (rom k))).
Definition rd_set := Eval vm_compute in clos writes_gp 3000 rd_entries [].
Lemma rd_closed : closed writes_gp rd_set = true. Proof. vm_compute. reflexivity. Qed.
Lemma rd_fetch : memb 0 rd_set = false /\ memb 182 rd_set = false. Proof. vm_compute. split; reflexivity. Qed.
Lemma rd_start : forallb (fun k => memb k rd_set) rd_entries = true. Proof. vm_compute. reflexivity. Qed.

Lemma entry_rd w i rd : decode w = Some i -> dest w = Some rd -> is_csr i = false -> In (entry i) rd_entries.
Proof.
  unfold dest. intros D H C. rewrite D in H.
  destruct i as [| | | |cc ? ? ?|sz sg ? ? ?|sz ? ? ?|f ? ? ?|f ? ? ?| | | | | |]; try discriminate; cbn [entry];
  [| | | |destruct sz, sg|destruct f|destruct f]; vm_compute; tauto.
Qed.
Lemma entry_csr_rd (b : bool) f imm rd rs1 : rd <> 0 -> In (if b then 0x25 else csr_entry f imm rd rs1) rd_entries.
Proof.
  intros N. destruct b; [vm_compute; tauto|].
  assert (E : csr_entry f imm rd rs1 = csr_entry f imm 1 (if rs1 =? 0 then 0 else 1)).
  { unfold csr_entry. destruct (Z.eqb_spec rd 0); [contradiction|]. destruct f, imm, (rs1 =? 0); reflexivity. }
  rewrite E. destruct f, imm, (rs1 =? 0); vm_compute; tauto.
Qed.

(** ** Decoding *)
Lemma opcode_of w : fld w 2 5 = fld (w mod 2 ^ 7) 2 5.
Proof. unfold fld, bits. change (2 ^ 7) with (4 * 32). change (2 ^ 2) with 4. change (2 ^ 5) with 32.
  rewrite Z.rem_mul_r by lia. rewrite (Z.mul_comm 4), Z.div_add by lia. rewrite (Z.div_small (w mod 4)) by (apply Z.mod_pos_bound; lia). rewrite Z.add_0_l, Z.mod_mod by lia. reflexivity.
Qed.
Definition rd_ok (w : Z) (i : instr) : bool :=
  match i with
  | Lui rd _ | Auipc rd _ | Jal rd _ | Jalr rd _ _ | Load _ _ rd _ _ | OpImm _ rd _ _ | OpReg _ rd _ _ | Csr _ rd _ _ => (rd =? fld w 7 5) && rd_valid w
  | Mret | Wfi => fld w 7 5 =? 0
  | Ecall | Ebreak => true
  | _ => negb (rd_valid w)
  end.
Lemma decode_rd w i : decode w = Some i -> rd_ok w i = true.
Proof.
  unfold decode. intros D. unfold rd_ok, rd_valid, i_opcode. change bits with fld. rewrite opcode_of.
  destruct (w mod 2 ^ 7) as [|p|p]; try discriminate D.
  repeat (destruct p as [p|p|]; try discriminate D);
  unfold decode_system, decode_op, decode_opimm, decode_branch, decode_store, decode_load in D; cases_in D;
  try (injection D as <-); rewrite ?Z.eqb_refl; try reflexivity.
  all: match goal with E : (?x =? _) = true |- _ => apply Z.eqb_eq in E; rewrite E; reflexivity end.
Qed.

Section P.
Variables (s : state) (inp : nat -> input) (v : rvfi).
Hypothesis K : ok s inp.
Hypothesis V : rvfi_fresh v.
Variables (t t' : nat) (w : Z).
Hypothesis X : executes s inp t t' w.
Notation vr t := (vrun v s inp t).
Notation com_t := (win_commit_t s inp K t t' w X).
Notation com_u := (win_commit s inp K t t' w X).
Notation nor := (no_rst s inp K).

Lemma win_pos u : (t < u <= t')%nat -> exists k, seq_inv k (run s inp u) /\ in_reset k = false.
Proof.
  intros Hu. replace u with (S t + (u - S t))%nat by lia. generalize (u - S t)%nat as n. clear u Hu. induction n as [|n IH].
  - rewrite Nat.add_0_r. destruct (win_start s inp K t t' w X) as (_ & _ & _ & Q). exists 1. auto.
  - destruct IH as (k & Q & R). rewrite Nat.add_succ_r. destruct K as [F E _].
    destruct (seq_inv_step k _ (inp (S t + n)%nat) Q ltac:(apply E) ltac:(apply E)) as (k' & Q' & R'). exists k'. split; [exact Q'|].
    destruct (in_reset k'); [rewrite R' in R by reflexivity; discriminate|reflexivity].
Qed.
Lemma win_decode u : (t < u < t')%nat -> do_decode (run s inp u) (inp u) = false.
Proof.
  intros Hu. destruct (do_decode _ _) eqn:Dd; [exfalso|reflexivity]. unfold do_decode in Dd. apply andb_prop in Dd. destruct Dd as [Fe Ak].
  destruct (win_pos u ltac:(lia)) as (k & Q & _). pose proof (on_live _ fetch_requests k (si_live _ _ Q)) as Fr. cbv beta in Fr.
  destruct (si_at _ _ Q) as (A1 & _). rewrite A1 in Fe. rewrite Fe in Fr. cbn [negb orb] in Fr.
  destruct X as (_ & _ & _ & N). apply (N u (dat_r (inp u)) Hu). repeat split; try assumption; [rewrite (pos_cyc s inp k u Q)|rewrite A1]; assumption.
Qed.
Lemma dst_is u : (t < u <= t')%nat -> s_dst (run s inp u) = fld w 7 5.
Proof.
  intros Hu. replace u with (S t + (u - S t))%nat by lia. assert (Hn : (u - S t <= t' - S t)%nat) by lia. revert Hn. generalize (u - S t)%nat as n. clear u Hu. induction n as [|n IH]; intros Hn.
  - rewrite Nat.add_0_r. cbn [run]. unfold step. rewrite nor. cbn [s_dst]. destruct X as ((C & U & A & E) & _). unfold do_decode. rewrite U, A, E. reflexivity.
  - rewrite Nat.add_succ_r. cbn [run]. unfold step. rewrite nor. cbn [s_dst]. rewrite win_decode by lia. apply IH. lia.
Qed.
(** A write to a general-purpose register goes to the destination field; no other write
    touches it. *)
Lemma gp_mem u : (t < u <= t')%nat -> fld w 7 5 <> 0 ->
  s_mem (run s inp (S u)) (fld w 7 5) = if gp_write (run s inp u) then s_alu (run s inp u) else s_mem (run s inp u) (fld w 7 5).
Proof.
  intros Hu N. destruct (win_pos u Hu) as (k & Q & R). cbn [run]. unfold step. rewrite nor. cbn [s_mem]. rewrite (dst_is u Hu).
  destruct (si_at _ _ Q) as (A1 & _). unfold gp_write. rewrite !A1.
  pose proof (on_live _ rwrite_table k (si_live _ _ Q)) as T. cbv beta in T. rewrite R in T. cbn [orb] in T.
  pose proof (fld_range w 7 5 ltac:(lia)) as Hr.
  unfold rf_mem_next, rf_wen, rf_waddr, rf_wdata, csr_is_write, reg_w_adr, allow_zero_wr.
  destruct (u_rwrite (rom k)); cbn [negb orb andb] in T |- *.
  - apply andb_prop in T. destruct T as [T1 T2]. destruct (u_csr (rom k)); try discriminate T1. destruct (u_wsel (rom k)); try discriminate T2.
    cbn [b2z negb]. destruct (Z.eqb_spec (fld w 7 5) 0); [contradiction|]. cbn [negb]. unfold upd. rewrite Z.eqb_refl. reflexivity.
  - clear T. destruct (u_csr (rom k)); try reflexivity. unfold upd.
    assert (C : 0 <= csr_adr (rom k) (mp_enc (s_map (run s inp u)))).
    { unfold csr_adr. destruct (u_csel (rom k)).
      - assert (W : wf (run s inp u)) by (apply run_wf; [destruct K as [(u0 & m & rd & -> & W) _ _]; exact W|apply K]). pose proof (wf_mp_enc _ W) as We. unfold inw in We. lia.
      - unfold bits. apply Z.mod_pos_bound. lia. }
    destruct (Z.eqb_spec (fld w 7 5) (2 ^ 5 + csr_adr (rom k) (mp_enc (s_map (run s inp u))))); [|reflexivity]. change (2 ^ 5) with 32 in *. lia.
Qed.

Lemma datw_is : fld w 7 5 <> 0 -> (exists g, (t < g <= t')%nat /\ gp_write (run s inp g) = true) ->
  dat_w_mux (vr t') (run s inp t') = x_of (run s inp (S t')) (fld w 7 5).
Proof.
  intros N Ex.
  assert (P : forall n, (S t + n <= t')%nat -> (exists g, (t < g < S t + n)%nat /\ gp_write (run s inp g) = true) ->
              v_datw (vr (S t + n)) = s_mem (run s inp (S t + n)) (fld w 7 5)).
  { induction n as [|n IH]; intros Hn (g & Hg & G); [lia|].
    rewrite Nat.add_succ_r, vrun_S. unfold rvfi_step. rewrite nor. cbn [v_datw]. rewrite gp_mem by (assumption || lia).
    destruct (gp_write (run s inp (S t + n))) eqn:G'; [reflexivity|]. apply IH; [lia|]. exists g. split; [|assumption].
    destruct (Nat.eq_dec g (S t + n)) as [->|]; [congruence|lia]. }
  assert (L : (t < t')%nat) by apply X. unfold dat_w_mux, x_of. rewrite gp_mem by (assumption || lia). destruct (gp_write (run s inp t')) eqn:G'; [reflexivity|].
  specialize (P (t' - S t)%nat). replace (S t + (t' - S t))%nat with t' in P by lia. apply P; [lia|].
  destruct Ex as (g & Hg & G). exists g. split; [|assumption]. destruct (Nat.eq_dec g t') as [->|]; [congruence|lia].
Qed.

Lemma rd_written k u : (t < u <= t')%nat -> seq_inv k (run s inp u) -> In k rd_entries -> (forall m, (u <= m <= t')%nat -> exc_now (run s inp m) (inp m) = false) ->
  exists g, (t < g <= t')%nat /\ gp_write (run s inp g) = true.
Proof.
  intros Hu Q I Nx.
  assert (Dec : (exists g, (t < g <= t')%nat /\ gp_write (run s inp g) = true) \/ forall g, (t < g <= t')%nat -> gp_write (run s inp g) = false).
  { assert (P : forall n, (exists g, (t < g <= t + n)%nat /\ gp_write (run s inp g) = true) \/ forall g, (t < g <= t + n)%nat -> gp_write (run s inp g) = false).
    { induction n as [|n [(g & Hg & G)|IH]].
      - right. intros; lia.
      - left. exists g. split; [lia|assumption].
      - destruct (gp_write (run s inp (t + S n))) eqn:G.
        + left. exists (t + S n)%nat. split; [lia|assumption].
        + right. intros g Hg. destruct (Nat.eq_dec g (t + S n)) as [->|]; [assumption|]. apply IH. lia. }
    specialize (P (t' - t)%nat). replace (t + (t' - t))%nat with t' in P by lia. exact P. }
  destruct Dec as [?|No]; [assumption|exfalso].
  assert (Gk : forall j m, seq_inv j (run s inp m) -> (t < m <= t')%nat -> writes_gp j = false).
  { intros j m Qj Hm. specialize (No m Hm). unfold gp_write in No. destruct (si_at _ _ Qj) as (A1 & _). rewrite A1 in No. exact No. }
  pose proof rd_start as Rs. rewrite forallb_forall in Rs. specialize (Rs k I). apply memb_In in Rs.
  destruct (walk s inp K writes_gp rd_set k u (t' - u)%nat rd_closed Q Rs) as (k' & I' & Q').
  { intros m Hm. split; [split|].
    - apply Nx. lia.
    - apply com_u. lia.
    - intros j Qj. apply (Gk j m Qj). lia. }
  replace (u + (t' - u))%nat with t' in Q' by lia.
  destruct X as (_ & _ & (w' & F') & _). destruct (fetch_pos s inp K t' w' F') as (a & _ & (A & _) & _). destruct rd_fetch as [R0 R182].
  apply memb_In in I'.
  destruct A as [A|[A|A]]; pose proof (at_unique _ _ _ (si_at _ _ Q') A) as E; subst k'; try congruence.
  pose proof (Gk _ _ Q' ltac:(lia)) as G. vm_compute in G. discriminate G.
Qed.

(** Without a trap. *)
Hypothesis NT : ~ traps s inp t w (run s inp (S t)).
Lemma no_exc u : (t < u <= t')%nat -> exc_now (run s inp u) (inp u) = false.
Proof.
  intros Hu. destruct (exc_now _ _) eqn:E; [|reflexivity]. exfalso. apply NT. apply (trap_iff s inp K t t' w X). exists u. auto.
Qed.
Lemma rd_addr_raw : v_rd_addr (vr t') = if rd_valid w then fld w 7 5 else 0.
Proof.
  apply (held s inp v t t' w X).
  - rewrite vrun_S. unfold rvfi_step. rewrite nor. cbn [v_rd_addr]. rewrite com_t, (wait_calm s inp K t w (proj1 X)), andb_false_r. destruct X as ((_ & _ & _ & E) & _). rewrite E. reflexivity.
  - intros u Hu. rewrite vrun_S. unfold rvfi_step. rewrite nor. cbn [v_rd_addr]. rewrite (no_exc u ltac:(lia)), andb_false_r, com_u by lia. reflexivity.
Qed.
Lemma decoded : exists i, decode w = Some i /\ i <> Ecall /\ i <> Ebreak.
Proof.
  destruct (decode w) as [i|] eqn:D.
  - exists i. split; [reflexivity|]. split; intros ->; apply NT; right; unfold sync_cause; rewrite D; eexists; reflexivity.
  - exfalso. apply NT. right. unfold sync_cause. rewrite D. eexists; reflexivity.
Qed.
Lemma rd_addr_is : v_rd_addr (vr t') = match dest w with Some rd => rd | None => 0 end.
Proof.
  rewrite rd_addr_raw. destruct decoded as (i & D & N1 & N2). pose proof (decode_rd w i D) as R. unfold dest. rewrite D. unfold rd_ok in R.
  destruct i; try (exfalso; congruence); try (apply negb_true_iff in R; rewrite R; reflexivity);
  try (apply Z.eqb_eq in R; rewrite R; destruct (rd_valid w); reflexivity);
  apply andb_prop in R; destruct R as [R1 R2]; apply Z.eqb_eq in R1; rewrite R2; congruence.
Qed.
Lemma dest_written rd : dest w = Some rd -> rd <> 0 -> rd = fld w 7 5 /\ exists g, (t < g <= t')%nat /\ gp_write (run s inp g) = true.
Proof.
  intros H N. destruct decoded as (i & D & N1 & N2). pose proof (decode_rd w i D) as R.
  assert (E : rd = fld w 7 5).
  { unfold dest in H. rewrite D in H. unfold rd_ok in R. destruct i; try discriminate H; injection H as <-; apply andb_prop in R; destruct R as [R1 _]; apply Z.eqb_eq in R1; congruence. }
  split; [exact E|]. destruct (win_start s inp K t t' w X) as (a & M & B & Q). pose proof (win_long s inp K t t' w X) as L.
  destruct (is_csr i) eqn:C.
  - destruct i as [| | | | | | | | | | | | | |f rd' g n]; try discriminate C.
    destruct (at_tramp s inp K t w a f rd' g n B D (no_exc (S t) ltac:(lia))) as (Q1 & _ & Nx).
    destruct (Nx (no_exc (S (S t)) ltac:(lia))) as (imm & _ & Q2 & _).
    apply (rd_written _ (S (S (S t))) ltac:(destruct (Nat.eq_dec (S (S t)) t') as [E2|]; [|lia]; exfalso; destruct X as (_ & _ & (w' & Cy & _) & _); rewrite <- E2, (pos_cyc s inp 36 _ Q1) in Cy; discriminate Cy) Q2).
    + apply entry_csr_rd. congruence.
    + intros m Hm. apply no_exc. lia.
  - pose proof (at_entry s inp K t t' w X a i B D C (no_exc (S t) ltac:(lia))) as Q1.
    apply (rd_written _ (S (S t)) ltac:(lia) Q1).
    + apply (entry_rd w i rd D H C).
    + intros m Hm. apply no_exc. lia.
Qed.
Lemma rd_wdata_is : rv_rd_wdata (vr t') (run s inp t') (inp t') = if v_rd_addr (vr t') =? 0 then 0 else x_of (run s inp (S t')) (v_rd_addr (vr t')).
Proof.
  unfold rv_rd_wdata. rewrite (win_commit_t' s inp K t t' w X). destruct (Z.eqb_spec (v_rd_addr (vr t')) 0) as [|N]; [reflexivity|].
  rewrite rd_addr_is in N |- *. destruct (dest w) as [rd|] eqn:H; [|contradiction]. destruct (dest_written rd H N) as [-> G]. apply datw_is; assumption.
Qed.
Theorem rd_effect r : 0 <= r < 32 ->
  x_of (run s inp (S t')) r = if r =? v_rd_addr (vr t') then rv_rd_wdata (vr t') (run s inp t') (inp t') else x_of (run s inp (S t)) r.
Proof.
  intros Hr. rewrite rd_wdata_is. destruct (Z.eqb_spec r (v_rd_addr (vr t'))) as [E|N].
  - destruct (Z.eqb_spec (v_rd_addr (vr t')) 0) as [Z0|]; [|congruence]. rewrite E, Z0.
    destruct X as (_ & _ & (w' & F') & _). destruct (fetch_pos s inp K t' w' F') as (a & _ & _ & B). pose proof (r_x _ _ _ _ _ _ _ _ (b_rel _ _ _ B) 0 ltac:(lia)) as R0. unfold x_of. rewrite <- R0. reflexivity.
  - apply (C27_other_registers_unchanged s inp K t t' w (run s inp (S t)) (run s inp (S t')) ltac:(repeat split; apply X || reflexivity) r Hr).
    intros H. apply N. rewrite rd_addr_is, H. reflexivity.
Qed.
End P.

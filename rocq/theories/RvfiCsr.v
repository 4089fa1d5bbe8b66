(** * The CSR values RVFI reports *)
From Coq Require Import ZArith Lia Bool List.
From Verif Require Import Bits Ucode Cpu Isa Timed BitLemmas Wf Sym Blocks CsrBlocks DecodeOk Boundary Sim Main Obs PropsBus PropsInv Observe PropsIsa PropsFrame Rvfi RvfiTrace RvfiProps RvfiRd.
Import ListNotations.
Open Scope Z_scope.

(** ** Static facts *)
Definition moves_mstatus (k : Z) : bool := match u_exc (rom k) with X_ENTER_INT | X_LEAVE_INT => true | _ => false end.
Definition writes_csr (k : Z) : bool := csr_is_write (u_csr (rom k)).
Lemma before_182 : forallb (fun k => negb (u_mreq (rom k)) ||
  match next_of k true, next_of k false with Some a, Some b => negb (a =? 182) && negb (b =? 182) | _, _ => false end) live_list = true.
Proof. vm_compute. reflexivity. Qed.
Lemma own_write : forallb (fun k => in_reset k || negb (writes_csr k) || (240 <=? k) || match u_csel (rom k) with CS_INSN_CSR => true | _ => false end) live_list = true.
Proof. vm_compute. reflexivity. Qed.
(** From the entry points other than MRET's, without an exception. *)
Definition quiet_entries := [0xd0; 0x50; 0x30] ++
  map shifti_entry [SLL; SRL; SRA] ++ map opimm_entry [ADD; SLT; SLTU; XOR; OR; AND] ++ map shift_entry [SLL; SRL; SRA] ++ map op_entry [ADD; SUB; SLT; SLTU; XOR; OR; AND]
  ++ risky_entries ++ csr_entries.
Definition quiet_set := Eval vm_compute in clos (fun _ => false) 3000 quiet_entries [].
Lemma quiet_closed : closed (fun _ => false) quiet_set = true. Proof. vm_compute. reflexivity. Qed.
Lemma quiet_start : forallb (fun k => memb k quiet_set) quiet_entries = true. Proof. vm_compute. reflexivity. Qed.
Lemma quiet_moves : forallb (fun k => negb (moves_mstatus k) && (k <? 240)) quiet_set = true. Proof. vm_compute. reflexivity. Qed.
Lemma quiet_in i : is_csr i = false -> i <> Ecall -> i <> Ebreak -> i <> Mret -> In (entry i) quiet_entries.
Proof.
  intros C N1 N2 N3. destruct (risky i) eqn:R. { unfold quiet_entries. rewrite !in_app_iff. do 5 right. left. apply risky_in. assumption. }
  destruct i as [| | | |cc ? ? ?|sz sg ? ? ?|sz ? ? ?|f ? ? ?|f ? ? ?| | | | | |]; try discriminate; try contradiction; cbn [entry]; try (destruct f); vm_compute; tauto.
Qed.
(** From the entry points of the CSR instructions that write, until the CSR is written. *)
Definition cw_entries : list Z := flat_map (fun f : csr_fn => flat_map (fun imm : bool => flat_map (fun rd : Z => csr_entry f imm rd 1 :: match f with CSRRW => [csr_entry f imm rd 0] | _ => [] end) [0; 1]) [true; false]) [CSRRW; CSRRS; CSRRC].
Definition cw_set := Eval vm_compute in clos writes_csr 3000 cw_entries [].
Lemma cw_closed : closed writes_csr cw_set = true. Proof. vm_compute. reflexivity. Qed.
Lemma cw_start : forallb (fun k => memb k cw_set) cw_entries = true. Proof. vm_compute. reflexivity. Qed.
Lemma cw_fetch : memb 0 cw_set = false /\ memb 181 cw_set = false. Proof. vm_compute. split; reflexivity. Qed.
Lemma cw_in f (imm : bool) rd rs1 : csr_writes f (if imm then CImm rs1 else CReg rs1) = true -> In (csr_entry f imm rd rs1) cw_entries.
Proof.
  intros H. assert (E : csr_entry f imm rd rs1 = csr_entry f imm (if rd =? 0 then 0 else 1) (if rs1 =? 0 then 0 else 1)).
  { unfold csr_entry. destruct f, imm, (rd =? 0), (rs1 =? 0); reflexivity. }
  assert (N : f <> CSRRW -> (rs1 =? 0) = false).
  { intros Nf. destruct f; [contradiction| |]; destruct imm; cbn in H; apply negb_true_iff in H; assumption. }
  rewrite E. destruct f; [|rewrite N by discriminate|rewrite N by discriminate]; destruct imm, (rd =? 0), (rs1 =? 0); vm_compute; tauto.
Qed.

(** The CSRs with a value the core changes only by writing it; MSTATUS is treated apart. *)
Definition plain_csrs : list Z := [0x304; 0x305; 0x340; 0x341; 0x342].

(** How one cycle changes a CSR. *)
Lemma bz_bit d i : 0 <= i -> bz (bitb d i) = bz (Z.testbit d i).
Proof. intros. rewrite testbit_bitb by assumption. reflexivity. Qed.
Lemma csr_change n c i : wf c -> rst i = false -> In n plain_csrs \/ (n = 0x300 /\ u_exc (s_u c) <> X_ENTER_INT /\ u_exc (s_u c) <> X_LEAVE_INT) ->
  csr_of (step c i) false n = if csr_written c (csr_enc n) then warl n (s_alu c) else csr_of c false n.
Proof.
  intros W Nr Hn.
  assert (Mem : forall a, 0 <= a < 16 -> s_mem (step c i) (2 ^ 5 + a) = if csr_written c a then csr_dat_w a (s_alu c) else s_mem c (2 ^ 5 + a)).
  { intros a Ha. unfold step. rewrite Nr. cbn [s_mem]. unfold csr_written.
    pose proof (wf_dst _ W) as Hr. unfold inw in Hr. change (2 ^ 5) with 32 in *.
    unfold rf_mem_next, rf_wen, rf_waddr, rf_wdata, csr_is_write, reg_w_adr, allow_zero_wr.
    destruct (u_csr (s_u c)); cbn [andb]; try reflexivity.
    - destruct (_ && _); [|reflexivity]. unfold upd. destruct (Z.eqb_spec (32 + a) (match u_wsel (s_u c) with RW_INSN_RD => s_dst c | RW_ZERO => 0 end)) as [E|]; [|reflexivity].
      destruct (u_wsel (s_u c)); lia.
    - unfold upd. change (2 ^ 5) with 32. set (ca := csr_adr _ _). destruct (Z.eqb_spec (32 + a) (32 + ca)); destruct (Z.eqb_spec ca a); try lia; try reflexivity. subst ca. congruence. }
  assert (Lc : forall d, 4 * (d / 4) = d - d mod 4) by (intros; apply low_clear).
  destruct Hn as [Hn|(-> & N1 & N2)].
  - unfold plain_csrs in Hn. cbn [In] in Hn. destruct Hn as [<-|[<-|[<-|[<-|[<-|[]]]]]].
    + change (csr_enc 0x304) with 4. unfold csr_of, warl, meie_of. unfold step. rewrite Nr. cbn [s_csr csr_next c_meie]. unfold csr_written. change CSR_MIE with 4.
      destruct (csr_is_write _ && _); [|reflexivity]. rewrite land_800, bz_bit by lia. reflexivity.
    + change (csr_enc 0x305) with 5. unfold csr_of, warl, mtvec_of. change 37 with (2 ^ 5 + 5). rewrite (Mem 5 ltac:(lia)). unfold csr_dat_w. change ((5 =? CSR_MTVEC) || (5 =? CSR_MEPC)) with true. rewrite <- Lc. reflexivity.
    + change (csr_enc 0x340) with 8. unfold csr_of, warl, mscratch_of. change 40 with (2 ^ 5 + 8). rewrite (Mem 8 ltac:(lia)). reflexivity.
    + change (csr_enc 0x341) with 9. unfold csr_of, warl, mepc_of. change 41 with (2 ^ 5 + 9). rewrite (Mem 9 ltac:(lia)). rewrite <- Lc. reflexivity.
    + change (csr_enc 0x342) with 10. unfold csr_of, warl, mcause_of. change 42 with (2 ^ 5 + 10). rewrite (Mem 10 ltac:(lia)). reflexivity.
  - change (csr_enc 0x300) with 0. unfold csr_of, warl, mie_of, mpie_of. unfold step. rewrite Nr. cbn [s_csr csr_next c_mie c_mpie]. unfold csr_written. change CSR_MSTATUS with 0.
    destruct (u_exc (s_u c)); try congruence; destruct (csr_is_write _ && _); try reflexivity; rewrite land_88, !bz_bit by lia; lia.
Qed.

Section P.
Variables (s : state) (inp : nat -> input) (v : rvfi).
Hypothesis B : bus_ok s inp.
Hypothesis V : rvfi_fresh v.
Variables (t t' : nat) (w : Z).
Hypothesis X : executes s inp t t' w.
Let K : ok s inp := bus_ok_ok s inp B.
Notation vr t := (vrun v s inp t).
Notation com_t := (win_commit_t s inp K t t' w X).
Notation com_u := (win_commit s inp K t t' w X).
Notation nor := (no_rst s inp K).

(** With a registered ACK the CSR is never written in a commit cycle. *)
Lemma commit_place u wu : fetch_done s inp u wu -> at_ 0 (run s inp u) \/ at_ 181 (run s inp u).
Proof.
  intros F. destruct (fetch_pos s inp K u wu F) as (a & _ & (A & _) & _). destruct A as [A|[A|A]]; auto. exfalso.
  destruct F as (Cy & _ & Ak & _). destruct (ok_ack _ _ B u Cy Ak) as (u' & -> & Cy').
  destruct u' as [|u']. { destruct (cyc0 s inp K) as [C0 _]. cbn [run] in Cy'. congruence. }
  destruct (pos_at s inp K u') as [k Q]. rewrite (pos_cyc s inp k _ Q) in Cy'.
  pose proof (on_live _ before_182 k (si_live _ _ Q)) as H. cbv beta in H. rewrite Cy' in H. cbn [negb orb] in H.
  destruct (si_at _ _ Q) as (A1 & A2 & A3 & A4). destruct A as (_ & B2 & _).
  assert (N : forall b, next_of k b = Some 182 -> False).
  { intros b Hb. destruct (next_of k true) as [n1|] eqn:E1; [|discriminate H]. destruct (next_of k false) as [n2|] eqn:E2; [|discriminate H].
    apply andb_prop in H. rewrite !negb_true_iff, !Z.eqb_neq in H. destruct b; [rewrite E1 in Hb|rewrite E2 in Hb]; injection Hb as Hb; lia. }
  apply (N (test_now (run s inp (S u')) (inp (S u')))).
  assert (Sn : seq_now (run s inp (S u')) (inp (S u')) = 182).
  { change (run s inp (S (S u'))) with (step (run s inp (S u')) (inp (S u'))) in B2. unfold step in B2. rewrite nor in B2. cbn [s_next] in B2.
    assert (Rg : 0 <= seq_now (run s inp (S u')) (inp (S u')) < 256).
    { unfold seq_now, seq_adr. rewrite A4, A1, A2.
      assert (W : wf (run s inp (S u'))) by (apply run_wf; [destruct K as [(u0 & m & rd & -> & W) _ _]; exact W|apply K]).
      pose proof (wf_mp_req _ W) as W1. pose proof (rom_target k) as W2. pose proof (live_range k (si_live _ _ Q)). unfold inw in *.
      destruct (u_jmp (rom k)), (test_now (run s inp (S u')) (inp (S u'))); lia. }
    change (182 + 1) with 183 in B2. clear - B2 Rg. set (q := seq_now _ _) in *. clearbody q. change (2 ^ 8) with 256 in B2.
    destruct (Z.eq_dec q 255) as [->|]; [discriminate B2|]. rewrite Z.mod_small in B2 by lia. lia. }
  rewrite <- Sn. unfold seq_now, seq_adr. rewrite A4, A1, A2. unfold next_of in *.
  destruct (u_jmp (rom k)); try reflexivity; try discriminate H.
Qed.

Lemma no_write_commit u wu c : fetch_done s inp u wu -> csr_written (run s inp u) c = false.
Proof. intros F. unfold csr_written. destruct (commit_place u wu F) as [(A1 & _)|(A1 & _)]; rewrite A1; reflexivity. Qed.
Lemma no_move_commit u wu : fetch_done s inp u wu -> u_exc (s_u (run s inp u)) <> X_ENTER_INT /\ u_exc (s_u (run s inp u)) <> X_LEAVE_INT.
Proof. intros F. destruct (commit_place u wu F) as [(A1 & _)|(A1 & _)]; rewrite A1; split; discriminate. Qed.

Lemma mpp3 u : (t < u)%nat -> c_mpp (s_csr (run s inp u)) = 3.
Proof.
  intros Hu. replace u with (S t + (u - S t))%nat by lia. generalize (u - S t)%nat as n. clear u Hu. induction n as [|n IH].
  - rewrite Nat.add_0_r. destruct (win_start s inp K t t' w X) as (a & _ & Bd & _). apply (r_mpp _ _ _ _ _ _ _ _ (b_rel _ _ _ Bd)).
  - rewrite Nat.add_succ_r. cbn [run]. unfold step. rewrite nor. cbn [s_csr csr_next c_mpp]. exact IH.
Qed.
Lemma csr_step n u : In n plain_csrs \/ (n = 0x300 /\ u_exc (s_u (run s inp u)) <> X_ENTER_INT /\ u_exc (s_u (run s inp u)) <> X_LEAVE_INT) ->
  csr_of (run s inp (S u)) false n = if csr_written (run s inp u) (csr_enc n) then warl n (s_alu (run s inp u)) else csr_of (run s inp u) false n.
Proof. intros H. cbn [run]. apply csr_change; [apply run_wf; [destruct K as [(u0 & m & rd & -> & W) _ _]; exact W|apply K]|apply nor|assumption]. Qed.

(** What the harness samples. *)
Lemma rd_step n u : (t < u <= t')%nat -> In n (0x300 :: plain_csrs) ->
  v_csr_rdata (vr (S u)) (csr_enc n) =
    if v_hold (vr u) (csr_enc n) then v_csr_rdata (vr u) (csr_enc n)
    else if in_ram (csr_enc n) then if csr_written (run s inp u) (csr_enc n) then v_csr_rdata (vr u) (csr_enc n) else csr_of (run s inp (S u)) false n
    else csr_of (run s inp u) false n.
Proof.
  intros Hu Hn. rewrite vrun_S. unfold rvfi_step. rewrite nor. cbn [v_csr_rdata].
  cbn [In plain_csrs] in Hn. destruct Hn as [<-|[<-|[<-|[<-|[<-|[<-|[]]]]]]].
  all: match goal with |- context[csr_enc ?n] => let c := eval vm_compute in (csr_enc n) in change (csr_enc n) with c end;
       match goal with |- context[in_ram ?c] => let b := eval vm_compute in (in_ram c) in change (in_ram c) with b end; cbv iota;
       destruct (v_hold _ _) eqn:Eh; cbn [negb andb]; try reflexivity.
  - unfold csr_reg, csr_of, mpie_of, mie_of. cbn [Z.eqb CSR_MIP CSR_MIE]. change (0 =? CSR_MIP) with false. change (0 =? CSR_MIE) with false. cbv iota.
    rewrite mpp3 by lia. unfold b2z, bz. lia.
  - destruct (csr_written _ _); reflexivity.
  - destruct (csr_written _ _); reflexivity.
  - destruct (csr_written _ _); reflexivity.
  - destruct (csr_written _ _); reflexivity.
Qed.

Lemma hold_start c : v_hold (vr (S t)) c = false.
Proof. rewrite vrun_S. unfold rvfi_step. rewrite nor. cbn [v_hold]. rewrite com_t. rewrite (no_write_commit t w) by apply X. reflexivity. Qed.
Lemma first_written c : csr_written (run s inp (S t)) c = false.
Proof. destruct (win_start s inp K t t' w X) as (a & _ & _ & Q). destruct (si_at _ _ Q) as (A1 & _). unfold csr_written. rewrite A1. reflexivity. Qed.
Lemma first_moves : u_exc (s_u (run s inp (S t))) <> X_ENTER_INT /\ u_exc (s_u (run s inp (S t))) <> X_LEAVE_INT.
Proof. destruct (win_start s inp K t t' w X) as (a & _ & _ & Q). destruct (si_at _ _ Q) as (A1 & _). rewrite A1. split; discriminate. Qed.

Definition still (n : Z) : Prop := In n plain_csrs \/ (n = 0x300 /\ forall u, (t < u <= t')%nat -> u_exc (s_u (run s inp u)) <> X_ENTER_INT /\ u_exc (s_u (run s inp u)) <> X_LEAVE_INT).
Lemma still_in n : still n -> In n (0x300 :: plain_csrs). Proof. intros [H|[-> _]]; [right|left]; auto. Qed.
Lemma still_step n u : (t < u <= t')%nat -> still n ->
  csr_of (run s inp (S u)) false n = if csr_written (run s inp u) (csr_enc n) then warl n (s_alu (run s inp u)) else csr_of (run s inp u) false n.
Proof. intros Hu H. apply csr_step. destruct H as [H|[-> H]]; [left; assumption|right]. split; [reflexivity|]. apply H. assumption. Qed.

Lemma csr_inv n : still n -> forall u, (S (S t) <= u <= t')%nat ->
  v_csr_rdata (vr u) (csr_enc n) = csr_of (run s inp (S t)) false n /\
  if v_hold (vr u) (csr_enc n) then csr_of (run s inp u) false n = warl n (v_csr_wdata (vr u) (csr_enc n))
  else csr_of (run s inp u) false n = csr_of (run s inp (S t)) false n.
Proof.
  intros Hn u Hu. replace u with (S (S t) + (u - S (S t)))%nat by lia. assert (Hm : (u - S (S t) <= t' - S (S t))%nat) by lia. revert Hm. generalize (u - S (S t))%nat as m. clear u Hu.
  pose proof (win_long s inp K t t' w X) as L.
  induction m as [|m IH]; intros Hm.
  - rewrite Nat.add_0_r. rewrite rd_step by (lia || apply still_in; assumption). rewrite (still_step n (S t)) by (assumption || lia). rewrite hold_start, first_written.
    split; [destruct (in_ram _); reflexivity|]. rewrite vrun_S. unfold rvfi_step. rewrite nor. cbn [v_hold]. rewrite first_written, com_u, hold_start by lia. reflexivity.
  - specialize (IH ltac:(lia)). rewrite Nat.add_succ_r. set (u := (S (S t) + m)%nat) in *. destruct IH as [I1 I2].
    rewrite rd_step by (lia || apply still_in; assumption). rewrite (still_step n u) by (assumption || lia).
    rewrite vrun_S. unfold rvfi_step. rewrite nor. cbn [v_hold v_csr_wdata]. rewrite com_u by lia.
    destruct (v_hold (vr u) (csr_enc n)) eqn:Eh.
    + split; [exact I1|]. destruct (csr_written _ _); [reflexivity|exact I2].
    + split; [|destruct (csr_written _ _); [reflexivity|exact I2]].
      destruct (in_ram _); [destruct (csr_written _ _); assumption|]. exact I2.
Qed.

Lemma end_written c : csr_written (run s inp t') c = false.
Proof. destruct X as (_ & _ & (w' & F') & _). apply (no_write_commit t' w'). exact F'. Qed.
Lemma csr_report n : still n ->
  v_csr_rdata (vr t') (csr_enc n) = csr_of (run s inp (S t)) false n /\
  if v_hold (vr t') (csr_enc n) then csr_of (run s inp (S t')) false n = warl n (v_csr_wdata (vr t') (csr_enc n))
  else csr_of (run s inp (S t')) false n = csr_of (run s inp (S t)) false n.
Proof.
  intros Hn. pose proof (win_long s inp K t t' w X) as L. destruct (csr_inv n Hn t' ltac:(lia)) as [I1 I2]. split; [exact I1|].
  rewrite (still_step n t') by (assumption || lia). rewrite end_written. exact I2.
Qed.
Lemma hold_stays c u : (t < u < t')%nat -> csr_written (run s inp u) c = true -> v_hold (vr t') c = true.
Proof.
  intros Hu Wr. apply (held_from s inp v t t' (fun r => v_hold r c) true u Hu).
  - rewrite vrun_S. unfold rvfi_step. rewrite nor. cbn [v_hold]. rewrite Wr. reflexivity.
  - assert (P : forall m, (S u + m <= t')%nat -> v_hold (vr (S u + m)) c = true).
    { induction m as [|m IH]; intros Hm.
      - rewrite Nat.add_0_r, vrun_S. unfold rvfi_step. rewrite nor. cbn [v_hold]. rewrite Wr. reflexivity.
      - rewrite Nat.add_succ_r, vrun_S. unfold rvfi_step. rewrite nor. cbn [v_hold]. rewrite com_u, IH by lia. destruct (csr_written (run s inp (S u + m)) c); reflexivity. }
    intros u1 Hu1. pose proof (P (u1 - S u)%nat ltac:(lia)) as P1. pose proof (P (S u1 - S u)%nat ltac:(lia)) as P2.
    replace (S u + (u1 - S u))%nat with u1 in P1 by lia. replace (S u + (S u1 - S u))%nat with (S u1) in P2 by lia. congruence.
Qed.

(** A CSR instruction that writes is seen writing. *)
Lemma enc_is e u : (S (S (S t)) <= u <= t')%nat -> mp_enc (s_map (run s inp (S (S (S t))))) = e -> mp_enc (s_map (run s inp u)) = e.
Proof.
  intros Hu He. replace u with (S (S (S t)) + (u - S (S (S t))))%nat by lia. assert (Hm : (u - S (S (S t)) <= t' - S (S (S t)))%nat) by lia. revert Hm. generalize (u - S (S (S t)))%nat as m. clear u Hu.
  induction m as [|m IH]; intros Hm; [rewrite Nat.add_0_r; exact He|]. specialize (IH ltac:(lia)). rewrite Nat.add_succ_r. cbn [run]. unfold step. rewrite nor. cbn [s_map map_next mp_enc].
  rewrite (win_decode s inp K t t' w X) by lia. exact IH.
Qed.
Lemma csr_long f rd g n : decode w = Some (Csr f rd g n) -> exc_now (run s inp (S t)) (inp (S t)) = false -> (S (S t) < t')%nat.
Proof.
  intros D E1. destruct (win_start s inp K t t' w X) as (a & M & Bd & Q). pose proof (win_long s inp K t t' w X) as L.
  destruct (at_tramp s inp K t w a f rd g n Bd D E1) as (Q1 & _).
  destruct (Nat.eq_dec (S (S t)) t') as [E2|]; [|lia]. exfalso. destruct X as (_ & _ & (w' & Cy & _) & _). rewrite <- E2, (pos_cyc s inp 36 _ Q1) in Cy. discriminate Cy.
Qed.
Lemma csr_insn_holds f rd g n : ~ traps s inp t w (run s inp (S t)) -> decode w = Some (Csr f rd g n) -> ro_zero n = false -> csr_writes f g = true ->
  v_hold (vr t') (csr_enc n) = true.
Proof.
  intros NT D Z0 Wr. pose proof (no_exc s inp K t t' w X NT) as Nx. pose proof (win_long s inp K t t' w X) as L.
  destruct (win_start s inp K t t' w X) as (a & M & Bd & Q).
  pose proof (csr_long f rd g n D (Nx (S t) ltac:(lia))) as L2.
  destruct (at_tramp s inp K t w a f rd g n Bd D (Nx (S t) ltac:(lia))) as (_ & _ & At).
  destruct (At (Nx (S (S t)) ltac:(lia))) as (imm & Hg & Q2 & En). rewrite Z0 in Q2. specialize (En Z0). destruct En as [_ En].
  rewrite Hg in Wr. pose proof (cw_in f imm (fld w 7 5) (fld w 15 5) Wr) as I.
  assert (Dec : (exists u, (S (S (S t)) <= u <= t')%nat /\ exists k, seq_inv k (run s inp u) /\ writes_csr k = true /\ In k cw_set) \/
                forall u, (S (S (S t)) <= u <= t')%nat -> exists k, seq_inv k (run s inp u) /\ writes_csr k = false /\ In k cw_set).
  { pose proof cw_start as Cs. rewrite forallb_forall in Cs. specialize (Cs _ I). apply memb_In in Cs.
    assert (P : forall m, (S (S (S t)) + m <= t')%nat -> (exists u, (S (S (S t)) <= u <= S (S (S t)) + m)%nat /\ exists k, seq_inv k (run s inp u) /\ writes_csr k = true /\ In k cw_set) \/
                forall u, (S (S (S t)) <= u <= S (S (S t)) + m)%nat -> exists k, seq_inv k (run s inp u) /\ writes_csr k = false /\ In k cw_set).
    { induction m as [|m IH]; intros Hm.
      - destruct (writes_csr (csr_entry f imm (fld w 7 5) (fld w 15 5))) eqn:Wc.
        + left. exists (S (S (S t))). split; [lia|]. eexists. eauto.
        + right. intros u Hu. assert (u = S (S (S t))) by lia. subst u. eexists. eauto.
      - destruct (IH ltac:(lia)) as [(u & Hu & H)|H]; [left; exists u; split; [lia|exact H]|].
        destruct (H (S (S (S t)) + m)%nat ltac:(lia)) as (k & Qk & Wk & Ik).
        destruct (walk s inp K writes_csr cw_set k (S (S (S t)) + m) 1 cw_closed Qk Ik) as (k' & I' & Q').
        { intros u Hu. assert (u = S (S (S t)) + m)%nat by lia. subst u. split; [split; [apply Nx; lia|apply com_u; lia]|].
          intros j Qj. assert (j = k) by (eapply at_unique; [apply Qj|apply Qk]). congruence. }
        replace (S (S (S t)) + m + 1)%nat with (S (S (S t)) + S m)%nat in Q' by lia.
        destruct (writes_csr k') eqn:Wc.
        + left. exists (S (S (S t)) + S m)%nat. split; [lia|]. eauto.
        + right. intros u Hu. destruct (Nat.eq_dec u (S (S (S t)) + S m)) as [->|]; [eauto|apply H; lia]. }
    specialize (P (t' - S (S (S t)))%nat ltac:(lia)). replace (S (S (S t)) + (t' - S (S (S t))))%nat with t' in P by lia. exact P. }
  assert (End : forall k, seq_inv k (run s inp t') -> In k cw_set -> False).
  { intros k Qk Ik. destruct X as (_ & _ & (w' & F') & _). destruct cw_fetch as [C0 C1]. apply memb_In in Ik.
    destruct (commit_place t' w' F') as [A|A]; pose proof (at_unique _ _ _ (si_at _ _ Qk) A) as E; subst k; congruence. }
  destruct Dec as [(u & Hu & k & Qk & Wk & Ik)|No]; [|exfalso; destruct (No t' ltac:(lia)) as (k & Qk & _ & Ik); exact (End k Qk Ik)].
  assert (u <> t') by (intros ->; exact (End k Qk Ik)). apply (hold_stays _ u ltac:(lia)).
  unfold csr_written. destruct (si_at _ _ Qk) as (A1 & _). rewrite A1. unfold writes_csr in Wk. rewrite Wk. cbn [andb].
  assert (Cs : u_csel (rom k) = CS_INSN_CSR).
  { assert (T : forallb (fun k => negb (writes_csr k) || match u_csel (rom k) with CS_INSN_CSR => true | _ => false end) cw_set = true) by (vm_compute; reflexivity).
    rewrite forallb_forall in T. specialize (T k Ik). unfold writes_csr in T. rewrite Wk in T. destruct (u_csel (rom k)); [reflexivity|discriminate T]. }
  unfold csr_adr. rewrite Cs. apply Z.eqb_eq. apply enc_is; [lia|exact En].
Qed.

(** A trap is seen writing MEPC and MCAUSE. *)
Lemma trap_holds : raised s inp t t' -> v_hold (vr t') 9 = true /\ v_hold (vr t') 10 = true.
Proof.
  intros (u & Hu & E).
  assert (Hu2 : (u < t')%nat).
  { destruct (Nat.eq_dec u t') as [->|]; [|lia]. destruct X as (_ & _ & (w' & F') & _). rewrite (wait_calm s inp K t' w' F') in E. discriminate. }
  destruct u as [|u]; [lia|]. destruct (pos_at s inp K u) as [k Q]. pose proof (pos_exc s inp K k _ Q E) as Q1.
  assert (St : forall u k n, (t < u <= t')%nat -> seq_inv k (run s inp u) -> checks k = false -> k <> 1 -> k <> 36 -> k <> 0 -> k <> 181 -> nsucc k = [n] ->
               seq_inv n (run s inp (S u)) /\ (S u <= t')%nat).
  { intros u0 k0 n Hu0 Q0 Hc H1 H36 H0 H181 Hn.
    assert (Lt : (u0 < t')%nat).
    { destruct (Nat.eq_dec u0 t') as [->|]; [|lia]. exfalso. destruct X as (_ & _ & (w' & F') & _).
      destruct (commit_place t' w' F') as [A|A]; pose proof (at_unique _ _ _ (si_at _ _ Q0) A); lia. }
    split; [|lia]. destruct (pos_step s inp K k0 u0 Q0) as (n' & I & Qn); try assumption.
    - destruct (exc_now (run s inp u0) (inp u0)) eqn:Y; [|reflexivity]. rewrite (exc_checks k0 _ _ Q0 Y) in Hc. discriminate.
    - apply com_u. lia.
    - rewrite Hn in I. destruct I as [<-|[]]. exact Qn. }
  destruct (St (S (S u)) 240 241 ltac:(lia) Q1) as [Q2 L2]; try reflexivity; try lia.
  destruct (St (S (S (S u))) 241 242 ltac:(lia) Q2) as [Q3 L3]; try reflexivity; try lia.
  destruct (St (S (S (S (S u)))) 242 243 ltac:(lia) Q3) as [Q4 L4]; try reflexivity; try lia.
  destruct (St (S (S (S (S (S u))))) 243 244 ltac:(lia) Q4) as [Q5 L5]; try reflexivity; try lia.
  destruct (St (S (S (S (S (S (S u)))))) 244 0 ltac:(lia) Q5) as [_ L6]; try reflexivity; try lia.
  split.
  - apply (hold_stays 9 (S (S (S (S u)))) ltac:(lia)). destruct (si_at _ _ Q3) as (A1 & _). unfold csr_written. rewrite A1. reflexivity.
  - apply (hold_stays 10 (S (S (S (S (S (S u)))))) ltac:(lia)). destruct (si_at _ _ Q5) as (A1 & _). unfold csr_written. rewrite A1. reflexivity.
Qed.

(** MSTATUS, without trap and MRET. *)
Lemma mstatus_still : ~ traps s inp t w (run s inp (S t)) -> w <> 0x30200073 -> still 0x300.
Proof.
  intros NT Nm. right. split; [reflexivity|]. pose proof (no_exc s inp K t t' w X NT) as Nx. pose proof (win_long s inp K t t' w X) as L.
  destruct (decoded s inp t w NT) as (i & D & N1 & N2). destruct (win_start s inp K t t' w X) as (a & M & Bd & Q).
  assert (Mn : forall k u, seq_inv k (run s inp u) -> moves_mstatus k = false -> u_exc (s_u (run s inp u)) <> X_ENTER_INT /\ u_exc (s_u (run s inp u)) <> X_LEAVE_INT).
  { intros k u Qk Mk. destruct (si_at _ _ Qk) as (A1 & _). rewrite A1. unfold moves_mstatus in Mk. destruct (u_exc (rom k)); split; discriminate || discriminate Mk. }
  assert (Fr : forall k u0, (t < u0 <= t')%nat -> seq_inv k (run s inp u0) -> In k quiet_entries -> forall u, (u0 <= u <= t')%nat -> u_exc (s_u (run s inp u)) <> X_ENTER_INT /\ u_exc (s_u (run s inp u)) <> X_LEAVE_INT).
  { intros k u0 H0 Qk Ik u Hu. pose proof quiet_start as Cs. rewrite forallb_forall in Cs. specialize (Cs _ Ik). apply memb_In in Cs.
    destruct (walk s inp K (fun _ => false) quiet_set k u0 (u - u0) quiet_closed Qk Cs) as (k' & I' & Q').
    { intros u1 Hu1. split; [split; [apply Nx; lia|apply com_u; lia]|reflexivity]. }
    replace (u0 + (u - u0))%nat with u in Q' by lia. apply (Mn k' u Q'). pose proof quiet_moves as Qm. rewrite forallb_forall in Qm. specialize (Qm k' I'). apply andb_prop in Qm. destruct Qm as [Qm _]. apply negb_true_iff in Qm. exact Qm. }
  assert (F1 : u_exc (s_u (run s inp (S t))) <> X_ENTER_INT /\ u_exc (s_u (run s inp (S t))) <> X_LEAVE_INT) by apply first_moves.
  intros u Hu. destruct (Nat.eq_dec u (S t)) as [->|Nu]; [exact F1|].
  destruct (is_csr i) eqn:C.
  - destruct i as [| | | | | | | | | | | | | |f rd g n]; try discriminate C.
    pose proof (csr_long f rd g n D (Nx (S t) ltac:(lia))) as L2.
    destruct (at_tramp s inp K t w a f rd g n Bd D (Nx (S t) ltac:(lia))) as (Q1 & _ & At). destruct (At (Nx (S (S t)) ltac:(lia))) as (imm & _ & Q2 & _).
    destruct (Nat.eq_dec u (S (S t))) as [->|Nu2]; [apply (Mn 36 _ Q1); reflexivity|].
    eapply (Fr _ (S (S (S t))) ltac:(lia) Q2); [|lia]. unfold quiet_entries. rewrite !in_app_iff. do 6 right. apply csr_in.
  - pose proof (at_entry s inp K t t' w X a i Bd D C (Nx (S t) ltac:(lia))) as Q1.
    apply (Fr _ (S (S t)) ltac:(lia) Q1); [|lia]. apply quiet_in; try assumption.
    intros ->. apply Nm. clear - D. unfold decode, decode_system, decode_op, decode_opimm, decode_branch, decode_store, decode_load in D. cases_in D. apply Z.eqb_eq. assumption.
Qed.

(** Read-only-zero CSRs: what the instruction would have written. *)
Lemma csr_addr_is u : (t < u <= t')%nat -> v_csr_addr (vr u) = fld w 20 12 /\ v_csr_op (vr u) = fld w 12 3.
Proof.
  intros Hu. replace u with (S t + (u - S t))%nat by lia. assert (Hm : (u - S t <= t' - S t)%nat) by lia. revert Hm. generalize (u - S t)%nat as m. clear u Hu.
  induction m as [|m IH]; intros Hm.
  - rewrite Nat.add_0_r, vrun_S. unfold rvfi_step. rewrite nor. cbn [v_csr_addr v_csr_op]. destruct X as ((C & U & A & E) & _). unfold do_decode. rewrite U, A, E. split; reflexivity.
  - rewrite Nat.add_succ_r, vrun_S. unfold rvfi_step. rewrite nor. cbn [v_csr_addr v_csr_op]. rewrite (win_decode s inp K t t' w X) by lia. apply IH. lia.
Qed.
Lemma zero_report f rd g n : ~ traps s inp t w (run s inp (S t)) -> decode w = Some (Csr f rd g n) ->
  v_zero_wdata (vr t') n = csr_new f 0 (operand (run s inp (S t)) g).
Proof.
  intros NT D. pose proof (no_exc s inp K t t' w X NT) as Nx. pose proof (win_long s inp K t t' w X) as L.
  destruct (win_start s inp K t t' w X) as (a & M & Bd & Q). pose proof (csr_long f rd g n D (Nx (S t) ltac:(lia))) as L2.
  destruct (at_tramp s inp K t w a f rd g n Bd D (Nx (S t) ltac:(lia))) as (Q1 & _ & At). destruct (At (Nx (S (S t)) ltac:(lia))) as (imm & Hg & Q2 & _).
  destruct (decode_csr w f rd g n 0 D) as (_ & _ & _ & _ & _ & En & imm' & Hg' & F3).
  assert (Doing : v_doing (vr (S (S t))) = true).
  { rewrite vrun_S. unfold rvfi_step. rewrite nor. cbn [v_doing]. apply Z.eqb_eq.
    destruct (si_at _ _ Q1) as (_ & N1 & _). change (run s inp (S (S t))) with (step (run s inp (S t)) (inp (S t))) in N1. unfold step in N1. rewrite nor in N1. cbn [s_next] in N1.
    assert (W : wf (run s inp (S t))) by (apply run_wf; [destruct K as [(u0 & m & rd0 & -> & W) _ _]; exact W|apply K]).
    pose proof (wf_mp_req _ W) as W1. destruct (si_at _ _ Q) as (B1 & B2 & B3 & B4). unfold CSR_DECODE_VALIDITY_ADDR.
    revert N1. unfold seq_now, seq_adr. rewrite B4, B1. change (u_jmp (rom 1)) with J_MAP. cbv iota. change (u_target (rom 1)) with 240. unfold inw in W1. change (2 ^ 8) with 256 in *.
    destruct (test_now _ _); [discriminate|]. intros N1. destruct (Z.eq_dec (mp_req (s_map (run s inp (S t)))) 255) as [E|]; [rewrite E in N1; discriminate N1|].
    rewrite Z.mod_small in N1 by lia. lia. }
  assert (NotDoing : forall u, (S (S t) < u <= t')%nat -> v_doing (vr u) = false).
  { intros u Hu. destruct u as [|u]; [lia|]. rewrite vrun_S. unfold rvfi_step. rewrite nor. cbn [v_doing]. unfold CSR_DECODE_VALIDITY_ADDR. apply Z.eqb_neq. intros Sn.
    assert (A36 : s_next (run s inp (S u)) = 37). { change (run s inp (S u)) with (step (run s inp u) (inp u)). unfold step. rewrite nor. cbn [s_next]. rewrite Sn. reflexivity. }
    pose proof quiet_start as Cs. rewrite forallb_forall in Cs. specialize (Cs (if ro_zero n then 0x25 else csr_entry f imm (fld w 7 5) (fld w 15 5))).
    assert (I0 : In (if ro_zero n then 0x25 else csr_entry f imm (fld w 7 5) (fld w 15 5)) quiet_entries) by (unfold quiet_entries; rewrite !in_app_iff; do 6 right; apply csr_in).
    specialize (Cs I0). apply memb_In in Cs.
    destruct (walk s inp K (fun _ => false) quiet_set _ (S (S (S t))) (S u - S (S (S t))) quiet_closed Q2 Cs) as (k' & I' & Q').
    { intros u1 Hu1. split; [split; [apply Nx; lia|apply com_u; lia]|reflexivity]. }
    replace (S (S (S t)) + (S u - S (S (S t))))%nat with (S u) in Q' by lia. destruct (si_at _ _ Q') as (_ & E & _). rewrite E in A36. assert (k' = 36) by lia. subst k'.
    revert I'. rewrite <- memb_In. vm_compute. discriminate. }
  assert (H3 : v_zero_wdata (vr (S (S (S t)))) n = csr_new f 0 (operand (run s inp (S t)) g)).
  { rewrite vrun_S. unfold rvfi_step. rewrite nor. cbn [v_zero_wdata]. rewrite Doing. destruct (csr_addr_is (S (S t)) ltac:(lia)) as [Ea Eo]. rewrite Ea, <- En, Z.eqb_refl. cbn [andb].
    unfold zero_wdata. rewrite Eo.
    assert (Ra : v_rs1_addr (vr (S (S t))) = fld w 15 5).
    { rewrite vrun_S. unfold rvfi_step. rewrite nor, com_u by lia. cbn [v_rs1_addr]. rewrite vrun_S. unfold rvfi_step. rewrite nor, com_t. cbn [v_rs1_addr]. destruct X as ((_ & _ & _ & E) & _). rewrite E. reflexivity. }
    assert (Rr : v_rs1_rdata (vr (S (S t))) = x_of (run s inp (S t)) (fld w 15 5)).
    { rewrite vrun_S. unfold rvfi_step. rewrite nor. cbn [v_rs1_rdata]. rewrite (just_t s inp v K t t' w X). rewrite vrun_S. unfold rvfi_step. rewrite nor. cbn [v_rs1_port]. rewrite com_t. destruct X as ((_ & _ & _ & E) & _). rewrite E. reflexivity. }
    rewrite Ra, Rr, Hg', F3. destruct (Z.eqb_spec (fld w 15 5) 0) as [E0|N0].
    - assert (X0 : x_of (run s inp (S t)) 0 = 0). { pose proof (r_x _ _ _ _ _ _ _ _ (b_rel _ _ _ Bd) 0 ltac:(lia)) as R0. unfold x_of. rewrite <- R0. reflexivity. }
      rewrite E0. destruct f, imm'; cbn [operand]; rewrite ?X0; reflexivity.
    - destruct f, imm'; reflexivity. }
  apply (held_from s inp v t t' (fun r => v_zero_wdata r n) _ (S (S t)) ltac:(lia) H3).
  intros u Hu. rewrite vrun_S. unfold rvfi_step. rewrite nor. cbn [v_zero_wdata]. rewrite NotDoing by lia. reflexivity.
Qed.
End P.

(** The last value written is the value held, if it was so at reset. *)
Lemma wdata_tracks s inp v : wf s -> env inp -> rvfi_fresh v -> (forall n, In n plain_csrs -> csr_of s false n = 0) ->
  forall n u, In n plain_csrs -> csr_of (run s inp u) false n = warl n (v_csr_wdata (vrun v s inp u) (csr_enc n)).
Proof.
  intros W E (p1 & p2 & pc & ->) H0 n u Hn. induction u as [|u IH].
  - cbn [run vrun rvfi_reset v_csr_wdata]. rewrite H0 by assumption. cbn [In plain_csrs] in Hn. destruct Hn as [<-|[<-|[<-|[<-|[<-|[]]]]]]; reflexivity.
  - cbn [run]. rewrite csr_change; [|apply run_wf; [assumption|apply E]|apply E|left; assumption].
    cbn [vrun]. unfold rvfi_step. replace (rst (inp u)) with false by (symmetry; apply E). cbn [v_csr_wdata]. destruct (csr_written _ _); [reflexivity|exact IH].
Qed.

(** * C50-C55: what the RISC-V Formal Interface reports

    [v] is the harness right after reset, [vrun v s inp t] its registers in cycle [t] next
    to the core's run from [s].  An instruction is reported in the cycle [t'] in which its
    successor's fetch is acknowledged.  As before [x] is the core at the instruction's start
    and [y] at its successor's. *)
From Coq Require Import ZArith Lia Bool List.
From Verif Require Import Bits Ucode Cpu Isa Timed BitLemmas Wf Sym Blocks CsrBlocks DecodeOk Boundary Sim Main Obs PropsBus PropsInv Observe PropsIsa PropsFrame Memory SocMem Examples Rvfi RvfiTrace RvfiProps RvfiRd RvfiCsr.
Import ListNotations.
Open Scope Z_scope.

(** C50: the harness raises [valid] in exactly the cycles in which an instruction ends. *)
Theorem C50_reports_each_instruction_once : forall s inp v, ok s inp -> rvfi_fresh v ->
  forall t', valid_at v s inp t' = true <-> exists t w, executes s inp t t' w.
Proof. intros s inp v K V. apply valid_iff; assumption. Qed.
(** [order] numbers the reports 0, 1, 2, ... *)
Theorem C50_order_counts_reports : forall s inp v, ok s inp -> rvfi_fresh v ->
  forall t, v_order (vrun v s inp t) = Z.of_nat (reports v s inp t) mod 2 ^ 64.
Proof. intros s inp v K V. apply order_counts; assumption. Qed.
(** Reports are of the instructions in execution order: each begins where the previous one
    ended. *)
Theorem C50_reports_are_consecutive : forall s inp v, ok s inp -> rvfi_fresh v ->
  forall t t' t'' w w', executes s inp t t' w -> executes s inp t' t'' w' ->
  reports v s inp t'' = S (reports v s inp t').
Proof.
  intros s inp v K V t t' t'' w w' X X'. pose proof X' as (F & L & _ & No).
  assert (P : forall n, (S t' + n <= t'')%nat -> reports v s inp (S t' + n) = S (reports v s inp t')).
  { induction n as [|n IH]; intros Hn.
    - rewrite Nat.add_0_r. cbn [reports]. assert (Vd : valid_at v s inp t' = true) by (apply (valid_iff s inp v K V); exists t, w; exact X). rewrite Vd. reflexivity.
    - rewrite Nat.add_succ_r. cbn [reports]. rewrite IH by lia.
      destruct (valid_at v s inp (S t' + n)) eqn:Vd; [exfalso|reflexivity]. apply (valid_iff s inp v K V) in Vd. destruct Vd as (u & wu & _ & _ & (w2 & F2) & _).
      apply (No (S t' + n)%nat w2 ltac:(lia) F2). }
  specialize (P (t'' - S t')%nat). replace (S t' + (t'' - S t'))%nat with t'' in P by lia. apply P. lia.
Qed.

(** C51: instruction word, program counters and source operands. *)
Theorem C51_instruction_and_sources : forall s inp v, ok s inp -> rvfi_fresh v ->
  forall t t' w x y, executed s inp t t' w x y -> let r := vrun v s inp t' in
  v_insn r = w /\
  v_pc_rdata r = pc_of x /\ rv_pc_wdata r (run s inp t') (inp t') = pc_of y /\
  v_rs1_addr r = fld w 15 5 /\ v_rs1_rdata r = x_of x (fld w 15 5) /\
  v_rs2_addr r = fld w 20 5 /\ v_rs2_rdata r = x_of x (fld w 20 5).
Proof.
  intros s inp v K V t t' w x y (X & -> & ->). cbv zeta.
  split; [apply (insn_is s inp v K t t' w X)|]. split; [apply (pc_rdata_is s inp v K t t' w X)|]. split; [apply (pc_wdata_is s inp v K t t' w X)|].
  split; [apply (rs1_addr_is s inp v K t t' w X)|]. split; [apply (rs1_rdata_is s inp v K t t' w X)|].
  split; [apply (rs2_addr_is s inp v K t t' w X)|]. apply (rs2_rdata_is s inp v K t t' w X).
Qed.

(** C52: destination.  For an instruction that does not trap: the reported destination is
    the one the instruction names (0 if it has none), the reported value is 0 for x0, and
    the general-purpose registers after the instruction are those before with the reported
    value in the reported register. *)
Theorem C52_destination_partial : forall s inp v, ok s inp -> rvfi_fresh v ->
  forall t t' w x y, executed s inp t t' w x y -> ~ traps s inp t w x -> let r := vrun v s inp t' in
  v_rd_addr r = match dest w with Some rd => rd | None => 0 end /\
  (v_rd_addr r = 0 -> rv_rd_wdata r (run s inp t') (inp t') = 0) /\
  (forall q, 0 <= q < 32 -> x_of y q = if q =? v_rd_addr r then rv_rd_wdata r (run s inp t') (inp t') else x_of x q).
Proof.
  intros s inp v K V t t' w x y (X & -> & ->) NT. cbv zeta. split; [apply (rd_addr_is s inp v K t t' w X NT)|]. split.
  - intros Z0. rewrite (rd_wdata_is s inp v K t t' w X NT), Z0. reflexivity.
  - intros q Hq. apply (rd_effect s inp v K t t' w X NT q Hq).
Qed.

(** C53: [trap] is raised for exactly the instructions that trap, and [intr] for exactly
    the first instruction of a handler. *)
Theorem C53_trap : forall s inp v, ok s inp -> rvfi_fresh v ->
  forall t t' w x y, executed s inp t t' w x y -> (v_trap (vrun v s inp t') = true <-> traps s inp t w x).
Proof. intros s inp v K V t t' w x y (X & -> & ->). apply (trap_is s inp v K t t' w X). Qed.
Theorem C53_intr : forall s inp v, ok s inp -> rvfi_fresh v ->
  forall t0 t t' w0 w x0 x y, executed s inp t0 t w0 x0 x -> executed s inp t t' w x y ->
  (v_intr (vrun v s inp t') = true <-> traps s inp t0 w0 x0).
Proof.
  intros s inp v K V t0 t t' w0 w x0 x y (X0 & -> & ->) (X & _ & ->). rewrite (intr_is s inp v K V t t' w X t0 w0 X0). apply (trap_is s inp v K t0 t w0 X0).
Qed.
Theorem C53_intr_first : forall s inp v, ok s inp -> rvfi_fresh v ->
  forall t t' w, executes s inp t t' w -> (forall u w0, (u < t)%nat -> ~ fetch_done s inp u w0) -> v_intr (vrun v s inp t') = false.
Proof. intros s inp v K V t t' w X N. apply (intr_first s inp v K V t t' w X N). Qed.

(** C54: memory.  An instruction makes at most one data access; with none the masks are 0,
    with one (acknowledged in cycle [u]) the report is that bus transaction. *)
Lemma adr_bound c : wf c -> 0 <= o_adr c < 2 ^ 30.
Proof.
  intros W. unfold o_adr, addr_align_adr. pose proof (wf_pc _ W) as Wp. unfold inw in Wp.
  repeat match goal with |- context[if ?b then _ else _] => destruct b end; unfold bits; try apply Z.mod_pos_bound; lia.
Qed.
Theorem C54_memory : forall s inp v, ok s inp -> rvfi_fresh v ->
  forall t t' w, executes s inp t t' w -> let r := vrun v s inp t' in
  (no_data s inp t t' /\ v_mem_rmask r = 0 /\ v_mem_wmask r = 0) \/
  (exists u, one_data s inp t t' u /\
    v_mem_addr r = 4 * o_adr (run s inp u) /\
    v_mem_rmask r = (if o_we (run s inp u) then 0 else o_sel (run s inp u)) /\
    v_mem_wmask r = (if o_we (run s inp u) then o_sel (run s inp u) else 0) /\
    v_mem_rdata r = dat_r (inp u) /\ v_mem_wdata r = o_dat_w (run s inp u)).
Proof.
  intros s inp v K V t t' w X. cbv zeta. destruct (data_or_not s inp K t t' w X) as [N|(u & O)].
  - left. split; [assumption|]. apply (no_data_masks s inp v K t t' w X N).
  - right. exists u. split; [assumption|]. destruct (one_data_fields s inp v K t t' w X u O) as (A & B). split; [|exact B].
    rewrite A. assert (W : wf (run s inp u)) by (apply run_wf; [destruct K as [(u0 & m & rd & -> & W) _ _]; exact W|apply K]).
    pose proof (adr_bound _ W) as Ad. unfold bits. change (2 ^ 0) with 1. rewrite Z.div_1_r, Z.mod_small by lia. lia.
Qed.
Lemma data_once s inp t t' u u' : one_data s inp t t' u -> one_data s inp t t' u' -> u = u'.
Proof.
  intros (H & D & O) (H' & D' & O'). destruct (Nat.eq_dec u u') as [|N]; [assumption|exfalso]. destruct D' as (C & _ & A).
  specialize (O u' ltac:(lia) ltac:(congruence)). rewrite C, A in O. discriminate.
Qed.
Lemma no_data_one s inp t t' u : no_data s inp t t' -> one_data s inp t t' u -> False.
Proof. intros N (H & (C & _ & A) & _). specialize (N u H). rewrite C, A in N. discriminate. Qed.
(** A load that does not trap: the word address, the bytes it reads and the word read. *)
Theorem C54_load : forall s inp v, ok s inp -> rvfi_fresh v ->
  forall t t' w x y, executed s inp t t' w x y -> ~ traps s inp t w x ->
  forall sz sgn rd rs1 off, decode w = Some (Load sz sgn rd rs1 off) ->
  let ea := (x_of x rs1 + off) mod 2 ^ 32 in let r := vrun v s inp t' in
  v_mem_addr r = ea - ea mod 4 /\ (forall i, 0 <= i -> Z.testbit (v_mem_rmask r) i = addressed ea (bytes sz) i) /\ v_mem_wmask r = 0 /\
  exists u, one_data s inp t t' u /\ v_mem_rdata r = dat_r (inp u).
Proof.
  intros s inp v K V t t' w x y E NT sz sgn rd rs1 off D. cbv zeta. set (ea := (x_of x rs1 + off) mod 2 ^ 32).
  assert (T : int_taken s inp t w = false) by (destruct (int_taken s inp t w) eqn:T; [exfalso; apply NT; left; exact T|reflexivity]).
  assert (Al : ea mod bytes sz = 0).
  { destruct (Z.eq_dec (ea mod bytes sz) 0) as [|Al]; [assumption|exfalso]. apply NT. right. exists 4. unfold sync_cause. rewrite D. split; [exact Al|reflexivity]. }
  destruct (C13_load s inp K t t' w x y E T sz sgn rd rs1 off D Al) as (u & O & We & Ad & Se & _). fold ea in Ad, Se.
  destruct (C54_memory s inp v K V t t' w (proj1 E)) as [[N _]|(u' & O' & A1 & A2 & A3 & A4 & A5)]; [exfalso; exact (no_data_one _ _ _ _ _ N O)|].
  pose proof (data_once _ _ _ _ _ _ O O') as <-. rewrite We in A2, A3. split; [rewrite A1, Ad; pose proof (Z.div_mod ea 4 ltac:(lia)); lia|].
  split; [intros i Hi; rewrite A2; apply Se; assumption|]. split; [assumption|]. exists u. split; assumption.
Qed.
(** A store that does not trap: the word address, the bytes it writes and their contents. *)
Theorem C54_store : forall s inp v, ok s inp -> rvfi_fresh v ->
  forall t t' w x y, executed s inp t t' w x y -> ~ traps s inp t w x ->
  forall sz rs1 rs2 off, decode w = Some (Store sz rs1 rs2 off) ->
  let ea := (x_of x rs1 + off) mod 2 ^ 32 in let r := vrun v s inp t' in
  v_mem_addr r = ea - ea mod 4 /\ (forall i, 0 <= i -> Z.testbit (v_mem_wmask r) i = addressed ea (bytes sz) i) /\ v_mem_rmask r = 0 /\
  (forall i, 0 <= i < bytes sz -> byte (v_mem_wdata r) (ea mod 4 + i) = byte (x_of x rs2) i).
Proof.
  intros s inp v K V t t' w x y E NT sz rs1 rs2 off D. cbv zeta. set (ea := (x_of x rs1 + off) mod 2 ^ 32).
  assert (T : int_taken s inp t w = false) by (destruct (int_taken s inp t w) eqn:T; [exfalso; apply NT; left; exact T|reflexivity]).
  assert (Al : ea mod bytes sz = 0).
  { destruct (Z.eq_dec (ea mod bytes sz) 0) as [|Al]; [assumption|exfalso]. apply NT. right. exists 6. unfold sync_cause. rewrite D. split; [exact Al|reflexivity]. }
  destruct (C12_store s inp K t t' w x y E T sz rs1 rs2 off D Al) as (u & O & We & Ad & Se & By & _). fold ea in Ad, Se, By.
  destruct (C54_memory s inp v K V t t' w (proj1 E)) as [[N _]|(u' & O' & A1 & A2 & A3 & A4 & A5)]; [exfalso; exact (no_data_one _ _ _ _ _ N O)|].
  pose proof (data_once _ _ _ _ _ _ O O') as <-. rewrite We in A2, A3. split; [rewrite A1, Ad; pose proof (Z.div_mod ea 4 ltac:(lia)); lia|].
  split; [intros i Hi; rewrite A3; apply Se; assumption|]. split; [assumption|]. intros i Hi. rewrite A5. apply By. assumption.
Qed.
(** Every other instruction, and every one that traps, reports no access. *)
Theorem C54_no_access : forall s inp v, ok s inp -> rvfi_fresh v ->
  forall t t' w x y, executed s inp t t' w x y ->
  traps s inp t w x \/ match decode w with Some (Load _ _ _ _ _) | Some (Store _ _ _ _) => False | _ => True end ->
  v_mem_rmask (vrun v s inp t') = 0 /\ v_mem_wmask (vrun v s inp t') = 0.
Proof.
  intros s inp v K V t t' w x y E H. destruct (C54_memory s inp v K V t t' w (proj1 E)) as [[_ M]|(u & O & _)]; [exact M|exfalso].
  assert (N : no_data s inp t t'); [|exact (no_data_one _ _ _ _ _ N O)].
  destruct (taken_dec s inp t w) as [T|T]. { apply (C21_interrupt s inp K t t' w x y E T). }
  destruct (sync_cause_dec x w) as [[c C]|C]. { apply (C21_exception s inp K t t' w x y E T c C). }
  destruct H as [[H|[c H]]|H]; [congruence|exfalso; exact (C c H)|].
  destruct (decode w) as [i|] eqn:D; [|exfalso; eapply C; unfold sync_cause; rewrite D; reflexivity].
  destruct i; try contradiction.
  - apply (proj1 (C14_lui_auipc s inp K t t' w x y E T) _ _ D).
  - apply (proj2 (C14_lui_auipc s inp K t t' w x y E T) _ _ D).
  - apply (C15_jal s inp K t t' w x y E T _ _ D).
  - apply (C15_jalr s inp K t t' w x y E T _ _ _ D).
  - apply (C15_branch s inp K t t' w x y E T _ _ _ _ D).
  - apply (C14_op_imm s inp K t t' w x y E T _ _ _ _ D).
  - apply (C14_op_reg s inp K t t' w x y E T _ _ _ _ D).
  - apply (C22_fence_wfi s inp K t t' w x y E T). auto.
  - exfalso. apply (C 11). unfold sync_cause. rewrite D. reflexivity.
  - exfalso. apply (C 3). unfold sync_cause. rewrite D. reflexivity.
  - assert (W : w = 0x30200073).
    { clear - D. unfold decode, decode_system, decode_op, decode_opimm, decode_branch, decode_store, decode_load in D. cases_in D. apply Z.eqb_eq. assumption. }
    apply (C22_mret s inp K t t' w x y E T W).
  - apply (C22_fence_wfi s inp K t t' w x y E T). auto.
  - apply (C18_csr_access s inp K t t' w x y E T _ _ _ _ D).
Qed.

(** C55: CSRs, for a slave that never acknowledges in the first cycle of a request. *)
(** [rdata] is the CSR's value when the instruction starts. *)
Theorem C55_csr_rdata : forall s inp v, bus_ok s inp -> rvfi_fresh v ->
  forall t t' w x y, executed s inp t t' w x y -> forall n, In n [0x304; 0x305; 0x340; 0x341; 0x342] ->
  v_csr_rdata (vrun v s inp t') (csr_enc n) = csr_of x false n.
Proof. intros s inp v B V t t' w x y (X & -> & ->) n Hn. apply (csr_report s inp v B t t' w X n). left. exact Hn. Qed.
(** [wdata] is what is written: from power-on (CSRs 0) its legal part is the CSR's value
    when the next instruction starts, whether or not this one wrote it. *)
Theorem C55_csr_wdata : forall s inp v, bus_ok s inp -> rvfi_fresh v -> (forall n, In n [0x305; 0x340; 0x341; 0x342] -> csr_of s false n = 0) ->
  forall t t' w x y, executed s inp t t' w x y -> forall n, In n [0x304; 0x305; 0x340; 0x341; 0x342] ->
  csr_of y false n = warl n (v_csr_wdata (vrun v s inp t') (csr_enc n)).
Proof.
  intros s inp v B V H0 t t' w x y (X & -> & ->) n Hn. pose proof (bus_ok_ok _ _ B) as K.
  assert (W : wf s) by (destruct K as [(u0 & m & rd & -> & W) _ _]; exact W).
  assert (H : forall n, In n plain_csrs -> csr_of s false n = 0).
  { intros n0 [<-|H1]; [|apply H0; exact H1]. destruct K as [(u0 & m & rd & -> & _) _ _]. reflexivity. }
  rewrite <- (wdata_tracks s inp v W (ok_env _ _ B) V H n t' Hn).
  pose proof (win_long s inp K t t' w X). rewrite (csr_step s inp B t t' w X n t') by (left; exact Hn). rewrite (end_written s inp B t t' w X). reflexivity.
Qed.
(** Without the assumption about the RAM: for a CSR instruction that writes, for MEPC and
    MCAUSE in a trap, and whenever the value changes. *)
Theorem C55_csr_wdata_any_reset : forall s inp v, bus_ok s inp -> rvfi_fresh v ->
  forall t t' w x y, executed s inp t t' w x y -> forall n, In n [0x304; 0x305; 0x340; 0x341; 0x342] ->
  csr_of y false n <> csr_of x false n \/
  (~ traps s inp t w x /\ exists f rd g, decode w = Some (Csr f rd g n) /\ csr_writes f g = true) \/
  (traps s inp t w x /\ In n [0x341; 0x342]) ->
  csr_of y false n = warl n (v_csr_wdata (vrun v s inp t') (csr_enc n)).
Proof.
  intros s inp v B V t t' w x y (X & -> & ->) n Hn H. pose proof (bus_ok_ok _ _ B) as K.
  destruct (csr_report s inp v B t t' w X n (or_introl Hn)) as [_ R]. destruct (v_hold _ _) eqn:Eh; [exact R|exfalso].
  destruct H as [H|[(NT & f & rd & g & D & Wr)|(T & Hm)]].
  - contradiction.
  - assert (Z0 : ro_zero n = false) by (cbn [In plain_csrs] in Hn; destruct Hn as [<-|[<-|[<-|[<-|[<-|[]]]]]]; reflexivity).
    pose proof (csr_insn_holds s inp v B t t' w X f rd g n NT D Z0 Wr). congruence.
  - apply (trap_iff s inp K t t' w X) in T. destruct (trap_holds s inp v B t t' w X T) as [H9 H10].
    destruct Hm as [<-|[<-|[]]]; [change (csr_enc 0x341) with 9 in Eh|change (csr_enc 0x342) with 10 in Eh]; congruence.
Qed.
(** MSTATUS, for instructions other than MRET that do not trap. *)
Theorem C55_mstatus_partial : forall s inp v, bus_ok s inp -> rvfi_fresh v ->
  forall t t' w x y, executed s inp t t' w x y -> ~ traps s inp t w x -> w <> 0x30200073 ->
  v_csr_rdata (vrun v s inp t') 0 = csr_of x false 0x300 /\
  (csr_of y false 0x300 <> csr_of x false 0x300 -> csr_of y false 0x300 = warl 0x300 (v_csr_wdata (vrun v s inp t') 0)).
Proof.
  intros s inp v B V t t' w x y (X & -> & ->) NT Nm. destruct (csr_report s inp v B t t' w X 0x300 (mstatus_still s inp B t t' w X NT Nm)) as [R1 R2].
  change (csr_enc 0x300) with 0 in *. split; [exact R1|]. intros Ne. destruct (v_hold _ _); [exact R2|contradiction].
Qed.
(** Read-only-zero CSRs read 0, and [wdata] of the one a CSR instruction names is what the
    instruction would store. *)
Theorem C55_read_only_zero : forall s inp v, bus_ok s inp -> rvfi_fresh v ->
  forall t t' w x y, executed s inp t t' w x y -> ~ traps s inp t w x -> forall f rd g n, decode w = Some (Csr f rd g n) ->
  In n [0xF11; 0xF12; 0xF13; 0xF14; 0xF15; 0x301; 0x310; 0x343; 0xB00; 0xB02; 0xB03; 0xB80; 0xB82; 0xB83; 0x320; 0x323] ->
  v_zero_wdata (vrun v s inp t') n = match f with CSRRC => 0 | _ => operand x g end /\
  (forall hi, In hi [0xB80; 0xB82; 0xB83] -> rv_csr64_wmask (vrun v s inp t') hi = if n =? hi then 0xFFFFFFFF00000000 else 0xFFFFFFFF).
Proof.
  intros s inp v B V t t' w x y (X & -> & ->) NT f rd g n D Hz. split.
  - rewrite (zero_report s inp v B t t' w X f rd g n NT D). destruct f; reflexivity.
  - intros hi _. unfold rv_csr64_wmask. assert (L : (t < t')%nat) by apply X. destruct (csr_addr_is s inp v B t t' w X t' ltac:(lia)) as [E _].
    destruct (decode_csr w f rd g n 0 D) as (_ & _ & _ & _ & _ & En & _). rewrite E, <- En. destruct (n =? hi); reflexivity.
Qed.
(** The constant outputs: never halted, machine mode, 32-bit; full CSR masks. *)
Theorem C50_constants : rv_halt = 0 /\ rv_mode = 3 /\ rv_ixl = 1 /\ rv_csr_rmask = 0xFFFFFFFF /\ rv_csr_wmask = 0xFFFFFFFF.
Proof. repeat split; reflexivity. Qed.

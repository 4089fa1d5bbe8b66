(** * C32: the dead-code component [DataPathSrcMux] could replace the inline routing *)
From Coq Require Import ZArith List Bool Lia.
From Verif Require Import Bits Ucode Cpu.
Import ListNotations.
Open Scope Z_scope.

(** ** Model *)

(** Input ports of DataPathSrcMux (datapath.py:803-813).  Values assigned to a port are
    truncated to its width, which [glue] does. *)
Record dsm_in := { m_insn_fetch : bool; m_reg_r_sel : reg_r_sel; m_reg_w_sel : reg_w_sel;
  m_csr_sel : csr_sel; m_src_a_unreg : Z; m_src_a : Z; m_src_b : Z; m_dst : Z;
  m_csr_encoding : Z; m_csr_target : Z }.
(** Output ports (datapath.py:815-818). *)
Record dsm_out := { m_reg_r_adr : Z; m_reg_w_adr : Z; m_allow_zero_wr : bool; m_csr_adr : Z }.

(** DataPathSrcMux.elaborate (datapath.py:822-850). *)
Definition dsm (p : dsm_in) : dsm_out := {|
  m_reg_r_adr := match m_reg_r_sel p with
                 | RR_INSN_RS1 => if m_insn_fetch p then m_src_a_unreg p else m_src_a p
                 | RR_INSN_RS2 => m_src_b p end;
  m_reg_w_adr := match m_reg_w_sel p with RW_INSN_RD => m_dst p | RW_ZERO => 0 end;
  m_allow_zero_wr := match m_reg_w_sel p with RW_INSN_RD => false | RW_ZERO => true end;
  m_csr_adr := match m_csr_sel p with CS_INSN_CSR => m_csr_encoding p | CS_TRG_CSR => m_csr_target p end |}.

(** The glue that Top has in a comment (top.py:355-365). *)
Definition glue (u : uinsn) (src_a_unreg src_a src_b dst enc : Z) : dsm_in := {|
  m_insn_fetch := u_fetch u; m_reg_r_sel := u_rsel u; m_reg_w_sel := u_wsel u; m_csr_sel := u_csel u;
  m_src_a_unreg := bits src_a_unreg 0 5; m_src_a := bits src_a 0 5; m_src_b := bits src_b 0 5;
  m_dst := bits dst 0 5; m_csr_encoding := bits enc 0 4; m_csr_target := bits (u_target u) 0 4 |}.

(** Top.elaborate with the inline routing (top.py:372-399) replaced by the component and
    the commented-out glue (top.py:355-370): [step] with the four nets taken from [dsm]. *)
Definition step_dsm (s : state) (i : input) : state :=
  let u := s_u s in
  let w := dat_r i in
  let start := do_decode s i in
  let d := dsm (glue u (i_rs1 w) (s_src_a s) (s_src_b s) (s_dst s) (mp_enc (s_map s))) in
  let cadr := m_csr_adr d in
  let wen := rf_wen u (m_reg_w_adr d) (m_allow_zero_wr d) in
  let wa := rf_waddr u (m_reg_w_adr d) cadr in
  let wd := rf_wdata u (s_alu s) (csr_dat_w cadr (s_alu s)) in
  let mem' := rf_mem_next wen wa wd (s_mem s) in
  let rdata' := rf_rdata_next (rf_ren u) (rf_raddr u (m_reg_r_adr d) cadr) wen wa wd (s_mem s) (s_rdata s) in
  let adr := seq_now s i in
  if rst i then reset_regs (rom adr) mem' rdata' else {|
  s_data_adr := if u_ladr u then s_alu s else s_data_adr s;
  s_wdata := if u_ldata u then wdata_align (u_msel u) (s_data_adr s) (s_alu s) else s_wdata s;
  s_mguard := false;
  s_alu := alu_next u (s_a s) (s_b s);
  s_a := asrc_next u (s_rdata s) (s_imm s) (s_alu s) (s_a s);
  s_b := bsrc_next u (s_rdata s) (s_imm s) (s_pc s) w (s_data_adr s) (s_src_a s)
                   (csr_dat_r (s_csr s) (s_rdata s)) (mcause_now s) (s_b s);
  s_next := (adr + 1) mod 2 ^ 8;
  s_sguard := false;
  s_u := rom adr;
  s_src_a := if start then i_rs1 w else s_src_a s;
  s_src_b := if start then i_rs2 w else s_src_b s;
  s_dst := if start then i_rd w else s_dst s;
  s_imm := imm_next start w (s_imm s);
  s_attr := csr_attr_next w;
  s_map := map_next start w (s_attr s) (s_map s);
  s_exc := exc_next start w (s_attr s) (s_exc s);
  s_pc := pc_next u (s_alu s) (s_pc s);
  s_mem := mem';
  s_rdata := rdata';
  s_csr := csr_next u cadr (s_alu s) (irq i) (s_csr s);
  s_cause := cause_next u (s_alu s) (s_exc s) (s_csr s) (irq i) (s_cause s);
  s_int := int_next u (s_csr s) (irq i) (s_int s) |}.

Fixpoint run_dsm (s : state) (inp : nat -> input) (t : nat) : state :=
  match t with O => s | S n => step_dsm (run_dsm s inp n) (inp n) end.

(** ** Proofs *)

(** The decoder's 5-bit and 4-bit registers hold 5-bit and 4-bit values. *)
Definition decode_regs_ok (s : state) : Prop :=
  0 <= s_src_a s < 32 /\ 0 <= s_src_b s < 32 /\ 0 <= s_dst s < 32 /\ 0 <= mp_enc (s_map s) < 16.

Lemma bits0_small : forall x n, 0 <= x < 2 ^ n -> bits x 0 n = x.
Proof. intros. unfold bits. rewrite Z.pow_0_r, Z.div_1_r. apply Z.mod_small. auto. Qed.
Lemma bits_lt : forall x lo n, 0 <= n -> 0 <= bits x lo n < 2 ^ n.
Proof. intros. unfold bits. apply Z.mod_pos_bound. apply Z.pow_pos_nonneg; lia. Qed.

Lemma dsm_same : forall s w, decode_regs_ok s ->
  dsm (glue (s_u s) (i_rs1 w) (s_src_a s) (s_src_b s) (s_dst s) (mp_enc (s_map s))) =
  {| m_reg_r_adr := reg_r_adr (s_u s) (i_rs1 w) (s_src_a s) (s_src_b s);
     m_reg_w_adr := reg_w_adr (s_u s) (s_dst s);
     m_allow_zero_wr := allow_zero_wr (s_u s);
     m_csr_adr := csr_adr (s_u s) (mp_enc (s_map s)) |}.
Proof.
  intros s w (A & B & C & D). unfold dsm, glue, reg_r_adr, reg_w_adr, allow_zero_wr, csr_adr.
  cbn [m_insn_fetch m_reg_r_sel m_reg_w_sel m_csr_sel m_src_a_unreg m_src_a m_src_b m_dst m_csr_encoding m_csr_target].
  rewrite (bits0_small (i_rs1 w)) by (unfold i_rs1; apply (bits_lt w 15 5); lia).
  rewrite (bits0_small (s_src_a s)), (bits0_small (s_src_b s)), (bits0_small (s_dst s)), (bits0_small (mp_enc (s_map s))) by assumption.
  reflexivity.
Qed.

Lemma step_dsm_same : forall s i, decode_regs_ok s -> step_dsm s i = step s i.
Proof. intros s i D. unfold step_dsm, step. rewrite (dsm_same s (dat_r i) D). reflexivity. Qed.

Lemma decode_regs_step : forall s i, decode_regs_ok s -> decode_regs_ok (step s i).
Proof.
  intros s i (A & B & C & D). unfold decode_regs_ok, step. destruct (rst i).
  - cbn. lia.
  - cbn [s_src_a s_src_b s_dst s_map].
    assert (E : forall lo, 0 <= bits (dat_r i) lo 5 < 32) by (intros; apply (bits_lt _ lo 5); lia).
    unfold map_next. cbn [mp_enc]. unfold i_rs1, i_rs2, i_rd.
    assert (F := bits_lt (dat_r i) 20 3). assert (G := bits_lt (dat_r i) 26 1).
    change (2 ^ 3) with 8 in *. change (2 ^ 1) with 2 in *.
    destruct (do_decode s i); cbn [andb]; repeat split; try apply E; try tauto; destruct (map_is_csr _); lia.
Qed.

(** A core built with DataPathSrcMux is, in every cycle, in exactly the state of the core
    built with the inline routing: for every input waveform (resets included) and every
    starting state whose decoder registers hold values of their width. *)
Theorem C32_datapathsrcmux_equivalent : forall s inp t,
  decode_regs_ok s -> run_dsm s inp t = run s inp t.
Proof.
  intros s inp t D.
  assert (H : run_dsm s inp t = run s inp t /\ decode_regs_ok (run s inp t)).
  { induction t as [|t [IH1 IH2]]; simpl; [auto|]. rewrite IH1, (step_dsm_same _ _ IH2).
    split; [reflexivity|]. now apply decode_regs_step. }
  tauto.
Qed.

(** In particular from power-on. *)
Example C32_datapathsrcmux_equivalent_applies : forall inp t, run_dsm por inp t = run por inp t.
Proof. intros. apply C32_datapathsrcmux_equivalent. unfold decode_regs_ok. cbn. lia. Qed.

(** * Microcode blocks: from the decode cycle to the next bus request *)
From Coq Require Import ZArith Lia Bool List.
From Verif Require Import Bits Ucode Cpu Isa Timed BitLemmas Wf Sym.
Import ListNotations.
Open Scope Z_scope.

(** State in the cycle after the decode cycle: microinstruction [k] is the entry point,
    rs1's value is in the A latch and rs2's on the register-file output. *)
Record dispatched (k : Z) (s : state) : Prop := {
  d_at : at_ k s; d_settled : settled s;
  d_a : s_a s = s_mem s (s_src_a s); d_rdata : s_rdata s = s_mem s (s_src_b s) }.

Section Blocks.
Variable inp : nat -> input.

(** Trap entry (microcode [save_pc]). *)
Lemma blk_trap s t a it cause intr :
  at_ 240 s -> settled s -> word (s_mem s 37) -> inw 30 (s_pc s) -> inw 4 (s_cause s) ->
  relv a (s_mem s) (s_pc s) (c_mie (s_csr s)) (c_mpie (s_csr s)) (c_mpp (s_csr s)) (c_meie (s_csr s)) it ->
  s_int s = orb intr it -> mcause_now s = cause ->
  settles inp (ready true (Fetching (trap_to a cause intr))) 4 t s.
Proof.
  intros (A1&A2&A3&A4) (B1&B2) Wtv Wpc Wc R Hi Hc.
  explode s. unfold mcause_now in Hc. proj. subst nx u mg sg m3 e2 int.
  vmchange (rom 240). stp. stp. stp. stp.
  apply settles_now. eexists; split; [reflexivity|].
  assert (Epc : 4 * bits (w32 (0 + m 37)) 2 30 = 4 * (m 37 / 4)).
  { unfold w32, bits. rewrite Z.add_0_l, (Z.mod_small (m 37)) by exact Wtv. f_equal.
    apply Z.mod_small. change (2 ^ 2) with 4. unfold word in Wtv. split; [apply Z.div_pos; lia|apply Z.div_lt_upper_bound; lia]. }
  assert (Eepc : 4 * (w32 (0 + pc' * 4) / 4) = 4 * pc').
  { unfold w32. rewrite Z.add_0_l, Z.mod_small by (unfold inw in Wpc; lia). rewrite Z.div_mul by lia. lia. }
  rewrite Eepc. destruct R.
  split; [|split].
  - exists 244. split; [cbn; tauto|repeat split].
  - proj. cbn [trap_to pc]. rewrite Epc, r_mtvec. reflexivity.
  - intros dd qq. unf. norm. apply fetch0_wait; [repeat split|split; reflexivity|].
    unfold rel. proj.
    assert (Ec : w32 (0 + (cau + 2 ^ 31 * (if if intr then true else it then 1 else 0))) = cause).
    { rewrite Z.add_0_l. unfold b2z, orb in Hc. rewrite Hc. unfold w32. apply Z.mod_small.
      rewrite <- Hc. unfold inw in Wc. proj.
      destruct (if intr then true else it); lia. }
    rewrite Ec. unfold upd.
    constructor; cbn [trap_to pc mie mpie meie mtvec mscratch mepc mcause took_int]; try assumption; try reflexivity; try (rewrite Epc, r_mtvec; reflexivity); try (rewrite r_int; reflexivity).
    intros r Hr. unfold rd_x in *; cbn [xr]. rewrite r_x by assumption. 
    destruct (Z.eqb_spec r 42); [lia|]. destruct (Z.eqb_spec r 41); [lia|reflexivity].
Qed.

(** Opening moves shared by all blocks. *)
Ltac opening s :=
  intros [(A1&A2&A3&A4) (B1&B2) C1 C2] R W;
  pose proof (wf_src_a s W) as Wsa; pose proof (wf_src_b s W) as Wsb; pose proof (wf_dst s W) as Wds;
  pose proof (wf_pc s W) as Wpc; pose proof (wf_mem s W) as Wm; pose proof (wf_imm s W) as Wim;
  unfold inw in *;
  explode s; unfold rel in R; proj;
  lazymatch goal with H : _ = rom ?k |- _ => repeat match goal with E : ?x = _ |- _ => is_var x; subst x end; vmchange (rom k) end;
  cbn [s_dst s_src_a s_src_b];
  repeat match goal with R : relv ?a _ _ _ _ _ _ _ |- context[rd_x ?a ?r] => rewrite (r_x _ _ _ _ _ _ _ _ R r) by lia end.

(** Register-immediate and register-register ALU operations other than shifts. *)
Definition opimm_entry (f : alu_fn) : Z :=
  match f with ADD => 0x40 | SLT => 0x42 | SLTU => 0x43 | XOR => 0x44 | OR => 0x46 | _ => 0x47 end.
Definition op_entry (f : alu_fn) : Z :=
  match f with ADD => 0xC0 | SLT => 0xC2 | SLTU => 0xC3 | XOR => 0xC4 | OR => 0xC6 | AND => 0xC7 | _ => 0xC8 end.

Ltac alu_end R k :=
  apply settles_now; eexists; split; [rewrite advance_wr; reflexivity|];
  match goal with |- early_wait (wr_x ?a _ ?v) ?s' =>
    apply (alu_early_wait a k s' v); [cbn; tauto|repeat split|split; reflexivity|assumption
    |apply relv_advance; [assumption|exact R]|proj; vmchange (rom k); unf]
  end.

Lemma blk_opimm f s t a ip imm : is_shift f = false -> f <> SUB ->
  dispatched (opimm_entry f) s -> rel a s -> wf s -> s_imm s = imm mod 2 ^ 32 ->
  settles inp (ready true (exec SENTINEL a ip (OpImm f (s_dst s) (s_src_a s) imm))) 1 t s.
Proof.
  intros Hf Hs. unfold exec.
  destruct f; try discriminate; try congruence; unfold opimm_entry; opening s; intros I; stp; subst im.
  - alu_end R 0x53. reflexivity.
  - alu_end R 0x54. apply lts_ok; [apply Wm|assumption].
  - alu_end R 0x55. apply ltu_ok; [apply Wm|assumption].
  - alu_end R 0x56. reflexivity.
  - alu_end R 0x57. reflexivity.
  - alu_end R 0x58. reflexivity.
Qed.

Lemma blk_op f s t a ip : is_shift f = false ->
  dispatched (op_entry f) s -> rel a s -> wf s ->
  settles inp (ready true (exec SENTINEL a ip (OpReg f (s_dst s) (s_src_a s) (s_src_b s)))) 1 t s.
Proof.
  intros Hf. unfold exec.
  destruct f; try discriminate; unfold op_entry; opening s; stp.
  - alu_end R 0xd1. reflexivity.
  - alu_end R 0xd7. apply sub_ok.
  - alu_end R 0xd2. apply lts_ok; apply Wm.
  - alu_end R 0xd3. apply ltu_ok; apply Wm.
  - alu_end R 0xd4. reflexivity.
  - alu_end R 0xd5. reflexivity.
  - alu_end R 0xd6. reflexivity.
Qed.

Lemma blk_lui s t a ip imm : dispatched 0xd0 s -> rel a s -> wf s -> s_imm s = imm ->
  settles inp (ready true (exec SENTINEL a ip (Lui (s_dst s) imm))) 1 t s.
Proof.
  unfold exec. opening s. intros I. stp. subst im. alu_end R 0x53.
  unfold w32. rewrite Z.add_0_l. apply Z.mod_small. exact Wim.
Qed.

Lemma blk_auipc s t a ip imm : dispatched 0x50 s -> rel a s -> wf s -> s_imm s = imm ->
  settles inp (ready false (exec SENTINEL a ip (Auipc (s_dst s) imm))) 3 t s.
Proof.
  unfold exec. opening s. intros I. stp. stp. stp. subst im.
  apply settles_now. constructor. apply fetch0_wait; [repeat split|split; reflexivity|].
  unfold rel. proj. rewrite advance_wr.
  replace ((pc a + imm) mod 2 ^ 32) with (w32 (imm + pc' * 4)).
  2:{ unfold w32. rewrite (r_pc _ _ _ _ _ _ _ _ R). f_equal. lia. }
  apply relv_wr; [assumption|]. apply relv_advance; assumption.
Qed.

Lemma blk_misc s t a : dispatched 0x30 s -> rel a s -> wf s ->
  settles inp (ready false (Fetching (advance a))) 1 t s.
Proof.
  opening s. stp.
  apply settles_now. constructor. apply fetch0_wait; [repeat split|split; reflexivity|].
  unfold rel. proj. apply relv_advance; assumption.
Qed.


(** ** Jumps and branches *)
Lemma bit1_mod4 x : x mod 2 = 0 -> bitb x 1 = negb (x mod 4 =? 0).
Proof.
  intros H. unfold bitb, bits. change (2 ^ 1) with 2.
  pose proof (Z.div_mod x 2 ltac:(lia)) as D. rewrite H in D.
  pose proof (Z.div_mod (x / 2) 2 ltac:(lia)) as D2. pose proof (Z.mod_pos_bound (x / 2) 2 ltac:(lia)).
  destruct (Z.eqb_spec ((x / 2) mod 2) 1), (Z.eqb_spec (x mod 4) 0) as [E|E]; try reflexivity; exfalso.
  - pose proof (Z.div_mod x 4 ltac:(lia)). lia.
  - apply E. symmetry. apply (Z.mod_unique x 4 (x / 2 / 2)); lia.
Qed.

Lemma even_mod x : x mod 2 = 0 -> (x mod 2 ^ 32) mod 2 = 0.
Proof.
  intros. pose proof (Z.div_mod x (2 ^ 32) ltac:(lia)). pose proof (Z.div_mod x 2 ltac:(lia)).
  symmetry. apply (Z.mod_unique _ 2 (x / 2 - 2 ^ 31 * (x / 2 ^ 32))); lia.
Qed.

Lemma target_pc x : word x -> x mod 4 = 0 -> x = 4 * bits x 2 30.
Proof.
  intros Hw H. unfold bits. change (2 ^ 2) with 4. pose proof (Z.div_mod x 4 ltac:(lia)).
  rewrite Z.mod_small; [lia|]. unfold word in Hw. split; [apply Z.div_pos; lia|apply Z.div_lt_upper_bound; lia].
Qed.

(** Taking a misaligned-target exception from microinstruction [save_pc]. *)
Ltac trap_now R c :=
  match goal with |- settles _ (ready true (Fetching (exception SENTINEL ?a c))) _ ?t ?s' =>
    unfold exception; eapply (blk_trap s' t);
    [repeat split|split; reflexivity|proj; auto|assumption|proj; unfold inw, INSN_MISALIGNED, LOAD_MISALIGNED, STORE_MISALIGNED; lia|exact R|reflexivity|
     unfold mcause_now, sync_mcause; proj; rewrite (r_int _ _ _ _ _ _ _ _ R); unfold b2z;
     repeat match goal with |- context[if ?b then _ else _] => is_var b; destruct b end; reflexivity]
  end.


Lemma set_pc_wr a r v p : set_pc (wr_x a r v) p = wr_x (set_pc a p) r v.
Proof. unfold wr_x. destruct (r =? 0); reflexivity. Qed.

Ltac jump_end R k T E0 Wt :=
  apply settles_now; eexists; split; [rewrite set_pc_wr; reflexivity|];
  match goal with |- early_wait (wr_x ?a _ ?v) ?s' =>
    apply (alu_early_wait a k s' v); [cbn; tauto|repeat split|split; reflexivity|assumption
    |eapply relv_set_pc; [apply (target_pc T Wt E0)|exact R]|proj; vmchange (rom k); unf]
  end.

Lemma blk_jal s t a ip off : dispatched 0xb0 s -> rel a s -> wf s -> s_imm s = off mod 2 ^ 32 -> off mod 2 = 0 ->
  settles inp (ready true (exec SENTINEL a ip (Jal (s_dst s) off))) (fst (jump_delay ((pc a + off) mod 2 ^ 32)) - 1) t s.
Proof.
  unfold exec. opening s. intros I Ev.
  assert (Et : w32 (im + pc' * 4) = (pc a + off) mod 2 ^ 32).
  { subst im. unfold w32. rewrite Z.add_mod_idemp_l by lia. rewrite (r_pc _ _ _ _ _ _ _ _ R). f_equal. lia. }
  assert (Eb : ((pc a + off) mod 2 ^ 32) mod 2 = 0).
  { apply even_mod. rewrite (r_pc _ _ _ _ _ _ _ _ R). rewrite Z.add_mod, Ev by lia. replace (4 * pc') with (2 * pc' * 2) by lia. rewrite Z.mod_mul by lia. reflexivity. }
  apply bit1_mod4 in Eb.
  unfold jump, jump_delay, target_ok. pose proof (word_mod (pc a + off)) as Wt.
  set (T := (pc a + off) mod 2 ^ 32) in *.
  destruct (Z.eqb_spec (T mod 4) 0) as [E0|E0]; cbn [negb] in Eb.
  - change (fst (5%nat, true) - 1)%nat with 4%nat.
    stp. stp. rewrite !Et, ?Eb. stp. rewrite !Et, ?Eb. norm. stp. rewrite !Et.
    jump_end R 0xb4 T E0 Wt. unfold w32, next_pc. rewrite (r_pc _ _ _ _ _ _ _ _ R). f_equal. lia.
  - change (fst (trap_delay 4) - 1)%nat with 7%nat.
    stp. stp. rewrite !Et, ?Eb. stp. rewrite !Et, ?Eb. norm.
    trap_now R 0.
Qed.

Lemma bits_clear_lsb x : bits (2 * (x / 2)) 2 30 = bits x 2 30.
Proof.
  unfold bits. f_equal. change (2 ^ 2) with (2 * 2). rewrite <- !Z.div_div by lia.
  rewrite (Z.mul_comm 2 (x / 2)), Z.div_mul by lia. reflexivity.
Qed.

Lemma blk_jalr s t a ip off : dispatched 0x98 s -> rel a s -> wf s -> s_imm s = off mod 2 ^ 32 ->
  settles inp (ready true (exec SENTINEL a ip (Jalr (s_dst s) (s_src_a s) off)))
    (fst (jump_delay (2 * (((rd_x a (s_src_a s) + off) mod 2 ^ 32) / 2))) - 1) t s.
Proof.
  unfold exec. opening s. intros I.
  assert (Et : w32 (m sa + im) = (m sa + off) mod 2 ^ 32).
  { subst im. unfold w32. apply Z.add_mod_idemp_r. lia. }
  unfold jump, jump_delay, target_ok. pose proof (word_mod (m sa + off)) as Wt0.
  assert (Wt : word (2 * ((m sa + off) mod 2 ^ 32 / 2))).
  { unfold word in *. pose proof (Z.mul_div_le ((m sa + off) mod 2 ^ 32) 2 ltac:(lia)).
    assert (0 <= (m sa + off) mod 2 ^ 32 / 2) by (apply Z.div_pos; lia). lia. }
  assert (Eb : (2 * ((m sa + off) mod 2 ^ 32 / 2)) mod 2 = 0) by (rewrite Z.mul_comm; apply Z.mod_mul; lia).
  apply bit1_mod4 in Eb.
  set (T := 2 * ((m sa + off) mod 2 ^ 32 / 2)) in *.
  destruct (Z.eqb_spec (T mod 4) 0) as [E0|E0]; cbn [negb] in Eb.
  - change (fst (5%nat, true) - 1)%nat with 4%nat.
    stp. stp. rewrite !Et. fold T. rewrite ?Eb. stp. rewrite !Et. fold T. rewrite ?Eb. norm. stp.
    rewrite ?Et, <- (bits_clear_lsb ((m sa + off) mod 2 ^ 32)). fold T.
    jump_end R 0x9c T E0 Wt. unfold w32, next_pc. rewrite (r_pc _ _ _ _ _ _ _ _ R). f_equal. lia.
  - change (fst (trap_delay 4) - 1)%nat with 7%nat.
    stp. stp. rewrite !Et. fold T. rewrite ?Eb. stp. rewrite !Et. fold T. rewrite ?Eb. norm.
    trap_now R 0.
Qed.

Definition branch_entry (c : cmp_fn) : Z :=
  match c with EQ => 0x88 | NE => 0x89 | LT => 0x8c | GE => 0x8d | LTU => 0x8e | GEU => 0x8f end.

Definition branch_delay (a : arch) (c : cmp_fn) (rs1 rs2 off : Z) : delay := exec_delay a (Branch c rs1 rs2 off).

Lemma sub_zero x y : word x -> word y -> (w32 (sub_unit x y) =? 0) = (x =? y).
Proof.
  intros Hx Hy. rewrite sub_ok. unfold word in *. destruct (Z.eqb_spec x y) as [->|N].
  - rewrite Z.sub_diag. reflexivity.
  - apply Z.eqb_neq. intros H. apply Z.mod_divide in H; [|lia]. destruct H as [k Hk]. lia.
Qed.

Lemma branch_test c x y : word x -> word y ->
  (alu_next (rom (match c with EQ => 0x84 | NE => 0x83 | LT => 0x90 | GE => 0x91 | LTU => 0x92 | GEU => 0x93 end)) x y =? 0)
  = match c with EQ => cmp c x y | _ => negb (cmp c x y) end.
Proof.
  intros Hx Hy. destruct c; match goal with |- context[rom ?k] => vmchange (rom k) end; unf; unfold cmp.
  - apply sub_zero; assumption.
  - rewrite sub_zero by assumption. destruct (x =? y); reflexivity.
  - rewrite lts_ok by assumption. destruct (s32 x <? s32 y); reflexivity.
  - rewrite lts_ok by assumption. destruct (s32 x <? s32 y); reflexivity.
  - rewrite ltu_ok by assumption. destruct (x <? y); reflexivity.
  - rewrite ltu_ok by assumption. destruct (x <? y); reflexivity.
Qed.

(** Use a known boolean value of the branch test. *)
Ltac use_test B := unf; rewrite ?B; unf; norm.

Lemma blk_branch c s t a ip off : dispatched (branch_entry c) s -> rel a s -> wf s -> s_imm s = off mod 2 ^ 32 -> off mod 2 = 0 ->
  settles inp (ready (snd (branch_delay a c (s_src_a s) (s_src_b s) off)) (exec SENTINEL a ip (Branch c (s_src_a s) (s_src_b s) off)))
    (fst (branch_delay a c (s_src_a s) (s_src_b s) off) - 1) t s.
Proof.
  unfold branch_delay. destruct c; unfold exec, exec_delay, branch_entry.
  all: opening s; intros I Ev.
  all: assert (Et : w32 (im + pc' * 4) = (pc a + off) mod 2 ^ 32) by
    (subst im; unfold w32; rewrite Z.add_mod_idemp_l by lia; rewrite (r_pc _ _ _ _ _ _ _ _ R); f_equal; lia).
  all: assert (Eb : ((pc a + off) mod 2 ^ 32) mod 2 = 0) by
    (apply even_mod; rewrite (r_pc _ _ _ _ _ _ _ _ R); rewrite Z.add_mod, Ev by lia;
     replace (4 * pc') with (2 * pc' * 2) by lia; rewrite Z.mod_mul by lia; reflexivity).
  all: apply bit1_mod4 in Eb.
  all: unfold jump, jump_delay, target_ok; pose proof (word_mod (pc a + off)) as Wt.
  all: set (T := (pc a + off) mod 2 ^ 32) in *.
  all: match goal with |- context[cmp ?c ?x ?y] => pose proof (branch_test c x y) as B end;
    specialize (B ltac:(match goal with H : forall _, word _ |- _ => apply H end) ltac:(match goal with H : forall _, word _ |- _ => apply H end)).
  all: match type of B with context[rom ?k] => let v := eval vm_compute in (rom k) in change (rom k) with v in B end.
  all: cbv [alu_next alu_mod alu_omod_f alu_mux u_op u_imod u_omod] in B.
  all: destruct (cmp _ _ _) eqn:C; [destruct (Z.eqb_spec (T mod 4) 0) as [E0|E0]; cbn [negb] in Eb|]; cbn [negb] in B.
  all: match goal with |- context[(fst ?x - 1)%nat] => let v := eval vm_compute in (fst x - 1)%nat in change (fst x - 1)%nat with v end.
  all: cbn [snd trap_delay].
  all: stp; stp; stp; rewrite ?B; unf; norm; stp; rewrite ?Et, ?Eb; unf; norm.
  all: try (apply settles_now; constructor; apply fetch0_wait; [repeat split|split; reflexivity|];
      unfold rel; proj; apply relv_advance; assumption).
  all: try (trap_now R 0; fail).
  all: stp; rewrite ?Et.
  all: apply settles_now; constructor; apply fetch0_wait; [repeat split|split; reflexivity|];
      unfold rel; proj; eapply relv_set_pc; [exact (target_pc T Wt E0)|exact R].
Qed.

(** ** Loads and stores *)
Lemma misaligned_half x : misaligned MS_HWORD x = negb (aligned Half x).
Proof.
  unfold misaligned, bitb, bits, aligned, bytes. change (2 ^ 0) with 1. change (2 ^ 1) with 2. rewrite Z.div_1_r.
  pose proof (Z.mod_pos_bound x 2 ltac:(lia)).
  destruct (Z.eqb_spec (x mod 2) 1), (Z.eqb_spec (x mod 2) 0); try reflexivity; lia.
Qed.
Lemma misaligned_word x : misaligned MS_WORD x = negb (aligned Word x).
Proof.
  unfold misaligned, bitb, bits, aligned, bytes. change (2 ^ 0) with 1. change (2 ^ 1) with 2. rewrite Z.div_1_r.
  pose proof (Z.mod_pos_bound x 2 ltac:(lia)). pose proof (Z.mod_pos_bound (x / 2) 2 ltac:(lia)).
  replace (x mod 4) with (x mod 2 + 2 * ((x / 2) mod 2)).
  2:{ change 4 with (2 * 2). symmetry. apply Z.rem_mul_r; lia. }
  destruct (Z.eqb_spec (x mod 2) 1), (Z.eqb_spec ((x / 2) mod 2) 1), (Z.eqb_spec (x mod 2 + 2 * ((x / 2) mod 2)) 0); try reflexivity; lia.
Qed.

Definition load_entry (sz : width) (sgn : bool) : Z :=
  match sz, sgn with
  | Byte, true => 8 | Half, true => 9 | Word, _ => 10 | Byte, false => 12 | Half, false => 13
  end.
Definition store_entry (sz : width) : Z := match sz with Byte => 0x80 | Half => 0x81 | Word => 0x82 end.

Lemma blk_load sz sgn s t a ip off : (sz = Word -> sgn = true) ->
  dispatched (load_entry sz sgn) s -> rel a s -> wf s -> s_imm s = off mod 2 ^ 32 ->
  let d := exec_delay a (Load sz sgn (s_dst s) (s_src_a s) off) in
  settles inp (ready (snd d) (exec SENTINEL a ip (Load sz sgn (s_dst s) (s_src_a s) off))) (fst d - 1) t s.
Proof.
  intros Hw. assert (sz = Word -> sgn = false -> False) as Hw' by (intros; rewrite Hw in *; congruence). clear Hw.
  destruct sz, sgn; try (exfalso; apply Hw'; reflexivity); clear Hw'; unfold exec, exec_delay, load_entry.
  all: opening s; intros I.
  all: assert (Et : w32 (m sa + im) = (m sa + off) mod 2 ^ 32) by (subst im; unfold w32; apply Z.add_mod_idemp_r; lia).
  all: set (T := (m sa + off) mod 2 ^ 32) in *.
  all: destruct (aligned _ T) eqn:Al.
  all: try (unfold aligned, bytes in Al; rewrite Z.mod_1_r in Al; discriminate).
  all: match goal with |- context[(fst ?x - 1)%nat] => let v := eval vm_compute in (fst x - 1)%nat in change (fst x - 1)%nat with v end.
  all: cbn [snd trap_delay].
  all: pose proof (misaligned_half T) as Mh; pose proof (misaligned_word T) as Mw; try rewrite Al in Mh; try rewrite Al in Mw;
       cbn [negb] in Mh, Mw.
  all: stp; stp; rewrite ?Et; stp; rewrite ?Et, ?Mh, ?Mw; unf; norm.
  all: try (trap_now R 4; fail).
  all: apply settles_now; constructor; [repeat split|split; reflexivity|reflexivity|reflexivity|exact Al|
        unfold rel; proj; try apply relv_advance; assumption].
Qed.

Lemma wdata_ok sz ea v : aligned sz ea = true -> word v ->
  wdata_align (match sz with Byte => MS_BYTE | Half => MS_HWORD | Word => MS_WORD end) ea v = store_data sz ea v.
Proof.
  intros Al Hv. unfold store_data, wdata_align, aligned in *. destruct sz; unfold bytes in *.
  - change (8 * 1) with 8. replace (bits v 0 8) with (v mod 2 ^ 8) by (unfold bits; change (2 ^ 0) with 1; rewrite Z.div_1_r; reflexivity).
    replace (bits ea 0 2) with (ea mod 4) by (unfold bits; change (2 ^ 0) with 1; rewrite Z.div_1_r; reflexivity).
    pose proof (Z.mod_pos_bound ea 4 ltac:(lia)).
    destruct (Z.eqb_spec (ea mod 4) 0) as [->|]; [change (2 ^ (8 * 0)) with 1; lia|].
    destruct (Z.eqb_spec (ea mod 4) 1) as [->|]; [reflexivity|].
    destruct (Z.eqb_spec (ea mod 4) 2) as [->|]; [reflexivity|].
    replace (ea mod 4) with 3 by lia. reflexivity.
  - change (8 * 2) with 16. replace (bits v 0 16) with (v mod 2 ^ 16) by (unfold bits; change (2 ^ 0) with 1; rewrite Z.div_1_r; reflexivity).
    apply Z.eqb_eq in Al. unfold bits. change (2 ^ 1) with 2.
    replace (ea mod 4) with (2 * ((ea / 2) mod 2)).
    2:{ change 4 with (2 * 2). rewrite (Z.rem_mul_r ea 2 2) by lia. lia. }
    pose proof (Z.mod_pos_bound (ea / 2) 2 ltac:(lia)).
    destruct (Z.eqb_spec ((ea / 2) mod 2) 0) as [->|]; [change (2 ^ (8 * (2 * 0))) with 1; lia|].
    replace ((ea / 2) mod 2) with 1 by lia. reflexivity.
  - apply Z.eqb_eq in Al. rewrite Al. change (8 * 4) with 32. change (2 ^ (8 * 0)) with 1.
    rewrite Z.mod_small by exact Hv. lia.
Qed.

Lemma blk_store sz s t a ip off :
  dispatched (store_entry sz) s -> rel a s -> wf s -> s_imm s = off mod 2 ^ 32 ->
  let d := exec_delay a (Store sz (s_src_a s) (s_src_b s) off) in
  settles inp (ready (snd d) (exec SENTINEL a ip (Store sz (s_src_a s) (s_src_b s) off))) (fst d - 1) t s.
Proof.
  destruct sz; unfold exec, exec_delay, store_entry.
  all: opening s; intros I.
  all: assert (Et : w32 (m sa + im) = (m sa + off) mod 2 ^ 32) by (subst im; unfold w32; apply Z.add_mod_idemp_r; lia).
  all: set (T := (m sa + off) mod 2 ^ 32) in *.
  all: assert (Ev : w32 (0 + m sb) = m sb) by (unfold w32; rewrite Z.add_0_l; apply Z.mod_small; apply Wm).
  all: destruct (aligned _ T) eqn:Al.
  all: try (unfold aligned, bytes in Al; rewrite Z.mod_1_r in Al; discriminate).
  all: match goal with |- context[(fst ?x - 1)%nat] => let v := eval vm_compute in (fst x - 1)%nat in change (fst x - 1)%nat with v end.
  all: cbn [snd trap_delay].
  all: pose proof (misaligned_half T) as Mh; pose proof (misaligned_word T) as Mw; try rewrite Al in Mh; try rewrite Al in Mw;
       cbn [negb] in Mh, Mw.
  all: stp; stp; rewrite ?Et; stp; rewrite ?Et, ?Mh, ?Mw, ?Ev; unf; norm.
  all: try (trap_now R 6; fail).
  all: stp; rewrite ?Ev; apply settles_now; constructor; [repeat split|split; reflexivity|reflexivity| |exact Al|
        unfold rel; proj; try apply relv_advance; assumption].
  - exact (wdata_ok Byte T (m sb) Al (Wm sb)).
  - exact (wdata_ok Half T (m sb) Al (Wm sb)).
  - exact (wdata_ok Word T (m sb) Al (Wm sb)).
Qed.

(** ** MRET *)
Lemma blk_mret s t a ip : dispatched 248 s -> rel a s -> wf s ->
  settles inp (ready true (exec SENTINEL a ip Mret)) 4 t s.
Proof.
  unfold exec. opening s. stp. stp. stp. stp.
  apply settles_now. eexists; split; [reflexivity|].
  assert (Epc : 4 * bits (w32 (0 + m 41)) 2 30 = 4 * (m 41 / 4)).
  { unfold w32, bits. rewrite Z.add_0_l, (Z.mod_small (m 41)) by apply Wm. f_equal.
    apply Z.mod_small. change (2 ^ 2) with 4. pose proof (Wm 41) as Hw. unfold word in Hw.
    split; [apply Z.div_pos; lia|apply Z.div_lt_upper_bound; lia]. }
  destruct R. split; [|split].
  - exists 252. split; [cbn; tauto|repeat split].
  - proj. cbn [pc]. rewrite r_mepc, Epc. reflexivity.
  - intros dd qq. unf. norm. apply fetch0_wait; [repeat split|split; reflexivity|].
    unfold rel. proj.
    constructor; cbn [pc mie mpie meie mtvec mscratch mepc mcause took_int]; try assumption; try reflexivity.
    rewrite r_mepc, Epc. reflexivity.
Qed.


(** ** Shifts *)
Definition sh1 (f : alu_fn) (x : Z) : Z :=
  match f with SLL => w32 (x * 2) | SRL => x / 2 | _ => w32 (signed 32 x / 2) end.
Definition loop_at (f : alu_fn) : Z := match f with SLL => 92 | SRL => 97 | _ => 102 end.

Lemma signed_sext x : signed 32 x = s32 x.
Proof. reflexivity. Qed.

Lemma s32_mod z : - 2 ^ 31 <= z < 2 ^ 31 -> s32 (z mod 2 ^ 32) = z.
Proof.
  intros. unfold s32, sext. change (32 - 1) with 31.
  destruct (Z.lt_ge_cases z 0).
  - rewrite <- (Z.mod_unique z (2 ^ 32) (-1) (z + 2 ^ 32)) by lia. destruct (Z.ltb_spec (z + 2 ^ 32) (2 ^ 31)); lia.
  - rewrite Z.mod_small by lia. destruct (Z.ltb_spec z (2 ^ 31)); lia.
Qed.

Lemma sh1_step f x j : is_shift f = true -> word x -> 0 <= j -> j + 1 < 32 ->
  sh1 f (alu f x j) = alu f x (j + 1).
Proof.
  intros Hf Hx H0 H1. destruct f; try discriminate; unfold sh1, alu, w32;
    rewrite !(Z.mod_small _ 32) by lia; rewrite Z.pow_add_r by lia; change (2 ^ 1) with 2.
  - rewrite Z.mul_mod_idemp_l by lia. f_equal. lia.
  - rewrite Z.div_div; [reflexivity| |lia]. apply Z.pow_nonzero; lia.
  - rewrite signed_sext. pose proof (sext32_range x Hx) as Hs. fold (s32 x) in Hs.
    assert (0 < 2 ^ j) by (apply Z.pow_pos_nonneg; lia).
    rewrite s32_mod.
    + rewrite Z.div_div; [reflexivity| |lia]. lia.
    + split; [apply Z.div_le_lower_bound; nia|apply Z.div_lt_upper_bound; nia].
Qed.

Lemma sh1_first f x : is_shift f = true -> word x -> sh1 f x = alu f x 1.
Proof.
  intros Hf Hx. replace 1 with (0 + 1) by lia. rewrite <- sh1_step by (auto; lia). f_equal.
  destruct f; try discriminate; unfold alu; change (0 mod 32) with 0; change (2 ^ 0) with 1.
  - rewrite Z.mul_1_r. symmetry. apply Z.mod_small. exact Hx.
  - rewrite Z.div_1_r. reflexivity.
  - rewrite Z.div_1_r. unfold s32, sext. change (32 - 1) with 31. unfold word in Hx.
    destruct (Z.ltb_spec x (2 ^ 31)); [rewrite Z.mod_small; lia|].
    apply (Z.mod_unique _ _ (-1)); lia.
Qed.

Lemma shift_zero f x : is_shift f = true -> word x -> alu f x 0 = x.
Proof.
  intros Hf Hx. destruct f; try discriminate; unfold alu; change (0 mod 32) with 0; change (2 ^ 0) with 1.
  - rewrite Z.mul_1_r. apply Z.mod_small. exact Hx.
  - rewrite Z.div_1_r. reflexivity.
  - rewrite Z.div_1_r. unfold s32, sext. change (32 - 1) with 31. unfold word in Hx.
    destruct (Z.ltb_spec x (2 ^ 31)); [rewrite Z.mod_small; lia|].
    symmetry. apply (Z.mod_unique _ _ (-1)); lia.
Qed.

Lemma relv_ext a m m' p c1 c2 c3 c4 it : (forall r, m r = m' r) ->
  relv a m p c1 c2 c3 c4 it -> relv a m' p c1 c2 c3 c4 it.
Proof. intros E R. destruct R. constructor; rewrite <- ?E; try assumption. intros. rewrite <- E. auto. Qed.

(** The loop: [s_a] counts down, the ALU holds the value shifted [j] times; rd may
    already hold intermediate results. *)
Lemma shift_loop f c : is_shift f = true -> forall s t a m0 x j,
  at_ (loop_at f) s -> settled s -> 0 <= s_dst s < 32 -> word x ->
  relv a m0 (s_pc s) (c_mie (s_csr s)) (c_mpie (s_csr s)) (c_mpp (s_csr s)) (c_meie (s_csr s)) (s_int s) ->
  (forall r, r <> s_dst s \/ s_dst s = 0 -> s_mem s r = m0 r) ->
  s_a s = Z.of_nat (S c) -> s_b s = 1 -> s_alu s = alu f x j -> 1 <= j -> j + Z.of_nat c < 32 ->
  settles inp (ready false (Fetching (wr_x a (s_dst s) (alu f x (j + Z.of_nat c))))) (2 * S c) t s.
Proof.
  intros Hf. induction c as [|c IH]; intros s t a m0 x j (A1&A2&A3&A4) (B1&B2) Hd Hx R M Ha Hb Hal Hj Hc.
  - explode s. proj. subst nx u mg sg m3 e2 ra rb al.
    change (Z.of_nat 0) with 0. rewrite Z.add_0_r.
    destruct f; try discriminate; unfold loop_at; match goal with |- context[rom ?k] => vmchange (rom k) end;
    change (2 * 1)%nat with 2%nat; stp; stp; change (w32 (sub_unit (Z.of_nat 1) 1) =? 0) with true; unf; norm;
    apply settles_now; constructor; apply fetch0_wait; try (repeat split; reflexivity);
    (unfold rel; proj; eapply relv_ext; [|apply relv_wr; [assumption|exact R]];
     intros r; unfold upd; destruct (Z.eqb_spec ds 0); [symmetry; apply M; tauto|];
     destruct (Z.eqb_spec r ds); [reflexivity|symmetry; apply M; tauto]).
  - replace (2 * S (S c))%nat with (S (S (2 * S c))) by lia.
    explode s. proj. subst nx u mg sg m3 e2 ra rb al.
    assert (Ez : w32 (sub_unit (Z.of_nat (S (S c))) 1) = Z.of_nat (S c)).
    { rewrite sub_ok. rewrite Z.mod_small by lia. lia. }
    assert (En : (Z.of_nat (S c) =? 0) = false) by (apply Z.eqb_neq; lia).
    assert (Es : sh1 f (alu f x j) = alu f x (j + 1)) by (apply sh1_step; auto; lia).
    replace (j + Z.of_nat (S c)) with (j + 1 + Z.of_nat c) by lia.
    destruct f; try discriminate; unfold loop_at, sh1 in *; match goal with |- context[rom ?k] => vmchange (rom k) end;
    stp; rewrite ?Ez; stp; rewrite ?Ez, ?En; unf; norm; rewrite ?Es;
    match goal with |- settles _ _ _ ?t' ?s' => apply (IH s' t' a m0 x (j + 1)) end;
      proj; try reflexivity; try lia; try assumption; try (repeat split; reflexivity);
    (intros r Hr; unfold upd; destruct (Z.eqb_spec ds 0); [apply M; tauto|];
     destruct (Z.eqb_spec r ds); [exfalso; tauto|apply M; tauto]).
Qed.

Definition shifti_entry (f : alu_fn) : Z := match f with SLL => 0x41 | SRL => 0x45 | _ => 0x4d end.
Definition shift_entry (f : alu_fn) : Z := match f with SLL => 0xc1 | SRL => 0xc5 | _ => 0xcd end.

(** Zero shift amount: copy rs1. *)
Lemma shift_zero_end s t a : at_ 104 s -> settled s -> 0 <= s_dst s < 32 -> word (s_rdata s) -> rel a s ->
  settles inp (ready false (Fetching (wr_x a (s_dst s) (s_rdata s)))) 2 t s.
Proof.
  intros (A1&A2&A3&A4) (B1&B2) Hd Hw R. explode s. unfold rel in R. proj. subst nx u mg sg m3 e2.
  match goal with |- context[rom ?k] => vmchange (rom k) end. stp. stp.
  apply settles_now. constructor.
  assert (E : w32 (0 + rdt) = rdt) by (unfold w32; rewrite Z.add_0_l; apply Z.mod_small; exact Hw).
  rewrite <- E at 1.
  match goal with |- fetch_wait (wr_x a ds ?v) ?s' => apply (fast_epilog_wait a s') end;
    [repeat split|repeat split|exact Hd|exact R].
Qed.

Lemma alu_shift_mod f x n : is_shift f = true -> alu f x (n mod 2 ^ 32) = alu f x (n mod 32).
Proof.
  intros Hf. assert (E : (n mod 2 ^ 32) mod 32 = (n mod 32) mod 32).
  { rewrite Z.mod_mod by lia. change (2 ^ 32) with (32 * 2 ^ 27). rewrite Z.rem_mul_r by lia.
    rewrite Z.mul_comm, Z.mod_add by lia. apply Z.mod_mod; lia. }
  destruct f; try discriminate; unfold alu; rewrite E; reflexivity.
Qed.

Lemma blk_shifti f s t a ip n : is_shift f = true -> 0 <= n < 32 ->
  dispatched (shifti_entry f) s -> rel a s -> wf s ->
  (match f with SRA => s_imm s mod 32 | _ => s_imm s end) = n ->
  settles inp (ready false (exec SENTINEL a ip (OpImm f (s_dst s) (s_src_a s) n)))
    (fst (exec_delay a (OpImm f (s_dst s) (s_src_a s) n)) - 1) t s.
Proof.
  intros Hf Hn. unfold exec, exec_delay. rewrite Hf. rewrite alu_shift_mod by assumption.
  rewrite (Z.mod_small n 32) by assumption.
  assert (En : n = 0 \/ exists c, n = Z.of_nat (S c)) by (destruct n; [left; lia|right; exists (pred (Pos.to_nat p)); lia|lia]).
  destruct En as [->|[c ->]].
  - change (0 =? 0) with true.
    destruct f; try discriminate; unfold shifti_entry; opening s; intros I; rewrite advance_wr, shift_zero by auto;
    match goal with |- context[(fst ?x - 1)%nat] => let v := eval vm_compute in (fst x - 1)%nat in change (fst x - 1)%nat with v end.
    + subst im. stp; stp; stp; stp.
      match goal with |- settles _ _ _ ?t' ?s' => apply (shift_zero_end s' t' (advance a)) end;
        proj; auto; try (repeat split; reflexivity); apply relv_advance; assumption.
    + subst im. stp; stp; stp; stp.
      match goal with |- settles _ _ _ ?t' ?s' => apply (shift_zero_end s' t' (advance a)) end;
        proj; auto; try (repeat split; reflexivity); apply relv_advance; assumption.
    + stp; stp; stp. rewrite land31, I. stp.
      match goal with |- settles _ _ _ ?t' ?s' => apply (shift_zero_end s' t' (advance a)) end;
        proj; auto; try (repeat split; reflexivity); apply relv_advance; assumption.
  - assert (Ez : (Z.of_nat (S c) =? 0) = false) by (apply Z.eqb_neq; lia). rewrite Ez.
    replace (fst ((5 + 2 * Z.to_nat (Z.of_nat (S c)))%nat, false) - 1)%nat with (S (S (S (S (2 * S c)))))
      by (cbn [fst]; rewrite Nat2Z.id; lia).
    assert (Hc : w32 (0 + Z.of_nat (S c)) = Z.of_nat (S c)) by (unfold w32; rewrite Z.add_0_l; apply Z.mod_small; lia).
    replace (alu f (rd_x a (s_src_a s)) (Z.of_nat (S c))) with (alu f (rd_x a (s_src_a s)) (1 + Z.of_nat c)) by (f_equal; lia).
    destruct f; try discriminate; unfold shifti_entry; opening s; intros I; rewrite advance_wr.
    + subst im. stp; stp; stp. rewrite !Hc. stp. rewrite ?Ez, ?Hc. unf; norm.
      match goal with |- settles _ _ _ ?t' ?s' => apply (shift_loop SLL c eq_refl s' t' (advance a) m (m sa) 1) end;
        proj; auto; try lia; try (repeat split; reflexivity); try (apply relv_advance; assumption); apply (sh1_first SLL); auto.
    + subst im. stp; stp; stp. rewrite !Hc. stp. rewrite ?Ez, ?Hc. unf; norm.
      match goal with |- settles _ _ _ ?t' ?s' => apply (shift_loop SRL c eq_refl s' t' (advance a) m (m sa) 1) end;
        proj; auto; try lia; try (repeat split; reflexivity); try (apply relv_advance; assumption); apply (sh1_first SRL); auto.
    + stp; stp; stp. rewrite !land31, !I. stp. rewrite ?land31, ?I, ?Ez. unf; norm.
      match goal with |- settles _ _ _ ?t' ?s' => apply (shift_loop SRA c eq_refl s' t' (advance a) m (m sa) 1) end;
        proj; auto; try lia; try (repeat split; reflexivity); try (apply relv_advance; assumption); apply (sh1_first SRA); auto.
Qed.

Lemma blk_shift f s t a ip : is_shift f = true ->
  dispatched (shift_entry f) s -> rel a s -> wf s ->
  settles inp (ready false (exec SENTINEL a ip (OpReg f (s_dst s) (s_src_a s) (s_src_b s))))
    (fst (exec_delay a (OpReg f (s_dst s) (s_src_a s) (s_src_b s))) - 1) t s.
Proof.
  intros Hf D R0 W. unfold exec, exec_delay. rewrite Hf.
  assert (Hwb : word (rd_x a (s_src_b s))).
  { rewrite (r_x _ _ _ _ _ _ _ _ R0) by (apply (wf_src_b s W)). apply (wf_mem s W). }
  replace (alu f (rd_x a (s_src_a s)) (rd_x a (s_src_b s))) with (alu f (rd_x a (s_src_a s)) (rd_x a (s_src_b s) mod 32)).
  2:{ rewrite <- alu_shift_mod by assumption. f_equal. apply Z.mod_small. exact Hwb. }
  pose proof (Z.mod_pos_bound (rd_x a (s_src_b s)) 32 ltac:(lia)) as Hn.
  remember (rd_x a (s_src_b s) mod 32) as n eqn:I. cbv zeta.
  assert (En : n = 0 \/ exists c, n = Z.of_nat (S c)) by (destruct n; [left; lia|right; exists (pred (Pos.to_nat p)); lia|lia]).
  rewrite (r_x _ _ _ _ _ _ _ _ R0 (s_src_b s)) in I by (apply (wf_src_b s W)). symmetry in I.
  clear Hwb. revert I. revert D R0 W.
  destruct En as [->|[c ->]].
  - change (0 =? 0) with true.
    destruct f; try discriminate; unfold shift_entry; opening s; intros I; rewrite advance_wr, shift_zero by auto;
    (match goal with |- context[(fst ?x - 1)%nat] => let v := eval vm_compute in (fst x - 1)%nat in change (fst x - 1)%nat with v end);
    stp; stp; stp; rewrite land31, I; stp; stp;
      (match goal with |- settles _ _ _ ?t' ?s' => apply (shift_zero_end s' t' (advance a)) end;
        proj; auto; try (repeat split; reflexivity); apply relv_advance; assumption).
  - assert (Ez : (Z.of_nat (S c) =? 0) = false) by (apply Z.eqb_neq; lia). rewrite Ez.
    replace (fst ((5 + 2 * Z.to_nat (Z.of_nat (S c)))%nat, false) - 1)%nat with (S (S (S (S (2 * S c)))))
      by (cbn [fst]; rewrite Nat2Z.id; lia).
    replace (alu f (rd_x a (s_src_a s)) (Z.of_nat (S c))) with (alu f (rd_x a (s_src_a s)) (1 + Z.of_nat c)) by (f_equal; lia).
    destruct f; try discriminate; unfold shift_entry; opening s; intros I; rewrite advance_wr;
    (stp; stp; stp; rewrite !land31, !I; stp; rewrite ?land31, ?I, ?Ez; unf; norm).
    + match goal with |- settles _ _ _ ?t' ?s' => apply (shift_loop SLL c eq_refl s' t' (advance a) m (m sa) 1) end;
        proj; auto; try lia; try (repeat split; reflexivity); try (apply relv_advance; assumption); apply (sh1_first SLL); auto.
    + match goal with |- settles _ _ _ ?t' ?s' => apply (shift_loop SRL c eq_refl s' t' (advance a) m (m sa) 1) end;
        proj; auto; try lia; try (repeat split; reflexivity); try (apply relv_advance; assumption); apply (sh1_first SRL); auto.
    + match goal with |- settles _ _ _ ?t' ?s' => apply (shift_loop SRA c eq_refl s' t' (advance a) m (m sa) 1) end;
        proj; auto; try lia; try (repeat split; reflexivity); try (apply relv_advance; assumption); apply (sh1_first SRA); auto.
Qed.
End Blocks.

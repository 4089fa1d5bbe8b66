(** * Register widths: an invariant of every cycle, reset or not *)
From Coq Require Import ZArith Lia Bool List.
From Verif Require Import Bits Isa Cpu Ucode BitLemmas.
Open Scope Z_scope.

Definition inw (n x : Z) : Prop := 0 <= x < 2 ^ n.

(** Every register of the design holds a value of its declared width. *)
Record wf (s : state) : Prop := {
  wf_data_adr : word (s_data_adr s); wf_wdata : word (s_wdata s); wf_alu : word (s_alu s);
  wf_a : word (s_a s); wf_b : word (s_b s); wf_next : inw 8 (s_next s);
  wf_target : inw 8 (u_target (s_u s));
  wf_src_a : inw 5 (s_src_a s); wf_src_b : inw 5 (s_src_b s); wf_dst : inw 5 (s_dst s);
  wf_imm : word (s_imm s);
  wf_mp_src_a : inw 5 (mp_src_a (s_map s)); wf_mp_dst : inw 5 (mp_dst (s_map s));
  wf_mp_op : inw 3 (mp_op (s_map s)); wf_mp_req : inw 8 (mp_req (s_map s)); wf_mp_enc : inw 4 (mp_enc (s_map s));
  wf_ex_src_a : inw 5 (ex_src_a (s_exc s)); wf_ex_quad : inw 2 (ex_quad (s_exc s));
  wf_ex_op : inw 3 (ex_op (s_exc s)); wf_ex_type : inw 4 (ex_type (s_exc s));
  wf_pc : inw 30 (s_pc s); wf_mem : forall a, word (s_mem s a); wf_rdata : word (s_rdata s);
  wf_mpp : inw 2 (c_mpp (s_csr s)); wf_buf : word (c_buf (s_csr s)); wf_prev : inw 4 (c_prev (s_csr s));
  wf_cause : inw 4 (s_cause s) }.

Ltac inwt := unfold inw, word in *; try lia.

Lemma rom_target_ok : forallb (fun u => (0 <=? u_target u) && (u_target u <? 2 ^ 8)) (dec_uinsn 0 :: rom_table) = true.
Proof. vm_compute. reflexivity. Qed.

Lemma rom_target a : inw 8 (u_target (rom a)).
Proof.
  pose proof rom_target_ok as H. rewrite forallb_forall in H.
  assert (In (rom a) (dec_uinsn 0 :: rom_table)) as Hi.
  { unfold rom. destruct (nth_in_or_default (Z.to_nat a) rom_table (dec_uinsn 0)) as [K|K].
    - right; assumption.
    - left. symmetry. exact K. }
  specialize (H _ Hi). apply andb_prop in H. destruct H. apply Z.leb_le in H. apply Z.ltb_lt in H0. split; assumption.
Qed.

Lemma word_bits x lo n : 0 <= n <= 32 -> word (bits x lo n).
Proof. intros. pose proof (bits_range x lo n). assert (2 ^ n <= 2 ^ 32) by (apply Z.pow_le_mono_r; lia). inwt. Qed.

Lemma alu_word u a b : word a -> word b -> word (alu_next u a b).
Proof.
  intros Ha Hb. unfold alu_next.
  assert (forall x, word x -> word (alu_mod (u_imod u) x)) as Hm.
  { intros x Hx. unfold alu_mod. destruct (u_imod u); [assumption|]. apply word_lxor; inwt. }
  pose proof (Hm _ Ha) as H1. pose proof (Hm _ Hb) as H2. revert H1 H2.
  generalize (alu_mod (u_imod u) a) (alu_mod (u_imod u) b). clear. intros x y Hx Hy.
  assert (word (alu_mux (u_op u) x y)) as Hz.
  { unfold alu_mux, w32. destruct (u_op u); try apply word_mod.
    - apply word_land; assumption.
    - apply word_lor; assumption.
    - apply word_lxor; assumption.
    - unfold word in *. split; [apply Z.div_pos; lia|]. apply Z.div_lt_upper_bound; lia.
    - apply word_bits; lia.
    - inwt. }
  revert Hz. generalize (alu_mux (u_op u) x y). intros z Hz. unfold alu_omod_f.
  destruct (u_omod u); try assumption.
  - apply word_lxor; inwt.
  - pose proof (Z.mul_div_le z 2 ltac:(lia)). assert (0 <= z / 2) by (apply Z.div_pos; inwt). inwt.
Qed.

Lemma bits_inw x lo n : 0 <= n -> inw n (bits x lo n).
Proof. apply bits_range. Qed.
Lemma rep_range b n : 0 <= n -> 0 <= rep b n < 2 ^ n.
Proof. intros. unfold rep. pose proof (Z.pow_pos_nonneg 2 n). destruct b; lia. Qed.

Lemma imm_word w : word (imm_I w) /\ word (imm_S w) /\ word (imm_B w) /\ word (imm_U w) /\ word (imm_J w).
Proof.
  rewrite imm_I_ok, imm_S_ok, imm_B_ok, imm_J_ok, imm_U_ok.
  repeat split; try apply word_mod; apply immU_range.
Qed.

Lemma rdata_align_word ms me a d : word d -> word (rdata_align ms me a d).
Proof.
  intros. unfold rdata_align.
  assert (forall x, inw 8 x -> word (match me with ME_SIGN => sext8 x | ME_ZERO => x end)) as H8.
  { intros x Hx. unfold sext8. destruct me; [inwt|]. destruct (bitb x 7); inwt. }
  assert (forall x, inw 16 x -> word (match me with ME_SIGN => sext16 x | ME_ZERO => x end)) as H16.
  { intros x Hx. unfold sext16. destruct me; [inwt|]. destruct (bitb x 15); inwt. }
  destruct ms; [inwt| | |assumption].
  - destruct (bits a 0 2 =? 0); [apply H8, bits_inw; lia|].
    destruct (bits a 0 2 =? 1); [apply H8, bits_inw; lia|].
    destruct (bits a 0 2 =? 2); apply H8, bits_inw; lia.
  - destruct (bits a 1 1 =? 0); apply H16, bits_inw; lia.
Qed.

Lemma wdata_align_word ms a d : word d -> word (wdata_align ms a d).
Proof.
  intros. unfold wdata_align. pose proof (bits_range d 0 8 ltac:(lia)). pose proof (bits_range d 0 16 ltac:(lia)).
  destruct ms; [inwt| | |assumption].
  - destruct (bits a 0 2 =? 0); [inwt|]. destruct (bits a 0 2 =? 1); [inwt|]. destruct (bits a 0 2 =? 2); inwt.
  - destruct (bits a 1 1 =? 0); inwt.
Qed.

Lemma map_first_inw w c : inw 8 c -> inw 8 (map_first w c).
Proof.
  intros. unfold map_first. pose proof (bits_range w 12 3 ltac:(lia)) as H3. pose proof (bits_range w 30 1 ltac:(lia)).
  fold (i_funct3 w) in H3.
  repeat match goal with |- context[if ?b then _ else _] => destruct b end; inwt.
Qed.
Lemma map_second_inw a o d r c : inw 8 c -> inw 8 (map_second a o d r c).
Proof.
  intros. unfold map_second.
  repeat match goal with |- context[if ?b then _ else _] => destruct b end; inwt.
Qed.

Lemma seq_inw u g t n o : inw 8 (u_target u) -> inw 8 n -> inw 8 o -> inw 8 (seq_adr u g t n o).
Proof. intros. unfold seq_adr. destruct g; [assumption|]. destruct (u_jmp u), t; try assumption; inwt. Qed.

Lemma csr_dat_w_word a d : word d -> word (csr_dat_w a d).
Proof.
  intros. unfold csr_dat_w. destruct (_ || _); [|assumption].
  pose proof (Z.mul_div_le d 4 ltac:(lia)). assert (0 <= d / 4) by (apply Z.div_pos; inwt). inwt.
Qed.

Lemma step_mem_word s i : wf s -> forall a, word (s_mem (step s i) a).
Proof.
  intros W a.
  assert (word (rf_mem_next (rf_wen (s_u s) (reg_w_adr (s_u s) (s_dst s)) (allow_zero_wr (s_u s)))
    (rf_waddr (s_u s) (reg_w_adr (s_u s) (s_dst s)) (csr_adr (s_u s) (mp_enc (s_map s))))
    (rf_wdata (s_u s) (s_alu s) (csr_dat_w (csr_adr (s_u s) (mp_enc (s_map s))) (s_alu s))) (s_mem s) a)) as K.
  { unfold rf_mem_next. destruct (rf_wen _ _ _); [|apply W]. unfold upd. destruct (_ =? _); [|apply W].
    unfold rf_wdata. destruct (u_csr (s_u s)); try apply W. apply csr_dat_w_word, W. }
  unfold step. destruct (rst i); exact K.
Qed.

Lemma step_rdata_word s i : wf s -> word (s_rdata (step s i)).
Proof.
  intros W.
  set (wd := rf_wdata (s_u s) (s_alu s) (csr_dat_w (csr_adr (s_u s) (mp_enc (s_map s))) (s_alu s))).
  assert (word wd) as Kw.
  { subst wd. unfold rf_wdata. destruct (u_csr (s_u s)); try apply W. apply csr_dat_w_word, W. }
  assert (forall e ra we wa, word (rf_rdata_next e ra we wa wd (s_mem s) (s_rdata s))) as K.
  { intros. unfold rf_rdata_next. destruct e; [|apply W]. destruct (_ && _); [assumption|apply W]. }
  unfold step. destruct (rst i); cbn [s_rdata reset_regs]; apply K.
Qed.

Theorem wf_step s i : wf s -> word (dat_r i) -> wf (step s i).
Proof.
  intros W Hd.
  pose proof (step_mem_word s i W) as Hm. pose proof (step_rdata_word s i W) as Hr.
  pose proof (rom_target (seq_now s i)) as Ht.
  destruct (rst i) eqn:R.
  - unfold step in *. rewrite R in *. constructor; cbn [reset_regs s_data_adr s_wdata s_mguard s_alu s_a s_b s_next s_sguard s_u s_src_a s_src_b s_dst s_imm s_attr s_map s_exc s_pc s_mem s_rdata s_csr s_cause s_int map_init exc_init csr_init mp_src_a mp_dst mp_op mp_req mp_enc ex_src_a ex_quad ex_op ex_type c_mpp c_buf c_prev] in *; inwt; try assumption.
  - unfold step in *. rewrite R in *.
    assert (inw 8 (seq_now s i)) as Hs by (apply seq_inw; apply W).
    constructor; cbn [s_data_adr s_wdata s_mguard s_alu s_a s_b s_next s_sguard s_u s_src_a s_src_b s_dst s_imm
      s_attr s_map s_exc s_pc s_mem s_rdata s_csr s_cause s_int] in *; try assumption.
    + destruct (u_ladr _); apply W.
    + destruct (u_ldata _); [apply wdata_align_word|]; apply W.
    + apply alu_word; apply W.
    + unfold asrc_next. destruct (u_latch_a _); [|apply W]. destruct (u_a _); try apply W; inwt.
    + unfold bsrc_next. destruct (u_latch_b _); [|apply W]. destruct (u_b _); try apply W; try (inwt; fail).
      * pose proof (wf_pc s W). inwt.
      * apply rdata_align_word; assumption.
      * pose proof (wf_src_a s W). inwt.
      * unfold csr_dat_r. destruct (_ || _); apply W.
      * unfold mcause_now. pose proof (wf_cause s W). unfold b2z. destruct (s_int s); inwt.
    + apply Z.mod_pos_bound. lia.
    + destruct (do_decode s i); [apply bits_inw; lia|apply W].
    + destruct (do_decode s i); [apply bits_inw; lia|apply W].
    + destruct (do_decode s i); [apply bits_inw; lia|apply W].
    + unfold imm_next. destruct (imm_word (dat_r i)) as (?&?&?&?&?).
      repeat match goal with |- context[if ?b then _ else _] => destruct b end; try assumption; apply W.
    + unfold map_next; cbn. destruct (do_decode s i); [apply bits_inw; lia|apply W].
    + unfold map_next; cbn. destruct (do_decode s i); [apply bits_inw; lia|apply W].
    + apply bits_inw; lia.
    + unfold map_next; cbn. destruct (mp_fwd (s_map s)); [apply map_second_inw|];
      (destruct (do_decode s i); [apply map_first_inw|]); apply W.
    + unfold map_next; cbn [mp_enc]. destruct (_ && _); [|apply W].
      pose proof (bits_range (dat_r i) 20 3 ltac:(lia)). pose proof (bits_range (dat_r i) 26 1 ltac:(lia)). inwt.
    + unfold exc_next; cbn. destruct (do_decode s i); [apply bits_inw; lia|apply W].
    + apply bits_inw; lia.
    + apply bits_inw; lia.
    + unfold exc_next; cbn [ex_type]. unfold exc_type_first.
      repeat match goal with |- context[if ?b then _ else _] => destruct b end; unfold inw, ILLEGAL_INSN, ECALL_MMODE, BREAKPOINT; lia.
    + unfold pc_next. destruct (u_pc _); try apply W; [apply Z.mod_pos_bound; lia|apply bits_inw; lia].
    + apply W.
    + unfold csr_next; cbn [c_buf]. unfold b2z. pose proof (wf_mpp s W). 
      repeat match goal with |- context[if ?b then _ else _] => destruct b end; try apply W; inwt.
    + unfold csr_next; cbn [c_prev]. unfold csr_adr. destruct (u_csel _); [apply W|apply bits_inw; lia].
    + unfold cause_next. unfold STORE_MISALIGNED, LOAD_MISALIGNED, INSN_MISALIGNED.
      destruct (u_exc _); repeat match goal with |- context[if ?b then _ else _] => destruct b end; try apply W; inwt.
Qed.

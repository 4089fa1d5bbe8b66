(** * C68: every trace of the harness passes the lock-step checker of RvfiSpec.v *)
From Coq Require Import ZArith Lia Bool List Btauto.
From Verif Require Import Bits Ucode Cpu Isa Timed BitLemmas Wf Sym Blocks CsrBlocks DecodeOk Boundary Sim Main Obs PropsBus PropsInv Observe PropsIsa PropsFrame Rvfi RvfiTrace RvfiProps RvfiRd RvfiCsr RvfiTop RvfiMip RvfiSpec RvfiAct.
Import ListNotations.
Open Scope Z_scope.

(** ** The ports and the trace *)
(** The ports of FormalTop in one cycle (formal.py:34-178, 296-411, 414-604); the channels of the
    CSRs with state are indexed by CSR number here. *)
Definition ports (q : rvfi) (c : state) (i : input) : report := {|
  p_order := v_order q; p_insn := v_insn q; p_trap := v_trap q; p_intr := v_intr q;
  p_rs1_addr := v_rs1_addr q; p_rs2_addr := v_rs2_addr q; p_rs1_rdata := v_rs1_rdata q; p_rs2_rdata := v_rs2_rdata q;
  p_rd_addr := v_rd_addr q; p_rd_wdata := rv_rd_wdata q c i;
  p_pc_rdata := v_pc_rdata q; p_pc_wdata := rv_pc_wdata q c i;
  p_mem_addr := v_mem_addr q; p_mem_rmask := v_mem_rmask q; p_mem_wmask := v_mem_wmask q; p_mem_rdata := v_mem_rdata q; p_mem_wdata := v_mem_wdata q;
  p_csr_rdata := fun n => v_csr_rdata q (csr_enc n); p_csr_wdata := fun n => v_csr_wdata q (csr_enc n) |}.
(** The same in cycle [t] of a run (formal.py:34-178, 296-411, 414-604). *)
Definition report_at (v : rvfi) (s : state) (inp : nat -> input) (t : nat) : report := ports (vrun v s inp t) (run s inp t) (inp t).
(** The reports of the first [T] cycles: the ports in every cycle with [valid] high (formal.py:296-313). *)
Fixpoint rvfi_trace (v : rvfi) (s : state) (inp : nat -> input) (T : nat) : list report :=
  match T with
  | O => []
  | S u => rvfi_trace v s inp u ++ if valid_at v s inp u then [report_at v s inp u] else []
  end.

(** ** What the checker knows is true *)
Record knows (k : view) (x : state) : Prop := {
  kn_pc : pc_of x = k_pc k;
  kn_x : forall q z, 0 <= q < 32 -> k_x k q = Some z -> x_of x q = z;
  kn_mie : forall b, k_mie k = Some b -> Z.testbit (csr_of x false 0x300) 3 = b;
  kn_mpie : forall b, k_mpie k = Some b -> Z.testbit (csr_of x false 0x300) 7 = b;
  kn_meie : Z.testbit (csr_of x false 0x304) 11 = k_meie k;
  kn_csr : forall n z, In n [0x305; 0x340; 0x341; 0x342] -> k_csr k n = Some z -> csr_of x false n = z }.

Lemma same_csrs_of x y : same_csrs x y -> forall ip m, csr_of y ip m = csr_of x ip m.
Proof. intros (A & B & C & D & E & F & G) ip m. unfold csr_of. rewrite A, B, C, D, E, F, G. reflexivity. Qed.
Lemma mstatus_bits x : let z := csr_of x false 0x300 in z = 0x1800 + bitv (Z.testbit z 7) 0x80 + bitv (Z.testbit z 3) 8.
Proof. cbn [csr_of]. destruct (mpie_of x), (mie_of x); reflexivity. Qed.
Lemma mie_bits x : csr_of x false 0x304 = bitv (Z.testbit (csr_of x false 0x304) 11) 0x800.
Proof. cbn [csr_of]. destruct (meie_of x); reflexivity. Qed.
Lemma fits_ok o z : (forall y, o = Some y -> z = y) -> fits o z = true.
Proof. intros H. unfold fits. destruct o; [|reflexivity]. apply Z.eqb_eq. symmetry. auto. Qed.
Lemma bit_fits_ok o z : (forall y, o = Some y -> z = y) -> bit_fits o z = true.
Proof. intros H. unfold bit_fits. destruct o as [y|]; [|reflexivity]. rewrite (H y eq_refl). apply Bool.eqb_reflx. Qed.
Lemma zero_csr_ok n : zero_csr n = ro_zero n.
Proof. unfold zero_csr, ro_zero. change between with in_range. cbn [existsb]. btauto. Qed.
Lemma fld_word_range d lo n : 0 <= n -> 0 <= fld d lo n < 2 ^ n.
Proof. intros. apply fld_range. lia. Qed.

Lemma decode_fields w i : decode w = Some i ->
  match i with
  | Jalr rd rs1 _ | Load _ _ rd rs1 _ | OpImm _ rd rs1 _ => rd = fld w 7 5 /\ rs1 = fld w 15 5
  | OpReg _ rd rs1 rs2 => rd = fld w 7 5 /\ rs1 = fld w 15 5 /\ rs2 = fld w 20 5
  | Branch _ rs1 rs2 _ | Store _ rs1 rs2 _ => rs1 = fld w 15 5 /\ rs2 = fld w 20 5
  | Csr _ rd g n => rd = fld w 7 5 /\ n = fld w 20 12 /\ match g with CReg q => q | CImm z => z end = fld w 15 5
  | Lui rd _ | Auipc rd _ | Jal rd _ => rd = fld w 7 5
  | Mret => w = 0x30200073
  | _ => True
  end.
Proof.
  unfold decode, decode_system, decode_op, decode_opimm, decode_branch, decode_store, decode_load. intros D. cases_in D; injection D as <-; auto.
  apply Z.eqb_eq. assumption.
Qed.
Lemma jalr_target z : z - z mod 2 = 2 * (z / 2).
Proof. pose proof (Z.div_mod z 2 ltac:(lia)). lia. Qed.

Lemma exists_ok n : stateful n || (n =? 0x344) || zero_csr n = true <-> csr_exists n.
Proof.
  unfold csr_exists, implemented. rewrite zero_csr_ok. unfold stateful. cbn [existsb In]. rewrite !orb_true_iff, !Z.eqb_eq. intuition (auto; congruence).
Qed.
Lemma writes_ok f g w : match g with CReg q => q | CImm z => z end = fld w 15 5 ->
  ((csr_f3 f g mod 4 =? 1) || negb (field w 15 5 =? 0)) = csr_writes f g.
Proof. intros G. change field with fld. rewrite <- G. destruct f, g; reflexivity. Qed.

Lemma meie_bit z ip : Z.testbit (csr_of z ip 0x304) 11 = meie_of z.
Proof. cbn [csr_of]. destruct (meie_of z); reflexivity. Qed.
Lemma mpie_bit z ip : Z.testbit (csr_of z ip 0x300) 7 = mpie_of z.
Proof. cbn [csr_of]. destruct (mie_of z), (mpie_of z); reflexivity. Qed.

Section L.
Variables (s : state) (inp : nat -> input) (v : rvfi).
Hypothesis B : bus_ok s inp.
Hypothesis V : rvfi_fresh v.
Let K : ok s inp := bus_ok_ok s inp B.

Section Step.
Variables (t t' : nat) (w : Z) (x y : state) (k : view).
Hypothesis E : executed s inp t t' w x y.
Let r := report_at v s inp t'.

Lemma r_insn : p_insn r = w. Proof. apply (C51_instruction_and_sources s inp v K V t t' w x y E). Qed.
Lemma r_pc : p_pc_rdata r = pc_of x. Proof. apply (C51_instruction_and_sources s inp v K V t t' w x y E). Qed.
Lemma r_pcw : p_pc_wdata r = pc_of y. Proof. apply (C51_instruction_and_sources s inp v K V t t' w x y E). Qed.
Lemma r_rs1 : p_rs1_rdata r = x_of x (fld w 15 5). Proof. apply (C51_instruction_and_sources s inp v K V t t' w x y E). Qed.
Lemma r_rs2 : p_rs2_rdata r = x_of x (fld w 20 5). Proof. apply (C51_instruction_and_sources s inp v K V t t' w x y E). Qed.
Lemma r_csr n : In n [0x304; 0x305; 0x340; 0x341; 0x342] -> p_csr_rdata r n = csr_of x false n.
Proof. apply (C55_csr_rdata s inp v B V t t' w x y E). Qed.

Lemma operands_ok : knows k x -> p_order r = k_order k -> p_intr r = k_trapped k -> operands_fit k r = true.
Proof.
  intros N O I. unfold operands_fit. rewrite O, I, Z.eqb_refl, Bool.eqb_reflx, r_pc, (kn_pc _ _ N), Z.eqb_refl, r_insn.
  destruct (C51_instruction_and_sources s inp v K V t t' w x y E) as (_ & _ & _ & A1 & D1 & A2 & D2).
  change (p_rs1_addr r) with (v_rs1_addr (vrun v s inp t')). change (p_rs2_addr r) with (v_rs2_addr (vrun v s inp t')).
  change (p_rs1_rdata r) with (v_rs1_rdata (vrun v s inp t')). change (p_rs2_rdata r) with (v_rs2_rdata (vrun v s inp t')). rewrite A1, A2, D1, D2. change field with fld. rewrite !Z.eqb_refl.
  rewrite (fits_ok (k_x k (fld w 15 5))) by (intros z Hz; apply (kn_x _ _ N); [apply fld5|exact Hz]).
  rewrite (fits_ok (k_x k (fld w 20 5))) by (intros z Hz; apply (kn_x _ _ N); [apply fld5|exact Hz]).
  cbn [andb]. rewrite (r_csr 0x304) by (cbn; auto). rewrite <- (kn_meie _ _ N), <- mie_bits, Z.eqb_refl, andb_true_r.
  apply forallb_forall. intros n Hn. apply fits_ok. intros z Hz. rewrite r_csr by (right; exact Hn). apply (kn_csr _ _ N); assumption.
Qed.

Hypothesis N : knows k x.
Lemma word_w : 0 <= p_insn r < 2 ^ 32.
Proof.
  rewrite r_insn. destruct E as ((F & _) & _). destruct F as (_ & _ & _ & <-). apply (env_word _ (ok'_env _ _ K)).
Qed.
Lemma wf_x : wf x.
Proof. destruct E as (_ & -> & _). apply run_wf; [|apply (env_word _ (ok'_env _ _ K))]. destruct (ok'_fresh _ _ K) as (u & m & rd & _ & W). exact W. Qed.
Lemma reg_range q : 0 <= x_of x q < 2 ^ 32.
Proof. apply (wf_mem _ wf_x). Qed.
Lemma x0_zero : x_of x 0 = 0.
Proof. destruct E as ((F & _) & -> & _). destruct (C02_registers_match_reference s inp K t w F) as (a & _ & R & _). rewrite R by lia. reflexivity. Qed.
Lemma rs1_range : 0 <= p_rs1_rdata r < 2 ^ 32. Proof. rewrite r_rs1. apply reg_range. Qed.
Lemma rs2_range : 0 <= p_rs2_rdata r < 2 ^ 32. Proof. rewrite r_rs2. apply reg_range. Qed.
Lemma act_r : act_of r = match decode w with Some i => act_spec r i | None => Traps 2 end.
Proof. rewrite <- r_insn. apply act_decode; [apply word_w|apply rs1_range|apply rs2_range]. Qed.

(** *** Traps *)
Lemma sync_act c : sync_cause x w c -> exists c0, act_of r = Traps c0 /\ (c = c0 \/ (between 0x70 0x72 w = true /\ c = 11)).
Proof.
  intros H. rewrite act_r. unfold sync_cause in H. destruct (decode w) as [i|] eqn:D.
  2:{ exists 2. split; [reflexivity|]. unfold between. destruct (_ && _); [right|left]; auto. }
  pose proof (decode_fields w i D) as Fi. destruct i; try contradiction; cbn [act_spec]; cbv zeta.
  - destruct H as [H ->]. exists 0. rewrite r_pc. unfold jump_to, u32. rewrite (proj2 (Z.eqb_neq _ _) H). auto.
  - destruct H as [H ->]. exists 0. rewrite r_rs1, jalr_target. destruct Fi as [_ <-]. unfold jump_to, u32. rewrite (proj2 (Z.eqb_neq _ _) H). auto.
  - destruct H as (C & H & ->). exists 0. rewrite r_rs1, r_rs2, r_pc. destruct Fi as [<- <-]. rewrite C. unfold jump_to, u32. rewrite (proj2 (Z.eqb_neq _ _) H). auto.
  - destruct H as [H ->]. exists 4. rewrite r_rs1. destruct Fi as [_ <-]. unfold load, u32. rewrite (proj2 (Z.eqb_neq _ _) H). auto.
  - destruct H as [H ->]. exists 6. rewrite r_rs1. destruct Fi as [<- _]. unfold store, u32. rewrite (proj2 (Z.eqb_neq _ _) H). auto.
  - subst c. exists 11. auto.
  - subst c. exists 3. auto.
  - destruct H as [H ->]. exists 2. split; [|auto]. destruct Fi as (-> & -> & G). 
    unfold csr_insn. rewrite r_insn, (writes_ok _ _ _ G). rewrite (div_field w 20 12) by (try lia; rewrite <- r_insn; apply word_w).
    destruct (stateful (fld w 20 12) || (fld w 20 12 =? 836) || zero_csr (fld w 20 12)) eqn:X; cbn [negb]; [|reflexivity].
    apply exists_ok in X. destruct (csr_writes f arg && (fld w 20 12 / 1024 =? 3)) eqn:Y; [reflexivity|]. exfalso. apply H. split; [exact X|]. intros [H1 H2].
    change (2 ^ 10) with 1024 in H2. rewrite H1, H2 in Y. discriminate Y.
Qed.
Lemma trap_ok : traps s inp t w x -> exists k', check_trap k r = Some k' /\ knows k' y /\ k_order k' = (k_order k + 1) mod 2 ^ 64 /\ k_trapped k' = true.
Proof.
  intros T. destruct (C54_no_access s inp v K V t t' w x y E (or_introl T)) as [M1 M2].
  change (v_mem_rmask (vrun v s inp t')) with (p_mem_rmask r) in M1. change (v_mem_wmask (vrun v s inp t')) with (p_mem_wmask r) in M2.
  assert (Wd : forall n, In n [0x341; 0x342] -> csr_of y false n = warl n (p_csr_wdata r n)).
  { intros n Hn. apply (C55_csr_wdata_any_reset s inp v B V t t' w x y E); [|right; right; auto]. cbn [In] in Hn |- *. tauto. }
  assert (We : legal_value 0x341 (p_csr_wdata r 0x341) = mepc_of y) by (symmetry; apply (Wd 0x341); cbn; auto).
  assert (Wc : p_csr_wdata r 0x342 = mcause_of y) by (symmetry; apply (Wd 0x342); cbn; auto).
  assert (TE : trap_entry x y /\ cause_fits k r = true).
  { unfold cause_fits. rewrite Wc. destruct (int_taken s inp t w) eqn:I.
    - destruct (C21_interrupt s inp K t t' w x y E I) as [_ [TE C]]. split; [exact TE|]. rewrite C. unfold int_taken in I. cbv zeta in I. assert (X : x = run s inp (S t)) by apply E. rewrite <- X in I. apply andb_prop in I. destruct I as [I _]. apply andb_prop in I. destruct I as [I1 I2].
      pose proof (kn_meie _ _ N) as Nm. rewrite meie_bit, I2 in Nm. rewrite <- Nm. rewrite bit_fits_ok; [reflexivity|]. intros b Hb. apply (kn_mie _ _ N) in Hb. rewrite mie_bit in Hb. congruence.
    - destruct T as [T|[c C]]; [congruence|]. destruct (C21_exception s inp K t t' w x y E I c C) as [_ (TE & Cm & _)]. split; [exact TE|].
      apply orb_true_iff. right. destruct (sync_act c C) as (c0 & -> & Hc). rewrite r_insn. change (2 ^ 31) with 0x80000000 in Cm.
      destruct Hc as [<- | [Hb ->]].
      + destruct Cm as [-> | ->]; rewrite Z.eqb_refl, ?orb_true_r; reflexivity.
      + rewrite Hb. destruct Cm as [-> | ->]; rewrite !Z.eqb_refl, ?orb_true_r; reflexivity. }
  destruct TE as [(Rs & Mepc & Pc & Mi & Mp & Me & Mt & Ms) Cf].
  assert (Tv : p_csr_rdata r 0x305 = mtvec_of x) by (apply (r_csr 0x305); cbn; auto).
  unfold check_trap. cbv zeta. rewrite Cf, We, M1, M2, Tv, Mepc, r_pc, r_pcw, Pc, low_clear, !Z.eqb_refl. cbn [andb].
  eexists. split; [reflexivity|]. split; [|split; reflexivity].
  constructor; cbn [k_pc k_x k_mie k_mpie k_meie k_csr].
  - rewrite Pc, low_clear. reflexivity.
  - intros q z Hq Hz. rewrite Rs by assumption. apply (kn_x _ _ N); assumption.
  - intros b [= <-]. rewrite mie_bit. exact Mi.
  - intros b Hb. apply (kn_mie _ _ N) in Hb. rewrite mie_bit in Hb. rewrite mpie_bit. congruence.
  - rewrite meie_bit, Me, <- (meie_bit _ false). apply (kn_meie _ _ N).
  - intros n z Hn. unfold set. destruct (Z.eqb_spec n 0x342) as [->|]; [intros [= <-]; symmetry; exact Wc|]. destruct (Z.eqb_spec n 0x341) as [->|]; [intros [= <-]; exact Mepc|]. intros Hz.
    rewrite <- (kn_csr _ _ N n z Hn Hz). destruct Hn as [<-|[<-|[<-|[<-|[]]]]]; [exact Mt|exact Ms|contradiction|contradiction].
Qed.

(** *** Instructions that do not trap *)
(** Specification: what happened to the CSRs. *)
Definition csr_change (e : effect) : Prop :=
  match e_csr e with
  | Some (n, z) => stateful n = true /\ (exists f rd g, decode w = Some (Csr f rd g n) /\ csr_writes f g = true) /\
      forall m, csr_of y false m = if m =? n then z else csr_of x false m
  | None => if w =? 0x30200073 then mie_of y = mpie_of x /\ mpie_of y = true /\ forall m, m <> 0x300 -> csr_of y false m = csr_of x false m
            else forall m, csr_of y false m = csr_of x false m
  end.
Lemma effect_ok e : ~ traps s inp t w x -> e_rd e = match dest w with Some rd => rd | None => 0 end -> 0 <= e_rd e < 32 ->
  (e_rd e <> 0 -> x_of y (e_rd e) = e_val e) -> pc_of y = e_pc e ->
  p_mem_rmask r = e_rmask e -> p_mem_wmask r = e_wmask e -> (e_rmask e = 0 /\ e_wmask e = 0 \/ p_mem_addr r = e_addr e) ->
  (forall i, 0 <= i < 4 -> Z.testbit (e_wmask e) i = true -> lane (p_mem_wdata r) i = lane (e_wdata e) i) ->
  csr_change e ->
  exists k', check_effect k r e = Some k' /\ knows k' y /\ k_order k' = (k_order k + 1) mod 2 ^ 64 /\ k_trapped k' = false.
Proof.
  intros NT Rd Rr Val Pc Mr Mw Ad Ln Cs.
  destruct (C52_destination_partial s inp v K V t t' w x y E NT) as (D1 & D2 & D3).
  change (v_rd_addr (vrun v s inp t')) with (p_rd_addr r) in D1, D2, D3. change (rv_rd_wdata (vrun v s inp t') (run s inp t') (inp t')) with (p_rd_wdata r) in D2, D3.
  rewrite <- Rd in D1. rewrite D1 in D2, D3.
  assert (Wd : p_rd_wdata r = if e_rd e =? 0 then 0 else e_val e).
  { destruct (Z.eqb_spec (e_rd e) 0) as [Z|Z]; [auto|]. rewrite <- Val by exact Z. rewrite D3 by exact Rr. rewrite Z.eqb_refl. reflexivity. }
  assert (Mst : (p_insn r =? 0x30200073) || mstatus_fits k (p_csr_rdata r 0x300) = true).
  { rewrite r_insn. destruct (Z.eqb_spec w 0x30200073) as [|Nm]; [reflexivity|]. cbn [orb].
    destruct (C55_mstatus_partial s inp v B V t t' w x y E NT Nm) as [R1 _]. change (v_csr_rdata (vrun v s inp t') 0) with (p_csr_rdata r 0x300) in R1. rewrite R1.
    unfold mstatus_fits. rewrite <- mstatus_bits, Z.eqb_refl. cbn [andb]. rewrite !bit_fits_ok; [reflexivity| |].
    - intros b Hb. apply (kn_mpie _ _ N). exact Hb.
    - intros b Hb. apply (kn_mie _ _ N). exact Hb. }
  assert (Lns : forallb (fun i => negb (Z.testbit (e_wmask e) i) || (lane (p_mem_wdata r) i =? lane (e_wdata e) i)) [0; 1; 2; 3] = true).
  { apply forallb_forall. intros i Hi. assert (0 <= i < 4) by (cbn [In] in Hi; lia). destruct (Z.testbit (e_wmask e) i) eqn:Tb; [|reflexivity]. cbn [negb orb]. apply Z.eqb_eq. auto. }
  assert (Ads : (e_rmask e =? 0) && (e_wmask e =? 0) || (p_mem_addr r =? e_addr e) = true).
  { destruct Ad as [[-> ->]| ->]; [reflexivity|]. rewrite Z.eqb_refl. apply orb_true_r. }
  assert (Cc : match e_csr e with
     | Some (0x300, z) => (z =? p_csr_rdata r 0x300) || (legal_value 0x300 (p_csr_wdata r 0x300) =? z)
     | Some (n, z) => legal_value n (p_csr_wdata r n) =? z
     | None => true
     end = true).
  { unfold csr_change in Cs. destruct (e_csr e) as [[n z]|]; [|reflexivity]. destruct Cs as (Sn & Dn & Cn). pose proof (Cn n) as Cz. rewrite Z.eqb_refl in Cz.
    assert (Wn : In n [0x304; 0x305; 0x340; 0x341; 0x342] -> legal_value n (p_csr_wdata r n) =? z = true).
    { intros Hn. apply Z.eqb_eq. rewrite <- Cz. symmetry. apply (C55_csr_wdata_any_reset s inp v B V t t' w x y E n Hn). right; left. split; [exact NT|exact Dn]. }
    apply existsb_exists in Sn. destruct Sn as (n' & Hn & Q). apply Z.eqb_eq in Q. subst n'.
    destruct Hn as [<-|Hn].
    - assert (Nm : w <> 0x30200073) by (intros ->; destruct Dn as (f & rd & g & Dn & _); discriminate Dn).
      destruct (C55_mstatus_partial s inp v B V t t' w x y E NT Nm) as [R1 R2]. change (v_csr_rdata (vrun v s inp t') 0) with (p_csr_rdata r 0x300) in R1. change (v_csr_wdata (vrun v s inp t') 0) with (p_csr_wdata r 0x300) in R2.
      rewrite R1, <- Cz. apply orb_true_iff. destruct (Z.eq_dec (csr_of y false 0x300) (csr_of x false 0x300)) as [Q|Q]; [left|right]; apply Z.eqb_eq; [exact Q|symmetry; exact (R2 Q)].
    - specialize (Wn Hn). destruct Hn as [<-|[<-|[<-|[<-|[<-|[]]]]]]; exact Wn. }
  unfold check_effect. cbv zeta. rewrite Mst, D1, Wd, r_pcw, Pc, Mr, Mw, Ads, Lns, Cc, !Z.eqb_refl. cbn [andb].
  eexists. split; [reflexivity|]. split; [|split; reflexivity]. rewrite r_insn.
  assert (Rx : forall q z, 0 <= q < 32 -> (if e_rd e =? 0 then k_x k else set (k_x k) (e_rd e) (Some (e_val e))) q = Some z -> x_of y q = z).
  { intros q z Hq Hz. rewrite D3 by exact Hq. unfold set in Hz. destruct (Z.eqb_spec (e_rd e) 0) as [Z|Z].
    - rewrite Z. destruct (Z.eqb_spec q 0) as [->|Q].
      + rewrite (D2 Z). rewrite <- (kn_x _ _ N 0 z Hq Hz). symmetry. apply x0_zero.
      + apply (kn_x _ _ N); assumption.
    - destruct (Z.eqb_spec q (e_rd e)) as [->|Q]; [rewrite Wd; congruence|]. apply (kn_x _ _ N); assumption. }
  unfold csr_change in Cs. destruct (e_csr e) as [[n z]|].
  - destruct Cs as (Sn & Dn & Cn). assert (Nm : w =? 0x30200073 = false) by (apply Z.eqb_neq; intros ->; destruct Dn as (f & rd & g & Dn & _); discriminate Dn). rewrite Nm.
    assert (Cx : forall m u, m <> n -> In m [0x305; 0x340; 0x341; 0x342] -> k_csr k m = Some u -> csr_of y false m = u).
    { intros m u Q Hm Hu. rewrite Cn, (proj2 (Z.eqb_neq _ _) Q). apply (kn_csr _ _ N); assumption. }
    assert (S1 : n <> 0x300 -> csr_of y false 0x300 = csr_of x false 0x300) by (intros Q; rewrite Cn, (proj2 (Z.eqb_neq 0x300 n)) by congruence; reflexivity).
    assert (S2 : n <> 0x304 -> csr_of y false 0x304 = csr_of x false 0x304) by (intros Q; rewrite Cn, (proj2 (Z.eqb_neq 0x304 n)) by congruence; reflexivity).
    assert (S3 : csr_of y false n = z) by (rewrite Cn, Z.eqb_refl; reflexivity).
    apply existsb_exists in Sn. destruct Sn as (n' & Hn & Q). apply Z.eqb_eq in Q. subst n'.
    assert (Sx : forall m u, In m [0x305; 0x340; 0x341; 0x342] -> set (k_csr k) n (Some z) m = Some u -> csr_of y false m = u).
    { intros m u Hm. unfold set. destruct (Z.eqb_spec m n) as [->|Q]; [intros [= <-]; exact S3|]. apply Cx; assumption. }
    destruct Hn as [<-|[<-|[<-|[<-|[<-|[<-|[]]]]]]]; constructor; cbn [k_pc k_x k_mie k_mpie k_meie k_csr after_csr]; try exact Pc; try exact Rx; try exact Sx;
      try (intros b Hb; rewrite S1 by discriminate; first [apply (kn_mie _ _ N); exact Hb|apply (kn_mpie _ _ N); exact Hb]);
      try (rewrite S2 by discriminate; apply (kn_meie _ _ N));
      try (intros m u Hm Hu; apply Cx; [intros ->; destruct Hm as [Hm|[Hm|[Hm|[Hm|[]]]]]; discriminate Hm|exact Hm|exact Hu]).
    + intros b [= <-]. rewrite S3. reflexivity.
    + intros b [= <-]. rewrite S3. reflexivity.
    + rewrite S3. reflexivity.
  - destruct (w =? 0x30200073); cbn [after_csr].
    + destruct Cs as (C1 & C2 & C3). constructor; cbn [k_pc k_x k_mie k_mpie k_meie k_csr]; try exact Pc; try exact Rx.
      * intros b Hb. rewrite mie_bit, C1. apply (kn_mpie _ _ N) in Hb. rewrite mpie_bit in Hb. exact Hb.
      * intros b [= <-]. rewrite mpie_bit. exact C2.
      * rewrite C3 by discriminate. apply (kn_meie _ _ N).
      * intros m u Hm Hu. rewrite C3; [apply (kn_csr _ _ N); assumption|]. intros ->. destruct Hm as [Hm|[Hm|[Hm|[Hm|[]]]]]; discriminate Hm.
    + constructor; cbn [k_pc k_x k_mie k_mpie k_meie k_csr]; try exact Pc; try exact Rx; rewrite ?Cs; try apply N.
      intros m u Hm Hu. rewrite Cs. apply (kn_csr _ _ N); assumption.
Qed.
Definition accepted (o : option view) (tr : bool) : Prop := exists k', o = Some k' /\ knows k' y /\ k_order k' = (k_order k + 1) mod 2 ^ 64 /\ k_trapped k' = tr.
Definition checked (a : act) : option view := match a with Does e => check_effect k r e | Traps _ => None end.
Definition no_access : Prop := match decode w with Some (Load _ _ _ _ _) | Some (Store _ _ _ _) => False | _ => True end.
Lemma not_mret_decode : decode w <> Some Mret -> w =? 0x30200073 = false.
Proof. intros H. apply Z.eqb_neq. intros ->. apply H. reflexivity. Qed.
Lemma result_ok rd z p : ~ traps s inp t w x -> rd = match dest w with Some rd => rd | None => 0 end -> 0 <= rd < 32 -> no_access -> decode w <> Some Mret ->
  retires x y rd z p -> accepted (checked (result rd z p)) false.
Proof.
  intros NT Hd Hr NA Nm ((W1 & W2 & W3) & Pc & Cs). unfold checked, result, accepted.
  destruct (C54_no_access s inp v K V t t' w x y E (or_intror NA)) as [M1 M2].
  apply effect_ok; cbn [e_rd e_val e_pc e_addr e_rmask e_wmask e_wdata]; try assumption; auto.
  - intros i _ H. rewrite Z.bits_0 in H. discriminate H.
  - unfold csr_change. cbn [e_csr]. rewrite not_mret_decode by exact Nm. intros m. apply same_csrs_of. exact Cs.
Qed.
Lemma move_ok p : ~ traps s inp t w x -> dest w = None -> no_access -> decode w <> Some Mret -> moves_to x y p -> accepted (checked (result 0 0 p)) false.
Proof.
  intros NT Hd NA Nm (Rs & Pc & Cs). apply result_ok; try assumption; [rewrite Hd; reflexivity|lia|]. split; [|split; assumption].
  split; [congruence|]. split; [intros q Hq _; apply Rs; exact Hq|]. rewrite Rs by lia. apply x0_zero.
Qed.
Lemma mask_ok sz ea m : ea mod bytes sz = 0 -> (forall i, 0 <= i -> Z.testbit m i = addressed ea (bytes sz) i) -> m = (2 ^ bytes sz - 1) * 2 ^ (ea mod 4).
Proof.
  intros Al H. change ((2 ^ bytes sz - 1) * 2 ^ (ea mod 4)) with (lanes sz ea). assert (A : aligned sz ea = true) by (apply Z.eqb_eq; exact Al).
  apply Z.bits_inj'. intros i Hi. rewrite H by exact Hi. destruct (Z_lt_ge_dec i 4) as [L|L]; [symmetry; apply lanes_addressed; [exact A|lia]|].
  rewrite lanes_low by (try exact A; lia). unfold addressed. assert (ea mod 4 + bytes sz <= 4).
  { pose proof (Z.mod_pos_bound ea 4 ltac:(lia)). destruct sz; cbn [bytes] in Al |- *; [lia| |].
    - assert (ea mod 4 mod 2 = 0) by (rewrite <- Znumtheory.Zmod_div_mod by (try lia; exists 2; reflexivity); exact Al). assert (ea mod 4 <> 3) by (intros Q; rewrite Q in *; discriminate). lia.
    - lia. }
  destruct (Z.ltb_spec i (ea mod 4 + bytes sz)); [lia|]. apply andb_false_r.
Qed.
Lemma same_data u u' : one_data s inp t t' u -> one_data s inp t t' u' -> u = u'.
Proof.
  intros (_ & _ & O) (H & (C & _ & A) & _). destruct (Nat.eq_dec u u') as [|Q]; [assumption|]. specialize (O u' H ltac:(congruence)). rewrite C, A in O. discriminate O.
Qed.
Lemma store_lane b ea i : 0 <= ea mod 4 <= i -> lane (b * 2 ^ (8 * (ea mod 4))) i = byte b (i - ea mod 4).
Proof.
  intros H. unfold lane, byte. change field with fld. unfold fld. replace (8 * i) with (8 * (i - ea mod 4) + 8 * (ea mod 4)) by lia.
  rewrite Z.pow_add_r by lia. rewrite Z.div_mul_cancel_r by (apply Z.pow_nonzero; lia). reflexivity.
Qed.
Lemma load_case sz sgn rd rs1 off : ~ traps s inp t w x -> int_taken s inp t w = false -> decode w = Some (Load sz sgn rd rs1 off) -> accepted (checked (load r (bytes sz) sgn (u32 (p_rs1_rdata r + off)))) false.
Proof.
  intros NT T D. pose proof (decode_fields w _ D) as [F1 F2]. rewrite r_rs1, <- F2. unfold u32.
  assert (Al : ((x_of x rs1 + off) mod 2 ^ 32) mod bytes sz = 0).
  { destruct (Z.eq_dec (((x_of x rs1 + off) mod 2 ^ 32) mod bytes sz) 0) as [|Q]; [assumption|]. destruct NT. right. exists 4. unfold sync_cause. rewrite D. auto. }
  destruct (C13_load s inp K t t' w x y E T sz sgn rd rs1 off D Al) as (u & Od & _ & _ & _ & ((W1 & W2 & W3) & Pc & Cs) & _).
  destruct (C54_load s inp v K V t t' w x y E NT sz sgn rd rs1 off D) as (Ma & Mr & Mw & u' & Od' & Md). pose proof (same_data _ _ Od Od') as <-.
  set (ea := (x_of x rs1 + off) mod 2 ^ 32) in *. unfold load. rewrite Al, Z.eqb_refl. unfold checked, accepted.
  assert (Rr : p_mem_rmask r = (2 ^ bytes sz - 1) * 2 ^ (ea mod 4)) by (apply mask_ok; [exact Al|exact Mr]).
  apply effect_ok; cbn [e_rd e_val e_pc e_addr e_rmask e_wmask e_wdata]; try assumption; auto.
  - unfold dest. rewrite D, r_insn. symmetry. exact F1.
  - apply fld5.
  - change field with fld. rewrite r_insn, <- F1. intros Q. rewrite (W1 Q). change (p_mem_rdata r) with (v_mem_rdata (vrun v s inp t')). rewrite Md. destruct sgn; [|reflexivity]. unfold u32. rewrite signed_sext; [reflexivity|destruct sz; cbn [bytes]; lia|]. apply fld_range. destruct sz; cbn [bytes]; lia.
  - rewrite r_pc. exact Pc.
  - intros i _ H. rewrite Z.bits_0 in H. discriminate H.
  - unfold csr_change. cbn [e_csr]. rewrite not_mret_decode by (rewrite D; discriminate). intros m. apply same_csrs_of. exact Cs.
Qed.
Lemma store_case sz rs1 rs2 off : ~ traps s inp t w x -> int_taken s inp t w = false -> decode w = Some (Store sz rs1 rs2 off) -> accepted (checked (store r (bytes sz) (u32 (p_rs1_rdata r + off)))) false.
Proof.
  intros NT T D. pose proof (decode_fields w _ D) as [F1 F2]. rewrite r_rs1, <- F1. unfold u32.
  assert (Al : ((x_of x rs1 + off) mod 2 ^ 32) mod bytes sz = 0).
  { destruct (Z.eq_dec (((x_of x rs1 + off) mod 2 ^ 32) mod bytes sz) 0) as [|Q]; [assumption|]. destruct NT. right. exists 6. unfold sync_cause. rewrite D. auto. }
  destruct (C12_store s inp K t t' w x y E T sz rs1 rs2 off D Al) as (u & Od & _ & _ & _ & _ & (Rs & Pc & Cs)).
  destruct (C54_store s inp v K V t t' w x y E NT sz rs1 rs2 off D) as (Ma & Mw & Mr & Md).
  set (ea := (x_of x rs1 + off) mod 2 ^ 32) in *. unfold store. rewrite Al, Z.eqb_refl. unfold checked, accepted.
  assert (Rr : p_mem_wmask r = (2 ^ bytes sz - 1) * 2 ^ (ea mod 4)) by (apply mask_ok; [exact Al|exact Mw]).
  apply effect_ok; cbn [e_rd e_val e_pc e_addr e_rmask e_wmask e_wdata]; try assumption; auto.
  - unfold dest. rewrite D. reflexivity.
  - lia.
  - congruence.
  - rewrite r_pc. exact Pc.
  - intros i Hi H. rewrite <- Rr in H. change (p_mem_wmask r) with (v_mem_wmask (vrun v s inp t')) in H. rewrite Mw in H by lia. unfold addressed in H. apply andb_prop in H. destruct H as [H1 H2]. apply Z.leb_le in H1. apply Z.ltb_lt in H2.
    pose proof (Z.mod_pos_bound ea 4 ltac:(lia)). rewrite store_lane by lia. rewrite r_rs2, <- F2, <- (Md (i - ea mod 4)) by lia. replace (ea mod 4 + (i - ea mod 4)) with i by lia. reflexivity.
  - unfold csr_change. cbn [e_csr]. rewrite not_mret_decode by (rewrite D; discriminate). intros m. apply same_csrs_of. exact Cs.
Qed.
Lemma mret_case : ~ traps s inp t w x -> int_taken s inp t w = false -> decode w = Some Mret -> accepted (checked (result 0 0 (p_csr_rdata r 0x341 - p_csr_rdata r 0x341 mod 4))) false.
Proof.
  intros NT T D. pose proof (decode_fields w _ D) as Fw. cbn beta iota in Fw. destruct (C22_mret s inp K t t' w x y E T Fw) as (_ & Rs & Pc & C1 & C2 & C3 & C4 & C5 & C6 & C7).
  destruct (C54_no_access s inp v K V t t' w x y E) as [M1 M2]; [right; rewrite D; exact I|]. unfold checked, result, accepted.
  apply effect_ok; cbn [e_rd e_val e_pc e_addr e_rmask e_wmask e_wdata]; try assumption; auto.
  - unfold dest. rewrite D. reflexivity.
  - lia.
  - congruence.
  - rewrite (r_csr 0x341) by (cbn; auto). rewrite Pc. apply low_clear.
  - intros i _ H. rewrite Z.bits_0 in H. discriminate H.
  - unfold csr_change. cbn [e_csr]. rewrite Fw, Z.eqb_refl. split; [exact C1|]. split; [exact C2|]. intros m Hm. unfold csr_of. rewrite C3, C4, C5, C6, C7.
    destruct m as [|m|m]; try reflexivity. repeat (destruct m as [m|m|]; try reflexivity). contradiction.
Qed.
Lemma csr_case f rd g n : ~ traps s inp t w x -> int_taken s inp t w = false -> decode w = Some (Csr f rd g n) -> accepted (checked (csr_insn r (csr_f3 f g))) false.
Proof.
  intros NT T D. pose proof (decode_fields w _ D) as (F1 & F2 & F3). pose proof (decode_regs w _ D) as (Hr & Hn & Hg).
  assert (Lg : csr_exists n /\ (csr_writes f g && (n / 1024 =? 3) = false)).
  { destruct (csr_writes f g && (n / 1024 =? 3)) eqn:Q.
    - destruct NT. right. exists 2. unfold sync_cause. rewrite D. split; [|reflexivity]. intros [_ L]. apply L. apply andb_prop in Q. destruct Q as [Q1 Q2]. split; [exact Q1|]. apply Z.eqb_eq. exact Q2.
    - split; [|reflexivity]. destruct (known n) eqn:Kn; [apply known_exists; exact Kn|]. destruct NT. right. exists 2. unfold sync_cause. rewrite D. split; [|reflexivity]. intros [L _]. apply known_exists in L. congruence. }
  destruct Lg as [Ex Wr]. unfold csr_insn. rewrite r_insn, (writes_ok _ _ _ F3). rewrite (div_field w 20 12) by (try lia; rewrite <- r_insn; apply word_w). rewrite <- F2.
  rewrite (proj2 (exists_ok n) Ex), Wr. cbn [negb]. change field with fld. rewrite <- F1.
  assert (Op : (if csr_f3 f g <? 4 then p_rs1_rdata r else fld w 15 5) = operand x g) by (rewrite r_rs1, <- F3; destruct f, g; reflexivity). rewrite Op.
  destruct (C54_no_access s inp v K V t t' w x y E) as [M1 M2]; [right; rewrite D; exact I|].
  unfold checked, accepted. cbv zeta.
  set (old := if stateful n then p_csr_rdata r n else if zero_csr n then 0 else if p_rd_wdata r =? 0 then 0 else 2048).
  assert (Nm : w =? 0x30200073 = false) by (apply not_mret_decode; rewrite D; discriminate).
  assert (New : match csr_f3 f g mod 4 with 1 => operand x g | 2 => Z.lor old (operand x g) | _ => Z.ldiff old (operand x g) end
    = match f with CSRRW => operand x g | CSRRS => Z.lor old (operand x g) | CSRRC => Z.ldiff old (operand x g) end) by (destruct f, g; reflexivity).
  rewrite New. clear New. set (new := match f with CSRRW => operand x g | CSRRS => Z.lor old (operand x g) | CSRRC => Z.ldiff old (operand x g) end).
  assert (G : writes_rd x y rd old /\ pc_of y = pc_plus_4 x /\
    (if stateful n && csr_writes f g then forall m, csr_of y false m = if m =? n then legal_value n new else csr_of x false m else forall m, csr_of y false m = csr_of x false m)).
  { destruct (stateful n) eqn:St.
    - assert (Im : In n implemented /\ n <> 0x344). { apply existsb_exists in St. destruct St as (n' & Hn' & Q). apply Z.eqb_eq in Q. subst n'. unfold implemented. cbn [In] in Hn' |- *. split; [tauto|]. intros ->. intuition discriminate. }
      destruct Im as [Im N44]. destruct (C19_csr_read_modify_write s inp K t t' w x y E T f rd g n D Im) as (_ & Wd & Pc & Oth & Wrt & Rdo).
      assert (Old : csr_of x (irq (inp (t + 3)%nat)) n = old).
      { apply existsb_exists in St. destruct St as (n' & Hn' & Q). apply Z.eqb_eq in Q. subst n'. unfold old. destruct Hn' as [<-|Hn'].
        - symmetry. apply (C55_mstatus_partial s inp v B V t t' w x y E NT). apply Z.eqb_neq. exact Nm.
        - rewrite r_csr by exact Hn'. destruct Hn' as [<-|[<-|[<-|[<-|[<-|[]]]]]]; reflexivity. }
      rewrite Old in *. fold new in Wrt. split; [exact Wd|]. split; [exact Pc|]. cbn [andb]. destruct (csr_writes f g) eqn:Cw; intros m.
      + destruct (Z.eqb_spec m n) as [->|Q]; [apply (Wrt N44 eq_refl)|apply (Oth false m Q)].
      + destruct (Z.eq_dec m n) as [->|Q]; [apply (Rdo (or_intror eq_refl))|apply (Oth false m Q)].
    - cbn [andb]. destruct (zero_csr n) eqn:Zc.
      + assert (Lg : csr_legal f g n). { split; [exact Ex|]. intros [L1 L2]. change (2 ^ 10) with 1024 in L2. rewrite L1, L2 in Wr. discriminate Wr. }
        rewrite zero_csr_ok in Zc. destruct (C20_read_only_zero s inp K t t' w x y E T f rd g n D Zc Lg) as (_ & Wd & Pc & Cs). split; [exact Wd|]. split; [exact Pc|]. intros m. apply same_csrs_of. exact Cs.
      + assert (Q : n = 0x344). { destruct (exists_ok n) as [_ Q]. specialize (Q Ex). rewrite St, Zc, orb_false_r in Q. apply Z.eqb_eq. exact Q. }
        clear F2. subst n. destruct (C25_mip s inp K t t' w x y E T f rd g) as (Wd & Cs & Pc); [rewrite D; reflexivity|]. split; [|split; [exact Pc|intros m; apply same_csrs_of; exact Cs]].
        destruct Wd as (W1 & W2 & W3). split; [|split; assumption]. intros Hd. rewrite (W1 Hd). unfold old.
        destruct (C52_destination_partial s inp v K V t t' w x y E NT) as (D1 & D2 & D3).
        assert (DE : dest w = Some rd) by (unfold dest; rewrite D; reflexivity). rewrite DE in D1. rewrite D1 in D3. specialize (D3 rd Hr). rewrite Z.eqb_refl in D3. change (rv_rd_wdata (vrun v s inp t') (run s inp t') (inp t')) with (p_rd_wdata r) in D3.
        rewrite <- D3, (W1 Hd). destruct (irq (inp (t + 3)%nat)); reflexivity. }
  destruct G as ((W1 & W2 & W3) & Pc & Cs).
  apply effect_ok; cbn [e_rd e_val e_pc e_addr e_rmask e_wmask e_wdata]; try assumption; auto.
  - unfold dest. rewrite D. reflexivity.
  - rewrite r_pc. exact Pc.
  - intros i _ H. rewrite Z.bits_0 in H. discriminate H.
  - unfold csr_change. cbn [e_csr]. destruct (stateful n) eqn:St; cbn [andb] in *.
    + destruct (csr_writes f g) eqn:Cw; [|rewrite Nm; exact Cs]. split; [exact St|]. split; [|exact Cs]. exists f, rd, g. auto.
    + rewrite Nm. exact Cs.
Qed.
Lemma step_ok : ~ traps s inp t w x -> accepted (checked (act_of r)) false.
Proof.
  intros NT. assert (T : int_taken s inp t w = false) by (destruct (int_taken s inp t w) eqn:Q; [destruct NT; left; exact Q|reflexivity]).
  assert (NS : forall c, ~ sync_cause x w c) by (intros c Hc; apply NT; right; exists c; exact Hc). unfold sync_cause in NS.
  rewrite act_r. destruct (decode w) as [i|] eqn:D; [|destruct (NS _ eq_refl)].
  pose proof (decode_fields w _ D) as Fi. pose proof (decode_regs w _ D) as Ri.
  assert (J : forall z, z mod 4 =? 0 = true \/ z mod 4 <> 0) by (intros z; destruct (Z.eqb_spec (z mod 4) 0); auto).
  assert (NA : match i with Load _ _ _ _ _ | Store _ _ _ _ => True | _ => no_access end) by (unfold no_access; rewrite D; destruct i; exact I).
  assert (NM : match i with Mret => True | _ => decode w <> Some Mret end) by (rewrite D; destruct i; try discriminate; exact I).
  assert (DE : dest w = match i with Lui rd _ | Auipc rd _ | Jal rd _ | Jalr rd _ _ | Load _ _ rd _ _ | OpImm _ rd _ _ | OpReg _ rd _ _ | Csr _ rd _ _ => Some rd | _ => None end) by (unfold dest; rewrite D; destruct i; reflexivity).
  destruct i; cbn [act_spec]; cbv zeta; rewrite ?r_rs1, ?r_rs2, ?r_pc.
  - apply result_ok; try assumption; [rewrite DE; reflexivity|]. apply (proj1 (C14_lui_auipc s inp K t t' w x y E T)). exact D.
  - apply result_ok; try assumption; [rewrite DE; reflexivity|]. apply (proj2 (C14_lui_auipc s inp K t t' w x y E T)). exact D.
  - unfold jump_to, u32. destruct (J ((pc_of x + off) mod 2 ^ 32)) as [Q|Q]; [|destruct (NS 0); auto]. rewrite Q.
    pose proof (C15_jal s inp K t t' w x y E T rd off D) as [_ H]. rewrite Q in H. apply result_ok; try assumption. rewrite DE; reflexivity.
  - unfold jump_to, u32. rewrite jalr_target. destruct Fi as [_ <-]. destruct (J (2 * ((x_of x rs1 + off) mod 2 ^ 32 / 2))) as [Q|Q]; [|destruct (NS 0); auto]. rewrite Q.
    pose proof (C15_jalr s inp K t t' w x y E T rd rs1 off D) as [_ H]. rewrite Q in H. apply result_ok; try assumption; [rewrite DE; reflexivity|apply Ri].
  - unfold jump_to, u32. destruct Fi as [<- <-]. pose proof (C15_branch s inp K t t' w x y E T _ _ _ _ D) as [_ H]. destruct (cmp c (x_of x rs1) (x_of x rs2)) eqn:C.
    + destruct (J ((pc_of x + off) mod 2 ^ 32)) as [Q|Q]; [|destruct (NS 0); auto]. rewrite Q in H |- *. apply move_ok; assumption.
    + apply move_ok; assumption.
  - rewrite <- r_rs1. apply (load_case _ _ _ _ _ NT T D).
  - rewrite <- r_rs1. apply (store_case _ _ _ _ NT T D).
  - destruct Fi as [_ <-]. apply result_ok; try assumption; [rewrite DE; reflexivity|apply Ri|]. apply (C14_op_imm s inp K t t' w x y E T). exact D.
  - destruct Fi as (_ & <- & <-). apply result_ok; try assumption; [rewrite DE; reflexivity|apply Ri|]. apply (C14_op_reg s inp K t t' w x y E T). exact D.
  - apply move_ok; try assumption. apply (C22_fence_wfi s inp K t t' w x y E T). auto.
  - destruct (NS _ eq_refl).
  - destruct (NS _ eq_refl).
  - apply mret_case; assumption.
  - apply move_ok; try assumption. apply (C22_fence_wfi s inp K t t' w x y E T). auto.
  - eapply csr_case; eassumption.
Qed.
Lemma report_ok : p_order r = k_order k -> p_intr r = k_trapped k ->
  exists k', check k r = Some k' /\ knows k' y /\ k_order k' = (k_order k + 1) mod 2 ^ 64 /\ (k_trapped k' = true <-> traps s inp t w x).
Proof.
  intros O I. unfold check. rewrite (operands_ok N O I). pose proof (C53_trap s inp v K V t t' w x y E) as Tr. change (v_trap (vrun v s inp t')) with (p_trap r) in Tr.
  destruct (p_trap r).
  - destruct (trap_ok (proj1 Tr eq_refl)) as (k' & C & Kn & Ko & Kt). exists k'. rewrite Kt. auto.
  - assert (NT : ~ traps s inp t w x) by (intros Q; apply Tr in Q; discriminate Q). destruct (step_ok NT) as (k' & C & Kn & Ko & Kt). exists k'. split; [exact C|]. split; [exact Kn|]. split; [exact Ko|]. rewrite Kt. split; [discriminate|contradiction].
Qed.
End Step.

Lemma first_fetch t w : fetch_done s inp t w -> (forall u w0, (u < t)%nat -> ~ fetch_done s inp u w0) -> knows start (run s inp (S t)).
Proof.
  intros F No. destruct (C02_registers_match_reference s inp K t w F) as (a & M & R). cbv zeta in R. destruct R as (Rx & Pc & Mi & Mp & Me & Mt & Ms & Mep & Mc).
  destruct (wait_fetch s inp K 0 t (boot_arch s) w) as [_ M0]; [reflexivity|lia|exact F|intros u w0 Hu; apply No; lia|]. rewrite M in M0. injection M0 as ->.
  constructor; cbn [start k_pc k_x k_mie k_mpie k_meie k_csr].
  - exact Pc.
  - intros q z Hq. destruct (Z.eqb_spec q 0) as [->|]; [|discriminate]. intros [= <-]. rewrite Rx by lia. reflexivity.
  - intros b [= <-]. rewrite mie_bit. exact Mi.
  - discriminate.
  - rewrite meie_bit. exact Me.
  - intros n z Hn. destruct (Z.eqb_spec n 0x342) as [->|]; [|discriminate]. intros [= <-]. exact Mc.
Qed.
Lemma check_all_app l l' k : check_all k (l ++ l') = match check_all k l with Some k' => check_all k' l' | None => None end.
Proof. revert k. induction l as [|r l IH]; intros k; [reflexivity|]. cbn [app check_all]. destruct (check k r); [apply IH|reflexivity]. Qed.
Lemma fetch_word t w w' : fetch_done s inp t w -> fetch_done s inp t w' -> w = w'.
Proof. intros (_ & _ & _ & <-) (_ & _ & _ & <-). reflexivity. Qed.

(** After [T] cycles: no instruction fetched yet, or the last one in cycle [t]. *)
Definition upto (T : nat) (k : view) : Prop :=
  k_order k = Z.of_nat (reports v s inp T) mod 2 ^ 64 /\
  ((k = start /\ forall u w, (u < T)%nat -> ~ fetch_done s inp u w) \/
   exists t w, (t < T)%nat /\ fetch_done s inp t w /\ (forall u w', (t < u < T)%nat -> ~ fetch_done s inp u w') /\ knows k (run s inp (S t)) /\
     ((k_trapped k = false /\ forall u w', (u < t)%nat -> ~ fetch_done s inp u w') \/
      exists t0 w0, executes s inp t0 t w0 /\ (k_trapped k = true <-> traps s inp t0 w0 (run s inp (S t0))))).
Lemma upto_all T : exists k, check_all start (rvfi_trace v s inp T) = Some k /\ upto T k.
Proof.
  induction T as [|T (k & C & O & H)].
  - exists start. split; [reflexivity|]. split; [reflexivity|]. left. split; [reflexivity|]. intros; lia.
  - cbn [rvfi_trace]. rewrite check_all_app, C. pose proof (valid_iff s inp v K V T) as Vi. unfold upto. cbn [reports]. destruct (valid_at v s inp T).
    + destruct (proj1 Vi eq_refl) as (t & w & X). cbn [check_all].
      destruct H as [[_ No]|(t1 & w1 & L1 & F1 & N1 & Kn & Tr)]; [destruct X as (F & L & _); destruct (No t w L F)|].
      assert (Q : t1 = t). { destruct X as (F & L & _ & No). destruct (Nat.lt_trichotomy t1 t) as [Q|[Q|Q]]; [destruct (N1 t w ltac:(lia) F)|exact Q|destruct (No t1 w1 ltac:(lia) F1)]. }
      subst t1. pose proof (fetch_word t w1 w F1 (proj1 X)) as ->.
      assert (Ex : executed s inp t T w (run s inp (S t)) (run s inp (S T))) by (split; [exact X|split; reflexivity]).
      assert (Po : p_order (report_at v s inp T) = k_order k) by (rewrite O; apply C50_order_counts_reports; assumption).
      assert (Pi : p_intr (report_at v s inp T) = k_trapped k).
      { change (v_intr (vrun v s inp T) = k_trapped k). destruct Tr as [[Tr No]|(t0 & w0 & X0 & Tr)].
        - rewrite Tr. apply (C53_intr_first s inp v K V t T w X No).
        - assert (Ex0 : executed s inp t0 t w0 (run s inp (S t0)) (run s inp (S t))) by (split; [exact X0|split; reflexivity]).
          pose proof (C53_intr s inp v K V _ _ _ _ _ _ _ _ Ex0 Ex) as Ti. destruct (v_intr (vrun v s inp T)), (k_trapped k); try reflexivity; [symmetry|]; intuition. }
      destruct (report_ok t T w _ _ k Ex Kn Po Pi) as (k' & -> & Kn' & Ko & Kt). exists k'. split; [reflexivity|]. split.
      * rewrite Ko, O, Nat2Z.inj_add. rewrite Z.add_mod_idemp_l by lia. f_equal. lia.
      * right. destruct X as (F & L & (w' & F') & No). exists T, w'. split; [lia|]. split; [exact F'|]. split; [intros; lia|]. split; [exact Kn'|]. right. exists t, w. split; [|exact Kt]. split; [exact F|]. split; [exact L|]. split; [exists w'; exact F'|exact No].
    + cbn [check_all]. exists k. split; [reflexivity|]. split; [exact O|].
      destruct H as [[-> No]|(t & w & L & F & N1 & Kn & Tr)].
      * destruct (fetch_dec s inp T) as [[w F]|NF].
        -- right. exists T, w. split; [lia|]. split; [exact F|]. split; [intros; lia|]. split; [apply (first_fetch T w F); intros; apply No; lia|]. left. split; [reflexivity|]. intros; apply No; lia.
        -- left. split; [reflexivity|]. intros u w Hu. destruct (Nat.eq_dec u T) as [->|]; [apply NF|apply No; lia].
      * right. exists t, w. split; [lia|]. split; [exact F|]. split; [|split; assumption].
        intros u w' Hu F'. destruct (Nat.eq_dec u T) as [->|]; [|apply (N1 u w' ltac:(lia) F')].
        assert (X : false = true); [|discriminate X]. apply Vi. exists t, w. split; [exact F|]. split; [lia|]. split; [exists w'; exact F'|]. intros; apply N1; lia.
Qed.
End L.

(** C68: every trace of the harness, of any length, of any program on any memory or bus and with
    any interrupt line, passes the checker. *)
Theorem C68_lockstep : forall s inp v, bus_ok s inp -> rvfi_fresh v -> forall T, exists k, check_all start (rvfi_trace v s inp T) = Some k.
Proof. intros s inp v B V T. destruct (upto_all s inp v B V T) as (k & C & _). exists k. exact C. Qed.

Lemma same_act r1 r2 : same_operands r1 r2 -> reads_mip (p_insn r1) = false -> act_of r1 = act_of r2.
Proof.
  intros (Hw & Hp & Ha & Hb & Hm & Hc) NM. unfold act_of, taken, load, store, csr_insn. rewrite <- Hw, <- Hp, <- Ha, <- Hb, <- Hm, (Hc 0x341 eq_refl).
  unfold reads_mip in NM. destruct (Z.eqb_spec (opcode (p_insn r1)) 0x73) as [O|O].
  - rewrite O. destruct (funct3 (p_insn r1) =? 0); [reflexivity|]. destruct (funct3 (p_insn r1) =? 4); [reflexivity|]. cbn [negb andb] in NM. rewrite NM, orb_false_r.
    destruct (stateful (p_insn r1 / 2 ^ 20)) eqn:St; [rewrite (Hc _ St); reflexivity|]. cbn [orb andb]. destruct (zero_csr (p_insn r1 / 2 ^ 20)); reflexivity.
  - destruct (opcode (p_insn r1)) as [|q|q]; try reflexivity. repeat (destruct q as [q|q|]; try reflexivity). contradiction.
Qed.
(** Every result the checker accepts is the one result fixed by the operands. *)
Theorem C68_checker_fixes_results : forall k r1 r2 k1 k2, check k r1 = Some k1 -> check k r2 = Some k2 -> p_trap r1 = false -> p_trap r2 = false ->
  same_operands r1 r2 -> reads_mip (p_insn r1) = false -> same_result r1 r2.
Proof.
  intros k r1 r2 k1 k2 C1 C2 T1 T2 S NM. unfold check in C1, C2. rewrite T1 in C1. rewrite T2, <- (same_act r1 r2 S NM) in C2.
  destruct (operands_fit k r1); [|discriminate C1]. destruct (operands_fit k r2); [|discriminate C2]. destruct (act_of r1) as [c|e]; [discriminate C1|].
  unfold check_effect in C1, C2. cbv zeta in C1, C2.
  repeat match type of C1 with (if ?a && ?b then _ else _) = _ => destruct b eqn:?; [|rewrite andb_false_r in C1; discriminate C1]; rewrite ?andb_true_r in C1 end.
  repeat match type of C2 with (if ?a && ?b then _ else _) = _ => destruct b eqn:?; [|rewrite andb_false_r in C2; discriminate C2]; rewrite ?andb_true_r in C2 end.
  clear C1 C2. repeat match goal with H : (_ =? _) = true |- _ => apply Z.eqb_eq in H end.
  split; [congruence|]. split; [congruence|]. split; [congruence|]. split; [congruence|]. split; [congruence|]. split.
  - intros M. repeat match goal with H : (_ && _ || _) = true |- _ => apply orb_prop in H; destruct H as [H|H]; [apply andb_prop in H; destruct H as [Q1 Q2]; apply Z.eqb_eq in Q1, Q2; exfalso; destruct M; congruence|] end.
    repeat match goal with H : (_ =? _) = true |- _ => apply Z.eqb_eq in H end. congruence.
  - intros i Hi Tb. assert (Ii : In i [0; 1; 2; 3]) by (cbn [In]; lia).
    repeat match goal with H : forallb _ [0; 1; 2; 3] = true |- _ => rewrite forallb_forall in H; specialize (H i Ii); cbv beta in H end.
    assert (Te : Z.testbit (e_wmask e) i = true) by congruence. rewrite Te in *. cbn [negb orb] in *. repeat match goal with H : (_ =? _) = true |- _ => apply Z.eqb_eq in H end. congruence.
Qed.

(** * Per-instruction theorems: C02, C11-C23, C25, C27 *)
From Coq Require Import ZArith Lia Bool List.
From Verif Require Import Bits Ucode Cpu Isa Timed BitLemmas Wf Sym Blocks CsrBlocks DecodeOk Boundary Sim Main Obs Observe.
Import ListNotations.
Open Scope Z_scope.

(** [x] and [y] are always the core in the cycles after the fetch of the instruction and
    of its successor. *)
Definition executed (s : state) (inp : nat -> input) (t t' : nat) (w : Z) (x y : state) : Prop :=
  executes s inp t t' w /\ x = run s inp (S t) /\ y = run s inp (S t').

(** ** C02 *)
Theorem C02_registers_match_reference : forall s inp, ok s inp -> forall t w, fetch_done s inp t w ->
  exists a, machine s inp t = Fetching a /\ let x := run s inp (S t) in
    (forall r, 0 <= r < 32 -> x_of x r = rd_x a r) /\ pc_of x = pc a /\
    mie_of x = mie a /\ mpie_of x = mpie a /\ meie_of x = meie a /\
    mtvec_of x = mtvec a /\ mscratch_of x = mscratch a /\ mepc_of x = mepc a /\ mcause_of x = mcause a.
Proof.
  intros s inp K t w F. destruct (fetch_machine s inp K t w F) as [a M]. exists a. split; [assumption|].
  destruct F as (C & U & A & D). pose proof (b_rel _ _ _ (fetch_boundary s inp K t a C A M)) as []. cbv zeta.
  unfold x_of, pc_of, mie_of, mpie_of, meie_of, mtvec_of, mscratch_of, mepc_of, mcause_of.
  repeat split; try congruence. intros r Hr. rewrite r_x by lia. reflexivity.
Qed.

(** ** Setting up *)
Lemma fld5 w lo : 0 <= fld w lo 5 < 32.
Proof. apply (fld_range w lo 5). lia. Qed.
Lemma decode_regs w i : decode w = Some i ->
  match i with
  | Lui rd _ | Auipc rd _ | Jal rd _ => 0 <= rd < 32
  | Jalr rd rs1 _ | Load _ _ rd rs1 _ => 0 <= rd < 32 /\ 0 <= rs1 < 32
  | OpImm f rd rs1 n => 0 <= rd < 32 /\ 0 <= rs1 < 32
  | OpReg _ rd rs1 rs2 => 0 <= rd < 32 /\ 0 <= rs1 < 32 /\ 0 <= rs2 < 32
  | Branch _ rs1 rs2 _ | Store _ rs1 rs2 _ => 0 <= rs1 < 32 /\ 0 <= rs2 < 32
  | Csr _ rd g n => 0 <= rd < 32 /\ 0 <= n < 4096 /\ match g with CReg r => 0 <= r < 32 | CImm z => 0 <= z < 32 end
  | _ => True
  end.
Proof.
  pose proof (fld5 w 7). pose proof (fld5 w 15). pose proof (fld5 w 20). pose proof (fld_range w 20 12 ltac:(lia)).
  unfold decode, decode_system, decode_op, decode_opimm, decode_branch, decode_store, decode_load. intros D. cases_in D; injection D as <-; tauto.
Qed.

Lemma rd_x_of a x r : rel a x -> 0 <= r < 32 -> rd_x a r = x_of x r.
Proof. intros R Hr. apply (r_x _ _ _ _ _ _ _ _ R). lia. Qed.
Lemma pc_of_rel a x : rel a x -> pc a = pc_of x.
Proof. intros R. apply (r_pc _ _ _ _ _ _ _ _ R). Qed.

Lemma rd_advance a r : rd_x (advance a) r = rd_x a r.
Proof. reflexivity. Qed.
Lemma rd_set_pc a p r : rd_x (set_pc a p) r = rd_x a r.
Proof. reflexivity. Qed.
Lemma wr_same a r v : mie (wr_x a r v) = mie a /\ mpie (wr_x a r v) = mpie a /\ meie (wr_x a r v) = meie a /\ mtvec (wr_x a r v) = mtvec a /\
  mscratch (wr_x a r v) = mscratch a /\ mepc (wr_x a r v) = mepc a /\ mcause (wr_x a r v) = mcause a /\ pc (wr_x a r v) = pc a.
Proof. unfold wr_x. destruct (r =? 0); repeat split. Qed.

(** An instruction that writes [v] to [rd], moves on to [p] and does nothing else. *)
Definition retires (x y : state) (rd v p : Z) : Prop := writes_rd x y rd v /\ pc_of y = p /\ same_csrs x y.
Lemma rel_retires a x y rd v p : rel a x -> rel (set_pc (wr_x a rd v) p) y -> 0 <= rd < 32 -> retires x y rd v p.
Proof.
  intros R R' H. pose proof (wr_same a rd v) as (? & ? & ? & ? & ? & ? & ? & ?). split; [|split].
  - eapply rel_wr; [exact R|exact R'|assumption|reflexivity].
  - symmetry. apply (pc_of_rel _ _ R').
  - eapply rel_same_csrs; [exact R|exact R'|..]; cbn [set_pc mie mpie meie mtvec mscratch mepc mcause]; assumption.
Qed.
(** One that only moves on to [p]. *)
Definition moves_to (x y : state) (p : Z) : Prop := same_regs x y /\ pc_of y = p /\ same_csrs x y.
Lemma rel_moves a x y p : rel a x -> rel (set_pc a p) y -> moves_to x y p.
Proof.
  intros R R'. split; [|split].
  - eapply rel_same_regs; [exact R|exact R'|reflexivity].
  - symmetry. apply (pc_of_rel _ _ R').
  - eapply rel_same_csrs; [exact R|exact R'|..]; reflexivity.
Qed.
Lemma advance_set_pc a : advance a = set_pc a ((pc a + 4) mod 2 ^ 32).
Proof. reflexivity. Qed.
Lemma advance_wr_set a rd v : advance (wr_x a rd v) = set_pc (wr_x a rd v) ((pc a + 4) mod 2 ^ 32).
Proof. unfold advance, next_pc. destruct (wr_same a rd v) as (_ & _ & _ & _ & _ & _ & _ & ->). reflexivity. Qed.

(** ** C14: integer instructions *)
Theorem C14_op_imm : forall s inp, ok s inp -> forall t t' w x y, executed s inp t t' w x y -> int_taken s inp t w = false ->
  forall f rd rs1 imm, decode w = Some (OpImm f rd rs1 imm) ->
  no_data s inp t t' /\ retires x y rd (alu f (x_of x rs1) (imm mod 2 ^ 32)) (pc_plus_4 x).
Proof.
  intros s inp K t t' w x y (X & -> & ->) T f rd rs1 imm D. destruct (executes_not_taken s inp K t t' w X T) as (a & R & _ & O).
  destruct (decode_regs w _ D) as (Hd & Hs). rewrite D in O. cbn [exec outcome] in O. destruct O as (N & R' & _). split; [assumption|].
  unfold pc_plus_4. rewrite <- (rd_x_of a _ rs1 R Hs), <- (pc_of_rel a _ R). rewrite advance_wr_set in R'. eapply rel_retires; eassumption.
Qed.
Theorem C14_op_reg : forall s inp, ok s inp -> forall t t' w x y, executed s inp t t' w x y -> int_taken s inp t w = false ->
  forall f rd rs1 rs2, decode w = Some (OpReg f rd rs1 rs2) ->
  no_data s inp t t' /\ retires x y rd (alu f (x_of x rs1) (x_of x rs2)) (pc_plus_4 x).
Proof.
  intros s inp K t t' w x y (X & -> & ->) T f rd rs1 rs2 D. destruct (executes_not_taken s inp K t t' w X T) as (a & R & _ & O).
  destruct (decode_regs w _ D) as (Hd & Hs & Hs2). rewrite D in O. cbn [exec outcome] in O. destruct O as (N & R' & _). split; [assumption|].
  unfold pc_plus_4. rewrite <- (rd_x_of a _ rs1 R Hs), <- (rd_x_of a _ rs2 R Hs2), <- (pc_of_rel a _ R). rewrite advance_wr_set in R'. eapply rel_retires; eassumption.
Qed.
Theorem C14_lui_auipc : forall s inp, ok s inp -> forall t t' w x y, executed s inp t t' w x y -> int_taken s inp t w = false ->
  (forall rd imm, decode w = Some (Lui rd imm) -> no_data s inp t t' /\ retires x y rd imm (pc_plus_4 x)) /\
  (forall rd imm, decode w = Some (Auipc rd imm) -> no_data s inp t t' /\ retires x y rd ((pc_of x + imm) mod 2 ^ 32) (pc_plus_4 x)).
Proof.
  intros s inp K t t' w x y (X & -> & ->) T. destruct (executes_not_taken s inp K t t' w X T) as (a & R & _ & O).
  split; intros rd imm D; pose proof (decode_regs w _ D) as Hd; cbv iota beta in Hd; rewrite D in O; cbn [exec outcome] in O; destruct O as (N & R' & _); (split; [assumption|]);
  unfold pc_plus_4; rewrite <- (pc_of_rel a _ R); rewrite advance_wr_set in R'; eapply rel_retires; eassumption.
Qed.

(** ** C15: branches and jumps *)
Theorem C15_branch : forall s inp, ok s inp -> forall t t' w x y, executed s inp t t' w x y -> int_taken s inp t w = false ->
  forall c rs1 rs2 off, decode w = Some (Branch c rs1 rs2 off) ->
  let target := (pc_of x + off) mod 2 ^ 32 in
  no_data s inp t t' /\
  if cmp c (x_of x rs1) (x_of x rs2) then
    if target mod 4 =? 0 then moves_to x y target else exception_entry s inp t 0 x y
  else moves_to x y (pc_plus_4 x).
Proof.
  intros s inp K t t' w x y (X & -> & ->) T c rs1 rs2 off D. destruct (executes_not_taken s inp K t t' w X T) as (a & R & I & O).
  destruct (decode_regs w _ D) as (Hs & Hs2). rewrite D in O. cbn [exec outcome] in O. destruct O as (N & R' & _). cbv zeta.
  unfold pc_plus_4. rewrite <- (rd_x_of a _ rs1 R Hs), <- (rd_x_of a _ rs2 R Hs2), <- (pc_of_rel a _ R).
  destruct (cmp _ _ _).
  - unfold jump in R'. destruct (_ =? 0); (split; [assumption|]).
    + eapply rel_moves; eassumption.
    + eapply rel_exception; eassumption.
  - split; [assumption|]. eapply rel_moves; eassumption.
Qed.
Theorem C15_jal : forall s inp, ok s inp -> forall t t' w x y, executed s inp t t' w x y -> int_taken s inp t w = false ->
  forall rd off, decode w = Some (Jal rd off) ->
  let target := (pc_of x + off) mod 2 ^ 32 in
  no_data s inp t t' /\
  if target mod 4 =? 0 then retires x y rd (pc_plus_4 x) target else exception_entry s inp t 0 x y.
Proof.
  intros s inp K t t' w x y (X & -> & ->) T rd off D. destruct (executes_not_taken s inp K t t' w X T) as (a & R & I & O).
  pose proof (decode_regs w _ D) as Hd. cbv iota beta in Hd. rewrite D in O. cbn [exec outcome] in O. destruct O as (N & R' & _). cbv zeta.
  split; [assumption|]. unfold pc_plus_4. rewrite <- (pc_of_rel a _ R).
  unfold jump in R'. destruct (_ =? 0).
  - eapply rel_retires; eassumption.
  - eapply rel_exception; eassumption.
Qed.
Theorem C15_jalr : forall s inp, ok s inp -> forall t t' w x y, executed s inp t t' w x y -> int_taken s inp t w = false ->
  forall rd rs1 off, decode w = Some (Jalr rd rs1 off) ->
  let target := 2 * (((x_of x rs1 + off) mod 2 ^ 32) / 2) in
  no_data s inp t t' /\
  if target mod 4 =? 0 then retires x y rd (pc_plus_4 x) target else exception_entry s inp t 0 x y.
Proof.
  intros s inp K t t' w x y (X & -> & ->) T rd rs1 off D. destruct (executes_not_taken s inp K t t' w X T) as (a & R & I & O).
  destruct (decode_regs w _ D) as (Hd & Hs). rewrite D in O. cbn [exec outcome] in O. destruct O as (N & R' & _). cbv zeta.
  split; [assumption|]. unfold pc_plus_4. rewrite <- (rd_x_of a _ rs1 R Hs), <- (pc_of_rel a _ R).
  unfold jump in R'. destruct (_ =? 0).
  - eapply rel_retires; eassumption.
  - eapply rel_exception; eassumption.
Qed.

(** ** C11, C12, C13: memory accesses *)
Theorem C11_misaligned : forall s inp, ok s inp -> forall t t' w x y, executed s inp t t' w x y -> int_taken s inp t w = false ->
  (forall sz sgn rd rs1 off, decode w = Some (Load sz sgn rd rs1 off) ->
     ((x_of x rs1 + off) mod 2 ^ 32) mod bytes sz <> 0 -> no_data s inp t t' /\ exception_entry s inp t 4 x y) /\
  (forall sz rs1 rs2 off, decode w = Some (Store sz rs1 rs2 off) ->
     ((x_of x rs1 + off) mod 2 ^ 32) mod bytes sz <> 0 -> no_data s inp t t' /\ exception_entry s inp t 6 x y).
Proof.
  intros s inp K t t' w x y (X & -> & ->) T. destruct (executes_not_taken s inp K t t' w X T) as (a & R & I & O).
  split; [intros sz sgn rd rs1 off D Al|intros sz rs1 rs2 off D Al]; destruct (decode_regs w _ D) as (Hd & Hs); rewrite D in O; cbn [exec] in O.
  - rewrite <- (rd_x_of a _ rs1 R Hs) in Al. unfold aligned in O. apply Z.eqb_neq in Al. rewrite Al in O. destruct O as (N & R' & _).
    split; [assumption|]. eapply rel_exception; eassumption.
  - rewrite <- (rd_x_of a _ rs1 R Hd) in Al. unfold aligned in O. apply Z.eqb_neq in Al. rewrite Al in O. destruct O as (N & R' & _).
    split; [assumption|]. eapply rel_exception; eassumption.
Qed.

(** Byte [i] of a word. *)
Definition byte (d i : Z) : Z := fld d (8 * i) 8.
(** Lane [i] of the bus carries a byte of an access of [n] bytes at [ea]. *)
Definition addressed (ea n i : Z) : bool := (ea mod 4 <=? i) && (i <? ea mod 4 + n).

Lemma lane_cases (P : Z -> Z -> Prop) sz ea : aligned sz ea = true ->
  (sz = Byte -> P 0 1) -> (sz = Byte -> P 1 1) -> (sz = Byte -> P 2 1) -> (sz = Byte -> P 3 1) ->
  (sz = Half -> P 0 2) -> (sz = Half -> P 2 2) -> (sz = Word -> P 0 4) -> P (ea mod 4) (bytes sz).
Proof.
  intros Al. unfold aligned in Al. apply Z.eqb_eq in Al. pose proof (Z.mod_pos_bound ea 4 ltac:(lia)). intros.
  destruct sz; cbn [bytes] in *.
  - assert (ea mod 4 = 0 \/ ea mod 4 = 1 \/ ea mod 4 = 2 \/ ea mod 4 = 3) as [E|[E|[E|E]]] by lia; rewrite E; auto.
  - assert (ea mod 4 = 0 \/ ea mod 4 = 2) as [E|E].
    { change 4 with (2 * 2) in *. rewrite Z.rem_mul_r in * by lia. rewrite Al in *. lia. }
    + rewrite E; auto.
    + rewrite E; auto.
  - rewrite Al. auto.
Qed.
Lemma lanes_addressed sz ea i : aligned sz ea = true -> 0 <= i < 4 -> Z.testbit (lanes sz ea) i = addressed ea (bytes sz) i.
Proof.
  intros Al Hi. unfold lanes, addressed.
  apply (lane_cases (fun e n => Z.testbit ((2 ^ n - 1) * 2 ^ e) i = (e <=? i) && (i <? e + n)) sz ea Al); intros _;
  assert (i = 0 \/ i = 1 \/ i = 2 \/ i = 3) as [->|[->|[->| ->]]] by lia; reflexivity.
Qed.
Lemma lanes_low sz ea i : aligned sz ea = true -> 4 <= i -> Z.testbit (lanes sz ea) i = false.
Proof.
  intros Al Hi. unfold lanes.
  apply (lane_cases (fun e n => Z.testbit ((2 ^ n - 1) * 2 ^ e) i = false) sz ea Al); intros _;
  apply (pow_bits_above _ 4); lia.
Qed.
Lemma store_byte sz ea v i : 0 <= i < bytes sz -> byte (store_data sz ea v) (ea mod 4 + i) = byte v i.
Proof.
  intros Hi. unfold byte, store_data. pose proof (Z.mod_pos_bound ea 4 ltac:(lia)).
  unfold fld. rewrite Z.mul_add_distr_l, Z.pow_add_r, <- Z.div_div by (try apply Z.pow_nonzero; try apply Z.pow_pos_nonneg; lia).
  rewrite Z.div_mul by (apply Z.pow_nonzero; lia).
  change ((v mod 2 ^ (8 * bytes sz) / 2 ^ (8 * i)) mod 2 ^ 8) with (fld (v mod 2 ^ (8 * bytes sz)) (8 * i) 8).
  replace (v mod 2 ^ (8 * bytes sz)) with (fld v 0 (8 * bytes sz)) by (unfold fld; change (2 ^ 0) with 1; rewrite Z.div_1_r; reflexivity).
  rewrite fld_fld by lia. reflexivity.
Qed.

(** C12.  DAT_W is only specified in the addressed lanes. *)
Theorem C12_store : forall s inp, ok s inp -> forall t t' w x y, executed s inp t t' w x y -> int_taken s inp t w = false ->
  forall sz rs1 rs2 off, decode w = Some (Store sz rs1 rs2 off) ->
  let ea := (x_of x rs1 + off) mod 2 ^ 32 in ea mod bytes sz = 0 ->
  exists u, one_data s inp t t' u /\ let b := run s inp u in
    o_we b = true /\ o_adr b = ea / 4 /\
    (forall i, 0 <= i -> Z.testbit (o_sel b) i = addressed ea (bytes sz) i) /\
    (forall i, 0 <= i < bytes sz -> byte (o_dat_w b) (ea mod 4 + i) = byte (x_of x rs2) i) /\
    moves_to x y (pc_plus_4 x).
Proof.
  intros s inp K t t' w x y (X & -> & ->) T sz rs1 rs2 off D. destruct (executes_not_taken s inp K t t' w X T) as (a & R & I & O).
  destruct (decode_regs w _ D) as (Hs & Hs2). rewrite D in O. cbn [exec] in O. cbv zeta. intros Al.
  unfold pc_plus_4. rewrite <- (rd_x_of a _ rs1 R Hs), <- (rd_x_of a _ rs2 R Hs2), <- (pc_of_rel a _ R) in *.
  assert (Ab : aligned sz ((rd_x a rs1 + off) mod 2 ^ 32) = true) by (apply Z.eqb_eq; assumption).
  rewrite Ab in O. destruct O as (u & Od & Sh & R' & _). exists u. split; [assumption|].
  destruct Sh. cbn [q_adr q_sel q_we q_dat] in *. split; [assumption|]. split; [assumption|]. split; [|split].
  - intros i Hi. rewrite sh_sel. destruct (Z.lt_ge_cases i 4); [apply lanes_addressed; [assumption|lia]|].
    rewrite lanes_low by assumption. unfold addressed. symmetry. apply andb_false_iff. right. apply Z.ltb_ge.
    apply (lane_cases (fun e n => e + n <= i) sz _ Ab); intros; lia.
  - intros i Hi. rewrite sh_dat by reflexivity. apply store_byte. assumption.
  - eapply rel_moves; eassumption.
Qed.

(** C13.  The last part says that unaddressed lanes of DAT_R do not matter. *)
Lemma fld_bytes d lo : 0 <= lo -> fld d lo 16 = fld d lo 8 + 2 ^ 8 * fld d (lo + 8) 8.
Proof. intros. apply (fld_split d lo 8 8); lia. Qed.
Lemma load_value_lanes sz sgn ea d d' : aligned sz ea = true ->
  (forall i, 0 <= i < 4 -> addressed ea (bytes sz) i = true -> byte d' i = byte d i) ->
  load_value sz sgn ea d' = load_value sz sgn ea d.
Proof.
  intros Al H. unfold load_value, addressed in *.
  assert (E : fld d' (8 * (ea mod 4)) (8 * bytes sz) = fld d (8 * (ea mod 4)) (8 * bytes sz)).
  { revert H. unfold byte. apply (lane_cases (fun e n => (forall i, 0 <= i < 4 -> (e <=? i) && (i <? e + n) = true -> fld d' (8 * i) 8 = fld d (8 * i) 8) ->
       fld d' (8 * e) (8 * n) = fld d (8 * e) (8 * n)) sz ea Al); intros _ H.
    - apply H; [lia|reflexivity].
    - apply H; [lia|reflexivity].
    - apply H; [lia|reflexivity].
    - apply H; [lia|reflexivity].
    - change (8 * 2) with 16. change (8 * 0) with 0. rewrite !fld_bytes by lia.
      pose proof (H 0 ltac:(lia) eq_refl) as H0. pose proof (H 1 ltac:(lia) eq_refl) as H1. cbn [Z.mul Pos.mul] in *. change (0 + 8) with 8. congruence.
    - change (8 * 2) with 16. rewrite !fld_bytes by lia.
      pose proof (H 2 ltac:(lia) eq_refl) as H0. pose proof (H 3 ltac:(lia) eq_refl) as H1. change (8 * 2) with 16 in *. change (8 * 3) with 24 in *. change (16 + 8) with 24. congruence.
    - change (8 * 4) with (16 + 16). change (8 * 0) with 0. rewrite !(fld_split _ 0 16 16) by lia. change (0 + 16) with 16. rewrite !fld_bytes by lia.
      pose proof (H 0 ltac:(lia) eq_refl) as H0. pose proof (H 1 ltac:(lia) eq_refl) as H1.
      pose proof (H 2 ltac:(lia) eq_refl) as H2. pose proof (H 3 ltac:(lia) eq_refl) as H3.
      change (8 * 0) with 0 in *. change (8 * 1) with 8 in *. change (8 * 2) with 16 in *. change (8 * 3) with 24 in *. change (16 + 8) with 24. change (0 + 8) with 8. congruence. }
  rewrite E. reflexivity.
Qed.
Theorem C13_load : forall s inp, ok s inp -> forall t t' w x y, executed s inp t t' w x y -> int_taken s inp t w = false ->
  forall sz sgn rd rs1 off, decode w = Some (Load sz sgn rd rs1 off) ->
  let ea := (x_of x rs1 + off) mod 2 ^ 32 in ea mod bytes sz = 0 ->
  exists u, one_data s inp t t' u /\ let b := run s inp u in
    o_we b = false /\ o_adr b = ea / 4 /\
    (forall i, 0 <= i -> Z.testbit (o_sel b) i = addressed ea (bytes sz) i) /\
    (let n := 8 * bytes sz in
     let v := fld (dat_r (inp u)) (8 * (ea mod 4)) n in
     retires x y rd (if sgn then sext n v mod 2 ^ 32 else v) (pc_plus_4 x)) /\
    (forall d', (forall i, 0 <= i < 4 -> addressed ea (bytes sz) i = true -> byte d' i = byte (dat_r (inp u)) i) ->
       fld d' (8 * (ea mod 4)) (8 * bytes sz) = fld (dat_r (inp u)) (8 * (ea mod 4)) (8 * bytes sz)).
Proof.
  intros s inp K t t' w x y (X & -> & ->) T sz sgn rd rs1 off D. destruct (executes_not_taken s inp K t t' w X T) as (a & R & I & O).
  destruct (decode_regs w _ D) as (Hd & Hs). rewrite D in O. cbn [exec] in O. cbv zeta. intros Al.
  unfold pc_plus_4. rewrite <- (rd_x_of a _ rs1 R Hs), <- (pc_of_rel a _ R) in *.
  assert (Ab : aligned sz ((rd_x a rs1 + off) mod 2 ^ 32) = true) by (apply Z.eqb_eq; assumption).
  rewrite Ab in O. destruct O as (u & Od & Sh & R' & _). exists u. split; [assumption|].
  destruct Sh. cbn [q_adr q_sel q_we q_dat] in *. split; [assumption|]. split; [assumption|]. split; [|split].
  - intros i Hi. rewrite sh_sel. destruct (Z.lt_ge_cases i 4); [apply lanes_addressed; [assumption|lia]|].
    rewrite lanes_low by assumption. unfold addressed. symmetry. apply andb_false_iff. right. apply Z.ltb_ge.
    apply (lane_cases (fun e n => e + n <= i) sz _ Ab); intros; lia.
  - rewrite advance_wr_set in R'. unfold load_value in R'. eapply rel_retires; eassumption.
  - intros d' Hd'. apply (load_value_lanes sz false _ _ _ Ab Hd').
Qed.

(** ** C22: MRET, and the instructions that do nothing *)
Theorem C22_mret : forall s inp, ok s inp -> forall t t' w x y, executed s inp t t' w x y -> int_taken s inp t w = false ->
  w = 0x30200073 ->
  no_data s inp t t' /\ same_regs x y /\ pc_of y = 4 * (mepc_of x / 4) /\ mie_of y = mpie_of x /\ mpie_of y = true /\
  meie_of y = meie_of x /\ mtvec_of y = mtvec_of x /\ mscratch_of y = mscratch_of x /\ mepc_of y = mepc_of x /\ mcause_of y = mcause_of x.
Proof.
  intros s inp K t t' w x y (X & -> & ->) T ->. destruct (executes_not_taken s inp K t t' _ X T) as (a & R & I & O).
  change (decode 0x30200073) with (Some Mret) in O. cbv iota in O. cbn [exec outcome] in O. destruct O as (N & R' & _). split; [assumption|].
  split; [eapply rel_same_regs; [exact R|exact R'|reflexivity]|].
  destruct R, R'. cbn [pc mie mpie meie mtvec mscratch mepc mcause took_int] in *.
  unfold pc_of, mie_of, mpie_of, meie_of, mtvec_of, mscratch_of, mepc_of, mcause_of. repeat split; congruence.
Qed.
Theorem C22_fence_wfi : forall s inp, ok s inp -> forall t t' w x y, executed s inp t t' w x y -> int_taken s inp t w = false ->
  decode w = Some Fence \/ decode w = Some Wfi -> no_data s inp t t' /\ moves_to x y (pc_plus_4 x).
Proof.
  intros s inp K t t' w x y (X & -> & ->) T D. destruct (executes_not_taken s inp K t t' _ X T) as (a & R & I & O).
  assert (O' : outcome s inp t t' (Fetching (advance a))) by (destruct D as [D|D]; rewrite D in O; exact O).
  destruct O' as (N & R' & _). split; [assumption|]. unfold pc_plus_4. rewrite <- (pc_of_rel a _ R). eapply rel_moves; eassumption.
Qed.

(** ** C18, C19, C20, C25: CSR instructions *)
(** The CSRs that exist: implemented ones, and those reading as zero ([ro_zero], Isa.v). *)
Definition implemented : list Z := [0x300; 0x304; 0x305; 0x340; 0x341; 0x342; 0x344].
Definition csr_exists (n : Z) : Prop := In n implemented \/ ro_zero n = true.
(** CSRs 0xC00-0xFFF are read-only. *)
Definition csr_legal (f : csr_fn) (g : csr_arg) (n : Z) : Prop :=
  csr_exists n /\ ~ (csr_writes f g = true /\ n / 2 ^ 10 = 3).
Definition operand (x : state) (g : csr_arg) : Z := match g with CReg r => x_of x r | CImm z => z end.

Lemma known_exists n : known n = true <-> csr_exists n.
Proof.
  unfold csr_exists, implemented. split.
  - unfold known, csr_read. intros H.
    destruct (ro_zero n) eqn:Z0; [auto|left].
    repeat match type of H with context[match ?x with _ => _ end] => is_var x; destruct x; try discriminate H end; cbn [In]; tauto.
  - intros [H|H].
    + cbn [In] in H. repeat (destruct H as [<-|H]; [reflexivity|]). contradiction.
    + unfold known, csr_read. rewrite H. repeat match goal with |- context[match ?x with _ => _ end] => is_var x; destruct x; try reflexivity end.
Qed.
Lemma ro_bits n : 0 <= n < 4096 -> csr_read_only n = true <-> n / 2 ^ 10 = 3.
Proof.
  intros H. unfold csr_read_only, fld. rewrite Z.eqb_eq. rewrite Z.mod_small; [tauto|]. split; [apply Z.div_pos; lia|apply Z.div_lt_upper_bound; lia].
Qed.

Theorem C18_csr_access : forall s inp, ok s inp -> forall t t' w x y, executed s inp t t' w x y -> int_taken s inp t w = false ->
  forall f rd g n, decode w = Some (Csr f rd g n) ->
  no_data s inp t t' /\
  (~ csr_legal f g n -> exception_entry s inp t 2 x y) /\
  (csr_legal f g n -> pc_of y = pc_plus_4 x /\ (n <> 0x341 -> mepc_of y = mepc_of x) /\ (n <> 0x342 -> mcause_of y = mcause_of x)).
Proof.
  intros s inp K t t' w x y (X & -> & ->) T f rd g n D. destruct (executes_not_taken s inp K t t' w X T) as (a & R & I & O).
  destruct (decode_regs w _ D) as (Hd & Hn & Hg). rewrite D in O. cbn [exec outcome] in O. destruct O as (N & R' & _). split; [assumption|].
  unfold exec_csr in R'. pose proof (csr_read_known a (irq (inp (t + 3)%nat)) n) as Kn. pose proof (known_exists n) as Ke. pose proof (ro_bits n Hn) as Ro.
  destruct (csr_read a _ n) as [old|].
  - destruct (csr_writes f g && csr_read_only n) eqn:Wr.
    + split; [intros _; eapply rel_exception; eassumption|]. intros [_ L]. exfalso. apply L. apply andb_prop in Wr. tauto.
    + split. { intros L. exfalso. apply L. split; [apply Ke; auto|]. intros [W1 W2]. rewrite W1 in Wr. apply Ro in W2. rewrite W2 in Wr. discriminate. }
      intros _. rewrite advance_wr_set in R'. set (a1 := if csr_writes f g then _ else _) in R'.
      assert (P : pc a1 = pc a /\ (n <> 0x341 -> mepc a1 = mepc a) /\ (n <> 0x342 -> mcause a1 = mcause a)).
      { unfold a1. destruct (csr_writes f g); [|auto]. unfold csr_write. repeat match goal with |- context[match ?x with _ => _ end] => is_var x; destruct x end;
          cbn [pc mepc mcause]; repeat split; intros; try reflexivity; congruence. }
      destruct P as (P1 & P2 & P3). destruct (wr_same a1 rd old) as (_ & _ & _ & _ & _ & E6 & E7 & _).
      destruct R, R'. cbn [set_pc pc mepc mcause] in *. unfold pc_of, pc_plus_4, pc_of, mepc_of, mcause_of.
      repeat split; intros; [congruence|specialize (P2 H); congruence|specialize (P3 H); congruence].
  - split; [intros _; eapply rel_exception; eassumption|]. intros [L _]. apply Ke in L. congruence.
Qed.

(** Value of an implemented CSR; [ip] is the interrupt line. *)
Definition csr_of (s : state) (ip : bool) (n : Z) : Z :=
  match n with
  | 0x300 => 0x1800 + 0x80 * bz (mpie_of s) + 8 * bz (mie_of s)
  | 0x304 => 0x800 * bz (meie_of s)
  | 0x305 => mtvec_of s
  | 0x340 => mscratch_of s
  | 0x341 => mepc_of s
  | 0x342 => mcause_of s
  | 0x344 => 0x800 * bz ip
  | _ => 0
  end.
(** What is kept of a value [v] written to [n]. *)
Definition warl (n v : Z) : Z :=
  match n with
  | 0x300 => 0x1800 + Z.land v 0x88
  | 0x304 => Z.land v 0x800
  | 0x305 | 0x341 => v - v mod 4
  | _ => v
  end.
Lemma csr_of_read a x ip n : rel a x -> csr_exists n -> csr_read a ip n = Some (csr_of x ip n).
Proof.
  intros R E. unfold csr_exists, implemented in E.
  assert (Z0 : ro_zero n = true -> csr_read a ip n = Some (csr_of x ip n)).
  { intros H. unfold csr_read, csr_of.
    repeat match goal with |- context[match ?x with _ => _ end] => is_var x; destruct x; try (rewrite H; reflexivity); try discriminate H end. }
  destruct E as [E|E]; [|auto]. destruct R. cbn [In] in E. unfold csr_of, mie_of, mpie_of, meie_of, mtvec_of, mscratch_of, mepc_of, mcause_of.
  repeat (destruct E as [<-|E]; [cbn [csr_read]; f_equal; try congruence; try (rewrite ?r_mie, ?r_mpie, ?r_meie; unfold bz; repeat match goal with |- context[if ?b then _ else _] => destruct b end; reflexivity); try (unfold bz; destruct ip; reflexivity)|]).
  contradiction.
Qed.
Lemma land_88 v : Z.land v 0x88 = 0x80 * bz (Z.testbit v 7) + 8 * bz (Z.testbit v 3).
Proof.
  apply Z.bits_inj'. intros i Hi. rewrite Z.land_spec.
  destruct (Z.eq_dec i 3) as [->|N3]; [|destruct (Z.eq_dec i 7) as [->|N7]].
  - destruct (Z.testbit v 3), (Z.testbit v 7); reflexivity.
  - destruct (Z.testbit v 3), (Z.testbit v 7); reflexivity.
  - assert (F : forall k, (k = 0 \/ k = 8 \/ k = 0x80 \/ k = 0x88) -> Z.testbit k i = false).
    { intros k Hk. destruct (Z.lt_ge_cases i 8).
      - assert (i = 0 \/ i = 1 \/ i = 2 \/ i = 4 \/ i = 5 \/ i = 6) as E by lia.
        repeat (destruct E as [E|E]; [subst i; destruct Hk as [->|[->|[->| ->]]]; reflexivity|]). subst i; destruct Hk as [->|[->|[->| ->]]]; reflexivity.
      - apply (pow_bits_above k 8); lia. }
    rewrite (F 0x88), andb_false_r by tauto. symmetry. apply F. destruct (Z.testbit v 7), (Z.testbit v 3); cbn; tauto.
Qed.
Lemma land_800 v : Z.land v 0x800 = 0x800 * bz (Z.testbit v 11).
Proof.
  apply Z.bits_inj'. intros i Hi. rewrite Z.land_spec. destruct (Z.eq_dec i 11) as [->|N].
  - destruct (Z.testbit v 11); reflexivity.
  - assert (F : forall b, Z.testbit (0x800 * bz b) i = false).
    { intros []; unfold bz; [|rewrite Z.mul_0_r; apply Z.bits_0]. change (0x800 * 1) with (2 ^ 11). apply Z.pow2_bits_false. lia. }
    rewrite F. change 0x800 with (0x800 * bz true). rewrite F. apply andb_false_r.
Qed.
Lemma low_clear v : 4 * (v / 4) = v - v mod 4.
Proof. pose proof (Z.div_mod v 4 ltac:(lia)). lia. Qed.

Theorem C19_csr_read_modify_write : forall s inp, ok s inp -> forall t t' w x y, executed s inp t t' w x y -> int_taken s inp t w = false ->
  forall f rd g n, decode w = Some (Csr f rd g n) -> In n implemented ->
  let old := csr_of x (irq (inp (t + 3)%nat)) n in
  let new := match f with CSRRW => operand x g | CSRRS => Z.lor old (operand x g) | CSRRC => Z.ldiff old (operand x g) end in
  no_data s inp t t' /\ writes_rd x y rd old /\ pc_of y = pc_plus_4 x /\
  (forall ip m, m <> n -> csr_of y ip m = csr_of x ip m) /\
  (n <> 0x344 -> csr_writes f g = true -> forall ip, csr_of y ip n = warl n new) /\
  (n = 0x344 \/ csr_writes f g = false -> forall ip, csr_of y ip n = csr_of x ip n).
Proof.
  intros s inp K t t' w x y (X & -> & ->) T f rd g n D Hi. destruct (executes_not_taken s inp K t t' w X T) as (a & R & I & O).
  destruct (decode_regs w _ D) as (Hd & Hn & Hg). rewrite D in O. cbn [exec outcome] in O. destruct O as (N & R' & _). cbv zeta.
  split; [assumption|].
  unfold exec_csr in R'. rewrite (csr_of_read a _ _ n R) in R' by (left; assumption).
  assert (Ro : csr_read_only n = false).
  { unfold implemented in Hi. cbn [In] in Hi. repeat (destruct Hi as [<-|Hi]; [reflexivity|]). contradiction. }
  rewrite Ro, andb_false_r in R'. set (old := csr_of _ _ n) in *.
  assert (Ag : arg_value a g = operand (run s inp (S t)) g).
  { destruct g; cbn [arg_value operand]; [|reflexivity]. apply rd_x_of; assumption. }
  rewrite Ag in R'.
  assert (Ne : csr_new f old (operand (run s inp (S t)) g) = match f with CSRRW => operand (run s inp (S t)) g | CSRRS => Z.lor old (operand (run s inp (S t)) g) | CSRRC => Z.ldiff old (operand (run s inp (S t)) g) end) by (destruct f; reflexivity).
  rewrite Ne in R'. clear Ne Ag. set (new := match f with CSRRW => _ | CSRRS => _ | CSRRC => _ end) in *.
  rewrite advance_wr_set in R'. set (a1 := if csr_writes f g then _ else _) in R'.
  assert (Xr : forall r, rd_x a1 r = rd_x a r).
  { intros r. unfold a1. destruct (csr_writes f g); [|reflexivity]. unfold csr_write, rd_x.
    repeat match goal with |- context[match ?x with _ => _ end] => is_var x; destruct x end; reflexivity. }
  destruct (wr_same a1 rd old) as (E1 & E2 & E3 & E4 & E5 & E6 & E7 & E8).
  assert (Pc : pc a1 = pc a).
  { unfold a1. destruct (csr_writes f g); [|reflexivity]. unfold csr_write. repeat match goal with |- context[match ?x with _ => _ end] => is_var x; destruct x end; reflexivity. }
  split. { eapply rel_wr; [exact R|exact R'|assumption|]. intros r. rewrite rd_set_pc. unfold wr_x. destruct (Z.eqb_spec rd 0); [apply Xr|].
           unfold rd_x in *. cbn [set_x xr]. specialize (Xr r). destruct (r =? 0); [reflexivity|]. destruct (r =? rd); [reflexivity|assumption]. }
  split. { unfold pc_plus_4. rewrite <- (pc_of_rel _ _ R), <- (pc_of_rel _ _ R'). cbn [set_pc pc]. rewrite Pc. reflexivity. }
  assert (Y : forall ip m, csr_exists m -> csr_read (wr_x a1 rd old) ip m = Some (csr_of (run s inp (S t')) ip m)).
  { intros ip m Hm. rewrite <- (csr_of_read _ _ _ _ R' Hm). unfold csr_read. reflexivity. }
  assert (Y1 : forall ip m, csr_read (wr_x a1 rd old) ip m = csr_read a1 ip m).
  { intros. unfold csr_read. rewrite E1, E2, E3, E4, E5, E6, E7. reflexivity. }
  assert (X1 : forall ip m, csr_exists m -> csr_read a ip m = Some (csr_of (run s inp (S t)) ip m)).
  { intros ip m Hm. apply csr_of_read; assumption. }
  assert (Same : forall ip m, m <> n -> csr_read a1 ip m = csr_read a ip m).
  { intros ip m Hm. unfold a1. destruct (csr_writes f g); [|reflexivity]. unfold implemented in Hi. cbn [In] in Hi.
    repeat (destruct Hi as [<-|Hi]; [unfold csr_write, csr_read; repeat match goal with |- context[match ?x with _ => _ end] => is_var x; destruct x; try reflexivity; try congruence end|]).
    contradiction. }
  assert (Ot : forall z ip m, ~ csr_exists m -> csr_of z ip m = 0).
  { intros z ip m Hm. unfold csr_exists, implemented in Hm. cbn [In] in Hm. unfold csr_of.
    repeat match goal with |- context[match ?x with _ => _ end] => is_var x; destruct x; try reflexivity; try (exfalso; apply Hm; tauto) end. }
  split; [|split].
  - intros ip m Hm. destruct (known m) eqn:Km.
    + apply known_exists in Km. specialize (Y ip m Km). rewrite Y1, Same, X1 in Y by assumption. congruence.
    + rewrite !Ot; [reflexivity|rewrite <- known_exists; congruence|rewrite <- known_exists; congruence].
  - intros Hm Wr ip. assert (Hx : csr_exists n) by (left; assumption). specialize (Y ip n Hx). rewrite Y1 in Y. unfold a1 in Y. rewrite Wr in Y.
    unfold implemented in Hi. cbn [In] in Hi.
    assert (G : match n with
      | 0x300 => 3 * 2 ^ 11 + bz (Z.testbit new 7) * 2 ^ 7 + bz (Z.testbit new 3) * 2 ^ 3 = csr_of (run s inp (S t')) ip n
      | 0x304 => bz (Z.testbit new 11) * 2 ^ 11 = csr_of (run s inp (S t')) ip n
      | 0x305 | 0x341 => 4 * (new / 4) = csr_of (run s inp (S t')) ip n
      | 0x344 => True
      | _ => new = csr_of (run s inp (S t')) ip n end).
    { clearbody new. clear - Y Hi. repeat (destruct Hi as [<-|Hi]; [first [exact Logic.I|injection Y as Y; exact Y]|]). contradiction. }
    clearbody new. clear - G Hi Hm. repeat (destruct Hi as [<-|Hi]; [try (exfalso; apply Hm; reflexivity); cbn [warl]; cbv beta iota in G; rewrite <- G;
      rewrite ?land_88, ?land_800, <- ?low_clear; try reflexivity; change (2 ^ 11) with 0x800; change (2 ^ 7) with 0x80; change (2 ^ 3) with 8; lia|]).
    contradiction.
  - intros Hm ip. assert (Hx : csr_exists n) by (left; assumption). specialize (Y ip n Hx). rewrite Y1 in Y.
    assert (Ea : csr_read a1 ip n = csr_read a ip n).
    { unfold a1. destruct (csr_writes f g); [|reflexivity]. destruct Hm as [->|]; [reflexivity|discriminate]. }
    rewrite Ea, X1 in Y by assumption. congruence.
Qed.

(** C25 *)
Theorem C25_mip : forall s inp, ok s inp -> forall t t' w x y, executed s inp t t' w x y -> int_taken s inp t w = false ->
  forall f rd g, decode w = Some (Csr f rd g 0x344) ->
  writes_rd x y rd (if irq (inp (t + 3)%nat) then 2 ^ 11 else 0) /\ same_csrs x y /\ pc_of y = pc_plus_4 x.
Proof.
  intros s inp K t t' w x y E T f rd g D.
  destruct (C19_csr_read_modify_write s inp K t t' w x y E T f rd g 0x344 D) as (_ & Wr & Pc & Ot & _ & _). { cbn. tauto. }
  split; [|split; [|assumption]].
  - cbn [csr_of] in Wr. destruct (irq _); exact Wr.
  - pose proof (Ot false 0x300 ltac:(discriminate)) as H0. pose proof (Ot false 0x304 ltac:(discriminate)) as H1. pose proof (Ot false 0x305 ltac:(discriminate)) as H2.
    pose proof (Ot false 0x340 ltac:(discriminate)) as H3. pose proof (Ot false 0x341 ltac:(discriminate)) as H4. pose proof (Ot false 0x342 ltac:(discriminate)) as H5.
    cbn [csr_of] in *. unfold same_csrs. unfold bz in *.
    destruct (mie_of x), (mie_of y), (mpie_of x), (mpie_of y), (meie_of x), (meie_of y); try (exfalso; lia); repeat split; assumption.
Qed.

(** C20 *)
Theorem C20_read_only_zero : forall s inp, ok s inp -> forall t t' w x y, executed s inp t t' w x y -> int_taken s inp t w = false ->
  forall f rd g n, decode w = Some (Csr f rd g n) -> ro_zero n = true -> csr_legal f g n ->
  no_data s inp t t' /\ retires x y rd 0 (pc_plus_4 x).
Proof.
  intros s inp K t t' w x y (X & -> & ->) T f rd g n D Z0 [_ L]. destruct (executes_not_taken s inp K t t' w X T) as (a & R & I & O).
  destruct (decode_regs w _ D) as (Hd & Hn & Hg). rewrite D in O. cbn [exec outcome] in O. destruct O as (N & R' & _). split; [assumption|].
  unfold exec_csr in R'. rewrite (csr_of_read a _ _ n R) in R' by (right; assumption).
  assert (Zr : csr_of (run s inp (S t)) (irq (inp (t + 3)%nat)) n = 0).
  { unfold csr_of. repeat match goal with |- context[match ?x with _ => _ end] => is_var x; destruct x; try reflexivity; try discriminate Z0 end. }
  rewrite Zr in R'.
  assert (Wr : csr_writes f g && csr_read_only n = false).
  { destruct (csr_writes f g); [|reflexivity]. destruct (csr_read_only n) eqn:E; [|reflexivity]. exfalso. apply L. split; [reflexivity|]. apply ro_bits; assumption. }
  rewrite Wr in R'.
  assert (Id : forall v, csr_write a n v = a).
  { intros v. unfold csr_write. repeat match goal with |- context[match ?x with _ => _ end] => is_var x; destruct x; try reflexivity; try discriminate Z0 end. }
  rewrite Id in R'. replace (if csr_writes f g then a else a) with a in R' by (destruct (csr_writes f g); reflexivity).
  unfold pc_plus_4. rewrite <- (pc_of_rel a _ R). rewrite advance_wr_set in R'. eapply rel_retires; eassumption.
Qed.

(** ** C21, C23, C16, C17: traps *)
(** The exception [w] raises in state [x], if any. *)
Definition sync_cause (x : state) (w : Z) (c : Z) : Prop :=
  match decode w with
  | None => c = if (0x70 <=? w) && (w <=? 0x72) then 11 else 2
  | Some Ecall => c = 11
  | Some Ebreak => c = 3
  | Some (Jal _ off) => ((pc_of x + off) mod 2 ^ 32) mod 4 <> 0 /\ c = 0
  | Some (Jalr _ rs1 off) => (2 * (((x_of x rs1 + off) mod 2 ^ 32) / 2)) mod 4 <> 0 /\ c = 0
  | Some (Branch f rs1 rs2 off) => cmp f (x_of x rs1) (x_of x rs2) = true /\ ((pc_of x + off) mod 2 ^ 32) mod 4 <> 0 /\ c = 0
  | Some (Load sz _ _ rs1 off) => ((x_of x rs1 + off) mod 2 ^ 32) mod bytes sz <> 0 /\ c = 4
  | Some (Store sz rs1 _ off) => ((x_of x rs1 + off) mod 2 ^ 32) mod bytes sz <> 0 /\ c = 6
  | Some (Csr f _ g n) => ~ csr_legal f g n /\ c = 2
  | _ => False
  end.

Ltac causes C := repeat match type of C with _ /\ _ => destruct C as [_ C] end.
Lemma sync_cause_dec x w : (exists c, sync_cause x w c) \/ forall c, ~ sync_cause x w c.
Proof.
  unfold sync_cause. destruct (decode w) as [i|]; [|left; eexists; reflexivity].
    destruct i; try (right; intros; tauto); try (left; eexists; reflexivity).
    - destruct (Z.eq_dec (((pc_of x + off) mod 2 ^ 32) mod 4) 0); [right; intros; tauto|left; eexists; split; [assumption|reflexivity]].
    - destruct (Z.eq_dec ((2 * (((x_of x rs1 + off) mod 2 ^ 32) / 2)) mod 4) 0); [right; intros; tauto|left; eexists; split; [assumption|reflexivity]].
    - destruct (cmp c (x_of x rs1) (x_of x rs2)) eqn:Cm; [|right; intros ? [? _]; congruence].
      destruct (Z.eq_dec (((pc_of x + off) mod 2 ^ 32) mod 4) 0); [right; intros; tauto|left; eexists; split; [reflexivity|split; [assumption|reflexivity]]].
    - destruct (Z.eq_dec (((x_of x rs1 + off) mod 2 ^ 32) mod bytes sz) 0); [right; intros; tauto|left; eexists; split; [assumption|reflexivity]].
    - destruct (Z.eq_dec (((x_of x rs1 + off) mod 2 ^ 32) mod bytes sz) 0); [right; intros; tauto|left; eexists; split; [assumption|reflexivity]].
    - destruct (known csr) eqn:Kn.
      + destruct (csr_writes f arg && (csr / 2 ^ 10 =? 3)) eqn:Wr.
        * left. eexists. split; [|reflexivity]. intros [_ L]. apply L. apply andb_prop in Wr. rewrite Z.eqb_eq in Wr. exact Wr.
        * right. intros c [L _]. apply L. split; [apply known_exists; assumption|]. intros [W1 W2]. apply Z.eqb_eq in W2. rewrite W1, W2 in Wr. discriminate.
      + left. eexists. split; [|reflexivity]. intros [L _]. apply known_exists in L. congruence.
Qed.

(** The next request after the fetch of [w] is the fetch at [p], acknowledged in [t']. *)
Definition next_fetch_at (s : state) (inp : nat -> input) (t t' : nat) (p : Z) : Prop :=
  no_data s inp t t' /\ o_adr (run s inp t') = p / 4.

Lemma next_adr s inp t t' w : ok s inp -> executes s inp t t' w -> o_adr (run s inp t') = s_pc (run s inp (S t')).
Proof.
  intros K (_ & L & (w' & F') & _). destruct (fetch_machine s inp K t' w' F') as [a M]. destruct F' as (C & U & A & D).
  pose proof (bus_shows s inp K t' C) as Sh. rewrite M in Sh. pose proof (b_rel _ _ _ (fetch_boundary s inp K t' a C A M)) as R.
  rewrite (sh_adr _ _ Sh). cbn [request q_adr]. rewrite (r_pc _ _ _ _ _ _ _ _ R). rewrite Z.mul_comm. apply Z.div_mul. lia.
Qed.
Lemma handler_fetch s inp t t' w x y : ok s inp -> executed s inp t t' w x y -> no_data s inp t t' -> trap_entry x y -> next_fetch_at s inp t t' (mtvec_of x).
Proof.
  intros K (X & -> & ->) N (_ & _ & P & _). split; [assumption|]. rewrite (next_adr s inp t t' w K X). unfold pc_of in P. lia.
Qed.

Theorem C21_exception : forall s inp, ok s inp -> forall t t' w x y, executed s inp t t' w x y -> int_taken s inp t w = false ->
  forall c, sync_cause x w c -> next_fetch_at s inp t t' (mtvec_of x) /\ exception_entry s inp t c x y.
Proof.
  intros s inp K t t' w x y E T c C.
  assert (G : no_data s inp t t' /\ exception_entry s inp t c x y).
  { unfold sync_cause in C. destruct (decode w) as [i|] eqn:D.
    - destruct i; try contradiction.
      + destruct C as [C ->]. destruct (C15_jal s inp K t t' w x y E T _ _ D) as [N P]. cbv zeta in P. apply Z.eqb_neq in C. rewrite C in P. split; assumption.
      + destruct C as [C ->]. destruct (C15_jalr s inp K t t' w x y E T _ _ _ D) as [N P]. cbv zeta in P. apply Z.eqb_neq in C. rewrite C in P. split; assumption.
      + destruct C as (C1 & C & ->). destruct (C15_branch s inp K t t' w x y E T _ _ _ _ D) as [N P]. cbv zeta in P. apply Z.eqb_neq in C. rewrite C1, C in P. split; assumption.
      + destruct C as [C ->]. apply (proj1 (C11_misaligned s inp K t t' w x y E T) _ _ _ _ _ D C).
      + destruct C as [C ->]. apply (proj2 (C11_misaligned s inp K t t' w x y E T) _ _ _ _ D C).
      + subst c. destruct E as (X & -> & ->). destruct (executes_not_taken s inp K t t' w X T) as (a & R & I & O). rewrite D in O. destruct O as (N & R' & _).
        split; [assumption|]. eapply rel_exception; eassumption.
      + subst c. destruct E as (X & -> & ->). destruct (executes_not_taken s inp K t t' w X T) as (a & R & I & O). rewrite D in O. destruct O as (N & R' & _).
        split; [assumption|]. eapply rel_exception; eassumption.
      + destruct C as [C ->]. destruct (C18_csr_access s inp K t t' w x y E T _ _ _ _ D) as (N & P & _). split; [assumption|apply P; assumption].
    - subst c. destruct E as (X & -> & ->). destruct (executes_not_taken s inp K t t' w X T) as (a & R & I & O). rewrite D in O. destruct O as (N & R' & _).
      split; [assumption|]. eapply rel_exception; eassumption. }
  destruct G as [N G]. split; [|assumption]. eapply handler_fetch; try eassumption. apply G.
Qed.

Theorem C21_interrupt : forall s inp, ok s inp -> forall t t' w x y, executed s inp t t' w x y -> int_taken s inp t w = true ->
  next_fetch_at s inp t t' (mtvec_of x) /\ interrupt_entry x y.
Proof.
  intros s inp K t t' w x y E T.
  assert (G : no_data s inp t t' /\ interrupt_entry x y).
  { destruct E as (X & -> & ->). destruct (executes_taken s inp K t t' w X T) as (a & R & (N & R' & _)). split; [assumption|]. eapply rel_interrupt; eassumption. }
  destruct G as [N G]. split; [|assumption]. eapply handler_fetch; try eassumption. apply G.
Qed.

(** An instruction that raises no exception leaves MCAUSE alone, unless it is a CSR
    instruction addressing MCAUSE. *)
Theorem C21_no_other_traps : forall s inp, ok s inp -> forall t t' w x y, executed s inp t t' w x y -> int_taken s inp t w = false ->
  (forall c, ~ sync_cause x w c) -> (forall f rd g, decode w <> Some (Csr f rd g 0x342)) -> mcause_of y = mcause_of x.
Proof.
  intros s inp K t t' w x y E T C Nc. unfold sync_cause in C.
  assert (Mv : forall p, moves_to x y p -> mcause_of y = mcause_of x) by (intros p (_ & _ & H); apply H).
  assert (Rt : forall rd v p, retires x y rd v p -> mcause_of y = mcause_of x) by (intros rd v p (_ & _ & H); apply H).
  destruct (decode w) as [i|] eqn:D; [|exfalso; eapply C; reflexivity].
  destruct i.
  - apply (Rt rd imm (pc_plus_4 x)). apply (proj1 (C14_lui_auipc s inp K t t' w x y E T)). assumption.
  - eapply Rt. apply (proj2 (C14_lui_auipc s inp K t t' w x y E T)). eassumption.
  - destruct (C15_jal s inp K t t' w x y E T _ _ D) as [N P]. cbv zeta in P. destruct (Z.eqb_spec (((pc_of x + off) mod 2 ^ 32) mod 4) 0); [eapply Rt; eassumption|].
    exfalso. eapply C. split; [eassumption|reflexivity].
  - destruct (C15_jalr s inp K t t' w x y E T _ _ _ D) as [N P]. cbv zeta in P. destruct (Z.eqb_spec ((2 * ((x_of x rs1 + off) mod 2 ^ 32 / 2)) mod 4) 0); [eapply Rt; eassumption|].
    exfalso. eapply C. split; [eassumption|reflexivity].
  - destruct (C15_branch s inp K t t' w x y E T _ _ _ _ D) as [N P]. cbv zeta in P. destruct (cmp c _ _) eqn:Cm; [|eapply Mv; eassumption].
    destruct (Z.eqb_spec (((pc_of x + off) mod 2 ^ 32) mod 4) 0); [eapply Mv; eassumption|].
    exfalso. eapply C. split; [reflexivity|]. split; [eassumption|reflexivity].
  - destruct (Z.eq_dec (((x_of x rs1 + off) mod 2 ^ 32) mod bytes sz) 0) as [Al|Al]; [|exfalso; eapply C; split; [eassumption|reflexivity]].
    destruct (C13_load s inp K t t' w x y E T _ _ _ _ _ D Al) as (u & _ & _ & _ & _ & R & _). eapply Rt; exact R.
  - destruct (Z.eq_dec (((x_of x rs1 + off) mod 2 ^ 32) mod bytes sz) 0) as [Al|Al]; [|exfalso; eapply C; split; [eassumption|reflexivity]].
    destruct (C12_store s inp K t t' w x y E T _ _ _ _ D Al) as (u & _ & _ & _ & _ & _ & R). eapply Mv; exact R.
  - eapply Rt. eapply (C14_op_imm s inp K t t' w x y E T). eassumption.
  - eapply Rt. eapply (C14_op_reg s inp K t t' w x y E T). eassumption.
  - eapply Mv. eapply (C22_fence_wfi s inp K t t' w x y E T). auto.
  - exfalso. eapply C; reflexivity.
  - exfalso. eapply C; reflexivity.
  - assert (W : w = 0x30200073).
    { clear - D. unfold decode, decode_system, decode_op, decode_opimm, decode_branch, decode_store, decode_load in D. cases_in D. apply Z.eqb_eq. assumption. }
    apply (C22_mret s inp K t t' w x y E T W).
  - eapply Mv. eapply (C22_fence_wfi s inp K t t' w x y E T). auto.
  - destruct (C18_csr_access s inp K t t' w x y E T _ _ _ _ D) as (_ & _ & P).
    assert (L : csr_legal f arg csr).
    { unfold csr_legal. destruct (known csr) eqn:Kn.
      - split; [apply known_exists; assumption|]. intros H. eapply C. split; [|reflexivity]. intros [_ L]. apply L. exact H.
      - exfalso. eapply C. split; [|reflexivity]. intros [L _]. apply known_exists in L. congruence. }
    apply P; [assumption|]. intros ->. eapply Nc. reflexivity.
Qed.

(** C16: [w] is illegal when the decoder of the reference rejects it or it is a CSR
    access that is not allowed.  An illegal word traps and does nothing else; if MCAUSE
    did not hold code 2 before, it holds it afterwards exactly when the word is illegal
    (the words 0x70-0x72 report code 11 instead, see C17; a CSR instruction can also
    write 2 to MCAUSE). *)
Definition illegal (w : Z) : Prop :=
  match decode w with None => True | Some (Csr f _ g n) => ~ csr_legal f g n | _ => False end.
Theorem C16_illegal_words_trap : forall s inp, ok s inp -> forall t t' w x y, executed s inp t t' w x y -> int_taken s inp t w = false ->
  illegal w -> next_fetch_at s inp t t' (mtvec_of x) /\
  exception_entry s inp t (if (0x70 <=? w) && (w <=? 0x72) then 11 else 2) x y.
Proof.
  intros s inp K t t' w x y E T L. apply C21_exception with (w := w); try assumption. unfold sync_cause, illegal in *.
  destruct (decode w) as [i|] eqn:D; [|reflexivity]. destruct i; try contradiction. split; [assumption|].
  destruct (Z.leb_spec 0x70 w), (Z.leb_spec w 0x72); try reflexivity.
  exfalso. assert (w = 112 \/ w = 113 \/ w = 114) as [->|[->| ->]] by lia; discriminate D.
Qed.
Theorem C16_legal_words_do_not : forall s inp, ok s inp -> forall t t' w x y, executed s inp t t' w x y -> int_taken s inp t w = false ->
  ~ illegal w -> (forall f rd g, decode w <> Some (Csr f rd g 0x342)) ->
  mcause_of x mod 2 ^ 31 <> 2 -> mcause_of y mod 2 ^ 31 <> 2.
Proof.
  intros s inp K t t' w x y E T L Nc M.
  pose proof (sync_cause_dec x w) as H.
  destruct H as [[c C]|C].
  - destruct (C21_exception s inp K t t' w x y E T c C) as [_ (_ & Mc & _)].
    assert (Cc : 0 <= c < 2 \/ 2 < c < 16).
    { unfold sync_cause, illegal in *. destruct (decode w) as [i|]; [|exfalso; tauto]. destruct i; try contradiction; try (exfalso; tauto); causes C; lia. }
    destruct Mc as [Mc|Mc]; rewrite Mc.
    + rewrite Z.mod_small; lia.
    + rewrite <- (Z.mul_1_l (2 ^ 31)) at 1. rewrite Z.add_comm, Z.mod_add by lia. rewrite Z.mod_small; lia.
  - rewrite (C21_no_other_traps s inp K t t' w x y E T C Nc). assumption.
Qed.

(** C17 holds for all illegal words but three ... *)
Theorem C17_cause_2_partial : forall s inp, ok s inp -> forall t t' w x y, executed s inp t t' w x y -> int_taken s inp t w = false ->
  illegal w -> w <> 0x70 -> w <> 0x71 -> w <> 0x72 -> exception_entry s inp t 2 x y.
Proof.
  intros s inp K t t' w x y E T L N0 N1 N2. destruct (C16_illegal_words_trap s inp K t t' w x y E T L) as [_ P].
  replace ((0x70 <=? w) && (w <=? 0x72)) with false in P; [exact P|].
  symmetry. apply andb_false_iff. destruct (Z.leb_spec 0x70 w); [right; apply Z.leb_gt; lia|left; reflexivity].
Qed.
(** ... and fails for 0x70, 0x71 and 0x72, which are illegal (their two low bits are not
    11) but report an environment call. *)
Theorem C17_refuted_not_quite_ecall : forall s inp, ok s inp -> forall t t' w x y, executed s inp t t' w x y -> int_taken s inp t w = false ->
  w = 0x70 \/ w = 0x71 \/ w = 0x72 -> decode w = None /\ exception_entry s inp t 11 x y.
Proof.
  intros s inp K t t' w x y E T W. assert (D : decode w = None) by (destruct W as [->|[->| ->]]; reflexivity). split; [assumption|].
  assert (L : illegal w) by (unfold illegal; rewrite D; exact Logic.I). destruct (C16_illegal_words_trap s inp K t t' w x y E T L) as [_ P].
  destruct W as [->|[->| ->]]; exact P.
Qed.

(** C23: precise and taken iff. *)
Theorem C23_interrupt_taken : forall s inp, ok s inp -> forall t t' w x y, executed s inp t t' w x y ->
  mie_of x = true -> meie_of x = true -> irq (inp (t + 1)%nat) = true \/ (csr_word w = true /\ irq (inp (t + 2)%nat) = true) ->
  no_data s inp t t' /\ same_regs x y /\ mepc_of y = pc_of x /\ mcause_of y = 0x8000000B /\ pc_of y = 4 * (mtvec_of x / 4).
Proof.
  intros s inp K t t' w x y E H1 H2 H3.
  assert (T : int_taken s inp t w = true).
  { destruct E as (_ & -> & _). unfold int_taken. cbv zeta. rewrite H1, H2. destruct H3 as [->|[-> ->]]; [reflexivity|]. cbn. apply orb_true_r. }
  destruct (C21_interrupt s inp K t t' w x y E T) as [[N _] [(P1 & P2 & P3 & _) P4]]. repeat split; assumption.
Qed.
(** Otherwise the instruction executes: MCAUSE does not become the interrupt cause,
    except that ECALL (or 0x70-0x72) after an earlier interrupt looks like one (C24), or
    a CSR instruction writes it. *)
Theorem C23_interrupt_only_if : forall s inp, ok s inp -> forall t t' w x y, executed s inp t t' w x y ->
  int_taken s inp t w = false -> ~ sync_cause x w 11 -> (forall f rd g, decode w <> Some (Csr f rd g 0x342)) ->
  mcause_of x <> 0x8000000B -> mcause_of y <> 0x8000000B.
Proof.
  intros s inp K t t' w x y E T S11 Nc M.
  pose proof (sync_cause_dec x w) as H.
  destruct H as [[c C]|C].
  - destruct (C21_exception s inp K t t' w x y E T c C) as [_ (_ & Mc & _)].
    assert (Cc : 0 <= c < 11).
    { unfold sync_cause in *. destruct (decode w) as [i|].
      - destruct i; try contradiction; causes C; lia.
      - destruct ((112 <=? w) && (w <=? 114)); [exfalso; apply S11; reflexivity|lia]. }
    destruct Mc as [Mc|Mc]; rewrite Mc; lia.
  - rewrite (C21_no_other_traps s inp K t t' w x y E T C Nc). assumption.
Qed.

(** ** C24: the interrupt bit of MCAUSE is sticky *)
(** It is clear as long as no interrupt has been taken ... *)
Theorem C24_interrupt_bit_partial : forall s inp, ok s inp -> forall t t' w x y, executed s inp t t' w x y -> int_taken s inp t w = false ->
  no_int_before s inp t -> forall c, sync_cause x w c -> mcause_of y = c /\ 0 <= mcause_of y < 2 ^ 31.
Proof.
  intros s inp K t t' w x y E T N c C. destruct (C21_exception s inp K t t' w x y E T c C) as [_ (_ & _ & Mc)]. rewrite (Mc N). split; [reflexivity|].
  unfold sync_cause in *. destruct (decode w) as [i|].
  - destruct i; try contradiction; causes C; lia.
  - destruct ((112 <=? w) && (w <=? 114)); lia.
Qed.
(** ... and set in every synchronous exception after the first interrupt, so the property
    is false. *)
Definition dirty (m : mach) : Prop := match m with Fetching a => took_int a = true | Accessing _ k => forall d, took_int (k d) = true end.
Lemma exec_dirty v a ip i : took_int a = true -> dirty (exec v a ip i).
Proof.
  intros H. destruct i; cbn [exec dirty advance set_pc took_int].
  all: rewrite ?wr_took; try assumption.
  - rewrite jump_took; [assumption|apply wr_took].
  - rewrite jump_took; [assumption|apply wr_took].
  - destruct (cmp _ _ _); [rewrite jump_took; [assumption|reflexivity]|assumption].
  - destruct (aligned _ _); cbn [dirty]; [intros d; cbn [advance set_pc took_int]; rewrite wr_took|cbn]; assumption.
  - destruct (aligned _ _); cbn [dirty]; [intros d; cbn [advance set_pc took_int]|cbn]; assumption.
  - unfold exec_csr. destruct (csr_read _ _ _); [|assumption]. destruct (_ && _); [assumption|].
    cbn [advance set_pc took_int]. rewrite wr_took. destruct (csr_writes _ _); [rewrite csr_write_took|]; assumption.
Qed.
Lemma dirty_step s inp t : dirty (machine s inp t) -> dirty (machine s inp (S t)).
Proof.
  intros H. destruct (o_cyc (run s inp t) && ack (inp t)) eqn:Q; [|rewrite machine_noack; assumption].
  apply andb_prop in Q. destruct Q as [Cy Ak]. rewrite machine_ack by assumption.
  destruct (machine s inp t) as [a|r k]; cbn [complete]; [|apply H]. unfold fetched.
  destruct (_ && _); [reflexivity|]. destruct (decode _) as [i|]; [|exact H]. destruct (_ && _); [reflexivity|]. apply exec_dirty. exact H.
Qed.
Theorem C24_refuted_sticky_bit : forall s inp, ok s inp -> forall t t' w x y, executed s inp t t' w x y -> int_taken s inp t w = false ->
  forall u w0, (u < t)%nat -> fetch_done s inp u w0 -> int_taken s inp u w0 = true ->
  forall c, sync_cause x w c -> mcause_of y = 2 ^ 31 + c.
Proof.
  intros s inp K t t' w x y E T u w0 Hu F0 T0 c C. pose proof E as (X & Ex & Ey).
  destruct (fetch_machine s inp K u w0 F0) as [a0 M0]. destruct F0 as (C0 & U0 & A0 & D0).
  assert (Dm : dirty (machine s inp (S u))).
  { rewrite machine_ack by assumption. rewrite M0. cbn [complete]. unfold irqs. rewrite D0. rewrite fetched_taken; [reflexivity|].
    rewrite <- (int_taken_rel s inp u w0 a0); [assumption|]. apply (b_rel _ _ _ (fetch_boundary s inp K u a0 C0 A0 M0)). }
  assert (Dt : dirty (machine s inp t)).
  { replace t with (S u + (t - S u))%nat by lia. induction (t - S u)%nat as [|n IH]; [rewrite Nat.add_0_r; assumption|]. rewrite Nat.add_succ_r. apply dirty_step. assumption. }
  destruct (executes_outcome s inp K t t' w X) as (a & M & R & O). rewrite M in Dt. cbn [dirty] in Dt.
  assert (Ex2 : outcome s inp t t' (Fetching (exception SENTINEL a c))).
  { rewrite (int_taken_rel s inp t w a R) in T. rewrite fetched_not_taken in O by assumption.
    unfold sync_cause in C. rewrite Ex in C. destruct (decode w) as [i|] eqn:D; [|rewrite C; exact O].
    pose proof (decode_regs w i D) as Dr.
    destruct i; try contradiction; cbn [exec] in O.
    - destruct C as [C ->]. rewrite <- (pc_of_rel a _ R) in C. unfold jump in O. apply Z.eqb_neq in C. rewrite C in O. exact O.
    - destruct C as [C ->]. rewrite <- (rd_x_of a _ rs1 R) in C by tauto. unfold jump in O. apply Z.eqb_neq in C. rewrite C in O. exact O.
    - destruct C as (C1 & C & ->). rewrite <- (rd_x_of a _ rs1 R), <- (rd_x_of a _ rs2 R) in C1 by tauto. rewrite <- (pc_of_rel a _ R) in C. unfold jump in O. apply Z.eqb_neq in C. rewrite C1, C in O. exact O.
    - destruct C as [C ->]. rewrite <- (rd_x_of a _ rs1 R) in C by tauto. unfold aligned in O. apply Z.eqb_neq in C. rewrite C in O. exact O.
    - destruct C as [C ->]. rewrite <- (rd_x_of a _ rs1 R) in C by tauto. unfold aligned in O. apply Z.eqb_neq in C. rewrite C in O. exact O.
    - rewrite C. exact O.
    - rewrite C. exact O.
    - destruct C as [C ->]. unfold exec_csr in O. pose proof (csr_read_known a (irq (inp (t + 3)%nat)) csr) as Kn. pose proof (known_exists csr) as Ke.
      destruct (csr_read _ _ _); [|exact O]. destruct (csr_writes f arg && csr_read_only csr) eqn:Wr; [exact O|].
      exfalso. apply C. split; [apply Ke; auto|]. intros [W1 W2]. apply ro_bits in W2; [|tauto]. rewrite W1, W2 in Wr. discriminate. }
  destruct Ex2 as (_ & R' & _). destruct (rel_trap _ _ _ _ _ R R') as [_ Mc]. unfold sync_mcause in Mc. rewrite Dt in Mc. rewrite Ey. exact Mc.
Qed.

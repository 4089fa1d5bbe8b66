(** * C71: the CSR declarations and cover statements of tests/formal/checks.cfg

    checks.cfg tells riscv-formal which bits of which CSRs always read as zero or as a constant,
    which CSRs keep what is written to them, which CSR numbers must trap, and which situations must
    be reachable.  riscv-formal checks the first kinds up to 20 cycles after reset; here they are
    stated for every report of every run. *)
From Coq Require Import ZArith Lia Bool List.
From Verif Require Import Bits Ucode Cpu Isa Timed BitLemmas Wf Sym Blocks CsrBlocks DecodeOk Boundary Sim Main Obs PropsBus PropsInv Observe PropsIsa PropsFrame SocMem Examples Rvfi RvfiTrace RvfiProps RvfiRd RvfiCsr RvfiMip RvfiTop RvfiEx.
Import ListNotations.
Open Scope Z_scope.

(** ** The declarations *)
(** tests/formal/checks.cfg:40-41,43-44, lines with [zero_mask]: mip, mie, mtvec, mepc *)
Definition zero_masks : list (Z * Z) := [(0x344, 0xF7FF); (0x304, 0xF7FF); (0x305, 3); (0x341, 3)].
(** tests/formal/checks.cfg:42: mstatus is 0x1800 ... *)
Definition mstatus_const : Z := 0x1800.
(** ... in the bits of this mask, all but bit 3 (tests/formal/checks.cfg:42).  riscv-formal itself is not in
    the repository; a mask is read here as the set of bits checked, as its name [zero_mask] says. *)
Definition mstatus_mask : Z := 0xFFFFFFF7.
(** tests/formal/checks.cfg:46-61, lines with [zero]: mvendorid, marchid, mimpid, mhartid, mconfigptr, misa, mstatush,
    mcountinhibit, mtval, mcycle, minstret, mhpmcounter3, mhpmevent3 *)
Definition zero_csrs : list Z := [0xF11; 0xF12; 0xF13; 0xF14; 0xF15; 0x301; 0x310; 0x320; 0x343; 0xB00; 0xB02; 0xB03; 0x323].
(** tests/formal/checks.cfg:63-76, [illegal_csrs] *)
Definition illegal_csrs : list Z := [0xEFF; 0x302; 0x303; 0x306; 0x34A; 0x34B; 0x30A; 0x31A].

(** ** Theorems *)
Lemma low2 z : z mod 4 = 0 -> Z.land z 3 = 0.
Proof. intros H. change 3 with (Z.ones 2). rewrite Z.land_ones by lia. exact H. Qed.

(** C71, [zero_mask]: the bits are zero in every report from power-on ... *)
Theorem C71_zero_masks : forall inp v, bus_ok por inp -> rvfi_fresh v ->
  forall t t' w x y, executed por inp t t' w x y -> forall n mask, In (n, mask) zero_masks ->
  Z.land (v_csr_rdata (vrun v por inp t') (csr_enc n)) mask = 0.
Proof.
  intros inp v B V t t' w x y E n mask I.
  assert (X : x = run por inp (S t)) by apply E.
  pose proof (C34_reserved_bits inp (env_word _ (ok_env _ _ B)) (S t)) as R. cbv zeta in R. rewrite <- X in R. destruct R as (R1 & R2 & _).
  pose proof (C55_csr_rdata por inp v B V t t' w x y E) as C.
  cbn [zero_masks In] in I. destruct I as [I|[I|[I|[I|[]]]]]; injection I as <- <-.
  - pose proof (C55_mip por inp v B V t t' w x y E) as M. cbv zeta in M. destruct M as [M1 M2]. change (csr_enc 0x344) with 12.
    assert (L : forall u, Z.land (if irq (inp u) then 0x800 else 0) 0xF7FF = 0) by (intros u; destruct (irq (inp u)); reflexivity).
    assert (D : (traps por inp t w x \/ (forall f rd g, decode w = Some (Csr f rd g 0x344) -> csr_writes f g = false)) \/
                exists f rd g, ~ traps por inp t w x /\ decode w = Some (Csr f rd g 0x344) /\ csr_writes f g = true).
    { destruct (taken_dec por inp t w) as [T|T]; [left; left; left; exact T|]. destruct (sync_cause_dec x w) as [[c Cc]|Nc]; [left; left; right; eauto|].
      assert (NT : ~ traps por inp t w x) by (intros [Q|[c Q]]; [congruence|exact (Nc c Q)]). clear T Nc. rename NT into T.
      destruct (decode w) as [[]|] eqn:Dw; try (left; right; intros; discriminate).
      match goal with H : decode w = Some (Csr ?f ?rd ?g ?n) |- _ => rename f into f0, g into g0, n into n0 end.
      destruct (Z.eq_dec n0 0x344) as [->|N]; [|left; right; intros f' rd' g' Q; injection Q as _ _ _ Q; lia].
      destruct (csr_writes f0 g0) eqn:Wr; [right; eauto 6|]. left; right. intros f' rd' g' Q. congruence. }
    destruct D as [D|(f & rd & g & T & Dw & Wr)]; [rewrite (M2 D)|rewrite (M1 f rd g T Dw Wr)]; apply L.
  - rewrite C by (cbn; auto). cbn [csr_of]. destruct (meie_of x); reflexivity.
  - rewrite C by (cbn; auto). apply low2. exact R1.
  - rewrite C by (cbn; auto 6). apply low2. exact R2.
Qed.

(** ... and zero in [rd] of every CSR instruction that reads them. *)
Theorem C71_zero_masks_read : forall inp, bus_ok por inp -> forall t t' w x y, executed por inp t t' w x y -> int_taken por inp t w = false ->
  forall f rd g n mask, decode w = Some (Csr f rd g n) -> In (n, mask) zero_masks ->
  exists val, writes_rd x y rd val /\ Z.land val mask = 0.
Proof.
  intros inp B t t' w x y E T f rd g n mask D I.
  assert (X : x = run por inp (S t)) by apply E.
  pose proof (C34_reserved_bits inp (env_word _ (ok_env _ _ B)) (S t)) as R. cbv zeta in R. rewrite <- X in R. destruct R as (R1 & R2 & _).
  assert (Im : In n implemented).
  { cbn [zero_masks In] in I. destruct I as [I|[I|[I|[I|[]]]]]; injection I as <- _; unfold implemented; cbn [In]; tauto. }
  pose proof (C19_csr_read_modify_write por inp (bus_ok_ok _ _ B) t t' w x y E T f rd g n D Im) as C. cbv zeta in C. destruct C as (_ & W & _).
  eexists. split; [exact W|].
  cbn [zero_masks In] in I. destruct I as [I|[I|[I|[I|[]]]]]; injection I as <- <-; cbn [csr_of].
  - destruct (irq _); reflexivity.
  - destruct (meie_of x); reflexivity.
  - apply low2. exact R1.
  - apply low2. exact R2.
Qed.

(** ** A run for the examples: li x1, 0xFEEDCAFE; csrw mscratch, x1; li x2, -2048; csrw mie, x2;
    li x3, 0x80; csrw mstatus, x3; csrr x5, mstatus; csrsi mstatus, 8; nop; with the interrupt line
    always high. *)
Definition prog1 : list Z := [0xFEEDD0B7; 0xAFE08093; 0x34009073; 0x80000113; 0x30411073; 0x08000193; 0x30019073; 0x300022F3; 0x30046073; 0x13].
Definition mem1 : wbmem := {| wm_mem := fun a => nth (Z.to_nat a) prog1 0; wm_rdata := 0; wm_ack := false |}.
Definition irq1 (t : nat) : bool := true.
Definition inp1 : nat -> input := sys_inp 8 irq1 por mem1.
Lemma mem1_start : mem_start mem1.
Proof.
  constructor; [|cbn; unfold word; lia|reflexivity]. intros a. cbn [mem1 wm_mem].
  assert (F : forallb (fun w => (0 <=? w) && (w <? 2 ^ 32)) prog1 = true) by (vm_compute; reflexivity).
  rewrite forallb_forall in F. destruct (nth_in_or_default (Z.to_nat a) prog1 0) as [I|E].
  - specialize (F _ I). apply andb_prop in F. destruct F as [F1 F2]. apply Z.leb_le in F1. apply Z.ltb_lt in F2. unfold word. lia.
  - rewrite E. unfold word. lia.
Qed.
Lemma inp1_ok : bus_ok por inp1.
Proof. apply sys_bus_ok; [apply por_fresh|apply mem1_start]. Qed.
Lemma report1 t : vrun v0 por inp1 t = snd (vsys 8 irq1 por mem1 v0 t).
Proof. apply vsys_run. Qed.
Definition log1 : list (nat * Z) := Eval vm_compute in trace 8 irq1 150 0 (por, mem1).
Lemma log1_ok : trace 8 irq1 150 0 (por, mem1) = log1.
Proof. vm_compute. reflexivity. Qed.
Lemma runs1 t t' w : adjacent log1 t t' w = true -> executed por inp1 t t' w (run por inp1 (S t)) (run por inp1 (S t')).
Proof.
  intros H. destruct (adjacent_split _ _ _ _ H) as (l1 & w' & l2 & E). split; [|split; reflexivity].
  rewrite <- log1_ok in E. apply (trace_executes 8 irq1 por mem1 150 l1 t w t' w' l2 E).
Qed.

(** C71, [const]: false as declared, because MPIE (bit 7) can be set: csrr x5, mstatus in the run
    above reads 0x1880, and so does its report. *)
Theorem C71_mstatus_const_refuted : exists inp v t t' w x y, bus_ok por inp /\ rvfi_fresh v /\ executed por inp t t' w x y /\
  decode w = Some (Csr CSRRS 5 (CReg 0) 0x300) /\ int_taken por inp t w = false /\
  x_of y 5 = 0x1880 /\ v_csr_rdata (vrun v por inp t') (csr_enc 0x300) = 0x1880 /\
  Z.land 0x1880 mstatus_mask <> Z.land mstatus_const mstatus_mask.
Proof.
  exists inp1, v0, 40%nat, 47%nat, 0x300022F3, (run por inp1 41), (run por inp1 48).
  split; [exact inp1_ok|]. split; [exact rvfi_fresh_applies|]. split; [apply runs1; reflexivity|]. split; [reflexivity|].
  split; [unfold int_taken, inp1; rewrite sys_run; vm_compute; reflexivity|].
  split; [unfold inp1; rewrite sys_run; vm_compute; reflexivity|]. split; [rewrite report1; vm_compute; reflexivity|]. vm_compute. discriminate.
Qed.
Lemma mstatus_bits x : Z.land (csr_of x false 0x300) 0xFFFFFF77 = Z.land mstatus_const 0xFFFFFF77.
Proof. cbn [csr_of]. destruct (mpie_of x), (mie_of x); reflexivity. Qed.
(** With bit 7 left out as well it holds in every report ... *)
Theorem C71_mstatus_const_partial : forall s inp v, bus_ok s inp -> rvfi_fresh v ->
  forall t t' w x y, executed s inp t t' w x y ->
  Z.land (v_csr_rdata (vrun v s inp t') (csr_enc 0x300)) 0xFFFFFF77 = Z.land mstatus_const 0xFFFFFF77.
Proof.
  intros s inp v B V t t' w x y E. change (csr_enc 0x300) with 0.
  destruct (taken_dec s inp t w) as [T|T]; [rewrite (proj1 (C55_mstatus_trap s inp v B V t t' w x y E (or_introl T))); apply mstatus_bits|].
  destruct (sync_cause_dec x w) as [C|C]; [rewrite (proj1 (C55_mstatus_trap s inp v B V t t' w x y E (or_intror C))); apply mstatus_bits|].
  assert (N : ~ traps s inp t w x) by (intros [Q|[c Q]]; [congruence|exact (C c Q)]).
  destruct (Z.eq_dec w 0x30200073) as [M|M].
  - rewrite (proj1 (C55_mstatus_mret s inp v B V t t' w x y E N M)). destruct (o_cyc _); apply mstatus_bits.
  - rewrite (proj1 (C55_mstatus_partial s inp v B V t t' w x y E N M)). apply mstatus_bits.
Qed.
(** ... and for everything software reads from MSTATUS. *)
Theorem C71_mstatus_const_read_partial : forall s inp, bus_ok s inp -> forall t t' w x y, executed s inp t t' w x y -> int_taken s inp t w = false ->
  forall f rd g, decode w = Some (Csr f rd g 0x300) -> exists val, writes_rd x y rd val /\ Z.land val 0xFFFFFF77 = Z.land mstatus_const 0xFFFFFF77.
Proof.
  intros s inp B t t' w x y E T f rd g D.
  pose proof (C19_csr_read_modify_write s inp (bus_ok_ok _ _ B) t t' w x y E T f rd g 0x300 D ltac:(unfold implemented; cbn [In]; tauto)) as C.
  cbv zeta in C. destruct C as (_ & W & _). eexists. split; [exact W|]. apply (mstatus_bits x).
Qed.

(** C71, [zero]: these CSRs read as zero. *)
Theorem C71_zero : forall s inp, ok s inp -> forall t t' w x y, executed s inp t t' w x y -> ~ traps s inp t w x ->
  forall f rd g n, decode w = Some (Csr f rd g n) -> In n zero_csrs -> writes_rd x y rd 0.
Proof.
  intros s inp K t t' w x y E N f rd g n D I.
  assert (T : int_taken s inp t w = false) by (destruct (taken_dec s inp t w) as [T|T]; [exfalso; apply N; left; exact T|exact T]).
  assert (Z0 : ro_zero n = true) by (cbn [zero_csrs In] in I; repeat (destruct I as [<-|I]; [reflexivity|]); destruct I).
  assert (L : csr_legal f g n).
  { destruct (sync_cause_dec x w) as [[c C]|C]; [exfalso; apply N; right; eauto|].
    specialize (C 2). unfold sync_cause in C. rewrite D in C.
    assert (Dl : csr_legal f g n \/ ~ csr_legal f g n).
    { unfold csr_legal. destruct (csr_writes f g); destruct (Z.eq_dec (n / 1024) 3); assert (csr_exists n) by (right; exact Z0); intuition congruence. }
    destruct Dl as [L|L]; [exact L|tauto]. }
  apply (C20_read_only_zero s inp K t t' w x y E T f rd g n D Z0 L).
Qed.

(** C71, [any]: MSCRATCH keeps what is written: the value an instruction's report gives as written is
    the one the next report gives as read, and CSRRW writes its operand. *)
Theorem C71_mscratch_any : forall s inp v, bus_ok s inp -> rvfi_fresh v -> (forall n, In n [0x305; 0x340; 0x341; 0x342] -> csr_of s false n = 0) ->
  forall t t' t'' w w' x y z, executed s inp t t' w x y -> executed s inp t' t'' w' y z ->
  v_csr_rdata (vrun v s inp t'') (csr_enc 0x340) = v_csr_wdata (vrun v s inp t') (csr_enc 0x340) /\
  (forall rd g, decode w = Some (Csr CSRRW rd g 0x340) -> int_taken s inp t w = false -> v_csr_wdata (vrun v s inp t') (csr_enc 0x340) = operand x g).
Proof.
  intros s inp v B V Z0 t t' t'' w w' x y z E E'.
  pose proof (C55_csr_rdata s inp v B V t' t'' w' y z E' 0x340 ltac:(cbn; auto)) as R.
  pose proof (C55_csr_wdata s inp v B V Z0 t t' w x y E 0x340 ltac:(cbn; auto)) as Q.
  assert (W : warl 0x340 (v_csr_wdata (vrun v s inp t') (csr_enc 0x340)) = v_csr_wdata (vrun v s inp t') (csr_enc 0x340)) by reflexivity.
  split; [congruence|]. intros rd g D T.
  pose proof (C19_csr_read_modify_write s inp (bus_ok_ok _ _ B) t t' w x y E T CSRRW rd g 0x340 D ltac:(unfold implemented; cbn [In]; tauto)) as C.
  cbv zeta in C. destruct C as (_ & _ & _ & _ & C & _). specialize (C ltac:(discriminate) eq_refl false).
  assert (W' : warl 0x340 (operand x g) = operand x g) by reflexivity. congruence.
Qed.

(** C71, [illegal_csrs]: reads and writes of these CSRs trap, with cause 2, and are reported as trapping. *)
Theorem C71_illegal_csrs : forall s inp v, bus_ok s inp -> rvfi_fresh v ->
  forall t t' w x y, executed s inp t t' w x y -> int_taken s inp t w = false ->
  forall f rd g n, decode w = Some (Csr f rd g n) -> In n illegal_csrs ->
  exception_entry s inp t 2 x y /\ v_trap (vrun v s inp t') = true.
Proof.
  intros s inp v B V t t' w x y E T f rd g n D I.
  assert (L : ~ csr_legal f g n).
  { intros [L _]. apply known_exists in L. cbn [illegal_csrs In] in I. repeat (destruct I as [<-|I]; [discriminate L|]). destruct I. }
  split; [apply (C18_csr_access s inp (bus_ok_ok _ _ B) t t' w x y E T f rd g n D); exact L|].
  apply (C53_trap s inp v (bus_ok_ok _ _ B) V t t' w x y E). right. exists 2. unfold sync_cause. rewrite D. tauto.
Qed.

(** C71, [cover]: each of the situations asked for is reachable. *)
Theorem C71_covers :
  (exists inp t, bus_ok por inp /\ valid_at v0 por inp t = true /\ v_order (vrun v0 por inp t) = 5) /\
  (exists inp t, bus_ok por inp /\ valid_at v0 por inp t = true /\ v_csr_rdata (vrun v0 por inp t) (csr_enc 0x340) = 0xFEEDCAFE) /\
  (exists inp t, bus_ok por inp /\ valid_at v0 por inp t = true /\ let r := vrun v0 por inp t in
     v_csr_wdata r (csr_enc 0x342) = 0x8000000B /\ Z.testbit (v_csr_rdata r (csr_enc 0x300)) 7 = true /\
     Z.testbit (v_csr_rdata r (csr_enc 0x344)) 11 = true /\ Z.testbit (v_csr_rdata r (csr_enc 0x304)) 11 = true /\ v_trap r = true) /\
  (* ... and, with TRAP_TRACE, a report that follows a trap *)
  (exists inp t t', bus_ok por inp /\ valid_at v0 por inp t = true /\ v_trap (vrun v0 por inp t) = true /\ valid_at v0 por inp t' = true /\
     v_order (vrun v0 por inp t') = v_order (vrun v0 por inp t) + 1).
Proof.
  assert (Va : forall t t' w, adjacent log1 t t' w = true -> valid_at v0 por inp1 t' = true).
  { intros t t' w A. apply (C50_reports_each_instruction_once _ _ _ (bus_ok_ok _ _ inp1_ok) rvfi_fresh_applies). exists t, w. apply (runs1 t t' w A). }
  split; [|split; [|split]].
  - exists inp1, 34%nat. split; [exact inp1_ok|]. split; [apply (Va 30%nat 34%nat 0x08000193); reflexivity|]. rewrite report1. vm_compute. reflexivity.
  - exists inp1, 24%nat. split; [exact inp1_ok|]. split; [apply (Va 20%nat 24%nat 0x80000113); reflexivity|]. rewrite report1. vm_compute. reflexivity.
  - exists inp1, 63%nat. split; [exact inp1_ok|]. split; [apply (Va 56%nat 63%nat 0x13); reflexivity|]. cbv zeta. rewrite report1. vm_compute. repeat split.
  - exists inp1, 63%nat, 67%nat. split; [exact inp1_ok|]. split; [apply (Va 56%nat 63%nat 0x13); reflexivity|]. split; [rewrite report1; vm_compute; reflexivity|].
    split; [apply (Va 63%nat 67%nat 0xFEEDD0B7); reflexivity|]. rewrite !report1. vm_compute. reflexivity.
Qed.

(** ** The hypotheses are met *)
(** csrr x10, 0xEFF, for ever. *)
Definition mem2 : wbmem := {| wm_mem := fun _ => 0xEFF02573; wm_rdata := 0; wm_ack := false |}.
Definition inp2 : nat -> input := sys_inp 8 (fun _ => false) por mem2.
Example C71_applies :
  (exists t t' w x y, executed por inp1 t t' w x y /\ decode w = Some (Csr CSRRW 0 (CReg 2) 0x304) /\ In (0x304, 0xF7FF) zero_masks /\
     int_taken por inp1 t w = false /\ csr_of y false 0x304 = 0x800) /\
  (exists t t' w x y, executed por in0 t t' w x y /\ ~ traps por in0 t w x /\ decode w = Some (Csr CSRRS 16 (CReg 0) 0xF11) /\ In 0xF11 zero_csrs) /\
  (exists t t' t'' w w' x y z, executed por inp1 t t' w x y /\ executed por inp1 t' t'' w' y z /\ decode w = Some (Csr CSRRW 0 (CReg 1) 0x340) /\
     int_taken por inp1 t w = false /\ operand x (CReg 1) = 0xFEEDCAFE) /\
  (bus_ok por inp2 /\ exists t t' w x y, executed por inp2 t t' w x y /\ int_taken por inp2 t w = false /\ decode w = Some (Csr CSRRS 10 (CReg 0) 0xEFF) /\ In 0xEFF illegal_csrs).
Proof.
  split; [|split; [|split]].
  - exists 24%nat, 30%nat, 0x30411073, (run por inp1 25), (run por inp1 31). split; [apply runs1; reflexivity|]. split; [reflexivity|]. split; [cbn; auto|].
    split; [unfold int_taken|]; unfold inp1; rewrite sys_run; vm_compute; reflexivity.
  - exists 149%nat, 155%nat, 0xf1102873, (run por in0 150), (run por in0 156). split; [apply runs; reflexivity|].
    split; [|split; [reflexivity|cbn; auto]].
    intros [T|[c [L _]]]; [rewrite quiet_irq in T by reflexivity; discriminate|].
    apply L. split; [apply known_exists; reflexivity|]. intros [Q _]. discriminate Q.
  - exists 14%nat, 20%nat, 24%nat, 0x34009073, 0x80000113, (run por inp1 15), (run por inp1 21), (run por inp1 25).
    split; [apply runs1; reflexivity|]. split; [apply runs1; reflexivity|]. split; [reflexivity|].
    split; [unfold int_taken|cbn [operand]]; unfold inp1; rewrite sys_run; vm_compute; reflexivity.
  - split; [apply sys_bus_ok; [apply por_fresh|constructor; [intros a|..]; try reflexivity; cbn; unfold word; lia]|].
    exists 6%nat, 14%nat, 0xEFF02573, (run por inp2 7), (run por inp2 15).
    split; [split; [|split; reflexivity]; apply (trace_executes 8 (fun _ => false) por mem2 20 [] 6 0xEFF02573 14 0xEFF02573 []); vm_compute; reflexivity|].
    split; [unfold int_taken, inp2; rewrite sys_run; vm_compute; reflexivity|]. split; [reflexivity|cbn; auto].
Qed.

(** * Power-up contents that a program never looks at do not matter

    At power-up, and after a reset, x1-x31, MTVEC, MSCRATCH, MEPC and MSTATUS.MPIE hold anything
    (datapath.py:382-397: the register file, which also holds the CSRs, is a RAM that reset does not touch).  Two runs of
    the core are compared.  Nothing in /repo is modelled here beyond Cpu.v; the definitions say which
    registers a program has given a value, and what it means to use a register. *)
From Coq Require Import ZArith Lia Bool List.
From Verif Require Import Bits Ucode Cpu Isa Timed BitLemmas Wf Sym Blocks CsrBlocks DecodeOk Boundary Sim Main Obs PropsBus PropsInv Observe PropsIsa PropsFrame Memory Leak.
Import ListNotations.
Open Scope Z_scope.

(** ** Which registers the program has given a value *)
(** What reset leaves undefined.  (PC, MSTATUS.MIE and MIE.MEIE are set by a reset.) *)
Inductive place := G (r : Z) | Mtvec | Mscratch | Mepc | Mcause | Mpie.
Definition place_eqb (p q : place) : bool :=
  match p, q with
  | G r, G r' => r =? r'
  | Mtvec, Mtvec | Mscratch, Mscratch | Mepc, Mepc | Mcause, Mcause | Mpie, Mpie => true
  | _, _ => false
  end.
(** The contents of a place in a core. *)
Definition at_place (s : state) (p : place) : Z :=
  match p with
  | G r => x_of s r | Mtvec => mtvec_of s | Mscratch => mscratch_of s | Mepc => mepc_of s | Mcause => mcause_of s
  | Mpie => bz (mpie_of s)
  end.

(** A set of places that have been given a value; x0 always has one. *)
Definition defs := place -> bool.
Definition has (k : defs) (p : place) : bool := match p with G 0 => true | _ => k p end.
Definition define (k : defs) (p : place) (b : bool) : defs := fun q => if place_eqb q p then b else k q.
(** Reset defines MCAUSE only. *)
Definition at_reset : defs := fun p => match p with Mcause => true | _ => false end.

(** The place behind a CSR number, if it has one. *)
Definition csr_place (n : Z) : option place :=
  match n with 0x300 => Some Mpie | 0x305 => Some Mtvec | 0x340 => Some Mscratch | 0x341 => Some Mepc | 0x342 => Some Mcause | _ => None end.
Definition csr_has (k : defs) (n : Z) : bool := match csr_place n with Some p => has k p | None => true end.
Definition arg_has (k : defs) (g : csr_arg) : bool := match g with CReg r => has k (G r) | CImm _ => true end.

(** An instruction that completes defines what it computes from defined places, and undefines what it
    computes from undefined ones. *)
Definition after (i : instr) (k : defs) : defs :=
  match i with
  | Lui rd _ | Auipc rd _ | Jal rd _ | Jalr rd _ _ | Load _ _ rd _ _ => define k (G rd) true
  | OpImm _ rd rs1 _ => define k (G rd) (has k (G rs1))
  | OpReg _ rd rs1 rs2 => define k (G rd) (has k (G rs1) && has k (G rs2))
  | Mret => define k Mpie true
  | Csr f rd g n =>
      let k1 := match csr_place n with
                | Some p => if csr_writes f g
                            then define k p (arg_has k g && match f with CSRRW => true | _ => csr_has k n end) else k
                | None => k
                end in
      define k1 (G rd) (csr_has k n)
  | _ => k
  end.
(** A trap defines MEPC, MCAUSE and MSTATUS.MPIE. *)
Definition trapped (k : defs) : defs := define (define (define k Mepc true) Mcause true) Mpie true.

(** The instruction [w] in the core [x] raises an exception. *)
Definition raises (x : state) (w : Z) : bool :=
  match decode w with
  | None | Some Ecall | Some Ebreak => true
  | Some (Jal _ off) => negb (((pc_of x + off) mod 2 ^ 32) mod 4 =? 0)
  | Some (Jalr _ rs1 off) => negb ((2 * (((x_of x rs1 + off) mod 2 ^ 32) / 2)) mod 4 =? 0)
  | Some (Branch f rs1 rs2 off) => cmp f (x_of x rs1) (x_of x rs2) && negb (((pc_of x + off) mod 2 ^ 32) mod 4 =? 0)
  | Some (Load sz _ _ rs1 off) | Some (Store sz rs1 _ off) => negb (((x_of x rs1 + off) mod 2 ^ 32) mod bytes sz =? 0)
  | Some (Csr f _ g n) => negb (known n) || csr_writes f g && csr_read_only n
  | _ => false
  end.
(** It is the exception condition of C21. *)
Lemma raises_iff x w : raises x w = true <-> exists c, sync_cause x w c.
Proof.
  unfold raises, sync_cause. destruct (decode w) as [i|]; [|split; [intros _; eexists; reflexivity|reflexivity]].
  destruct i; try (split; [discriminate|intros [? []]]); try (split; [intros _; eexists; reflexivity|reflexivity]).
  1-5: rewrite ?andb_true_iff, ?negb_true_iff, ?Z.eqb_neq; split; [intros H; eexists; intuition eauto|intros [c0 H]; tauto].
  unfold csr_legal. rewrite orb_true_iff, andb_true_iff, negb_true_iff. unfold csr_read_only.
  pose proof (known_exists csr) as Ke. destruct (known csr) eqn:Kn.
  - assert (csr / 2 ^ 10 = 3 <-> (fld csr 10 2 =? 3) = true) as Q.
    { assert (0 <= csr < 2 ^ 12) as R by (apply known_exists in Kn; destruct Kn as [I|I];
        [unfold implemented in I; cbn [In] in I; lia|unfold ro_zero, in_range in I; lia]).
      unfold fld. rewrite Z.eqb_eq. rewrite (Z.mod_small (csr / 2 ^ 10)). 2: { split; [apply Z.div_pos; lia|apply Z.div_lt_upper_bound; lia]. }
      tauto. }
    split; [intros [|[H1 H2]]; [discriminate|]; exists 2; split; [|reflexivity]; tauto|].
    intros [c (H & _)]. right. destruct (csr_writes f arg) eqn:Cw; [|exfalso; apply H; split; [tauto|intros [? _]; discriminate]].
    split; [reflexivity|]. destruct (fld csr 10 2 =? 3) eqn:Q1; [reflexivity|]. exfalso. apply H. split; [tauto|]. intros [_ X]. apply Q in X. discriminate.
  - split; [intros _; exists 2; split; [|reflexivity]; intros [X _]; apply Ke in X; discriminate|]. auto.
Qed.

(** What the word [w], fetched in cycle [t], does to the set: an interrupt may be taken instead of it,
    or it traps, or it completes. *)
Definition learn (s : state) (inp : nat -> input) (t : nat) (w : Z) (k : defs) : defs :=
  if int_taken s inp t w || raises (run s inp (S t)) w then trapped k
  else match decode w with Some i => after i k | None => k end.
(** The places defined by the instructions fetched before cycle [t]. *)
Fixpoint defined (s : state) (inp : nat -> input) (t : nat) : defs :=
  match t with
  | O => at_reset
  | S n => if o_cyc (run s inp n) && u_fetch (s_u (run s inp n)) && ack (inp n)
           then learn s inp n (dat_r (inp n)) (defined s inp n) else defined s inp n
  end.

(** ** Using a register *)
(** Copying a register, or computing with it, is not a use.  It is used by what can be seen on the bus:
    the address of a jump, load or store, the operands of a branch, the amount of a register shift,
    the data of a store, the return address and MPIE of an MRET, and a value that decides whether
    interrupts are enabled. *)
Definition uses (i : instr) : list place :=
  match i with
  | Jalr _ rs1 _ | Load _ _ _ rs1 _ => [G rs1]
  | Branch _ rs1 rs2 _ | Store _ rs1 rs2 _ => [G rs1; G rs2]
  | OpReg f _ _ rs2 => if is_shift f then [G rs2] else []
  | Mret => [Mepc; Mpie]
  | Csr f _ (CReg r) n => if csr_writes f (CReg r) && ((n =? 0x300) || (n =? 0x304)) then [G r] else []
  | _ => []
  end.
(** A trap uses MTVEC. *)
Definition needs (s : state) (inp : nat -> input) (t : nat) (w : Z) : list place :=
  if int_taken s inp t w then [Mtvec]
  else match decode w with Some i => uses i | None => [] end ++ (if raises (run s inp (S t)) w then [Mtvec] else []).
(** Up to cycle [n] nothing is used that the program has not defined. *)
Definition careful (s : state) (inp : nat -> input) (n : nat) : Prop :=
  forall t w, (t < n)%nat -> fetch_done s inp t w -> forall p, In p (needs s inp t w) -> has (defined s inp t) p = true.

(** ** Proof *)
Record aeqk (k : defs) (a b : arch) : Prop := {
  kq_x : forall r, 0 <= r < 32 -> has k (G r) = true -> rd_x b r = rd_x a r;
  kq_pc : pc b = pc a; kq_mie : mie b = mie a; kq_meie : meie b = meie a; kq_int : took_int b = took_int a;
  kq_mpie : k Mpie = true -> mpie b = mpie a; kq_mtvec : k Mtvec = true -> mtvec b = mtvec a;
  kq_mscratch : k Mscratch = true -> mscratch b = mscratch a; kq_mepc : k Mepc = true -> mepc b = mepc a;
  kq_mcause : k Mcause = true -> mcause b = mcause a }.
Definition meqk (k : defs) (m1 m2 : mach) : Prop :=
  match m1, m2 with
  | Fetching a, Fetching b => aeqk k a b
  | Accessing r f, Accessing r' f' => r' = r /\ forall d d', (q_we r = false -> d' = d) -> aeqk k (f d) (f' d')
  | _, _ => False
  end.

Lemma k_reg k a b r : aeqk k a b -> 0 <= r < 32 -> has k (G r) = true -> rd_x b r = rd_x a r.
Proof. intros E. apply (kq_x _ _ _ E). Qed.
Lemma has_define k r p b : r <> 0 -> has (define k p b) (G r) = if place_eqb (G r) p then b else has k (G r).
Proof. intros H. unfold has, define. destruct r; [congruence|reflexivity|reflexivity]. Qed.
Lemma k_wr k a b rd v v' c : aeqk k a b -> (c = true -> v' = v) -> aeqk (define k (G rd) c) (wr_x a rd v) (wr_x b rd v').
Proof.
  intros E V. unfold wr_x. destruct (Z.eqb_spec rd 0) as [->|N].
  - destruct E. constructor; try assumption. intros r R H. destruct (Z.eq_dec r 0) as [->|Nr]; [reflexivity|].
    apply kq_x0; [exact R|]. rewrite has_define in H by assumption. cbn [place_eqb] in H. destruct (Z.eqb_spec r 0); [contradiction|exact H].
  - destruct E. constructor; cbn [set_x pc mie mpie meie mtvec mscratch mepc mcause took_int]; try assumption.
    intros r R H. unfold rd_x in *. cbn [set_x xr]. destruct (Z.eqb_spec r 0) as [->|Nr]; [reflexivity|].
    rewrite has_define in H by assumption. cbn [place_eqb] in H. destruct (r =? rd) eqn:Er; [apply V; exact H|].
    pose proof (kq_x0 r R H) as X. destruct (Z.eqb_spec r 0); [contradiction|exact X].
Qed.
Lemma k_pc k a b p : aeqk k a b -> aeqk k (set_pc a p) (set_pc b p).
Proof. intros []. constructor; cbn [set_pc pc mie mpie meie mtvec mscratch mepc mcause took_int]; try assumption; try reflexivity. Qed.
Lemma k_adv k a b : aeqk k a b -> aeqk k (advance a) (advance b).
Proof. intros E. unfold advance, next_pc. rewrite (kq_pc _ _ _ E). apply k_pc. exact E. Qed.
Lemma k_trap k a b c i : aeqk k a b -> k Mtvec = true -> aeqk (trapped k) (trap_to a c i) (trap_to b c i).
Proof.
  intros [] T. constructor; cbn [trap_to pc mie mpie meie mtvec mscratch mepc mcause took_int]; try assumption; try (intros; congruence).
  rewrite kq_mtvec0 by exact T. reflexivity.
Qed.
Lemma k_exc k v a b c : aeqk k a b -> k Mtvec = true -> aeqk (trapped k) (exception v a c) (exception v b c).
Proof.
  intros E T. unfold exception. replace (sync_mcause v b c) with (sync_mcause v a c); [apply k_trap; assumption|].
  unfold sync_mcause. rewrite (kq_int _ _ _ E). reflexivity.
Qed.
Lemma k_jump k k' v a b p x y : (p mod 4 =? 0 = false -> aeqk k a b /\ k Mtvec = true) -> (p mod 4 =? 0 = true -> aeqk k' x y) ->
  aeqk (if negb (p mod 4 =? 0) then trapped k else k') (jump v a p x) (jump v b p y).
Proof.
  intros E F. unfold jump. destruct (p mod 4 =? 0); cbn [negb].
  - apply k_pc, F. reflexivity.
  - destruct (E eq_refl). apply k_exc; assumption.
Qed.
Lemma k_weaken k k' a b : aeqk k a b -> (forall p, k' p = true -> k p = true) -> aeqk k' a b.
Proof.
  intros [] H. constructor; try assumption; try (intros; match goal with X : _ |- _ => apply X, H; assumption end).
  intros r R D. apply kq_x0; [exact R|]. unfold has in *. destruct r; auto.
Qed.

(** Reading and writing CSRs. *)
Lemma k_read k a b ip n : aeqk k a b -> csr_has k n = true -> csr_read b ip n = csr_read a ip n.
Proof.
  intros [] H. unfold csr_has, csr_place, has in H. unfold csr_read.
  repeat match goal with |- context[match ?x with _ => _ end] => is_var x; destruct x; cbv iota in H end;
    try reflexivity; rewrite ?kq_mie0, ?kq_meie0; try (rewrite kq_mpie0 by exact H; reflexivity);
    try (rewrite kq_mtvec0 by exact H; reflexivity); try (rewrite kq_mscratch0 by exact H; reflexivity);
    try (rewrite kq_mepc0 by exact H; reflexivity); try (rewrite kq_mcause0 by exact H; reflexivity); reflexivity.
Qed.
Lemma mst3 p m : Z.testbit (3 * 2 ^ 11 + bz p * 2 ^ 7 + bz m * 2 ^ 3) 3 = m.
Proof. destruct p, m; reflexivity. Qed.
Lemma meie11 m : Z.testbit (bz m * 2 ^ 11) 11 = m.
Proof. destruct m; reflexivity. Qed.
Lemma new_bit f o v j : 0 <= j -> Z.testbit (csr_new f o v) j = match f with CSRRW => Z.testbit v j | CSRRS => Z.testbit o j || Z.testbit v j | CSRRC => Z.testbit o j && negb (Z.testbit v j) end.
Proof. intros H. destruct f; cbn [csr_new]; [reflexivity|apply Z.lor_spec|apply Z.ldiff_spec]. Qed.

Lemma some_inj (x y : Z) : Some x = Some y -> x = y.
Proof. congruence. Qed.
Lemma k_write k a b ip n f g o o' : aeqk k a b -> csr_read a ip n = Some o -> csr_read b ip n = Some o' ->
  (match g with CReg r => 0 <= r < 32 | _ => True end) ->
  (n = 0x300 \/ n = 0x304 -> arg_has k g = true) ->
  aeqk (match csr_place n with Some p => define k p (arg_has k g && match f with CSRRW => true | _ => csr_has k n end) | None => k end)
    (csr_write a n (csr_new f o (arg_value a g))) (csr_write b n (csr_new f o' (arg_value b g))).
Proof.
  intros E R1 R2 Gr Ha.
  assert (Va : arg_has k g = true -> arg_value b g = arg_value a g).
  { destruct g; cbn [arg_has arg_value]; [|reflexivity]. intros H. apply (k_reg _ _ _ _ E Gr H). }
  assert (New : arg_has k g && match f with CSRRW => true | _ => csr_has k n end = true ->
                csr_new f o' (arg_value b g) = csr_new f o (arg_value a g)).
  { intros H. apply andb_prop in H. destruct H as [H1 H2]. rewrite (Va H1). destruct f; [reflexivity| |];
      (rewrite (k_read _ _ _ _ _ E H2) in R2; congruence). }
  set (c := arg_has k g && _) in *.
  assert (Dx : forall p, match p with G _ => False | _ => True end -> forall r, has (define k p c) (G r) = has k (G r)).
  { intros p Hp r. unfold has, define. destruct r; [reflexivity| |]; destruct p; try contradiction; reflexivity. }
  destruct (Z.eq_dec n 0x300) as [->|N0].
  { cbn [csr_place csr_write]. change (Some (3 * 2 ^ 11 + bz (mpie a) * 2 ^ 7 + bz (mie a) * 2 ^ 3) = Some o) in R1. change (Some (3 * 2 ^ 11 + bz (mpie b) * 2 ^ 7 + bz (mie b) * 2 ^ 3) = Some o') in R2.
    apply some_inj in R1. apply some_inj in R2. rewrite <- R1, <- R2 in *. clear R1 R2. specialize (Ha (or_introl eq_refl)). rewrite (Va Ha) in *.
    destruct E. constructor; cbn [pc mie mpie meie mtvec mscratch mepc mcause took_int define place_eqb]; try assumption.
    all: first [solve [intros r R H; rewrite Dx in H by exact I; apply kq_x0; assumption] | solve [intros H; rewrite New by exact H; reflexivity] | idtac].
    rewrite !new_bit by lia. rewrite !mst3, kq_mie0. reflexivity.
    }
  destruct (Z.eq_dec n 0x304) as [->|N4].
  { cbn [csr_place csr_write]. change (Some (bz (meie a) * 2 ^ 11) = Some o) in R1. change (Some (bz (meie b) * 2 ^ 11) = Some o') in R2.
    apply some_inj in R1. apply some_inj in R2. rewrite <- R1, <- R2 in *. clear R1 R2. specialize (Ha (or_intror eq_refl)). rewrite (Va Ha) in *.
    destruct E. constructor; cbn [pc mie mpie meie mtvec mscratch mepc mcause took_int]; try assumption.
    rewrite !new_bit by lia. rewrite !meie11, kq_meie0. reflexivity. }
  clear Ha Va.
  destruct (Z.eq_dec n 0x305) as [->|N5].
  { cbn [csr_place csr_write]. destruct E. constructor; cbn [pc mie mpie meie mtvec mscratch mepc mcause took_int define place_eqb]; try assumption.
    all: first [solve [intros r R H; rewrite Dx in H by exact I; apply kq_x0; assumption] | solve [intros H; rewrite New by exact H; reflexivity] | idtac]. }
  destruct (Z.eq_dec n 0x340) as [->|N40].
  { cbn [csr_place csr_write]. destruct E. constructor; cbn [pc mie mpie meie mtvec mscratch mepc mcause took_int define place_eqb]; try assumption.
    all: first [solve [intros r R H; rewrite Dx in H by exact I; apply kq_x0; assumption] | solve [intros H; rewrite New by exact H; reflexivity] | idtac]. }
  destruct (Z.eq_dec n 0x341) as [->|N41].
  { cbn [csr_place csr_write]. destruct E. constructor; cbn [pc mie mpie meie mtvec mscratch mepc mcause took_int define place_eqb]; try assumption.
    all: first [solve [intros r R H; rewrite Dx in H by exact I; apply kq_x0; assumption] | solve [intros H; rewrite New by exact H; reflexivity] | idtac]. }
  destruct (Z.eq_dec n 0x342) as [->|N42].
  { cbn [csr_place csr_write]. destruct E. constructor; cbn [pc mie mpie meie mtvec mscratch mepc mcause took_int define place_eqb]; try assumption.
    all: first [solve [intros r R H; rewrite Dx in H by exact I; apply kq_x0; assumption] | solve [intros H; rewrite New by exact H; reflexivity] | idtac]. }
  assert (csr_place n = None /\ (forall a v, csr_write a n v = a)) as [-> W].
  { clear - N0 N4 N5 N40 N41 N42. unfold csr_place, csr_write.
    repeat match goal with |- context[match ?x with _ => _ end] => is_var x; destruct x end; try (split; [reflexivity|intros; reflexivity]); congruence. }
  rewrite !W. exact E.
Qed.

Lemma exec_keq k a b x ip w i : rel a x -> aeqk k a b -> decode w = Some i ->
  (forall p, In p (uses i) -> has k p = true) -> (raises x w = true -> k Mtvec = true) ->
  meqk (if raises x w then trapped k else after i k) (exec SENTINEL a ip i) (exec SENTINEL b ip i) /\ exec_delay b i = exec_delay a i.
Proof.
  intros R E D U T. pose proof (decode_regs w i D) as Gr.
  assert (Rx : forall r, 0 <= r < 32 -> x_of x r = rd_x a r) by (intros r Hr; symmetry; apply (r_x _ _ _ _ _ _ _ _ R); exact Hr).
  assert (Rp : pc_of x = pc a) by (symmetry; apply (r_pc _ _ _ _ _ _ _ _ R)).
  unfold raises in *. rewrite D in *.
  destruct i; cbn [exec exec_delay after uses] in *; cbv beta iota in *.
  - split; [|reflexivity]. apply k_adv, k_wr; [exact E|reflexivity].
  - rewrite (kq_pc _ _ _ E). split; [|reflexivity]. apply k_adv, k_wr; [exact E|reflexivity].
  - rewrite Rp in *. unfold next_pc. rewrite (kq_pc _ _ _ E). split; [|reflexivity]. cbn [meqk].
    apply k_jump; intros H; rewrite H in T; [split; [exact E|apply T; reflexivity]|]. apply k_wr; [exact E|reflexivity].
  - rewrite Rx in * by tauto. rewrite (k_reg _ _ _ _ E) by (try tauto; apply U; left; reflexivity).
    unfold next_pc. rewrite (kq_pc _ _ _ E). split; [|reflexivity]. cbn [meqk].
    apply k_jump; intros H; rewrite H in T; [split; [exact E|apply T; reflexivity]|]. apply k_wr; [exact E|reflexivity].
  - rewrite Rp in *. rewrite !Rx in * by tauto. rewrite !(k_reg _ _ _ _ E) by (try tauto; apply U; cbn [In]; tauto).
    rewrite (kq_pc _ _ _ E). split; [|reflexivity]. cbn [meqk]. destruct (cmp c _ _); cbn [andb] in *; [|apply k_adv; exact E].
    apply k_jump; intros H; rewrite H in T; [split; [exact E|apply T; reflexivity]|exact E].
  - rewrite Rx in * by tauto. rewrite (k_reg _ _ _ _ E) by (try tauto; apply U; left; reflexivity). split; [|reflexivity].
    unfold aligned in *. destruct (_ mod bytes sz =? 0); cbn [negb] in *; cbn [meqk]; [|apply k_exc; [exact E|apply T; reflexivity]].
    split; [reflexivity|]. intros d d' Hd. rewrite (Hd eq_refl). apply k_adv, k_wr; [exact E|reflexivity].
  - rewrite !Rx in * by tauto. rewrite !(k_reg _ _ _ _ E) by (try tauto; apply U; cbn [In]; tauto). split; [|reflexivity].
    unfold aligned in *. destruct (_ mod bytes sz =? 0); cbn [negb] in *; cbn [meqk]; [|apply k_exc; [exact E|apply T; reflexivity]].
    split; [reflexivity|]. intros d d' _. apply k_adv. exact E.
  - split; [|reflexivity]. apply k_adv, k_wr; [exact E|]. intros H. rewrite (k_reg _ _ _ _ E) by tauto. reflexivity.
  - split.
    + apply k_adv, k_wr; [exact E|]. intros H. apply andb_prop in H. rewrite !(k_reg _ _ _ _ E) by tauto. reflexivity.
    + destruct (is_shift f); [|reflexivity]. rewrite (k_reg _ _ _ _ E) by (try tauto; apply U; left; reflexivity). reflexivity.
  - split; [apply k_adv; exact E|reflexivity].
  - split; [|reflexivity]. apply k_exc; [exact E|apply T; reflexivity].
  - split; [|reflexivity]. apply k_exc; [exact E|apply T; reflexivity].
  - split; [|reflexivity]. pose proof (U Mepc (or_introl eq_refl)) as U1. pose proof (U Mpie (or_intror (or_introl eq_refl))) as U2.
    destruct E. constructor; cbn [pc mie mpie meie mtvec mscratch mepc mcause took_int define place_eqb]; try assumption; try reflexivity.
    + rewrite kq_mepc0 by exact U1. reflexivity.
    + apply kq_mpie0. exact U2.
  - split; [apply k_adv; exact E|reflexivity].
  - split.
    + cbn [meqk]. unfold exec_csr.
      pose proof (csr_read_known a ip csr) as Ka. pose proof (csr_read_known b ip csr) as Kb.
      destruct (csr_read a ip csr) as [o|] eqn:Ra, (csr_read b ip csr) as [o'|] eqn:Rb; try congruence; rewrite <- Ka in *; cbn [negb orb] in *.
      2: { apply k_exc; [exact E|apply T; reflexivity]. }
      destruct (csr_writes f arg) eqn:Cw; cbn [andb] in *; [destruct (csr_read_only csr); [apply k_exc; [exact E|apply T; reflexivity]|]|].
      * apply k_adv, k_wr.
        -- apply (k_write k a b ip); try assumption; [destruct arg; tauto|]. intros Hn. destruct arg; [|reflexivity]. cbn [arg_has].
           apply U. rewrite Cw. cbn [andb]. destruct Hn as [->| ->]; left; reflexivity.
        -- intros H. rewrite (k_read _ _ _ _ _ E H) in Rb. congruence.
      * apply k_adv, k_wr; [destruct (csr_place csr); exact E|]. intros H. rewrite (k_read _ _ _ _ _ E H) in Rb. congruence.
    + pose proof (csr_read_known a false csr) as Ka. pose proof (csr_read_known b false csr) as Kb.
      destruct (csr_read a false csr), (csr_read b false csr); try congruence; reflexivity.
Qed.

(** The same outputs, from the same requests. *)
Lemma outs_upto s1 s2 inp1 inp2 : ok s1 inp1 -> ok s2 inp2 -> forall n,
  (forall t, (1 <= t <= n)%nat -> o_cyc (run s2 inp2 t) = o_cyc (run s1 inp1 t) /\
     (o_cyc (run s1 inp1 t) = true -> request (machine s2 inp2 t) = request (machine s1 inp1 t))) ->
  forall t, (1 <= t <= n)%nat -> same_outputs (run s1 inp1 t) (run s2 inp2 t).
Proof.
  intros K1 K2 n H.
  assert (Hs : forall t, (1 <= t <= n)%nat -> o_adr (run s2 inp2 t) = o_adr (run s1 inp1 t) /\ o_sel (run s2 inp2 t) = o_sel (run s1 inp1 t) /\ o_we (run s2 inp2 t) = o_we (run s1 inp1 t)
             /\ (o_cyc (run s1 inp1 t) = true -> o_we (run s1 inp1 t) = true -> o_dat_w (run s2 inp2 t) = o_dat_w (run s1 inp1 t))).
  { intros [|t] Ht; [lia|]. destruct (H _ Ht) as [Hc Hr].
    destruct (o_cyc (run s1 inp1 (S t))) eqn:C.
    - specialize (Hr eq_refl). destruct (bus_shows s1 inp1 K1 (S t) C), (bus_shows s2 inp2 K2 (S t) Hc). rewrite Hr in *.
      repeat split; try congruence. intros _ We. rewrite sh_we in We. rewrite sh_dat, sh_dat0 by assumption. reflexivity.
    - destruct (bus_quiet s1 inp1 K1 t C), (bus_quiet s2 inp2 K2 t Hc). repeat split; congruence. }
  assert (Hd : forall t, (1 <= t <= n)%nat -> o_dat_w (run s2 inp2 t) = o_dat_w (run s1 inp1 t)).
  { induction t as [|[|t] IH]; intros Ht; [lia| |].
    - cbn [run]. rewrite !dat_w_1; try reflexivity; try apply K1; apply K2.
    - destruct (Hs (S (S t)) Ht) as (_ & _ & Hw & Hdw).
      destruct (o_we (run s1 inp1 (S (S t)))) eqn:We.
      + apply Hdw; [|reflexivity]. destruct (C10_signals_well_formed s1 inp1 K1) as (_ & _ & _ & X). apply X. assumption.
      + rewrite (dat_w_stable s1 inp1 t K1 We), (dat_w_stable s2 inp2 t K2) by congruence. apply IH. lia. }
  intros t Ht. unfold same_outputs. destruct (Hs t Ht) as (? & ? & ? & _). destruct (H t Ht) as [Hc _]. repeat split; try assumption.
  apply Hd. exact Ht.
Qed.

Lemma delay_two a w i1 i2 : (2 <= fst (fetch_delay a w i1 i2))%nat.
Proof.
  unfold fetch_delay, trap_delay. destruct (_ && i1); [cbn [fst]; lia|]. destruct (decode w) as [i|]; [|cbn [fst]; lia].
  destruct (is_csr i && _); [cbn [fst]; lia|]. unfold exec_delay, jump_delay, trap_delay.
  destruct i; repeat match goal with |- context[if ?c then _ else _] => destruct c | |- context[match ?c with _ => _ end] => destruct c end; cbn [fst]; lia.
Qed.

Lemma fetched_keq s inp t w k a b : rel a (run s inp (S t)) -> aeqk k a b ->
  (forall p, In p (needs s inp t w) -> has k p = true) ->
  let j1 := irq (inp (t + 1)%nat) in let j2 := irq (inp (t + 2)%nat) in let j3 := irq (inp (t + 3)%nat) in
  meqk (learn s inp t w k) (fetched SENTINEL a w j1 j2 j3) (fetched SENTINEL b w j1 j2 j3) /\
  fetch_delay b w j1 j2 = fetch_delay a w j1 j2.
Proof.
  intros R E N j1 j2 j3. unfold learn. unfold needs in N.
  assert (Ti : int_taken s inp t w = int_enabled a && (j1 || csr_word w && j2)).
  { unfold int_taken, int_enabled. rewrite (r_mie _ _ _ _ _ _ _ _ R), (r_meie _ _ _ _ _ _ _ _ R). reflexivity. }
  assert (Eb : int_enabled b = int_enabled a) by (unfold int_enabled; rewrite (kq_mie _ _ _ E), (kq_meie _ _ _ E); reflexivity).
  unfold fetched, fetch_delay. rewrite Eb. rewrite Ti in *. unfold csr_word in *.
  destruct (int_enabled a) eqn:En; cbn [andb orb] in *.
  - destruct j1; cbn [andb orb] in *. { split; [|reflexivity]. apply k_trap; [exact E|apply (N Mtvec); left; reflexivity]. }
    destruct (decode w) as [i|] eqn:D.
    + destruct (is_csr i && j2) eqn:Cj; cbn [orb] in *. { split; [|reflexivity]. apply k_trap; [exact E|apply (N Mtvec); left; reflexivity]. }
      apply (exec_keq _ _ _ _ _ w); try assumption; [intros p Hp; apply N, in_or_app; left; exact Hp|].
      intros Hr. rewrite Hr in N. apply (N Mtvec), in_or_app. right. left. reflexivity.
    + assert (Rs : raises (run s inp (S t)) w = true) by (unfold raises; rewrite D; reflexivity). cbn [andb orb] in *. rewrite Rs in *.
      split; [|reflexivity]. apply k_exc; [exact E|apply (N Mtvec); left; reflexivity].
  - destruct (decode w) as [i|] eqn:D.
    + replace (is_csr i && false) with false by (destruct (is_csr i); reflexivity).
      apply (exec_keq _ _ _ _ _ w); try assumption; [intros p Hp; apply N, in_or_app; left; exact Hp|].
      intros Hr. rewrite Hr in N. apply (N Mtvec), in_or_app. right. left. reflexivity.
    + assert (Rs : raises (run s inp (S t)) w = true) by (unfold raises; rewrite D; reflexivity). rewrite Rs in *.
      split; [|reflexivity]. apply k_exc; [exact E|apply (N Mtvec); left; reflexivity].
Qed.

Section Two.
Variables (s1 s2 : state) (inp1 inp2 : nat -> input).
Hypotheses (K1 : ok s1 inp1) (K2 : ok s2 inp2).
Hypothesis Hq : forall t, (forall u, (1 <= u < t)%nat -> same_outputs (run s1 inp1 u) (run s2 inp2 u)) -> irq (inp2 t) = irq (inp1 t).
Hypothesis Ha : forall t, (forall u, (1 <= u <= t)%nat -> same_outputs (run s1 inp1 u) (run s2 inp2 u)) -> o_cyc (run s1 inp1 t) = true ->
  ack (inp2 t) = ack (inp1 t) /\ (ack (inp1 t) = true -> o_we (run s1 inp1 t) = false -> dat_r (inp2 t) = dat_r (inp1 t)).
Variable n : nat.
Hypothesis Hc : careful s1 inp1 n.

Lemma defined_S t : o_cyc (run s1 inp1 t) && u_fetch (s_u (run s1 inp1 t)) && ack (inp1 t) = false -> defined s1 inp1 (S t) = defined s1 inp1 t.
Proof. intros H. cbn [defined]. rewrite H. reflexivity. Qed.

Lemma power t : (t <= n)%nat -> forall u, (u <= t)%nat ->
  meqk (defined s1 inp1 u) (machine s1 inp1 u) (machine s2 inp2 u) /\
  t_idle (timed s2 inp2 u) = t_idle (timed s1 inp1 u) /\ t_early (timed s2 inp2 u) = t_early (timed s1 inp1 u).
Proof.
  induction t as [|t IH]; intros Ht u Hu.
  { replace u with 0%nat by lia. split; [|split; reflexivity]. rewrite <- (timed_machine s1 inp1 K1), <- (timed_machine s2 inp2 K2).
    cbn. constructor; cbn; try reflexivity; try discriminate. intros r R H. unfold has in H. destruct r; try discriminate H. reflexivity. }
  destruct (Nat.eq_dec u (S t)) as [->|]; [|apply IH; lia].
  assert (Cy : forall v, (v <= t)%nat -> o_cyc (run s2 inp2 v) = o_cyc (run s1 inp1 v)).
  { intros v Hv. rewrite (timed_cyc s1 inp1 K1), (timed_cyc s2 inp2 K2). unfold t_cyc. destruct (IH ltac:(lia) v Hv) as (_ & -> & _). reflexivity. }
  assert (Rq : forall v, (v <= t)%nat -> request (machine s2 inp2 v) = request (machine s1 inp1 v)).
  { intros v Hv. destruct (IH ltac:(lia) v Hv) as (M & _). destruct (machine s1 inp1 v), (machine s2 inp2 v); cbn [meqk] in M; try contradiction; cbn [request].
    - rewrite (kq_pc _ _ _ M). reflexivity.
    - apply M. }
  assert (Ou : forall v, (1 <= v <= t)%nat -> same_outputs (run s1 inp1 v) (run s2 inp2 v)).
  { apply (outs_upto s1 s2 inp1 inp2 K1 K2 t). intros v Hv. split; [apply Cy|intros _; apply Rq]; lia. }
  destruct (IH ltac:(lia) t ltac:(lia)) as (M & I1 & I2).
  pose proof (Ha t Ou) as A. pose proof (Cy t ltac:(lia)) as C.
  destruct (o_cyc (run s1 inp1 t)) eqn:C1.
  - destruct (A eq_refl) as [A2 Dr]. clear A. destruct (ack (inp1 t)) eqn:A1.
    + rewrite (timed_ack s1 inp1 K1 t C1 A1), (timed_ack s2 inp2 K2 t C A2). cbn [t_idle t_early].
      pose proof (timed_ack s1 inp1 K1 t C1 A1) as T1. pose proof (timed_ack s2 inp2 K2 t C A2) as T2.
      rewrite (machine_ack s1 inp1 t C1 A1), (machine_ack s2 inp2 t C A2).
      pose proof (fetch_iff s1 inp1 K1 t C1) as F1. pose proof (bus_shows s1 inp1 K1 t C1) as Sh.
      destruct (machine s1 inp1 t) as [a|r1 k1] eqn:M1, (machine s2 inp2 t) as [b|r2 k2] eqn:M2; cbn [meqk] in M; try contradiction.
      * assert (Dw : dat_r (inp2 t) = dat_r (inp1 t)) by (apply Dr; [reflexivity|apply (sh_we _ _ Sh)]).
        cbn [delay_after complete] in *.
        assert (Q : irq (inp2 (t + 1)%nat) = irq (inp1 (t + 1)%nat) /\ irq (inp2 (t + 2)%nat) = irq (inp1 (t + 2)%nat) /\ irq (inp2 (t + 3)%nat) = irq (inp1 (t + 3)%nat)).
        { assert (Z1 : forall j, (j < 2)%nat -> o_cyc (run s1 inp1 (t + 1 + j)) = false).
          { intros j Hj. apply (next_request s1 inp1 K1 t C1 A1). rewrite M1. cbn [delay_after]. pose proof (delay_two a (dat_r (inp1 t)) (irqs inp1 (t + 1)) (irqs inp1 (t + 2))). lia. }
          assert (Z2 : forall j, (j < 2)%nat -> o_cyc (run s2 inp2 (t + 1 + j)) = false).
          { intros j Hj. apply (next_request s2 inp2 K2 t C A2). rewrite M2. cbn [delay_after]. pose proof (delay_two b (dat_r (inp2 t)) (irqs inp2 (t + 1)) (irqs inp2 (t + 2))). lia. }
          assert (O2 : forall v, (1 <= v <= t + 2)%nat -> same_outputs (run s1 inp1 v) (run s2 inp2 v)).
          { apply (outs_upto s1 s2 inp1 inp2 K1 K2 (t + 2)). intros v Hv. destruct (le_gt_dec v t) as [Lt|Gt]; [split; [apply Cy|intros _; apply Rq]; lia|].
            replace v with (t + 1 + (v - t - 1))%nat by lia. rewrite Z1, Z2 by lia. split; [reflexivity|discriminate]. }
          repeat split; apply Hq; intros v Hv; apply O2; lia. }
        destruct Q as (Q1 & Q2 & Q3). unfold irqs in *. rewrite Q1, Q2, Q3, Dw.
        pose proof (b_rel _ _ _ (fetch_boundary s1 inp1 K1 t a C1 A1 M1)) as R1.
        destruct (fetched_keq s1 inp1 t (dat_r (inp1 t)) (defined s1 inp1 t) a b R1 M) as [X Y].
        { intros p Hp. apply (Hc t (dat_r (inp1 t))); [lia| |exact Hp]. repeat split; auto. }
        rewrite Y. cbn [defined]. rewrite C1, F1, A1. cbn [andb]. split; [exact X|]. split; reflexivity.
      * rewrite defined_S by (rewrite F1; destruct (o_cyc _); reflexivity).
        cbn [delay_after complete fst snd meqk] in *. split; [|split; reflexivity]. apply M. intros We. apply Dr; [reflexivity|].
        rewrite (sh_we _ _ Sh). exact We.
    + rewrite defined_S by (rewrite A1, !andb_false_r; reflexivity).
      rewrite !machine_noack by (rewrite ?C, ?C1, ?A2, ?A1 by reflexivity; reflexivity). split; [exact M|].
      change (timed s1 inp1 (S t)) with (tnext SENTINEL (irqs inp1) t (timed s1 inp1 t) (ack (inp1 t)) (dat_r (inp1 t))).
      change (timed s2 inp2 (S t)) with (tnext SENTINEL (irqs inp2) t (timed s2 inp2 t) (ack (inp2 t)) (dat_r (inp2 t))).
      unfold tnext. rewrite A2, A1, I1, I2. destruct (t_idle (timed s1 inp1 t)) eqn:Ei; cbn [t_idle t_early]; [|split; congruence].
      destruct (t_early (timed s1 inp1 t)) eqn:Er; cbn [t_idle t_early]; split; congruence.
  - rewrite defined_S by (rewrite C1; reflexivity).
    rewrite !machine_noack by (rewrite ?C, ?C1; reflexivity). split; [exact M|].
    change (timed s1 inp1 (S t)) with (tnext SENTINEL (irqs inp1) t (timed s1 inp1 t) (ack (inp1 t)) (dat_r (inp1 t))).
    change (timed s2 inp2 (S t)) with (tnext SENTINEL (irqs inp2) t (timed s2 inp2 t) (ack (inp2 t)) (dat_r (inp2 t))).
    rewrite (timed_cyc s1 inp1 K1) in C1. unfold t_cyc in C1. unfold tnext. rewrite I1. destruct (t_idle (timed s1 inp1 t)); [discriminate C1|].
    cbn [t_idle t_early]. split; congruence.
Qed.

Lemma power_outs t : (1 <= t <= n)%nat -> same_outputs (run s1 inp1 t) (run s2 inp2 t).
Proof.
  apply (outs_upto s1 s2 inp1 inp2 K1 K2 n). intros v Hv. destruct (power n ltac:(lia) v ltac:(lia)) as (M & I1 & _). split.
  - rewrite (timed_cyc s1 inp1 K1), (timed_cyc s2 inp2 K2). unfold t_cyc. rewrite I1. reflexivity.
  - intros _. destruct (machine s1 inp1 v), (machine s2 inp2 v); cbn [meqk] in M; try contradiction; cbn [request].
    + rewrite (kq_pc _ _ _ M). reflexivity.
    + apply M.
Qed.
End Two.

(** C86.  Two cores just after a reset or power-up, with any contents of the undefined registers.  The
    world around them reacts equally: as long as the outputs have been equal the interrupt line is
    equal, and a request is acknowledged equally and read with the same data.  If up to cycle [n] the
    first core's program uses nothing it has not defined, every output is the same in every cycle up to
    [n]; and whenever an instruction is fetched, it is fetched in both, and every defined register is
    the same. *)
Theorem C86_power_up : forall s1 s2 inp1 inp2, ok s1 inp1 -> ok s2 inp2 ->
  (forall t, (forall u, (1 <= u < t)%nat -> same_outputs (run s1 inp1 u) (run s2 inp2 u)) -> irq (inp2 t) = irq (inp1 t)) ->
  (forall t, (forall u, (1 <= u <= t)%nat -> same_outputs (run s1 inp1 u) (run s2 inp2 u)) -> o_cyc (run s1 inp1 t) = true ->
     ack (inp2 t) = ack (inp1 t) /\ (ack (inp1 t) = true -> o_we (run s1 inp1 t) = false -> dat_r (inp2 t) = dat_r (inp1 t))) ->
  forall n, careful s1 inp1 n ->
  o_cyc (run s1 inp1 0) = false /\ o_cyc (run s2 inp2 0) = false /\
  (forall t, (1 <= t <= n)%nat -> same_outputs (run s1 inp1 t) (run s2 inp2 t)) /\
  (forall t w, (t <= n)%nat -> fetch_done s1 inp1 t w -> fetch_done s2 inp2 t w /\
     let x := run s1 inp1 (S t) in let y := run s2 inp2 (S t) in
     pc_of y = pc_of x /\ mie_of y = mie_of x /\ meie_of y = meie_of x /\
     forall p, has (defined s1 inp1 t) p = true -> match p with G r => 0 <= r < 32 | _ => True end -> at_place y p = at_place x p).
Proof.
  intros s1 s2 inp1 inp2 K1 K2 Hq Ha n Hc. split; [apply (cyc0 s1 inp1 K1)|]. split; [apply (cyc0 s2 inp2 K2)|].
  pose proof (power_outs s1 s2 inp1 inp2 K1 K2 Hq Ha n Hc) as O. split; [exact O|].
  intros t w Ht F. destruct (fetch_machine s1 inp1 K1 t w F) as [a Ma]. destruct F as (C1 & F1 & A1 & D1).
  assert (T0 : (1 <= t)%nat). { destruct t; [|lia]. pose proof (proj1 (cyc0 s1 inp1 K1)) as Z. cbn [run] in C1. congruence. }
  destruct (Ha t) as [A2 D2]; [intros u Hu; apply O; lia|exact C1|]. rewrite A1 in A2.
  destruct (power s1 s2 inp1 inp2 K1 K2 Hq Ha n Hc n ltac:(lia) t ltac:(lia)) as (M & _).
  rewrite Ma in M. destruct (machine s2 inp2 t) as [b|] eqn:Mb; cbn [meqk] in M; [|contradiction].
  destruct (O t ltac:(lia)) as (C2 & _ & _ & _ & We & _). rewrite C1 in C2.
  pose proof (fetch_iff s2 inp2 K2 t C2) as F2. rewrite Mb in F2.
  assert (W1 : o_we (run s1 inp1 t) = false). { rewrite (sh_we _ _ (bus_shows s1 inp1 K1 t C1)), Ma. reflexivity. }
  split; [repeat split; try assumption; rewrite D2 by assumption; exact D1|]. cbv zeta.
  destruct (b_rel _ _ _ (fetch_boundary s1 inp1 K1 t a C1 A1 Ma)), (b_rel _ _ _ (fetch_boundary s2 inp2 K2 t b C2 A2 Mb)), M.
  unfold pc_of, mie_of, meie_of. split; [congruence|]. split; [congruence|]. split; [congruence|].
  intros p Hp Rg. destruct p; cbn [at_place]; unfold x_of, mtvec_of, mscratch_of, mepc_of, mcause_of, mpie_of.
  - rewrite <- r_x, <- r_x0 by exact Rg. apply kq_x0; assumption.
  - rewrite <- r_mtvec, <- r_mtvec0. apply kq_mtvec0. exact Hp.
  - rewrite <- r_mscratch, <- r_mscratch0. apply kq_mscratch0. exact Hp.
  - rewrite <- r_mepc, <- r_mepc0. apply kq_mepc0. exact Hp.
  - rewrite <- r_mcause, <- r_mcause0. apply kq_mcause0. exact Hp.
  - rewrite <- r_mpie, <- r_mpie0, kq_mpie0 by exact Hp. reflexivity.
Qed.

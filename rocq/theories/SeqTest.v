(** * C74: the sequence tests of tests/sim/test_top.py

    [make_cpu_tb] waits for each instruction fetch and compares the register file, the PC, the CSRs and
    some memory words with a list of expected values.  Here it watches the core connected to the tests'
    memory.  (The microcode watchdog that runs in the same tests is in Harness.v.) *)
From Coq Require Import ZArith Lia Bool List.
From Verif Require Import Bits Ucode Cpu Isa Timed BitLemmas Wf Sym Blocks CsrBlocks DecodeOk Boundary Sim Main Obs PropsBus PropsInv Observe PropsIsa PropsFrame Memory SocMem Harness.
Import ListNotations.
Open Scope Z_scope.

(** ** Model *)
(** The memory process's variables (tests/conftest.py:91-125): list, "at the second tick", ACK, DAT_R. *)
Record pymem := { pm_words : list Z; pm_wait : bool; pm_ack : bool; pm_rdata : Z }.
(** The core and the memory process (tests/sim/test_top.py:425-428; [memory.range] starts at 0, and then
    [mem_tick] never fails, see [mem_tick_some]). *)
Definition pm_input (m : pymem) (i : bool) : input := {| rst := false; ack := pm_ack m; dat_r := pm_rdata m; irq := i |}.
(** One tick (tests/conftest.py:97-125). *)
Definition pm_tick (c : state) (m : pymem) (i : bool) : state * pymem :=
  (step c (pm_input m i),
   match mem_tick 0 (cpu_bus c) (pm_words m) (pm_wait m) (pm_ack m) (pm_rdata m) with
   | Some (l, wait, a, rd) => {| pm_words := l; pm_wait := wait; pm_ack := a; pm_rdata := rd |}
   | None => m
   end).
(** The simulation without the testbench (tests/sim/test_top.py:425-428). *)
Fixpoint pm_run (iw : nat -> bool) (s : state) (words : list Z) (t : nat) : state * pymem :=
  match t with
  | O => (s, {| pm_words := words; pm_wait := false; pm_ack := false; pm_rdata := 0 |})
  | S n => let (c, m) := pm_run iw s words n in pm_tick c m (iw n)
  end.
(** The core's inputs in it (top.py:253-262). *)
Definition pm_inp (iw : nat -> bool) (s : state) (words : list Z) (t : nat) : input := pm_input (snd (pm_run iw s words t)) (iw t).

(** Expected values: x0-x31 and the PC register (tests/sim/conftest.py:4-46), memory words
    (test_top.py:36-39), and MSCRATCH, MSTATUS, MTVEC, MEPC, MCAUSE, MIP, MIE (conftest.py:49-71). *)
Record expect := { e_regs : list Z; e_pc : Z; e_ram : list (Z * Z); e_csrs : list Z }.
(** [RV32Regs.from_top_module] (tests/sim/conftest.py:6-12): words 0-31 of the register RAM and the PC register. *)
Definition seen_regs (c : state) : list Z := map (s_mem c) (map Z.of_nat (seq 0 32)).
(** [CSRRegs.from_top_module] (tests/sim/conftest.py:51-63); MSTATUS, MIP and MIE are the values of the
    structures of csr.py:238-324. *)
Definition seen_csrs (c : state) (q : bool) : list Z :=
  [s_mem c 0x28; bz (c_mie (s_csr c)) * 2 ^ 3 + bz (c_mpie (s_csr c)) * 2 ^ 7 + c_mpp (s_csr c) * 2 ^ 11; s_mem c 0x25;
   s_mem c 0x29; s_mem c 0x2A; bz q * 2 ^ 11; bz (c_meie (s_csr c)) * 2 ^ 11].
(** Comparison of lists in Python. *)
Fixpoint list_eqb (l r : list Z) : bool :=
  match l, r with [], [] => true | x :: l', y :: r' => (x =? y) && list_eqb l' r' | _, _ => false end.
(** [check_regs], [check_mem], [check_csrs] (test_top.py:31-44). *)
Definition matches (e : expect) (c : state) (l : list Z) (q : bool) : bool :=
  list_eqb (e_regs e) (seen_regs c) && (e_pc e =? s_pc c) &&
  forallb (fun p => item l (fst p) =? snd p) (e_ram e) && list_eqb (e_csrs e) (seen_csrs c q).

(** Where the testbench is (test_top.py:46-68): at [tick().until(...)] or in the loop on ACK. *)
Inductive stage := Until | Acking.
(** It is running, with these expectations left, or has ended. *)
Inductive tbstate := Running (g : stage) (todo : list expect) | Passed | WrongAddress | WrongValue.
(** The condition of [until] (test_top.py:48-49), sampled at the end of a cycle. *)
Definition fetching (c : state) : bool := o_cyc c && o_stb c && u_fetch (s_u c).
(** One tick of [cpu_testbench] (test_top.py:46-68).  [c], [i] are the core and its inputs before the tick, [c'], [l'] and [q']
    core, memory and interrupt line after it. *)
Definition seq_tick (b : tbstate) (c : state) (i : input) (c' : state) (l' : list Z) (q' : bool) : tbstate :=
  match b with
  | Running Until todo => Running (if fetching c then Acking else Until) todo
  | Running Acking todo =>
      if negb (ack i) then Running Acking todo
      else if negb ((seq_now c i =? 2) || (seq_now c i =? 1)) then WrongAddress
      else match todo with
           | [] => Passed
           | e :: todo' => if matches e c' l' q' then match todo' with [] => Passed | _ => Running Until todo' end else WrongValue
           end
  | _ => b
  end.
(** The whole test (test_top.py:425-428). *)
Fixpoint seq_run (iw : nat -> bool) (s : state) (words : list Z) (es : list expect) (t : nat) : tbstate :=
  match t with
  | O => match es with [] => Passed | _ => Running Until es end
  | S n => let (c', m') := pm_run iw s words (S n) in
      seq_tick (seq_run iw s words es n) (fst (pm_run iw s words n)) (pm_inp iw s words n) c' (pm_words m') (iw (S n))
  end.

(** ** Specification *)
(** Instructions fetched before cycle [t]. *)
Definition fetches (s : state) (inp : nat -> input) (t : nat) : nat :=
  length (filter (fun u => o_cyc (run s inp u) && u_fetch (s_u (run s inp u)) && ack (inp u)) (seq 0 t)).
(** The [k]-th instruction (from 0) is fetched in cycle [t]. *)
Definition nth_fetch (s : state) (inp : nat -> input) (k t : nat) : Prop := (exists w, fetch_done s inp t w) /\ fetches s inp t = k.

(** ** Proofs *)
Lemma fetches_S s inp t : fetches s inp (S t) = (fetches s inp t + if o_cyc (run s inp t) && u_fetch (s_u (run s inp t)) && ack (inp t) then 1 else 0)%nat.
Proof. unfold fetches. rewrite seq_S, filter_app, app_length. cbn [plus filter]. destruct (_ && _); reflexivity. Qed.
Lemma fetches_mono s inp t n : (fetches s inp t <= fetches s inp (t + n))%nat.
Proof. induction n as [|n IH]; [rewrite Nat.add_0_r; lia|]. rewrite Nat.add_succ_r, fetches_S. lia. Qed.
Lemma is_fetch s inp t : (exists w, fetch_done s inp t w) <-> o_cyc (run s inp t) && u_fetch (s_u (run s inp t)) && ack (inp t) = true.
Proof.
  unfold fetch_done. split.
  - intros (w & -> & -> & -> & _). reflexivity.
  - intros H. apply andb_prop in H. destruct H as [H A]. apply andb_prop in H. destruct H as [C U]. exists (dat_r (inp t)). auto.
Qed.
Lemma nth_fetch_unique s inp k t u : nth_fetch s inp k t -> nth_fetch s inp k u -> t = u.
Proof.
  assert (H : forall k t u, (t < u)%nat -> nth_fetch s inp k t -> nth_fetch s inp k u -> False).
  { intros j a b L [F1 N1] [_ N2]. apply is_fetch in F1. pose proof (fetches_S s inp a) as E. rewrite F1 in E.
    pose proof (fetches_mono s inp (S a) (b - S a)) as M. replace (S a + (b - S a))%nat with b in M by lia. lia. }
  intros F1 F2. destruct (Nat.lt_total t u) as [L|[E|L]]; [exfalso; eauto|exact E|exfalso; eauto].
Qed.

Section P.
Variables (iw : nat -> bool) (s : state) (words : list Z).
Hypothesis (Hf : fresh s) (Hw : Forall word words).
Local Notation inp := (pm_inp iw s words).
Local Notation mm t := (snd (pm_run iw s words t)).

Lemma pm_core t : fst (pm_run iw s words t) = run s inp t.
Proof.
  induction t as [|t IH]; [reflexivity|]. cbn [run]. rewrite <- IH. unfold pm_inp. cbn [pm_run].
  destruct (pm_run iw s words t) as [c m]. reflexivity.
Qed.
Lemma pm_mem t : exists l wait a rd, mem_tick 0 (cpu_bus (run s inp t)) (pm_words (mm t)) (pm_wait (mm t)) (pm_ack (mm t)) (pm_rdata (mm t)) = Some (l, wait, a, rd) /\
  mm (S t) = {| pm_words := l; pm_wait := wait; pm_ack := a; pm_rdata := rd |}.
Proof.
  rewrite <- pm_core. cbn [pm_run]. destruct (pm_run iw s words t) as [c m]. cbn [fst snd pm_tick].
  pose proof (mem_tick_some (cpu_bus c) (pm_words m) (pm_wait m) (pm_ack m) (pm_rdata m)) as N.
  destruct (mem_tick _ _ _ _ _ _) as [[[[l wait] a] rd]|]; [|congruence]. exists l, wait, a, rd. auto.
Qed.
Lemma pm_inv t : Forall word (pm_words (mm t)) /\ word (pm_rdata (mm t)) /\ pm_wait (mm t) = pm_ack (mm t) /\
  (pm_ack (mm t) = true -> exists u, t = S u /\ o_cyc (run s inp u) = true /\ ack (inp u) = false).
Proof.
  induction t as [|t (I1 & I2 & I3 & I4)].
  - cbn. split; [assumption|]. split; [unfold word; lia|]. split; [reflexivity|discriminate].
  - destruct (pm_mem t) as (l & wait & a & rd & E & ->). cbn [pm_words pm_rdata pm_wait pm_ack].
    destruct (mem_tick_words _ _ _ _ _ _ _ _ _ E I1 I2) as (M1 & _ & M3). split; [exact M1|]. split; [exact M3|].
    change (ack (inp t)) with (pm_ack (mm t)).
    unfold mem_tick in E. rewrite I3 in E. destruct (pm_ack (mm t)) eqn:A. { injection E as <- <- <- <-. split; [reflexivity|discriminate]. }
    destruct (_ && _) eqn:Eq.
    + apply andb_prop in Eq. destruct Eq as [Eq _]. apply andb_prop in Eq. destruct Eq as [Eq _].
      destruct (b_we _); [destruct (_ <? _); [|discriminate]|]; injection E as <- <- <- <-; (split; [reflexivity|]; intros _; exists t; auto).
    + injection E as <- <- <- <-. split; [reflexivity|discriminate].
Qed.
Lemma pm_bus_ok : bus_ok s inp.
Proof.
  constructor; [assumption| |].
  - constructor; intros t; [reflexivity|]. apply (pm_inv t).
  - intros t C A. destruct (pm_inv t) as (_ & _ & _ & I). destruct (I A) as (u & Hu & C' & _). exists u. auto.
Qed.
Local Lemma K : ok s inp.
Proof. apply bus_ok_ok, pm_bus_ok. Qed.

(** A fetch that is not acknowledged is still there in the next cycle, and is still a fetch. *)
Lemma fetch_held t : o_cyc (run s inp t) = true -> ack (inp t) = false ->
  o_cyc (run s inp (S t)) = true /\ u_fetch (s_u (run s inp (S t))) = u_fetch (s_u (run s inp t)).
Proof.
  intros C A. destruct (C05_request_held s inp K t C A) as [C' _]. split; [exact C'|].
  pose proof (fetch_iff s inp K t C) as F. pose proof (fetch_iff s inp K (S t) C') as F'.
  rewrite machine_noack in F' by (rewrite C, A; reflexivity). destruct (machine s inp t); congruence.
Qed.
Lemma check_int t w : fetch_done s inp t w -> seq_now (run s inp t) (inp t) = 1.
Proof.
  intros F. destruct (fetch_machine s inp K t w F) as [a M]. destruct F as (C & U & A & _).
  destruct (b_at _ _ _ (fetch_boundary s inp K t a C A M)) as (_ & N & _).
  cbn [run] in N. unfold step in N. rewrite (env_rst _ (ok_env _ _ pm_bus_ok)) in N. cbn [s_next] in N.
  assert (Q : 0 <= seq_now (run s inp t) (inp t) < 256).
  { destruct Hf as (u & m & rd & _ & W). pose proof (run_wf s inp t W (env_word _ (ok_env _ _ pm_bus_ok))) as Wt. destruct Wt.
    unfold seq_now, seq_adr. unfold inw in *. change (2 ^ 8) with 256 in *. destruct (s_sguard _); [lia|]. destruct (u_jmp _); try destruct (test_now _ _); lia. }
  destruct (Z.eq_dec (seq_now (run s inp t) (inp t)) 255) as [E|E]; [rewrite E in N; change ((255 + 1) mod 2 ^ 8) with 0 in N; lia|].
  rewrite Z.mod_small in N by lia. lia.
Qed.

Variable es : list expect.
Definition good (k u : nat) : Prop := forall e, nth_error es k = Some e -> matches e (run s inp (S u)) (pm_words (mm (S u))) (iw (S u)) = true.
Definition all_good (t : nat) : Prop := forall k u, (u < t)%nat -> nth_fetch s inp k u -> good k u.
Lemma tb_inv t :
  match seq_run iw s words es t with
  | Running g todo => todo = skipn (fetches s inp t) es /\ todo <> [] /\ all_good t /\
      (g = Acking -> o_cyc (run s inp t) = true /\ u_fetch (s_u (run s inp t)) = true) /\
      (g = Until -> forall w, ~ fetch_done s inp t w)
  | Passed => (length es <= fetches s inp t)%nat /\ all_good t
  | WrongAddress => False
  | WrongValue => exists k u e, (u < t)%nat /\ nth_fetch s inp k u /\ nth_error es k = Some e /\
      matches e (run s inp (S u)) (pm_words (mm (S u))) (iw (S u)) = false
  end.
Proof.
  induction t as [|t IH].
  - cbn [seq_run]. destruct es as [|e es'].
    + split; [apply Nat.le_0_l|]. intros k u Hu. lia.
    + split; [reflexivity|]. split; [discriminate|]. split; [intros k u Hu; lia|]. split; [discriminate|].
      intros _ w (C & _). cbn in C. destruct (cyc0 s inp K). congruence.
  - cbn [seq_run]. rewrite pm_core. destruct (pm_run iw s words (S t)) as [c' m'] eqn:Es.
    assert (Ec : c' = run s inp (S t)) by (rewrite <- pm_core, Es; reflexivity).
    assert (Em : m' = mm (S t)) by (rewrite Es; reflexivity).
    destruct (seq_run iw s words es t) as [g todo| | |]; cbn [seq_tick].
    + destruct IH as (L & Ne & G & Ia & Iu). destruct g.
      * (* Until *)
        specialize (Iu eq_refl).
        assert (Nf : o_cyc (run s inp t) && u_fetch (s_u (run s inp t)) && ack (inp t) = false).
        { destruct (_ && _) eqn:E; [|reflexivity]. apply is_fetch in E. destruct E as [w E]. destruct (Iu w E). }
        rewrite fetches_S, Nf, Nat.add_0_r. split; [exact L|]. split; [exact Ne|].
        assert (G' : all_good (S t)).
        { intros k u Hu F. destruct (Nat.eq_dec u t) as [->|]; [|apply (G k u); [lia|exact F]].
          destruct F as [F _]. apply is_fetch in F. congruence. }
        split; [exact G'|]. unfold fetching. change (o_stb (run s inp t)) with (o_cyc (run s inp t)). rewrite andb_diag.
        destruct (o_cyc (run s inp t) && u_fetch (s_u (run s inp t))) eqn:Fe.
        -- split; [intros _|discriminate]. cbn [andb] in Nf. apply andb_prop in Fe. destruct Fe as [C U].
           destruct (fetch_held t C Nf) as [C' U']. split; [exact C'|congruence].
        -- split; [discriminate|]. intros _ w (C & U & A & _). destruct (pm_inv (S t)) as (_ & _ & _ & I).
           destruct (I A) as (u & Hu & Cu & Au). injection Hu as <-. rewrite Cu in Fe. destruct (fetch_held t Cu Au) as [_ U']. cbn [andb] in Fe. congruence.
      * (* Acking *)
        destruct (Ia eq_refl) as [C U]. destruct (ack (inp t)) eqn:A; cbn [negb].
        -- assert (F : fetch_done s inp t (dat_r (inp t))) by (repeat split; assumption).
           rewrite (check_int t _ F). cbn [orb negb Z.eqb Pos.eqb].
           destruct todo as [|e todo']; [congruence|].
           assert (E1 : nth_error es (fetches s inp t) = Some e).
           { clear - L. revert L. generalize (fetches s inp t). induction es as [|y l IHl]; intros [|n] L; cbn [skipn nth_error] in *; try discriminate; [congruence|]. apply IHl. exact L. }
           assert (E2 : todo' = skipn (S (fetches s inp t)) es).
           { clear - L. revert L. generalize (fetches s inp t). induction es as [|y l IHl]; intros [|n] L; cbn [skipn] in *; try discriminate; [congruence|]. apply IHl. exact L. }
           assert (Nf : nth_fetch s inp (fetches s inp t) t) by (split; [eexists; exact F|reflexivity]).
           assert (Nx : fetches s inp (S t) = S (fetches s inp t)) by (rewrite fetches_S, C, U, A; cbn [andb]; lia).
           destruct (matches e c' (pm_words m') (iw (S t))) eqn:Mt.
           ++ assert (G' : all_good (S t)).
              { intros k u Hu Fk. destruct (Nat.eq_dec u t) as [->|]; [|apply (G k u); [lia|exact Fk]].
                destruct Fk as [_ <-]. intros e' He'. rewrite E1 in He'. injection He' as <-. rewrite <- Ec, <- Em. exact Mt. }
              destruct todo' as [|e' todo''].
              ** split; [|exact G']. rewrite Nx. assert (length (skipn (S (fetches s inp t)) es) = 0%nat) by (rewrite <- E2; reflexivity). rewrite skipn_length in H. lia.
              ** rewrite Nx. split; [exact E2|]. split; [discriminate|]. split; [exact G'|]. split; [discriminate|].
                 intros _ w (_ & _ & A' & _). destruct (pm_inv (S t)) as (_ & _ & _ & I). destruct (I A') as (u & Hu & _ & Au). injection Hu as <-. congruence.
           ++ exists (fetches s inp t), t, e. split; [lia|]. split; [exact Nf|]. split; [exact E1|]. rewrite <- Ec, <- Em. exact Mt.
        -- rewrite fetches_S, C, U, A. cbn [andb]. rewrite Nat.add_0_r. split; [exact L|]. split; [exact Ne|].
           split. { intros k u Hu Fk. destruct (Nat.eq_dec u t) as [->|]; [|apply (G k u); [lia|exact Fk]]. destruct Fk as [(w & _ & _ & A' & _) _]. congruence. }
           split; [|discriminate]. intros _. destruct (fetch_held t C A) as [C' U']. split; [exact C'|congruence].
    + destruct IH as [I1 I2]. split; [rewrite fetches_S; lia|].
      intros k u Hu Fk. destruct (Nat.eq_dec u t) as [->|]; [|apply (I2 k u); [lia|exact Fk]].
      destruct Fk as [_ <-]. intros e He. apply nth_error_Some_length in He || (assert (nth_error es (fetches s inp t) <> None) as Hs by congruence; apply nth_error_Some in Hs; lia).
    + exact IH.
    + destruct IH as (k & u & e & Hu & R). exists k, u, e. split; [lia|exact R].
Qed.
End P.

(** C74: the testbench can only end by passing or by finding a wrong value: its assertion on the microcode address
    never fires.  It finds a wrong value only if one of the first [length es] instructions was fetched with
    registers, memory or CSRs that are not the expected ones. *)
Theorem C74_fails_only_for_a_reason : forall iw s words es t, fresh s -> Forall word words ->
  seq_run iw s words es t <> WrongAddress /\
  (seq_run iw s words es t = WrongValue -> exists k u e, (u < t)%nat /\ nth_fetch s (pm_inp iw s words) k u /\ nth_error es k = Some e /\
     matches e (run s (pm_inp iw s words) (S u)) (pm_words (snd (pm_run iw s words (S u)))) (iw (S u)) = false).
Proof.
  intros iw s words es t Hf Hw. pose proof (tb_inv iw s words Hf Hw es t) as I. split.
  - intros E. rewrite E in I. exact I.
  - intros E. rewrite E in I. exact I.
Qed.
(** C74: it passes exactly when that many instructions are fetched and each finds the expected values in the cycle
    after its fetch; it misses none of them. *)
Theorem C74_passes_iff : forall iw s words es, fresh s -> Forall word words ->
  let inp := pm_inp iw s words in
  (exists t, seq_run iw s words es t = Passed) <->
  (exists t, (length es <= fetches s inp t)%nat) /\
  (forall k u e, nth_fetch s inp k u -> nth_error es k = Some e ->
     matches e (run s inp (S u)) (pm_words (snd (pm_run iw s words (S u)))) (iw (S u)) = true).
Proof.
  intros iw s words es Hf Hw inp. subst inp. cbv zeta. split.
  - intros [t E]. pose proof (tb_inv iw s words Hf Hw es t) as I. rewrite E in I. destruct I as [I1 I2]. split; [exists t; exact I1|].
    intros k u e Fk He. destruct (Nat.lt_ge_cases u t) as [L|L]; [apply (I2 k u L Fk); exact He|].
    exfalso. destruct Fk as [_ Nk]. pose proof (fetches_mono s (pm_inp iw s words) t (u - t)) as Mo. replace (t + (u - t))%nat with u in Mo by lia.
    assert (nth_error es k <> None) as Hs by congruence. apply nth_error_Some in Hs. lia.
  - intros [[t Ht] G]. exists t. pose proof (tb_inv iw s words Hf Hw es t) as I. destruct (seq_run iw s words es t) as [g todo| | |].
    + destruct I as (L & Ne & _). exfalso. apply Ne. rewrite L. apply length_zero_iff_nil. rewrite skipn_length. lia.
    + reflexivity.
    + contradiction.
    + destruct I as (k & u & e & _ & Fk & He & Bad). rewrite (G k u e Fk He) in Bad. discriminate.
Qed.
Lemma list_eqb_eq l : forall r, list_eqb l r = true <-> l = r.
Proof.
  induction l as [|x l IH]; destruct r as [|y r]; cbn [list_eqb]; [tauto|split; discriminate|split; discriminate|].
  rewrite andb_true_iff, Z.eqb_eq, IH. split; [intros [-> ->]; reflexivity|intros E; injection E as -> ->; tauto].
Qed.
Lemma map_Some_eq (l r : list Z) : map Some l = map Some r -> l = r.
Proof. revert r. induction l as [|x l IH]; destruct r as [|y r]; cbn [map]; intros E; try discriminate; [reflexivity|]. injection E as -> E. rewrite (IH r E). reflexivity. Qed.
(** C74: what it compares is the architectural state of the reference machine, all of it (all 32 registers, the PC,
    every listed memory word, the seven CSRs). *)
Theorem C74_compares : forall iw s words u w, fresh s -> Forall word words -> let inp := pm_inp iw s words in
  fetch_done s inp u w -> exists a, machine s inp u = Fetching a /\ forall e l,
  matches e (run s inp (S u)) l (iw (S u)) = true <->
  e_regs e = map (rd_x a) (map Z.of_nat (seq 0 32)) /\ 4 * e_pc e = pc a /\
  (forall adr v, In (adr, v) (e_ram e) -> nth (Z.to_nat adr) l 0 = v) /\
  map Some (e_csrs e) = map (csr_read a (iw (S u))) [0x340; 0x300; 0x305; 0x341; 0x342; 0x344; 0x304].
Proof.
  intros iw s words u w Hf Hw inp F. cut (exists a, machine s inp u = Fetching a /\ let x := run s inp (S u) in
    seen_regs x = map (rd_x a) (map Z.of_nat (seq 0 32)) /\ 4 * s_pc x = pc a /\
    map Some (seen_csrs x (iw (S u))) = map (csr_read a (iw (S u))) [0x340; 0x300; 0x305; 0x341; 0x342; 0x344; 0x304]).
  { intros (a & M & R & P & Cs). exists a. split; [exact M|]. intros e l. rewrite <- R, <- P, <- Cs. unfold matches.
    rewrite !andb_true_iff, !list_eqb_eq, Z.eqb_eq, forallb_forall. split.
    - intros (((H1 & H2) & H3) & H4). split; [exact H1|]. split; [lia|]. split; [|rewrite H4; reflexivity].
      intros adr v I. specialize (H3 _ I). apply Z.eqb_eq in H3. exact H3.
    - intros (H1 & H2 & H3 & H4). split; [split; [split; [exact H1|lia]|]|apply map_Some_eq, H4].
      intros [adr v] I. apply Z.eqb_eq. exact (H3 adr v I). }
  pose proof (bus_ok_ok _ _ (pm_bus_ok iw s words Hf Hw)) as Ko. fold inp in Ko.
  destruct (fetch_machine s inp Ko u w F) as [a M]. exists a. split; [exact M|]. cbv zeta. destruct F as (C & U & A & _).
  destruct (b_rel _ _ _ (fetch_boundary s inp Ko u a C A M)). split; [|split; [symmetry; exact r_pc|]].
  - unfold seen_regs. rewrite !map_map. apply map_ext_in. intros n Hn. apply in_seq in Hn. symmetry. apply r_x. lia.
  - unfold seen_csrs. cbn [map csr_read]. rewrite r_mtvec, r_mscratch, r_mepc, r_mcause, r_mie, r_mpie, r_meie, r_mpp.
    repeat (apply (f_equal2 (@cons (option Z))); [try reflexivity; apply (f_equal Some); lia|]). reflexivity.
Qed.

(** ** The repository's own sequence tests pass on the model *)
(** The same simulation, computed in one pass. *)
Fixpoint seq_loop (n : nat) (b : tbstate) (c : state) (m : pymem) : tbstate * (state * pymem) :=
  match n with
  | O => (b, (c, m))
  | S n' => let (c', m') := pm_tick c m false in seq_loop n' (seq_tick b c (pm_input m false) c' (pm_words m') false) c' m'
  end.
Lemma seq_loop_ok s words es n t :
  seq_loop n (seq_run (fun _ => false) s words es t) (fst (pm_run (fun _ => false) s words t)) (snd (pm_run (fun _ => false) s words t)) =
  (seq_run (fun _ => false) s words es (t + n), pm_run (fun _ => false) s words (t + n)).
Proof.
  revert t. induction n as [|n IH]; intros t.
  - rewrite Nat.add_0_r. cbn [seq_loop]. destruct (pm_run _ _ _ t); reflexivity.
  - rewrite Nat.add_succ_r. change (S (t + n)) with (S t + n)%nat. rewrite <- IH. cbn [seq_loop seq_run pm_run]. unfold pm_inp.
    destruct (pm_run (fun _ => false) s words t) as [c m]. cbn [fst snd]. destruct (pm_tick c m false) as [c' m']. reflexivity.
Qed.
Definition start (es : list expect) : tbstate := match es with [] => Passed | _ => Running Until es end.
Definition mem_init (words : list Z) : pymem := {| pm_words := words; pm_wait := false; pm_ack := false; pm_rdata := 0 |}.
Lemma seq_run_loop s words es n : fst (seq_loop n (start es) s (mem_init words)) = seq_run (fun _ => false) s words es n.
Proof. pose proof (seq_loop_ok s words es n 0) as E. cbn [seq_run pm_run fst snd plus] in E. unfold start, mem_init. rewrite E. reflexivity. Qed.
(** [RV32Regs(R1=..., ...)] (tests/sim/conftest.py:14-46): registers not named are 0. *)
Definition xs (l : list (Z * Z)) : list Z := map (fun n => fold_right (fun p v => if fst p =? Z.of_nat n then snd p else v) 0 l) (seq 0 32).
(** The tests' memory: 400 words, the program first (tests/conftest.py:38-67). *)
Definition image (p : list Z) : list Z := p ++ repeat 0 (400 - length p).

(** HANDWRITTEN (tests/sim/test_top.py:81-276): program (assembled by hand) and expected values. *)
Definition handwritten_prog : list Z := [0x00000013; 0x00100093; 0x00009093; 0x00309093; 0x80100113; 0x00208133; 0x001121b3; 0x80a12213; 0x7ff13213; 0x001131b3; 0xfff04293; 0x0012c0b3; 0xfff06313; 0x0060e0b3; 0x0010f093; 0x00207133; 0x40608333; 0x80000337; 0x40235393; 0x00235413; 0x3e400113; 0x002091b3; 0x4033d233; 0x0033d4b3; 0x0ff0000f; 0xfffff517; 0x008000ef; 0x00000013; 0x202080a3; 0x20108583; 0x2010c583; 0x07418667; 0x00000013; 0x00d00463; 0x00000013; 0x00d01463; 0x00b54463; 0x00000013; 0x00b56463; 0x00b55463; 0x00b57463; 0x00000013; 0x00d05463; 0x00000013; 0x20209123; 0x2040a223; 0x20609683; 0x2060d683; 0x20008023; 0x2000a703].
Definition handwritten : list expect := [
  {| e_regs := xs []; e_pc := 0; e_ram := []; e_csrs := [0x0; 0x1800; 0x0; 0x0; 0x0; 0x0; 0x0] |};
  {| e_regs := xs []; e_pc := 1; e_ram := []; e_csrs := [0x0; 0x1800; 0x0; 0x0; 0x0; 0x0; 0x0] |};
  {| e_regs := xs [(1, 0x1)]; e_pc := 2; e_ram := []; e_csrs := [0x0; 0x1800; 0x0; 0x0; 0x0; 0x0; 0x0] |};
  {| e_regs := xs [(1, 0x1)]; e_pc := 3; e_ram := []; e_csrs := [0x0; 0x1800; 0x0; 0x0; 0x0; 0x0; 0x0] |};
  {| e_regs := xs [(1, 0x8)]; e_pc := 4; e_ram := []; e_csrs := [0x0; 0x1800; 0x0; 0x0; 0x0; 0x0; 0x0] |};
  {| e_regs := xs [(1, 0x8); (2, 0xFFFFF801)]; e_pc := 5; e_ram := []; e_csrs := [0x0; 0x1800; 0x0; 0x0; 0x0; 0x0; 0x0] |};
  {| e_regs := xs [(1, 0x8); (2, 0xFFFFF809)]; e_pc := 6; e_ram := []; e_csrs := [0x0; 0x1800; 0x0; 0x0; 0x0; 0x0; 0x0] |};
  {| e_regs := xs [(1, 0x8); (2, 0xFFFFF809); (3, 0x1)]; e_pc := 7; e_ram := []; e_csrs := [0x0; 0x1800; 0x0; 0x0; 0x0; 0x0; 0x0] |};
  {| e_regs := xs [(1, 0x8); (2, 0xFFFFF809); (3, 0x1); (4, 0x1)]; e_pc := 8; e_ram := []; e_csrs := [0x0; 0x1800; 0x0; 0x0; 0x0; 0x0; 0x0] |};
  {| e_regs := xs [(1, 0x8); (2, 0xFFFFF809); (3, 0x1)]; e_pc := 9; e_ram := []; e_csrs := [0x0; 0x1800; 0x0; 0x0; 0x0; 0x0; 0x0] |};
  {| e_regs := xs [(1, 0x8); (2, 0xFFFFF809)]; e_pc := 10; e_ram := []; e_csrs := [0x0; 0x1800; 0x0; 0x0; 0x0; 0x0; 0x0] |};
  {| e_regs := xs [(1, 0x8); (2, 0xFFFFF809); (5, 0xFFFFFFFF)]; e_pc := 11; e_ram := []; e_csrs := [0x0; 0x1800; 0x0; 0x0; 0x0; 0x0; 0x0] |};
  {| e_regs := xs [(1, 0xFFFFFFF7); (2, 0xFFFFF809); (5, 0xFFFFFFFF)]; e_pc := 12; e_ram := []; e_csrs := [0x0; 0x1800; 0x0; 0x0; 0x0; 0x0; 0x0] |};
  {| e_regs := xs [(1, 0xFFFFFFF7); (2, 0xFFFFF809); (5, 0xFFFFFFFF); (6, 0xFFFFFFFF)]; e_pc := 13; e_ram := []; e_csrs := [0x0; 0x1800; 0x0; 0x0; 0x0; 0x0; 0x0] |};
  {| e_regs := xs [(1, 0xFFFFFFFF); (2, 0xFFFFF809); (5, 0xFFFFFFFF); (6, 0xFFFFFFFF)]; e_pc := 14; e_ram := []; e_csrs := [0x0; 0x1800; 0x0; 0x0; 0x0; 0x0; 0x0] |};
  {| e_regs := xs [(1, 0x1); (2, 0xFFFFF809); (5, 0xFFFFFFFF); (6, 0xFFFFFFFF)]; e_pc := 15; e_ram := []; e_csrs := [0x0; 0x1800; 0x0; 0x0; 0x0; 0x0; 0x0] |};
  {| e_regs := xs [(1, 0x1); (5, 0xFFFFFFFF); (6, 0xFFFFFFFF)]; e_pc := 16; e_ram := []; e_csrs := [0x0; 0x1800; 0x0; 0x0; 0x0; 0x0; 0x0] |};
  {| e_regs := xs [(1, 0x1); (5, 0xFFFFFFFF); (6, 0x2)]; e_pc := 17; e_ram := []; e_csrs := [0x0; 0x1800; 0x0; 0x0; 0x0; 0x0; 0x0] |};
  {| e_regs := xs [(1, 0x1); (5, 0xFFFFFFFF); (6, 0x80000000)]; e_pc := 18; e_ram := []; e_csrs := [0x0; 0x1800; 0x0; 0x0; 0x0; 0x0; 0x0] |};
  {| e_regs := xs [(1, 0x1); (5, 0xFFFFFFFF); (6, 0x80000000); (7, 0xE0000000)]; e_pc := 19; e_ram := []; e_csrs := [0x0; 0x1800; 0x0; 0x0; 0x0; 0x0; 0x0] |};
  {| e_regs := xs [(1, 0x1); (5, 0xFFFFFFFF); (6, 0x80000000); (7, 0xE0000000); (8, 0x20000000)]; e_pc := 20; e_ram := []; e_csrs := [0x0; 0x1800; 0x0; 0x0; 0x0; 0x0; 0x0] |};
  {| e_regs := xs [(1, 0x1); (2, 0x3E4); (5, 0xFFFFFFFF); (6, 0x80000000); (7, 0xE0000000); (8, 0x20000000)]; e_pc := 21; e_ram := []; e_csrs := [0x0; 0x1800; 0x0; 0x0; 0x0; 0x0; 0x0] |};
  {| e_regs := xs [(1, 0x1); (2, 0x3E4); (3, 0x10); (5, 0xFFFFFFFF); (6, 0x80000000); (7, 0xE0000000); (8, 0x20000000)]; e_pc := 22; e_ram := []; e_csrs := [0x0; 0x1800; 0x0; 0x0; 0x0; 0x0; 0x0] |};
  {| e_regs := xs [(1, 0x1); (2, 0x3E4); (3, 0x10); (4, 0xFFFFE000); (5, 0xFFFFFFFF); (6, 0x80000000); (7, 0xE0000000); (8, 0x20000000)]; e_pc := 23; e_ram := []; e_csrs := [0x0; 0x1800; 0x0; 0x0; 0x0; 0x0; 0x0] |};
  {| e_regs := xs [(1, 0x1); (2, 0x3E4); (3, 0x10); (4, 0xFFFFE000); (5, 0xFFFFFFFF); (6, 0x80000000); (7, 0xE0000000); (8, 0x20000000); (9, 0xE000)]; e_pc := 24; e_ram := []; e_csrs := [0x0; 0x1800; 0x0; 0x0; 0x0; 0x0; 0x0] |};
  {| e_regs := xs [(1, 0x1); (2, 0x3E4); (3, 0x10); (4, 0xFFFFE000); (5, 0xFFFFFFFF); (6, 0x80000000); (7, 0xE0000000); (8, 0x20000000); (9, 0xE000)]; e_pc := 25; e_ram := []; e_csrs := [0x0; 0x1800; 0x0; 0x0; 0x0; 0x0; 0x0] |};
  {| e_regs := xs [(1, 0x1); (2, 0x3E4); (3, 0x10); (4, 0xFFFFE000); (5, 0xFFFFFFFF); (6, 0x80000000); (7, 0xE0000000); (8, 0x20000000); (9, 0xE000); (10, 0xFFFFF064)]; e_pc := 26; e_ram := []; e_csrs := [0x0; 0x1800; 0x0; 0x0; 0x0; 0x0; 0x0] |};
  {| e_regs := xs [(1, 0x6C); (2, 0x3E4); (3, 0x10); (4, 0xFFFFE000); (5, 0xFFFFFFFF); (6, 0x80000000); (7, 0xE0000000); (8, 0x20000000); (9, 0xE000); (10, 0xFFFFF064)]; e_pc := 28; e_ram := []; e_csrs := [0x0; 0x1800; 0x0; 0x0; 0x0; 0x0; 0x0] |};
  {| e_regs := xs [(1, 0x6C); (2, 0x3E4); (3, 0x10); (4, 0xFFFFE000); (5, 0xFFFFFFFF); (6, 0x80000000); (7, 0xE0000000); (8, 0x20000000); (9, 0xE000); (10, 0xFFFFF064)]; e_pc := 29; e_ram := [(155, 0xE400)]; e_csrs := [0x0; 0x1800; 0x0; 0x0; 0x0; 0x0; 0x0] |};
  {| e_regs := xs [(1, 0x6C); (2, 0x3E4); (3, 0x10); (4, 0xFFFFE000); (5, 0xFFFFFFFF); (6, 0x80000000); (7, 0xE0000000); (8, 0x20000000); (9, 0xE000); (10, 0xFFFFF064); (11, 0xFFFFFFE4)]; e_pc := 30; e_ram := [(155, 0xE400)]; e_csrs := [0x0; 0x1800; 0x0; 0x0; 0x0; 0x0; 0x0] |};
  {| e_regs := xs [(1, 0x6C); (2, 0x3E4); (3, 0x10); (4, 0xFFFFE000); (5, 0xFFFFFFFF); (6, 0x80000000); (7, 0xE0000000); (8, 0x20000000); (9, 0xE000); (10, 0xFFFFF064); (11, 0xE4)]; e_pc := 31; e_ram := [(155, 0xE400)]; e_csrs := [0x0; 0x1800; 0x0; 0x0; 0x0; 0x0; 0x0] |};
  {| e_regs := xs [(1, 0x6C); (2, 0x3E4); (3, 0x10); (4, 0xFFFFE000); (5, 0xFFFFFFFF); (6, 0x80000000); (7, 0xE0000000); (8, 0x20000000); (9, 0xE000); (10, 0xFFFFF064); (11, 0xE4); (12, 0x80)]; e_pc := 33; e_ram := [(155, 0xE400)]; e_csrs := [0x0; 0x1800; 0x0; 0x0; 0x0; 0x0; 0x0] |};
  {| e_regs := xs [(1, 0x6C); (2, 0x3E4); (3, 0x10); (4, 0xFFFFE000); (5, 0xFFFFFFFF); (6, 0x80000000); (7, 0xE0000000); (8, 0x20000000); (9, 0xE000); (10, 0xFFFFF064); (11, 0xE4); (12, 0x80)]; e_pc := 35; e_ram := [(155, 0xE400)]; e_csrs := [0x0; 0x1800; 0x0; 0x0; 0x0; 0x0; 0x0] |};
  {| e_regs := xs [(1, 0x6C); (2, 0x3E4); (3, 0x10); (4, 0xFFFFE000); (5, 0xFFFFFFFF); (6, 0x80000000); (7, 0xE0000000); (8, 0x20000000); (9, 0xE000); (10, 0xFFFFF064); (11, 0xE4); (12, 0x80)]; e_pc := 36; e_ram := [(155, 0xE400)]; e_csrs := [0x0; 0x1800; 0x0; 0x0; 0x0; 0x0; 0x0] |};
  {| e_regs := xs [(1, 0x6C); (2, 0x3E4); (3, 0x10); (4, 0xFFFFE000); (5, 0xFFFFFFFF); (6, 0x80000000); (7, 0xE0000000); (8, 0x20000000); (9, 0xE000); (10, 0xFFFFF064); (11, 0xE4); (12, 0x80)]; e_pc := 38; e_ram := [(155, 0xE400)]; e_csrs := [0x0; 0x1800; 0x0; 0x0; 0x0; 0x0; 0x0] |};
  {| e_regs := xs [(1, 0x6C); (2, 0x3E4); (3, 0x10); (4, 0xFFFFE000); (5, 0xFFFFFFFF); (6, 0x80000000); (7, 0xE0000000); (8, 0x20000000); (9, 0xE000); (10, 0xFFFFF064); (11, 0xE4); (12, 0x80)]; e_pc := 39; e_ram := [(155, 0xE400)]; e_csrs := [0x0; 0x1800; 0x0; 0x0; 0x0; 0x0; 0x0] |};
  {| e_regs := xs [(1, 0x6C); (2, 0x3E4); (3, 0x10); (4, 0xFFFFE000); (5, 0xFFFFFFFF); (6, 0x80000000); (7, 0xE0000000); (8, 0x20000000); (9, 0xE000); (10, 0xFFFFF064); (11, 0xE4); (12, 0x80)]; e_pc := 40; e_ram := [(155, 0xE400)]; e_csrs := [0x0; 0x1800; 0x0; 0x0; 0x0; 0x0; 0x0] |};
  {| e_regs := xs [(1, 0x6C); (2, 0x3E4); (3, 0x10); (4, 0xFFFFE000); (5, 0xFFFFFFFF); (6, 0x80000000); (7, 0xE0000000); (8, 0x20000000); (9, 0xE000); (10, 0xFFFFF064); (11, 0xE4); (12, 0x80)]; e_pc := 42; e_ram := [(155, 0xE400)]; e_csrs := [0x0; 0x1800; 0x0; 0x0; 0x0; 0x0; 0x0] |};
  {| e_regs := xs [(1, 0x6C); (2, 0x3E4); (3, 0x10); (4, 0xFFFFE000); (5, 0xFFFFFFFF); (6, 0x80000000); (7, 0xE0000000); (8, 0x20000000); (9, 0xE000); (10, 0xFFFFF064); (11, 0xE4); (12, 0x80)]; e_pc := 44; e_ram := [(155, 0xE400)]; e_csrs := [0x0; 0x1800; 0x0; 0x0; 0x0; 0x0; 0x0] |};
  {| e_regs := xs [(1, 0x6C); (2, 0x3E4); (3, 0x10); (4, 0xFFFFE000); (5, 0xFFFFFFFF); (6, 0x80000000); (7, 0xE0000000); (8, 0x20000000); (9, 0xE000); (10, 0xFFFFF064); (11, 0xE4); (12, 0x80)]; e_pc := 45; e_ram := [(155, 0x3E4E400)]; e_csrs := [0x0; 0x1800; 0x0; 0x0; 0x0; 0x0; 0x0] |};
  {| e_regs := xs [(1, 0x6C); (2, 0x3E4); (3, 0x10); (4, 0xFFFFE000); (5, 0xFFFFFFFF); (6, 0x80000000); (7, 0xE0000000); (8, 0x20000000); (9, 0xE000); (10, 0xFFFFF064); (11, 0xE4); (12, 0x80)]; e_pc := 46; e_ram := [(155, 0x3E4E400); (156, 0xFFFFE000)]; e_csrs := [0x0; 0x1800; 0x0; 0x0; 0x0; 0x0; 0x0] |};
  {| e_regs := xs [(1, 0x6C); (2, 0x3E4); (3, 0x10); (4, 0xFFFFE000); (5, 0xFFFFFFFF); (6, 0x80000000); (7, 0xE0000000); (8, 0x20000000); (9, 0xE000); (10, 0xFFFFF064); (11, 0xE4); (12, 0x80); (13, 0xFFFFFFFF)]; e_pc := 47; e_ram := [(155, 0x3E4E400); (156, 0xFFFFE000)]; e_csrs := [0x0; 0x1800; 0x0; 0x0; 0x0; 0x0; 0x0] |};
  {| e_regs := xs [(1, 0x6C); (2, 0x3E4); (3, 0x10); (4, 0xFFFFE000); (5, 0xFFFFFFFF); (6, 0x80000000); (7, 0xE0000000); (8, 0x20000000); (9, 0xE000); (10, 0xFFFFF064); (11, 0xE4); (12, 0x80); (13, 0xFFFF)]; e_pc := 48; e_ram := [(155, 0x3E4E400); (156, 0xFFFFE000)]; e_csrs := [0x0; 0x1800; 0x0; 0x0; 0x0; 0x0; 0x0] |};
  {| e_regs := xs [(1, 0x6C); (2, 0x3E4); (3, 0x10); (4, 0xFFFFE000); (5, 0xFFFFFFFF); (6, 0x80000000); (7, 0xE0000000); (8, 0x20000000); (9, 0xE000); (10, 0xFFFFF064); (11, 0xE4); (12, 0x80); (13, 0xFFFF)]; e_pc := 49; e_ram := [(155, 0x3E4E400); (156, 0xFFFFE000)]; e_csrs := [0x0; 0x1800; 0x0; 0x0; 0x0; 0x0; 0x0] |};
  {| e_regs := xs [(1, 0x6C); (2, 0x3E4); (3, 0x10); (4, 0xFFFFE000); (5, 0xFFFFFFFF); (6, 0x80000000); (7, 0xE0000000); (8, 0x20000000); (9, 0xE000); (10, 0xFFFFF064); (11, 0xE4); (12, 0x80); (13, 0xFFFF); (14, 0x3E4E400)]; e_pc := 50; e_ram := [(155, 0x3E4E400); (156, 0xFFFFE000)]; e_csrs := [0x0; 0x1800; 0x0; 0x0; 0x0; 0x0; 0x0] |}].
(** CSR_R0 (tests/sim/test_top.py:278-297): program (assembled by hand) and expected values. *)
Definition csr_r0_prog : list Z := [0x00100093; 0xf11020f3].
Definition csr_r0 : list expect := [
  {| e_regs := xs []; e_pc := 0; e_ram := []; e_csrs := [0x0; 0x1800; 0x0; 0x0; 0x0; 0x0; 0x0] |};
  {| e_regs := xs [(1, 0x1)]; e_pc := 1; e_ram := []; e_csrs := [0x0; 0x1800; 0x0; 0x0; 0x0; 0x0; 0x0] |};
  {| e_regs := xs []; e_pc := 2; e_ram := []; e_csrs := [0x0; 0x1800; 0x0; 0x0; 0x0; 0x0; 0x0] |}].
(** CSRW (tests/sim/test_top.py:300-382): program (assembled by hand) and expected values. *)
Definition csrw_prog : list Z := [0x340fd073; 0x3408d0f3; 0x3400f173; 0x30045073; 0x3004d1f3; 0x3400e273; 0x34016073; 0x34017073; 0x340072f3; 0x300060f3; 0x34019073; 0x34021173; 0xfff04113; 0x34011073; 0x34023273; 0x34003173; 0x30002173; 0x00111113; 0x340121f3].
Definition csrw : list expect := [
  {| e_regs := xs []; e_pc := 0; e_ram := []; e_csrs := [0x0; 0x1800; 0x0; 0x0; 0x0; 0x0; 0x0] |};
  {| e_regs := xs []; e_pc := 1; e_ram := []; e_csrs := [0x1F; 0x1800; 0x0; 0x0; 0x0; 0x0; 0x0] |};
  {| e_regs := xs [(1, 0x1F)]; e_pc := 2; e_ram := []; e_csrs := [0x11; 0x1800; 0x0; 0x0; 0x0; 0x0; 0x0] |};
  {| e_regs := xs [(1, 0x1F); (2, 0x11)]; e_pc := 3; e_ram := []; e_csrs := [0x10; 0x1800; 0x0; 0x0; 0x0; 0x0; 0x0] |};
  {| e_regs := xs [(1, 0x1F); (2, 0x11)]; e_pc := 4; e_ram := []; e_csrs := [0x10; 0x1808; 0x0; 0x0; 0x0; 0x0; 0x0] |};
  {| e_regs := xs [(1, 0x1F); (2, 0x11); (3, 0x1808)]; e_pc := 5; e_ram := []; e_csrs := [0x10; 0x1808; 0x0; 0x0; 0x0; 0x0; 0x0] |};
  {| e_regs := xs [(1, 0x1F); (2, 0x11); (3, 0x1808); (4, 0x10)]; e_pc := 6; e_ram := []; e_csrs := [0x11; 0x1808; 0x0; 0x0; 0x0; 0x0; 0x0] |};
  {| e_regs := xs [(1, 0x1F); (2, 0x11); (3, 0x1808); (4, 0x10)]; e_pc := 7; e_ram := []; e_csrs := [0x13; 0x1808; 0x0; 0x0; 0x0; 0x0; 0x0] |};
  {| e_regs := xs [(1, 0x1F); (2, 0x11); (3, 0x1808); (4, 0x10)]; e_pc := 8; e_ram := []; e_csrs := [0x11; 0x1808; 0x0; 0x0; 0x0; 0x0; 0x0] |};
  {| e_regs := xs [(1, 0x1F); (2, 0x11); (3, 0x1808); (4, 0x10); (5, 0x11)]; e_pc := 9; e_ram := []; e_csrs := [0x11; 0x1808; 0x0; 0x0; 0x0; 0x0; 0x0] |};
  {| e_regs := xs [(1, 0x1808); (2, 0x11); (3, 0x1808); (4, 0x10); (5, 0x11)]; e_pc := 10; e_ram := []; e_csrs := [0x11; 0x1808; 0x0; 0x0; 0x0; 0x0; 0x0] |};
  {| e_regs := xs [(1, 0x1808); (2, 0x11); (3, 0x1808); (4, 0x10); (5, 0x11)]; e_pc := 11; e_ram := []; e_csrs := [0x1808; 0x1808; 0x0; 0x0; 0x0; 0x0; 0x0] |};
  {| e_regs := xs [(1, 0x1808); (2, 0x1808); (3, 0x1808); (4, 0x10); (5, 0x11)]; e_pc := 12; e_ram := []; e_csrs := [0x10; 0x1808; 0x0; 0x0; 0x0; 0x0; 0x0] |};
  {| e_regs := xs [(1, 0x1808); (2, 0xFFFFFFFF); (3, 0x1808); (4, 0x10); (5, 0x11)]; e_pc := 13; e_ram := []; e_csrs := [0x10; 0x1808; 0x0; 0x0; 0x0; 0x0; 0x0] |};
  {| e_regs := xs [(1, 0x1808); (2, 0xFFFFFFFF); (3, 0x1808); (4, 0x10); (5, 0x11)]; e_pc := 14; e_ram := []; e_csrs := [0xFFFFFFFF; 0x1808; 0x0; 0x0; 0x0; 0x0; 0x0] |};
  {| e_regs := xs [(1, 0x1808); (2, 0xFFFFFFFF); (3, 0x1808); (4, 0xFFFFFFFF); (5, 0x11)]; e_pc := 15; e_ram := []; e_csrs := [0xFFFFFFEF; 0x1808; 0x0; 0x0; 0x0; 0x0; 0x0] |};
  {| e_regs := xs [(1, 0x1808); (2, 0xFFFFFFEF); (3, 0x1808); (4, 0xFFFFFFFF); (5, 0x11)]; e_pc := 16; e_ram := []; e_csrs := [0xFFFFFFEF; 0x1808; 0x0; 0x0; 0x0; 0x0; 0x0] |};
  {| e_regs := xs [(1, 0x1808); (2, 0x1808); (3, 0x1808); (4, 0xFFFFFFFF); (5, 0x11)]; e_pc := 17; e_ram := []; e_csrs := [0xFFFFFFEF; 0x1808; 0x0; 0x0; 0x0; 0x0; 0x0] |};
  {| e_regs := xs [(1, 0x1808); (2, 0x3010); (3, 0x1808); (4, 0xFFFFFFFF); (5, 0x11)]; e_pc := 18; e_ram := []; e_csrs := [0xFFFFFFEF; 0x1808; 0x0; 0x0; 0x0; 0x0; 0x0] |};
  {| e_regs := xs [(1, 0x1808); (2, 0x3010); (3, 0xFFFFFFEF); (4, 0xFFFFFFFF); (5, 0x11)]; e_pc := 19; e_ram := []; e_csrs := [0xFFFFFFFF; 0x1808; 0x0; 0x0; 0x0; 0x0; 0x0] |}].
(** EXCEPTION (tests/sim/test_top.py:385-411): program (assembled by hand) and expected values. *)
Definition exception_prog : list Z := [0x30585073; 0x00000073; 0x00000013; 0x00000013; 0x30200073].
Definition exception : list expect := [
  {| e_regs := xs []; e_pc := 0; e_ram := []; e_csrs := [0x0; 0x1800; 0x0; 0x0; 0x0; 0x0; 0x0] |};
  {| e_regs := xs []; e_pc := 1; e_ram := []; e_csrs := [0x0; 0x1800; 0x10; 0x0; 0x0; 0x0; 0x0] |};
  {| e_regs := xs []; e_pc := 4; e_ram := []; e_csrs := [0x0; 0x1800; 0x10; 0x4; 0xB; 0x0; 0x0] |};
  {| e_regs := xs []; e_pc := 1; e_ram := []; e_csrs := [0x0; 0x1880; 0x10; 0x4; 0xB; 0x0; 0x0] |}].

Ltac run_seq := rewrite <- seq_run_loop; vm_compute; reflexivity.
Example C74_handwritten : seq_run (fun _ => false) por (image handwritten_prog) handwritten 700 = Passed. Proof. run_seq. Qed.
Example C74_csr_r0 : seq_run (fun _ => false) por (image csr_r0_prog) csr_r0 100 = Passed. Proof. run_seq. Qed.
Example C74_csrw : seq_run (fun _ => false) por (image csrw_prog) csrw 400 = Passed. Proof. run_seq. Qed.
Example C74_exception : seq_run (fun _ => false) por (image exception_prog) exception 100 = Passed. Proof. run_seq. Qed.
(** And a wrong expectation is found. *)
Example C74_detects : seq_run (fun _ => false) por (image exception_prog) csr_r0 100 = WrongValue. Proof. run_seq. Qed.
Example C74_applies : fresh por /\ Forall word (image handwritten_prog).
Proof.
  split; [apply por_fresh|]. apply Forall_forall. intros x Hx.
  assert (E : forallb (fun x => (0 <=? x) && (x <? 2 ^ 32)) (image handwritten_prog) = true) by (vm_compute; reflexivity).
  rewrite forallb_forall in E. specialize (E x Hx). unfold word. lia.
Qed.

(** ** The witness test of tests/sim/test_witness.py passes on the model *)
(** ACK and DAT_R in each cycle (tests/sim/test_witness.py:28-110). *)
Definition witness : list (bool * Z) := [(false, 0x0); (false, 0x0); (false, 0x300fffff); (false, 0x300fffff); (false, 0x301fffff); (false, 0x301fffff); (false, 0xf4427fff); (true, 0x30023473); (false, 0x2073); (true, 0x32112273); (false, 0x30814013); (false, 0x91b533); (false, 0x342c01a3); (false, 0x3409a173); (false, 0x2403); (false, 0x3020006f); (false, 0x10e1f3); (false, 0x44205363); (true, 0x2847093); (false, 0xb02097ef); (true, 0x84d094); (false, 0x3040810f); (false, 0x6410b7); (false, 0xfed8309c); (false, 0xdd528f93); (false, 0x1053806d); (true, 0x0)].
(** Its inputs (test_witness.py:28-110). *)
Definition witness_inp (t : nat) : input := let (a, d) := nth t witness (false, 0) in {| rst := false; ack := a; dat_r := d; irq := false |}.
(** Its three assertions (test_witness.py:80, 113-119): the CSR address after 17 ticks; registers and CSRs after 27. *)
Example C74_witness :
  (let c := run por witness_inp 17 in csr_adr (s_u c) (mp_enc (s_map c)) = 0) /\
  (let c := run por witness_inp 27 in matches {| e_regs := xs [(8, 0x1800)]; e_pc := 2; e_ram := []; e_csrs := [0; 0x1800; 0; 0; 0; 0; 0] |} c [] false = true).
Proof. split; vm_compute; reflexivity. Qed.

(** * C82, C83: the SoC with CSR peripherals (the default) runs programs like an RV32I machine with RAM and devices, also when it is reset *)
From Coq Require Import ZArith Lia Bool List.
From Verif Require Import Bits Ucode Cpu Isa Timed BitLemmas Wf Sym Blocks CsrBlocks DecodeOk Boundary Sim Main Obs PropsBus PropsInv Observe PropsIsa Latency PropsFrame InputsMatter Memory SocMem Crash Uart Periph Soc SocIo IoMem CsrBus CsrSoc.
Import ListNotations.
Open Scope Z_scope.

(** ** Proofs *)
Section S.
Variables (k D : Z) (x0 : csoc) (p : nat -> pins).
Hypothesis (Hs : csoc_start x0) (Hp : pins_ok p).
Local Notation s := (co_cpu x0).
Local Notation inp := (csoc_inp k D x0 p).
Local Notation m0 := (fun z => byte (wm_mem (co_mem x0) (z / 4)) (z mod 4)).
Local Notation ram := (fun a => a <? 2 ^ 23).
Local Notation phys := (fun a => a mod 2 ^ k).

Lemma adr_range t : 0 <= o_adr (run s inp t).
Proof.
  assert (W : wf (run s inp t)). { destruct (cst_cpu _ Hs) as (? & ? & ? & _ & W). apply run_wf; [exact W|]. intros u. apply (csoc_ok k D x0 p Hs). }
  unfold o_adr, addr_align_adr. pose proof (wf_pc _ W). pose proof (wf_data_adr _ W). unfold inw, word in *. repeat match goal with |- context [if ?c then _ else _] => destruct c end; unfold bits; try apply Z.mod_pos_bound; lia.
Qed.
Lemma below t : (o_adr (run s inp t) <? 2 ^ 23) = (o_adr (run s inp t) / 2 ^ 23 =? 0).
Proof.
  pose proof (adr_range t) as H. destruct (Z.ltb_spec (o_adr (run s inp t)) (2 ^ 23)) as [L|L]; symmetry; [apply Z.eqb_eq, Z.div_small; lia|apply Z.eqb_neq].
  intros E. apply Z.div_small_iff in E; lia.
Qed.
Lemma ram_mem_after t z : ram_mem ram phys s inp m0 t z = ram_after k (run s inp) (fun u => ack (inp u)) m0 t z.
Proof. induction t as [|t IH]; [reflexivity|]. cbn [ram_mem ram_after]. cbv zeta beta. rewrite below, IH. reflexivity. Qed.
Lemma csoc_ram_slave : ram_slave ram phys s inp m0.
Proof.
  intros t x C A We Rm i Hi. apply Z.ltb_lt in Rm. rewrite ram_mem_after. apply C60_csr_soc_memory; try assumption. split; [apply adr_range|exact Rm].
Qed.
(** The memory array in a cycle already has the store acknowledged in it. *)
Lemma array t z : byte (wm_mem (co_mem (csoc_run k D x0 p t)) (z / 4)) (z mod 4) = ram_mem ram phys s inp m0 (S t) z.
Proof.
  set (b := rbus k D x0 p).
  assert (Em : forall u, co_mem (csoc_run k D x0 p u) = mem_run k (co_mem x0) b u) by (intros u; apply csoc_mem; exact Hs).
  destruct (minv_all k (co_mem x0) b (ms_ack _ (cst_mem _ Hs)) (rbus_held k D x0 p Hs) t) as [I1 I2].
  assert (Eb : forall u, b u = sub_bus RAM (cpu_bus (run s inp u))) by reflexivity.
  assert (Hz : 0 <= z mod 4 < 4) by (apply Z.mod_pos_bound; lia).
  assert (Eq : forall t, p_req (b t) && wm_ack (mem_run k (co_mem x0) b t) = o_cyc (run s inp t) && ack (inp t) && (o_adr (run s inp t) <? 2 ^ 23)).
  { clear t I1 I2. intros t. rewrite (cack_is k D x0 p Hs t). fold b. unfold b at 1. rewrite (rbus_req k D x0 p t). rewrite below. unfold in_ram. destruct (o_cyc (run s inp t)); [|reflexivity]. cbn [andb].
    destruct (_ =? 0); cbn [andb]; [rewrite andb_true_r; reflexivity|rewrite andb_false_r; reflexivity]. }
  assert (Wr : forall t, b_we (b t) && (z / 4 =? b_adr (b t) mod 2 ^ k) && Z.testbit (b_sel (b t)) (z mod 4) = o_we (run s inp t) && (z / 4 =? (o_adr (run s inp t) mod 2 ^ 23) mod 2 ^ k) && Z.testbit (o_sel (run s inp t)) (z mod 4)).
  { intros u. rewrite Eb. cbn [sub_bus cpu_bus b_we b_adr b_sel adr_width lanes_of]. rewrite Z.mod_pow2_bits_low by lia. reflexivity. }
  assert (Dt : forall t, byte (b_dat_w (b t)) (z mod 4) = byte (o_dat_w (run s inp t)) (z mod 4)).
  { intros u. rewrite Eb. cbn [sub_bus cpu_bus b_dat_w lanes_of]. apply mod_lane. exact Hz. }
  assert (One : forall t f, (if p_req (b t) && wm_ack (mem_run k (co_mem x0) b t) && b_we (b t) && (z / 4 =? b_adr (b t) mod 2 ^ k) && Z.testbit (b_sel (b t)) (z mod 4) then byte (b_dat_w (b t)) (z mod 4) else f)
     = if o_cyc (run s inp t) && ack (inp t) && o_we (run s inp t) && (o_adr (run s inp t) <? 2 ^ 23) && (z / 4 =? o_adr (run s inp t) mod 2 ^ k) && Z.testbit (o_sel (run s inp t)) (z mod 4) then byte (o_dat_w (run s inp t)) (z mod 4) else f).
  { intros u f. rewrite <- !andb_assoc. rewrite (andb_assoc (p_req _)), (andb_assoc (o_cyc _)), Eq. specialize (Wr u). rewrite <- !andb_assoc in Wr. rewrite Wr, Dt.
    destruct (o_cyc (run s inp u) && ack (inp u)); cbn [andb]; [|reflexivity]. destruct (Z.ltb_spec (o_adr (run s inp u)) (2 ^ 23)) as [L|L]; [|rewrite andb_false_r; reflexivity]. rewrite andb_true_l.
    rewrite (Z.mod_small (o_adr (run s inp u)) (2 ^ 23)) by (pose proof (adr_range u); lia). cbn [andb]. reflexivity. }
  assert (Sp : forall t, bytes_after k b (fun u => wm_ack (mem_run k (co_mem x0) b u)) m0 t z = ram_mem ram phys s inp m0 t z).
  { clear t I1 I2. induction t as [|t IH]; [reflexivity|]. cbn [bytes_after ram_mem]. cbv zeta beta. rewrite IH. apply One. }
  rewrite Em. rewrite I2. cbn [ram_mem]. cbv zeta beta. rewrite <- One. rewrite <- (Sp t). destruct (wm_ack (mem_run k (co_mem x0) b t)) eqn:Ak.
  - destruct (I1 eq_refl) as [R _]. rewrite R. cbn [andb]. reflexivity.
  - rewrite andb_false_r. reflexivity.
Qed.
End S.

(** ** The SoC under resets *)
(** One cycle with the reset [r] of the clock domain (attosoc.py:833-919): the core, the CSR bridge and the CSR peripherals go to their reset values; the memory has
    no reset except for its ACK ([wbmem_rstep], Crash.v). *)
Definition csoc_rstep (k D : Z) (r : bool) (x : csoc) (p : pins) : csoc :=
  let b := cpu_bus (co_cpu x) in let n := csoc_step k D x p in
  {| co_cpu := step (co_cpu x) {| rst := r; ack := ack (co_inp x); dat_r := dat_r (co_inp x); irq := irq (co_inp x) |};
     co_mem := wbmem_rstep k r (co_mem x) (sub_bus RAM b);
     co_per := if r then csrp_init else co_per n |}.
(** Cycle after cycle, with the reset waveform [rw]. *)
Fixpoint csoc_rrun (k D : Z) (rw : nat -> bool) (x : csoc) (p : nat -> pins) (t : nat) : csoc :=
  match t with O => x | S n => csoc_rstep k D (rw n) (csoc_rrun k D rw x p n) (p n) end.
(** The bytes of the RAM. *)
Definition csoc_bytes (x : csoc) (z : Z) : Z := byte (wm_mem (co_mem x) (z / 4)) (z mod 4).
Lemma csoc_rstep_quiet k D x p : csoc_rstep k D false x p = csoc_step k D x p.
Proof.
  unfold csoc_rstep, csoc_step, wbmem_rstep. rewrite andb_true_r.
  replace {| rst := false; ack := ack (co_inp x); dat_r := dat_r (co_inp x); irq := irq (co_inp x) |} with (co_inp x) by reflexivity. f_equal.
Qed.
Lemma csoc_quiet k D rw x p T n : (forall u, (u < n)%nat -> rw (T + u)%nat = false) ->
  csoc_rrun k D rw x p (T + n) = csoc_run k D (csoc_rrun k D rw x p T) (fun u => p (T + u)%nat) n.
Proof.
  induction n as [|n IH]; intros H; [rewrite Nat.add_0_r; reflexivity|]. rewrite Nat.add_succ_r. cbn [csoc_rrun csoc_run]. rewrite IH by (intros; apply H; lia). rewrite H by lia. apply csoc_rstep_quiet.
Qed.
Lemma csoc_run_cpu k D x p t : co_cpu (csoc_run k D x p t) = run (co_cpu x) (csoc_inp k D x p) t.
Proof. apply csoc_cpu. Qed.

Section R.
Variables (k D : Z) (rw : nat -> bool) (x0 : csoc) (p : nat -> pins).
Hypothesis (Hs : csoc_start x0) (Hp : pins_ok p).
Local Notation sr := (csoc_rrun k D rw x0 p).
Local Notation ram := (fun a => a <? 2 ^ 23).
Local Notation phys := (fun a => a mod 2 ^ k).
Lemma csoc_words t : (forall a, word (wm_mem (co_mem (sr t)) a)) /\ word (wm_rdata (co_mem (sr t))).
Proof.
  induction t as [|t [I1 I2]]; [split; apply Hs|]. cbn [csoc_rrun csoc_rstep co_mem wbmem_rstep wbmem_step wm_mem wm_rdata]. split.
  - intros a. destruct (_ && _); [|apply I1]. destruct (_ =? _); [apply merge_word|apply I1].
  - destruct (_ && _); [apply I1|assumption].
Qed.
Lemma shifted_pins T : pins_ok (fun u => p (T + u)%nat).
Proof. intros u. apply Hp. Qed.
(** The memory in a cycle of one life is that of the machine after some number of instructions. *)
Lemma one_life x q : csoc_start x -> pins_ok q -> forall t, exists ev n, (fetched_before (co_cpu x) (csoc_inp k D x q) (S t) = n \/ fetched_before (co_cpu x) (csoc_inp k D x q) (S t) = S n) /\
  happened (co_cpu x) (csoc_inp k D x q) ev (S t) /\ forall z, csoc_bytes (csoc_run k D x q t) z = snd (io_run ram phys ev n (boot_arch (co_cpu x), csoc_bytes x)) z.
Proof.
  intros Sx Sq t. destruct (io_tracks_all ram phys _ _ _ (csoc_ok k D x q Sx) (csoc_ram_slave k D x q Sx Sq) (S t)) as (ev & Hh & Tr). unfold io_tracks in Tr.
  destruct (machine _ _ (S t)) as [a|r k0].
  - exists ev, (fetched_before (co_cpu x) (csoc_inp k D x q) (S t)). split; [auto|]. split; [exact Hh|]. intros z. unfold csoc_bytes at 1. rewrite (array k D x q Sx). symmetry. apply Tr.
  - destruct Tr as (n & En & _ & Hm & _). exists ev, n. split; [auto|]. split; [exact Hh|]. intros z. unfold csoc_bytes at 1. rewrite (array k D x q Sx). symmetry. apply Hm.
Qed.
Lemma next_array x q t : wm_mem (co_mem (csoc_rstep k D true (csoc_run k D x q t) (q t))) = wm_mem (co_mem (csoc_run k D x q (S t))).
Proof. reflexivity. Qed.
Lemma reset_starts T : rw T = true -> (exists U n, T = (U + n)%nat /\ (forall u, (u < n)%nat -> rw (U + u)%nat = false) /\ csoc_start (sr U)) -> csoc_start (sr (S T)).
Proof.
  intros R (U & n & E & H & St). destruct (csoc_words (S T)) as [W1 W2]. constructor; try (cbn [csoc_rrun csoc_rstep co_per]; rewrite R; reflexivity).
  - subst T. cbn [csoc_rrun csoc_rstep co_cpu]. rewrite R, (csoc_quiet k D rw x0 p U n H). apply step_reset_fresh; [| |reflexivity].
    + rewrite csoc_run_cpu. destruct (cst_cpu _ St) as (? & ? & ? & _ & W). apply run_wf; [exact W|]. intros u. apply (csoc_ok k D _ _ St).
    + cbn [dat_r]. apply (csoc_ok k D _ _ St).
  - constructor; [exact W1|exact W2|]. cbn [csoc_rrun csoc_rstep co_mem wbmem_rstep wm_ack]. rewrite R. apply andb_false_r.
Qed.
(** Since the last reset. *)
Lemma csoc_since t : exists T n, t = (T + n)%nat /\ (forall u, (u < n)%nat -> rw (T + u)%nat = false) /\ csoc_start (sr T) /\
  ((T = O /\ resets rw t = O) \/ exists r, io_lives ram phys (csoc_bytes x0) r (csoc_bytes (sr T)) /\ resets rw t = S r).
Proof.
  induction t as [|t (T & n & -> & H & St & Q)].
  - exists O, O. split; [reflexivity|]. split; [intros; lia|]. split; [exact Hs|]. left. split; reflexivity.
  - unfold resets. rewrite count_S. fold (resets rw (T + n)). destruct (rw (T + n)%nat) eqn:R.
    + exists (S (T + n)), O. split; [lia|]. split; [intros; lia|]. split; [apply reset_starts; [exact R|exists T, n; auto]|].
      right. assert (L : exists a ev j, booted a /\ forall z, csoc_bytes (sr (S (T + n))) z = snd (io_run ram phys ev j (a, csoc_bytes (sr T))) z).
      { destruct (one_life (sr T) _ St (shifted_pins T) (S n)) as (ev & j & _ & _ & E). exists (boot_arch (co_cpu (sr T))), ev, j. split; [repeat split|]. intros z. rewrite <- E.
        unfold csoc_bytes. cbn [csoc_rrun]. rewrite R, (csoc_quiet k D rw x0 p T n H). reflexivity. }
      destruct L as (a & ev & j & Ba & Hz). destruct Q as [(-> & Q)|(r & Lr & Q)]; rewrite Q.
      * exists O. split; [|reflexivity]. eapply io_first; eauto.
      * exists (S r). split; [|lia]. eapply io_next; eauto.
    + exists T, (S n). split; [lia|]. split. { intros u Hu. destruct (Nat.eq_dec u n) as [->|]; [exact R|apply H; lia]. }
      split; [exact St|]. rewrite Nat.add_0_r. exact Q.
Qed.
End R.

(** ** Theorems *)
(** C82: in every cycle in which the core of the CSR variant of AttoSoC completes an instruction fetch, whatever the program and the pins do, RAM and registers are those of the RV32I
    machine with RAM and devices after the instructions fetched before, given what the devices, the interrupt line and fetches from outside the RAM have delivered; and if the
    instruction is in RAM (word addresses below [2 ^ 23], mirrored every [2 ^ k]), it is the word the machine has there. *)
Theorem C82_csr_soc_programs : forall k D x0 p, csoc_start x0 -> pins_ok p ->
  let s := co_cpu x0 in let inp := csoc_inp k D x0 p in
  forall t w, fetch_done s inp t w ->
  exists ev, happened s inp ev t /\
  let (a, m) := io_run (fun a => a <? 2 ^ 23) (fun a => a mod 2 ^ k) ev (fetched_before s inp t) (boot_arch s, csoc_bytes x0) in
  (pc a / 4 < 2 ^ 23 -> w = peek (fun a => a mod 2 ^ k) m (pc a) 4) /\ (forall z, m z = csoc_bytes (csoc_run k D x0 p t) z) /\
  let x := co_cpu (csoc_run k D x0 p (S t)) in
  (forall r, 0 <= r < 32 -> x_of x r = rd_x a r) /\ pc_of x = pc a /\
  mie_of x = mie a /\ mpie_of x = mpie a /\ meie_of x = meie a /\
  mtvec_of x = mtvec a /\ mscratch_of x = mscratch a /\ mepc_of x = mepc a /\ mcause_of x = mcause a.
Proof.
  intros k D x0 p Hs Hp s inp t w F. pose proof (csoc_ok k D x0 p Hs) as K.
  destruct (io_tracks_all (fun a => a <? 2 ^ 23) (fun a => a mod 2 ^ k) s inp (csoc_bytes x0) K (csoc_ram_slave k D x0 p Hs Hp) t) as (ev & Hh & Tr). exists ev. split; [exact Hh|].
  destruct (C02_registers_match_reference s inp K t w F) as (a & M & R). unfold io_tracks in Tr. rewrite M in Tr.
  destruct (io_run _ _ _ _ _) as [a' m]. cbn [fst snd] in Tr. destruct Tr as [-> Hm]. destruct F as (C & U & A & Dw). split; [|split].
  - intros L. rewrite <- Dw. rewrite (code_word _ _ s inp _ K (csoc_ram_slave k D x0 p Hs Hp) t a m C A M Hm) at 1. rewrite (proj2 (Z.ltb_lt _ _) L). reflexivity.
  - intros z. unfold csoc_bytes. rewrite (array k D x0 p Hs), Hm. cbn [ram_mem]. cbv zeta. fold s inp.
    pose proof (bus_shows s inp K t C) as Sh. rewrite M in Sh. destruct Sh. rewrite sh_we. cbn [request q_we]. rewrite andb_false_r. reflexivity.
  - cbv zeta. rewrite csoc_run_cpu. exact R.
Qed.
(** C83, one boot: in every cycle the RAM holds what the machine's holds after all the instructions fetched so far, or after all but the last one. *)
Theorem C83_csr_every_cycle : forall k D x0 p, csoc_start x0 -> pins_ok p ->
  let s := co_cpu x0 in let inp := csoc_inp k D x0 p in
  forall t, exists ev n, (fetched_before s inp (S t) = n \/ fetched_before s inp (S t) = S n) /\ happened s inp ev (S t) /\
  forall z, csoc_bytes (csoc_run k D x0 p t) z = snd (io_run (fun a => a <? 2 ^ 23) (fun a => a mod 2 ^ k) ev n (boot_arch s, csoc_bytes x0)) z.
Proof. intros k D x0 p Hs Hp s inp t. exact (one_life k D x0 p Hs Hp t). Qed.
(** C83: a reset in any cycle starts the SoC afresh (so every theorem about the SoC after a reset holds again), with the RAM as it was: a store whose request
    is on the bus in that cycle is still carried out, and nothing else changes. *)
Theorem C83_csr_restart : forall k D rw x0 p, csoc_start x0 -> pins_ok p ->
  forall T, rw T = true -> let x := csoc_rrun k D rw x0 p (S T) in
  csoc_start x /\ (forall n, (forall u, (u < n)%nat -> rw (S T + u)%nat = false) -> csoc_rrun k D rw x0 p (S T + n) = csoc_run k D x (fun u => p (S T + u)%nat) n) /\
  let b := co_cpu (csoc_rrun k D rw x0 p T) in
  forall z, csoc_bytes x z = if o_cyc b && o_we b && (o_adr b <? 2 ^ 23) && (z / 4 =? o_adr b mod 2 ^ k) && Z.testbit (o_sel b) (z mod 4) then byte (o_dat_w b) (z mod 4) else csoc_bytes (csoc_rrun k D rw x0 p T) z.
Proof.
  intros k D rw x0 p Hs Hp T R x. destruct (csoc_since k D rw x0 p Hs Hp T) as (U & n & E & H & St & _). split; [|split].
  - apply reset_starts; [assumption|exact R|exists U, n; auto].
  - intros n' H'. apply csoc_quiet. exact H'.
  - intros b z. unfold x, csoc_bytes. cbn [csoc_rrun csoc_rstep co_mem wbmem_rstep wbmem_step wm_mem]. fold b. cbn [sub_bus cpu_bus b_stb b_cyc b_we b_adr b_sel b_dat_w adr_width lanes_of].
    rewrite C10_stb_is_cyc. set (m := wm_mem (co_mem (csoc_rrun k D rw x0 p T))).
    assert (Ha : 0 <= o_adr b). { unfold b. rewrite E, (csoc_quiet k D rw x0 p U n H), csoc_run_cpu. apply adr_range; exact St. }
    assert (Rg : in_region RAM (o_adr b) = (o_adr b <? 2 ^ 23)).
    { unfold in_region, region_of. destruct (Z.ltb_spec (o_adr b) (2 ^ 23)) as [L|L]; [rewrite Z.div_small by lia; reflexivity|].
      assert (N : o_adr b / 2 ^ 23 <> 0) by (intros N; apply Z.div_small_iff in N; lia). rewrite (proj2 (Z.eqb_neq _ _) N). repeat (destruct (_ =? _); [reflexivity|]). reflexivity. }
    rewrite Rg. destruct (o_cyc b); [|reflexivity]. cbn [andb]. destruct (Z.ltb_spec (o_adr b) (2 ^ 23)) as [L|L]; [|rewrite !andb_false_r; reflexivity].
    rewrite (Z.mod_small (o_adr b)) by lia. rewrite andb_true_r. destruct (o_we b); [|reflexivity]. cbn [andb]. destruct (z / 4 =? _); [|reflexivity]. cbn [andb].
    assert (Hz : 0 <= z mod 4 < 4) by (apply Z.mod_pos_bound; lia). rewrite merge_byte by exact Hz. rewrite Z.mod_pow2_bits_low by lia. rewrite mod_lane by exact Hz. reflexivity.
Qed.
(** C83: whenever and however often the SoC is reset, its RAM holds in any cycle what the machine with RAM and devices can make of it by booting once
    more than there were resets, each time running some number of complete instructions from address 0 with interrupts disabled. *)
Theorem C83_csr_resets : forall k D rw x0 p, csoc_start x0 -> pins_ok p -> forall t,
  io_lives (fun a => a <? 2 ^ 23) (fun a => a mod 2 ^ k) (csoc_bytes x0) (resets rw t) (csoc_bytes (csoc_rrun k D rw x0 p t)).
Proof.
  intros k D rw x0 p Hs Hp t. destruct (csoc_since k D rw x0 p Hs Hp t) as (T & n & -> & H & St & Q).
  assert (L : exists a ev j, booted a /\ forall z, csoc_bytes (csoc_rrun k D rw x0 p (T + n)) z = snd (io_run (fun a => a <? 2 ^ 23) (fun a => a mod 2 ^ k) ev j (a, csoc_bytes (csoc_rrun k D rw x0 p T))) z).
  { rewrite (csoc_quiet k D rw x0 p T n H). destruct (one_life k D (csoc_rrun k D rw x0 p T) (fun u => p (T + u)%nat) St (fun u => Hp (T + u)%nat) n) as (ev & j & _ & _ & E). exists (boot_arch (co_cpu (csoc_rrun k D rw x0 p T))), ev, j. split; [repeat split|exact E]. }
  destruct L as (a & ev & j & Ba & E). destruct Q as [(-> & Q)|(r & Lr & Q)]; rewrite Q.
  - eapply io_first; [exact Ba|exact E].
  - eapply io_next; [exact Lr|exact Ba|exact E].
Qed.

(** C83, an application: the commit program of C80 on the whole SoC (a RAM of 256 words), with the timer running and anything on the pins. *)
Theorem C83_csr_commit : forall D rw x0 p, csoc_start x0 -> pins_ok p -> (forall j, (j < 6)%nat -> wm_mem (co_mem x0) (Z.of_nat j) = nth j commit 0) -> wm_mem (co_mem x0) 17 = 0 ->
  forall t, let w := wm_mem (co_mem (csoc_rrun 8 D rw x0 p t)) in w 17 = 0 \/ w 17 = 1 /\ w 16 = 42.
Proof.
  intros D rw x0 p Hs Hp Hc H0 t w. destruct (csoc_words 8 D rw x0 p Hs t) as [W _]. fold w in W.
  assert (S : safe (csoc_bytes (csoc_rrun 8 D rw x0 p t))).
  { apply (io_safe _ _ _ (C83_csr_resets 8 D rw x0 p Hs Hp t)). unfold csoc_bytes. split.
    - intros z Hz. rewrite <- (Z2Nat.id (z / 4)) at 1 by (Z.to_euclidean_division_equations; lia). rewrite Hc; [reflexivity|]. apply Nat2Z.inj_lt. rewrite Z2Nat.id by (Z.to_euclidean_division_equations; lia). Z.to_euclidean_division_equations; lia.
    - left. intros i Hi. replace ((68 + i) / 4) with 17 by (Z.to_euclidean_division_equations; lia). rewrite H0. f_equal. Z.to_euclidean_division_equations; lia. }
  unfold csoc_bytes in S. fold w in S.
  assert (B : forall j v, 0 <= v < 256 -> word_in (fun z => byte (w (z / 4)) (z mod 4)) (4 * j) v -> w j = v).
  { intros j v Hv H. apply bytes_in; [exact W|unfold word; lia|exact H]. }
  destruct S as [_ [F|[F Dt]]]; [left|right; split]; apply B; try lia; assumption.
Qed.
(** From power-on, with a reset between the stores and one after them: data, then flag, then the LED, which a reset clears while the RAM keeps its contents.  The program is the commit program
    with the last instruction replaced: lui s4,0x2000 puts the LED address in s4, sb s1,0(s4) lights the LEDs, j . *)
Definition csoc_of (l : list Z) : csoc := {| co_cpu := por; co_mem := commit_mem l; co_per := csrp_init |}.
Example C83_csr_applies : csoc_start (csoc_of commit) /\ pins_ok still /\
  (let x := fun t => csoc_rrun 8 104 (fun t => Nat.eqb t 31 || Nat.eqb t 95) (csoc_of [0x02a00493; 0x04000913; 0x00992023; 0x00100993; 0x01392223; 0x02000a37; 0x009a0023; 0x0000006f]) still t in
   map (fun t => let y := x t in (wm_mem (co_mem y) 16, wm_mem (co_mem y) 17, cl_leds (cp_leds (co_per y)))) [10; 30; 32; 94; 96; 160]%nat = [(0, 0, 0); (42, 0, 0); (42, 0, 0); (42, 1, 42); (42, 1, 0); (42, 1, 42)]).
Proof.
  split; [|split; [intros t; cbn; lia|vm_compute; reflexivity]].
  constructor; try reflexivity; [apply por_fresh|]. constructor; [|unfold word; cbn; lia|reflexivity]. intros a. cbn [csoc_of co_mem commit_mem wm_mem]. unfold word.
  destruct (Nat.le_gt_cases 6 (Z.to_nat a)) as [L|L]; [rewrite nth_overflow by exact L; lia|].
  assert (In (nth (Z.to_nat a) commit 0) commit) as I by (apply nth_In; exact L). set (v := nth (Z.to_nat a) commit 0) in *. clearbody v. cbn in I. decompose [or] I; subst; try tauto; lia.
Qed.

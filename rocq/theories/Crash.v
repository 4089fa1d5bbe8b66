(** * C80: what a reset in the middle of everything leaves in the memory

    The reset tests of tests/sim/test_top.py note that they cannot tell whether a store that is cut short by a
    reset damages the memory, because their memory process is not like the SoC's (lines 657-660).  Here the core is wired to the
    SoC's memory and both are reset at arbitrary cycles. *)
From Coq Require Import ZArith Lia Bool List.
From Verif Require Import Bits Ucode Cpu Isa Timed BitLemmas Wf Sym Blocks CsrBlocks DecodeOk Boundary Sim Main Obs PropsBus PropsInv Observe PropsIsa Latency PropsFrame InputsMatter Memory SocMem.
Import ListNotations.
Open Scope Z_scope.

(** ** Model *)
(** WBMemory (examples/attosoc.py:84-107) with the reset [r] of its clock domain: ACK is a flip-flop, the memory and its ports
    have no reset. *)
Definition wbmem_rstep (k : Z) (r : bool) (m : wbmem) (b : wbus) : wbmem :=
  let n := wbmem_step k m b in {| wm_mem := wm_mem n; wm_rdata := wm_rdata n; wm_ack := wm_ack n && negb r |}.
(** The core's inputs (attosoc.py:917). *)
Definition rinput (m : wbmem) (r i : bool) : input := {| rst := r; ack := wm_ack m; dat_r := wm_rdata m; irq := i |}.
(** attosoc.py:836-837, 863, 917, without the other peripherals, under the reset waveform [rw]. *)
Fixpoint rsystem (k : Z) (rw iw : nat -> bool) (s : state) (m : wbmem) (t : nat) : state * wbmem :=
  match t with
  | O => (s, m)
  | S n => let (c, d) := rsystem k rw iw s m n in (step c (rinput d (rw n) (iw n)), wbmem_rstep k (rw n) d (cpu_bus c))
  end.

(** ** Specification *)
(** [n] instructions of the RV32I machine with memory, [o j] being the interrupt line while instruction [j] runs. *)
Fixpoint instructions (phys : Z -> Z) (o : nat -> nat -> bool) (n : nat) (am : arch * (Z -> Z)) : arch * (Z -> Z) :=
  match n with
  | O => am
  | S n => let am' := instructions phys o n am in flat_step phys am' (o n 1%nat) (o n 2%nat) (o n 3%nat)
  end.
(** A machine just after reset: it starts at address 0 with interrupts disabled; its registers can be anything. *)
Definition booted (a : arch) : Prop := pc a = 0 /\ mie a = false /\ meie a = false /\ mcause a = 0.
(** [m'] is what [m] can become when the machine boots [r + 1] times in a row, each time running some number of complete
    instructions (perhaps none) from address 0. *)
Inductive lives (phys : Z -> Z) (m : Z -> Z) : nat -> (Z -> Z) -> Prop :=
| first_life a o n m' : booted a -> (forall z, m' z = snd (instructions phys o n (a, m)) z) -> lives phys m O m'
| next_life r m1 a o n m' : lives phys m r m1 -> booted a -> (forall z, m' z = snd (instructions phys o n (a, m1)) z) -> lives phys m (S r) m'.
(** Resets before cycle [t]. *)
Definition resets (rw : nat -> bool) (t : nat) : nat := length (filter rw (seq 0 t)).
(** Instruction fetches completed before cycle [t]. *)
Definition fetched_before (s : state) (inp : nat -> input) (t : nat) : nat :=
  length (filter (fun u => o_cyc (run s inp u) && ack (inp u) && u_fetch (s_u (run s inp u))) (seq 0 t)).

(** ** Proofs *)
Lemma count_S f t : length (filter f (seq 0 (S t))) = (length (filter f (seq 0 t)) + if f t then 1 else 0)%nat.
Proof. rewrite seq_S, filter_app, app_length. cbn. destruct (f t); reflexivity. Qed.
Lemma instructions_ext phys o o' n am : (forall j i, (j < n)%nat -> o j i = o' j i) -> instructions phys o n am = instructions phys o' n am.
Proof. induction n as [|n IH]; intros H; [reflexivity|]. cbn [instructions]. rewrite IH by (intros; apply H; lia). rewrite !H by lia. reflexivity. Qed.

Section One.
Variables (k : Z) (iw : nat -> bool) (s : state) (m : wbmem).
Hypothesis (Hf : fresh s) (Hm : mem_start m).
Local Notation inp := (sys_inp k iw s m).
Local Notation phys := (phys k).
Local Notation m0 := (mem_byte (wm_mem m)).
Local Notation flat := (flat_at phys s inp m0).
Local Notation now t := (mem_byte (wm_mem (snd (system k iw s m t)))).
Local Notation fb := (fetched_before s inp).

Lemma flat_instructions t : exists o, flat t = instructions phys o (fb t) (boot_arch s, m0).
Proof.
  induction t as [|t (o & IH)]; [exists (fun _ _ => false); reflexivity|]. unfold fetched_before. rewrite count_S. fold (fb t). cbn [flat_at].
  destruct (o_cyc (run s inp t) && _ && _).
  - exists (fun j i => if Nat.eqb j (fb t) then irq (inp (t + i)%nat) else o j i). rewrite (Nat.add_1_r (fb t)). cbn [instructions]. cbv beta zeta. rewrite Nat.eqb_refl.
    rewrite (instructions_ext _ _ o) by (intros j i Hj; rewrite (proj2 (Nat.eqb_neq _ _)) by lia; reflexivity). rewrite <- IH. reflexivity.
  - exists o. rewrite Nat.add_0_r. exact IH.
Qed.

(** In every cycle the memory is that of the machine, or the present instruction is a store that has not reached it yet. *)
Lemma point t : (forall z, now t z = snd (flat t) z) \/
  (exists r k0, machine s inp t = Accessing r k0 /\ q_we r = true /\ (o_cyc (run s inp t) && ack (inp t) = false) /\
   exists u, (u < t)%nat /\ (forall z, now t z = snd (flat u) z) /\ fb t = S (fb u)).
Proof.
  pose proof (bus_ok_ok _ _ (sys_bus_ok k iw s m Hf Hm)) as Ko.
  pose proof (sys_memory_slave k iw s m Hf Hm) as Ms.
  assert (Now : forall t, now t = fun z => now t z) by reflexivity.
  assert (G : forall t, (forall z, now t z = if o_cyc (run s inp t) && ack (inp t) && o_we (run s inp t) then written k (cpu_bus (run s inp t)) (slave_mem phys s inp m0 t) z else slave_mem phys s inp m0 t z))
    by (intros u; apply (inv_all k iw s m Hf Hm u)).
  (* whether or not the present instruction is a pending store *)
  assert (D : forall t, match machine s inp t with Accessing r _ => q_we r = true -> o_cyc (run s inp t) && ack (inp t) = true -> forall z, now t z = snd (flat t) z | Fetching _ => forall z, now t z = snd (flat t) z end /\
     match machine s inp t with Accessing r _ => q_we r = false -> forall z, now t z = snd (flat t) z | _ => True end).
  { clear t. intros t. pose proof (tracks_all phys s inp m0 Ko Ms t) as Tr. unfold tracks in Tr. destruct (flat t) as [a' m'] eqn:Ef. cbn [snd].
    destruct (machine s inp t) as [a|r k0] eqn:M.
    - destruct Tr as [_ Tm]. split; [|exact I]. intros z. rewrite G, Tm. destruct (o_cyc (run s inp t)) eqn:C; [|reflexivity].
      pose proof (bus_shows s inp Ko t C) as Sh. rewrite M in Sh. destruct Sh. rewrite sh_we. cbn [request q_we]. rewrite andb_false_r. reflexivity.
    - split.
      + intros We Q z. rewrite We in Tr. destruct Tr as [_ Tm]. apply andb_prop in Q. destruct Q as [C A]. rewrite G, Tm, C, A.
        pose proof (bus_shows s inp Ko t C) as Sh. rewrite M in Sh. cbn [request] in Sh. destruct Sh. rewrite sh_we, We. cbn [andb]. unfold written. cbn [cpu_bus b_adr b_sel b_dat_w].
        rewrite sh_adr, sh_sel, sh_dat by exact We. reflexivity.
      + intros We z. rewrite We in Tr. destruct Tr as [Tm _]. rewrite G, Tm. destruct (o_cyc (run s inp t)) eqn:C; [|reflexivity].
        pose proof (bus_shows s inp Ko t C) as Sh. rewrite M in Sh. cbn [request] in Sh. destruct Sh. rewrite sh_we, We, andb_false_r. reflexivity. }
  assert (H : forall t, match machine s inp t with Accessing r _ => q_we r = true -> exists u, (u < t)%nat /\ (forall z, slave_mem phys s inp m0 t z = snd (flat u) z) /\ fb t = S (fb u) | _ => True end).
  { clear t. induction t as [|t IH]; [exact I|]. destruct (o_cyc (run s inp t) && ack (inp t)) eqn:Q.
    2:{ rewrite machine_noack by exact Q. destruct (machine s inp t) as [|r k0]; [exact I|]. intros We. destruct (IH We) as (u & Lu & Hu & Cu). exists u. split; [lia|].
        cbn [slave_mem]. cbv zeta. rewrite Q. cbn [andb]. split; [exact Hu|]. unfold fetched_before in *. rewrite count_S, Q. cbn [andb]. lia. }
    apply andb_prop in Q. destruct Q as [C A]. rewrite machine_ack by assumption. pose proof (fetch_iff s inp Ko t C) as Fi. pose proof (bus_shows s inp Ko t C) as Sh.
    pose proof (tracks_all phys s inp m0 Ko Ms t) as Tr. unfold tracks in Tr.
    destruct (machine s inp t) as [a|r k0] eqn:M; cbn [complete]; [|exact I].
    destruct (fetched SENTINEL a (dat_r (inp t)) _ _ _) as [|r k0]; [exact I|]. intros We. exists t. split; [lia|]. destruct Sh. split.
    - cbn [slave_mem]. cbv zeta. rewrite C, A, sh_we. cbn [request q_we andb]. destruct (flat t) as [a1 m1]. destruct Tr as [_ Tm]. intros z. symmetry. apply Tm.
    - unfold fetched_before. rewrite count_S, C, A, Fi. cbn [andb]. lia. }
  destruct (machine s inp t) as [a|r k0] eqn:M; [left; specialize (D t); rewrite M in D; exact (proj1 D)|].
  destruct (q_we r) eqn:We; [|left; specialize (D t); rewrite M in D; exact (proj2 D We)].
  destruct (o_cyc (run s inp t) && ack (inp t)) eqn:Q; [left; specialize (D t); rewrite M in D; exact (proj1 D We Q)|].
  right. exists r, k0. split; [reflexivity|]. split; [exact We|]. split; [reflexivity|]. specialize (H t). rewrite M in H. destruct (H We) as (u & Lu & Hu & Cu).
  exists u. split; [exact Lu|]. split; [|exact Cu]. intros z. rewrite G, Q. cbn [andb]. apply Hu.
Qed.
End One.

Section All.
Variables (k : Z) (rw iw : nat -> bool) (s : state) (m : wbmem).
Hypothesis (Hf : fresh s) (Hm : mem_start m).
Local Notation sys := (rsystem k rw iw s m).
Local Notation now t := (mem_byte (wm_mem (snd (sys t)))).

Lemma quiet T n : (forall u, (u < n)%nat -> rw (T + u)%nat = false) -> sys (T + n) = system k (fun u => iw (T + u)%nat) (fst (sys T)) (snd (sys T)) n.
Proof.
  induction n as [|n IH]; intros H; [rewrite Nat.add_0_r; cbn; apply surjective_pairing|].
  rewrite Nat.add_succ_r. cbn [rsystem system]. rewrite IH by (intros; apply H; lia). destruct (system k _ _ _ n) as [c d].
  rewrite H by lia. unfold rinput, cpu_input, wbmem_rstep. f_equal. rewrite andb_true_r. destruct (wbmem_step k d (cpu_bus c)). reflexivity.
Qed.
Lemma well t : wf (fst (sys t)) /\ (forall a, word (wm_mem (snd (sys t)) a)) /\ word (wm_rdata (snd (sys t))).
Proof.
  induction t as [|t (I1 & I2 & I3)]; [split; [destruct Hf as (? & ? & ? & ? & ?); assumption|split; apply Hm]|]. cbn [rsystem]. destruct (sys t) as [c d]. cbn [fst snd] in *. split; [|split].
  - apply wf_step; assumption.
  - intros a. unfold wbmem_rstep, wbmem_step. cbn [wm_mem]. destruct (_ && _); [|apply I2]. destruct (_ =? _); [apply merge_word|apply I2].
  - unfold wbmem_rstep, wbmem_step. cbn [wm_rdata]. destruct (_ && _); [apply I2|exact I3].
Qed.
Lemma boot_booted x : booted (boot_arch x).
Proof. repeat split. Qed.

(** The last reset before cycle [t]. *)
Lemma since t : exists T n, t = (T + n)%nat /\ (forall u, (u < n)%nat -> rw (T + u)%nat = false) /\ fresh (fst (sys T)) /\ mem_start (snd (sys T)) /\
  ((T = O /\ resets rw t = O) \/ exists r, lives (phys k) (mem_byte (wm_mem m)) r (now T) /\ resets rw t = S r).
Proof.
  assert (Life : forall T n, fresh (fst (sys T)) -> mem_start (snd (sys T)) -> (forall u, (u < n)%nat -> rw (T + u)%nat = false) ->
    exists a o j, booted a /\ forall z, mem_byte (wm_mem (snd (sys (S (T + n))))) z = snd (instructions (phys k) o j (a, now T)) z).
  { intros T n F M H. set (iw' := fun u => iw (T + u)%nat). pose proof (quiet T n H) as E.
    assert (En : wm_mem (snd (sys (S (T + n)))) = wm_mem (snd (system k iw' (fst (sys T)) (snd (sys T)) (S n)))).
    { cbn [rsystem system]. rewrite E. fold iw'. destruct (system k iw' _ _ n) as [c d]. reflexivity. }
    rewrite En. exists (boot_arch (fst (sys T))).
    destruct (point k iw' (fst (sys T)) (snd (sys T)) F M (S n)) as [P|(r & k0 & _ & _ & _ & u & _ & P & _)].
    - destruct (flat_instructions k iw' (fst (sys T)) (snd (sys T)) (S n)) as [o Eo]. eexists o, _. split; [apply boot_booted|]. intros z. rewrite P, Eo. reflexivity.
    - destruct (flat_instructions k iw' (fst (sys T)) (snd (sys T)) u) as [o Eo]. eexists o, _. split; [apply boot_booted|]. intros z. rewrite P, Eo. reflexivity. }
  induction t as [|t (T & n & -> & H & F & M & Q)].
  - exists O, O. split; [reflexivity|]. split; [intros; lia|]. split; [exact Hf|]. split; [exact Hm|]. left. split; reflexivity.
  - unfold resets. rewrite count_S. fold (resets rw (T + n)). destruct (rw (T + n)%nat) eqn:R.
    + exists (S (T + n)), O. split; [lia|]. split; [intros; lia|].
      destruct (well (T + n)) as (W1 & W2 & W3). destruct (well (S (T + n))) as (W1' & W2' & W3').
      split. { cbn [rsystem]. destruct (sys (T + n)) as [c d]. cbn [fst] in *. apply step_reset_fresh; [exact W1|exact W3|exact R]. }
      split. { constructor; [exact W2'|exact W3'|]. cbn [rsystem]. destruct (sys (T + n)) as [c d]. cbn [snd wbmem_rstep wm_ack]. rewrite R. apply andb_false_r. }
      right. destruct (Life T n F M H) as (a & o & j & Ba & Hz). destruct Q as [(-> & Q)|(r & Lr & Q)]; rewrite Q.
      * exists O. split; [|reflexivity]. eapply first_life; eauto.
      * exists (S r). split; [|lia]. eapply next_life; eauto.
    + exists T, (S n). split; [lia|]. split. { intros u Hu. destruct (Nat.eq_dec u n) as [->|]; [exact R|apply H; lia]. }
      split; [exact F|]. split; [exact M|]. rewrite Nat.add_0_r. exact Q.
Qed.
End All.

(** ** Theorems *)
(** C80, one boot: in every cycle the memory holds what the instruction-set machine's memory holds after all the instructions
    fetched so far, or after all but the last one; every byte of it, nothing in between. *)
Theorem C80_every_cycle : forall k iw s m, fresh s -> mem_start m ->
  let inp := sys_inp k iw s m in
  forall t, exists o n, (fetched_before s inp t = n \/ fetched_before s inp t = S n) /\
  forall z, byte (wm_mem (snd (system k iw s m t)) (z / 4)) (z mod 4) =
    snd (instructions (fun a => a mod 2 ^ k) o n (boot_arch s, fun z => byte (wm_mem m (z / 4)) (z mod 4))) z.
Proof.
  intros k iw s m Hf Hm inp t. destruct (point k iw s m Hf Hm t) as [P|(r & k0 & _ & _ & _ & u & _ & P & C)].
  - destruct (flat_instructions k iw s m t) as [o Eo]. exists o, (fetched_before s inp t). split; [auto|]. intros z. change (fun a => a mod 2 ^ k) with (phys k). unfold inp. fold (mem_byte (wm_mem m)). rewrite <- Eo. apply P.
  - destruct (flat_instructions k iw s m u) as [o Eo]. exists o, (fetched_before s inp u). split; [auto|]. intros z. change (fun a => a mod 2 ^ k) with (phys k). unfold inp. fold (mem_byte (wm_mem m)). rewrite <- Eo. apply P.
Qed.
(** C80: whenever and however often the system is reset, what the memory holds in any cycle is what the instruction-set
    machine would have made of it by booting once more than there were resets, each time running some number of complete instructions from
    address 0 with interrupts disabled. *)
Theorem C80_resets : forall k rw iw s m, fresh s -> mem_start m -> forall t,
  lives (fun a => a mod 2 ^ k) (fun z => byte (wm_mem m (z / 4)) (z mod 4)) (resets rw t)
    (fun z => byte (wm_mem (snd (rsystem k rw iw s m t)) (z / 4)) (z mod 4)).
Proof.
  intros k rw iw s m Hf Hm t. destruct (since k rw iw s m Hf Hm t) as (T & n & -> & H & F & M & Q).
  assert (L : exists a o j, booted a /\ forall z, mem_byte (wm_mem (snd (rsystem k rw iw s m (T + n)))) z = snd (instructions (phys k) o j (a, mem_byte (wm_mem (snd (rsystem k rw iw s m T))))) z).
  { rewrite (quiet k rw iw s m T n H). destruct (C80_every_cycle k (fun u => iw (T + u)%nat) _ _ F M n) as (o & j & _ & E). exists (boot_arch (fst (rsystem k rw iw s m T))), o, j. split; [repeat split|exact E]. }
  destruct L as (a & o & j & Ba & E). destruct Q as [(-> & Q)|(r & Lr & Q)]; rewrite Q.
  - eapply first_life; [exact Ba|exact E].
  - eapply next_life; [exact Lr|exact Ba|exact E].
Qed.

(** ** A program that can be reset at any time *)
(** Data, then flag, the order of a commit: li s1,42; li s2,64; sw s1,0(s2); li s3,1; sw s3,4(s2); j . *)
Definition commit : list Z := [0x02a00493; 0x04000913; 0x00992023; 0x00100993; 0x01392223; 0x0000006f].

Lemma fetch_word m j w : (forall z, 0 <= z < 24 -> m z = byte (nth (Z.to_nat (z / 4)) commit 0) (z mod 4)) -> 0 <= j < 6 -> w = nth (Z.to_nat j) commit 0 ->
  peek (fun a => a mod 2 ^ 8) m (4 * j) 4 = w.
Proof.
  intros H Hj ->. assert (J : j = 0 \/ j = 1 \/ j = 2 \/ j = 3 \/ j = 4 \/ j = 5) by lia.
  decompose [or] J; subst j; unfold peek; rewrite !H by (vm_compute; split; congruence); vm_compute; reflexivity.
Qed.
(** What holds before the instruction at [4 j]. *)
Definition code_in (m : Z -> Z) : Prop := forall z, 0 <= z < 24 -> m z = byte (nth (Z.to_nat (z / 4)) commit 0) (z mod 4).
Definition word_in (m : Z -> Z) (b v : Z) : Prop := forall i, 0 <= i < 4 -> m (b + i) = byte v i.
Definition safe (m : Z -> Z) : Prop := code_in m /\ (word_in m 68 0 \/ word_in m 68 1 /\ word_in m 64 42).
Record stage (j : Z) (a : arch) (m : Z -> Z) : Prop := {
  st_pc : pc a = 4 * j; st_mie : mie a = false;
  st_s1 : 1 <= j -> rd_x a 9 = 42; st_s2 : 2 <= j -> rd_x a 18 = 64; st_data : 3 <= j -> word_in m 64 42; st_s3 : 4 <= j -> rd_x a 19 = 1;
  st_safe : safe m }.

Lemma store_word m b v : b mod 4 = 0 -> 0 <= b < 128 -> forall z, poke (fun a => a mod 2 ^ 8) m b 4 v z = if (b <=? z) && (z <? b + 4) then byte v (z - b) else m z.
Proof.
  intros Al Hb z. rewrite poke_spec by (rewrite Al; lia). rewrite Al. replace ((b / 4) mod 2 ^ 8) with (b / 4) by (symmetry; apply Z.mod_small; change (2 ^ 8) with 256; Z.to_euclidean_division_equations; lia).
  rewrite Z.sub_0_r. change (Z.of_nat 4) with 4. pose proof (Z.mod_pos_bound z 4 ltac:(lia)) as Bz. rewrite (proj2 (Z.leb_le 0 _)), (proj2 (Z.ltb_lt (z mod 4) _)) by lia. rewrite andb_true_r.
  destruct (Z.eqb_spec (z / 4) (b / 4)) as [E|E].
  - replace ((b <=? z) && (z <? b + 4)) with true; [|symmetry; apply andb_true_intro; split; [apply Z.leb_le|apply Z.ltb_lt]; Z.to_euclidean_division_equations; lia].
    unfold byte. f_equal. Z.to_euclidean_division_equations; lia.
  - replace ((b <=? z) && (z <? b + 4)) with false; [reflexivity|]. symmetry. apply andb_false_iff. destruct (Z.leb_spec b z); [right; apply Z.ltb_ge|left; reflexivity]. Z.to_euclidean_division_equations; lia.
Qed.
Lemma stage_step j a m i1 i2 i3 : 0 <= j < 6 -> stage j a m -> exists j', 0 <= j' < 6 /\
  stage j' (fst (flat_step (fun a => a mod 2 ^ 8) (a, m) i1 i2 i3)) (snd (flat_step (fun a => a mod 2 ^ 8) (a, m) i1 i2 i3)).
Proof.
  intros Hj [Hpc Hmie H1 H2 HD H3 [Hc HF]]. unfold flat_step, int_enabled. rewrite Hmie, Hpc. cbn [andb].
  rewrite (fetch_word m j (nth (Z.to_nat j) commit 0) Hc Hj eq_refl).
  assert (J : j = 0 \/ j = 1 \/ j = 2 \/ j = 3 \/ j = 4 \/ j = 5) by lia.
  Ltac fin_ := solve [unfold next_pc; cbn; match goal with H : pc _ = _ |- _ => rewrite H end; reflexivity | split; assumption | intros _; match goal with H : _ -> ?P |- ?P => apply H; lia end].
  decompose [or] J; subst j; clear J Hj; idtac.
  - change (nth (Z.to_nat 0) commit 0) with 0x02a00493. change (decode 0x02a00493) with (Some (OpImm ADD 9 0 42)). cbn [is_csr andb exec fst snd]. exists 1. split; [lia|].
    constructor; cbn; auto; try lia; fin_.
  - change (nth (Z.to_nat 1) commit 0) with 0x04000913. change (decode 0x04000913) with (Some (OpImm ADD 18 0 64)). cbn [is_csr andb exec fst snd]. exists 2. split; [lia|].
    constructor; cbn; auto; try lia; fin_.
  - change (nth (Z.to_nat 2) commit 0) with 0x00992023. change (decode 0x00992023) with (Some (Store Word 18 9 0)). cbn [is_csr andb]. rewrite H1, H2 by lia.
    change ((64 + 0) mod 2 ^ 32) with 64. change (aligned Word 64) with true. cbn [fst snd bytes]. change (Z.to_nat 4) with 4%nat. exists 3. split; [lia|].
    assert (S := store_word m 64 42 eq_refl ltac:(lia)). set (m' := poke _ _ _ _ _) in *. clearbody m'.
    assert (Sd : word_in m' 64 42) by (intros i Hi; rewrite S, (proj2 (Z.leb_le _ _)), (proj2 (Z.ltb_lt _ _)) by lia; cbn [andb]; f_equal; lia).
    assert (So : forall z, z < 64 \/ 68 <= z -> m' z = m z).
    { intros z Hz. rewrite S. replace ((64 <=? z) && (z <? 64 + 4)) with false; [reflexivity|]. symmetry. apply andb_false_iff. destruct Hz; [left; apply Z.leb_gt; lia|right; apply Z.ltb_ge; lia]. }
    constructor; cbn [advance set_pc pc mie]; auto; try lia; try solve [intros _; first [apply H1; lia|apply H2; lia|apply H3; lia]].
    + unfold next_pc. rewrite Hpc. reflexivity.
    + split; [intros z Hz; rewrite So by lia; apply Hc; lia|]. destruct HF as [HF|[HF _]]; [left|right; split; [|exact Sd]]; intros i Hi; rewrite So by lia; apply HF; lia.
  - change (nth (Z.to_nat 3) commit 0) with 0x00100993. change (decode 0x00100993) with (Some (OpImm ADD 19 0 1)). cbn [is_csr andb exec fst snd]. exists 4. split; [lia|].
    constructor; cbn; auto; try lia; fin_.
  - change (nth (Z.to_nat 4) commit 0) with 0x01392223. change (decode 0x01392223) with (Some (Store Word 18 19 4)). cbn [is_csr andb]. rewrite H3, H2 by lia.
    change ((64 + 4) mod 2 ^ 32) with 68. change (aligned Word 68) with true. cbn [fst snd bytes]. change (Z.to_nat 4) with 4%nat. exists 5. split; [lia|].
    assert (S := store_word m 68 1 eq_refl ltac:(lia)). set (m' := poke _ _ _ _ _) in *. clearbody m'.
    assert (Sd : word_in m' 68 1) by (intros i Hi; rewrite S, (proj2 (Z.leb_le _ _)), (proj2 (Z.ltb_lt _ _)) by lia; cbn [andb]; f_equal; lia).
    assert (So : forall z, z < 68 -> m' z = m z).
    { intros z Hz. rewrite S. replace ((68 <=? z) && (z <? 68 + 4)) with false; [reflexivity|]. symmetry. apply andb_false_iff. left; apply Z.leb_gt; lia. }
    assert (D' : word_in m' 64 42) by (intros i Hi; rewrite So by lia; apply HD; lia).
    constructor; cbn [advance set_pc pc mie]; auto; try lia; try solve [intros _; first [apply H1; lia|apply H2; lia|apply H3; lia]].
    + unfold next_pc. rewrite Hpc. reflexivity.
    + split; [intros z Hz; rewrite So by lia; apply Hc; lia|]. right. split; assumption.
  - change (nth (Z.to_nat 5) commit 0) with 0x0000006f. change (decode 0x0000006f) with (Some (Jal 0 0)). cbn [is_csr andb exec]. rewrite Hpc. exists 5. split; [lia|].
    unfold jump. change ((4 * 5 + 0) mod 2 ^ 32) with 20. change (20 mod 4 =? 0) with true. cbv iota.
    constructor; cbn; auto; try lia; fin_.
Qed.
Lemma stage_run o n : forall a m, booted a -> safe m -> exists j, 0 <= j < 6 /\
  stage j (fst (instructions (fun a => a mod 2 ^ 8) o n (a, m))) (snd (instructions (fun a => a mod 2 ^ 8) o n (a, m))).
Proof.
  induction n as [|n IH]; intros a m B Hs.
  - destruct B as (B1 & B2 & _). exists 0. split; [lia|]. constructor; cbn [instructions fst snd]; try lia; auto.
  - destruct (IH a m B Hs) as (j & Hj & S). cbn [instructions]. destruct (instructions _ o n (a, m)) as [a' m']. apply (stage_step j); assumption.
Qed.
Lemma safe_ext m m' : (forall z, m' z = m z) -> safe m -> safe m'.
Proof.
  intros E [C F]. split; [intros z Hz; rewrite E; apply C; exact Hz|].
  destruct F as [F|[F D]]; [left|right; split]; intros i Hi; rewrite E; auto.
Qed.
Lemma lives_safe r : forall m m', lives (fun a => a mod 2 ^ 8) m r m' -> safe m -> safe m'.
Proof.
  intros m m' L Hs. induction L as [a o n m' B E|r m1 a o n m' L IH B E].
  - destruct (stage_run o n a m B Hs) as (j & _ & S). apply (safe_ext _ _ E). apply S.
  - destruct (stage_run o n a m1 B IH) as (j & _ & S). apply (safe_ext _ _ E). apply S.
Qed.
Lemma bytes_in (w : Z -> Z) j v : (forall a, word (w a)) -> word v -> (forall i, 0 <= i < 4 -> byte (w ((4 * j + i) / 4)) ((4 * j + i) mod 4) = byte v i) -> w j = v.
Proof.
  intros W V H. apply (bytes_word v (w j) V (W j)). intros i Hi. rewrite <- (H i Hi). rewrite (Z.mul_comm 4), Z.div_add_l, Z.div_small, Z.add_0_r by lia.
  rewrite Z.add_comm, Z.mod_add, Z.mod_small by lia. reflexivity.
Qed.
(** C80, an application: with this program in the memory and no flag set at first, in every cycle, whenever the system was reset, if
    the flag (word 17) is set, the data (word 16) is there. *)
Theorem C80_commit : forall rw iw s m, fresh s -> mem_start m -> (forall j, (j < 6)%nat -> wm_mem m (Z.of_nat j) = nth j commit 0) -> wm_mem m 17 = 0 ->
  forall t, let w := wm_mem (snd (rsystem 8 rw iw s m t)) in w 17 = 0 \/ w 17 = 1 /\ w 16 = 42.
Proof.
  intros rw iw s m Hf Hm Hc H0 t w. destruct (well 8 rw iw s m Hf Hm t) as (_ & W & _). fold w in W.
  assert (S : safe (fun z => byte (w (z / 4)) (z mod 4))).
  { apply (lives_safe _ _ _ (C80_resets 8 rw iw s m Hf Hm t)). split.
    - intros z Hz. rewrite <- (Z2Nat.id (z / 4)) at 1 by (Z.to_euclidean_division_equations; lia). rewrite Hc; [reflexivity|]. apply Nat2Z.inj_lt. rewrite Z2Nat.id by (Z.to_euclidean_division_equations; lia). Z.to_euclidean_division_equations; lia.
    - left. intros i Hi. replace ((68 + i) / 4) with 17 by (Z.to_euclidean_division_equations; lia). rewrite H0. f_equal. Z.to_euclidean_division_equations; lia. }
  assert (B : forall j v, 0 <= v < 256 -> word_in (fun z => byte (w (z / 4)) (z mod 4)) (4 * j) v -> w j = v).
  { intros j v Hv H. apply bytes_in; [exact W|unfold word; lia|exact H]. }
  destruct S as [_ [F|[F D]]]; [left|right; split]; apply B; try lia; assumption.
Qed.
(** The power-on state with this program: the flag is set in the end; a reset between the stores, another one later, and it is still set
    in the end.  With the stores the other way round there are cycles in which a reset would leave the flag without the data. *)
Definition commit_mem (l : list Z) : wbmem := {| wm_mem := fun a => nth (Z.to_nat a) l 0; wm_rdata := 0; wm_ack := false |}.
Example C80_applies : fresh por /\ mem_start (commit_mem commit) /\
  (let x := wm_mem (snd (rsystem 8 (fun t => Nat.eqb t 31 || Nat.eqb t 50) (fun _ => false) por (commit_mem commit) 40)) in (x 16, x 17) = (42, 0)) /\
  (let x := wm_mem (snd (rsystem 8 (fun t => Nat.eqb t 31 || Nat.eqb t 50) (fun _ => false) por (commit_mem commit) 100)) in (x 16, x 17) = (42, 1)) /\
  (let x := wm_mem (snd (rsystem 8 (fun t => Nat.eqb t 30) (fun _ => false) por (commit_mem [0x02a00493; 0x04000913; 0x00100993; 0x01392223; 0x00992023; 0x0000006f]) 40)) in (x 16, x 17) = (0, 1)).
Proof.
  split; [apply por_fresh|]. split; [|vm_compute; auto].
  constructor; [|unfold word; cbn; lia|reflexivity]. intros a. cbn [commit_mem wm_mem]. unfold word.
  destruct (Nat.le_gt_cases 6 (Z.to_nat a)) as [L|L]; [rewrite nth_overflow by exact L; lia|].
  assert (In (nth (Z.to_nat a) commit 0) commit) as I by (apply nth_In; exact L). set (v := nth (Z.to_nat a) commit 0) in *. clearbody v. cbn in I. decompose [or] I; subst; try tauto; lia.
Qed.

(** * The memory of the example SoC, and the closed system core + memory *)
From Coq Require Import ZArith Lia Bool List.
From Verif Require Import Bits Ucode Cpu Isa Timed BitLemmas Wf Sym Blocks CsrBlocks DecodeOk Boundary Sim Main Obs PropsBus Observe PropsIsa Memory.
Import ListNotations.
Open Scope Z_scope.

(** ** Model *)
(** What a Wishbone slave sees (amaranth_soc.wishbone.Signature as used at attosoc.py:52-53). *)
Record wbus := { b_cyc : bool; b_stb : bool; b_we : bool; b_adr : Z; b_sel : Z; b_dat_w : Z }.
(** The core's side of the bus (top.py:253-262). *)
Definition cpu_bus (s : state) : wbus :=
  {| b_cyc := o_cyc s; b_stb := o_stb s; b_we := o_we s; b_adr := o_adr s; b_sel := o_sel s; b_dat_w := o_dat_w s |}.

(** State of WBMemory (attosoc.py:32-109): memory words, read-port output register, [bus.ack]. *)
Record wbmem := { wm_mem : Z -> Z; wm_rdata : Z; wm_ack : bool }.
(** Write port with a granularity of 8 bits (attosoc.py:85). *)
Definition merge (sel old new : Z) : Z :=
  let b i := if Z.testbit sel i then bits new (8 * i) 8 else bits old (8 * i) 8 in
  b 0 + 2 ^ 8 * b 1 + 2 ^ 16 * b 2 + 2 ^ 24 * b 3.
(** One cycle (attosoc.py:84-107).  The depth is taken to be [2 ^ k] words; the port
    address keeps the low [k] bits of ADR (attosoc.py:89-90: assigning to a narrower signal
    truncates). *)
Definition wbmem_step (k : Z) (m : wbmem) (b : wbus) : wbmem :=
  let adr := b_adr b mod 2 ^ k in
  let req := b_stb b && b_cyc b in
  {| wm_mem := if req && b_we b then fun a => if a =? adr then merge (b_sel b) (wm_mem m a) (b_dat_w b) else wm_mem m a else wm_mem m;
     wm_rdata := if req && negb (b_we b) then wm_mem m adr else wm_rdata m;
     wm_ack := req && negb (wm_ack m) |}.

(** The core and the memory wired together, with an interrupt waveform. *)
(** attosoc.py:917 *)
Definition cpu_input (m : wbmem) (i : bool) : input := {| rst := false; ack := wm_ack m; dat_r := wm_rdata m; irq := i |}.
(** attosoc.py:836-837, 863, 917, without the other peripherals. *)
Fixpoint system (k : Z) (iw : nat -> bool) (s : state) (m : wbmem) (t : nat) : state * wbmem :=
  match t with
  | O => (s, m)
  | S n => let (c, d) := system k iw s m n in (step c (cpu_input d (iw n)), wbmem_step k d (cpu_bus c))
  end.
(** The inputs the core sees in that system. *)
Definition sys_inp (k : Z) (iw : nat -> bool) (s : state) (m : wbmem) (t : nat) : input :=
  cpu_input (snd (system k iw s m t)) (iw t).

(** Memory and read register hold 32-bit words and ACK is low (its reset value). *)
Record mem_start (m : wbmem) : Prop := {
  ms_words : forall a, word (wm_mem m a); ms_rdata : word (wm_rdata m); ms_ack : wm_ack m = false }.

(** ** Proofs *)
Section P.
Variables (k : Z) (iw : nat -> bool) (s : state) (m : wbmem).
Hypothesis (Hf : fresh s) (Hm : mem_start m).
Let inp := sys_inp k iw s m.
Let mm (t : nat) := snd (system k iw s m t).

Lemma sys_run t : run s inp t = fst (system k iw s m t).
Proof.
  induction t as [|t IH]; [reflexivity|]. cbn [run system]. rewrite IH. unfold inp, sys_inp.
  destruct (system k iw s m t) as [c d]. reflexivity.
Qed.
Lemma sys_mem t : mm (S t) = wbmem_step k (mm t) (cpu_bus (run s inp t)).
Proof. unfold mm. rewrite sys_run. cbn [system]. destruct (system k iw s m t) as [c d]. reflexivity. Qed.

Lemma b8 x lo : 0 <= bits x lo 8 < 256.
Proof. apply (fld_range x lo 8). lia. Qed.
Lemma merge_word sel old new : word (merge sel old new).
Proof.
  unfold merge, word. cbv zeta.
  pose proof (b8 new (8*0)). pose proof (b8 new (8*1)). pose proof (b8 new (8*2)). pose proof (b8 new (8*3)).
  pose proof (b8 old (8*0)). pose proof (b8 old (8*1)). pose proof (b8 old (8*2)). pose proof (b8 old (8*3)).
  destruct (Z.testbit sel 0), (Z.testbit sel 1), (Z.testbit sel 2), (Z.testbit sel 3); lia.
Qed.
Lemma word4 b0 b1 b2 b3 i : 0 <= b0 < 256 -> 0 <= b1 < 256 -> 0 <= b2 < 256 -> 0 <= b3 < 256 -> 0 <= i < 4 ->
  byte (b0 + 2 ^ 8 * b1 + 2 ^ 16 * b2 + 2 ^ 24 * b3) i = if i =? 0 then b0 else if i =? 1 then b1 else if i =? 2 then b2 else b3.
Proof.
  intros H0 H1 H2 H3 Hi. unfold byte, fld. assert (i = 0 \/ i = 1 \/ i = 2 \/ i = 3) as [->|[->|[->| ->]]] by lia; cbn [Z.eqb Pos.eqb].
  - change (2 ^ (8 * 0)) with 1. rewrite Z.div_1_r. replace (_ + _ + _ + _) with (b0 + (b1 + 2 ^ 8 * b2 + 2 ^ 16 * b3) * 2 ^ 8) by lia. rewrite Z.mod_add by lia. apply Z.mod_small; lia.
  - replace (_ + _ + _ + _) with (b0 + (b1 + (b2 + 2 ^ 8 * b3) * 2 ^ 8) * 2 ^ (8 * 1)) by lia. rewrite Z.div_add by lia. rewrite (Z.div_small b0) by lia.
    rewrite Z.add_0_l, Z.mod_add by lia. apply Z.mod_small; lia.
  - replace (_ + _ + _ + _) with ((b0 + 2 ^ 8 * b1) + (b2 + b3 * 2 ^ 8) * 2 ^ (8 * 2)) by lia. rewrite Z.div_add by lia. rewrite (Z.div_small (b0 + _)) by lia.
    rewrite Z.add_0_l, Z.mod_add by lia. apply Z.mod_small; lia.
  - replace (_ + _ + _ + _) with ((b0 + 2 ^ 8 * b1 + 2 ^ 16 * b2) + b3 * 2 ^ (8 * 3)) by lia. rewrite Z.div_add by lia. rewrite (Z.div_small (b0 + _ + _)) by lia.
    rewrite Z.add_0_l. apply Z.mod_small; lia.
Qed.
Lemma merge_byte sel old new i : 0 <= i < 4 -> byte (merge sel old new) i = if Z.testbit sel i then byte new i else byte old i.
Proof.
  intros Hi. unfold merge. cbv zeta.
  rewrite word4; try (match goal with |- context[if ?b then _ else _] => destruct b end; apply b8); [|assumption].
  assert (i = 0 \/ i = 1 \/ i = 2 \/ i = 3) as [->|[->|[->| ->]]] by lia; reflexivity.
Qed.

Lemma sys_words t : (forall a, word (wm_mem (mm t) a)) /\ word (wm_rdata (mm t)).
Proof.
  induction t as [|t [IH1 IH2]]; [split; apply Hm|]. rewrite sys_mem. unfold wbmem_step. cbn [wm_mem wm_rdata]. split.
  - intros a. destruct (_ && _); [|apply IH1]. destruct (_ =? _); [apply merge_word|apply IH1].
  - destruct (_ && _); [apply IH1|assumption].
Qed.

Lemma sys_bus_ok : bus_ok s inp.
Proof.
  constructor; [assumption| |].
  - constructor; intros t; [reflexivity|]. apply (sys_words t).
  - intros t C A. change (ack (inp t)) with (wm_ack (mm t)) in A. destruct t as [|t].
    + exfalso. pose proof (ms_ack _ Hm) as E. unfold mm in A. cbn [system snd] in A. congruence.
    + exists t. split; [reflexivity|]. rewrite sys_mem in A. cbn [wbmem_step wm_ack cpu_bus b_stb b_cyc] in A.
      apply andb_prop in A. destruct A as [A _]. apply andb_prop in A. apply A.
Qed.
Let K : ok s inp := bus_ok_ok _ _ sys_bus_ok.

Lemma sys_two_cycle : two_cycle s inp.
Proof.
  intros t. change (ack (inp (S t))) with (wm_ack (mm (S t))). change (ack (inp t)) with (wm_ack (mm t)). rewrite sys_mem.
  cbn [wbmem_step wm_ack cpu_bus b_stb b_cyc]. rewrite C10_stb_is_cyc.
  destruct (o_cyc (run s inp t)) eqn:C; [|cbn [andb]; rewrite andb_false_r; reflexivity]. cbn [andb].
  destruct (wm_ack (mm t)) eqn:A; cbn [negb]; [rewrite !andb_false_r; reflexivity|].
  destruct (C05_request_held s inp K t C A) as (-> & _). reflexivity.
Qed.

Definition phys (a : Z) : Z := a mod 2 ^ k.
Definition mem_byte (w : Z -> Z) (z : Z) : Z := byte (w (z / 4)) (z mod 4).
Let slave := slave_mem phys s inp (mem_byte (wm_mem m)).

Definition written (b : wbus) (f : Z -> Z) (z : Z) : Z :=
  if (z / 4 =? phys (b_adr b)) && Z.testbit (b_sel b) (z mod 4) then byte (b_dat_w b) (z mod 4) else f z.

Lemma mem_step_byte d b z : b_stb b = b_cyc b -> mem_byte (wm_mem (wbmem_step k d b)) z =
  if b_cyc b && b_we b then written b (mem_byte (wm_mem d)) z else mem_byte (wm_mem d) z.
Proof.
  intros Es. unfold wbmem_step, written, mem_byte. cbn [wm_mem]. rewrite Es, andb_diag. destruct (b_cyc b && b_we b); [|reflexivity].
  fold (phys (b_adr b)). destruct (z / 4 =? phys (b_adr b)); [|reflexivity]. cbn [andb].
  rewrite merge_byte by (apply Z.mod_pos_bound; lia). reflexivity.
Qed.

(** During the acknowledge cycle of a write the memory already holds the new value. *)
Definition inv (t : nat) : Prop :=
  let x := run s inp t in
  (wm_ack (mm t) = true -> o_cyc x = true /\ (o_we x = false -> wm_rdata (mm t) = wm_mem (mm t) (phys (o_adr x)))) /\
  forall z, mem_byte (wm_mem (mm t)) z =
    if o_cyc x && wm_ack (mm t) && o_we x then written (cpu_bus x) (slave t) z else slave t z.

Lemma written_twice b f z : written b (written b f) z = written b f z.
Proof. unfold written. destruct (_ && _); reflexivity. Qed.
Lemma written_ext b f g z : f z = g z -> written b f z = written b g z.
Proof. unfold written. intros ->. reflexivity. Qed.
Lemma slave_S t : slave (S t) = let x := run s inp t in if o_cyc x && wm_ack (mm t) && o_we x then written (cpu_bus x) (slave t) else slave t.
Proof. reflexivity. Qed.

Lemma inv_all t : inv t.
Proof.
  induction t as [|t [IH1 IH2]].
  - split.
    + intros A. exfalso. pose proof (ms_ack _ Hm). unfold mm in A. cbn [system snd] in A. congruence.
    + intros z. unfold mm. cbn [system snd run]. rewrite (ms_ack _ Hm), andb_false_r. reflexivity.
  - unfold inv. rewrite sys_mem, slave_S. cbv zeta.
    assert (Es : b_stb (cpu_bus (run s inp t)) = b_cyc (cpu_bus (run s inp t))) by apply C10_stb_is_cyc.
    destruct (o_cyc (run s inp t)) eqn:C.
    2:{ assert (A : wm_ack (wbmem_step k (mm t) (cpu_bus (run s inp t))) = false).
        { unfold wbmem_step. cbn [wm_ack]. rewrite Es, andb_diag. cbn [cpu_bus b_cyc]. rewrite C. reflexivity. }
        rewrite A, andb_false_r. split; [discriminate|]. intros z. rewrite mem_step_byte by exact Es. cbn [cpu_bus b_cyc b_we]. rewrite C. apply IH2. }
    destruct (wm_ack (mm t)) eqn:A.
    + assert (A' : wm_ack (wbmem_step k (mm t) (cpu_bus (run s inp t))) = false).
      { unfold wbmem_step. cbn [wm_ack]. rewrite A. apply andb_false_r. }
      rewrite A', andb_false_r. split; [discriminate|]. intros z. rewrite mem_step_byte by exact Es. cbn [cpu_bus b_cyc b_we] in *. rewrite C. cbn [andb] in *.
      destruct (o_we (run s inp t)); [|apply IH2]. rewrite (written_ext _ _ _ _ (IH2 z)). apply written_twice.
    + assert (A' : wm_ack (wbmem_step k (mm t) (cpu_bus (run s inp t))) = true).
      { unfold wbmem_step. cbn [wm_ack]. rewrite A, Es, andb_diag. cbn [cpu_bus b_cyc]. rewrite C. reflexivity. }
      rewrite A'. destruct (C05_request_held s inp K t C A) as (H1 & H2 & H3 & H4 & H5 & H6).
      split.
      * intros _. split; [assumption|]. rewrite H5, H3. intros We. unfold wbmem_step. cbn [wm_mem wm_rdata]. rewrite Es, andb_diag. cbn [cpu_bus b_cyc b_we b_adr]. rewrite C, We. reflexivity.
      * intros z. rewrite mem_step_byte by exact Es. cbn [cpu_bus b_cyc b_we]. rewrite C, H1, H5. cbn [andb] in *.
        destruct (o_we (run s inp t)); [|apply IH2]. unfold written. cbn [cpu_bus b_adr b_sel b_dat_w]. rewrite H3, H4, H6, IH2. reflexivity.
Qed.

Lemma sys_memory_slave : memory_slave phys s inp (mem_byte (wm_mem m)).
Proof.
  intros t x C A We i Hi _. change (ack (inp t)) with (wm_ack (mm t)) in A. destruct (inv_all t) as [I1 I2]. destruct (I1 A) as [_ I3].
  change (dat_r (inp t)) with (wm_rdata (mm t)). rewrite (I3 We). specialize (I2 (4 * phys (o_adr x) + i)). change (run s inp t) with x in I2. rewrite C, A, We in I2. cbn [andb] in I2.
  fold slave. rewrite <- I2. unfold mem_byte. rewrite (Z.mul_comm 4). rewrite Z.div_add_l, Z.div_small, Z.add_0_r by lia.
  rewrite Z.add_comm, Z.mod_add, Z.mod_small by lia. reflexivity.
Qed.
End P.

(** C33 for the SoC's own memory: core and WBMemory wired together, any contents, any
    interrupt waveform, started right after reset. *)
Theorem C33_wbmemory_system : forall k iw s m, fresh s -> mem_start m ->
  let inp := sys_inp k iw s m in
  (forall t, run s inp t = fst (system k iw s m t)) /\ bus_ok s inp /\ two_cycle s inp /\
  forall t w, fetch_done s inp t w ->
  let (a, fm) := flat_at (fun a => a mod 2 ^ k) s inp (fun z => byte (wm_mem m (z / 4)) (z mod 4)) t in
  w = peek (fun a => a mod 2 ^ k) fm (pc a) 4 /\
  (forall z, fm z = byte (wm_mem (snd (system k iw s m t)) (z / 4)) (z mod 4)) /\
  let x := run s inp (S t) in
  (forall r, 0 <= r < 32 -> x_of x r = rd_x a r) /\ pc_of x = pc a /\
  mie_of x = mie a /\ mpie_of x = mpie a /\ meie_of x = meie a /\
  mtvec_of x = mtvec a /\ mscratch_of x = mscratch a /\ mepc_of x = mepc a /\ mcause_of x = mcause a.
Proof.
  intros k iw s m Hf Hm inp. pose proof (sys_bus_ok k iw s m Hf Hm) as B. split; [apply sys_run|]. split; [exact B|].
  split; [apply sys_two_cycle; assumption|]. intros t w F.
  pose proof (C33_flat_memory (phys k) s inp (mem_byte (wm_mem m)) (bus_ok_ok _ _ B) (sys_memory_slave k iw s m Hf Hm) t w F) as P.
  change (fun a => a mod 2 ^ k) with (phys k). change (fun z => byte (wm_mem m (z / 4)) (z mod 4)) with (mem_byte (wm_mem m)).
  destruct (flat_at _ _ _ _ _) as [a fm]. destruct P as (P1 & P2 & P3). split; [exact P1|]. split; [|exact P3].
  intros z. rewrite P2. destruct (inv_all k iw s m Hf Hm t) as [_ I]. specialize (I z).
  destruct F as (C & U & A & D). pose proof (fetch_iff s inp (bus_ok_ok _ _ B) t C) as Fi.
  assert (We : o_we (run s inp t) = false).
  { destruct (C10_signals_well_formed s inp (bus_ok_ok _ _ B)) as (_ & _ & X & _).
    destruct (machine s inp t) as [b|r q] eqn:M; [apply (X t b C M)|]. congruence. }
  change (run s (sys_inp k iw s m) t) with (run s inp t) in I. rewrite We, andb_false_r in I. symmetry. exact I.
Qed.

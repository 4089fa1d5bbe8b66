(** * C79: the output test of tests/sim/test_top.py ([test_loop])

    A program in the tests' memory writes a sequence of values to a port; the testbench acknowledges the
    writes and compares the values with a list. *)
From Coq Require Import String ZArith Lia Bool List.
From Verif Require Import Bits Ucode Cpu Isa Timed BitLemmas Wf Sym Blocks CsrBlocks DecodeOk Boundary Sim Main Obs PropsBus PropsInv Enable Observe PropsIsa Latency PropsFrame Memory SocMem Harness Upstream Demo.
Import ListNotations.
Open Scope Z_scope.

(** ** Model *)
(** Where [io_tb] is (tests/sim/test_top.py:505-516): waiting for the next value, or at the [ctx.tick()] that
    follows [ctx.set(m.bus.ack, 1)]; with the values still to come. *)
Inductive io := Expect (p : Z) (rest : list Z) | Taken (rest : list Z).
(** What the processes hold between two ticks: the memory process's list, whether it is at its second tick (tests/conftest.py:91-125);
    the signals [bus.ack], [bus.dat_r] and [restart_timeout]; the testbench; how many ticks of the present
    [for] of [timeout_process] have passed (test_top.py:436-446); the microcode watchdog's variables (conftest.py:37-39). *)
Record lt := { lt_words : list Z; lt_wait : bool; lt_ack : bool; lt_rdata : Z; lt_io : io; lt_restart : bool; lt_ticks : Z; lt_prev : Z; lt_count : Z }.
(** How the test ends: the testbench has got all values, or something raises (test_top.py:445-446, 511; conftest.py:42, 47, 116). *)
Inductive ended := AllOutputs | WrongOutput | CpuStuck | MicrocodePanic | MicrocodeStuck | MemoryIndex.
(** Word address of the port (test_top.py:507). *)
Definition port : Z := Z.shiftr 0x2000000 2.
(** The core's inputs (top.py:253-262). *)
Definition lt_input (x : lt) (i : bool) : input := {| rst := false; ack := lt_ack x; dat_r := lt_rdata x; irq := i |}.
(** One tick: [ucode_panic] (conftest.py:40-52), [memory_process] (97-125), [timeout_process] (test_top.py:440-446), then the testbench
    (test_top.py:505-516), which resumes after the processes and samples the bus as it was before the tick. *)
Definition ltick (c : state) (x : lt) (i : bool) : (state * lt) + ended :=
  let inp := lt_input x i in
  let adr := seq_now c inp in
  let count := if lt_prev x =? adr then lt_count x + 1 else 0 in
  if adr =? 255 then inr MicrocodePanic
  else if 100 <? count then inr MicrocodeStuck
  else match mem_tick 0 (cpu_bus c) (lt_words x) (lt_wait x) (lt_ack x) (lt_rdata x) with
  | None => inr MemoryIndex
  | Some (l, wait, a, rdata) =>
    let ticks := if lt_restart x then 0 else lt_ticks x + 1 in
    if 65536 <=? ticks then inr CpuStuck
    else let go ack' io' restart' := inl (step c inp,
           {| lt_words := l; lt_wait := wait; lt_ack := ack'; lt_rdata := rdata; lt_io := io'; lt_restart := restart'; lt_ticks := ticks; lt_prev := adr; lt_count := count |}) in
    match lt_io x with
    | Expect p rest => if (o_adr c =? port) && o_cyc c && o_stb c
                       then if o_dat_w c =? p then go true (Taken rest) true else inr WrongOutput
                       else go a (Expect p rest) (lt_restart x)
    | Taken [] => inr AllOutputs
    | Taken (p :: rest) => go false (Expect p rest) false
    end
  end.
(** Initial values (test_top.py:431-433, 498, 505; conftest.py:37-39). *)
Definition lt0 (words : list Z) (p : Z) (rest : list Z) : lt :=
  {| lt_words := words; lt_wait := false; lt_ack := false; lt_rdata := 0; lt_io := Expect p rest; lt_restart := false; lt_ticks := 0; lt_prev := 2; lt_count := 0 |}.
(** The test (test_top.py:525-530) expecting the values [p :: rest] (an empty list would pass at once). *)
Fixpoint loop_run (iw : nat -> bool) (s : state) (words : list Z) (p : Z) (rest : list Z) (t : nat) : (state * lt) + ended :=
  match t with
  | O => inl (s, lt0 words p rest)
  | S n => match loop_run iw s words p rest n with inl (c, x) => ltick c x (iw n) | inr v => inr v end
  end.

(** ** Specification *)
Local Notation step1 := (Memory.flat_step (fun a => a)).
Local Notation rd := (Memory.peek (fun a => a)).
(** Instructions the program may take from one output to the next. *)
Definition quota : nat := 940.
(** The test on the ISA machine with [top] bytes of memory and a port at 0x2000000, [o k j] being the interrupt
    line while instruction [k] runs: [Some true] once all values of [p :: rest] have been stored to the port as words, in this
    order; [Some false] if another value is stored; [None] if that takes more than [n] instructions, or [q] to the
    next value, or if the program does anything else outside the memory. *)
Fixpoint isa_io (top : Z) (n q : nat) (o : nat -> nat -> bool) (p : Z) (rest : list Z) (am : arch * (Z -> Z)) : option bool :=
  match n, q with
  | S n, S q =>
    let (a, m) := am in
    if (0 <=? pc a) && (pc a <? top) then
      let am' := step1 am (o 0%nat 1%nat) (o 0%nat 2%nat) (o 0%nat 3%nat) in
      match access a (rd m (pc a) 4) (o 0%nat 1%nat) with
      | None => isa_io top n q (fun k => o (S k)) p rest am'
      | Some (we, sz, ea) =>
        if ea <? top then isa_io top n q (fun k => o (S k)) p rest am'
        else if we && match sz with Word => true | _ => false end && (ea =? 0x2000000) then
          if rd (snd am') 0x2000000 4 =? p
          then match rest with [] => Some true | p' :: rest' => isa_io top n quota (fun k => o (S k)) p' rest' am' end
          else Some false
        else None
      end
    else None
  | _, _ => None
  end.

(** The values on DAT_W in the acknowledged transfers at the port before cycle [t], in order. *)
Definition outputs (s : state) (inp : nat -> input) (t : nat) : list Z :=
  map (fun u => o_dat_w (run s inp u)) (filter (fun u => o_cyc (run s inp u) && ack (inp u) && (o_adr (run s inp u) =? port)) (seq 0 t)).

(** ** Proofs *)
(** What the machine does with a fetched word, against one step of the machine with memory. *)
Lemma step_fetched a m w i1 i2 i3 : w = rd m (pc a) 4 ->
  match fetched SENTINEL a w i1 i2 i3 with
  | Fetching a' => step1 (a, m) i1 i2 i3 = (a', m)
  | Accessing r k => if q_we r then (forall d, k d = fst (step1 (a, m) i1 i2 i3)) /\
        forall z, snd (step1 (a, m) i1 i2 i3) z = if (z / 4 =? q_adr r) && Z.testbit (q_sel r) (z mod 4) then byte (q_dat r) (z mod 4) else m z
      else snd (step1 (a, m) i1 i2 i3) = m /\
        forall d, (forall i, 0 <= i < 4 -> Z.testbit (q_sel r) i = true -> byte d i = m (4 * q_adr r + i)) -> k d = fst (step1 (a, m) i1 i2 i3)
  end.
Proof.
  intros Hw. unfold flat_step. rewrite <- Hw. unfold fetched. destruct (int_enabled a && i1); [reflexivity|].
  destruct (decode w) as [i|]; [|reflexivity]. destruct (is_csr i && _); [reflexivity|].
  destruct i; cbn [exec]; try reflexivity.
  all: try (repeat match goal with |- context[match (if ?b then _ else _) with _ => _ end] => destruct b | |- context[match (match ?b with _ => _ end) with _ => _ end] => destruct b end; reflexivity).
  - cbv zeta. destruct (aligned sz _) eqn:Al; [|reflexivity]. cbn [q_we q_adr q_sel q_dat fst snd]. split; [reflexivity|].
    intros d Hd. rewrite (load_peek (fun a => a) m d sz sgn _ Al); [reflexivity|]. exact Hd.
  - cbv zeta. destruct (aligned sz _) eqn:Al; [|reflexivity]. cbn [q_we q_adr q_sel q_dat fst snd]. split; [reflexivity|].
    intros z. rewrite poke_spec. 2:{ rewrite bytes_nat. apply (lane_cases (fun e n => e + n <= 4) sz _ Al); intros; lia. }
    rewrite bytes_nat, <- (lanes_z sz _ z Al). destruct (z / 4 =? _); cbn [andb]; [|reflexivity].
    destruct (Z.testbit (lanes sz _) (z mod 4)) eqn:Tl; [|reflexivity]. symmetry. apply store_lane; assumption.
Qed.

Lemma store_data_word sz ea v : aligned sz ea = true -> word (store_data sz ea v).
Proof.
  intros Al. unfold word, store_data.
  apply (lane_cases (fun e n => 0 <= v mod 2 ^ (8 * n) * 2 ^ (8 * e) < 2 ^ 32) sz ea Al); intros _;
    match goal with |- context[v mod ?m] => pose proof (Z.mod_pos_bound v m ltac:(reflexivity)) as B; set (r := v mod m) in *; clearbody r end; cbn in *; lia.
Qed.
Lemma io_pc top n q o p rest am b : isa_io top n q o p rest am = Some b -> 0 <= pc (fst am) < top.
Proof.
  destruct n as [|n]; [discriminate|]. destruct q as [|q]; [discriminate|]. cbn [isa_io]. destruct am as [a m]. destruct ((0 <=? pc a) && _) eqn:Q; [|discriminate]. intros _.
  apply andb_prop in Q. destruct Q as [Q1 Q2]. apply Z.leb_le in Q1. apply Z.ltb_lt in Q2. cbn [fst]. lia.
Qed.

Section P.
Variables (iw : nat -> bool) (s : state) (words : list Z) (p0 : Z) (rest0 : list Z).
Hypothesis (Hf : fresh s) (Hw : Forall word words) (Hl : Z.of_nat (length words) <= port).
Local Notation go := (loop_run iw s words p0 rest0).
Local Notation len := (Z.of_nat (length words)).
(** The core's inputs; after the end of the test, a slave that never answers. *)
Definition loop_inp (t : nat) : input :=
  match loop_run iw s words p0 rest0 t with inl (_, x) => lt_input x (iw t) | inr _ => {| rst := false; ack := false; dat_r := 0; irq := iw t |} end.
Local Notation inp := loop_inp.

Lemma go_inp t c x : go t = inl (c, x) -> inp t = lt_input x (iw t).
Proof. intros E. unfold loop_inp. rewrite E. reflexivity. Qed.
Definition io_acks (b : io) : bool := match b with Taken _ => true | _ => false end.
(** The testbench at a tick that does not end the test: its next state, what it makes of ACK and of [restart_timeout]. *)
Definition io_next (c : state) (b : io) (a r : bool) (b' : io) (a' r' : bool) : Prop :=
  match b with
  | Expect p rest => if (o_adr c =? port) && o_cyc c && o_stb c then o_dat_w c = p /\ b' = Taken rest /\ a' = true /\ r' = true
                     else b' = Expect p rest /\ a' = a /\ r' = r
  | Taken [] => False
  | Taken (p :: rest) => b' = Expect p rest /\ a' = false /\ r' = false
  end.
Lemma go_S t c' x' : go (S t) = inl (c', x') -> exists c x a,
  go t = inl (c, x) /\ mem_tick 0 (cpu_bus c) (lt_words x) (lt_wait x) (lt_ack x) (lt_rdata x) = Some (lt_words x', lt_wait x', a, lt_rdata x') /\
  io_next c (lt_io x) a (lt_restart x) (lt_io x') (lt_ack x') (lt_restart x') /\
  c' = step c (lt_input x (iw t)) /\ lt_ticks x' = (if lt_restart x then 0 else lt_ticks x + 1) /\
  lt_prev x' = seq_now c (lt_input x (iw t)) /\
  lt_count x' = (if lt_prev x =? seq_now c (lt_input x (iw t)) then lt_count x + 1 else 0).
Proof.
  cbn [loop_run]. destruct (loop_run iw s words p0 rest0 t) as [[c x]|v] eqn:E; [|discriminate]. unfold ltick.
  destruct (_ =? 255); [discriminate|]. destruct (100 <? _); [discriminate|].
  destruct (mem_tick _ _ _ _ _ _) as [[[[l wait] a] rdt]|] eqn:Em; [|discriminate]. destruct (65536 <=? _); [discriminate|]. cbv zeta.
  intros Q. exists c, x, a. split; [reflexivity|]. unfold io_next.
  destruct (lt_io x) as [p rest|[|p rest]]; [|discriminate|injection Q as <- <-; cbn; rewrite Em; repeat split].
  destruct (_ && _ && _) eqn:B.
  - destruct (Z.eqb_spec (o_dat_w c) p) as [D|]; [|discriminate]. injection Q as <- <-. cbn. rewrite Em. repeat split; assumption.
  - injection Q as <- <-. cbn. rewrite Em. repeat split; assumption.
Qed.
Lemma go_core t c x : go t = inl (c, x) -> c = run s inp t.
Proof.
  revert c x. induction t as [|t IH]; intros c x E.
  - injection E as <- _. reflexivity.
  - destruct (go_S t c x E) as (c0 & x0 & a & E0 & _ & _ & Ec & _). cbn [run]. rewrite <- (IH c0 x0 E0), (go_inp t c0 x0 E0). exact Ec.
Qed.
(** How the test can end. *)
Lemma go_end_raw t c x v : go t = inl (c, x) -> go (S t) = inr v ->
  (v = MicrocodePanic /\ seq_now c (lt_input x (iw t)) = 255) \/
  (v = MicrocodeStuck /\ lt_prev x = seq_now c (lt_input x (iw t)) /\ 100 <= lt_count x \/ lt_count x < 0) \/
  (v = CpuStuck /\ lt_restart x = false /\ 65535 <= lt_ticks x) \/
  (v = AllOutputs /\ lt_io x = Taken []) \/
  (v = WrongOutput /\ exists p rest, lt_io x = Expect p rest /\ (o_adr c =? port) && o_cyc c && o_stb c = true /\ o_dat_w c <> p).
Proof.
  intros E0 E. cbn [loop_run] in E. rewrite E0 in E. unfold ltick in E.
  destruct (Z.eqb_spec (seq_now c (lt_input x (iw t))) 255) as [Q|_]; [left; split; [congruence|exact Q]|]. right.
  destruct (Z.ltb_spec 100 (if lt_prev x =? seq_now c (lt_input x (iw t)) then lt_count x + 1 else 0)) as [Q|_].
  { left. destruct (Z.eqb_spec (lt_prev x) (seq_now c (lt_input x (iw t)))) as [P|P]; [left; split; [congruence|]; split; [exact P|lia]|lia]. }
  right. pose proof (mem_tick_some (cpu_bus c) (lt_words x) (lt_wait x) (lt_ack x) (lt_rdata x)) as Ns. destruct (mem_tick _ _ _ _ _ _) as [[[[l w] a] rdt]|]; [|congruence].
  destruct (Z.leb_spec 65536 (if lt_restart x then 0 else lt_ticks x + 1)) as [Q|_].
  { left. split; [congruence|]. destruct (lt_restart x); [lia|]. split; [reflexivity|lia]. }
  right. destruct (lt_io x) as [p rest|[|p rest]]; [|left; split; congruence|discriminate].
  destruct (_ && _ && _) eqn:B; [|discriminate]. destruct (Z.eqb_spec (o_dat_w c) p); [discriminate|]. right. split; [congruence|]. exists p, rest. repeat split; assumption.
Qed.

(** *** The bus *)
Definition weak (t : nat) : Prop := forall c x, go t = inl (c, x) ->
  Forall word (lt_words x) /\ length (lt_words x) = length words /\ word (lt_rdata x) /\
  (lt_ack x = true -> (lt_wait x = true \/ io_acks (lt_io x) = true) /\ exists u, t = S u /\ o_cyc (run s inp u) = true).
Lemma weak_all t : weak t.
Proof.
  induction t as [|t IH]; intros c' x' E.
  - injection E as <- <-. cbn. split; [assumption|]. split; [reflexivity|]. split; [unfold word; lia|]. discriminate.
  - destruct (go_S t c' x' E) as (c & x & a & E0 & Em & Eh & _).
    destruct (IH c x E0) as (W1 & W2 & W3 & W4). destruct (mem_tick_words _ _ _ _ _ _ _ _ _ Em W1 W3) as (M1 & M2 & M3).
    split; [assumption|]. split; [congruence|]. split; [assumption|].
    pose proof (go_core t c x E0) as Rc.
    assert (Cy : o_cyc c = true -> exists u, S t = S u /\ o_cyc (run s inp u) = true) by (intros H; exists t; split; [reflexivity|]; rewrite <- Rc; exact H).
    intros A. unfold io_next in Eh. assert (Ma : lt_ack x' = a -> lt_io x' = lt_io x -> (lt_wait x' = true \/ io_acks (lt_io x') = true) /\ exists u, S t = S u /\ o_cyc (run s inp u) = true).
    { intros Ea Ei. rewrite Ei. rewrite A in Ea. unfold mem_tick in Em. destruct (lt_wait x) eqn:Ew; [congruence|].
      destruct (_ && _) eqn:Eq.
      * apply andb_prop in Eq. destruct Eq as [Eq _]. apply andb_prop in Eq. destruct Eq as [Eq _]. split; [left|apply Cy, Eq].
        destruct (b_we (cpu_bus c)); [destruct (_ <? _); [|discriminate]|]; congruence.
      * assert (lt_ack x = true) as A0 by congruence. destruct (W4 A0) as [[X|X] _]; [discriminate|]. exfalso. rewrite Ei in Eh. destruct (lt_io x) as [|[|]]; try discriminate X; try tauto. destruct Eh; discriminate. }
    destruct (lt_io x) as [p rest|[|p rest]].
    + destruct (_ && _ && _) eqn:B.
      * destruct Eh as (_ & -> & _ & _). apply andb_prop in B. destruct B as [B _]. apply andb_prop in B. destruct B as [_ B]. split; [right; reflexivity|apply Cy, B].
      * destruct Eh as (Q1 & Q2 & _). apply Ma; assumption.
    + contradiction.
    + destruct Eh as (_ & Ea & _). congruence.
Qed.
Lemma loop_bus_ok : bus_ok s inp.
Proof.
  constructor; [assumption| |].
  - constructor; intros t; unfold loop_inp; destruct (go t) as [[c x]|v] eqn:E; try reflexivity.
    + apply (weak_all t c x E).
    + cbn. unfold word. lia.
  - intros t C A. unfold loop_inp in A. destruct (go t) as [[c x]|v] eqn:E; [|discriminate]. apply (weak_all t c x E). exact A.
Qed.
Lemma K : ok s inp.
Proof. apply bus_ok_ok, loop_bus_ok. Qed.

Record strong (c : state) (x : lt) : Prop := {
  st_ack : lt_ack x = lt_wait x || io_acks (lt_io x);
  st_wait : lt_wait x = true -> o_cyc c = true /\ 0 <= o_adr c < len /\ (o_we c = false -> lt_rdata x = item (lt_words x) (o_adr c));
  st_io : io_acks (lt_io x) = true -> o_cyc c = true /\ o_adr c = port;
  st_restart : lt_restart x = io_acks (lt_io x) }.
(** One tick, by what happens on the bus. *)
Lemma tick_cases t c x c' x' : go t = inl (c, x) -> go (S t) = inl (c', x') -> strong c x ->
  strong c' x' /\
  if lt_ack x then lt_words x' = lt_words x /\ lt_ack x' = false /\ lt_io x' = match lt_io x with Taken (p :: rest) => Expect p rest | b => b end
  else if o_cyc c && ((0 <=? o_adr c) && (o_adr c <? len)) then
    cpu_bus c' = cpu_bus c /\ lt_ack x' = true /\ lt_io x' = lt_io x /\ lt_wait x' = true /\
    lt_words x' = if o_we c then upd (lt_words x) (Z.to_nat (o_adr c)) (py_merge (o_sel c) (item (lt_words x) (o_adr c)) (o_dat_w c)) else lt_words x
  else if o_cyc c && (o_adr c =? port) then cpu_bus c' = cpu_bus c /\ lt_ack x' = true /\ lt_words x' = lt_words x /\ exists p rest, lt_io x = Expect p rest /\ lt_io x' = Taken rest /\ o_dat_w c = p
  else lt_words x' = lt_words x /\ lt_io x' = lt_io x /\ lt_ack x' = false.
Proof.
  intros E0 E [I1 I2 I3 I4]. destruct (go_S t c' x' E) as (c1 & x1 & a & E1 & Em & Eh & _). rewrite E0 in E1. injection E1 as <- <-.
  pose proof (go_core t c x E0) as Rc. pose proof (go_core (S t) c' x' E) as Rc'. pose proof (go_inp t c x E0) as Ri.
  destruct (weak_all t c x E0) as (W1 & W2 & _).
  assert (Ea : ack (inp t) = lt_ack x) by (rewrite Ri; reflexivity).
  assert (Es : o_stb c = o_cyc c) by apply C10_stb_is_cyc.
  unfold io_next in Eh. rewrite Es, <- andb_assoc, andb_diag in Eh.
  unfold mem_tick in Em. cbn [cpu_bus b_cyc b_stb b_adr b_we b_sel b_dat_w] in Em. rewrite Es, andb_diag, W2, Z.add_0_l, Z.sub_0_r in Em.
  destruct (lt_ack x) eqn:A.
  - assert (Cy : o_cyc c = true) by (symmetry in I1; apply orb_prop in I1; destruct I1 as [X|X]; [apply I2, X|apply I3, X]).
    assert (Cd : o_cyc c' = false) by (rewrite Rc'; apply (C06_drop_after_ack s inp K t); [rewrite <- Rc; exact Cy|congruence]).
    destruct (lt_wait x) eqn:Ew.
    + destruct (I2 eq_refl) as (_ & Ad & _). assert (lt_words x' = lt_words x /\ lt_wait x' = false /\ a = false) as (M1 & M2 & M3) by (repeat split; congruence).
      assert (Pn : o_adr c =? port = false) by (apply Z.eqb_neq; lia).
      assert (Q : lt_io x' = match lt_io x with Taken (p :: rest) => Expect p rest | b => b end /\ lt_ack x' = false /\ io_acks (lt_io x') = false /\ lt_restart x' = false).
      { destruct (lt_io x) as [p rest|[|p rest]]; [|contradiction|].
        - rewrite Pn in Eh. cbn [andb] in Eh. destruct Eh as (-> & -> & ->). cbn. rewrite I4. repeat split; auto.
        - destruct Eh as (-> & -> & ->). repeat split. }
      destruct Q as (Q1 & Q2 & Q3 & Q4). split; [|repeat split; assumption]. constructor.
      * rewrite Q2, M2, Q3. reflexivity.
      * rewrite M2. discriminate.
      * rewrite Q3. discriminate.
      * congruence.
    + destruct (lt_io x) as [p rest|[|p rest]]; [discriminate I1|contradiction|]. destruct (I3 eq_refl) as [_ Ad].
      replace (o_adr c <? len) with false in Em by (symmetry; apply Z.ltb_ge; lia). rewrite !andb_false_r in Em.
      assert (lt_words x' = lt_words x /\ lt_wait x' = false) as (M1 & M2) by (split; congruence).
      destruct Eh as (Q1 & Q2 & Q3). split; [|repeat split; assumption]. constructor.
      * rewrite Q2, M2, Q1. reflexivity.
      * rewrite M2. discriminate.
      * rewrite Q1. discriminate.
      * rewrite Q1, Q3. reflexivity.
  - symmetry in I1. apply orb_false_iff in I1. destruct I1 as [Nw Nh]. rewrite Nw in Em.
    destruct (lt_io x) as [p rest|l0]; [|discriminate Nh].
    destruct (o_cyc c) eqn:Cy; cbn [andb] in *.
    2:{ rewrite andb_false_r in Eh. destruct Eh as (Q1 & Q2 & Q3). assert (lt_words x' = lt_words x /\ lt_wait x' = false /\ a = false) as (M1 & M2 & M3) by (repeat split; congruence).
        split; [|rewrite Q2, M3; repeat split; assumption]. constructor.
        - rewrite Q2, M3, M2, Q1. reflexivity.
        - rewrite M2. discriminate.
        - rewrite Q1. discriminate.
        - rewrite Q1, Q3. exact I4. }
    assert (Hb : cpu_bus c' = cpu_bus c).
    { pose proof (C05_request_held s inp K t ltac:(rewrite <- Rc; exact Cy) ltac:(congruence)) as Q. cbv zeta in Q. rewrite <- Rc, <- Rc' in Q.
      destruct Q as (Q1 & Q2 & Q3 & Q4 & Q5 & Q6). unfold cpu_bus. rewrite Q1, Q2, Q3, Q4, Q5, Q6, Cy, Es. reflexivity. }
    assert (Hb' : o_cyc c' = o_cyc c /\ o_adr c' = o_adr c /\ o_we c' = o_we c) by (injection Hb; auto). destruct Hb' as (B1 & B2 & B3).
    destruct ((0 <=? o_adr c) && (o_adr c <? len)) eqn:R; cbn [andb] in *.
    + apply andb_prop in R. destruct R as [R1 R2]. apply Z.leb_le in R1. pose proof (proj1 (Z.ltb_lt _ _) R2) as R3.
      replace (o_adr c =? port) with false in Eh by (symmetry; apply Z.eqb_neq; lia). cbn [andb] in Eh. destruct Eh as (Q1 & Q2 & Q3). rewrite R2 in Em.
      assert (M : lt_wait x' = true /\ a = true /\ lt_words x' = (if o_we c then upd (lt_words x) (Z.to_nat (o_adr c)) (py_merge (o_sel c) (item (lt_words x) (o_adr c)) (o_dat_w c)) else lt_words x) /\
                  (o_we c = false -> lt_rdata x' = item (lt_words x) (o_adr c))) by (destruct (o_we c); repeat split; congruence).
      destruct M as (M1 & M2 & M3 & M4). split; [|rewrite Q2; repeat split; assumption]. constructor.
      * rewrite Q2, M2, M1. reflexivity.
      * intros _. rewrite B1, B2, B3. split; [exact Cy|]. split; [lia|]. intros We. rewrite (M4 We), M3, We. reflexivity.
      * rewrite Q1. discriminate.
      * rewrite Q1, Q3. exact I4.
    + assert (lt_words x' = lt_words x /\ lt_wait x' = false /\ a = false) as (M1 & M2 & M3) by (repeat split; congruence). rewrite andb_true_r in Eh.
      destruct (Z.eqb_spec (o_adr c) port) as [P|P].
      * destruct Eh as (Q0 & Q1 & Q2 & Q3). split; [|repeat split; try assumption; eauto]. constructor.
        -- rewrite Q2, M2, Q1. reflexivity.
        -- rewrite M2. discriminate.
        -- intros _. rewrite B1, B2. auto.
        -- rewrite Q1, Q3. reflexivity.
      * destruct Eh as (Q1 & Q2 & Q3). split; [|rewrite Q2, M3; repeat split; assumption]. constructor.
        -- rewrite Q2, M3, M2, Q1. reflexivity.
        -- rewrite M2. discriminate.
        -- rewrite Q1. discriminate.
        -- rewrite Q1, Q3. exact I4.
Qed.
Lemma strong_all t c x : go t = inl (c, x) -> strong c x.
Proof.
  revert c x. induction t as [|t IH]; intros c' x' E.
  - injection E as <- <-. constructor; cbn; try discriminate; reflexivity.
  - destruct (go_S t c' x' E) as (c & x & _ & E0 & _). apply (tick_cases t c x c' x' E0 E (IH c x E0)).
Qed.

(** *** The watchdogs *)
Lemma request_soon t : exists u, (t <= u <= t + 68)%nat /\ o_cyc (run s inp u) = true.
Proof.
  destruct (C08_never_hangs s inp K) as [C5 Nx]. induction t as [|t (u & L & C)]; [exists 5%nat; split; [lia|exact C5]|].
  destruct (Nat.eq_dec u t) as [->|N]; [|exists u; split; [lia|exact C]].
  destruct (ack (inp t)) eqn:A.
  - destruct (Nx t C A) as (n & Ln & _ & Cn). exists (t + 1 + n)%nat. split; [lia|exact Cn].
  - exists (S t). split; [lia|]. apply (C05_request_held s inp K t C A).
Qed.
Lemma micro t : exists k, at_ k (run s inp (S t)) /\ live k = true /\ seq_now (run s inp t) (inp t) = k.
Proof.
  destruct (seq_inv_run s inp Hf (ok_env _ _ loop_bus_ok)) as [H _]. destruct (H t) as [k S1]. exists k. pose proof (si_at _ _ S1) as At. pose proof (si_live _ _ S1) as Li.
  split; [exact At|]. split; [exact Li|]. destruct At as (_ & N & _). cbn [run] in N. unfold step in N. rewrite (env_rst _ (ok_env _ _ loop_bus_ok)) in N. cbn [s_next] in N.
  pose proof (live_range _ Li) as R.
  assert (Q : 0 <= seq_now (run s inp t) (inp t) < 256).
  { destruct Hf as (u & m & rd & _ & W). pose proof (run_wf s inp t W (env_word _ (ok_env _ _ loop_bus_ok))) as Wt. destruct Wt.
    unfold seq_now, seq_adr. unfold inw in *. change (2 ^ 8) with 256 in *. destruct (s_sguard _); [lia|]. destruct (u_jmp _); try destruct (test_now _ _); lia. }
  destruct (Z.eq_dec (seq_now (run s inp t) (inp t)) 255) as [E|E]; [rewrite E in N; change ((255 + 1) mod 2 ^ 8) with 0 in N; lia|].
  rewrite Z.mod_small in N by lia. lia.
Qed.
Lemma count_run t c x : go t = inl (c, x) -> 0 <= lt_count x <= Z.of_nat t /\
  forall u, (u < t)%nat -> Z.of_nat t - 1 - lt_count x <= Z.of_nat u -> seq_now (run s inp u) (inp u) = lt_prev x.
Proof.
  revert c x. induction t as [|t IH]; intros c' x' E.
  - injection E as <- <-. cbn. split; [lia|]. intros; lia.
  - destruct (go_S t c' x' E) as (c & x & a & E0 & _ & _ & _ & _ & E1 & E2).
    destruct (IH c x E0) as [I1 I2]. pose proof (go_core t c x E0) as Rc. pose proof (go_inp t c x E0) as Ri.
    rewrite E1, E2. destruct (Z.eqb_spec (lt_prev x) (seq_now c (lt_input x (iw t)))) as [Q|Q].
    + split; [lia|]. intros u Hu Hc. destruct (Nat.eq_dec u t) as [->|N]; [rewrite <- Rc, Ri; reflexivity|]. rewrite <- Q. apply I2; lia.
    + split; [lia|]. intros u Hu Hc. assert (u = t) as -> by lia. rewrite <- Rc, Ri. reflexivity.
Qed.
Lemma stuck_pending t c x : go t = inl (c, x) -> lt_prev x = seq_now c (lt_input x (iw t)) -> 100 <= lt_count x ->
  (99 <= t)%nat /\ forall u, (t - 99 <= u <= t)%nat -> o_cyc (run s inp u) = true /\ ack (inp u) = false.
Proof.
  intros E P H. destruct (count_run t c x E) as [L R]. rewrite <- (go_inp t c x E) in P. rewrite (go_core t c x E) in P. split; [lia|].
  assert (Sq : forall u, (t - 100 <= u <= t)%nat -> seq_now (run s inp u) (inp u) = lt_prev x).
  { intros u Hu. destruct (Nat.eq_dec u t) as [->|N]; [symmetry; exact P|]. apply R; lia. }
  assert (At : forall v, (t - 99 <= v <= t + 1)%nat -> o_cyc (run s inp v) = u_mreq (rom (lt_prev x))).
  { intros v Hv. destruct v as [|v]; [lia|]. destruct (micro v) as (k & (A1 & _ & A2 & _) & _ & Mk). rewrite Sq in Mk by lia. unfold o_cyc. rewrite A1, A2, andb_true_r, Mk. reflexivity. }
  destruct (request_soon (t - 99)) as (u' & Lu & Cu). rewrite At in Cu by lia.
  intros u Hu. split; [rewrite At by lia; exact Cu|]. destruct (ack (inp u)) eqn:A; [|reflexivity].
  assert (C : o_cyc (run s inp u) = true) by (rewrite At by lia; exact Cu). destruct (C06_drop_after_ack s inp K u C A) as [D _]. rewrite At in D by lia. congruence.
Qed.
Lemma go_end t c x v : go t = inl (c, x) -> go (S t) = inr v ->
  (v = MicrocodeStuck /\ lt_prev x = seq_now c (lt_input x (iw t)) /\ 100 <= lt_count x) \/
  (v = CpuStuck /\ lt_restart x = false /\ 65535 <= lt_ticks x) \/
  (v = AllOutputs /\ lt_io x = Taken []) \/
  (v = WrongOutput /\ exists p rest, lt_io x = Expect p rest /\ o_adr c = port /\ o_cyc c = true /\ o_dat_w c <> p).
Proof.
  intros E0 E. destruct (go_end_raw t c x v E0 E) as [[_ Q]|[[H|H]|[H|[H|(H & p & rest & H1 & H2 & H3)]]]]; auto.
  - exfalso. destruct (micro t) as (k & _ & Li & Mk). rewrite <- (go_core t c x E0), (go_inp t c x E0), Q in Mk. subst k. discriminate Li.
  - destruct (count_run t c x E0). lia.
  - right. right. right. split; [exact H|]. apply andb_prop in H2. destruct H2 as [H2 _]. apply andb_prop in H2. destruct H2 as [H2 H4]. apply Z.eqb_eq in H2. exists p, rest. auto.
Qed.
(** Ticks since the last restart of the timeout. *)
Definition tk (x : lt) : Z := if lt_restart x then -1 else lt_ticks x.
Lemma tk_S t c x c' x' : go t = inl (c, x) -> go (S t) = inl (c', x') -> tk x' <= tk x + 1.
Proof.
  intros E0 E. assert (P : forall t c x, go t = inl (c, x) -> 0 <= lt_ticks x).
  { induction t0 as [|t0 IH]; intros c0 x0 Q; [injection Q as <- <-; cbn; lia|]. destruct (go_S t0 c0 x0 Q) as (c1 & x1 & a & Q0 & _ & _ & _ & -> & _). specialize (IH c1 x1 Q0). destruct (lt_restart x1); lia. }
  destruct (go_S t c' x' E) as (c1 & x1 & a & E1 & _ & _ & _ & Et & _). rewrite E0 in E1. injection E1 as <- <-. pose proof (P t c x E0). unfold tk. rewrite Et. destruct (lt_restart x), (lt_restart x'); lia.
Qed.
Lemma next_tick t c x u : go t = inl (c, x) -> lt_io x <> Taken [] -> tk x < 65535 ->
  (u <= t <= u + 99)%nat -> o_cyc (run s inp u) && negb (ack (inp u)) = false ->
  (o_cyc c = true -> o_adr c = port -> forall p rest, lt_io x = Expect p rest -> o_dat_w c = p) -> exists c' x', go (S t) = inl (c', x').
Proof.
  intros E N L Lu Q W. destruct (go (S t)) as [[c' x']|v] eqn:E'; [eauto|]. exfalso.
  destruct (go_end t c x v E E') as [(_ & P & C)|[(_ & R & T)|[(_ & D)|(_ & p & rest & H1 & H2 & H3 & H4)]]].
  - destruct (stuck_pending t c x E P C) as [L9 H]. destruct (H u ltac:(lia)) as [C1 C2]. rewrite C1, C2 in Q. discriminate.
  - unfold tk in L. rewrite R in L. lia.
  - congruence.
  - apply H4. eapply W; eassumption.
Qed.
Definition after (b : io) : io := match b with Taken (p :: rest) => Expect p rest | b => b end.
Lemma idle_tick t c x c' x' : go t = inl (c, x) -> go (S t) = inl (c', x') -> o_cyc c && negb (lt_ack x) = false -> lt_words x' = lt_words x /\ lt_io x' = after (lt_io x) /\ lt_ack x' = false.
Proof.
  intros E0 E Q. pose proof (strong_all t c x E0) as St. destruct (tick_cases t c x c' x' E0 E St) as [_ T].
  destruct (lt_ack x) eqn:A; [destruct T as (T1 & T2 & T3); split; [exact T1|]; split; [rewrite T3; destruct (lt_io x) as [|[|]]; reflexivity|exact T2]|]. rewrite andb_true_r in Q. rewrite Q in T. cbn [andb] in T. destruct T as (T1 & T2 & T3). split; [exact T1|]. split; [|exact T3].
  rewrite T2. destruct St as [I1 _ _ _]. rewrite A in I1. symmetry in I1. apply orb_false_iff in I1. destruct I1 as [_ I1]. destruct (lt_io x); [reflexivity|discriminate I1].
Qed.
Lemma gap t c x d : go t = inl (c, x) -> o_cyc c && negb (lt_ack x) = false -> lt_io x <> Taken [] ->
  (o_cyc c = true -> o_adr c = port -> forall p rest, lt_io x <> Expect p rest) ->
  (d <= 67)%nat -> (forall j, (j < d)%nat -> o_cyc (run s inp (t + 1 + j)) = false) -> tk x + Z.of_nat d < 65535 ->
  forall j, (j <= d)%nat -> exists c' x', go (t + 1 + j)%nat = inl (c', x') /\ lt_io x' = after (lt_io x) /\ lt_words x' = lt_words x /\ tk x' <= tk x + 1 + Z.of_nat j /\ lt_ack x' = false.
Proof.
  intros E Q Nd Np Ld Hq Lt. assert (Qt : o_cyc (run s inp t) && negb (ack (inp t)) = false) by (rewrite <- (go_core t c x E), (go_inp t c x E); exact Q).
  induction j as [|j IH]; intros Lj.
  - rewrite Nat.add_0_r, Nat.add_1_r. destruct (next_tick t c x t E Nd) as (c' & x' & E'); [lia|lia|exact Qt| |].
    + intros C P p rest X. exfalso. eapply Np; eassumption.
    + exists c', x'. split; [exact E'|]. destruct (idle_tick t c x c' x' E E' Q) as (I1 & I2 & I3). pose proof (tk_S t c x c' x' E E'). repeat split; try assumption. lia.
  - destruct (IH ltac:(lia)) as (c1 & x1 & E1 & H1 & H2 & H3 & _). rewrite Nat.add_succ_r. pose proof (Hq j ltac:(lia)) as C. rewrite <- (go_core _ c1 x1 E1) in C.
    destruct (next_tick (t + 1 + j) c1 x1 t E1) as (c' & x' & E'); [|lia|lia|exact Qt| |].
    + rewrite H1. destruct (lt_io x) as [|[|]]; cbn [after]; congruence.
    + intros C1. congruence.
    + exists c', x'. split; [exact E'|]. destruct (idle_tick _ c1 x1 c' x' E1 E') as (I1 & I2 & I3); [rewrite C; reflexivity|]. pose proof (tk_S _ c1 x1 c' x' E1 E').
      rewrite I1, I2, H1. repeat split; try assumption; [|lia]. destruct (lt_io x) as [|[|]]; reflexivity.
Qed.
(** From an acknowledgement to the next request. *)
Lemma reach t c x : go t = inl (c, x) -> o_cyc c = true -> lt_ack x = true -> lt_io x <> Taken [] ->
  let d := fst (delay_after (irqs inp) (machine s inp t) (t, dat_r (inp t))) in tk x + Z.of_nat d < 65535 ->
  exists c' x', go (t + 1 + d)%nat = inl (c', x') /\ o_cyc c' = true /\ lt_ack x' = false /\ lt_io x' = after (lt_io x) /\ lt_words x' = lt_words x /\
  tk x' <= tk x + 1 + Z.of_nat d /\ machine s inp (t + 1 + d) = machine s inp (S t) /\ (d <= 67)%nat /\ forall v, (t < v < t + 2 + d)%nat -> o_cyc (run s inp v) && ack (inp v) = false.
Proof.
  intros E C A Nd d Ld. pose proof (go_core t c x E) as Rc. pose proof (go_inp t c x E) as Ri. pose proof K as Ko.
  assert (C0 : o_cyc (run s inp t) = true) by (rewrite <- Rc; exact C). assert (A0 : ack (inp t) = true) by (rewrite Ri; exact A).
  destruct (next_request s inp Ko t C0 A0) as [Q R]. fold d in Q, R. pose proof (delay_bound (irqs inp) (machine s inp t) t (dat_r (inp t))) as B. fold d in B.
  destruct (gap t c x d E ltac:(rewrite A; apply andb_false_r) Nd) with (j := d) as (c1 & x1 & E1 & H1 & H2 & H3 & A1); try lia; try exact Q.
  { intros _ P p rest X. destruct (strong_all t c x E) as [I1 I2 _ _]. rewrite A, X, orb_false_r in I1. symmetry in I1. destruct (I2 I1) as (_ & Ad & _). lia. }
  pose proof (go_core _ c1 x1 E1) as Rc1. assert (C1 : o_cyc c1 = true) by (rewrite Rc1; exact R).
  assert (N : forall v, (t < v < t + 2 + d)%nat -> o_cyc (run s inp v) && ack (inp v) = false).
  { intros v Hv. destruct (Nat.eq_dec v (t + 1 + d)) as [->|Ne]; [rewrite (go_inp _ c1 x1 E1); cbn; rewrite A1; apply andb_false_r|].
    replace v with (t + 1 + (v - t - 1))%nat by lia. rewrite Q by lia. reflexivity. }
  assert (M : forall j, (j <= d)%nat -> machine s inp (S t + j) = machine s inp (S t)).
  { induction j as [|j IH]; intros Hj; [rewrite Nat.add_0_r; reflexivity|]. rewrite Nat.add_succ_r, machine_noack; [apply IH; lia|]. apply N. lia. }
  specialize (M d (le_n d)). replace (S t + d)%nat with (t + 1 + d)%nat in M by lia.
  exists c1, x1. repeat split; try assumption. lia.
Qed.

(** From an acknowledgement to the next one. *)
Lemma transfer t c x : go t = inl (c, x) -> o_cyc c = true -> lt_ack x = true -> lt_io x <> Taken [] ->
  let d := fst (delay_after (irqs inp) (machine s inp t) (t, dat_r (inp t))) in tk x + Z.of_nat d + 1 < 65535 ->
  let q := request (machine s inp (S t)) in
  (0 <= q_adr q < len -> exists c' x', go (t + 2 + d)%nat = inl (c', x') /\ o_cyc c' = true /\ lt_ack x' = true /\ machine s inp (t + 2 + d) = machine s inp (S t) /\
    lt_io x' = after (lt_io x) /\ tk x' <= tk x + 2 + Z.of_nat d /\
    lt_words x' = (if q_we q then upd (lt_words x) (Z.to_nat (q_adr q)) (py_merge (q_sel q) (item (lt_words x) (q_adr q)) (q_dat q)) else lt_words x) /\
    (q_we q = false -> dat_r (inp (t + 2 + d)%nat) = item (lt_words x) (q_adr q)) /\
    forall v, (t < v < t + 2 + d)%nat -> o_cyc (run s inp v) && ack (inp v) = false) /\
  (q_adr q = port -> q_we q = true -> forall p rest, after (lt_io x) = Expect p rest ->
    if q_dat q =? p then exists c' x', go (t + 2 + d)%nat = inl (c', x') /\ o_cyc c' = true /\ lt_ack x' = true /\ machine s inp (t + 2 + d) = machine s inp (S t) /\
      lt_io x' = Taken rest /\ lt_words x' = lt_words x /\ forall v, (t < v < t + 2 + d)%nat -> o_cyc (run s inp v) && ack (inp v) = false
    else go (t + 2 + d)%nat = inr WrongOutput).
Proof.
  intros E C A Nd d Ld q. destruct (reach t c x E C A Nd ltac:(fold d; lia)) as (c1 & x1 & E1 & C1 & A1 & H1 & H2 & H3 & M1 & D67 & N). fold d in E1, H3, M1, D67, N.
  pose proof (go_core _ c1 x1 E1) as Rc1. pose proof (go_inp _ c1 x1 E1) as Ri1. pose proof (go_core t c x E) as Rc. pose proof (go_inp t c x E) as Ri.
  assert (Sh := bus_shows s inp K (t + 1 + d) ltac:(rewrite <- Rc1; exact C1)). rewrite M1 in Sh. fold q in Sh. rewrite <- Rc1 in Sh. destruct Sh.
  assert (Qt : o_cyc (run s inp t) && negb (ack (inp t)) = false) by (rewrite Ri; cbn; rewrite A; apply andb_false_r).
  assert (Mn : machine s inp (t + 2 + d) = machine s inp (S t)).
  { rewrite <- M1. replace (t + 2 + d)%nat with (S (t + 1 + d)) by lia. apply machine_noack. apply N. lia. }
  assert (Ne : after (lt_io x) <> Taken []) by (destruct (lt_io x) as [|[|]]; cbn [after]; congruence).
  pose proof (strong_all _ c1 x1 E1) as St1. split.
  - intros Rq. destruct (next_tick (t + 1 + d) c1 x1 t E1) as (c2 & x2 & E2); [congruence|lia|lia|exact Qt| |].
    { intros _ P. rewrite sh_adr in P. lia. }
    destruct (tick_cases _ c1 x1 c2 x2 E1 E2 St1) as [St2 T]. rewrite A1, C1, sh_adr, (proj2 (Z.leb_le _ _) (proj1 Rq)), (proj2 (Z.ltb_lt _ _) (proj2 Rq)) in T. cbn [andb] in T.
    destruct T as (T1 & T2 & T3 & T4 & T5). replace (S (t + 1 + d)) with (t + 2 + d)%nat in E2 by lia. exists c2, x2. split; [exact E2|]. split; [assert (b_cyc (cpu_bus c2) = b_cyc (cpu_bus c1)) as Z by (rewrite T1; reflexivity); cbn in Z; congruence|].
    split; [exact T2|]. split; [exact Mn|]. split; [congruence|]. replace (t + 2 + d)%nat with (S (t + 1 + d)) in E2 by lia. pose proof (tk_S _ c1 x1 c2 x2 E1 E2). split; [lia|].
    rewrite sh_we, sh_sel, H2 in T5. split; [destruct (q_we q); [rewrite sh_dat in T5 by reflexivity|]; exact T5|]. split; [|exact N].
    intros We. replace (t + 2 + d)%nat with (S (t + 1 + d)) by lia. rewrite (go_inp _ c2 x2 E2). cbn [lt_input dat_r].
    destruct St2 as [_ I2 _ _]. destruct (I2 T4) as (_ & _ & I). assert (b_we (cpu_bus c2) = b_we (cpu_bus c1) /\ b_adr (cpu_bus c2) = b_adr (cpu_bus c1)) as [Z1 Z2] by (rewrite T1; auto).
    cbn in Z1, Z2. rewrite I, T5, Z2, sh_adr, We by congruence. reflexivity.
  - intros P We p rest Ep. assert (Dw : o_dat_w c1 = q_dat q) by (apply sh_dat; exact We). destruct (Z.eqb_spec (q_dat q) p) as [V|V].
    + destruct (next_tick (t + 1 + d) c1 x1 t E1) as (c2 & x2 & E2); [congruence|lia|lia|exact Qt|congruence|].
      destruct (tick_cases _ c1 x1 c2 x2 E1 E2 St1) as [_ T]. rewrite A1, C1, sh_adr, P, Z.eqb_refl in T. replace (port <? len) with false in T by (symmetry; apply Z.ltb_ge; exact Hl). rewrite !andb_false_r in T. cbn [andb] in T.
      destruct T as (T1 & T2 & T3 & p' & rest' & T4 & T5 & T6). replace (S (t + 1 + d)) with (t + 2 + d)%nat in E2 by lia. exists c2, x2. split; [exact E2|].
      split; [assert (b_cyc (cpu_bus c2) = b_cyc (cpu_bus c1)) as Z by (rewrite T1; reflexivity); cbn in Z; congruence|]. split; [exact T2|]. split; [exact Mn|]. split; [congruence|]. split; [congruence|exact N].
    + replace (t + 2 + d)%nat with (S (t + 1 + d)) by lia. destruct (go (S (t + 1 + d))) as [[c2 x2]|v] eqn:E2.
      * exfalso. destruct (tick_cases _ c1 x1 c2 x2 E1 E2 St1) as [_ T]. rewrite A1, C1, sh_adr, P, Z.eqb_refl in T. replace (port <? len) with false in T by (symmetry; apply Z.ltb_ge; exact Hl). rewrite !andb_false_r in T. cbn [andb] in T.
        destruct T as (T1 & T2 & T3 & p' & rest' & T4 & T5 & T6). congruence.
      * f_equal. destruct (go_end _ c1 x1 v E1 E2) as [(_ & Q1 & Q2)|[(_ & Q1 & Q2)|[(_ & Q1)|(Q1 & _)]]]; [exfalso| | |exact Q1].
        -- destruct (stuck_pending _ c1 x1 E1 Q1 Q2) as [L9 H]. destruct (H t ltac:(lia)) as [X1 X2]. rewrite X1, X2 in Qt. discriminate.
        -- assert (tk x1 = lt_ticks x1) by (unfold tk; rewrite Q1; reflexivity). lia.
        -- congruence.
Qed.
Lemma first : 0 < len -> exists c x, go 6%nat = inl (c, x) /\ o_cyc c = true /\ lt_ack x = true /\ machine s inp 6 = Fetching (boot_arch s) /\ lt_io x = Expect p0 rest0 /\ tk x <= 6 /\ lt_words x = words.
Proof.
  intros L0. pose proof K as Ko.
  assert (Z : forall j, (j < 5)%nat -> o_cyc (run s inp j) = false).
  { intros j Hj. rewrite (timed_cyc s inp Ko). unfold t_cyc. pose proof (idle_count s inp 0 5 eq_refl j ltac:(lia)) as I. cbn [Nat.add] in I. rewrite I. destruct (5 - j)%nat eqn:E; [lia|reflexivity]. }
  destruct (C08_never_hangs s inp Ko) as [C5 _].
  assert (Z0 : o_cyc s = false) by (exact (Z 0%nat ltac:(lia))).
  destruct (gap 0 s (lt0 words p0 rest0) 4 eq_refl) with (j := 4%nat) as (c1 & x1 & E1 & H1 & H2 & H3 & A1); try lia; try reflexivity.
  { rewrite Z0. reflexivity. }
  { discriminate. }
  { congruence. }
  { intros j Hj. apply Z. lia. }
  change (0 + 1 + 4)%nat with 5%nat in E1. pose proof (go_core _ c1 x1 E1) as Rc1. assert (C1 : o_cyc c1 = true) by (rewrite Rc1; exact C5).
  assert (N : forall v, (v < 6)%nat -> o_cyc (run s inp v) && ack (inp v) = false).
  { intros v Hv. destruct (Nat.eq_dec v 5) as [->|Ne]; [rewrite (go_inp _ c1 x1 E1); cbn; rewrite A1; apply andb_false_r|]. rewrite Z by lia. reflexivity. }
  assert (M : forall j, (j <= 6)%nat -> machine s inp j = Fetching (boot_arch s)).
  { induction j as [|j IH]; intros Hj; [reflexivity|]. rewrite machine_noack; [apply IH; lia|]. apply N. lia. }
  assert (Sh := bus_shows s inp Ko 5 C5). rewrite (M 5%nat ltac:(lia)) in Sh. rewrite <- Rc1 in Sh. destruct Sh. cbn [request q_adr q_we q_sel] in *.
  assert (P0 : pc (boot_arch s) / 4 = 0) by reflexivity.
  destruct (next_tick 5 c1 x1 0 E1) as (c2 & x2 & E2).
  { rewrite H1. discriminate. } { cbn in H3. lia. } { lia. } { rewrite Z by lia. reflexivity. }
  { intros _ P. rewrite sh_adr, P0 in P. discriminate. }
  destruct (tick_cases _ c1 x1 c2 x2 E1 E2 (strong_all _ c1 x1 E1)) as [_ T]. rewrite A1, C1, sh_adr, P0, (proj2 (Z.ltb_lt _ _) L0), sh_we in T. cbn [andb Z.leb] in T. change (0 <=? 0) with true in T. cbn [andb] in T.
  destruct T as (T1 & T2 & T3 & _ & T5). exists c2, x2. split; [exact E2|]. split; [assert (b_cyc (cpu_bus c2) = b_cyc (cpu_bus c1)) as Q by (rewrite T1; reflexivity); cbn in Q; congruence|].
  split; [exact T2|]. split; [apply M; lia|]. split; [rewrite T3, H1; reflexivity|]. pose proof (tk_S _ c1 x1 c2 x2 E1 E2). cbn in H3. split; [lia|]. rewrite T5, H2. reflexivity.
Qed.

(** The list holds the bytes of [m]. *)
Definition holds (l : list Z) (m : Z -> Z) : Prop := forall z, 0 <= z < 4 * len -> byte (item l (z / 4)) (z mod 4) = m z.
Lemma fetched_here t c x a m : go t = inl (c, x) -> o_cyc c = true -> lt_ack x = true -> machine s inp t = Fetching a -> (exists p rest, lt_io x = Expect p rest) ->
  holds (lt_words x) m -> dat_r (inp t) = rd m (pc a) 4 /\ 0 <= pc a / 4 < len.
Proof.
  intros E C A M (p & rest & Ei) Hm. pose proof (go_core t c x E) as Rc. pose proof (go_inp t c x E) as Ri. pose proof K as Ko.
  assert (C0 : o_cyc (run s inp t) = true) by (rewrite <- Rc; exact C). assert (A0 : ack (inp t) = true) by (rewrite Ri; exact A).
  pose proof (bus_shows s inp Ko t C0) as Sh. rewrite M in Sh. cbn [request] in Sh. destruct Sh. cbn [q_adr q_sel q_we q_dat] in *. rewrite <- Rc in *.
  pose proof (b_rel _ _ _ (fetch_boundary s inp Ko t a ltac:(rewrite <- Rc; exact C) A0 M)) as R. pose proof (pc_word a _ R) as P4.
  destruct (strong_all t c x E) as [I1 I2 _ _]. rewrite A, Ei, orb_false_r in I1. symmetry in I1. destruct (I2 I1) as (_ & Ad & Rd). specialize (Rd sh_we). rewrite sh_adr in Ad, Rd.
  split; [|exact Ad]. rewrite Ri. cbn [lt_input dat_r]. assert (Wd : word (lt_rdata x)) by apply (weak_all t c x E).
  rewrite <- (word_fld (lt_rdata x)) at 1 by exact Wd. symmetry. change 32 with (8 * Z.of_nat 4). apply peek_fld; [lia|].
  intros i Hi. rewrite loc_add by lia. cbv beta. rewrite P4, (Z.add_0_l i), Rd. rewrite <- (Hm (4 * (pc a / 4) + i)) by lia.
  replace ((4 * (pc a / 4) + i) / 4) with (pc a / 4) by (Z.to_euclidean_division_equations; lia). replace ((4 * (pc a / 4) + i) mod 4) with i by (Z.to_euclidean_division_equations; lia). reflexivity.
Qed.
Lemma runs_io n : forall q t c x p rest a m b, go t = inl (c, x) -> o_cyc c = true -> lt_ack x = true -> machine s inp t = Fetching a -> lt_io x = Expect p rest -> holds (lt_words x) m ->
  (forall o, isa_io (4 * len) n q o p rest (a, m) = Some b) -> tk x + 69 * Z.of_nat q + 5 <= 65535 ->
  exists T, Z.of_nat T <= Z.of_nat t + 69 * Z.of_nat n + 3 /\ go T = inr (if b then AllOutputs else WrongOutput).
Proof.
  induction n as [|n IH]; intros q t c x p rest a m b E C A M Hi Hm It L. { specialize (It (fun _ _ => false)). discriminate. }
  destruct q as [|q]; [specialize (It (fun _ _ => false)); discriminate|]. pose proof K as Ko.
  pose proof (go_core t c x E) as Rc. pose proof (go_inp t c x E) as Ri.
  assert (C0 : o_cyc (run s inp t) = true) by (rewrite <- Rc; exact C). assert (A0 : ack (inp t) = true) by (rewrite Ri; exact A).
  destruct (fetched_here t c x a m E C A M ltac:(eauto) Hm) as [Wd _].
  set (i1 := irq (inp (t + 1)%nat)) in *. set (i2 := irq (inp (t + 2)%nat)) in *. set (i3 := irq (inp (t + 3)%nat)) in *.
  assert (Mn : machine s inp (S t) = fetched SENTINEL a (dat_r (inp t)) i1 i2 i3) by (rewrite (machine_ack s inp t C0 A0), M; reflexivity).
  assert (It' : forall o, isa_io (4 * len) (S n) (S q) (fun k => match k with O => fun j => match j with 1 => i1 | 2 => i2 | _ => i3 end%nat | S k => o k end) p rest (a, m) = Some b) by (intros o; apply It).
  clear It. cbn [isa_io] in It'.
  assert (Pc : (0 <=? pc a) && (pc a <? 4 * len) = true) by (specialize (It' (fun _ _ => false)); destruct (_ && _); [reflexivity|discriminate]).
  rewrite Pc, <- Wd in It'. pose proof (access_fetched a (dat_r (inp t)) i1 i2 i3) as Af. pose proof (step_fetched a m (dat_r (inp t)) i1 i2 i3 Wd) as Sf.
  pose proof (delay_bound (irqs inp) (machine s inp t) t (dat_r (inp t))) as B.
  pose proof (transfer t c x E C A ltac:(rewrite Hi; discriminate)) as Tf. cbv zeta in Tf. rewrite Hi in Tf. cbn [after] in Tf.
  (* the fetch after an access *)
  assert (Next : forall n' q' u c1 x1 a' m' p' rest', (exists o, isa_io (4 * len) n' q' o p' rest' (a', m') = Some b) -> go u = inl (c1, x1) -> o_cyc c1 = true -> lt_ack x1 = true -> machine s inp (S u) = Fetching a' ->
    (exists r k, machine s inp u = Accessing r k) -> lt_io x1 <> Taken [] -> after (lt_io x1) = Expect p' rest' -> tk x1 + 2 < 65535 ->
    exists c2 x2, go (u + 3)%nat = inl (c2, x2) /\ o_cyc c2 = true /\ lt_ack x2 = true /\ machine s inp (u + 3) = Fetching a' /\ lt_io x2 = Expect p' rest' /\ tk x2 <= tk x1 + 3 /\ lt_words x2 = lt_words x1).
  { intros n' q' u c1 x1 a' m' p' rest' (o & I) E1 C1 A1 Mu (r & k & M1) Nt Ha Lk. pose proof (io_pc _ _ _ _ _ _ _ _ I) as Pc'. cbn [fst] in Pc'.
    pose proof (transfer u c1 x1 E1 C1 A1 Nt) as T2. cbv zeta in T2.
    assert (D1 : fst (delay_after (irqs inp) (machine s inp u) (u, dat_r (inp u))) = 1%nat) by (rewrite M1; reflexivity).
    rewrite D1, Mu in T2. destruct (T2 ltac:(lia)) as [T3 _]. clear T2. cbn [request q_adr q_we q_sel] in T3. destruct (T3 ltac:(Z.to_euclidean_division_equations; lia)) as (c2 & x2 & E2 & C2 & A2 & M2 & H2 & K2 & W2 & _).
    replace (u + 3)%nat with (u + 2 + 1)%nat by lia. exists c2, x2. repeat (split; [first [assumption|congruence|lia]|]). exact W2. }
  destruct (access a (dat_r (inp t)) i1) as [[[we sz] ea]|].
  - destruct Af as (r & k & Fe & Qa & Qw & Qs & Re & Al). rewrite Fe in Mn, Sf. rewrite Mn in Tf. cbn [request] in Tf.
    assert (D5 : (fst (delay_after (irqs inp) (machine s inp t) (t, dat_r (inp t))) <= 5)%nat) by (rewrite M; cbn [delay_after]; apply (access_delay inp t a r k Fe)).
    set (d := fst (delay_after (irqs inp) (machine s inp t) (t, dat_r (inp t)))) in *.
    destruct (Tf ltac:(lia)) as [Tm Tp]. clear Tf. destruct (step1 (a, m) i1 i2 i3) as [a' m'] eqn:Es. cbn [fst snd] in Sf.
    destruct (Z.ltb_spec ea (4 * len)) as [Lt|Ge].
    + clear Tp. destruct (Tm ltac:(rewrite Qa; Z.to_euclidean_division_equations; lia)) as (c1 & x1 & E1 & C1 & A1 & M1 & H1 & K1 & W1 & R1 & _). set (u := (t + 2 + d)%nat) in *.
      pose proof (go_core _ c1 x1 E1) as Rc1. pose proof (go_inp _ c1 x1 E1) as Ri1.
      assert (Cu : o_cyc (run s inp u) = true) by (rewrite <- Rc1; exact C1). assert (Au : ack (inp u) = true) by (rewrite Ri1; exact A1).
      assert (Mu : machine s inp (S u) = Fetching (k (dat_r (inp u)))) by (rewrite (machine_ack s inp u Cu Au), M1; reflexivity).
      assert (Ka : k (dat_r (inp u)) = a' /\ holds (lt_words x1) m').
      { destruct (q_we r).
        - destruct Sf as [S1 S2]. split; [apply S1|]. intros z Hz. rewrite W1, S2.
          transitivity (put {| b_cyc := true; b_stb := true; b_adr := q_adr r; b_we := true; b_sel := q_sel r; b_dat_w := q_dat r |} (fun z => byte (item (lt_words x) (z / 4)) (z mod 4)) z); [apply (upd_byte {| b_cyc := true; b_stb := true; b_adr := q_adr r; b_we := true; b_sel := q_sel r; b_dat_w := q_dat r |} (lt_words x) z); cbn [b_adr]; [|lia]|].
          + rewrite (proj1 (proj2 (weak_all t c x E))), Qa. Z.to_euclidean_division_equations; lia.
          + unfold put. cbn [b_adr b_sel b_dat_w]. rewrite (Hm z Hz). reflexivity.
        - destruct Sf as [-> S2]. split; [|rewrite W1; exact Hm]. apply S2. intros i Hi' _. rewrite (R1 eq_refl), <- (Hm (4 * q_adr r + i)) by (rewrite Qa; Z.to_euclidean_division_equations; lia).
          replace ((4 * q_adr r + i) / 4) with (q_adr r) by (Z.to_euclidean_division_equations; lia). replace ((4 * q_adr r + i) mod 4) with i by (Z.to_euclidean_division_equations; lia). reflexivity. }
      destruct Ka as [Ka Hm1]. rewrite Ka in Mu.
      destruct (Next n q u c1 x1 a' m' p rest) as (c2 & x2 & E2 & C2 & A2 & M2 & H2 & K2 & W2); try assumption.
      { exists (fun _ _ => false). apply It'. } { rewrite M1. eauto. } { rewrite H1. discriminate. } { rewrite H1. reflexivity. } { lia. }
      destruct (IH q (u + 3)%nat c2 x2 p rest a' m' b E2 C2 A2 M2 H2) as (T & LT & R); [rewrite W2; exact Hm1|exact It'|lia|]. exists T. split; [lia|exact R].
    + destruct (we && _ && _) eqn:Q; [|specialize (It' (fun _ _ => false)); discriminate].
      apply andb_prop in Q. destruct Q as [Q Qe]. apply andb_prop in Q. destruct Q as [Qwe Qsz]. apply Z.eqb_eq in Qe. destruct sz; try discriminate Qsz. clear Qsz Tm.
      rewrite Qwe in Qw. rewrite Qw in Sf. destruct Sf as [S1 S2].
      assert (Sel : q_sel r = 15) by (rewrite Qs, Qe; reflexivity). assert (Ad : q_adr r = port) by (rewrite Qa, Qe; reflexivity).
      assert (Dw : word (q_dat r)).
      { revert Fe. unfold fetched. destruct (int_enabled a && i1); [discriminate|]. destruct (decode (dat_r (inp t))) as [i|]; [|discriminate]. destruct (is_csr i && _); [discriminate|].
        destruct i; cbn [exec]; try discriminate; try (repeat match goal with |- context[if ?b then _ else _] => destruct b | |- context[match ?b with _ => _ end] => destruct b end; discriminate).
        - cbv zeta. destruct (aligned sz ((rd_x a rs1 + off) mod 2 ^ 32)); [|discriminate]. intros X. injection X as <- _. discriminate Qw.
        - cbv zeta. destruct (aligned sz ((rd_x a rs1 + off) mod 2 ^ 32)) eqn:Al2; [|discriminate]. intros X. injection X as <- _. cbn [q_dat]. apply store_data_word. exact Al2. }
      assert (Vm : rd m' 0x2000000 4 = q_dat r).
      { change 0x2000000 with (4 * port).
        etransitivity; [|exact (peek_put {| b_cyc := true; b_stb := true; b_adr := q_adr r; b_we := true; b_sel := q_sel r; b_dat_w := q_dat r |} m port Ad Sel Dw)].
        apply peek_ext. intros z. rewrite S2. reflexivity. }
      cbn [snd] in It'. rewrite Vm in It'. specialize (Tp Ad Qw p rest eq_refl).
      destruct (q_dat r =? p).
      2:{ specialize (It' (fun _ _ => false)). injection It' as <-. eexists. split; [|exact Tp]. lia. }
      destruct Tp as (c1 & x1 & E1 & C1 & A1 & M1 & H1 & W1 & _). set (u := (t + 2 + d)%nat) in *.
      pose proof (go_core _ c1 x1 E1) as Rc1. pose proof (go_inp _ c1 x1 E1) as Ri1.
      assert (Cu : o_cyc (run s inp u) = true) by (rewrite <- Rc1; exact C1). assert (Au : ack (inp u) = true) by (rewrite Ri1; exact A1).
      assert (K1 : tk x1 = -1). { unfold tk. destruct (strong_all _ c1 x1 E1) as [_ _ _ I4]. rewrite I4, H1. reflexivity. }
      destruct rest as [|p' rest'].
      * specialize (It' (fun _ _ => false)). injection It' as <-. exists (S u). split; [lia|]. destruct (go (S u)) as [[c2 x2]|v] eqn:E2.
        { exfalso. destruct (go_S u c2 x2 E2) as (c3 & x3 & al & E3 & _ & Ne & _). rewrite E1 in E3. injection E3 as <- <-. rewrite H1 in Ne. exact Ne. }
        f_equal. destruct (go_end u c1 x1 v E1 E2) as [(_ & Q1 & Q2)|[(_ & Q1 & Q2)|[(Q1 & _)|(_ & p' & rest' & Q1 & _)]]].
        -- exfalso. destruct (stuck_pending _ c1 x1 E1 Q1 Q2) as [L9 H]. destruct (H u ltac:(lia)) as [_ X2]. congruence.
        -- exfalso. unfold tk in K1. rewrite Q1 in K1. lia.
        -- exact Q1.
        -- congruence.
      * assert (Mu : machine s inp (S u) = Fetching a') by (rewrite (machine_ack s inp u Cu Au), M1; cbn [complete]; rewrite S1; reflexivity).
        destruct (Next n quota u c1 x1 a' m' p' rest') as (c2 & x2 & E2 & C2 & A2 & M2 & H2 & K2 & W2); try assumption.
        { exists (fun _ _ => false). apply It'. } { rewrite M1. eauto. } { rewrite H1. discriminate. } { rewrite H1. reflexivity. } { lia. }
        destruct (IH quota (u + 3)%nat c2 x2 p' rest' a' m' b E2 C2 A2 M2 H2) as (T & LT & R); [|exact It'|rewrite K1 in K2; unfold quota; lia|exists T; split; [lia|exact R]].
        rewrite W2, W1. intros z Hz. rewrite (Hm z Hz), S2. replace (z / 4 =? q_adr r) with false; [reflexivity|]. symmetry. apply Z.eqb_neq. rewrite Ad. clear - Hz Hl. Z.to_euclidean_division_equations; lia.
  - destruct Af as (a' & Fe). rewrite Fe in Mn, Sf. rewrite Sf in It'. set (d := fst (delay_after (irqs inp) (machine s inp t) (t, dat_r (inp t)))) in *.
    pose proof (io_pc _ _ _ _ _ _ _ _ (It' (fun _ _ => false))) as Pc'. cbn [fst] in Pc'. rewrite Mn in Tf. cbn [request q_adr q_we] in Tf.
    destruct (Tf ltac:(lia)) as [Tm _]. destruct (Tm ltac:(Z.to_euclidean_division_equations; lia)) as (c1 & x1 & E1 & C1 & A1 & M1 & H1 & K1 & W1 & _).
    destruct (IH q (t + 2 + d)%nat c1 x1 p rest a' m b E1 C1 A1) as (T & LT & R); [exact M1|exact H1|rewrite W1; exact Hm|exact It'|lia|].
    exists T. split; [lia|exact R].
Qed.

(** *** What the testbench has seen *)
Lemma port_taken t c x : go t = inl (c, x) -> o_cyc c && ack (inp t) && (o_adr c =? port) = io_acks (lt_io x).
Proof.
  intros E. destruct (strong_all t c x E) as [I1 I2 I3 I4]. rewrite (go_inp t c x E). cbn [lt_input ack]. rewrite I1. destruct (io_acks (lt_io x)) eqn:Q.
  - destruct (I3 eq_refl) as [-> ->]. rewrite orb_true_r, Z.eqb_refl. reflexivity.
  - rewrite orb_false_r. destruct (lt_wait x); [|rewrite andb_false_r; reflexivity]. destruct (I2 eq_refl) as (_ & Ad & _). rewrite (proj2 (Z.eqb_neq _ _)) by lia. apply andb_false_r.
Qed.
Lemma outs_S t : outputs s inp (S t) = outputs s inp t ++ if o_cyc (run s inp t) && ack (inp t) && (o_adr (run s inp t) =? port) then [o_dat_w (run s inp t)] else [].
Proof. unfold outputs. rewrite seq_S, filter_app, map_app. cbn [plus filter]. destruct (_ && _); reflexivity. Qed.
Lemma seen t c x : go t = inl (c, x) -> p0 :: rest0 = outputs s inp t ++ match lt_io x with Expect p rest => p :: rest | Taken rest => o_dat_w c :: rest end.
Proof.
  revert c x. induction t as [|t IH]; intros c' x' E; [injection E as <- <-; reflexivity|].
  destruct (go_S t c' x' E) as (c & x & a & E0 & _ & Eh & _). pose proof (strong_all t c x E0) as St. destruct (tick_cases t c x c' x' E0 E St) as [_ T].
  specialize (IH c x E0). pose proof (go_core t c x E0) as Rc. pose proof (port_taken t c x E0) as Pt. rewrite outs_S, <- Rc, Pt. unfold io_next in Eh.
  destruct (lt_io x) as [p rest|[|p rest]]; cbn [io_acks].
  - rewrite app_nil_r. destruct (lt_ack x); [destruct T as (_ & _ & ->); exact IH|]. destruct (o_cyc c && _).
    { destruct T as (_ & _ & -> & _). exact IH. }
    destruct (o_cyc c && _); [|destruct T as (_ & -> & _); exact IH]. destruct T as (B & _ & _ & p' & rest' & X & -> & D). injection X as <- <-.
    assert (b_dat_w (cpu_bus c') = b_dat_w (cpu_bus c)) as Z by (rewrite B; reflexivity). cbn in Z. rewrite Z, D. exact IH.
  - contradiction.
  - destruct Eh as (-> & _). rewrite <- app_assoc. exact IH.
Qed.
Lemma no_restart t c x : go t = inl (c, x) -> forall u, (u < t)%nat -> o_cyc (run s inp u) && ack (inp u) && (o_adr (run s inp u) =? port) = true -> lt_ticks x <= Z.of_nat t - Z.of_nat u - 1.
Proof.
  revert c x. induction t as [|t IH]; intros c' x' E u Hu Q; [lia|].
  destruct (go_S t c' x' E) as (c & x & a & E0 & _ & _ & _ & -> & _). destruct (Nat.eq_dec u t) as [->|N].
  - rewrite <- (go_core t c x E0), (port_taken t c x E0) in Q. destruct (strong_all t c x E0) as [_ _ _ I4]. rewrite I4, Q. lia.
  - pose proof (IH c x E0 u ltac:(lia) Q). destruct (lt_restart x); lia.
Qed.
End P.

(** ** Theorems *)
(** C79: what each verdict means, whatever the program. *)
Theorem C79_verdict : forall iw s words p rest, fresh s -> Forall word words -> 4 * Z.of_nat (length words) <= 0x2000000 ->
  let inp := loop_inp iw s words p rest in
  forall t c x v, loop_run iw s words p rest t = inl (c, x) -> loop_run iw s words p rest (S t) = inr v ->
  match v with
  | AllOutputs => outputs s inp (S t) = p :: rest
  | WrongOutput => exists q more, p :: rest = outputs s inp t ++ q :: more /\ o_cyc (run s inp t) = true /\ o_adr (run s inp t) = port /\ o_dat_w (run s inp t) <> q
  | CpuStuck => 65535 <= Z.of_nat t /\ forall u, Z.of_nat t - 65535 <= Z.of_nat u -> (u < t)%nat -> ~ (o_cyc (run s inp u) = true /\ ack (inp u) = true /\ o_adr (run s inp u) = port)
  | MicrocodeStuck => (99 <= t)%nat /\ forall u, (t - 99 <= u <= t)%nat -> o_cyc (run s inp u) = true /\ ack (inp u) = false
  | MicrocodePanic | MemoryIndex => False
  end.
Proof.
  intros iw s words p rest Hf Hw Hl inp t c x v E0 E. change 0x2000000 with (4 * port) in Hl. assert (Hl' : Z.of_nat (length words) <= port) by lia.
  pose proof (go_core iw s words p rest t c x E0) as Rc. fold inp in Rc. pose proof (seen iw s words p rest Hf Hw Hl' t c x E0) as Sn. fold inp in Sn.
  destruct (go_end iw s words p rest Hf Hw t c x v E0 E) as [(-> & Q1 & Q2)|[(-> & Q1 & Q2)|[(-> & Q1)|(-> & q & more & Q1 & Q2 & Q3 & Q4)]]].
  - exact (stuck_pending iw s words p rest Hf Hw t c x E0 Q1 Q2).
  - assert (T : lt_ticks x <= Z.of_nat t).
    { clear - E0. revert c x E0. induction t as [|t IH]; intros c x E; [injection E as <- <-; cbn; lia|]. destruct (go_S iw s words p rest t c x E) as (c1 & x1 & a & E1 & _ & _ & _ & -> & _). specialize (IH c1 x1 E1). destruct (lt_restart x1); lia. }
    split; [lia|]. intros u Hu1 Hu2 (C & A & P). pose proof (no_restart iw s words p rest Hf Hw Hl' t c x E0 u Hu2) as R. fold inp in R. rewrite C, A, P, Z.eqb_refl in R. specialize (R eq_refl). lia.
  - unfold inp. rewrite outs_S. fold inp. rewrite <- Rc. pose proof (port_taken iw s words p rest Hf Hw Hl' t c x E0) as Pt. fold inp in Pt. rewrite Pt, Q1. cbn [io_acks]. rewrite Q1 in Sn. symmetry. exact Sn.
  - exists q, more. rewrite Q1 in Sn. rewrite <- Rc. auto.
Qed.
(** C79: if the ISA machine, started at address 0 with the list as its memory, passes the test (or fails it with a wrong value)
    whatever the interrupt line does, then so does the simulation, in at most 69 cycles per instruction. *)
Theorem C79_verdict_of_isa : forall iw s words p rest n b, fresh s -> Forall word words -> 4 * Z.of_nat (length words) <= 0x2000000 ->
  (forall o, isa_io (4 * Z.of_nat (length words)) n quota o p rest (boot_arch s, fun z => byte (nth (Z.to_nat (z / 4)) words 0) (z mod 4)) = Some b) ->
  exists T, Z.of_nat T <= 69 * Z.of_nat n + 9 /\ loop_run iw s words p rest T = inr (if b then AllOutputs else WrongOutput).
Proof.
  intros iw s words p rest n b Hf Hw Hl It. change 0x2000000 with (4 * port) in Hl. assert (Hl' : Z.of_nat (length words) <= port) by lia.
  pose proof (io_pc _ _ _ _ _ _ _ _ (It (fun _ _ => false))) as Pc. cbn [fst] in Pc.
  destruct (first iw s words p rest Hf Hw Hl' ltac:(lia)) as (c & x & E & C & A & M & H & Kt & W).
  destruct (runs_io iw s words p rest Hf Hw Hl' n quota 6 c x p rest (boot_arch s) (fun z => byte (nth (Z.to_nat (z / 4)) words 0) (z mod 4)) b E C A M H) as (T & LT & R).
  - rewrite W. intros z Hz. reflexivity.
  - exact It.
  - unfold quota. lia.
  - exists T. split; [lia|exact R].
Qed.

(** ** The prime program *)
(** tests/sim/test_top.py:456-491, verbatim; assembled as in Demo.v. *)
Definition primes_text : string := "
        li      s0,2
        lui     s1,0x2000  # IO port at 0x2000000
        li      s3,18  #  Originally 256
outer:
        addi    s0,s0,1
        blt     s0,s3,noinit
        li      s0,2
noinit:
        li      s2,2
next_int:
        bge     s2,s0,write_io
        mv      a0,s0
        mv      a1,s2
        call    prime?
        beqz    a0,not_prime
        addi    s2,s2,1
        j       next_int
write_io:
        sw      s0,0(s1)
        call    delay
not_prime:
        j       outer
prime?:
        li      t0,1
submore:
        sub     a0,a0,a1
        bge     a0,t0,submore
        ret
delay:
        li      t0,2  # Originally 360000
countdown:
        addi    t0,t0,-1
        bnez    t0,countdown
        ret
"%string.
(** The program as the assembler reads it (tests/conftest.py:68-75), and as words. *)
Definition primes_code : list instr := Eval vm_compute in match assemble primes_text with Some l => l | None => [] end.
Definition primes_words : list Z := Eval vm_compute in map encode primes_code.
(** The fixture [memory] (tests/conftest.py:68-88): 400 words (line 58), the program at the start. *)
Definition primes_mem : list Z := primes_words ++ repeat 0 (400 - length primes_words).
Lemma primes_assembled : assemble primes_text = Some primes_code /\ primes_code <> [] /\ map decode primes_words = map Some primes_code.
Proof. split; [vm_compute; reflexivity|]. split; [discriminate|vm_compute; reflexivity]. Qed.
Lemma primes_isa : forall s o, isa_io (4 * Z.of_nat (length primes_mem)) 1400 quota o 3 [5; 7; 11; 13; 17; 2] (boot_arch s, fun z => byte (nth (Z.to_nat (z / 4)) primes_mem 0) (z mod 4)) = Some true.
Proof. intros s o. vm_compute. reflexivity. Qed.
(** C79: the repository's test passes whatever the interrupt line does and whatever the registers hold at power-up. *)
Theorem C79_primes : forall iw s, fresh s -> exists T, Z.of_nat T <= 96609 /\ loop_run iw s primes_mem 3 [5; 7; 11; 13; 17; 2] T = inr AllOutputs.
Proof.
  intros iw s Hf. destruct (C79_verdict_of_isa iw s primes_mem 3 [5; 7; 11; 13; 17; 2] 1400 true Hf) as (T & LT & R).
  - apply words_ok. vm_compute. reflexivity.
  - vm_compute. discriminate.
  - apply primes_isa.
  - exists T. split; [lia|exact R].
Qed.
(** ... and it would notice one value too many or too few: the next value after 17 is 2, and after that 3. *)
Theorem C79_primes_wrong : forall iw s, fresh s -> exists T, loop_run iw s primes_mem 3 [5; 7; 11; 13; 17; 19] T = inr WrongOutput.
Proof.
  intros iw s Hf. destruct (C79_verdict_of_isa iw s primes_mem 3 [5; 7; 11; 13; 17; 19] 1400 false Hf) as (T & LT & R).
  - apply words_ok. vm_compute. reflexivity.
  - vm_compute. discriminate.
  - intros o. vm_compute. reflexivity.
  - exists T. exact R.
Qed.
(** The power-on state is one; and the assertion does not look at WE: a program that only loads from the port
    (lui s1,0x2000; lw ra,0(s1); j .) passes a test that expects the value 0, which is then on DAT_W. *)
Definition only_reads : list Z := [0x020004b7; 0x0004a083; 0x0000006f] ++ repeat 0 397.
Example C79_applies : fresh por /\ Forall word primes_mem /\ 4 * Z.of_nat (length primes_mem) <= 0x2000000 /\
  exists T, loop_run (fun _ => false) por only_reads 0 [] T = inr AllOutputs.
Proof.
  split; [apply por_fresh|]. split; [apply words_ok; vm_compute; reflexivity|]. split; [vm_compute; discriminate|]. exists 25%nat.
  vm_compute. reflexivity.
Qed.

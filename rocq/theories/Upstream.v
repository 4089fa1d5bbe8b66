(** * C76: the verdict of a simulated test is that of the ISA machine *)
From Coq Require Import ZArith Lia Bool List.
From Verif Require Import Bits Ucode Cpu Isa Timed BitLemmas Wf Sym Blocks CsrBlocks DecodeOk Boundary Sim Main Obs PropsBus PropsInv Enable Observe PropsIsa Latency PropsFrame Memory SocMem Harness.
Import ListNotations.
Open Scope Z_scope.

(** ** Specification *)
Local Notation flat := (Memory.flat_at (fun a => a)).
Local Notation step1 := (Memory.flat_step (fun a => a)).
Local Notation rd := (Memory.peek (fun a => a)).
(** The data access of the instruction [w], if it gets that far: is it a store, width, address. *)
Definition access (a : arch) (w : Z) (i1 : bool) : option (bool * width * Z) :=
  if int_enabled a && i1 then None else
  match decode w with
  | Some (Load sz _ _ rs1 off) => let ea := (rd_x a rs1 + off) mod 2 ^ 32 in if aligned sz ea then Some (false, sz, ea) else None
  | Some (Store sz rs1 _ off) => let ea := (rd_x a rs1 + off) mod 2 ^ 32 in if aligned sz ea then Some (true, sz, ea) else None
  | _ => None
  end.
(** A test on the ISA machine with [top] bytes of memory, [o k j] being the interrupt line while instruction [k] runs:
    what [fin] makes of the memory once a word has been stored at 0x4000000 and another one at 0x4000004 after that ([h]: the
    first store has been seen); [None] if that takes more than [n] instructions or one of them leaves the memory. *)
Fixpoint isa_end {A : Type} (fin : (Z -> Z) -> A) (top : Z) (n : nat) (o : nat -> nat -> bool) (h : bool) (am : arch * (Z -> Z)) : option A :=
  match n with
  | O => None
  | S n =>
    let (a, m) := am in
    if (0 <=? pc a) && (pc a <? top) then
      let am' := step1 am (o 0%nat 1%nat) (o 0%nat 2%nat) (o 0%nat 3%nat) in
      let continue h := isa_end fin top n (fun k => o (S k)) h am' in
      match access a (rd m (pc a) 4) (o 0%nat 1%nat) with
      | None => continue h
      | Some (we, sz, ea) =>
        if ea <? top then continue h
        else if we && match sz with Word => true | _ => false end && (ea =? 0x4000000 + if h then 4 else 0) then
          if h then Some (fin (snd am')) else continue true
        else None
      end
    else None
  end.

(** The value of a test: the 64 bits stored. *)
Definition isa_test := isa_end (fun m => rd m 0x4000000 8).
(** The signature of a test: the memory from the first to the second address stored, one word per four bytes (the last one complete);
    [None] if that leaves the [top] bytes of memory. *)
Definition isa_signature (top : Z) (m : Z -> Z) : option (list Z) :=
  let first := rd m 0x4000000 4 in let last := rd m 0x4000004 4 in let n := Z.to_nat ((last - first + 3) / 4) in
  if (last <=? first) || (first + 4 * Z.of_nat n <=? top) then Some (map (fun k => rd m (first + 4 * Z.of_nat k) 4) (seq 0 n)) else None.

(** ** Proofs *)
(** What an instruction that has been fetched does next. *)
Lemma access_fetched a w i1 i2 i3 : match access a w i1 with
  | Some (we, sz, ea) => exists r k, fetched SENTINEL a w i1 i2 i3 = Accessing r k /\ q_adr r = ea / 4 /\ q_we r = we /\ q_sel r = lanes sz ea /\ 0 <= ea < 2 ^ 32 /\ aligned sz ea = true
  | None => exists a', fetched SENTINEL a w i1 i2 i3 = Fetching a'
  end.
Proof.
  unfold access, fetched. destruct (int_enabled a && i1); [eauto|].
  destruct (decode w) as [i|]; [|eauto].
  destruct i as [rd v|rd v|rd off|rd rs1 off|c rs1 rs2 off|sz sg rd rs1 off|sz rs1 rs2 off|f rd rs1 n|f rd rs1 rs2| | | | | |f rd g n]; cbn [is_csr andb exec].
  all: try solve [eauto | repeat match goal with |- context[if ?b then _ else _] => destruct b | |- context[match ?b with _ => _ end] => destruct b end; eauto].
  - cbv zeta. destruct (aligned sz _) eqn:Al; [|eauto]. do 2 eexists. split; [reflexivity|]. cbn [q_adr q_we q_sel]. repeat (split; [reflexivity|]). split; [apply Z.mod_pos_bound; lia|exact Al].
  - cbv zeta. destruct (aligned sz _) eqn:Al; [|eauto]. do 2 eexists. split; [reflexivity|]. cbn [q_adr q_we q_sel]. repeat (split; [reflexivity|]). split; [apply Z.mod_pos_bound; lia|exact Al].
Qed.
Lemma test_pc A (fin : (Z -> Z) -> A) top n o h am v : isa_end fin top n o h am = Some v -> exists n', n = S n' /\ 0 <= pc (fst am) < top.
Proof.
  destruct n as [|n]; [discriminate|]. cbn [isa_end]. destruct am as [a m]. destruct ((0 <=? pc a) && _) eqn:Q; [|discriminate]. intros _.
  apply andb_prop in Q. destruct Q as [Q1 Q2]. apply Z.leb_le in Q1. apply Z.ltb_lt in Q2. exists n. split; [reflexivity|]. cbn [fst]. lia.
Qed.
Section P.
Variables (wd : bool) (iw : nat -> bool) (s : state) (words : list Z).
Hypothesis (Hf : fresh s) (Hw : Forall word words) (Hl : Z.of_nat (length words) <= tohost).
Local Notation go := (sim_run wd 0 iw s words).
Local Notation inp := (sim_inp wd iw s words).
Local Notation len := (Z.of_nat (length words)).
Local Notation m0 := (mem0_byte words).

Let Ko : ok s inp := Harness.K wd iw s words Hf Hw.
Let Ms : memory_slave (fun a => a) s inp m0 := sim_memory_slave wd iw s words Hf Hw Hl.
Definition waits (h : bool) : host := if h then WaitSecond else WaitFirst.
Definition acks (h : bool) : host := if h then SecondAck else FirstAck.

Lemma next_tick t c x u : go t = inl (c, x) -> tb_host x <> HostDone -> Z.of_nat t < 65535 ->
  (u <= t <= u + 99)%nat -> o_cyc (run s inp u) && negb (ack (inp u)) = false -> exists c' x', go (S t) = inl (c', x').
Proof.
  intros E N L Lu Q. destruct (go (S t)) as [[c' x']|v] eqn:E'; [eauto|]. exfalso.
  destruct (go_end wd iw s words Hf Hw t c x v E E') as [(_ & _ & P & C)|[(_ & T)|(_ & D)]].
  - destruct (stuck_pending wd iw s words Hf Hw t c x E P C) as [L9 H]. destruct (H u ltac:(lia)) as [C1 C2]. rewrite C1, C2 in Q. discriminate.
  - rewrite (go_i wd iw s words t c x E) in T. lia.
  - congruence.
Qed.
(** The host while the bus is idle and at the end of a transfer. *)
Definition host_after (h : host) : host := match h with FirstAck => WaitSecond | SecondAck => HostDone | _ => h end.
Lemma host_idle t c x c' x' : go t = inl (c, x) -> go (S t) = inl (c', x') -> o_cyc c && negb (tb_ack x) = false -> tb_host x' = host_after (tb_host x).
Proof.
  intros E0 E Q. destruct (go_S wd iw s words t c' x' E) as (c1 & x1 & l & wait & a & rd & h & sets & val & E1 & Em & Eh & Nd & _ & _ & _ & _ & Ea & _ & Eh' & _).
  rewrite E0 in E1. injection E1 as <- <-. rewrite Eh'. destruct (strong_all wd iw s words Hf Hw Hl t c x E0) as [I1 I2 I3 I4 _].
  assert (Ws : forall y, tohost <= y -> acking (tb_host x) = false -> word_store (cpu_bus c) y = false).
  { intros y Hy Na. unfold word_store. cbn [cpu_bus b_cyc b_adr]. destruct (o_cyc c) eqn:C; [|rewrite !andb_false_r; reflexivity]. cbn [andb] in Q. destruct (tb_ack x); [|discriminate].
    rewrite Na, orb_false_r in I1. symmetry in I1. destruct (I2 I1) as (_ & Ad & _). replace (o_adr c =? y) with false; [reflexivity|]. symmetry. apply Z.eqb_neq. lia. }
  destruct (tb_host x); cbn [host_tick host_after acking] in *; rewrite ?Ws in Eh by (reflexivity || lia); try congruence; injection Eh as <- _ _; reflexivity.
Qed.
Lemma gap t c x h d : go t = inl (c, x) -> o_cyc c && negb (tb_ack x) = false -> host_after (tb_host x) = waits h ->
  (d <= 67)%nat -> (forall j, (j < d)%nat -> o_cyc (run s inp (t + 1 + j)) = false) -> Z.of_nat (t + 1 + d) <= 65535 ->
  forall j, (j <= d)%nat -> exists c' x', go (t + 1 + j)%nat = inl (c', x') /\ tb_host x' = waits h.
Proof.
  intros E Q Hh Ld Hq Lt. assert (Qt : o_cyc (run s inp t) && negb (ack (inp t)) = false) by (rewrite <- (go_core wd iw s words t c x E), (go_inp wd iw s words t c x E); exact Q).
  induction j as [|j IH]; intros Lj.
  - rewrite Nat.add_0_r, Nat.add_1_r. destruct (next_tick t c x t E) as (c' & x' & E'); [|lia|lia|exact Qt|].
    + intros D. rewrite D in Hh. destruct h; discriminate.
    + exists c', x'. split; [exact E'|]. rewrite (host_idle t c x c' x' E E' Q). exact Hh.
  - destruct (IH ltac:(lia)) as (c1 & x1 & E1 & H1). rewrite Nat.add_succ_r.
    destruct (next_tick (t + 1 + j) c1 x1 t E1) as (c' & x' & E'); [|lia|lia|exact Qt|].
    + rewrite H1. destruct h; discriminate.
    + exists c', x'. split; [exact E'|]. pose proof (Hq j ltac:(lia)) as C. rewrite <- (go_core wd iw s words _ c1 x1 E1) in C.
      rewrite (host_idle _ c1 x1 c' x' E1 E'); [rewrite H1; destruct h; reflexivity|]. rewrite C. reflexivity.
Qed.
(** Does memory or host answer a request? *)
Definition served (h : bool) (q : breq) : Prop :=
  0 <= q_adr q < len \/ (len <= q_adr q /\ q_we q = true /\ q_sel q = 15 /\ q_adr q = tohost + if h then 1 else 0).
Lemma answer r c x h : go r = inl (c, x) -> tb_host x = waits h -> o_cyc c = true -> tb_ack x = false -> Z.of_nat r < 65535 ->
  (exists u, (u <= r <= u + 99)%nat /\ o_cyc (run s inp u) && negb (ack (inp u)) = false) ->
  served h (request (machine s inp r)) -> exists c' x', go (S r) = inl (c', x') /\ o_cyc c' = true /\ tb_ack x' = true /\ machine s inp (S r) = machine s inp r /\
  tb_host x' = if q_adr (request (machine s inp r)) <? len then waits h else acks h.
Proof.
  intros E Hh C A L (u & Lu & Qu) Sv. pose proof (go_core wd iw s words r c x E) as Rc. pose proof (go_inp wd iw s words r c x E) as Ri.
  destruct (next_tick r c x u E) as (c' & x' & E'); [rewrite Hh; destruct h; discriminate|exact L|exact Lu|exact Qu|].
  exists c', x'. split; [exact E'|]. destruct (held wd iw s words Hf Hw Hl r c x c' x' E E' C A) as (C' & _ & _). split; [exact C'|].
  assert (Sh := bus_shows s inp Ko r ltac:(rewrite <- Rc; exact C)). rewrite <- Rc in Sh. destruct Sh.
  pose proof (answered wd iw s words Hf Hw Hl r c x c' x' E E' C A) as An.
  assert (Ac : tb_ack x' = true).
  { rewrite An. destruct Sv as [Sv|(S0 & S1 & S2 & S3)].
    - rewrite sh_adr, (proj2 (Z.leb_le _ _) (proj1 Sv)), (proj2 (Z.ltb_lt _ _) (proj2 Sv)). reflexivity.
    - unfold waits_for. rewrite Hh. unfold word_store. cbn [cpu_bus b_adr b_sel b_cyc b_we b_stb]. rewrite sh_stb, C, sh_adr, sh_sel, sh_we, S1, S2, S3. destruct h; cbn [waits]; rewrite ?Z.add_0_r, Z.eqb_refl; apply orb_true_r. }
  split; [exact Ac|]. split; [apply machine_noack; rewrite Ri; cbn; rewrite A; apply andb_false_r|].
  destruct (go_S wd iw s words r c' x' E') as (c1 & x1 & l & wait & a & rd & h' & sets & val & E1 & Em & Eh & Nd & _ & _ & _ & _ & Ea & _ & Eh' & _).
  rewrite E in E1. injection E1 as <- <-. rewrite Eh', Hh in *. rewrite <- sh_adr.
  assert (Es : word_store (cpu_bus c) (tohost + if h then 1 else 0) = negb (o_adr c <? len)).
  { unfold word_store. cbn [cpu_bus b_adr b_sel b_cyc b_we b_stb]. rewrite sh_stb, C, sh_adr, sh_sel, sh_we. destruct Sv as [Sv|(S0 & S1 & S2 & S3)].
    - rewrite (proj2 (Z.ltb_lt _ _) (proj2 Sv)), (proj2 (Z.eqb_neq _ _)) by (destruct h; lia). reflexivity.
    - rewrite (proj2 (Z.ltb_ge _ _) S0), S1, S2, S3, Z.eqb_refl. reflexivity. }
  destruct h; cbn [waits acks host_tick] in *; rewrite ?Z.add_0_r in Es; rewrite Es in Eh; destruct (o_adr c <? len); injection Eh as <- _ _; reflexivity.
Qed.
(** From the end of one transfer to the end of the next. *)
Lemma transfer t c x h : go t = inl (c, x) -> o_cyc c = true -> tb_ack x = true -> host_after (tb_host x) = waits h ->
  let d := fst (delay_after (irqs inp) (machine s inp t) (t, dat_r (inp t))) in
  Z.of_nat (t + 2 + d) <= 65535 -> let q := request (machine s inp (S t)) in served h q ->
  exists c' x', go (t + 2 + d)%nat = inl (c', x') /\ o_cyc c' = true /\ tb_ack x' = true /\ machine s inp (t + 2 + d) = machine s inp (S t) /\
  tb_host x' = (if q_adr q <? len then waits h else acks h) /\ forall v, (t < v < t + 2 + d)%nat -> o_cyc (run s inp v) && ack (inp v) = false.
Proof.
  intros E C A Hh d Ld q Sv. pose proof (go_core wd iw s words t c x E) as Rc. pose proof (go_inp wd iw s words t c x E) as Ri.
  assert (C0 : o_cyc (run s inp t) = true) by (rewrite <- Rc; exact C). assert (A0 : ack (inp t) = true) by (rewrite Ri; exact A).
  destruct (next_request s inp Ko t C0 A0) as [Q R]. fold d in Q, R. pose proof (delay_bound (irqs inp) (machine s inp t) t (dat_r (inp t))) as B. fold d in B.
  destruct (gap t c x h d E ltac:(rewrite A; apply andb_false_r) Hh ltac:(lia) Q ltac:(lia) d ltac:(lia)) as (c1 & x1 & E1 & H1).
  pose proof (go_core wd iw s words _ c1 x1 E1) as Rc1. assert (C1 : o_cyc c1 = true) by (rewrite Rc1; exact R).
  assert (A1 : tb_ack x1 = false).
  { destruct (tb_ack x1) eqn:A1; [|reflexivity]. destruct (weak_all wd iw s words Hw (t + 1 + d) c1 x1 E1) as (_ & _ & _ & W). destruct (W A1) as (_ & u & Eu & Cu).
    specialize (Q (d - 1)%nat ltac:(lia)). replace (t + 1 + (d - 1))%nat with u in Q by lia. congruence. }
  assert (N : forall v, (t < v < t + 2 + d)%nat -> o_cyc (run s inp v) && ack (inp v) = false).
  { intros v Hv. destruct (Nat.eq_dec v (t + 1 + d)) as [->|Ne]; [rewrite (go_inp wd iw s words _ c1 x1 E1); cbn; rewrite A1; apply andb_false_r|].
    replace v with (t + 1 + (v - t - 1))%nat by lia. rewrite Q by lia. reflexivity. }
  assert (M : forall j, (j <= d)%nat -> machine s inp (S t + j) = machine s inp (S t)).
  { induction j as [|j IH]; intros Hj; [rewrite Nat.add_0_r; reflexivity|]. rewrite Nat.add_succ_r, machine_noack; [apply IH; lia|]. apply N. lia. }
  specialize (M d (le_n d)). replace (S t + d)%nat with (t + 1 + d)%nat in M by lia.
  destruct (answer (t + 1 + d) c1 x1 h E1 H1 C1 A1 ltac:(lia)) as (c' & x' & E' & C' & A' & M' & H').
  - exists t. split; [lia|]. rewrite C0, A0. reflexivity.
  - rewrite M. exact Sv.
  - replace (t + 2 + d)%nat with (S (t + 1 + d)) by lia. exists c', x'. split; [exact E'|]. split; [exact C'|]. split; [exact A'|]. split; [congruence|]. split; [rewrite H', M; reflexivity|].
    intros v Hv. apply N. lia.
Qed.
Lemma first : Z.of_nat 6 <= 65535 -> served false (request (Fetching (boot_arch s))) -> 0 <= q_adr (request (Fetching (boot_arch s))) < len ->
  exists c x, go 6%nat = inl (c, x) /\ o_cyc c = true /\ tb_ack x = true /\ machine s inp 6 = Fetching (boot_arch s) /\ tb_host x = WaitFirst /\
  forall v, (v < 6)%nat -> o_cyc (run s inp v) && ack (inp v) = false.
Proof.
  intros _ Sv Ir.
  assert (Z : forall j, (j < 5)%nat -> o_cyc (run s inp j) = false).
  { intros j Hj. rewrite (timed_cyc s inp Ko). unfold t_cyc. pose proof (idle_count s inp 0 5 eq_refl j ltac:(lia)) as I. cbn [Nat.add] in I. rewrite I. destruct (5 - j)%nat eqn:E; [lia|reflexivity]. }
  destruct (C08_never_hangs s inp Ko) as [C5 _].
  destruct (gap 0 s (tb0 words) false 4 eq_refl) with (j := 4%nat) as (c1 & x1 & E1 & H1); try lia; try reflexivity.
  { specialize (Z 0%nat ltac:(lia)). cbn [run] in Z. rewrite Z. reflexivity. }
  { intros j Hj. apply Z. lia. }
  change (0 + 1 + 4)%nat with 5%nat in E1. pose proof (go_core wd iw s words _ c1 x1 E1) as Rc1. assert (C1 : o_cyc c1 = true) by (rewrite Rc1; exact C5).
  assert (A1 : tb_ack x1 = false).
  { destruct (tb_ack x1) eqn:A1; [|reflexivity]. destruct (weak_all wd iw s words Hw 5 c1 x1 E1) as (_ & _ & _ & W). destruct (W A1) as (_ & u & Eu & Cu).
    injection Eu as <-. rewrite Z in Cu by lia. discriminate. }
  assert (N : forall v, (v < 6)%nat -> o_cyc (run s inp v) && ack (inp v) = false).
  { intros v Hv. destruct (Nat.eq_dec v 5) as [->|Ne]; [rewrite (go_inp wd iw s words _ c1 x1 E1); cbn; rewrite A1; apply andb_false_r|]. rewrite Z by lia. reflexivity. }
  assert (M : forall j, (j <= 6)%nat -> machine s inp j = Fetching (boot_arch s)).
  { induction j as [|j IH]; intros Hj; [reflexivity|]. rewrite machine_noack; [apply IH; lia|]. apply N. lia. }
  destruct (answer 5 c1 x1 false E1 H1 C1 A1 ltac:(lia)) as (c' & x' & E' & C' & A' & M' & H').
  - exists 0%nat. split; [lia|]. rewrite Z by lia. reflexivity.
  - rewrite M by lia. exact Sv.
  - exists c', x'. split; [exact E'|]. split; [exact C'|]. split; [exact A'|]. split; [apply M; lia|]. split; [|exact N].
    rewrite H', M by lia. rewrite (proj2 (Z.ltb_lt _ _) (proj2 Ir)). reflexivity.
Qed.

Lemma flat_quiet t n : (forall u, (t <= u < t + n)%nat -> o_cyc (run s inp u) && ack (inp u) && u_fetch (s_u (run s inp u)) = false) -> flat s inp m0 (t + n) = flat s inp m0 t.
Proof.
  induction n as [|n IH]; intros N; [rewrite Nat.add_0_r; reflexivity|]. rewrite Nat.add_succ_r. cbn [Memory.flat_at]. rewrite N by lia. apply IH. intros; apply N; lia.
Qed.

Lemma runs_test Ty (fin : (Z -> Z) -> Ty) n : forall t c x h v, go t = inl (c, x) -> o_cyc c = true -> tb_ack x = true -> (exists a, machine s inp t = Fetching a) -> tb_host x = waits h ->
  (forall o, isa_end fin (4 * len) n o h (flat s inp m0 t) = Some v) -> Z.of_nat t + 69 * Z.of_nat n + 5 <= 65535 ->
  exists T c' x', Z.of_nat T <= Z.of_nat t + 69 * Z.of_nat n /\ go T = inl (c', x') /\ (exists w, go (S T) = inr (Returned w)) /\ fin (snd (flat s inp m0 T)) = v.
Proof.
  induction n as [|n IH]; intros t c x h v E C A (a & M) Hh It L. { specialize (It (fun _ _ => false)). discriminate. }
  pose proof (go_core wd iw s words t c x E) as Rc. pose proof (go_inp wd iw s words t c x E) as Ri.
  assert (C0 : o_cyc (run s inp t) = true) by (rewrite <- Rc; exact C). assert (A0 : ack (inp t) = true) by (rewrite Ri; exact A).
  pose proof (fetch_iff s inp Ko t C0) as U. rewrite M in U.
  pose proof (tracks_all (fun a => a) s inp m0 Ko Ms t) as Tr. unfold tracks in Tr. rewrite M in Tr.
  destruct (flat s inp m0 t) as [a1 m] eqn:Fl. destruct Tr as [-> Hm].
  pose proof (fetched_word (fun a => a) s inp m0 Ko Ms t a m C0 A0 M Hm) as Wd.
  set (i1 := irq (inp (t + 1)%nat)) in *. set (i2 := irq (inp (t + 2)%nat)) in *. set (i3 := irq (inp (t + 3)%nat)) in *.
  assert (Fs : flat s inp m0 (S t) = step1 (a, m) i1 i2 i3) by (cbn [Memory.flat_at]; rewrite C0, A0, U, Fl; reflexivity).
  assert (Mn : machine s inp (S t) = fetched SENTINEL a (dat_r (inp t)) i1 i2 i3) by (rewrite (machine_ack s inp t C0 A0), M; reflexivity).
  (* the hypothesis with the interrupt line of this instruction fixed *)
  assert (It' : forall o, isa_end fin (4 * len) (S n) (fun k => match k with O => fun j => match j with 1 => i1 | 2 => i2 | _ => i3 end%nat | S k => o k end) h (a, m) = Some v) by (intros o; apply It).
  clear It. cbn [isa_end] in It'. 
  assert (Pc : (0 <=? pc a) && (pc a <? 4 * len) = true) by (specialize (It' (fun _ _ => false)); destruct (_ && _); [reflexivity|discriminate]).
  rewrite Pc, <- Wd in It'. pose proof (access_fetched a (dat_r (inp t)) i1 i2 i3) as Af.
  pose proof (delay_bound (irqs inp) (machine s inp t) t (dat_r (inp t))) as B.
  pose proof (transfer t c x h E C A ltac:(rewrite Hh; destruct h; reflexivity)) as Tf. cbv zeta in Tf.
  assert (Fetch : forall a' q, machine s inp q = Fetching a' -> forall h' o, isa_end fin (4 * len) n o h' (flat s inp m0 q) = Some v -> served h' (request (machine s inp q)) /\ q_adr (request (machine s inp q)) < len).
  { intros a' q Mq h' o I. pose proof (tracks_all (fun a => a) s inp m0 Ko Ms q) as Tq. unfold tracks in Tq. rewrite Mq in Tq. destruct (flat s inp m0 q) as [a2 m2]. destruct Tq as [-> _].
    destruct (test_pc _ _ _ _ _ _ _ _ I) as (_ & _ & P). cbn [fst] in P. rewrite Mq. cbn [request q_adr]. split; [left; cbn [q_adr]|]; Z.to_euclidean_division_equations; lia. }
  destruct (access a (dat_r (inp t)) i1) as [[[we sz] ea]|].
  - destruct Af as (r & k & Fe & Qa & Qw & Qs & Re & Al). rewrite Fe in Mn. rewrite Mn in Tf. cbn [request] in Tf. rewrite Qa in Tf.
    assert (D5 : (fst (delay_after (irqs inp) (machine s inp t) (t, dat_r (inp t))) <= 5)%nat) by (rewrite M; cbn [delay_after]; apply (access_delay inp t a r k Fe)).
    set (d := fst (delay_after (irqs inp) (machine s inp t) (t, dat_r (inp t)))) in *.
    assert (Rest : forall h', served h r -> host_after (if ea / 4 <? len then waits h else acks h) = waits h' ->
      (forall o, isa_end fin (4 * len) n o h' (step1 (a, m) i1 i2 i3) = Some v) ->
      exists T c' x', Z.of_nat T <= Z.of_nat t + 69 * Z.of_nat (S n) /\ go T = inl (c', x') /\ (exists w, go (S T) = inr (Returned w)) /\ fin (snd (flat s inp m0 T)) = v).
    { intros h' Sv Ha I. destruct (Tf ltac:(lia) Sv) as (c1 & x1 & E1 & C1 & A1 & M1 & H1 & N1). clear Tf.
      pose proof (go_core wd iw s words _ c1 x1 E1) as Rc1. pose proof (go_inp wd iw s words _ c1 x1 E1) as Ri1. set (u := (t + 2 + d)%nat) in *.
      assert (Cu : o_cyc (run s inp u) = true) by (rewrite <- Rc1; exact C1). assert (Au : ack (inp u) = true) by (rewrite Ri1; exact A1).
      assert (Mu : machine s inp (S u) = Fetching (k (dat_r (inp u)))) by (rewrite (machine_ack s inp u Cu Au), M1; reflexivity).
      pose proof (fetch_iff s inp Ko u Cu) as Uu. rewrite M1 in Uu.
      assert (Fu : flat s inp m0 (S u) = step1 (a, m) i1 i2 i3).
      { rewrite <- Fs. replace (S u) with (S t + (S u - S t))%nat by lia. apply flat_quiet. intros y Hy. destruct (Nat.eq_dec y u) as [->|Ne]; [rewrite Uu; apply andb_false_r|]. rewrite N1 by lia. reflexivity. }
      destruct (Fetch _ (S u) Mu h' (fun _ _ => false) ltac:(rewrite Fu; apply I)) as [Sq Lq].
      pose proof (transfer u c1 x1 h' E1 C1 A1 ltac:(rewrite H1; exact Ha)) as T2. cbv zeta in T2.
      assert (D1 : fst (delay_after (irqs inp) (machine s inp u) (u, dat_r (inp u))) = 1%nat) by (rewrite M1; reflexivity).
      rewrite D1 in T2. destruct (T2 ltac:(lia) Sq) as (c2 & x2 & E2 & C2 & A2 & M2 & H2 & N2). rewrite (proj2 (Z.ltb_lt _ _) Lq) in H2.
      assert (F2 : flat s inp m0 (u + 2 + 1) = step1 (a, m) i1 i2 i3).
      { rewrite <- Fu. replace (u + 2 + 1)%nat with (S u + 2)%nat by lia. apply flat_quiet. intros y Hy. rewrite N2 by lia. reflexivity. }
      destruct (IH (u + 2 + 1)%nat c2 x2 h' v E2 C2 A2) as (T & c3 & x3 & LT & R); [rewrite M2; eauto|exact H2|rewrite F2; exact I|lia|].
      exists T, c3, x3. split; [lia|exact R]. }
    destruct (Z.ltb_spec ea (4 * len)) as [Lt|Ge].
    + apply (Rest h); [left; rewrite Qa; Z.to_euclidean_division_equations; lia| |exact It'].
      rewrite (proj2 (Z.ltb_lt _ _)) by (Z.to_euclidean_division_equations; lia). destruct h; reflexivity.
    + destruct (we && _ && _) eqn:Q; [|specialize (It' (fun _ _ => false)); discriminate].
      apply andb_prop in Q. destruct Q as [Q Qe]. apply andb_prop in Q. destruct Q as [Qwe Qsz]. apply Z.eqb_eq in Qe. destruct sz; try discriminate Qsz. clear Qsz.
      assert (Sv : served h r).
      { right. rewrite Qa, Qw, Qs, Qe, Qwe. unfold tohost. split; [|split; [reflexivity|]; destruct h; split; reflexivity]. Z.to_euclidean_division_equations; lia. }
      assert (Nl : ea / 4 <? len = false) by (apply Z.ltb_ge; Z.to_euclidean_division_equations; lia).
      destruct h; [|apply (Rest true); [exact Sv|rewrite Nl; reflexivity|exact It']].
      clear Rest. destruct (Tf ltac:(lia) Sv) as (c1 & x1 & E1 & C1 & A1 & M1 & H1 & N1). rewrite Nl in H1. cbn [acks] in H1. set (u := (t + 2 + d)%nat) in *.
      pose proof (go_core wd iw s words _ c1 x1 E1) as Rc1. pose proof (go_inp wd iw s words _ c1 x1 E1) as Ri1.
      assert (Cu : o_cyc (run s inp u) = true) by (rewrite <- Rc1; exact C1). assert (Au : ack (inp u) = true) by (rewrite Ri1; exact A1).
      assert (Qu : o_cyc (run s inp u) && negb (ack (inp u)) = false) by (rewrite Au; apply andb_false_r).
      destruct (next_tick u c1 x1 u E1) as (c2 & x2 & E2); [rewrite H1; discriminate|lia|lia|exact Qu|].
      assert (H2 : tb_host x2 = HostDone) by (rewrite (host_idle u c1 x1 c2 x2 E1 E2), H1; [reflexivity|rewrite A1; apply andb_false_r]).
      exists (S u), c2, x2. split; [lia|]. split; [exact E2|].
      destruct (go (S (S u))) as [[c3 x3]|v3] eqn:E3.
      { destruct (go_S wd iw s words (S u) c3 x3 E3) as (c4 & x4 & l & wait & a4 & rd4 & h4 & sets & val & E4 & _ & _ & Nd & _). rewrite E2 in E4. injection E4 as <- <-. congruence. }
      destruct (go_end wd iw s words Hf Hw (S u) c2 x2 v3 E2 E3) as [(_ & _ & P & Cn)|[(_ & Ti)|(Ev & _)]].
      * exfalso. destruct (stuck_pending wd iw s words Hf Hw (S u) c2 x2 E2 P Cn) as [L9 H]. destruct (H u ltac:(lia)) as [_ Q]. congruence.
      * exfalso. rewrite (go_i wd iw s words _ c2 x2 E2) in Ti. lia.
      * subst v3. split; [eauto|].
        assert (Fu : flat s inp m0 (S u) = step1 (a, m) i1 i2 i3).
        { rewrite <- Fs. replace (S u) with (S t + (S u - S t))%nat by lia. apply flat_quiet. intros y Hy. destruct (Nat.eq_dec y u) as [->|Ne].
          - pose proof (fetch_iff s inp Ko u Cu) as Uu. rewrite M1 in Uu. rewrite Uu. apply andb_false_r.
          - rewrite N1 by lia. reflexivity. }
        rewrite Fu. specialize (It' (fun _ _ => false)). congruence.
  - destruct Af as (a' & Fe). rewrite Fe in Mn. set (d := fst (delay_after (irqs inp) (machine s inp t) (t, dat_r (inp t)))) in *.
    destruct (Fetch a' (S t) Mn h (fun _ _ => false) ltac:(rewrite Fs; apply It')) as [Sq Lq]. destruct (Tf ltac:(lia) Sq) as (c1 & x1 & E1 & C1 & A1 & M1 & H1 & N1).
    rewrite (proj2 (Z.ltb_lt _ _) Lq) in H1.
    assert (F1 : flat s inp m0 (t + 2 + d) = step1 (a, m) i1 i2 i3).
    { rewrite <- Fs. replace (t + 2 + d)%nat with (S t + (1 + d))%nat by lia. apply flat_quiet. intros y Hy. rewrite N1 by lia. reflexivity. }
    destruct (IH (t + 2 + d)%nat c1 x1 h v E1 C1 A1) as (T & c3 & x3 & LT & R); [rewrite M1; eauto|exact H1|rewrite F1; exact It'|lia|].
    exists T, c3, x3. split; [lia|exact R].
Qed.
End P.

Lemma isa_ends wd iw s words A (fin : (Z -> Z) -> A) n v : fresh s -> Forall word words -> 4 * Z.of_nat (length words) <= 0x4000000 -> 69 * Z.of_nat n <= 65500 ->
  (forall o, isa_end fin (4 * Z.of_nat (length words)) n o false (boot_arch s, fun z => byte (nth (Z.to_nat (z / 4)) words 0) (z mod 4)) = Some v) ->
  exists T c x w, Z.of_nat T <= 69 * Z.of_nat n + 6 /\ sim_run wd 0 iw s words T = inl (c, x) /\ sim_run wd 0 iw s words (S T) = inr (Returned w) /\
    fin (snd (flat s (sim_inp wd iw s words) (mem0_byte words) T)) = v.
Proof.
  intros Hf Hw Hl Ln It. assert (Hl' : Z.of_nat (length words) <= tohost) by (unfold tohost; change (0x4000000 / 4) with 0x1000000; lia).
  destruct (test_pc _ _ _ _ _ _ _ _ (It (fun _ _ => false))) as (n' & En & P). cbn [fst] in P.
  assert (Ir : 0 <= q_adr (request (Fetching (boot_arch s))) < Z.of_nat (length words)) by (cbn [request q_adr]; Z.to_euclidean_division_equations; lia).
  destruct (first wd iw s words Hf Hw Hl' ltac:(lia) ltac:(left; exact Ir) Ir) as (c & x & E & C & A' & M & H & N).
  destruct (runs_test wd iw s words Hf Hw Hl' A fin n 6 c x false v E C A') as (T & c' & x' & LT & E1 & (w & E2) & V).
  - eauto.
  - exact H.
  - change 6%nat with (0 + 6)%nat. rewrite flat_quiet; [exact It|]. intros u Hu. rewrite N by lia. reflexivity.
  - lia.
  - exists T, c', x', w. split; [lia|]. auto.
Qed.

(** ** Theorems *)
(** C76: if the ISA machine, started at address 0 with the list as its memory, finishes the test with [v] within [n]
    instructions whatever the interrupt line does, then so does the simulation, within 69 [n] + 7 ticks. *)
Theorem C76_verdict_of_isa : forall wd iw s words n v, fresh s -> Forall word words -> 4 * Z.of_nat (length words) <= 0x4000000 ->
  69 * Z.of_nat n <= 65500 ->
  (forall o, isa_test (4 * Z.of_nat (length words)) n o false (boot_arch s, fun z => byte (nth (Z.to_nat (z / 4)) words 0) (z mod 4)) = Some v) ->
  exists T, Z.of_nat T <= 69 * Z.of_nat n + 7 /\ sim_run wd 0 iw s words T = inr (Returned v).
Proof.
  intros wd iw s words n v Hf Hw Hl Ln It. destruct (isa_ends wd iw s words _ _ n v Hf Hw Hl Ln It) as (T & c & x & w & LT & E & E' & V).
  exists (S T). split; [lia|]. rewrite E'. do 2 f_equal. pose proof (C72_verdict wd iw s words Hf Hw Hl T c x w E E') as Vd.
  change (fun z => byte (nth (Z.to_nat (z / 4)) words 0) (z mod 4)) with (mem0_byte words) in Vd. destruct (flat _ _ _ _) as [a m]. destruct Vd as (-> & _). exact V.
Qed.
(** C76: the riscof signature is that of the ISA machine. *)
Theorem C76_signature_of_isa : forall wd iw s words n sg, fresh s -> Forall word words -> 4 * Z.of_nat (length words) <= 0x4000000 ->
  69 * Z.of_nat n <= 65500 ->
  (forall o, isa_end (isa_signature (4 * Z.of_nat (length words))) (4 * Z.of_nat (length words)) n o false (boot_arch s, fun z => byte (nth (Z.to_nat (z / 4)) words 0) (z mod 4)) = Some sg) ->
  exists T c x v, Z.of_nat T <= 69 * Z.of_nat n + 6 /\ sim_run wd 0 iw s words T = inl (c, x) /\ sim_run wd 0 iw s words (S T) = inr (Returned v) /\
    signature (tb_words x) v = sg.
Proof.
  intros wd iw s words n v Hf Hw Hl Ln It. destruct (isa_ends wd iw s words _ _ n v Hf Hw Hl Ln It) as (T & c & x & w & LT & E & E' & V).
  exists T, c, x, w. split; [lia|]. split; [exact E|]. split; [exact E'|]. pose proof (C72_signature wd iw s words Hf Hw Hl T c x w E E') as Vd.
  change (fun z => byte (nth (Z.to_nat (z / 4)) words 0) (z mod 4)) with (mem0_byte words) in Vd. destruct (flat _ _ _ _) as [a m]. rewrite Vd. exact V.
Qed.

(** * C72: the simulation harness of the upstream and riscof tests

    tests/conftest.py gives the core a memory and a microcode watchdog, tests/upstream/test_upstream.py
    a "host" that waits for the program's verdict, tests/riscof/sentinel/riscof_sentinel.py the same
    host followed by a dump of the signature.  Here they run next to the core. *)
From Coq Require Import ZArith Lia Bool List.
From Verif Require Import Bits Ucode Cpu Isa Timed BitLemmas Wf Sym Blocks CsrBlocks DecodeOk Boundary Sim Main Obs PropsBus PropsInv Observe PropsIsa Memory SocMem.
Import ListNotations.
Open Scope Z_scope.

(** ** Model *)
(** The host's states (tests/upstream/test_upstream.py:39-45; [TIMEOUT] raises in the tick that
    enters it, lines 58-59 and 82-84, so it needs no state). *)
Inductive host := WaitFirst | FirstAck | WaitSecond | SecondAck | HostDone.
(** Everything the test processes hold between two ticks: the memory's list and whether the memory
    process is at its second [ctx.tick()] (conftest.py:124); the signals [bus.ack] and [bus.dat_r],
    driven only by the test (the former by both processes); the host's variables (test_upstream.py:48-50);
    the watchdog's variables (conftest.py:37-39). *)
Record tb := { tb_words : list Z; tb_wait : bool; tb_ack : bool; tb_rdata : Z;
               tb_host : host; tb_val : Z; tb_i : Z; tb_prev : Z; tb_count : Z }.
(** How a simulation ends: the host returns a value (test_upstream.py:86), or one of the processes raises
    (conftest.py:42, 47, 116; test_upstream.py:83). *)
Inductive verdict := Returned (v : Z) | Panicked | StuckUcode | TimedOut | IndexErr.

(** The lanes of a write (tests/conftest.py:107-114). *)
Definition py_merge (sel old new : Z) : Z :=
  let d := old in
  let d := if Z.testbit sel 0 then Z.lor (Z.land d 0xffffff00) (Z.land new 0x000000ff) else d in
  let d := if Z.testbit sel 1 then Z.lor (Z.land d 0xffff00ff) (Z.land new 0x0000ff00) else d in
  let d := if Z.testbit sel 2 then Z.lor (Z.land d 0xff00ffff) (Z.land new 0x00ff0000) else d in
  if Z.testbit sel 3 then Z.lor (Z.land d 0x00ffffff) (Z.land new 0xff000000) else d.
(** Assignment to an item of a Python list (conftest.py:116); the caller checks the index. *)
Fixpoint upd (l : list Z) (n : nat) (v : Z) : list Z :=
  match l, n with [], _ => [] | _ :: l', O => v :: l' | x :: l', S n' => x :: upd l' n' v end.
(** An item of a Python list (conftest.py:105, 120); the caller checks the index. *)
Definition item (l : list Z) (a : Z) : Z := nth (Z.to_nat a) l 0.
(** One tick of [mproc_inner] (tests/conftest.py:91-125): the new list, whether it is at the second tick now,
    ACK and DAT_R; [None] if it raises IndexError.  [start] is [memory.range.start].  The list read is
    indexed by [addr - start], the list written by [addr] (lines 105, 116, 120).  Resets of the clock
    domain (line 101) do not occur in these tests. *)
Definition mem_tick (start : Z) (b : wbus) (l : list Z) (wait ack0 : bool) (rdata : Z) : option (list Z * bool * bool * Z) :=
  if wait then Some (l, false, false, rdata)
  else if b_cyc b && b_stb b && ((start <=? b_adr b) && (b_adr b <? start + Z.of_nat (length l))) then
    if b_we b then
      if b_adr b <? Z.of_nat (length l)
      then Some (upd l (Z.to_nat (b_adr b)) (py_merge (b_sel b) (item l (b_adr b - start)) (b_dat_w b)), true, true, rdata)
      else None
    else Some (l, true, true, item l (b_adr b - start))
  else Some (l, false, ack0, rdata).
(** Word address of the host's mailbox (test_upstream.py:63). *)
Definition tohost : Z := 0x4000000 / 4.
(** What the host waits for (test_upstream.py:63-64, 72-73). *)
Definition word_store (b : wbus) (a : Z) : bool := (b_adr b =? a) && (b_sel b =? 15) && (b_cyc b && b_stb b) && b_we b.
(** One tick of the host after the timeout check (test_upstream.py:61-81): its next state, the value of
    [bus.ack] it sets if any, and [val]. *)
Definition host_tick (b : wbus) (h : host) (val : Z) : host * option bool * Z :=
  match h with
  | WaitFirst => if word_store b tohost then (FirstAck, Some true, val) else (WaitFirst, None, val)
  | FirstAck => (WaitSecond, Some false, b_dat_w b)
  | WaitSecond => if word_store b (tohost + 1) then (SecondAck, Some true, val) else (WaitSecond, None, val)
  | SecondAck => (HostDone, Some false, Z.lor val (Z.shiftl (b_dat_w b) 32))
  | HostDone => (HostDone, None, val)
  end.
(** The core's inputs (top.py:253-262; no reset, [irq] left to the caller). *)
Definition tb_input (x : tb) (i : bool) : input := {| rst := false; ack := tb_ack x; dat_r := tb_rdata x; irq := i |}.
(** One tick of everything: watchdog (conftest.py:40-52, absent in riscof: [wd = false]), memory, then the
    host: testbenches resume after processes.  [seq_now] is [control.ucoderom.addr]. *)
Definition tick (wd : bool) (start : Z) (c : state) (x : tb) (i : bool) : (state * tb) + verdict :=
  let inp := tb_input x i in
  let adr := seq_now c inp in
  let count := if tb_prev x =? adr then tb_count x + 1 else 0 in
  if wd && (adr =? 255) then inr Panicked
  else if wd && (100 <? count) then inr StuckUcode
  else match mem_tick start (cpu_bus c) (tb_words x) (tb_wait x) (tb_ack x) (tb_rdata x) with
  | None => inr IndexErr
  | Some (l, wait, a, rdata) =>
    if 65535 <? tb_i x + 1 then inr TimedOut
    else match tb_host x with
    | HostDone => inr (Returned (tb_val x))
    | _ => let '(h, sets, val) := host_tick (cpu_bus c) (tb_host x) (tb_val x) in
      inl (step c inp,
           {| tb_words := l; tb_wait := wait; tb_ack := match sets with Some v => v | None => a end; tb_rdata := rdata;
              tb_host := h; tb_val := val; tb_i := tb_i x + 1; tb_prev := adr; tb_count := count |})
    end
  end.
(** Initial values (test_upstream.py:48-50, conftest.py:37-39); [bus.ack] and [bus.dat_r] start at 0. *)
Definition tb0 (words : list Z) : tb :=
  {| tb_words := words; tb_wait := false; tb_ack := false; tb_rdata := 0; tb_host := WaitFirst; tb_val := 0xdeadbeef; tb_i := 0; tb_prev := 2; tb_count := 0 |}.
(** The simulation (test_upstream.py:114-115; riscof_sentinel.py:229-238), tick by tick. *)
Fixpoint sim_run (wd : bool) (start : Z) (iw : nat -> bool) (s : state) (words : list Z) (t : nat) : (state * tb) + verdict :=
  match t with
  | O => inl (s, tb0 words)
  | S n => match sim_run wd start iw s words n with inl (c, x) => tick wd start c x (iw n) | inr v => inr v end
  end.
(** The upstream tests' assertion (test_upstream.py:94). *)
Definition passes (v : verdict) : Prop := exists val, v = Returned val /\ Z.shiftr val 1 = 0 /\ Z.land val 1 = 1.

(** The signature dump (riscof_sentinel.py:26-43): the memory as bytes, then one word per line, [None] if it
    raises IndexError.  Lines are modelled by their numbers. *)
Definition to_bytes (w : Z) : list Z := [w mod 256; w / 256 mod 256; w / 65536 mod 256; w / 16777216 mod 256].
(** riscof_sentinel.py:38-42 *)
Definition sig_word (bin : list Z) (i : nat) : option Z :=
  match nth_error bin i, nth_error bin (i + 1), nth_error bin (i + 2), nth_error bin (i + 3) with
  | Some a, Some b, Some c, Some d => Some (Z.lor (Z.lor (Z.lor (Z.lor 0 a) (Z.shiftl b 8)) (Z.shiftl c 16)) (Z.shiftl d 24))
  | _, _, _, _ => None
  end.
(** [range(begin_sig, end_sig, 4)] of riscof_sentinel.py:37 *)
Definition sig_range (b e : Z) : list nat := map (fun k => (Z.to_nat b + 4 * k)%nat) (seq 0 (Z.to_nat ((e - b + 3) / 4))).
(** The loop (riscof_sentinel.py:37-43): stops at the first IndexError. *)
Fixpoint sig_lines (bin : list Z) (l : list nat) : option (list Z) :=
  match l with
  | [] => Some []
  | i :: l' => match sig_word bin i, sig_lines bin l' with Some w, Some r => Some (w :: r) | _, _ => None end
  end.
(** riscof_sentinel.py:26-43 *)
Definition signature (words : list Z) (val : Z) : option (list Z) :=
  sig_lines (flat_map to_bytes words) (sig_range (Z.land val 0xffffffff) (Z.land (Z.shiftr val 32) 0xffffffff)).

(** ** Proofs *)
Lemma upd_length l : forall n v, length (upd l n v) = length l.
Proof. induction l as [|x l IH]; intros [|n] v; cbn; congruence || reflexivity. Qed.
Lemma upd_nth l : forall n v k, nth k (upd l n v) 0 = if Nat.eqb k n && Nat.ltb n (length l) then v else nth k l 0.
Proof.
  induction l as [|x l IH]; intros n v k.
  - cbn [upd length]. rewrite andb_false_r. reflexivity.
  - destruct n as [|n], k as [|k]; try reflexivity. cbn [upd nth]. rewrite IH. reflexivity.
Qed.
Lemma upd_forall P l : forall n v, Forall P l -> P v -> Forall P (upd l n v).
Proof. induction l as [|x l IH]; intros [|n] v H Hv; inversion H; subst; cbn; auto. Qed.

Lemma byte_bit x i j : 0 <= i -> 0 <= j -> Z.testbit (byte x i) j = (j <? 8) && Z.testbit x (8 * i + j).
Proof.
  intros Hi Hj. unfold byte, fld. destruct (Z.ltb_spec j 8) as [L|L].
  - rewrite Z.mod_pow2_bits_low by lia. rewrite Z.div_pow2_bits by lia. cbn [andb]. f_equal. lia.
  - rewrite Z.mod_pow2_bits_high by lia. reflexivity.
Qed.
Lemma byte_lor x y i : 0 <= i -> byte (Z.lor x y) i = Z.lor (byte x i) (byte y i).
Proof. intros Hi. apply Z.bits_inj'. intros j Hj. rewrite Z.lor_spec, !byte_bit, Z.lor_spec by assumption. destruct (j <? 8); reflexivity. Qed.
Lemma byte_land x y i : 0 <= i -> byte (Z.land x y) i = Z.land (byte x i) (byte y i).
Proof. intros Hi. apply Z.bits_inj'. intros j Hj. rewrite Z.land_spec, !byte_bit, Z.land_spec by assumption. destruct (j <? 8); reflexivity. Qed.
Lemma byte_full x i : Z.land (byte x i) 255 = byte x i.
Proof. change 255 with (Z.ones 8). rewrite Z.land_ones by lia. unfold byte, fld. rewrite Z.mod_mod by lia. reflexivity. Qed.
Lemma py_merge_byte sel old new i : 0 <= i < 4 -> byte (py_merge sel old new) i = if Z.testbit sel i then byte new i else byte old i.
Proof.
  intros Hi. unfold py_merge. cbv zeta. assert (i = 0 \/ i = 1 \/ i = 2 \/ i = 3) as [->|[->|[->| ->]]] by lia;
  destruct (Z.testbit sel 0), (Z.testbit sel 1), (Z.testbit sel 2), (Z.testbit sel 3);
  repeat first [rewrite byte_lor by lia|rewrite byte_land by lia];
  repeat match goal with |- context[byte (Zpos ?p) ?k] => let v := eval vm_compute in (byte (Zpos p) k) in change (byte (Zpos p) k) with v end;
  rewrite ?Z.land_0_r, ?Z.lor_0_l, ?Z.lor_0_r, ?byte_full; reflexivity.
Qed.
Lemma word_land x m : 0 <= m < 2 ^ 32 -> word (Z.land x m).
Proof.
  intros H. unfold word. assert (E : Z.land x m = Z.land (Z.land x m) (Z.ones 32)).
  { rewrite <- Z.land_assoc. f_equal. rewrite Z.land_ones by lia. symmetry. apply Z.mod_small. assumption. }
  rewrite E, Z.land_ones by lia. apply Z.mod_pos_bound. lia.
Qed.
Lemma word_lor x y : word x -> word y -> word (Z.lor x y).
Proof.
  unfold word. intros Hx Hy. assert (E : Z.lor x y = Z.land (Z.lor x y) (Z.ones 32)).
  { rewrite Z.land_lor_distr_l, !Z.land_ones by lia. rewrite !Z.mod_small by assumption. reflexivity. }
  rewrite E, Z.land_ones by lia. apply Z.mod_pos_bound. lia.
Qed.
Lemma py_merge_word sel old new : word old -> word (py_merge sel old new).
Proof.
  intros H. unfold py_merge. cbv zeta.
  destruct (Z.testbit sel 0), (Z.testbit sel 1), (Z.testbit sel 2), (Z.testbit sel 3); try assumption; repeat apply word_lor; apply word_land; lia.
Qed.

Definition put (b : wbus) (f : Z -> Z) (z : Z) : Z := if (z / 4 =? b_adr b) && Z.testbit (b_sel b) (z mod 4) then byte (b_dat_w b) (z mod 4) else f z.
Lemma put_twice b f z : put b (put b f) z = put b f z.
Proof. unfold put. destruct (_ && _); reflexivity. Qed.
Lemma put_ext b f g z : f z = g z -> put b f z = put b g z.
Proof. unfold put. intros ->. reflexivity. Qed.
Lemma put_outside b f z : z / 4 <> b_adr b -> put b f z = f z.
Proof. intros N. unfold put. apply Z.eqb_neq in N. rewrite N. reflexivity. Qed.
Lemma upd_byte b l z : 0 <= b_adr b < Z.of_nat (length l) -> 0 <= z ->
  byte (item (upd l (Z.to_nat (b_adr b)) (py_merge (b_sel b) (item l (b_adr b)) (b_dat_w b))) (z / 4)) (z mod 4) =
  put b (fun z => byte (item l (z / 4)) (z mod 4)) z.
Proof.
  intros Ha Hz. unfold item at 1. rewrite upd_nth. unfold put.
  assert (Q : (Nat.eqb (Z.to_nat (z / 4)) (Z.to_nat (b_adr b)) && Nat.ltb (Z.to_nat (b_adr b)) (length l)) = (z / 4 =? b_adr b)).
  { assert (0 <= z / 4) by (apply Z.div_pos; lia). destruct (Z.eqb_spec (z / 4) (b_adr b)) as [->|N].
    - rewrite Nat.eqb_refl. apply Nat.ltb_lt. lia.
    - replace (Nat.eqb _ _) with false; [reflexivity|]. symmetry. apply Nat.eqb_neq. lia. }
  rewrite Q. destruct (Z.eqb_spec (z / 4) (b_adr b)) as [E|N]; [|reflexivity]. cbn [andb].
  rewrite py_merge_byte by (apply Z.mod_pos_bound; lia). rewrite E. reflexivity.
Qed.
Lemma item_word l a : Forall word l -> word (item l a).
Proof.
  intros H. unfold item. destruct (nth_in_or_default (Z.to_nat a) l 0) as [I|E].
  - rewrite Forall_forall in H. apply H, I.
  - rewrite E. unfold word. lia.
Qed.
Lemma mem_tick_words b l wait a rd l' wait' a' rd' : mem_tick 0 b l wait a rd = Some (l', wait', a', rd') ->
  Forall word l -> word rd -> Forall word l' /\ length l' = length l /\ word rd'.
Proof.
  intros E Hl Hr. unfold mem_tick in E. destruct wait; [injection E as <- <- <- <-; auto|].
  destruct (_ && _); [|injection E as <- <- <- <-; auto]. destruct (b_we b); [|injection E as <- <- <- <-; auto using item_word].
  destruct (_ <? _); [|discriminate]. injection E as <- <- <- <-. split; [|split; [apply upd_length|assumption]].
  apply upd_forall; [assumption|]. apply py_merge_word, item_word, Hl.
Qed.
Lemma mem_tick_some b l wait a rd : mem_tick 0 b l wait a rd <> None.
Proof.
  unfold mem_tick. destruct wait; [discriminate|]. destruct (_ && _) eqn:E; [|discriminate]. destruct (b_we b); [|discriminate].
  apply andb_prop in E. destruct E as [_ E]. apply andb_prop in E. destruct E as [_ E]. rewrite Z.add_0_l in E. rewrite E. discriminate.
Qed.
Lemma peek_S m b n : peek (fun a => a) m b (S n) = m b + 256 * peek (fun a => a) m (b + 1) n.
Proof. cbn [peek]. unfold loc. rewrite <- Z.div_mod by lia. reflexivity. Qed.
Lemma peek_same m m' n : forall b, (forall i, 0 <= i < Z.of_nat n -> m (b + i) = m' (b + i)) -> peek (fun a => a) m b n = peek (fun a => a) m' b n.
Proof.
  induction n as [|n IH]; intros b H; [reflexivity|]. rewrite !peek_S. pose proof (H 0 ltac:(lia)) as H0. rewrite Z.add_0_r in H0. rewrite H0.
  rewrite (IH (b + 1)); [reflexivity|]. intros i Hi. replace (b + 1 + i) with (b + (1 + i)) by lia. apply H. lia.
Qed.
Lemma put_word b f a i : 0 <= i < 4 -> b_adr b = a -> b_sel b = 15 -> put b f (4 * a + i) = byte (b_dat_w b) i.
Proof.
  intros Hi Ha Hs. unfold put. rewrite Ha, Hs, (Z.mul_comm 4), Z.div_add_l, Z.div_small, Z.add_0_r, Z.eqb_refl by lia.
  rewrite Z.add_comm, Z.mod_add, Z.mod_small by lia. assert (i = 0 \/ i = 1 \/ i = 2 \/ i = 3) as [->|[->|[->| ->]]] by lia; reflexivity.
Qed.
Lemma peek_put b f a : b_adr b = a -> b_sel b = 15 -> word (b_dat_w b) -> peek (fun a => a) (put b f) (4 * a) 4 = b_dat_w b.
Proof.
  intros Ha Hs Hd. rewrite (peek_fld (fun a => a) _ (b_dat_w b) (4 * a) 0 4) by (try lia; intros i Hi; unfold loc; rewrite <- Z.div_mod by lia;
    rewrite put_word by (assumption || lia); reflexivity). unfold fld, word in *. change (2 ^ 0) with 1. rewrite Z.div_1_r. apply Z.mod_small. exact Hd.
Qed.
Lemma peek_8 m b : peek (fun a => a) m b 8 = peek (fun a => a) m b 4 + 2 ^ 32 * peek (fun a => a) m (b + 4) 4.
Proof.
  rewrite (peek_S m b 7), (peek_S m (b + 1) 6), (peek_S m (b + 1 + 1) 5), (peek_S m (b + 1 + 1 + 1) 4).
  rewrite (peek_S m b 3), (peek_S m (b + 1) 2), (peek_S m (b + 1 + 1) 1), (peek_S m (b + 1 + 1 + 1) 0). replace (b + 1 + 1 + 1 + 1) with (b + 4) by lia.
  cbn [peek]. lia.
Qed.

Section P.
Variables (wd : bool) (iw : nat -> bool) (s : state) (words : list Z).
Hypothesis (Hf : fresh s) (Hw : Forall word words).
Local Notation go := (sim_run wd 0 iw s words).
(** The core's inputs; after the simulation has ended, a slave that never answers. *)
Definition sim_inp (t : nat) : input :=
  match sim_run wd 0 iw s words t with inl (_, x) => tb_input x (iw t) | inr _ => {| rst := false; ack := false; dat_r := 0; irq := iw t |} end.
Local Notation inp := sim_inp.

Lemma go_core t c x : go t = inl (c, x) -> c = run s inp t.
Proof.
  revert c x. induction t as [|t IH]; intros c x E.
  - injection E as <- _. reflexivity.
  - cbn [sim_run] in E. destruct (sim_run wd 0 iw s words t) as [[c0 x0]|v] eqn:E0; [|discriminate].
    specialize (IH c0 x0 eq_refl). cbn [run]. rewrite <- IH. unfold sim_inp. rewrite E0. unfold tick in E.
    destruct (wd && (seq_now c0 (tb_input x0 (iw t)) =? 255)); [discriminate|]. destruct (wd && (100 <? _)); [discriminate|].
    destruct (mem_tick _ _ _ _ _ _) as [[[[l wait] a] rd]|]; [|discriminate]. destruct (65535 <? _); [discriminate|].
    destruct (tb_host x0); cbn [host_tick] in E; try (injection E as <- _; reflexivity); try discriminate;
    destruct (word_store _ _); injection E as <- _; reflexivity.
Qed.
Lemma go_inp t c x : go t = inl (c, x) -> inp t = tb_input x (iw t).
Proof. intros E. unfold sim_inp. rewrite E. reflexivity. Qed.
Lemma go_stop t v : go t = inr v -> forall n, go (t + n)%nat = inr v.
Proof. intros E. induction n as [|n IH]; [rewrite Nat.add_0_r; exact E|]. rewrite Nat.add_succ_r. cbn [sim_run]. rewrite IH. reflexivity. Qed.
Lemma go_before t c x u : go t = inl (c, x) -> (u <= t)%nat -> exists c' x', go u = inl (c', x').
Proof.
  intros E L. destruct (go u) as [[c' x']|v] eqn:Eu; [eauto|]. pose proof (go_stop u v Eu (t - u)) as Q. replace (u + (t - u))%nat with t in Q by lia. congruence.
Qed.

Definition acking (h : host) : bool := match h with FirstAck | SecondAck => true | _ => false end.
(** What a tick that does not end the simulation does. *)
Lemma go_S t c' x' : go (S t) = inl (c', x') -> exists c x l wait a rd h sets val,
  go t = inl (c, x) /\ mem_tick 0 (cpu_bus c) (tb_words x) (tb_wait x) (tb_ack x) (tb_rdata x) = Some (l, wait, a, rd) /\
  host_tick (cpu_bus c) (tb_host x) (tb_val x) = (h, sets, val) /\ tb_host x <> HostDone /\ tb_i x + 1 <= 65535 /\
  c' = step c (tb_input x (iw t)) /\ tb_words x' = l /\ tb_wait x' = wait /\ tb_ack x' = match sets with Some v => v | None => a end /\
  tb_rdata x' = rd /\ tb_host x' = h /\ tb_val x' = val /\ tb_i x' = tb_i x + 1 /\ tb_prev x' = seq_now c (tb_input x (iw t)) /\
  tb_count x' = (if tb_prev x =? seq_now c (tb_input x (iw t)) then tb_count x + 1 else 0) /\
  (wd = true -> seq_now c (tb_input x (iw t)) <> 255 /\ tb_count x' <= 100).
Proof.
  cbn [sim_run]. destruct (sim_run wd 0 iw s words t) as [[c x]|v] eqn:E; [|discriminate]. unfold tick.
  destruct (wd && (seq_now c (tb_input x (iw t)) =? 255)) eqn:E1; [discriminate|]. destruct (wd && (100 <? _)) eqn:E2; [discriminate|].
  destruct (mem_tick _ _ _ _ _ _) as [[[[l wait] a] rd]|] eqn:Em; [|discriminate]. destruct (Z.ltb_spec 65535 (tb_i x + 1)) as [|L]; [discriminate|].
  destruct (host_tick (cpu_bus c) (tb_host x) (tb_val x)) as [[h sets] val] eqn:Eh. intros Q.
  exists c, x, l, wait, a, rd, h, sets, val. split; [reflexivity|]. split; [exact Em|]. split; [exact Eh|].
  assert (N : tb_host x <> HostDone) by (intros X; rewrite X in Q; discriminate). split; [exact N|]. split; [exact L|].
  assert (Q' : inl (step c (tb_input x (iw t)),
           {| tb_words := l; tb_wait := wait; tb_ack := match sets with Some v => v | None => a end; tb_rdata := rd;
              tb_host := h; tb_val := val; tb_i := tb_i x + 1; tb_prev := seq_now c (tb_input x (iw t));
              tb_count := if tb_prev x =? seq_now c (tb_input x (iw t)) then tb_count x + 1 else 0 |}) = @inl _ verdict (c', x'))
    by (destruct (tb_host x); first [exact Q|congruence]).
  injection Q' as <- <-. cbn. repeat (split; [reflexivity|]). intros W. rewrite W in E1, E2. cbn [andb] in E1, E2.
  split; [apply Z.eqb_neq; assumption|apply Z.ltb_ge; assumption].
Qed.

(** *** The bus the harness offers *)
Definition weak (t : nat) : Prop := forall c x, go t = inl (c, x) ->
  Forall word (tb_words x) /\ length (tb_words x) = length words /\ word (tb_rdata x) /\
  (tb_ack x = true -> (tb_wait x = true \/ acking (tb_host x) = true) /\ exists u, t = S u /\ o_cyc (run s inp u) = true).
Lemma weak_all t : weak t.
Proof.
  induction t as [|t IH]; intros c' x' E.
  - injection E as <- <-. cbn. split; [assumption|]. split; [reflexivity|]. split; [unfold word; lia|]. discriminate.
  - destruct (go_S t c' x' E) as (c & x & l & wait & a & rd & h & sets & val & E0 & Em & Eh & Nd & _ & _ & E1 & E2 & E3 & E4 & E5 & _).
    destruct (IH c x E0) as (W1 & W2 & W3 & W4). destruct (mem_tick_words _ _ _ _ _ _ _ _ _ Em W1 W3) as (M1 & M2 & M3).
    rewrite E1, E4. split; [assumption|]. split; [congruence|]. split; [assumption|]. rewrite E2, E3, E5.
    pose proof (go_core t c x E0) as Rc.
    assert (Cy : b_cyc (cpu_bus c) && b_stb (cpu_bus c) = true -> exists u, S t = S u /\ o_cyc (run s inp u) = true).
    { intros H. exists t. split; [reflexivity|]. rewrite <- Rc. apply andb_prop in H. apply H. }
    intros A. destruct sets as [v|].
    + (* the host drives ACK *)
      subst v. destruct (tb_host x); cbn [host_tick] in Eh; try discriminate; try congruence;
      (destruct (word_store _ _) eqn:Ws; [|discriminate]; injection Eh as <- _; split; [right; reflexivity|]; apply Cy; unfold word_store in Ws;
       repeat (apply andb_prop in Ws; destruct Ws as [Ws ?]); assumption).
    + unfold mem_tick in Em. destruct (tb_wait x) eqn:Ew; [injection Em as <- <- <- <-; discriminate|].
      destruct (_ && _) eqn:Eq.
      * apply andb_prop in Eq. destruct Eq as [Eq _]. destruct (b_we (cpu_bus c)).
        -- destruct (_ <? _); [|discriminate]. injection Em as <- <- <- <-. split; [left; reflexivity|]. apply Cy, Eq.
        -- injection Em as <- <- <- <-. split; [left; reflexivity|]. apply Cy, Eq.
      * injection Em as <- <- <- <-. destruct (W4 A) as [[X|X] _]; [discriminate|]. destruct (tb_host x); cbn [host_tick acking] in *; discriminate.
Qed.
Lemma sim_bus_ok : bus_ok s inp.
Proof.
  constructor; [assumption| |].
  - constructor; intros t; unfold sim_inp; destruct (go t) as [[c x]|v] eqn:E; try reflexivity.
    + apply (weak_all t c x E).
    + cbn. unfold word. lia.
  - intros t C A. unfold sim_inp in A. destruct (go t) as [[c x]|v] eqn:E; [|discriminate].
    apply (weak_all t c x E). exact A.
Qed.
Lemma K : ok s inp.
Proof. apply bus_ok_ok, sim_bus_ok. Qed.

(** *** The memory *)
Hypothesis Hl : Z.of_nat (length words) <= tohost.
Definition mem0_byte (z : Z) : Z := byte (item words (z / 4)) (z mod 4).
Definition flat : nat -> Z -> Z := slave_mem (fun a => a) s inp mem0_byte.
Lemma flat_S t c x : go t = inl (c, x) -> flat (S t) = if o_cyc c && tb_ack x && o_we c then put (cpu_bus c) (flat t) else flat t.
Proof. intros E. unfold flat. cbn [slave_mem]. cbv zeta. rewrite <- (go_core t c x E), (go_inp t c x E). reflexivity. Qed.

Record strong (t : nat) (c : state) (x : tb) : Prop := {
  st_ack : tb_ack x = tb_wait x || acking (tb_host x);
  st_wait : tb_wait x = true -> o_cyc c = true /\ 0 <= o_adr c < Z.of_nat (length words) /\ (o_we c = false -> tb_rdata x = item (tb_words x) (o_adr c));
  st_first : tb_host x = FirstAck -> o_cyc c = true /\ o_we c = true /\ o_adr c = tohost /\ o_sel c = 15;
  st_second : tb_host x = SecondAck -> o_cyc c = true /\ o_we c = true /\ o_adr c = tohost + 1 /\ o_sel c = 15;
  st_mem : forall z, 0 <= z < 4 * Z.of_nat (length words) ->
    byte (item (tb_words x) (z / 4)) (z mod 4) = if o_cyc c && tb_ack x && o_we c then put (cpu_bus c) (flat t) z else flat t z }.


Lemma strong_all t c x : go t = inl (c, x) -> strong t c x.
Proof.
  revert c x. induction t as [|t IH]; intros c' x' E.
  - injection E as <- <-. constructor; cbn; try discriminate; try reflexivity. intros z _. rewrite andb_false_r. reflexivity.
  - destruct (go_S t c' x' E) as (c & x & l & wait & a & rd & h & sets & val & E0 & Em & Eh & Nd & _ & Ec & E1 & E2 & E3 & E4 & E5 & E6 & _).
    destruct (IH c x E0) as [I1 I2 I3 I4 I5]. pose proof (go_core t c x E0) as Rc. pose proof (go_core (S t) c' x' E) as Rc'. pose proof (go_inp t c x E0) as Ri.
    destruct (weak_all t c x E0) as (W1 & W2 & _).
    assert (Ea : ack (inp t) = tb_ack x) by (rewrite Ri; reflexivity).
    pose proof (flat_S t c x E0) as Fs.
    assert (Es : b_stb (cpu_bus c) = b_cyc (cpu_bus c)) by apply C10_stb_is_cyc.
    destruct (tb_ack x) eqn:A.
    + (* acknowledged: CYC drops *)
      assert (Cy : o_cyc c = true).
      { symmetry in I1. apply orb_prop in I1. destruct I1 as [X|X]; [apply I2, X|]. destruct (tb_host x) eqn:Hh; try discriminate; [apply I3|apply I4]; reflexivity. }
      assert (Cd : o_cyc c' = false). { rewrite Rc'. apply (C06_drop_after_ack s inp K t); [rewrite <- Rc; exact Cy|congruence]. }
      assert (Wn : wait = false /\ l = tb_words x).
      { unfold mem_tick in Em. destruct (tb_wait x); [injection Em as <- <- <- <-; auto|].
        assert (Hk : acking (tb_host x) = true) by (symmetry in I1; exact I1).
        assert (Ad : o_adr c = tohost \/ o_adr c = tohost + 1). { destruct (tb_host x) eqn:Hh; try discriminate; [left; apply I3|right; apply I4]; reflexivity. }
        replace ((0 <=? b_adr (cpu_bus c)) && (b_adr (cpu_bus c) <? 0 + Z.of_nat (length (tb_words x)))) with false in Em.
        - rewrite andb_false_r in Em. injection Em as <- <- <- <-. auto.
        - symmetry. apply andb_false_intro2. apply Z.ltb_ge. cbn [cpu_bus b_adr]. rewrite W2. lia. }
      destruct Wn as [Wn ->].
      assert (Hn : acking h = false /\ match sets with Some v => v | None => a end = false).
      { destruct (tb_host x) eqn:Hh; cbn [host_tick] in Eh.
        1,3: assert (Wt : tb_wait x = true) by (symmetry in I1; cbn [acking] in I1; rewrite orb_false_r in I1; exact I1);
          destruct (I2 Wt) as (_ & Ad & _);
          replace (word_store _ _) with false in Eh by
            (symmetry; unfold word_store; replace (b_adr (cpu_bus c) =? _) with false by (symmetry; apply Z.eqb_neq; cbn [cpu_bus b_adr]; lia); reflexivity);
          injection Eh as <- <- <-; split; [reflexivity|]; unfold mem_tick in Em; rewrite Wt in Em; congruence.
        1,2: injection Eh as <- <- <-; auto.
        congruence. }
      destruct Hn as [Hn1 Hn2].
      constructor.
      * rewrite E3, Hn2, E2, Wn, E5, Hn1. reflexivity.
      * rewrite E2, Wn. discriminate.
      * rewrite E5. intros X. rewrite X in Hn1. discriminate.
      * rewrite E5. intros X. rewrite X in Hn1. discriminate.
      * intros z Hz. rewrite E1, Cd. cbn [andb]. rewrite Fs, Cy. cbn [andb]. rewrite (I5 z Hz), Cy. cbn [andb]. destruct (o_we c); reflexivity.
    + (* not acknowledged *)
      assert (Nw : tb_wait x = false) by (destruct (tb_wait x); [discriminate I1|reflexivity]).
      assert (Nh : acking (tb_host x) = false) by (rewrite Nw in I1; symmetry; exact I1).
      rewrite andb_false_r in Fs. cbn [andb] in Fs.
      assert (I5' : forall z, 0 <= z < 4 * Z.of_nat (length words) -> byte (item (tb_words x) (z / 4)) (z mod 4) = flat t z).
      { intros z Hz. rewrite (I5 z Hz), andb_false_r. reflexivity. }
      unfold mem_tick in Em. rewrite Nw in Em. rewrite Es, andb_diag in Em.
      destruct (o_cyc c) eqn:Cy.
      2:{ (* no request *)
        change (b_cyc (cpu_bus c)) with (o_cyc c) in Em. rewrite Cy in Em. cbn [andb] in Em. injection Em as <- <- <- <-.
        assert (Q : forall y, word_store (cpu_bus c) y = false) by (intros y; unfold word_store; rewrite Es; change (b_cyc (cpu_bus c)) with (o_cyc c); rewrite Cy, andb_false_r; reflexivity).
        assert (Hq : h = tb_host x /\ sets = None) by (destruct (tb_host x); cbn [host_tick acking] in *; rewrite ?Q in Eh; try discriminate; injection Eh as <- <- <-; auto).
        destruct Hq as [-> ->]. constructor.
        - rewrite E3, E2, E5. symmetry. exact Nh.
        - rewrite E2. discriminate.
        - rewrite E5. intros X. rewrite X in Nh. discriminate.
        - rewrite E5. intros X. rewrite X in Nh. discriminate.
        - intros z Hz. rewrite E1, E3, andb_false_r, Fs. cbn [andb]. apply I5', Hz. }
      (* a request, held *)
      assert (Hd : o_cyc c' = true /\ o_adr c' = o_adr c /\ o_sel c' = o_sel c /\ o_we c' = o_we c /\ o_dat_w c' = o_dat_w c).
      { pose proof (C05_request_held s inp K t ltac:(rewrite <- Rc; exact Cy) ltac:(congruence)) as Q. cbv zeta in Q. rewrite <- Rc, <- Rc' in Q. tauto. }
      destruct Hd as (D1 & D2 & D3 & D4 & D5).
      change (b_cyc (cpu_bus c)) with (o_cyc c) in Em. rewrite Cy in Em. cbn [andb] in Em.
      destruct ((0 <=? b_adr (cpu_bus c)) && (b_adr (cpu_bus c) <? 0 + Z.of_nat (length (tb_words x)))) eqn:R.
      * (* the memory answers *)
        apply andb_prop in R. destruct R as [R1 R2]. apply Z.leb_le in R1. apply Z.ltb_lt in R2. cbn [cpu_bus b_adr] in R1, R2.
        assert (Q : forall y, tohost <= y -> word_store (cpu_bus c) y = false).
        { intros y Hy. unfold word_store. replace (b_adr (cpu_bus c) =? y) with false; [reflexivity|]. symmetry. apply Z.eqb_neq. cbn [cpu_bus b_adr]. lia. }
        assert (Hq : h = tb_host x /\ sets = None).
        { destruct (tb_host x); cbn [host_tick acking] in *; rewrite ?Q in Eh by (unfold tohost; lia); try discriminate; injection Eh as <- <- <-; auto. }
        destruct Hq as [-> ->].
        assert (Ws : wait = true /\ a = true) by (destruct (b_we (cpu_bus c)); [destruct (_ <? _); [|discriminate]|]; injection Em as <- <- <- <-; auto).
        destruct Ws as [-> ->].
        constructor.
        -- rewrite E3, E2. reflexivity.
        -- intros _. rewrite D1, D2, D4. split; [reflexivity|]. split; [lia|]. intros We. rewrite E1, E4. change (b_we (cpu_bus c)) with (o_we c) in Em. rewrite We in Em.
           injection Em as <- <-. rewrite Z.sub_0_r. reflexivity.
        -- rewrite E5. intros X. rewrite X in Nh. discriminate.
        -- rewrite E5. intros X. rewrite X in Nh. discriminate.
        -- intros z Hz. rewrite E1, E3, D1, D4, Fs. cbn [andb]. change (b_we (cpu_bus c)) with (o_we c) in Em. destruct (o_we c) eqn:We.
           ++ destruct (_ <? _); [|discriminate]. injection Em as <- <-. rewrite Z.sub_0_r. etransitivity; [apply (upd_byte (cpu_bus c) (tb_words x) z); cbn [cpu_bus b_adr]; lia|].
              replace (put (cpu_bus c')) with (put (cpu_bus c)) by (unfold put; cbn [cpu_bus b_adr b_sel b_dat_w]; rewrite D2, D3, D5; reflexivity).
              apply put_ext. apply I5', Hz.
           ++ injection Em as <- <-. apply I5', Hz.
      * (* the memory does not *)
        injection Em as <- <- <- <-.
        assert (Sets : (exists y, (y = tohost /\ h = FirstAck \/ y = tohost + 1 /\ h = SecondAck) /\ sets = Some true /\ word_store (cpu_bus c) y = true) \/ (sets = None /\ h = tb_host x)).
        { destruct (tb_host x); cbn [host_tick acking] in *; try discriminate; try congruence;
          (destruct (word_store _ _) eqn:Ws; injection Eh as <- <- <-; [left; eauto 6|right; auto]). }
        destruct Sets as [(y & Hy & -> & Ws)|[-> ->]].
        -- assert (B : o_adr c = y /\ o_sel c = 15 /\ o_we c = true).
           { unfold word_store in Ws. repeat (apply andb_prop in Ws; destruct Ws as [Ws ?]). cbn [cpu_bus b_adr b_sel b_we] in *.
             split; [apply Z.eqb_eq; assumption|]. split; [apply Z.eqb_eq; assumption|assumption]. }
           destruct B as (B1 & B2 & B3).
           constructor.
           ++ rewrite E3, E2, E5. destruct Hy as [[_ ->]|[_ ->]]; reflexivity.
           ++ rewrite E2. discriminate.
           ++ rewrite E5, D1, D2, D3, D4. intros X. destruct Hy as [[-> _]|[_ ->]]; [auto|discriminate].
           ++ rewrite E5, D1, D2, D3, D4. intros X. destruct Hy as [[_ ->]|[-> _]]; [discriminate|auto].
           ++ intros z Hz. rewrite E1, E3, D1, D4, B3, Fs. cbn [andb]. rewrite put_outside; [apply I5', Hz|]. cbn [cpu_bus b_adr]. rewrite D2, B1.
              pose proof (Z.div_lt_upper_bound z 4 (Z.of_nat (length words)) ltac:(lia) ltac:(lia)). destruct Hy as [[-> _]|[-> _]]; lia.
        -- constructor.
           ++ rewrite E3, E2, E5. symmetry. exact Nh.
           ++ rewrite E2. discriminate.
           ++ rewrite E5. intros X. rewrite X in Nh. discriminate.
           ++ rewrite E5. intros X. rewrite X in Nh. discriminate.
           ++ intros z Hz. rewrite E1, E3, andb_false_r, Fs. cbn [andb]. apply I5', Hz.
Qed.

Lemma sim_memory_slave : memory_slave (fun a => a) s inp mem0_byte.
Proof.
  intros t. cbv zeta. intros C A We i Hi _. unfold sim_inp in A. destruct (go t) as [[c x]|v] eqn:E; [|discriminate].
  pose proof (go_core t c x E) as Rc. rewrite <- Rc in *. destruct (strong_all t c x E) as [I1 I2 I3 I4 I5]. cbn [tb_input ack] in A.
  rewrite (go_inp t c x E). cbn [tb_input dat_r].
  assert (Wt : tb_wait x = true).
  { rewrite A in I1. destruct (tb_wait x); [reflexivity|]. exfalso. cbn [orb] in I1. destruct (tb_host x) eqn:Hh; try discriminate.
    - destruct (I3 eq_refl) as (_ & Q & _). congruence.
    - destruct (I4 eq_refl) as (_ & Q & _). congruence. }
  destruct (I2 Wt) as (_ & Ad & Rd). rewrite (Rd We). fold (flat t). specialize (I5 (4 * o_adr c + i) ltac:(lia)). rewrite We, andb_false_r in I5. rewrite <- I5.
  rewrite (Z.mul_comm 4), Z.div_add_l, Z.div_small, Z.add_0_r by lia. rewrite Z.add_comm, Z.mod_add, Z.mod_small by lia. reflexivity.
Qed.

(** *** The host *)
(** What the host has received so far. *)
Definition heard (t : nat) (x : tb) : Prop :=
  match tb_host x with
  | WaitFirst | FirstAck => True
  | WaitSecond | SecondAck => tb_val x = peek (fun a => a) (flat t) 0x4000000 4 /\ word (tb_val x)
  | HostDone => tb_val x = peek (fun a => a) (flat t) 0x4000000 8 /\ word (peek (fun a => a) (flat t) 0x4000000 4) /\ word (peek (fun a => a) (flat t) 0x4000004 4)
  end.
Lemma core_dat_w t : word (o_dat_w (run s inp t)).
Proof. destruct Hf as (u & m & rd & _ & W). apply (run_wf s inp t W (env_word _ (ok_env _ _ sim_bus_ok))). Qed.

Lemma heard_all t c x : go t = inl (c, x) -> heard t x.
Proof.
  revert c x. induction t as [|t IH]; intros c' x' E; [injection E as <- <-; exact I|].
  destruct (go_S t c' x' E) as (c & x & l & wait & a & rd & h & sets & val & E0 & Em & Eh & Nd & _ & Ec & E1 & E2 & E3 & E4 & E5 & E6 & _).
  pose proof (IH c x E0) as J. pose proof (strong_all t c x E0) as [I1 I2 I3 I4 _]. pose proof (flat_S t c x E0) as Fs.
  pose proof (core_dat_w t) as Dw. rewrite <- (go_core t c x E0) in Dw.
  assert (Keep : acking (tb_host x) = false -> peek (fun a => a) (flat (S t)) 0x4000000 4 = peek (fun a => a) (flat t) 0x4000000 4).
  { intros Hk. rewrite Fs. destruct (o_cyc c && tb_ack x && o_we c) eqn:Q; [|reflexivity]. apply andb_prop in Q. destruct Q as [Q _]. apply andb_prop in Q. destruct Q as [_ Q].
    rewrite Q, Hk, orb_false_r in I1. symmetry in I1. destruct (I2 I1) as (_ & Ad & _). apply peek_same. intros i Hi. apply put_outside. cbn [cpu_bus b_adr].
    replace (67108864 + i) with (i + 16777216 * 4) by lia. rewrite Z.div_add, Z.div_small by lia. unfold tohost in Hl. change (67108864 / 4) with 16777216 in Hl. lia. }
  unfold heard in *. rewrite E5, E6. destruct (tb_host x) eqn:Hh; cbn [host_tick acking] in *.
  - destruct (word_store _ _); injection Eh as <- <- <-; exact I.
  - injection Eh as <- <- <-. destruct (I3 eq_refl) as (C1 & C2 & C3 & C4). split; [|exact Dw]. rewrite Fs, I1, C1, C2, orb_true_r. cbn [andb].
    symmetry. apply (peek_put (cpu_bus c) (flat t) tohost C3 C4 Dw).
  - specialize (Keep eq_refl). rewrite Keep. destruct (word_store _ _); injection Eh as <- <- <-; exact J.
  - assert (Hv : h = HostDone /\ val = Z.lor (tb_val x) (Z.shiftl (b_dat_w (cpu_bus c)) 32)) by (split; congruence). destruct Hv as [-> ->].
    destruct (I4 eq_refl) as (C1 & C2 & C3 & C4). destruct J as [J1 J2]. rewrite Fs, I1, C1, C2, orb_true_r. cbn [andb].
    rewrite peek_8. change (67108864 + 4) with (4 * (tohost + 1)). change 67108868 with (4 * (tohost + 1)). rewrite (peek_put (cpu_bus c) (flat t) (tohost + 1) C3 C4 Dw).
    rewrite (peek_same _ (flat t)).
    + rewrite <- J1. split; [|split; [exact J2|exact Dw]]. cbn [cpu_bus b_dat_w]. rewrite Z.shiftl_mul_pow2 by lia. unfold word in J2. rewrite (Z.mul_comm (o_dat_w c)). rewrite <- Z.lxor_lor, <- Z.add_nocarry_lxor; try reflexivity;
      apply Z.bits_inj'; intros j Hj; rewrite Z.land_spec, Z.bits_0, (Z.mul_comm (2 ^ 32)), Z.mul_pow2_bits by lia;
      (destruct (Z.lt_ge_cases j 32); [rewrite (Z.testbit_neg_r _ (j - 32)) by lia; apply andb_false_r|]; replace (tb_val x) with (tb_val x mod 2 ^ 32) by (apply Z.mod_small; lia);
       rewrite Z.mod_pow2_bits_high by lia; reflexivity).
    + intros i Hi. apply put_outside. cbn [cpu_bus b_adr]. rewrite C3. replace (67108864 + i) with (i + 16777216 * 4) by lia. rewrite Z.div_add, Z.div_small by lia. unfold tohost. change (67108864 / 4) with 16777216. lia.
  - congruence.
Qed.

(** *** The watchdog *)
Lemma request_soon t : exists u, (t <= u <= t + 68)%nat /\ o_cyc (run s inp u) = true.
Proof.
  destruct (C08_never_hangs s inp K) as [C5 Nx]. induction t as [|t (u & L & C)]; [exists 5%nat; split; [lia|exact C5]|].
  destruct (Nat.eq_dec u t) as [->|N]; [|exists u; split; [lia|exact C]].
  destruct (ack (inp t)) eqn:A.
  - destruct (Nx t C A) as (n & Ln & _ & Cn). exists (t + 1 + n)%nat. split; [lia|exact Cn].
  - exists (S t). split; [lia|]. apply (C05_request_held s inp K t C A).
Qed.
Lemma micro t : exists k, at_ k (run s inp (S t)) /\ live k = true /\ seq_now (run s inp t) (inp t) = k.
Proof.
  destruct (seq_inv_run s inp Hf (ok_env _ _ sim_bus_ok)) as [H _]. destruct (H t) as [k S1]. exists k. pose proof (si_at _ _ S1) as At. pose proof (si_live _ _ S1) as Li.
  split; [exact At|]. split; [exact Li|]. destruct At as (_ & N & _). cbn [run] in N. unfold step in N. rewrite (env_rst _ (ok_env _ _ sim_bus_ok)) in N. cbn [s_next] in N.
  pose proof (live_range _ Li) as R.
  assert (Q : 0 <= seq_now (run s inp t) (inp t) < 256).
  { destruct Hf as (u & m & rd & _ & W). pose proof (run_wf s inp t W (env_word _ (ok_env _ _ sim_bus_ok))) as Wt. destruct Wt.
    unfold seq_now, seq_adr. unfold inw in *. change (2 ^ 8) with 256 in *. destruct (s_sguard _); [lia|]. destruct (u_jmp _); try destruct (test_now _ _); lia. }
  destruct (Z.eq_dec (seq_now (run s inp t) (inp t)) 255) as [E|E]; [rewrite E in N; change ((255 + 1) mod 2 ^ 8) with 0 in N; lia|].
  rewrite Z.mod_small in N by lia. lia.
Qed.

Lemma go_i t c x : go t = inl (c, x) -> tb_i x = Z.of_nat t.
Proof.
  revert c x. induction t as [|t IH]; intros c' x' E; [injection E as <- <-; reflexivity|].
  destruct (go_S t c' x' E) as (c & x & l & wait & a & rd & h & sets & val & E0 & _ & _ & _ & _ & _ & _ & _ & _ & _ & _ & _ & E1 & _). rewrite E1, (IH c x E0). lia.
Qed.
(** How a simulation can end. *)
Lemma go_end t c x v : go t = inl (c, x) -> go (S t) = inr v ->
  (v = StuckUcode /\ wd = true /\ tb_prev x = seq_now c (tb_input x (iw t)) /\ 100 <= tb_count x) \/ (v = TimedOut /\ 65535 <= tb_i x) \/ (v = Returned (tb_val x) /\ tb_host x = HostDone).
Proof.
  intros E0 E. pose proof (go_core t c x E0) as Rc. pose proof (go_inp t c x E0) as Ri. destruct (micro t) as (k & _ & Li & Mk). rewrite <- Rc, Ri in Mk.
  cbn [sim_run] in E. rewrite E0 in E. unfold tick in E.
  replace (seq_now c (tb_input x (iw t)) =? 255) with false in E by (symmetry; apply Z.eqb_neq; pose proof (live_range _ Li); intros Q; rewrite Mk in Q; subst k; rewrite Q in Li; discriminate).
  rewrite andb_false_r in E. destruct (wd && (100 <? _)) eqn:Q.
  - apply andb_prop in Q. destruct Q as [Q1 Q2]. apply Z.ltb_lt in Q2. left. split; [congruence|]. split; [exact Q1|].
    destruct (Z.eqb_spec (tb_prev x) (seq_now c (tb_input x (iw t)))); [split; [assumption|lia]|lia].
  - right. pose proof (mem_tick_some (cpu_bus c) (tb_words x) (tb_wait x) (tb_ack x) (tb_rdata x)) as Ns. destruct (mem_tick _ _ _ _ _ _) as [[[[l w] a] rd]|]; [|congruence].
    destruct (Z.ltb_spec 65535 (tb_i x + 1)); [left; split; [congruence|lia]|]. right.
    destruct (tb_host x); cbn [host_tick] in E; try discriminate; try (destruct (word_store _ _); discriminate). split; congruence.
Qed.
Lemma count_run t c x : go t = inl (c, x) -> 0 <= tb_count x <= Z.of_nat t /\
  forall u, (u < t)%nat -> Z.of_nat t - 1 - tb_count x <= Z.of_nat u -> seq_now (run s inp u) (inp u) = tb_prev x.
Proof.
  revert c x. induction t as [|t IH]; intros c' x' E.
  - injection E as <- <-. cbn. split; [lia|]. intros; lia.
  - destruct (go_S t c' x' E) as (c & x & l & wait & a & rd & h & sets & val & E0 & _ & _ & _ & _ & _ & _ & _ & _ & _ & _ & _ & _ & E1 & E2 & _).
    destruct (IH c x E0) as [I1 I2]. pose proof (go_core t c x E0) as Rc. pose proof (go_inp t c x E0) as Ri.
    rewrite E1, E2. destruct (Z.eqb_spec (tb_prev x) (seq_now c (tb_input x (iw t)))) as [Q|Q].
    + split; [lia|]. intros u Hu Hc. destruct (Nat.eq_dec u t) as [->|N]; [rewrite <- Rc, Ri; reflexivity|]. rewrite <- Q. apply I2; lia.
    + split; [lia|]. intros u Hu Hc. assert (u = t) as -> by lia. rewrite <- Rc, Ri. reflexivity.
Qed.
(** An access that memory or host is ready for is acknowledged in the next cycle. *)
Definition waits_for (x : tb) (c : state) : bool :=
  match tb_host x with WaitFirst => word_store (cpu_bus c) tohost | WaitSecond => word_store (cpu_bus c) (tohost + 1) | _ => false end.
Lemma answered t c x c' x' : go t = inl (c, x) -> go (S t) = inl (c', x') -> o_cyc c = true -> tb_ack x = false ->
  tb_ack x' = ((0 <=? o_adr c) && (o_adr c <? Z.of_nat (length words))) || waits_for x c.
Proof.
  intros E0 E C A. destruct (go_S t c' x' E) as (c1 & x1 & l & wait & a & rd & h & sets & val & E1 & Em & Eh & Nd & _ & _ & _ & _ & Ea & _).
  rewrite E0 in E1. injection E1 as <- <-. destruct (strong_all t c x E0) as [I1 _ _ _ _]. destruct (weak_all t c x E0) as (_ & W2 & _).
  assert (Nw : tb_wait x = false) by (destruct (tb_wait x); [rewrite A in I1; discriminate|reflexivity]).
  assert (Nh : acking (tb_host x) = false) by (rewrite A, Nw in I1; symmetry; exact I1).
  assert (Es : b_stb (cpu_bus c) = b_cyc (cpu_bus c)) by apply C10_stb_is_cyc.
  unfold mem_tick in Em. rewrite Nw, Es, andb_diag, A, W2 in Em. cbn [cpu_bus b_cyc b_adr b_we] in Em. rewrite C, Z.add_0_l in Em. cbn [andb] in Em.
  rewrite Ea. unfold waits_for.
  destruct ((0 <=? o_adr c) && (o_adr c <? Z.of_nat (length words))) eqn:R; cbn [orb].
  - assert (Ws : forall y, tohost <= y -> word_store (cpu_bus c) y = false).
    { intros y Hy. unfold word_store. apply andb_prop in R. destruct R as [_ R]. apply Z.ltb_lt in R. replace (b_adr (cpu_bus c) =? y) with false; [reflexivity|]. symmetry. apply Z.eqb_neq. cbn [cpu_bus b_adr]. lia. }
    assert (a = true) as -> by (destruct (o_we c); [destruct (_ <? _) in Em; [|discriminate]|]; injection Em as <- <- <- <-; reflexivity).
    destruct (tb_host x); cbn [host_tick acking] in *; rewrite ?Ws in Eh by lia; try discriminate; try congruence; injection Eh as <- <- <-; reflexivity.
  - injection Em as <- <- <- <-. destruct (tb_host x); cbn [host_tick acking] in *; try discriminate; try congruence;
      (destruct (word_store _ _); injection Eh as <- <- <-; reflexivity).
Qed.
Lemma held t c x c' x' : go t = inl (c, x) -> go (S t) = inl (c', x') -> o_cyc c = true -> tb_ack x = false ->
  o_cyc c' = true /\ cpu_bus c' = cpu_bus c /\ (tb_ack x' = false -> tb_host x' = tb_host x).
Proof.
  intros E0 E C A. pose proof (go_core t c x E0) as Rc. pose proof (go_core (S t) c' x' E) as Rc'.
  pose proof (C05_request_held s inp K t ltac:(rewrite <- Rc; exact C) ltac:(rewrite (go_inp t c x E0); exact A)) as Q. cbv zeta in Q. rewrite <- Rc, <- Rc' in Q.
  destruct Q as (Q1 & Q2 & Q3 & Q4 & Q5 & Q6). split; [exact Q1|]. split.
  - unfold cpu_bus. rewrite Q1, Q2, Q3, Q4, Q5, Q6, C, C10_stb_is_cyc, C. reflexivity.
  - intros A'. destruct (go_S t c' x' E) as (c1 & x1 & l & wait & a & rd & h & sets & val & E1 & Em & Eh & Nd & _ & _ & _ & _ & Ea & _ & Eh' & _).
    rewrite E0 in E1. injection E1 as <- <-. rewrite Eh'. destruct (strong_all t c x E0) as [I1 _ _ _ _]. rewrite A in I1. symmetry in I1. apply orb_false_iff in I1. destruct I1 as [_ Nh].
    rewrite A' in Ea. destruct (tb_host x); cbn [host_tick acking] in *; try discriminate; try congruence;
      (destruct (word_store _ _); injection Eh as <- <- <-; [discriminate|reflexivity]).
Qed.

Lemma stuck_pending t c x : go t = inl (c, x) -> tb_prev x = seq_now c (tb_input x (iw t)) -> 100 <= tb_count x ->
  (99 <= t)%nat /\ forall u, (t - 99 <= u <= t)%nat -> o_cyc (run s inp u) = true /\ ack (inp u) = false.
Proof.
  intros E P H. destruct (count_run t c x E) as [L R]. rewrite <- (go_inp t c x E) in P. rewrite (go_core t c x E) in P. split; [lia|].
  assert (Sq : forall u, (t - 100 <= u <= t)%nat -> seq_now (run s inp u) (inp u) = tb_prev x).
  { intros u Hu. destruct (Nat.eq_dec u t) as [->|N]; [symmetry; exact P|]. apply R; lia. }
  assert (At : forall v, (t - 99 <= v <= t + 1)%nat -> o_cyc (run s inp v) = u_mreq (rom (tb_prev x))).
  { intros v Hv. destruct v as [|v]; [lia|]. destruct (micro v) as (k & (A1 & _ & A2 & _) & _ & Mk). rewrite Sq in Mk by lia. unfold o_cyc. rewrite A1, A2, andb_true_r, Mk. reflexivity. }
  destruct (request_soon (t - 99)) as (u' & Lu & Cu). rewrite At in Cu by lia.
  intros u Hu. split; [rewrite At by lia; exact Cu|]. destruct (ack (inp u)) eqn:A; [|reflexivity].
  assert (C : o_cyc (run s inp u) = true) by (rewrite At by lia; exact Cu). destruct (C06_drop_after_ack s inp K u C A) as [D _]. rewrite At in D by lia. congruence.
Qed.

(** Where the microcode goes while it waits. *)
Definition nxt (k : Z) : Z := seq_adr (rom k) false (test_of (rom k) false false false) (k + 1) 0.
Definition waiting_ok : bool := forallb (fun k => negb (u_mreq (rom k)) ||
  (match u_cond (rom k) with C_MEM_VALID | C_TRUE => true | _ => false end && match u_jmp (rom k) with J_DIRECT | J_DIRECT_ZERO => true | _ => false end &&
   (nxt (nxt (nxt k)) =? nxt (nxt k)))) live_list.
Lemma waiting_checked : waiting_ok = true.
Proof. vm_compute. reflexivity. Qed.
Lemma waiting k c i : at_ k c -> live k = true -> o_cyc c = true -> ack i = false -> seq_now c i = nxt k /\ nxt (nxt (nxt k)) = nxt (nxt k).
Proof.
  intros (A1 & A2 & A3 & A4) Li C A. unfold o_cyc in C. rewrite A1, A3, andb_true_r in C.
  pose proof waiting_checked as W. unfold waiting_ok in W. rewrite forallb_forall in W.
  assert (I : In k live_list) by (unfold live in Li; apply existsb_exists in Li; destruct Li as (k' & I & E); apply Z.eqb_eq in E; subst; exact I).
  specialize (W k I). rewrite C in W. cbn [negb orb] in W. apply andb_prop in W. destruct W as [W W3]. apply andb_prop in W. destruct W as [W1 W2]. apply Z.eqb_eq in W3.
  split; [|exact W3]. unfold seq_now, nxt, seq_adr, test_now, test_of. rewrite A1, A2, A4, A.
  destruct (u_jmp (rom k)); try discriminate; destruct (u_cond (rom k)); try discriminate; reflexivity.
Qed.
Definition pending (c : state) (x : tb) : Prop :=
  o_cyc c = true /\ tb_ack x = false /\ (0 <=? o_adr c) && (o_adr c <? Z.of_nat (length words)) = false /\ waits_for x c = false /\ tb_host x <> HostDone.
Lemma pending_stays t c x : go t = inl (c, x) -> pending c x -> forall n c' x', go (t + n)%nat = inl (c', x') -> pending c' x'.
Proof.
  intros E P. induction n as [|n IH]; intros c' x' E'.
  - rewrite Nat.add_0_r in E'. rewrite E in E'. injection E' as <- <-. exact P.
  - rewrite Nat.add_succ_r in E'. destruct (go_before _ _ _ (t + n) E' ltac:(lia)) as (c0 & x0 & E0). destruct (IH _ _ E0) as (P1 & P2 & P3 & P4 & P5).
    pose proof (answered _ _ _ _ _ E0 E' P1 P2) as An. rewrite P3, P4 in An. cbn [orb] in An. destruct (held _ _ _ _ _ E0 E' P1 P2) as (H1 & H2 & H3). specialize (H3 An).
    assert (Ad : o_adr c' = o_adr c0) by (change (b_adr (cpu_bus c') = b_adr (cpu_bus c0)); congruence).
    repeat split; try assumption; unfold waits_for in *; rewrite ?Ad, ?H2, ?H3; assumption.
Qed.
Lemma pending_end t c x : go t = inl (c, x) -> pending c x -> forall n v, go (t + n)%nat = inr v -> v = StuckUcode /\ wd = true \/ v = TimedOut.
Proof.
  intros E P. induction n as [|n IH]; intros v E'; [rewrite Nat.add_0_r in E'; congruence|]. rewrite Nat.add_succ_r in E'.
  destruct (go (t + n)%nat) as [[c0 x0]|v0] eqn:E0.
  - destruct (pending_stays t c x E P n _ _ E0) as (_ & _ & _ & _ & Nd). destruct (go_end _ _ _ _ E0 E') as [(Q & W & _)|[(Q & _)|(_ & Q)]]; [left; auto|right; exact Q|congruence].
  - pose proof (go_stop _ _ E0 1) as Q. rewrite Nat.add_1_r in Q. apply IH. congruence.
Qed.
Lemma iter_S n f (k : Z) : Nat.iter (S n) f k = f (Nat.iter n f k).
Proof. reflexivity. Qed.
Lemma pending_stuck t c x : wd = true -> go t = inl (c, x) -> pending c x -> exists v, go (t + 104)%nat = inr v.
Proof.
  intros Hwd E P. destruct (go (t + 104)%nat) as [[c1 x1]|v] eqn:E1; [exfalso|eauto].
  assert (Mi : forall u, (t <= u <= t + 104)%nat -> o_cyc (run s inp u) = true /\ ack (inp u) = false).
  { intros u Hu. destruct (go_before _ _ _ u E1 ltac:(lia)) as (c0 & x0 & E0). replace u with (t + (u - t))%nat in E0 by lia.
    destruct (pending_stays t c x E P _ _ _ E0) as (P1 & P2 & _). replace (t + (u - t))%nat with u in E0 by lia. rewrite <- (go_core u c0 x0 E0), (go_inp u c0 x0 E0). auto. }
  (* the microaddress settles *)
  destruct (micro t) as (k & At & Li & _).
  assert (Sq : forall j, (j <= 103)%nat -> exists k', at_ k' (run s inp (S t + j)) /\ live k' = true /\ k' = Nat.iter j nxt k /\ seq_now (run s inp (S t + j)) (inp (S t + j)%nat) = nxt k').
  { induction j as [|j IH]; intros Hj.
    - rewrite Nat.add_0_r. destruct (Mi (S t) ltac:(lia)) as [M1 M2]. exists k. split; [exact At|]. split; [exact Li|]. split; [reflexivity|]. apply (waiting k _ _ At Li M1 M2).
    - destruct IH as (k' & A' & L' & K' & S'); [lia|]. destruct (micro (S t + j)) as (k2 & A2 & L2 & S2). rewrite <- Nat.add_succ_r in A2.
      destruct (Mi (S t + S j)%nat ltac:(lia)) as [M1 M2]. exists k2. split; [exact A2|]. split; [exact L2|]. split; [rewrite iter_S, <- K'; congruence|]. apply (waiting k2 _ _ A2 L2 M1 M2). }
  assert (Fix3 : nxt (nxt (nxt k)) = nxt (nxt k)). { destruct (Mi (S t) ltac:(lia)) as [M1 M2]. apply (waiting k _ _ At Li M1 M2). }
  set (z := nxt (nxt k)) in *.
  assert (It : forall j, Nat.iter (2 + j) nxt k = z) by (induction j as [|j IH]; [reflexivity|]; rewrite Nat.add_succ_r, iter_S, IH; exact Fix3).
  assert (Sz : forall u, (t + 2 <= u <= t + 104)%nat -> seq_now (run s inp u) (inp u) = z).
  { intros u Hu. destruct (Sq (u - t - 1)%nat ltac:(lia)) as (k' & _ & _ & K' & S'). replace (S t + (u - t - 1))%nat with u in S' by lia. rewrite S', K', <- iter_S.
    replace (S (u - t - 1)) with (2 + (u - t - 2))%nat by lia. apply It. }
  assert (Cn : forall j c0 x0, (j <= 101)%nat -> go (t + 3 + j)%nat = inl (c0, x0) -> tb_prev x0 = z /\ Z.of_nat j <= tb_count x0).
  { induction j as [|j IH]; intros c0 x0 Hj E0.
    - rewrite Nat.add_0_r in E0. destruct (count_run _ _ _ E0) as [L R]. rewrite <- (R (t + 2)%nat) by lia. split; [apply Sz; lia|lia].
    - rewrite Nat.add_succ_r in E0. destruct (go_before _ _ _ (t + 3 + j) E0 ltac:(lia)) as (c2 & x2 & E2). destruct (IH c2 x2 ltac:(lia) E2) as [I1 I2].
      destruct (go_S _ _ _ E0) as (c3 & x3 & l & wait & a & rd & h & sets & val & E3 & _ & _ & _ & _ & _ & _ & _ & _ & _ & _ & _ & _ & F1 & F2 & _).
      rewrite E2 in E3. injection E3 as <- <-. assert (Q : seq_now c2 (tb_input x2 (iw (t + 3 + j)%nat)) = z).
      { rewrite <- (go_inp _ _ _ E2), (go_core _ _ _ E2). apply Sz. lia. }
      rewrite Q in F1, F2. rewrite I1, Z.eqb_refl in F2. split; [exact F1|lia]. }
  assert (E1' : go (t + 3 + 101)%nat = inl (c1, x1)) by (replace (t + 3 + 101)%nat with (t + 104)%nat by lia; exact E1).
  destruct (Cn 101%nat _ _ ltac:(lia) E1') as [_ Q].
  replace (t + 104)%nat with (S (t + 103)) in E1 by lia.
  destruct (go_S _ _ _ E1) as (c3 & x3 & l & wait & a & rd & h & sets & val & _ & _ & _ & _ & _ & _ & _ & _ & _ & _ & _ & _ & _ & _ & _ & F). destruct (F Hwd). lia.
Qed.
Lemma go_ends t : 65536 <= Z.of_nat t -> exists v, go t = inr v.
Proof.
  intros L. destruct (go t) as [[c x]|v] eqn:E; [exfalso|eauto]. destruct (go_before _ _ _ (S (t - 1)) E ltac:(lia)) as (c' & x' & E').
  destruct (go_S _ _ _ E') as (c0 & x0 & l & wait & a & rd & h & sets & val & E0 & _ & _ & _ & B & _). pose proof (go_i _ _ _ E0). lia.
Qed.
End P.

(** ** Theorems *)
(** The harness is a bus the core's guarantees cover, whatever the program. *)
Theorem C72_bus : forall wd iw s words, fresh s -> Forall word words ->
  bus_ok s (sim_inp wd iw s words) /\
  forall t c x, sim_run wd 0 iw s words t = inl (c, x) -> c = run s (sim_inp wd iw s words) t.
Proof. intros wd iw s words F W. split; [apply sim_bus_ok; assumption|]. apply go_core. Qed.

(** Core and memory process together are the ISA machine with a flat memory, initially the list. *)
Theorem C72_flat_memory : forall wd iw s words, fresh s -> Forall word words -> 4 * Z.of_nat (length words) <= 0x4000000 ->
  let inp := sim_inp wd iw s words in
  forall t c x w, sim_run wd 0 iw s words t = inl (c, x) -> fetch_done s inp t w ->
  let (a, m) := flat_at (fun a => a) s inp (fun z => byte (nth (Z.to_nat (z / 4)) words 0) (z mod 4)) t in
  w = peek (fun a => a) m (pc a) 4 /\
  (forall z, 0 <= z < 4 * Z.of_nat (length words) -> m z = byte (nth (Z.to_nat (z / 4)) (tb_words x) 0) (z mod 4)) /\
  let y := run s inp (S t) in
  (forall r, 0 <= r < 32 -> x_of y r = rd_x a r) /\ pc_of y = pc a /\
  mie_of y = mie a /\ mpie_of y = mpie a /\ meie_of y = meie a /\
  mtvec_of y = mtvec a /\ mscratch_of y = mscratch a /\ mepc_of y = mepc a /\ mcause_of y = mcause a.
Proof.
  intros wd iw s words F W L inp t c x w E D. assert (L' : Z.of_nat (length words) <= tohost) by (change tohost with 16777216; lia).
  pose proof (C33_flat_memory (fun a => a) s inp (mem0_byte words) (K wd iw s words F W) (sim_memory_slave wd iw s words F W L') t w D) as P.
  change (fun z => byte (nth (Z.to_nat (z / 4)) words 0) (z mod 4)) with (mem0_byte words).
  destruct (flat_at _ _ _ _ _) as [a m]. destruct P as (P1 & P2 & P3). split; [exact P1|]. split; [|exact P3].
  intros z Hz. rewrite P2. destruct (strong_all wd iw s words F W L' t c x E) as [_ _ _ _ I]. specialize (I z Hz).
  destruct D as (C & U & A & _). pose proof (fetch_iff s inp (K wd iw s words F W) t C) as Fi.
  assert (We : o_we (run s inp t) = false).
  { destruct (C10_signals_well_formed s inp (K wd iw s words F W)) as (_ & _ & X & _).
    destruct (machine s inp t) as [b|r q] eqn:M; [apply (X t b C M)|]. congruence. }
  rewrite (go_core wd iw s words t c x E) in I. fold inp in I. rewrite We, andb_false_r in I. symmetry. exact I.
Qed.

(** What the host returns is the 64-bit number at 0x4000000 of that machine's memory, the test passes
    iff the program stored 1 (and 0 in the upper half), and the list is that machine's memory. *)
Theorem C72_verdict : forall wd iw s words, fresh s -> Forall word words -> 4 * Z.of_nat (length words) <= 0x4000000 ->
  forall t c x v, sim_run wd 0 iw s words t = inl (c, x) -> sim_run wd 0 iw s words (S t) = inr (Returned v) ->
  let (a, m) := flat_at (fun a => a) s (sim_inp wd iw s words) (fun z => byte (nth (Z.to_nat (z / 4)) words 0) (z mod 4)) t in
  v = peek (fun a => a) m 0x4000000 8 /\
  (passes (Returned v) <-> peek (fun a => a) m 0x4000000 4 = 1 /\ peek (fun a => a) m 0x4000004 4 = 0) /\
  (forall z, 0 <= z < 4 * Z.of_nat (length words) -> m z = byte (nth (Z.to_nat (z / 4)) (tb_words x) 0) (z mod 4)) /\
  length (tb_words x) = length words /\ word (peek (fun a => a) m 0x4000000 4) /\ word (peek (fun a => a) m 0x4000004 4).
Proof.
  intros wd iw s words F W L t c x v E E'. assert (L' : Z.of_nat (length words) <= tohost) by (change tohost with 16777216; lia).
  set (inp := sim_inp wd iw s words). change (fun z => byte (nth (Z.to_nat (z / 4)) words 0) (z mod 4)) with (mem0_byte words).
  pose proof (K wd iw s words F W) as Kk. fold inp in Kk.
  destruct (go_end wd iw s words F W t c x _ E E') as [(Q & _)|[(Q & _)|(Q & D)]]; try discriminate. injection Q as ->.
  pose proof (heard_all wd iw s words F W L' t c x E) as H. unfold heard in H. rewrite D in H. destruct H as (H1 & H2 & H3).
  (* the tick before *)
  destruct t as [|t]; [injection E as <- <-; discriminate D|].
  destruct (go_S wd iw s words t c x E) as (c0 & x0 & l & wait & a0 & rd & h & sets & val & E0 & _ & Eh & Nd & _ & _ & _ & Ew & Ea & _ & Eh' & _).
  pose proof (strong_all wd iw s words F W L' t c0 x0 E0) as [I1 _ _ I4 _].
  assert (Sa : tb_host x0 = SecondAck). { rewrite Eh' in D. subst h. destruct (tb_host x0); cbn [host_tick] in Eh; try destruct (word_store _ _); try congruence. }
  destruct (I4 Sa) as (C1 & C2 & _ & _). rewrite Sa in I1. cbn [acking] in I1. rewrite orb_true_r in I1.
  pose proof (go_core wd iw s words t c0 x0 E0) as Rc. fold inp in Rc.
  assert (A0 : ack (inp t) = true) by (unfold inp; rewrite (go_inp wd iw s words t c0 x0 E0); exact I1). rewrite Rc in C1, C2.
  assert (Mf : exists a, machine s inp (S t) = Fetching a).
  { rewrite (machine_ack s inp t C1 A0). pose proof (fetch_iff s inp Kk t C1) as Fi.
    destruct (C10_signals_well_formed s inp Kk) as (_ & _ & X & _). destruct (machine s inp t) as [b|r q] eqn:M; [|cbn [complete]; eauto].
    assert (Y : o_we (run s inp t) = false) by apply (X t b C1 M). congruence. }
  destruct Mf as [am Mf]. pose proof (tracks_all (fun a => a) s inp (mem0_byte words) Kk (sim_memory_slave wd iw s words F W L') (S t)) as T. unfold tracks in T. rewrite Mf in T.
  destruct (flat_at _ _ _ _ _) as [a m]. destruct T as [_ T]. change (slave_mem (fun a => a) s inp (mem0_byte words) (S t)) with (flat wd iw s words (S t)) in T.
  assert (Pe : forall b n, peek (fun a => a) m b n = peek (fun a => a) (flat wd iw s words (S t)) b n) by (intros; apply peek_ext; exact T).
  rewrite !Pe. split; [exact H1|]. split; [|split; [|split; [apply (weak_all wd iw s words W (S t) c x E)|split; assumption]]].
  - rewrite peek_8 in H1. change (0x4000000 + 4) with 0x4000004 in H1. unfold word in *. split.
    + intros (val' & Q & P1 & P2). injection Q as <-. rewrite Z.shiftr_div_pow2 in P1 by lia. change (Z.land (tb_val x) (Z.ones 1) = 1) in P2. rewrite Z.land_ones in P2 by lia.
      change (2 ^ 1) with 2 in *. pose proof (Z.div_mod (tb_val x) 2 ltac:(lia)). lia.
    + intros [Q1 Q2]. exists (tb_val x). split; [reflexivity|]. assert (V : tb_val x = 1) by lia. rewrite V. split; reflexivity.
  - intros z Hz. rewrite T. destruct (strong_all wd iw s words F W L' (S t) c x E) as [I1' I2' _ _ I]. specialize (I z Hz).
    assert (Cd : o_cyc c = false). { rewrite (go_core wd iw s words (S t) c x E). apply (C06_drop_after_ack s inp Kk t C1 A0). }
    rewrite Cd in I. cbn [andb] in I. symmetry. exact I.
Qed.

(** Every simulation ends, after at most 65536 ticks: the host returns, or the watchdog says stuck, or (then only
    in tick 65536) the host times out.  The watchdog never says panic and the memory never raises. *)
Theorem C72_ends : forall wd iw s words, fresh s -> Forall word words ->
  exists t c x v, Z.of_nat t < 65536 /\ sim_run wd 0 iw s words t = inl (c, x) /\ sim_run wd 0 iw s words (S t) = inr v /\
  ((exists val, v = Returned val) \/ (wd = true /\ v = StuckUcode) \/ (v = TimedOut /\ Z.of_nat t = 65535)).
Proof.
  intros wd iw s words F W. destruct (go_ends wd iw s words (Z.to_nat 65536) ltac:(lia)) as [v E].
  assert (H : forall n v, sim_run wd 0 iw s words n = inr v -> exists t c x, (S t <= n)%nat /\ sim_run wd 0 iw s words t = inl (c, x) /\ sim_run wd 0 iw s words (S t) = inr v).
  { induction n as [|n IH]; intros v0 E0; [discriminate|]. destruct (sim_run wd 0 iw s words n) as [[c x]|v1] eqn:En.
    - exists n, c, x. auto.
    - destruct (IH v1 eq_refl) as (t & c & x & L & E1 & E2). exists t, c, x. pose proof (go_stop wd iw s words n v1 En 1) as Q. rewrite Nat.add_1_r in Q.
      split; [lia|]. split; [exact E1|]. congruence. }
  destruct (H _ _ E) as (t & c & x & Lt & E1 & E2). exists t, c, x, v. split; [lia|]. split; [exact E1|]. split; [exact E2|].
  pose proof (go_i wd iw s words t c x E1) as Ti.
  destruct (go_end wd iw s words F W t c x v E1 E2) as [(Q & Q2 & _)|[(Q & Q2)|(Q & _)]]; [right; left; auto|right; right; split; [exact Q|lia]|left; eauto].
Qed.

(** No false alarms: the watchdog says stuck only if the core has been waiting for an access that neither the
    memory nor the host in its present state answers, in each of the last hundred cycles. *)
Theorem C72_watchdog : forall wd iw s words, fresh s -> Forall word words -> 4 * Z.of_nat (length words) <= 0x4000000 ->
  forall t c x, sim_run wd 0 iw s words t = inl (c, x) -> sim_run wd 0 iw s words (S t) = inr StuckUcode ->
  (99 <= t)%nat /\ (forall u, (t - 99 <= u <= t)%nat -> o_cyc (run s (sim_inp wd iw s words) u) = true /\ ack (sim_inp wd iw s words u) = false) /\
  ~ (0 <= 4 * o_adr c < 4 * Z.of_nat (length words)) /\
  ~ (tb_host x = WaitFirst /\ o_we c = true /\ o_sel c = 15 /\ 4 * o_adr c = 0x4000000) /\
  ~ (tb_host x = WaitSecond /\ o_we c = true /\ o_sel c = 15 /\ 4 * o_adr c = 0x4000004).
Proof.
  intros wd iw s words F W L t c x E E'. assert (L' : Z.of_nat (length words) <= tohost) by (change tohost with 16777216; lia).
  destruct (go_end wd iw s words F W t c x _ E E') as [(_ & Q & P & Cn)|[(Q & _)|(Q & _)]]; try discriminate.
  destruct (stuck_pending wd iw s words F W t c x E P Cn) as [Lt H]. split; [exact Lt|]. split; [exact H|].
  destruct t as [|t]; [lia|]. destruct (go_before wd iw s words _ _ _ t E ltac:(lia)) as (c0 & x0 & E0).
  destruct (H t ltac:(lia)) as [C0 A0]. destruct (H (S t) ltac:(lia)) as [C1 A1].
  rewrite <- (go_core wd iw s words t c0 x0 E0) in C0. rewrite (go_inp wd iw s words t c0 x0 E0) in A0. rewrite (go_inp wd iw s words (S t) c x E) in A1. cbn [tb_input ack] in A0, A1.
  pose proof (answered wd iw s words F W L' t c0 x0 c x E0 E C0 A0) as An. destruct (held wd iw s words F W L' t c0 x0 c x E0 E C0 A0) as (_ & B & Hh). specialize (Hh A1).
  rewrite A1 in An. symmetry in An. apply orb_false_iff in An. destruct An as [R Wf].
  assert (Ad : o_adr c = o_adr c0) by (change (b_adr (cpu_bus c) = b_adr (cpu_bus c0)); congruence).
  assert (St : o_stb c = true). { rewrite C10_stb_is_cyc, (go_core wd iw s words (S t) c x E). exact C1. }
  assert (Cc : o_cyc c = true) by (rewrite <- C10_stb_is_cyc; exact St).
  unfold waits_for in Wf. rewrite <- B, <- Hh in Wf. rewrite <- Ad in R.
  split; [|split].
  - intros Hr. replace (0 <=? o_adr c) with true in R by (symmetry; apply Z.leb_le; lia). cbn [andb] in R. apply Z.ltb_ge in R. lia.
  - intros (Q1 & Q2 & Q3 & Q4). rewrite Q1 in Wf. unfold word_store in Wf. cbn [cpu_bus b_adr b_sel b_cyc b_stb b_we] in Wf. rewrite Q2, Q3, St, Cc in Wf.
    replace (o_adr c =? tohost) with true in Wf by (symmetry; apply Z.eqb_eq; change tohost with 16777216; lia). discriminate.
  - intros (Q1 & Q2 & Q3 & Q4). rewrite Q1 in Wf. unfold word_store in Wf. cbn [cpu_bus b_adr b_sel b_cyc b_stb b_we] in Wf. rewrite Q2, Q3, St, Cc in Wf.
    replace (o_adr c =? tohost + 1) with true in Wf by (symmetry; apply Z.eqb_eq; change tohost with 16777216; lia). discriminate.
Qed.

(** Conversely such an access is fatal: the test cannot pass any more, and with the watchdog it ends within
    104 ticks. *)
Theorem C72_unanswered : forall wd iw s words, fresh s -> Forall word words -> 4 * Z.of_nat (length words) <= 0x4000000 ->
  forall t c x, sim_run wd 0 iw s words t = inl (c, x) -> o_cyc c = true -> tb_ack x = false -> tb_host x <> HostDone ->
  ~ (0 <= 4 * o_adr c < 4 * Z.of_nat (length words)) ->
  ~ (tb_host x = WaitFirst /\ o_we c = true /\ o_sel c = 15 /\ 4 * o_adr c = 0x4000000) ->
  ~ (tb_host x = WaitSecond /\ o_we c = true /\ o_sel c = 15 /\ 4 * o_adr c = 0x4000004) ->
  (forall n v, sim_run wd 0 iw s words (t + n) = inr v -> v = StuckUcode /\ wd = true \/ v = TimedOut) /\
  (wd = true -> exists v, sim_run wd 0 iw s words (t + 104) = inr v).
Proof.
  intros wd iw s words F W L t c x E C A Nd N1 N2 N3. assert (L' : Z.of_nat (length words) <= tohost) by (change tohost with 16777216; lia).
  assert (P : pending words c x).
  { repeat split; try assumption.
    - destruct (Z.leb_spec 0 (o_adr c)); [|reflexivity]. destruct (Z.ltb_spec (o_adr c) (Z.of_nat (length words))); [lia|reflexivity].
    - unfold waits_for. destruct (tb_host x) eqn:Hh; try reflexivity;
      (destruct (word_store _ _) eqn:Ws; [exfalso|reflexivity]; unfold word_store in Ws; repeat (apply andb_prop in Ws; destruct Ws as [Ws ?]); cbn [cpu_bus b_adr b_sel b_we] in *;
       repeat match goal with H : (_ =? _) = true |- _ => apply Z.eqb_eq in H end; change tohost with 16777216 in *; first [apply N2; repeat split; first [assumption|reflexivity|lia]|apply N3; repeat split; first [assumption|reflexivity|lia]]). }
  split; [apply (pending_end wd iw s words F W L' t c x E P)|]. intros Hwd. apply (pending_stuck wd iw s words F W L' t c x Hwd E P).
Qed.

(** *** The signature *)
Lemma lor_shift x y n : 0 <= n -> 0 <= x < 2 ^ n -> Z.lor x (Z.shiftl y n) = x + 2 ^ n * y.
Proof.
  intros Hn Hx. rewrite Z.shiftl_mul_pow2 by lia. rewrite (Z.mul_comm y).
  assert (L : Z.land x (2 ^ n * y) = 0).
  { apply Z.bits_inj'. intros j Hj. rewrite Z.land_spec, Z.bits_0, (Z.mul_comm (2 ^ n)), Z.mul_pow2_bits by lia.
    destruct (Z.lt_ge_cases j n); [rewrite (Z.testbit_neg_r _ (j - n)) by lia; apply andb_false_r|]. replace x with (x mod 2 ^ n) by (apply Z.mod_small; lia).
    rewrite Z.mod_pow2_bits_high by lia. reflexivity. }
  rewrite <- Z.lxor_lor, <- Z.add_nocarry_lxor by exact L. reflexivity.
Qed.
Lemma bytes_nth l : forall i, nth_error (flat_map to_bytes l) i = if Nat.ltb i (4 * length l) then Some (byte (nth (i / 4) l 0) (Z.of_nat (i mod 4))) else None.
Proof.
  induction l as [|w l IH]; intros i; [destruct i; reflexivity|]. cbn [flat_map length]. unfold to_bytes at 1.
  destruct i as [|[|[|[|i]]]].
  1-4: rewrite (proj2 (Nat.ltb_lt _ _)) by lia; cbn [app nth_error]; unfold byte, fld.
  - change (2 ^ (8 * Z.of_nat (0 mod 4))) with 1. rewrite Z.div_1_r. reflexivity.
  - reflexivity.
  - reflexivity.
  - reflexivity.
  - cbn [app nth_error]. rewrite IH. replace (S (S (S (S i)))) with (i + 1 * 4)%nat by lia. rewrite Nat.div_add, Nat.mod_add by lia. rewrite Nat.add_1_r. cbn [nth].
    destruct (Nat.ltb_spec i (4 * length l)), (Nat.ltb_spec (i + 1 * 4) (4 * S (length l))); try lia; reflexivity.
Qed.
Lemma byte_range x i : 0 <= byte x i < 256.
Proof. unfold byte, fld. apply Z.mod_pos_bound. lia. Qed.
Lemma sig_word_spec l i : sig_word (flat_map to_bytes l) i =
  if Nat.leb (i + 4) (4 * length l) then Some (peek (fun a => a) (fun z => byte (nth (Z.to_nat (z / 4)) l 0) (z mod 4)) (Z.of_nat i) 4) else None.
Proof.
  unfold sig_word. rewrite !bytes_nth.
  destruct (Nat.leb_spec (i + 4) (4 * length l)) as [L|L].
  - rewrite !(proj2 (Nat.ltb_lt _ _)) by lia. f_equal.
    assert (Q : forall j, (j < 4)%nat -> byte (nth ((i + j) / 4) l 0) (Z.of_nat ((i + j) mod 4)) = byte (nth (Z.to_nat ((Z.of_nat i + Z.of_nat j) / 4)) l 0) ((Z.of_nat i + Z.of_nat j) mod 4)).
    { intros j _. rewrite <- Nat2Z.inj_add. change 4 with (Z.of_nat 4). rewrite <- Nat2Z.inj_div, <- Nat2Z.inj_mod, Nat2Z.id. reflexivity. }
    rewrite !peek_S. cbn [peek]. rewrite (Q 1%nat), (Q 2%nat), (Q 3%nat) by lia. pose proof (Q 0%nat ltac:(lia)) as Q0. rewrite Nat.add_0_r, Z.add_0_r in Q0. rewrite Q0.
    replace (Z.of_nat i + 1 + 1) with (Z.of_nat i + Z.of_nat 2) by lia. replace (Z.of_nat i + Z.of_nat 2 + 1) with (Z.of_nat i + Z.of_nat 3) by lia. change (Z.of_nat 1) with 1.
    repeat match goal with |- context[byte ?x ?y] => let B := fresh in let b := fresh "b" in pose proof (byte_range x y) as B; set (b := byte x y) in *; clearbody b end.
    rewrite Z.lor_0_l. rewrite (lor_shift _ _ 8) by lia. rewrite (lor_shift _ _ 16) by lia. rewrite (lor_shift _ _ 24) by lia. lia.
  - repeat match goal with |- context[Nat.ltb ?a ?b] => destruct (Nat.ltb_spec a b); try reflexivity end. lia.
Qed.
Lemma sig_lines_spec l b n : sig_lines (flat_map to_bytes l) (map (fun k => (b + 4 * k)%nat) (seq 0 n)) =
  if Nat.eqb n 0 || Nat.leb (b + 4 * n) (4 * length l)
  then Some (map (fun k => peek (fun a => a) (fun z => byte (nth (Z.to_nat (z / 4)) l 0) (z mod 4)) (Z.of_nat b + 4 * Z.of_nat k) 4) (seq 0 n)) else None.
Proof.
  assert (G : forall n k0, sig_lines (flat_map to_bytes l) (map (fun k => (b + 4 * k)%nat) (seq k0 n)) =
    if Nat.eqb n 0 || Nat.leb (b + 4 * (k0 + n)) (4 * length l)
    then Some (map (fun k => peek (fun a => a) (fun z => byte (nth (Z.to_nat (z / 4)) l 0) (z mod 4)) (Z.of_nat b + 4 * Z.of_nat k) 4) (seq k0 n)) else None).
  { clear n. induction n as [|n IH]; intros k0; [reflexivity|]. cbn [seq map sig_lines]. rewrite sig_word_spec, IH. cbn [Nat.eqb orb].
    replace (Z.of_nat (b + 4 * k0)) with (Z.of_nat b + 4 * Z.of_nat k0) by lia.
    destruct (Nat.leb_spec (b + 4 * (k0 + S n)) (4 * length l)) as [L|L].
    - replace (Nat.leb (b + 4 * k0 + 4) (4 * length l)) with true by (symmetry; apply Nat.leb_le; lia).
      replace (Nat.leb (b + 4 * (S k0 + n)) (4 * length l)) with true by (symmetry; apply Nat.leb_le; lia). rewrite orb_true_r. reflexivity.
    - destruct n as [|n].
      + replace (Nat.leb (b + 4 * k0 + 4) (4 * length l)) with false by (symmetry; apply Nat.leb_gt; lia). reflexivity.
      + replace (Nat.leb (b + 4 * (S k0 + S n)) (4 * length l)) with false by (symmetry; apply Nat.leb_gt; lia). cbn [Nat.eqb orb]. destruct (Nat.leb _ _); reflexivity. }
  apply (G n 0%nat).
Qed.
(** C72: the riscof signature is the machine's memory from the first to the second address stored, one word per
    four bytes (the last one complete), if that lies in the memory; otherwise the dump raises. *)
Theorem C72_signature : forall wd iw s words, fresh s -> Forall word words -> 4 * Z.of_nat (length words) <= 0x4000000 ->
  forall t c x v, sim_run wd 0 iw s words t = inl (c, x) -> sim_run wd 0 iw s words (S t) = inr (Returned v) ->
  let (a, m) := flat_at (fun a => a) s (sim_inp wd iw s words) (fun z => byte (nth (Z.to_nat (z / 4)) words 0) (z mod 4)) t in
  let first := peek (fun a => a) m 0x4000000 4 in let last := peek (fun a => a) m 0x4000004 4 in let n := Z.to_nat ((last - first + 3) / 4) in
  signature (tb_words x) v =
  if (last <=? first) || (first + 4 * Z.of_nat n <=? 4 * Z.of_nat (length words))
  then Some (map (fun k => peek (fun a => a) m (first + 4 * Z.of_nat k) 4) (seq 0 n)) else None.
Proof.
  intros wd iw s words F W L t c x v E E'. pose proof (C72_verdict wd iw s words F W L t c x v E E') as V.
  destruct (flat_at _ _ _ _ _) as [a m]. destruct V as (V1 & _ & V2 & V3 & V4 & V5). intros first last n. fold first in V4. fold last in V5. unfold word in V4, V5.
  rewrite peek_8 in V1. change (0x4000000 + 4) with 0x4000004 in V1. fold first last in V1.
  unfold signature, sig_range.
  assert (B : Z.land v 0xffffffff = first).
  { change 0xffffffff with (Z.ones 32). rewrite Z.land_ones by lia. rewrite V1. rewrite (Z.mul_comm (2 ^ 32)), Z.mod_add by lia. apply Z.mod_small. exact V4. }
  assert (En : Z.land (Z.shiftr v 32) 0xffffffff = last).
  { change 0xffffffff with (Z.ones 32). rewrite Z.land_ones, Z.shiftr_div_pow2 by lia. rewrite V1. rewrite (Z.mul_comm (2 ^ 32)), Z.div_add, Z.div_small by lia. apply Z.mod_small. exact V5. }
  rewrite B, En. fold n. rewrite sig_lines_spec, V3.
  assert (N0 : (n =? 0)%nat = (last <=? first)).
  { unfold n. destruct (Z.leb_spec last first) as [Q|Q].
    - apply Nat.eqb_eq. assert ((last - first + 3) / 4 <= 0) by (assert ((last - first + 3) / 4 < 1) by (apply Z.div_lt_upper_bound; lia); lia). lia.
    - apply Nat.eqb_neq. assert (1 <= (last - first + 3) / 4) by (apply Z.div_le_lower_bound; lia). lia. }
  assert (N1 : Nat.leb (Z.to_nat first + 4 * n) (4 * length words) = (first + 4 * Z.of_nat n <=? 4 * Z.of_nat (length words))).
  { destruct (Z.leb_spec (first + 4 * Z.of_nat n) (4 * Z.of_nat (length words))); [apply Nat.leb_le|apply Nat.leb_gt]; lia. }
  rewrite N0, N1. destruct ((last <=? first) || _) eqn:Q; [|reflexivity]. f_equal. apply map_ext_in. intros k Hk. apply in_seq in Hk.
  rewrite Z2Nat.id by lia. apply peek_same. intros i Hi. symmetry. apply V2.
  apply orb_prop in Q. destruct Q as [Q|Q]; [rewrite <- N0 in Q; apply Nat.eqb_eq in Q; lia|]. apply Z.leb_le in Q. lia.
Qed.

(** C72: the memory process is not a memory when it does not start at 0: a store goes to the word [start] words
    after the one a load reads, or raises.  (No test uses such a memory.) *)
Theorem C72_start_refuted :
  exists start l b, start <= b_adr b < start + Z.of_nat (length l) /\ b_cyc b = true /\ b_stb b = true /\ b_we b = true /\ b_sel b = 15 /\
    exists l' r, mem_tick start b l false false 0 = Some (l', true, true, r) /\
      mem_tick start {| b_cyc := true; b_stb := true; b_we := false; b_adr := b_adr b; b_sel := 15; b_dat_w := 0 |} l' false false 0 = Some (l', true, true, 0) /\ b_dat_w b <> 0 /\
  exists b2, start <= b_adr b2 < start + Z.of_nat (length l) /\ mem_tick start b2 l false false 0 = None.
Proof.
  exists 2, [0; 0; 0; 0], {| b_cyc := true; b_stb := true; b_we := true; b_adr := 3; b_sel := 15; b_dat_w := 7 |}.
  split; [cbn; lia|]. do 4 (split; [reflexivity|]). exists [0; 0; 0; 7], 0. split; [reflexivity|]. split; [reflexivity|]. split; [discriminate|].
  exists {| b_cyc := true; b_stb := true; b_we := true; b_adr := 5; b_sel := 15; b_dat_w := 7 |}. split; [cbn; lia|reflexivity].
Qed.

(** ** Examples *)
(** li x1, 1; lui x2, 0x4000; sw x1, 0(x2); sw x0, 4(x2); j .  returns 1; with li x1, 3 the test fails;
    lui x2, 0x4000; lw x3, 0(x2): the host does not answer loads and the watchdog ends the test;
    li x1, 0; lui x2, 0x4000; sw x1; li x1, 8; sw x1, 4(x2): dumps two words. *)
Definition ex_pass : list Z := [0x00100093; 0x04000137; 0x00112023; 0x00012223; 0x0000006f].
Definition ex_fail : list Z := [0x00300093; 0x04000137; 0x00112023; 0x00012223; 0x0000006f].
Definition ex_load : list Z := [0x04000137; 0x00012183].
Definition ex_dump : list Z := [0x00000093; 0x04000137; 0x00112023; 0x00800093; 0x00112223; 0x0000006f].
(** The tick in which a simulation ends, and how. *)
Fixpoint ends (wd : bool) (c : state) (x : tb) (n t : nat) : option (nat * tb * verdict) :=
  match n with
  | O => None
  | S n' => match tick wd 0 c x false with inl (c', x') => ends wd c' x' n' (S t) | inr v => Some (t, x, v) end
  end.
Lemma ends_run wd words n : forall t c x t' x' v, sim_run wd 0 (fun _ => false) por words t = inl (c, x) -> ends wd c x n t = Some (t', x', v) ->
  exists c', sim_run wd 0 (fun _ => false) por words t' = inl (c', x') /\ sim_run wd 0 (fun _ => false) por words (S t') = inr v.
Proof.
  induction n as [|n IH]; intros t c x t' x' v E H; [discriminate|]. cbn [ends] in H.
  assert (Q : sim_run wd 0 (fun _ => false) por words (S t) = tick wd 0 c x false) by (cbn [sim_run]; rewrite E; reflexivity).
  destruct (tick wd 0 c x false) as [[c1 x1]|v1] eqn:T.
  - apply (IH (S t) c1 x1); assumption.
  - injection H as <- <- <-. exists c. split; assumption.
Qed.
Lemma words_ok l : forallb (fun w => (0 <=? w) && (w <? 2 ^ 32)) l = true -> Forall word l.
Proof.
  intros H. apply Forall_forall. intros w I. rewrite forallb_forall in H. specialize (H w I). apply andb_prop in H. destruct H as [H1 H2].
  apply Z.leb_le in H1. apply Z.ltb_lt in H2. unfold word. lia.
Qed.
Ltac ends_by n := match goal with |- exists t c x, sim_run ?wd 0 _ _ ?l t = _ /\ _ => let r := eval vm_compute in (ends wd por (tb0 l) n 0) in
  match r with Some (?t, ?x, ?v) => assert (E : ends wd por (tb0 l) n 0 = Some (t, x, v)) by (vm_compute; reflexivity);
    destruct (ends_run wd l n 0 por (tb0 l) t x v eq_refl E) as (c & E1 & E2); exists t, c, x; split; [exact E1|] end end.
Example C72_applies :
  (fresh por /\ Forall word ex_pass /\ Forall word ex_fail /\ Forall word ex_load /\ Forall word ex_dump) /\
  (exists t c x, sim_run true 0 (fun _ => false) por ex_pass t = inl (c, x) /\ sim_run true 0 (fun _ => false) por ex_pass (S t) = inr (Returned 1) /\ passes (Returned 1)) /\
  (exists t c x, sim_run true 0 (fun _ => false) por ex_fail t = inl (c, x) /\ sim_run true 0 (fun _ => false) por ex_fail (S t) = inr (Returned 3) /\ ~ passes (Returned 3)) /\
  (exists t c x, sim_run true 0 (fun _ => false) por ex_load t = inl (c, x) /\ sim_run true 0 (fun _ => false) por ex_load (S t) = inr StuckUcode) /\
  (exists t c x, sim_run false 0 (fun _ => false) por ex_dump t = inl (c, x) /\ sim_run false 0 (fun _ => false) por ex_dump (S t) = inr (Returned (8 * 2 ^ 32)) /\
     signature (tb_words x) (8 * 2 ^ 32) = Some [0x00000093; 0x04000137]).
Proof.
  split; [split; [exact por_fresh|repeat split; apply words_ok; reflexivity]|]. split; [|split; [|split]].
  - ends_by 200%nat. split; [exact E2|]. exists 1. repeat split.
  - ends_by 200%nat. split; [exact E2|]. intros (v & Q & P1 & P2). injection Q as <-. discriminate.
  - ends_by 300%nat. exact E2.
  - ends_by 200%nat. split; [exact E2|]. vm_compute. reflexivity.
Qed.
